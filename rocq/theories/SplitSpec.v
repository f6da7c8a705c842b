(** How a row is cut when, after a scan from the start of a field, the remaining
    delimiters of the block of 64 bytes that holds the field's end are taken as
    ends of the next fields without looking at these fields; a scan that begins at
    an unquoted field does not heed quotes.  Independent of masks and caches. *)
From Verif Require Import Base ChunkSpec FieldsSpec.

(** A delimiter at [i]; outside quotes, counted from the start of [l], if [heed]. *)
Definition stop_at (sep eol q : byte) (heed : bool) (l : bytes) (i : nat) : bool :=
  (byte_is l i sep || byte_is l i eol) && negb (heed && inside_at false q l i).
Definition next_stop (sep eol q : byte) (heed : bool) (l : bytes) : option nat :=
  find (stop_at sep eol q heed l) (seq 0 (length l)).

(** [w]: how many of the bytes of [l] were seen by the last scan, [heed]: whether it
    heeded quotes.  Fields and what follows the row, as in [raw_row]. *)
Fixpoint block_row (sep eol q : byte) (fuel w : nat) (heed : bool) (l : bytes) : list bytes * bytes :=
  match fuel with
  | O => ([l], [])
  | S f =>
      let cut w' h p :=
        if byte_is l p eol then ([firstn p l], skipn (S p) l)
        else (firstn p l :: fst (block_row sep eol q f w' h (skipn (S p) l)), snd (block_row sep eol q f w' h (skipn (S p) l))) in
      match next_stop sep eol q heed (firstn w l) with
      | Some p => cut (w - S p) heed p
      | None =>
          let h := starts_with q l in
          match next_stop sep eol q h l with
          | Some p => let e := 64 * (p / 64) + 64 in cut (if e <? length l then e - S p else 0) h p
          | None => ([l], [])
          end
      end
  end.
Definition split_in_blocks (sep eol q : byte) (data : bytes) : list bytes * bytes :=
  block_row sep eol q (S (length data)) 0 false data.

(** An even number of quote characters. *)
Definition balanced (q : byte) (f : bytes) : Prop := Nat.even (count_occ N.eq_dec f q) = true.
(** All fields that were ended by a delimiter of [data] (all but a last one that
    reaches the end of the data). *)
Definition delimited (sep : byte) (data : bytes) (fs : list bytes) : list bytes :=
  if length (join sep fs) <? length data then fs else removelast fs.
