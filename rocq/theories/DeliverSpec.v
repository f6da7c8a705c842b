(** Which rows the reader delivers, for every buffer: as [table_rows], but each row
    is cut as [split_in_blocks] says. *)
From Verif Require Import Base ChunkSpec FieldsSpec ReaderSpec SplitSpec.

Fixpoint delivered_upto (n : nat) (sep q : byte) (l : bytes) : list (list bytes) :=
  match n with
  | O => []
  | S n' =>
      match trim_left newline l with
      | [] => []
      | l' => fst (split_in_blocks sep LF q l') :: delivered_upto n' sep q (snd (split_in_blocks sep LF q l'))
      end
  end.
Definition delivered_rows (sep q : byte) (l : bytes) : list (list bytes) := delivered_upto (length l) sep q l.

(** The fields among them that were ended by a delimiter (all but, possibly, the very last). *)
Fixpoint ended_upto (n : nat) (sep q : byte) (l : bytes) : list bytes :=
  match n with
  | O => []
  | S n' =>
      match trim_left newline l with
      | [] => []
      | l' => delimited sep l' (fst (split_in_blocks sep LF q l')) ++ ended_upto n' sep q (snd (split_in_blocks sep LF q l'))
      end
  end.
Definition ended_fields (sep q : byte) (l : bytes) : list bytes := ended_upto (length l) sep q l.

(** Columns of given rows. *)
Definition columns_of {V} (conv : nat -> bytes -> option V) (spellings : bytes) (q : byte) (ncols : nat) (rows : list (list bytes))
  : list (list (option V)) :=
  map (fun k => map (fun row => row_cell conv spellings q row k) rows) (seq 0 ncols).

(** The pieces of [data] that are read by themselves: all that follows the header if
    that is short or the file was not divided, otherwise of every range the part
    whose rows begin in it. *)
Definition file_parts (q : byte) (threshold : nat) (data : bytes) (header_end : nat) (ranges : list (nat * nat)) : list bytes :=
  let body := skipn header_end data in
  if (length body <? threshold) || (length ranges <=? 1) then [body]
  else map (fun r => own_part q (inside_at false q body (fst r - header_end)) (slice (fst r) (snd r) data)) ranges.
(** The rows delivered of all pieces, in order. *)
Definition rows_of_parts (sep q : byte) (ps : list bytes) : list (list bytes) := concat (map (delivered_rows sep q) ps).
