(** Independent specification of row ends, used by the chunk/row theorems.
    Nothing here refers to blocks, masks or scanning loops. *)
From Verif Require Import Base.

(** Is there a line end at offset [i]?  An LF is one; a CR is one unless an LF
    follows it (then the LF of the pair is the line end). *)
Definition byte_is (data : bytes) (i : nat) (c : byte) : bool :=
  match nth_error data i with Some x => N.eqb x c | None => false end.

Definition line_end_at (data : bytes) (i : nat) : bool :=
  byte_is data i LF || (byte_is data i CR && negb (byte_is data (S i) LF)).

(** Number of quote characters strictly before offset [i]. *)
Definition quotes_before (q : byte) (data : bytes) (i : nat) : nat :=
  count_occ N.eq_dec (firstn i data) q.

(** Is offset [i] inside quotes, when the buffer starts inside quotes iff
    [start] holds?  Every quote character toggles. *)
Definition inside_at (start : bool) (q : byte) (data : bytes) (i : nat) : bool :=
  xorb start (Nat.odd (quotes_before q data i)).

(** The offsets of all row ends, in increasing order. *)
Definition row_ends (start : bool) (q : byte) (data : bytes) : list nat :=
  filter (fun i => line_end_at data i && negb (inside_at start q data i))
         (seq 0 (length data)).

Definition spec_row_count (start : bool) (q : byte) (data : bytes) : nat :=
  length (row_ends start q data).

(** Offset just past the last row end; 0 when there is none. *)
Definition spec_last_row_end (start : bool) (q : byte) (data : bytes) : nat :=
  match rev (row_ends start q data) with
  | [] => 0
  | i :: _ => S i
  end.

Definition spec_ends_inside (start : bool) (q : byte) (data : bytes) : bool :=
  inside_at start q data (length data).

(** Offset just past the first row end of the suffix that starts at [start]
    (quotes are counted from [start]); the buffer size when there is none. *)
Definition spec_find_row_end (q : byte) (data : bytes) (start : nat) : nat :=
  match row_ends false q (skipn start data) with
  | [] => length data
  | i :: _ => start + S i
  end.

(** A list of ranges tiles [a, b): consecutive, non-empty, from a to b. *)
Fixpoint tiles (a b : nat) (rs : list (nat * nat)) : Prop :=
  match rs with
  | [] => a = b
  | (s, e) :: r => s = a /\ s < e /\ e <= b /\ tiles e b r
  end.

(** The bytes of each range. *)
Definition pieces (data : bytes) (rs : list (nat * nat)) : list bytes :=
  map (fun '(s, e) => slice s e data) rs.

(** No boundary of the decomposition [cs] separates a CR from its LF. *)
Definition crlf_safe (cs : list bytes) : Prop :=
  forall a b, cs = a ++ b -> ~ (last (concat a) 0%N = CR /\ hd 0%N (concat b) = LF).

(** Rows of a piece: terminated rows, plus one for leftover bytes. *)
Definition piece_rows (q : byte) (l : bytes) : nat :=
  spec_row_count false q l + (if spec_last_row_end false q l <? length l then 1 else 0).
