(** Independent specification of reading a table: which rows a buffer holds and
    which cell each raw field denotes.  No chunks, columns builders or iterators. *)
From Verif Require Import Base ChunkSpec FieldsSpec.

(** The raw rows of a buffer: blank lines are skipped, a row extends to the next
    unquoted LF.  [n] bounds the number of rows (a buffer of n bytes has at most n). *)
Fixpoint rows_upto (n : nat) (sep q : byte) (l : bytes) : list (list bytes) :=
  match n with
  | O => []
  | S n' =>
      match trim_left newline l with
      | [] => []
      | l' => fst (raw_row (N.eqb LF) sep q false l')
              :: rows_upto n' sep q (snd (raw_row (N.eqb LF) sep q false l'))
      end
  end.
Definition table_rows (sep q : byte) (l : bytes) : list (list bytes) := rows_upto (length l) sep q l.

(** One trailing CR is not part of a field. *)
Definition without_cr (f : bytes) : bytes :=
  match rev f with
  | c :: r => if N.eqb c CR then rev r else f
  | [] => f
  end.

(** Pieces of a comma-separated list. *)
Fixpoint comma_pieces (s : bytes) : list bytes :=
  match s with
  | [] => [[]]
  | c :: r => if N.eqb c COMMA then [] :: comma_pieces r
              else match comma_pieces r with
                   | p :: ps => (c :: p) :: ps
                   | [] => [[c]]
                   end
  end.

(** A field denotes null when it is empty or one of the configured spellings. *)
Definition denotes_null (spellings : bytes) (f : bytes) : bool :=
  match f with
  | [] => true
  | _ => existsb (fun p => if list_eq_dec N.eq_dec p f then true else false) (comma_pieces spellings)
  end.

(** Outer quotes removed, doubled quotes kept once. *)
Fixpoint undouble (q : byte) (pending : bool) (v : bytes) : bytes :=
  match v with
  | [] => []
  | c :: r => if N.eqb c q then if pending then undouble q false r else q :: undouble q true r
              else c :: undouble q false r
  end.
Definition dequoted (q : byte) (f : bytes) : bytes :=
  if (2 <=? length f) && starts_with q f && starts_with q (rev f)
  then undouble q false (firstn (length f - 2) (tl f)) else undouble q false f.

(** Text of the cell denoted by a raw field; [None] is null. *)
Definition field_text (spellings : bytes) (q : byte) (f : bytes) : option bytes :=
  if denotes_null spellings (without_cr f) then None
  else Some (if starts_with q f then dequoted q (without_cr f) else without_cr f).

(** Cell [k] of a row, converted to the column's type. *)
Definition row_cell {V} (conv : nat -> bytes -> option V) (spellings : bytes) (q : byte)
           (row : list bytes) (k : nat) : option V :=
  match nth_error row k with
  | None => None
  | Some f => match field_text spellings q f with
              | None => None
              | Some t => conv k t
              end
  end.

(** The table with [ncols] columns. *)
Definition table_columns {V} (conv : nat -> bytes -> option V) (spellings : bytes) (sep q : byte)
           (ncols : nat) (l : bytes) : list (list (option V)) :=
  map (fun k => map (fun row => row_cell conv spellings q row k) (table_rows sep q l)) (seq 0 ncols).

(** Every CR is followed by LF. *)
Definition no_lone_cr (l : bytes) : Prop :=
  forall i, byte_is l i CR = true -> byte_is l (S i) LF = true.

(** Concatenation of column chunks. *)
Definition concat_columns {V} (ncols : nat) (chunks : list (list (list V))) : list (list V) :=
  map (fun k => concat (map (fun cols => nth k cols []) chunks)) (seq 0 ncols).

(** No blank line, and the last row is terminated: [at_start] says that a row is
    about to begin, [inside] that the position is quoted. *)
Fixpoint tidy_lines (q : byte) (at_start inside : bool) (l : bytes) : bool :=
  match l with
  | [] => at_start
  | c :: r =>
      if N.eqb c q then tidy_lines q false (negb inside) r
      else if inside then tidy_lines q false true r
      else if newline c && at_start then false
      else tidy_lines q (N.eqb c LF) false r
  end.

(** The bytes after the first unquoted line end; [inside]: the text begins inside
    quotes.  (What is left of a piece of a file once the row in progress is over.) *)
Fixpoint after_row_end (q : byte) (inside : bool) (l : bytes) : bytes :=
  match l with
  | [] => []
  | c :: r =>
      if N.eqb c q then after_row_end q (negb inside) r
      else if inside then after_row_end q inside r
      else if N.eqb c LF then r
      else if N.eqb c CR then (match r with d :: r' => if N.eqb d LF then r' else r | [] => r end)
      else after_row_end q inside r
  end.

(** The part of a piece of a file whose rows begin in that piece. *)
Definition own_part (q : byte) (starts_inside : bool) (l : bytes) : bytes :=
  if starts_inside then after_row_end q true l else l.
