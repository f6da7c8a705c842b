(** Independent specification of what makes the number of line ends of a text differ
    from the number of its rows: blank lines, and a last row without a line end. *)
From Verif Require Import Base ChunkSpec.

(** Number of blank lines (lines of nothing but CRs): [at_start] says that nothing of
    the current line has been seen yet, [inside] that the position is quoted. *)
Fixpoint blank_lines (q : byte) (at_start inside : bool) (l : bytes) : nat :=
  match l with
  | [] => 0
  | c :: r =>
      if N.eqb c q then blank_lines q false (negb inside) r
      else if inside then blank_lines q false true r
      else if N.eqb c LF then (if at_start then 1 else 0) + blank_lines q true false r
      else blank_lines q (at_start && N.eqb c CR) false r
  end.

(** Does the text stop in the middle of a row? *)
Fixpoint row_open (q : byte) (at_start inside : bool) (l : bytes) : bool :=
  match l with
  | [] => negb at_start
  | c :: r =>
      if N.eqb c q then row_open q false (negb inside) r
      else if inside then row_open q false true r
      else if N.eqb c LF then row_open q true false r
      else row_open q (at_start && N.eqb c CR) false r
  end.
