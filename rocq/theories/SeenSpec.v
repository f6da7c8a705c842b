(** What the type inference sees of a written row, without reference to the code. *)
From Verif Require Import Base FieldsSpec TypesSpec RoundSpec.

(** The cells up to the first one with a line break, which is cut there. *)
Fixpoint seen (cells : list written) : list written :=
  match cells with
  | [] => []
  | Quoted v :: r => if existsb newline v then [Quoted (before_newline v)] else Quoted v :: seen r
  | Plain v :: r => Plain v :: seen r
  end.
