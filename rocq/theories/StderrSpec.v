(** What convert should tell on standard error. *)
From Verif Require Import Base ErrorsSpec ReportSpec.
From Coq Require Import Sorted.

(** The positions of the columns whose name occurs before them, in order. *)
Definition repeated_columns (names : list bytes) (l : list nat) : Prop :=
  (forall i, In i l <-> repeats names i) /\ StronglySorted lt l.
(** The warning about one of them. *)
Definition repeated_warning (names : list bytes) (i : nat) : report :=
  Report (Error 10 WARNING 1 (i + 1) 0 (s2b "Duplicate column name: '" ++ nth i names [] ++ s2b "'")) [].
