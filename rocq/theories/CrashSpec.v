(** Beginnings of a file, and the mark that ends a Parquet file. *)
From Verif Require Import Base.

Definition beginning_of (c file : bytes) : Prop := exists rest, file = c ++ rest.
(** PAR1 *)
Definition mark : bytes := [80; 65; 82; 49]%N.
(** The mark stands somewhere between the start and the end of the file. *)
Definition mark_inside (file : bytes) : Prop := exists a b, file = a ++ mark ++ b /\ a <> [] /\ b <> [].
