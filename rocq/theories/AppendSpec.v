(** Adding rows at the end of a file. *)
From Verif Require Import Base ChunkSpec.

(** The text ends with a line feed that is outside quotes: its last row is complete. *)
Definition complete (q : byte) (l : bytes) : Prop := spec_ends_inside false q l = false /\ exists l0, l = l0 ++ [LF].

(** Columns with further values at their ends. *)
Definition extended {A} (before added : list (list A)) : list (list A) := map (fun p => fst p ++ snd p) (combine before added).
