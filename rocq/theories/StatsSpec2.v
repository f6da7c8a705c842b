(** NaN values in batches without null flags. *)
From Verif Require Import Base StatsSpec.

(** The NaN values of a batch, and whether some value of it is a number. *)
Definition nans (vs : list N) : nat := length (filter dbl_nan vs).
Definition has_number (vs : list N) : bool := existsb (fun v => negb (dbl_nan v)) vs.
(** NaN values of batches without null flags: beside a number, and beside none. *)
Fixpoint nans_beside_numbers (h : history N) : nat :=
  match h with
  | Fresh | Cleared _ => 0
  | Updated h _ | UpdatedNull h | BatchedNulls h _ _ => nans_beside_numbers h
  | Batched h vs => nans_beside_numbers h + (if has_number vs then nans vs else 0)
  | Merged h o => nans_beside_numbers h + nans_beside_numbers o
  end.
Fixpoint nans_alone (h : history N) : nat :=
  match h with
  | Fresh | Cleared _ => 0
  | Updated h _ | UpdatedNull h | BatchedNulls h _ _ => nans_alone h
  | Batched h vs => nans_alone h + (if has_number vs then 0 else nans vs)
  | Merged h o => nans_alone h + nans_alone o
  end.
