(** Specification vocabulary for quote parity: bit streams. *)
From Verif Require Import Base.

(** The bits of a 64-bit word, least significant first. *)
Definition bits64 (w : N) : list bool := map (fun i => N.testbit w (N.of_nat i)) (seq 0 64).

(** Number of set bits among the first [n] bits of a stream. *)
Definition set_bits (l : list bool) (n : nat) : nat := count_occ Bool.bool_dec (firstn n l) true.
