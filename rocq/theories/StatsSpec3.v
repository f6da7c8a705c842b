(** What is left of a sequence of doubles by a vector loop that forgets a lane at every NaN. *)
From Verif Require Import Base StatsSpec.

(** x86: if either operand is NaN the result is the second (Intel SDM, MINPD and MAXPD). *)
Definition takes_second (hw : hardware) : Prop :=
  forall a b, dbl_nan a || dbl_nan b = true -> hw_min hw a b = b /\ hw_max hw a b = b.

(** The values lane [l] sees: every [lanes]-th, complete vectors only. *)
Definition column (lanes l : nat) (data : list N) : list N :=
  map (fun k => nth (k * lanes + l) data 0%N) (seq 0 (length data / lanes)).
(** The values behind the last complete vector. *)
Definition left_over (lanes : nat) (data : list N) : list N := skipn (lanes * (length data / lanes)) data.
(** A value of a lane is remembered if neither it nor a later value of the lane is NaN.  [first]
    is the first number of the data, which every lane starts with, [later] what follows it. *)
Definition remembered (lanes : nat) (first : N) (later : list N) (v : N) : Prop :=
  (exists l before after, l < lanes /\ first :: column lanes l later = before ++ v :: after /\
                          Forall (fun x => dbl_nan x = false) (v :: after))
  \/ (In v (left_over lanes later) /\ dbl_nan v = false).
(** No lane ends with a NaN. *)
Definition last_vector_numbers (lanes : nat) (later : list N) : Prop :=
  forall l, l < lanes -> dbl_nan (last (column lanes l later) 0%N) = false.
