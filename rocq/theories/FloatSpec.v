(** What the binary64 operations of the scores are, in terms of the real
    numbers: every operation returns the exact result rounded to the nearest
    double, ties to even.  Rounding is Flocq's. *)
From Coq Require Import Reals SpecFloat.
From Flocq Require Import Core.
Local Open Scope R_scope.

(** The double nearest to a real number. *)
Definition rnd (x : R) : R := round radix2 (FLT_exp (-1074) 53) ZnearestE x.

(** [Is x r]: the binary64 datum [x] is a finite number, in the form the
    format prescribes, and its value is [r]. *)
Definition value (x : spec_float) : R :=
  match x with
  | S754_finite s m e => (if s then -1 else 1) * IZR (Zpos m) * bpow radix2 e
  | _ => 0
  end.
Definition Is (x : spec_float) (r : R) : Prop :=
  valid_binary 53 1024 x = true /\ value x = r /\
  match x with S754_zero _ | S754_finite _ _ _ => True | _ => False end.
