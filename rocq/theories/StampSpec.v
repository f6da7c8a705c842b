(** The texts taken for timestamps, documented or not.  Independent of the parser. *)
From Verif Require Import Base NumSpec DateSpec.
Local Open Scope Z_scope.

(** A zone and anything behind it: Z and any text; or a sign, two digits up to 14, and then
    - nothing, or a text that (after one colon, if it begins with one) does not begin with a digit: no minutes;
    - (after at most one colon) two digits up to 59 and any text. *)
Definition zone_and_more (l : bytes) (minutes : Z) : Prop :=
  (exists more, l = 90%N :: more /\ minutes = 0) \/
  exists s ht t hh mm, (s = 43 \/ s = 45)%N /\ l = s :: ht ++ t /\ digits 2 hh ht /\ hh <= 14 /\
    minutes = (if N.eqb s 45 then - (hh * 60 + mm) else hh * 60 + mm) /\
    exists colon t', (colon = [] \/ colon = [58%N]) /\ t = colon ++ t' /\ (colon = [] -> forall r, t' <> 58%N :: r) /\
      ((mm = 0 /\ forall c r, t' = c :: r -> is_digit c = false) \/
       exists mt more, t' = mt ++ more /\ digits 2 mm mt /\ mm <= 59).

(** What may follow the seconds: nothing; a zone and more; a point, digits, and
    - the end or a zone and more;
    - if there were six digits: any text without Z, + and - before that. *)
Definition tail_of_timestamp (l : bytes) (micros offset : Z) : Prop :=
  exists point zone, l = point ++ zone /\
    ((point = [] /\ micros = 0) \/
     exists ds junk, point = 46%N :: ds ++ junk /\ forallb is_digit ds = true /\ (length ds <= 6)%nat /\
       (junk = [] \/ length ds = 6%nat) /\ (forall c, In c junk -> c <> 90%N /\ c <> 43%N /\ c <> 45%N) /\
       micros = decimal ds * 1000000 / 10 ^ Z.of_nat (length ds)) /\
    ((zone = [] /\ offset = 0) \/ zone_and_more zone offset).
