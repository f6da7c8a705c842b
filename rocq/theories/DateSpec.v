(** Calendar dates and instants.  Independent of the parsers. *)
From Verif Require Import Base NumSpec.
Local Open Scope Z_scope.

(** Proleptic Gregorian calendar. *)
Definition divides (k y : Z) : bool := y mod k =? 0.
Definition leap (y : Z) : bool := divides 4 y && (negb (divides 100 y) || divides 400 y).
Definition year_length (y : Z) : Z := if leap y then 366 else 365.
Definition month_length (y m : Z) : Z :=
  if m =? 2 then (if leap y then 29 else 28)
  else if (m =? 4) || (m =? 6) || (m =? 9) || (m =? 11) then 30 else 31.

(** Days of the years 0 .. y-1. *)
Fixpoint days_before_year (y : nat) : Z :=
  match y with
  | O => 0
  | S y' => days_before_year y' + year_length (Z.of_nat y')
  end.
(** Days of the months 1 .. m of year y. *)
Fixpoint days_through_month (y : Z) (m : nat) : Z :=
  match m with
  | O => 0
  | S m' => days_through_month y m' + month_length y (Z.of_nat m)
  end.

Definition valid_date (y m d : Z) : Prop := 0 <= y /\ 1 <= m <= 12 /\ 1 <= d <= month_length y m.

(** Days since 1970-01-01. *)
Definition day_number (y m d : Z) : Z :=
  days_before_year (Z.to_nat y) + days_through_month y (Z.to_nat (m - 1)) + (d - 1)
  - days_before_year 1970.

(** The day after. *)
Definition next_day (y m d : Z) : Z * Z * Z :=
  if d <? month_length y m then (y, m, d + 1)
  else if m <? 12 then (y, m + 1, 1) else (y + 1, 1, 1).

Definition earlier (a b : Z * Z * Z) : Prop :=
  let '(y, m, d) := a in let '(y', m', d') := b in
  y < y' \/ (y = y' /\ (m < m' \/ (m = m' /\ d < d'))).

(** [n] digits with value [v]. *)
Definition digits (n : nat) (v : Z) (l : bytes) : Prop :=
  length l = n /\ forallb is_digit l = true /\ decimal l = v.

(** YYYY-MM-DD or YYYY/MM/DD. *)
Definition denotes_date (l : bytes) (y m d : Z) : Prop :=
  exists sep yt mt dt, (sep = 45 \/ sep = 47)%N /\
    l = yt ++ [sep] ++ mt ++ [sep] ++ dt /\
    digits 4 y yt /\ digits 2 m mt /\ digits 2 d dt /\ valid_date y m d.

(** HH:MM:SS. *)
Definition denotes_time (l : bytes) (hh mi ss : Z) : Prop :=
  exists ht mt st, l = ht ++ [58%N] ++ mt ++ [58%N] ++ st /\
    digits 2 hh ht /\ digits 2 mi mt /\ digits 2 ss st /\ hh <= 23 /\ mi <= 59 /\ ss <= 59.

(** Optional fraction of a second, in whole microseconds. *)
Definition denotes_fraction (l : bytes) (micros : Z) : Prop :=
  (l = [] /\ micros = 0) \/
  exists ds, l = 46%N :: ds /\ forallb is_digit ds = true /\
    micros = decimal ds * 1000000 / 10 ^ Z.of_nat (length ds).

(** Optional UTC offset, in minutes: Z, +HH, +HHMM, +HH:MM or the same with '-'. *)
Definition denotes_zone (l : bytes) (minutes : Z) : Prop :=
  (l = [] /\ minutes = 0) \/ (l = [90%N] /\ minutes = 0) \/
  exists s ht mt hh mm, (s = 43 \/ s = 45)%N /\
    (l = s :: ht ++ mt \/ l = s :: ht ++ [58%N] ++ mt) /\
    digits 2 hh ht /\ (digits 2 mm mt \/ (mt = [] /\ mm = 0 /\ l = s :: ht)) /\ hh <= 14 /\ mm <= 59 /\
    minutes = if N.eqb s 45 then - (hh * 60 + mm) else hh * 60 + mm.

(** Microseconds since 1970-01-01T00:00:00Z. *)
Definition instant (y m d hh mi ss micros offset : Z) : Z :=
  (((day_number y m d * 24 + hh) * 60 + mi - offset) * 60 + ss) * 1000000 + micros.

(** The timestamp texts of the documentation. *)
Definition denotes_timestamp (l : bytes) (y : Z) (t : Z) : Prop :=
  exists date sep time frac zone m d hh mi ss micros offset,
    l = date ++ [sep] ++ time ++ frac ++ zone /\ (sep = 84 \/ sep = 32)%N /\
    denotes_date date y m d /\ denotes_time time hh mi ss /\
    denotes_fraction frac micros /\ denotes_zone zone offset /\
    t = instant y m d hh mi ss micros offset.
