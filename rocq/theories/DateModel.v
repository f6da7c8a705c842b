(** Date and timestamp fields.  Models src/schema/type_parsers.cpp.
    C++ int is Z: the values stay below 10^7 (int) and 10^18 (int64_t); see
    C18_no_overflow. *)
From Verif Require Import Base.
Local Open Scope Z_scope.

(** is_leap_year, 8-10. *)
Definition is_leap_year (year : Z) : bool :=
  ((year mod 4 =? 0) && negb (year mod 100 =? 0)) || (year mod 400 =? 0).

(** days_in_month, 13. *)
Definition days_in_month : list Z := [0; 31; 28; 31; 30; 31; 30; 31; 31; 30; 31; 30; 31].

(** get_days_in_month, 16-21. *)
Definition get_days_in_month (year month : Z) : Z :=
  if (month =? 2) && is_leap_year year then 29 else nth (Z.to_nat month) days_in_month 0.

(** leap_years_before, 25-30. *)
Definition leap_years_before (year : Z) : Z :=
  if year <=? 1 then 0
  else let y := year - 1 in y / 4 - y / 100 + y / 400.

(** days_from_epoch_to_year, 34-40. *)
Definition days_from_epoch_to_year (year : Z) : Z :=
  (year - 1970) * 365 + (leap_years_before year - 477).

(** value[i]; only used below the size. *)
Definition at_ (l : bytes) (i : nat) : byte := nth i l 0%N.

(** The digit loops (60-64, 65-69, 70-74, 201-215, 132-136): bytes i .. i+n-1.
    A byte above 127 is a negative char in C++ and rejected by the first test; here
    by the second. *)
Fixpoint digits_at (l : bytes) (i n : nat) (acc : Z) : option Z :=
  match n with
  | O => Some acc
  | S n' =>
      let c := at_ l i in
      if (c <? 48)%N || (57 <? c)%N then None
      else digits_at l (S i) n' (acc * 10 + (Z.of_N c - 48))
  end.

(** Lines 90-92: complete months; [n] = month - 1. *)
Fixpoint add_months (n : nat) (year : Z) (m : Z) (days : Z) : Z :=
  match n with
  | O => days
  | S n' => add_months n' year (m + 1) (days + get_days_in_month year m)
  end.

(** parse_date, 43-99. *)
Definition parse_date (value : bytes) : option Z :=
  if negb (length value =? 10)%nat then None
  else
    let sep := at_ value 4 in
    if negb (N.eqb sep 45) && negb (N.eqb sep 47) then None
    else if negb (N.eqb (at_ value 7) sep) then None
    else
      match digits_at value 0 4 0, digits_at value 5 2 0, digits_at value 8 2 0 with
      | Some year, Some month, Some day =>
          if (month <? 1) || (12 <? month) then None
          else if (day <? 1) || (get_days_in_month year month <? day) then None
          else Some (add_months (Z.to_nat (month - 1)) year 1 (days_from_epoch_to_year year) + (day - 1))
      | _, _, _ => None
      end.

Definition digit_char (c : byte) : bool := (48 <=? c)%N && (c <=? 57)%N.

(** parse_timezone, 104-167, on the bytes from start_pos on. *)
Definition parse_timezone (t : bytes) : option Z :=
  match t with
  | [] => None
  | first :: rest =>
      if N.eqb first 90 then Some 0
      else if negb (N.eqb first 43) && negb (N.eqb first 45) then None
      else if (length rest <? 2)%nat then None
      else
        match digits_at rest 0 2 0 with
        | None => None
        | Some tz_hour =>
            let r := skipn 2 rest in
            let minute :=
              match r with
              | [] => Some 0
              | c :: r' =>
                  let r := if N.eqb c 58 then r' else r in
                  if (2 <=? length r)%nat && digit_char (at_ r 0) && digit_char (at_ r 1)
                  then Some ((Z.of_N (at_ r 0) - 48) * 10 + (Z.of_N (at_ r 1) - 48))
                  else if (1 <=? length r)%nat && digit_char (at_ r 0) then None
                  else Some 0
              end in
            match minute with
            | None => None
            | Some tz_minute =>
                if (14 <? tz_hour) || (59 <? tz_minute) then None
                else let offset := tz_hour * 60 + tz_minute in
                     Some (if N.eqb first 45 then - offset else offset)
            end
        end
  end.

(** Lines 227-237: position of the first Z, + or - (or the size). *)
Fixpoint find_zone (l : bytes) : nat :=
  match l with
  | [] => 0%nat
  | c :: r => if N.eqb c 90 || N.eqb c 43 || N.eqb c 45 then 0%nat else S (find_zone r)
  end.

(** Lines 239-255: up to six digits, padded; [n] = digits still wanted. *)
Fixpoint fraction (n : nat) (frac : Z) (l : bytes) : option Z :=
  match n with
  | O => Some frac
  | S n' =>
      match l with
      | [] => Some (frac * 10 ^ Z.of_nat n)
      | c :: r => if digit_char c then fraction n' (frac * 10 + (Z.of_N c - 48)) r else None
      end
  end.

(** parse_timestamp, 179-281. *)
Definition parse_timestamp (value : bytes) : option Z :=
  if (length value <? 19)%nat then None
  else
    match parse_date (firstn 10 value) with
    | None => None
    | Some days =>
        if negb (N.eqb (at_ value 10) 84) && negb (N.eqb (at_ value 10) 32) then None
        else if negb (N.eqb (at_ value 13) 58) || negb (N.eqb (at_ value 16) 58) then None
        else
          match digits_at value 11 2 0, digits_at value 14 2 0, digits_at value 17 2 0 with
          | Some hour, Some minute, Some second =>
              if (23 <? hour) || (59 <? minute) || (59 <? second) then None
              else
                let rest := skipn 19 value in
                let frac_zone :=
                  match rest with
                  | c :: r =>
                      if N.eqb c 46 then
                        match fraction 6 0 (firstn (find_zone r) r) with
                        | None => None
                        | Some micros => Some (micros, skipn (find_zone r) r)
                        end
                      else Some (0, rest)
                  | [] => Some (0, [])
                  end in
                match frac_zone with
                | None => None
                | Some (micros, zone) =>
                    match (match zone with [] => Some 0 | _ => parse_timezone zone end) with
                    | None => None
                    | Some tz_offset_minutes =>
                        Some (days * 24 * 60 * 60 * 1000000 + hour * 60 * 60 * 1000000 + minute * 60 * 1000000
                              + second * 1000000 + micros - tz_offset_minutes * 60 * 1000000)
                    end
                end
          | _, _, _ => None
          end
    end.
