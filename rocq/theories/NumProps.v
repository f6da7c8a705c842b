(** Property theorems C15, C16 (integers), C17, C18 (dates and timestamps). *)
From Verif Require Import Base NumSpec NumModel NumProof DateSpec DateModel DateProof DateProof2.
Local Open Scope Z_scope.

(** C15, with two's complement negation (-fwrapv, or compilers as they behave):
    accepted iff the text is an integer of at most 11 characters in the int32 range,
    and the value is the integer; never undefined. *)
Theorem C15_int32_exact :
  forall (lanes : nat) (l : bytes) (v : Z), (lanes <= 64)%nat -> is_bytes l ->
    (parse_int32_simd false lanes l = Value v <->
     integer_text l = Some v /\ (length l <= 11)%nat /\ in_signed 32 v) /\
    parse_int32_simd false lanes l <> Undefined.
Proof.
  intros lanes l v H1 H2. rewrite (int32_spec false lanes l H1 H2).
  exact (conj (expected_value 32 11 l v) (expected_never_undefined 32 11 l)).
Qed.
Print Assumptions C15_int32_exact.

(** C15 by the letter of ISO C++: everything but the least int32. *)
Theorem C15_int32_iso_partial :
  forall (lanes : nat) (l : bytes) (v : Z), (lanes <= 64)%nat -> is_bytes l ->
    (parse_int32_simd true lanes l = Value v <->
     integer_text l = Some v /\ (length l <= 11)%nat /\ in_signed 32 v /\ v <> int_min 32) /\
    (parse_int32_simd true lanes l = Undefined <->
     integer_text l = Some (int_min 32) /\ (length l <= 11)%nat).
Proof.
  intros lanes l v H1 H2. rewrite (int32_spec true lanes l H1 H2).
  exact (conj (expected_iso_value 32 11 l v) (expected_undefined 32 11 l ltac:(lia))).
Qed.
Print Assumptions C15_int32_iso_partial.

(** The least int32 has undefined behaviour (negation of INT32_MIN). *)
Theorem C15_least_int32_refuted :
  forall lanes : nat, (lanes <= 64)%nat ->
    integer_text (s2b "-2147483648") = Some (int_min 32) /\
    parse_int32_simd true lanes (s2b "-2147483648") = Undefined.
Proof.
  intros lanes H. split; [reflexivity|].
  apply (proj2 (C15_int32_iso_partial lanes (s2b "-2147483648") 0 H ltac:(repeat constructor))).
  split; [reflexivity|cbn; lia].
Qed.
Print Assumptions C15_least_int32_refuted.

(** The vector width does not matter and the scalar version agrees. *)
Theorem C15_scalar_agrees :
  forall (iso : bool) (lanes : nat) (l : bytes), (lanes <= 64)%nat -> is_bytes l ->
    parse_int32_simd iso lanes l = parse_int32_scalar iso l.
Proof. intros iso lanes l H1 H2. rewrite (int32_spec iso lanes l H1 H2). symmetry. exact (int32_scalar_spec iso l H2). Qed.
Print Assumptions C15_scalar_agrees.

(** A machine with vectors longer than 64 bytes reads and writes out of bounds. *)
Theorem C15_wide_vectors_refuted :
  exists l, is_bytes l /\ parse_int32_simd true 128 l = Undefined /\ integer_text l = Some 1234567890.
Proof. exists (s2b "1234567890"). split; [repeat constructor|]. split; reflexivity. Qed.
Print Assumptions C15_wide_vectors_refuted.

(** The second int32 parser (FastColumnContext) agrees up to nine digits ... *)
Theorem C15_fast_parser_partial :
  forall (iso : bool) (lanes : nat) (l : bytes), (lanes <= 64)%nat -> is_bytes l ->
    (forall s d, take_sign l = Some (s, d) -> (length d <= 9)%nat) ->
    parse_int32_fast iso l = parse_int32_simd iso lanes l.
Proof.
  intros iso lanes l H1 H2 H3. rewrite (int32_spec iso lanes l H1 H2).
  exact (fast_short iso 32 11 9 l (or_introl eq_refl) eq_refl H2 H3).
Qed.
Print Assumptions C15_fast_parser_partial.

(** ... but accepts a doubled sign and rejects the least value. *)
Theorem C15_fast_parser_refuted :
  parse_int32_fast true (s2b "--123456789") = Value 123456789 /\ integer_text (s2b "--123456789") = None /\
  parse_int32_fast true (s2b "-2147483648") = Reject /\ integer_text (s2b "-2147483648") = Some (int_min 32).
Proof. repeat split; vm_compute; reflexivity. Qed.
Print Assumptions C15_fast_parser_refuted.

Example C15_nonvacuous :
  parse_int32_simd true 16 (s2b "-2147483647") = Value (-2147483647) /\ parse_int32_simd true 16 (s2b "2147483648") = Reject /\
  parse_int32_simd true 32 (s2b "+0000000042") = Value 42 /\ parse_int32_simd true 16 (s2b "-") = Reject /\
  parse_int32_simd true 16 (s2b "12a") = Reject /\ parse_int32_simd true 8 (s2b "4294967297") = Reject /\
  is_bytes (s2b "-2147483647") /\ integer_text (s2b "-2147483647") = Some (-2147483647).
Proof. repeat split; try (vm_compute; reflexivity). repeat constructor. Qed.

(** C16, two's complement negation. *)
Theorem C16_int64_exact :
  forall (lanes : nat) (l : bytes) (v : Z), (lanes <= 64)%nat -> is_bytes l ->
    (parse_int64_simd false lanes l = Value v <->
     integer_text l = Some v /\ (length l <= 20)%nat /\ in_signed 64 v) /\
    parse_int64_simd false lanes l <> Undefined.
Proof.
  intros lanes l v H1 H2. rewrite (int64_spec false lanes l H1 H2).
  exact (conj (expected_value 64 20 l v) (expected_never_undefined 64 20 l)).
Qed.
Print Assumptions C16_int64_exact.

Theorem C16_int64_iso_partial :
  forall (lanes : nat) (l : bytes) (v : Z), (lanes <= 64)%nat -> is_bytes l ->
    (parse_int64_simd true lanes l = Value v <->
     integer_text l = Some v /\ (length l <= 20)%nat /\ in_signed 64 v /\ v <> int_min 64) /\
    (parse_int64_simd true lanes l = Undefined <->
     integer_text l = Some (int_min 64) /\ (length l <= 20)%nat).
Proof.
  intros lanes l v H1 H2. rewrite (int64_spec true lanes l H1 H2).
  exact (conj (expected_iso_value 64 20 l v) (expected_undefined 64 20 l ltac:(lia))).
Qed.
Print Assumptions C16_int64_iso_partial.

(** The scalar reference agrees up to 19 characters ... *)
Theorem C16_scalar_agrees_partial :
  forall (iso : bool) (lanes : nat) (l : bytes), (lanes <= 64)%nat -> is_bytes l -> (length l <= 19)%nat ->
    parse_int64_scalar iso l = parse_int64_simd iso lanes l.
Proof. intros iso lanes l H1 H2 H3. rewrite (int64_spec iso lanes l H1 H2). exact (int64_scalar_spec iso l H2 H3). Qed.
Print Assumptions C16_scalar_agrees_partial.

(** ... and returns a wrapped value for 2^64 + 1. *)
Theorem C16_scalar_wraps_refuted :
  integer_text (s2b "18446744073709551617") = Some (2 ^ 64 + 1) /\
  parse_int64_scalar true (s2b "18446744073709551617") = Value 1.
Proof. split; vm_compute; reflexivity. Qed.
Print Assumptions C16_scalar_wraps_refuted.

Theorem C16_fast_parser_partial :
  forall (iso : bool) (lanes : nat) (l : bytes), (lanes <= 64)%nat -> is_bytes l ->
    (forall s d, take_sign l = Some (s, d) -> (length d <= 18)%nat) ->
    parse_int64_fast iso l = parse_int64_simd iso lanes l.
Proof.
  intros iso lanes l H1 H2 H3. rewrite (int64_spec iso lanes l H1 H2).
  exact (fast_short iso 64 20 18 l (or_intror eq_refl) eq_refl H2 H3).
Qed.
Print Assumptions C16_fast_parser_partial.

Theorem C16_fast_parser_refuted :
  parse_int64_fast true (s2b "--123456789012345678") = Value 123456789012345678 /\
  integer_text (s2b "--123456789012345678") = None /\
  parse_int64_fast true (s2b "-9223372036854775808") = Reject /\
  integer_text (s2b "-9223372036854775808") = Some (int_min 64).
Proof. repeat split; vm_compute; reflexivity. Qed.
Print Assumptions C16_fast_parser_refuted.

Example C16_nonvacuous :
  parse_int64_simd true 16 (s2b "-9223372036854775807") = Value (-9223372036854775807) /\
  parse_int64_simd true 16 (s2b "9223372036854775808") = Reject /\
  parse_int64_simd true 16 (s2b "18446744073709551617") = Reject /\
  parse_int64_simd true 16 (s2b "1234567890123456") = Value 1234567890123456 /\
  parse_int64_simd true 4 (s2b "123456789x") = Reject.
Proof. repeat split; vm_compute; reflexivity. Qed.

(** C17: exactly the valid calendar dates in the two forms are accepted. *)
Theorem C17_accepts_exactly_dates :
  forall l : bytes, (exists n, parse_date l = Some n) <-> (exists y m d, denotes_date l y m d).
Proof.
  intros l. split.
  - intros (n & H). destruct (parse_date_sound l n H) as (y & m & d & Hd & _). exact (ex_intro _ y (ex_intro _ m (ex_intro _ d Hd))).
  - intros (y & m & d & H). exact (ex_intro _ _ (parse_date_complete l y m d H)).
Qed.
Print Assumptions C17_accepts_exactly_dates.

(** The value is the day number, from year 1 on. *)
Theorem C17_day_number_partial :
  forall (l : bytes) (y m d : Z), denotes_date l y m d -> 1 <= y -> parse_date l = Some (day_number y m d).
Proof.
  intros l y m d H Hy. rewrite (parse_date_complete l y m d H). unfold date_value.
  destruct (Z.eqb_spec y 0); [lia|]. rewrite Z.add_0_r. reflexivity.
Qed.
Print Assumptions C17_day_number_partial.

(** The dates of year 0 are one day late: 0000-12-31 and 0001-01-01 coincide. *)
Theorem C17_year_zero_refuted :
  denotes_date (s2b "0000-12-31") 0 12 31 /\ denotes_date (s2b "0001-01-01") 1 1 1 /\
  parse_date (s2b "0000-12-31") = parse_date (s2b "0001-01-01") /\ parse_date (s2b "0001-01-01") <> None.
Proof.
  split; [|split; [|split; [reflexivity|discriminate]]].
  - exists 45%N, (s2b "0000"), (s2b "12"), (s2b "31"). repeat split; try reflexivity; try lia; try discriminate; try (left; reflexivity).
  - exists 45%N, (s2b "0001"), (s2b "01"), (s2b "01"). repeat split; try reflexivity; try lia; try discriminate; try (left; reflexivity).
Qed.
Print Assumptions C17_year_zero_refuted.

(** Calendar order is the order of the values; in particular distinct dates get
    distinct values. *)
Theorem C17_order_partial :
  forall (l l' : bytes) (y m d y' m' d' n n' : Z),
    denotes_date l y m d -> denotes_date l' y' m' d' -> 1 <= y -> 1 <= y' ->
    parse_date l = Some n -> parse_date l' = Some n' ->
    (earlier (y, m, d) (y', m', d') <-> n < n').
Proof.
  intros l l' y m d y' m' d' n n' H H' Hy Hy' E E'.
  rewrite (C17_day_number_partial l y m d H Hy) in E. rewrite (C17_day_number_partial l' y' m' d' H' Hy') in E'.
  assert (En : day_number y m d = n) by congruence. assert (En' : day_number y' m' d' = n') by congruence. rewrite <- En, <- En'.
  destruct H as (_ & _ & _ & _ & _ & _ & _ & _ & _ & V), H' as (_ & _ & _ & _ & _ & _ & _ & _ & _ & V').
  exact (earlier_iff y m d y' m' d' V V').
Qed.
Print Assumptions C17_order_partial.

(** The specification's day number: epoch, and one more for the next calendar day. *)
Theorem C17_day_number_is_day_count :
  day_number 1970 1 1 = 0 /\
  forall y m d, valid_date y m d ->
    let '(y', m', d') := next_day y m d in valid_date y' m' d' /\ day_number y' m' d' = day_number y m d + 1.
Proof. split; [reflexivity|exact next_day_spec]. Qed.
Print Assumptions C17_day_number_is_day_count.

Example C17_nonvacuous :
  parse_date (s2b "2000-02-29") = Some 11016 /\ parse_date (s2b "1900-02-29") = None /\ parse_date (s2b "1969/12/31") = Some (-1) /\
  parse_date (s2b "2024-13-01") = None /\ parse_date (s2b "2024-1-01x") = None /\ parse_date (s2b "2024-01/01") = None /\
  denotes_date (s2b "2000-02-29") 2000 2 29.
Proof.
  repeat split. exists 45%N, (s2b "2000"), (s2b "02"), (s2b "29"). repeat split; try reflexivity; try lia; try discriminate; try (left; reflexivity).
Qed.

(** C18: every timestamp of the documented forms, from year 1 on, parses to its
    instant, with fractions truncated to microseconds. *)
Theorem C18_documented_forms_partial :
  forall (l : bytes) (y t : Z), denotes_timestamp l y t -> 1 <= y -> parse_timestamp l = Some t.
Proof.
  intros l y t H Hy. rewrite (timestamp_complete l y t H). unfold year0. destruct (Z.eqb_spec y 0); [lia|]. rewrite Z.add_0_r. reflexivity.
Qed.
Print Assumptions C18_documented_forms_partial.

(** Whatever is accepted begins with a date and a time of day, and the value is
    that moment adjusted by a fraction of a second and a whole-minute offset. *)
Theorem C18_accepted_is_near_partial :
  forall (l : bytes) (v : Z), parse_timestamp l = Some v ->
    exists date sep time rest y m d hh mi ss micros o,
      l = date ++ [sep] ++ time ++ rest /\ (sep = 84 \/ sep = 32)%N /\ denotes_date date y m d /\ denotes_time time hh mi ss /\
      0 <= micros < 1000000 /\ -899 <= o <= 899 /\
      (rest = [] \/ exists c r, rest = c :: r /\ (c = 46 \/ c = 90 \/ c = 43 \/ c = 45)%N) /\
      (micros <> 0 -> exists r, rest = 46%N :: r) /\ (rest = [] -> o = 0) /\
      v = instant y m d hh mi ss micros o + (if y =? 0 then 86400 * 1000000 else 0).
Proof. exact timestamp_sound. Qed.
Print Assumptions C18_accepted_is_near_partial.

(** Text after the zone, and non-digits after the sixth fraction digit, are accepted. *)
Theorem C18_trailing_text_accepted_refuted :
  parse_timestamp (s2b "2020-01-01T00:00:00Z and more") = parse_timestamp (s2b "2020-01-01T00:00:00Z") /\
  parse_timestamp (s2b "2020-01-01T00:00:00+01junk") = parse_timestamp (s2b "2020-01-01T00:00:00+01:00") /\
  parse_timestamp (s2b "2020-01-01T00:00:00.123456xyzZ") = parse_timestamp (s2b "2020-01-01T00:00:00.123456Z") /\
  parse_timestamp (s2b "2020-01-01T00:00:00Z") = Some 1577836800000000 /\
  (forall y t, ~ denotes_timestamp (s2b "2020-01-01T00:00:00Z and more") y t).
Proof. repeat split; [exact trailing_not_denoted]. Qed.
Print Assumptions C18_trailing_text_accepted_refuted.

(** No intermediate or final value leaves int64. *)
Theorem C18_no_overflow :
  forall (l : bytes) (v : Z), parse_timestamp l = Some v -> - 10 ^ 17 < v < 10 ^ 18.
Proof. exact timestamp_range. Qed.
Print Assumptions C18_no_overflow.

Example C18_nonvacuous :
  parse_timestamp (s2b "1970-01-01T00:00:01") = Some 1000000 /\
  parse_timestamp (s2b "1970-01-01 01:00:00.5+01:00") = Some 500000 /\
  parse_timestamp (s2b "1969-12-31T23:59:59.9999999-0030") = Some 1799999999 /\
  parse_timestamp (s2b "1970-01-01T24:00:00") = None /\ parse_timestamp (s2b "1970-01-01T00:00:00x") = None /\
  denotes_timestamp (s2b "1970-01-01 01:00:00.5+01:00") 1970 500000.
Proof.
  repeat split.
  exists (s2b "1970-01-01"), 32%N, (s2b "01:00:00"), (s2b ".5"), (s2b "+01:00"), 1, 1, 1, 0, 0, 500000, 60.
  split; [reflexivity|]. split; [right; reflexivity|]. split.
  { exists 45%N, (s2b "1970"), (s2b "01"), (s2b "01"). repeat split; try reflexivity; try lia; try discriminate; try (left; reflexivity). }
  split.
  { exists (s2b "01"), (s2b "00"), (s2b "00"). repeat split; try reflexivity; try lia. }
  split; [right; exists (s2b "5"); repeat split|]. split; [|reflexivity].
  right. right. exists 43%N, (s2b "01"), (s2b "00"), 1, 0. repeat split; try lia; auto. left. repeat split.
Qed.
