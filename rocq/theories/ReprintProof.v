From Verif Require Import Base NumSpec NumModel NumProof NumProps DateSpec DateModel DateProof DateProof2 StampSpec ReaderSpec TypesSpec TypesModel
  CliModel CliProof2 KeepSpec KeepProof ReprintSpec.
Local Open Scope Z_scope.

(** ** Integers *)
Lemma to_string_N_length n k : (1 <= k)%nat -> Z.of_N n < 10 ^ Z.of_nat k -> (length (to_string_N n) <= k)%nat.
Proof.
  intros Hk H. destruct (N.eq_dec n 0) as [->|Hn]; [cbn; lia|].
  destruct (to_string_N_spec n) as (A & B & C & D). set (t := to_string_N n) in *. clearbody t.
  destruct t as [|c r]; [congruence|]. cbn [hd] in D. cbn [forallb] in A. apply andb_true_iff in A.
  destruct A as (A1 & A2). unfold is_digit in A1. apply andb_true_iff in A1. rewrite !N.leb_le in A1.
  pose proof (decimal_bound r A2) as Br. cbn [decimal] in B. cbn [length].
  assert (Hc : c <> 48%N) by (intros ->; specialize (D eq_refl); lia).
  destruct (Nat.le_gt_cases (S (length r)) k) as [|G]; [assumption|]. exfalso.
  pose proof (Z.pow_le_mono_r 10 (Z.of_nat k) (Z.of_nat (length r)) ltac:(lia) ltac:(lia)). nia.
Qed.

Lemma to_string_length z k : (1 <= k)%nat -> - 10 ^ Z.of_nat k < z < 10 ^ Z.of_nat k -> (length (to_string z) <= S k)%nat.
Proof.
  intros Hk H. unfold to_string. destruct (Z.ltb_spec z 0); [cbn [length]; apply le_n_S|apply le_S];
    apply to_string_N_length; try assumption; rewrite Z2N.id by lia; lia.
Qed.

Lemma to_string_bytes z : is_bytes (to_string z).
Proof.
  assert (D : forall n, is_bytes (to_string_N n)).
  { intros n. destruct (to_string_N_spec n) as (A & _). unfold is_bytes. apply Forall_forall. intros c Hc.
    rewrite forallb_forall in A. specialize (A c Hc). unfold is_digit in A. apply andb_true_iff in A. rewrite !N.leb_le in A. lia. }
  unfold to_string. destruct (z <? 0); [|apply D]. constructor; [reflexivity|apply D].
Qed.

(** ** Dates *)
Lemma padded_year y : 0 <= y <= 9999 -> digits 4 y (show_year true y).
Proof.
  intros H. unfold show_year, to_string. destruct (Z.ltb_spec y 0); [lia|].
  pose proof (to_string_N_length (Z.to_N y) 4 ltac:(lia) ltac:(rewrite Z2N.id by lia; change (10 ^ Z.of_nat 4) with 10000; lia)) as L.
  destruct (to_string_N_spec (Z.to_N y)) as (A & B & _ & _). set (t := to_string_N _) in *. clearbody t.
  rewrite Z2N.id in B by lia. split; [rewrite app_length, repeat_length; lia|]. split.
  - rewrite forallb_app, A, andb_true_r. apply forallb_forall. intros c Hc. apply repeat_spec in Hc. subst c. reflexivity.
  - assert (Z : forall n, decimal (repeat 48%N n ++ t) = decimal t) by (induction n as [|n IH]; [reflexivity|cbn [repeat app decimal]; rewrite IH; lia]).
    rewrite Z. exact B.
Qed.

Lemma year_digits pad y : first_year pad <= y <= 9999 -> digits 4 y (show_year pad y).
Proof. destruct pad; cbn [first_year]; intros H; [apply padded_year; lia|apply show_year_digits; exact H]. Qed.

Lemma date_again pad y m d : valid_date y m d -> first_year pad <= y <= 9999 -> denotes_date (show_date pad (day_number y m d)) y m d.
Proof.
  intros V Hy. unfold show_date. rewrite gmtime_date_number by exact V. pose proof (month_bound y m d V).
  exists 45%N, (show_year pad y), (two m), (two d). split; [left; reflexivity|]. split; [reflexivity|].
  split; [apply year_digits; exact Hy|]. split; [apply two_digits_of; lia|]. split; [apply two_digits_of; lia|exact V].
Qed.

Lemma jan_1 y : day_number y 1 1 = days_before_year (Z.to_nat y) - 719528.
Proof. unfold day_number. rewrite days_1970. change (Z.to_nat (1 - 1)) with 0%nat. cbn [days_through_month]. lia. Qed.
Lemma dec_31 : day_number 9999 12 31 = 3652425 - 719528 - 1.
Proof. unfold day_number. rewrite days_1970. rewrite days_before_closed by lia. rewrite Z2Nat.id by lia. vm_compute. reflexivity. Qed.
Lemma first_year_range pad : 1 <= first_year pad <= 1000.
Proof. destruct pad; cbn; lia. Qed.

Lemma day_again pad n : four_digit_day pad n ->
  exists y m d, first_year pad <= y <= 9999 /\ day_number y m d = n /\ denotes_date (show_date pad n) y m d.
Proof.
  unfold four_digit_day. rewrite dec_31, jan_1. intros H. pose proof (first_year_range pad) as R.
  pose proof (before_mono 0 (Z.to_nat (first_year pad)) ltac:(lia)) as Q0. change (days_before_year 0) with 0 in Q0.
  pose proof (gmtime_spec n ltac:(lia)) as G. destruct (gmtime_date n) as ((y, m), d).
  destruct G as (V & E). exists y, m, d.
  pose proof (day_in_year y m d V) as I. rewrite days_1970, E in I. pose proof V as (V1 & V2).
  assert (Hy : first_year pad <= y <= 9999).
  { split.
    - destruct (Z.le_gt_cases (first_year pad) y) as [|G]; [assumption|]. exfalso.
      pose proof (before_mono (S (Z.to_nat y)) (Z.to_nat (first_year pad)) ltac:(lia)) as Q. lia.
    - destruct (Z.le_gt_cases y 9999) as [|G]; [assumption|]. exfalso.
      pose proof (before_mono (Z.to_nat 10000) (Z.to_nat y) ltac:(lia)) as Q. rewrite days_10000 in Q. lia. }
  split; [exact Hy|]. split; [exact E|]. rewrite <- E. now apply date_again.
Qed.

Lemma whole_second_quot us : whole_second us = Z.quot us 1000000 * 1000000.
Proof.
  unfold whole_second. destruct (Z.ltb_spec us 0).
  - rewrite <- (Z.opp_involutive us) at 2. rewrite Z.quot_opp_l by lia. rewrite (Z.quot_div_nonneg (- us)) by lia. lia.
  - rewrite Z.quot_div_nonneg by lia. reflexivity.
Qed.

Lemma instant_again pad us : four_digit_instant pad us ->
  exists y m d hh mi ss time,
    first_year pad <= y <= 9999 /\ denotes_time time hh mi ss /\ instant y m d hh mi ss 0 0 = whole_second us /\
    exists date, denotes_date date y m d /\ show_timestamp pad us = date ++ [84%N] ++ time.
Proof.
  unfold four_digit_instant, instant. rewrite dec_31. intros H. rewrite whole_second_quot.
  unfold show_timestamp. set (t := Z.quot us 1000000).
  set (a := day_number (first_year pad) 1 1) in *.
  assert (Ht : a * 86400 <= t < (3652425 - 719528) * 86400).
  { unfold t. pose proof (Z.quot_rem' us 1000000) as Q.
    destruct (Z.le_gt_cases 0 us) as [P|P].
    - pose proof (Z.rem_bound_pos us 1000000 P ltac:(lia)). lia.
    - assert (-1000000 < Z.rem us 1000000 <= 0) by (pose proof (Z.rem_bound_pos_neg us 1000000 ltac:(lia) ltac:(lia)); lia). lia. }
  clearbody t.
  assert (Hd : four_digit_day pad (t / 86400)).
  { unfold four_digit_day. rewrite dec_31. fold a. split; [apply Z.div_le_lower_bound; lia|].
    assert (t / 86400 < 3652425 - 719528) by (apply Z.div_lt_upper_bound; lia). lia. }
  destruct (day_again pad (t / 86400) Hd) as (y & m & d & Hy & En & D).
  pose proof (Z.mod_pos_bound t 86400 ltac:(lia)) as Hs. set (s := t mod 86400) in *.
  assert (A : 0 <= s / 3600 <= 23) by (split; [apply Z.div_pos; lia|]; assert (s / 3600 < 24) by (apply Z.div_lt_upper_bound; lia); lia).
  pose proof (Z.mod_pos_bound (s / 60) 60 ltac:(lia)) as B. pose proof (Z.mod_pos_bound s 60 ltac:(lia)) as C.
  exists y, m, d, (s / 3600), (s / 60 mod 60), (s mod 60), (two (s / 3600) ++ [58%N] ++ two (s / 60 mod 60) ++ [58%N] ++ two (s mod 60)).
  split; [exact Hy|]. split.
  { exists (two (s / 3600)), (two (s / 60 mod 60)), (two (s mod 60)). split; [reflexivity|].
    split; [apply two_digits_of; lia|]. split; [apply two_digits_of; lia|]. split; [apply two_digits_of; lia|]. lia. }
  split.
  { rewrite En.
    assert (E1 : s / 60 = (s / 3600) * 60 + s / 60 mod 60).
    { pose proof (Z.div_mod (s / 60) 60 ltac:(lia)) as Q. rewrite Z.div_div in Q by lia. change (60 * 60) with 3600 in Q. lia. }
    pose proof (Z.div_mod s 60 ltac:(lia)) as E2. pose proof (Z.div_mod t 86400 ltac:(lia)) as E3. fold s in E3. lia. }
  exists (show_date pad (t / 86400)). split; [exact D|reflexivity].
Qed.

(** ** Values *)
Section V.
Context {F : Type}.
Variable ff : bytes -> option F.
Variable show_float : F -> bytes.

Lemma digits_bytes n v l : digits n v l -> is_bytes l.
Proof.
  intros (_ & A & _). apply Forall_forall. intros c Hc. rewrite forallb_forall in A. specialize (A c Hc).
  unfold is_digit in A. apply andb_true_iff in A. rewrite !N.leb_le in A. lia.
Qed.
Lemma date_bytes l y m d : denotes_date l y m d -> is_bytes l.
Proof.
  intros (sep & yt & mt & dt & Hs & -> & A & B & C & _). apply digits_bytes in A, B, C. unfold is_bytes in *.
  assert ((sep < 256)%N) by (destruct Hs as [-> | ->]; reflexivity).
  repeat (apply Forall_app; split); try assumption; repeat constructor; assumption.
Qed.
Lemma time_bytes l a b c : denotes_time l a b c -> is_bytes l.
Proof.
  intros (ht & mt & st & -> & A & B & C & _). apply digits_bytes in A, B, C. unfold is_bytes in *.
  repeat (apply Forall_app; split); try assumption; repeat constructor.
Qed.

Lemma means_again pad T v x : is_bytes v -> means ff T v x -> printable pad T x ->
  is_bytes (value_text show_float pad T (Some x)) /\ means ff T (value_text show_float pad T (Some x)) (after_printing T x).
Proof.
  intros Hb M P. destruct T; cbn [means printable after_printing] in *; try contradiction; try (subst x; cbn [value_text]; split; [exact Hb|reflexivity]).
  - destruct M as [(_ & ->)|(_ & ->)]; cbn [value_text]; (split; [repeat constructor|]); [left|right]; (split; [|reflexivity]); left; reflexivity.
  - destruct M as (z & (_ & _ & Hz) & ->). cbn [value_text]. split; [apply to_string_bytes|]. exists z. split; [|reflexivity].
    split; [apply to_string_spec|]. split; [|exact Hz]. apply to_string_length; [lia|]. unfold in_signed, int_min in Hz.
    change (2 ^ (32 - 1)) with 2147483648 in Hz. change (10 ^ Z.of_nat 10) with 10000000000. lia.
  - destruct M as (z & (_ & _ & Hz) & ->). cbn [value_text]. split; [apply to_string_bytes|]. exists z. split; [|reflexivity].
    split; [apply to_string_spec|]. split; [|exact Hz]. apply to_string_length; [lia|]. unfold in_signed, int_min in Hz.
    change (2 ^ (64 - 1)) with 9223372036854775808 in Hz. change (10 ^ Z.of_nat 19) with 10000000000000000000. lia.
  - destruct M as (n & _ & ->). cbn [value_text]. destruct (day_again pad n P) as (y & m & d & Hy & E & D).
    split; [exact (date_bytes _ _ _ _ D)|]. exists n. split; [|reflexivity]. exists y, m, d. split; [exact D|].
    pose proof (first_year_range pad). destruct (Z.eqb_spec y 0); lia.
  - destruct M as (n & _ & ->). cbn [value_text]. destruct (instant_again pad n P) as (y & m & d & hh & mi & ss & time & Hy & T & E & date & D & ->).
    split.
    { apply date_bytes in D. apply time_bytes in T. unfold is_bytes in *. repeat (apply Forall_app; split); try assumption. repeat constructor. }
    exists (whole_second n). split; [|reflexivity].
    exists date, 84%N, time, [], y, m, d, hh, mi, ss, 0, 0. rewrite app_nil_r. split; [reflexivity|]. split; [left; reflexivity|].
    split; [exact D|]. split; [exact T|]. split.
    { exists [], []. split; [reflexivity|]. split; left; split; reflexivity. }
    pose proof (first_year_range pad). destruct (Z.eqb_spec y 0); lia.
Qed.

Lemma printed_again pad lanes T v x : (lanes <= 64)%nat -> is_bytes v -> append_value ff lanes T v = Some x -> printable pad T x ->
  append_value ff lanes T (value_text show_float pad T (Some x)) = Some (after_printing T x).
Proof.
  intros Hl Hb H P. apply (kept_iff ff lanes T v x Hl Hb) in H. destruct (means_again pad T v x Hb H P) as (B & M).
  now apply (kept_iff ff lanes T _ _ Hl B).
Qed.

Lemma after_twice T x : after_printing T (after_printing T x) = @after_printing F T x.
Proof.
  destruct T, x; try reflexivity. cbn [after_printing]. f_equal. unfold whole_second. destruct (Z.ltb_spec z 0) as [L|L].
  - pose proof (Z.div_pos (- z) 1000000 ltac:(lia) ltac:(lia)) as Q.
    destruct (Z.ltb_spec (- (- z / 1000000 * 1000000)) 0) as [L2|L2].
    + rewrite Z.opp_involutive, Z.div_mul by lia. reflexivity.
    + assert (E : - z / 1000000 = 0) by lia. rewrite E. reflexivity.
  - pose proof (Z.div_pos z 1000000 ltac:(lia) ltac:(lia)) as Q.
    destruct (Z.ltb_spec (z / 1000000 * 1000000) 0); [lia|]. rewrite Z.div_mul by lia. reflexivity.
Qed.
End V.
