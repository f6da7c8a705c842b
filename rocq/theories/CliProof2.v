(** Proofs about printed numbers, dates and timestamps. *)
From Verif Require Import Base NumSpec NumModel NumProof DateSpec DateModel DateProof DateProof2 TypesSpec TypesModel CliModel.
Local Open Scope Z_scope.

(** ** Integers *)
Lemma decimal_snoc l c : decimal (l ++ [c]) = decimal l * 10 + (Z.of_N c - 48).
Proof.
  induction l as [|x l IH]; [cbn; lia|]. cbn [app decimal]. rewrite IH, app_length. cbn [length].
  rewrite Nat2Z.inj_add. rewrite Z.pow_add_r by lia. change (10 ^ Z.of_nat 1) with 10. ring.
Qed.

Lemma digits_of_spec : forall fuel n, (n < 2 ^ N.of_nat fuel)%N -> (1 <= fuel)%nat ->
  forallb is_digit (digits_of fuel n) = true /\ decimal (digits_of fuel n) = Z.of_N n /\ digits_of fuel n <> [] /\
  (hd 48%N (digits_of fuel n) = 48%N -> n = 0%N).
Proof.
  induction fuel as [|f IH]; intros n H1 H2; [lia|]. cbn [digits_of].
  assert (D : is_digit (48 + n mod 10) = true).
  { unfold is_digit. pose proof (N.mod_lt n 10 ltac:(lia)). apply andb_true_iff. rewrite !N.leb_le. lia. }
  destruct (N.ltb_spec n 10) as [L|L].
  - cbn [app forallb]. rewrite D. split; [reflexivity|]. rewrite N.mod_small by exact L. cbn [decimal length hd].
    split; [|split; [discriminate|lia]]. rewrite Z.pow_0_r. lia.
  - destruct f as [|f]. { cbn in H1. lia. }
    assert (H3 : (n / 10 < 2 ^ N.of_nat (S f))%N).
    { rewrite Nat2N.inj_succ in *. rewrite N.pow_succ_r' in H1. apply N.div_lt_upper_bound; [lia|]. lia. }
    destruct (IH (n / 10)%N H3 ltac:(lia)) as (A & B & C & E).
    set (ds := digits_of (S f) (n / 10)) in *. clearbody ds. split; [|split; [|split]].
    + rewrite forallb_app, A. cbn [forallb]. rewrite D. reflexivity.
    + rewrite decimal_snoc, B. pose proof (N.div_mod n 10 ltac:(lia)). lia.
    + destruct ds; discriminate.
    + destruct ds as [|x ds]; [congruence|]. cbn [app hd]. intros X. cbn [hd] in E. specialize (E X).
      apply N.div_small_iff in E; lia.
Qed.

Lemma to_string_N_spec n :
  forallb is_digit (to_string_N n) = true /\ decimal (to_string_N n) = Z.of_N n /\ to_string_N n <> [] /\
  (hd 48%N (to_string_N n) = 48%N -> n = 0%N).
Proof.
  unfold to_string_N. apply digits_of_spec; [|lia].
  pose proof (N.size_gt n) as H.
  assert (E : N.of_nat (N.size_nat n) = N.size n).
  { destruct n as [|p]; [reflexivity|]. cbn [N.size_nat N.size]. clear. induction p as [p IH|p IH|]; cbn [Pos.size_nat Pos.size];
      [rewrite Nat2N.inj_succ, IH; reflexivity|rewrite Nat2N.inj_succ, IH; reflexivity|reflexivity]. }
  rewrite Nat2N.inj_succ, E, N.pow_succ_r'. lia.
Qed.

Lemma integer_digits l : forallb is_digit l = true -> l <> [] -> integer_text l = Some (decimal l).
Proof.
  intros H N. destruct l as [|c r]; [congruence|]. unfold integer_text.
  assert (R : is_digit c = true) by (cbn [forallb] in H; apply andb_true_iff in H; apply H).
  unfold is_digit in R. apply andb_true_iff in R. rewrite !N.leb_le in R.
  destruct (N.eqb_spec c 45); [lia|]. destruct (N.eqb_spec c 43); [lia|]. unfold natural_text. rewrite H. reflexivity.
Qed.

Lemma to_string_spec z : integer_text (to_string z) = Some z.
Proof.
  unfold to_string. destruct (Z.ltb_spec z 0) as [L|L].
  - destruct (to_string_N_spec (Z.to_N (- z))) as (A & B & C & _). set (t := to_string_N _) in *. clearbody t.
    unfold integer_text. cbn [N.eqb Pos.eqb]. unfold natural_text. destruct t; [congruence|]. rewrite A. cbn [option_map].
    rewrite B. f_equal. lia.
  - destruct (to_string_N_spec (Z.to_N z)) as (A & B & C & _). rewrite integer_digits by assumption. rewrite B. f_equal. lia.
Qed.

(** ** Calendar *)
Lemma year_length_pos y : 365 <= year_length y <= 366.
Proof. unfold year_length. destruct (leap y); lia. Qed.

Lemma find_year_spec : forall fuel y days, 0 <= y -> 0 <= days < 365 * Z.of_nat fuel ->
  let (y', r) := find_year fuel y days in
  y <= y' /\ 0 <= r < year_length y' /\
  days_before_year (Z.to_nat y) + days = days_before_year (Z.to_nat y') + r.
Proof.
  induction fuel as [|f IH]; intros y days Hy Hd; [lia|]. cbn [find_year].
  destruct (Z.ltb_spec days (year_length y)) as [L|L]; [lia|].
  pose proof (year_length_pos y) as P.
  specialize (IH (y + 1) (days - year_length y) ltac:(lia) ltac:(lia)).
  destruct (find_year f (y + 1) (days - year_length y)) as (y', r). destruct IH as (A & B & C).
  split; [lia|]. split; [exact B|]. rewrite <- C. replace (Z.to_nat (y + 1)) with (S (Z.to_nat y)) by lia.
  cbn [days_before_year]. rewrite Z2Nat.id by lia. lia.
Qed.

Lemma find_month_spec y : forall fuel m days, 1 <= m -> Z.of_nat fuel = 13 - m -> 0 <= days ->
  days_through_month y (Z.to_nat (m - 1)) + days < year_length y ->
  let (m', r) := find_month fuel y m days in
  1 <= m' <= 12 /\ 0 <= r < month_length y m' /\
  days_through_month y (Z.to_nat (m - 1)) + days = days_through_month y (Z.to_nat (m' - 1)) + r.
Proof.
  induction fuel as [|f IH]; intros m days Hm Hf Hd HB.
  - exfalso. assert (m = 13) by lia. subst m. change (Z.to_nat (13 - 1)) with 12%nat in HB. rewrite through_year in HB. lia.
  - cbn [find_month]. destruct (Z.ltb_spec days (month_length y m)) as [L|L]; [lia|].
    assert (E : days_through_month y (Z.to_nat (m + 1 - 1)) = days_through_month y (Z.to_nat (m - 1)) + month_length y m).
    { replace (Z.to_nat (m + 1 - 1)) with (S (Z.to_nat (m - 1))) by lia. cbn [days_through_month].
      replace (Z.of_nat (S (Z.to_nat (m - 1)))) with m by lia. reflexivity. }
    specialize (IH (m + 1) (days - month_length y m) ltac:(lia) ltac:(lia) ltac:(lia) ltac:(lia)).
    destruct (find_month f y (m + 1) (days - month_length y m)) as (m', r). destruct IH as (A & B & C).
    split; [exact A|]. split; [exact B|]. lia.
Qed.

Lemma gmtime_spec days : - 719528 <= days ->
  let '(y, m, d) := gmtime_date days in valid_date y m d /\ day_number y m d = days.
Proof.
  intros H. unfold gmtime_date. set (n := days + 719528).
  assert (Hn : 0 <= n) by (unfold n; lia).
  pose proof (find_year_spec (S (Z.to_nat (n / 365))) 0 n ltac:(lia)) as A.
  assert (HB : 0 <= n < 365 * Z.of_nat (S (Z.to_nat (n / 365)))).
  { split; [exact Hn|]. rewrite Nat2Z.inj_succ, Z2Nat.id by (apply Z.div_pos; lia).
    pose proof (Z.mul_succ_div_gt n 365 ltac:(lia)). lia. }
  specialize (A HB). destruct (find_year _ 0 n) as (y, r). destruct A as (Hy & Hr & E).
  pose proof (find_month_spec y 12 1 r ltac:(lia) eq_refl ltac:(lia)) as B.
  change (Z.to_nat (1 - 1)) with 0%nat in B. cbn [days_through_month] in B. specialize (B ltac:(lia)).
  destruct (find_month 12 y 1 r) as (m, r'). destruct B as (Hm & Hr' & E').
  change (days_before_year (Z.to_nat 0)) with 0 in E.
  split; [split; [exact Hy|split; [exact Hm|lia]]|]. unfold day_number. rewrite days_1970. unfold n in E. lia.
Qed.

Lemma day_number_inj y m d y' m' d' : valid_date y m d -> valid_date y' m' d' ->
  day_number y m d = day_number y' m' d' -> y = y' /\ m = m' /\ d = d'.
Proof.
  intros V V' E. pose proof (earlier_iff _ _ _ _ _ _ V V') as A. pose proof (earlier_iff _ _ _ _ _ _ V' V) as B.
  unfold earlier in A, B. rewrite E in A, B. lia.
Qed.

Lemma gmtime_date_number y m d : valid_date y m d -> gmtime_date (day_number y m d) = (y, m, d).
Proof.
  intros V. pose proof (day_in_year y m d V) as H. rewrite days_1970 in H.
  pose proof (before_mono 0 (Z.to_nat y) ltac:(lia)) as Q. change (days_before_year 0) with 0 in Q.
  pose proof (gmtime_spec (day_number y m d) ltac:(lia)) as G.
  destruct (gmtime_date (day_number y m d)) as ((y', m'), d'). destruct G as (V' & E).
  destruct (day_number_inj _ _ _ _ _ _ V' V E) as (-> & -> & ->). reflexivity.
Qed.

(** ** Two and four digits *)
Lemma two_digits_of n : 0 <= n <= 99 -> digits 2 n (two n).
Proof.
  intros H. unfold two.
  assert (A : 0 <= n / 10 <= 9) by (split; [apply Z.div_pos; lia|]; assert (n / 10 < 10) by (apply Z.div_lt_upper_bound; lia); lia).
  assert (B : 0 <= n mod 10 < 10) by (apply Z.mod_pos_bound; lia). split; [reflexivity|].
  split.
  - cbn [forallb]. unfold is_digit. rewrite !andb_true_iff, !N.leb_le. lia.
  - cbn [decimal length]. change (10 ^ Z.of_nat 1) with 10. change (10 ^ Z.of_nat 0) with 1.
    pose proof (Z.div_mod n 10 ltac:(lia)). lia.
Qed.

Lemma four_digits y : 1000 <= y <= 9999 -> digits 4 y (to_string y).
Proof.
  intros H. unfold to_string. destruct (Z.ltb_spec y 0); [lia|].
  destruct (to_string_N_spec (Z.to_N y)) as (A & B & C & D). set (t := to_string_N _) in *. clearbody t.
  rewrite Z2N.id in B by lia. pose proof (decimal_bound t A) as Bd.
  split; [|split; assumption].
  (* lower bound from the leading digit *)
  destruct t as [|c r]; [congruence|]. cbn [hd] in D. cbn [length]. cbn [forallb] in A. apply andb_true_iff in A.
  destruct A as (A1 & A2). unfold is_digit in A1. apply andb_true_iff in A1. rewrite !N.leb_le in A1.
  pose proof (decimal_bound r A2) as Br. cbn [decimal] in B, Bd. cbn [length] in Bd.
  assert (Hc : c <> 48%N) by (intros ->; specialize (D eq_refl); lia).
  assert (L1 : 10 ^ Z.of_nat (length r) <= y) by nia.
  assert (L2 : y < 10 ^ Z.of_nat (S (length r))) by lia.
  assert (length r < 4)%nat.
  { destruct (Nat.lt_ge_cases (length r) 4) as [|G]; [assumption|].
    pose proof (Z.pow_le_mono_r 10 4 (Z.of_nat (length r)) ltac:(lia) ltac:(lia)). change (10 ^ 4) with 10000 in *. lia. }
  assert (3 <= length r)%nat.
  { destruct (Nat.le_gt_cases 3 (length r)) as [|G]; [assumption|].
    pose proof (Z.pow_le_mono_r 10 (Z.of_nat (S (length r))) 3 ltac:(lia) ltac:(lia)). change (10 ^ 3) with 1000 in *. lia. }
  lia.
Qed.

Lemma show_year_digits pad y : 1000 <= y <= 9999 -> digits 4 y (show_year pad y).
Proof.
  intros H. pose proof (four_digits y H) as D. unfold show_year. destruct pad; [|exact D].
  destruct D as (L & D). rewrite L. cbn [Nat.sub repeat app]. split; [exact L|exact D].
Qed.

Lemma month_bound y m d : valid_date y m d -> 1 <= m <= 12 /\ 1 <= d <= 31.
Proof. intros (_ & M & D). pose proof (month_length_pos y m). lia. Qed.

Lemma show_date_spec pad y m d : valid_date y m d -> 1000 <= y <= 9999 ->
  denotes_date (show_date pad (day_number y m d)) y m d.
Proof.
  intros V Hy. unfold show_date. rewrite gmtime_date_number by exact V. pose proof (month_bound y m d V).
  exists 45%N, (show_year pad y), (two m), (two d). split; [left; reflexivity|]. split; [reflexivity|].
  split; [apply show_year_digits; exact Hy|]. split; [apply two_digits_of; lia|]. split; [apply two_digits_of; lia|exact V].
Qed.

(** Days of the years 1000 to 9999. *)
Lemma days_1000 : days_before_year 1000 = 365243.
Proof. vm_compute. reflexivity. Qed.
Lemma days_10000 : days_before_year (Z.to_nat 10000) = 3652425.
Proof. rewrite days_before_closed by lia. rewrite Z2Nat.id by lia. vm_compute. reflexivity. Qed.

Lemma show_days pad days : 365243 - 719528 <= days < 3652425 - 719528 ->
  exists y m d, 1000 <= y <= 9999 /\ day_number y m d = days /\ denotes_date (show_date pad days) y m d.
Proof.
  intros H. pose proof (gmtime_spec days ltac:(lia)) as G. destruct (gmtime_date days) as ((y, m), d).
  destruct G as (V & E). exists y, m, d.
  pose proof (day_in_year y m d V) as I. rewrite days_1970, E in I. destruct V as (V1 & V2).
  assert (Hy : 1000 <= y <= 9999).
  { split.
    - destruct (Z.le_gt_cases 1000 y) as [|G]; [assumption|]. exfalso.
      pose proof (before_mono (S (Z.to_nat y)) 1000 ltac:(lia)) as Q. rewrite days_1000 in Q. lia.
    - destruct (Z.le_gt_cases y 9999) as [|G]; [assumption|]. exfalso.
      pose proof (before_mono (Z.to_nat 10000) (Z.to_nat y) ltac:(lia)) as Q. rewrite days_10000 in Q. lia. }
  split; [exact Hy|]. split; [exact E|]. rewrite <- E. apply show_date_spec; [split; assumption|exact Hy].
Qed.

Lemma show_timestamp_spec pad us : (365243 - 719528) * 86400 * 1000000 <= us < (3652425 - 719528) * 86400 * 1000000 ->
  exists y, 1000 <= y <= 9999 /\ denotes_timestamp (show_timestamp pad us) y (Z.quot us 1000000 * 1000000).
Proof.
  intros H. unfold show_timestamp. set (t := Z.quot us 1000000).
  assert (Ht : (365243 - 719528) * 86400 <= t < (3652425 - 719528) * 86400).
  { unfold t. pose proof (Z.quot_rem' us 1000000) as Q.
    destruct (Z.le_gt_cases 0 us) as [P|P].
    - pose proof (Z.rem_bound_pos us 1000000 P ltac:(lia)). lia.
    - assert (-1000000 < Z.rem us 1000000 <= 0) by (pose proof (Z.rem_bound_pos_neg us 1000000 ltac:(lia) ltac:(lia)); lia). lia. }
  clearbody t.
  assert (Hd : 365243 - 719528 <= t / 86400 < 3652425 - 719528).
  { split; [apply Z.div_le_lower_bound; lia|apply Z.div_lt_upper_bound; lia]. }
  destruct (show_days pad (t / 86400) Hd) as (y & m & d & Hy & En & D).
  pose proof (Z.mod_pos_bound t 86400 ltac:(lia)) as Hs. set (s := t mod 86400) in *.
  assert (A : 0 <= s / 3600 <= 23) by (split; [apply Z.div_pos; lia|]; assert (s / 3600 < 24) by (apply Z.div_lt_upper_bound; lia); lia).
  pose proof (Z.mod_pos_bound (s / 60) 60 ltac:(lia)) as B. pose proof (Z.mod_pos_bound s 60 ltac:(lia)) as C.
  exists y. split; [exact Hy|].
  exists (show_date pad (t / 86400)), 84%N, (two (s / 3600) ++ [58%N] ++ two (s / 60 mod 60) ++ [58%N] ++ two (s mod 60)), [], [],
    m, d, (s / 3600), (s / 60 mod 60), (s mod 60), 0, 0.
  split; [rewrite !app_nil_r; reflexivity|]. split; [left; reflexivity|]. split; [exact D|]. split.
  { exists (two (s / 3600)), (two (s / 60 mod 60)), (two (s mod 60)). split; [reflexivity|].
    split; [apply two_digits_of; lia|]. split; [apply two_digits_of; lia|]. split; [apply two_digits_of; lia|]. lia. }
  split; [left; auto|]. split; [left; auto|]. unfold instant. rewrite En.
  assert (E1 : s / 60 = (s / 3600) * 60 + s / 60 mod 60).
  { pose proof (Z.div_mod (s / 60) 60 ltac:(lia)) as Q. rewrite Z.div_div in Q by lia. change (60 * 60) with 3600 in Q. lia. }
  pose proof (Z.div_mod s 60 ltac:(lia)) as E2. pose proof (Z.div_mod t 86400 ltac:(lia)) as E3. fold s in E3. lia.
Qed.
