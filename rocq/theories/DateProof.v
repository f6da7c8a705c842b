(** Proofs about dates and timestamps. *)
From Verif Require Import Base NumSpec NumProof DateSpec DateModel.
Local Open Scope Z_scope.

(** ** Calendar *)
Lemma leap_eq y : is_leap_year y = leap y.
Proof.
  unfold is_leap_year, leap, divides.
  destruct (Z.eqb_spec (y mod 4) 0), (Z.eqb_spec (y mod 100) 0), (Z.eqb_spec (y mod 400) 0); cbn; try reflexivity; exfalso;
  Z.div_mod_to_equations; lia.
Qed.

Lemma month_eq y m : 1 <= m <= 12 -> get_days_in_month y m = month_length y m.
Proof.
  intros H. unfold get_days_in_month, month_length. rewrite leap_eq.
  assert (E : m = 1 \/ m = 2 \/ m = 3 \/ m = 4 \/ m = 5 \/ m = 6 \/ m = 7 \/ m = 8 \/ m = 9 \/ m = 10 \/ m = 11 \/ m = 12) by lia.
  decompose [or] E; subst m; reflexivity.
Qed.

Lemma div_step k y : 0 < k -> y / k = (y - 1) / k + (if divides k y then 1 else 0).
Proof. intros H. unfold divides. destruct (Z.eqb_spec (y mod k) 0); Z.div_mod_to_equations; nia. Qed.

Lemma leap_count y : y / 4 - y / 100 + y / 400 = (y - 1) / 4 - (y - 1) / 100 + (y - 1) / 400 + (if leap y then 1 else 0).
Proof.
  rewrite (div_step 4 y), (div_step 100 y), (div_step 400 y) by lia.
  assert (H1 : divides 400 y = true -> divides 100 y = true).
  { unfold divides. intros H. apply Z.eqb_eq in H. apply Z.eqb_eq. Z.div_mod_to_equations. lia. }
  assert (H2 : divides 100 y = true -> divides 4 y = true).
  { unfold divides. intros H. apply Z.eqb_eq in H. apply Z.eqb_eq. Z.div_mod_to_equations. lia. }
  unfold leap. destruct (divides 4 y), (divides 100 y), (divides 400 y); cbn [andb orb negb]; try lia;
    try (specialize (H1 eq_refl); discriminate); specialize (H2 eq_refl); discriminate.
Qed.

Lemma days_before_closed : forall y, (1 <= y)%nat ->
  days_before_year y = 365 * Z.of_nat y + 1 + ((Z.of_nat y - 1) / 4 - (Z.of_nat y - 1) / 100 + (Z.of_nat y - 1) / 400).
Proof.
  induction y as [|y IH]; intros H; [lia|]. destruct (Nat.eq_dec y 0) as [->|Hy]; [reflexivity|].
  cbn [days_before_year]. rewrite IH by lia. replace (Z.of_nat (S y) - 1) with (Z.of_nat y) by lia.
  rewrite (leap_count (Z.of_nat y)). unfold year_length. destruct (leap (Z.of_nat y)); lia.
Qed.

Lemma days_1970 : days_before_year 1970 = 719528.
Proof. rewrite days_before_closed by lia. reflexivity. Qed.

Lemma epoch_year y : 0 <= y -> days_from_epoch_to_year y = days_before_year (Z.to_nat y) - days_before_year 1970 + (if y =? 0 then 1 else 0).
Proof.
  intros H. rewrite days_1970. unfold days_from_epoch_to_year, leap_years_before. destruct (Z.eqb_spec y 0) as [->|Hy]; [reflexivity|].
  rewrite days_before_closed by lia. rewrite Z2Nat.id by lia.
  destruct (Z.leb_spec y 1); [|lia]. replace y with 1 by lia. reflexivity.
Qed.

Lemma add_months_spec y : forall n k days, (n + k <= 12)%nat ->
  add_months n y (Z.of_nat (S k)) (days + days_through_month y k) = days + days_through_month y (n + k).
Proof.
  induction n as [|n IH]; intros k days H; [reflexivity|]. cbn [add_months].
  replace (Z.of_nat (S k) + 1) with (Z.of_nat (S (S k))) by lia.
  replace (days + days_through_month y k + get_days_in_month y (Z.of_nat (S k))) with (days + days_through_month y (S k)).
  - rewrite IH by lia. f_equal. f_equal. lia.
  - cbn [days_through_month]. rewrite month_eq by lia. lia.
Qed.

(** ** Digits *)
Lemma at_cons c l i : at_ (c :: l) (S i) = at_ l i.
Proof. reflexivity. Qed.

Lemma digits_at_cons c l : forall n i acc, digits_at (c :: l) (S i) n acc = digits_at l i n acc.
Proof. induction n as [|n IH]; intros i acc; [reflexivity|]. cbn [digits_at]. rewrite at_cons, IH. reflexivity. Qed.

Lemma digits_at_skip : forall i l n acc, digits_at l i n acc = digits_at (skipn i l) 0 n acc \/ (length l < i + n)%nat.
Proof.
  induction i as [|i IH]; intros l n acc; [left; reflexivity|]. destruct l as [|c l]; [right; cbn; lia|].
  destruct (IH l n acc) as [E|E]; [left; rewrite digits_at_cons; exact E|right; cbn; lia].
Qed.

Lemma digits_at_0 : forall n l acc, (n <= length l)%nat ->
  digits_at l 0 n acc = if forallb is_digit (firstn n l) then Some (acc * 10 ^ Z.of_nat n + decimal (firstn n l)) else None.
Proof.
  induction n as [|n IH]; intros l acc H; [cbn; f_equal; lia|]. destruct l as [|c l]; [cbn in H; lia|].
  cbn [digits_at firstn forallb]. change (at_ (c :: l) 0) with c.
  assert (Hd : (c <? 48)%N || (57 <? c)%N = negb (is_digit c)).
  { unfold is_digit. rewrite N.ltb_antisym, (N.ltb_antisym c 57), negb_andb. reflexivity. }
  rewrite Hd. destruct (is_digit c); [|reflexivity]. cbn [negb andb]. rewrite digits_at_cons, IH by (cbn in H; lia).
  destruct (forallb is_digit (firstn n l)); [|reflexivity]. f_equal. cbn [decimal]. rewrite firstn_length, Nat.min_l by (cbn in H; lia).
  rewrite Nat2Z.inj_succ, Z.pow_succ_r by lia. ring.
Qed.

Lemma digits_at_spec l i n : (i + n <= length l)%nat ->
  digits_at l i n 0 = if forallb is_digit (firstn n (skipn i l)) then Some (decimal (firstn n (skipn i l))) else None.
Proof.
  intros H. destruct (digits_at_skip i l n 0) as [->|E]; [|lia]. rewrite digits_at_0 by (rewrite skipn_length; lia).
  destruct (forallb _ _); [|reflexivity]. reflexivity.
Qed.

Lemma digits_at_some l i n v : (i + n <= length l)%nat ->
  digits_at l i n 0 = Some v <-> digits n v (firstn n (skipn i l)).
Proof.
  intros H. rewrite digits_at_spec by exact H. unfold digits. rewrite firstn_length, skipn_length, Nat.min_l by lia.
  destruct (forallb _ _); split.
  - intros E. injection E as <-. repeat split; reflexivity.
  - intros (_ & _ & <-). reflexivity.
  - discriminate.
  - intros (_ & E & _). discriminate.
Qed.

Lemma digits_bound n v l : digits n v l -> 0 <= v < 10 ^ Z.of_nat n.
Proof. intros (H1 & H2 & H3). subst. apply decimal_bound, H2. Qed.

(** ** parse_date *)
Lemma split10 l : length l = 10%nat ->
  l = firstn 4 l ++ [at_ l 4] ++ firstn 2 (skipn 5 l) ++ [at_ l 7] ++ firstn 2 (skipn 8 l).
Proof. intros H. do 10 (destruct l as [|? l]; [discriminate|]). destruct l; [reflexivity|discriminate]. Qed.

Definition date_value (y m d : Z) : Z := day_number y m d + (if y =? 0 then 1 else 0).

Lemma parse_date_sound l n : parse_date l = Some n -> exists y m d, denotes_date l y m d /\ n = date_value y m d.
Proof.
  unfold parse_date. destruct (Nat.eqb_spec (length l) 10) as [Hlen|]; [|discriminate]. cbn [negb].
  destruct (negb (N.eqb (at_ l 4) 45) && negb (N.eqb (at_ l 4) 47)) eqn:Es; [discriminate|].
  destruct (N.eqb_spec (at_ l 7) (at_ l 4)) as [E7|]; [|discriminate]. cbn [negb].
  destruct (digits_at l 0 4 0) as [y|] eqn:Ey; [|discriminate].
  destruct (digits_at l 5 2 0) as [m|] eqn:Em; [|discriminate].
  destruct (digits_at l 8 2 0) as [d|] eqn:Ed; [|discriminate].
  destruct ((m <? 1) || (12 <? m)) eqn:Rm; [discriminate|]. apply orb_false_iff in Rm. destruct Rm as [Rm1 Rm2].
  apply Z.ltb_ge in Rm1. apply Z.ltb_ge in Rm2.
  destruct ((d <? 1) || (get_days_in_month y m <? d)) eqn:Rd; [discriminate|]. apply orb_false_iff in Rd. destruct Rd as [Rd1 Rd2].
  apply Z.ltb_ge in Rd1. apply Z.ltb_ge in Rd2. rewrite month_eq in Rd2 by lia.
  apply digits_at_some in Ey; [|lia]. apply digits_at_some in Em; [|lia]. apply digits_at_some in Ed; [|lia].
  pose proof (digits_bound _ _ _ Ey) as By.
  intros H. assert (Hn : n = add_months (Z.to_nat (m - 1)) y 1 (days_from_epoch_to_year y) + (d - 1)) by congruence. clear H.
  exists y, m, d. split.
  - exists (at_ l 4), (firstn 4 l), (firstn 2 (skipn 5 l)), (firstn 2 (skipn 8 l)).
    split.
    { apply andb_false_iff in Es. destruct Es as [Es|Es]; apply negb_false_iff, N.eqb_eq in Es; auto. }
    split; [rewrite <- E7 at 2; apply split10, Hlen|].
    split; [exact Ey|]. split; [exact Em|]. split; [exact Ed|]. repeat split; lia.
  - rewrite Hn. unfold date_value, day_number. rewrite epoch_year by lia.
    pose proof (add_months_spec y (Z.to_nat (m - 1)) 0 (days_before_year (Z.to_nat y) - days_before_year 1970 + (if y =? 0 then 1 else 0)) ltac:(lia)) as Ha.
    cbn [days_through_month] in Ha. change (Z.of_nat 1) with 1 in Ha. rewrite Z.add_0_r, Nat.add_0_r in Ha. rewrite Ha. lia.
Qed.

Lemma at_app a b i : (length a <= i)%nat -> at_ (a ++ b) i = at_ b (i - length a).
Proof. intros H. unfold at_. apply app_nth2. lia. Qed.

Lemma skipn_exact {A} n (a b : list A) : length a = n -> skipn n (a ++ b) = b.
Proof. intros <-. rewrite skipn_app, skipn_all, Nat.sub_diag. reflexivity. Qed.
Lemma firstn_exact {A} n (a b : list A) : length a = n -> firstn n (a ++ b) = a.
Proof. intros <-. rewrite firstn_app, firstn_all, Nat.sub_diag, firstn_O, app_nil_r. reflexivity. Qed.

Lemma denotes_length l y m d : denotes_date l y m d -> length l = 10%nat.
Proof.
  intros (sep & yt & mt & dt & _ & -> & (L1 & _) & (L2 & _) & (L3 & _) & _). rewrite !app_length. cbn. lia.
Qed.

Lemma parse_date_complete l y m d : denotes_date l y m d -> parse_date l = Some (date_value y m d).
Proof.
  intros Hden. pose proof (denotes_length _ _ _ _ Hden) as Hlen.
  destruct Hden as (sep & yt & mt & dt & Hs & Hl & Hy & Hm & Hd & (V1 & V2 & V3)).
  assert (L1 : length yt = 4%nat) by apply Hy. assert (L2 : length mt = 2%nat) by apply Hm. assert (L3 : length dt = 2%nat) by apply Hd.
  assert (F1 : firstn 4 l = yt) by (subst l; apply firstn_exact, L1).
  assert (F2 : firstn 2 (skipn 5 l) = mt).
  { subst l. rewrite app_assoc. rewrite skipn_exact by (rewrite app_length; cbn; lia). apply firstn_exact, L2. }
  assert (F3 : firstn 2 (skipn 8 l) = dt).
  { subst l. rewrite (app_assoc yt), (app_assoc (yt ++ [sep])), (app_assoc ((yt ++ [sep]) ++ mt)).
    rewrite skipn_exact by (rewrite !app_length; cbn; lia). rewrite firstn_all2 by lia. reflexivity. }
  assert (A1 : at_ l 4 = sep) by (subst l; rewrite at_app by lia; rewrite L1; reflexivity).
  assert (A2 : at_ l 7 = sep).
  { subst l. rewrite at_app by lia. rewrite L1. cbn [app]. change (7 - 4)%nat with 3%nat. rewrite at_cons, at_app by lia. rewrite L2. reflexivity. }
  unfold parse_date. rewrite Hlen, Nat.eqb_refl, A1, A2, N.eqb_refl. cbn [negb].
  assert (Es : negb (N.eqb sep 45) && negb (N.eqb sep 47) = false) by (destruct Hs as [-> | ->]; reflexivity). rewrite Es.
  assert (E1 : digits_at l 0 4 0 = Some y) by (apply digits_at_some; [lia|]; rewrite skipn_O, F1; exact Hy).
  assert (E2 : digits_at l 5 2 0 = Some m) by (apply digits_at_some; [lia|]; rewrite F2; exact Hm).
  assert (E3 : digits_at l 8 2 0 = Some d) by (apply digits_at_some; [lia|]; rewrite F3; exact Hd).
  rewrite E1, E2, E3. rewrite month_eq by lia.
  destruct (Z.ltb_spec m 1); [lia|]. destruct (Z.ltb_spec 12 m); [lia|]. destruct (Z.ltb_spec d 1); [lia|].
  destruct (Z.ltb_spec (month_length y m) d); [lia|]. cbn [orb]. f_equal.
  unfold date_value, day_number. rewrite epoch_year by lia.
  pose proof (add_months_spec y (Z.to_nat (m - 1)) 0 (days_before_year (Z.to_nat y) - days_before_year 1970 + (if y =? 0 then 1 else 0)) ltac:(lia)) as Ha.
  cbn [days_through_month] in Ha. change (Z.of_nat 1) with 1 in Ha. rewrite Z.add_0_r, Nat.add_0_r in Ha. rewrite Ha. lia.
Qed.

(** ** Order *)
Lemma month_length_pos y m : 28 <= month_length y m <= 31.
Proof. unfold month_length. destruct (m =? 2); [destruct (leap y); lia|]. destruct (_ || _); lia. Qed.

Lemma through_year y : days_through_month y 12 = year_length y.
Proof. cbn. unfold month_length, year_length. cbn. destruct (leap y); reflexivity. Qed.

Lemma through_mono y : forall a b, (a <= b)%nat -> days_through_month y a <= days_through_month y b.
Proof.
  intros a b H. induction H as [|b H IH]; [lia|]. cbn [days_through_month]. pose proof (month_length_pos y (Z.of_nat (S b))). lia.
Qed.

Lemma before_mono : forall a b, (a <= b)%nat -> days_before_year a <= days_before_year b.
Proof.
  intros a b H. induction H as [|b H IH]; [lia|]. cbn [days_before_year]. unfold year_length. destruct (leap _); lia.
Qed.

Lemma day_in_month y m d : valid_date y m d ->
  days_through_month y (Z.to_nat (m - 1)) <= days_through_month y (Z.to_nat (m - 1)) + (d - 1) < days_through_month y (Z.to_nat m).
Proof.
  intros (H1 & H2 & H3). replace (Z.to_nat m) with (S (Z.to_nat (m - 1))) by lia. cbn [days_through_month].
  replace (Z.of_nat (S (Z.to_nat (m - 1)))) with m by lia. lia.
Qed.

Lemma day_in_year y m d : valid_date y m d ->
  days_before_year (Z.to_nat y) <= day_number y m d + days_before_year 1970 < days_before_year (S (Z.to_nat y)).
Proof.
  intros H. pose proof (day_in_month y m d H) as Hm. destruct H as (H1 & H2 & H3). unfold day_number.
  pose proof (through_mono y 0 (Z.to_nat (m - 1)) ltac:(lia)) as A. pose proof (through_mono y (Z.to_nat m) 12 ltac:(lia)) as B.
  rewrite through_year in B. cbn [days_through_month] in A. set (E := days_before_year 1970) in *. clearbody E.
  cbn [days_before_year]. rewrite Z2Nat.id by lia. lia.
Qed.

Lemma earlier_lt y m d y' m' d' : valid_date y m d -> valid_date y' m' d' ->
  earlier (y, m, d) (y', m', d') -> day_number y m d < day_number y' m' d'.
Proof.
  intros V V' H. pose proof (day_in_year _ _ _ V) as D. pose proof (day_in_year _ _ _ V') as D'.
  pose proof (day_in_month _ _ _ V) as M. pose proof (day_in_month _ _ _ V') as M'.
  destruct V as (V1 & V2 & V3), V' as (V1' & V2' & V3').
  cbn in H. destruct H as [H|[<- [H|[<- H]]]].
  - pose proof (before_mono (S (Z.to_nat y)) (Z.to_nat y') ltac:(lia)). lia.
  - pose proof (through_mono y (Z.to_nat m) (Z.to_nat (m' - 1)) ltac:(lia)). unfold day_number in *. set (E := days_before_year 1970) in *. clearbody E. lia.
  - unfold day_number. set (E := days_before_year 1970). clearbody E. lia.
Qed.

Lemma earlier_iff y m d y' m' d' : valid_date y m d -> valid_date y' m' d' ->
  (earlier (y, m, d) (y', m', d') <-> day_number y m d < day_number y' m' d').
Proof.
  intros V V'. split; [apply earlier_lt; assumption|]. intros H.
  assert (T : earlier (y, m, d) (y', m', d') \/ (y, m, d) = (y', m', d') \/ earlier (y', m', d') (y, m, d)).
  { cbn. destruct (Z.lt_trichotomy y y') as [|[->|]]; [lia| |lia].
    destruct (Z.lt_trichotomy m m') as [|[->|]]; [lia| |lia].
    destruct (Z.lt_trichotomy d d') as [|[->|]]; [lia| |lia]. right. left. reflexivity. }
  destruct T as [T|[T|T]]; [exact T| |].
  - injection T as -> -> ->. lia.
  - pose proof (earlier_lt _ _ _ _ _ _ V' V T). lia.
Qed.

Lemma next_day_spec y m d : valid_date y m d ->
  let '(y', m', d') := next_day y m d in valid_date y' m' d' /\ day_number y' m' d' = day_number y m d + 1.
Proof.
  intros (H1 & H2 & H3). unfold next_day. destruct (Z.ltb_spec d (month_length y m)).
  - split; [repeat split; lia|unfold day_number; set (E := days_before_year 1970); clearbody E; lia].
  - destruct (Z.ltb_spec m 12).
    + pose proof (month_length_pos y (m + 1)). split; [repeat split; lia|]. unfold day_number. set (E := days_before_year 1970). clearbody E.
      replace (Z.to_nat (m + 1 - 1)) with (S (Z.to_nat (m - 1))) by lia. cbn [days_through_month].
      replace (Z.of_nat (S (Z.to_nat (m - 1)))) with m by lia. lia.
    + assert (m = 12) by lia. subst m. pose proof (month_length_pos (y + 1) 1). split; [repeat split; lia|]. unfold day_number. set (E := days_before_year 1970). clearbody E.
      replace (Z.to_nat (y + 1)) with (S (Z.to_nat y)) by lia. cbn [days_before_year]. rewrite Z2Nat.id by lia.
      pose proof (through_year y) as T. change 12%nat with (S 11) in T. cbn [days_through_month] in T. change (Z.of_nat 12) with 12 in T.
      change (Z.to_nat (12 - 1)) with 11%nat. change (Z.to_nat (1 - 1)) with 0%nat.
      cbn [days_through_month]. lia.
Qed.
