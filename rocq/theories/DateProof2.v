(** Proofs about timestamps. *)
From Verif Require Import Base NumSpec NumProof DateSpec DateModel DateProof.
Local Open Scope Z_scope.

Lemma digit_char_eq c : digit_char c = is_digit c.
Proof. reflexivity. Qed.

Lemma fraction_spec : forall n f ds, forallb is_digit ds = true ->
  fraction n f ds = Some (f * 10 ^ Z.of_nat n + decimal ds * 10 ^ Z.of_nat n / 10 ^ Z.of_nat (length ds)).
Proof.
  induction n as [|n IH]; intros f ds H.
  - cbn [fraction]. change (10 ^ Z.of_nat 0) with 1. rewrite !Z.mul_1_r. f_equal.
    rewrite Z.div_small by (apply decimal_bound, H). lia.
  - destruct ds as [|c r]; [cbn [fraction decimal]; rewrite Z.mul_0_l, Z.div_0_l by (apply Z.pow_nonzero; lia); f_equal; lia|].
    cbn [fraction forallb] in *. apply andb_true_iff in H. destruct H as [H1 H2]. rewrite digit_char_eq, H1, IH by exact H2.
    f_equal. cbn [decimal length]. rewrite !Nat2Z.inj_succ, !Z.pow_succ_r by lia.
    set (P := 10 ^ Z.of_nat n). assert (HQ : 0 < 10 ^ Z.of_nat (length r)) by (apply Z.pow_pos_nonneg; lia).
    set (Q := 10 ^ Z.of_nat (length r)) in *. set (d := Z.of_N c - 48).
    replace ((d * Q + decimal r) * (10 * P)) with ((d * P * Q + decimal r * P) * 10) by ring.
    replace (10 * Q) with (Q * 10) by ring. rewrite Z.div_mul_cancel_r by lia. rewrite Z.div_add_l by lia. ring.
Qed.

Lemma fraction_bound : forall n f l v, 0 <= f -> fraction n f l = Some v -> f * 10 ^ Z.of_nat n <= v < (f + 1) * 10 ^ Z.of_nat n.
Proof.
  induction n as [|n IH]; intros f l v Hf H.
  - cbn [fraction] in H. injection H as <-. change (10 ^ Z.of_nat 0) with 1. lia.
  - assert (HP : 0 < 10 ^ Z.of_nat n) by (apply Z.pow_pos_nonneg; lia).
    destruct l as [|c r]; [cbn [fraction] in H; injection H as <-|].
    + assert (0 < 10 ^ Z.of_nat (S n)) by (apply Z.pow_pos_nonneg; lia). lia.
    + cbn [fraction] in H. destruct (digit_char c) eqn:E; [|discriminate]. rewrite digit_char_eq in E. apply is_digit_range in E.
      apply IH in H; [|lia]. rewrite Nat2Z.inj_succ, Z.pow_succ_r by lia. set (P := 10 ^ Z.of_nat n) in *. nia.
Qed.

Definition zone_start (c : byte) : Prop := (c = 90 \/ c = 43 \/ c = 45)%N.

Lemma zone_start_test c : zone_start c -> N.eqb c 90 || N.eqb c 43 || N.eqb c 45 = true.
Proof. intros [->|[->| ->]]; reflexivity. Qed.

Lemma find_zone_digits : forall ds zone, forallb is_digit ds = true ->
  (zone = [] \/ exists c r, zone = c :: r /\ zone_start c) -> find_zone (ds ++ zone) = length ds.
Proof.
  induction ds as [|c ds IH]; intros zone H Hz.
  - destruct Hz as [->|(c & r & -> & Hc)]; [reflexivity|]. cbn [app find_zone]. rewrite zone_start_test by exact Hc. reflexivity.
  - cbn [forallb] in H. apply andb_true_iff in H. destruct H as [H1 H2]. apply is_digit_range in H1. cbn [app find_zone length].
    destruct (N.eqb_spec c 90); [lia|]. destruct (N.eqb_spec c 43); [lia|]. destruct (N.eqb_spec c 45); [lia|]. cbn [orb].
    rewrite IH by assumption. reflexivity.
Qed.

Lemma zone_shape z o : denotes_zone z o -> z = [] \/ exists c r, z = c :: r /\ zone_start c.
Proof.
  intros [[-> _]|[[-> _]|(s & ht & mt & hh & mm & Hs & [-> | ->] & _)]]; [left; reflexivity| | |]; right.
  - exists 90%N, []. split; [reflexivity|left; reflexivity].
  - exists s, (ht ++ mt). split; [reflexivity|]. destruct Hs as [-> | ->]; unfold zone_start; auto.
  - exists s, (ht ++ [58%N] ++ mt). split; [reflexivity|]. destruct Hs as [-> | ->]; unfold zone_start; auto.
Qed.

Lemma two_digits v l : digits 2 v l -> exists a b, l = [a; b] /\ is_digit a = true /\ is_digit b = true /\
  v = (Z.of_N a - 48) * 10 + (Z.of_N b - 48).
Proof.
  intros (H1 & H2 & H3). destruct l as [|a [|b [|? ?]]]; try discriminate. exists a, b. cbn [forallb] in H2.
  apply andb_true_iff in H2. destruct H2 as [Ha H2]. apply andb_true_iff in H2. destruct H2 as [Hb _].
  split; [reflexivity|]. split; [exact Ha|]. split; [exact Hb|]. rewrite <- H3. cbn [decimal length].
  change (10 ^ Z.of_nat 1) with 10. change (10 ^ Z.of_nat 0) with 1. lia.
Qed.

Lemma zone_complete z o : denotes_zone z o -> z <> [] -> parse_timezone z = Some o.
Proof.
  intros [[-> _]|[[-> ->]|(s & ht & mt & hh & mm & Hs & Hl & Hh & Hm & B1 & B2 & ->)]] Hne; [congruence|reflexivity|].
  destruct (two_digits _ _ Hh) as (a & b & -> & Ha & Hb & Ehh).
  assert (Hpre : forall t minute,
     (match t with [] => Some 0 | c :: r' =>
                  let r := if N.eqb c 58 then r' else t in
                  if (2 <=? length r)%nat && digit_char (at_ r 0) && digit_char (at_ r 1)
                  then Some ((Z.of_N (at_ r 0) - 48) * 10 + (Z.of_N (at_ r 1) - 48))
                  else if (1 <=? length r)%nat && digit_char (at_ r 0) then None
                  else Some 0 end) = Some minute -> minute = mm ->
     parse_timezone (s :: [a; b] ++ t) = Some (if N.eqb s 45 then - (hh * 60 + mm) else hh * 60 + mm)).
  { intros t minute Ht ->. unfold parse_timezone.
    assert (E1 : N.eqb s 90 = false) by (destruct Hs as [-> | ->]; reflexivity).
    assert (E2 : negb (N.eqb s 43) && negb (N.eqb s 45) = false) by (destruct Hs as [-> | ->]; reflexivity).
    rewrite E1, E2. cbn [app length]. change (S (S (length t)) <? 2)%nat with false. cbv iota.
    assert (E3 : digits_at (a :: b :: t) 0 2 0 = Some hh).
    { apply digits_at_some; [cbn; lia|]. exact Hh. }
    rewrite E3. change (skipn 2 (a :: b :: t)) with t. cbv zeta in Ht |- *. rewrite Ht.
    destruct (Z.ltb_spec 14 hh); [lia|]. destruct (Z.ltb_spec 59 mm); [lia|]. cbn [orb]. reflexivity. }
  destruct Hm as [Hm|(-> & -> & ->)].
  - destruct (two_digits _ _ Hm) as (x & y & -> & Hx & Hy & Emm). pose proof (is_digit_range _ Hx) as Rx.
    destruct Hl as [-> | ->].
    + apply (Hpre [x; y] mm); [|reflexivity]. destruct (N.eqb_spec x 58); [lia|]. cbv zeta iota.
      unfold at_. cbn [length Nat.leb nth andb]. change digit_char with is_digit. rewrite Hx, Hy. cbn [andb]. f_equal. symmetry. exact Emm.
    + apply (Hpre ([58%N] ++ [x; y]) mm); [|reflexivity]. cbn [app]. change (N.eqb 58 58) with true. cbv iota zeta.
      unfold at_. cbn [length Nat.leb nth andb]. change digit_char with is_digit. rewrite Hx, Hy. cbn [andb]. f_equal. symmetry. exact Emm.
  - apply (Hpre [] 0); reflexivity.
Qed.

Lemma split19 l : (19 <= length l)%nat ->
  l = firstn 10 l ++ [at_ l 10] ++ (firstn 2 (skipn 11 l) ++ [at_ l 13] ++ firstn 2 (skipn 14 l) ++ [at_ l 16] ++ firstn 2 (skipn 17 l)) ++ skipn 19 l.
Proof. intros H. do 19 (destruct l as [|? l]; [cbn in H; lia|]). reflexivity. Qed.

Definition year0 (y : Z) : Z := if y =? 0 then 86400 * 1000000 else 0.

Lemma instant_sum y m d hh mi ss micros o :
  date_value y m d * 24 * 60 * 60 * 1000000 + hh * 60 * 60 * 1000000 + mi * 60 * 1000000
                              + ss * 1000000 + micros - o * 60 * 1000000 = instant y m d hh mi ss micros o + year0 y.
Proof. unfold instant, date_value, year0. destruct (y =? 0); ring. Qed.

Lemma timestamp_complete l y t : denotes_timestamp l y t -> parse_timestamp l = Some (t + year0 y).
Proof.
  intros (date & sep & time & frac & zone & m & d & hh & mi & ss & micros & o & Hl & Hsep & Hdate & Htime & Hfrac & Hzone & ->).
  pose proof (denotes_length _ _ _ _ Hdate) as Ld.
  destruct Htime as (ht & mt & st & -> & Hh & Hm & Hs & B1 & B2 & B3).
  destruct (two_digits _ _ Hh) as (h1 & h2 & -> & _ & _ & _).
  destruct (two_digits _ _ Hm) as (m1 & m2 & -> & _ & _ & _).
  destruct (two_digits _ _ Hs) as (s1 & s2 & -> & _ & _ & _).
  set (rest := frac ++ zone) in *.
  assert (Hl' : l = date ++ sep :: h1 :: h2 :: 58%N :: m1 :: m2 :: 58%N :: s1 :: s2 :: rest) by (rewrite Hl; reflexivity).
  assert (Len : (length l = 19 + length rest)%nat) by (rewrite Hl', app_length; cbn [length]; lia).
  assert (A : forall i, at_ l (10 + i) = at_ (sep :: h1 :: h2 :: 58%N :: m1 :: m2 :: 58%N :: s1 :: s2 :: rest) i).
  { intros i. rewrite Hl', at_app by lia. f_equal. lia. }
  assert (SK : forall i, skipn (10 + i) l = skipn i (sep :: h1 :: h2 :: 58%N :: m1 :: m2 :: 58%N :: s1 :: s2 :: rest)).
  { intros i. rewrite Hl', skipn_app, Ld. rewrite skipn_all2 by lia. cbn [app]. f_equal. lia. }
  unfold parse_timestamp. destruct (Nat.ltb_spec (length l) 19); [lia|].
  rewrite Hl' at 1. rewrite firstn_exact by exact Ld. rewrite (parse_date_complete _ _ _ _ Hdate).
  pose proof (A 0%nat) as A0. pose proof (A 3%nat) as A3. pose proof (A 6%nat) as A6.
  change (at_ l 10 = sep) in A0. change (at_ l 13 = 58%N) in A3. change (at_ l 16 = 58%N) in A6. rewrite A0, A3, A6.
  assert (Es : negb (N.eqb sep 84) && negb (N.eqb sep 32) = false) by (destruct Hsep as [-> | ->]; reflexivity). rewrite Es.
  change (negb (N.eqb 58 58) || negb (N.eqb 58 58)) with false. cbv iota.
  assert (E1 : digits_at l 11 2 0 = Some hh) by (apply digits_at_some; [lia|]; change 11%nat with (10 + 1)%nat; rewrite (SK 1%nat); exact Hh).
  assert (E2 : digits_at l 14 2 0 = Some mi) by (apply digits_at_some; [lia|]; change 14%nat with (10 + 4)%nat; rewrite (SK 4%nat); exact Hm).
  assert (E3 : digits_at l 17 2 0 = Some ss) by (apply digits_at_some; [lia|]; change 17%nat with (10 + 7)%nat; rewrite (SK 7%nat); exact Hs).
  rewrite E1, E2, E3.
  destruct (Z.ltb_spec 23 hh); [lia|]. destruct (Z.ltb_spec 59 mi); [lia|]. destruct (Z.ltb_spec 59 ss); [lia|]. cbn [orb].
  change 19%nat with (10 + 9)%nat. rewrite (SK 9%nat). change (skipn 9 (sep :: h1 :: h2 :: 58%N :: m1 :: m2 :: 58%N :: s1 :: s2 :: rest)) with rest. cbv zeta.
  assert (Hfz : match rest with
      | [] => Some (0, [])
      | c :: r => if N.eqb c 46 then match fraction 6 0 (firstn (find_zone r) r) with Some micros0 => Some (micros0, skipn (find_zone r) r) | None => None end else Some (0, rest)
      end = Some (micros, zone)).
  { unfold rest. destruct Hfrac as [[-> ->]|(ds & -> & Hds & ->)].
    - cbn [app]. destruct (zone_shape _ _ Hzone) as [->|(c & r & -> & Hc)]; [reflexivity|].
      assert (Ec : N.eqb c 46 = false) by (destruct Hc as [->|[->| ->]]; reflexivity). rewrite Ec. reflexivity.
    - cbn [app]. change (N.eqb 46 46) with true. cbv iota. rewrite find_zone_digits by (try exact Hds; eapply zone_shape, Hzone).
      rewrite firstn_exact, skipn_exact by reflexivity. rewrite fraction_spec by exact Hds. f_equal. }
  rewrite Hfz.
  assert (Hz : match zone with [] => Some 0 | _ :: _ => parse_timezone zone end = Some o).
  { destruct zone as [|c r] eqn:Ez; [|apply zone_complete; [exact Hzone|discriminate]].
    destruct Hzone as [[_ ->]|[[E _]|(s & ht & mt & ? & ? & _ & [E|E] & _)]]; [reflexivity|discriminate|discriminate|discriminate]. }
  rewrite Hz. f_equal. apply instant_sum.
Qed.

Lemma zone_bound z o : parse_timezone z = Some o -> -899 <= o <= 899 /\ exists c r, z = c :: r /\ zone_start c.
Proof.
  unfold parse_timezone. destruct z as [|s rest]; [discriminate|].
  destruct (N.eqb_spec s 90) as [->|]; [intros H; injection H as <-; split; [lia|]; exists 90%N, rest; unfold zone_start; auto|].
  destruct (negb (N.eqb s 43) && negb (N.eqb s 45)) eqn:Es; [discriminate|].
  destruct (Nat.ltb_spec (length rest) 2) as [|Hl]; [discriminate|].
  destruct (digits_at rest 0 2 0) as [h|] eqn:Eh; [|discriminate]. apply digits_at_some in Eh; [|lia]. apply digits_bound in Eh.
  match goal with |- context [match ?M with Some _ => _ | None => None end] => set (minute := M) end.
  destruct minute as [mi|] eqn:Em; [|discriminate].
  assert (Bm : 0 <= mi).
  { unfold minute in Em. cbv zeta in Em. destruct (skipn 2 rest) as [|c r']; [injection Em as <-; lia|].
    set (r := if N.eqb c 58 then r' else c :: r') in *. 
    destruct ((2 <=? length r)%nat && digit_char (at_ r 0) && digit_char (at_ r 1)) eqn:E.
    - injection Em as <-. apply andb_true_iff in E. destruct E as [E E1]. apply andb_true_iff in E. destruct E as [_ E0].
      apply is_digit_range in E0. apply is_digit_range in E1. lia.
    - destruct ((1 <=? length r)%nat && digit_char (at_ r 0)); [discriminate|]. injection Em as <-. lia. }
  destruct (Z.ltb_spec 14 h); [discriminate|]. destruct (Z.ltb_spec 59 mi); [discriminate|]. cbn [orb].
  intros H1. injection H1 as <-. split; [destruct (N.eqb s 45); lia|]. exists s, rest. split; [reflexivity|].
  apply andb_false_iff in Es. unfold zone_start. destruct Es as [Es|Es]; apply negb_false_iff, N.eqb_eq in Es; auto.
Qed.

Lemma timestamp_sound l v : parse_timestamp l = Some v ->
  exists date sep time rest y m d hh mi ss micros o,
    l = date ++ [sep] ++ time ++ rest /\ (sep = 84 \/ sep = 32)%N /\ denotes_date date y m d /\ denotes_time time hh mi ss /\
    0 <= micros < 1000000 /\ -899 <= o <= 899 /\
    (rest = [] \/ exists c r, rest = c :: r /\ (c = 46%N \/ zone_start c)) /\
    (micros <> 0 -> exists r, rest = 46%N :: r) /\ (rest = [] -> o = 0) /\
    v = instant y m d hh mi ss micros o + year0 y.
Proof.
  unfold parse_timestamp. destruct (Nat.ltb_spec (length l) 19) as [|Hl]; [discriminate|].
  destruct (parse_date (firstn 10 l)) as [days|] eqn:Ed; [|discriminate].
  destruct (parse_date_sound _ _ Ed) as (y & m & d & Hdate & ->).
  destruct (negb (N.eqb (at_ l 10) 84) && negb (N.eqb (at_ l 10) 32)) eqn:Es; [discriminate|].
  destruct (negb (N.eqb (at_ l 13) 58) || negb (N.eqb (at_ l 16) 58)) eqn:Ec; [discriminate|].
  apply orb_false_iff in Ec. destruct Ec as [Ec1 Ec2]. apply negb_false_iff, N.eqb_eq in Ec1. apply negb_false_iff, N.eqb_eq in Ec2.
  destruct (digits_at l 11 2 0) as [hh|] eqn:E1; [|discriminate].
  destruct (digits_at l 14 2 0) as [mi|] eqn:E2; [|discriminate].
  destruct (digits_at l 17 2 0) as [ss|] eqn:E3; [|discriminate].
  apply digits_at_some in E1; [|lia]. apply digits_at_some in E2; [|lia]. apply digits_at_some in E3; [|lia].
  destruct (Z.ltb_spec 23 hh); [discriminate|]. destruct (Z.ltb_spec 59 mi); [discriminate|]. destruct (Z.ltb_spec 59 ss); [discriminate|].
  cbn [orb]. cbv zeta. set (rest := skipn 19 l).
  match goal with |- match ?M with Some _ => _ | None => None end = _ -> _ => set (fz := M) end.
  destruct fz as [[micros zone]|] eqn:Efz; [|discriminate].
  assert (Hfz : 0 <= micros < 1000000 /\ (micros <> 0 -> exists r, rest = 46%N :: r) /\
     (rest = [] -> zone = []) /\ (rest = zone \/ exists r, rest = 46%N :: r)).
  { unfold fz in Efz. clearbody rest. destruct rest as [|c r]; [injection Efz as <- <-; repeat split; auto; lia|].
    destruct (N.eqb_spec c 46) as [->|].
    - destruct (fraction 6 0 (firstn (find_zone r) r)) as [mc|] eqn:Ef; [|discriminate]. injection Efz as <- <-.
      apply fraction_bound in Ef; [|lia]. change (10 ^ Z.of_nat 6) with 1000000 in Ef.
      split; [lia|]. split; [intros _; eauto|]. split; [discriminate|]. right. eauto.
    - injection Efz as <- <-. repeat split; auto; try lia. }
  destruct Hfz as (F1 & F2 & F3 & F4).
  match goal with |- match ?M with Some _ => _ | None => None end = _ -> _ => set (zo := M) end.
  destruct zo as [o|] eqn:Eo; [|discriminate]. intros Hv. injection Hv as <-.
  assert (Hz : -899 <= o <= 899 /\ (zone = [] /\ o = 0 \/ exists c r, zone = c :: r /\ zone_start c)).
  { unfold zo in Eo. destruct zone as [|c r]; [injection Eo as <-; split; [lia|left; auto]|].
    destruct (zone_bound _ _ Eo) as [B1 B2]. split; [exact B1|right; exact B2]. }
  destruct Hz as [Z1 Z2].
  exists (firstn 10 l), (at_ l 10), (firstn 2 (skipn 11 l) ++ [at_ l 13] ++ firstn 2 (skipn 14 l) ++ [at_ l 16] ++ firstn 2 (skipn 17 l)), rest, y, m, d, hh, mi, ss, micros, o.
  split; [apply split19, Hl|]. split; [apply andb_false_iff in Es; destruct Es as [Es|Es]; apply negb_false_iff, N.eqb_eq in Es; auto|].
  split; [exact Hdate|]. split.
  { exists (firstn 2 (skipn 11 l)), (firstn 2 (skipn 14 l)), (firstn 2 (skipn 17 l)). rewrite Ec1, Ec2. repeat split; try apply E1; try apply E2; try apply E3; lia. }
  split; [exact F1|]. split; [exact Z1|]. split.
  { destruct F4 as [F4|(r & F4)]; [|right; exists 46%N, r; auto].
    destruct Z2 as [[-> _]|(c & r & -> & Hc)]; [left; exact F4|]. right. exists c, r. auto. }
  split; [exact F2|]. split; [|apply instant_sum].
  intros Hr. specialize (F3 Hr). destruct Z2 as [[_ ->]|(c & r & E & _)]; [reflexivity|congruence].
Qed.

(** Range. *)
Lemma digits4_bound y l : digits 4 y l -> 0 <= y < 10000.
Proof. intros H. apply digits_bound in H. exact H. Qed.

Lemma day_number_bound y m d : valid_date y m d -> y < 10000 -> - 719528 <= day_number y m d < 2932897.
Proof.
  intros V Hy. pose proof (day_in_year _ _ _ V) as D. rewrite days_1970 in D. destruct V as (V1 & _ & _).
  pose proof (before_mono 0 (Z.to_nat y) ltac:(lia)) as A. pose proof (before_mono (S (Z.to_nat y)) (Z.to_nat 10000) ltac:(lia)) as B.
  assert (E : days_before_year (Z.to_nat 10000) = 3652425) by (rewrite days_before_closed by lia; reflexivity).
  rewrite E in B. change (days_before_year 0) with 0 in A. lia.
Qed.

Lemma timestamp_range l v : parse_timestamp l = Some v -> - 10 ^ 17 < v < 10 ^ 18.
Proof.
  intros H. destruct (timestamp_sound l v H) as (date & sep & time & rest & y & m & d & hh & mi & ss & micros & o &
    _ & _ & Hd & Ht & B1 & B2 & _ & _ & _ & ->).
  destruct Hd as (_ & yt & _ & _ & _ & _ & Hy & _ & _ & V). apply digits4_bound in Hy.
  destruct Ht as (ht & mt & st & _ & H1 & H2 & H3 & B3 & B4 & B5). apply digits_bound in H1. apply digits_bound in H2. apply digits_bound in H3.
  pose proof (day_number_bound y m d V ltac:(lia)) as D. unfold instant, year0.
  set (n := day_number y m d) in *. clearbody n. change (10 ^ Z.of_nat 2) with 100 in *.
  change (10 ^ 17) with 100000000000000000. change (10 ^ 18) with 1000000000000000000. destruct (y =? 0); lia.
Qed.

Lemma zone_length z o : denotes_zone z o -> (length z <= 6)%nat.
Proof.
  intros [[-> _]|[[-> _]|(s & ht & mt & hh & mm & Hs & Hl & (L1 & _) & Hm & _)]]; [cbn; lia|cbn; lia|].
  assert (L2 : (length mt <= 2)%nat) by (destruct Hm as [(L2 & _)|(-> & _)]; [lia|cbn; lia]).
  destruct Hl as [-> | ->]; cbn [length app]; rewrite ?app_length; cbn [length]; lia.
Qed.

Lemma trailing_not_denoted : forall y t, ~ denotes_timestamp (s2b "2020-01-01T00:00:00Z and more") y t.
Proof.
  intros y t (date & sep & time & frac & zone & m & d & hh & mi & ss & micros & o & Hl & Hsep & Hdate & Htime & Hfrac & Hzone & _).
  pose proof (denotes_length _ _ _ _ Hdate) as Ld.
  destruct Htime as (ht & mt & st & -> & Hh & Hm & Hs & _).
  destruct (two_digits _ _ Hh) as (h1 & h2 & -> & _ & _ & _).
  destruct (two_digits _ _ Hm) as (m1 & m2 & -> & _ & _ & _).
  destruct (two_digits _ _ Hs) as (s1 & s2 & -> & _ & _ & _).
  apply (f_equal (skipn 19)) in Hl.
  rewrite (app_assoc date), (app_assoc (date ++ [sep])) in Hl. rewrite (skipn_exact 19) in Hl by (rewrite !app_length, Ld; reflexivity).
  change (s2b "Z and more" = frac ++ zone) in Hl.
  destruct Hfrac as [[-> _]|(ds & -> & _)]; [|discriminate]. apply zone_length in Hzone. cbn [app] in Hl. subst zone. cbn in Hzone. lia.
Qed.
