From Verif Require Import Base StatsSpec ChunkedSpec ChunkedModel PlainModel StatsModel StatsProof.

(** * Doubles *)
Definition number (v : N) : Prop := dbl_nan v = false.
Definition numbers (l : list N) : list N := filter (fun v => negb (dbl_nan v)) l.
Lemma numbers_app : forall a b, numbers (a ++ b) = numbers a ++ numbers b.
Proof. intros. apply filter_app. Qed.
Lemma numbers_all : forall l, Forall number (numbers l).
Proof. intros l. apply Forall_forall. intros x H. apply filter_In in H. destruct H as (_ & H). unfold number. destruct (dbl_nan x); [discriminate|reflexivity]. Qed.
Lemma numbers_id : forall l, Forall number l -> numbers l = l.
Proof.
  induction l as [|x l IH]; intros H; [reflexivity|]. inversion H; subst. unfold numbers in *. cbn [filter].
  unfold number in *. rewrite H2, IH by assumption. reflexivity.
Qed.
Lemma nan_or_numbers : forall l, existsb dbl_nan l = true \/ Forall number l.
Proof.
  induction l as [|x l IH]; [right; constructor|]. cbn [existsb]. destruct (dbl_nan x) eqn:E; [left; reflexivity|].
  destruct IH as [IH|IH]; [left; assumption|right; constructor; assumption].
Qed.
Notation gt := (flip dbl_lt).
Lemma gt_order : order gt number.
Proof. apply order_flip, dbl_order. Qed.

Lemma std_max_flip : forall a b, std_max dbl_lt a b = std_min gt a b.
Proof. reflexivity. Qed.

(** the scalar loops *)
Lemma scalar_numbers : forall r l lo hi, Forall number l ->
  is_least dbl_lt l lo -> is_least gt l hi ->
  is_least dbl_lt (l ++ numbers r) (fst (fold_left scalar_step r (lo, hi))) /\
  is_least gt (l ++ numbers r) (snd (fold_left scalar_step r (lo, hi))).
Proof.
  induction r as [|x r IH]; intros l lo hi Hl H1 H2; unfold numbers; cbn [fold_left filter].
  - rewrite app_nil_r. auto.
  - unfold scalar_step at 2 4. destruct (dbl_nan x) eqn:E; cbn [negb fst snd]; [apply IH; assumption|].
    replace (l ++ x :: filter (fun v => negb (dbl_nan v)) r) with ((l ++ [x]) ++ numbers r) by (rewrite <- app_assoc; reflexivity).
    assert (Hx : Forall number [x]) by (constructor; [assumption|constructor]).
    apply IH; [apply Forall_app; auto| |].
    + apply (least_app _ _ dbl_order l [x]); auto. apply (least_single _ _ dbl_order). assumption.
    + apply (least_app _ _ gt_order l [x]); auto. apply (least_single _ _ gt_order). assumption.
Qed.
Lemma nan_not_less : forall a b, dbl_nan a = true -> dbl_lt a b = false /\ dbl_lt b a = false.
Proof. intros a b H. unfold dbl_lt. rewrite H. cbn [negb andb]. rewrite andb_false_r. auto. Qed.
Lemma scalar_nan : forall r lo hi, dbl_nan lo = true -> dbl_nan hi = true ->
  dbl_nan (fst (fold_left scalar_step r (lo, hi))) = true.
Proof.
  induction r as [|x r IH]; intros lo hi H1 H2; cbn [fold_left]; [assumption|].
  unfold scalar_step at 2. destruct (dbl_nan x) eqn:E; cbn [negb fst snd]; [apply IH; assumption|].
  unfold std_min, std_max. destruct (nan_not_less lo x H1) as (_ & ->). destruct (nan_not_less hi x H2) as (-> & _). apply IH; assumption.
Qed.
Lemma fallback_found : forall r l lo hi, Forall number l ->
  is_least dbl_lt l lo -> is_least gt l hi ->
  is_least dbl_lt (l ++ numbers r) (fst (snd (fold_left fallback_step r (true, (lo, hi))))) /\
  is_least gt (l ++ numbers r) (snd (snd (fold_left fallback_step r (true, (lo, hi))))).
Proof.
  induction r as [|x r IH]; intros l lo hi Hl H1 H2; unfold numbers; cbn [fold_left filter].
  - rewrite app_nil_r. auto.
  - unfold fallback_step at 2 4. destruct (dbl_nan x) eqn:E; cbn [negb fst snd]; [apply IH; assumption|].
    replace (l ++ x :: filter (fun v => negb (dbl_nan v)) r) with ((l ++ [x]) ++ numbers r) by (rewrite <- app_assoc; reflexivity).
    assert (Hx : Forall number [x]) by (constructor; [assumption|constructor]).
    apply IH; [apply Forall_app; auto| |].
    + apply (least_app _ _ dbl_order l [x]); auto. apply (least_single _ _ dbl_order). assumption.
    + apply (least_app _ _ gt_order l [x]); auto. apply (least_single _ _ gt_order). assumption.
Qed.
Lemma fallback_all : forall r out, numbers r <> [] ->
  is_least dbl_lt (numbers r) (fst (snd (fold_left fallback_step r (false, out)))) /\
  is_least gt (numbers r) (snd (snd (fold_left fallback_step r (false, out)))).
Proof.
  induction r as [|x r IH]; intros out Hne; [contradiction|]. unfold numbers in *. cbn [fold_left filter] in *.
  unfold fallback_step at 2 4. destruct (dbl_nan x) eqn:E; cbn [negb fst snd] in *; [apply IH; assumption|].
  apply (fallback_found r [x] x x); [constructor; [assumption|constructor]| |].
  - apply (least_single _ _ dbl_order). assumption.
  - apply (least_single _ _ gt_order). assumption.
Qed.

(** a NaN, once in a lane, stays *)
Lemma loop_nan : forall hw, propagates_nan hw ->
  forall fuel vmin vmax data vmin' vmax' rest,
  length vmin = hw_lanes hw -> length vmax = hw_lanes hw ->
  vector_loop fuel (hw_lanes hw) (hw_min hw) (hw_max hw) vmin vmax data = (vmin', vmax', rest) ->
  forall used, data = used ++ rest ->
  (existsb dbl_nan vmin = true /\ existsb dbl_nan vmax = true) \/ existsb dbl_nan used = true ->
  existsb dbl_nan vmin' = true /\ existsb dbl_nan vmax' = true.
Proof.
  intros hw (P & _). induction fuel as [|fuel IH]; intros vmin vmax data vmin' vmax' rest L1 L2 E used Eu H; cbn [vector_loop] in E.
  - injection E as <- <- <-.
    assert (used = []) by (apply (f_equal (@length N)) in Eu; rewrite app_length in Eu; destruct used; [reflexivity|cbn in Eu; lia]).
    subst. destruct H as [H|H]; [assumption|discriminate].
  - destruct (Nat.leb_spec (hw_lanes hw) (length data)) as [Hle|Hgt].
    + assert (Lf : length (firstn (hw_lanes hw) data) = hw_lanes hw) by (rewrite firstn_length; lia).
      assert (Lm1 : length (lanewise (hw_min hw) vmin (firstn (hw_lanes hw) data)) = hw_lanes hw) by (rewrite lanewise_length; lia).
      assert (Lm2 : length (lanewise (hw_max hw) vmax (firstn (hw_lanes hw) data)) = hw_lanes hw) by (rewrite lanewise_length; lia).
      assert (Hlane : forall v, In v (firstn (hw_lanes hw) data) -> dbl_nan v = true ->
          existsb dbl_nan (lanewise (hw_min hw) vmin (firstn (hw_lanes hw) data)) = true /\
          existsb dbl_nan (lanewise (hw_max hw) vmax (firstn (hw_lanes hw) data)) = true).
      { intros v Hv Hn. split; apply existsb_exists.
        - destruct (lanewise_r (hw_min hw) vmin _ v (eq_trans L1 (eq_sym Lf)) Hv) as (m & Hm & Hi).
          exists (hw_min hw m v). split; [assumption|]. apply (P m v). rewrite Hn. apply orb_true_r.
        - destruct (lanewise_r (hw_max hw) vmax _ v (eq_trans L2 (eq_sym Lf)) Hv) as (m & Hm & Hi).
          exists (hw_max hw m v). split; [assumption|]. apply (P m v). rewrite Hn. apply orb_true_r. }
      assert (Hkeep : existsb dbl_nan vmin = true /\ existsb dbl_nan vmax = true ->
          existsb dbl_nan (lanewise (hw_min hw) vmin (firstn (hw_lanes hw) data)) = true /\
          existsb dbl_nan (lanewise (hw_max hw) vmax (firstn (hw_lanes hw) data)) = true).
      { intros (K1 & K2). apply existsb_exists in K1. apply existsb_exists in K2. destruct K1 as (m1 & I1 & N1). destruct K2 as (m2 & I2 & N2).
        split; apply existsb_exists.
        - destruct (lanewise_l (hw_min hw) vmin _ m1 (eq_trans L1 (eq_sym Lf)) I1) as (y & Hy & Hi).
          exists (hw_min hw m1 y). split; [assumption|]. apply (P m1 y). rewrite N1. reflexivity.
        - destruct (lanewise_l (hw_max hw) vmax _ m2 (eq_trans L2 (eq_sym Lf)) I2) as (y & Hy & Hi).
          exists (hw_max hw m2 y). split; [assumption|]. apply (P m2 y). rewrite N2. reflexivity. }
      assert (Hrest : length rest <= length (skipn (hw_lanes hw) data)).
      { assert (R1 : right_op (fun _ _ : N => false) (fun _ => False) (hw_min hw)) by (intros a b []).
        assert (R2 : right_op (flip (fun _ _ : N => false)) (fun _ => False) (hw_max hw)) by (intros a b []).
        assert (O : order (fun _ _ : N => false) (fun _ => False)) by (split; intros; contradiction).
        destruct (vector_loop_ok _ _ _ _ _ _ O R1 R2 _ [] _ _ _ _ _ _ Lm1 Lm2 E) as (u & Eu' & _).
        rewrite Eu', app_length. lia. }
      assert (Hu : hw_lanes hw <= length used).
      { apply (f_equal (@length N)) in Eu. rewrite app_length in Eu. rewrite skipn_length in Hrest. lia. }
      assert (E1 : firstn (hw_lanes hw) data = firstn (hw_lanes hw) used).
      { rewrite Eu, firstn_app. replace (hw_lanes hw - length used) with 0 by lia. cbn [firstn]. apply app_nil_r. }
      apply (IH _ _ _ _ _ _ Lm1 Lm2 E (skipn (hw_lanes hw) used)).
      * rewrite Eu, skipn_app. replace (hw_lanes hw - length used) with 0 by lia. reflexivity.
      * destruct H as [H|H]; [left; auto|].
        apply existsb_exists in H. destruct H as (v & Hv & Hn).
        rewrite <- (firstn_skipn (hw_lanes hw) used) in Hv. apply in_app_iff in Hv. destruct Hv as [Hv|Hv].
        -- left. apply (Hlane v); [rewrite E1; assumption|assumption].
        -- right. apply existsb_exists. eauto.
    + injection E as <- <- <-.
      assert (used = []) by (apply (f_equal (@length N)) in Eu; rewrite app_length in Eu; destruct used; [reflexivity|cbn in Eu; lia]).
      subst. destruct H as [H|H]; [assumption|discriminate].
Qed.

Lemma drop_nans_none : forall data, drop_nans data = [] -> numbers data = [].
Proof.
  induction data as [|x r IH]; intros E; [reflexivity|]. unfold numbers in *. cbn [drop_nans filter] in *.
  destruct (dbl_nan x); [cbn [negb]; auto|discriminate].
Qed.
Lemma drop_nans_some : forall data first later, drop_nans data = first :: later ->
  number first /\ numbers data = first :: numbers later /\ (Forall number data -> Forall number later).
Proof.
  induction data as [|x r IH]; intros first later E; [discriminate|]. unfold numbers in *. cbn [drop_nans filter] in *.
  destruct (dbl_nan x) eqn:Ex; cbn [negb].
  - destruct (IH _ _ E) as (A & B & C). split; [assumption|]. split; [assumption|]. intros H. inversion H; auto.
  - injection E as <- <-. split; [assumption|]. split; [reflexivity|]. intros H. inversion H; auto.
Qed.

Theorem minmax_float64 : forall hw data, right_on_numbers hw ->
  propagates_nan hw \/ Forall number data ->
  (numbers data = [] -> compute_minmax_float64 hw data = (quiet_nan, quiet_nan)) /\
  (numbers data <> [] ->
    is_least dbl_lt (numbers data) (fst (compute_minmax_float64 hw data)) /\
    is_greatest dbl_lt (numbers data) (snd (compute_minmax_float64 hw data))).
Proof.
  intros hw data (Hn & Hop & Hred) Hcase. unfold compute_minmax_float64.
  destruct (drop_nans data) as [|first later] eqn:Ed.
  - split; [reflexivity|]. intros H. destruct (H (drop_nans_none _ Ed)).
  - destruct (drop_nans_some _ _ _ Ed) as (Hf & En & Hlater). split; [rewrite En; discriminate|]. intros _.
    destruct (vector_loop (length later) (hw_lanes hw) (hw_min hw) (hw_max hw) (repeat first (hw_lanes hw)) (repeat first (hw_lanes hw)) later)
      as [[vmin vmax] rest] eqn:E.
    assert (R1 : right_op dbl_lt number (hw_min hw)). { intros a b Ha Hb. apply Hop; assumption. }
    assert (R2 : right_op gt number (hw_max hw)). { intros a b Ha Hb. apply Hop; assumption. }
    destruct (vector_loop_ok _ dbl_lt number _ _ _ dbl_order R1 R2 _ [first] _ _ _ _ _ _ (repeat_length _ _) (repeat_length _ _) E)
      as (used & Eu & L1 & L2 & Hcov).
    rewrite greatest_flip.
    destruct (nan_or_numbers used) as [Hnan|Hok].
    + destruct Hcase as [Hp|Hall].
      2:{ exfalso. specialize (Hlater Hall). rewrite Eu in Hlater. apply Forall_app in Hlater. destruct Hlater as (Hu & _).
          apply existsb_exists in Hnan. destruct Hnan as (v & Hv & Hnv). rewrite Forall_forall in Hu. specialize (Hu v Hv). unfold number in Hu. congruence. }
      destruct (loop_nan hw Hp _ _ _ _ _ _ _ (repeat_length _ _) (repeat_length _ _) E used Eu (or_intror Hnan)) as (K1 & K2).
      destruct Hp as (_ & Hp2).
      pose proof (proj1 (Hp2 vmin K1)) as Q1. pose proof (proj2 (Hp2 vmax K2)) as Q2.
      rewrite (scalar_nan rest _ _ Q1 Q2). cbn [orb]. apply fallback_all. rewrite En. discriminate.
    + assert (Hdone : Forall number [first]) by (constructor; [assumption|constructor]).
      destruct (Hcov Hdone Hok (covers_first _ _ dbl_order _ _ Hn Hf) (covers_first _ _ gt_order _ _ Hn Hf)) as (C1 & C2).
      assert (Hdu : Forall number ([first] ++ used)) by (apply Forall_app; auto).
      assert (F1 : Forall number vmin). { apply Forall_forall. intros m Hm. rewrite Forall_forall in Hdu. apply Hdu, C1, Hm. }
      assert (F2 : Forall number vmax). { apply Forall_forall. intros m Hm. rewrite Forall_forall in Hdu. apply Hdu, C2, Hm. }
      assert (N1 : vmin <> []) by (destruct vmin; cbn in *; [lia|discriminate]).
      assert (N2 : vmax <> []) by (destruct vmax; cbn in *; [lia|discriminate]).
      pose proof (covers_least _ _ dbl_order _ _ _ Hdu C1 (proj1 (Hred vmin N1 F1))) as M1.
      pose proof (covers_least _ _ gt_order _ _ _ Hdu C2 (proj2 (Hred vmax N2 F2))) as M2.
      destruct (scalar_numbers rest _ _ _ Hdu M1 M2) as (S1 & S2).
      assert (Eall : numbers data = ([first] ++ used) ++ numbers rest).
      { rewrite En, Eu, numbers_app, (numbers_id used) by assumption. reflexivity. }
      rewrite <- Eall in S1, S2.
      assert (Q1 := least_ok _ number _ _ (numbers_all data) S1). assert (Q2 := least_ok _ number _ _ (numbers_all data) S2).
      unfold number in Q1, Q2. rewrite Q1, Q2. cbn [orb]. split; assumption.
Qed.
