(** Exact counts of the statistics of doubles. *)
From Verif Require Import Base StatsSpec StatsSpec2 StatsModel StatsProof StatsProof2 StatsProof3.
From Coq Require Import Permutation.

Lemma nulls_app {T} (a b : list (option T)) : nulls (a ++ b) = nulls a + nulls b.
Proof. unfold nulls. rewrite filter_app, app_length. reflexivity. Qed.
Lemma values_app_ {T} (a b : list (option T)) : values (a ++ b) = values a ++ values b.
Proof. unfold values. apply flat_map_app. Qed.

Lemma nan_null_some vs : length (values (nan_null (map Some vs))) + nans vs = length vs /\ nulls (nan_null (map Some vs)) = nans vs.
Proof.
  unfold nans. induction vs as [|v vs (A & B)]; [split; reflexivity|]. unfold nan_null, values, nulls in *. cbn [map flat_map filter app length].
  destruct (dbl_nan v); cbn [app flat_map filter length]; split; lia.
Qed.

Lemma has_number_iff vs : has_number vs = false <-> numbers vs = [].
Proof.
  unfold has_number, numbers. induction vs as [|v vs IH]; [split; reflexivity|]. cbn [existsb filter]. destruct (dbl_nan v); cbn [negb orb]; [exact IH|].
  split; discriminate.
Qed.
Lemma no_number_all vs : has_number vs = false -> nans vs = length vs.
Proof.
  unfold has_number, nans. induction vs as [|v vs IH]; intros H; [reflexivity|]. cbn [existsb filter] in *. destruct (dbl_nan v); [|discriminate].
  cbn [length]. rewrite IH; [reflexivity|exact H].
Qed.

Section Counts.
Variable hw : hardware.
Hypothesis R : right_on_numbers hw.
Hypothesis P : propagates_nan hw.

Lemma counts_history h :
  (s_value_count (run_history (double_class hw) h) = Z.of_nat (length (values (nan_null (cells h)))) + Z.of_nat (nans_beside_numbers h))%Z /\
  (s_null_count (run_history (double_class hw) h) + Z.of_nat (nans_beside_numbers h) + Z.of_nat (nans_alone h) = Z.of_nat (nulls (nan_null (cells h))))%Z.
Proof.
  induction h as [|h IH v|h IH|h IH vs|h IH vs bm|h IH o IHo|h IH];
    cbn [run_history cells double_class c_new c_update c_update_null c_batch c_batch_nulls c_merge c_reset nans_beside_numbers nans_alone].
  - split; reflexivity.
  - rewrite nan_null_app, values_app_, nulls_app, app_length. unfold dbl_update. cbn [nan_null map]. destruct (dbl_nan v).
    + unfold update_null, values, nulls in *. cbn [s_value_count s_null_count flat_map filter length app]. lia.
    + unfold update, values, nulls in *. destruct (negb _); cbn [s_value_count s_null_count flat_map filter length app]; lia.
  - rewrite nan_null_app, values_app_, nulls_app, app_length. unfold update_null, values, nulls in *. cbn [nan_null map s_value_count s_null_count flat_map filter length app]. lia.
  - rewrite nan_null_app, values_app_, nulls_app, app_length. destruct (minmax_float64 hw vs R (or_introl P)) as (M0 & M1).
    destruct (nan_null_some vs) as (A & B). rewrite B. unfold dbl_update_batch.
    destruct vs as [|v vs]; [cbn in *; lia|]. pose proof (has_number_iff (v :: vs)) as HN. destruct (has_number (v :: vs)) eqn:EN.
    + destruct (numbers (v :: vs)) as [|n ns] eqn:En; [destruct HN as (_ & HN); discriminate (HN eq_refl)|].
      specialize (M1 ltac:(discriminate)). destruct (compute_minmax_float64 hw (v :: vs)) as (a, b). cbn [fst snd] in M1. destruct M1 as (M1 & _).
      assert (Ea : dbl_nan a = false) by (rewrite <- En in M1; exact (least_ok _ number _ _ (numbers_all _) M1)).
      rewrite Ea. cbn [negb]. unfold add_counts, absorb. destruct (negb _); cbn [s_value_count s_null_count] in *; lia.
    + rewrite M0 by (apply HN; reflexivity). change (negb (dbl_nan quiet_nan)) with false. cbv iota. pose proof (no_number_all _ EN). lia.
  - rewrite nan_null_app, values_app_, nulls_app, app_length. unfold dbl_update_batch_with_nulls. rewrite extract_ok. fold (nan_null (masked vs bm)).
    destruct (values (nan_null (masked vs bm))) as [|v r] eqn:E.
    + unfold add_counts. cbn [s_value_count s_null_count length]. lia.
    + rewrite <- E. assert (Hn := values_numbers (masked vs bm)).
      destruct (minmax_float64 hw (values (nan_null (masked vs bm))) R (or_introl P)) as (_ & M). rewrite (numbers_id _ Hn) in M.
      rewrite E in M. specialize (M ltac:(discriminate)). rewrite <- E in M.
      destruct (compute_minmax_float64 hw (values (nan_null (masked vs bm)))) as (a, b). cbn [fst snd] in M. destruct M as (M1 & M2).
      assert (Ea : dbl_nan a = false) by exact (least_ok _ number _ _ Hn M1). rewrite Ea. cbn [negb].
      unfold add_counts, absorb. destruct (negb _); cbn [s_value_count s_null_count] in *; lia.
  - rewrite nan_null_app, values_app_, nulls_app, app_length. unfold merge, add_counts, absorb.
    destruct (s_has_value _); [destruct (negb _)|]; cbn [s_value_count s_null_count] in *; lia.
  - split; reflexivity.
Qed.

Lemma plain_iff h : plain_batches_numbers h <-> nans_beside_numbers h = 0 /\ nans_alone h = 0.
Proof.
  induction h as [|h IH v|h IH|h IH vs|h IH vs bm|h IH o IHo|h IH]; cbn [plain_batches_numbers nans_beside_numbers nans_alone]; try tauto.
  - rewrite IH. assert (E : Forall (fun v => dbl_nan v = false) vs <-> nans vs = 0).
    { unfold nans. induction vs as [|v vs IV]; [split; [reflexivity|constructor]|]. cbn [filter]. split.
      - intros H. inversion H; subst. rewrite H2. apply IV. assumption.
      - destruct (dbl_nan v) eqn:Ev; [discriminate|]. intros H. constructor; [exact Ev|apply IV, H]. }
    rewrite E. destruct (has_number vs); lia.
  - rewrite IH, IHo. lia.
Qed.

Lemma describes_iff h : describes dbl_lt (report_of (double_class hw) h) (nan_null (cells h)) <-> plain_batches_numbers h.
Proof.
  split; [|intros H; apply (inv_describes dbl_lt number), double_history; assumption].
  intros (_ & N & V & _). apply plain_iff. destruct (counts_history h) as (A & B).
  unfold report_of in N, V. cbn [double_class c_get getters r_nulls r_values] in N, V. fold (double_class hw) in N, V.
  change (s_null_count (run_history (double_class hw) h) = Z.of_nat (nulls (nan_null (cells h)))) in N.
  change (s_value_count (run_history (double_class hw) h) = Z.of_nat (length (values (nan_null (cells h))))) in V. lia.
Qed.
End Counts.

Lemma range_agree T (lt : T -> T -> bool) r1 r2 a b : describes_range lt r1 a -> describes_range lt r2 b -> Permutation a b ->
  r_has_value r1 = r_has_value r2 /\
  (r_has_value r1 = true ->
    lt (r_min r1) (r_min r2) = false /\ lt (r_min r2) (r_min r1) = false /\
    lt (r_max r1) (r_max r2) = false /\ lt (r_max r2) (r_max r1) = false).
Proof.
  intros (B1 & R1) (B2 & R2) P. pose proof (values_perm _ _ _ P) as Pv.
  assert (Hne : values a <> [] <-> values b <> []).
  { split; intros Hn E; [rewrite E in Pv; apply Permutation_sym, Permutation_nil in Pv|rewrite E in Pv; apply Permutation_nil in Pv]; contradiction. }
  split; [apply eq_true_iff_eq; tauto|].
  intros Hv. apply B1 in Hv. destruct (R1 Hv) as (L1 & G1). destruct (R2 (proj1 Hne Hv)) as (L2 & G2).
  destruct L1 as (I1 & L1), G1 as (J1 & G1), L2 as (I2 & L2), G2 as (J2 & G2). repeat split.
  - apply L2. apply (Permutation_in _ Pv), I1.
  - apply L1. apply (Permutation_in _ (Permutation_sym Pv)), I2.
  - apply G1. apply (Permutation_in _ (Permutation_sym Pv)), J2.
  - apply G2. apply (Permutation_in _ Pv), J1.
Qed.
