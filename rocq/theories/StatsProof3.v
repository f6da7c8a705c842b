From Verif Require Import Base StatsSpec ChunkedSpec ChunkedModel PlainModel StatsModel StatsProof StatsProof2.
From Coq Require Import Permutation.

(** * The Statistics classes *)
Section Inv.
Context {T : Type} (lt : T -> T -> bool) (ok : T -> Prop) (O : order lt ok).

Definition range_inv (s : stats T) (cs : list (option T)) : Prop :=
  Forall ok (values cs) /\ describes_range lt (getters s) cs.
Definition inv (s : stats T) (cs : list (option T)) : Prop :=
  range_inv s cs /\ s_null_count s = Z.of_nat (nulls cs) /\ s_value_count s = Z.of_nat (length (values cs)).

Lemma inv_describes : forall s cs, inv s cs -> describes lt (getters s) cs.
Proof.
  intros s cs ((_ & R) & N1 & V1). unfold describes, getters in *. cbn [r_nulls r_values r_total r_has_null].
  split; [exact R|]. split; [assumption|]. split; [assumption|].
  split; [rewrite N1, V1, (cells_count _ cs); lia|]. rewrite N1, <- nulls_in. lia.
Qed.

Lemma inv_new : forall a b, inv (Stats a b 0 0 false) [].
Proof.
  intros a b. split; [|split; reflexivity]. split; [constructor|]. split; cbn; [|congruence].
  split; [discriminate|congruence].
Qed.

Lemma range_counts : forall s cs ns vs, range_inv s cs -> range_inv (add_counts s ns vs) cs.
Proof. intros s cs ns vs H. exact H. Qed.

(** folding a range in *)
Lemma range_absorb : forall s cs c2 lo hi, range_inv s cs -> Forall ok (values c2) ->
  is_least lt (values c2) lo -> is_greatest lt (values c2) hi ->
  range_inv (absorb lt s lo hi) (cs ++ c2).
Proof.
  intros s cs c2 lo hi (F1 & (B & R)) F2 Hlo Hhi. cbn [getters r_has_value r_min r_max] in *.
  assert (Hne : values c2 <> []) by (intros E; rewrite E in Hlo; destruct Hlo as ([] & _)).
  unfold range_inv, describes_range. rewrite values_app. split; [apply Forall_app; auto|].
  unfold absorb. destruct (s_has_value s) eqn:Eh; cbn [negb getters r_has_value r_min r_max].
  - assert (Hv : values cs <> []) by (apply B; reflexivity). destruct (R Hv) as (R1 & R2).
    split; [split; [intros _ E; apply app_eq_nil in E; tauto|reflexivity]|]. intros _. split.
    + apply (least_app lt ok O); assumption.
    + rewrite greatest_flip in *. apply (least_app (flip lt) ok (order_flip _ _ _ O)); assumption.
  - assert (Hv : values cs = []). { destruct (values cs); [reflexivity|]. assert (false = true) by (apply B; discriminate). discriminate. }
    rewrite Hv. cbn [app]. split; [split; auto|]. auto.
Qed.
Lemma inv_absorb : forall s cs c2 lo hi, inv s cs -> Forall ok (values c2) ->
  is_least lt (values c2) lo -> is_greatest lt (values c2) hi ->
  inv (add_counts (absorb lt s lo hi) (Z.of_nat (nulls c2)) (Z.of_nat (length (values c2)))) (cs ++ c2).
Proof.
  intros s cs c2 lo hi (R & N1 & V1) F2 Hlo Hhi. split.
  - apply range_counts, range_absorb; assumption.
  - rewrite nulls_app, values_app, app_length. unfold absorb. destruct (negb (s_has_value s)); cbn [add_counts s_null_count s_value_count]; lia.
Qed.
Lemma range_none : forall s cs c2, range_inv s cs -> values c2 = [] -> range_inv s (cs ++ c2).
Proof.
  intros s cs c2 H E. unfold range_inv, describes_range in *. rewrite values_app, E, app_nil_r. assumption.
Qed.
Lemma inv_none : forall s cs c2, inv s cs -> values c2 = [] -> inv (add_counts s (Z.of_nat (nulls c2)) 0) (cs ++ c2).
Proof.
  intros s cs c2 (R & N1 & V1) E. split; [apply range_counts, range_none; assumption|].
  rewrite nulls_app, values_app, E, app_nil_r. cbn [add_counts s_null_count s_value_count]. lia.
Qed.

Lemma update_as : forall s v, update lt s v = add_counts (absorb lt s v v) 0 1.
Proof. intros s v. unfold update, absorb, add_counts. destruct (negb (s_has_value s)); cbn [s_min s_max s_null_count s_value_count s_has_value]; f_equal; lia. Qed.
Lemma inv_update : forall s cs v, inv s cs -> ok v -> inv (update lt s v) (cs ++ [Some v]).
Proof.
  intros s cs v H Hv. rewrite update_as. apply (inv_absorb s cs [Some v] v v H); cbn [values flat_map app].
  - constructor; [assumption|constructor].
  - apply (least_single _ _ O). assumption.
  - apply (least_single _ _ (order_flip _ _ _ O)). assumption.
Qed.
Lemma inv_update_null : forall s cs, inv s cs -> inv (update_null s) (cs ++ [None]).
Proof.
  intros s cs H. replace (update_null s) with (add_counts s (Z.of_nat (nulls [@None T])) 0); [apply inv_none; [assumption|reflexivity]|].
  unfold add_counts, update_null. f_equal. lia.
Qed.
Lemma inv_update_batch : forall vs s cs, inv s cs -> Forall ok vs -> inv (update_batch lt s vs) (cs ++ map Some vs).
Proof.
  induction vs as [|v vs IH]; intros s cs H Hv; cbn [map].
  - rewrite app_nil_r. assumption.
  - inversion Hv; subst. replace (cs ++ Some v :: map Some vs) with ((cs ++ [Some v]) ++ map Some vs) by (rewrite <- app_assoc; reflexivity).
    unfold update_batch in *. cbn [fold_left]. apply IH; [apply inv_update; assumption|assumption].
Qed.
Lemma masked_hd : forall (v : T) vs bm, masked (v :: vs) bm = (if hd false bm then None else Some v) :: masked vs (tl bm).
Proof. intros v vs [|b bm]; reflexivity. Qed.
Lemma inv_update_batch_nulls : forall vs bm s cs, inv s cs -> Forall ok vs ->
  inv (update_batch_with_nulls lt s vs bm) (cs ++ masked vs bm).
Proof.
  induction vs as [|v vs IH]; intros bm s cs H Hv.
  - cbn. rewrite app_nil_r. assumption.
  - inversion Hv; subst. rewrite masked_hd. cbn [update_batch_with_nulls].
    replace (cs ++ (if hd false bm then None else Some v) :: masked vs (tl bm))
       with ((cs ++ [if hd false bm then None else Some v]) ++ masked vs (tl bm)) by (rewrite <- app_assoc; reflexivity).
    apply IH; [|assumption]. destruct (hd false bm); [apply inv_update_null|apply inv_update]; assumption.
Qed.
Lemma range_merge : forall s o cs co, range_inv s cs -> range_inv o co -> range_inv (merge lt s o) (cs ++ co).
Proof.
  intros s o cs co Hs (F & (B & R)). unfold merge. apply range_counts. cbn [getters r_has_value r_min r_max] in *.
  destruct (s_has_value o) eqn:Eh.
  - assert (Hv : values co <> []) by (apply B; reflexivity). destruct (R Hv). apply range_absorb; assumption.
  - apply range_none; [assumption|]. destruct (values co); [reflexivity|]. assert (false = true) by (apply B; discriminate). discriminate.
Qed.
Lemma inv_merge : forall s o cs co, inv s cs -> inv o co -> inv (merge lt s o) (cs ++ co).
Proof.
  intros s o cs co (R1 & N1 & V1) (R2 & N2 & V2). split; [apply range_merge; assumption|].
  rewrite nulls_app, values_app, app_length. unfold merge, absorb.
  destruct (s_has_value o); [destruct (negb (s_has_value s))|]; cbn [add_counts s_null_count s_value_count]; lia.
Qed.
End Inv.

(** extracting the values that are not null *)
Lemma extract_step : forall T (skip : T -> bool) v r bm, non_null_values skip (v :: r) bm =
  (let '(kept, ns) := non_null_values skip r (tl bm) in
   if hd false bm then (kept, ns + 1)%Z else if skip v then (kept, ns + 1)%Z else (v :: kept, ns)).
Proof. reflexivity. Qed.
Lemma extract_ok : forall T (skip : T -> bool) vs bm,
  let cs := map (fun c => match c with Some v => if skip v then None else Some v | None => None end) (masked vs bm) in
  non_null_values skip vs bm = (values cs, Z.of_nat (nulls cs)).
Proof.
  intros T skip. induction vs as [|v vs IH]; intros bm; [reflexivity|]. cbv zeta. rewrite extract_step, IH, masked_hd. cbn [map].
  destruct (hd false bm); [|destruct (skip v)]; unfold values, nulls; cbn [flat_map filter app length]; f_equal; lia.
Qed.
Lemma add_absorb : forall T (lt : T -> T -> bool) s lo hi ns n,
  add_counts (absorb lt (add_counts s ns 0) lo hi) 0 n = add_counts (absorb lt s lo hi) ns n.
Proof.
  intros. unfold absorb. cbn [add_counts s_has_value]. destruct (negb (s_has_value s)); unfold add_counts; cbn [s_min s_max s_null_count s_value_count s_has_value]; f_equal; lia.
Qed.

(** integers *)
Section IntClass.
Variables (lanes : nat) (lo hi : Z) (L : 0 < lanes).
Local Notation iinv := (inv Z.ltb (fun _ => True)).
Lemma int_batch : forall s cs c2, iinv s cs -> values c2 <> [] ->
  iinv (int_update_batch lanes lo hi (add_counts s (Z.of_nat (nulls c2)) 0) (values c2)) (cs ++ c2).
Proof.
  intros s cs c2 H Hne. unfold int_update_batch. destruct (values c2) as [|v r] eqn:E; [contradiction|].
  rewrite <- E in *. destruct (minmax_int lanes lo hi (values c2) L Hne) as (M1 & M2).
  destruct (compute_minmax_int lanes lo hi (values c2)) as (a, b). cbn [fst snd] in *.
  rewrite add_absorb. apply (inv_absorb _ _ int_order); auto using Forall_T.
Qed.
Lemma int_history : forall h, iinv (run_history (int_class lanes lo hi) h) (cells h).
Proof.
  induction h as [|h IH v|h IH|h IH vs|h IH vs bm|h IH o IHo|h IH]; cbn [run_history cells int_class c_new c_update c_update_null c_batch c_batch_nulls c_merge c_reset].
  - apply inv_new.
  - apply (inv_update _ _ int_order); auto.
  - apply inv_update_null. assumption.
  - destruct vs as [|v vs]; [cbn; rewrite app_nil_r; assumption|].
    pose proof (int_batch _ _ (map Some (v :: vs)) IH) as H. rewrite values_some, nulls_some in H.
    replace (add_counts (run_history (int_class lanes lo hi) h) (Z.of_nat 0) 0) with (run_history (int_class lanes lo hi) h) in H.
    + apply H. discriminate.
    + unfold add_counts. destruct (run_history (int_class lanes lo hi) h) as [a b c d e]. cbn [s_min s_max s_null_count s_value_count s_has_value]. f_equal; lia.
  - unfold int_update_batch_with_nulls. rewrite extract_ok.
    replace (map _ (masked vs bm)) with (masked vs bm).
    2:{ rewrite <- (map_id (masked vs bm)) at 1. apply map_ext. intros [|]; reflexivity. }
    destruct (values (masked vs bm)) as [|v r] eqn:E.
    + apply inv_none; assumption.
    + rewrite <- E. apply int_batch; [assumption|]. rewrite E. discriminate.
  - apply (inv_merge _ _ int_order); assumption.
  - apply inv_new.
Qed.
End IntClass.

Lemma string_history : forall h, inv string_lt (fun _ => True) (run_history string_class h) (cells h).
Proof.
  induction h as [|h IH v|h IH|h IH vs|h IH vs bm|h IH o IHo|h IH]; cbn [run_history cells string_class c_new c_update c_update_null c_batch c_batch_nulls c_merge c_reset].
  - apply inv_new.
  - apply (inv_update _ _ string_order); auto.
  - apply inv_update_null. assumption.
  - apply (inv_update_batch _ _ string_order); auto using Forall_T.
  - apply (inv_update_batch_nulls _ _ string_order); auto using Forall_T.
  - apply (inv_merge _ _ string_order); assumption.
  - apply inv_new.
Qed.

(** bool *)
Definition bool_inv (s : bool_stats) (cs : list (option bool)) : Prop :=
  (b_has_true s = true <-> In (Some true) cs) /\ (b_has_false s = true <-> In (Some false) cs) /\
  b_null_count s = Z.of_nat (nulls cs) /\ b_value_count s = Z.of_nat (length (values cs)).
Lemma bool_inv_new : bool_inv (BoolStats false false 0 0) [].
Proof. split; [|split; [|split]]; cbn; try reflexivity; split; [discriminate|contradiction|discriminate|contradiction]. Qed.
Lemma bool_inv_update : forall s cs v, bool_inv s cs -> bool_inv (bool_update s v) (cs ++ [Some v]).
Proof.
  intros s cs v (A & B & C & D). unfold bool_inv. rewrite nulls_app, values_app, app_length, !in_app_iff.
  unfold bool_update. cbn [b_has_true b_has_false b_null_count b_value_count]. cbn [In values nulls flat_map filter app length].
  destruct v; (split; [|split; [|split; lia]]); split; try tauto; try (intros [H|[H|[]]]; [tauto|congruence]).
Qed.
Lemma bool_inv_null : forall s cs, bool_inv s cs -> bool_inv (bool_update_null s) (cs ++ [None]).
Proof.
  intros s cs (A & B & C & D). unfold bool_inv. rewrite nulls_app, values_app, app_length, !in_app_iff.
  unfold bool_update_null. cbn [b_has_true b_has_false b_null_count b_value_count]. cbn [In values nulls flat_map filter app length].
  split; [|split; [|split; lia]]; split; try tauto; try (intros [H|[H|[]]]; [tauto|congruence]).
Qed.
Lemma bool_inv_batch : forall vs s cs, bool_inv s cs -> bool_inv (bool_update_batch s vs) (cs ++ map Some vs).
Proof.
  induction vs as [|v vs IH]; intros s cs H; cbn [map]; [rewrite app_nil_r; assumption|].
  replace (cs ++ Some v :: map Some vs) with ((cs ++ [Some v]) ++ map Some vs) by (rewrite <- app_assoc; reflexivity).
  unfold bool_update_batch in *. cbn [fold_left]. apply IH, bool_inv_update. assumption.
Qed.
Lemma bool_inv_batch_nulls : forall vs bm s cs, bool_inv s cs -> bool_inv (bool_update_batch_with_nulls s vs bm) (cs ++ masked vs bm).
Proof.
  induction vs as [|v vs IH]; intros bm s cs H; [cbn; rewrite app_nil_r; assumption|]. rewrite masked_hd. cbn [bool_update_batch_with_nulls].
  replace (cs ++ (if hd false bm then None else Some v) :: masked vs (tl bm))
     with ((cs ++ [if hd false bm then None else Some v]) ++ masked vs (tl bm)) by (rewrite <- app_assoc; reflexivity).
  apply IH. destruct (hd false bm); [apply bool_inv_null|apply bool_inv_update]; assumption.
Qed.
Lemma bool_inv_merge : forall s o cs co, bool_inv s cs -> bool_inv o co -> bool_inv (bool_merge s o) (cs ++ co).
Proof.
  intros s o cs co (A & B & C & D) (A' & B' & C' & D'). unfold bool_inv. rewrite nulls_app, values_app, app_length, !in_app_iff.
  unfold bool_merge. cbn [b_has_true b_has_false b_null_count b_value_count]. rewrite !orb_true_iff.
  split; [tauto|]. split; [tauto|]. split; lia.
Qed.
Lemma bool_history : forall h, bool_inv (run_history bool_class h) (cells h).
Proof.
  induction h as [|h IH v|h IH|h IH vs|h IH vs bm|h IH o IHo|h IH]; cbn [run_history cells bool_class c_new c_update c_update_null c_batch c_batch_nulls c_merge c_reset];
    auto using bool_inv_new, bool_inv_update, bool_inv_null, bool_inv_batch, bool_inv_batch_nulls, bool_inv_merge.
Qed.
Lemma bool_inv_describes : forall s cs, bool_inv s cs -> describes bool_lt (bool_getters s) cs.
Proof.
  intros s cs (A & B & C & D). unfold describes, describes_range, bool_getters. cbn [r_has_value r_min r_max r_nulls r_values r_total r_has_null].
  rewrite <- !in_values in A, B. split; [split|].
  - rewrite orb_true_iff. split.
    + intros [H|H] E; rewrite E in *; [apply A in H|apply B in H]; destruct H.
    + intros H. destruct (values cs) as [|[|] l]; [contradiction| |]; [left; apply A|right; apply B]; left; reflexivity.
  - intros H. unfold is_least, is_greatest, bool_lt.
    assert (Hin : In true (values cs) \/ In false (values cs)) by (destruct (values cs) as [|[|] l]; [contradiction| |]; [left|right]; left; reflexivity).
    split.
    + destruct (b_has_false s) eqn:E.
      * split; [tauto|]. intros x _. destruct x; reflexivity.
      * assert (Hf : ~ In false (values cs)) by (rewrite <- B; discriminate).
        split; [tauto|]. intros [|] Hx; [reflexivity|contradiction].
    + destruct (b_has_true s) eqn:E.
      * split; [tauto|]. reflexivity.
      * assert (Ht : ~ In true (values cs)) by (rewrite <- A; discriminate).
        split; [tauto|]. intros [|] Hx; [contradiction|reflexivity].
  - split; [assumption|]. split; [assumption|]. split; [rewrite C, D, (cells_count _ cs); lia|]. rewrite C, <- nulls_in. lia.
Qed.

(** double *)
Lemma nan_null_app : forall a b, nan_null (a ++ b) = nan_null a ++ nan_null b.
Proof. intros. apply map_app. Qed.
Lemma values_nan_null : forall cs, values (nan_null cs) = numbers (values cs).
Proof.
  induction cs as [|[v|] cs IH]; [reflexivity| |]; unfold values, nan_null, numbers in *; cbn [map flat_map app filter]; [|exact IH].
  destruct (dbl_nan v); cbn [flat_map negb app]; rewrite IH; reflexivity.
Qed.
Lemma values_numbers : forall cs, Forall number (values (nan_null cs)).
Proof. intros. rewrite values_nan_null. apply numbers_all. Qed.

Section DoubleClass.
Variable hw : hardware.
Variable R : right_on_numbers hw.
Local Notation dinv := (inv dbl_lt number).
Local Notation drange := (range_inv dbl_lt number).

Lemma dbl_inv_update : forall s cs v, dinv s (nan_null cs) -> dinv (dbl_update s v) (nan_null (cs ++ [Some v])).
Proof.
  intros s cs v H. unfold dbl_update. rewrite nan_null_app. cbn [nan_null map]. destruct (dbl_nan v) eqn:E.
  - apply inv_update_null. assumption.
  - apply (inv_update _ _ dbl_order); assumption.
Qed.
Lemma dbl_batch_numbers : forall s cs c2, dinv s cs -> Forall number (values c2) -> values c2 <> [] ->
  let '(a, b) := compute_minmax_float64 hw (values c2) in
  dbl_nan a = false /\ dinv (add_counts (absorb dbl_lt (add_counts s (Z.of_nat (nulls c2)) 0) a b) 0 (Z.of_nat (length (values c2)))) (cs ++ c2).
Proof.
  intros s cs c2 H Hn Hne. destruct (minmax_float64 hw (values c2) R (or_intror Hn)) as (_ & M).
  rewrite (numbers_id _ Hn) in M. destruct (M Hne) as (M1 & M2).
  destruct (compute_minmax_float64 hw (values c2)) as (a, b). cbn [fst snd] in *. split.
  - exact (least_ok _ number _ _ Hn M1).
  - rewrite add_absorb. apply (inv_absorb _ _ dbl_order); assumption.
Qed.
Lemma add_zero : forall T (s : stats T), add_counts s 0 0 = s.
Proof. intros T [a b c d e]. unfold add_counts. cbn [s_min s_max s_null_count s_value_count s_has_value]. f_equal; lia. Qed.
Lemma dbl_inv_batch : forall s cs vs, dinv s (nan_null cs) -> Forall number vs ->
  dinv (dbl_update_batch hw s vs) (nan_null (cs ++ map Some vs)).
Proof.
  intros s cs vs H Hn. rewrite nan_null_app.
  assert (E : nan_null (map Some vs) = map Some vs).
  { unfold nan_null. rewrite map_map. apply map_ext_in. intros v Hv. rewrite Forall_forall in Hn. specialize (Hn v Hv). unfold number in Hn. rewrite Hn. reflexivity. }
  rewrite E. unfold dbl_update_batch. destruct vs as [|v vs]; [cbn; rewrite app_nil_r; assumption|].
  pose proof (dbl_batch_numbers s (nan_null cs) (map Some (v :: vs)) H) as B. rewrite values_some, nulls_some in B.
  specialize (B Hn ltac:(discriminate)). destruct (compute_minmax_float64 hw (v :: vs)) as (a, b). destruct B as (Ea & B).
  rewrite Ea. cbn [negb]. change (Z.of_nat 0) with 0%Z in B. rewrite add_zero in B. exact B.
Qed.
Lemma dbl_inv_batch_nulls : forall s cs vs bm, dinv s (nan_null cs) ->
  dinv (dbl_update_batch_with_nulls hw s vs bm) (nan_null (cs ++ masked vs bm)).
Proof.
  intros s cs vs bm H. rewrite nan_null_app. unfold dbl_update_batch_with_nulls. rewrite extract_ok. fold (nan_null (masked vs bm)).
  destruct (values (nan_null (masked vs bm))) as [|v r] eqn:E.
  - apply inv_none; assumption.
  - rewrite <- E. pose proof (dbl_batch_numbers s (nan_null cs) (nan_null (masked vs bm)) H (values_numbers _)) as B.
    rewrite E in B. specialize (B ltac:(discriminate)). rewrite <- E in B.
    destruct (compute_minmax_float64 hw (values (nan_null (masked vs bm)))) as (a, b). destruct B as (Ea & B). rewrite Ea. exact B.
Qed.
Lemma double_history : forall h, plain_batches_numbers h -> dinv (run_history (double_class hw) h) (nan_null (cells h)).
Proof.
  induction h as [|h IH v|h IH|h IH vs|h IH vs bm|h IH o IHo|h IH]; intros P;
    cbn [run_history cells double_class c_new c_update c_update_null c_batch c_batch_nulls c_merge c_reset plain_batches_numbers] in *.
  - apply inv_new.
  - apply dbl_inv_update; auto.
  - rewrite nan_null_app. apply inv_update_null. auto.
  - destruct P. apply dbl_inv_batch; auto.
  - apply dbl_inv_batch_nulls; auto.
  - destruct P. rewrite nan_null_app. apply (inv_merge _ _ dbl_order); auto.
  - apply inv_new.
Qed.

(** with hardware that propagates NaN the range is right for every history *)
Hypothesis P : propagates_nan hw.
Lemma double_history_range : forall h, drange (run_history (double_class hw) h) (nan_null (cells h)).
Proof.
  induction h as [|h IH v|h IH|h IH vs|h IH vs bm|h IH o IHo|h IH];
    cbn [run_history cells double_class c_new c_update c_update_null c_batch c_batch_nulls c_merge c_reset plain_batches_numbers] in *.
  - apply (inv_new dbl_lt number).
  - rewrite nan_null_app. cbn [nan_null map]. unfold dbl_update. destruct (dbl_nan v) eqn:E.
    + apply (range_none dbl_lt number); [exact IH|reflexivity].
    + rewrite update_as. apply (range_absorb _ _ dbl_order); [assumption| | |]; cbn [values flat_map app].
      * constructor; [assumption|constructor].
      * apply (least_single _ _ dbl_order). assumption.
      * apply (least_single _ _ gt_order). assumption.
  - rewrite nan_null_app. apply (range_none dbl_lt number); [exact IH|reflexivity].
  - rewrite nan_null_app. destruct (minmax_float64 hw vs R (or_introl P)) as (M0 & M1).
    assert (Ev : values (nan_null (map Some vs)) = numbers vs) by (rewrite values_nan_null, values_some; reflexivity).
    unfold dbl_update_batch. destruct vs as [|v vs]; [cbn; rewrite app_nil_r; assumption|].
    destruct (numbers (v :: vs)) as [|n ns] eqn:En.
    + rewrite M0 by reflexivity. apply (range_none dbl_lt number); assumption.
    + specialize (M1 ltac:(discriminate)). destruct (compute_minmax_float64 hw (v :: vs)) as (a, b). cbn [fst snd] in M1.
      destruct M1 as (M1 & M2). assert (Ea : dbl_nan a = false) by (rewrite <- En in M1; exact (least_ok _ number _ _ (numbers_all _) M1)).
      rewrite Ea. cbn [negb]. apply range_counts. apply (range_absorb _ _ dbl_order); rewrite ?Ev; try assumption.
      rewrite <- En. apply numbers_all.
  - rewrite nan_null_app. unfold dbl_update_batch_with_nulls. rewrite extract_ok. fold (nan_null (masked vs bm)).
    destruct (values (nan_null (masked vs bm))) as [|v r] eqn:E.
    + apply range_counts, (range_none dbl_lt number); assumption.
    + rewrite <- E. assert (Hn := values_numbers (masked vs bm)).
      destruct (minmax_float64 hw (values (nan_null (masked vs bm))) R (or_introl P)) as (_ & M). rewrite (numbers_id _ Hn) in M.
      rewrite E in M. specialize (M ltac:(discriminate)). rewrite <- E in M.
      destruct (compute_minmax_float64 hw (values (nan_null (masked vs bm)))) as (a, b). cbn [fst snd] in M. destruct M as (M1 & M2).
      assert (Ea : dbl_nan a = false) by exact (least_ok _ number _ _ Hn M1). rewrite Ea. cbn [negb].
      rewrite add_absorb. apply range_counts, (range_absorb _ _ dbl_order); assumption.
  - rewrite nan_null_app. apply (range_merge _ _ dbl_order); assumption.
  - apply (inv_new dbl_lt number).
Qed.
End DoubleClass.

(** * Reports of the same cells agree *)
Lemma values_perm : forall T (a b : list (option T)), Permutation a b -> Permutation (values a) (values b).
Proof. intros. unfold values. apply Permutation_flat_map. assumption. Qed.
Lemma nulls_perm : forall T (a b : list (option T)), Permutation a b -> nulls a = nulls b.
Proof.
  intros T a b H. pose proof (Permutation_length H). pose proof (Permutation_length (values_perm _ _ _ H)).
  pose proof (cells_count _ a). pose proof (cells_count _ b). lia.
Qed.
Lemma describes_agree : forall T (lt : T -> T -> bool) r1 r2 a b, describes lt r1 a -> describes lt r2 b -> Permutation a b ->
  r_has_value r1 = r_has_value r2 /\ r_nulls r1 = r_nulls r2 /\ r_values r1 = r_values r2 /\
  r_total r1 = r_total r2 /\ r_has_null r1 = r_has_null r2 /\
  (r_has_value r1 = true ->
    lt (r_min r1) (r_min r2) = false /\ lt (r_min r2) (r_min r1) = false /\
    lt (r_max r1) (r_max r2) = false /\ lt (r_max r2) (r_max r1) = false).
Proof.
  intros T lt r1 r2 a b ((B1 & R1) & N1 & V1 & T1 & H1) ((B2 & R2) & N2 & V2 & T2 & H2) P.
  pose proof (values_perm _ _ _ P) as Pv. pose proof (nulls_perm _ _ _ P) as Pn.
  pose proof (Permutation_length Pv). pose proof (Permutation_length P).
  assert (Hne : values a <> [] <-> values b <> []).
  { split; intros Hn E; [rewrite E in Pv; apply Permutation_sym, Permutation_nil in Pv|rewrite E in Pv; apply Permutation_nil in Pv]; contradiction. }
  split; [apply eq_true_iff_eq; tauto|]. split; [congruence|]. split; [congruence|]. split; [congruence|].
  split. { apply eq_true_iff_eq. rewrite H1, H2. split; apply Permutation_in; [|apply Permutation_sym]; assumption. }
  intros Hv. apply B1 in Hv. destruct (R1 Hv) as (L1 & G1). destruct (R2 (proj1 Hne Hv)) as (L2 & G2).
  assert (Hs : forall x, In x (values b) <-> In x (values a)).
  { intros x. split; apply Permutation_in; [apply Permutation_sym|]; assumption. }
  pose proof (least_same lt _ _ _ Hs L2) as L2'. rewrite greatest_flip in G1, G2. pose proof (least_same (flip lt) _ _ _ Hs G2) as G2'.
  destruct (least_unique _ _ _ _ L1 L2'). destruct (least_unique _ _ _ _ G1 G2') as (U1 & U2). unfold flip in U1, U2. auto.
Qed.
