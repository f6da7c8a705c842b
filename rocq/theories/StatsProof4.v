From Verif Require Import Base ChunkedSpec ChunkedModel ChunkedProof PlainModel PlainProof ThriftSpec PlainSpec.
From Verif Require Import StatsSpec StatsModel StatsProof StatsProof2 StatsProof3.

(** * Column statistics trees *)
Section Tree.
Variable ty : stat_type.
Definition vok (v : stat_value) : Prop := type_of v = Some ty /\ value_nan v = false.
Lemma value_order : order value_lt vok.
Proof.
  split; unfold vok.
  - intros [|b|z|z|n|s] (H & Hn); cbn [value_lt type_of value_nan] in *; try discriminate.
    + apply (o_irr bool_order); auto.
    + apply (o_irr int_order); auto.
    + apply (o_irr int_order); auto.
    + apply (o_irr dbl_order); auto.
    + apply (o_irr string_order); auto.
  - intros [|b|z|z|n|s] [|b'|z'|z'|n'|s'] (H & Hn) (H' & Hn'); cbn [value_lt type_of value_nan] in *; try discriminate; try congruence.
    + apply (o_asym bool_order); auto.
    + apply (o_asym int_order); auto.
    + apply (o_asym int_order); auto.
    + apply (o_asym dbl_order); auto.
    + apply (o_asym string_order); auto.
  - intros [|b|z|z|n|s] [|b'|z'|z'|n'|s'] [|b2|z2|z2|n2|s2] (H & Hn) (H' & Hn') (H2 & Hn2); cbn [value_lt type_of value_nan] in *; try discriminate; try congruence.
    + apply (o_neg bool_order); auto.
    + apply (o_neg int_order); auto.
    + apply (o_neg int_order); auto.
    + apply (o_neg dbl_order); auto.
    + apply (o_neg string_order); auto.
Qed.
Lemma acc_below_lt : forall v m, vok v -> vok m -> (if acc_below v m then v else m) = (if value_lt v m then v else m).
Proof.
  intros [|b|z|z|n|s] [|b'|z'|z'|n'|s'] (H & Hn) (H' & Hn'); cbn [acc_below value_lt type_of] in *; try reflexivity; try congruence.
  unfold bool_lt. destruct b, b'; reflexivity.
Qed.
Lemma acc_above_lt : forall v m, vok v -> vok m -> (if acc_above v m then v else m) = (if value_lt m v then v else m).
Proof.
  intros [|b|z|z|n|s] [|b'|z'|z'|n'|s'] (H & Hn) (H' & Hn'); cbn [acc_above value_lt type_of] in *; try reflexivity; try congruence.
  unfold bool_lt. destruct b, b'; reflexivity.
Qed.
Lemma merge_min_lt : forall a b, vok a -> vok b -> merge_min a b = (if value_lt a b then a else b).
Proof.
  intros [|b|z|z|n|s] [|b'|z'|z'|n'|s'] (H & Hn) (H' & Hn'); cbn [merge_min value_lt type_of] in *; try reflexivity; try congruence.
  unfold bool_lt. destruct b, b'; reflexivity.
Qed.
Lemma merge_max_lt : forall a b, vok a -> vok b -> merge_max a b = (if value_lt b a then a else b).
Proof.
  intros [|b|z|z|n|s] [|b'|z'|z'|n'|s'] (H & Hn) (H' & Hn'); cbn [merge_max value_lt type_of] in *; try reflexivity; try congruence.
  unfold bool_lt. destruct b, b'; reflexivity.
Qed.

Definition cinv (cs : column_statistics) (l : list (option stat_value)) : Prop :=
  Forall vok (values l) /\
  (values l = [] -> cs_min cs = NoValue /\ cs_max cs = NoValue) /\
  (values l <> [] -> is_least value_lt (values l) (cs_min cs) /\ is_greatest value_lt (values l) (cs_max cs)) /\
  cs_null_count cs = Z.of_nat (nulls l) /\
  (cs_has_null cs = true <-> In None l).
Lemma cinv_describes : forall cs l, cinv cs l -> column_describes value_lt (fun v => v) cs l.
Proof.
  intros cs l (_ & A & B & C & D). unfold column_describes, column_describes_range. split; [|auto].
  destruct (values l) as [|v r] eqn:E; [auto|]. destruct (B ltac:(discriminate)) as (B1 & B2). exists (cs_min cs), (cs_max cs). auto.
Qed.
Definition vnan_null (c : option stat_value) : option stat_value :=
  match c with Some v => if value_nan v then None else Some v | None => None end.
Definition typed (c : option stat_value) : Prop := match c with Some v => type_of v = Some ty | None => True end.

Lemma acc_null_cinv : forall a l, cinv (fst a) l -> cinv (fst (acc_null a)) (l ++ [None]).
Proof.
  intros a l (F & A & B & C & D). unfold cinv, acc_null. cbn [fst cs_min cs_max cs_null_count cs_has_null].
  rewrite values_app, nulls_app, app_nil_r. split; [assumption|]. split; [assumption|]. split; [assumption|].
  split; [cbn [nulls filter length]; lia|]. rewrite in_app_iff. cbn [In]. tauto.
Qed.
Lemma acc_add_cinv : forall a l c, cinv (fst a) l -> (snd a = true <-> values l <> []) -> typed c ->
  cinv (fst (acc_add a c)) (l ++ [vnan_null c]) /\ (snd (acc_add a c) = true <-> values (l ++ [vnan_null c]) <> []).
Proof.
  intros a l c H Hs Ht.
  assert (Hnull : vnan_null c = None -> acc_add a c = acc_null a).
  { destruct c as [v|]; cbn [vnan_null acc_add]; [|reflexivity]. destruct (value_nan v); [reflexivity|discriminate]. }
  destruct (vnan_null c) as [v|] eqn:Ev.
  2:{ rewrite Hnull by reflexivity. split; [apply acc_null_cinv; assumption|]. rewrite values_app, app_nil_r. assumption. }
  assert (Hc : c = Some v /\ value_nan v = false).
  { destruct c as [w|]; cbn [vnan_null] in Ev; [|discriminate]. destruct (value_nan w) eqn:En; [discriminate|]. injection Ev as ->. auto. }
  destruct Hc as (-> & Hn). cbn [acc_add typed] in *. rewrite Hn.
  assert (Hv : vok v) by (split; assumption).
  destruct H as (F & A & B & C & D). rewrite values_app. cbn [values flat_map app]. fold (values l).
  assert (Hcnt : Z.of_nat (nulls (l ++ [Some v])) = Z.of_nat (nulls l)) by (rewrite nulls_app; cbn [nulls filter length]; lia).
  assert (Hin : In None (l ++ [Some v]) <-> In None l) by (rewrite in_app_iff; cbn [In]; split; [intros [H|[H|[]]]; [assumption|discriminate]|auto]).
  unfold cinv. rewrite values_app, Hcnt, Hin. change (values [Some v]) with [v].
  assert (Fv : Forall vok (values l ++ [v])) by (apply Forall_app; split; [assumption|constructor; [assumption|constructor]]).
  destruct (snd a) eqn:Es; cbn [negb fst snd cs_min cs_max cs_null_count cs_has_null].
  - assert (Hne : values l <> []) by (apply Hs; reflexivity). destruct (B Hne) as (B1 & B2).
    split; [|split; [intros _ E; apply app_eq_nil in E; tauto|reflexivity]].
    split; [assumption|]. split; [intros E; apply app_eq_nil in E; tauto|]. split; [|split; assumption]. intros _.
    assert (K1 := least_ok _ vok _ _ F B1).
    assert (K2 : vok (cs_max (fst a))) by (rewrite greatest_flip in B2; exact (least_ok _ vok _ _ F B2)).
    rewrite acc_below_lt, acc_above_lt by assumption. split.
    + apply (least_app _ _ value_order); auto. apply (least_single _ _ value_order). assumption.
    + rewrite greatest_flip in *. apply (least_app _ _ (order_flip _ _ _ value_order) (values l) [v] (cs_max (fst a)) v); auto.
      apply (least_single _ _ (order_flip _ _ _ value_order)). assumption.
  - assert (Hne : values l = []) by (destruct (values l); [reflexivity|assert (false = true) by (apply Hs; discriminate); discriminate]).
    rewrite Hne. cbn [app]. split; [|split; [discriminate|reflexivity]].
    split; [constructor; [assumption|constructor]|]. split; [discriminate|]. split; [|split; assumption]. intros _. split.
    + apply (least_single _ _ value_order). assumption.
    + apply (least_single _ _ (order_flip _ _ _ value_order)). assumption.
Qed.
Lemma acc_run_cinv : forall cs a l, cinv (fst a) l -> (snd a = true <-> values l <> []) -> Forall typed cs ->
  cinv (fst (fold_left acc_add cs a)) (l ++ map vnan_null cs).
Proof.
  induction cs as [|c cs IH]; intros a l H Hs Ht; cbn [fold_left map]; [rewrite app_nil_r; assumption|].
  inversion Ht; subst. destruct (acc_add_cinv a l c H Hs) as (A & B); [assumption|].
  replace (l ++ vnan_null c :: map vnan_null cs) with ((l ++ [vnan_null c]) ++ map vnan_null cs) by (rewrite <- app_assoc; reflexivity).
  apply IH; assumption.
Qed.
Lemma cinv_new : cinv new_column_statistics [].
Proof.
  unfold cinv, new_column_statistics. cbn [values flat_map nulls filter length cs_min cs_max cs_null_count cs_has_null In].
  split; [constructor|]. split; [auto|]. split; [congruence|]. split; [reflexivity|]. split; [discriminate|contradiction].
Qed.
Lemma merge_cinv : forall a b la lb, cinv a la -> cinv b lb -> cinv (merge_statistics a b) (la ++ lb).
Proof.
  intros a b la lb (F & A & B & C & D) (F' & A' & B' & C' & D'). unfold cinv, merge_statistics. cbn [cs_min cs_max cs_null_count cs_has_null].
  rewrite values_app, nulls_app, in_app_iff, orb_true_iff.
  split; [apply Forall_app; auto|]. split; [|split; [|split; [lia|tauto]]].
  - intros E. apply app_eq_nil in E. destruct E as (E1 & E2). destruct (A E1) as (-> & ->). destruct (A' E2) as (-> & ->). auto.
  - intros _' . destruct (values la) as [|x r] eqn:Ea.
    { destruct (A eq_refl) as (-> & ->). cbn [app merge_min merge_max] in *. apply B'. assumption. }
    destruct (values lb) as [|y s] eqn:Eb.
    { destruct (A' eq_refl) as (-> & ->). rewrite app_nil_r. destruct (B ltac:(discriminate)) as (B1 & B2).
      assert (M1 : merge_min (cs_min a) NoValue = cs_min a) by (destruct (cs_min a); reflexivity).
      assert (M2 : merge_max (cs_max a) NoValue = cs_max a) by (destruct (cs_max a); reflexivity).
      rewrite M1, M2. auto. }
    destruct (B ltac:(discriminate)) as (B1 & B2). destruct (B' ltac:(discriminate)) as (B1' & B2').
    assert (K1 := least_ok _ vok _ _ F B1). assert (K1' := least_ok _ vok _ _ F' B1').
    rewrite greatest_flip in *. assert (K2 := least_ok _ vok _ _ F B2). assert (K2' := least_ok _ vok _ _ F' B2').
    rewrite merge_min_lt, merge_max_lt by assumption. split.
    + apply (least_app' _ _ value_order); assumption.
    + apply (least_app' _ _ (order_flip _ _ _ value_order) _ _ _ _ F F' B2 B2').
Qed.
Lemma tree_cinv : forall t, Forall typed (tree_cells t) -> cinv (run_tree t) (nan_null_values (tree_cells t)).
Proof.
  induction t as [cs|a IHa b IHb]; intros H; cbn [run_tree tree_cells] in *.
  - apply (acc_run_cinv cs new_accumulator []); [apply cinv_new| |assumption]. cbn. split; [discriminate|congruence].
  - apply Forall_app in H. destruct H. unfold nan_null_values. rewrite map_app. apply merge_cinv; auto.
Qed.
End Tree.

(** * Serialized values *)
Lemma serialize_ok : forall v t, type_of v = Some t -> fits_type v -> read_statistic t (serialize_statistic v) = Some v.
Proof.
  assert (LE : forall bs, little_endian bs = le_value bs) by reflexivity.
  intros [|b|z|z|n|s] t E H; cbn [type_of] in E; try discriminate; injection E as <-; cbn [read_statistic serialize_statistic].
  - destruct b; reflexivity.
  - unfold int32_bytes at 1. rewrite int_bytes_length. change (4 =? 4) with true. cbn [fits_type] in H. rewrite LE.
    change as_signed with signed. rewrite signed_int32; [reflexivity|]. exact H.
  - unfold int64_bytes at 1. rewrite int_bytes_length. change (8 =? 8) with true. cbn [fits_type] in H. rewrite LE.
    change as_signed with signed. rewrite signed_int64; [reflexivity|]. exact H.
  - unfold double_bytes at 1. rewrite int_bytes_length. change (8 =? 8) with true. cbn [fits_type] in H. rewrite LE, double_read by assumption. reflexivity.
  - reflexivity.
Qed.

(** * Builders *)
Section Scanned.
Context {T : Type} (lt : T -> T -> bool) (ok : T -> Prop) (skip : T -> bool) (lo hi dflt : T) (wrap : T -> stat_value).
Variable O : order lt ok.
Hypothesis Hlo2 : forall v, ok v -> lt v lo = false -> v = lo.
Hypothesis Hhi2 : forall v, ok v -> lt hi v = false -> v = hi.
Definition kept (l : list (option T)) : list T := filter (fun v => negb (skip v)) (values l).

Definition scan_inv (acc : T * T * bool) (vs : list T) : Prop :=
  let '(a, b, f) := acc in
  (f = true <-> vs <> []) /\ (vs = [] -> a = lo /\ b = hi) /\
  (vs <> [] -> is_least lt vs a /\ is_greatest lt vs b).
Lemma scan_step : forall acc vs c, Forall ok vs -> scan_inv acc vs -> (forall v, c = Some v -> skip v = false -> ok v) ->
  let e := (match c with Some v => v | None => dflt end, match c with Some _ => false | None => true end) in
  scan_inv (chunk_step lt skip acc e) (vs ++ kept [c]).
Proof.
  intros [[a b] f] vs c Hvs (Hf & H0 & H1) Hc e. unfold chunk_step. subst e. cbn [fst snd].
  destruct c as [v|]; cbn [negb andb kept values flat_map app filter]; [|rewrite app_nil_r; split; [assumption|split; assumption]].
  unfold kept, values. cbn [flat_map app filter]. destruct (skip v) eqn:Es; cbn [negb]; [rewrite app_nil_r; split; [assumption|split; assumption]|].
  assert (Hv : ok v) by (apply (Hc v); auto). split; [split; [intros _ E; apply app_eq_nil in E; destruct E; discriminate|reflexivity]|].
  split; [intros E; apply app_eq_nil in E; destruct E; discriminate|]. intros _.
  destruct vs as [|x r].
  - destruct (H0 eq_refl) as (-> & ->). cbn [app]. unfold std_min, std_max. split.
    + destruct (lt v lo) eqn:E; [apply (least_single _ _ O); assumption|]. pose proof (Hlo2 v Hv E) as Ev; rewrite <- Ev; apply (least_single _ _ O). assumption.
    + rewrite greatest_flip. destruct (lt hi v) eqn:E; [apply (least_single _ _ (order_flip _ _ _ O)); assumption|]. pose proof (Hhi2 v Hv E) as Ev; rewrite <- Ev.
      apply (least_single _ _ (order_flip _ _ _ O)). assumption.
  - destruct (H1 ltac:(discriminate)) as (M1 & M2). assert (Fv : Forall ok [v]) by (constructor; [assumption|constructor]). split.
    + apply (least_app _ _ O); auto. apply (least_single _ _ O). assumption.
    + rewrite greatest_flip in *. apply (least_app _ _ (order_flip _ _ _ O) _ [v] b v); auto. apply (least_single _ _ (order_flip _ _ _ O)). assumption.
Qed.
Lemma kept_app : forall a b, kept (a ++ b) = kept a ++ kept b.
Proof. intros. unfold kept. rewrite values_app. apply filter_app. Qed.
Lemma kept_ok : forall l, (forall v, In (Some v) l -> skip v = false -> ok v) -> Forall ok (kept l).
Proof.
  intros l H. apply Forall_forall. intros v Hv. unfold kept in Hv. apply filter_In in Hv. destruct Hv as (Hv & Hs).
  apply H; [apply in_values; assumption|]. destruct (skip v); [discriminate|reflexivity].
Qed.
Lemma scan_cells : forall l done acc, (forall v, In (Some v) (done ++ l) -> skip v = false -> ok v) -> scan_inv acc (kept done) ->
  scan_inv (fold_left (chunk_step lt skip) (combine (fst (render dflt l)) (snd (render dflt l))) acc) (kept (done ++ l)).
Proof.
  induction l as [|c l IH]; intros done acc Hok H; cbn [render fst snd map combine fold_left]; [rewrite app_nil_r; assumption|].
  replace (done ++ c :: l) with ((done ++ [c]) ++ l) in * by (rewrite <- app_assoc; reflexivity).
  apply IH; [assumption|]. rewrite kept_app. apply scan_step; [|assumption|].
  - apply kept_ok. intros v Hv. apply Hok. rewrite !in_app_iff. auto.
  - intros v -> Hs. apply Hok; [|assumption]. rewrite !in_app_iff. cbn [In]. auto.
Qed.
Lemma scan_chunks : forall ps done acc, (forall v, In (Some v) (done ++ concat ps) -> skip v = false -> ok v) -> scan_inv acc (kept done) ->
  scan_inv (fold_left (fun acc c => fold_left (chunk_step lt skip) (combine (fst c) (snd c)) acc) (map (render dflt) ps) acc) (kept (done ++ concat ps)).
Proof.
  induction ps as [|p ps IH]; intros done acc Hok H; cbn [map concat fold_left] in *; [rewrite app_nil_r; assumption|].
  rewrite app_assoc in *. apply IH; [assumption|]. apply scan_cells; [|assumption].
  intros v Hv. apply Hok. rewrite in_app_iff. auto.
Qed.
End Scanned.

Lemma count_true_render : forall T (dflt : T) l, count_true (snd (render dflt l)) = Z.of_nat (nulls l).
Proof.
  intros T dflt l. unfold count_true, nulls. f_equal. cbn [render snd]. induction l as [|[v|] l IH]; cbn [map filter length is_none] in *; auto.
Qed.
Lemma count_chunks : forall T (dflt : T) ps n,
  fold_left (fun n c => (n + count_true (snd c))%Z) (map (render dflt) ps) n = (n + Z.of_nat (nulls (concat ps)))%Z.
Proof.
  induction ps as [|p ps IH]; intros n; cbn [map fold_left concat]; [cbn; lia|]. rewrite IH, count_true_render, nulls_app. lia.
Qed.
Lemma chunks_pieces : forall T (dflt : T) b l, binv dflt b l -> exists ps, all_chunks b = map (render dflt) ps /\ concat ps = l.
Proof.
  intros T dflt b l H. unfold all_chunks.
  assert (E : (if negb (finalized b) then finalize b else b) = finalize b) by (unfold finalize; destruct (finalized b); reflexivity).
  rewrite E. destruct (finalize_ok _ _ _ H) as (ps & _ & Hc & Hl & _). exists ps. auto.
Qed.
Lemma has_null_iff : forall T (l : list (option T)), (0 <? Z.of_nat (nulls l))%Z = true <-> In None l.
Proof. intros. rewrite <- nulls_in. lia. Qed.

Lemma scanned_ok : forall T (lt : T -> T -> bool) ok skip lo hi dflt wrap, order lt ok ->
  (forall v, ok v -> lt v lo = false -> v = lo) -> (forall v, ok v -> lt hi v = false -> v = hi) ->
  forall b l, binv dflt b l -> (forall v, In (Some v) l -> skip v = false -> ok v) ->
  let cs := scanned_statistics lt skip lo hi wrap b in
  column_describes_range lt wrap cs (filter (fun v => negb (skip v)) (values l)) /\
  cs_null_count cs = Z.of_nat (nulls l) /\ (cs_has_null cs = true <-> In None l).
Proof.
  intros T lt ok skip lo hi dflt wrap O Hl Hh b l Hb Hok. unfold scanned_statistics.
  destruct (chunks_pieces _ _ _ _ Hb) as (ps & -> & El). rewrite count_chunks, Z.add_0_l, El.
  pose proof (scan_chunks lt ok skip lo hi dflt O Hl Hh ps [] (lo, hi, false)) as Sc. cbn [app] in Sc. rewrite El in Sc.
  specialize (Sc Hok). destruct (fold_left _ (map (render dflt) ps) (lo, hi, false)) as [[a c] f].
  cbn [cs_null_count cs_has_null]. split; [|split; [reflexivity|apply has_null_iff]].
  assert (I0 : scan_inv lt lo hi (lo, hi, false) (kept skip [])).
  { unfold scan_inv, kept. cbn. split; [split; [discriminate|congruence]|]. split; [auto|congruence]. }
  specialize (Sc I0). destruct Sc as (Hf & H0 & H1). fold (kept skip l). unfold column_describes_range. cbn [cs_min cs_max].
  destruct (kept skip l) as [|x r].
  - assert (f = false) by (destruct f; [exfalso; apply Hf; reflexivity|reflexivity]). subst. auto.
  - assert (f = true) by (apply Hf; discriminate). subst. destruct (H1 ltac:(discriminate)). exists a, c. auto.
Qed.

(** builders that keep statistics *)
Section Tracked.
Context {T SS : Type} (dflt : T) (c : class T SS).
Lemma nth_map_fst : forall (st : list (@builder T * SS)%type) h, nth_error (map fst st) h = option_map fst (nth_error st h).
Proof. induction st as [|x st IH]; intros [|h]; cbn; auto. Qed.
Lemma replace_map : forall A B (f : A -> B) st h x, map f (replace_at st h x) = replace_at (map f st) h (f x).
Proof. induction st as [|y st IH]; intros [|h] x; cbn; try reflexivity. rewrite IH. reflexivity. Qed.
Lemma replace_nth_same : forall A (st : list A) h x, nth_error st h = Some x -> replace_at st h x = st.
Proof. induction st as [|y st IH]; intros [|h] x E; cbn in *; try discriminate; [injection E as ->; reflexivity|]. rewrite IH; auto. Qed.
Lemma tstep_cstep : forall st o st', cstep dflt (map fst st) o = Some st' ->
  exists ts, tstep dflt c st o = Some ts /\ map fst ts = st'.
Proof.
  intros st [|h x|h cs|h k|h|h] st' E; cbn [cstep tstep] in *.
  - injection E as <-. eexists; split; [reflexivity|]. rewrite map_app. reflexivity.
  - rewrite nth_map_fst in E. destruct (nth_error st h) as [b|]; [|cbn in E; discriminate E]. cbn [option_map] in E. injection E as <-.
    eexists; split; [reflexivity|]. rewrite replace_map. reflexivity.
  - rewrite nth_map_fst in E. destruct (nth_error st h) as [b|]; [|cbn in E; discriminate E]. cbn [option_map] in E. injection E as <-.
    eexists; split; [reflexivity|]. rewrite replace_map. reflexivity.
  - destruct (h =? k); [discriminate|]. rewrite !nth_map_fst in E. destruct (nth_error st h) as [a|]; [|cbn in E; discriminate E].
    destruct (nth_error st k) as [b|]; [|cbn in E; discriminate E]. cbn [option_map] in E. destruct (merge_from (fst a) (fst b)) as (a', b').
    injection E as <-. eexists; split; [reflexivity|]. rewrite !replace_map. reflexivity.
  - rewrite nth_map_fst in E. destruct (nth_error st h) as [b|]; [|cbn in E; discriminate E]. cbn [option_map] in E. injection E as <-.
    eexists; split; [reflexivity|]. rewrite replace_map. reflexivity.
  - rewrite nth_map_fst in E. destruct (nth_error st h) as [b|]; [|cbn in E; discriminate E]. cbn [option_map] in E. injection E as <-.
    eexists; split; [reflexivity|]. rewrite replace_map. reflexivity.
Qed.
(** the statistics member against the cells appended *)
Variable rel : SS -> list (option T) -> Prop.
Hypothesis rel_new : rel (c_new c) [].
Hypothesis rel_upd : forall s l v, rel s l -> rel (c_update c s v) (l ++ [Some v]).
Hypothesis rel_null : forall s l, rel s l -> rel (c_update_null c s) (l ++ [None]).
Definition trel (b : (@builder T * SS)%type) (own : list (option T)) : Prop := rel (snd b) own.
Lemma nth_F2 : forall A B (R : A -> B -> Prop) la lb i a, Forall2 R la lb -> nth_error la i = Some a ->
  exists b, nth_error lb i = Some b /\ R a b.
Proof.
  intros A B R la lb i a H; revert i. induction H; intros [|i] E; cbn in *; try discriminate; [injection E as <-; eauto|eauto].
Qed.
Lemma keep_F2 : forall A B (R : A -> B -> Prop) la lb h a b, Forall2 R la lb -> nth_error lb h = Some b -> R a b ->
  Forall2 R (replace_at la h a) lb.
Proof.
  intros A B R la lb h a b H E Ra. rewrite <- (replace_nth_same _ lb h b E). apply replace_at_Forall2; assumption.
Qed.
Lemma tstep_own : forall st o ts own, tstep dflt c st o = Some ts -> Forall2 trel st own ->
  Forall2 trel ts (own_step own o).
Proof.
  intros st [|h x|h cs|h k|h|h] ts own E H; cbn [tstep own_step] in *.
  - injection E as <-. apply Forall2_app; [assumption|]. constructor; [exact rel_new|constructor].
  - destruct (nth_error st h) as [b|] eqn:Eb; [|discriminate]. injection E as <-.
    destruct (nth_F2 _ _ _ _ _ _ _ H Eb) as (l & -> & Hl). apply replace_at_Forall2; [assumption|].
    unfold trel, tracked_append in *. cbn [snd]. destruct x; [apply rel_upd|apply rel_null]; assumption.
  - destruct (nth_error st h) as [b|] eqn:Eb; [|discriminate]. injection E as <-.
    destruct (nth_F2 _ _ _ _ _ _ _ H Eb) as (l & El & Hl). eapply keep_F2; eauto.
  - destruct (h =? k); [discriminate|]. destruct (nth_error st h) as [a|] eqn:Ea; [|discriminate].
    destruct (nth_error st k) as [b|] eqn:Eb; [|discriminate]. destruct (merge_from (fst a) (fst b)) as (a', b'). injection E as <-.
    destruct (nth_F2 _ _ _ _ _ _ _ H Ea) as (la & Ela & Hla). destruct (nth_F2 _ _ _ _ _ _ _ H Eb) as (lb & Elb & Hlb).
    eapply keep_F2; eauto. eapply keep_F2; eauto.
  - destruct (nth_error st h) as [b|] eqn:Eb; [|discriminate]. injection E as <-.
    destruct (nth_F2 _ _ _ _ _ _ _ H Eb) as (l & El & Hl). eapply keep_F2; eauto.
  - destruct (nth_error st h) as [b|] eqn:Eb; [|discriminate]. injection E as <-.
    destruct (nth_F2 _ _ _ _ _ _ _ H Eb) as (l & El & Hl). eapply keep_F2; eauto.
Qed.
Lemma trun_ok : forall ops st own lists lists', Forall2 (binv dflt) (map fst st) lists -> Forall2 trel st own ->
  spec_crun lists ops = Some lists' ->
  exists ts, trun dflt c st ops = Some ts /\ Forall2 (binv dflt) (map fst ts) lists' /\ Forall2 trel ts (fold_left own_step ops own).
Proof.
  induction ops as [|o ops IH]; intros st own lists lists' Hb Hr E; cbn [spec_crun trun fold_left] in *.
  - injection E as <-. eauto.
  - destruct (spec_cstep lists o) as [l1|] eqn:E1; [|discriminate].
    destruct (cstep_ok dflt o _ _ _ Hb E1) as (st1 & Es & Hb1). destruct (tstep_cstep st o st1 Es) as (ts & Et & Em).
    rewrite Et. subst st1. eapply IH; [eassumption| |eassumption]. eapply tstep_own; eauto.
Qed.
End Tracked.
Lemma tracked_counts : forall T SS (dflt : T) (c : class T SS) wrap b l, binv dflt (fst b) l ->
  cs_null_count (tracked_statistics c wrap b) = Z.of_nat (nulls l) /\
  (cs_has_null (tracked_statistics c wrap b) = true <-> In None l).
Proof.
  intros T SS dflt c wrap b l H. unfold tracked_statistics. destruct (chunks_pieces _ _ _ _ H) as (ps & -> & El).
  rewrite count_chunks, Z.add_0_l, El. cbn [cs_null_count cs_has_null]. split; [reflexivity|apply has_null_iff].
Qed.
Lemma tracked_range : forall T SS (lt : T -> T -> bool) (c : class T SS) wrap b own,
  describes_range lt (c_get c (snd b)) own ->
  column_describes_range lt wrap (tracked_statistics c wrap b) (values own).
Proof.
  intros T SS lt c wrap b own (B & R). unfold tracked_statistics, column_describes_range. cbn [cs_min cs_max].
  destruct (values own) as [|x r] eqn:E.
  - destruct (r_has_value (c_get c (snd b))); [exfalso; apply B; reflexivity|auto].
  - assert (Hh : r_has_value (c_get c (snd b)) = true) by (apply B; discriminate). rewrite Hh.
    destruct (R ltac:(discriminate)). eexists _, _. split; [reflexivity|]. split; [reflexivity|]. auto.
Qed.
