From Verif Require Import Base ChunkedSpec ChunkedModel.

Lemma replace_at_Forall2 : forall A B (R : A -> B -> Prop) la lb i a b,
  Forall2 R la lb -> R a b -> Forall2 R (replace_at la i a) (replace_at lb i b).
Proof. intros A B R la lb i a b H; revert i. induction H; intros [|i] Hab; cbn [replace_at]; constructor; auto. Qed.
Lemma replace_at_same : forall A B (R : A -> B -> Prop) la lb i a b,
  Forall2 R la lb -> nth_error lb i = Some b -> R a b -> Forall2 R (replace_at la i a) lb.
Proof.
  intros A B R la lb i a b H; revert i. induction H; intros [|i] E Hab; cbn [replace_at nth_error] in *; try discriminate; constructor; auto.
  - injection E as ->. assumption.
Qed.
Lemma F2_nth : forall A B (R : A -> B -> Prop) la lb i b,
  Forall2 R la lb -> nth_error lb i = Some b -> exists a, nth_error la i = Some a /\ R a b.
Proof.
  intros A B R la lb i b H; revert i. induction H; intros [|i] E; cbn in *; try discriminate.
  - injection E as <-. eauto.
  - eauto.
Qed.

Section Chunked.
Context {T : Type}.
Variable dflt : T.
Notation builder := (@builder T).

Definition value_or (c : option T) : T := match c with Some v => v | None => dflt end.
Definition is_none (c : option T) : bool := match c with Some _ => false | None => true end.
Definition render (l : list (option T)) : list T * list bool := (map value_or l, map is_none l).

Lemma render_shows : forall l, shows_cells (render l) l.
Proof.
  intros l. repeat split.
  - cbn [render fst]. apply map_length.
  - intros i v E. cbn [render fst]. exact (map_nth_error value_or _ _ E).
Qed.

(** The builder's chunks and active part are renderings of consecutive pieces of the cells. *)
Definition binv (b : builder) (l : list (option T)) : Prop :=
  exists pieces last,
    chunks b = map render pieces /\ Forall (fun p => p <> []) pieces /\
    active b = render last /\ l = concat pieces ++ last /\
    (finalized b = true -> last = []) /\
    (cache_valid b = true -> finalized b = true /\ (pieces <> [] -> cached b = render (concat pieces))).

Lemma binv_new : binv new_builder [].
Proof. exists [], []. repeat split; try constructor; discriminate. Qed.

Lemma push_active_render : forall l c, push_active dflt (render l) c = render (l ++ [c]).
Proof. intros l [v|]; unfold push_active, render; cbn [fst snd]; rewrite !map_app; reflexivity. Qed.

Lemma binv_append : forall b l c, binv b l -> binv (append dflt b c) (l ++ [c]).
Proof.
  intros b l c (ps & last & Hc & Hne & Ha & Hl & _ & _). exists ps, (last ++ [c]).
  unfold append, invalidate_cache. cbn [active chunks finalized cached cache_valid].
  rewrite Ha, push_active_render. split; [assumption|]. split; [assumption|]. split; [reflexivity|].
  split; [subst; rewrite app_assoc; reflexivity|]. split; discriminate.
Qed.

Lemma binv_fill : forall cs b l, binv b l -> finalized b = false -> cache_valid b = false ->
  binv (fold_left (context_append dflt) cs b) (l ++ cs).
Proof.
  induction cs as [|c cs IH]; intros b l H Hf Hv; cbn [fold_left].
  - rewrite app_nil_r. assumption.
  - replace (l ++ c :: cs) with ((l ++ [c]) ++ cs) by (rewrite <- app_assoc; reflexivity).
    apply IH; [|assumption|assumption].
    destruct H as (ps & last & Hc & Hne & Ha & Hl & _ & _). exists ps, (last ++ [c]).
    unfold context_append. cbn [active chunks finalized cached cache_valid].
    rewrite Ha, push_active_render. split; [assumption|]. split; [assumption|]. split; [reflexivity|].
    split; [subst; rewrite app_assoc; reflexivity|]. split; congruence.
Qed.

Lemma binv_invalidate : forall b l, binv b l -> binv (invalidate_cache b) l.
Proof.
  intros b l (ps & last & Hc & Hne & Ha & Hl & _ & _). exists ps, last.
  unfold invalidate_cache. cbn [active chunks finalized cached cache_valid]. repeat split; auto; discriminate.
Qed.

Lemma binv_context : forall b l cs, binv b l -> binv (context_fill dflt b cs) (l ++ cs).
Proof. intros. apply binv_fill; [apply binv_invalidate; assumption|reflexivity|reflexivity]. Qed.

Lemma concat_snoc : forall A (ps : list (list A)) l, concat (ps ++ [l]) = concat ps ++ l.
Proof. intros. rewrite concat_app. cbn [concat]. rewrite app_nil_r. reflexivity. Qed.

Lemma finalize_active_ok : forall b l, binv b l -> 
  exists ps, chunks (finalize_active b) = map render ps /\ Forall (fun p => p <> []) ps /\
    active (finalize_active b) = render [] /\ l = concat ps /\
    finalized (finalize_active b) = finalized b /\ cached (finalize_active b) = cached b /\
    cache_valid (finalize_active b) = cache_valid b.
Proof.
  intros b l (ps & last & Hc & Hne & Ha & Hl & Hf & Hv). unfold finalize_active. rewrite Ha.
  destruct last as [|c last].
  - cbn [render map fst]. exists ps. rewrite app_nil_r in Hl. rewrite Ha. repeat split; auto.
  - change (fst (render (c :: last))) with (value_or c :: map value_or last). cbv iota.
    exists (ps ++ [c :: last]). cbn [active chunks finalized cached cache_valid].
    rewrite map_app, Hc. split; [reflexivity|]. split.
    { apply Forall_app; split; [assumption|]. constructor; [discriminate|constructor]. }
    split; [reflexivity|]. split; [rewrite concat_snoc; assumption|]. auto.
Qed.

Lemma finalize_ok : forall b l, binv b l ->
  exists ps, binv (finalize b) l /\ chunks (finalize b) = map render ps /\ l = concat ps /\
    finalized (finalize b) = true /\ cache_valid (finalize b) = cache_valid b /\ (Forall (fun p => p <> []) ps).
Proof.
  intros b l H. unfold finalize. destruct (finalized b) eqn:F; cbn [negb].
  - pose proof H as (ps & last & Hc & Hne & Ha & Hl & Hf & Hv). exists ps.
    rewrite (Hf F), app_nil_r in Hl. repeat split; auto.
  - destruct (finalize_active_ok _ _ H) as (ps & Hc & Hne & Ha & Hl & _ & Hcd & Hcv).
    exists ps. cbn [chunks finalized cache_valid]. repeat split; auto.
    exists ps, []. cbn [active chunks finalized cached cache_valid]. rewrite app_nil_r.
    split; [assumption|]. split; [assumption|]. split; [assumption|]. split; [assumption|].
    split; [reflexivity|]. intros Hv. rewrite Hcv in Hv.
    destruct H as (ps0 & last0 & _ & _ & _ & _ & _ & Hv'). destruct (Hv' Hv). congruence.
Qed.

Lemma concat_render : forall ps, (concat (map fst (map render ps)), concat (map snd (map render ps))) = render (concat ps).
Proof.
  induction ps as [|p ps IH]; [reflexivity|]. cbn [map concat]. unfold render in *. cbn [fst snd] in *.
  rewrite !map_app. injection IH as E1 E2. rewrite E1, E2. reflexivity.
Qed.

Lemma ensure_ok : forall b l, binv b l -> chunks b <> [] ->
  binv (ensure_cache b) l /\ cached (ensure_cache b) = render l /\ chunks (ensure_cache b) <> [].
Proof.
  intros b l H Hne0. unfold ensure_cache. destruct (cache_valid b) eqn:V.
  - split; [assumption|]. split; [|assumption].
    destruct H as (ps & last & Hc & Hne & Ha & Hl & Hf & Hv). destruct (Hv V) as (Fi & Hcd).
    rewrite (Hf Fi), app_nil_r in Hl. subst l. apply Hcd. intros ->. apply Hne0. rewrite Hc. reflexivity.
  - assert (E : (if negb (finalized b) then finalize b else b) = finalize b).
    { unfold finalize. destruct (finalized b); reflexivity. }
    rewrite E. destruct (finalize_ok _ _ H) as (ps & Hb & Hc & Hl & Hf & Hv & Hne).
    cbv zeta. cbn [cached chunks]. rewrite Hc, concat_render, <- Hl. split; [|split; [reflexivity|]].
    + destruct Hb as (ps' & last & Hc' & Hne' & Ha & Hl' & Hf' & _).
      exists ps', last. cbn [active chunks finalized cached cache_valid].
      assert (ps' = ps \/ True) as _ by auto.
      split; [congruence|]. split; [assumption|]. split; [assumption|]. split; [assumption|]. split; [auto|].
      intros _. split; [assumption|]. intros _. rewrite (Hf' Hf), app_nil_r in Hl'. rewrite <- Hl'. reflexivity.
    + intros Hn. apply Hne0. destruct H as (ps0 & last0 & Hc0 & Hn0 & _ & Hl0 & _).
      destruct ps; [|discriminate]. cbn [concat] in Hl. rewrite Hl in Hl0. symmetry in Hl0. apply app_eq_nil in Hl0 as (Z & _).
      destruct ps0 as [|p ps0]; [assumption|]. inversion Hn0; subst. cbn in Z. apply app_eq_nil in Z as (Z & _). contradiction.
Qed.

Lemma chunks_test : forall b : builder, (0 <? length (chunks b)) = true <-> chunks b <> [].
Proof. intros b. destruct (chunks b); cbn; split; congruence. Qed.

Lemma raw_values_ok : forall b l, binv b l -> fst (raw_values b) = fst (render l) /\ binv (snd (raw_values b)) l.
Proof.
  intros b l H. unfold raw_values. destruct (0 <? length (chunks b)) eqn:E.
  - apply chunks_test in E. destruct (ensure_ok _ _ H E) as (H1 & H2 & _). cbv zeta. cbn [fst snd]. rewrite H2. auto.
  - cbn [fst snd]. split; [|assumption]. destruct H as (ps & last & Hc & Hne & Ha & Hl & _).
    rewrite Hc, map_length in E. destruct ps; [|discriminate]. cbn [concat app] in Hl. subst. rewrite Ha. reflexivity.
Qed.
Lemma null_bitmap_ok : forall b l, binv b l -> fst (null_bitmap b) = snd (render l) /\ binv (snd (null_bitmap b)) l.
Proof.
  intros b l H. unfold null_bitmap. destruct (0 <? length (chunks b)) eqn:E.
  - apply chunks_test in E. destruct (ensure_ok _ _ H E) as (H1 & H2 & _). cbv zeta. cbn [fst snd]. rewrite H2. auto.
  - cbn [fst snd]. split; [|assumption]. destruct H as (ps & last & Hc & Hne & Ha & Hl & _).
    rewrite Hc, map_length in E. destruct ps; [|discriminate]. cbn [concat app] in Hl. subst. rewrite Ha. reflexivity.
Qed.

Lemma fold_size : forall ps n, fold_left (fun total c => total + length (fst c)) (map render ps) n = n + length (concat ps).
Proof.
  induction ps as [|p ps IH]; intros n; cbn [map fold_left concat length]; [lia|].
  rewrite IH, app_length. cbn [render fst]. rewrite map_length. lia.
Qed.
Lemma size_ok : forall b l, binv b l -> storage_size b = length l.
Proof.
  intros b l (ps & last & Hc & Hne & Ha & Hl & _). unfold storage_size. rewrite Hc, Ha, fold_size. subst.
  cbn [render fst]. rewrite map_length, app_length. lia.
Qed.

Lemma all_chunks_ok : forall b l, binv b l ->
  (concat (map fst (all_chunks b)), concat (map snd (all_chunks b))) = render l /\
  Forall (fun c => fst c <> [] /\ length (fst c) = length (snd c)) (all_chunks b) /\
  fst (num_chunks b) = length (all_chunks b).
Proof.
  intros b l H. unfold all_chunks, num_chunks.
  assert (E : (if negb (finalized b) then finalize b else b) = finalize b).
  { unfold finalize. destruct (finalized b); reflexivity. }
  rewrite E. cbv zeta. destruct (finalize_ok _ _ H) as (ps & Hb & Hc & Hl & Hf & Hv & Hne). rewrite Hc. split; [|split].
  - rewrite concat_render, Hl. reflexivity.
  - apply Forall_map. eapply Forall_impl; [|exact Hne]. intros p Hp. cbn [render fst snd]. rewrite !map_length.
    split; [|reflexivity]. destruct p; [contradiction|discriminate].
  - reflexivity.
Qed.

Lemma filter_nonempty : forall ps : list (list (option T)), Forall (fun p => p <> []) ps -> filter nonempty (map render ps) = map render ps.
Proof.
  intros ps H. induction H as [|p ps Hp _ IH]; [reflexivity|]. cbn [map filter].
  destruct p; [contradiction|]. cbn [nonempty render map fst]. rewrite IH. reflexivity.
Qed.

Lemma merge_ok : forall a la b lb, binv a la -> binv b lb ->
  binv (fst (merge_from a b)) (la ++ lb) /\ binv (snd (merge_from a b)) [].
Proof.
  intros a la b lb Ha Hb. unfold merge_from. cbn [fst snd].
  destruct (finalize_active_ok _ _ Ha) as (ps & Hc & Hne & Hact & Hl & _ & _ & _).
  destruct (finalize_active_ok _ _ Hb) as (qs & Oc & One & Oact & Ol & Of & Ocd & Ocv).
  split.
  - exists (ps ++ qs), []. unfold invalidate_cache. cbn [active chunks finalized cached cache_valid].
    rewrite Hc, Oc, filter_nonempty by assumption. rewrite map_app.
    split; [reflexivity|]. split; [apply Forall_app; auto|]. split; [assumption|].
    split; [rewrite concat_app, app_nil_r; congruence|]. split; discriminate.
  - exists [], []. cbn [active chunks finalized cached cache_valid].
    split; [reflexivity|]. split; [constructor|]. split; [assumption|]. split; [reflexivity|]. split; [reflexivity|].
    rewrite Ocv, Of. intros V. destruct Hb as (ps1 & last1 & _ & _ & _ & _ & _ & Hv). destruct (Hv V) as (F & _).
    split; [assumption|]. intros Z. contradiction.
Qed.

Lemma cstep_ok : forall o st lt lt', Forall2 binv st lt -> spec_cstep lt o = Some lt' ->
  exists st', cstep dflt st o = Some st' /\ Forall2 binv st' lt'.
Proof.
  intros o st lt lt' HF. destruct o as [|h c|h cs|h k|h|h]; cbn [spec_cstep cstep].
  - intros E. injection E as <-. eexists; split; [reflexivity|]. apply Forall2_app; [assumption|]. constructor; [apply binv_new|constructor].
  - destruct (nth_error lt h) as [l|] eqn:El; [|discriminate]. intros E. injection E as <-.
    destruct (F2_nth _ _ _ _ _ _ _ HF El) as (b & -> & Hb). eexists; split; [reflexivity|].
    apply replace_at_Forall2; [assumption|]. apply binv_append; assumption.
  - destruct (nth_error lt h) as [l|] eqn:El; [|discriminate]. intros E. injection E as <-.
    destruct (F2_nth _ _ _ _ _ _ _ HF El) as (b & -> & Hb). eexists; split; [reflexivity|].
    apply replace_at_Forall2; [assumption|]. apply binv_context; assumption.
  - destruct (h =? k); [discriminate|].
    destruct (nth_error lt h) as [la|] eqn:Ea; [|discriminate]. destruct (nth_error lt k) as [lb|] eqn:Eb; [|discriminate].
    intros E. injection E as <-.
    destruct (F2_nth _ _ _ _ _ _ _ HF Ea) as (a & -> & Ha). destruct (F2_nth _ _ _ _ _ _ _ HF Eb) as (b & -> & Hb).
    destruct (merge_ok _ _ _ _ Ha Hb) as (M1 & M2). destruct (merge_from a b) as (a', b'). cbn [fst snd] in *.
    eexists; split; [reflexivity|]. apply replace_at_Forall2; [|assumption]. apply replace_at_Forall2; assumption.
  - destruct (nth_error lt h) as [l|] eqn:El; [|discriminate]. intros E. injection E as <-.
    destruct (F2_nth _ _ _ _ _ _ _ HF El) as (b & -> & Hb). eexists; split; [reflexivity|].
    eapply replace_at_same; eauto. unfold num_chunks. cbn [snd]. destruct (negb (finalized b)); [|assumption].
    destruct (finalize_ok _ _ Hb) as (_ & H & _). assumption.
  - destruct (nth_error lt h) as [l|] eqn:El; [|discriminate]. intros E. injection E as <-.
    destruct (F2_nth _ _ _ _ _ _ _ HF El) as (b & -> & Hb). eexists; split; [reflexivity|].
    eapply replace_at_same; eauto. apply null_bitmap_ok, raw_values_ok. assumption.
Qed.

Lemma crun_ok : forall ops st lt lt', Forall2 binv st lt -> spec_crun lt ops = Some lt' ->
  exists st', crun dflt st ops = Some st' /\ Forall2 binv st' lt'.
Proof.
  induction ops as [|o ops IH]; intros st lt lt' HF E; cbn [spec_crun crun] in *.
  - injection E as <-. eauto.
  - destruct (spec_cstep lt o) as [lt1|] eqn:E1; [|discriminate].
    destruct (cstep_ok _ _ _ _ HF E1) as (st1 & -> & H1). eauto.
Qed.

Lemma binv_all : forall b l, binv b l ->
  storage_size b = length l /\
  shows_cells (fst (raw_values b), fst (null_bitmap b)) l /\
  shows_cells (concat (map fst (all_chunks b)), concat (map snd (all_chunks b))) l /\
  Forall (fun c => fst c <> [] /\ length (fst c) = length (snd c)) (all_chunks b) /\
  fst (num_chunks b) = length (all_chunks b).
Proof.
  intros b l H. destruct (all_chunks_ok _ _ H) as (A1 & A2 & A3).
  destruct (raw_values_ok _ _ H) as (R & _). destruct (null_bitmap_ok _ _ H) as (N & _).
  split; [apply size_ok; assumption|]. split.
  - rewrite R, N. apply render_shows.
  - split; [rewrite A1; apply render_shows|]. auto.
Qed.
End Chunked.
