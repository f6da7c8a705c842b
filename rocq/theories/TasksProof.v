(** Thread pool: results do not depend on the schedule. *)
From Coq Require Import Permutation.
From Verif Require Import Base WordsModel ChunkSpec ChunkModel ChunkProof ChunkProof3 FieldsModel
  FieldsSpec FieldsProof FieldsProof2 FieldsProof3 FieldsProof4
  ReaderModel ReaderProof ReaderProof2 ReaderProof3 TasksModel.

Lemma set_nth_length {A} : forall k (x : A) l, length (set_nth k x l) = length l.
Proof. induction k as [|k IH]; intros x [|y l]; cbn; auto. Qed.
Lemma set_nth_same {A} : forall k (x : A) l, k < length l -> nth_error (set_nth k x l) k = Some x.
Proof. induction k as [|k IH]; intros x [|y l] H; cbn in *; try lia; [reflexivity|]. apply IH. lia. Qed.
Lemma set_nth_other {A} : forall k j (x : A) l, j <> k -> nth_error (set_nth k x l) j = nth_error l j.
Proof. induction k as [|k IH]; intros [|j] x [|y l] H; cbn; try reflexivity; try congruence. apply IH. congruence. Qed.
Lemma set_nth_get {A} k j (x y : A) l : nth_error (set_nth k x l) j = Some y ->
  (j = k /\ y = x) \/ (j <> k /\ nth_error l j = Some y).
Proof.
  destruct (Nat.eq_dec j k) as [->|Hn]; intros H.
  - left. split; [reflexivity|]. assert (k < length l).
    { rewrite <- (set_nth_length k x l). apply nth_error_Some. congruence. }
    rewrite set_nth_same in H by assumption. congruence.
  - right. rewrite set_nth_other in H by assumption. split; assumption.
Qed.

Section Pool.
Context {S R : Type}.
Variable step : S -> S + R.

(** What a task computes when it is run alone, in n steps. *)
Inductive runs : nat -> S -> R -> Prop :=
| runs_done s r : step s = inr r -> runs 1 s r
| runs_next n s s' r : step s = inl s' -> runs n s' r -> runs (Datatypes.S n) s r.

Definition slot_ok (t : S) (st : task_state S R) : Prop :=
  match st with
  | Running s => forall n r, runs n s r -> exists m, runs m t r
  | Finished r => exists m, runs m t r
  end.

Lemma runs_fun : forall n s r, runs n s r -> forall m r', runs m s r' -> r = r'.
Proof.
  induction 1 as [s r H|n s s' r H HR IH]; intros m r' H'; inversion H'; subst; try congruence.
  rewrite H in H0. injection H0 as <-. eapply IH. eassumption.
Qed.

Lemma act_slots (tasks : list S) p w : (forall k t, nth_error tasks k = Some t -> exists st, nth_error (slots p) k = Some st /\ slot_ok t st) ->
  (forall k t, nth_error tasks k = Some t -> exists st, nth_error (slots (act step p w)) k = Some st /\ slot_ok t st).
Proof.
  intros H k t Hk. destruct (H k t Hk) as (st & Hst & Hok). unfold act.
  destruct (nth_error (workers p) w) as [[j|]|]; [| |eauto].
  - destruct (nth_error (slots p) j) as [[s|r]|] eqn:Ej; [|eauto..].
    assert (Hj : j < length (slots p)) by (apply nth_error_Some; congruence).
    destruct (step s) as [s'|r] eqn:Es; cbn [slots].
    + destruct (Nat.eq_dec k j) as [->|Hn].
      * rewrite set_nth_same by assumption. eexists. split; [reflexivity|].
        rewrite Hst in Ej. injection Ej as ->. intros n r Hr. apply (Hok (Datatypes.S n)). eapply runs_next; eassumption.
      * rewrite set_nth_other by assumption. eauto.
    + destruct (Nat.eq_dec k j) as [->|Hn].
      * rewrite set_nth_same by assumption. eexists. split; [reflexivity|].
        rewrite Hst in Ej. injection Ej as ->. apply (Hok 1). constructor. exact Es.
      * rewrite set_nth_other by assumption. eauto.
  - destruct (queue p); eauto.
Qed.

Lemma run_slots tasks : forall sched p, (forall k t, nth_error tasks k = Some t -> exists st, nth_error (slots p) k = Some st /\ slot_ok t st) ->
  (forall k t, nth_error tasks k = Some t -> exists st, nth_error (slots (run_pool step sched p)) k = Some st /\ slot_ok t st).
Proof.
  induction sched as [|w sched IH]; intros p H; [exact H|]. change (run_pool step (w :: sched) p) with (run_pool step sched (act step p w)). apply IH. apply act_slots, H.
Qed.

Lemma act_length p w : length (slots (act step p w)) = length (slots p) /\ length (workers (act step p w)) = length (workers p).
Proof.
  unfold act. destruct (nth_error (workers p) w) as [[j|]|]; [| |split; reflexivity].
  - destruct (nth_error (slots p) j) as [[s|r]|]; [destruct (step s)|..]; cbn [slots workers]; rewrite ?set_nth_length; split; reflexivity.
  - destruct (queue p); cbn [slots workers]; rewrite ?set_nth_length; split; reflexivity.
Qed.
Lemma run_length : forall sched p, length (slots (run_pool step sched p)) = length (slots p).
Proof. induction sched as [|w sched IH]; intros p; [reflexivity|]. change (run_pool step (w :: sched) p) with (run_pool step sched (act step p w)). rewrite IH. apply act_length. Qed.

Lemma collect_spec : forall (l : list (task_state S R)) rs, collect l = Some rs <-> l = map Finished rs.
Proof.
  induction l as [|[s|r] l IH]; intros rs; cbn [collect].
  - split; [intros [= <-]; reflexivity|destruct rs; [reflexivity|discriminate]].
  - split; [discriminate|destruct rs; discriminate].
  - destruct (collect l) as [rs'|] eqn:E.
    + split.
      * intros [= <-]. cbn. f_equal. apply IH. reflexivity.
      * destruct rs as [|r' rs]; [discriminate|]. cbn. intros [= -> H]. apply IH in H. congruence.
    + split; [discriminate|]. destruct rs as [|r' rs]; [discriminate|]. cbn. intros [= -> H]. apply IH in H. discriminate.
Qed.

Lemma nth_ext' {A B} (P : A -> B -> Prop) : forall l m, length l = length m ->
  (forall k a, nth_error l k = Some a -> exists b, nth_error m k = Some b /\ P a b) -> Forall2 P l m.
Proof.
  induction l as [|a l IH]; intros [|b m] Hl H; try discriminate; constructor.
  - destruct (H 0 a eq_refl) as (b' & E & HP). injection E as ->. exact HP.
  - apply IH; [cbn in Hl; lia|]. intros k x Hk. exact (H (Datatypes.S k) x Hk).
Qed.

(** Whatever the schedule, complete results are those of the tasks run alone. *)
Lemma pool_results nw tasks sched rs :
  collect (slots (run_pool step sched (start_pool nw tasks))) = Some rs ->
  Forall2 (fun t r => exists n, runs n t r) tasks rs.
Proof.
  intros H. apply collect_spec in H.
  assert (HF : Forall2 slot_ok tasks (slots (run_pool step sched (start_pool nw tasks)))).
  { apply nth_ext'; [rewrite run_length; cbn; rewrite map_length; reflexivity|].
    apply run_slots. intros k t Hk. exists (Running t). cbn [start_pool slots].
    rewrite nth_error_map, Hk. split; [reflexivity|]. intros n r Hr. exists n. exact Hr. }
  rewrite H in HF. clear H. revert rs HF. induction tasks as [|t tasks IH]; intros [|r rs] HF; inversion HF; subst; constructor; auto.
Qed.

(** ** Exclusive execution and progress *)
Definition busy (p : pool S R) : list nat :=
  flat_map (fun o => match o with Some k => [k] | None => [] end) (workers p).
Definition unfinished (p : pool S R) : list nat :=
  filter (fun k => match nth_error (slots p) k with Some (Running _) => true | _ => false end) (seq 0 (length (slots p))).

Definition pool_inv (p : pool S R) : Prop :=
  NoDup (queue p ++ busy p) /\
  forall k, In k (queue p ++ busy p) <-> exists s, nth_error (slots p) k = Some (Running s).

Lemma busy_split w (ws : list (option nat)) o : nth_error ws w = Some o ->
  exists a b, ws = a ++ o :: b /\ length a = w.
Proof. intros H. apply nth_error_split in H. destruct H as (a & b & H1 & H2). eauto. Qed.
Lemma set_nth_app {A} (a b : list A) (o x : A) : set_nth (length a) x (a ++ o :: b) = a ++ x :: b.
Proof. induction a as [|y a IH]; [reflexivity|]. cbn. rewrite IH. reflexivity. Qed.

Lemma start_inv nw tasks : pool_inv (start_pool nw tasks).
Proof.
  assert (Hb : busy (start_pool nw tasks) = []).
  { unfold busy. cbn [start_pool workers]. induction nw; [reflexivity|]. cbn. exact IHnw. }
  unfold pool_inv. rewrite Hb, app_nil_r. cbn [start_pool queue slots]. split; [apply seq_NoDup|].
  intros k. rewrite in_seq. split.
  - intros [_ H]. destruct (nth_error tasks k) as [t|] eqn:E; [|apply nth_error_None in E; lia].
    exists t. rewrite nth_error_map, E. reflexivity.
  - intros [s H]. rewrite nth_error_map in H. destruct (nth_error tasks k) as [t|] eqn:E; [|discriminate].
    split; [lia|]. apply nth_error_Some. congruence.
Qed.

Lemma act_inv p w : pool_inv p -> pool_inv (act step p w).
Proof.
  intros [Hn Hi]. unfold act.
  destruct (nth_error (workers p) w) as [[j|]|] eqn:Ew; [| |split; assumption].
  - destruct (busy_split _ _ _ Ew) as (a & b & Eab & <-).
    assert (Hbusy : forall o, flat_map (fun o => match o with Some k => [k] | None => [] end) (a ++ o :: b) =
        flat_map (fun o => match o with Some k => [k] | None => [] end) a ++
        (match o with Some k => [k] | None => [] end) ++ flat_map (fun o => match o with Some k => [k] | None => [] end) b).
    { intros o. rewrite flat_map_app. reflexivity. }
    set (fa := flat_map (fun o => match o with Some k => [k] | None => [] end) a) in *.
    set (fb := flat_map (fun o => match o with Some k => [k] | None => [] end) b) in *.
    assert (Hb0 : busy p = fa ++ [j] ++ fb) by (unfold busy; rewrite Eab; apply Hbusy).
    assert (Hj : exists s, nth_error (slots p) j = Some (Running s)).
    { apply Hi. rewrite Hb0. apply in_or_app. right. apply in_or_app. right. left. reflexivity. }
    destruct Hj as [s Hs]. rewrite Hs.
    assert (Hjl : j < length (slots p)) by (apply nth_error_Some; congruence).
    destruct (step s) as [s'|r] eqn:Es.
    + split; [exact Hn|]. intros k. unfold busy in *. cbn [queue workers slots]. rewrite Hi. split.
      * intros [s0 H0]. destruct (Nat.eq_dec k j) as [->|Hk]; [exists s'; apply set_nth_same, Hjl|].
        exists s0. rewrite set_nth_other by assumption. exact H0.
      * intros [s0 H0]. apply set_nth_get in H0. destruct H0 as [[-> _]|[_ H0]]; eauto.
    + unfold pool_inv, busy. cbn [queue workers slots]. rewrite Eab, set_nth_app, Hbusy. cbn [app].
      rewrite Hb0 in Hn, Hi. cbn [app] in Hn, Hi.
      rewrite app_assoc in Hn. pose proof (NoDup_remove_1 _ _ _ Hn) as Hn1. pose proof (NoDup_remove_2 _ _ _ Hn) as Hn2.
      rewrite <- app_assoc in Hn1, Hn2. split; [exact Hn1|]. intros k. split.
      * intros Hk. assert (k <> j) by (intros ->; contradiction).
        rewrite set_nth_other by assumption. apply Hi. rewrite app_assoc. rewrite app_assoc in Hk. rewrite in_app_iff in *. cbn. tauto.
      * intros [s0 H0]. apply set_nth_get in H0. destruct H0 as [[_ H0]|[Hk H0]]; [discriminate|].
        assert (Hin : In k (queue p ++ fa ++ j :: fb)) by (apply Hi; eauto).
        rewrite app_assoc in *. rewrite in_app_iff in *. cbn in Hin. destruct Hin as [|[->|]]; tauto.
  - destruct (queue p) as [|k q] eqn:Eq; [unfold pool_inv; rewrite Eq; split; assumption|].
    destruct (busy_split _ _ _ Ew) as (a & b & Eab & <-).
    unfold pool_inv, busy in *. cbn [queue workers slots]. rewrite Eab in *. rewrite set_nth_app, flat_map_app in *.
    cbn [flat_map app] in *.
    set (fa := flat_map _ a) in *. set (fb := flat_map _ b) in *.
    assert (Hp : Permutation (k :: q ++ fa ++ fb) (q ++ fa ++ k :: fb)).
    { rewrite app_assoc. etransitivity; [apply Permutation_middle|]. rewrite <- app_assoc. reflexivity. }
    split; [eapply Permutation_NoDup; [exact Hp|exact Hn]|].
    intros x. rewrite <- Hi. split; intros Hx; [apply (Permutation_in x (Permutation_sym Hp)), Hx|apply (Permutation_in x Hp), Hx].
Qed.

Lemma run_inv : forall sched p, pool_inv p -> pool_inv (run_pool step sched p).
Proof. induction sched as [|w sched IH]; intros p H; [exact H|]. change (run_pool step (w :: sched) p) with (run_pool step sched (act step p w)). apply IH, act_inv, H. Qed.

(** No task is ever executed by two workers. *)
Lemma busy_in (ws : list (option nat)) w k : nth_error ws w = Some (Some k) -> In k (flat_map (fun o => match o with Some k => [k] | None => [] end) ws).
Proof.
  revert w. induction ws as [|o ws IH]; intros [|w] H; try discriminate.
  - injection H as ->. left. reflexivity.
  - cbn in H. cbn [flat_map]. apply in_or_app. right. eapply IH. exact H.
Qed.
Lemma nodup_app_r {A} (a b : list A) : NoDup (a ++ b) -> NoDup b.
Proof. induction a as [|x a IH]; intros H; [exact H|]. inversion H. auto. Qed.
Lemma exclusive p w1 w2 k : pool_inv p -> nth_error (workers p) w1 = Some (Some k) -> nth_error (workers p) w2 = Some (Some k) -> w1 = w2.
Proof.
  intros [Hn _] H1 H2. apply nodup_app_r in Hn. unfold busy in Hn. clear -Hn H1 H2.
  revert w1 w2 H1 H2. induction (workers p) as [|o ws IH]; intros [|w1] [|w2] H1 H2; try discriminate; [reflexivity|..]; cbn in H1, H2.
  - injection H1 as ->. cbn in Hn. inversion Hn; subst. apply busy_in in H2. contradiction.
  - injection H2 as ->. cbn in Hn. inversion Hn; subst. apply busy_in in H1. contradiction.
  - f_equal. cbn [flat_map] in Hn. apply nodup_app_r in Hn. apply IH; assumption.
Qed.

(** Remaining work. *)
Definition work (p : pool S R) (m : nat) : Prop :=
  exists ns, Forall2 (fun st n => match st with Running s => exists r, runs n s r | Finished _ => n = 0 end) (slots p) ns /\
    m = fold_right Nat.add 0 ns + length (queue p).

Lemma work_set (P : task_state S R -> nat -> Prop) : forall l ns k st st' n, Forall2 P l ns -> nth_error l k = Some st ->
  (forall m, P st m -> exists m', P st' m' /\ m = m' + n) ->
  exists ns', Forall2 P (set_nth k st' l) ns' /\ fold_right Nat.add 0 ns = fold_right Nat.add 0 ns' + n.
Proof.
  intros l ns k st st' n HF. revert k. induction HF as [|x m l ns Hx HF IH]; intros [|k] Hk HP; try discriminate.
  - injection Hk as ->. destruct (HP m Hx) as (m' & H1 & ->). exists (m' :: ns). split; [constructor; assumption|]. cbn. lia.
  - destruct (IH k Hk HP) as (ns' & H1 & H2). exists (m :: ns'). split; [constructor; assumption|]. cbn. lia.
Qed.

Lemma progress p m : pool_inv p -> work p m -> 1 <= length (workers p) -> collect (slots p) = None ->
  exists w m', work (act step p w) m' /\ m' < m.
Proof.
  intros [Hn Hi] (ns & HF & ->) Hw Hc.
  assert (Hex : exists k s, nth_error (slots p) k = Some (Running s)).
  { clear -Hc. induction (slots p) as [|[s|r] l IH]; [discriminate|exists 0, s; reflexivity|].
    cbn in Hc. destruct (collect l); [discriminate|]. destruct IH as (k & s & H); [reflexivity|]. exists (Datatypes.S k), s. exact H. }
  destruct Hex as (k & s & Hk).
  destruct (workers p) as [|o ws] eqn:Ews; [cbn in Hw; lia|].
  assert (Hstep : forall w j, nth_error (workers p) w = Some (Some j) -> exists m', work (act step p w) m' /\ m' < fold_right Nat.add 0 ns + length (queue p)).
  { intros w j Hj. assert (Hs : exists s, nth_error (slots p) j = Some (Running s)).
    { apply Hi. apply in_or_app. right. apply busy_in in Hj. exact Hj. }
    destruct Hs as [s0 Hs]. unfold act. rewrite Hj, Hs. destruct (step s0) as [s'|r] eqn:Es.
    - destruct (work_set _ _ _ j (Running s0) (Running s') 1 HF Hs) as (ns' & H1 & H2).
      { intros m0 [r Hr]. inversion Hr; subst; [congruence|]. rewrite Es in H. injection H as <-.
        exists n. split; [exists r; assumption|lia]. }
      eexists. split; [exists ns'; split; [exact H1|reflexivity]|]. cbn [queue]. lia.
    - destruct (work_set _ _ _ j (Running s0) (Finished r) 1 HF Hs) as (ns' & H1 & H2).
      { intros m0 [r' Hr]. inversion Hr; subst; [|congruence]. exists 0. split; [reflexivity|lia]. }
      eexists. split; [exists ns'; split; [exact H1|reflexivity]|]. cbn [queue]. lia. }
  destruct o as [j|].
  - exists 0. apply (Hstep 0 j). rewrite Ews. reflexivity.
  - destruct (queue p) as [|j q] eqn:Eq.
    + assert (Hin : In k (busy p)) by (apply (Hi k); eauto). unfold busy in Hin. apply in_flat_map in Hin.
      destruct Hin as ([x|] & H1 & H2); [|destruct H2]. apply In_nth_error in H1. destruct H1 as [w H1].
      exists w. apply (Hstep w x). exact H1.
    + exists 0. eexists. split.
      * unfold act. rewrite Ews. cbn [nth_error]. rewrite Eq. exists ns. split; [exact HF|reflexivity].
      * cbn [queue length]. lia.
Qed.

Lemma completes : forall m p, pool_inv p -> work p m -> 1 <= length (workers p) ->
  exists sched rs, collect (slots (run_pool step sched p)) = Some rs.
Proof.
  induction m as [m IH] using (well_founded_induction lt_wf). intros p Hi Hm Hw.
  destruct (collect (slots p)) as [rs|] eqn:E; [exists [], rs; exact E|].
  destruct (progress p m Hi Hm Hw E) as (w & m' & H1 & H2).
  destruct (IH m' H2 (act step p w)) as (sched & rs & H); [apply act_inv, Hi|exact H1|destruct (act_length p w) as [_ ->]; exact Hw|].
  exists (w :: sched), rs. exact H.
Qed.

Lemma work_start nw tasks : (forall t, In t tasks -> exists n r, runs n t r) -> exists m, work (start_pool nw tasks) m.
Proof.
  intros H. assert (G : exists ns, Forall2 (fun st n => match st with Running s => exists r, runs n s r | Finished _ => n = 0 end) (map (@Running S R) tasks) ns).
  { induction tasks as [|t tasks IH]; [exists []; constructor|].
    destruct (H t (or_introl eq_refl)) as (n & r & Hr). destruct IH as [ns Hns]; [intros x Hx; apply H; right; exact Hx|].
    exists (n :: ns). constructor; [exists r; exact Hr|exact Hns]. }
  destruct G as [ns G]. eexists. exists ns. split; [exact G|reflexivity].
Qed.

Lemma act_work p w m : pool_inv p -> work p m -> exists m', work (act step p w) m'.
Proof.
  intros [Hn Hi] (ns & HF & ->). unfold act. destruct (nth_error (workers p) w) as [[j|]|] eqn:Ew.
  - destruct (nth_error (slots p) j) as [[s0|r]|] eqn:Hs; [|eexists; exists ns; split; [exact HF|reflexivity]..].
    destruct (step s0) as [s'|r] eqn:Es.
    + destruct (work_set _ _ _ j (Running s0) (Running s') 1 HF Hs) as (ns' & H1 & H2).
      { intros m0 [r Hr]. inversion Hr; subst; [congruence|]. rewrite Es in H. injection H as <-.
        exists n. split; [exists r; assumption|lia]. }
      eexists. exists ns'. split; [exact H1|reflexivity].
    + destruct (work_set _ _ _ j (Running s0) (Finished r) 1 HF Hs) as (ns' & H1 & H2).
      { intros m0 [r' Hr]. inversion Hr; subst; [|congruence]. exists 0. split; [reflexivity|lia]. }
      eexists. exists ns'. split; [exact H1|reflexivity].
  - destruct (queue p) as [|k q] eqn:Eq; eexists; exists ns; (split; [exact HF|reflexivity]).
  - eexists. exists ns. split; [exact HF|reflexivity].
Qed.

Lemma run_work : forall sched p m, pool_inv p -> work p m -> exists m', work (run_pool step sched p) m'.
Proof.
  induction sched as [|w sched IH]; intros p m Hi Hm; [exists m; exact Hm|].
  destruct (act_work p w m Hi Hm) as [m' H]. change (run_pool step (w :: sched) p) with (run_pool step sched (act step p w)). eapply IH; [apply act_inv, Hi|exact H].
Qed.
Lemma run_workers : forall sched p, length (workers (run_pool step sched p)) = length (workers p).
Proof. induction sched as [|w sched IH]; intros p; [reflexivity|]. change (run_pool step (w :: sched) p) with (run_pool step sched (act step p w)). rewrite IH. apply act_length. Qed.

(** From every reachable state the pool can be driven to completion. *)
Lemma never_stuck nw tasks sched : 1 <= nw -> (forall t, In t tasks -> exists n r, runs n t r) ->
  exists more rs, collect (slots (run_pool step (sched ++ more) (start_pool nw tasks))) = Some rs.
Proof.
  intros Hw Ht. destruct (work_start nw tasks Ht) as [m Hm].
  destruct (run_work sched _ m (start_inv nw tasks) Hm) as [m' Hm'].
  destruct (completes m' (run_pool step sched (start_pool nw tasks))) as (more & rs & H);
    [apply run_inv, start_inv|exact Hm'|rewrite run_workers; cbn; rewrite repeat_length; exact Hw|].
  exists more, rs. unfold run_pool in *. rewrite fold_left_app. exact H.
Qed.
End Pool.

(** ** read_all *)
Section Read.
Context {V : Type}.
Variable conv : nat -> bytes -> option V.
Variables (lanes : nat) (clmul : bool) (sep q : byte) (sp : bytes).
Hypothesis Hl : lanes_ok lanes.
Notation nc := (make_null_checker sp).

Lemma rows_task ne : forall fuel l cols rows x, length l <= fuel ->
  read_rows conv lanes clmul sep q nc fuel ne l cols rows = x ->
  exists n, runs (parse_step conv lanes clmul sep q nc ne) n (Rows l cols rows) x.
Proof.
  induction fuel as [|fuel IH]; intros l cols rows x Hf Hx.
  - destruct l; [|cbn in Hf; lia]. cbn in Hx. subst. exists 1. constructor. reflexivity.
  - destruct l as [|c l]; [cbn in Hx; subst; exists 1; constructor; reflexivity|].
    destruct (skip_empty (c :: l)) as [|d l'] eqn:Es.
    + cbn [read_rows] in Hx. rewrite Es in Hx. subst. exists 1. constructor. cbn [parse_step]. rewrite Es. reflexivity.
    + destruct (row_fields_lossless lanes clmul sep q LF (d :: l') ne Hl) as (rs & rest & Hr & _ & Hv).
      cbn [read_rows] in Hx. rewrite Es, Hr in Hx.
      destruct (fields_into conv q nc rs 0 cols) as [ci cols'] eqn:Ef.
      assert (Hlt : length rest < length (c :: l)).
      { assert (length (d :: l') <= length (c :: l)) by (rewrite <- Es, skip_empty_trim; apply trim_left_length).
        destruct Hv as [[_ ->]|Hv]; [cbn; lia|]. rewrite Hv in H. rewrite app_length in H. cbn [length] in *. lia. }
      destruct (IH rest (fill_nulls (length cols - ci) ci cols') (rows + 1) x) as [n Hn]; [lia|exact Hx|].
      exists (Datatypes.S n). eapply runs_next; [|exact Hn]. cbn [parse_step]. rewrite Es, Hr, Ef. reflexivity.
Qed.

Lemma parse_task_runs ne data cols st x : parse_chunk conv lanes clmul sep q nc ne data cols st = x ->
  exists n, runs (parse_step conv lanes clmul sep q nc ne) n (Ready data cols st) x.
Proof.
  intros Hx. unfold parse_chunk in Hx. cbv zeta in Hx.
  destruct ((length data =? 0) || (length cols =? 0)) eqn:E.
  - exists 1. constructor. cbn [parse_step]. rewrite E, Hx. reflexivity.
  - destruct (rows_task ne _ _ _ _ _ (Nat.le_succ_diag_r _) Hx) as [n Hn].
    exists (S n). eapply runs_next; [|exact Hn]. cbn [parse_step]. rewrite E. reflexivity.
Qed.

Lemma map_option_runs {A B T} (step : T -> T + option B) (mk : A -> T) (f : A -> option B) :
  (forall a, exists n, runs step n (mk a) (f a)) ->
  forall l rs, Forall2 (fun t r => exists n, runs step n t r) (map mk l) rs -> map_option (fun x => x) rs = map_option f l.
Proof.
  intros H. induction l as [|a l IH]; intros rs HF; inversion HF; subst; [reflexivity|].
  cbn [map_option]. destruct (H a) as [n Hn]. destruct H2 as [m Hm].
  rewrite (runs_fun step _ _ _ Hm _ _ Hn). match goal with HF : Forall2 _ (map mk l) ?x |- _ => rewrite (IH x HF) end. reflexivity.
Qed.

Lemma sched_collect {A B T} (step : T -> T + option B) (mk : A -> T) (f : A -> option B) nw sched l rs :
  (forall a, exists n, runs step n (mk a) (f a)) ->
  collect (slots (run_pool step sched (start_pool nw (map mk l)))) = Some rs ->
  map_option (fun x => x) rs = map_option f l.
Proof. intros H Hc. apply pool_results in Hc. eapply map_option_runs; eassumption. Qed.

Lemma analysis_runs c : exists n, runs (analysis_step lanes clmul q) n c (analyze_chunk_dual_state_simd lanes clmul c q).
Proof. exists 1. constructor. reflexivity. Qed.

Lemma sched_read nw s1 s3 ne ncols data ranges r :
  read_chunks_sched conv lanes clmul sep q nc nw s1 s3 ne ncols data ranges = Some r ->
  read_chunks conv lanes clmul sep q nc ne ncols data ranges = Some r.
Proof.
  unfold read_chunks_sched, read_chunks. intros H.
  destruct (collect (slots (run_pool (analysis_step lanes clmul q) s1 _))) as [an|] eqn:E1; [|discriminate].
  rewrite <- (map_id (map _ ranges)) in E1.
  rewrite (sched_collect (analysis_step lanes clmul q) (fun c => c) _ nw s1 _ an analysis_runs E1) in H.
  destruct (map_option _ (map _ ranges)) as [ds|]; [|discriminate]. cbv zeta in H.
  destruct (collect (slots (run_pool (parse_step _ _ _ _ _ _ ne) s3 _))) as [rs|] eqn:E3; [|discriminate].
  match type of E3 with context [start_pool nw (map ?mk ?l)] =>
    rewrite (sched_collect (parse_step conv lanes clmul sep q nc ne) mk (fun '(r, st) => parse_chunk conv lanes clmul sep q nc ne (slice (fst r) (snd r) data) (empty_columns ncols) st) nw s3 l rs) in H end; [exact H| |exact E3].
  intros [rr st]. apply parse_task_runs. reflexivity.
Qed.

Lemma sched_exists nw s1 s3 ne ncols data ranges : 1 <= nw -> q <> LF -> q <> CR -> 0 < ncols ->
  exists m1 m3 r, read_chunks_sched conv lanes clmul sep q nc nw (s1 ++ m1) (s3 ++ m3) ne ncols data ranges = Some r.
Proof.
  intros Hw HL HC Hn.
  destruct (read_chunks_rect conv lanes clmul sep q sp Hl HL HC ne ncols data ranges Hn) as (r & _ & Hr & _).
  destruct (never_stuck (analysis_step lanes clmul q) nw (map (fun '(s, e) => slice s e data) ranges) s1 Hw) as (m1 & an & E1).
  { intros t _. destruct (analysis_runs t) as [n Hn']. eauto. }
  exists m1. unfold read_chunks in Hr. unfold read_chunks_sched. rewrite E1.
  rewrite <- (map_id (map (fun '(s, e) => slice s e data) ranges)) in E1.
  rewrite (sched_collect (analysis_step lanes clmul q) (fun c => c) _ nw _ _ an analysis_runs E1).
  destruct (map_option _ (map _ ranges)) as [ds|]; [|discriminate]. cbv zeta in Hr |- *.
  set (tasks := map (fun '(r0, st) => Ready _ _ _) _).
  destruct (never_stuck (parse_step conv lanes clmul sep q nc ne) nw tasks s3 Hw) as (m3 & rs & E3).
  { intros t Ht. unfold tasks in Ht. apply in_map_iff in Ht. destruct Ht as ([rr st] & <- & _).
    destruct (parse_task_runs ne (slice (fst rr) (snd rr) data) (empty_columns ncols) st _ eq_refl) as [n Hn']. eauto. }
  exists m3. rewrite E3. unfold tasks in E3.
  match type of E3 with context [start_pool nw (map ?mk ?l)] =>
    rewrite (sched_collect (parse_step conv lanes clmul sep q nc ne) mk (fun '(r, st) => parse_chunk conv lanes clmul sep q nc ne (slice (fst r) (snd r) data) (empty_columns ncols) st) nw (s3 ++ m3) l rs) end; [| |exact E3].
  - destruct (map_option _ (combine ranges _)); [|discriminate]. eexists. reflexivity.
  - intros [rr st]. apply parse_task_runs. reflexivity.
Qed.
End Read.
