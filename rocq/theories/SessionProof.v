(** Orderly and disorderly use of a writer. *)
From Verif Require Import Base TypesSpec MetaSpec BuffersModel ParquetModel QueueSpec QueueModel QueueProof PipelineModel PipelineProof SessionModel SessionSpec.

Section Session.
Variable library : compression -> bytes -> option bytes.
Variable below : nat -> nat -> bool.
Variable options : parquet_options.
Notation group := (Z * list encoded_column)%type.
Notation step := (wstep library below options).
Notation run_ := (wrun library below options).

Definition simple (groups : list group) : list (label group) := map (fun g => Event 1 Pop (Popped (Some g))) groups.
Lemma simple_ok groups : delivered (events_of 1 (simple groups)) = groups.
Proof. induction groups as [|g r IH]; [reflexivity|]. cbn [simple map events_of delivered Nat.eqb]. f_equal. exact IH. Qed.
Lemma fair_delivers traces k groups : fair traces -> delivered (events_of 1 (traces k groups)) = groups.
Proof. intros F. destruct (F k groups) as (s & R & E). apply (pipeline_result pipeline_capacity groups _ _ R E). Qed.
Lemma step_simple traces k s o : fair traces -> step (traces k) s o = step simple s o.
Proof.
  intros F. destruct o; try reflexivity. unfold wstep. destruct (ws_queue s); [|reflexivity].
  rewrite (fair_delivers _ _ _ F), simple_ok. reflexivity.
Qed.
Lemma run_simple traces : fair traces -> forall ops s, run_ traces s ops = run_ (fun _ => simple) s ops.
Proof.
  intros F. induction ops as [|o r IH]; intros s; [reflexivity|]. cbn [wrun]. rewrite (step_simple _ _ _ _ F).
  destruct (step simple s o) as [[s' ok]| |]; [rewrite IH; reflexivity|reflexivity|reflexivity].
Qed.
Notation run0 := (run_ (fun _ => simple)).

Lemma run0_app a b s : run0 s (a ++ b) =
  match run0 s a with
  | Gives (s', oks) => match run0 s' b with Gives (s'', oks') => Gives (s'', oks ++ oks') | Undefined => Undefined | Broken => Broken end
  | Undefined => Undefined
  | Broken => Broken
  end.
Proof.
  revert s. induction a as [|o r IH]; intros s; cbn [app wrun].
  - destruct (run0 s b) as [[s'' oks']| |]; reflexivity.
  - destruct (step simple s o) as [[s' ok]| |]; [|reflexivity|reflexivity]. rewrite IH. destruct (run0 s' r) as [[s1 oks]| |]; [|reflexivity|reflexivity].
    destruct (run0 s1 b) as [[s'' oks']| |]; reflexivity.
Qed.

(** *** The phases. *)
Lemma snoc_start calls o before since : calls ++ [o] = before ++ WStart :: since <->
  (since = [] /\ before = calls /\ o = WStart) \/ (exists since', since = since' ++ [o] /\ calls = before ++ WStart :: since').
Proof.
  split.
  - destruct since as [|x l] using rev_ind; intros H; [left; apply app_inj_tail in H; destruct H as (-> & ->); auto|].
    right. clear IHl. change (before ++ WStart :: l ++ [x]) with (before ++ (WStart :: l) ++ [x]) in H. rewrite app_assoc in H.
    apply app_inj_tail in H. destruct H as (-> & ->). exists l. auto.
  - intros [(-> & -> & ->)|(l & -> & ->)]; [reflexivity|]. rewrite <- app_assoc. reflexivity.
Qed.
Lemma open_snoc calls o : file_open (calls ++ [o]) =
  match o with WOpen ok _ => file_open calls || ok | WClose => false | _ => file_open calls end.
Proof. unfold file_open. rewrite fold_left_app. destruct o; reflexivity. Qed.
Lemma running_snoc calls o : running (calls ++ [o]) <->
  o <> WFinish /\ (running calls \/ (o = WStart /\ file_open calls = true)).
Proof.
  split.
  - intros (b & l & E & F & N). apply snoc_start in E. destruct E as [(-> & -> & ->)|(l' & -> & ->)].
    + split; [discriminate|]. auto.
    + split; [intros ->; apply N, in_or_app; right; left; reflexivity|]. left. exists b, l'. split; [reflexivity|]. split; [exact F|]. intros X. apply N, in_or_app. auto.
  - intros (N & [(b & l & -> & F & M)|(-> & F)]).
    + exists b, (l ++ [o]). split; [rewrite <- app_assoc; reflexivity|]. split; [exact F|]. intros X. apply in_app_or in X. destruct X as [X|[X|[]]]; [auto|congruence].
    + exists calls, []. split; [reflexivity|]. split; [exact F|intros []].
Qed.
Lemma handed_snoc calls o : handed_over (calls ++ [o]) <->
  o <> WFinish /\ (handed_over calls \/ (running calls /\ exists columns, columns <> [] /\ o = WSubmit columns)).
Proof.
  split.
  - intros (b & l & cs & E & (F & N) & C & I). apply snoc_start in E. destruct E as [(-> & -> & ->)|(l' & -> & ->)]; [destruct I|].
    split; [intros ->; apply N, in_or_app; right; left; reflexivity|].
    assert (N' : ~ In WFinish l') by (intros X; apply N, in_or_app; auto).
    apply in_app_or in I. destruct I as [I|[I|[]]].
    + left. exists b, l', cs. repeat split; assumption.
    + right. split; [exists b, l'; repeat split; assumption|]. exists cs. auto.
  - intros (N & [(b & l & cs & -> & (F & M) & C & I)|((b & l & -> & F & M) & cs & C & ->)]).
    + exists b, (l ++ [o]), cs. split; [rewrite <- app_assoc; reflexivity|]. split; [split; [exact F|]|].
      * intros X. apply in_app_or in X. destruct X as [X|[X|[]]]; [auto|congruence].
      * split; [exact C|]. apply in_or_app. auto.
    + exists b, (l ++ [WSubmit cs]), cs. split; [rewrite <- app_assoc; reflexivity|]. split; [split; [exact F|]|].
      * intros X. apply in_app_or in X. destruct X as [X|[X|[]]]; [auto|discriminate X].
      * split; [exact C|]. apply in_or_app. right. left. reflexivity.
Qed.

Record tracks (calls : list wop) (s : wstate) : Prop := Tracks {
  t_open : ps_open (ws_writer s) = file_open calls;
  t_running : ws_queue s <> None <-> running calls;
  t_busy : busy s = true <-> handed_over calls }.
Lemma tracks_new : tracks [] session_new.
Proof.
  split; [reflexivity| |]; split.
  - intros H. exfalso. apply H. reflexivity.
  - intros (b & l & E & _). destruct b; discriminate E.
  - intros H. discriminate H.
  - intros (b & l & cs & E & _). destruct b; discriminate E.
Qed.

Lemma set_open p b : ps_open (write_bytes p b) = ps_open p. Proof. reflexivity. Qed.
Lemma fold_open cols : forall p ch u t, ps_open (fst (fst (fst (fold_left write_column cols (p, ch, u, t))))) = ps_open p.
Proof.
  induction cols as [|e r IH]; intros p ch u t; [reflexivity|]. cbn [fold_left]. unfold write_column at 2.
  destruct (e_uses_dict e), (e_dict_header e), (e_dict_content e); cbv zeta iota beta; rewrite IH; reflexivity.
Qed.
Lemma group_open p n cols : ps_open (write_encoded_row_group p n cols) = ps_open p.
Proof.
  unfold write_encoded_row_group. pose proof (fold_open cols p [] 0%Z 0%Z) as H.
  destruct (fold_left write_column cols (p, [], 0%Z, 0%Z)) as [[[p1 ch] u] t]. exact H.
Qed.
Lemma written_open gs : forall p, ps_open (written p gs) = ps_open p.
Proof. induction gs as [|g r IH]; intros p; [reflexivity|]. unfold written in *. cbn [fold_left]. rewrite IH. apply group_open. Qed.
Lemma thread_open p gs : ps_open (thread_writes p gs) = ps_open p.
Proof. unfold thread_writes. rewrite written_open. destruct (ps_open p) eqn:E; [exact E|reflexivity]. Qed.
Lemma pstep_open p o r ok : pstep library below options p o = Some (r, ok) ->
  ps_open r = match o with POpen a _ => ps_open p || a | PClose => false | _ => ps_open p end.
Proof.
  destruct o as [a c|s|cols|]; cbn [pstep].
  - unfold do_open. destruct (ps_open p) eqn:E.
    + intros H. assert (X : r = write_bytes (PState true true (ps_file p) (ps_capacity p) (ps_closed p) (ps_schema p) (ps_offset p) (ps_groups p) (ps_rows p)) file_magic) by congruence. rewrite X. reflexivity.
    + destruct a; intros H.
      * assert (X : r = write_bytes (PState true false [] c (ps_closed p) (ps_schema p) (ps_offset p) (ps_groups p) (ps_rows p)) file_magic) by congruence. rewrite X. reflexivity.
      * assert (X : r = p) by congruence. rewrite X, E. reflexivity.
  - intros H. assert (X : r = do_set_schema p s) by congruence. rewrite X. reflexivity.
  - unfold do_write. destruct (ps_open p) eqn:E; cbn [negb].
    + destruct cols as [|a t]; [intros H; congruence|]. destruct (encode_columns library below options (a :: t) (ps_schema p)) as [e|]; [|intros H; discriminate H].
      intros H. assert (X : r = write_encoded_row_group p (Z.of_nat (ac_size a)) e) by congruence. rewrite X, group_open. exact E.
    + intros H. congruence.
  - unfold do_close. destruct (ps_open p) eqn:E; cbn [negb]; intros H.
    + cbv zeta in H. match type of H with Some (?x, _) = _ => assert (X : r = x) by congruence end. rewrite X. reflexivity.
    + congruence.
Qed.

(** A step that changes neither phase. *)
Lemma tracks_plain calls s o p ok q : tracks calls s -> o <> WFinish -> o <> WStart -> (forall cs, o <> WSubmit cs) ->
  pstep library below options (ws_writer s) q = Some (p, ok) ->
  match o, q with WOpen a c, POpen a' c' => a = a' /\ c = c' | WClose, PClose | WSetSchema _, PSetSchema _ | WWrite _, PWrite _ => True | _, _ => False end ->
  tracks (calls ++ [o]) (WState p (ws_queue s)).
Proof.
  intros [A B C] N1 N2 N3 P M. apply pstep_open in P. split; cbn [ws_writer].
  - rewrite P, open_snoc. destruct o, q; try destruct M; subst; rewrite ?A; reflexivity || exact A.
  - rewrite running_snoc. cbn [ws_queue]. rewrite B. split; [intros H; auto|]. intros (_ & [H|(H & _)]); [exact H|congruence].
  - rewrite handed_snoc. unfold busy in *. cbn [ws_queue]. rewrite C. split; [intros H; auto|]. intros (_ & [H|(_ & cs & _ & H)]); [exact H|]. destruct (N3 cs H).
Qed.
Lemma tracks_step calls s o s' ok : tracks calls s -> step simple s o = Gives (s', ok) -> tracks (calls ++ [o]) s'.
Proof.
  intros T E. pose proof T as [A B C].
  destruct o as [a c|sc|cols| |cols| |]; unfold wstep in E; cbv zeta in E.
  - destruct (busy s); [discriminate E|]. unfold plain in E. destruct (pstep library below options (ws_writer s) (POpen a c)) as [[p k]|] eqn:P; [|discriminate E].
    injection E as <- <-. eapply (tracks_plain calls s (WOpen a c)); eauto; try discriminate; cbn; auto.
  - unfold plain in E. destruct (pstep library below options (ws_writer s) (PSetSchema sc)) as [[p k]|] eqn:P; [|discriminate E].
    injection E as <- <-. eapply (tracks_plain calls s (WSetSchema sc)); eauto; try discriminate; cbn; auto.
  - assert (X : plain s (pstep library below options (ws_writer s) (PWrite cols)) = Gives (s', ok)).
    { destruct cols; [exact E|]. destruct (ps_open (ws_writer s) && busy s); [discriminate E|exact E]. }
    unfold plain in X. destruct (pstep library below options (ws_writer s) (PWrite cols)) as [[p k]|] eqn:P; [|discriminate X].
    injection X as <- <-. eapply (tracks_plain calls s (WWrite cols)); eauto; try discriminate; cbn; auto.
  - destruct (ps_open (ws_writer s)) eqn:O; cbn [negb] in E.
    + destruct (ws_queue s) as [g|] eqn:Q; [discriminate E|]. injection E as <- <-. split; cbn [ws_writer ws_queue].
      * rewrite open_snoc, O. congruence.
      * rewrite running_snoc. split; [|discriminate]. intros _. split; [discriminate|]. right. split; [reflexivity|congruence].
      * rewrite handed_snoc. split; [discriminate|]. intros (_ & [H|(_ & cs & _ & H)]); [|discriminate H]. apply C in H. unfold busy in H. rewrite Q in H. discriminate H.
    + injection E as <- <-. split.
      * rewrite open_snoc. congruence.
      * rewrite running_snoc, B. split; [intros H; split; [discriminate|auto]|]. intros (_ & [H|(_ & H)]); [exact H|congruence].
      * rewrite handed_snoc, C. split; [intros H; split; [discriminate|auto]|]. intros (_ & [H|(_ & cs & _ & H)]); [exact H|discriminate H].
  - destruct (ws_queue s) as [g|] eqn:Q.
    + assert (R : running calls) by (apply B; discriminate).
      destruct cols as [|x t].
      * injection E as <- <-. split.
        -- rewrite open_snoc. exact A.
        -- rewrite running_snoc, Q. split; [intros _; split; [discriminate|auto]|intros _; discriminate].
        -- rewrite handed_snoc, C. split; [intros H; split; [discriminate|auto]|]. intros (_ & [H|(_ & cs & H & H')]); [exact H|]. congruence.
      * destruct (encode_columns library below options (x :: t) (ps_schema (ws_writer s))) as [e|]; [|discriminate E]. injection E as <- <-. split; cbn [ws_writer ws_queue].
        -- rewrite open_snoc. exact A.
        -- rewrite running_snoc. split; [intros _; split; [discriminate|auto]|intros _; discriminate].
        -- rewrite handed_snoc. unfold busy. cbn [ws_queue]. split; [intros _; split; [discriminate|]; right; split; [exact R|exists (x :: t); split; [discriminate|reflexivity]]|].
           intros _. destruct (g ++ [(Z.of_nat (ac_size x), e)]) eqn:Y; [|reflexivity]. destruct g; discriminate Y.
    + injection E as <- <-. split.
      * rewrite open_snoc. exact A.
      * rewrite running_snoc, Q. split; [intros H; congruence|]. intros (_ & [H|(H & _)]); [apply B in H; exact H|discriminate H].
      * rewrite handed_snoc, C. split; [intros H; split; [discriminate|auto]|]. intros (_ & [H|(H & _)]); [exact H|]. apply B in H. congruence.
  - destruct (ws_queue s) as [g|] eqn:Q; injection E as <- <-.
    + split; cbn [ws_writer ws_queue].
      * rewrite open_snoc, thread_open. exact A.
      * rewrite running_snoc. split; [congruence|]. intros (H & _). congruence.
      * rewrite handed_snoc. split; [discriminate|]. intros (H & _). congruence.
    + split.
      * rewrite open_snoc. exact A.
      * rewrite running_snoc, Q. split; [congruence|]. intros (H & _). congruence.
      * rewrite handed_snoc. unfold busy. rewrite Q. split; [discriminate|]. intros (H & _). congruence.
  - destruct (ps_open (ws_writer s) && busy s); [discriminate E|]. unfold plain in E. destruct (pstep library below options (ws_writer s) PClose) as [[p k]|] eqn:P; [|discriminate E].
    injection E as <- <-. eapply (tracks_plain calls s WClose); eauto; try discriminate; cbn; auto.
Qed.
Lemma tracks_run calls : forall s oks, run0 session_new calls = Gives (s, oks) -> tracks calls s.
Proof.
  induction calls as [|o calls IH] using rev_ind; intros s oks E.
  - cbn [wrun] in E. injection E as <- <-. exact tracks_new.
  - rewrite run0_app in E. destruct (run0 session_new calls) as [[s1 k1]| |] eqn:R; [|discriminate E|discriminate E]. cbn [wrun] in E.
    destruct (step simple s1 o) as [[s2 ok]| |] eqn:ST; [|discriminate E|discriminate E]. injection E as <- <-.
    apply (tracks_step calls s1 o s2 ok); [exact (IH _ _ eq_refl)|exact ST].
Qed.

(** Which steps break. *)
Lemma step_broken calls s o : tracks calls s -> (step simple s o = Broken <->
  (o = WStart /\ file_open calls = true /\ running calls) \/ (touches_file calls o /\ handed_over calls)).
Proof.
  intros [A B C]. rewrite <- B, <- C. unfold wstep. cbv zeta.
  destruct o as [a c|sc|cols| |cols| |]; cbn [touches_file]; rewrite <- ?A.
  - destruct (busy s); unfold plain; [split; auto|]. split; [|intros [(H & _)|(_ & H)]; discriminate H].
    destruct (pstep library below options (ws_writer s) (POpen a c)) as [[? ?]|]; intros H; discriminate H.
  - unfold plain. split; [|intros [(H & _)|([] & _)]; discriminate H]. destruct (pstep library below options (ws_writer s) (PSetSchema sc)) as [[? ?]|]; intros H; discriminate H.
  - destruct cols as [|x t].
    + unfold plain. split; [|intros [(H & _)|((H & _) & _)]; congruence]. destruct (pstep library below options (ws_writer s) (PWrite [])) as [[? ?]|]; intros H; discriminate H.
    + destruct (ps_open (ws_writer s)), (busy s); cbn [andb]; unfold plain;
        try (split; [|intros [(H & _)|((_ & H) & H')]; discriminate]; destruct (pstep library below options (ws_writer s) (PWrite (x :: t))) as [[? ?]|]; intros H; discriminate H).
      split; [intros _; right; repeat split; discriminate|reflexivity].
  - destruct (ps_open (ws_writer s)); cbn [negb]; [|split; [discriminate|intros [(_ & H & _)|([] & _)]; discriminate H]].
    destruct (ws_queue s) as [g|]; split; try discriminate; auto.
    + intros _. left. repeat split. discriminate.
    + intros [(_ & _ & H)|([] & _)]. congruence.
  - split; [|intros [(H & _)|([] & _)]; discriminate H]. destruct (ws_queue s); [|discriminate]. destruct cols; [discriminate|].
    destruct (encode_columns library below options (a :: cols) (ps_schema (ws_writer s))); discriminate.
  - split; [|intros [(H & _)|([] & _)]; discriminate H]. destruct (ws_queue s); discriminate.
  - destruct (ps_open (ws_writer s)), (busy s); cbn [andb]; unfold plain;
      try (split; [|intros [(H & _)|(H & H')]; discriminate]; destruct (pstep library below options (ws_writer s) PClose) as [[? ?]|]; intros H; discriminate H).
    split; auto.
Qed.
Lemma run_broken calls : run0 session_new calls = Broken -> exists before o after s oks,
  calls = before ++ o :: after /\ run0 session_new before = Gives (s, oks) /\ step simple s o = Broken.
Proof.
  induction calls as [|o calls IH] using rev_ind; intros E; [discriminate E|]. rewrite run0_app in E.
  destruct (run0 session_new calls) as [[s k]| |] eqn:R; [|discriminate E|].
  - cbn [wrun] in E. destruct (step simple s o) as [[s2 ok]| |] eqn:ST; [discriminate E|discriminate E|]. exists calls, o, [], s, k. auto.
  - destruct (IH eq_refl) as (b & o' & a & s & oks & -> & X). exists b, o', (a ++ [o]), s, oks. rewrite <- app_assoc. auto.
Qed.
Lemma broken_exactly traces calls : fair traces ->
  (lifetime library below options traces calls = Broken -> misused calls) /\
  (misused calls -> lifetime library below options traces calls = Broken \/ lifetime library below options traces calls = Undefined).
Proof.
  intros F. unfold lifetime. rewrite (run_simple _ F). split.
  - destruct (run0 session_new calls) as [[s oks]| |] eqn:R.
    + destruct (ws_queue s) as [g|] eqn:Q; [|discriminate]. intros _. left. apply (t_running _ _ (tracks_run _ _ _ R)). congruence.
    + discriminate.
    + intros _. right. destruct (run_broken _ R) as (b & o & a & s & oks & E & R' & ST). exists b, o, a. split; [exact E|].
      apply (step_broken b s o); [exact (tracks_run _ _ _ R')|exact ST].
  - intros [M|(b & o & a & -> & M)].
    + destruct (run0 session_new calls) as [[s oks]| |] eqn:R; auto. apply (t_running _ _ (tracks_run _ _ _ R)) in M. destruct (ws_queue s); [auto|congruence].
    + rewrite run0_app. destruct (run0 session_new b) as [[s oks]| |] eqn:R; auto. cbn [wrun].
      apply (step_broken b s o (tracks_run _ _ _ R)) in M. rewrite M. auto.
Qed.

(** *** Orderly use. *)
Lemma schema_column p ch u t e s : write_column (do_set_schema p s, ch, u, t) e =
  (let '(p1, ch1, u1, t1) := write_column (p, ch, u, t) e in (do_set_schema p1 s, ch1, u1, t1)).
Proof. unfold write_column. destruct (e_uses_dict e), (e_dict_header e), (e_dict_content e); reflexivity. Qed.
Lemma schema_columns cols s : forall p ch u t, fold_left write_column cols (do_set_schema p s, ch, u, t) =
  (let '(p1, ch1, u1, t1) := fold_left write_column cols (p, ch, u, t) in (do_set_schema p1 s, ch1, u1, t1)).
Proof.
  induction cols as [|e r IH]; intros p ch u t; [reflexivity|]. cbn [fold_left]. rewrite schema_column.
  destruct (write_column (p, ch, u, t) e) as [[[p1 ch1] u1] t1]. apply IH.
Qed.
Lemma schema_group p n cols s : write_encoded_row_group (do_set_schema p s) n cols = do_set_schema (write_encoded_row_group p n cols) s.
Proof.
  unfold write_encoded_row_group. rewrite schema_columns. destruct (fold_left write_column cols (p, [], 0%Z, 0%Z)) as [[[p1 ch] u] t]. reflexivity.
Qed.
Lemma schema_written gs s : forall p, written (do_set_schema p s) gs = do_set_schema (written p gs) s.
Proof. induction gs as [|g r IH]; intros p; [reflexivity|]. unfold written in *. cbn [fold_left]. rewrite schema_group. apply IH. Qed.
Lemma column_schema_kept p ch u t e : ps_schema (fst (fst (fst (write_column (p, ch, u, t) e)))) = ps_schema p.
Proof. unfold write_column. destruct (e_uses_dict e), (e_dict_header e), (e_dict_content e); reflexivity. Qed.
Lemma columns_schema cols : forall p ch u t, ps_schema (fst (fst (fst (fold_left write_column cols (p, ch, u, t))))) = ps_schema p.
Proof.
  induction cols as [|e r IH]; intros p ch u t; [reflexivity|]. cbn [fold_left]. pose proof (column_schema_kept p ch u t e) as H.
  destruct (write_column (p, ch, u, t) e) as [[[p1 ch1] u1] t1]. cbn [fst] in H. rewrite IH. exact H.
Qed.
Lemma group_schema p n cols : ps_schema (write_encoded_row_group p n cols) = ps_schema p.
Proof.
  unfold write_encoded_row_group. pose proof (columns_schema cols p [] 0%Z 0%Z) as H.
  destruct (fold_left write_column cols (p, [], 0%Z, 0%Z)) as [[[p1 ch] u] t]. exact H.
Qed.
Lemma written_schema gs : forall p, ps_schema (written p gs) = ps_schema p.
Proof. induction gs as [|g r IH]; intros p; [reflexivity|]. unfold written in *. cbn [fold_left]. rewrite IH. apply group_schema. Qed.
Lemma written_snoc p gs g : written p (gs ++ [g]) = write_encoded_row_group (written p gs) (fst g) (snd g).
Proof. unfold written. rewrite fold_left_app. reflexivity. Qed.

Lemma body_runs body pl : inside body pl -> forall p gs, ps_open p = true ->
  match prun library below options (written p gs) pl with
  | None => run0 (WState p (Some gs)) body = Undefined
  | Some (p', oks) => oks = repeat true (length body) /\ exists q gs', ps_open q = true /\
      run0 (WState p (Some gs)) body = Gives (WState q (Some gs'), oks) /\ p' = written q gs'
  end.
Proof.
  induction 1 as [|s body pl H IH|cols body pl H IH]; intros p gs O.
  - cbn [prun wrun repeat length]. split; [reflexivity|]. exists p, gs. auto.
  - cbn [prun wrun]. change (pstep library below options (written p gs) (PSetSchema s)) with (Some (do_set_schema (written p gs) s, true)).
    change (step simple (WState p (Some gs)) (WSetSchema s)) with (Gives (WState (do_set_schema p s) (Some gs), true)).
    rewrite <- schema_written. specialize (IH (do_set_schema p s) gs O).
    destruct (prun library below options (written (do_set_schema p s) gs) pl) as [[p' oks]|].
    + destruct IH as (-> & q & gs' & O' & E & W). split; [reflexivity|]. exists q, gs'. rewrite E. auto.
    + rewrite IH. reflexivity.
  - cbn [prun wrun].
    assert (ST : step simple (WState p (Some gs)) (WSubmit cols) =
      match cols with [] => Gives (WState p (Some gs), true)
      | a :: _ => match encode_columns library below options cols (ps_schema p) with
                  | None => Undefined | Some e => Gives (WState p (Some (gs ++ [(Z.of_nat (ac_size a), e)])), true) end end) by reflexivity.
    rewrite ST. clear ST. unfold pstep at 1. unfold do_write. rewrite written_open, O. cbn [negb]. rewrite written_schema.
    destruct cols as [|a t].
    + cbv zeta iota beta. specialize (IH p gs O). destruct (prun library below options (written p gs) pl) as [[p' oks]|].
      * destruct IH as (-> & q & gs' & O' & E & W). split; [reflexivity|]. exists q, gs'. rewrite E. auto.
      * rewrite IH. reflexivity.
    + destruct (encode_columns library below options (a :: t) (ps_schema p)) as [e|] eqn:EC; [|cbv zeta iota beta; rewrite ?EC; reflexivity]. cbv zeta iota beta. rewrite ?EC.
      specialize (IH p (gs ++ [(Z.of_nat (ac_size a), e)]) O). rewrite written_snoc in IH. cbn [fst snd] in IH.
      destruct (prun library below options (write_encoded_row_group (written p gs) (Z.of_nat (ac_size a)) e) pl) as [[p' oks]|].
      * destruct IH as (-> & q & gs' & O' & E & W). split; [reflexivity|]. exists q, gs'. rewrite E. auto.
      * rewrite IH. reflexivity.
Qed.
Lemma prun_app a : forall b p, prun library below options p (a ++ b) =
  match prun library below options p a with
  | None => None
  | Some (p', oks) => match prun library below options p' b with None => None | Some (p'', oks') => Some (p'', oks ++ oks') end
  end.
Proof.
  induction a as [|o r IH]; intros b p; cbn [app prun].
  - destruct (prun library below options p b) as [[? ?]|]; reflexivity.
  - destruct (pstep library below options p o) as [[p' ok]|]; [|reflexivity]. rewrite IH. destruct (prun library below options p' r) as [[p1 oks]|]; [|reflexivity].
    destruct (prun library below options p1 b) as [[? ?]|]; reflexivity.
Qed.
Lemma reported_body body pl : inside body pl -> forall calls oks oks',
  length oks = length body -> reported (body ++ calls) (oks ++ oks') = oks ++ reported calls oks'.
Proof.
  induction 1 as [|s body pl H IH|cols body pl H IH]; intros calls oks oks' L; destruct oks as [|x oks]; try discriminate L; [reflexivity| |];
    injection L as L; cbn [app reported]; f_equal; apply IH, L.
Qed.
Lemma orderly_runs b calls pl : orderly b calls pl -> forall p, ps_open p = b ->
  match prun library below options p pl with
  | None => run0 (WState p None) calls = Undefined
  | Some (p', oks) => run0 (WState p None) calls = Gives (WState p' None, reported calls oks)
  end.
Proof.
  induction 1 as [b|b ok cap calls pl H IH|b s calls pl H IH|b cols calls pl H IH|b calls pl H IH|body pl calls pl' HB H IH]; intros p O.
  - reflexivity.
  - cbn [prun wrun]. unfold wstep, busy, plain. cbn [ws_writer ws_queue].
    destruct (pstep library below options p (POpen ok cap)) as [[p1 k]|] eqn:E; [|reflexivity]. pose proof (pstep_open _ _ _ _ E) as X. cbn in X. rewrite O in X. specialize (IH p1 X).
    destruct (prun library below options p1 pl) as [[p' oks]|]; rewrite IH; reflexivity.
  - cbn [prun wrun]. unfold wstep, busy, plain. cbn [ws_writer ws_queue].
    destruct (pstep library below options p (PSetSchema s)) as [[p1 k]|] eqn:E; [|reflexivity]. pose proof (pstep_open _ _ _ _ E) as X. cbn in X. rewrite O in X. specialize (IH p1 X).
    destruct (prun library below options p1 pl) as [[p' oks]|]; rewrite IH; reflexivity.
  - cbn [prun wrun]. assert (W : step simple (WState p None) (WWrite cols) = plain (WState p None) (pstep library below options p (PWrite cols))).
    { unfold wstep, busy. cbn [ws_writer ws_queue]. rewrite andb_false_r. destruct cols; reflexivity. }
    rewrite W. unfold plain. cbn [ws_queue].
    destruct (pstep library below options p (PWrite cols)) as [[p1 k]|] eqn:E; [|reflexivity]. pose proof (pstep_open _ _ _ _ E) as X. cbn in X. rewrite O in X. specialize (IH p1 X).
    destruct (prun library below options p1 pl) as [[p' oks]|]; rewrite IH; reflexivity.
  - cbn [prun wrun]. unfold wstep, busy. cbn [ws_writer ws_queue]. rewrite andb_false_r. unfold plain. cbn [ws_queue].
    destruct (pstep library below options p PClose) as [[p1 k]|] eqn:E; [|reflexivity]. pose proof (pstep_open _ _ _ _ E) as X. cbn in X. specialize (IH p1 X).
    destruct (prun library below options p1 pl) as [[p' oks]|]; rewrite IH; reflexivity.
  - rewrite prun_app. cbn [wrun].
    assert (ST : step simple (WState p None) WStart = Gives (WState p (Some []), true)).
    { unfold wstep. cbn [ws_writer ws_queue]. rewrite O. reflexivity. }
    rewrite ST. clear ST.
    pose proof (body_runs body pl HB p [] O) as BR. change (written p []) with p in BR.
    destruct (prun library below options p pl) as [[p1 oks]|].
    + destruct BR as (EO & q & gs & OQ & E & ->). rewrite run0_app, E. cbn [wrun].
      assert (ST : step simple (WState q (Some gs)) WFinish = Gives (WState (written q gs) None, true)).
      { unfold wstep. cbn [ws_writer ws_queue]. rewrite simple_ok. unfold thread_writes. rewrite OQ. reflexivity. }
      rewrite ST. clear ST.
      specialize (IH (written q gs)). rewrite written_open in IH. specialize (IH OQ).
      destruct (prun library below options (written q gs) pl') as [[p' oks']|]; rewrite IH; [|reflexivity].
      cbn [reported]. rewrite (reported_body body pl HB); [reflexivity|]. rewrite EO. apply repeat_length.
    + rewrite run0_app, BR. reflexivity.
Qed.
Lemma orderly_same traces calls pl : fair traces -> orderly false calls pl ->
  match prun library below options writer_new pl with
  | None => run_ traces session_new calls = Undefined
  | Some (p, oks) => run_ traces session_new calls = Gives (WState p None, reported calls oks)
  end.
Proof. intros F H. rewrite (run_simple _ F). apply (orderly_runs false calls pl H writer_new eq_refl). Qed.
Lemma reported_true calls : forall oks, Forall (eq true) oks -> Forall (eq true) (reported calls oks).
Proof.
  induction calls as [|o r IH]; intros oks H; [constructor|]. destruct o; cbn [reported]; try (constructor; [reflexivity|apply IH, H]);
    destruct oks; try constructor; inversion H; subst; auto.
Qed.
End Session.
