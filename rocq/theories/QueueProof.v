From Verif Require Import Base QueueSpec QueueModel.

Section Queue.
Context {A : Type}.
Variable cap : nat.
Implicit Types (s : system A) (t : thread A) (ts : list (thread A)) (tr : list (label A)).

Lemma events_app : forall tr tr' : list (label A), events (tr ++ tr') = events tr ++ events tr'.
Proof. induction tr as [|l tr IH]; intros tr'; [reflexivity|]. destruct l; cbn [app events]; rewrite IH; reflexivity. Qed.
Lemma events_of_app : forall i (tr tr' : list (label A)), events_of i (tr ++ tr') = events_of i tr ++ events_of i tr'.
Proof. intros i. induction tr as [|l tr IH]; intros tr'; [reflexivity|]. destruct l; cbn [app events_of]; rewrite IH; try reflexivity. destruct (i =? i0); reflexivity. Qed.

(** ** The calls are those of a sequential queue *)
Lemma attempt_fifo : forall items closed (c : call A) r items' closed' w, attempt cap items closed c = Some (r, items', closed', w) ->
  delivers_front items c r /\ fifo_call cap items closed c r = Some (items', closed').
Proof.
  intros items closed c r items' closed' w H. destruct c as [x| | |]; cbn [attempt] in H.
  - destruct closed.
    + rewrite orb_true_r in H. injection H as <- <- <- <-. split; [exact I|reflexivity].
    + rewrite orb_false_r in H. destruct (length items <? cap) eqn:L; [|discriminate]. injection H as <- <- <- <-. split; [exact I|]. cbn [fifo_call negb andb]. rewrite L. reflexivity.
  - destruct items as [|x items]; [destruct closed; [|discriminate]|]; injection H as <- <- <- <-; split; reflexivity.
  - injection H as <- <- <- <-. split; reflexivity.
  - injection H as <- <- <- <-. split; [exact I|]. cbn [fifo_call]. rewrite eqb_reflx. reflexivity.
Qed.
Lemma run_fifo : forall clients tr s, run cap (start clients) tr s -> fifo cap (events tr) (q_items s) (q_closed s).
Proof.
  intros clients tr s H. induction H as [|tr s l s' Hr IH Hs]; [constructor|]. rewrite events_app. inversion Hs; subst; cbn [events q_items q_closed].
  - destruct (attempt_fifo _ _ _ _ _ _ _ H2) as [D F]. econstructor; eassumption.
  - rewrite app_nil_r. exact IH.
  - rewrite app_nil_r. exact IH.
Qed.

(** ** What a sequential queue's history says *)
Lemma accepted_app : forall h h' : list (call A * result A), accepted (h ++ h') = accepted h ++ accepted h'.
Proof. induction h as [|[c r] h IH]; intros h'; [reflexivity|]. cbn [app accepted]. destruct c as [z| | |], r as [ac|y| |b]; try (rewrite IH; reflexivity). destruct ac; rewrite IH; reflexivity. Qed.
Lemma delivered_app : forall h h' : list (call A * result A), delivered (h ++ h') = delivered h ++ delivered h'.
Proof. induction h as [|[c r] h IH]; intros h'; [reflexivity|]. cbn [app delivered]. destruct c as [z| | |], r as [ac|y| |b]; try (rewrite IH; reflexivity). destruct y; rewrite IH; reflexivity. Qed.
Lemma fifo_order : forall (h : list (call A * result A)) items closed, fifo cap h items closed -> accepted h = delivered h ++ items /\ length items <= cap /\ (closed = true <-> close_called h).
Proof.
  intros h items closed H. induction H as [|h items closed c r items' closed' Hf (IH1 & IH2 & IH3) Hd Hc]; [split; [reflexivity|]; split; [cbn [length]; lia|]; split; [discriminate|intros []]|].
  rewrite accepted_app, delivered_app.
  assert (K : (c = Close /\ r = Done /\ closed' = true) \/ (closed' = closed /\ (c, r) <> (Close, Done))).
  { destruct c as [z| | |], r as [ac|x| |b]; cbn [fifo_call] in Hc; try discriminate Hc.
    - right. split; [|discriminate]. destruct ac.
      + destruct (_ && _); [|discriminate]. injection Hc as <- <-. reflexivity.
      + destruct closed; [|discriminate]. injection Hc as <- <-. reflexivity.
    - right. split; [|discriminate]. destruct x; [injection Hc as <- <-; reflexivity|]. destruct items; [|discriminate]. destruct closed; [|discriminate]. injection Hc as <- <-. reflexivity.
    - left. injection Hc as <- <-. repeat split.
    - right. split; [|discriminate]. destruct (eqb b closed); [|discriminate]. injection Hc as <- <-. reflexivity. }
  assert (CC : closed' = true <-> close_called (h ++ [(c, r)])).
  { unfold close_called. rewrite in_app_iff. cbn [In]. destruct K as [(-> & -> & ->)|[-> NE]]; [tauto|]. rewrite IH3. unfold close_called. split; [tauto|]. intros [X|[X|[]]]; [exact X|]. congruence. }
  split; [|split; [|exact CC]]; destruct c as [x| | |], r as [acc|y| |b]; cbn [fifo_call] in Hc; try discriminate Hc; cbn [accepted delivered delivers_front] in *.
  - destruct acc.
    + destruct (negb closed && (length items <? cap)); [|discriminate]. injection Hc as <- <-. rewrite IH1, !app_nil_r, <- app_assoc. reflexivity.
    + destruct closed; [|discriminate]. injection Hc as <- <-. rewrite !app_nil_r. exact IH1.
  - destruct y as [y|].
    + injection Hc as <- <-. destruct items as [|z items]; [discriminate Hd|]. injection Hd as ->. cbn [tl]. rewrite app_nil_r, IH1, <- app_assoc. reflexivity.
    + destruct items; [|discriminate]. destruct closed; [|discriminate]. injection Hc as <- <-. rewrite !app_nil_r in *. exact IH1.
  - injection Hc as <- <-. rewrite !app_nil_r. exact IH1.
  - destruct (eqb b closed); [|discriminate]. injection Hc as <- <-. rewrite !app_nil_r. exact IH1.
  - destruct acc.
    + destruct (negb closed && (length items <? cap)) eqn:E; [|discriminate]. injection Hc as <- <-. rewrite app_length. cbn [length]. apply andb_prop in E. destruct E as [_ E]. apply Nat.ltb_lt in E. lia.
    + destruct closed; [|discriminate]. injection Hc as <- <-. exact IH2.
  - destruct y as [y|].
    + injection Hc as <- <-. destruct items as [|z items]; [discriminate Hd|]. cbn [tl length] in *. lia.
    + destruct items; [|discriminate]. destruct closed; [|discriminate]. injection Hc as <- <-. exact IH2.
  - injection Hc as <- <-. exact IH2.
  - destruct (eqb b closed); [|discriminate]. injection Hc as <- <-. exact IH2.
Qed.
Lemma fifo_prefix : forall (h : list (call A * result A)) items closed, fifo cap h items closed -> forall a c r b, h = a ++ (c, r) :: b ->
  exists items0 closed0, fifo cap a items0 closed0 /\ delivers_front items0 c r /\ fifo_call cap items0 closed0 c r <> None.
Proof.
  intros h items closed H. induction H as [|h items closed c r items' closed' Hf IH Hd Hc]; intros a c0 r0 b E; [destruct a; discriminate|].
  destruct b as [|y b] using rev_ind.
  - apply app_inj_tail in E. destruct E as [-> E]. injection E as -> ->. exists items, closed. repeat split; try assumption. congruence.
  - clear IHb. replace (a ++ (c0, r0) :: b ++ [y]) with ((a ++ (c0, r0) :: b) ++ [y]) in E by (rewrite <- app_assoc; reflexivity). apply app_inj_tail in E. destruct E as [-> _]. eapply IH. reflexivity.
Qed.
Lemma fifo_close : forall (h : list (call A * result A)) items closed, fifo cap h items closed ->
  (forall a b x r, h = a ++ (Push x, r) :: b -> (r = Pushed true /\ ~ close_called a) \/ (r = Pushed false /\ close_called a)) /\
  (forall a b, h = a ++ (Pop, Popped None) :: b -> close_called a /\ delivered a = accepted a).
Proof.
  intros h items closed H. split.
  - intros a b x r E. destruct (fifo_prefix _ _ _ H _ _ _ _ E) as (i & c & F & D & N). destruct (fifo_order _ _ _ F) as (_ & _ & C).
    destruct r as [acc|y| |f]; try (exfalso; apply N; reflexivity). destruct acc, c; cbn [fifo_call negb andb] in N; try (exfalso; apply N; reflexivity).
    + left. split; [reflexivity|]. rewrite <- C. discriminate.
    + right. split; [reflexivity|]. apply C. reflexivity.
  - intros a b E. destruct (fifo_prefix _ _ _ H _ _ _ _ E) as (i & c & F & D & N). destruct (fifo_order _ _ _ F) as (O & _ & C).
    cbn [fifo_call] in N. destruct i; [|exfalso; apply N; reflexivity]. destruct c; [|exfalso; apply N; reflexivity]. rewrite app_nil_r in O. split; [apply C; reflexivity|symmetry; exact O].
Qed.

(** ** Every thread's calls *)
Lemma notified_programs : forall w ts ts', notified w ts ts' -> map (fun t => (t_next t, t_past t)) ts' = map (fun t => (t_next t, t_past t)) ts.
Proof.
  intros w ts ts' H. assert (K : forall P, notify_one P ts ts' -> map (fun t => (t_next t, t_past t)) ts' = map (fun t => (t_next t, t_past t)) ts).
  { intros P [(a & t & b & -> & _ & ->)|[_ ->]]; [rewrite !map_app; reflexivity|reflexivity]. }
  destruct w; cbn [notified] in H; [subst; reflexivity|eapply K; exact H|eapply K; exact H|]. subst ts'. rewrite map_map. apply map_ext. reflexivity.
Qed.
Lemma run_programs : forall clients tr s, run cap (start clients) tr s ->
  map (fun t => (t_next t, t_past t)) (q_threads s) = map (fun ic => (snd ic, events_of (fst ic) tr)) (combine (seq 0 (length clients)) clients).
Proof.
  intros clients tr s H. induction H as [|tr s l s' Hr IH Hs].
  - unfold start. cbn [q_threads]. rewrite map_map. cbn [t_next t_past events_of]. generalize 0. induction clients as [|c cs IHc]; intros k; [reflexivity|]. cbn [length seq combine map fst snd]. f_equal. apply IHc.
  - inversion Hs; subst; cbn [q_threads].
    + apply notified_programs in H3. rewrite H3. rewrite map_app. cbn [map t_next t_past]. rewrite H in IH. rewrite map_app in IH. cbn [map] in IH.
      set (L := combine (seq 0 (length clients)) clients) in *. 
      assert (NL : forall k p, nth_error L k = Some p -> fst p = k).
      { intros k [i cl] E. unfold L in E. assert (G : forall cs b k, nth_error (combine (seq b (length cs)) cs) k = Some (i, cl) -> i = b + k).
        { clear. induction cs as [|c cs IH]; intros b k E; cbn [length seq combine] in E; [destruct k; discriminate|]. destruct k; cbn [nth_error] in E; [injection E as -> ->; lia|]. apply IH in E. lia. }
        apply G in E. exact E. }
      clearbody L. clear - IH NL.
      assert (E : exists L1 p L2, L = L1 ++ p :: L2 /\ length L1 = length a).
      { assert (LL : length L = length a + S (length b)) by (apply (f_equal (@length _)) in IH; rewrite app_length, map_length in IH; cbn [length] in IH; rewrite !map_length in IH; lia).
        destruct (skipn (length a) L) as [|p L2] eqn:E; [apply (f_equal (@length _)) in E; rewrite skipn_length in E; cbn [length] in E; lia|].
        exists (firstn (length a) L), p, L2. rewrite <- E, firstn_skipn. split; [reflexivity|]. rewrite firstn_length. lia. }
      destruct E as (L1 & p & L2 & -> & LA). rewrite map_app in *. cbn [map] in *.
      assert (P : fst p = length a) by (apply NL; rewrite nth_error_app2 by lia; rewrite LA, Nat.sub_diag; reflexivity).
      apply app_eq_app in IH. 
      assert (IH' : map (fun t => (t_next t, t_past t)) a = map (fun ic => (snd ic, events_of (fst ic) tr)) L1 /\ (t_next t, t_past t) = (snd p, events_of (fst p) tr) /\ map (fun t => (t_next t, t_past t)) b = map (fun ic => (snd ic, events_of (fst ic) tr)) L2).
      { destruct IH as [l [[E1 E2]|[E1 E2]]].
        - assert (l = []) as -> by (apply (f_equal (@length _)) in E1; rewrite app_length, !map_length in E1; destruct l; [reflexivity|cbn [length] in E1; lia]).
          rewrite app_nil_r in E1. cbn [app] in E2. injection E2 as E2 E3 E4. split; [exact E1|]. split; [congruence|congruence].
        - assert (l = []) as -> by (apply (f_equal (@length _)) in E1; rewrite app_length, !map_length in E1; destruct l; [reflexivity|cbn [length] in E1; lia]).
          rewrite app_nil_r in E1. cbn [app] in E2. injection E2 as E2 E3 E4. split; [congruence|]. split; [congruence|congruence]. }
      destruct IH' as (I1 & I2 & I3). injection I2 as I2 I4.
      assert (OT : forall q, In q L1 \/ In q L2 -> events_of (fst q) (tr ++ [Event (length a) c r]) = events_of (fst q) tr).
      { intros q Hq. rewrite events_of_app. cbn [events_of]. assert (NE : fst q <> length a).
        { destruct Hq as [Hq|Hq]; apply In_nth_error in Hq; destruct Hq as [k Hk].
          - assert (k < length L1) by (apply nth_error_Some; congruence). rewrite (NL k q); [lia|]. rewrite nth_error_app1 by lia. exact Hk.
          - rewrite (NL (length L1 + S k) q); [lia|]. rewrite nth_error_app2 by lia. replace (length L1 + S k - length L1) with (S k) by lia. exact Hk. }
        destruct (Nat.eqb_spec (fst q) (length a)); [contradiction|]. apply app_nil_r. }
      rewrite I1, I3. f_equal; [apply map_ext_in; intros q Hq; rewrite OT by (left; exact Hq); reflexivity|]. f_equal.
      * rewrite events_of_app. cbn [events_of]. rewrite P, Nat.eqb_refl, I2, I4, P. reflexivity.
      * apply map_ext_in. intros q Hq. rewrite OT by (right; exact Hq). reflexivity.
    + rewrite H in IH. rewrite map_app in *. cbn [map asleep t_next t_past] in *. rewrite IH. apply map_ext. intros q. rewrite events_of_app. cbn [events_of]. rewrite app_nil_r. reflexivity.
    + rewrite H in IH. rewrite map_app in *. cbn [map awake t_next t_past] in *. rewrite IH. apply map_ext. intros q. rewrite events_of_app. cbn [events_of]. rewrite app_nil_r. reflexivity.
Qed.

(** ** No wake-up is lost *)
Definition pops (t : thread A) : bool := match call_of t with Some Pop => true | _ => false end.
Definition pushes (t : thread A) : bool := match call_of t with Some (Push _) => true | _ => false end.
Definition count (f : thread A -> bool) (ts : list (thread A)) : nat := length (filter f ts).
Lemma count_app : forall f a b, count f (a ++ b) = count f a + count f b.
Proof. intros. unfold count. rewrite filter_app, app_length. reflexivity. Qed.
Lemma count_cons : forall f t ts, count f (t :: ts) = (if f t then 1 else 0) + count f ts.
Proof. intros. unfold count. cbn [filter]. destruct (f t); reflexivity. Qed.
Definition sleeping (f : thread A -> bool) (t : thread A) : bool := t_asleep t && f t.
Definition running (f : thread A -> bool) (t : thread A) : bool := negb (t_asleep t) && f t.
Lemma call_of_awake : forall t, call_of (awake t) = call_of t. Proof. reflexivity. Qed.

Definition inv (s : system A) : Prop :=
  (forall t, In t (q_threads s) -> t_asleep t = true -> pops t || pushes t = true) /\
  (q_closed s = true -> forall t, In t (q_threads s) -> t_asleep t = false) /\
  (count (sleeping pops) (q_threads s) = 0 \/ length (q_items s) <= count (running pops) (q_threads s)) /\
  (count (sleeping pushes) (q_threads s) = 0 \/ cap - length (q_items s) <= count (running pushes) (q_threads s)).

Lemma sleeping_awake : forall f t, t_asleep t = false -> sleeping f t = false.
Proof. intros f t H. unfold sleeping. rewrite H. reflexivity. Qed.
Lemma running_awake : forall f t, t_asleep t = false -> running f t = f t.
Proof. intros f t H. unfold running. rewrite H. reflexivity. Qed.
Lemma count_none : forall f ts, (forall t, In t ts -> f t = false) -> count f ts = 0.
Proof. intros f ts. induction ts as [|t ts IH]; intros H; [reflexivity|]. rewrite count_cons, (H t) by (left; reflexivity). apply IH. intros u Hu. apply H. right. exact Hu. Qed.
Lemma on_not_empty_b : forall t, on_not_empty t <-> sleeping pops t = true.
Proof.
  intros t. unfold on_not_empty, sleeping, pops. split; [intros [-> ->]; reflexivity|]. intros H. apply andb_prop in H. destruct H as [H1 H2]. split; [exact H1|]. destruct (call_of t) as [[]|]; congruence.
Qed.
Lemma on_not_full_b : forall t, on_not_full t <-> sleeping pushes t = true.
Proof.
  intros t. unfold on_not_full, sleeping, pushes. split; [intros [-> [x ->]]; reflexivity|]. intros H. apply andb_prop in H. destruct H as [H1 H2]. split; [exact H1|]. destruct (call_of t) as [[x| | |]|]; try discriminate. exists x. reflexivity.
Qed.
Lemma notify_counts : forall (P : thread A -> Prop) f g ts ts', (forall t, P t <-> sleeping f t = true) -> (forall t, f t = true -> g t = false) ->
  (forall t, f (awake t) = f t) -> (forall t, g (awake t) = g t) -> notify_one P ts ts' ->
  (count (sleeping f) ts = 0 /\ count (sleeping f) ts' = 0 \/ count (sleeping f) ts = S (count (sleeping f) ts') /\ count (running f) ts' = S (count (running f) ts)) /\
  count (sleeping g) ts' = count (sleeping g) ts /\ count (running g) ts' = count (running g) ts.
Proof.
  intros P f g ts ts' HP HD HF HG [(a & t & b & -> & Ht & ->)|[Hn ->]].
  - apply HP in Ht. assert (A1 : t_asleep t = true) by (unfold sleeping in Ht; apply andb_prop in Ht; apply Ht). assert (F1 : f t = true) by (unfold sleeping in Ht; apply andb_prop in Ht; apply Ht).
    assert (B1 : sleeping f (awake t) = false) by reflexivity. assert (B2 : running f t = false) by (unfold running; rewrite A1; reflexivity).
    assert (B3 : running f (awake t) = true) by (unfold running; rewrite HF, F1; reflexivity). assert (B4 : sleeping g t = false) by (unfold sleeping; rewrite (HD t F1), A1; reflexivity).
    assert (B5 : sleeping g (awake t) = false) by reflexivity. assert (B6 : running g t = false) by (unfold running; rewrite A1; reflexivity).
    assert (B7 : running g (awake t) = false) by (unfold running; rewrite HG, (HD t F1); reflexivity).
    rewrite !count_app, !count_cons, Ht, B1, B2, B3, B4, B5, B6, B7. split; [right; lia|]. split; lia.
  - split; [|split; reflexivity]. left. assert (Z0 : count (sleeping f) ts = 0) by (apply count_none; intros t Ht; destruct (sleeping f t) eqn:E; [exfalso; apply (Hn t Ht), HP, E|reflexivity]). split; exact Z0.
Qed.
Lemma pops_pushes : forall t, pops t = true -> pushes t = false.
Proof. intros t. unfold pops, pushes. destruct (call_of t) as [[]|]; congruence. Qed.
Lemma pushes_pops : forall t, pushes t = true -> pops t = false.
Proof. intros t. unfold pops, pushes. destruct (call_of t) as [[]|]; congruence. Qed.
Lemma pops_awake : forall t, pops (awake t) = pops t. Proof. reflexivity. Qed.
Lemma pushes_awake : forall t, pushes (awake t) = pushes t. Proof. reflexivity. Qed.

Lemma notified_sleepers : forall w ts ts' t, notified w ts ts' -> In t ts' -> t_asleep t = true -> In t ts.
Proof.
  intros w ts ts' t H Ht HA. assert (K : forall P, notify_one P ts ts' -> In t ts).
  { intros P [(a & u & b & -> & _ & ->)|[_ ->]]; [|exact Ht]. apply in_app_or in Ht. apply in_or_app. destruct Ht as [Ht|[Ht|Ht]]; [left; exact Ht|subst t; discriminate HA|right; right; exact Ht]. }
  destruct w; cbn [notified] in H; [subst; exact Ht|eapply K; exact H|eapply K; exact H|]. subst ts'. apply in_map_iff in Ht. destruct Ht as (u & <- & _). discriminate HA.
Qed.

Lemma step_inv : forall s l s', inv s -> step cap s l s' -> inv s'.
Proof.
  intros s l s' (I1 & I2 & I3 & I4) H. destruct H as [s a t b c r items' closed' w ts' E1 E2 E3 E4 E5|s a t b c E1 E2 E3 E4|s a t b E1 E2]; unfold inv; cbn [q_threads q_items q_closed]; rewrite E1 in *.
  - set (t' := Thread (t_next t) (t_past t ++ [(c, r)]) false) in *. set (ts := a ++ t' :: b) in *.
    assert (SL : forall u, In u ts' -> t_asleep u = true -> In u (a ++ t :: b)).
    { intros u Hu HA. pose proof (notified_sleepers _ _ _ _ E5 Hu HA) as Hin. unfold ts in Hin. apply in_app_or in Hin. apply in_or_app. destruct Hin as [X|[X|X]]; [left; exact X|subst u; discriminate HA|right; right; exact X]. }
    assert (PT : pops t = true -> c = Pop) by (unfold pops; rewrite E3; destruct c; congruence).
    assert (QT : pushes t = true -> exists x, c = Push x) by (unfold pushes; rewrite E3; destruct c; try congruence; intros _; eexists; reflexivity).
    rewrite !count_app, !count_cons in I3, I4. rewrite (sleeping_awake pops t E2), (running_awake pops t E2) in I3. rewrite (sleeping_awake pushes t E2), (running_awake pushes t E2) in I4.
    assert (CE : forall f, count (sleeping f) ts = count (sleeping f) a + count (sleeping f) b) by (intros f; unfold ts; rewrite count_app, count_cons, (sleeping_awake f t') by reflexivity; lia).
    assert (CR : forall f, count (running f) a + count (running f) b <= count (running f) ts) by (intros f; unfold ts; rewrite count_app, count_cons; lia).
    split; [intros u Hu HA; apply I1; [apply SL; assumption|exact HA]|].
    assert (NC : forall Q : Prop, (q_closed s = true -> Q) -> (q_closed s = false -> Q) -> Q) by (intros Q; destruct (q_closed s); auto).
    destruct c as [x| | |]; cbn [attempt] in E4.
    + apply NC; intros CL; rewrite CL in E4.
      * rewrite orb_true_r in E4. injection E4 as <- <- <- <-. cbn [notified] in E5. subst ts'.
        assert (AW : forall u, In u ts -> t_asleep u = false) by (intros u Hu; destruct (t_asleep u) eqn:AU; [|reflexivity]; rewrite <- AU; apply (I2 CL), SL; assumption).
        split; [intros _; exact AW|]. split; left; apply count_none; intros u Hu; apply sleeping_awake, AW, Hu.
      * rewrite orb_false_r in E4. destruct (Nat.ltb_spec (length (q_items s)) cap) as [LT|]; [|discriminate]. injection E4 as <- <- <- <-. cbn [notified] in E5.
        destruct (notify_counts _ pops pushes _ _ on_not_empty_b pops_pushes pops_awake pushes_awake E5) as (N1 & N2 & N3).
        split; [discriminate|]. rewrite app_length. cbn [length]. rewrite N2, N3. specialize (CE pops) as CEp. specialize (CE pushes) as CEq. specialize (CR pops) as CRp. specialize (CR pushes) as CRq.
        assert (P0 : pops t = false) by (unfold pops; rewrite E3; reflexivity). assert (Q1 : pushes t = true) by (unfold pushes; rewrite E3; reflexivity). rewrite P0 in I3. rewrite Q1 in I4.
        split; [destruct N1 as [[N1 N1']|[N1 N1']]; lia|lia].
    + destruct (q_items s) as [|y items] eqn:EI.
      * apply NC; intros CL; rewrite CL in E4; [|discriminate]. injection E4 as <- <- <- <-. cbn [notified] in E5. subst ts'.
        assert (AW : forall u, In u ts -> t_asleep u = false) by (intros u Hu; destruct (t_asleep u) eqn:AU; [|reflexivity]; rewrite <- AU; apply (I2 CL), SL; assumption).
        split; [intros _; exact AW|]. split; left; apply count_none; intros u Hu; apply sleeping_awake, AW, Hu.
      * injection E4 as <- <- <- <-. cbn [notified] in E5.
        destruct (notify_counts _ pushes pops _ _ on_not_full_b pushes_pops pushes_awake pops_awake E5) as (N1 & N2 & N3).
        split; [intros CL u Hu; destruct (t_asleep u) eqn:AU; [|reflexivity]; rewrite <- AU; apply (I2 CL), SL; assumption|]. cbn [length] in *. rewrite N2, N3. specialize (CE pops) as CEp. specialize (CE pushes) as CEq. specialize (CR pops) as CRp. specialize (CR pushes) as CRq.
        assert (P0 : pushes t = false) by (unfold pushes; rewrite E3; reflexivity). assert (Q1 : pops t = true) by (unfold pops; rewrite E3; reflexivity). rewrite P0 in I4. rewrite Q1 in I3.
        split; [lia|destruct N1 as [[N1 N1']|[N1 N1']]; lia].
    + injection E4 as <- <- <- <-. cbn [notified] in E5. subst ts'.
      assert (AW : forall u, In u (map awake ts) -> t_asleep u = false) by (intros u Hu; apply in_map_iff in Hu; destruct Hu as (v & <- & _); reflexivity).
      split; [intros _; exact AW|]. split; left; apply count_none; intros u Hu; apply sleeping_awake, AW, Hu.
    + injection E4 as <- <- <- <-. cbn [notified] in E5. subst ts'.
      split; [intros CL u Hu; destruct (t_asleep u) eqn:AU; [|reflexivity]; rewrite <- AU; apply (I2 CL), SL; assumption|]. specialize (CE pops) as CEp. specialize (CE pushes) as CEq. specialize (CR pops) as CRp. specialize (CR pushes) as CRq.
      assert (P0 : pushes t = false) by (unfold pushes; rewrite E3; reflexivity). assert (Q1 : pops t = false) by (unfold pops; rewrite E3; reflexivity). rewrite P0 in I4. rewrite Q1 in I3. lia.
  - rewrite !count_app, !count_cons in I3, I4. rewrite !count_app, !count_cons. rewrite (sleeping_awake pops t E2), (running_awake pops t E2) in I3. rewrite (sleeping_awake pushes t E2), (running_awake pushes t E2) in I4.
    assert (SP : sleeping pops (asleep t) = pops t) by reflexivity. assert (SQ : sleeping pushes (asleep t) = pushes t) by reflexivity.
    assert (RP : running pops (asleep t) = false) by reflexivity. assert (RQ : running pushes (asleep t) = false) by reflexivity. rewrite SP, SQ, RP, RQ.
    split.
    { intros u Hu HA. apply in_app_or in Hu. destruct Hu as [Hu|[Hu|Hu]]; [apply I1; [apply in_or_app; left; exact Hu|exact HA]| |apply I1; [apply in_or_app; right; right; exact Hu|exact HA]].
      subst u. unfold pops, pushes. change (call_of (asleep t)) with (call_of t). rewrite E3. destruct c; cbn [attempt] in E4; try discriminate E4; reflexivity. }
    assert (CL : q_closed s = false) by (destruct (q_closed s) eqn:CL; [|reflexivity]; destruct c; cbn [attempt] in E4; try discriminate E4; [rewrite orb_true_r in E4; discriminate|destruct (q_items s); discriminate]).
    split; [rewrite CL; discriminate|].
    destruct c as [x| | |]; cbn [attempt] in E4; try discriminate E4.
    + rewrite CL, orb_false_r in E4. destruct (Nat.ltb_spec (length (q_items s)) cap) as [|GE]; [discriminate|].
      assert (P0 : pops t = false) by (unfold pops; rewrite E3; reflexivity). assert (Q1 : pushes t = true) by (unfold pushes; rewrite E3; reflexivity). rewrite P0, Q1 in *. split; [lia|right; lia].
    + destruct (q_items s) as [|y items]; [|discriminate].
      assert (P0 : pushes t = false) by (unfold pushes; rewrite E3; reflexivity). assert (Q1 : pops t = true) by (unfold pops; rewrite E3; reflexivity). rewrite P0, Q1 in *. cbn [length]. split; [right; lia|]. cbn [length] in I4. lia.
  - rewrite !count_app, !count_cons in I3, I4. rewrite !count_app, !count_cons.
    assert (S0 : forall f, sleeping f (awake t) = false) by reflexivity. rewrite !S0.
    assert (R0 : running pops t = false /\ running pushes t = false) by (unfold running; rewrite E2; split; reflexivity). destruct R0 as [R0 R0']. rewrite R0, R0' in *.
    split; [intros u Hu HA; apply in_app_or in Hu; destruct Hu as [Hu|[Hu|Hu]]; [apply I1; [apply in_or_app; left; exact Hu|exact HA]|subst u; discriminate HA|apply I1; [apply in_or_app; right; right; exact Hu|exact HA]]|].
    split; [intros CL u Hu; apply in_app_or in Hu; destruct Hu as [Hu|[Hu|Hu]]; [apply (I2 CL), in_or_app; left; exact Hu|subst u; reflexivity|apply (I2 CL), in_or_app; right; right; exact Hu]|].
    split; lia.
Qed.
Lemma run_inv : forall clients tr s, run cap (start clients) tr s -> inv s.
Proof.
  intros clients tr s H. induction H as [|tr s l s' Hr IH Hs]; [|eapply step_inv; eassumption].
  assert (AW : forall t, In t (q_threads (start clients)) -> t_asleep t = false) by (intros t Ht; unfold start in Ht; cbn [q_threads] in Ht; apply in_map_iff in Ht; destruct Ht as (c & <- & _); reflexivity).
  split; [intros t Ht HA; rewrite (AW t Ht) in HA; discriminate|]. split; [discriminate|]. split; left; apply count_none; intros t Ht; apply sleeping_awake, AW, Ht.
Qed.
Lemma no_lost_wakeup : forall clients tr s, run cap (start clients) tr s ->
  (forall t, In t (q_threads s) -> on_not_empty t -> q_items s <> [] \/ q_closed s = true -> exists u, In u (q_threads s) /\ t_asleep u = false /\ call_of u = Some Pop) /\
  (forall t, In t (q_threads s) -> on_not_full t -> length (q_items s) < cap \/ q_closed s = true -> exists u x, In u (q_threads s) /\ t_asleep u = false /\ call_of u = Some (Push x)).
Proof.
  intros clients tr s H. destruct (run_inv _ _ _ H) as (_ & I2 & I3 & I4).
  assert (FIND : forall f ts, 0 < count f ts -> exists u, In u ts /\ f u = true).
  { intros f ts. induction ts as [|u ts IH]; [cbn; lia|]. rewrite count_cons. destruct (f u) eqn:E; [intros _; exists u; split; [left; reflexivity|exact E]|]. intros L. destruct (IH L) as (v & V1 & V2). exists v. split; [right; exact V1|exact V2]. }
  assert (POS : forall f ts t, In t ts -> f t = true -> count f ts <> 0).
  { intros f ts. induction ts as [|u ts IH]; intros t Ht Hf; [destruct Ht|]. rewrite count_cons. destruct Ht as [<-|Ht]; [rewrite Hf; lia|]. pose proof (IH t Ht Hf). lia. }
  split.
  - intros t Ht HW HQ. assert (CL : q_closed s <> true) by (intros CL; destruct HW as [HA _]; rewrite (I2 CL t Ht) in HA; discriminate). destruct HQ as [HQ|HQ]; [|contradiction].
    apply on_not_empty_b in HW. destruct I3 as [I3|I3]; [exfalso; eapply POS; eassumption|].
    destruct (FIND (running pops) (q_threads s)) as (u & U1 & U2); [destruct (q_items s); [contradiction|cbn [length] in I3; lia]|].
    exists u. unfold running in U2. apply andb_prop in U2. destruct U2 as [U2 U3]. split; [exact U1|]. split; [destruct (t_asleep u); [discriminate|reflexivity]|]. unfold pops in U3. destruct (call_of u) as [[]|]; congruence.
  - intros t Ht HW HQ. assert (CL : q_closed s <> true) by (intros CL; destruct HW as [HA _]; rewrite (I2 CL t Ht) in HA; discriminate). destruct HQ as [HQ|HQ]; [|contradiction].
    apply on_not_full_b in HW. destruct I4 as [I4|I4]; [exfalso; eapply POS; eassumption|].
    destruct (FIND (running pushes) (q_threads s)) as (u & U1 & U2); [lia|].
    unfold running in U2. apply andb_prop in U2. destruct U2 as [U2 U3]. unfold pushes in U3. destruct (call_of u) as [[x| | |]|] eqn:E; try discriminate U3.
    exists u, x. split; [exact U1|]. split; [destruct (t_asleep u); [discriminate|reflexivity]|exact E].
Qed.
Lemma stuck_spec : forall clients tr s, run cap (start clients) tr s -> stuck s ->
  forall t c, In t (q_threads s) -> call_of t = Some c ->
    q_closed s = false /\ ((c = Pop /\ q_items s = []) \/ (exists x, c = Push x /\ cap <= length (q_items s))).
Proof.
  intros clients tr s H HS t c Ht Hc. destruct (run_inv _ _ _ H) as (I1 & I2 & _ & _). destruct (no_lost_wakeup _ _ _ H) as [N1 N2].
  assert (HA : t_asleep t = true) by (destruct (HS t Ht); [assumption|congruence]).
  assert (CL : q_closed s = false) by (destruct (q_closed s) eqn:CL; [rewrite (I2 eq_refl t Ht) in HA; discriminate|reflexivity]). split; [exact CL|].
  specialize (I1 t Ht HA). unfold pops, pushes in I1. rewrite Hc in I1. destruct c as [x| | |]; try discriminate I1.
  - right. exists x. split; [reflexivity|]. destruct (Nat.lt_ge_cases (length (q_items s)) cap) as [L|L]; [|exact L]. exfalso.
    destruct (N2 t Ht) as (u & y & U1 & U2 & U3); [split; [exact HA|exists x; exact Hc]|left; exact L|]. destruct (HS u U1); congruence.
  - left. split; [reflexivity|]. destruct (q_items s) as [|z r] eqn:E; [reflexivity|]. exfalso.
    destruct (N1 t Ht) as (u & U1 & U2 & U3); [split; [exact HA|exact Hc]|left; discriminate|]. destruct (HS u U1); congruence.
Qed.
End Queue.
