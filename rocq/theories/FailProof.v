From Verif Require Import Base MetaSpec QueueSpec QueueModel QueueProof ParquetModel PipelineModel PipelineProof FailModel.

Section Broken.
Context {A : Type}.
Variable cap n : nat.
Variable notices : nat -> bool.
Variable groups : list A.

Definition pushes (l : list A) : list (call A * result A) := map (fun x => (Push x, Pushed true)) l.
Inductive mtail : Type := MOn | MRefused (x : A) | MClosed.
Inductive wtail : Type := WOn | WEnd | WClosed.
Definition mpast (m : mtail) : list (call A * result A) := match m with MOn => [] | MRefused x => [(Push x, Pushed false)] | MClosed => [(Close, Done)] end.
Definition wpast (w : wtail) : list (call A * result A) := match w with WOn => [] | WEnd => [(Pop, Popped None)] | WClosed => [(Close, Done)] end.

Record binv (s : system A) (k : nat) (m : mtail) (d : list A) (w : wtail) (bm bw : bool) : Prop := {
  b_threads : q_threads s = [Thread (submitting_until notices groups) (pushes (firstn k groups) ++ mpast m) bm; Thread (failing n) (took d ++ wpast w) bw];
  b_k : k <= length groups;
  b_items : d ++ q_items s = firstn k groups;
  b_room : length (q_items s) <= cap;
  b_taken : length d <= S n;
  b_m : match m with MOn => True | MRefused _ => w = WClosed /\ k < length groups | MClosed => k = length groups end;
  b_w : match w with WOn => True | WEnd => q_closed s = true /\ q_items s = [] /\ length d <= n /\ m = MClosed | WClosed => length d = S n end;
  b_closed : q_closed s = match m, w with MClosed, _ => true | _, WClosed => true | _, _ => false end }.

Lemma last_pushes : forall l, last_result (pushes l) = None \/ last_result (pushes l) = Some (Pushed true).
Proof. intros l. destruct l as [|x l] using rev_ind; [left; reflexivity|]. unfold pushes. rewrite map_app. cbn [map]. rewrite last_result_snoc. right. reflexivity. Qed.
Lemma last_took2 : forall l : list A, last_result (took l) = None \/ exists x, last_result (took l) = Some (Popped (Some x)).
Proof. intros l. destruct l as [|x l] using rev_ind; [left; reflexivity|]. unfold took. rewrite map_app. cbn [map]. rewrite last_result_snoc. right. exists x. reflexivity. Qed.

Definition next_m (k : nat) (m : mtail) : option (call A) :=
  match m with MOn => if (k <? length groups) && notices k then None else nth_error (map Push groups ++ [Close]) k | _ => None end.
Lemma m_next : forall k m, k <= length groups -> (m = MClosed -> k = length groups) ->
  submitting_until notices groups (pushes (firstn k groups) ++ mpast m) = next_m k m.
Proof.
  intros k m K M. unfold submitting_until. rewrite !app_length.
  assert (LP : length (pushes (firstn k groups)) = k) by (unfold pushes; rewrite map_length, firstn_length; lia). rewrite !LP. destruct m as [|x|]; cbn [mpast next_m length].
  - rewrite app_nil_r, Nat.add_0_r. destruct (last_pushes (firstn k groups)) as [->| ->]; reflexivity.
  - rewrite last_result_snoc. reflexivity.
  - rewrite last_result_snoc, (M eq_refl). replace (length groups + 1 <? length groups) with false by (symmetry; apply Nat.ltb_ge; lia). cbn [andb].
    apply nth_error_None. rewrite app_length, map_length. cbn [length]. lia.
Qed.
Definition next_w (d : list A) (w : wtail) : option (call A) := match w with WOn => if n <? length d then Some Close else Some Pop | _ => None end.
Lemma delivered_app' : forall h h' : list (call A * result A), delivered (h ++ h') = delivered h ++ delivered h'.
Proof. induction h as [|[c r] h IH]; intros h'; [reflexivity|]. cbn [app delivered]. destruct c; try apply IH. destruct r as [|[x|]| |]; try apply IH. rewrite IH. reflexivity. Qed.
Lemma wpast_delivered : forall w, delivered (wpast w) = [].
Proof. intros []; reflexivity. Qed.
Lemma delivered_past : forall d w, delivered (took d ++ wpast w) = d.
Proof. intros. rewrite delivered_app', wpast_delivered, delivered_took, app_nil_r. reflexivity. Qed.
Lemma w_next : forall d w, failing n (took d ++ wpast w) = next_w d w.
Proof.
  intros d w. unfold failing. rewrite delivered_past. destruct w; cbn [wpast next_w].
  - rewrite app_nil_r. destruct (last_took2 d) as [->|[x ->]]; reflexivity.
  - rewrite last_result_snoc. reflexivity.
  - rewrite last_result_snoc. reflexivity.
Qed.
Lemma call_at : forall k c, nth_error (map Push groups ++ [@Close A]) k = Some c -> (exists x, nth_error groups k = Some x /\ c = Push x /\ k < length groups) \/ (c = Close /\ k = length groups).
Proof. intros k c H. destruct (script_at groups k c H) as [(x & X1 & X2 & _ & X3)|(X1 & X2 & _)]; [left; exists x; auto|right; auto]. Qed.

Definition bpot (s : system A) : nat :=
  match q_threads s with
  | [m; w] => 2 * (S (length groups) - length (t_past m)) + 2 * (S (length groups) - length (t_past w)) + (if t_asleep m then 0 else 1) + (if t_asleep w then 0 else 1)
  | _ => 0
  end.

Lemma bstep : forall s k m d w bm bw l s', binv s k m d w bm bw -> step cap s l s' ->
  (exists k' m' d' w' bm' bw', binv s' k' m' d' w' bm' bw') /\
  (match l with Spurious _ => bpot s' <= S (bpot s) | _ => S (bpot s') <= bpot s end).
Proof.
  intros s k m d w bm bw l s' [T K D R TK M W C] H.
  assert (MC : m = MClosed -> k = length groups) by (intros ->; exact M).
  assert (LD : length d + length (q_items s) <= length groups) by (rewrite <- app_length, D, firstn_length; lia).
  destruct H as [s a t b c r items' closed' wk ts' E1 E2 E3 E4 E5|s a t b c E1 E2 E3 E4|s a t b E1 E2]; rewrite T in E1; apply two in E1.
  - destruct E1 as [(-> & -> & ->)|(-> & -> & ->)]; cbn [t_next t_past t_asleep] in *.
    + subst bm. unfold call_of in E3. cbn [t_next t_past] in E3. rewrite m_next in E3 by assumption.
      apply notified_two in E5. destruct E5 as (b1 & b2 & -> & B1 & B2). cbn [t_next t_past t_asleep] in *. assert (b1 = false) by tauto. subst b1.
      destruct m as [|y|]; cbn [next_m] in E3; try discriminate. cbn [mpast] in *. rewrite app_nil_r in *.
      destruct ((k <? length groups) && notices k) eqn:NK; [discriminate|].
      assert (POT : S (bpot (System items' closed' [Thread (submitting_until notices groups) (pushes (firstn k groups) ++ [(c, r)]) false; Thread (failing n) (took d ++ wpast w) b2])) <= bpot s).
      { unfold bpot. rewrite T. cbn [q_threads t_past t_asleep]. rewrite (app_length (pushes _)). unfold pushes. rewrite map_length, firstn_length, (Nat.min_l _ _ K). cbn [length]. destruct B2 as [->| ->]; destruct bw; lia. }
      split; [|exact POT]. apply call_at in E3. destruct E3 as [(x & X1 & -> & X2)|(-> & X2)]; cbn [attempt] in E4.
      * destruct (q_closed s) eqn:CL.
        -- rewrite orb_true_r in E4. injection E4 as <- <- <- <-. exists k, (MRefused x), d, w, false, b2. destruct w; cbn [wpast] in *; try discriminate.
           constructor; cbn [q_threads q_items q_closed mpast]; try assumption; [reflexivity|split; [reflexivity|exact X2]].
        -- rewrite orb_false_r in E4. destruct (length (q_items s) <? cap) eqn:RM; [|discriminate]. injection E4 as <- <- <- <-. apply Nat.ltb_lt in RM.
           exists (S k), MOn, d, w, false, b2. constructor; cbn [q_threads q_items q_closed mpast].
           ++ unfold pushes. rewrite (firstn_S_nth _ _ _ X1), map_app, app_nil_r. reflexivity.
           ++ lia.
           ++ rewrite (firstn_S_nth _ _ _ X1), <- D, app_assoc. reflexivity.
           ++ rewrite app_length. cbn [length]. lia.
           ++ exact TK.
           ++ exact I.
           ++ destruct w; [exact I| |exact W]. destruct W as (_ & _ & _ & W). discriminate.
           ++ exact C.
      * injection E4 as <- <- <- <-. exists k, MClosed, d, w, false, b2. constructor; cbn [q_threads q_items q_closed mpast]; try assumption; [reflexivity| |destruct w; reflexivity].
        destruct w; [exact I| |exact W]. destruct W as (_ & _ & _ & W). discriminate.
    + subst bw. unfold call_of in E3. cbn [t_next t_past] in E3. rewrite w_next in E3.
      cbn [app] in E5. apply notified_two in E5. destruct E5 as (b1 & b2 & -> & B1 & B2). cbn [t_next t_past t_asleep] in *. assert (b2 = false) by tauto. subst b2.
      destruct w; cbn [next_w] in E3; try discriminate. cbn [wpast] in *. rewrite app_nil_r in *.
      assert (POT : S (bpot (System items' closed' [Thread (submitting_until notices groups) (pushes (firstn k groups) ++ mpast m) b1; Thread (failing n) (took d ++ [(c, r)]) false])) <= bpot s).
      { unfold bpot. rewrite T. cbn [q_threads t_past t_asleep]. rewrite !(app_length (took _)). unfold took. rewrite map_length. cbn [length]. destruct B1 as [->| ->]; destruct bm; lia. }
      split; [|exact POT]. destruct (n <? length d) eqn:ND; injection E3 as <-; cbn [attempt] in E4.
      * injection E4 as <- <- <- <-. apply Nat.ltb_lt in ND. exists k, m, d, WClosed, b1, false. constructor; cbn [q_threads q_items q_closed wpast]; try assumption; [reflexivity| |lia|destruct m; reflexivity].
        destruct m; [exact I| |exact M]. destruct M as [M _]. discriminate.
      * apply Nat.ltb_ge in ND. destruct (q_items s) as [|x items] eqn:EI.
        -- destruct (q_closed s) eqn:CL; [|discriminate]. injection E4 as <- <- <- <-. assert (m = MClosed) by (destruct m; try discriminate; reflexivity). subst m.
           exists k, MClosed, d, WEnd, b1, false. constructor; cbn [q_threads q_items q_closed wpast]; try assumption; try reflexivity; auto.
        -- injection E4 as <- <- <- <-. exists k, m, (d ++ [x]), WOn, b1, false. cbn [length] in R. constructor; cbn [q_threads q_items q_closed wpast]; try assumption.
           ++ unfold took. rewrite map_app, app_nil_r. reflexivity.
           ++ rewrite <- app_assoc. exact D.
           ++ lia.
           ++ rewrite app_length. cbn [length]. lia.
  - destruct E1 as [(-> & -> & ->)|(-> & -> & ->)]; cbn [t_asleep] in E2; subst; (split; [|unfold bpot; rewrite T; cbn [q_threads app asleep t_past t_asleep]; lia]).
    + exists k, m, d, w, true, bw. constructor; cbn [q_threads q_items q_closed app asleep t_next t_past]; auto.
    + exists k, m, d, w, bm, true. constructor; cbn [q_threads q_items q_closed app asleep t_next t_past]; auto.
  - destruct E1 as [(-> & -> & ->)|(-> & -> & ->)]; cbn [t_asleep] in E2; subst; (split; [|unfold bpot; rewrite T; cbn [q_threads app awake t_past t_asleep]; lia]).
    + exists k, m, d, w, false, bw. constructor; cbn [q_threads q_items q_closed app awake t_next t_past]; auto.
    + exists k, m, d, w, bm, false. constructor; cbn [q_threads q_items q_closed app awake t_next t_past]; auto.
Qed.
Lemma brun : forall tr s, run cap (broken_pipeline n notices groups) tr s ->
  (exists k m d w bm bw, binv s k m d w bm bw) /\ length tr + bpot s <= bpot (broken_pipeline n notices groups) + 2 * spurious tr.
Proof.
  intros tr s H. induction H as [|tr s l s' Hr [(k & m & d & w & bm & bw & I) IH2] Hs].
  - split; [|cbn [length spurious]; lia]. exists 0, MOn, [], WOn, false, false. constructor; cbn [q_items broken_pipeline start q_threads q_closed map app mpast wpast took pushes firstn length]; try reflexivity; try lia; auto.
  - destruct (bstep _ _ _ _ _ _ _ _ _ I Hs) as [P1 P2]. split; [exact P1|]. rewrite app_length, spurious_app. cbn [length]. destruct l; cbn [spurious]; lia.
Qed.
Lemma broken_bounded : forall tr s, run cap (broken_pipeline n notices groups) tr s -> length tr <= 4 * length groups + 6 + 2 * spurious tr.
Proof. intros tr s H. destruct (brun _ _ H) as [_ B]. replace (bpot (broken_pipeline n notices groups)) with (4 * length groups + 6) in B; [lia|]. unfold bpot, broken_pipeline, start. cbn [q_threads map t_past t_asleep length]. lia. Qed.
Lemma broken_events : forall tr s k m d w bm bw, run cap (broken_pipeline n notices groups) tr s -> binv s k m d w bm bw ->
  events_of 0 tr = pushes (firstn k groups) ++ mpast m /\ events_of 1 tr = took d ++ wpast w.
Proof.
  intros tr s k m d w bm bw H I. pose proof (run_programs cap _ _ _ H) as RP. rewrite (b_threads _ _ _ _ _ _ _ I) in RP. cbn [map length seq combine fst snd t_next t_past] in RP. injection RP as R0 R1. split; congruence.
Qed.
Lemma broken_stuck : forall tr s, 1 <= cap -> run cap (broken_pipeline n notices groups) tr s -> flag_was_set n notices groups tr -> stuck s -> finished s.
Proof.
  intros tr s HC H HF HS. destruct (brun _ _ H) as [(k & m & d & w & bm & bw & I) _]. destruct (broken_events _ _ _ _ _ _ _ _ H I) as [E0 E1]. destruct I as [T K D R TK M W C].
  assert (MC : m = MClosed -> k = length groups) by (intros ->; exact M).
  set (tm := Thread (submitting_until notices groups) (pushes (firstn k groups) ++ mpast m) bm) in *. set (tw := Thread (failing n) (took d ++ wpast w) bw) in *.
  assert (CM : call_of tm = next_m k m) by (apply m_next; assumption). assert (CW : call_of tw = next_w d w) by apply w_next.
  assert (IM : In tm (q_threads s)) by (rewrite T; left; reflexivity). assert (IW : In tw (q_threads s)) by (rewrite T; right; left; reflexivity).
  pose proof (stuck_spec cap _ _ _ H HS) as ST.
  assert (WD : call_of tw = None).
  { destruct (call_of tw) as [c|] eqn:E; [|reflexivity]. exfalso. destruct (ST tw c IW E) as (CL & Q). destruct w; cbn [next_w] in CW; try discriminate.
    destruct (n <? length d) eqn:ND; [injection CW as ->; destruct Q as [[Q _]|(x & Q & _)]; discriminate|]. apply Nat.ltb_ge in ND. injection CW as ->.
    destruct Q as [[_ QE]|(x & Q & _)]; [|discriminate].
    destruct m as [|x|]; cbn [next_m] in CM.
    - destruct ((k <? length groups) && notices k) eqn:NK.
      + apply andb_true_iff in NK. destruct NK as [NK1 NK2]. apply Nat.ltb_lt in NK1. unfold flag_was_set in HF. rewrite E0, E1, delivered_past in HF. cbn [mpast] in HF. rewrite app_nil_r in HF.
        unfold pushes in HF. rewrite map_length, firstn_length, (Nat.min_l _ _ K) in HF. specialize (HF NK1 NK2). lia.
      + destruct (nth_error (map Push groups ++ [Close]) k) as [c|] eqn:EN.
        * destruct (ST tm c IM CM) as (_ & [[-> _]|(x & -> & QF)]); [apply call_at in EN; destruct EN as [(x & _ & X & _)|(X & _)]; discriminate|]. rewrite QE in QF. cbn [length] in QF. lia.
        * apply nth_error_None in EN. rewrite app_length, map_length in EN. cbn [length] in EN. lia.
    - destruct M as [M _]. discriminate.
    - rewrite CL in C. discriminate. }
  assert (CL : q_closed s = true).
  { rewrite WD in CW. destruct w; cbn [next_w] in CW; [destruct (n <? length d); discriminate|apply W|rewrite C; destruct m; reflexivity]. }
  assert (MD : call_of tm = None) by (destruct (call_of tm) as [c|] eqn:E; [|reflexivity]; destruct (ST tm c IM E) as (X & _); congruence).
  intros t Ht. rewrite T in Ht. destruct Ht as [<-|[<-|[]]]; assumption.
Qed.

Lemma pushes_close : forall l, existsb closes (pushes l) = false.
Proof. induction l as [|x l IH]; [reflexivity|]. exact IH. Qed.
(** How runs end. *)
Lemma broken_ends : forall tr s, run cap (broken_pipeline n notices groups) tr s -> flag_was_set n notices groups tr -> finished s ->
  (length groups <= n -> fate_of n tr = Success /\ delivered (events_of 1 tr) = groups) /\
  (n < length groups -> fate_of n tr <> Success /\ delivered (events_of 1 tr) = firstn (S n) groups) /\
  (n + 1 + cap < length groups -> fate_of n tr = ProcessAborts).
Proof.
  intros tr s H HF HD. destruct (brun _ _ H) as [(k & m & d & w & bm & bw & I) _]. destruct (broken_events _ _ _ _ _ _ _ _ H I) as [E0 E1]. destruct I as [T K D R TK M W C].
  assert (MC : m = MClosed -> k = length groups) by (intros ->; exact M).
  assert (CM : next_m k m = None). { rewrite <- (m_next k m K MC). apply (HD (Thread (submitting_until notices groups) (pushes (firstn k groups) ++ mpast m) bm)). rewrite T. left. reflexivity. }
  assert (CW : next_w d w = None). { rewrite <- (w_next d w). apply (HD (Thread (failing n) (took d ++ wpast w) bw)). rewrite T. right. left. reflexivity. }
  assert (DL : delivered (events_of 1 tr) = d) by (rewrite E1; apply delivered_past).
  assert (LD : length d + length (q_items s) = k) by (rewrite <- app_length, D, firstn_length; lia).
  assert (PD : d = firstn (length d) groups).
  { assert (X : firstn (length d) (firstn k groups) = d) by (rewrite <- D, firstn_app, firstn_all, Nat.sub_diag; cbn [firstn]; apply app_nil_r). rewrite <- X at 1. rewrite firstn_firstn. f_equal. lia. }
  assert (FT : fate_of n tr = match m with MClosed => if n <? length d then ErrorReported else Success | _ => ProcessAborts end).
  { unfold fate_of. rewrite DL, E0, existsb_app, pushes_close. destruct m; reflexivity. }
  assert (NT : m = MOn -> n < length d).
  { intros ->. cbn [next_m] in CM. destruct ((k <? length groups) && notices k) eqn:NK.
    - apply andb_true_iff in NK. destruct NK as [NK1 NK2]. apply Nat.ltb_lt in NK1. unfold flag_was_set in HF. rewrite E0, DL in HF. cbn [mpast] in HF. rewrite app_nil_r in HF.
      unfold pushes in HF. rewrite map_length, firstn_length, (Nat.min_l _ _ K) in HF. exact (HF NK1 NK2).
    - apply nth_error_None in CM. rewrite app_length, map_length in CM. cbn [length] in CM. lia. }
  rewrite FT, DL. destruct w; cbn [next_w] in CW; [destruct (n <? length d); discriminate| |].
  - destruct W as (W1 & W2 & W3 & ->). rewrite W2 in *. cbn [length] in LD. specialize (MC eq_refl). replace (n <? length d) with false by (symmetry; apply Nat.ltb_ge; exact W3).
    split; [|split; intros; lia]. intros _. split; [reflexivity|]. rewrite PD. apply firstn_all2. lia.
  - split; [intros; lia|]. split.
    + intros _. replace (n <? length d) with true by (symmetry; apply Nat.ltb_lt; lia). split; [destruct m; discriminate|]. rewrite PD, W. reflexivity.
    + intros L. destruct m; try reflexivity. specialize (MC eq_refl). lia.
Qed.
End Broken.
