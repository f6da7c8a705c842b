From Verif Require Import Base MetaSpec QueueSpec QueueModel QueueProof ParquetModel PipelineModel.

Section Pipeline.
Context {A : Type}.
Variable cap : nat.
Variable groups : list A.

Definition script : list (call A * result A) := map (fun x => (Push x, Pushed true)) groups ++ [(Close, Done)].
Definition took (l : list A) : list (call A * result A) := map (fun x => (Pop, Popped (Some x))) l.

(** Everything there is to know about a reachable state. *)
Record pinv (s : system A) : Prop := {
  p_threads : exists bm bw k d (e : bool),
    q_threads s = [Thread (submitting groups) (firstn k script) bm; Thread writing (took d ++ if e then [(Pop, Popped None)] else []) bw] /\
    k <= length script /\ q_closed s = (length script <=? k) /\ d ++ q_items s = firstn k groups /\ (e = true -> q_closed s = true /\ q_items s = []) }.

Lemma last_result_snoc : forall (h : list (call A * result A)) c r, last_result (h ++ [(c, r)]) = Some r.
Proof. intros. unfold last_result. rewrite rev_unit. reflexivity. Qed.
Lemma last_took : forall l, last_result (took l) <> Some (Popped None).
Proof. intros l. destruct l as [|x l] using rev_ind; [discriminate|]. unfold took. rewrite map_app. cbn [map]. rewrite last_result_snoc. discriminate. Qed.
Lemma script_length : length script = S (length groups).
Proof. unfold script. rewrite app_length, map_length. cbn [length]. lia. Qed.
Lemma firstn_S_nth : forall {B} (l : list B) k x, nth_error l k = Some x -> firstn (S k) l = firstn k l ++ [x].
Proof. intros B l. induction l as [|y l IH]; intros [|k] x H; cbn [nth_error firstn] in *; try discriminate; [injection H as ->; reflexivity|]. rewrite (IH _ _ H). reflexivity. Qed.
Lemma script_no_refusal : forall k, last_result (firstn k script) <> Some (Pushed false).
Proof.
  intros k H. unfold last_result in H. destruct (rev (firstn k script)) as [|[c r] t] eqn:E; [discriminate|]. injection H as ->.
  assert (I : In (c, Pushed false) (firstn k script)) by (apply in_rev; rewrite E; left; reflexivity).
  assert (I2 : In (c, Pushed false) script) by (rewrite <- (firstn_skipn k script); apply in_or_app; left; exact I).
  unfold script in I2. apply in_app_or in I2. destruct I2 as [I2|[I2|[]]]; [|discriminate]. apply in_map_iff in I2. destruct I2 as (x & E2 & _). discriminate.
Qed.
Lemma submitting_next : forall k, k <= length script -> submitting groups (firstn k script) = nth_error (map Push groups ++ [Close]) k.
Proof.
  intros k H. unfold submitting. rewrite firstn_length, Nat.min_l by exact H. destruct (last_result (firstn k script)) as [[[]| | |]|] eqn:E; try reflexivity.
  exfalso. exact (script_no_refusal k E).
Qed.
Lemma script_at : forall k c, nth_error (map Push groups ++ [Close]) k = Some c ->
  (exists x, nth_error groups k = Some x /\ c = Push x /\ nth_error script k = Some (Push x, Pushed true) /\ k < length groups) \/
  (c = Close /\ k = length groups /\ nth_error script k = Some (Close, Done)).
Proof.
  intros k c H. destruct (Nat.lt_ge_cases k (length groups)) as [L|L].
  - left. rewrite nth_error_app1 in H by (rewrite map_length; exact L). rewrite nth_error_map in H. destruct (nth_error groups k) as [x|] eqn:E; [|discriminate]. cbn [option_map] in H. injection H as <-.
    exists x. split; [reflexivity|]. split; [reflexivity|]. split; [|exact L]. unfold script. rewrite nth_error_app1 by (rewrite map_length; exact L). rewrite nth_error_map, E. reflexivity.
  - right. rewrite nth_error_app2 in H by (rewrite map_length; exact L). rewrite map_length in H. destruct (k - length groups) as [|j] eqn:E; [|destruct j; discriminate H]. cbn [nth_error] in H. injection H as <-.
    assert (KL : k = length groups) by lia. split; [reflexivity|]. split; [exact KL|]. unfold script. rewrite nth_error_app2 by (rewrite map_length; exact L). rewrite map_length, E. reflexivity.
Qed.
Lemma writing_next : forall d (e : bool), writing (took d ++ if e then [(Pop, Popped None)] else []) = if e then None else Some Pop.
Proof.
  intros d e. unfold writing. destruct e; [rewrite last_result_snoc; reflexivity|]. rewrite app_nil_r. pose proof (last_took d). destruct (last_result (took d)) as [[|[x|]| |]|]; try reflexivity. contradiction.
Qed.

Lemma two : forall {B} (a b : list B) t m w, [m; w] = a ++ t :: b -> (a = [] /\ t = m /\ b = [w]) \/ (a = [m] /\ t = w /\ b = []).
Proof.
  intros B a b t m w H. destruct a as [|x [|y a]]; cbn [app] in H.
  - injection H as -> ->. left. repeat split.
  - injection H as -> -> E. destruct b; [|discriminate]. right. repeat split.
  - injection H as -> -> E. destruct a; discriminate.
Qed.
Lemma notified_two : forall (w : wake) (t1 t2 : thread A) ts, notified w [t1; t2] ts -> exists b1 b2, ts = [Thread (t_next t1) (t_past t1) b1; Thread (t_next t2) (t_past t2) b2] /\
  (b1 = t_asleep t1 \/ b1 = false) /\ (b2 = t_asleep t2 \/ b2 = false).
Proof.
  intros w t1 t2 ts H. assert (K : forall P, notify_one P [t1; t2] ts -> exists b1 b2, ts = [Thread (t_next t1) (t_past t1) b1; Thread (t_next t2) (t_past t2) b2] /\ (b1 = t_asleep t1 \/ b1 = false) /\ (b2 = t_asleep t2 \/ b2 = false)).
  { intros P [(a & t & b & E & _ & ->)|[_ ->]]; [|exists (t_asleep t1), (t_asleep t2); destruct t1 as [n1 h1 s1], t2 as [n2 h2 s2]; cbn [t_asleep t_next t_past]; auto].
    apply two in E. destruct E as [(-> & -> & ->)|(-> & -> & ->)]; [exists false, (t_asleep t2); destruct t2 as [n2 h2 s2]; cbn [t_asleep t_next t_past app]; auto|exists (t_asleep t1), false; destruct t1 as [n1 h1 s1]; cbn [t_asleep t_next t_past app]; auto]. }
  destruct w; cbn [notified] in H; [subst; exists (t_asleep t1), (t_asleep t2); destruct t1 as [n1 h1 s1], t2 as [n2 h2 s2]; cbn [t_asleep t_next t_past]; auto|eapply K; exact H|eapply K; exact H|].
  subst ts. exists false, false. cbn [map]. auto.
Qed.

(** Calls and sleeping threads left. *)
Definition potential (s : system A) : nat :=
  match q_threads s with
  | [m; w] => 2 * (length script - length (t_past m)) + 2 * (S (length groups) - length (t_past w)) + (if t_asleep m then 0 else 1) + (if t_asleep w then 0 else 1)
  | _ => 0
  end.

Lemma pstep_inv : forall s l s', pinv s -> step cap s l s' -> pinv s' /\
  (match l with Spurious _ => potential s' <= S (potential s) | _ => S (potential s') <= potential s end).
Proof.
  intros s l s' [(bm & bw & k & d & e & T & K & C & D & F)] H. destruct H as [s a t b c r items' closed' w ts' E1 E2 E3 E4 E5|s a t b c E1 E2 E3 E4|s a t b E1 E2]; rewrite T in E1; apply two in E1.
  - destruct E1 as [(-> & -> & ->)|(-> & -> & ->)].
    + cbn [t_next t_past t_asleep] in *. subst bm. unfold call_of in E3. cbn [t_next t_past] in E3. rewrite submitting_next in E3 by exact K. apply notified_two in E5. destruct E5 as (b1 & b2 & -> & B1 & B2). cbn [t_next t_past t_asleep] in *.
      assert (B1' : b1 = false) by tauto. subst b1.
      assert (LK : k < length script) by (apply script_at in E3; rewrite script_length; destruct E3 as [(x & _ & _ & _ & L)|(_ & L & _)]; lia).
      assert (CF : q_closed s = false) by (rewrite C; apply Nat.leb_gt; exact LK).
      assert (POT : S (potential (System items' closed' [Thread (submitting groups) (firstn k script ++ [(c, r)]) false; Thread writing (took d ++ (if e then [(Pop, Popped None)] else [])) b2])) <= potential s).
      { unfold potential. rewrite T. cbn [q_threads t_past t_asleep]. rewrite app_length, firstn_length, (Nat.min_l _ _ K). cbn [length]. destruct B2 as [->| ->]; destruct bw; lia. }
      split; [|exact POT]. rewrite CF in E4. constructor. exists false, b2, (S k), d, e. cbn [q_threads q_items q_closed].
      apply script_at in E3. destruct E3 as [(x & X1 & -> & X2 & X3)|(-> & X1 & X2)]; cbn [attempt] in E4.
      * rewrite orb_false_r in E4. destruct (length (q_items s) <? cap); [|discriminate]. injection E4 as <- <- <- <-.
        split; [rewrite (firstn_S_nth _ _ _ X2); reflexivity|]. split; [lia|]. split; [symmetry; apply Nat.leb_gt; rewrite script_length; lia|]. split; [rewrite (firstn_S_nth _ _ _ X1), <- D, app_assoc; reflexivity|].
        intros HE. destruct (F HE) as [F1 _]. congruence.
      * injection E4 as <- <- <- <-. split; [rewrite (firstn_S_nth _ _ _ X2); reflexivity|]. split; [lia|]. split; [symmetry; apply Nat.leb_le; rewrite script_length; lia|].
        split; [rewrite D, (firstn_all2 (n := k)), (firstn_all2 (n := S k)) by lia; reflexivity|]. intros HE. destruct (F HE) as [F1 _]. congruence.
    + cbn [t_next t_past t_asleep] in *. subst bw. unfold call_of in E3. cbn [t_next t_past] in E3. rewrite writing_next in E3. destruct e; [discriminate|]. injection E3 as <-. rewrite app_nil_r in *.
      apply notified_two in E5. cbn [app] in E5. destruct E5 as (b1 & b2 & -> & B1 & B2). cbn [t_next t_past t_asleep] in *. assert (B2' : b2 = false) by tauto. subst b2.
      assert (LD : length d + length (q_items s) <= length groups) by (rewrite <- app_length, D, firstn_length; lia).
      assert (POT : S (potential (System items' closed' [Thread (submitting groups) (firstn k script) b1; Thread writing (took d ++ [(Pop, r)]) false])) <= potential s).
      { unfold potential. rewrite T. cbn [q_threads t_past t_asleep]. rewrite app_length. unfold took. rewrite map_length. cbn [length]. destruct B1 as [->| ->]; destruct bm; lia. }
      split; [|exact POT]. constructor. cbn [attempt] in E4. destruct (q_items s) as [|x items] eqn:EI.
      * destruct (q_closed s) eqn:CL; [|discriminate]. injection E4 as <- <- <- <-. exists b1, false, k, d, true. cbn [q_threads q_items q_closed]. split; [reflexivity|]. split; [exact K|]. split; [exact C|]. split; [exact D|]. auto.
      * injection E4 as <- <- <- <-. exists b1, false, k, (d ++ [x]), false. cbn [q_threads q_items q_closed]. rewrite app_nil_r. split; [unfold took; rewrite map_app; reflexivity|]. split; [exact K|]. split; [exact C|]. split; [rewrite <- app_assoc; exact D|discriminate].
  - destruct E1 as [(-> & -> & ->)|(-> & -> & ->)]; cbn [t_asleep] in E2; subst; (split; [constructor|unfold potential; rewrite T; cbn [q_threads app asleep t_past t_asleep]; lia]).
    + exists true, bw, k, d, e. cbn [q_threads q_items q_closed app asleep t_next t_past]. auto.
    + exists bm, true, k, d, e. cbn [q_threads q_items q_closed app asleep t_next t_past]. auto.
  - destruct E1 as [(-> & -> & ->)|(-> & -> & ->)]; cbn [t_asleep] in E2; subst; (split; [constructor|unfold potential; rewrite T; cbn [q_threads app awake t_past t_asleep]; lia]).
    + exists false, bw, k, d, e. cbn [q_threads q_items q_closed app awake t_next t_past]. auto.
    + exists bm, false, k, d, e. cbn [q_threads q_items q_closed app awake t_next t_past]. auto.
Qed.
Lemma spurious_app : forall tr tr' : list (label A), spurious (tr ++ tr') = spurious tr + spurious tr'.
Proof. induction tr as [|l tr IH]; intros tr'; [reflexivity|]. destruct l; cbn [app spurious]; rewrite IH; reflexivity. Qed.
Lemma prun_inv : forall tr s, run cap (pipeline groups) tr s -> pinv s /\ length tr + potential s <= potential (pipeline groups) + 2 * spurious tr.
Proof.
  intros tr s H. induction H as [|tr s l s' Hr [IH1 IH2] Hs].
  - split; [|cbn [length spurious]; lia]. constructor. exists false, false, 0, [], false. rewrite script_length. repeat split; try lia; discriminate.
  - destruct (pstep_inv _ _ _ IH1 Hs) as [P1 P2]. split; [exact P1|]. rewrite app_length, spurious_app. cbn [length]. destruct l; cbn [spurious]; lia.
Qed.
Lemma potential_start : potential (pipeline groups) = 4 * length groups + 6.
Proof. unfold potential, pipeline, start. cbn [q_threads map t_past t_asleep]. rewrite script_length. cbn [length]. lia. Qed.
Lemma pipeline_bounded : forall tr s, run cap (pipeline groups) tr s -> length tr <= 4 * length groups + 6 + 2 * spurious tr.
Proof. intros tr s H. destruct (prun_inv _ _ H) as [_ B]. rewrite potential_start in B. lia. Qed.
Lemma pipeline_stuck : forall tr s, 1 <= cap -> run cap (pipeline groups) tr s -> stuck s -> finished s.
Proof.
  intros tr s HC H HS. destruct (prun_inv _ _ H) as [[(bm & bw & k & d & e & T & K & C & D & F)] _].
  set (m := Thread (submitting groups) (firstn k script) bm) in *. set (w := Thread writing (took d ++ (if e then [(Pop, Popped None)] else [])) bw) in *.
  assert (CM : call_of m = nth_error (map Push groups ++ [Close]) k) by (apply submitting_next; exact K).
  assert (CW : call_of w = if e then None else Some Pop) by (apply writing_next).
  assert (IM : In m (q_threads s)) by (rewrite T; left; reflexivity). assert (IW : In w (q_threads s)) by (rewrite T; right; left; reflexivity).
  pose proof (stuck_spec cap _ _ _ H HS) as ST.
  assert (MD : call_of m = None).
  { destruct (call_of m) as [c|] eqn:E; [|reflexivity]. exfalso. destruct (ST m c IM E) as (CL & [[-> QE]|(x & -> & QF)]).
    - symmetry in CM. apply script_at in CM. destruct CM as [(x & _ & X & _)|(X & _)]; discriminate.
    - destruct e; [destruct (F eq_refl); congruence|]. destruct (ST w Pop IW CW) as (_ & [[_ QE]|(y & Y & _)]); [|discriminate]. rewrite QE in QF. cbn [length] in QF. lia. }
  assert (CL : q_closed s = true).
  { rewrite C. apply Nat.leb_le. rewrite MD in CM. symmetry in CM. apply nth_error_None in CM. rewrite app_length, map_length in CM. cbn [length] in CM. rewrite script_length. lia. }
  assert (WD : call_of w = None) by (destruct (call_of w) as [c|] eqn:E; [|reflexivity]; destruct (ST w c IW E) as (X & _); congruence).
  intros t Ht. rewrite T in Ht. destruct Ht as [<-|[<-|[]]]; assumption.
Qed.
Lemma delivered_took : forall l, delivered (took l) = l.
Proof. induction l as [|x l IH]; [reflexivity|]. unfold took. cbn [map delivered]. f_equal. exact IH. Qed.
Lemma pipeline_result : forall tr s, run cap (pipeline groups) tr s -> finished s ->
  events_of 0 tr = map (fun x => (Push x, Pushed true)) groups ++ [(Close, Done)] /\ delivered (events_of 1 tr) = groups.
Proof.
  intros tr s H HF. destruct (prun_inv _ _ H) as [[(bm & bw & k & d & e & T & K & C & D & F)] _]. pose proof (run_programs cap _ _ _ H) as RP. rewrite T in RP. cbn [map length seq combine fst snd t_next t_past] in RP. injection RP as R0 R1.
  rewrite <- R0, <- R1.
  assert (CM : nth_error (map Push groups ++ [Close]) k = None).
  { rewrite <- (submitting_next k K). apply (HF (Thread (submitting groups) (firstn k script) bm)). rewrite T. left. reflexivity. }
  apply nth_error_None in CM. rewrite app_length, map_length in CM. cbn [length] in CM.
  assert (CW : (if e then None else Some (@Pop A)) = None).
  { rewrite <- (writing_next d e). apply (HF (Thread writing (took d ++ (if e then [(Pop, Popped None)] else [])) bw)). rewrite T. right. left. reflexivity. }
  destruct e; [|discriminate]. destruct (F eq_refl) as [_ QE]. rewrite QE, app_nil_r, firstn_all2 in D by lia. split; [rewrite firstn_all2 by (rewrite script_length; lia); reflexivity|].
  rewrite delivered_app, delivered_took. cbn [delivered]. rewrite app_nil_r. exact D.
Qed.
End Pipeline.

(** ** With the Parquet writer *)
Lemma write_column_open : forall e p ch a b, let '(p', _, _, _) := write_column (p, ch, a, b) e in ps_open p' = ps_open p /\ ps_schema p' = ps_schema p.
Proof. intros e p ch a b. unfold write_column. destruct (e_uses_dict e), (e_dict_header e), (e_dict_content e); cbn; split; reflexivity. Qed.
Lemma write_group_open : forall p n es, ps_open (write_encoded_row_group p n es) = ps_open p /\ ps_schema (write_encoded_row_group p n es) = ps_schema p.
Proof.
  intros p n es. unfold write_encoded_row_group.
  assert (K : forall q ch a b, let '(p', _, _, _) := fold_left write_column es (q, ch, a, b) in ps_open p' = ps_open q /\ ps_schema p' = ps_schema q).
  { induction es as [|e es IH]; intros q ch a b; cbn [fold_left]; [split; reflexivity|]. pose proof (write_column_open e q ch a b) as W. destruct (write_column (q, ch, a, b) e) as [[[q' ch'] a'] b'].
    specialize (IH q' ch' a' b'). destruct (fold_left write_column es (q', ch', a', b')) as [[[q'' ch''] a''] b'']. destruct W, IH. split; congruence. }
  specialize (K p [] 0%Z 0%Z). destruct (fold_left write_column es (p, [], 0%Z, 0%Z)) as [[[p1 ch] a] b]. cbn [ps_open ps_schema]. exact K.
Qed.
Lemma sequential : forall library below options groups encoded p, ps_open p = true -> encode_groups library below options (ps_schema p) groups = Some encoded ->
  prun library below options p (map PWrite groups) = Some (written p encoded, map (fun _ => true) groups).
Proof.
  intros library below options groups. induction groups as [|g groups IH]; intros encoded p HO HE.
  - injection HE as <-. reflexivity.
  - cbn [map prun pstep]. unfold do_write. rewrite HO. cbn [negb]. destruct g as [|a g].
    + cbn [encode_groups] in HE. rewrite (IH encoded p HO HE). reflexivity.
    + cbn [encode_groups] in HE. destruct (encode_columns library below options (a :: g) (ps_schema p)) as [e|]; [|discriminate].
      destruct (encode_groups library below options (ps_schema p) groups) as [l|] eqn:E; [|discriminate]. injection HE as <-.
      destruct (write_group_open p (Z.of_nat (ac_size a)) e) as [W1 W2]. rewrite (IH l); [reflexivity|congruence|congruence].
Qed.
