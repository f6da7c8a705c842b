(** There are fair traces: the threads take turns. *)
From Verif Require Import Base TypesSpec MetaSpec BuffersModel ParquetModel QueueSpec QueueModel QueueProof PipelineModel PipelineProof SessionModel SessionSpec.

Section Turns.
Context {A : Type}.
Variable groups : list A.
Definition one_turn (g : A) : list (label A) := [Event 0 (Push g) (Pushed true); Event 1 Pop (Popped (Some g))].
Definition turns (l : list A) : list (label A) := concat (map one_turn l).
Definition in_turn : list (label A) := turns groups ++ [Event 0 Close Done; Event 1 Pop (Popped None)].
Definition after (k : nat) : system A := System [] false [Thread (submitting groups) (firstn k (script groups)) false; Thread writing (took (firstn k groups)) false].

Lemma nobody_waits (P : thread A -> Prop) ts : (forall t, P t -> t_asleep t = true) -> (forall t, In t ts -> t_asleep t = false) -> notify_one P ts ts.
Proof. intros H N. right. split; [|reflexivity]. intros t I X. apply H in X. rewrite (N t I) in X. discriminate X. Qed.
Lemma not_empty_asleep (t : thread A) : on_not_empty t -> t_asleep t = true. Proof. intros H. apply H. Qed.
Lemma not_full_asleep (t : thread A) : on_not_full t -> t_asleep t = true. Proof. intros H. apply H. Qed.
Lemma writing_took l : writing (@took A l) = Some Pop.
Proof. rewrite <- (app_nil_r (took l)). exact (writing_next l false). Qed.

Lemma turns_run k : k <= length groups -> run 4 (pipeline groups) (turns (firstn k groups)) (after k).
Proof.
  induction k as [|k IH]; intros L; [constructor|].
  destruct (nth_error groups k) as [g|] eqn:G; [|apply nth_error_None in G; lia].
  rewrite (firstn_S_nth groups k g G). unfold turns. rewrite map_app, concat_app. cbn [map concat]. rewrite app_nil_r. unfold one_turn.
  change [Event 0 (Push g) (Pushed true); Event 1 Pop (Popped (Some g))] with ([Event 0 (Push g) (Pushed true)] ++ [@Event A 1 Pop (Popped (Some g))]). rewrite app_assoc.
  assert (SL : length (script groups) = S (length groups)) by apply script_length.
  assert (N : nth_error (script groups) k = Some (Push g, Pushed true)).
  { unfold script. rewrite nth_error_app1 by (rewrite map_length; lia). rewrite nth_error_map, G. reflexivity. }
  assert (C1 : submitting groups (firstn k (script groups)) = Some (Push g)).
  { rewrite submitting_next by lia. rewrite nth_error_app1 by (rewrite map_length; lia). rewrite nth_error_map, G. reflexivity. }
  eapply run_step; [eapply run_step; [apply IH; lia|]|].
  - eapply (step_call 4 (after k) [] _ _ (Push g) (Pushed true)); [reflexivity|reflexivity|exact C1|reflexivity|].
    apply nobody_waits; [exact not_empty_asleep|]. intros t [<-|[<-|[]]]; reflexivity.
  - cbn [app t_next t_past]. rewrite <- (firstn_S_nth _ _ _ N).
    assert (AF : after (S k) = System [] false ([Thread (submitting groups) (firstn (S k) (script groups)) false] ++ Thread writing (took (firstn k groups) ++ [(Pop, Popped (Some g))]) false :: [])).
    { unfold after. rewrite (firstn_S_nth groups k g G). unfold took. rewrite map_app. reflexivity. }
    rewrite AF. eapply (step_call 4 _ [Thread (submitting groups) (firstn (S k) (script groups)) false] (Thread writing (took (firstn k groups)) false) [] Pop (Popped (Some g)));
      [reflexivity|reflexivity|apply writing_took|reflexivity|].
    apply nobody_waits; [exact not_full_asleep|]. intros t [<-|[<-|[]]]; reflexivity.
Qed.
Lemma in_turn_run : exists s, run 4 (pipeline groups) in_turn s /\ finished s.
Proof.
  pose proof (turns_run (length groups) (le_n _)) as R. rewrite firstn_all in R.
  assert (SL : length (script groups) = S (length groups)) by apply script_length.
  assert (N : nth_error (script groups) (length groups) = Some (Close, Done)).
  { unfold script. rewrite nth_error_app2 by (rewrite map_length; lia). rewrite map_length, Nat.sub_diag. reflexivity. }
  assert (C1 : submitting groups (firstn (length groups) (script groups)) = Some Close).
  { rewrite submitting_next by lia. rewrite nth_error_app2 by (rewrite map_length; lia). rewrite map_length, Nat.sub_diag. reflexivity. }
  exists (System [] true [Thread (submitting groups) (firstn (S (length groups)) (script groups)) false; Thread writing (took (firstn (length groups) groups) ++ [(Pop, Popped None)]) false]).
  split.
  - unfold in_turn. change [Event 0 Close Done; Event 1 Pop (Popped None)] with ([Event 0 Close Done] ++ [@Event A 1 Pop (Popped None)]). rewrite app_assoc.
    eapply run_step; [eapply run_step; [exact R|]|].
    + eapply (step_call 4 (after (length groups)) [] _ _ Close Done); [reflexivity|reflexivity|exact C1|reflexivity|]. reflexivity.
    + cbn [app map awake t_next t_past]. rewrite <- (firstn_S_nth _ _ _ N).
      eapply (step_call 4 _ [Thread (submitting groups) (firstn (S (length groups)) (script groups)) false] (Thread writing (took (firstn (length groups) groups)) false) [] Pop (Popped None));
        [reflexivity|reflexivity|apply writing_took|reflexivity|]. reflexivity.
  - intros t [<-|[<-|[]]].
    + unfold call_of. cbn [t_next t_past]. rewrite submitting_next by lia. apply nth_error_None. rewrite app_length, map_length. cbn [length]. lia.
    + exact (writing_next (firstn (length groups) groups) true).
Qed.
End Turns.
Lemma turns_fair : fair (fun _ => in_turn).
Proof. intros k groups. apply in_turn_run. Qed.
