(** A scheduler for the queue model, to build concrete runs: thread [i] acts; notify_one wakes the
    first waiting thread. *)
From Verif Require Import Base QueueSpec QueueModel.

Section Sched.
Context {A : Type}.
Variable cap : nat.
Definition waits_pop (t : thread A) : bool := t_asleep t && match call_of t with Some Pop => true | _ => false end.
Definition waits_push (t : thread A) : bool := t_asleep t && match call_of t with Some (Push _) => true | _ => false end.
Fixpoint wake_first (f : thread A -> bool) (ts : list (thread A)) : list (thread A) :=
  match ts with [] => [] | t :: r => if f t then awake t :: r else t :: wake_first f r end.
Definition woken (w : wake) (ts : list (thread A)) : list (thread A) :=
  match w with WakeNone => ts | WakeNotEmpty => wake_first waits_pop ts | WakeNotFull => wake_first waits_push ts | WakeAll => map awake ts end.
Definition act (i : nat) (s : system A) : option (label A * system A) :=
  match nth_error (q_threads s) i with
  | None => None
  | Some t =>
      let a := firstn i (q_threads s) in let b := skipn (S i) (q_threads s) in
      if t_asleep t then None
      else match call_of t with
           | None => None
           | Some c => match attempt cap (q_items s) (q_closed s) c with
                       | None => Some (Sleeps i, System (q_items s) (q_closed s) (a ++ asleep t :: b))
                       | Some (r, items', closed', w) =>
                           Some (Event i c r, System items' closed' (woken w (a ++ Thread (t_next t) (t_past t ++ [(c, r)]) false :: b)))
                       end
           end
  end.
Fixpoint schedule (is : list nat) (s : system A) (tr : list (label A)) : option (list (label A) * system A) :=
  match is with
  | [] => Some (tr, s)
  | i :: r => match act i s with None => None | Some (l, s') => schedule r s' (tr ++ [l]) end
  end.

Lemma wake_first_ok : forall (P : thread A -> Prop) f ts, (forall t, P t <-> f t = true) -> notify_one P ts (wake_first f ts).
Proof.
  intros P f ts HP. induction ts as [|t ts IH]; [right; split; [intros t []|reflexivity]|]. cbn [wake_first]. destruct (f t) eqn:E.
  - left. exists [], t, ts. repeat split. apply HP, E.
  - destruct IH as [(a & u & b & E1 & E2 & E3)|[E1 E2]].
    + left. exists (t :: a), u, b. rewrite E1 at 1. rewrite E3. repeat split. exact E2.
    + right. rewrite E2. split; [|reflexivity]. intros u [<-|Hu]; [rewrite HP, E; discriminate|apply E1, Hu].
Qed.
Lemma woken_ok : forall w ts, notified w ts (woken w ts).
Proof.
  intros w ts. destruct w; cbn [notified woken]; try reflexivity; apply wake_first_ok; intros t; unfold waits_pop, waits_push, on_not_empty, on_not_full.
  - split; [intros [-> ->]; reflexivity|]. intros H. apply andb_prop in H. destruct H as [H1 H2]. split; [exact H1|]. destruct (call_of t) as [[]|]; congruence.
  - split; [intros [-> [x ->]]; reflexivity|]. intros H. apply andb_prop in H. destruct H as [H1 H2]. split; [exact H1|]. destruct (call_of t) as [[x| | |]|]; try discriminate. exists x. reflexivity.
Qed.
Lemma act_ok : forall i s l s', act i s = Some (l, s') -> step cap s l s'.
Proof.
  intros i s l s' H. unfold act in H. destruct (nth_error (q_threads s) i) as [t|] eqn:E; [|discriminate].
  assert (SP : q_threads s = firstn i (q_threads s) ++ t :: skipn (S i) (q_threads s)).
  { rewrite <- (firstn_skipn i (q_threads s)) at 1. f_equal. clear - E. revert i E. induction (q_threads s) as [|u us IH]; intros [|i] E; cbn [nth_error] in E; try discriminate; [injection E as ->; reflexivity|]. cbn [skipn]. apply IH, E. }
  assert (LI : length (firstn i (q_threads s)) = i) by (rewrite firstn_length; assert (i < length (q_threads s)) by (apply nth_error_Some; congruence); lia).
  destruct (t_asleep t) eqn:TA; [discriminate|]. destruct (call_of t) as [c|] eqn:TC; [|discriminate].
  destruct (attempt cap (q_items s) (q_closed s) c) as [[[[r items'] closed'] w]|] eqn:AT; injection H as <- <-.
  - rewrite <- LI at 1. eapply step_call; try eassumption. apply woken_ok.
  - rewrite <- LI at 1. eapply step_sleep; eassumption.
Qed.
Lemma schedule_ok : forall s0 is s tr tr' s', run cap s0 tr s -> schedule is s tr = Some (tr', s') -> run cap s0 tr' s'.
Proof.
  intros s0 is. induction is as [|i is IH]; intros s tr tr' s' Hr H; cbn [schedule] in H; [injection H as <- <-; exact Hr|].
  destruct (act i s) as [[l s1]|] eqn:E; [|discriminate]. eapply IH; [|exact H]. econstructor; [exact Hr|apply (act_ok i), E].
Qed.
End Sched.
