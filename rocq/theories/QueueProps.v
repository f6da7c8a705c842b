(** C39, C40: the queue between encoder and writer thread, and the write pipeline, for every
    interleaving.  A [run] is any sequence of atomic steps of any number of threads. *)
From Verif Require Import Base MetaSpec QueueSpec QueueModel QueueProof QueueSched ParquetModel PipelineModel PipelineProof.

(** C39: whatever the programs of the threads and the interleaving, the calls, in the order in which
    they took effect, are a history of a sequential bounded FIFO queue; and the calls of each thread
    are in its program order. *)
Theorem C39_linearizable : forall (A : Type) capacity (clients : list (client A)) trace s,
  run capacity (start clients) trace s ->
  fifo capacity (events trace) (q_items s) (q_closed s) /\
  map (fun t => (t_next t, t_past t)) (q_threads s) = map (fun ic => (snd ic, events_of (fst ic) trace)) (combine (seq 0 (length clients)) clients).
Proof. intros A capacity clients trace s H. split; [eapply run_fifo|eapply run_programs]; exact H. Qed.
Print Assumptions C39_linearizable.

(** C39 in plain terms: what was accepted is what was delivered followed by what is still there, in
    order; never more than [capacity] items; a push is accepted if and only if close was not called
    before it; a pop comes back empty only after close, when everything accepted is delivered. *)
Theorem C39_order_and_close : forall (A : Type) capacity (clients : list (client A)) trace s,
  run capacity (start clients) trace s ->
  accepted (events trace) = delivered (events trace) ++ q_items s /\ length (q_items s) <= capacity /\
  (q_closed s = true <-> close_called (events trace)) /\
  (forall before x r after, events trace = before ++ (Push x, r) :: after ->
     (r = Pushed true /\ ~ close_called before) \/ (r = Pushed false /\ close_called before)) /\
  (forall before after, events trace = before ++ (Pop, Popped None) :: after ->
     close_called before /\ delivered before = accepted before).
Proof.
  intros A capacity clients trace s H. pose proof (run_fifo _ _ _ _ H) as F. destruct (fifo_order _ _ _ _ F) as (O1 & O2 & O3). destruct (fifo_close _ _ _ _ F) as (C1 & C2).
  split; [exact O1|]. split; [exact O2|]. split; [exact O3|]. split; [intros before x r after E; exact (C1 _ _ _ _ E)|exact C2].
Qed.
Print Assumptions C39_order_and_close.

(** C39, no lost wake-up: a thread never sleeps in pop (push) while there is an item (room), or the
    queue is closed, unless another thread is awake in the same call. *)
Theorem C39_no_lost_wakeup : forall (A : Type) capacity (clients : list (client A)) trace s,
  run capacity (start clients) trace s ->
  (forall t, In t (q_threads s) -> t_asleep t = true -> call_of t = Some Pop -> q_items s <> [] \/ q_closed s = true ->
     exists u, In u (q_threads s) /\ t_asleep u = false /\ call_of u = Some Pop) /\
  (forall t x, In t (q_threads s) -> t_asleep t = true -> call_of t = Some (Push x) -> length (q_items s) < capacity \/ q_closed s = true ->
     exists u y, In u (q_threads s) /\ t_asleep u = false /\ call_of u = Some (Push y)).
Proof.
  intros A capacity clients trace s H. destruct (no_lost_wakeup _ _ _ _ H) as [N1 N2]. split.
  - intros t Ht HA HC HQ. apply (N1 t Ht); [split; assumption|exact HQ].
  - intros t x Ht HA HC HQ. apply (N2 t Ht); [split; [exact HA|exists x; exact HC]|exact HQ].
Qed.
Print Assumptions C39_no_lost_wakeup.
(** C39, no deadlock: when no thread can take a step any more, every unfinished thread waits, on an
    open queue, in pop with nothing to take or in push with no room. *)
Theorem C39_deadlock_only_if_starved : forall (A : Type) capacity (clients : list (client A)) trace s,
  run capacity (start clients) trace s -> stuck s ->
  forall t c, In t (q_threads s) -> call_of t = Some c ->
    q_closed s = false /\ ((c = Pop /\ q_items s = []) \/ (exists x, c = Push x /\ capacity <= length (q_items s))).
Proof. exact (fun A => stuck_spec). Qed.
Print Assumptions C39_deadlock_only_if_starved.

(** C40: the pipeline.  It cannot get stuck before both threads are finished ... *)
Theorem C40_no_deadlock : forall (A : Type) capacity (groups : list A) trace s,
  1 <= capacity -> run capacity (pipeline groups) trace s -> stuck s -> finished s.
Proof. exact (fun A capacity groups => pipeline_stuck capacity groups). Qed.
Print Assumptions C40_no_deadlock.
(** ... it stops after a bounded number of steps, not counting spurious wake-ups ... *)
Theorem C40_terminates : forall (A : Type) capacity (groups : list A) trace s,
  run capacity (pipeline groups) trace s -> length trace <= 4 * length groups + 6 + 2 * spurious trace.
Proof. exact (fun A capacity groups => pipeline_bounded capacity groups). Qed.
Print Assumptions C40_terminates.
(** ... and when finished, every submit has succeeded and the writer has got exactly the submitted
    row groups in order. *)
Theorem C40_in_order : forall (A : Type) capacity (groups : list A) trace s,
  run capacity (pipeline groups) trace s -> finished s ->
  events_of 0 trace = map (fun x => (Push x, Pushed true)) groups ++ [(Close, Done)] /\ delivered (events_of 1 trace) = groups.
Proof. exact (fun A capacity groups => pipeline_result capacity groups). Qed.
Print Assumptions C40_in_order.
(** So the writer object ends up in the state that plain write calls would have produced, and C37
    and C65 apply to files written through the pipeline. *)
Theorem C40_same_as_write : forall library below options p groups encoded trace s,
  ps_open p = true -> encode_groups library below options (ps_schema p) groups = Some encoded ->
  run pipeline_capacity (pipeline encoded) trace s -> finished s ->
  prun library below options p (map PWrite groups) = Some (written p (delivered (events_of 1 trace)), map (fun _ => true) groups).
Proof.
  intros library below options p groups encoded trace s HO HE HR HF. destruct (pipeline_result _ _ _ _ HR HF) as [_ D]. rewrite D. apply sequential; assumption.
Qed.
Print Assumptions C40_same_as_write.

(** A run in which both threads sleep and are woken: capacity 1, two row groups. *)
Example C39_meets : exists trace s, run 1 (pipeline [7; 8]) trace s /\ finished s /\ In (Sleeps 0) trace /\ In (Sleeps 1) trace /\ length trace = 8.
Proof.
  destruct (schedule 1 [1; 0; 0; 1; 0; 1; 0; 1] (pipeline [7; 8]) []) as [[tr s]|] eqn:E; [|vm_compute in E; discriminate E].
  exists tr, s. split; [eapply schedule_ok; [apply run_nil|exact E]|]. vm_compute in E. injection E as <- <-.
  split; [intros t [<-|[<-|[]]]; reflexivity|]. repeat split; cbn; auto 12.
Qed.
Print Assumptions C39_meets.
Example C39_stuck_meets : exists trace s, run 4 (start [@writing nat; @writing nat]) trace s /\ stuck s /\ ~ finished s.
Proof.
  destruct (schedule 4 [1; 0] (start [@writing nat; @writing nat]) []) as [[tr s]|] eqn:E; [|vm_compute in E; discriminate E].
  exists tr, s. split; [eapply schedule_ok; [apply run_nil|exact E]|]. vm_compute in E. injection E as <- <-.
  split; [intros t [<-|[<-|[]]]; left; reflexivity|]. intros F. specialize (F _ (or_introl eq_refl)). discriminate F.
Qed.
Print Assumptions C39_stuck_meets.
