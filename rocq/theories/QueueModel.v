(** EncodedRowGroupQueue, src/writer/encoded_row_group_queue.h, used by any number of threads.
    Every member function holds mutex_ from its first to its last line, except while it waits on a
    condition variable; so a thread's step is one critical section: either it runs to the end, or
    its wait predicate is false and the thread is put to sleep, releasing the mutex atomically.
    A sleeping thread that has been notified competes for the mutex again and then evaluates its
    predicate again: it is simply awake, about to do the same call. *)
From Verif Require Import Base QueueSpec.

Section Queue.
Context {A : Type}.
(** A thread's program: its next call, given its calls and results so far; None = it is finished. *)
Definition client : Type := list (call A * result A) -> option (call A).
Record thread : Type := Thread { t_next : client; t_past : list (call A * result A); t_asleep : bool }.
Definition call_of (t : thread) : option (call A) := t_next t (t_past t).
Record system : Type := System { q_items : list A; q_closed : bool; q_threads : list thread }.

Inductive wake : Type := WakeNone | WakeNotEmpty | WakeNotFull | WakeAll.
(** The critical sections; None = the predicate of wait is false.
    push 21-31, pop 35-46, close 49-54, is_closed 56-59. *)
Definition attempt (max_size : nat) (queue : list A) (closed : bool) (c : call A) : option (result A * list A * bool * wake) :=
  match c with
  | Push row_group =>
      if (length queue <? max_size) || closed then
        if closed then Some (Pushed false, queue, closed, WakeNone)
        else Some (Pushed true, queue ++ [row_group], closed, WakeNotEmpty)
      else None
  | Pop =>
      match queue with
      | [] => if closed then Some (Popped None, queue, closed, WakeNone) else None
      | front :: rest => Some (Popped (Some front), rest, closed, WakeNotFull)
      end
  | Close => Some (Done, queue, true, WakeAll)
  | IsClosed => Some (Flag closed, queue, closed, WakeNone)
  end.

(** Sleeping in wait on not_empty_ (37) or not_full_ (23). *)
Definition on_not_empty (t : thread) : Prop := t_asleep t = true /\ call_of t = Some Pop.
Definition on_not_full (t : thread) : Prop := t_asleep t = true /\ exists x, call_of t = Some (Push x).
Definition awake (t : thread) : thread := Thread (t_next t) (t_past t) false.
Definition asleep (t : thread) : thread := Thread (t_next t) (t_past t) true.
(** notify_one: one of the waiting threads, any; none if nobody waits. *)
Definition notify_one (waiting : thread -> Prop) (ts ts' : list thread) : Prop :=
  (exists a t b, ts = a ++ t :: b /\ waiting t /\ ts' = a ++ awake t :: b) \/
  ((forall t, In t ts -> ~ waiting t) /\ ts' = ts).
Definition notified (w : wake) (ts ts' : list thread) : Prop :=
  match w with
  | WakeNone => ts' = ts
  | WakeNotEmpty => notify_one on_not_empty ts ts'
  | WakeNotFull => notify_one on_not_full ts ts'
  | WakeAll => ts' = map awake ts
  end.

(** What happened in a step: thread [i] finished a call, went to sleep, or was woken without being
    notified (spurious wake-ups are allowed). *)
Inductive label : Type := Event (i : nat) (c : call A) (r : result A) | Sleeps (i : nat) | Spurious (i : nat).
Inductive step (max_size : nat) : system -> label -> system -> Prop :=
| step_call : forall s a t b c r items' closed' w ts',
    q_threads s = a ++ t :: b -> t_asleep t = false -> call_of t = Some c ->
    attempt max_size (q_items s) (q_closed s) c = Some (r, items', closed', w) ->
    notified w (a ++ Thread (t_next t) (t_past t ++ [(c, r)]) false :: b) ts' ->
    step max_size s (Event (length a) c r) (System items' closed' ts')
| step_sleep : forall s a t b c,
    q_threads s = a ++ t :: b -> t_asleep t = false -> call_of t = Some c ->
    attempt max_size (q_items s) (q_closed s) c = None ->
    step max_size s (Sleeps (length a)) (System (q_items s) (q_closed s) (a ++ asleep t :: b))
| step_spurious : forall s a t b,
    q_threads s = a ++ t :: b -> t_asleep t = true ->
    step max_size s (Spurious (length a)) (System (q_items s) (q_closed s) (a ++ awake t :: b)).

Inductive run (max_size : nat) (s0 : system) : list label -> system -> Prop :=
| run_nil : run max_size s0 [] s0
| run_step : forall tr s l s', run max_size s0 tr s -> step max_size s l s' -> run max_size s0 (tr ++ [l]) s'.

(** A new queue (17) shared by these threads. *)
Definition start (clients : list client) : system := System [] false (map (fun c => Thread c [] false) clients).

(** The calls in the order in which they took effect, of all threads or of thread [i]. *)
Fixpoint events (tr : list label) : list (call A * result A) :=
  match tr with [] => [] | Event _ c r :: t => (c, r) :: events t | _ :: t => events t end.
Fixpoint events_of (i : nat) (tr : list label) : list (call A * result A) :=
  match tr with [] => [] | Event j c r :: t => if i =? j then (c, r) :: events_of i t else events_of i t | _ :: t => events_of i t end.
Fixpoint spurious (tr : list label) : nat :=
  match tr with [] => 0 | Spurious _ :: t => S (spurious t) | _ :: t => spurious t end.

(** Nothing but a spurious wake-up can happen any more. *)
Definition stuck (s : system) : Prop := forall t, In t (q_threads s) -> t_asleep t = true \/ call_of t = None.
Definition finished (s : system) : Prop := forall t, In t (q_threads s) -> call_of t = None.
End Queue.
Arguments label : clear implicits.
Arguments client : clear implicits.
Arguments thread : clear implicits.
Arguments system : clear implicits.
