(** A bounded first-in first-out queue that can be closed, as a sequential object: which results its
    calls may return, one after another. *)
From Verif Require Import Base.

Section Fifo.
Context {A : Type}.
Inductive call : Type := Push (x : A) | Pop | Close | IsClosed.
Inductive result : Type := Pushed (accepted : bool) | Popped (x : option A) | Done | Flag (b : bool).

(** [None]: this call may not return this result now. *)
Definition fifo_call (capacity : nat) (items : list A) (closed : bool) (c : call) (r : result) : option (list A * bool) :=
  match c, r with
  | Push x, Pushed true => if negb closed && (length items <? capacity) then Some (items ++ [x], closed) else None
  | Push _, Pushed false => if closed then Some (items, closed) else None
  | Pop, Popped (Some _) => Some (tl items, closed)
  | Pop, Popped None => match items with [] => if closed then Some (items, closed) else None | _ => None end
  | Close, Done => Some (items, true)
  | IsClosed, Flag b => if eqb b closed then Some (items, closed) else None
  | _, _ => None
  end.
(** A delivered item is the oldest one. *)
Definition delivers_front (items : list A) (c : call) (r : result) : Prop :=
  match r with Popped (Some x) => hd_error items = Some x | _ => True end.
(** The history of calls, in the order in which they took effect. *)
Inductive fifo (capacity : nat) : list (call * result) -> list A -> bool -> Prop :=
| fifo_new : fifo capacity [] [] false
| fifo_more : forall h items closed c r items' closed',
    fifo capacity h items closed -> delivers_front items c r ->
    fifo_call capacity items closed c r = Some (items', closed') ->
    fifo capacity (h ++ [(c, r)]) items' closed'.

(** What was accepted and what was delivered, in order. *)
Fixpoint accepted (h : list (call * result)) : list A :=
  match h with [] => [] | (Push x, Pushed true) :: t => x :: accepted t | _ :: t => accepted t end.
Fixpoint delivered (h : list (call * result)) : list A :=
  match h with [] => [] | (Pop, Popped (Some x)) :: t => x :: delivered t | _ :: t => delivered t end.
Definition close_called (h : list (call * result)) : Prop := In (Close, Done) h.
End Fifo.
Arguments call : clear implicits.
Arguments result : clear implicits.
