(** Copy-on-write buffers.
    Models src/columns/cow_buffer.h:33-229.  A shared_ptr is an address into a heap of
    vectors; its use count is the number of live handles holding that address (the control
    block's counter, maintained by std::shared_ptr).  Freed blocks stay in the heap list but
    no handle refers to them. *)
From Verif Require Import Base ChunkedSpec CowSpec.

Section Cow.
Context {T : Type}.

(** 228: the data_ member of a handle. *)
Inductive slot : Type := Gone | Null | At (a : nat).
Record state : Type := State { heap : list (list T); handles : list slot }.

Definition points_to (a : nat) (s : slot) : bool := match s with At b => Nat.eqb a b | _ => false end.
Definition use_count (st : state) (a : nat) : nat := length (filter (points_to a) (handles st)).

(** 97-100: as_vec; also data()/size()/begin()/end() (73, 115, 198-203): a null pointer reads as empty. *)
Definition as_vec (st : state) (h : nat) : option (list T) :=
  match nth_error (handles st) h with
  | Some Null => Some []
  | Some (At a) => nth_error (heap st) a
  | _ => None
  end.

(** 183: operator[] const: dereferences data_ unconditionally. *)
Definition const_index (st : state) (h i : nat) : option T :=
  match nth_error (handles st) h with
  | Some (At a) => match nth_error (heap st) a with Some l => nth_error l i | None => None end
  | _ => None
  end.

(** 216-226: ensure_unique; returns the address then held. *)
Definition ensure_unique (st : state) (h : nat) : option (state * nat) :=
  match nth_error (handles st) h with
  | None | Some Gone => None
  | Some Null =>
      let a := length (heap st) in
      Some (State (heap st ++ [[]]) (replace_at (handles st) h (At a)), a)
  | Some (At a) =>
      if 1 <? use_count st a then
        match nth_error (heap st) a with
        | None => None
        | Some l => let b := length (heap st) in
                    Some (State (heap st ++ [l]) (replace_at (handles st) h (At b)), b)
        end
      else Some (st, a)
  end.

(** The mutators 129-195: ensure_unique, then an operation on the vector. *)
Definition mutate (st : state) (h : nat) (f : list T -> option (list T)) : option state :=
  match ensure_unique st h with
  | None => None
  | Some (st1, a) =>
      match nth_error (heap st1) a with
      | None => None
      | Some l => match f l with
                  | None => None
                  | Some l' => Some (State (replace_at (heap st1) a l') (handles st1))
                  end
      end
  end.

(** 106-112: into_vec; a null handle stays null, a moved-from vector is empty. *)
Definition into_vec (st : state) (h : nat) : option state :=
  match nth_error (handles st) h with
  | None | Some Gone => None
  | Some Null => Some st
  | Some (At _) => mutate st h (fun _ => Some [])
  end.

Definition alive (s : option slot) : bool := match s with Some Null | Some (At _) => true | _ => false end.

Definition wstep (st : state) (o : wop T) : option state :=
  match o with
  | WMake v => Some (State (heap st ++ [v]) (handles st ++ [At (length (heap st))]))        (* 36-49 *)
  | WCopy k =>                                                                              (* 52, 68 *)
      match nth_error (handles st) k with
      | None | Some Gone => None
      | Some s => Some (State (heap st) (handles st ++ [s]))
      end
  | WMove k =>                                                                              (* 55 *)
      match nth_error (handles st) k with
      | None | Some Gone => None
      | Some s => Some (State (heap st) (replace_at (handles st) k Null ++ [s]))
      end
  | WAssign h k =>                                                                          (* 58 *)
      if alive (nth_error (handles st) h) then
        match nth_error (handles st) k with
        | None | Some Gone => None
        | Some s => Some (State (heap st) (replace_at (handles st) h s))
        end
      else None
  | WMoveAssign h k =>                                                                      (* 61 *)
      if alive (nth_error (handles st) h) then
        match nth_error (handles st) k with
        | None | Some Gone => None
        | Some s => Some (State (heap st) (replace_at (replace_at (handles st) k Null) h s))
        end
      else None
  | WSwap h k =>                                                                            (* 208 *)
      match nth_error (handles st) h, nth_error (handles st) k with
      | None, _ | Some Gone, _ | _, None | _, Some Gone => None
      | Some s, Some t => Some (State (heap st) (replace_at (replace_at (handles st) k s) h t))
      end
  | WDrop h =>
      if alive (nth_error (handles st) h) then Some (State (heap st) (replace_at (handles st) h Gone)) else None
  | WPush h v => mutate st h (fun l => Some (l ++ [v]))                                     (* 161-180 *)
  | WSet h i v => mutate st h (fun l => if i <? length l then Some (replace_at l i v) else None)   (* 187-195 *)
  | WResize h n v => mutate st h (fun l => Some (resized l n v))                            (* 137-150 *)
  | WClear h => mutate st h (fun _ => Some [])                                              (* 153-158 *)
  | WTouch h => mutate st h (fun l => Some l)                                               (* 80-92, 129-134 *)
  | WIntoVec h => into_vec st h
  end.
Fixpoint wrun (st : state) (ops : list (wop T)) : option state :=
  match ops with
  | [] => Some st
  | o :: r => match wstep st o with None => None | Some st' => wrun st' r end
  end.

Definition wstart : state := State [] [].

(** 89-92: a reference obtained from to_mut() (an address), and a later write through it. *)
Definition to_mut (st : state) (h : nat) : option (state * nat) := ensure_unique st h.
Definition write_through (st : state) (a : nat) (v : T) : option state :=
  match nth_error (heap st) a with
  | None => None
  | Some l => Some (State (replace_at (heap st) a (l ++ [v])) (handles st))
  end.
End Cow.
Arguments state : clear implicits.
