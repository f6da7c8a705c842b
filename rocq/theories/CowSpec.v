(** What a user expects of copy-on-write buffers: every handle is an independent vector. *)
From Verif Require Import Base ChunkedSpec.

(** Histories over any number of handles, named 0, 1, 2, ... in creation order. *)
Inductive wop (T : Type) : Type :=
| WMake (v : list T)                       (* construct from a vector *)
| WCopy (k : nat)                          (* copy-construct, or share() *)
| WMove (k : nat)                          (* move-construct *)
| WAssign (h k : nat)                      (* h = k *)
| WMoveAssign (h k : nat)                  (* h = std::move(k) *)
| WSwap (h k : nat)
| WDrop (h : nat)                          (* destroy *)
| WPush (h : nat) (v : T)                  (* push_back, emplace_back *)
| WSet (h i : nat) (v : T)                 (* write element i *)
| WResize (h n : nat) (v : T)
| WClear (h : nat)
| WTouch (h : nat)                         (* reserve, or non-const access without writing *)
| WIntoVec (h : nat).                      (* move the vector out *)
Arguments WMake {T}. Arguments WCopy {T}. Arguments WMove {T}. Arguments WAssign {T}. Arguments WMoveAssign {T}.
Arguments WSwap {T}. Arguments WDrop {T}. Arguments WPush {T}. Arguments WSet {T}. Arguments WResize {T}.
Arguments WClear {T}. Arguments WTouch {T}. Arguments WIntoVec {T}.

(** vector::resize(n, v). *)
Definition resized {T} (l : list T) (n : nat) (v : T) : list T := firstn n l ++ repeat v (n - length l).

(** A handle's value; [None] once destroyed.  A moved-from handle holds the empty vector. *)
Definition spec_state (T : Type) := list (option (list T)).
Definition live {T} (st : spec_state T) (h : nat) : option (list T) :=
  match nth_error st h with Some (Some l) => Some l | _ => None end.
Definition change_live {T} (st : spec_state T) (h : nat) (f : list T -> option (list T)) : option (spec_state T) :=
  match live st h with
  | None => None
  | Some l => match f l with None => None | Some l' => Some (replace_at st h (Some l')) end
  end.
Definition spec_wstep {T} (st : spec_state T) (o : wop T) : option (spec_state T) :=
  match o with
  | WMake v => Some (st ++ [Some v])
  | WCopy k => match live st k with Some l => Some (st ++ [Some l]) | None => None end
  | WMove k => match live st k with Some l => Some (replace_at st k (Some []) ++ [Some l]) | None => None end
  | WAssign h k => match live st h, live st k with
                   | Some _, Some l => Some (replace_at st h (Some l)) | _, _ => None end
  | WMoveAssign h k => match live st h, live st k with
                       | Some _, Some l => Some (replace_at (replace_at st k (Some [])) h (Some l)) | _, _ => None end
  | WSwap h k => match live st h, live st k with
                 | Some a, Some b => Some (replace_at (replace_at st k (Some a)) h (Some b)) | _, _ => None end
  | WDrop h => match live st h with Some _ => Some (replace_at st h None) | None => None end
  | WPush h v => change_live st h (fun l => Some (l ++ [v]))
  | WSet h i v => change_live st h (fun l => if i <? length l then Some (replace_at l i v) else None)
  | WResize h n v => change_live st h (fun l => Some (resized l n v))
  | WClear h => change_live st h (fun _ => Some [])
  | WTouch h => change_live st h (fun l => Some l)
  | WIntoVec h => change_live st h (fun _ => Some [])
  end.
Fixpoint spec_wrun {T} (st : spec_state T) (ops : list (wop T)) : option (spec_state T) :=
  match ops with
  | [] => Some st
  | o :: r => match spec_wstep st o with None => None | Some st' => spec_wrun st' r end
  end.
