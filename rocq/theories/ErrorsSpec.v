(** What a user expects of error collection. *)
From Verif Require Import Base.
From Coq Require Import Permutation Sorted.

Inductive severity : Type := WARNING | RECOVERABLE | FATAL.
Inductive mode : Type := DISABLED | FAIL_FAST | PERMISSIVE | BEST_EFFORT.

(** One reported error: code, severity, line, column, byte offset, message. *)
Record error : Type := Error { e_code : nat; e_severity : severity; e_line : nat; e_column : nat;
                               e_offset : nat; e_message : bytes }.
Definition is_fatal (e : error) : bool := match e_severity e with FATAL => true | _ => false end.

(** Histories over any number of collectors, named 0, 1, 2, ... in creation order. *)
Inductive eop : Type :=
| ENew (m : mode) (limit : nat)
| EAdd (h : nat) (e : error)
| EClear (h : nat)
| ESetMode (h : nat) (m : mode)
| ESetMax (h : nat) (limit : nat)
| EMerge (h k : nat)                    (* merge collector k into h *)
| EMergeSorted (h : nat) (ks : list nat)  (* merge all of them, then sort *)
| ESort (h : nat).

(** What has happened to one collector: the errors reported to it or merged into it since it
    was made or cleared, its mode, its limit, and the largest limit it ever had. *)
Record log : Type := Log { l_reported : list error; l_mode : mode; l_limit : nat; l_cap : nat }.

Fixpoint put {A} (l : list A) (i : nat) (a : A) : list A :=
  match l, i with
  | [], _ => []
  | _ :: r, O => a :: r
  | x :: r, S j => x :: put r j a
  end.

Definition merge_log (a b : log) : log := Log (l_reported a ++ l_reported b) (l_mode a) (l_limit a) (l_cap a).

(** Look up several handles; None if one does not exist. *)
Fixpoint lookup {A} (st : list A) (ks : list nat) : option (list A) :=
  match ks with
  | [] => Some []
  | k :: r => match nth_error st k, lookup st r with Some a, Some l => Some (a :: l) | _, _ => None end
  end.

Definition spec_estep (st : list log) (o : eop) : option (list log) :=
  match o with
  | ENew m n => Some (st ++ [Log [] m n n])
  | EAdd h e => option_map (fun l => put st h (Log (l_reported l ++ [e]) (l_mode l) (l_limit l) (l_cap l))) (nth_error st h)
  | EClear h => option_map (fun l => put st h (Log [] (l_mode l) (l_limit l) (l_cap l))) (nth_error st h)
  | ESetMode h m => option_map (fun l => put st h (Log (l_reported l) m (l_limit l) (l_cap l))) (nth_error st h)
  | ESetMax h n => option_map (fun l => put st h (Log (l_reported l) (l_mode l) n (max (l_cap l) n))) (nth_error st h)
  | EMerge h k => match nth_error st h, nth_error st k with
                  | Some a, Some b => Some (put st h (merge_log a b)) | _, _ => None end
  | EMergeSorted h ks => if existsb (Nat.eqb h) ks then None
                         else match nth_error st h, lookup st ks with
                              | Some a, Some bs => Some (put st h (fold_left merge_log bs a)) | _, _ => None end
  | ESort h => option_map (fun l => st) (nth_error st h)
  end.
Fixpoint spec_erun (st : list log) (ops : list eop) : option (list log) :=
  match ops with
  | [] => Some st
  | o :: r => match spec_estep st o with None => None | Some st' => spec_erun st' r end
  end.

(** The documented contract of std::sort with the comparator of sort_by_offset. *)
Definition offset_order (a b : error) : Prop := e_offset a <= e_offset b.
Definition sorts (sort : list error -> list error) : Prop :=
  forall l, Permutation (sort l) l /\ Sorted offset_order (sort l).

(** Documented stopping rule (error.h:285-287 and 178-183): DISABLED and BEST_EFFORT never
    stop; FAIL_FAST stops at the first error; PERMISSIVE at the first fatal one. *)
Definition documented_stop (m : mode) (reported : list error) : bool :=
  match m with
  | DISABLED | BEST_EFFORT => false
  | FAIL_FAST => negb (length reported =? 0)
  | PERMISSIVE => existsb is_fatal reported
  end.

(** Header validation: position [i] repeats a non-empty name that occurs before it. *)
Definition repeats (names : list bytes) (i : nat) : Prop :=
  exists j n, j < i /\ nth_error names j = Some n /\ nth_error names i = Some n /\ n <> [].
Definition header_is_empty (names : list bytes) : Prop := names = [] \/ names = [[]].
