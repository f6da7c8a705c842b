(** How a sequence falls into pieces when literals are collected up to 64 at a
    time, eight equal values in a row begin a run, and a run is at most 64 long;
    and what a reader sees when every group of literals is filled up with zeros to
    a multiple of eight.  Independent of the encoder. *)
From Verif Require Import Base.

(** Number of leading values equal to [v]. *)
Fixpoint lead (v : N) (l : list N) : nat :=
  match l with
  | x :: r => if (x =? v)%N then S (lead v r) else 0
  | [] => 0
  end.
Definition starts_eight (l : list N) : bool :=
  match l with [] => false | v :: _ => 8 <=? lead v l end.

(** Values before the first eight equal ones, of at most [room] (the eight must fit
    in the room too). *)
Fixpoint literals (room : nat) (l : list N) : nat :=
  match l, room with
  | [], _ | _, O => 0
  | _ :: r, S m => if starts_eight l && (8 <=? room) then 0 else S (literals m r)
  end.

Inductive piece := Run (v : N) (c : nat) | Lit (l : list N).
Fixpoint pieces_from (fuel : nat) (l : list N) : list piece :=
  match fuel, l with
  | O, _ | _, [] => []
  | S f, v :: _ =>
      if starts_eight l then let c := Nat.min 64 (lead v l) in Run v c :: pieces_from f (skipn c l)
      else let i := literals 64 l in Lit (firstn i l) :: pieces_from f (skipn i l)
  end.
Definition pieces (l : list N) : list piece := pieces_from (length l) l.

Definition content (p : piece) : list N := match p with Run v c => repeat v c | Lit l => l end.
(** With zeros up to a multiple of eight. *)
Definition shown (p : piece) : list N :=
  match p with Run v c => repeat v c | Lit l => l ++ repeat 0%N ((8 - length l mod 8) mod 8) end.

(** Every group of literals that is followed by something is a multiple of eight long. *)
Definition aligned (ps : list piece) : Prop := forall a l b, ps = a ++ Lit l :: b -> b <> [] -> length l mod 8 = 0.
(** ... or is followed by zeros only. *)
Definition harmless (ps : list piece) : Prop :=
  forall a l b, ps = a ++ Lit l :: b -> b <> [] -> length l mod 8 <> 0 -> Forall (fun v => v = 0%N) (concat (map content b)).
