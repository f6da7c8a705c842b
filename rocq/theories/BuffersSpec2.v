(** What decides the fate of NullBitmap::set: the flags, and how many there were
    at the last finalize() since the last clear(). *)
From Verif Require Import Base BuffersSpec.

(** A handle holds its flags and their number at the last finalize. *)
Definition flags_and_finalized : impl (list bool * nat) bool :=
  Impl ([], 0)
    (fun s e => Some (fst s ++ [e], snd s))
    (fun a b => Some (fst a ++ fst b, snd a))
    (fun _ => Some ([], 0))
    (fun s => Some (fst s, length (fst s))).

(** The byte of flag i exists: there is a null, or i lies in the whole bytes
    holding the flags there were at the last finalize. *)
Definition stored (flags : list bool) (finalized i : nat) : Prop :=
  some_null flags = true \/ i / 8 < bytes_for finalized.
