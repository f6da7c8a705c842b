(** What the text of an integer denotes when no plus sign is allowed, and texts
    with two signs.  Independent of the parsers. *)
From Verif Require Import Base NumSpec.

(** Optional minus sign and digits. *)
Definition minus_text (l : bytes) : option Z :=
  match l with
  | [] => None
  | c :: r => if N.eqb c 45 then option_map Z.opp (natural_text r) else natural_text l
  end.

(** A plus or minus sign, a minus sign and exactly [n] digits. *)
Definition two_signs (n : nat) (l : bytes) : Prop :=
  exists s ds, (s = 45%N \/ s = 43%N) /\ l = s :: 45%N :: ds /\ length ds = n /\ forallb is_digit ds = true.

(** Integer widths and the longest text the readers look at: 32 and 11, 64 and 20. *)
Definition widths (bits : N) (max_len : nat) : Prop := (bits = 32%N /\ max_len = 11) \/ (bits = 64%N /\ max_len = 20).
