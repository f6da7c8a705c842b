(** What the text of an integer field denotes.  Independent of the parsers. *)
From Verif Require Import Base.

Definition is_digit (c : byte) : bool := (48 <=? c)%N && (c <=? 57)%N.

(** Positional value of a digit string. *)
Fixpoint decimal (l : bytes) : Z :=
  match l with
  | [] => 0
  | c :: r => ((Z.of_N c - 48) * 10 ^ Z.of_nat (length r) + decimal r)%Z
  end.

(** Value of a nonempty digit string. *)
Definition natural_text (l : bytes) : option Z :=
  match l with
  | [] => None
  | _ => if forallb is_digit l then Some (decimal l) else None
  end.

(** Value of an optional sign followed by a nonempty digit string. *)
Definition integer_text (l : bytes) : option Z :=
  match l with
  | [] => None
  | c :: r =>
      if N.eqb c 45 then option_map Z.opp (natural_text r)       (* '-' *)
      else if N.eqb c 43 then natural_text r                     (* '+' *)
      else natural_text l
  end.

(** A buffer of bytes. *)
Definition is_bytes (l : bytes) : Prop := Forall (fun c => (c < 256)%N) l.

Definition int_min (bits : Z) : Z := (- 2 ^ (bits - 1))%Z.
Definition in_signed (bits v : Z) : Prop := (int_min bits <= v < 2 ^ (bits - 1))%Z.
