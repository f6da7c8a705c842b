(** What a user sees of the progress bar: a terminal and the picture it should show. *)
From Verif Require Import Base.

(** A terminal: the lines above the current one, the current line, the cursor's column. *)
Record terminal : Type := Terminal { above : list bytes; line : bytes; cursor : nat }.
Definition fresh : terminal := Terminal [] [] 0.

(** One byte: return moves to column 0, newline starts a new line, anything else is written at
    the cursor over what is there. *)
Definition shows (t : terminal) (b : N) : terminal :=
  if (b =? 13)%N then Terminal (above t) (line t) 0
  else if (b =? 10)%N then Terminal (above t ++ [line t]) [] 0
  else Terminal (above t) (firstn (cursor t) (line t) ++ b :: skipn (S (cursor t)) (line t)) (S (cursor t)).
Definition display (out : bytes) : terminal := fold_left shows out fresh.

(** One hundredths done, rounded down. *)
Definition hundredths (done total : N) : N := (100 * done / total)%N.

(** [p] is the picture of [h] hundredths, [width] wide: cell i is filled when the part done
    covers it, the next one is the arrow head, the others are blank. *)
Definition picture_of (h : N) (width : nat) (p : bytes) : Prop :=
  length p = width /\
  forall i, i < width ->
    nth_error p i = Some (if (100 * N.of_nat (S i) <=? h * N.of_nat width)%N then 61      (* = *)
                          else if (100 * N.of_nat i <=? h * N.of_nat width)%N then 62     (* > *)
                          else 32)%N.

(** A number below 1000 written to the right of three columns. *)
Definition three_columns (h : N) : bytes :=
  let digit d := (48 + d)%N in
  if (h <? 10)%N then [32; 32; digit h]%N
  else if (h <? 100)%N then [32; digit (h / 10); digit (h mod 10)]%N
  else [digit (h / 100); digit (h / 10 mod 10); digit (h mod 10)]%N.

(** A sensible report: something to do, no more done than there is, and 100 times it fits. *)
Definition sensible (r : N * N) : Prop := (0 < snd r /\ fst r <= snd r /\ 100 * snd r < 2 ^ 64)%N.

(** How often a percentage differs from the one before it ([p] before the first). *)
Fixpoint changes (p : option N) (l : list N) : nat :=
  match l with
  | [] => 0
  | h :: r => (if match p with Some q => (q =? h)%N | None => false end then 0 else 1) + changes (Some h) r
  end.
