(** The score of a dialect, as the documentation of the detector describes it:
    in real numbers, with every operation rounded to the nearest double.
    Nothing here comes from the model. *)
From Coq Require Import Reals SpecFloat.
From Verif Require Import Base FloatSpec.
Local Open Scope R_scope.

(** The double nearest to n/d. *)
Definition literal (n d : Z) : R := rnd (IZR n / IZR d).
(** [a] out of [b]. *)
Definition part (a b : nat) : R := rnd (INR a / INR b).

Definition Adjacent (a b : byte) (l : bytes) : Prop :=
  exists i, nth_error l i = Some a /\ nth_error l (S i) = Some b.

(** The type score of [typed] cells out of [cells]: never 0. *)
Definition type_part (typed cells : nat) : R := Rmax (literal 1 10000000000) (part typed cells).

(** Pattern score p and type score t are multiplied; when nearly all rows have
    the same number of columns, and more than one, the type score counts
    less. *)
Definition BaseScore (p t : R) (columns : nat) (b : R) : Prop :=
  (literal 9 10 < p /\ (1 < columns)%nat /\
   b = rnd (p * Rmax (literal 6 10) (rnd (sqrt (Rmax (literal 1 10) t))))) \/
  (literal 8 10 < p <= literal 9 10 /\ (1 < columns)%nat /\
   b = rnd (p * rnd (sqrt (Rmax (literal 1 10) t)))) \/
  ((p <= literal 8 10 \/ (columns <= 1)%nat) /\ b = rnd (p * t)).

(** A dialect that escapes quotes gains when the sample has an escaped quote
    and no doubled one, a dialect that doubles quotes when the sample has a
    doubled one. *)
Definition EscapesSeen (quote escape : byte) (doubled : bool) (l : bytes) : Prop :=
  quote <> 0%N /\ doubled = false /\ escape <> 0%N /\ escape <> quote /\
  Adjacent escape quote l /\ ~ Adjacent quote quote l.
Definition DoublesSeen (quote escape : byte) (doubled : bool) (l : bytes) : Prop :=
  quote <> 0%N /\ doubled = true /\ Adjacent quote quote l.
Definition Boosted (quote escape : byte) (doubled : bool) (l : bytes) (b s : R) : Prop :=
  (EscapesSeen quote escape doubled l /\ s = rnd (b * literal 12 10)) \/
  (DoublesSeen quote escape doubled l /\ s = rnd (b * literal 11 10)) \/
  (~ EscapesSeen quote escape doubled l /\ ~ DoublesSeen quote escape doubled l /\ s = b).

(** ---- headers ---- *)
Definition majority (part whole : nat) : Prop := (whole < 2 * part)%nat.
(** Does the first row look like a header?  More than half of its cells that
    are not empty are text, and the second row has a cell that is neither text
    nor empty, or else all cells of the first row are text. *)
Definition filled (f : bytes) : bool := match f with [] => false | _ => true end.
Definition LooksLikeHeader (text other : bytes -> bool) (first second : list bytes) : Prop :=
  majority (length (filter (fun f => text f && filled f) first)) (length (filter filled first)) /\
  ((exists f, In f second /\ other f = true) \/
   (forall f, In f first -> text f = true /\ filled f = true)).
