(** What a user expects of input buffers, without reference to the code. *)
From Verif Require Import Base.

(** A byte of memory; None: never written. *)
Definition cell := option byte.

(** What an object holds: nothing, or [n] bytes of data with padding behind. *)
Inductive holding := Nothing | Holds (data padding : list cell).

(** What happens to a file: it cannot be opened; its size cannot be told; or
    its size is [n] and reading delivers [got], all of the file or less. *)
Inductive file_answer := NoOpen | NoSize | Sized (n : N) (got : bytes).

(** What standard input delivers before it ends, and whether it ends by an
    error. *)
Record stream := Stream { delivered : bytes; broken : bool }.

(** Operations on buffer objects, which are numbered in the order they come
    into being; [memory] says whether the system has memory. *)
Inductive bop :=
| Make
| Allocate (size padding : N) (memory : bool)
| LoadFile (a : file_answer) (padding : N) (memory : bool)
| LoadStdin (s : stream) (padding : N) (memory : bool)
| MoveNew (from : nat)
| MoveTo (into from : nat)
| Drop (h : nat).

Fixpoint replace {A} (l : list A) (i : nat) (a : A) : list A :=
  match l, i with
  | [], _ => []
  | _ :: r, O => a :: r
  | x :: r, S j => x :: replace r j a
  end.

Definition zeros (n : N) : list cell := repeat (Some 0%N) (N.to_nat n).

(** What the loading operations are documented to return; None: an exception. *)
Definition loaded (o : bop) : option holding :=
  match o with
  | Make => Some Nothing
  | Allocate size padding true => Some (Holds (repeat None (N.to_nat size)) (zeros padding))
  | LoadFile (Sized n got) padding true =>
      if (N.of_nat (length got) =? n)%N then Some (Holds (map Some got) (zeros padding)) else None
  | LoadStdin s padding true => if broken s then None else Some (Holds (map Some (delivered s)) (zeros padding))
  | _ => None
  end.

(** The objects after an operation (None: destroyed); None as a result if the
    operation uses an object that does not exist. *)
Definition spec_step (st : list (option holding)) (o : bop) : option (list (option holding)) :=
  match o with
  | MoveNew k => match nth_error st k with
                 | Some (Some v) => Some (replace st k (Some Nothing) ++ [Some v])
                 | _ => None
                 end
  | MoveTo h k => match nth_error st h, nth_error st k with
                  | Some (Some _), Some (Some v) =>
                      if h =? k then Some st else Some (replace (replace st k (Some Nothing)) h (Some v))
                  | _, _ => None
                  end
  | Drop h => match nth_error st h with
              | Some (Some _) => Some (replace st h None)
              | _ => None
              end
  | _ => match loaded o with
         | Some v => Some (st ++ [Some v])
         | None => Some st
         end
  end.
Fixpoint spec_run (st : list (option holding)) (ops : list bop) : option (list (option holding)) :=
  match ops with
  | [] => Some st
  | o :: r => match spec_step st o with Some st' => spec_run st' r | None => None end
  end.

(** Sizes are machine words, a file is not longer than its size, and data and
    padding together do not exceed the address space. *)
Definition sane (o : bop) : Prop :=
  match o with
  | Allocate size padding _ => (size + padding < 2 ^ 64)%N
  | LoadFile (Sized n got) padding _ => (n + padding < 2 ^ 64)%N /\ (N.of_nat (length got) <= n)%N
  | LoadStdin s padding _ => (N.of_nat (length (delivered s)) + padding < 2 ^ 64)%N
  | _ => True
  end.
Definition unbroken (o : bop) : Prop :=
  match o with LoadStdin s _ _ => broken s = false | _ => True end.
