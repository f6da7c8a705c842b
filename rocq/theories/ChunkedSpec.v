(** What a user expects of a chunked column builder: a list of cells. *)
From Verif Require Import Base.

(** Histories over any number of builders, named 0, 1, 2, ... in creation order. *)
Inductive cop (T : Type) : Type :=
| CNew                                      (* a fresh, empty builder *)
| CAppend (h : nat) (cell : option T)       (* append a value ([Some]) or a null ([None]) *)
| CFill (h : nat) (cells : list (option T)) (* write cells through the builder's vectors, obtained for this purpose *)
| CMerge (h k : nat)                        (* move everything of builder k to the end of builder h *)
| CFinalize (h : nat)                       (* finalize, or ask for the number of chunks *)
| CRead (h : nat).                          (* ask for the values and the null bitmap *)
Arguments CNew {T}. Arguments CAppend {T}. Arguments CFill {T}. Arguments CMerge {T}.
Arguments CFinalize {T}. Arguments CRead {T}.

Fixpoint replace_at {A} (l : list A) (i : nat) (a : A) : list A :=
  match l, i with
  | [], _ => []
  | _ :: r, O => a :: r
  | x :: r, S j => x :: replace_at r j a
  end.

Definition spec_cstep {T} (st : list (list (option T))) (o : cop T) : option (list (list (option T))) :=
  match o with
  | CNew => Some (st ++ [[]])
  | CAppend h c => match nth_error st h with Some l => Some (replace_at st h (l ++ [c])) | None => None end
  | CFill h cs => match nth_error st h with Some l => Some (replace_at st h (l ++ cs)) | None => None end
  | CMerge h k =>
      if h =? k then None
      else match nth_error st h, nth_error st k with
           | Some a, Some b => Some (replace_at (replace_at st h (a ++ b)) k [])
           | _, _ => None
           end
  | CFinalize h => match nth_error st h with Some _ => Some st | None => None end
  | CRead h => match nth_error st h with Some _ => Some st | None => None end
  end.
Fixpoint spec_crun {T} (st : list (list (option T))) (ops : list (cop T)) : option (list (list (option T))) :=
  match ops with
  | [] => Some st
  | o :: r => match spec_cstep st o with None => None | Some st' => spec_crun st' r end
  end.

(** A pair of parallel vectors (values, is-null flags) shows a list of cells. *)
Definition shows_cells {T} (vn : list T * list bool) (l : list (option T)) : Prop :=
  length (fst vn) = length l /\
  snd vn = map (fun c => match c with Some _ => false | None => true end) l /\
  forall i v, nth_error l i = Some (Some v) -> nth_error (fst vn) i = Some v.
