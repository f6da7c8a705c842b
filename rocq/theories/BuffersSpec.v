(** What a user expects of the column buffers: each handle is a list.
    Nothing here mentions bytes-within-bitmaps, lazy allocation or chunks. *)
From Verif Require Import Base.

(** Histories over any number of buffers, named 0, 1, 2, ... in creation order. *)
Inductive op (E : Type) : Type :=
| New                          (* a fresh, empty buffer *)
| Push (h : nat) (e : E)       (* append one element *)
| AppendFrom (h k : nat)       (* append the whole content of buffer k to buffer h *)
| Clear (h : nat)
| Finalize (h : nat).
Arguments New {E}. Arguments Push {E}. Arguments AppendFrom {E}. Arguments Clear {E}. Arguments Finalize {E}.

(** An implementation of these operations; [None] = undefined behaviour. *)
Record impl (S E : Type) : Type := Impl {
  i_new : S;
  i_push : S -> E -> option S;
  i_append : S -> S -> option S;
  i_clear : S -> option S;
  i_finalize : S -> option S }.
Arguments Impl {S E}. Arguments i_new {S E}. Arguments i_push {S E}. Arguments i_append {S E}.
Arguments i_clear {S E}. Arguments i_finalize {S E}.

Fixpoint update {A} (l : list A) (i : nat) (a : A) : list A :=
  match l, i with
  | [], _ => []
  | _ :: r, O => a :: r
  | x :: r, S j => x :: update r j a
  end.

Definition with_handle {S} (st : list S) (h : nat) (f : S -> option S) : option (list S) :=
  match nth_error st h with
  | None => None
  | Some s => match f s with None => None | Some s' => Some (update st h s') end
  end.

(** One step.  Appending a buffer to itself is not part of the contract ([None]). *)
Definition step {S E} (I : impl S E) (st : list S) (o : op E) : option (list S) :=
  match o with
  | New => Some (st ++ [i_new I])
  | Push h e => with_handle st h (fun s => i_push I s e)
  | AppendFrom h k =>
      if h =? k then None
      else match nth_error st k with
           | None => None
           | Some other => with_handle st h (fun s => i_append I s other)
           end
  | Clear h => with_handle st h (i_clear I)
  | Finalize h => with_handle st h (i_finalize I)
  end.

Fixpoint run {S E} (I : impl S E) (st : list S) (ops : list (op E)) : option (list S) :=
  match ops with
  | [] => Some st
  | o :: rest => match step I st o with None => None | Some st' => run I st' rest end
  end.

(** The specification: every handle holds a list. *)
Definition as_lists (E : Type) : impl (list E) E :=
  Impl [] (fun l e => Some (l ++ [e])) (fun a b => Some (a ++ b)) (fun _ => Some []) (fun l => Some l).

(** The same, restricted to contents whose size stays below [limit]. *)
Definition guard {A} (b : bool) (a : A) : option A := if b then Some a else None.
Definition as_small_lists {E} (weight : list E -> N) (limit : N) : impl (list E) E :=
  Impl []
    (fun l e => guard (weight (l ++ [e]) <? limit)%N (l ++ [e]))
    (fun a b => guard (weight (a ++ b) <? limit)%N (a ++ b))
    (fun _ => Some []) (fun l => Some l).

(** Validity flags: [true] = valid, [false] = null. *)
Definition nulls_in (l : list bool) : nat := length (filter negb l).
Definition some_null (l : list bool) : bool := existsb negb l.

(** Strings; [None] = the empty string pushed in the place of a null. *)
Definition text (e : option bytes) : bytes := match e with Some s => s | None => [] end.
Definition texts_size (l : list (option bytes)) : N := N.of_nat (length (concat (map text l))).
Definition two32 : N := 2 ^ 32.
Definition two31 : N := 2 ^ 31.

(** Columns: [Some v] = a value, [None] = null. *)
Definition valid_flags {V} (l : list (option V)) : list bool :=
  map (fun c => match c with Some _ => true | None => false end) l.

(** The bits of a validity bitmap, least significant bit first (Arrow columnar format). *)
Definition bit_of (data : bytes) (i : nat) : option bool :=
  match nth_error data (i / 8) with
  | Some b => Some (N.testbit b (N.of_nat (i mod 8)))
  | None => None
  end.
Definition bytes_for (n : nat) : nat := (n + 7) / 8.
Definition bits_are (data : bytes) (l : list bool) : Prop :=
  length data = bytes_for (length l) /\
  Forall (fun b => (b < 256)%N) data /\
  forall i v, nth_error l i = Some v -> bit_of data i = Some v.

(** An array in the Arrow C data interface, and what a consumer reads from it:
    https://arrow.apache.org/docs/format/Columnar.html (validity bitmap, fixed-size
    primitive layout; variable-size binary layout with signed 32-bit offsets). *)
Record arrow_array (V : Type) : Type := ArrowArray {
  aa_length : nat; aa_null_count : nat;
  aa_validity : option bytes; aa_values : V }.
Arguments ArrowArray {V}. Arguments aa_length {V}. Arguments aa_null_count {V}.
Arguments aa_validity {V}. Arguments aa_values {V}.

Definition arrow_valid {V} (a : arrow_array V) (i : nat) : option bool :=
  match aa_validity a with None => Some true | Some d => bit_of d i end.

Definition arrow_read_fixed {V} (a : arrow_array (list V)) (i : nat) : option (option V) :=
  if aa_length a <=? i then None
  else match arrow_valid a i with
       | None => None
       | Some false => Some None
       | Some true => match nth_error (aa_values a) i with Some v => Some (Some v) | None => None end
       end.

Definition signed32 (n : N) : Z := if (n <? two31)%N then Z.of_N n else (Z.of_N n - Z.of_N two32)%Z.

Definition arrow_read_utf8 (a : arrow_array (list N * bytes)) (i : nat) : option (option bytes) :=
  if aa_length a <=? i then None
  else match arrow_valid a i with
       | None => None
       | Some false => Some None
       | Some true =>
           match nth_error (fst (aa_values a)) i, nth_error (fst (aa_values a)) (S i) with
           | Some s, Some e =>
               let s := signed32 s in let e := signed32 e in
               if (0 <=? s)%Z && (s <=? e)%Z && (e <=? Z.of_nat (length (snd (aa_values a))))%Z
               then Some (Some (slice (Z.to_nat s) (Z.to_nat e) (snd (aa_values a))))
               else None
           | _, _ => None
           end
       end.

(** Merging pieces in any grouping. *)
Inductive grouping (E : Type) : Type :=
| Piece (l : list E)
| Join (a b : grouping E).
Arguments Piece {E}. Arguments Join {E}.
Fixpoint flatten {E} (t : grouping E) : list E :=
  match t with Piece l => l | Join a b => flatten a ++ flatten b end.
