(** Chunked column storage.
    Models include/libvroom/data_chunk.h:12-171 and
    src/columns/column_builder.cpp:19-151 (ChunkedColumnBuilder) with the appends of the
    seven derived classes (157-615), whose parsing is left out: an append stores a value and
    false, or the default value and true. *)
From Verif Require Import Base ChunkedSpec.

Section Chunked.
Context {T : Type}.
Variable dflt : T.

(** data_chunk.h:12-31: one immutable chunk. *)
Definition chunk : Type := (list T * list bool)%type.

(** data_chunk.h:166-170 and column_builder.cpp:21-27. *)
Record builder : Type := Builder {
  active : chunk;
  chunks : list chunk;
  finalized : bool;
  cached : chunk;
  cache_valid : bool }.

Definition new_builder : builder := Builder ([], []) [] false ([], []) false.

(** data_chunk.h:44-50. *)
Definition storage_size (b : builder) : nat :=
  fold_left (fun total c => total + length (fst c)) (chunks b) (length (fst (active b))).

(** data_chunk.h:75-84. *)
Definition push_active (a : chunk) (cell : option T) : chunk :=
  match cell with
  | Some v => (fst a ++ [v], snd a ++ [false])
  | None => (fst a ++ [dflt], snd a ++ [true])
  end.

(** data_chunk.h:110-119. *)
Definition finalize_active (b : builder) : builder :=
  match fst (active b) with
  | [] => b
  | _ => Builder ([], []) (chunks b ++ [active b]) (finalized b) (cached b) (cache_valid b)
  end.

(** column_builder.cpp:29-32. *)
Definition invalidate_cache (b : builder) : builder :=
  Builder (active b) (chunks b) false (cached b) false.

(** column_builder.cpp:65-70. *)
Definition finalize (b : builder) : builder :=
  if negb (finalized b)
  then let b1 := finalize_active b in Builder (active b1) (chunks b1) true (cached b1) (cache_valid b1)
  else b.

(** column_builder.cpp:34-58. *)
Definition ensure_cache (b : builder) : builder :=
  if cache_valid b then b
  else let b1 := if negb (finalized b) then finalize b else b in
       Builder (active b1) (chunks b1) (finalized b1)
         (concat (map fst (chunks b1)), concat (map snd (chunks b1))) true.

(** column_builder.cpp:109-117 and 119-127: the vector returned, and the builder afterwards. *)
Definition raw_values (b : builder) : list T * builder :=
  if 0 <? length (chunks b) then let b1 := ensure_cache b in (fst (cached b1), b1)
  else (fst (active b), b).
Definition null_bitmap (b : builder) : list bool * builder :=
  if 0 <? length (chunks b) then let b1 := ensure_cache b in (snd (cached b1), b1)
  else (snd (active b), b).

(** column_builder.cpp:76-81: num_chunks. *)
Definition num_chunks (b : builder) : nat * builder :=
  let b1 := if negb (finalized b) then finalize b else b in (length (chunks b1), b1).

(** 83-102: the content of every chunk, read chunk by chunk. *)
Definition all_chunks (b : builder) : list chunk :=
  let b1 := if negb (finalized b) then finalize b else b in chunks b1.

(** 159-169, 207-228 and alike: storage_.append, then invalidate_cache. *)
Definition append (b : builder) (cell : option T) : builder :=
  invalidate_cache (Builder (push_active (active b) cell) (chunks b) (finalized b) (cached b) (cache_valid b)).

(** 129-139: taking the mutable vectors; then (FastColumnContext) writing through them. *)
Definition open_context (b : builder) : builder := invalidate_cache b.
Definition context_append (b : builder) (cell : option T) : builder :=
  Builder (push_active (active b) cell) (chunks b) (finalized b) (cached b) (cache_valid b).
Definition context_fill (b : builder) (cells : list (option T)) : builder :=
  fold_left context_append cells (open_context b).

(** data_chunk.h:94-107 and column_builder.cpp:145-150; two different builders. *)
Definition nonempty (c : chunk) : bool := match fst c with [] => false | _ => true end.
Definition merge_from (b other : builder) : builder * builder :=
  let b1 := finalize_active b in
  let o1 := finalize_active other in
  (invalidate_cache (Builder (active b1) (chunks b1 ++ filter nonempty (chunks o1)) (finalized b1) (cached b1) (cache_valid b1)),
   Builder (active o1) [] (finalized o1) (cached o1) (cache_valid o1)).

Definition cstep (st : list builder) (o : cop T) : option (list builder) :=
  match o with
  | CNew => Some (st ++ [new_builder])
  | CAppend h c => match nth_error st h with Some b => Some (replace_at st h (append b c)) | None => None end
  | CFill h cs => match nth_error st h with Some b => Some (replace_at st h (context_fill b cs)) | None => None end
  | CMerge h k =>
      if h =? k then None
      else match nth_error st h, nth_error st k with
           | Some a, Some b => let '(a', b') := merge_from a b in Some (replace_at (replace_at st h a') k b')
           | _, _ => None
           end
  | CFinalize h => match nth_error st h with Some b => Some (replace_at st h (snd (num_chunks b))) | None => None end
  | CRead h =>
      match nth_error st h with
      | Some b => let b1 := snd (raw_values b) in Some (replace_at st h (snd (null_bitmap b1)))
      | None => None
      end
  end.
Fixpoint crun (st : list builder) (ops : list (cop T)) : option (list builder) :=
  match ops with
  | [] => Some st
  | o :: r => match cstep st o with None => None | Some st' => crun st' r end
  end.
End Chunked.
