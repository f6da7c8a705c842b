(** Column buffers.
    Models include/libvroom/arrow_buffer.h (NullBitmap 30-213, StringBuffer 218-295,
    NumericBuffer 298-338) and include/libvroom/arrow_column_builder.h (the seven
    Arrow*ColumnBuilder classes: size, null_count, merge_from, clear, export_to_arrow).
    A std::vector is a list; capacities and reserve() have no effect on contents and are
    left out.  [None] = undefined behaviour (out-of-range element access).
    size_t and int64_t counters are unbounded. *)
From Verif Require Import Base BuffersSpec.

(** vector::resize(n, v). *)
Definition resize {A} (l : list A) (n : nat) (v : A) : list A := firstn n l ++ repeat v (n - length l).

(** ** NullBitmap, arrow_buffer.h:208-212 (reserved_capacity_ is never read). *)
Record bitmap : Type := Bitmap { bm_data : bytes; bm_size : nat; bm_null_count : nat; bm_has_nulls : bool }.

(** 32. *)
Definition bm_new : bitmap := Bitmap [] 0 0 false.

(** [1 << bit_idx], and [data_[i] |= 1 << b], [data_[i] &= ~(1 << b)]. *)
Definition bit_mask (bit : nat) : N := N.shiftl 1 (N.of_nat bit).
Definition or_at (d : bytes) (i bit : nat) : option bytes :=
  match nth_error d i with Some b => Some (update d i (N.lor b (bit_mask bit))) | None => None end.
Definition clear_at (d : bytes) (i bit : nat) : option bytes :=
  match nth_error d i with Some b => Some (update d i (N.ldiff b (bit_mask bit))) | None => None end.

(** 93-101. *)
Definition push_back_valid_slow (m : bitmap) : option bitmap :=
  let byte_idx := bm_size m / 8 in
  let bit_idx := bm_size m mod 8 in
  let data := if length (bm_data m) <=? byte_idx then bm_data m ++ [0%N] else bm_data m in
  match or_at data byte_idx bit_idx with
  | None => None
  | Some d => Some (Bitmap d (S (bm_size m)) (bm_null_count m) (bm_has_nulls m))
  end.

(** 60-68. *)
Definition push_back_valid (m : bitmap) : option bitmap :=
  if negb (bm_has_nulls m) then Some (Bitmap (bm_data m) (S (bm_size m)) (bm_null_count m) (bm_has_nulls m))
  else push_back_valid_slow m.

(** 203-206. *)
Definition init_bitmap_with_all_valid (m : bitmap) : bitmap :=
  Bitmap (resize (bm_data m) ((bm_size m + 7) / 8) 255%N) (bm_size m) (bm_null_count m) (bm_has_nulls m).

(** 71-88. *)
Definition push_back_null (m : bitmap) : option bitmap :=
  let m1 := if negb (bm_has_nulls m)
            then let m0 := init_bitmap_with_all_valid m in
                 Bitmap (bm_data m0) (bm_size m0) (bm_null_count m0) true
            else m in
  let byte_idx := bm_size m1 / 8 in
  let bit_idx := bm_size m1 mod 8 in
  let data := if length (bm_data m1) <=? byte_idx then Some (bm_data m1 ++ [0%N])
              else clear_at (bm_data m1) byte_idx bit_idx in
  match data with
  | None => None
  | Some d => Some (Bitmap d (S (bm_size m1)) (S (bm_null_count m1)) (bm_has_nulls m1))
  end.

(** 47-53 (and push_back_unchecked, 105). *)
Definition bm_push (m : bitmap) (valid : bool) : option bitmap :=
  if valid then push_back_valid m else push_back_null m.

(** 38-42. *)
Definition bm_resize (m : bitmap) (n : nat) : bitmap :=
  Bitmap (resize (bm_data m) ((n + 7) / 8) 255%N) n (bm_null_count m) false.

(** 108-117. *)
Definition bm_set (m : bitmap) (idx : nat) (valid : bool) : option bitmap :=
  match (if valid then or_at else clear_at) (bm_data m) (idx / 8) (idx mod 8) with
  | None => None
  | Some d => Some (Bitmap d (bm_size m) (bm_null_count m) (bm_has_nulls m))
  end.

(** 120-126. *)
Definition is_valid (m : bitmap) (idx : nat) : option bool :=
  if negb (bm_has_nulls m) then Some true
  else match nth_error (bm_data m) (idx / 8) with
       | None => None
       | Some b => Some (negb (N.eqb (N.land b (bit_mask (idx mod 8))) 0))
       end.

(** 132-139: the loop over i, from i with n steps left. *)
Fixpoint count_loop (m : bitmap) (n i count : nat) : option nat :=
  match n with
  | O => Some count
  | S n' => match is_valid m i with
            | None => None
            | Some v => count_loop m n' (S i) (if v then count else S count)
            end
  end.
Definition null_count (m : bitmap) : option nat := count_loop m (bm_size m) 0 0.

(** 142-146. *)
Definition null_count_fast (m : bitmap) : nat := if negb (bm_has_nulls m) then 0 else bm_null_count m.

(** 155-161. *)
Definition bm_clear (m : bitmap) : option bitmap := Some (Bitmap [] 0 0 false).

(** 181-183 and 187-189: the loops of append_from; i runs, n steps left. *)
Fixpoint push_true_loop (m : bitmap) (n : nat) : option bitmap :=
  match n with
  | O => Some m
  | S n' => match bm_push m true with None => None | Some m' => push_true_loop m' n' end
  end.
Fixpoint push_other_loop (m other : bitmap) (n i : nat) : option bitmap :=
  match n with
  | O => Some m
  | S n' => match is_valid other i with
            | None => None
            | Some v => match bm_push m v with None => None | Some m' => push_other_loop m' other n' (S i) end
            end
  end.

(** 170-191; [other] is a different object. *)
Definition bm_append_from (m other : bitmap) : option bitmap :=
  if bm_size other =? 0 then Some m
  else if negb (bm_has_nulls other) then
    if negb (bm_has_nulls m) then Some (Bitmap (bm_data m) (bm_size m + bm_size other) (bm_null_count m) (bm_has_nulls m))
    else push_true_loop m (bm_size other)
  else push_other_loop m other (bm_size other) 0.

(** 194-199. *)
Definition bm_finalize (m : bitmap) : option bitmap :=
  Some (if negb (bm_has_nulls m) && (0 <? bm_size m)
        then Bitmap (resize (bm_data m) ((bm_size m + 7) / 8) 255%N) (bm_size m) (bm_null_count m) (bm_has_nulls m)
        else m).

Definition bitmap_impl : impl bitmap bool := Impl bm_new bm_push bm_append_from bm_clear bm_finalize.

(** ** StringBuffer, arrow_buffer.h:293-294. *)
Record strbuf : Type := StrBuf { sb_data : bytes; sb_offsets : list N }.

(** static_cast<uint32_t>. *)
Definition u32 (n : N) : N := (n mod two32)%N.

(** 220-222. *)
Definition sb_new : strbuf := StrBuf [] [0%N].

(** 233-236. *)
Definition sb_push_back (b : strbuf) (s : bytes) : strbuf :=
  let data := sb_data b ++ s in
  StrBuf data (sb_offsets b ++ [u32 (N.of_nat (length data))]).

(** 249. *)
Definition sb_push_back_empty (b : strbuf) : strbuf :=
  StrBuf (sb_data b) (sb_offsets b ++ [u32 (N.of_nat (length (sb_data b)))]).

(** 239-246, when the reserved capacity suffices: the bytes copied behind size() are not
    elements; resize() then value-initialises the new elements, whatever was copied there. *)
Definition sb_push_back_unchecked (b : strbuf) (s : bytes) : strbuf :=
  let new_size := length (sb_data b) + length s in
  StrBuf (resize (sb_data b) new_size 0%N) (sb_offsets b ++ [u32 (N.of_nat new_size)]).

(** 252-256: the view's bytes; reading outside data_ is undefined. *)
Definition sb_get (b : strbuf) (idx : nat) : option bytes :=
  match nth_error (sb_offsets b) idx, nth_error (sb_offsets b) (idx + 1) with
  | Some start, Some fin =>
      let len := u32 (fin + two32 - start)%N in
      if (start + len <=? N.of_nat (length (sb_data b)))%N
      then Some (firstn (N.to_nat len) (skipn (N.to_nat start) (sb_data b)))
      else None
  | _, _ => None
  end.

(** 259 (the difference of two uint32_t is a uint32_t). *)
Definition sb_length (b : strbuf) (idx : nat) : option N :=
  match nth_error (sb_offsets b) (idx + 1), nth_error (sb_offsets b) idx with
  | Some fin, Some start => Some (u32 (fin + two32 - start)%N)
  | _, _ => None
  end.

(** 261. *)
Definition sb_size (b : strbuf) : nat := length (sb_offsets b) - 1.

(** 270-274. *)
Definition sb_clear (b : strbuf) : option strbuf := Some (StrBuf [] [0%N]).

(** 277-290; [other] is a different object. *)
Definition sb_append_from (b other : strbuf) : option strbuf :=
  let base_offset := u32 (N.of_nat (length (sb_data b))) in
  Some (StrBuf (sb_data b ++ sb_data other)
               (sb_offsets b ++ map (fun o => u32 (o + base_offset)%N) (skipn 1 (sb_offsets other)))).

Definition strbuf_impl : impl strbuf (option bytes) :=
  Impl sb_new
    (fun b e => Some (match e with Some s => sb_push_back b s | None => sb_push_back_empty b end))
    sb_append_from sb_clear (fun b => Some b).

(** ** Fixed-width column builders, arrow_column_builder.h: Int32 68-139, Int64 142-212,
    Float64 215-285, Bool 288-359, Date 362-432, Timestamp 435-505.
    The six classes are textually the same up to the element type; [dflt] is what
    append_null_* stores (fast_arrow_context.h: 0, or NaN for Float64, 107-110, 164-167,
    181-184, 203-206, 224-227, 245-248). *)
Record column (B : Type) : Type := Column { c_values : B; c_nulls : bitmap }.
Arguments Column {B}. Arguments c_values {B}. Arguments c_nulls {B}.

Section Fixed.
Context {V : Type}.
Variable dflt : V.

(** fast_arrow_context.h: values push_back followed by push_back_valid / push_back_null. *)
Definition fx_push (c : column (list V)) (cell : option V) : option (column (list V)) :=
  match cell with
  | Some v => match push_back_valid (c_nulls c) with
              | Some n => Some (Column (c_values c ++ [v]) n) | None => None end
  | None => match push_back_null (c_nulls c) with
            | Some n => Some (Column (c_values c ++ [dflt]) n) | None => None end
  end.

(** 95-99. *)
Definition fx_merge_from (c other : column (list V)) : option (column (list V)) :=
  match bm_append_from (c_nulls c) (c_nulls other) with
  | Some n => Some (Column (c_values c ++ c_values other) n)
  | None => None
  end.

(** 78-81. *)
Definition fx_clear (c : column (list V)) : option (column (list V)) :=
  match bm_clear (c_nulls c) with Some n => Some (Column [] n) | None => None end.

(** 71, 84. *)
Definition fx_size (c : column (list V)) : nat := length (c_values c).
Definition col_null_count {B} (c : column B) : nat := null_count_fast (c_nulls c).

(** 104-119: buffers[0], buffers[1], length, null_count. *)
Definition fx_export (c : column (list V)) : arrow_array (list V) :=
  ArrowArray (fx_size c) (null_count_fast (c_nulls c))
    (if bm_has_nulls (c_nulls c) then Some (bm_data (c_nulls c)) else None)
    (c_values c).

Definition fixed_impl : impl (column (list V)) (option V) :=
  Impl (Column [] bm_new) fx_push fx_merge_from fx_clear (fun c => Some c).
End Fixed.

(** ** ArrowStringColumnBuilder, arrow_column_builder.h:508-581;
    appends: fast_arrow_context.h:46-53. *)
Definition st_push (c : column strbuf) (cell : option bytes) : option (column strbuf) :=
  match cell with
  | Some s => match push_back_valid (c_nulls c) with
              | Some n => Some (Column (sb_push_back (c_values c) s) n) | None => None end
  | None => match push_back_null (c_nulls c) with
            | Some n => Some (Column (sb_push_back_empty (c_values c)) n) | None => None end
  end.

(** 536-540. *)
Definition st_merge_from (c other : column strbuf) : option (column strbuf) :=
  match sb_append_from (c_values c) (c_values other), bm_append_from (c_nulls c) (c_nulls other) with
  | Some v, Some n => Some (Column v n)
  | _, _ => None
  end.

(** 519-522. *)
Definition st_clear (c : column strbuf) : option (column strbuf) :=
  match sb_clear (c_values c), bm_clear (c_nulls c) with
  | Some v, Some n => Some (Column v n) | _, _ => None end.

(** 544-561. *)
Definition st_export (c : column strbuf) : arrow_array (list N * bytes) :=
  ArrowArray (sb_size (c_values c)) (null_count_fast (c_nulls c))
    (if bm_has_nulls (c_nulls c) then Some (bm_data (c_nulls c)) else None)
    (sb_offsets (c_values c), sb_data (c_values c)).

Definition string_impl : impl (column strbuf) (option bytes) :=
  Impl (Column sb_new bm_new) st_push st_merge_from st_clear (fun c => Some c).

(** Building one column from a list of cells, and merging the pieces of a grouping: what
    the readers do with per-chunk columns (csv_reader.cpp:686-700, 1022-1052), for every
    grouping of the merges. *)
Fixpoint push_all {S E} (I : impl S E) (s : S) (l : list E) : option S :=
  match l with
  | [] => Some s
  | e :: r => match i_push I s e with None => None | Some s' => push_all I s' r end
  end.
Fixpoint build {S E} (I : impl S E) (t : grouping E) : option S :=
  match t with
  | Piece l => push_all I (i_new I) l
  | Join a b => match build I a, build I b with
                | Some x, Some y => i_append I x y
                | _, _ => None
                end
  end.
