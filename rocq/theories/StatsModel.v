(** Column statistics.
    Models include/libvroom/statistics.h, src/simd/statistics_simd.cpp,
    src/writer/statistics.cpp and the statistics() members of
    src/columns/column_builder.cpp.  Counters are unbounded (the code has int64_t, which a
    column would need 2^63 cells to overflow).  32- and 64-bit integers are [Z]: no arithmetic
    is done on them, only comparisons and copies. *)
From Verif Require Import Base ChunkedSpec ChunkedModel PlainModel StatsSpec.

(** ** Vectorised minimum and maximum *)

(** std::min(a, b) is (b < a) ? b : a, std::max(a, b) is (a < b) ? b : a. *)
Definition std_min {T} (lt : T -> T -> bool) (a b : T) : T := if lt b a then b else a.
Definition std_max {T} (lt : T -> T -> bool) (a b : T) : T := if lt a b then b else a.

(** hn::Min / hn::Max: lane by lane. *)
Fixpoint lanewise {T} (f : T -> T -> T) (a b : list T) : list T :=
  match a, b with
  | x :: a', y :: b' => f x y :: lanewise f a' b'
  | _, _ => []
  end.

(** The loop [for (; i + N <= count; i += N)] of statistics_simd.cpp:36-42, 70-76 and 120-126:
    the two accumulators and what is left of the data.  [fuel] bounds the number of rounds;
    each takes N >= 1 elements, so length data rounds suffice. *)
Fixpoint vector_loop {T} (fuel lanes : nat) (fmin fmax : T -> T -> T)
    (vmin vmax data : list T) : list T * list T * list T :=
  match fuel with
  | O => (vmin, vmax, data)
  | S fuel' =>
      if lanes <=? length data
      then let v := firstn lanes data in
           vector_loop fuel' lanes fmin fmax (lanewise fmin vmin v) (lanewise fmax vmax v) (skipn lanes data)
      else (vmin, vmax, data)
  end.

(** hn::ReduceMin / hn::ReduceMax on integers; any order gives the same result. *)
Definition reduce {T} (f : T -> T -> T) (dflt : T) (v : list T) : T :=
  match v with [] => dflt | x :: r => fold_left f r x end.

(** ComputeMinMaxInt32, statistics_simd.cpp:22-53, and ComputeMinMaxInt64, 56-87;
    [lo] and [hi] are numeric_limits min() and max(). *)
Definition compute_minmax_int (lanes : nat) (lo hi : Z) (data : list Z) : Z * Z :=
  match data with
  | [] => (hi, lo)
  | first :: _ =>
      let '(vmin, vmax, rest) :=
        vector_loop (length data) lanes Z.min Z.max (repeat first lanes) (repeat first lanes) data in
      (fold_left (std_min Z.ltb) rest (reduce Z.min 0%Z vmin),
       fold_left (std_max Z.ltb) rest (reduce Z.max 0%Z vmax))
  end.

(** numeric_limits<double>::quiet_NaN(), max(), lowest() and infinity(). *)
Definition quiet_nan : N := 0x7FF8000000000000.
Definition dbl_largest : N := 0x7FEFFFFFFFFFFFFF.
Definition dbl_lowest : N := 0xFFEFFFFFFFFFFFFF.
Definition dbl_infinity : N := 0x7FF0000000000000.
Definition dbl_minus_infinity : N := 0xFFF0000000000000.

(** lines 97-102: drop the leading NaNs. *)
Fixpoint drop_nans (data : list N) : list N :=
  match data with
  | [] => []
  | x :: r => if dbl_nan x then drop_nans r else data
  end.
(** lines 132-138. *)
Definition scalar_step (acc : N * N) (x : N) : N * N :=
  if negb (dbl_nan x) then (std_min dbl_lt (fst acc) x, std_max dbl_lt (snd acc) x) else acc.
(** lines 141-154; [acc] is (found, min_out, max_out). *)
Definition fallback_step (acc : bool * (N * N)) (x : N) : bool * (N * N) :=
  if negb (dbl_nan x) then
    if negb (fst acc) then (true, (x, x))
    else (fst acc, (std_min dbl_lt (fst (snd acc)) x, std_max dbl_lt (snd (snd acc)) x))
  else acc.
(** ComputeMinMaxFloat64, 90-155. *)
Definition compute_minmax_float64 (hw : hardware) (data : list N) : N * N :=
  match drop_nans data with
  | [] => (quiet_nan, quiet_nan)   (* 91-95 and 104-109 *)
  | first :: later =>
      let '(vmin, vmax, rest) :=
        vector_loop (length later) (hw_lanes hw) (hw_min hw) (hw_max hw)
          (repeat first (hw_lanes hw)) (repeat first (hw_lanes hw)) later in
      let out := fold_left scalar_step rest (hw_reduce_min hw vmin, hw_reduce_max hw vmax) in
      if dbl_nan (fst out) || dbl_nan (snd out)
      then snd (fold_left fallback_step data (false, out))
      else out
  end.

(** ** The Statistics classes *)

(** The members of Statistics<T> for T other than bool (statistics.h:103-107 and alike). *)
Record stats (T : Type) : Type := Stats {
  s_min : T; s_max : T; s_null_count : Z; s_value_count : Z; s_has_value : bool }.
Arguments Stats {T}. Arguments s_min {T}. Arguments s_max {T}. Arguments s_null_count {T}.
Arguments s_value_count {T}. Arguments s_has_value {T}.

Section Generic.
Context {T : Type}.
Variable lt : T -> T -> bool.
(** statistics.h:27-38; also 115-126, 219-230, 451-475. *)
Definition update (s : stats T) (v : T) : stats T :=
  if negb (s_has_value s)
  then Stats v v (s_null_count s) (s_value_count s + 1) true
  else Stats (if lt v (s_min s) then v else s_min s) (if lt (s_max s) v then v else s_max s)
         (s_null_count s) (s_value_count s + 1) true.
(** statistics.h:41. *)
Definition update_null (s : stats T) : stats T :=
  Stats (s_min s) (s_max s) (s_null_count s + 1) (s_value_count s) (s_has_value s).
(** statistics.h:44-50 and 479-483. *)
Definition update_batch (s : stats T) (vs : list T) : stats T := fold_left update vs s.
(** statistics.h:53-64 and 485-494: element i is null if the bitmap has bit i and it is set. *)
Fixpoint update_batch_with_nulls (s : stats T) (vs : list T) (bm : list bool) : stats T :=
  match vs with
  | [] => s
  | v :: r =>
      let s1 := if hd false bm then update_null s else update s v in
      update_batch_with_nulls s1 r (tl bm)
  end.
(** the four lines that fold a range into the object: statistics.h:138-147, 352-361, 69-78 *)
Definition absorb (s : stats T) (lo hi : T) : stats T :=
  if negb (s_has_value s)
  then Stats lo hi (s_null_count s) (s_value_count s) true
  else Stats (if lt lo (s_min s) then lo else s_min s) (if lt (s_max s) hi then hi else s_max s)
         (s_null_count s) (s_value_count s) true.
Definition add_counts (s : stats T) (ns vs : Z) : stats T :=
  Stats (s_min s) (s_max s) (s_null_count s + ns) (s_value_count s + vs) (s_has_value s).
(** statistics.h:67-82, 173-188, 276-291, 405-420, 496-511. *)
Definition merge (s o : stats T) : stats T :=
  let s1 := if s_has_value o then absorb s (s_min o) (s_max o) else s in
  add_counts s1 (s_null_count o) (s_value_count o).
(** statistics.h:85-91. *)
Definition getters (s : stats T) : report T :=
  Report (s_has_value s) (s_min s) (s_max s) (s_null_count s) (s_value_count s)
    (s_value_count s + s_null_count s) (0 <? s_null_count s)%Z.
End Generic.

(** statistics.h:156-166: the values kept and the number of nulls seen. *)
Fixpoint non_null_values {T} (skip : T -> bool) (vs : list T) (bm : list bool) : list T * Z :=
  match vs with
  | [] => ([], 0%Z)
  | v :: r =>
      let '(kept, ns) := non_null_values skip r (tl bm) in
      if hd false bm then (kept, ns + 1)%Z
      else if skip v then (kept, ns + 1)%Z
      else (v :: kept, ns)
  end.

(** Statistics<int32_t> (111-212) and Statistics<int64_t> (215-315). *)
Section Ints.
Variables (lanes : nat) (lo hi : Z).
Definition int_update_batch (s : stats Z) (vs : list Z) : stats Z :=
  match vs with
  | [] => s
  | _ => let '(bmin, bmax) := compute_minmax_int lanes lo hi vs in
         add_counts (absorb Z.ltb s bmin bmax) 0 (Z.of_nat (length vs))
  end.
Definition int_update_batch_with_nulls (s : stats Z) (vs : list Z) (bm : list bool) : stats Z :=
  let '(kept, ns) := non_null_values (fun _ => false) vs bm in
  let s1 := add_counts s ns 0 in
  match kept with [] => s1 | _ => int_update_batch s1 kept end.
End Ints.

(** Statistics<double>, 318-444. *)
Section Doubles.
Variable hw : hardware.
(** 322-338 *)
Definition dbl_update (s : stats N) (v : N) : stats N :=
  if dbl_nan v then update_null s else update dbl_lt s v.
(** 343-364 *)
Definition dbl_update_batch (s : stats N) (vs : list N) : stats N :=
  match vs with
  | [] => s
  | _ => let '(bmin, bmax) := compute_minmax_float64 hw vs in
         if negb (dbl_nan bmin)
         then add_counts (absorb dbl_lt s bmin bmax) 0 (Z.of_nat (length vs))
         else s
  end.
(** 366-403 *)
Definition dbl_update_batch_with_nulls (s : stats N) (vs : list N) (bm : list bool) : stats N :=
  let '(kept, ns) := non_null_values dbl_nan vs bm in
  let s1 := add_counts s ns 0 in
  match kept with
  | [] => s1
  | _ => let '(bmin, bmax) := compute_minmax_float64 hw kept in
         if negb (dbl_nan bmin)
         then add_counts (absorb dbl_lt s1 bmin bmax) 0 (Z.of_nat (length kept))
         else s1
  end.
End Doubles.

(** Statistics<bool>, 538-616. *)
Record bool_stats : Type := BoolStats {
  b_has_true : bool; b_has_false : bool; b_null_count : Z; b_value_count : Z }.
(** 542-549 *)
Definition bool_update (s : bool_stats) (v : bool) : bool_stats :=
  BoolStats (if v then true else b_has_true s) (if v then b_has_false s else true)
    (b_null_count s) (b_value_count s + 1).
(** 551 *)
Definition bool_update_null (s : bool_stats) : bool_stats :=
  BoolStats (b_has_true s) (b_has_false s) (b_null_count s + 1) (b_value_count s).
(** 553-564 *)
Definition bool_update_batch (s : bool_stats) (vs : list bool) : bool_stats := fold_left bool_update vs s.
(** 566-587 *)
Fixpoint bool_update_batch_with_nulls (s : bool_stats) (vs bm : list bool) : bool_stats :=
  match vs with
  | [] => s
  | v :: r =>
      let s1 := if hd false bm then bool_update_null s else bool_update s v in
      bool_update_batch_with_nulls s1 r (tl bm)
  end.
(** 589-594 *)
Definition bool_merge (s o : bool_stats) : bool_stats :=
  BoolStats (b_has_true s || b_has_true o) (b_has_false s || b_has_false o)
    (b_null_count s + b_null_count o) (b_value_count s + b_value_count o).
(** 596-602 *)
Definition bool_getters (s : bool_stats) : report bool :=
  Report (b_has_true s || b_has_false s) (if b_has_false s then false else true)
    (if b_has_true s then true else false) (b_null_count s) (b_value_count s)
    (b_value_count s + b_null_count s) (0 <? b_null_count s)%Z.

(** A class: its constructor, its members and its getters; and running a history on it. *)
Record class (T S : Type) : Type := Class {
  c_new : S; c_update : S -> T -> S; c_update_null : S -> S;
  c_batch : S -> list T -> S; c_batch_nulls : S -> list T -> list bool -> S;
  c_merge : S -> S -> S; c_reset : S -> S; c_get : S -> report T }.
Arguments Class {T S}. Arguments c_new {T S}. Arguments c_update {T S}. Arguments c_update_null {T S}.
Arguments c_batch {T S}. Arguments c_batch_nulls {T S}. Arguments c_merge {T S}.
Arguments c_reset {T S}. Arguments c_get {T S}.

(** 94-100, 103-107 and alike: reset() restores the initial members. *)
Definition int_class (lanes : nat) (lo hi : Z) : class Z (stats Z) :=
  Class (Stats 0 0 0 0 false)%Z (update Z.ltb) update_null (int_update_batch lanes lo hi)
    (int_update_batch_with_nulls lanes lo hi) (merge Z.ltb) (fun _ => Stats 0 0 0 0 false)%Z getters.
Definition int32_class (lanes : nat) := int_class lanes (-2 ^ 31) (2 ^ 31 - 1).
Definition int64_class (lanes : nat) := int_class lanes (-2 ^ 63) (2 ^ 63 - 1).
Definition string_class : class bytes (stats bytes) :=
  Class (Stats [] [] 0 0 false)%Z (update string_lt) update_null (update_batch string_lt)
    (update_batch_with_nulls string_lt) (merge string_lt) (fun _ => Stats [] [] 0 0 false)%Z getters.
(** 430-436, 439-443: max() and lowest() *)
Definition double_class (hw : hardware) : class N (stats N) :=
  Class (Stats dbl_largest dbl_lowest 0 0 false)%Z dbl_update update_null (dbl_update_batch hw)
    (dbl_update_batch_with_nulls hw) (merge dbl_lt) (fun _ => Stats dbl_largest dbl_lowest 0 0 false)%Z getters.
Definition bool_class : class bool bool_stats :=
  Class (BoolStats false false 0 0)%Z bool_update bool_update_null bool_update_batch
    bool_update_batch_with_nulls bool_merge (fun _ => BoolStats false false 0 0)%Z bool_getters.

Fixpoint run_history {T S} (c : class T S) (h : history T) : S :=
  match h with
  | Fresh => c_new c
  | Updated h v => c_update c (run_history c h) v
  | UpdatedNull h => c_update_null c (run_history c h)
  | Batched h vs => c_batch c (run_history c h) vs
  | BatchedNulls h vs bm => c_batch_nulls c (run_history c h) vs bm
  | Merged h o => c_merge c (run_history c h) (run_history c o)
  | Cleared h => c_reset c (run_history c h)
  end.
Definition report_of {T S} (c : class T S) (h : history T) : report T := c_get c (run_history c h).

(** ** src/writer/statistics.cpp *)

(** types.h:150-158: the defaults. *)
Definition new_column_statistics : column_statistics := ColumnStatistics false 0 0 NoValue NoValue.

(** merge_min, 14-43. *)
Definition merge_min (a b : stat_value) : stat_value :=
  match a, b with
  | NoValue, _ => b
  | _, NoValue => a
  | Int32Value x, Int32Value y => if (x <? y)%Z then a else b
  | Int64Value x, Int64Value y => if (x <? y)%Z then a else b
  | DoubleValue x, DoubleValue y => if dbl_lt x y then a else b
  | StringValue x, StringValue y => if string_lt x y then a else b
  | BoolValue x, BoolValue y => if negb x then a else b
  | _, _ => a
  end.
(** merge_max, 45-74. *)
Definition merge_max (a b : stat_value) : stat_value :=
  match a, b with
  | NoValue, _ => b
  | _, NoValue => a
  | Int32Value x, Int32Value y => if (y <? x)%Z then a else b
  | Int64Value x, Int64Value y => if (y <? x)%Z then a else b
  | DoubleValue x, DoubleValue y => if dbl_lt y x then a else b
  | StringValue x, StringValue y => if string_lt y x then a else b
  | BoolValue x, BoolValue y => if x then a else b
  | _, _ => a
  end.
(** merge_statistics, 77-86; distinct_count keeps its default. *)
Definition merge_statistics (a b : column_statistics) : column_statistics :=
  ColumnStatistics (cs_has_null a || cs_has_null b) (cs_null_count a + cs_null_count b) 0
    (merge_min (cs_min a) (cs_min b)) (merge_max (cs_max a) (cs_max b)).

(** serialize_statistic, 89-118. *)
Definition serialize_statistic (v : stat_value) : bytes :=
  match v with
  | NoValue => []
  | BoolValue b => [if b then 1%N else 0%N]
  | Int32Value z => int32_bytes z
  | Int64Value z => int64_bytes z
  | DoubleValue bits => double_bytes bits
  | StringValue s => s
  end.

(** StatisticsAccumulator, 121-236: (stats_, has_value_). *)
Definition accumulator : Type := (column_statistics * bool)%type.
Definition new_accumulator : accumulator := (new_column_statistics, false).
(** the null branch, 126-130 and alike *)
Definition acc_null (a : accumulator) : accumulator :=
  let cs := fst a in
  (ColumnStatistics true (cs_null_count cs + 1) (cs_distinct_count cs) (cs_min cs) (cs_max cs), snd a).
(** [value < *min_val] after a successful get_if of the value's own type *)
Definition acc_below (v : stat_value) (cur : stat_value) : bool :=
  match v, cur with
  | Int32Value x, Int32Value m => (x <? m)%Z
  | Int64Value x, Int64Value m => (x <? m)%Z
  | DoubleValue x, DoubleValue m => dbl_lt x m
  | StringValue x, StringValue m => string_lt x m
  | BoolValue x, BoolValue _ => negb x        (* 223-224: stores false *)
  | _, _ => false
  end.
Definition acc_above (v : stat_value) (cur : stat_value) : bool :=
  match v, cur with
  | Int32Value x, Int32Value m => (m <? x)%Z
  | Int64Value x, Int64Value m => (m <? x)%Z
  | DoubleValue x, DoubleValue m => dbl_lt m x
  | StringValue x, StringValue m => string_lt m x
  | BoolValue x, BoolValue _ => x             (* 225-226: stores true *)
  | _, _ => false
  end.
(** add_int32 125-144, add_int64 146-165, add_double 167-186, add_string 188-207,
    add_bool 209-228; [None] is is_null. *)
Definition acc_add (a : accumulator) (cell : option stat_value) : accumulator :=
  match cell with
  | None => acc_null a
  | Some v =>
      if value_nan v then acc_null a
      else
        let cs := fst a in
        if negb (snd a)
        then (ColumnStatistics (cs_has_null cs) (cs_null_count cs) (cs_distinct_count cs) v v, true)
        else (ColumnStatistics (cs_has_null cs) (cs_null_count cs) (cs_distinct_count cs)
                (if acc_below v (cs_min cs) then v else cs_min cs)
                (if acc_above v (cs_max cs) then v else cs_max cs), true)
  end.
Fixpoint run_tree (t : stat_tree) : column_statistics :=
  match t with
  | Accumulated cs => fst (fold_left acc_add cs new_accumulator)
  | MergedStats a b => merge_statistics (run_tree a) (run_tree b)
  end.

(** ** ColumnBuilder::statistics() *)

(** std::count(bitmap, true). *)
Definition count_true (bm : list bool) : Z := Z.of_nat (length (filter (fun b => b) bm)).
(** column_builder.cpp:244-253 (and 312-321, 380-389, 450-459, 516-525) for one element;
    the state is (min_val, max_val, found).  [null_bitmap[i]] beyond the bitmap would be
    undefined; the chunks always have two vectors of the same length (C24). *)
Definition chunk_step {T} (lt : T -> T -> bool) (skip : T -> bool) (acc : T * T * bool) (e : T * bool) : T * T * bool :=
  let '(lo, hi, found) := acc in
  if negb (snd e) && negb (skip (fst e))
  then (std_min lt lo (fst e), std_max lt hi (fst e), true)
  else acc.
(** 232-262 and alike: [start_min] and [start_max] are the initial min_val and max_val. *)
Definition scanned_statistics {T} (lt : T -> T -> bool) (skip : T -> bool) (start_min start_max : T)
    (wrap : T -> stat_value) (b : @builder T) : column_statistics :=
  let cs := all_chunks b in
  let null_count := fold_left (fun n c => (n + count_true (snd c))%Z) cs 0%Z in
  let '(lo, hi, found) :=
    fold_left (fun acc c => fold_left (chunk_step lt skip) (combine (fst c) (snd c)) acc)
      cs (start_min, start_max, false) in
  ColumnStatistics (0 <? null_count)%Z null_count 0
    (if found then wrap lo else NoValue) (if found then wrap hi else NoValue).
(** Int32 232-262, Date 438-468; Int64 300-330, Timestamp 504-534; Float64 368-398 *)
Definition int32_builder_statistics : builder -> column_statistics :=
  scanned_statistics Z.ltb (fun _ => false) (2 ^ 31 - 1)%Z (-2 ^ 31)%Z Int32Value.
Definition int64_builder_statistics : builder -> column_statistics :=
  scanned_statistics Z.ltb (fun _ => false) (2 ^ 63 - 1)%Z (-2 ^ 63)%Z Int64Value.
Definition float64_builder_statistics : builder -> column_statistics :=
  scanned_statistics dbl_lt dbl_nan dbl_infinity dbl_minus_infinity DoubleValue.

(** String 157-199 and Bool 545-615: the builder and its stats_ member. *)
Section Incremental.
Context {T SS : Type}.
Variables (dflt : T) (c : class T SS) (wrap : T -> stat_value).
Local Notation tracked := (@builder T * SS)%type.
Definition new_tracked : tracked := (new_builder, c_new c).
(** append / append_null *)
Definition tracked_append (b : tracked) (cell : option T) : tracked :=
  (append dflt (fst b) cell,
   match cell with Some v => c_update c (snd b) v | None => c_update_null c (snd b) end).
(** 173-191, 587-607 *)
Definition tracked_statistics (b : tracked) : column_statistics :=
  let null_count := fold_left (fun n ch => (n + count_true (snd ch))%Z) (all_chunks (fst b)) 0%Z in
  let r := c_get c (snd b) in
  ColumnStatistics (0 <? null_count)%Z null_count 0
    (if r_has_value r then wrap (r_min r) else NoValue)
    (if r_has_value r then wrap (r_max r) else NoValue).
(** The steps of [cstep], with the stats_ member; only append and append_null touch it. *)
Definition tstep (st : list tracked) (o : cop T) : option (list tracked) :=
  match o with
  | CNew => Some (st ++ [new_tracked])
  | CAppend h cell => match nth_error st h with Some b => Some (replace_at st h (tracked_append b cell)) | None => None end
  | CFill h cs => match nth_error st h with Some b => Some (replace_at st h (context_fill dflt (fst b) cs, snd b)) | None => None end
  | CMerge h k =>
      if h =? k then None
      else match nth_error st h, nth_error st k with
           | Some a, Some b =>
               let '(a', b') := merge_from (fst a) (fst b) in
               Some (replace_at (replace_at st h (a', snd a)) k (b', snd b))
           | _, _ => None
           end
  | CFinalize h => match nth_error st h with Some b => Some (replace_at st h (snd (num_chunks (fst b)), snd b)) | None => None end
  | CRead h =>
      match nth_error st h with
      | Some b => let b1 := snd (raw_values (fst b)) in Some (replace_at st h (snd (null_bitmap b1), snd b))
      | None => None
      end
  end.
Fixpoint trun (st : list tracked) (ops : list (cop T)) : option (list tracked) :=
  match ops with
  | [] => Some st
  | o :: r => match tstep st o with None => None | Some st' => trun st' r end
  end.
End Incremental.
Definition string_builder_statistics := tracked_statistics string_class StringValue.
Definition bool_builder_statistics := tracked_statistics bool_class BoolValue.
