(** What statistics of a column are: a definition by quantifiers, with no computation. *)
From Verif Require Import Base.

(** A column is a list of cells: [Some v] is a value, [None] a null. *)
Definition values {T} (cells : list (option T)) : list T :=
  flat_map (fun c => match c with Some v => [v] | None => [] end) cells.
Definition nulls {T} (cells : list (option T)) : nat :=
  length (filter (fun c => match c with Some _ => false | None => true end) cells).

(** Least and greatest, for a comparison [lt]: a value that is there, such that none that is
    there is below (above) it. *)
Definition is_least {T} (lt : T -> T -> bool) (l : list T) (m : T) : Prop :=
  In m l /\ forall x, In x l -> lt x m = false.
Definition is_greatest {T} (lt : T -> T -> bool) (l : list T) (m : T) : Prop :=
  In m l /\ forall x, In x l -> lt m x = false.

(** What the getters of a statistics object return. *)
Record report (T : Type) : Type := Report {
  r_has_value : bool; r_min : T; r_max : T;
  r_nulls : Z; r_values : Z; r_total : Z; r_has_null : bool }.
Arguments Report {T}. Arguments r_has_value {T}. Arguments r_min {T}. Arguments r_max {T}.
Arguments r_nulls {T}. Arguments r_values {T}. Arguments r_total {T}. Arguments r_has_null {T}.

Definition describes_range {T} (lt : T -> T -> bool) (r : report T) (cells : list (option T)) : Prop :=
  (r_has_value r = true <-> values cells <> []) /\
  (values cells <> [] -> is_least lt (values cells) (r_min r) /\ is_greatest lt (values cells) (r_max r)).
Definition describes {T} (lt : T -> T -> bool) (r : report T) (cells : list (option T)) : Prop :=
  describes_range lt r cells /\
  r_nulls r = Z.of_nat (nulls cells) /\
  r_values r = Z.of_nat (length (values cells)) /\
  r_total r = Z.of_nat (length cells) /\
  (r_has_null r = true <-> In None cells).

(** The comparisons. *)
Definition int_lt : Z -> Z -> bool := Z.ltb.
Definition bool_lt (a b : bool) : bool := negb a && b.
(** byte strings: lexicographic by unsigned byte *)
Fixpoint string_lt (a b : bytes) : bool :=
  match a, b with
  | _, [] => false
  | [], _ :: _ => true
  | x :: a', y :: b' => (x <? y)%N || ((x =? y)%N && string_lt a' b')
  end.
(** doubles are their 64-bit patterns: sign bit 63, exponent bits 52-62, fraction bits 0-51.
    A NaN has all exponent bits set and a fraction that is not 0; otherwise the order is that
    of the magnitudes (bits 0-62), with the sign; +0 and -0 are equal, NaN is not ordered. *)
Definition dbl_magnitude (b : N) : N := (b mod 2 ^ 63)%N.
Definition dbl_nan (b : N) : bool := (0x7FF0000000000000 <? dbl_magnitude b)%N.
Definition dbl_key (b : N) : Z :=
  if N.testbit b 63 then (- Z.of_N (dbl_magnitude b))%Z else Z.of_N (dbl_magnitude b).
Definition dbl_lt (a b : N) : bool :=
  negb (dbl_nan a) && negb (dbl_nan b) && (dbl_key a <? dbl_key b)%Z.
(** the cells as the double statistics are meant to see them: NaN counts as null *)
Definition nan_null (cells : list (option N)) : list (option N) :=
  map (fun c => match c with Some v => if dbl_nan v then None else Some v | None => None end) cells.

(** How a statistics object can come about.  A history is a tree, because of [Merged]. *)
Inductive history (T : Type) : Type :=
| Fresh
| Updated (h : history T) (v : T)
| UpdatedNull (h : history T)
| Batched (h : history T) (vs : list T)
| BatchedNulls (h : history T) (vs : list T) (is_null : list bool)
| Merged (h other : history T)
| Cleared (h : history T).
Arguments Fresh {T}. Arguments Updated {T}. Arguments UpdatedNull {T}. Arguments Batched {T}.
Arguments BatchedNulls {T}. Arguments Merged {T}. Arguments Cleared {T}.

(** the batch with its null flags; flags that are missing at the end mean not null *)
Fixpoint masked {T} (vs : list T) (is_null : list bool) : list (option T) :=
  match vs, is_null with
  | [], _ => []
  | v :: r, [] => Some v :: masked r []
  | v :: r, n :: ns => (if n : bool then None else Some v) :: masked r ns
  end.
Fixpoint cells {T} (h : history T) : list (option T) :=
  match h with
  | Fresh => []
  | Updated h v => cells h ++ [Some v]
  | UpdatedNull h => cells h ++ [None]
  | Batched h vs => cells h ++ map Some vs
  | BatchedNulls h vs ns => cells h ++ masked vs ns
  | Merged h o => cells h ++ cells o
  | Cleared _ => []
  end.
(** no NaN in any batch that comes without null flags *)
Fixpoint plain_batches_numbers (h : history N) : Prop :=
  match h with
  | Fresh => True
  | Updated h _ | UpdatedNull h | BatchedNulls h _ _ => plain_batches_numbers h
  | Batched h vs => plain_batches_numbers h /\ Forall (fun v => dbl_nan v = false) vs
  | Merged h o => plain_batches_numbers h /\ plain_batches_numbers o
  | Cleared h => True
  end.

(** Vector hardware for doubles: lane count, lane-wise minimum and maximum, and reductions of
    a whole vector. *)
Record hardware : Type := Hardware {
  hw_lanes : nat;
  hw_min : N -> N -> N; hw_max : N -> N -> N;
  hw_reduce_min : list N -> N; hw_reduce_max : list N -> N }.
(** right on numbers *)
Definition right_on_numbers (hw : hardware) : Prop :=
  0 < hw_lanes hw /\
  (forall a b, dbl_nan a = false -> dbl_nan b = false ->
     is_least dbl_lt [a; b] (hw_min hw a b) /\ is_greatest dbl_lt [a; b] (hw_max hw a b)) /\
  (forall l, l <> [] -> Forall (fun v => dbl_nan v = false) l ->
     is_least dbl_lt l (hw_reduce_min hw l) /\ is_greatest dbl_lt l (hw_reduce_max hw l)).
(** a NaN anywhere makes the result NaN *)
Definition propagates_nan (hw : hardware) : Prop :=
  (forall a b, dbl_nan a || dbl_nan b = true -> dbl_nan (hw_min hw a b) = true /\ dbl_nan (hw_max hw a b) = true) /\
  (forall l, existsb dbl_nan l = true -> dbl_nan (hw_reduce_min hw l) = true /\ dbl_nan (hw_reduce_max hw l) = true).

(** ColumnStatistics and the values it holds. *)
Inductive stat_value : Type :=
| NoValue | BoolValue (b : bool) | Int32Value (z : Z) | Int64Value (z : Z)
| DoubleValue (bits : N) | StringValue (s : bytes).
Record column_statistics : Type := ColumnStatistics {
  cs_has_null : bool; cs_null_count : Z; cs_distinct_count : Z;
  cs_min : stat_value; cs_max : stat_value }.
Inductive stat_type : Type := TBool | TInt32 | TInt64 | TDouble | TString.
Definition type_of (v : stat_value) : option stat_type :=
  match v with
  | NoValue => None | BoolValue _ => Some TBool | Int32Value _ => Some TInt32
  | Int64Value _ => Some TInt64 | DoubleValue _ => Some TDouble | StringValue _ => Some TString
  end.
Definition value_lt (a b : stat_value) : bool :=
  match a, b with
  | BoolValue x, BoolValue y => bool_lt x y
  | Int32Value x, Int32Value y => int_lt x y
  | Int64Value x, Int64Value y => int_lt x y
  | DoubleValue x, DoubleValue y => dbl_lt x y
  | StringValue x, StringValue y => string_lt x y
  | _, _ => false
  end.
(** NaN counts as null *)
Definition value_nan (v : stat_value) : bool := match v with DoubleValue b => dbl_nan b | _ => false end.
Definition nan_null_values (cells : list (option stat_value)) : list (option stat_value) :=
  map (fun c => match c with Some v => if value_nan v then None else Some v | None => None end) cells.

Definition column_describes_range {T} (lt : T -> T -> bool) (wrap : T -> stat_value)
    (cs : column_statistics) (vs : list T) : Prop :=
  match vs with
  | [] => cs_min cs = NoValue /\ cs_max cs = NoValue
  | _ => exists lo hi, cs_min cs = wrap lo /\ cs_max cs = wrap hi /\
                       is_least lt vs lo /\ is_greatest lt vs hi
  end.
Definition column_describes {T} (lt : T -> T -> bool) (wrap : T -> stat_value)
    (cs : column_statistics) (cells : list (option T)) : Prop :=
  column_describes_range lt wrap cs (values cells) /\
  cs_null_count cs = Z.of_nat (nulls cells) /\
  (cs_has_null cs = true <-> In None cells).
(** column statistics that come from accumulating some cells, or from merging two *)
Inductive stat_tree : Type :=
| Accumulated (cells : list (option stat_value))
| MergedStats (a b : stat_tree).
Fixpoint tree_cells (t : stat_tree) : list (option stat_value) :=
  match t with Accumulated cs => cs | MergedStats a b => tree_cells a ++ tree_cells b end.

(** Reading a serialized minimum or maximum back, knowing its type. *)
Fixpoint little_endian (bs : bytes) : N :=
  match bs with [] => 0 | b :: r => b + 256 * little_endian r end%N.
Definition as_signed (w : N) (n : N) : Z :=
  if (n <? 2 ^ (w - 1))%N then Z.of_N n else (Z.of_N n - 2 ^ Z.of_N w)%Z.
Definition read_statistic (t : stat_type) (bs : bytes) : option stat_value :=
  match t with
  | TBool => match bs with [b] => Some (BoolValue (negb (b =? 0)%N)) | _ => None end
  | TInt32 => if length bs =? 4 then Some (Int32Value (as_signed 32 (little_endian bs))) else None
  | TInt64 => if length bs =? 8 then Some (Int64Value (as_signed 64 (little_endian bs))) else None
  | TDouble => if length bs =? 8 then Some (DoubleValue (little_endian bs)) else None
  | TString => Some (StringValue bs)
  end.
Definition fits_type (v : stat_value) : Prop :=
  match v with
  | Int32Value z => (- 2 ^ 31 <= z < 2 ^ 31)%Z
  | Int64Value z => (- 2 ^ 63 <= z < 2 ^ 63)%Z
  | DoubleValue b => (b < 2 ^ 64)%N
  | _ => True
  end.

(** For the builders that keep their statistics while appending: what was appended, one cell
    at a time, to each builder under its own name, whatever happened to it later. *)
From Verif Require Import ChunkedSpec.
Definition own_step {T} (st : list (list (option T))) (o : cop T) : list (list (option T)) :=
  match o with
  | CNew => st ++ [[]]
  | CAppend h c => match nth_error st h with Some l => replace_at st h (l ++ [c]) | None => st end
  | _ => st
  end.
Definition own_appends {T} (ops : list (cop T)) : list (list (option T)) := fold_left own_step ops [].
