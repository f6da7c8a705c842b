(** What chunks of parsed columns contain, and how they are put together. *)
From Verif Require Import Base VarintSpec BuffersSpec BuffersModel BuffersReach TypesSpec TypesModel ReaderSpec PlainSpec ParquetModel ParquetObs ConvertModel.

(** A column builder of the class that belongs to type [t], filled by any history of appends and merges. *)
Definition column_built (t : data_type) (a : arrow_column) (cells : list (option cell)) : Prop :=
  ac_type a = stored_type t /\
  match a with
  | ABool c => exists l, fixed_built 0%N c l /\ cells = map (option_map (fun v => CBool (negb (v =? 0)%N))) l
  | AInt32 c | ADate c => exists l, fixed_built 0%Z c l /\ (forall z, In (Some z) l -> int32 z) /\ cells = map (option_map CInt) l
  | AInt64 c | ATimestamp c => exists l, fixed_built 0%Z c l /\ (forall z, In (Some z) l -> int64 z) /\ cells = map (option_map CInt) l
  | AFloat64 c => exists l, fixed_built nan_bits c l /\ (forall b, In (Some b) l -> (b < 2 ^ 64)%N) /\ cells = map (option_map CDouble) l
  | AString c => exists l, strings_built c l /\ cells = map (option_map CBytes) l
  end.
(** The columns of a chunk with [n] rows. *)
Inductive columns_built (n : nat) : list data_type -> list arrow_column -> list (list (option cell)) -> Prop :=
| cb_nil : columns_built n [] [] []
| cb_cons : forall t ts a aa c cc, column_built t a c -> length c = n -> columns_built n ts aa cc -> columns_built n (t :: ts) (a :: aa) (c :: cc).
(** A chunk: either it has no columns at all, or those of the schema. *)
Definition chunk_built (types : list data_type) (aa : list arrow_column) (cc : list (list (option cell))) : Prop :=
  (aa = [] /\ cc = []) \/ exists n, columns_built n types aa cc.

(** The text of the columns that are stored as text although their type is not STRING (only missing
    values were seen when the type was decided). *)
Fixpoint untyped_text_small (types : list data_type) (cols : list (list (option cell))) : Prop :=
  match types, cols with
  | t :: ts, c :: cs => (t <> STRING -> (N.of_nat (text_bytes c) < 2 ^ 32)%N) /\ untyped_text_small ts cs
  | _, _ => True
  end.
(** Rows of a chunk, of some chunks. *)
Definition rows_of (cc : list (list (option cell))) : nat := match cc with [] => 0 | c :: _ => length c end.
Definition rows_in (part : list (list (list (option cell)))) : nat := list_sum (map rows_of part).

(** The cell a parsed value is. *)
Definition cell_of (v : @value N) : cell :=
  match v with VBool b => CBool b | VInt z => CInt z | VFloat f => CDouble f | VString s => CBytes s end.
Definition cells_of_columns (cols : list (list (option (@value N)))) : list (list (option cell)) := map (map (option_map cell_of)) cols.
(** How chunks are put together: a table with a text column, or read in one piece, keeps its chunks;
    otherwise consecutive chunks are joined until there are 262144 rows. *)
Definition joined (types : list data_type) (number_of_chunks : nat) (parts : list (list (list (list (option cell))))) : Prop :=
  if (number_of_chunks <=? 1) || existsb (fun t => match t with STRING => true | _ => false end) types
  then Forall (fun part => length part = 1) parts
  else forall before part after, parts = before ++ part :: after ->
         (N.of_nat (rows_in (removelast part)) < 262144)%N /\ (after <> [] -> (262144 <= N.of_nat (rows_in part))%N).
