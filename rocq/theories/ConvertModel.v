(** From parsed chunks to a Parquet file: convert_csv_to_parquet (src/reader/csv_reader.cpp:831-1134),
    with error collection disabled, and without verbose timing.
    What the reader's columns contain is taken from TypesModel.read_file; here each cell is appended
    to its column builder, and the builders go to the writer of ParquetModel and PipelineModel. *)
From Verif Require Import Base TypesSpec BuffersModel ReaderModel TypesModel QueueSpec QueueModel PlainSpec ParquetModel PipelineModel.

(** fast_arrow_context.h:176: the bits of quiet_NaN(). *)
Definition nan_bits : N := 9221120237041090560.
(** ArrowColumnBuilder::create, arrow_column_builder.h:584-602 *)
Definition create_builder (t : data_type) : arrow_column :=
  match t with
  | INT32 => AInt32 (Column [] bm_new) | INT64 => AInt64 (Column [] bm_new) | FLOAT64 => AFloat64 (Column [] bm_new)
  | BOOL => ABool (Column [] bm_new) | DATE => ADate (Column [] bm_new) | TIMESTAMP => ATimestamp (Column [] bm_new)
  | _ => AString (Column sb_new bm_new)
  end.
(** The append functions of fast_arrow_context.h:46-248 on the parsed cell; a value of another type
    does not occur. *)
Definition append_cell (a : arrow_column) (v : option (@value N)) : option arrow_column :=
  match a, v with
  | ABool c, Some (VBool b) => option_map ABool (fx_push 0%N c (Some (if b then 1%N else 0%N)))
  | ABool c, None => option_map ABool (fx_push 0%N c None)
  | AInt32 c, Some (VInt z) => option_map AInt32 (fx_push 0%Z c (Some z))
  | AInt32 c, None => option_map AInt32 (fx_push 0%Z c None)
  | AInt64 c, Some (VInt z) => option_map AInt64 (fx_push 0%Z c (Some z))
  | AInt64 c, None => option_map AInt64 (fx_push 0%Z c None)
  | AFloat64 c, Some (VFloat f) => option_map AFloat64 (fx_push nan_bits c (Some f))
  | AFloat64 c, None => option_map AFloat64 (fx_push nan_bits c None)
  | AString c, Some (VString s) => option_map AString (st_push c (Some s))
  | AString c, None => option_map AString (st_push c None)
  | ADate c, Some (VInt z) => option_map ADate (fx_push 0%Z c (Some z))
  | ADate c, None => option_map ADate (fx_push 0%Z c None)
  | ATimestamp c, Some (VInt z) => option_map ATimestamp (fx_push 0%Z c (Some z))
  | ATimestamp c, None => option_map ATimestamp (fx_push 0%Z c None)
  | _, _ => None
  end.
Fixpoint append_cells (a : arrow_column) (vs : list (option (@value N))) : option arrow_column :=
  match vs with [] => Some a | v :: r => match append_cell a v with Some a' => append_cells a' r | None => None end end.
(** One chunk: csv_reader.cpp:684-693, 727-731 *)
Fixpoint fill_chunk (types : list data_type) (cols : list (list (option (@value N)))) : option (list arrow_column) :=
  match types, cols with
  | t :: ts, c :: cs => match append_cells (create_builder t) c, fill_chunk ts cs with
                        | Some a, Some r => Some (a :: r)
                        | _, _ => None
                        end
  | _, _ => Some []
  end.

(** merge_from, arrow_column_builder.h:95-99 and so on: static_cast to another class is undefined. *)
Definition merge_column (a b : arrow_column) : option arrow_column :=
  match a, b with
  | ABool x, ABool y => option_map ABool (fx_merge_from x y)
  | AInt32 x, AInt32 y => option_map AInt32 (fx_merge_from x y)
  | AInt64 x, AInt64 y => option_map AInt64 (fx_merge_from x y)
  | AFloat64 x, AFloat64 y => option_map AFloat64 (fx_merge_from x y)
  | AString x, AString y => option_map AString (st_merge_from x y)
  | ADate x, ADate y => option_map ADate (fx_merge_from x y)
  | ATimestamp x, ATimestamp y => option_map ATimestamp (fx_merge_from x y)
  | _, _ => None
  end.

(** 958 *)
Definition TARGET_ROW_GROUP_SIZE : nat := N.to_nat (512 * 512).
(** 1002-1020; [i] chunks have been looked at, the rest is [chunks]. *)
Fixpoint batch_loop (i batch_start batch_rows : nat) (chunks : list (list arrow_column)) : list (nat * nat) :=
  match chunks with
  | [] => if batch_start <? i then [(batch_start, i)] else []
  | [] :: r => batch_loop (S i) batch_start batch_rows r
  | (a :: _) :: r =>
      let batch_rows := batch_rows + ac_size a in
      if TARGET_ROW_GROUP_SIZE <=? batch_rows then (batch_start, S i) :: batch_loop (S i) (S i) 0 r
      else batch_loop (S i) batch_start batch_rows r
  end.
Definition batches (chunks : list (list arrow_column)) : list (nat * nat) := batch_loop 0 0 0 chunks.
(** 1041-1044 *)
Fixpoint merge_columns (accum columns : list arrow_column) : option (list arrow_column) :=
  match accum, columns with
  | a :: r, b :: s => match merge_column a b, merge_columns r s with
                      | Some c, Some t => Some (c :: t)
                      | _, _ => None
                      end
  | _, _ => Some accum
  end.
(** 1037-1045 *)
Fixpoint merge_chunks (accum : list arrow_column) (chunks : list (list arrow_column)) : option (list arrow_column) :=
  match chunks with
  | [] => Some accum
  | c :: r => match merge_columns accum c with Some accum' => merge_chunks accum' r | None => None end
  end.
(** 1022-1047 *)
Definition merge_batch (schema : list column_schema) (chunks : list (list arrow_column)) (batch : nat * nat) : option (list arrow_column) :=
  merge_chunks (map (fun s => create_builder (cs_type s)) schema) (slice (fst batch) (snd batch) chunks).
(** 981-987 *)
Definition has_strings (schema : list column_schema) : bool := existsb (fun s => type_eqb (cs_type s) STRING) schema.
Definition has_columns {A} (l : list A) : bool := match l with [] => false | _ => true end.
Fixpoint all_or_none {A} (l : list (option A)) : option (list A) :=
  match l with
  | [] => Some []
  | Some a :: r => match all_or_none r with Some s => Some (a :: s) | None => None end
  | None :: _ => None
  end.
(** 963-1053: the row groups handed to the writer, in order. *)
Definition row_groups (schema : list column_schema) (chunks : list (list arrow_column)) : option (list (list arrow_column)) :=
  match chunks with
  | [] => Some []
  | [c] => Some (filter has_columns [c])   (* write ignores a chunk without columns, parquet_file.cpp:955 *)
  | _ => if has_strings schema then Some (filter has_columns chunks)
         else all_or_none (map (merge_batch schema chunks) (batches chunks))
  end.

(** 335-342, 361-384: the schema of the reader, which the writer gets (949). *)
Definition schema_of (names : list bytes) (types : list data_type) : list column_schema :=
  map (fun nt => ColumnSchema (fst nt) (snd nt) true) (combine names types).

Section Convert.
Variable library : compression -> bytes -> option bytes.
Variable below : nat -> nat -> bool.
Variable options : parquet_options.
(** The steps of the two threads of the pipeline. *)
Variable trace : list (label (Z * list encoded_column)).

(** 963-1060: the writer after the rows are written.  With more than one chunk the row groups go
    through the queue, and the writer thread writes what it takes out of it. *)
Definition write_chunks (p : pstate) (schema : list column_schema) (chunks : list (list arrow_column)) : option pstate :=
  match chunks with
  | [] => Some p
  | [c] => option_map fst (do_write library below options p c)
  | _ => match row_groups schema chunks with
         | None => None
         | Some groups => match encode_groups library below options schema groups with
                          | None => None
                          | Some _ => Some (written p (delivered (events_of 1 trace)))
                          end
         end
  end.
(** What goes through the queue, if it is used. *)
Definition pipeline_input (schema : list column_schema) (chunks : list (list arrow_column)) : option (list (Z * list encoded_column)) :=
  match chunks with
  | [] | [_] => None
  | _ => match row_groups schema chunks with None => None | Some groups => encode_groups library below options schema groups end
  end.

(** What the conversion of a file puts into the queue, if it uses it (831-1053). *)
Definition queue_input (ff : bytes -> option N) (lanes : nat) (clmul : bool) (num_threads : N) (ne : bool) (o : csv_options) (data : bytes)
    : option (list (Z * list encoded_column)) :=
  match open_file ff lanes clmul o data with
  | None => None
  | Some (names, types, header_end) =>
      match read_all (fun k => append_value ff lanes (nth k types STRING)) lanes clmul (separator o) (quote o)
                     (make_null_checker (null_values o)) num_threads ne (length names) data header_end with
      | None => None
      | Some r => match all_or_none (map (fill_chunk types) (chunks r)) with
                  | None => None
                  | Some cs => pipeline_input (schema_of names types) cs
                  end
      end
  end.

Inductive failure : Type := InputFailed | CancelledByUser | OutputFailed.
(** vroom.h ConversionResult without the texts, and the writer. *)
Record conversion : Type := Conversion { cv_error : option failure; cv_rows : nat; cv_cols : nat; cv_writer : pstate }.

(** 831-1134.  [go_on] is what the progress callback answers at 50 percent (914-920). *)
Definition convert (ff : bytes -> option N) (lanes : nat) (clmul : bool) (num_threads : N) (ne : bool) (o : csv_options) (data : bytes)
    (go_on os_accepts : bool) (capacity : option nat) : option conversion :=
  match open_file ff lanes clmul o data with
  | None => Some (Conversion (Some InputFailed) 0 0 writer_new)
  | Some (names, types, header_end) =>
      match read_all (fun k => append_value ff lanes (nth k types STRING)) lanes clmul (separator o) (quote o)
                     (make_null_checker (null_values o)) num_threads ne (length names) data header_end with
      | None => None
      | Some r =>
          if negb go_on then Some (Conversion (Some CancelledByUser) (reported_rows r) (length names) writer_new)
          else
            let '(p, opened) := do_open writer_new os_accepts capacity in
            if negb opened then Some (Conversion (Some OutputFailed) (reported_rows r) (length names) p)
            else
              let schema := schema_of names types in
              let p := do_set_schema p schema in
              match all_or_none (map (fill_chunk types) (chunks r)) with
              | None => None
              | Some cs => match write_chunks p schema cs with
                           | None => None
                           | Some p => Some (Conversion None (reported_rows r) (length names) (fst (do_close p)))
                           end
              end
      end
  end.
End Convert.
