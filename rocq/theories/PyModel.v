(** Model of the Python module: read_csv and the Arrow stream of a table
    (python/src/bindings.cpp:34-340, 475-505). *)
From Verif Require Import Base TypesSpec WordsModel ChunkModel FieldsModel NumModel DateModel ReaderModel TypesModel ErrorsSpec ErrorsModel CliModel StrictModel PySpec.

(** Arrow format strings of the column builders' export_schema
    (arrow_column_builder.h:121-132, 194-205, 267-278, 340-352, 414-425, 487-498,
    563-574; arrow_c_data.h:14-22). *)
Definition format_of (t : data_type) : bytes :=
  match t with
  | INT32 => s2b "i"
  | INT64 => s2b "l"
  | FLOAT64 => s2b "g"
  | BOOL => s2b "C"
  | DATE => s2b "tdD"
  | TIMESTAMP => s2b "tsu:"
  | _ => s2b "u"
  end.

Section Py.
Context {F : Type}.
Variable ff : bytes -> option F.
Variables (lanes : nat) (clmul : bool) (num_threads : N) (ne_in : bool) (o : csv_options).
Variables (m : ErrorsSpec.mode) (limit : nat).

(** class Table, 38-73; columns as the lists of their entries. *)
Record table := mkTable { t_names : list bytes; t_types : list data_type; t_columns : list (list (option (@value F))); t_rows : nat }.
Definition num_columns (t : table) : nat := length (t_columns t).

(** 320-340: one chunk is used as it is; of several chunks the first is taken,
    with the number of rows of all of them. *)
Definition table_of (names : list bytes) (types : list data_type) (r : @read_result (@value F)) : table :=
  match chunks r with
  | [c] => mkTable names types c (total_rows r)
  | [] => mkTable names types [] 0
  | c :: _ => mkTable names types c (match c with [] => 0 | _ => total_rows r end)
  end.

(** read_csv, 252-340, of a file that can be mapped; None: an exception. *)
Definition read_csv (content : bytes) : option table :=
  match snd (read_checked ff lanes clmul num_threads ne_in o m limit content) with
  | None => None
  | Some (names, types, r) => Some (table_of names types r)
  end.

(** table_stream_get_schema, 116-145, and __arrow_c_schema__: name and format of
    the children. *)
Definition stream_schema (t : table) : list (bytes * bytes) :=
  map (fun i => (nth i (t_names t) [], format_of (nth i (t_types t) STRING))) (seq 0 (num_columns t)).

(** table_stream_get_next, 179-221: what the first call and later calls give.
    The contents of a child are those of export_to_arrow (see C59). *)
Definition stream_next (t : table) (returned : bool) : option (batch (option (@value F))) :=
  if returned then None else Some (Batch (t_rows t) (t_columns t)).
End Py.
Arguments t_names {F}. Arguments t_types {F}. Arguments t_columns {F}. Arguments t_rows {F}. Arguments mkTable {F}. Arguments num_columns {F}.
