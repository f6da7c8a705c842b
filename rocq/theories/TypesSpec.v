(** What column types mean: the promotion order documented in
    include/libvroom/types.h:14-26, the rows a sample consists of, and the options. *)
From Coq Require Import Relations.
From Verif Require Import Base ChunkSpec FieldsSpec.

(** enum class DataType (types.h:16-26). *)
Inductive data_type := UNKNOWN | BOOL | INT32 | INT64 | FLOAT64 | STRING | DATE | TIMESTAMP | NA.

(** One promotion step: BOOL < INT32 < INT64 < FLOAT64 < STRING, DATE < TIMESTAMP < STRING;
    a missing value goes into any column. *)
Inductive promotes : data_type -> data_type -> Prop :=
| p_bool : promotes BOOL INT32
| p_int32 : promotes INT32 INT64
| p_int64 : promotes INT64 FLOAT64
| p_float : promotes FLOAT64 STRING
| p_date : promotes DATE TIMESTAMP
| p_timestamp : promotes TIMESTAMP STRING
| p_na : forall t, t <> UNKNOWN -> promotes NA t.

(** [below a b]: a value of type a may be stored in a column of type b. *)
Definition below : data_type -> data_type -> Prop := clos_refl_trans data_type promotes.

(** [t] is the narrowest type into which all of [ts] may be stored. *)
Definition narrowest (ts : list data_type) (t : data_type) : Prop :=
  (forall a, In a ts -> below a t) /\
  (forall u, u <> UNKNOWN -> (forall a, In a ts -> below a u) -> below t u).

(** The part of CsvOptions (options.h:13-25) that inference depends on. *)
Record csv_options := mkOptions
  { separator : byte; quote : byte; has_header : bool;
    null_values : bytes; true_values : bytes; false_values : bytes; sample_rows : nat }.
Definition default_options : csv_options :=
  mkOptions COMMA DQ true (s2b "NA,null,NULL,") (s2b "true,TRUE,True,yes,YES,Yes")
            (s2b "false,FALSE,False,no,NO,No") 1000.

(** The lines of a buffer: maximal pieces ending at a row end. *)
Fixpoint lines_upto (n : nat) (q : byte) (l : bytes) : list bytes :=
  match n, l with
  | S n', _ :: _ => let e := spec_find_row_end q l 0 in firstn e l :: lines_upto n' q (skipn e l)
  | _, _ => []
  end.
Definition lines (q : byte) (l : bytes) : list bytes := lines_upto (length l) q l.

(** Column k of a list of rows (rows that are too short do not contribute). *)
Definition cells_of {A} (k : nat) (rows : list (list A)) : list A :=
  flat_map (fun r => match nth_error r k with Some c => [c] | None => [] end) rows.

(** The part of a line before its first newline character. *)
Fixpoint before_newline (l : bytes) : bytes :=
  match l with
  | [] => []
  | c :: r => if newline c then [] else c :: before_newline r
  end.

(** The cells of a sampled line: its unquoted-separator-delimited fields, unquoted and
    trimmed.  An empty field at the end of a line without newline does not count. *)
Definition line_cells (sep q : byte) (line : bytes) : list bytes :=
  let fs := fst (raw_row newline sep q false (before_newline line)) in
  if existsb newline line || negb (length (header_chars q (last fs []) false []) =? 0)
  then map (header_name q) fs else removelast (map (header_name q) fs).

(** The first [n] rows after dropping [skip] lines. *)
Definition sample (o : csv_options) (skip n : nat) (data : bytes) : list (list bytes) :=
  map (line_cells (separator o) (quote o)) (firstn n (skipn skip (lines (quote o) data))).
