(** What a user hands to the writer, in terms of tables. *)
From Verif Require Import Base VarintSpec BuffersSpec BuffersModel BuffersReach TypesSpec PlainSpec ParquetSpec ParquetModel.

(** The cells of a column builder filled by any history of its public operations; the values are
    in the range of their C++ types. *)
Definition column_holds (a : arrow_column) (cells : list (option cell)) : Prop :=
  match a with
  | ABool c => exists dflt l, fixed_built dflt c l /\ cells = map (option_map (fun v => CBool (negb (v =? 0)%N))) l
  | AInt32 c | ADate c => exists dflt l, fixed_built dflt c l /\ (forall z, In (Some z) l -> int32 z) /\ cells = map (option_map CInt) l
  | AInt64 c | ATimestamp c => exists dflt l, fixed_built dflt c l /\ (forall z, In (Some z) l -> int64 z) /\ cells = map (option_map CInt) l
  | AFloat64 c => exists dflt l, fixed_built dflt c l /\ (forall b, In (Some b) l -> (b < 2 ^ 64)%N) /\ cells = map (option_map CDouble) l
  | AString c => exists l, strings_built c l /\ cells = map (option_map CBytes) l
  end.

(** The physical type of each column type, and the schema a reader should see. *)
Definition physical (t : data_type) : ptype :=
  match t with
  | BOOL => P_BOOLEAN | INT32 | DATE => P_INT32 | INT64 | TIMESTAMP => P_INT64 | FLOAT64 => P_DOUBLE
  | _ => P_BYTE_ARRAY
  end.
Definition leaf_of (s : column_schema) : leaf :=
  Leaf (cs_name s) (physical (cs_type s)) (cs_nullable s) (match cs_type s with STRING => Some 0%Z | _ => None end).

(** Bytes of text in a column, and sizes that stay far enough below the 2 GiB limits of the format. *)
Fixpoint text_bytes (cells : list (option cell)) : nat :=
  match cells with [] => 0 | Some (CBytes s) :: r => length s + text_bytes r | _ :: r => text_bytes r end.
Definition page_fits (cells : list (option cell)) : Prop :=
  (16 * N.of_nat (length cells) + N.of_nat (text_bytes cells) + 64 < 2 ^ 31)%N.
Fixpoint names_bytes (schema : list column_schema) : nat :=
  match schema with [] => 0 | s :: r => 400 + length (cs_name s) + names_bytes r end.
Definition footer_fits (schema : list column_schema) (groups : nat) : Prop :=
  ((N.of_nat groups + 1) * N.of_nat (names_bytes schema) + 1000 < 2 ^ 31)%N.

(** A column for which nothing but missing values was seen is stored as text. *)
Definition stored_type (t : data_type) : data_type := match t with UNKNOWN | NA => STRING | _ => t end.
(** One column of a row group of [n] rows: it has the schema's type, no nulls unless allowed. *)
Definition column_fits (n : nat) (s : column_schema) (a : arrow_column) (cells : list (option cell)) : Prop :=
  ac_type a = stored_type (cs_type s) /\ column_holds a cells /\ length cells = n /\
  (cs_nullable s = false -> ~ In None cells) /\ page_fits cells.
(** A row group: as many columns as the schema has. *)
Inductive columns_fit (n : nat) : list column_schema -> list arrow_column -> list (list (option cell)) -> Prop :=
| fit_nil : columns_fit n [] [] []
| fit_cons : forall s ss a aa c cc, column_fits n s a c -> columns_fit n ss aa cc -> columns_fit n (s :: ss) (a :: aa) (c :: cc).
Definition group_fits (schema : list column_schema) (columns : list arrow_column) (cells : list (list (option cell))) : Prop :=
  exists n, columns_fit n schema columns cells.

(** The codec id under which the format (parquet.thrift, CompressionCodec) files what each library
    call produces: Snappy, gzip members, Zstandard frames; raw LZ4 blocks are 7, LZ4_RAW. *)
Definition format_codec (c : compression) : Z :=
  match c with NONE => 0 | SNAPPY => 1 | GZIP => 2 | ZSTD => 6 | LZ4 => 7 end%Z.
(** What is assumed of a compression library: if it made the data (of less than 2 GiB) smaller, its
    output is not empty and the reader's decompressor for that codec id undoes it. *)
Definition lossless (library : compression -> bytes -> option bytes) (decompress : Z -> bytes -> option bytes) (c : compression) : Prop :=
  forall data out, (N.of_nat (length data) < 2 ^ 31)%N -> library c data = Some out -> length out < length data ->
    out <> [] /\ decompress (format_codec c) out = Some data.

(** Calls that do not open a file, and calls that do not open one successfully. *)
Definition no_open (o : pop) : Prop := match o with POpen true _ => False | _ => True end.

(** The pages of an encoded column, in the order in which they are to be in the file. *)
Definition dict_bytes (e : encoded_column) : bytes :=
  match e_uses_dict e, e_dict_header e, e_dict_content e with true, Some h, Some c => h ++ c | _, _, _ => [] end.
Definition chunk_bytes (e : encoded_column) : bytes := dict_bytes e ++ e_header e ++ e_content e.

(** Writing one file: open it on a device that does not fill up, set the schema, write the row groups, close. *)
Definition session (schema : list column_schema) (colss : list (list arrow_column)) : list pop :=
  [POpen true None; PSetSchema schema] ++ map PWrite colss ++ [PClose].
