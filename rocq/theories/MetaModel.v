(** The write methods of src/writer/parquet_types.cpp, on the writer of ThriftModel. *)
From Verif Require Import Base ThriftSpec MetaSpec ThriftModel.

(** if (x.has_value()) { writer.write_field_begin(id, code); write(x.value()); } *)
Definition write_opt {A} (w : writer) (id : Z) (code : N) (o : option A) (write : writer -> A -> writer) : writer :=
  match o with None => w | Some a => write (write_field_begin w id code) a end.
(** writer.write_field_begin(id, code); write(x); *)
Definition write_req {A} (w : writer) (id : Z) (code : N) (a : A) (write : writer -> A -> writer) : writer :=
  write (write_field_begin w id code) a.
(** write_list_begin; for (...) write; write_list_end *)
Definition write_list {A} (code : N) (write : writer -> A -> writer) (w : writer) (l : list A) : writer :=
  write_list_end (fold_left write l (write_list_begin w code (N.of_nat (length l)))).
(** An optional boolean field is its header alone. *)
Definition write_opt_bool (w : writer) (id : Z) (o : option bool) : writer :=
  match o with None => w | Some b => write_field_begin w id (if b then TYPE_BOOL_TRUE else TYPE_BOOL_FALSE) end.

(** 6-46 *)
Definition write_statistics (w : writer) (s : statistics) : writer :=
  let w := write_struct_begin w in
  let w := write_opt w 1 TYPE_BINARY (s_max s) write_binary in
  let w := write_opt w 2 TYPE_BINARY (s_min s) write_binary in
  let w := write_opt w 3 TYPE_I64 (s_null_count s) write_i64 in
  let w := write_opt w 4 TYPE_I64 (s_distinct_count s) write_i64 in
  let w := write_opt w 5 TYPE_BINARY (s_max_value s) write_binary in
  let w := write_opt w 6 TYPE_BINARY (s_min_value s) write_binary in
  write_struct_end w.

(** 48-86 *)
Definition write_schema_element (w : writer) (s : schema_element) : writer :=
  let w := write_struct_begin w in
  let w := write_opt w 1 TYPE_I32 (se_type s) write_i32 in
  let w := write_opt w 2 TYPE_I32 (se_type_length s) write_i32 in
  let w := write_opt w 3 TYPE_I32 (se_repetition s) write_i32 in
  let w := write_req w 4 TYPE_BINARY (se_name s) write_binary in
  let w := write_opt w 5 TYPE_I32 (se_num_children s) write_i32 in
  let w := write_opt w 6 TYPE_I32 (se_converted s) write_i32 in
  write_struct_end w.

(** 88-114 *)
Definition write_data_page (w : writer) (d : data_page_header) : writer :=
  let w := write_struct_begin w in
  let w := write_req w 1 TYPE_I32 (dp_num_values d) write_i32 in
  let w := write_req w 2 TYPE_I32 (dp_encoding d) write_i32 in
  let w := write_req w 3 TYPE_I32 (dp_def_encoding d) write_i32 in
  let w := write_req w 4 TYPE_I32 (dp_rep_encoding d) write_i32 in
  let w := write_opt w 5 TYPE_STRUCT (dp_statistics d) write_statistics in
  write_struct_end w.

(** 116-134 *)
Definition write_dict_page (w : writer) (d : dict_page_header) : writer :=
  let w := write_struct_begin w in
  let w := write_req w 1 TYPE_I32 (di_num_values d) write_i32 in
  let w := write_req w 2 TYPE_I32 (di_encoding d) write_i32 in
  let w := write_opt_bool w 3 (di_is_sorted d) in
  write_struct_end w.

(** 136-176 *)
Definition write_data_page_v2 (w : writer) (d : data_page_header_v2) : writer :=
  let w := write_struct_begin w in
  let w := write_req w 1 TYPE_I32 (d2_num_values d) write_i32 in
  let w := write_req w 2 TYPE_I32 (d2_num_nulls d) write_i32 in
  let w := write_req w 3 TYPE_I32 (d2_num_rows d) write_i32 in
  let w := write_req w 4 TYPE_I32 (d2_encoding d) write_i32 in
  let w := write_req w 5 TYPE_I32 (d2_def_length d) write_i32 in
  let w := write_req w 6 TYPE_I32 (d2_rep_length d) write_i32 in
  let w := write_opt_bool w 7 (d2_is_compressed d) in
  let w := write_opt w 8 TYPE_STRUCT (d2_statistics d) write_statistics in
  write_struct_end w.

(** 178-212 *)
Definition write_page_header (w : writer) (p : page_header) : writer :=
  let w := write_struct_begin w in
  let w := write_req w 1 TYPE_I32 (ph_type p) write_i32 in
  let w := write_req w 2 TYPE_I32 (ph_uncompressed p) write_i32 in
  let w := write_req w 3 TYPE_I32 (ph_compressed p) write_i32 in
  let w := write_opt w 4 TYPE_I32 (ph_crc p) write_i32 in
  let w := write_opt w 5 TYPE_STRUCT (ph_data p) write_data_page in
  let w := write_opt w 7 TYPE_STRUCT (ph_dict p) write_dict_page in
  write_struct_end w.

(** 214-228 *)
Definition write_key_value (w : writer) (k : key_value) : writer :=
  let w := write_struct_begin w in
  let w := write_req w 1 TYPE_BINARY (kv_key k) write_binary in
  let w := write_opt w 2 TYPE_BINARY (kv_value k) write_binary in
  write_struct_end w.

(** 230-287 *)
Definition write_column_meta (w : writer) (c : column_meta) : writer :=
  let w := write_struct_begin w in
  let w := write_req w 1 TYPE_I32 (cm_type c) write_i32 in
  let w := write_req w 2 TYPE_LIST (cm_encodings c) (write_list TYPE_I32 write_i32) in
  let w := write_req w 3 TYPE_LIST (cm_path c) (write_list TYPE_BINARY write_binary) in
  let w := write_req w 4 TYPE_I32 (cm_codec c) write_i32 in
  let w := write_req w 5 TYPE_I64 (cm_num_values c) write_i64 in
  let w := write_req w 6 TYPE_I64 (cm_uncompressed c) write_i64 in
  let w := write_req w 7 TYPE_I64 (cm_compressed c) write_i64 in
  let w := write_req w 9 TYPE_I64 (cm_data_offset c) write_i64 in
  let w := write_opt w 11 TYPE_I64 (cm_dict_offset c) write_i64 in
  let w := write_opt w 12 TYPE_STRUCT (cm_statistics c) write_statistics in
  write_struct_end w.

(** 289-309 *)
Definition write_column_chunk (w : writer) (c : column_chunk) : writer :=
  let w := write_struct_begin w in
  let w := write_opt w 1 TYPE_BINARY (cc_file_path c) write_binary in
  let w := write_req w 2 TYPE_I64 (cc_file_offset c) write_i64 in
  let w := write_opt w 3 TYPE_STRUCT (cc_meta c) write_column_meta in
  write_struct_end w.

(** 311-343 *)
Definition write_row_group (w : writer) (r : row_group) : writer :=
  let w := write_struct_begin w in
  let w := write_req w 1 TYPE_LIST (rg_columns r) (write_list TYPE_STRUCT write_column_chunk) in
  let w := write_req w 2 TYPE_I64 (rg_total_byte_size r) write_i64 in
  let w := write_req w 3 TYPE_I64 (rg_num_rows r) write_i64 in
  let w := write_opt w 5 TYPE_I64 (rg_file_offset r) write_i64 in
  let w := write_opt w 6 TYPE_I64 (rg_total_compressed r) write_i64 in
  write_struct_end w.

(** 345-356 *)
Definition write_type_defined_order (w : writer) : writer := write_struct_end (write_struct_begin w).
Definition write_column_order (w : writer) (c : column_order) : writer :=
  let w := write_struct_begin w in
  let w := write_type_defined_order (write_field_begin w 1 TYPE_STRUCT) in
  write_struct_end w.

(** 358-415 *)
Definition write_file_meta (w : writer) (f : file_meta) : writer :=
  let w := write_struct_begin w in
  let w := write_req w 1 TYPE_I32 (fm_version f) write_i32 in
  let w := write_req w 2 TYPE_LIST (fm_schema f) (write_list TYPE_STRUCT write_schema_element) in
  let w := write_req w 3 TYPE_I64 (fm_num_rows f) write_i64 in
  let w := write_req w 4 TYPE_LIST (fm_row_groups f) (write_list TYPE_STRUCT write_row_group) in
  let w := write_opt w 5 TYPE_LIST (fm_key_values f) (write_list TYPE_STRUCT write_key_value) in
  let w := write_opt w 6 TYPE_BINARY (fm_created_by f) write_binary in
  let w := write_opt w 7 TYPE_LIST (fm_column_orders f) (write_list TYPE_STRUCT write_column_order) in
  write_struct_end w.

(** What is claimed of a write method: it appends bytes, restores the writer's state, and a
    reader of the appended bytes recovers the structure and stops at its end. *)
Definition round_trips {A} (write : writer -> A -> writer) (parse : value -> option A) (a : A) : Prop :=
  exists bs, (forall w, w_buffer (write w a) = w_buffer w ++ bs /\ w_last (write w a) = w_last w /\ w_stack (write w a) = w_stack w) /\
    forall rest, read_as parse (bs ++ rest) = Some (a, rest).
