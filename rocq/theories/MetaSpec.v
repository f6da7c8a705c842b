(** Parquet metadata structures and how a reader following parquet.thrift extracts them from
    decoded Thrift structs: fields are found by id, unknown ids ignored. *)
From Verif Require Import Base VarintSpec ThriftSpec.

Record statistics : Type := Stat { s_max : option bytes; s_min : option bytes; s_null_count : option Z;
  s_distinct_count : option Z; s_max_value : option bytes; s_min_value : option bytes }.
Record schema_element : Type := SchemaEl { se_type : option Z; se_type_length : option Z; se_repetition : option Z;
  se_name : bytes; se_num_children : option Z; se_converted : option Z }.
Record data_page_header : Type := DataPage { dp_num_values : Z; dp_encoding : Z; dp_def_encoding : Z; dp_rep_encoding : Z;
  dp_statistics : option statistics }.
Record dict_page_header : Type := DictPage { di_num_values : Z; di_encoding : Z; di_is_sorted : option bool }.
Record data_page_header_v2 : Type := DataPageV2 { d2_num_values : Z; d2_num_nulls : Z; d2_num_rows : Z; d2_encoding : Z;
  d2_def_length : Z; d2_rep_length : Z; d2_is_compressed : option bool; d2_statistics : option statistics }.
Record page_header : Type := Page { ph_type : Z; ph_uncompressed : Z; ph_compressed : Z; ph_crc : option Z;
  ph_data : option data_page_header; ph_dict : option dict_page_header }.
Record key_value : Type := KeyValue { kv_key : bytes; kv_value : option bytes }.
Record column_meta : Type := ColumnMeta { cm_type : Z; cm_encodings : list Z; cm_path : list bytes; cm_codec : Z;
  cm_num_values : Z; cm_uncompressed : Z; cm_compressed : Z; cm_data_offset : Z; cm_dict_offset : option Z;
  cm_statistics : option statistics }.
Record column_chunk : Type := ColumnChunk { cc_file_path : option bytes; cc_file_offset : Z; cc_meta : option column_meta }.
Record row_group : Type := RowGroup { rg_columns : list column_chunk; rg_total_byte_size : Z; rg_num_rows : Z;
  rg_file_offset : option Z; rg_total_compressed : option Z }.
(** A column order is the union with the single member TYPE_ORDER. *)
Inductive column_order : Type := TypeOrder.
Record file_meta : Type := FileMeta { fm_version : Z; fm_schema : list schema_element; fm_num_rows : Z;
  fm_row_groups : list row_group; fm_key_values : option (list key_value); fm_created_by : option bytes;
  fm_column_orders : option (list column_order) }.

(** ** Reading *)
Definition fields_of (v : value) : option (list (Z * value)) := match v with VStruct l => Some l | _ => None end.
Fixpoint field (id : Z) (l : list (Z * value)) : option value :=
  match l with [] => None | (i, v) :: r => if (i =? id)%Z then Some v else field id r end.
Definition bind {A B} (o : option A) (f : A -> option B) : option B := match o with None => None | Some a => f a end.
Notation "'let?' x := e 'in' k" := (bind e (fun x => k)) (at level 200, x name, k at level 200).
(** An optional and a required field; a value of the wrong type is an error. *)
Definition opt {A} (p : value -> option A) (id : Z) (l : list (Z * value)) : option (option A) :=
  match field id l with None => Some None | Some v => option_map Some (p v) end.
Definition req {A} (p : value -> option A) (id : Z) (l : list (Z * value)) : option A :=
  match field id l with None => None | Some v => p v end.
Definition as_i32 (v : value) : option Z := match v with VI32 z => Some z | _ => None end.
Definition as_i64 (v : value) : option Z := match v with VI64 z => Some z | _ => None end.
Definition as_binary (v : value) : option bytes := match v with VBinary s => Some s | _ => None end.
Definition as_bool (v : value) : option bool := match v with VBool b => Some b | _ => None end.
Fixpoint all_some {A} (l : list (option A)) : option (list A) :=
  match l with
  | [] => Some []
  | None :: _ => None
  | Some a :: r => option_map (cons a) (all_some r)
  end.
Definition as_list {A} (p : value -> option A) (v : value) : option (list A) :=
  match v with VList _ l => all_some (map p l) | _ => None end.

(** Field numbers of parquet.thrift. *)
Definition parse_statistics (v : value) : option statistics :=
  let? l := fields_of v in
  let? a := opt as_binary 1 l in let? b := opt as_binary 2 l in let? c := opt as_i64 3 l in
  let? d := opt as_i64 4 l in let? e := opt as_binary 5 l in let? f := opt as_binary 6 l in
  Some (Stat a b c d e f).
Definition parse_schema_element (v : value) : option schema_element :=
  let? l := fields_of v in
  let? a := opt as_i32 1 l in let? b := opt as_i32 2 l in let? c := opt as_i32 3 l in
  let? d := req as_binary 4 l in let? e := opt as_i32 5 l in let? f := opt as_i32 6 l in
  Some (SchemaEl a b c d e f).
Definition parse_data_page (v : value) : option data_page_header :=
  let? l := fields_of v in
  let? a := req as_i32 1 l in let? b := req as_i32 2 l in let? c := req as_i32 3 l in
  let? d := req as_i32 4 l in let? e := opt parse_statistics 5 l in
  Some (DataPage a b c d e).
Definition parse_dict_page (v : value) : option dict_page_header :=
  let? l := fields_of v in
  let? a := req as_i32 1 l in let? b := req as_i32 2 l in let? c := opt as_bool 3 l in
  Some (DictPage a b c).
Definition parse_data_page_v2 (v : value) : option data_page_header_v2 :=
  let? l := fields_of v in
  let? a := req as_i32 1 l in let? b := req as_i32 2 l in let? c := req as_i32 3 l in
  let? d := req as_i32 4 l in let? e := req as_i32 5 l in let? f := req as_i32 6 l in
  let? g := opt as_bool 7 l in let? h := opt parse_statistics 8 l in
  Some (DataPageV2 a b c d e f g h).
Definition parse_page_header (v : value) : option page_header :=
  let? l := fields_of v in
  let? a := req as_i32 1 l in let? b := req as_i32 2 l in let? c := req as_i32 3 l in
  let? d := opt as_i32 4 l in let? e := opt parse_data_page 5 l in let? f := opt parse_dict_page 7 l in
  Some (Page a b c d e f).
Definition parse_key_value (v : value) : option key_value :=
  let? l := fields_of v in
  let? a := req as_binary 1 l in let? b := opt as_binary 2 l in Some (KeyValue a b).
Definition parse_column_meta (v : value) : option column_meta :=
  let? l := fields_of v in
  let? a := req as_i32 1 l in let? b := req (as_list as_i32) 2 l in let? c := req (as_list as_binary) 3 l in
  let? d := req as_i32 4 l in let? e := req as_i64 5 l in let? f := req as_i64 6 l in let? g := req as_i64 7 l in
  let? h := req as_i64 9 l in let? i := opt as_i64 11 l in let? j := opt parse_statistics 12 l in
  Some (ColumnMeta a b c d e f g h i j).
Definition parse_column_chunk (v : value) : option column_chunk :=
  let? l := fields_of v in
  let? a := opt as_binary 1 l in let? b := req as_i64 2 l in let? c := opt parse_column_meta 3 l in
  Some (ColumnChunk a b c).
Definition parse_row_group (v : value) : option row_group :=
  let? l := fields_of v in
  let? a := req (as_list parse_column_chunk) 1 l in let? b := req as_i64 2 l in let? c := req as_i64 3 l in
  let? d := opt as_i64 5 l in let? e := opt as_i64 6 l in
  Some (RowGroup a b c d e).
Definition parse_column_order (v : value) : option column_order :=
  let? l := fields_of v in let? a := req fields_of 1 l in Some TypeOrder.
Definition parse_file_meta (v : value) : option file_meta :=
  let? l := fields_of v in
  let? a := req as_i32 1 l in let? b := req (as_list parse_schema_element) 2 l in let? c := req as_i64 3 l in
  let? d := req (as_list parse_row_group) 4 l in let? e := opt (as_list parse_key_value) 5 l in
  let? f := opt as_binary 6 l in let? g := opt (as_list parse_column_order) 7 l in
  Some (FileMeta a b c d e f g).

(** Read one structure from the front of a byte stream. *)
Definition read_as {A} (parse : value -> option A) (bs : bytes) : option (A * bytes) :=
  match read_struct bs with
  | None => None
  | Some (fs, rest) => match parse (VStruct fs) with None => None | Some a => Some (a, rest) end
  end.

(** ** What the C++ member types can hold *)
Definition small {A} (l : list A) : Prop := (N.of_nat (length l) < 2 ^ 31)%N.
Definition all_opt {A} (P : A -> Prop) (o : option A) : Prop := match o with None => True | Some a => P a end.
Definition ok_statistics (s : statistics) : Prop :=
  all_opt small (s_max s) /\ all_opt small (s_min s) /\ all_opt int64 (s_null_count s) /\
  all_opt int64 (s_distinct_count s) /\ all_opt small (s_max_value s) /\ all_opt small (s_min_value s).
Definition ok_schema_element (s : schema_element) : Prop :=
  all_opt int32 (se_type s) /\ all_opt int32 (se_type_length s) /\ all_opt int32 (se_repetition s) /\
  small (se_name s) /\ all_opt int32 (se_num_children s) /\ all_opt int32 (se_converted s).
Definition ok_data_page (d : data_page_header) : Prop :=
  int32 (dp_num_values d) /\ int32 (dp_encoding d) /\ int32 (dp_def_encoding d) /\ int32 (dp_rep_encoding d) /\
  all_opt ok_statistics (dp_statistics d).
Definition ok_dict_page (d : dict_page_header) : Prop := int32 (di_num_values d) /\ int32 (di_encoding d).
Definition ok_data_page_v2 (d : data_page_header_v2) : Prop :=
  int32 (d2_num_values d) /\ int32 (d2_num_nulls d) /\ int32 (d2_num_rows d) /\ int32 (d2_encoding d) /\
  int32 (d2_def_length d) /\ int32 (d2_rep_length d) /\ all_opt ok_statistics (d2_statistics d).
Definition ok_page_header (p : page_header) : Prop :=
  int32 (ph_type p) /\ int32 (ph_uncompressed p) /\ int32 (ph_compressed p) /\ all_opt int32 (ph_crc p) /\
  all_opt ok_data_page (ph_data p) /\ all_opt ok_dict_page (ph_dict p).
Definition ok_key_value (k : key_value) : Prop := small (kv_key k) /\ all_opt small (kv_value k).
Definition ok_column_meta (c : column_meta) : Prop :=
  int32 (cm_type c) /\ small (cm_encodings c) /\ Forall int32 (cm_encodings c) /\
  small (cm_path c) /\ Forall small (cm_path c) /\ int32 (cm_codec c) /\ int64 (cm_num_values c) /\
  int64 (cm_uncompressed c) /\ int64 (cm_compressed c) /\ int64 (cm_data_offset c) /\
  all_opt int64 (cm_dict_offset c) /\ all_opt ok_statistics (cm_statistics c).
Definition ok_column_chunk (c : column_chunk) : Prop :=
  all_opt small (cc_file_path c) /\ int64 (cc_file_offset c) /\ all_opt ok_column_meta (cc_meta c).
Definition ok_row_group (r : row_group) : Prop :=
  small (rg_columns r) /\ Forall ok_column_chunk (rg_columns r) /\ int64 (rg_total_byte_size r) /\
  int64 (rg_num_rows r) /\ all_opt int64 (rg_file_offset r) /\ all_opt int64 (rg_total_compressed r).
Definition ok_file_meta (f : file_meta) : Prop :=
  int32 (fm_version f) /\ small (fm_schema f) /\ Forall ok_schema_element (fm_schema f) /\ int64 (fm_num_rows f) /\
  small (fm_row_groups f) /\ Forall ok_row_group (fm_row_groups f) /\
  all_opt (fun l => small l /\ Forall ok_key_value l) (fm_key_values f) /\ all_opt small (fm_created_by f) /\
  all_opt small (fm_column_orders f).
