(** ParquetWriter: src/writer/parquet_file.cpp (the Arrow path), src/writer/encoded_row_group.h,
    src/writer/compression.cpp:51-155.
    The file system is reduced to the files this writer creates: each successful open starts an
    empty file.  A device may be full: [capacity] is the size at which writes start to fail.
    The pipeline calls are modelled in PipelineModel; parallel column encoding (605-625) writes
    each result to its own slot and is a map here.
    Statistics: EncodedColumn::statistics is never set on this path. *)
From Verif Require Import Base ThriftSpec MetaSpec ThriftModel MetaModel TypesSpec BuffersModel RleModel PlainSpec PlainModel.

(** types.h:83 *)
Inductive compression : Type := NONE | ZSTD | SNAPPY | LZ4 | GZIP.
(** parquet_file.cpp:91-106; parquet_types.h:44-53 *)
Definition to_parquet_codec (c : compression) : Z :=
  match c with NONE => 0 | GZIP => 2 | SNAPPY => 1 | ZSTD => 6 | LZ4 => 5 end%Z.
(** parquet_file.cpp:71-89; parquet_types.h:14-23 *)
Definition to_parquet_type (t : data_type) : Z :=
  match t with BOOL => 0 | INT32 => 1 | INT64 => 2 | DATE => 1 | TIMESTAMP => 2 | FLOAT64 => 5 | _ => 6 end%Z.
(** options.h:39-53; the fields that are used. *)
Record parquet_options : Type := Options { o_compression : compression; o_enable_dictionary : bool }.
(** types.h:130-135 *)
Record column_schema : Type := ColumnSchema { cs_name : bytes; cs_type : data_type; cs_nullable : bool }.

(** The seven Arrow*ColumnBuilder classes. *)
Inductive arrow_column : Type :=
| ABool (c : column (list N)) | AInt32 (c : column (list Z)) | AInt64 (c : column (list Z)) | AFloat64 (c : column (list N))
| AString (c : column strbuf) | ADate (c : column (list Z)) | ATimestamp (c : column (list Z)).
Definition ac_type (a : arrow_column) : data_type :=
  match a with ABool _ => BOOL | AInt32 _ => INT32 | AInt64 _ => INT64 | AFloat64 _ => FLOAT64
  | AString _ => STRING | ADate _ => DATE | ATimestamp _ => TIMESTAMP end.
Definition ac_nulls (a : arrow_column) : bitmap :=
  match a with ABool c => c_nulls c | AInt32 c => c_nulls c | AInt64 c => c_nulls c | AFloat64 c => c_nulls c
  | AString c => c_nulls c | ADate c => c_nulls c | ATimestamp c => c_nulls c end.
Definition ac_size (a : arrow_column) : nat :=
  match a with ABool c => fx_size c | AInt32 c => fx_size c | AInt64 c => fx_size c | AFloat64 c => fx_size c
  | AString c => sb_size (c_values c) | ADate c => fx_size c | ATimestamp c => fx_size c end.

(** encoded_row_group.h:17-37 *)
Record encoded_column : Type := Encoded {
  e_header : bytes; e_content : bytes; e_num_values : Z; e_uncompressed : Z; e_compressed : Z;
  e_codec : Z; e_type : data_type; e_name : bytes;
  e_uses_dict : bool; e_dict_header : option bytes; e_dict_content : option bytes; e_dict_uncompressed : Z }.

Section Writer.
(** The compression library: [None] = it reports failure, or the codec is not compiled in. *)
Variable library : compression -> bytes -> option bytes.
(** ratio < ratio_threshold in dictionary.cpp:80-86. *)
Variable below : nat -> nat -> bool.
Variable options : parquet_options.

(** compression.cpp:51-155 *)
Definition compress (data : bytes) : bytes :=
  match data with
  | [] => []
  | _ => match o_compression options with
         | NONE => data
         | codec => match library codec data with Some out => out | None => data end
         end
  end.
Definition is_none (c : compression) : bool := match c with NONE => true | _ => false end.
(** 463-473 and 556-567: the compressed buffer, empty if it is not used. *)
Definition compressed_or_empty (content : bytes) : bytes :=
  if is_none (o_compression options) then []
  else let c := compress content in if length c <? length content then c else [].
Definition shrinks (content : bytes) : bool :=
  negb (is_none (o_compression options)) && (length (compress content) <? length content).
(** 492-494, 588-589 *)
Definition stored (content : bytes) : bytes :=
  match compressed_or_empty content with [] => content | c => c end.
(** 462-469, 553-562 *)
Definition stored_size (content : bytes) : Z :=
  if shrinks content then to_int32 (length (compress content)) else to_int32 (length content).

(** The thrift writer starts on an empty buffer. *)
Definition header_bytes (h : page_header) : bytes := w_buffer (write_page_header (new_writer []) h).

(** 501-505 *)
Definition index_width (dict_size : nat) : nat :=
  let w := N.to_nat (bits_required (if dict_size =? 0 then 0%N else (N.of_nat (dict_size - 1) mod 2 ^ 32)%N)) in
  if w =? 0 then 1 else w.

(** 448-509: dictionary page (header, stored content, uncompressed size) and the index bytes. *)
Definition encode_with_dictionary (values : strbuf) (nulls : bitmap) : option (bytes * bytes * Z * bytes) :=
  match create_string_dictionary_arrow values nulls with
  | None => None
  | Some (dict_entries, indices) =>
      match encode_dictionary_page_strings dict_entries, encode_dictionary_indices indices nulls (index_width (length dict_entries)) with
      | Some raw, Some index_bytes =>
          let h := Page 2 (to_int32 (length raw)) (stored_size raw) None None
                     (Some (DictPage (to_int32 (length dict_entries)) PLAIN None)) in
          Some (header_bytes h, stored raw, to_int32 (length raw), index_bytes)
      | _, _ => None
      end
  end.

(** 436-550: what is appended to the page after the levels, and the dictionary page. *)
Definition encode_values (a : arrow_column) : option (bytes * option (bytes * bytes * Z)) :=
  match a with
  | AString c =>
      match (if o_enable_dictionary options then should_use_dictionary below (c_values c) (c_nulls c) else Some false) with
      | None => None
      | Some true => match encode_with_dictionary (c_values c) (c_nulls c) with
                     | None => None
                     | Some (h, content, size, index_bytes) => Some (index_bytes, Some (h, content, size))
                     end
      | Some false => option_map (fun bs => (bs, None)) (encode_byte_array_plain_arrow (c_values c) (c_nulls c))
      end
  | AInt32 c | ADate c => option_map (fun bs => (bs, None)) (encode_int32_plain_arrow (c_values c) (c_nulls c))
  | AInt64 c | ATimestamp c => option_map (fun bs => (bs, None)) (encode_int64_plain_arrow (c_values c) (c_nulls c))
  | AFloat64 c => option_map (fun bs => (bs, None)) (encode_float64_plain_arrow (c_values c) (c_nulls c))
  | ABool c => option_map (fun bs => (bs, None)) (encode_bool_plain_arrow (c_values c) (c_nulls c))
  end.

(** 369-594 *)
Definition encode_column_arrow (a : arrow_column) (s : column_schema) : option encoded_column :=
  let nulls := ac_nulls a in
  match (if cs_nullable s then encode_def_levels_hybrid_arrow nulls 1 (null_count_fast nulls) else Some []), encode_values a with
  | Some levels, Some (values, dict) =>
      let page := levels ++ values in
      let encoding := match dict with Some _ => RLE_DICTIONARY | None => PLAIN end in
      let h := Page 0 (to_int32 (length page)) (stored_size page) None
                 (Some (DataPage (to_int32 (ac_size a)) encoding 3 3 None)) None in
      Some (Encoded (header_bytes h) (stored page) (Z.of_nat (ac_size a)) (to_int32 (length page)) (stored_size page)
              (if shrinks page then to_parquet_codec (o_compression options) else 0%Z) (ac_type a) (cs_name s)
              (match dict with Some _ => true | None => false end)
              (option_map (fun d => fst (fst d)) dict) (option_map (fun d => snd (fst d)) dict)
              (match dict with Some d => snd d | None => 0%Z end))
  | _, _ => None
  end.

(** 599-639; schema[i] past the end is undefined.  num_rows and the columns. *)
Fixpoint encode_columns (columns : list arrow_column) (schema : list column_schema) : option (list encoded_column) :=
  match columns, schema with
  | [], _ => Some []
  | _ :: _, [] => None
  | a :: r, s :: ss => match encode_column_arrow a s, encode_columns r ss with
                       | Some e, Some l => Some (e :: l)
                       | _, _ => None
                       end
  end.

(** ** The writer object, 642-664; [ps_file] is what has reached the file. *)
Record pstate : Type := PState { ps_open : bool; ps_failed : bool; ps_file : bytes; ps_capacity : option nat; ps_closed : list bytes;
  ps_schema : list column_schema; ps_offset : Z; ps_groups : list row_group; ps_rows : Z }.
Definition writer_new : pstate := PState false false [] None [] [] 0 [] 0.

(** 686-689.  An ofstream that has failed ignores further writes; nothing checks it. *)
Definition write_bytes (p : pstate) (bs : bytes) : pstate :=
  let room := match ps_capacity p with None => true | Some k => length (ps_file p) + length bs <=? k end in
  let file := if ps_failed p then ps_file p
              else match ps_capacity p with None => ps_file p ++ bs | Some k => firstn k (ps_file p ++ bs) end in
  PState (ps_open p) (ps_failed p || negb room) file (ps_capacity p) (ps_closed p) (ps_schema p)
    (ps_offset p + Z.of_nat (length bs)) (ps_groups p) (ps_rows p).
Definition file_magic : bytes := [80; 65; 82; 49]%N.

(** 702-767: one column. *)
Definition column_metadata (e : encoded_column) (dict_offset : option Z) (data_offset written uncompressed : Z) : column_meta :=
  ColumnMeta (to_parquet_type (e_type e))
    (if e_uses_dict e then [0; 8; 3]%Z else [0; 3]%Z) [e_name e] (e_codec e) (e_num_values e)
    uncompressed written data_offset (if e_uses_dict e then dict_offset else None) None.
Definition write_column (pc : pstate * list column_chunk * Z * Z) (e : encoded_column) : pstate * list column_chunk * Z * Z :=
  let '(p, chunks, total_uncompressed, total_compressed) := pc in
  let '(p1, dict_offset, written1, uncompressed1) :=
    match e_uses_dict e, e_dict_header e, e_dict_content e with
    | true, Some h, Some c =>
        (write_bytes (write_bytes p h) c, Some (ps_offset p), Z.of_nat (length h + length c), (Z.of_nat (length h) + e_dict_uncompressed e)%Z)
    | _, _, _ => (p, None, 0%Z, 0%Z)
    end in
  let data_offset := ps_offset p1 in
  let p2 := write_bytes (write_bytes p1 (e_header e)) (e_content e) in
  let written := (written1 + Z.of_nat (length (e_header e) + length (e_content e)))%Z in
  let uncompressed := (uncompressed1 + (Z.of_nat (length (e_header e)) + e_uncompressed e))%Z in
  (p2, chunks ++ [ColumnChunk None 0 (Some (column_metadata e dict_offset data_offset written uncompressed))],
   (total_uncompressed + uncompressed)%Z, (total_compressed + written)%Z).
(** 695-771 *)
Definition write_encoded_row_group (p : pstate) (num_rows : Z) (columns : list encoded_column) : pstate :=
  let '(p1, chunks, total_uncompressed, total_compressed) := fold_left write_column columns (p, [], 0%Z, 0%Z) in
  PState (ps_open p1) (ps_failed p1) (ps_file p1) (ps_capacity p1) (ps_closed p1) (ps_schema p1) (ps_offset p1)
    (ps_groups p1 ++ [RowGroup chunks total_uncompressed num_rows (Some (ps_offset p)) (Some total_compressed)])
    (ps_rows p1 + num_rows).

(** 1057-1093 *)
Definition schema_leaf (s : column_schema) : schema_element :=
  SchemaEl (Some (to_parquet_type (cs_type s))) None (Some (if cs_nullable s then 1%Z else 0%Z)) (cs_name s) None
    (match cs_type s with STRING => Some 0%Z | _ => None end).
Definition created_by : bytes := s2b "vroom (C++ CSV to Parquet converter)".
Definition file_metadata (p : pstate) : file_meta :=
  FileMeta 1 (SchemaEl None None None (s2b "schema") (Some (to_int32 (length (ps_schema p)))) None :: map schema_leaf (ps_schema p))
    (ps_rows p) (ps_groups p) None (Some created_by) (Some (map (fun _ => TypeOrder) (ps_schema p))).

(** ** The public calls. *)
Inductive pop : Type :=
| POpen (os_accepts : bool) (capacity : option nat)
| PSetSchema (schema : list column_schema)
| PWrite (columns : list arrow_column)
| PClose.

(** 931-944: opening a stream that is already open fails, but is_open() is true all the same. *)
Definition do_open (p : pstate) (os_accepts : bool) (capacity : option nat) : pstate * bool :=
  if ps_open p then
    (write_bytes (PState true true (ps_file p) (ps_capacity p) (ps_closed p) (ps_schema p) (ps_offset p) (ps_groups p) (ps_rows p)) file_magic, true)
  else if os_accepts then
    (write_bytes (PState true false [] capacity (ps_closed p) (ps_schema p) (ps_offset p) (ps_groups p) (ps_rows p)) file_magic, true)
  else (p, false).
(** 946-948 *)
Definition do_set_schema (p : pstate) (schema : list column_schema) : pstate :=
  PState (ps_open p) (ps_failed p) (ps_file p) (ps_capacity p) (ps_closed p) schema (ps_offset p) (ps_groups p) (ps_rows p).
(** 950-969 *)
Definition do_write (p : pstate) (columns : list arrow_column) : option (pstate * bool) :=
  if negb (ps_open p) then Some (p, false)
  else match columns with
       | [] => Some (p, true)
       | a :: _ => match encode_columns columns (ps_schema p) with
                   | None => None
                   | Some encoded => Some (write_encoded_row_group p (Z.of_nat (ac_size a)) encoded, true)
                   end
       end.
(** 1052-1114 *)
Definition do_close (p : pstate) : pstate * bool :=
  if negb (ps_open p) then (p, true)
  else let metadata := w_buffer (write_file_meta (new_writer []) (file_metadata p)) in
       let p1 := write_bytes p metadata in
       let p2 := write_bytes p1 (int32_bytes (to_int32 (length metadata))) in
       let p3 := write_bytes p2 file_magic in
       (PState false (ps_failed p3) [] None (ps_closed p3 ++ [ps_file p3]) (ps_schema p3) (ps_offset p3) (ps_groups p3) (ps_rows p3), true).

Definition pstep (p : pstate) (o : pop) : option (pstate * bool) :=
  match o with
  | POpen ok cap => Some (do_open p ok cap)
  | PSetSchema s => Some (do_set_schema p s, true)
  | PWrite cols => do_write p cols
  | PClose => Some (do_close p)
  end.
(** A history: the final state and what each call reported. *)
Fixpoint prun (p : pstate) (ops : list pop) : option (pstate * list bool) :=
  match ops with
  | [] => Some (p, [])
  | o :: r => match pstep p o with
              | None => None
              | Some (p', ok) => match prun p' r with None => None | Some (p'', oks) => Some (p'', ok :: oks) end
              end
  end.
End Writer.
