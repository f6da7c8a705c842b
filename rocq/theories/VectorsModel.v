(** The column writers that take a vector of values and a vector of null flags.
    Models src/writer/column_writer.cpp, src/writer/page_writer.cpp:48-160, 163-219,
    src/writer/row_group.cpp and src/writer/dictionary.cpp:11-49, 157-192, 223-258.
    None = undefined behaviour (a null flag that is not there is read) or an exception (reserve
    of a size below 0).  page_size is not used by the code.  Copies of shared buffers
    (CowByteBuffer) are values here. *)
From Verif Require Import Base BuffersModel RleModel PlainModel TypesSpec ThriftSpec MetaSpec ParquetModel StatsSpec StatsModel.

(** column_writer.cpp:44-54.  encoding is DICTIONARY exactly when uses_dictionary. *)
Record column_chunk : Type := ColumnChunkData {
  cc_data : bytes; cc_total_compressed : Z; cc_total_uncompressed : Z; cc_num_values : Z; cc_null_count : Z;
  cc_type : data_type; cc_statistics : column_statistics; cc_uses_dictionary : bool }.

(** The loops that keep the values that are not null (column_writer.cpp:111-118, 192-196, 241-245, 363-367,
    page_writer.cpp:204-211): null_bitmap.empty() || !null_bitmap[i]. *)
Definition kept {V} (values : list V) (null_bitmap : list bool) : option (list V) :=
  match null_bitmap with [] => Some values | _ => keep_flagged values null_bitmap end.

(** dictionary.cpp:22-29, 167-173, 233-239: the keys of the unordered_map of counts. *)
Section Unique.
Context {V : Type}.
Variable eqb : V -> V -> bool.
Fixpoint insert_unique (vs : list V) (set : list V) : list V :=
  match vs with
  | [] => set
  | v :: r => insert_unique r (if existsb (eqb v) set then set else v :: set)
  end.
(** dictionary.cpp:11-49 with [most] = 2048 (its three branches have the same result), 157-192
    and 223-258 with [most] = 256; [below cardinality total]: the comparison of doubles
    ratio < ratio_threshold (integers: ratio < 0.5 * ratio_threshold), left open. *)
Definition analyze_dictionary (most : nat) (below : nat -> nat -> bool) (values : list V) (null_bitmap : list bool) : option bool :=
  match values with
  | [] => Some false
  | _ => match kept values null_bitmap with
         | None => None
         | Some vs => let cardinality := length (insert_unique vs []) in
                      Some ((cardinality <=? 16) || (cardinality <=? most) && below cardinality (length values))
         end
  end.
End Unique.

Section Writers.
Variable library : compression -> bytes -> option bytes.
Variable codec : compression.

(** page_writer.cpp:73-84, 109-117, 128-137, 153-161, 217-224: compressed if that is smaller. *)
Definition finish_page (page : bytes) : bytes :=
  match codec with
  | NONE => page
  | _ => let c := compress library (Options codec false) page in if length c <? length page then c else page
  end.

(** page_writer.cpp:54-65, 184-195 *)
Definition page_levels (null_bitmap : list bool) : bytes :=
  if existsb (fun b => b) null_bitmap then encode_def_levels_hybrid_legacy null_bitmap 1 else [].
(** page_writer.cpp:48-85 *)
Definition write_data_page (data : bytes) (null_bitmap : list bool) : bytes := finish_page (page_levels null_bitmap ++ data).

(** page_writer.cpp:164-174 *)
Definition bits_required_internal (max_value : N) : N := if (max_value =? 0)%N then 1%N else bits_loop 32 max_value 0.
(** page_writer.cpp:197-199 *)
Definition indices_width (dictionary_size : nat) : nat :=
  N.to_nat (if 0 <? dictionary_size then bits_required_internal (N.of_nat (dictionary_size - 1) mod 2 ^ 32)%N else 1%N).
(** page_writer.cpp:177-227 *)
Definition write_dictionary_data_page (indices : list Z) (null_bitmap : list bool) (dictionary_size : nat) : option bytes :=
  match kept indices null_bitmap with
  | None => None
  | Some is =>
      let bw := indices_width dictionary_size in
      Some (finish_page (page_levels null_bitmap ++ [N.of_nat bw] ++ encode_hybrid_rle bw (map (fun i => Z.to_N (i mod 2 ^ 32)%Z) is)))
  end.

(** column_writer.cpp:65-84, 145-160, 223-238, 344-359: given statistics, or those of the class; the number of nulls. *)
Definition from_class {T} (wrap : T -> stat_value) (r : report T) : column_statistics :=
  ColumnStatistics (r_has_null r) (r_nulls r) 0
    (if r_has_value r then wrap (r_min r) else NoValue) (if r_has_value r then wrap (r_max r) else NoValue).
Definition class_statistics {T S} (c : class T S) (wrap : T -> stat_value) (precomputed : option column_statistics)
    (values : list T) (null_bitmap : list bool) : column_statistics * Z :=
  match precomputed with
  | Some s => (s, cs_null_count s)
  | None => let r := c_get c (c_batch_nulls c (c_new c) values null_bitmap) in (from_class wrap r, r_nulls r)
  end.
(** column_writer.cpp:279-288 *)
Definition string_statistics (precomputed : option column_statistics) (null_bitmap : list bool) : column_statistics * Z :=
  match precomputed with
  | Some s => (s, cs_null_count s)
  | None => (new_column_statistics, Z.of_nat (length (filter (fun b => b) null_bitmap)))
  end.

(** column_writer.cpp:120-130, 201-210, 250-259, 318-331, 380-389 *)
Definition plain_chunk (t : data_type) (sn : column_statistics * Z) (n : nat) (encoded : option bytes) (null_bitmap : list bool) : option column_chunk :=
  option_map (fun encoded_data =>
    let page := write_data_page encoded_data null_bitmap in
    ColumnChunkData page (Z.of_nat (length page)) (Z.of_nat (length encoded_data)) (Z.of_nat n) (snd sn) t (fst sn) false) encoded.
(** column_writer.cpp:90-108, 167-185, 294-312 *)
Definition dictionary_chunk {V} (eqb : V -> V -> bool) (page_of : list V -> option bytes) (t : data_type) (sn : column_statistics * Z)
    (values : list V) (null_bitmap : list bool) : option column_chunk :=
  match create_dictionary eqb values null_bitmap with
  | None => None
  | Some (dictionary, indices) =>
      match page_of dictionary, write_dictionary_data_page indices null_bitmap (length dictionary) with
      | Some dict_page, Some data_page =>
          let output := finish_page dict_page ++ data_page in
          Some (ColumnChunkData output (Z.of_nat (length output)) (Z.of_nat (length output)) (Z.of_nat (length values)) (snd sn) t (fst sn) true)
      | _, _ => None
      end
  end.

(** non_null_values.reserve(values.size() - null_count), then the loop (109-118 and alike). *)
Definition reserved_kept {V} (null_count : Z) (values : list V) (null_bitmap : list bool) : option (list V) :=
  if (Z.of_nat (length values) <? null_count)%Z then None else kept values null_bitmap.

Definition no_nulls_then {V} (encode : list V -> list bool -> option bytes) (o : option (list V)) : option bytes :=
  match o with None => None | Some vs => encode vs [] end.

(** column_writer.cpp:57-133 (int32), 136-210 (int64) *)
Definition write_int_column {S} (t : data_type) (c : class Z S) (wrap : Z -> stat_value) (encode : list Z -> list bool -> option bytes)
    (dict_page : list Z -> bytes) (enable_dictionary : bool) (below : nat -> nat -> bool)
    (precomputed : option column_statistics) (values : list Z) (null_bitmap : list bool) : option column_chunk :=
  let sn := class_statistics c wrap precomputed values null_bitmap in
  match (if enable_dictionary then analyze_dictionary Z.eqb 256 below values null_bitmap else Some false) with
  | None => None
  | Some true => dictionary_chunk Z.eqb (fun d => Some (dict_page d)) t sn values null_bitmap
  | Some false => plain_chunk t sn (length values) (no_nulls_then encode (reserved_kept (snd sn) values null_bitmap)) null_bitmap
  end.
Definition write_int32_column (lanes : nat) :=
  write_int_column INT32 (int32_class lanes) Int32Value encode_int32_plain write_int32_dictionary_page.
Definition write_int64_column (lanes : nat) :=
  write_int_column INT64 (int64_class lanes) Int64Value encode_int64_plain write_int64_dictionary_page.
(** column_writer.cpp:214-267 *)
Definition write_float64_column (hw : hardware) (precomputed : option column_statistics) (values : list N) (null_bitmap : list bool) : option column_chunk :=
  let sn := class_statistics (double_class hw) DoubleValue precomputed values null_bitmap in
  plain_chunk FLOAT64 sn (length values) (no_nulls_then encode_float64_plain (reserved_kept (snd sn) values null_bitmap)) null_bitmap.
(** column_writer.cpp:335-396; the packing loop 371-378 is that of encode_bool_plain. *)
Definition write_bool_column (precomputed : option column_statistics) (values : list bool) (null_bitmap : list bool) : option column_chunk :=
  let sn := class_statistics bool_class BoolValue precomputed values null_bitmap in
  plain_chunk BOOL sn (length values) (no_nulls_then encode_bool_plain (reserved_kept (snd sn) values null_bitmap)) null_bitmap.
(** column_writer.cpp:270-331 *)
Definition write_string_column (enable_dictionary : bool) (below : nat -> nat -> bool)
    (precomputed : option column_statistics) (values : list bytes) (null_bitmap : list bool) : option column_chunk :=
  let sn := string_statistics precomputed null_bitmap in
  match (if enable_dictionary then analyze_dictionary bytes_equal 2048 below values null_bitmap else Some false) with
  | None => None
  | Some true => dictionary_chunk bytes_equal encode_dictionary_page_strings STRING sn values null_bitmap
  | Some false => plain_chunk STRING sn (length values) (encode_byte_array_plain values null_bitmap) null_bitmap
  end.
End Writers.

(** row_group.cpp:7-43: columns are given by their sizes, output by its length. *)
Record row_group_metadata : Type := RowGroupMetadata { rg_total_byte_size : Z; rg_num_rows : Z; rg_offsets : list Z; rg_sizes : list Z }.
Definition build_row_group (columns : list nat) (output : nat) : row_group_metadata :=
  match columns with
  | [] => RowGroupMetadata 0 0 [] []
  | c0 :: _ =>
      fold_left (fun m _ => let column_start := Z.of_nat output in let column_size := (Z.of_nat output - column_start)%Z in
        RowGroupMetadata (rg_total_byte_size m + column_size) (rg_num_rows m) (rg_offsets m ++ [column_start]) (rg_sizes m ++ [column_size]))
        columns (RowGroupMetadata 0 (Z.of_nat c0) [] [])
  end.
