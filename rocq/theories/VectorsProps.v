(** C111: the column writers that take vectors. *)
From Verif Require Import Base VarintSpec RleSpec RleModel HybridSpec BuffersSpec BuffersModel PlainSpec PlainModel PlainProof PlainProof2
  TypesSpec ThriftSpec ThriftModel MetaSpec ParquetModel StatsSpec StatsModel StatsProof5 StatsProps VectorsSpec VectorsModel VectorsProof VectorsProof2.

(** Integers.  The chunk is written for every column; its counts and statistics are right (or those
    given); the dictionary is used exactly when the thresholds say so; and, if groups of literals
    are aligned in the levels and in the indices, a reader that is told which pages are compressed
    and how many entries the dictionary has finds the rows.
    Missing: other patterns (C64_levels_exactly, C32_round_trip_exactly), dictionary chunks whose
    rows are all null (below). *)
Theorem C111_int32_columns_partial : forall library decompress codec lanes enable below pre values null_bitmap,
  lossless library decompress -> 0 < lanes -> shape values null_bitmap -> (N.of_nat (length values) < 2 ^ 29)%N ->
  Forall int32 values -> sensible pre values ->
  let rows := legacy_rows values null_bitmap in
  exists ch dict indices, write_int32_column library codec lanes enable below pre values null_bitmap = Some ch /\
    (cc_type ch = INT32 /\ cc_num_values ch = Z.of_nat (length values) /\ cc_total_compressed ch = Z.of_nat (length (cc_data ch))) /\
    faithful_dictionary rows dict indices /\
    statistics_are (fun s => column_describes int_lt Int32Value s rows) (nulls rows) pre (cc_statistics ch, cc_null_count ch) /\
    (cc_uses_dictionary ch = true <-> enable = true /\ values <> [] /\ (length dict <= 16 \/ length dict <= 256 /\ below (length dict) (length values) = true)) /\
    ((some_null rows = true -> aligned (pieces (levels 1 (valid_flags rows)))) ->
     (cc_uses_dictionary ch = false -> plain_chunk_reads decompress codec P_INT32 (some_null rows) (cc_data ch) (map (option_map CInt) rows)) /\
     (cc_uses_dictionary ch = true -> (exists v, In (Some v) rows) -> aligned (pieces (map Z.to_N (filter (fun i => (0 <=? i)%Z) indices))) ->
      dictionary_chunk_reads decompress codec P_INT32 (some_null rows) (map CInt dict) (cc_data ch) (map (option_map CInt) rows))).
Proof.
  intros library decompress codec lanes enable below pre vs bm L HL H HN OK SE.
  exact (int_column library decompress codec L INT32 P_INT32 (int32_class lanes) Int32Value encode_int32_plain write_int32_dictionary_page int32_bytes enable below pre vs bm int32
    (fun _ => eq_refl) int32_page ltac:(discriminate) read_int32 (fun h => proj1 (C42_integer_statistics lanes h HL)) H HN OK SE).
Qed.
Print Assumptions C111_int32_columns_partial.
Theorem C111_int64_columns_partial : forall library decompress codec lanes enable below pre values null_bitmap,
  lossless library decompress -> 0 < lanes -> shape values null_bitmap -> (N.of_nat (length values) < 2 ^ 29)%N ->
  Forall int64 values -> sensible pre values ->
  let rows := legacy_rows values null_bitmap in
  exists ch dict indices, write_int64_column library codec lanes enable below pre values null_bitmap = Some ch /\
    (cc_type ch = INT64 /\ cc_num_values ch = Z.of_nat (length values) /\ cc_total_compressed ch = Z.of_nat (length (cc_data ch))) /\
    faithful_dictionary rows dict indices /\
    statistics_are (fun s => column_describes int_lt Int64Value s rows) (nulls rows) pre (cc_statistics ch, cc_null_count ch) /\
    (cc_uses_dictionary ch = true <-> enable = true /\ values <> [] /\ (length dict <= 16 \/ length dict <= 256 /\ below (length dict) (length values) = true)) /\
    ((some_null rows = true -> aligned (pieces (levels 1 (valid_flags rows)))) ->
     (cc_uses_dictionary ch = false -> plain_chunk_reads decompress codec P_INT64 (some_null rows) (cc_data ch) (map (option_map CInt) rows)) /\
     (cc_uses_dictionary ch = true -> (exists v, In (Some v) rows) -> aligned (pieces (map Z.to_N (filter (fun i => (0 <=? i)%Z) indices))) ->
      dictionary_chunk_reads decompress codec P_INT64 (some_null rows) (map CInt dict) (cc_data ch) (map (option_map CInt) rows))).
Proof.
  intros library decompress codec lanes enable below pre vs bm L HL H HN OK SE.
  exact (int_column library decompress codec L INT64 P_INT64 (int64_class lanes) Int64Value encode_int64_plain write_int64_dictionary_page int64_bytes enable below pre vs bm int64
    (fun _ => eq_refl) int64_page ltac:(discriminate) read_int64 (fun h => proj2 (C42_integer_statistics lanes h HL)) H HN OK SE).
Qed.
Print Assumptions C111_int64_columns_partial.
(** Strings: no statistics unless given. *)
Theorem C111_string_columns_partial : forall library decompress codec enable below pre values null_bitmap,
  lossless library decompress -> shape values null_bitmap -> (N.of_nat (length values) < 2 ^ 29)%N ->
  Forall (fun s => (N.of_nat (length s) < 2 ^ 32)%N) values ->
  let rows := legacy_rows values null_bitmap in
  exists ch dict indices, write_string_column library codec enable below pre values null_bitmap = Some ch /\
    (cc_type ch = STRING /\ cc_num_values ch = Z.of_nat (length values) /\ cc_total_compressed ch = Z.of_nat (length (cc_data ch))) /\
    faithful_dictionary rows dict indices /\
    statistics_are (fun s => s = ColumnStatistics false 0 0 NoValue NoValue) (nulls rows) pre (cc_statistics ch, cc_null_count ch) /\
    (cc_uses_dictionary ch = true <-> enable = true /\ values <> [] /\ (length dict <= 16 \/ length dict <= 2048 /\ below (length dict) (length values) = true)) /\
    ((some_null rows = true -> aligned (pieces (levels 1 (valid_flags rows)))) ->
     (cc_uses_dictionary ch = false -> plain_chunk_reads decompress codec P_BYTE_ARRAY (some_null rows) (cc_data ch) (map (option_map CBytes) rows)) /\
     (cc_uses_dictionary ch = true -> (exists v, In (Some v) rows) -> aligned (pieces (map Z.to_N (filter (fun i => (0 <=? i)%Z) indices))) ->
      dictionary_chunk_reads decompress codec P_BYTE_ARRAY (some_null rows) (map CBytes dict) (cc_data ch) (map (option_map CBytes) rows))).
Proof. intros library decompress codec enable below pre vs bm L. exact (string_column library decompress codec L enable below pre vs bm). Qed.
Print Assumptions C111_string_columns_partial.
Theorem C111_bool_columns_partial : forall library decompress codec pre values null_bitmap,
  lossless library decompress -> shape values null_bitmap -> (N.of_nat (length values) < 2 ^ 29)%N -> sensible pre values ->
  let rows := legacy_rows values null_bitmap in
  exists ch, write_bool_column library codec pre values null_bitmap = Some ch /\
    (cc_type ch = BOOL /\ cc_num_values ch = Z.of_nat (length values) /\ cc_total_compressed ch = Z.of_nat (length (cc_data ch))) /\
    cc_uses_dictionary ch = false /\
    statistics_are (fun s => column_describes bool_lt BoolValue s rows) (nulls rows) pre (cc_statistics ch, cc_null_count ch) /\
    ((some_null rows = true -> aligned (pieces (levels 1 (valid_flags rows)))) ->
     plain_chunk_reads decompress codec P_BOOLEAN (some_null rows) (cc_data ch) (map (option_map CBool) rows)).
Proof. intros library decompress codec pre vs bm L. exact (bool_column library decompress codec L pre vs bm). Qed.
Print Assumptions C111_bool_columns_partial.
(** Doubles: a NaN counts as a null in the statistics and in the number of nulls. *)
Theorem C111_double_columns_partial : forall library decompress codec hw pre values null_bitmap,
  lossless library decompress -> right_on_numbers hw -> shape values null_bitmap -> (N.of_nat (length values) < 2 ^ 29)%N ->
  Forall (fun b => (b < 2 ^ 64)%N) values -> sensible pre values ->
  let rows := legacy_rows values null_bitmap in
  exists ch, write_float64_column library codec hw pre values null_bitmap = Some ch /\
    (cc_type ch = FLOAT64 /\ cc_num_values ch = Z.of_nat (length values) /\ cc_total_compressed ch = Z.of_nat (length (cc_data ch))) /\
    cc_uses_dictionary ch = false /\
    statistics_are (fun s => column_describes dbl_lt DoubleValue s (nan_null rows)) (nulls (nan_null rows)) pre (cc_statistics ch, cc_null_count ch) /\
    ((some_null rows = true -> aligned (pieces (levels 1 (valid_flags rows)))) ->
     plain_chunk_reads decompress codec P_DOUBLE (some_null rows) (cc_data ch) (map (option_map CDouble) rows)).
Proof. intros library decompress codec hw pre vs bm L. exact (double_column library decompress codec L hw pre vs bm). Qed.
Print Assumptions C111_double_columns_partial.

(** A chunk does not say how many entries its dictionary has: two columns give the same chunk. *)
Definition column_a : list Z := map (fun i => nth i [-2147483648; 2147483647; 5; 6]%Z 0%Z)
  [0; 1; 2; 3; 0; 1; 2; 1; 3; 0; 0; 0; 0; 0; 2; 0; 0; 0; 0; 0; 0; 0; 2; 0; 1; 0; 0; 0; 0; 0; 2; 0; 2; 0; 0; 0; 1; 1; 0; 0;
   3; 0; 2; 0; 2; 1; 0; 1; 0; 3; 0; 2; 0; 2; 1; 0; 1; 0; 3; 0; 2; 0; 2; 1; 1; 1; 1; 1; 1; 1; 1; 1; 1].
Definition column_b : list Z := map (fun i => nth i [-2147483648; 2147483647; 5; 6; 1692668162]%Z 0%Z)
  (repeat 0 16 ++ repeat 1 16 ++ repeat 2 16 ++ [3; 4; 0; 3; 4; 0; 3; 4; 0; 3; 4; 0; 3; 4; 0; 3] ++ repeat 1 9).
Theorem C111_same_chunk_refuted :
  let write := fun vs => write_int32_column (fun _ _ => None) NONE 8 true (fun _ _ => true) None vs [] in
  column_a <> column_b /\ Forall int32 column_a /\ Forall int32 column_b /\
  exists ch, write column_a = Some ch /\ write column_b = Some ch.
Proof.
  cbv zeta. split; [intros E; vm_compute in E; discriminate E|].
  split; [apply Forall_forall; intros z Hz; repeat (destruct Hz as [<-|Hz]; [vm_compute; split; [discriminate|reflexivity]|]); destruct Hz|].
  split; [apply Forall_forall; intros z Hz; repeat (destruct Hz as [<-|Hz]; [vm_compute; split; [discriminate|reflexivity]|]); destruct Hz|].
  eexists. split; vm_compute; reflexivity.
Qed.
Print Assumptions C111_same_chunk_refuted.

(** A null and then eight values: no reader finds the rows. *)
Theorem C111_null_then_values_refuted :
  let rows := legacy_rows (repeat 7%Z 9) (true :: repeat false 8) in
  exists ch, write_int32_column (fun _ _ => None) NONE 8 false (fun _ _ => true) None (repeat 7%Z 9) (true :: repeat false 8) = Some ch /\
    read_page P_INT32 true [] PLAIN 9 (cc_data ch) <> Some (map (option_map CInt) rows).
Proof. cbv zeta. eexists. split; [vm_compute; reflexivity|vm_compute; discriminate]. Qed.
Print Assumptions C111_null_then_values_refuted.

(** The size before compression leaves out the levels, or is the stored size; strings with a null
    are described as without; a NaN makes a column without nulls count one, although its page has
    no levels; an all-null column with a dictionary has one byte too many; and a row group, of which the
    rows are right, is recorded without any bytes, all columns in the same place. *)
Theorem C111_metadata_refuted :
  (exists ch, write_int32_column (fun _ _ => None) NONE 8 false (fun _ _ => true) None [7; 7]%Z [true; false] = Some ch /\
     cc_total_uncompressed ch = 4%Z /\ length (cc_data ch) = 10) /\
  (let page := [1; 128; 1; 0; 3; 0]%N in
   let library := fun (_ : compression) d => if bytes_equal d page then Some [0]%N else None in
   lossless library (fun _ out => if bytes_equal out [0]%N then Some page else None) /\
   exists plain ch, write_int32_column library NONE 8 true (fun _ _ => true) None (repeat 7 70)%Z [] = Some plain /\ length (cc_data plain) = 10 /\
     write_int32_column library ZSTD 8 true (fun _ _ => true) None (repeat 7 70)%Z [] = Some ch /\ cc_uses_dictionary ch = true /\ cc_total_uncompressed ch = 5%Z) /\
  (exists ch, write_string_column (fun _ _ => None) NONE true (fun _ _ => true) None [s2b "a"; s2b "b"] [false; true] = Some ch /\
     cc_null_count ch = 1%Z /\ cs_has_null (cc_statistics ch) = false /\ cs_null_count (cc_statistics ch) = 0%Z) /\
  (exists ch, write_float64_column (fun _ _ => None) NONE (x86 2) None [quiet_nan] [] = Some ch /\
     cc_null_count ch = 1%Z /\ length (cc_data ch) = 8 /\ read_page P_DOUBLE true [] PLAIN 1 (cc_data ch) = None) /\
  (exists ch, write_int32_column (fun _ _ => None) NONE 8 true (fun _ _ => true) None [7]%Z [true] = Some ch /\ cc_uses_dictionary ch = true /\
     decode_levels 1 1 (cc_data ch) = Some ([0]%N, [1]%N)) /\
  (forall c columns output, rg_total_byte_size (build_row_group (c :: columns) output) = 0%Z /\
     rg_sizes (build_row_group (c :: columns) output) = repeat 0%Z (S (length columns)) /\
     rg_offsets (build_row_group (c :: columns) output) = repeat (Z.of_nat output) (S (length columns)) /\
     rg_num_rows (build_row_group (c :: columns) output) = Z.of_nat c).
Proof.
  split; [eexists; split; [vm_compute; reflexivity|vm_compute; split; reflexivity]|].
  split; [cbv zeta; split; [intros c d o E; destruct (bytes_equal d _) eqn:B; [apply bytes_equal_ok in B; subst d; injection E as <-; reflexivity|discriminate E]|]|].
  { eexists _, _. split; [vm_compute; reflexivity|]. split; [reflexivity|]. split; [vm_compute; reflexivity|]. split; reflexivity. }
  split; [eexists; split; [vm_compute; reflexivity|vm_compute; repeat split]|].
  split; [eexists; split; [vm_compute; reflexivity|vm_compute; repeat split]|].
  split; [eexists; split; [vm_compute; reflexivity|vm_compute; repeat split]|].
  exact row_group_empty.
Qed.
Print Assumptions C111_metadata_refuted.

(** Columns that meet the hypotheses: with aligned levels, with a dictionary, compressed. *)
Example C111_meets :
  let nb := [true; false; true; false; true; false; true; true] ++ repeat false 9 in
  let rows := legacy_rows (map Z.of_nat (seq 0 17)) nb in
  some_null rows = true /\ pieces (levels 1 (valid_flags rows)) = [Lit [0; 1; 0; 1; 0; 1; 0; 0]%N; Run 1%N 9] /\
  (exists ch, write_int32_column (fun _ _ => None) NONE 8 false (fun _ _ => true) None (map Z.of_nat (seq 0 17)) nb = Some ch /\
     read_page P_INT32 true [] PLAIN 17 (cc_data ch) = Some (map (option_map CInt) rows)) /\
  (exists ch, write_string_column (fun _ _ => None) NONE true (fun _ _ => true) None (repeat (s2b "ab") 9 ++ [s2b "c"]) [] = Some ch /\
     cc_uses_dictionary ch = true /\ exists page, read_plain P_BYTE_ARRAY 2 (cc_data ch) = Some ([CBytes (s2b "ab"); CBytes (s2b "c")], page) /\
     read_page P_BYTE_ARRAY false [CBytes (s2b "ab"); CBytes (s2b "c")] RLE_DICTIONARY 10 page = Some (repeat (Some (CBytes (s2b "ab"))) 9 ++ [Some (CBytes (s2b "c"))])) /\
  lossless (fun _ _ => None) (fun _ _ => None).
Proof.
  cbv zeta. split; [vm_compute; reflexivity|]. split; [vm_compute; reflexivity|].
  split; [eexists; split; [vm_compute; reflexivity|vm_compute; reflexivity]|].
  split; [eexists; split; [vm_compute; reflexivity|split; [reflexivity|eexists; split; [vm_compute; reflexivity|vm_compute; reflexivity]]]|].
  intros c d o E. discriminate E.
Qed.
