(** C68 for every text: no condition on quotes, line breaks or chunk boundaries. *)
From Verif Require Import Base WordsModel ChunkModel ChunkSpec FieldsModel FieldsSpec VarintSpec BuffersSpec BuffersModel BuffersReach TypesSpec ReaderModel ReaderSpec ReaderProps TypesModel QueueSpec QueueModel QueueSched PlainSpec ParquetSpec ParquetModel PipelineModel PipelineProof ParquetObs ParquetProof ParquetProps ConvertModel ConvertObs ConvertProof3 ConvertProof5 ConvertProof6 ConvertProps
  SplitSpec DeliverSpec DeliverProof3.

(** Converting any non-empty file gives one Parquet file, which holds the rows delivered
    of the parts of the file, typed as inferred.  Missing: LZ4, and compression together
    with dictionaries (C38); pages beyond the limits of the format. *)
Theorem C68_every_text_to_parquet_partial : forall library below options decompress ff lanes clmul num_threads ne o data,
  lossless library decompress (o_compression options) -> o_compression options <> LZ4 ->
  o_compression options = NONE \/ o_enable_dictionary options = false ->
  1 <= lanes -> Nat.divide lanes 64 -> quote o <> LF -> quote o <> CR -> quote o <> separator o -> quote o <> 0%N -> data <> [] ->
  (forall w f, ff w = Some f -> (f < 2 ^ 64)%N) ->
  exists names types header_end ranges r,
    open_file ff lanes clmul o data = Some (names, types, header_end) /\
    TypesModel.read_file ff lanes clmul num_threads ne o data = Some (names, types, r) /\
    chunk_ranges lanes clmul (quote o) data header_end
      (N.to_nat (calculate_chunk_size (N.of_nat (length data - header_end)) (N.of_nat (length names)) num_threads)) = Some ranges /\
    let table := cells_of_columns (columns_of (fun k => append_value ff lanes (nth k types STRING)) (null_values o) (quote o) (length names)
       (rows_of_parts (separator o) (quote o) (file_parts (quote o) (N.to_nat PARALLEL_THRESHOLD) data header_end ranges))) in
    (Forall page_fits table -> footer_fits (schema_of names types) (length (chunks r)) ->
     forall trace, (forall encoded, queue_input library below options ff lanes clmul num_threads ne o data = Some encoded ->
                      exists s, run pipeline_capacity (pipeline encoded) trace s /\ finished s) ->
     exists c groups file, convert library below options trace ff lanes clmul num_threads ne o data true true None = Some c /\
       cv_error c = None /\ ps_closed (cv_writer c) = [file] /\
       ParquetSpec.read_file decompress file = Some (Table (map leaf_of (schema_of names types)) groups) /\
       concat_columns (length names) groups = table).
Proof.
  intros library below options decompress ff lanes clmul nt ne o data HL HZ HD.
  exact (parts_to_file library below options decompress (lossless_undone _ _ _ HZ HL) HD ff lanes clmul nt ne o data).
Qed.
Print Assumptions C68_every_text_to_parquet_partial.

(** A file with less than 1 MiB after its header in which every field that was ended by a
    delimiter has an even number of quotes: the Parquet file holds the table of the text. *)
Theorem C68_short_text_to_parquet_partial : forall library below options decompress ff lanes clmul num_threads ne o data names types header_end,
  lossless library decompress (o_compression options) -> o_compression options <> LZ4 ->
  o_compression options = NONE \/ o_enable_dictionary options = false ->
  1 <= lanes -> Nat.divide lanes 64 -> quote o <> LF -> quote o <> CR -> quote o <> separator o -> quote o <> 0%N -> data <> [] ->
  (forall w f, ff w = Some f -> (f < 2 ^ 64)%N) ->
  open_file ff lanes clmul o data = Some (names, types, header_end) ->
  let body := skipn header_end data in
  length body < N.to_nat PARALLEL_THRESHOLD -> Forall (balanced (quote o)) (ended_fields (separator o) (quote o) body) ->
  let table := cells_of_columns (table_columns (fun k => append_value ff lanes (nth k types STRING)) (null_values o) (separator o) (quote o) (length names) body) in
  Forall page_fits table ->
  exists r, TypesModel.read_file ff lanes clmul num_threads ne o data = Some (names, types, r) /\
   (footer_fits (schema_of names types) (length (chunks r)) ->
    forall trace, (forall encoded, queue_input library below options ff lanes clmul num_threads ne o data = Some encoded ->
                     exists s, run pipeline_capacity (pipeline encoded) trace s /\ finished s) ->
    exists c groups file, convert library below options trace ff lanes clmul num_threads ne o data true true None = Some c /\
      cv_error c = None /\ ps_closed (cv_writer c) = [file] /\
      ParquetSpec.read_file decompress file = Some (Table (map leaf_of (schema_of names types)) groups) /\
      concat_columns (length names) groups = table).
Proof.
  intros library below options decompress ff lanes clmul nt ne o data names types he HL HZ HD H1 H2 H3 H4 H6 H7 H5 HF HO body HB HE table HP.
  destruct (parts_to_file library below options decompress (lossless_undone _ _ _ HZ HL) HD ff lanes clmul nt ne o data H1 H2 H3 H4 H6 H7 H5 HF)
    as (ns & ts & he' & rs & r & E & R & _ & W).
  rewrite HO in E. injection E as <- <- <-. exists r. split; [exact R|].
  cbv zeta in W. rewrite (short_rows (separator o) (quote o) _ data he rs H3 H4 H6 H7 HB HE) in W. exact (W HP).
Qed.
Print Assumptions C68_short_text_to_parquet_partial.

(** A text whose second row has a line feed inside quotes, and a third with a doubled quote:
    the conditions hold and this is what the Parquet file holds. *)
Definition quoted_csv : bytes :=
  s2b "k,v" ++ [LF] ++ s2b "1," ++ [DQ] ++ s2b "a" ++ [LF] ++ s2b "b" ++ [DQ; LF] ++ s2b "2," ++ [DQ] ++ s2b "x" ++ [DQ; DQ] ++ s2b ",y" ++ [DQ; LF].
Example C68_short_meets : exists c file,
  open_file (fun _ => @None N) 16 true default_options quoted_csv = Some ([s2b "k"; s2b "v"], [INT32; STRING], 4) /\
  ended_fields COMMA DQ (skipn 4 quoted_csv) = [s2b "1"; [DQ] ++ s2b "a" ++ [LF] ++ s2b "b" ++ [DQ]; s2b "2"; [DQ] ++ s2b "x" ++ [DQ; DQ] ++ s2b ",y" ++ [DQ]] /\
  Forall (balanced DQ) (ended_fields COMMA DQ (skipn 4 quoted_csv)) /\
  convert no_library (fun _ _ => true) (Options NONE false) [] (fun _ => None) 16 true 4 false default_options quoted_csv true true None = Some c /\
  cv_error c = None /\ ps_closed (cv_writer c) = [file] /\
  ParquetSpec.read_file no_decompress file =
    Some (Table [Leaf (s2b "k") P_INT32 true None; Leaf (s2b "v") P_BYTE_ARRAY true (Some 0%Z)]
                [[[Some (CInt 1); Some (CInt 2)]; [Some (CBytes (s2b "a" ++ [LF] ++ s2b "b")); Some (CBytes (s2b "x" ++ [DQ] ++ s2b ",y"))]]]).
Proof.
  do 2 eexists. split; [vm_compute; reflexivity|]. split; [vm_compute; reflexivity|]. split.
  { match goal with |- Forall _ ?l => let l' := eval vm_compute in l in change l with l' end. repeat constructor. }
  split; [vm_compute; reflexivity|]. split; [vm_compute; reflexivity|]. split; [vm_compute; reflexivity|]. vm_compute. reflexivity.
Qed.
Print Assumptions C68_short_meets.
