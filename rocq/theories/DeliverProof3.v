(** Converting any CSV text: the Parquet file holds the rows delivered. *)
From Verif Require Import Base WordsModel ChunkModel FieldsModel VarintSpec BuffersSpec BuffersModel BuffersReach TypesSpec ReaderModel ReaderSpec ReaderProof3 ReaderProof4 ReaderProps FieldsSpec TypesModel TypesProof3 ChunkSpec ChunkProof2 QueueSpec QueueModel PlainSpec ParquetSpec ParquetModel PipelineModel PipelineProof ParquetObs ParquetProof ParquetProof3 ParquetProof5 ConvertModel ConvertObs ConvertProof ConvertProof2 ConvertProof3 ConvertProof4 ConvertProof5 ConvertProof6
  SplitSpec DeliverSpec DeliverProof DeliverProof2.

Section PartsToFile.
Variable library : compression -> bytes -> option bytes.
Variable below : nat -> nat -> bool.
Variable options : parquet_options.
Variable decompress : Z -> bytes -> option bytes.
Hypothesis HL : undone library decompress (o_compression options).
Hypothesis HS : o_compression options = NONE \/ o_enable_dictionary options = false.

Lemma parts_to_file : forall ff lanes clmul num_threads ne o data,
  1 <= lanes -> Nat.divide lanes 64 -> quote o <> LF -> quote o <> CR -> quote o <> separator o -> quote o <> 0%N -> data <> [] ->
  (forall w f, ff w = Some f -> (f < 2 ^ 64)%N) ->
  exists names types header_end ranges r,
    open_file ff lanes clmul o data = Some (names, types, header_end) /\
    TypesModel.read_file ff lanes clmul num_threads ne o data = Some (names, types, r) /\
    chunk_ranges lanes clmul (quote o) data header_end
      (N.to_nat (calculate_chunk_size (N.of_nat (length data - header_end)) (N.of_nat (length names)) num_threads)) = Some ranges /\
    let table := cells_of_columns (columns_of (fun k => append_value ff lanes (nth k types STRING)) (null_values o) (quote o) (length names)
       (rows_of_parts (separator o) (quote o) (file_parts (quote o) (N.to_nat PARALLEL_THRESHOLD) data header_end ranges))) in
    (Forall page_fits table -> footer_fits (schema_of names types) (length (chunks r)) ->
     forall trace, (forall encoded, queue_input library below options ff lanes clmul num_threads ne o data = Some encoded ->
                      exists s, run pipeline_capacity (pipeline encoded) trace s /\ finished s) ->
     exists c groups file, convert library below options trace ff lanes clmul num_threads ne o data true true None = Some c /\
       cv_error c = None /\ ps_closed (cv_writer c) = [file] /\
       ParquetSpec.read_file decompress file = Some (Table (map leaf_of (schema_of names types)) groups) /\
       concat_columns (length names) groups = table).
Proof.
  intros ff lanes clmul nt ne o data H1 H2 H3 H4 H6 H7 H5 HF.
  destruct (whole_conversion library below options decompress HL HS ff lanes clmul nt ne o data H1 H2 H3 H4 H5 HF) as (names & types & he & r & E & R & LE & HN & LT & W).
  assert (Hm : 0 < length names) by (destruct names; [contradiction|cbn; lia]).
  destruct (parts_are_read (fun k => append_value ff lanes (nth k types STRING)) lanes clmul (separator o) (quote o) (null_values o) (N.to_nat PARALLEL_THRESHOLD)
    (N.to_nat (calculate_chunk_size (N.of_nat (length data - he)) (N.of_nat (length names)) nt)) ne
    (length names) data he H1 H2 H3 H4 H6 H7 Hm LE) as (rs & r' & Er & Et & _ & _ & CT).
  assert (r' = r). { apply some_inj. rewrite <- R. symmetry. exact Et. } subst r'.
  exists names, types, he, rs, r. split; [exact E|]. split; [unfold TypesModel.read_file; rewrite E, R; reflexivity|]. split; [exact Er|].
  intros table HP FT trace T.
  destruct (read_all_with_rect (fun k => append_value ff lanes (nth k types STRING)) lanes clmul (separator o) (quote o) (null_values o) (conj H1 H2) H3 H4 (N.to_nat PARALLEL_THRESHOLD)
    (N.to_nat (calculate_chunk_size (N.of_nat (length data - he)) (N.of_nat (length names)) nt)) ne (length names) data he Hm LE) as (r' & ER & RC & _).
  assert (r' = r). { apply some_inj. rewrite <- R. symmetry. exact ER. } subst r'.
  assert (TC : concat_columns (length names) (map cells_of_columns (chunks r)) = table) by (rewrite cells_concat, CT; reflexivity).
  assert (HW : Forall (fun c => length c = length names) (map cells_of_columns (chunks r))). { apply Forall_map. eapply Forall_impl; [|exact RC]. intros c [A _]. unfold cells_of_columns. rewrite map_length. exact A. }
  destruct (W) with (trace := trace) as (c & parts & file & X1 & X2 & _ & _ & X5 & X6 & X7 & _).
  - apply (chunk_page_fits (length names)); [exact HW|exact Hm|rewrite TC; exact HP].
  - intros _. rewrite TC. exact HP.
  - rewrite map_length. exact FT.
  - exact T.
  - exists c, (map (concat_columns (length names)) parts), file. split; [exact X1|]. split; [exact X2|]. split; [exact X5|]. split; [exact X6|]. rewrite concat_nested, X7. exact TC.
Qed.
End PartsToFile.

(** Of a short text whose fields are balanced, the rows delivered are those of the text. *)
Lemma short_rows sep q thr data he ranges : q <> LF -> q <> CR -> q <> sep -> q <> 0%N ->
  length (skipn he data) < thr -> Forall (SplitSpec.balanced q) (ended_fields sep q (skipn he data)) ->
  rows_of_parts sep q (file_parts q thr data he ranges) = table_rows sep q (skipn he data).
Proof.
  intros A1 A2 A3 A4 L B. unfold file_parts. destruct (Nat.ltb_spec (length (skipn he data)) thr); [|lia]. cbn [orb].
  unfold rows_of_parts. cbn [map concat]. rewrite app_nil_r.
  apply (delivered_iff (fun _ v => Some v) 1 true sep q) with (n := length (skipn he data)); first [assumption|lia|split; [lia|exists 64; reflexivity]].
Qed.

Lemma columns_of_rows {V} (conv : nat -> bytes -> option V) sp sep q n l : columns_of conv sp q n (table_rows sep q l) = table_columns conv sp sep q n l.
Proof. reflexivity. Qed.
