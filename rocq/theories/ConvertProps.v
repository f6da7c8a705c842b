(** C41, C68, C69: converting a CSV file to Parquet.
    [library], [below], [options] as in ParquetProps; [ff] is fast_float; [trace] is the sequence of
    steps of the two threads of the write pipeline. *)
From Verif Require Import Base WordsModel ChunkModel ChunkSpec FieldsModel FieldsSpec VarintSpec BuffersSpec BuffersModel BuffersReach TypesSpec ReaderModel ReaderSpec ReaderProps TypesModel QueueSpec QueueModel QueueSched PlainSpec ParquetSpec ParquetModel PipelineModel PipelineProof ParquetObs ParquetProof ParquetProps ConvertModel ConvertObs ConvertProof3 ConvertProof5 ConvertProof6.

(** C41: for every sequence of parsed chunks, the row groups handed to the writer are runs of
    consecutive chunks: together all chunks (that have columns), each once and in order, and each
    row group's columns hold the cells of its chunks one after another.  How long the runs are is
    said by [joined].  (Merging is only used without STRING columns; columns that had only missing
    values in the sample are stored as text too, hence the size condition.) *)
Theorem C41_row_groups : forall schema chunks css, Forall2 (chunk_built (map cs_type schema)) chunks css ->
  (~ In STRING (map cs_type schema) -> untyped_text_small (map cs_type schema) (concat_columns (length schema) css)) ->
  exists groups parts, row_groups schema chunks = Some groups /\ concat parts = filter has_columns css /\
    Forall2 (fun g part => exists n, columns_built n (map cs_type schema) g (concat_columns (length schema) part)) groups parts /\
    joined (map cs_type schema) (length chunks) parts /\ length groups <= length chunks.
Proof.
  intros schema chunks css H HS. apply row_groups_ok; [exact H|]. intros E. apply HS. intros HI.
  rewrite strings_flag in E. assert (X : existsb (fun t => match t with STRING => true | _ => false end) (map cs_type schema) = true) by (apply existsb_exists; exists STRING; auto). congruence.
Qed.
Print Assumptions C41_row_groups.

(** Three chunks of an integer column, joined; and kept apart beside a text column. *)
Definition int_chunk (l : list Z) : list arrow_column := [AInt32 (Column l (Bitmap [] (length l) 0 false))].
Example C41_meets :
  let s := ColumnSchema (s2b "a") INT32 true in
  let t := ColumnSchema (s2b "t") STRING true in
  Forall2 (chunk_built [INT32]) [int_chunk [1; 2]%Z; []; int_chunk [3]%Z] [[[Some (CInt 1); Some (CInt 2)]]; []; [[Some (CInt 3)]]] /\
  row_groups [s] [int_chunk [1; 2]%Z; []; int_chunk [3]%Z] = Some [int_chunk [1; 2; 3]%Z] /\
  row_groups [s; t] [int_chunk [1; 2]%Z ++ [name1]; int_chunk [3]%Z ++ [name1]] = Some [int_chunk [1; 2]%Z ++ [name1]; int_chunk [3]%Z ++ [name1]] /\
  has_strings [s; t] = true /\ (262144 = N.of_nat TARGET_ROW_GROUP_SIZE)%N.
Proof.
  assert (F : forall l c, BuffersSpec.run (fixed_impl 0%Z) [] (New :: map (BuffersSpec.Push 0) l) = Some [c] -> BuffersSpec.run (as_lists (option Z)) [] (New :: map (BuffersSpec.Push 0) l) = Some [l] -> fixed_built 0%Z c l).
  { intros l c H1 H2. exists (New :: map (BuffersSpec.Push 0) l), [l], [c], 0. repeat split; assumption. }
  split; [|split; [vm_compute; reflexivity|split; [vm_compute; reflexivity|split; [reflexivity|unfold TARGET_ROW_GROUP_SIZE; rewrite N2Nat.id; reflexivity]]]].
  constructor; [|constructor; [left; split; reflexivity|constructor; [|constructor]]]; right.
  - exists 2. constructor; [|reflexivity|constructor]. split; [reflexivity|]. exists [Some 1; Some 2]%Z. split; [apply F; vm_compute; reflexivity|]. split; [|reflexivity]. intros z [[= <-]|[[= <-]|[]]]; split; lia.
  - exists 1. constructor; [|reflexivity|constructor]. split; [reflexivity|]. exists [Some 3]%Z. split; [apply F; vm_compute; reflexivity|]. split; [|reflexivity]. intros z [[= <-]|[]]; split; lia.
Qed.
Print Assumptions C41_meets.

(** C68: any non-empty file is opened and read; and converting it - for every schedule of the
    pipeline's threads that has come to its end - reports success and leaves one file, which a
    Parquet reader reads as the table the CSV reader returned: same columns, the rows of each
    column in order.  Missing: LZ4, and compression together with dictionaries (C38); a page that
    exceeds the limits of the format. *)
Theorem C68_conversion_reads_back_partial : forall library below options decompress ff lanes clmul num_threads ne o data,
  lossless library decompress (o_compression options) -> o_compression options <> LZ4 ->
  o_compression options = NONE \/ o_enable_dictionary options = false ->
  1 <= lanes -> Nat.divide lanes 64 -> quote o <> LF -> quote o <> CR -> data <> [] ->
  (forall w f, ff w = Some f -> (f < 2 ^ 64)%N) ->
  exists names types r, TypesModel.read_file ff lanes clmul num_threads ne o data = Some (names, types, r) /\
    let css := map cells_of_columns (chunks r) in
    (Forall (Forall page_fits) css -> (~ In STRING types -> Forall page_fits (concat_columns (length names) css)) -> footer_fits (schema_of names types) (length css) ->
     forall trace, (forall encoded, queue_input library below options ff lanes clmul num_threads ne o data = Some encoded ->
                      exists s, run pipeline_capacity (pipeline encoded) trace s /\ finished s) ->
     exists c groups file, convert library below options trace ff lanes clmul num_threads ne o data true true None = Some c /\
       cv_error c = None /\ cv_rows c = reported_rows r /\ cv_cols c = length names /\ ps_closed (cv_writer c) = [file] /\
       ParquetSpec.read_file decompress file = Some (Table (map leaf_of (schema_of names types)) groups) /\
       concat_columns (length names) groups = concat_columns (length names) css).
Proof.
  intros library below options decompress ff lanes clmul nt ne o data HL HZ HD H1 H2 H3 H4 H5 HF.
  destruct (whole_conversion library below options decompress (lossless_undone _ _ _ HZ HL) HD ff lanes clmul nt ne o data H1 H2 H3 H4 H5 HF) as (names & types & he & r & E & R & _ & _ & _ & W).
  exists names, types, r. split; [unfold TypesModel.read_file; rewrite E, R; reflexivity|]. intros css A B C trace T.
  destruct (W A B C trace T) as (c & parts & file & X1 & X2 & X3 & X4 & X5 & X6 & X7 & _). exists c, (map (concat_columns (length names)) parts), file.
  repeat (split; [assumption|]). rewrite concat_nested, X7. reflexivity.
Qed.
Print Assumptions C68_conversion_reads_back_partial.

(** With the conditions under which C09 identifies what is read: the cells are those of the text. *)
Theorem C68_csv_text_to_parquet_partial : forall library below options decompress ff lanes clmul num_threads ne o data names types header_end,
  lossless library decompress (o_compression options) -> o_compression options <> LZ4 ->
  o_compression options = NONE \/ o_enable_dictionary options = false ->
  1 <= lanes -> Nat.divide lanes 64 -> quote o <> LF -> quote o <> CR -> quote o <> separator o -> quote o <> 0%N -> data <> [] ->
  (forall w f, ff w = Some f -> (f < 2 ^ 64)%N) ->
  open_file ff lanes clmul o data = Some (names, types, header_end) ->
  let body := skipn header_end data in
  (forall i, line_end_at body i = true -> inside_at false (quote o) body i = false) -> no_lone_cr body ->
  Forall (safe_row (separator o) LF (quote o)) (table_rows (separator o) (quote o) body) ->
  let table := cells_of_columns (table_columns (fun k => append_value ff lanes (nth k types STRING)) (null_values o) (separator o) (quote o) (length names) body) in
  Forall page_fits table ->
  exists r, TypesModel.read_file ff lanes clmul num_threads ne o data = Some (names, types, r) /\
   (footer_fits (schema_of names types) (length (chunks r)) ->
    forall trace, (forall encoded, queue_input library below options ff lanes clmul num_threads ne o data = Some encoded ->
                     exists s, run pipeline_capacity (pipeline encoded) trace s /\ finished s) ->
    exists c groups file, convert library below options trace ff lanes clmul num_threads ne o data true true None = Some c /\
      cv_error c = None /\ ps_closed (cv_writer c) = [file] /\
      ParquetSpec.read_file decompress file = Some (Table (map leaf_of (schema_of names types)) groups) /\
      concat_columns (length names) groups = table).
Proof.
  intros library below options decompress ff lanes clmul nt ne o data names types he HL HZ HD H1 H2 H3 H4 H6 H7 H5 HF HO body B1 B2 B3 table HP.
  exact (text_to_file library below options decompress (lossless_undone _ _ _ HZ HL) HD ff lanes clmul nt ne o data names types he H1 H2 H3 H4 H6 H7 H5 HF HO B1 B2 B3 HP).
Qed.
Print Assumptions C68_csv_text_to_parquet_partial.

(** C69: the result, with every byte of the file, does not depend on how the threads of the pipeline
    were scheduled: for all inputs, options, devices. *)
Theorem C69_schedule_does_not_matter : forall library below options ff lanes clmul num_threads ne o data go_on os_accepts capacity trace1 trace2,
  (forall trace, In trace [trace1; trace2] -> forall encoded, queue_input library below options ff lanes clmul num_threads ne o data = Some encoded ->
     exists s, run pipeline_capacity (pipeline encoded) trace s /\ finished s) ->
  convert library below options trace1 ff lanes clmul num_threads ne o data go_on os_accepts capacity =
  convert library below options trace2 ff lanes clmul num_threads ne o data go_on os_accepts capacity.
Proof. exact schedules_agree. Qed.
Print Assumptions C69_schedule_does_not_matter.

(** C69: a conversion that fails on input, is cancelled or cannot open its output writes no file and
    says so. *)
Theorem C69_failures_reported : forall library below options trace ff lanes clmul num_threads ne o data go_on os_accepts capacity c,
  convert library below options trace ff lanes clmul num_threads ne o data go_on os_accepts capacity = Some c ->
  (data = [] -> cv_error c = Some InputFailed) /\
  (go_on = false -> cv_error c <> None) /\ (os_accepts = false -> cv_error c <> None) /\
  (cv_error c <> None -> ps_closed (cv_writer c) = [] /\ ps_open (cv_writer c) = false).
Proof. exact failures. Qed.
Print Assumptions C69_failures_reported.

(** But a full disk is not noticed: here success is reported for a file that cannot be read. *)
Definition small_csv : bytes := s2b "a,b" ++ [LF] ++ s2b "1,x" ++ [LF] ++ s2b ",NA" ++ [LF] ++ s2b "-3,yy" ++ [LF].
Definition small_options : csv_options := mkOptions COMMA DQ true (s2b "NA") (s2b "true") (s2b "false") 10.
Theorem C69_full_disk_refuted : exists c file,
  convert no_library (fun _ _ => true) (Options NONE false) [] (fun _ => None) 16 true 4 false small_options small_csv true true (Some 30) = Some c /\
  cv_error c = None /\ cv_rows c = 3 /\ ps_closed (cv_writer c) = [file] /\ length file = 30 /\ ParquetSpec.read_file no_decompress file = None.
Proof. eexists. eexists. split; [vm_compute; reflexivity|]. repeat split; vm_compute; reflexivity. Qed.
Print Assumptions C69_full_disk_refuted.

Example C68_meets : exists c file,
  convert no_library (fun _ _ => true) (Options NONE false) [] (fun _ => None) 16 true 4 false small_options small_csv true true None = Some c /\
  cv_error c = None /\ cv_rows c = 3 /\ cv_cols c = 2 /\ ps_closed (cv_writer c) = [file] /\
  queue_input no_library (fun _ _ => true) (Options NONE false) (fun _ => None) 16 true 4 false small_options small_csv = None /\
  ParquetSpec.read_file no_decompress file =
    Some (Table [Leaf (s2b "a") P_INT32 true None; Leaf (s2b "b") P_BYTE_ARRAY true (Some 0%Z)]
                [[[Some (CInt 1); None; Some (CInt (-3))]; [Some (CBytes (s2b "x")); None; Some (CBytes (s2b "yy"))]]]) /\
  lossless no_library no_decompress NONE.
Proof. eexists. eexists. do 7 (split; [vm_compute; reflexivity|]). intros d out _ H. discriminate H. Qed.
Print Assumptions C68_meets.

(** C68, full claim: false with LZ4, and when compression and dictionaries are combined.  A library
    that leaves out eight zero bytes at the end; a library that stores one page as one byte. *)
Definition csv_lines (s : string) : bytes := map (fun c => if N.eqb c 124 then LF else c) (s2b s).
Definition cutting (c : compression) (d : bytes) : option bytes :=
  if (8 <? length d) && forallb (N.eqb 0) (skipn (length d - 8) d) then Some (firstn (length d - 8) d) else None.
Definition putting_back (z : Z) (d : bytes) : option bytes := if Z.eqb z 7 then Some (d ++ repeat 0%N 8) else None.
Definition one_page : bytes := [3; 0; 0; 0; 120; 121; 122]%N.
Definition naming (c : compression) (d : bytes) : option bytes := if list_eq_dec N.eq_dec d one_page then Some [7%N] else None.
Definition named (z : Z) (d : bytes) : option bytes := if Z.eqb z 6 then if list_eq_dec N.eq_dec d [7%N] then Some one_page else None else None.
Theorem C68_lz4_refuted :
  lossless cutting putting_back LZ4 /\
  exists c file,
    convert cutting (fun _ _ => true) (Options LZ4 false) [] (fun _ => None) 16 true 4 false small_options (csv_lines "a|0|0|0|0|0|") true true None = Some c /\
    cv_error c = None /\ ps_closed (cv_writer c) = [file] /\ ParquetSpec.read_file putting_back file = None.
Proof.
  split.
  - intros d out _ H _. unfold cutting in H. destruct ((8 <? length d) && forallb (N.eqb 0) (skipn (length d - 8) d)) eqn:E; [|discriminate H].
    apply andb_prop in E. destruct E as [E1 E2]. apply Nat.ltb_lt in E1. assert (X : out = firstn (length d - 8) d) by congruence. subst out. clear H.
    split; [intros X; apply (f_equal (@length N)) in X; rewrite firstn_length in X; cbn [length] in X; lia|].
    unfold putting_back. cbn [format_codec]. change ((7 =? 7)%Z) with true. cbv iota. f_equal.
    transitivity (firstn (length d - 8) d ++ skipn (length d - 8) d); [f_equal|apply firstn_skipn].
    assert (L : length (skipn (length d - 8) d) = 8) by (rewrite skipn_length; lia).
    revert E2 L. generalize (skipn (length d - 8) d). clear. intros l E L.
    do 8 (destruct l as [|? l]; [discriminate L|]). destruct l; [|discriminate L]. cbn [forallb] in E.
    repeat (apply andb_prop in E; let E0 := fresh in destruct E as [E0 E]; apply N.eqb_eq in E0; subst). reflexivity.
  - eexists. eexists. split; [vm_compute; reflexivity|]. repeat split; vm_compute; reflexivity.
Qed.
Print Assumptions C68_lz4_refuted.
Theorem C68_dictionary_refuted :
  lossless naming named ZSTD /\
  exists c file,
    convert naming (fun _ _ => true) (Options ZSTD true) [] (fun _ => None) 16 true 4 false small_options (csv_lines "a|xyz|xyz|") true true None = Some c /\
    cv_error c = None /\ ps_closed (cv_writer c) = [file] /\ ParquetSpec.read_file named file = None.
Proof.
  split.
  - intros d out _ H _. unfold naming in H. destruct (list_eq_dec N.eq_dec d one_page) as [E|]; [|discriminate H]. injection H as <-.
    split; [discriminate|]. subst d. reflexivity.
  - eexists. eexists. split; [vm_compute; reflexivity|]. repeat split; vm_compute; reflexivity.
Qed.
Print Assumptions C68_dictionary_refuted.

(** The queue is used as soon as there are two chunks. *)
Lemma two_groups_run : forall A (x y : A), exists trace s, run pipeline_capacity (pipeline [x; y]) trace s /\ finished s /\ In (Sleeps 1) trace /\ delivered (events_of 1 trace) = [x; y].
Proof.
  intros A x y. destruct (schedule pipeline_capacity [1; 0; 0; 1; 0; 1; 1] (pipeline [x; y]) []) as [[tr s]|] eqn:E; [|cbv in E; discriminate E].
  exists tr, s. assert (R : run pipeline_capacity (pipeline [x; y]) tr s) by (eapply schedule_ok; [apply run_nil|exact E]).
  cbv in E. injection E as <- <-. split; [exact R|]. split; [intros t [<-|[<-|[]]]; reflexivity|]. split; [cbn; auto|reflexivity].
Qed.
Definition two_chunks_schema : list column_schema := [ColumnSchema (s2b "a") INT32 true; ColumnSchema (s2b "t") STRING true].
Definition two_chunks : list (list arrow_column) :=
  [int_chunk [1; 2]%Z ++ [AString (Column (StrBuf [122; 122]%N [0; 2; 2]%N) (Bitmap [] 2 0 false))]; int_chunk [3]%Z ++ [name1]].
Definition two_encoded : list (Z * list encoded_column) :=
  Eval vm_compute in match pipeline_input no_library (fun _ _ => true) (Options NONE false) two_chunks_schema two_chunks with Some l => l | None => [] end.
Example C69_meets :
  pipeline_input no_library (fun _ _ => true) (Options NONE false) two_chunks_schema two_chunks = Some two_encoded /\
  exists trace s p file, run pipeline_capacity (pipeline two_encoded) trace s /\ finished s /\ In (Sleeps 1) trace /\
    write_chunks no_library (fun _ _ => true) (Options NONE false) trace (opened two_chunks_schema) two_chunks_schema two_chunks = Some p /\
    ps_closed (fst (do_close p)) = [file] /\
    ParquetSpec.read_file no_decompress file = Some (Table [Leaf (s2b "a") P_INT32 true None; Leaf (s2b "t") P_BYTE_ARRAY true (Some 0%Z)]
      [[[Some (CInt 1); Some (CInt 2)]; [Some (CBytes (s2b "zz")); Some (CBytes [])]]; [[Some (CInt 3)]; [Some (CBytes (s2b "zz"))]]]).
Proof.
  assert (EI : pipeline_input no_library (fun _ _ => true) (Options NONE false) two_chunks_schema two_chunks = Some two_encoded) by (vm_compute; reflexivity).
  split; [exact EI|]. destruct (two_groups_run _ (nth 0 two_encoded (0%Z, [])) (nth 1 two_encoded (0%Z, []))) as (trace & s & R & F & S1 & D).
  change [nth 0 two_encoded (0%Z, []); nth 1 two_encoded (0%Z, [])] with two_encoded in R, D.
  exists trace, s, (written (opened two_chunks_schema) two_encoded). eexists. split; [exact R|]. split; [exact F|]. split; [exact S1|].
  split; [unfold write_chunks; unfold pipeline_input in EI|split; [vm_compute; reflexivity|vm_compute; reflexivity]].
  unfold two_chunks in *. destruct (row_groups _ _) as [groups|]; [|discriminate]. rewrite EI, D. reflexivity.
Qed.
Print Assumptions C69_meets.

(** What lies in the value buffer of a column of doubles at a missing cell: the usual quiet NaN,
    sign 0, exponent all ones, first bit of the fraction set. *)
Theorem C59_null_doubles_are_nan : forall k : N, N.testbit nan_bits k = ((51 <=? k)%N && (k <=? 62)%N).
Proof.
  intros k. destruct (N.le_gt_cases 64 k) as [H|H].
  - rewrite (proj2 (N.leb_gt k 62)) by lia. rewrite andb_false_r. apply N.bits_above_log2.
    apply N.lt_le_trans with 64%N; [vm_compute; reflexivity|exact H].
  - assert (A : forallb (fun k => Bool.eqb (N.testbit nan_bits (N.of_nat k)) ((51 <=? N.of_nat k)%N && (N.of_nat k <=? 62)%N)) (seq 0 64) = true) by (vm_compute; reflexivity).
    rewrite forallb_forall in A. specialize (A (N.to_nat k)). rewrite N2Nat.id in A. apply Bool.eqb_prop. apply A. apply in_seq. lia.
Qed.
Print Assumptions C59_null_doubles_are_nan.
