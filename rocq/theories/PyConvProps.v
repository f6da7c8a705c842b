(** C94, C95: Python's to_parquet; the Arrow IPC writer. *)
From Verif Require Import Base TypesSpec WordsModel ChunkModel FieldsModel ReaderSpec ReaderModel TypesModel ErrorsSpec ErrorsModel CliModel StrictSpec StrictModel StrictProof
  MetaSpec BuffersModel PlainSpec ParquetSpec ParquetModel ParquetObs ParquetProps QueueSpec QueueModel PipelineModel ConvertModel ConvertObs ConvertProps PyConvSpec PyConvModel PyConvProof.

(** Exactly the documented names are accepted; any other is refused, whatever the file. *)
Theorem C94_arguments_accepted :
  forall library below trace ff lanes clmul hardware_threads ne a data os_accepts capacity,
    to_parquet library below trace ff lanes clmul hardware_threads ne a data os_accepts capacity = Some BadArgument <->
    ~ exists k m, names_codec (a_compression a) k /\ names_mode (a_error_mode a) (a_max_errors a) m.
Proof.
  intros library below trace ff lanes clmul hw ne a data os cap. split.
  - intros H (k & m & H1 & H2). destruct (options_accepted a k m H1 H2) as (v & E & _). unfold to_parquet in H. rewrite E in H.
    destruct (convert_with _ _ _ _ _ _ _ _ _ _ _ _) as [[es c]|]; [|discriminate]. destruct (cv_error c); discriminate.
  - intros N. unfold to_parquet. destruct (set_options a) as [v|] eqn:E; [|reflexivity].
    exfalso. apply N. destruct (options_set a v E) as (H1 & H2 & _). exists (v_compression v), (v_mode v). split; assumption.
Qed.
Print Assumptions C94_arguments_accepted.

(** With accepted arguments and a codec other than lz4 the file holds the table that the
    reader gives, whatever the mode, unless the mode is strict or permissive and the
    header is empty; then an exception is raised.  Sizes as in C68. *)
Theorem C94_file_holds_the_table_partial :
  forall library below decompress ff lanes clmul hardware_threads ne a k m data,
    names_codec (a_compression a) k -> names_mode (a_error_mode a) (a_max_errors a) m ->
    lossless library decompress k -> k <> LZ4 -> 1 <= lanes -> Nat.divide lanes 64 -> data <> [] ->
    (forall w f, ff w = Some f -> (f < 2 ^ 64)%N) ->
    exists names types r, TypesModel.read_file ff lanes clmul hardware_threads ne default_options data = Some (names, types, r) /\
      let css := map cells_of_columns (chunks r) in
      (Forall (Forall page_fits) css -> (~ In STRING types -> Forall page_fits (concat_columns (length names) css)) ->
       footer_fits (schema_of names types) (length css) ->
       forall trace, (forall encoded, queue_input library below (Options k false) ff lanes clmul hardware_threads ne default_options data = Some encoded ->
                        exists s, run pipeline_capacity (pipeline encoded) trace s /\ finished s) ->
       (header_is_empty names /\ (m = FAIL_FAST \/ m = PERMISSIVE) /\
        to_parquet library below trace ff lanes clmul hardware_threads ne a data true None = Some (Raises [])) \/
       (~ (header_is_empty names /\ (m = FAIL_FAST \/ m = PERMISSIVE)) /\
        exists w groups file, to_parquet library below trace ff lanes clmul hardware_threads ne a data true None = Some (Returns w) /\
          ps_closed w = [file] /\ ParquetSpec.read_file decompress file = Some (Table (map leaf_of (schema_of names types)) groups) /\
          concat_columns (length names) groups = concat_columns (length names) css)).
Proof.
  intros library below decompress ff lanes clmul hw ne a k m data H1 H2 HL HK L1 L2 HD HF.
  destruct (options_accepted a k m H1 H2) as (v & Ev & Ek & Em).
  assert (Q1 : quote default_options <> LF) by discriminate. assert (Q2 : quote default_options <> CR) by discriminate.
  destruct (C68_conversion_reads_back_partial library below (Options k false) decompress ff lanes clmul hw ne default_options data HL HK (or_intror eq_refl) L1 L2 Q1 Q2 HD HF)
    as (names & types & r & Er & W). exists names, types, r. split; [exact Er|]. intros css A B C trace T.
  destruct (W A B C trace T) as (c & groups & file & X1 & X2 & X3 & X4 & X5 & X6 & X7).
  pose proof (outcome library below trace ff lanes clmul hw ne a v data names types r Ev Er) as O. rewrite Ek, Em in O.
  destruct (stops default_options m names) eqn:Es.
  - left. apply stops_iff in Es. destruct Es as (_ & S1 & S2). repeat split; assumption.
  - right. split.
    + intros (S1 & S2). assert (E : stops default_options m names = true) by (apply stops_iff; repeat split; assumption). congruence.
    + exists (cv_writer c), groups, file. rewrite X1, X2 in O. repeat split; assumption.
Qed.
Print Assumptions C94_file_holds_the_table_partial.

(** row_group_size and num_threads never change anything; a row group of three rows
    although one row was asked for. *)
Theorem C94_ignored_arguments_refuted :
  (forall library below trace ff lanes clmul hardware_threads ne k g g' n n' e m data os_accepts capacity,
     to_parquet library below trace ff lanes clmul hardware_threads ne (Arguments k g n e m) data os_accepts capacity =
     to_parquet library below trace ff lanes clmul hardware_threads ne (Arguments k g' n' e m) data os_accepts capacity) /\
  (exists w file,
     to_parquet no_library (fun _ _ => true) [] (fun _ => None) 16 true 4 false
       (Arguments (Some (s2b "none")) (Some 1%N) None None None) (s2b "a" ++ [LF] ++ s2b "1" ++ [LF] ++ s2b "2" ++ [LF] ++ s2b "3" ++ [LF]) true None = Some (Returns w) /\
     ps_closed w = [file] /\
     ParquetSpec.read_file no_decompress file = Some (Table [Leaf (s2b "a") P_INT32 true None] [[[Some (CInt 1); Some (CInt 2); Some (CInt 3)]]])).
Proof.
  split; [intros; apply ignored; reflexivity|]. eexists. eexists. split; [vm_compute; reflexivity|]. split; [reflexivity|vm_compute; reflexivity].
Qed.
Print Assumptions C94_ignored_arguments_refuted.

(** Strict mode and a repeated column name: the error is recorded, the tool's convert
    exits with 1, to_parquet returns as if nothing had happened.  Permissive mode and
    an empty header: an exception, without the error that was collected. *)
Theorem C94_errors_lost_refuted :
  let a := Arguments (Some (s2b "none")) None None (Some (s2b "strict")) None in
  let p := Arguments (Some (s2b "none")) None None None (Some 5%N) in
  let twice := s2b "a,a" ++ [LF] ++ s2b "1,2" ++ [LF] in
  let blank := [LF] ++ s2b "1,2" ++ [LF] in
  let ff := fun _ : bytes => @None N in
  (exists w, to_parquet no_library (fun _ _ => true) [] ff 16 true 4 false a twice true None = Some (Returns w)) /\
  fst (read_checked ff 16 true 4 false default_options FAIL_FAST 10000 twice) <> [] /\
  convert_exit ff 16 true 4 false default_options FAIL_FAST 10000 true twice = 1 /\
  to_parquet no_library (fun _ _ => true) [] ff 16 true 4 false p blank true None = Some (Raises []) /\
  map e_severity (fst (read_checked ff 16 true 4 false default_options PERMISSIVE 5 blank)) = [FATAL].
Proof.
  cbv zeta. split; [eexists; vm_compute; reflexivity|]. split; [vm_compute; discriminate|]. split; [vm_compute; reflexivity|].
  split; [vm_compute; reflexivity|vm_compute; reflexivity].
Qed.
Print Assumptions C94_errors_lost_refuted.

Example C94_meets :
  names_codec (Some (s2b "gzip")) GZIP /\ names_codec None ZSTD /\ names_mode (Some (s2b "disabled")) (Some 3%N) PERMISSIVE /\ names_mode None None DISABLED /\
  (forall k, ~ names_codec (Some (s2b "brotli")) k) /\
  to_parquet no_library (fun _ _ => true) [] (fun _ => None) 16 true 4 false (Arguments (Some (s2b "ZSTD")) None None None None) (s2b "a") true None = Some BadArgument /\
  lossless no_library no_decompress NONE.
Proof.
  split; [right; right; right; left; reflexivity|]. split; [reflexivity|]. split; [exists DISABLED; split; [left|]; reflexivity|]. split; [exists DISABLED; split; reflexivity|].
  split; [intros k [H|[H|[H|[H|[H|[]]]]]]; discriminate H|]. split; [vm_compute; reflexivity|]. intros d out _ H. discriminate H.
Qed.
Print Assumptions C94_meets.

(** C95: every sequence of calls on the Arrow IPC writer: no write succeeds, closing
    always reports success with no rows, and a file that was opened is empty - which is
    not an Arrow file. *)
Theorem C95_no_data_is_written_refuted :
  forall calls w oks, ipc_run new_ipc calls = (w, oks) ->
    length oks = length calls /\
    (forall i, match nth_error calls i with
               | Some (IpcWriteBatch _) | Some (IpcWriteChunks _) => nth_error oks i = Some false
               | Some IpcClose => nth_error oks i = Some true
               | _ => True
               end) /\
    i_rows w = 0%N /\ i_batches w = 0%N /\ i_bytes w = 0%N /\ (i_file w = None \/ i_file w = Some []).
Proof.
  assert (G : forall calls w0 w oks, i_rows w0 = 0%N -> i_batches w0 = 0%N -> i_bytes w0 = 0%N -> (i_file w0 = None \/ i_file w0 = Some []) ->
    ipc_run w0 calls = (w, oks) -> length oks = length calls /\
    (forall i, match nth_error calls i with
               | Some (IpcWriteBatch _) | Some (IpcWriteChunks _) => nth_error oks i = Some false
               | Some IpcClose => nth_error oks i = Some true
               | _ => True
               end) /\
    i_rows w = 0%N /\ i_batches w = 0%N /\ i_bytes w = 0%N /\ (i_file w = None \/ i_file w = Some [])).
  { induction calls as [|c cs IH]; intros w0 w oks A B C D E.
    - injection E as <- <-. split; [reflexivity|]. split; [intros [|i]; exact I|]. repeat split; assumption.
    - cbn [ipc_run] in E. destruct (ipc_step w0 c) as [w1 ok] eqn:Es. destruct (ipc_run w1 cs) as [w2 os] eqn:Er. injection E as <- <-.
      assert (P : i_rows w1 = 0%N /\ i_batches w1 = 0%N /\ i_bytes w1 = 0%N /\ (i_file w1 = None \/ i_file w1 = Some []) /\
                  match c with IpcWriteBatch _ | IpcWriteChunks _ => ok = false | IpcClose => ok = true | _ => True end).
      { destruct c as [acc|n|n|]; cbn [ipc_step] in Es.
        - destruct (i_open w0); [injection Es as <- <-; tauto|]. destruct acc; injection Es as <- <-; cbn; tauto.
        - injection Es as <- <-. tauto.
        - injection Es as <- <-. tauto.
        - injection Es as <- <-. cbn. tauto. }
      destruct P as (P1 & P2 & P3 & P4 & P5). destruct (IH w1 w2 os P1 P2 P3 P4 Er) as (Q1 & Q2 & Q3).
      split; [cbn [length]; rewrite Q1; reflexivity|]. split; [|exact Q3]. intros [|i]; cbn [nth_error]; [|exact (Q2 i)].
      destruct c; try exact I; congruence. }
  intros calls w oks E. apply (G calls new_ipc w oks); try reflexivity; [left; reflexivity|exact E].
Qed.
Print Assumptions C95_no_data_is_written_refuted.

Theorem C95_to_arrow_ipc_raises : forall input, to_arrow_ipc input = Raises [].
Proof. reflexivity. Qed.
Print Assumptions C95_to_arrow_ipc_raises.

Example C95_meets :
  ipc_run new_ipc [IpcWriteBatch 1; IpcOpen true; IpcWriteBatch 3; IpcClose; IpcOpen false] = (IpcWriter false 0 0 0 (Some []), [false; true; false; true; false]).
Proof. reflexivity. Qed.
Print Assumptions C95_meets.
