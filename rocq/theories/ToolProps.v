(** C106: converting from the command line to the file. *)
From Verif Require Import Base TypesSpec WordsModel ChunkModel FieldsModel ReaderSpec ReaderModel TypesModel ErrorsSpec CliSpec CliModel StrictSpec
  CompressSpec MainSpec MainModel MainProof ProgramSpec ProgramModel
  MetaSpec BuffersModel PlainSpec ParquetSpec ParquetModel ParquetObs ParquetProps QueueSpec QueueModel PipelineModel ConvertModel ConvertObs ConvertProps PyConvSpec PyConvModel
  ToolSpec ToolModel ToolProof.

(** C106.  convert with one input, an output and documented items, on a machine that accepts
    the output: the file written holds the table the reader makes of the input, whatever the
    schedule; the exit code is 0 unless --strict was the last word on errors and a column name
    is repeated.  If errors are looked for and the header is empty, nothing is written and the
    exit code is 1.  Missing: lz4, sizes beyond the format's limits (as in C68), a full disk. *)
Theorem C106_convert_writes_the_table_partial :
  forall library below decompress ff lanes clmul hw ne (w : world) (items : list citem) (ws : list (list bytes)) (p : bytes) (k : ParquetModel.compression) (data : bytes),
    one_input p items -> Forall2 cwritten items ws -> output_asked items <> [] -> In (compression_asked items, k) codecs_by_name ->
    file_at w p = inr data -> data <> [] ->
    lossless library decompress k -> k <> LZ4 -> 1 <= lanes -> Nat.divide lanes 64 ->
    let o := reading_options items in let nt := reading_threads hw items in
    quote o <> LF -> quote o <> CR -> (forall w f, ff w = Some f -> (f < 2 ^ 64)%N) ->
    exists names types r, TypesModel.read_file ff lanes clmul nt ne o data = Some (names, types, r) /\
      let css := map cells_of_columns (chunks r) in
      (Forall (Forall page_fits) css -> (~ In STRING types -> Forall page_fits (concat_columns (length names) css)) ->
       footer_fits (schema_of names types) (length css) ->
       forall trace, (forall encoded, queue_input library below (Options k false) ff lanes clmul nt ne o data = Some encoded ->
                        exists s, run pipeline_capacity (pipeline encoded) trace s /\ finished s) ->
       let ends := tool library below trace ff lanes clmul hw ne w true None (s2b "convert" :: concat ws) in
       (errors_wanted items /\ has_header o = true /\ header_is_empty names /\ ends = Ended 1 []) \/
       (~ (errors_wanted items /\ has_header o = true /\ header_is_empty names) /\
        exists code file groups, ends = Ended code [file] /\ (code = 0 \/ code = 1) /\
          (code = 1 <-> strict_wanted items /\ has_header o = true /\ (exists i, repeats names i) /\ (errors_kept items <> 0)%N) /\
          ParquetSpec.read_file decompress file = Some (Table (map leaf_of (schema_of names types)) groups) /\
          concat_columns (length names) groups = concat_columns (length names) css)).
Proof.
  intros library below decompress ff lanes clmul hw ne w items ws p k data HI HW HO HK HF HD HL HZ L1 L2 o nt Q1 Q2 FF.
  assert (K : exists q, In (compression_asked items, q) MainSpec.compression_names /\ as_parquet q = k).
  { destruct HK as [H|[H|[H|[H|[H|[]]]]]]; injection H as H <-; rewrite <- H;
      [exists C_ZSTD|exists C_SNAPPY|exists C_LZ4|exists C_GZIP|exists C_NONE]; (split; [cbn [In MainSpec.compression_names]; tauto|reflexivity]). }
  destruct K as (q & HQ & K).
  destruct (C68_conversion_reads_back_partial library below (Options k false) decompress ff lanes clmul nt ne o data HL HZ (or_intror eq_refl) L1 L2 Q1 Q2 HD FF)
    as (names & types & r & Er & W). exists names, types, r. split; [exact Er|]. intros css A B C trace T ends.
  destruct (W A B C trace T) as (c & groups & file & X1 & X2 & X3 & X4 & X5 & X6 & X7).
  destruct (tool_converts library below trace ff lanes clmul hw ne items ws p q w data names types r true None c HI HW HO HQ HF Er
              ltac:(rewrite K; exact X1))
    as [(Y1 & Y2 & Y3 & Y4)|(Y1 & code & Y2 & _ & Y3)]; [left; auto|right].
  split; [exact Y1|]. destruct (Y3 X2) as (Z1 & Z2). exists code, file, groups. unfold ends. rewrite Y2, X5. auto.
Qed.
Print Assumptions C106_convert_writes_the_table_partial.

(** An input that cannot be read, or is empty, or an output that cannot be opened: exit code 1
    and no file. *)
Theorem C106_failures_reported :
  forall library below trace ff lanes clmul hw ne (w : world) (items : list citem) (ws : list (list bytes)) (p : bytes) (k : codec) capacity,
    one_input p items -> Forall2 cwritten items ws -> output_asked items <> [] -> In (compression_asked items, k) MainSpec.compression_names ->
    let ends os_accepts := tool library below trace ff lanes clmul hw ne w os_accepts capacity (s2b "convert" :: concat ws) in
    ((exists message, file_at w p = inl message) \/ file_at w p = inr [] -> forall os_accepts, ends os_accepts = Ended 1 []) /\
    (forall data, file_at w p = inr data -> 1 <= lanes -> Nat.divide lanes 64 ->
       quote (reading_options items) <> LF -> quote (reading_options items) <> CR -> ends false = Ended 1 []).
Proof.
  intros library below trace ff lanes clmul hw ne w items ws p k cap HI HW HO HK ends. split.
  - intros [(m & H)|H] os; [exact (tool_unreadable library below trace ff lanes clmul hw ne items ws p k w m os cap HI HW HO HK H)
                           |exact (tool_empty library below trace ff lanes clmul hw ne items ws p k w os cap HI HW HO HK H)].
  - intros data HF L1 L2 Q1 Q2.
    exact (tool_refused library below trace ff lanes clmul hw ne L1 L2 items ws p k w data cap HI HW HO HK HF Q1 Q2).
Qed.
Print Assumptions C106_failures_reported.

(** Words that do not start a conversion write nothing. *)
Theorem C106_other_words :
  forall library below trace ff lanes clmul hw ne (w : world) os_accepts capacity (r : list bytes),
    let tool := tool library below trace ff lanes clmul hw ne w os_accepts capacity in
    tool [] = Ended 1 [] /\
    (forall x, In x help_words \/ In x version_words -> tool (x :: r) = Ended 0 []) /\
    (forall x, In x later_words \/ (~ In x reserved_words /\ ~ file_like x) -> tool (x :: r) = Ended 1 []) /\
    (forall x, file_like x -> tool (x :: r) = tool (s2b "convert" :: x :: r)).
Proof.
  intros library below trace ff lanes clmul hw ne w os cap r T. unfold T, ToolModel.tool. split; [reflexivity|].
  split; [intros x [X|X]; [rewrite (main_help x r X)|rewrite (main_version x r X)]; reflexivity|].
  split; [intros x [X|(X & Y)]; [rewrite (main_later x r X)|rewrite (main_unknown x r X Y)]; reflexivity|].
  intros x X. rewrite (main_file x r X). reflexivity.
Qed.
Print Assumptions C106_other_words.

Definition lines (s : string) : bytes := map (fun c => if N.eqb c 124 then LF else c) (s2b s).
Definition one_text (content : bytes) : world :=
  World [] (fun p => if list_eq_dec N.eq_dec p (s2b "a.csv") then inr content else inl (s2b "Failed to open file: ")).
Definition tooling (content : bytes) (capacity : option nat) (args : list string) : ended :=
  tool no_library (fun _ _ => true) [] (fun _ => None) 16 true 4 false (one_text content) true capacity (map s2b args).

(** A full disk: exit code 0, and a file that cannot be read. *)
Theorem C106_full_disk_refuted : exists file,
  tooling (lines "a,b|1,x|") (Some 30) ["convert"; "a.csv"; "-o"; "out"; "-c"; "none"]%string = Ended 0 [file] /\
  ParquetSpec.read_file no_decompress file = None.
Proof. eexists. split; [vm_compute; reflexivity|]. vm_compute. reflexivity. Qed.
Print Assumptions C106_full_disk_refuted.

(** An exit code of 1 does not mean that nothing was written: with --strict and a repeated name
    the complete file is there. *)
Theorem C106_failure_writes_refuted : exists file groups,
  tooling (lines "a,a|1,2|3,4|") None ["convert"; "--strict"; "a.csv"; "-o"; "out"; "-c"; "none"]%string = Ended 1 [file] /\
  tooling (lines "a,a|1,2|3,4|") None ["convert"; "a.csv"; "-o"; "out"; "-c"; "none"]%string = Ended 0 [file] /\
  ParquetSpec.read_file no_decompress file = Some (Table [Leaf (s2b "a") P_INT32 true None; Leaf (s2b "a") P_INT32 true None] groups).
Proof. eexists. eexists. split; [vm_compute; reflexivity|]. split; [vm_compute; reflexivity|]. vm_compute. reflexivity. Qed.
Print Assumptions C106_failure_writes_refuted.

Definition tool_items : list citem := [CInput (s2b "a.csv"); CDelimiter 59; CStrict; COutput (s2b "out"); CCompression (s2b "none"); CNoHeader; CPermissive].
Definition tool_words : list (list bytes) :=
  [[s2b "a.csv"]; [s2b "-d"; s2b ";"]; [s2b "--strict"]; [s2b "-o"; s2b "out"]; [s2b "--compression"; s2b "none"]; [s2b "--no-header"]; [s2b "--permissive"]].
Example C106_nonvacuous :
  one_input (s2b "a.csv") tool_items /\ Forall2 cwritten tool_items tool_words /\ output_asked tool_items <> [] /\
  In (compression_asked tool_items, C_NONE) MainSpec.compression_names /\ errors_wanted tool_items /\ ~ strict_wanted tool_items /\
  lossless no_library no_decompress (as_parquet C_NONE) /\
  exists file, tooling (lines "1;x|2;y|") None ["convert"; "a.csv"; "-d"; ";"; "--strict"; "-o"; "out"; "--compression"; "none"; "--no-header"; "--permissive"]%string = Ended 0 [file] /\
    ParquetSpec.read_file no_decompress file =
      Some (Table [Leaf (s2b "V1") P_INT32 true None; Leaf (s2b "V2") P_BYTE_ARRAY true (Some 0%Z)]
                  [[[Some (CInt 1); Some (CInt 2)]; [Some (CBytes (s2b "x")); Some (CBytes (s2b "y"))]]]).
Proof.
  split. { exists [], (tl tool_items). split; [reflexivity|]. repeat constructor. }
  split. { constructor; [apply cw_input; discriminate|]. constructor; [exact (cw_delimiter (s2b ";") (s2b "-d") (or_introl eq_refl))|].
           constructor; [apply cw_strict|]. constructor; [apply cw_output; left; reflexivity|]. constructor; [apply cw_compression; right; left; reflexivity|].
           constructor; [apply cw_noheader|]. constructor; [apply cw_permissive|constructor]. }
  split; [discriminate|]. split; [vm_compute; auto 6|].
  split. { exists CStrict. split; [right; right; left; reflexivity|auto]. }
  split. { intros H. apply strict_mode in H. discriminate H. }
  split. { intros d out _ H. discriminate H. }
  eexists. split; [vm_compute; reflexivity|]. vm_compute. reflexivity.
Qed.
(** The library is asked for the codec named, and the footer says so: a library that has one codec
    only, which leaves out eight zero bytes at the end. *)
Definition only (k : ParquetModel.compression) (c : ParquetModel.compression) (d : bytes) : option bytes :=
  if Z.eqb (format_codec k) (format_codec c) && (8 <? length d) && forallb (N.eqb 0) (skipn (length d - 8) d) then Some (firstn (length d - 8) d) else None.
Definition only_back (k : ParquetModel.compression) (z : Z) (d : bytes) : option bytes :=
  if Z.eqb (format_codec k) z then Some (d ++ repeat 0%N 8) else None.
Definition asked_run (name : bytes) (k : ParquetModel.compression) : ended :=
  tool (only k) (fun _ _ => true) [] (fun _ => None) 16 true 4 false (one_text (lines "a|0|0|0|0|0|")) true None
       [s2b "convert"; s2b "a.csv"; s2b "-o"; s2b "out"; s2b "-c"; name].
Example C106_codec_asked : forall name k, In (name, k) codecs_by_name -> k <> LZ4 -> k <> NONE ->
  exists file plain, asked_run name k = Ended 0 [file] /\
    tooling (lines "a|0|0|0|0|0|") None ["convert"; "a.csv"; "-o"; "out"; "-c"; "none"]%string = Ended 0 [plain] /\
    (length file + 8 =? length plain) = true /\
    ParquetSpec.read_file (only_back k) file = Some (Table [Leaf (s2b "a") P_INT32 true None] [[repeat (Some (CInt 0)) 5]]).
Proof.
  intros name k [H|[H|[H|[H|[H|[]]]]]] K1 K2; injection H as <- <-; try congruence;
    (eexists; eexists; split; [vm_compute; reflexivity|]; split; [vm_compute; reflexivity|]; split; vm_compute; reflexivity).
Qed.
