(** C114: what convert tells on standard error. *)
From Verif Require Import Base TypesSpec WordsModel ChunkModel FieldsModel ReaderSpec ReaderModel TypesModel ErrorsSpec ErrorsModel CliSpec CliModel StrictSpec
  CompressSpec MainSpec MainModel MainProof ProgramSpec ProgramModel
  MetaSpec BuffersModel PlainSpec ParquetSpec ParquetModel QueueSpec QueueModel PipelineModel ConvertModel PyConvSpec PyConvModel
  ToolSpec ToolModel ToolProof ShowSpec ReportSpec ReportModel ReportProof ProgressModel StderrSpec StderrModel StderrProof.

(** Every documented command line without -v and -p, every file the reader makes a table of,
    every schedule and disk.  A header that is refused is named.  Otherwise the repeated columns
    that were kept are listed, one line each and in order, when errors are looked for; nothing
    is written when there are none and the output could be opened; an output that cannot be
    opened is named; and the exit code goes with it. *)
Theorem C114_convert_tells :
  forall library below trace ff lanes clmul hw ne (w : world) (items : list citem) (ws : list (list bytes)) (p : bytes) (k : codec) (data : bytes)
         tty os cap names types t code files,
    one_input p items -> Forall2 cwritten items ws -> output_asked items <> [] -> In (compression_asked items, k) MainSpec.compression_names ->
    file_at w p = inr data -> ~ In CVerbose items -> ~ In CProgress items ->
    let o := reading_options items in
    TypesModel.read_file ff lanes clmul (reading_threads hw items) ne o data = Some (names, types, t) ->
    tool library below trace ff lanes clmul hw ne w os cap (s2b "convert" :: concat ws) = Ended code files ->
    let refused := errors_wanted items /\ has_header o = true /\ header_is_empty names in
    exists text, told library below trace ff lanes clmul hw ne w tty os cap (s2b "convert" :: concat ws) = Some text /\
      (refused -> code = 1 /\ text = as_text [s2b "Error: Header row is empty"]) /\
      (~ refused -> exists columns number ls,
         (errors_wanted items /\ has_header o = true -> exists all, repeated_columns names all /\ columns = firstn (N.to_nat (errors_kept items)) all) /\
         (~ (errors_wanted items /\ has_header o = true) -> columns = []) /\
         says number (length columns) /\ all_lines (s2b "  ") (map (repeated_warning names) columns) ls /\
         (os = true -> columns = [] -> text = [] /\ code = 0) /\
         (os = true -> columns <> [] ->
            text = as_text ([] :: (number ++ s2b " warnings:") :: ls) /\ (code = 0 \/ code = 1) /\ (code = 1 <-> strict_wanted items)) /\
         (os = false -> code = 1 /\
            exists more, text = as_text ((s2b "Error: Failed to open file for writing: " ++ output_asked items) :: more) /\
              (columns = [] -> more = []) /\
              (columns <> [] -> more = [] :: (s2b "Parse errors (" ++ number ++ s2b " warnings):") :: ls))).
Proof.
  intros library below trace ff lanes clmul hw ne w items ws p k data tty os cap names types t code files HI HW HO HK HF NV NP o HR HE refused.
  destruct (says_ok library below trace ff lanes clmul hw ne items ws p k w tty data names types t os cap code files HI HW HO HK HF NV NP HR HE)
    as (text & T & A & B). exists text. split; [exact T|]. split; [exact A|]. intros NR.
  destruct (B NR) as (columns & B1 & B2 & B3 & B4 & B5).
  exists columns, (print (length columns)), (listing names columns). split; [exact B1|]. split; [exact B2|].
  split; [apply print_says|]. split; [exact (all_lines_spec (s2b "  ") _ (reports_known names columns))|].
  split; [|split].
  - intros -> ->. split; [exact B5|]. destruct B4 as [B4|B4]; [exact B4|]. apply B3 in B4. destruct B4 as [X|(_ & X)]; [discriminate X|congruence].
  - intros -> NC. split; [destruct columns; [congruence|exact B5]|]. split; [exact B4|]. rewrite B3. split; [|intros X; right; auto].
    intros [X|(X & _)]; [discriminate X|exact X].
  - intros ->. split; [apply B3; left; reflexivity|]. eexists. split; [exact B5|]. split; [intros ->; reflexivity|].
    intros NC. destruct columns; [congruence|reflexivity].
Qed.
Print Assumptions C114_convert_tells.

(** An input that cannot be read, or is empty: the reason is told. *)
Theorem C114_unreadable_told :
  forall library below trace ff lanes clmul hw ne (w : world) (items : list citem) (ws : list (list bytes)) (p : bytes) (k : codec) tty os cap,
    one_input p items -> Forall2 cwritten items ws -> output_asked items <> [] -> In (compression_asked items, k) MainSpec.compression_names ->
    ~ In CVerbose items -> ~ In CProgress items ->
    let text := told library below trace ff lanes clmul hw ne w tty os cap (s2b "convert" :: concat ws) in
    (forall message, file_at w p = inl message -> text = Some (as_text [s2b "Error: " ++ message])) /\
    (file_at w p = inr [] -> text = Some (as_text [s2b "Error: Empty file"])).
Proof.
  intros library below trace ff lanes clmul hw ne w items ws p k tty os cap HI HW HO HK NV NP.
  exact (told_unreadable library below trace ff lanes clmul hw ne items ws p k w tty os cap HI HW HO HK NV NP).
Qed.
Print Assumptions C114_unreadable_told.

Definition telling (content : bytes) (os : bool) (words : list string) : option bytes :=
  told (fun _ _ => None) (fun _ _ => true) [] (fun _ => None) 4 false 1 true (World [] (fun _ => inr content)) true os None (map s2b words).

(** Errors that were not kept are not mentioned: with one error kept, a header with one repeated
    column and one with two look the same. *)
Theorem C114_suppressed_not_mentioned_refuted : exists text,
  let words := ["convert"; "--max-errors"; "1"; "a.csv"; "-o"; "out"; "-c"; "none"]%string in
  telling (s2b "a,a,b" ++ [LF] ++ s2b "1,2,3" ++ [LF]) true words = Some text /\
  telling (s2b "a,a,a" ++ [LF] ++ s2b "1,2,3" ++ [LF]) true words = Some text.
Proof. eexists. split; vm_compute; reflexivity. Qed.
Print Assumptions C114_suppressed_not_mentioned_refuted.

(** Warnings look the same whether the conversion succeeded or not (the exit code of --strict
    is 1, that of --permissive 0). *)
Theorem C114_strict_failure_looks_like_success_refuted : exists text,
  let content := s2b "a,a" ++ [LF] ++ s2b "1,2" ++ [LF] in
  telling content true ["convert"; "--strict"; "a.csv"; "-o"; "out"; "-c"; "none"]%string = Some text /\
  telling content true ["convert"; "--permissive"; "a.csv"; "-o"; "out"; "-c"; "none"]%string = Some text /\
  text = as_text [[]; s2b "1 warnings:"; s2b "  [WARNING] DUPLICATE_COLUMN_NAMES at line 1, column 2 (byte 0): Duplicate column name: 'a'"].
Proof. eexists. split; [vm_compute; reflexivity|]. split; vm_compute; reflexivity. Qed.
Print Assumptions C114_strict_failure_looks_like_success_refuted.

(** With -p on a terminal a conversion that fails shows the full bar first. *)
Theorem C114_bar_before_failure_refuted :
  telling [] true ["convert"; "-p"; "a.csv"; "-o"; "out"]%string =
    Some ([13%N] ++ as_text [s2b "[" ++ repeat 61%N 40 ++ s2b "] 100%"; s2b "Error: Empty file"]).
Proof. vm_compute. reflexivity. Qed.
Print Assumptions C114_bar_before_failure_refuted.

Definition telling_items : list citem := [CStrict; CInput (s2b "a.csv"); COutput (s2b "out"); CCompression (s2b "none")].
Definition telling_words : list (list bytes) := [[s2b "--strict"]; [s2b "a.csv"]; [s2b "-o"; s2b "out"]; [s2b "--compression"; s2b "none"]].
Example C114_meets :
  one_input (s2b "a.csv") telling_items /\ Forall2 cwritten telling_items telling_words /\ output_asked telling_items <> [] /\
  In (compression_asked telling_items, C_NONE) MainSpec.compression_names /\ ~ In CVerbose telling_items /\ ~ In CProgress telling_items /\
  (exists names types t, TypesModel.read_file (fun _ => @None N) 4 false 1 true (reading_options telling_items) (s2b "a,a" ++ [LF] ++ s2b "1,2" ++ [LF]) = Some (names, types, t) /\
     repeated_columns names [1]) /\
  (exists files, tool (fun _ _ => None) (fun _ _ => true) [] (fun _ => None) 4 false 1 true (World [] (fun _ => inr (s2b "a,a" ++ [LF] ++ s2b "1,2" ++ [LF]))) true None
     (s2b "convert" :: concat telling_words) = Ended 1 files).
Proof.
  split. { exists [CStrict], [COutput (s2b "out"); CCompression (s2b "none")]. split; [reflexivity|]. repeat constructor. }
  split. { constructor; [apply cw_strict|]. constructor; [apply cw_input; discriminate|]. constructor; [apply cw_output; left; reflexivity|].
           constructor; [apply cw_compression; right; left; reflexivity|constructor]. }
  split; [discriminate|]. split; [vm_compute; auto 6|]. split; [intros H; cbn in H; intuition discriminate|]. split; [intros H; cbn in H; intuition discriminate|].
  split.
  - do 3 eexists. split; [vm_compute; reflexivity|]. split; [|repeat constructor]. intros i. split.
    + intros [<-|[]]. exists 0, (s2b "a"). repeat split; try lia. discriminate.
    + intros (j & n & H1 & H2 & H3 & _). destruct i as [|[|i]]; [lia|left; reflexivity|]. destruct i; discriminate H3.
  - eexists. vm_compute. reflexivity.
Qed.
