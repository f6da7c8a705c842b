(** Proofs about standard error of convert. *)
From Verif Require Import Base TypesSpec WordsModel ChunkModel FieldsModel ReaderSpec ReaderModel TypesModel ErrorsSpec ErrorsModel ErrorsProof CliSpec CliModel CliProof6 StrictSpec StrictModel StrictProof
  CompressSpec MainSpec MainModel MainProof ProgramSpec ProgramModel
  MetaSpec BuffersModel PlainSpec ParquetSpec ParquetModel ParquetObs ParquetProps QueueSpec QueueModel PipelineModel ConvertModel ConvertObs ConvertProps PyConvSpec PyConvModel PyConvProof
  ToolSpec ToolModel ToolProof ShowSpec ShowModel ShowProof ReportSpec ReportModel ReportProof ProgressSpec ProgressModel ProgressProof StderrSpec StderrModel.
From Coq Require Import Sorted.

Lemma cgiven_false f items : (forall i, In i items -> f i = false) -> cgiven f items = false.
Proof.
  intros H. unfold cgiven. destruct (existsb f items) eqn:E; [|reflexivity]. apply existsb_exists in E. destruct E as (i & Hi & E).
  rewrite H in E by exact Hi. discriminate.
Qed.

Lemma main_converts_more items ws p k : one_input p items -> Forall2 cwritten items ws -> output_asked items <> [] ->
  In (compression_asked items, k) MainSpec.compression_names ->
  exists c, main (s2b "convert" :: concat ws) = ConvertFile c k /\ in_path (common c) = p /\ csv_of (common c) = reading_options items /\
    threads (common c) = last_citem (fun i => match i with CThreads n => Some n | _ => None end) items 0%N /\
    max_errors (common c) = errors_kept items /\ error_mode (common c) = mode_of_items items /\
    out_path c = output_asked items /\
    progress (common c) = cgiven (fun i => match i with CProgress => true | _ => false end) items /\
    verbose (common c) = cgiven (fun i => match i with CVerbose => true | _ => false end) items.
Proof.
  intros HI HW HO HK. destruct (main_converts items ws p k HI HW HO HK) as (c & M & E1 & E2 & E3 & E4 & E5).
  destruct HI as (b & a & E & HF).
  destruct (convert_spec items ws p b a E HF HW) as (c' & P & A1 & A2 & A3 & A4 & A5 & A6 & A7 & A8 & A9 & A10 & _).
  assert (c' = c).
  { rewrite main_convert in M. unfold start_convert in M. rewrite P in M. destruct (in_path (common c')); [discriminate M|].
    destruct (out_path c'); [discriminate M|]. destruct (codec_of _); [|discriminate M].
    exact (f_equal (fun x => match x with ConvertFile c _ => c | _ => c' end) M). }
  subst c'. exists c. repeat (split; [assumption|]). assumption.
Qed.

Lemma report_is names i : reader_report (Error DUPLICATE_COLUMN_NAMES WARNING 1 (i + 1) 0 (nth i names [])) = repeated_warning names i.
Proof. reflexivity. Qed.
Lemma reports_known names l : Forall known_code (map (repeated_warning names) l).
Proof. apply Forall_forall. intros r H. apply in_map_iff in H as (i & <- & _). unfold known_code. cbn. lia. Qed.

(** Warnings only: n warnings. *)
Lemma tally_warnings names l : forall w x f, tally (map r_error (map (repeated_warning names) l)) (w, x, f) = (length l + w, x, f).
Proof.
  induction l as [|i l IH]; intros w x f; [reflexivity|]. cbn [map tally r_error repeated_warning e_severity length].
  change (tally (map r_error (map (repeated_warning names) l)) (S w, x, f) = (S (length l) + w, x, f)).
  rewrite IH. f_equal. f_equal. lia.
Qed.
Lemma summary_warnings names l : l <> [] -> error_summary (map r_error (map (repeated_warning names) l)) = to_string_N (N.of_nat (length l)) ++ s2b " warnings".
Proof.
  intros H. unfold error_summary. rewrite tally_warnings. destruct l as [|i l]; [congruence|]. cbn [map]. rewrite Nat.add_0_r. reflexivity.
Qed.

Definition listing names l : list bytes := concat (map (lines_of (s2b "  ")) (map (repeated_warning names) l)).
Lemma report_ok names l : cli_report None (map (repeated_warning names) l) =
  match l with [] => [] | _ => as_text ([] :: (to_string_N (N.of_nat (length l)) ++ s2b " warnings:") :: listing names l) end.
Proof.
  destruct l as [|i l]; [reflexivity|]. unfold cli_report. rewrite summary_warnings by discriminate.
  rewrite all_lines_text. fold (listing names (i :: l)). cbn [map]. unfold as_text at 2. cbn [map concat].
  rewrite <- !app_assoc. reflexivity.
Qed.
Lemma report_failed m names l : cli_report (Some m) (map (repeated_warning names) l) =
  as_text ((s2b "Error: " ++ m) :: match l with [] => [] | _ => [] :: (s2b "Parse errors (" ++ to_string_N (N.of_nat (length l)) ++ s2b " warnings):") :: listing names l end).
Proof.
  destruct l as [|i l].
  - unfold cli_report, as_text. cbn [map concat]. rewrite app_nil_r, <- app_assoc. reflexivity.
  - unfold cli_report. rewrite summary_warnings by discriminate.
    rewrite all_lines_text. fold (listing names (i :: l)). cbn [map]. unfold as_text at 2. cbn [map concat].
    rewrite <- !app_assoc. reflexivity.
Qed.

(** How a conversion of a readable file ends. *)
Lemma convert_ends library below opts trace ff lanes clmul nt ne o data os cap names types t r :
  TypesModel.read_file ff lanes clmul nt ne o data = Some (names, types, t) ->
  convert library below opts trace ff lanes clmul nt ne o data true os cap = Some r ->
  cv_error r = if os then None else Some OutputFailed.
Proof.
  unfold TypesModel.read_file, convert. destruct (open_file ff lanes clmul o data) as [[[ns ts] he]|]; [|discriminate].
  intros HR. destruct (read_all _ _ _ _ _ _ _ _ _ _ _) as [r'|]; [|discriminate HR]. clear HR. cbn [negb].
  destruct (do_open writer_new os cap) as [p opened] eqn:O.
  assert (opened = os).
  { unfold do_open in O. cbn in O. destruct os; [destruct cap; cbn in O; inversion O; reflexivity|inversion O; reflexivity]. }
  subst opened. destruct os; cbn [negb].
  - destruct (all_or_none _); [|discriminate]. destruct (write_chunks _ _ _ _ _ _ _) as [q|]; [|discriminate].
    intros H. inversion H. reflexivity.
  - intros H. inversion H. reflexivity.
Qed.

Section Main.
Variable library : ParquetModel.compression -> bytes -> option bytes.
Variable below : nat -> nat -> bool.
Variable trace : list (label (Z * list encoded_column)).
Variable ff : bytes -> option N.
Variables (lanes : nat) (clmul : bool) (hw : N) (ne : bool).
Notation run := (tool library below trace ff lanes clmul hw ne).
Notation tells := (StderrModel.told library below trace ff lanes clmul hw ne).

Lemma says_ok items ws p k w tty data names types t os cap code files :
  one_input p items -> Forall2 cwritten items ws -> output_asked items <> [] ->
  In (compression_asked items, k) MainSpec.compression_names -> file_at w p = inr data ->
  ~ In CVerbose items -> ~ In CProgress items ->
  let o := reading_options items in
  TypesModel.read_file ff lanes clmul (reading_threads hw items) ne o data = Some (names, types, t) ->
  run w os cap (s2b "convert" :: concat ws) = Ended code files ->
  exists text, tells w tty os cap (s2b "convert" :: concat ws) = Some text /\
    (errors_wanted items /\ has_header o = true /\ header_is_empty names -> code = 1 /\ text = as_text [s2b "Error: Header row is empty"]) /\
    (~ (errors_wanted items /\ has_header o = true /\ header_is_empty names) ->
     exists columns, 
       (errors_wanted items /\ has_header o = true ->
          exists all, repeated_columns names all /\ columns = firstn (N.to_nat (errors_kept items)) all) /\
       (~ (errors_wanted items /\ has_header o = true) -> columns = []) /\
       (code = 1 <-> os = false \/ (strict_wanted items /\ columns <> [])) /\ (code = 0 \/ code = 1) /\
       text = if os then match columns with [] => [] | _ => as_text ([] :: (to_string_N (N.of_nat (length columns)) ++ s2b " warnings:") :: listing names columns) end
              else as_text ((s2b "Error: Failed to open file for writing: " ++ output_asked items) ::
                     match columns with [] => [] | _ => [] :: (s2b "Parse errors (" ++ to_string_N (N.of_nat (length columns)) ++ s2b " warnings):") :: listing names columns end)).
Proof.
  intros HI HW HO HK HF NV NP o HR HC.
  destruct (main_converts_more items ws p k HI HW HO HK) as (c & M & E1 & E2 & E3 & E4 & E5 & E6 & E7 & E8). fold o in E2.
  unfold StderrModel.told. unfold tool in HC. rewrite M in *.
  rewrite E8, cgiven_false by (intros i Hi; destruct i; try reflexivity; contradiction).
  unfold convert_says. unfold run_convert in HC. rewrite E7, (cgiven_false (fun i => match i with CProgress => true | _ => false end)) by (intros i Hi; destruct i; try reflexivity; contradiction).
  rewrite E1, HF in *. rewrite E6. cbv zeta in HC |- *. unfold bar_of. cbn [option_map app].
  set (m := mode_of (mode_of_items items)). set (limit := N.to_nat (errors_kept items)).
  assert (V1 : v_csv (options_given c k) = o) by (exact E2).
  assert (V2 : v_mode (options_given c k) = m) by (unfold m; rewrite <- E5; reflexivity).
  assert (V3 : v_limit (options_given c k) = limit) by (unfold limit; rewrite <- E4; reflexivity).
  assert (V4 : reader_threads hw (options_given c k) = reading_threads hw items).
  { unfold reader_threads, reading_threads. cbv zeta. rewrite <- E3. reflexivity. }
  assert (V5 : v_compression (options_given c k) = as_parquet k) by reflexivity.
  assert (V6 : v_dictionary (options_given c k) = false) by reflexivity.
  unfold convert_with in *. rewrite V1, V2, V3, V4, V5, V6 in *. clear V1 V2 V3 V4 V5 V6.
  pose proof (read_checked_spec ff lanes clmul (reading_threads hw items) ne o m limit data names types t HR) as R.
  unfold convert_errors in *. rewrite R in *. clear R.
  assert (MM : (m = FAIL_FAST \/ m = PERMISSIVE) <-> errors_wanted items).
  { rewrite <- some_mode. unfold m. destruct (mode_of_items items); cbn; split; intros H; try discriminate; try tauto; try (destruct H; discriminate); auto. }
  assert (MD : m = DISABLED \/ m = FAIL_FAST \/ m = PERMISSIVE) by (unfold m; destruct (mode_of_items items); cbn; auto).
  pose proof (stops_iff o m names) as ST. destruct (stops o m names) eqn:Es.
  - destruct ST as (ST & _). specialize (ST eq_refl). destruct ST as (S1 & S2 & S3).
    assert (O : snd (open_checked ff lanes clmul o m limit data) = None).
    { unfold TypesModel.read_file in HR. destruct (open_file ff lanes clmul o data) as [[[ns ts] he]|] eqn:E; [|discriminate HR].
      destruct (read_all _ _ _ _ _ _ _ _ _ _ _) as [r'|]; [|discriminate HR].
      assert (X1 : ns = names) by (exact (f_equal (fun x => match x with Some (a, _, _) => a | None => [] end) HR)). subst ns.
      rewrite (open_checked_spec ff lanes clmul o m limit _ _ _ _ E), Es. reflexivity. }
    rewrite O in *. cbn [option_map cv_error app] in *. eexists. split; [reflexivity|]. split; [|intros X; exfalso; apply X; split; [apply MM, S3|auto]].
    intros _. destruct data as [|x data]; [discriminate HR|]. split; [|reflexivity]. inversion HC. reflexivity.
  - assert (NS : ~ (errors_wanted items /\ has_header o = true /\ header_is_empty names)).
    { intros (S1 & S2 & S3). assert (stops o m names = true); [|congruence]. apply stops_iff. split; [exact S2|]. split; [exact S3|apply MM, S1]. }
    destruct (convert library below _ trace ff lanes clmul _ ne o data true os cap) as [r|] eqn:HV; [|discriminate HC].
    rewrite (convert_ends _ _ _ _ _ _ _ _ _ _ _ _ _ _ _ _ _ HR HV) in *.
    set (es := if has_header o then _ else _) in *.
    assert (ES : exists columns, map reader_report es = map (repeated_warning names) columns /\
       (errors_wanted items /\ has_header o = true -> exists all, repeated_columns names all /\ columns = firstn limit all) /\
       (~ (errors_wanted items /\ has_header o = true) -> columns = [])).
    { unfold es in *. clear HC. destruct (has_header o) eqn:HH.
      - destruct MD as [MD|MD].
        + exists []. rewrite MD. rewrite header_disabled. split; [reflexivity|]. split; [|auto].
          intros (W & _). apply MM in W. destruct W; congruence.
        + assert (W : errors_wanted items) by (apply MM; exact MD).
          assert (NE : ~ header_is_empty names) by (intros X; apply NS; auto).
          pose proof (header_duplicates m limit names ltac:(destruct MD; congruence) NE) as D. destruct (validate_header _ names) as [cc ok].
          destruct D as (_ & _ & dups & D1 & D0 & D2 & _). cbn [fst]. rewrite D2. exists (firstn limit dups).
          split; [rewrite <- !firstn_map, map_map; reflexivity|]. split; [|intros X; exfalso; apply X; auto].
          intros _. exists dups. split; [split; assumption|reflexivity].
      - exists []. split; [reflexivity|]. split; [intros (_ & X); discriminate|auto]. }
    destruct ES as (columns & C1 & C2 & C3). rewrite C1.
    assert (CC : (code = 1 <-> os = false \/ (strict_wanted items /\ columns <> [])) /\ (code = 0 \/ code = 1)).
    { assert (MF : m = FAIL_FAST <-> strict_wanted items).
      { rewrite <- strict_mode. unfold m. destruct (mode_of_items items); cbn; split; congruence. }
      assert (N : es = [] <-> columns = []).
      { split; intros X; rewrite X in C1; cbn [map] in C1; [destruct columns|destruct es]; congruence || discriminate C1. }
      clearbody es. destruct os.
      - destruct es as [|x es].
        + assert (code = 0) by congruence. split; [|auto]. split; [lia|]. intros [X|(_ & X)]; [discriminate|]. exfalso. apply X, N. reflexivity.
        + assert (X : columns <> []) by (intros X; apply N in X; discriminate). rewrite <- MF.
          destruct m; cbv beta iota in HC.
          * assert (code = 0) by congruence. split; [|auto]. split; [lia|]. intros [Y|(Y & _)]; discriminate.
          * assert (code = 1) by congruence. split; [|auto]. split; [intros _; right; auto|intros _; assumption].
          * assert (code = 0) by congruence. split; [|auto]. split; [lia|]. intros [Y|(Y & _)]; discriminate.
          * assert (code = 0) by congruence. split; [|auto]. split; [lia|]. intros [Y|(Y & _)]; discriminate.
      - assert (code = 1) by congruence. split; [|auto]. split; [intros _; left; reflexivity|intros _; assumption]. }
    clearbody es.
    eexists. split; [reflexivity|]. split; [intros X; contradiction|]. intros _. exists columns.
    split; [exact C2|]. split; [exact C3|]. split; [apply CC|]. split; [apply CC|]. destruct os.
    + rewrite report_ok. destruct MD as [MD|[MD|MD]]; rewrite MD; try reflexivity.
      rewrite C3; [reflexivity|]. intros (W & _). apply MM in W. destruct W; congruence.
    + cbn [error_text]. rewrite report_failed. rewrite app_assoc. reflexivity.
Qed.
End Main.

(** An input that cannot be read or is empty. *)
Lemma told_unreadable library below trace ff lanes clmul hw ne items ws p k w tty os cap :
  one_input p items -> Forall2 cwritten items ws -> output_asked items <> [] ->
  In (compression_asked items, k) MainSpec.compression_names -> ~ In CVerbose items -> ~ In CProgress items ->
  (forall message, file_at w p = inl message ->
     StderrModel.told library below trace ff lanes clmul hw ne w tty os cap (s2b "convert" :: concat ws) = Some (as_text [s2b "Error: " ++ message])) /\
  (file_at w p = inr [] ->
     StderrModel.told library below trace ff lanes clmul hw ne w tty os cap (s2b "convert" :: concat ws) = Some (as_text [s2b "Error: Empty file"])).
Proof.
  intros HI HW HO HK NV NP.
  destruct (main_converts_more items ws p k HI HW HO HK) as (c & M & E1 & E2 & E3 & E4 & E5 & E6 & E7 & E8).
  unfold StderrModel.told. rewrite M.
  rewrite E8, cgiven_false by (intros i Hi; destruct i; try reflexivity; contradiction).
  unfold convert_says. rewrite E7, (cgiven_false (fun i => match i with CProgress => true | _ => false end)) by (intros i Hi; destruct i; try reflexivity; contradiction).
  rewrite E1. split.
  - intros m ->. unfold bar_of, as_text. cbn [option_map app cli_report map concat]. rewrite app_nil_r, <- app_assoc. reflexivity.
  - intros ->. reflexivity.
Qed.
