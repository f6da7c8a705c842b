(** C102: error reports say which errors there were. *)
From Verif Require Import Base ErrorsSpec ErrorsModel CliSpec ShowSpec ShowProof ReportSpec ReportModel ReportProof.

(** One error: severity, code, place and message on one line, the context (if any) on a second. *)
Theorem C102_one_report :
  forall r : report, known_code r ->
    exists ls, report_lines [] r ls /\ to_string r ++ [LF] = as_text ls.
Proof. intros r K. exists (lines_of [] r). split; [exact (lines_of_spec [] r K)|exact (lines_of_text [] r)]. Qed.
Print Assumptions C102_one_report.

(** Different errors have different texts, if their messages are on one line. *)
Theorem C102_one_report_tells :
  forall r r' : report, known_code r -> known_code r' -> ~ In LF (e_message (r_error r)) -> ~ In LF (e_message (r_error r')) ->
    to_string r = to_string r' -> r = r'.
Proof. exact to_string_inj. Qed.
Print Assumptions C102_one_report_tells.

(** The summary lists every stored error, in order. *)
Theorem C102_summary_lists :
  forall (errors : list report) (suppressed : nat), errors <> [] -> Forall known_code errors ->
    exists first limit ls,
      summary errors suppressed = as_text (first :: limit ++ [] :: s2b "Details:" :: ls) /\ all_lines [] errors ls /\
      (suppressed = 0 -> limit = []) /\
      (1 <= suppressed -> exists w, says w suppressed /\
         limit = [s2b "Error limit reached: " ++ w ++ s2b " additional error" ++ (if suppressed =? 1 then [] else s2b "s") ++ s2b " suppressed"]).
Proof.
  intros errors n H K. exists (counts_line errors), (limit_lines n), (concat (map (lines_of []) errors)).
  split; [exact (summary_text errors n H)|]. split; [exact (all_lines_spec [] errors K)|]. split; [intros ->; reflexivity|].
  intros Hn. exists (print n). split; [apply print_says|]. unfold limit_lines. destruct (Nat.ltb_spec 0 n); [reflexivity|lia].
Qed.
Print Assumptions C102_summary_lists.

(** The first line gives the number of errors of each severity. *)
Theorem C102_summary_counts :
  forall (errors : list report) (suppressed : nat), errors <> [] ->
    exists all warnings recoverable fatal rest,
      says all (length errors) /\ says warnings (how_many WARNING errors) /\
      says recoverable (how_many RECOVERABLE errors) /\ says fatal (how_many FATAL errors) /\
      summary errors suppressed =
        s2b "Total errors: " ++ all ++
        unless_zero (how_many WARNING errors) (s2b " (Warnings: " ++ warnings) ++
        unless_zero (how_many RECOVERABLE errors) (s2b ", Errors: " ++ recoverable) ++
        unless_zero (how_many FATAL errors) (s2b ", Fatal: " ++ fatal) ++ s2b ")" ++ LF :: rest.
Proof.
  intros es n H. exists (print (length es)), (print (how_many WARNING es)), (print (how_many RECOVERABLE es)), (print (how_many FATAL es)).
  eexists. repeat (split; [apply print_says|]). rewrite (summary_text es n H), as_text_cons, (counts_line_says es H).
  rewrite <- !app_assoc. cbn [app]. reflexivity.
Qed.
Print Assumptions C102_summary_counts.

(** Without a warning the parenthesis is closed but not opened. *)
Theorem C102_parenthesis_refuted :
  summary [Report (Error 4 RECOVERABLE 3 1 20 (s2b "m")) []] 0 =
    as_text [s2b "Total errors: 1, Errors: 1)"; []; s2b "Details:"; s2b "[ERROR] INCONSISTENT_FIELD_COUNT at line 3, column 1 (byte 20): m"].
Proof. vm_compute. reflexivity. Qed.
Print Assumptions C102_parenthesis_refuted.

(** The summary determines the errors and the number of suppressed ones. *)
Theorem C102_summary_tells_partial :
  forall (es es' : list report) (n n' : nat),
    Forall known_code es -> Forall single_line es -> Forall known_code es' -> Forall single_line es' ->
    summary es n = summary es' n' -> es = es' /\ n = n'.
Proof. exact summary_inj. Qed.
Print Assumptions C102_summary_tells_partial.

(** So does the text of an exception made from two or more errors ... *)
Theorem C102_exception_tells_partial :
  forall es es' : list report, 2 <= length es -> 2 <= length es' ->
    Forall known_code es -> Forall single_line es -> Forall known_code es' -> Forall single_line es' ->
    format_errors es = format_errors es' -> es = es'.
Proof. exact format_inj. Qed.
Print Assumptions C102_exception_tells_partial.

(** ... and what convert prints on the error stream. *)
Theorem C102_cli_report_tells_partial :
  forall es es' : list report,
    Forall known_code es -> Forall single_line es -> Forall known_code es' -> Forall single_line es' ->
    (cli_report None es = cli_report None es' -> es = es') /\
    (forall m m', ~ In LF m -> ~ In LF m' -> cli_report (Some m) es = cli_report (Some m') es' -> m = m' /\ es = es').
Proof.
  intros es es' K C K' C'. split; [exact (cli_ok_inj es es' K C K' C')|].
  intros m m' M M'. exact (cli_failed_inj m m' es es' M M' K C K' C').
Qed.
Print Assumptions C102_cli_report_tells_partial.

(** An exception with a single error says its message and nothing else. *)
Theorem C102_single_exception_refuted :
  exists r r' : report, r <> r' /\ known_code r /\ known_code r' /\ single_line r /\ single_line r' /\
    format_errors [r] = format_errors [r'] /\ (forall q, format_errors [q] = e_message (r_error q)).
Proof.
  exists (Report (Error 1 FATAL 10 5 1024 (s2b "Unclosed quote")) []), (Report (Error 14 WARNING 2 7 99 (s2b "Unclosed quote")) []).
  split; [discriminate|]. split; [unfold known_code; simpl; lia|]. split; [unfold known_code; simpl; lia|].
  split; [split; vm_compute; intuition discriminate|]. split; [split; vm_compute; intuition discriminate|]. split; reflexivity.
Qed.
Print Assumptions C102_single_exception_refuted.

(** The names of two forged columns. *)
Definition forged_line (column name : bytes) : bytes :=
  s2b "'" ++ [LF] ++ s2b "  [WARNING] DUPLICATE_COLUMN_NAMES at line 1, column " ++ column ++ s2b " (byte 0): Duplicate column name: '" ++ name.
Definition header_1 : list bytes :=
  [s2b "x" ++ forged_line (s2b "4") (s2b "y"); s2b "x" ++ forged_line (s2b "4") (s2b "y"); s2b "u"; s2b "v"; s2b "z"; s2b "z"].
Definition header_2 : list bytes :=
  [s2b "x"; s2b "x"; s2b "y" ++ forged_line (s2b "6") (s2b "z"); s2b "y" ++ forged_line (s2b "6") (s2b "z"); s2b "u"; s2b "v"].

(** A column name may contain a line end: two headers with different duplicates, reported by
    the reader, print the same list (six columns and two warnings each). *)
Theorem C102_newline_in_a_name_refuted :
  let errors_of names := map reader_report (c_errors (fst (validate_header (new_collector PERMISSIVE 10) names))) in
  errors_of header_1 <> errors_of header_2 /\ length (errors_of header_1) = 2 /\ length (errors_of header_2) = 2 /\
  Forall known_code (errors_of header_1) /\ Forall known_code (errors_of header_2) /\
  cli_report None (errors_of header_1) = cli_report None (errors_of header_2).
Proof.
  cbv zeta. split; [vm_compute; discriminate|]. split; [vm_compute; reflexivity|]. split; [vm_compute; reflexivity|].
  split; [vm_compute; repeat constructor|]. split; [vm_compute; repeat constructor|]. vm_compute. reflexivity.
Qed.
Print Assumptions C102_newline_in_a_name_refuted.

(** The example in the documentation of ParseError (error.h:110-115) shows another text. *)
Theorem C102_documented_text_refuted :
  to_string (Report (Error 1 FATAL 10 5 1024 (s2b "Unclosed quote at end of file")) (s2b "...content...")) <>
  s2b "FATAL [line 10, col 5]: Unclosed quote at end of file".
Proof. vm_compute. discriminate. Qed.
Print Assumptions C102_documented_text_refuted.

Example C102_nonvacuous :
  let r := Report (Error 4 RECOVERABLE 3 1 20 (s2b "Expected 3 fields")) (s2b "a,b") in
  let q := Report (Error 10 WARNING 1 2 0 (s2b "Duplicate column name: 'a'")) [] in
  known_code r /\ single_line r /\ known_code q /\ single_line q /\
  summary [q; r] 1 = as_text
    [s2b "Total errors: 2 (Warnings: 1, Errors: 1)"; s2b "Error limit reached: 1 additional error suppressed"; []; s2b "Details:";
     s2b "[WARNING] DUPLICATE_COLUMN_NAMES at line 1, column 2 (byte 0): Duplicate column name: 'a'";
     s2b "[ERROR] INCONSISTENT_FIELD_COUNT at line 3, column 1 (byte 20): Expected 3 fields"; s2b "  Context: a,b"] /\
  summary [] 3 = s2b "Total errors: 0" ++ [LF] ++ s2b "Error limit reached: 3 additional errors suppressed".
Proof.
  cbv zeta. split; [unfold known_code; simpl; lia|]. split; [split; vm_compute; intuition discriminate|].
  split; [unfold known_code; simpl; lia|]. split; [split; vm_compute; intuition discriminate|]. split; vm_compute; reflexivity.
Qed.
Print Assumptions C102_nonvacuous.
