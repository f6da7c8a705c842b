(** C96, C97, C98: the texts that describe an input, a dialect, a conversion. *)
From Verif Require Import Base NumSpec DialectModel WordsModel ChunkSpec ChunkModel FieldsSpec FieldsModel NumModel ReaderSpec ReaderModel
  TypesSpec TypesModel ErrorsSpec ErrorsModel CliSpec CliModel SplitSpec DeliverSpec ShowSpec ShowModel ShowProof ShowProof2.

(** info prints exactly the lines that describe the input: where it is from, its
    size, the delimiter and quote, how many rows are delivered, how many columns
    there are, and the name and type of each.  [again] is the size found when the file
    is opened a second time. *)
Theorem C96_info_describes :
  forall (F : Type) (ff : bytes -> option F) (lanes : nat) (clmul : bool) (num_threads : N) (ne : bool) (o : csv_options)
         (i : input) (c : bytes) (again : option nat),
    1 <= lanes -> Nat.divide lanes 64 -> quote o <> LF -> quote o <> CR ->
    (i = Stdin c \/ exists path, i = File path (inr c)) -> c <> [] -> quote o <> separator o -> quote o <> 0%N ->
    let header_end := if has_header o then spec_find_row_end (quote o) c 0 else 0 in
    exists names types ranges ls,
      option_map fst (open_file ff lanes clmul o c) = Some (names, types) /\
      chunk_ranges lanes clmul (quote o) c header_end
        (N.to_nat (calculate_chunk_size (N.of_nat (length c - header_end)) (N.of_nat (length names)) num_threads)) = Some ranges /\
      let rows := rows_of_parts (separator o) (quote o) (file_parts (quote o) (N.to_nat PARALLEL_THRESHOLD) c header_end ranges) in
      info ff lanes clmul num_threads ne o (option_map N.of_nat again) i = Exit 0 (as_text ls) /\
      describing (match i with Stdin _ => s2b "<stdin>" | File path _ => path end)
        (match i with Stdin _ => Some (length c) | File _ _ => again end)
        (separator o) (quote o) (length rows) (has_header o) names types ls.
Proof.
  intros F ff lanes clmul nt ne o i c again H1 H2 H3 H4 H5 H6 H7 H8.
  destruct (info_spec ff lanes clmul nt ne o H1 H2 H3 H4 i c again H5 H6 H7 H8) as (ns & ts & rs & ls & A & B & C & D).
  exists ns, ts, rs, ls. split; [exact A|]. split; [exact B|]. split; [exact C|].
  destruct i; exact D.
Qed.
Print Assumptions C96_info_describes.

(** The printed lines are those lines, if no line break is in a name, the path, or is
    the delimiter. *)
Theorem C96_lines :
  forall source size d q rows header names types ls,
    describing source size d q rows header names types ls ->
    ~ In LF source -> d <> LF -> q <> LF -> (forall n, In n names -> ~ In LF n) ->
    output_lines (as_text ls) [] = ls.
Proof. intros s z d q r h ns ts ls H A B C D. apply as_text_lines. eapply describing_no_lf; eassumption. Qed.
Print Assumptions C96_lines.

(** Then everything can be read off the lines. *)
Theorem C96_lines_tell_everything :
  forall s s' z z' d d' q q' r r' h h' ns ns' ts ts' ls,
    length ts = length ns -> length ts' = length ns' -> ns <> [] -> ns' <> [] ->
    describing s z d q r h ns ts ls -> describing s' z' d' q' r' h' ns' ts' ls ->
    s = s' /\ z = z' /\ d = d' /\ q = q' /\ r = r' /\ h = h' /\ length ns = length ns' /\ (h = true -> ns = ns' /\ ts = ts').
Proof. exact describing_tells. Qed.
Print Assumptions C96_lines_tell_everything.

(** With line breaks in names the printed text does not tell: two inputs with different
    column names and the same text. *)
Theorem C96_text_tells_the_names_refuted :
  exists c c' names names' types out,
    let opens c := option_map fst (open_file (fun _ => @None N) 16 true default_options c) in
    let prints c := info (fun _ => @None N) 16 true 4 false default_options None (Stdin c) in
    opens c = Some (names, types) /\ opens c' = Some (names', types) /\ names <> names' /\
    prints c = Exit 0 out /\ prints c' = Exit 0 out.
Proof.
  exists ([DQ] ++ s2b "a (STRING)" ++ [LF] ++ s2b "  1: b" ++ [DQ] ++ s2b ",c" ++ [LF] ++ s2b "x,y" ++ [LF]),
    (s2b "a," ++ [DQ] ++ s2b "b (STRING)" ++ [LF] ++ s2b "  1: c" ++ [DQ; LF] ++ s2b "x,y" ++ [LF]),
    [s2b "a (STRING)" ++ [LF] ++ s2b "  1: b"; s2b "c"], [s2b "a"; s2b "b (STRING)" ++ [LF] ++ s2b "  1: c"], [STRING; STRING].
  eexists. cbv zeta. split; [vm_compute; reflexivity|]. split; [vm_compute; reflexivity|]. split; [discriminate|].
  split; [vm_compute; reflexivity|]. vm_compute. reflexivity.
Qed.
Print Assumptions C96_text_tells_the_names_refuted.

(** An empty input is described too, and one that cannot be read gives no description. *)
Theorem C96_nothing_to_read :
  forall (F : Type) (ff : bytes -> option F) (lanes : nat) (clmul : bool) (num_threads : N) (ne : bool) (o : csv_options)
         (again : option N),
    (forall i, (i = Stdin [] \/ exists path, i = File path (inr [])) ->
       exists dw qw, shown_char delimiter_words (separator o) dw /\ shown_char quote_words (quote o) qw /\
         info ff lanes clmul num_threads ne o again i =
         Exit 0 (as_text [s2b "Source: " ++ match i with Stdin _ => s2b "<stdin>" | File path _ => path end;
                          s2b "Size: 0 bytes"; s2b "Dialect: delimiter=" ++ dw ++ s2b ", quote=" ++ qw; s2b "Rows: 0"; s2b "Columns: 0"])) /\
    (forall path message, contains (s2b "Empty file") (message ++ path) = false ->
       info ff lanes clmul num_threads ne o again (File path (inl message)) = Exit 1 []).
Proof.
  intros F ff lanes clmul nt ne o again. split.
  - intros i Hi. exists (format_delimiter (separator o)), (format_quote (quote o)).
    split; [apply format_delimiter_spec|]. split; [apply format_quote_spec|].
    assert (E : info_empty o i = as_text [s2b "Source: " ++ source_text i; s2b "Size: 0 bytes";
        s2b "Dialect: delimiter=" ++ format_delimiter (separator o) ++ s2b ", quote=" ++ format_quote (quote o); s2b "Rows: 0"; s2b "Columns: 0"]).
    { unfold info_empty, dialect_line. rewrite !as_text_cons, <- !app_assoc. reflexivity. }
    destruct Hi as [->|(path & ->)]; unfold info; cbn [load]; rewrite E; reflexivity.
  - intros path message E. unfold info. cbn [load]. rewrite E. reflexivity.
Qed.
Print Assumptions C96_nothing_to_read.

Example C96_meets :
  info (fun _ => @None N) 16 true 4 false default_options (Some 13%N) (File (s2b "a.csv") (inr (s2b "id,n" ++ [LF] ++ s2b "1,x" ++ [LF] ++ s2b "2,y" ++ [LF]))) =
  Exit 0 (as_text [s2b "Source: a.csv"; s2b "Size: 13 bytes"; s2b "Dialect: delimiter=comma, quote=double-quote"; s2b "Rows: 2"; s2b "Columns: 2";
                   []; s2b "Column names:"; s2b "  0: id (INT32)"; s2b "  1: n (STRING)"]).
Proof. vm_compute. reflexivity. Qed.
Print Assumptions C96_meets.

(** The text of a dialect shows the delimiter, the quote, the comment character and how
    quotes are escaped. *)
Theorem C97_text_shows :
  forall d e : dialect, dialect_text d = dialect_text e <->
    DialectModel.delimiter d = DialectModel.delimiter e /\ quote_char d = quote_char e /\ double_quote d = double_quote e /\
    comment_char d = comment_char e /\ (double_quote d = false -> escape_char d = escape_char e).
Proof. exact dialect_text_iff. Qed.
Print Assumptions C97_text_shows.

(** Dialects that are not equal (dialect.h 66-70) can have the same text. *)
Theorem C97_text_is_faithful_refuted :
  exists d e : dialect, dialect_text d = dialect_text e /\ escape_char d <> escape_char e /\ line_ending d <> line_ending e.
Proof.
  exists (mkDialect COMMA DQ DQ true LE_LF 0%N), (mkDialect COMMA DQ 92%N true LE_CRLF 0%N).
  split; [vm_compute; reflexivity|]. split; discriminate.
Qed.
Print Assumptions C97_text_is_faithful_refuted.

Example C97_meets :
  dialect_text (mkDialect 9%N SQ 92%N false LE_LF 35%N) =
  s2b "Dialect{delimiter='\t', quote=" ++ [DQ; SQ; DQ] ++ s2b ", escape=backslash, comment='#'}".
Proof. vm_compute. reflexivity. Qed.
Print Assumptions C97_meets.

(** The summary of the errors of a conversion names the severities that occur, worst
    first, each with its count. *)
Theorem C98_summary :
  forall l : list error,
    (l = [] -> error_summary l = s2b "No errors") /\
    (l <> [] -> exists fatal errors warnings,
       counted (how_many FATAL l) (s2b "fatal") fatal /\ counted (how_many RECOVERABLE l) (s2b "errors") errors /\
       counted (how_many WARNING l) (s2b "warnings") warnings /\
       error_summary l =
         comma_list ((if how_many FATAL l =? 0 then [] else [fatal]) ++ (if how_many RECOVERABLE l =? 0 then [] else [errors]) ++
                     (if how_many WARNING l =? 0 then [] else [warnings]))).
Proof.
  intros l. split; [intros ->; reflexivity|]. intros H. rewrite summary_spec by exact H.
  do 3 eexists. split; [eexists; split; [apply says_number|reflexivity]|]. split; [eexists; split; [apply says_number|reflexivity]|].
  split; [eexists; split; [apply says_number|reflexivity]|]. unfold summary_pieces, piece.
  destruct (how_many FATAL l), (how_many RECOVERABLE l), (how_many WARNING l); reflexivity.
Qed.
Print Assumptions C98_summary.

(** Two conversions have the same summary exactly when they have the same numbers. *)
Theorem C98_summary_tells_the_counts :
  forall l l' : list error, error_summary l = error_summary l' <-> forall s, how_many s l = how_many s l'.
Proof. exact summary_iff. Qed.
Print Assumptions C98_summary_tells_the_counts.

Theorem C98_predicates :
  forall l : list error,
    (has_fatal_error l = true <-> exists e, In e l /\ e_severity e = FATAL) /\
    (has_warning_error l = true <-> exists e, In e l /\ e_severity e = WARNING) /\
    how_many FATAL l + how_many RECOVERABLE l + how_many WARNING l = length l.
Proof. intros l. split; [apply has_fatal_spec|]. split; [apply has_warning_spec|apply how_many_sum]. Qed.
Print Assumptions C98_predicates.

Example C98_meets :
  let e s := Error 0 s 1 1 0 [] in
  error_summary [e RECOVERABLE; e FATAL; e RECOVERABLE] = s2b "1 fatal, 2 errors" /\ has_warning_error [e RECOVERABLE; e FATAL] = false.
Proof. split; vm_compute; reflexivity. Qed.
Print Assumptions C98_meets.
