(** C79 to C84: the command-line tool. *)
From Verif Require Import Base NumSpec DateSpec WordsModel ChunkSpec ChunkModel FieldsSpec FieldsModel NumModel DateModel ReaderSpec ReaderModel TypesSpec TypesModel
  ChunkProof3 ReaderProof4 ReaderProof5 CliSpec CliModel CliProof CliProof2 CliProof3 CliProof4 CliProof5 CliProof6.

(** ** C79 *)

(** What is printed is CSV that denotes the rows printed, unless a row is a
    single empty cell. *)
Theorem C79_output_reads_back_partial :
  forall (d q : byte) (rows : list (list bytes)),
    d <> q -> d <> LF -> d <> CR -> q <> LF -> q <> CR ->
    (forall r, In r rows -> r <> [] /\ r <> [[]]) ->
    texts d q (concat (map (output_row d q) rows)) = rows.
Proof. intros d q rows H1 H2 H3 H4 H5. apply printed_reads_back; assumption. Qed.
Print Assumptions C79_output_reads_back_partial.

Example C79_nonvacuous :
  let rows := [[s2b "a"; s2b "x,y"]; [[]; [DQ; LF; CR]]; [s2b " b"; [DQ; DQ]]] in
  texts COMMA DQ (concat (map (output_row COMMA DQ) rows)) = rows /\
  concat (map (output_row COMMA DQ) rows) <> [].
Proof. vm_compute. split; [reflexivity|discriminate]. Qed.

(** A row that is one empty cell is printed as an empty line and lost. *)
Theorem C79_empty_row_lost_refuted :
  forall d q : byte, d <> LF -> q <> LF -> texts d q (output_row d q [[]]) = [].
Proof. intros d q H1 H2. reflexivity. Qed.
Print Assumptions C79_empty_row_lost_refuted.

(** The tool reads what it printed itself differently: two quoted cells, the second
    with a comma, are printed as a,{x,y} and read as {a, {x} and {y}. *)
Theorem C79_own_output_misread_refuted :
  exists c out out2,
    let run := fun i => head (fun _ : bytes => @None unit) (fun _ => []) false 16 true 1 false default_options 10 (Stdin i) in
    run c = Exit 0 out /\ texts COMMA DQ out = [[s2b "h"; s2b "k"]; [s2b "a"; s2b "x,y"]; [repeat 98%N 70; s2b "z"]] /\
    run out = Exit 0 out2 /\ texts COMMA DQ out2 <> texts COMMA DQ out.
Proof.
  exists (s2b "h,k" ++ [LF; DQ] ++ s2b "a" ++ [DQ; COMMA; DQ] ++ s2b "x,y" ++ [DQ; LF] ++ repeat 98%N 70 ++ s2b ",z"). eexists. eexists. cbv zeta.
  split; [vm_compute; reflexivity|]. split; [vm_compute; reflexivity|]. split; [vm_compute; reflexivity|]. vm_compute. discriminate.
Qed.
Print Assumptions C79_own_output_misread_refuted.

(** ** C80 *)
Theorem C80_printed_cells_partial :
  forall (F : Type) (show_float : F -> bytes) (pad : bool) (t : data_type),
    let show := value_text show_float pad in
    show t None = [] /\
    (forall b, show t (Some (VBool b)) = s2b (if b then "true" else "false")) /\
    (forall s, show t (Some (VString s)) = s) /\
    (forall z, t <> DATE -> t <> TIMESTAMP -> integer_text (show t (Some (VInt z))) = Some z) /\
    (forall y m d, valid_date y m d -> (1000 <= y <= 9999)%Z ->
       denotes_date (show DATE (Some (VInt (day_number y m d)))) y m d) /\
    (forall us, (-354285 * 86400 * 1000000 <= us < 2932897 * 86400 * 1000000)%Z ->
       exists y, (1000 <= y <= 9999)%Z /\
         denotes_timestamp (show TIMESTAMP (Some (VInt us))) y (Z.quot us 1000000 * 1000000)).
Proof.
  intros F sf pad t. cbv zeta. split; [reflexivity|]. split; [intros []; reflexivity|]. split; [reflexivity|]. split.
  { intros z N1 N2. destruct t; try congruence; apply to_string_spec. }
  split; [intros y m d V H; apply show_date_spec; assumption|]. intros us H. apply (show_timestamp_spec pad us). exact H.
Qed.
Print Assumptions C80_printed_cells_partial.

(** Printing a timestamp drops the fraction of a second; before 1970 that moves it
    to the next second. *)
Theorem C80_fraction_dropped_refuted :
  forall pad : bool,
    show_timestamp pad 1500000 = show_timestamp pad 1000000 /\
    show_timestamp pad (-500000) = s2b "1970-01-01T00:00:00" /\
    show_timestamp pad (-500000) = show_timestamp pad 0.
Proof. intros []; vm_compute; repeat split. Qed.
Print Assumptions C80_fraction_dropped_refuted.

(** Where the C library does not fill %Y with zeros, dates before the year 1000 are
    not printed as dates. *)
Theorem C80_early_years_refuted :
  show_date false (day_number 999 12 31) = s2b "999-12-31" /\
  parse_date (s2b "999-12-31") = None /\
  show_date true (day_number 999 12 31) = s2b "0999-12-31".
Proof. vm_compute. repeat split. Qed.
Print Assumptions C80_early_years_refuted.

Example C80_nonvacuous :
  value_text (F := unit) (fun _ => []) false DATE (Some (VInt (day_number 2024 2 29))) = s2b "2024-02-29" /\
  valid_date 2024 2 29 /\
  value_text (F := unit) (fun _ => []) false TIMESTAMP (Some (VInt (-86399000000))) = s2b "1969-12-31T00:00:01" /\
  value_text (F := unit) (fun _ => []) false INT64 (Some (VInt (-9223372036854775808))) = s2b "-9223372036854775808".
Proof. vm_compute. repeat split; discriminate. Qed.

(** ** C81 *)

(** head prints the header and the first rows of the table read, whatever the file,
    the number of threads and the chunks it was read in. *)
Theorem C81_head_is_first_rows :
  forall (F : Type) (ff : bytes -> option F) (show_float : F -> bytes) (pad : bool) (lanes : nat) (clmul : bool)
         (num_threads : N) (ne : bool) (o : csv_options) (n : nat) (c : bytes),
    1 <= lanes -> Nat.divide lanes 64 -> quote o <> LF -> quote o <> CR -> c <> [] ->
    exists names types t,
      read_file ff lanes clmul num_threads ne o c = Some (names, types, t) /\ length types = length names /\ 0 < length names /\
      head ff show_float pad lanes clmul num_threads ne o n (Stdin c) =
      Exit 0 (concat (map (output_row (separator o) (quote o))
        ((if has_header o then [names] else []) ++
         firstn n (text_table (value_text show_float pad) STRING types (concat_columns (length names) (chunks t)) (total_rows t))))).
Proof. intros F ff sf pad lanes clmul nt ne o n c H1 H2 H3 H4. exact (head_spec ff sf pad lanes clmul nt ne o H1 H2 H3 H4 n c). Qed.
Print Assumptions C81_head_is_first_rows.

(** End to end, for the files of which reading is exact (C09): what head prints is
    CSV whose rows are the names and the first rows of the file, cell by cell. *)
Theorem C81_head_of_a_file_partial :
  forall (F : Type) (ff : bytes -> option F) (show_float : F -> bytes) (pad : bool) (lanes : nat) (clmul : bool)
         (num_threads : N) (ne : bool) (o : csv_options) (n : nat) (c : bytes),
    1 <= lanes -> Nat.divide lanes 64 -> quote o <> LF -> quote o <> CR ->
    c <> [] -> quote o <> separator o -> quote o <> 0%N ->
    let body := file_body o c in
    (forall i, line_end_at body i = true -> inside_at false (quote o) body i = false) ->
    no_lone_cr body -> Forall (safe_row (separator o) LF (quote o)) (table_rows (separator o) (quote o) body) ->
    exists names types,
      option_map fst (option_map fst (open_file ff lanes clmul o c)) = Some names /\
      option_map snd (option_map fst (open_file ff lanes clmul o c)) = Some types /\
      length types = length names /\ 0 < length names /\
      let printed := (if has_header o then [names] else []) ++
                     firstn n (map (shown ff show_float pad lanes o types (length names)) (table_rows (separator o) (quote o) body)) in
      let out := concat (map (output_row (separator o) (quote o)) printed) in
      head ff show_float pad lanes clmul num_threads ne o n (Stdin c) = Exit 0 out /\
      (separator o <> LF -> separator o <> CR -> Forall (fun r => r <> [[]]) printed ->
       texts (separator o) (quote o) out = printed).
Proof. intros F ff sf pad lanes clmul nt ne o n c H1 H2 H3 H4. exact (head_exact ff sf pad lanes clmul nt ne o H1 H2 H3 H4 n c). Qed.
Print Assumptions C81_head_of_a_file_partial.

Theorem C81_count_of_a_file_partial :
  forall (F : Type) (ff : bytes -> option F) (lanes : nat) (clmul : bool)
         (num_threads : N) (ne : bool) (o : csv_options) (c : bytes),
    1 <= lanes -> Nat.divide lanes 64 -> quote o <> LF -> quote o <> CR ->
    c <> [] -> quote o <> separator o -> quote o <> 0%N ->
    let body := file_body o c in
    (forall i, line_end_at body i = true -> inside_at false (quote o) body i = false) ->
    no_lone_cr body -> Forall (safe_row (separator o) LF (quote o)) (table_rows (separator o) (quote o) body) ->
    exists v, count ff lanes clmul num_threads ne o (Stdin c) = Exit 0 (v ++ [LF]) /\
      integer_text v = Some (Z.of_nat (length (table_rows (separator o) (quote o) body))).
Proof. intros F ff lanes clmul nt ne o c H1 H2 H3 H4. exact (count_exact ff lanes clmul nt ne o H1 H2 H3 H4 c). Qed.
Print Assumptions C81_count_of_a_file_partial.

(** Empty input: count prints 0, the others print nothing; all succeed. *)
Theorem C81_empty_input :
  forall (F : Type) (ff : bytes -> option F) (show_float : F -> bytes) (pad : bool) (lanes : nat) (clmul : bool)
         (num_threads : N) (ne : bool) (o : csv_options) (n : nat) (path cols : bytes) (i : input),
    i = Stdin [] \/ i = File path (inr []) -> cols <> [] ->
    count ff lanes clmul num_threads ne o i = Exit 0 (s2b "0" ++ [LF]) /\
    head ff show_float pad lanes clmul num_threads ne o n i = Exit 0 [] /\
    select ff show_float pad lanes clmul num_threads ne o cols i = Exit 0 [] /\
    pretty ff show_float pad lanes clmul num_threads ne o n i = Exit 0 [].
Proof. intros F ff sf pad lanes clmul nt ne o n path cols i [->| ->] H; (destruct cols; [congruence|]); repeat split. Qed.
Print Assumptions C81_empty_input.

(** A file that cannot be opened is a failure, unless its name contains the words
    of the message for empty files. *)
Theorem C81_unopened_file_partial :
  forall (F : Type) (ff : bytes -> option F) (show_float : F -> bytes) (pad : bool) (lanes : nat) (clmul : bool)
         (num_threads : N) (ne : bool) (o : csv_options) (n : nat) (path message cols : bytes),
    ~ occurs (s2b "Empty file") (message ++ path) ->
    count ff lanes clmul num_threads ne o (File path (inl message)) = Exit 1 [] /\
    head ff show_float pad lanes clmul num_threads ne o n (File path (inl message)) = Exit 1 [] /\
    select ff show_float pad lanes clmul num_threads ne o cols (File path (inl message)) = Exit 1 [] /\
    pretty ff show_float pad lanes clmul num_threads ne o n (File path (inl message)) = Exit 1 [].
Proof.
  intros F ff sf pad lanes clmul nt ne o n path message cols H0.
  assert (H : contains (s2b "Empty file") (message ++ path) = false)
    by (apply not_true_iff_false; intros C; apply contains_spec in C; contradiction).
  unfold count, head, select, pretty, load. rewrite H.
  repeat split. destruct cols; reflexivity.
Qed.
Print Assumptions C81_unopened_file_partial.

(** With the words it always succeeds, as if the file were empty. *)
Theorem C81_misleading_names_refuted :
  forall (F : Type) (ff : bytes -> option F) (lanes : nat) (clmul : bool) (num_threads : N) (ne : bool) (o : csv_options) (path message : bytes),
    occurs (s2b "Empty file") (message ++ path) ->
    count ff lanes clmul num_threads ne o (File path (inl message)) = Exit 0 (s2b "0" ++ [LF]).
Proof.
  intros F ff lanes clmul nt ne o path message H. apply contains_spec in H. unfold count, load. rewrite H. reflexivity.
Qed.
Print Assumptions C81_misleading_names_refuted.

Theorem C81_missing_file_succeeds_refuted :
  forall (F : Type) (ff : bytes -> option F) (lanes : nat) (clmul : bool) (num_threads : N) (ne : bool) (o : csv_options),
    count ff lanes clmul num_threads ne o (File (s2b "My Empty files/a.csv") (inl (s2b "Failed to open file: "))) = Exit 0 (s2b "0" ++ [LF]).
Proof. intros. reflexivity. Qed.
Print Assumptions C81_missing_file_succeeds_refuted.

Example C81_nonvacuous :
  let c := s2b "h,k" ++ [LF] ++ s2b "1,x" ++ [LF; LF] ++ s2b "2," ++ [LF] ++ s2b "3,NA" ++ [LF] in
  let o := default_options in
  (forall i, line_end_at (file_body o c) i = true -> inside_at false DQ (file_body o c) i = false) /\
  no_lone_cr (file_body o c) /\ Forall (safe_row COMMA LF DQ) (table_rows COMMA DQ (file_body o c)) /\
  head (fun _ : bytes => @None unit) (fun _ => []) false 16 true 1 false o 2 (Stdin c) =
    Exit 0 (s2b "h,k" ++ [LF] ++ s2b "1,x" ++ [LF] ++ s2b "2," ++ [LF]) /\
  count (fun _ : bytes => @None unit) 16 true 1 false o (Stdin c) = Exit 0 (s2b "3" ++ [LF]).
Proof.
  cbv zeta. split; [intros i _; apply no_quotes_outside; vm_compute; intuition discriminate|]. split.
  { intros i. destruct (Nat.lt_ge_cases i 30) as [L|L].
    - do 30 (destruct i as [|i]; [vm_compute; discriminate|]). lia.
    - do 30 (destruct i as [|i]; [lia|]). vm_compute. destruct i; discriminate. }
  split; [apply quote_free_safe; vm_compute; intuition discriminate|]. split; vm_compute; reflexivity.
Qed.

(** ** C82 *)

(** select prints exactly the columns listed, in that order, of every row; if the
    list is not one of columns of the file it fails without printing. *)
Theorem C82_select_projects :
  forall (F : Type) (ff : bytes -> option F) (show_float : F -> bytes) (pad : bool) (lanes : nat) (clmul : bool)
         (num_threads : N) (ne : bool) (o : csv_options) (columns c : bytes),
    1 <= lanes -> Nat.divide lanes 64 -> quote o <> LF -> quote o <> CR -> c <> [] -> columns <> [] ->
    exists names types t,
      read_file ff lanes clmul num_threads ne o c = Some (names, types, t) /\ length types = length names /\ 0 < length names /\
      let result := select ff show_float pad lanes clmul num_threads ne o columns (Stdin c) in
      let pieces := listed_columns columns in
      ((N.of_nat (length names) <= 2 ^ 64)%N ->
       match columns_named (has_header o) names pieces with
       | Some (k :: ks) =>
           result = Exit 0 (concat (map (output_row (separator o) (quote o))
             (project (k :: ks) ((if has_header o then [names] else []) ++
                text_table (value_text show_float pad) STRING types (concat_columns (length names) (chunks t)) (total_rows t)))))
       | _ => result = Exit 1 [] \/
              result = Throws /\ exists p, In p pieces /\ digits_only p = true /\ (2 ^ 64 <= number_of p 0)%N
       end).
Proof. intros F ff sf pad lanes clmul nt ne o columns c H1 H2 H3 H4. exact (select_spec ff sf pad lanes clmul nt ne o H1 H2 H3 H4 columns c). Qed.
Print Assumptions C82_select_projects.

(** Names with no comma, no blanks around them and not made of digits only, listed
    with commas between, mean the first columns so called. *)
Theorem C82_names_found_partial :
  forall (names ns : list bytes) (ks : list nat),
    ns <> [] -> Forall plain_name ns -> Forall2 (fun n k => position n names = Some k) ns ks ->
    columns_named true names (listed_columns (joined ns)) = Some ks.
Proof. intros names ns ks NE P H. rewrite listed_joined by assumption. apply columns_by_name; assumption. Qed.
Print Assumptions C82_names_found_partial.

(** A column whose name is a number is not found by it: another column is printed. *)
Theorem C82_numeric_names_refuted :
  let c := s2b "1,2" ++ [LF] ++ s2b "5,6" ++ [LF] in
  let names := [s2b "1"; s2b "2"] in
  select (fun _ : bytes => @None unit) (fun _ => []) false 16 true 1 false default_options (s2b "1") (Stdin c) =
    Exit 0 (s2b "2" ++ [LF] ++ s2b "6" ++ [LF]) /\
  position (s2b "1") names = Some 0 /\ column_named true names (s2b "1") = Some 1.
Proof. vm_compute. repeat split. Qed.
Print Assumptions C82_numeric_names_refuted.

(** An index of 2^64 or more ends the program by an uncaught exception instead of
    the error for indices out of range. *)
Theorem C82_large_index_throws_refuted :
  let c := s2b "a,b" ++ [LF] ++ s2b "5,6" ++ [LF] in
  select (fun _ : bytes => @None unit) (fun _ => []) false 16 true 1 false default_options (s2b "18446744073709551616") (Stdin c) = Throws.
Proof. vm_compute. reflexivity. Qed.
Print Assumptions C82_large_index_throws_refuted.

Example C82_nonvacuous :
  let c := s2b "a,b,c" ++ [LF] ++ s2b "1,2,3" ++ [LF] ++ s2b "4,5,6" ++ [LF] in
  let run := fun cols => select (fun _ : bytes => @None unit) (fun _ => []) false 16 true 1 false default_options (s2b cols) (Stdin c) in
  run "c, a ,c"%string = Exit 0 (s2b "c,a,c" ++ [LF] ++ s2b "3,1,3" ++ [LF] ++ s2b "6,4,6" ++ [LF]) /\
  run "2,0"%string = Exit 0 (s2b "c,a" ++ [LF] ++ s2b "3,1" ++ [LF] ++ s2b "6,4" ++ [LF]) /\
  run "a,d"%string = Exit 1 [] /\ run "a,3"%string = Exit 1 [] /\
  Forall plain_name [s2b "c"; s2b "a"] /\ joined [s2b "c"; s2b "a"] = s2b "c,a".
Proof.
  cbv zeta. repeat match goal with |- _ /\ _ => split end; try (vm_compute; reflexivity).
  repeat constructor; vm_compute; intuition discriminate.
Qed.

(** ** C83 *)

(** pretty prints a box: rules, one line per row, cells cut at 40 bytes.  If no
    cell contains a line feed all lines have the same width. *)
Theorem C83_pretty_is_a_box :
  forall (F : Type) (ff : bytes -> option F) (show_float : F -> bytes) (pad : bool) (lanes : nat) (clmul : bool)
         (num_threads : N) (ne : bool) (o : csv_options) (n : nat) (c : bytes),
    1 <= lanes -> Nat.divide lanes 64 -> quote o <> LF -> quote o <> CR -> c <> [] ->
    exists names types t,
      read_file ff lanes clmul num_threads ne o c = Some (names, types, t) /\ length types = length names /\ 0 < length names /\
      let rows := (if has_header o then [names] else []) ++
                  firstn n (text_table (value_text show_float pad) STRING types (concat_columns (length names) (chunks t)) (total_rows t)) in
      let lines := match rows with [] => [] | _ => box (has_header o) (box_widths 40 (length names) rows) rows end in
      pretty ff show_float pad lanes clmul num_threads ne o n (Stdin c) = Exit 0 (concat (map (fun l => l ++ [LF]) lines)) /\
      ((forall row v, In row rows -> In v row -> ~ In LF v) ->
       exists width, Forall (fun l => length l = width /\ ~ In LF l) lines).
Proof. intros F ff sf pad lanes clmul nt ne o n c H1 H2 H3 H4. exact (pretty_spec ff sf pad lanes clmul nt ne o H1 H2 H3 H4 n c). Qed.
Print Assumptions C83_pretty_is_a_box.

(** A line feed in a cell breaks the box. *)
Theorem C83_line_feed_breaks_box_refuted :
  exists c out,
    pretty (fun _ : bytes => @None unit) (fun _ => []) false 16 true 1 false default_options 10 (Stdin c) = Exit 0 out /\
    output_lines out [] = [s2b "+-----+"; s2b "| h   |"; s2b "+-----+"; s2b "| a"; s2b "b |"; s2b "+-----+"].
Proof.
  exists (s2b "h" ++ [LF; DQ] ++ s2b "a" ++ [LF] ++ s2b "b" ++ [DQ; LF]). eexists. split; [vm_compute; reflexivity|]. vm_compute. reflexivity.
Qed.
Print Assumptions C83_line_feed_breaks_box_refuted.

Example C83_nonvacuous :
  let c := s2b "h,k" ++ [LF] ++ s2b "1,0123456789012345678901234567890123456789x" ++ [LF] ++ s2b "22," ++ [LF] in
  exists out,
    pretty (fun _ : bytes => @None unit) (fun _ => []) false 16 true 1 false default_options 10 (Stdin c) = Exit 0 out /\
    output_lines out [] =
    [s2b "+----+------------------------------------------+";
     s2b "| h  | k                                        |";
     s2b "+----+------------------------------------------+";
     s2b "| 1  | 0123456789012345678901234567890123456... |";
     s2b "| 22 |                                          |";
     s2b "+----+------------------------------------------+"].
Proof. eexists. split; [vm_compute; reflexivity|]. vm_compute. reflexivity. Qed.

(** ** C84 *)

(** Any sequence of documented items, in any order and spelling, is understood: of an
    item given more than once the last counts, of inputs the first; the list of
    columns may be given once. *)
Theorem C84_options_understood_partial :
  forall (items : list item) (ws : list (list bytes)),
    Forall2 written items ws -> length (filter is_columns items) <= 1 ->
    exists s, parse_args (concat ws) defaults = Parsed s /\
      rows s = last_given (fun i => match i with Rows n => Some n | _ => None end) items 10%N /\
      threads s = last_given (fun i => match i with Threads n => Some n | _ => None end) items 0%N /\
      delimiter s = last_given (fun i => match i with Delimiter c => Some c | _ => None end) items COMMA /\
      quoting s = last_given (fun i => match i with Quote c => Some c | _ => None end) items DQ /\
      header s = negb (given (fun i => match i with NoHeader => true | _ => false end) items) /\
      progress s = given (fun i => match i with Progress => true | _ => false end) items /\
      verbose s = given (fun i => match i with Verbose => true | _ => false end) items /\
      max_errors s = last_given (fun i => match i with MaxErrors n => Some n | _ => None end) items 10000%N /\
      columns s = last_given (fun i => match i with Columns v => Some v | _ => None end) items [] /\
      in_path s = first_given (fun i => match i with Input p => Some p | _ => None end) items [] /\
      error_mode s =
        match last_given (fun i => match i with Strict => Some (Some FailFast) | Permissive => Some (Some Collecting) | _ => None end) items None with
        | Some m => m
        | None => if given (fun i => match i with MaxErrors _ => true | _ => false end) items then Collecting else Disabled
        end.
Proof. exact options_spec. Qed.
Print Assumptions C84_options_understood_partial.

Example C84_nonvacuous :
  let words := map s2b ["-n"; "3"; "data.csv"; "--delimiter"; "tab"; "-H"; "-n"; "7"; "other.csv"; "-c"; "1,2"; "--max-errors"; "5"]%string in
  parse_args words defaults =
    Parsed (mkSettings (s2b "data.csv") TAB DQ false 0 7 false false Collecting 5 (s2b "1,2")) /\
  Forall2 written [Rows 3; Input (s2b "data.csv"); Delimiter TAB; NoHeader; Rows 7; Input (s2b "other.csv"); Columns (s2b "1,2"); MaxErrors 5]
    [map s2b ["-n"; "3"]; map s2b ["data.csv"]; map s2b ["--delimiter"; "tab"]; map s2b ["-H"]; map s2b ["-n"; "7"]; map s2b ["other.csv"];
     map s2b ["-c"; "1,2"]; map s2b ["--max-errors"; "5"]]%string.
Proof.
  cbv zeta. split; [reflexivity|]. cbn [map].
  assert (NM : forall n v, v <> [] -> digits_only v = true -> number_of v 0 = n -> (n < 2 ^ 64)%N -> numeral n v) by (intros; repeat split; assumption).
  constructor; [apply w_rows; [cbn; tauto|apply NM; [discriminate|reflexivity..]]|].
  constructor; [apply w_input; discriminate|].
  constructor; [apply w_named; cbn; tauto|].
  constructor; [apply w_noheader; cbn; tauto|].
  constructor; [apply w_rows; [cbn; tauto|apply NM; [discriminate|reflexivity..]]|].
  constructor; [apply w_input; discriminate|].
  constructor; [apply w_columns; [cbn; tauto|discriminate]|].
  constructor; [apply w_max; apply NM; [discriminate|reflexivity..]|constructor].
Qed.

(** The documented way to name standard input, and the documented short form of
    --strict, stop the reading of options: all that follows is ignored. *)
Theorem C84_options_ignored_refuted :
  forall rest : list bytes,
    parse_args (s2b "-" :: rest) defaults = Stopped defaults rest /\
    parse_args (s2b "-S" :: rest) defaults = Stopped defaults rest /\
    parse_args (s2b "--no-such-option" :: rest) defaults = Stopped defaults rest /\
    (forall cols, cols <> [] -> parse_args (s2b "-c" :: cols :: s2b "-c" :: rest) defaults = Stopped (set_columns cols defaults) rest).
Proof. intros rest. repeat split. intros cols H. destruct cols; [congruence|]. reflexivity. Qed.
Print Assumptions C84_options_ignored_refuted.

(** A number is taken as far as it goes, a minus sign wraps, anything else throws. *)
Theorem C84_numbers_refuted :
  parse_args (map s2b ["-n"; "-1"]%string) defaults = Parsed (set_rows 18446744073709551615 defaults) /\
  parse_args (map s2b ["-n"; "5x"]%string) defaults = Parsed (set_rows 5 defaults) /\
  parse_args (map s2b ["-n"; "x"]%string) defaults = ParseThrows.
Proof. repeat split. Qed.
Print Assumptions C84_numbers_refuted.

(** convert does not know the delimiter names: tab means the letter t. *)
Theorem C84_convert_delimiter_refuted :
  (exists c, convert_args (map s2b ["-d"; "tab"]%string) convert_defaults = CParsed c /\ delimiter (common c) = 116%N) /\
  (exists s, parse_args (map s2b ["-d"; "tab"]%string) defaults = Parsed s /\ delimiter s = TAB).
Proof. split; eexists; split; reflexivity. Qed.
Print Assumptions C84_convert_delimiter_refuted.

(** What exactly is taken for a number, by every option that takes one. *)
Theorem C84_numbers_exactly :
  forall (v : bytes) (n : N) (c : conversion),
    (parse_args [s2b "-n"; v] defaults = Parsed (set_rows n defaults) <-> number_text v n) /\
    (parse_args [s2b "-t"; v] defaults = Parsed (set_threads n defaults) <-> number_text v n) /\
    (parse_args [s2b "--max-errors"; v] defaults = Parsed (set_max n defaults) <-> number_text v n) /\
    (convert_args [s2b "-r"; v] c = CParsed (mkConversion (common c) (out_path c) (compression c) n) <-> number_text v n) /\
    (parse_args [s2b "-n"; v] defaults = ParseThrows <-> forall m, ~ number_text v m).
Proof. exact numbers_exactly. Qed.
Print Assumptions C84_numbers_exactly.
Example C84_numbers_nonvacuous : number_text (s2b " +12 rows") 12 /\ number_text [9; 45; 49]%N 18446744073709551615.
Proof.
  split.
  - exists (s2b " "), (s2b "+"), (s2b "12"), (s2b " rows"). split; [reflexivity|].
    split; [repeat constructor|]. split; [auto|]. split; [discriminate|]. split; [reflexivity|].
    split; [intros c r E; injection E as <- _; reflexivity|]. split; reflexivity.
  - exists [9]%N, (s2b "-"), (s2b "1"), []. split; [reflexivity|].
    split; [constructor; [right; lia|constructor]|]. split; [auto|]. split; [discriminate|]. split; [reflexivity|].
    split; [intros c r E; discriminate|]. split; reflexivity.
Qed.

(** Any sequence of items of convert with one input is understood.  Missing from the
    full property: names of delimiters (see above), and an input called convert. *)
Theorem C84_convert_understood_partial :
  forall (items : list citem) (ws : list (list bytes)) (p : bytes) (before after : list citem),
    items = before ++ CInput p :: after -> Forall (fun i => match i with CInput _ => False | _ => True end) (before ++ after) ->
    Forall2 cwritten items ws ->
    exists c, convert_args (concat ws) convert_defaults = CParsed c /\
      in_path (common c) = p /\
      out_path c = last_citem (fun i => match i with COutput x => Some x | _ => None end) items [] /\
      compression c = last_citem (fun i => match i with CCompression x => Some x | _ => None end) items (s2b "zstd") /\
      row_group c = last_citem (fun i => match i with CRowGroup x => Some x | _ => None end) items 1000000%N /\
      threads (common c) = last_citem (fun i => match i with CThreads x => Some x | _ => None end) items 0%N /\
      delimiter (common c) = last_citem (fun i => match i with CDelimiter x => Some x | _ => None end) items COMMA /\
      quoting (common c) = last_citem (fun i => match i with CQuote x => Some x | _ => None end) items DQ /\
      header (common c) = negb (cgiven (fun i => match i with CNoHeader => true | _ => false end) items) /\
      progress (common c) = cgiven (fun i => match i with CProgress => true | _ => false end) items /\
      verbose (common c) = cgiven (fun i => match i with CVerbose => true | _ => false end) items /\
      max_errors (common c) = last_citem (fun i => match i with CMaxErrors x => Some x | _ => None end) items 10000%N /\
      error_mode (common c) =
        match last_citem (fun i => match i with CStrict => Some (Some FailFast) | CPermissive => Some (Some Collecting) | _ => None end) items None with
        | Some m => m
        | None => if cgiven (fun i => match i with CMaxErrors _ => true | _ => false end) items then Collecting else Disabled
        end.
Proof. exact convert_spec. Qed.
Print Assumptions C84_convert_understood_partial.
Example C84_convert_items_nonvacuous :
  Forall2 cwritten [COutput (s2b "o"); CInput (s2b "in.csv"); CDelimiter 59%N; CMaxErrors 5]
    [map s2b ["-o"; "o"]; map s2b ["in.csv"]; map s2b ["-d"; ";"]; map s2b ["--max-errors"; "5"]]%string.
Proof.
  cbn [map]. constructor; [apply cw_output; cbn; tauto|]. constructor; [apply cw_input; discriminate|].
  constructor; [apply (cw_delimiter (s2b ";")); cbn; tauto|]. constructor; [|constructor].
  apply cw_max. repeat split; [discriminate|reflexivity..].
Qed.
(** A second input is refused, and an input called convert is skipped over. *)
Theorem C84_convert_inputs :
  forall (p q : bytes) (rest : list bytes) (c : conversion),
    (hd 0%N p <> 45%N -> p <> s2b "convert" -> in_path (common c) <> [] -> convert_args (p :: rest) c = CRefused) /\
    convert_args (s2b "convert" :: rest) c = convert_args rest c.
Proof. exact convert_inputs. Qed.
Print Assumptions C84_convert_inputs.

(** convert refuses options it does not know. *)
Theorem C84_convert_refuses_unknown :
  forall (a : bytes) (rest : list bytes) (c : conversion),
    hd 0%N a = 45%N ->
    ~ In a (map s2b ["-o"; "--output"; "-c"; "--compression"; "-r"; "--row-group"; "-j"; "--threads"; "-d"; "--delimiter"; "-q"; "--quote";
            "--no-header"; "--strict"; "--permissive"; "--max-errors"; "-p"; "--progress"; "-v"; "--verbose"; "-h"; "--help"]%string) ->
    convert_args (a :: rest) c = CRefused.
Proof. exact convert_unknown. Qed.
Print Assumptions C84_convert_refuses_unknown.

Example C84_convert_nonvacuous :
  convert_args (map s2b ["-H"]%string) convert_defaults = CRefused /\
  convert_args (map s2b ["in.csv"; "-o"; "out.parquet"; "-c"; "none"]%string) convert_defaults =
    CParsed (mkConversion (set_path (s2b "in.csv") defaults) (s2b "out.parquet") (s2b "none") 1000000).
Proof. split; reflexivity. Qed.
