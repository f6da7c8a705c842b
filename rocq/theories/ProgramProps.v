(** C105: the program from its command line to what it prints. *)
From Verif Require Import Base ChunkSpec NumSpec ReaderSpec ReaderModel TypesSpec TypesModel RoundSpec ErrorsSpec StrictSpec CliSpec CliModel CliProof5 ShowSpec MainSpec MainModel MainProps ProgramSpec ProgramModel RoundProof3 ProgramProof ProgramProof2.

(** C105.  A viewer given documented items and an input that is not empty: the table is the one
    the reader makes of that input under the options the items describe, and what is printed is
    that table, in the form of the command; unless errors are looked for and the header is empty. *)
Theorem C105_viewer_shows :
  forall (F : Type) (ff : bytes -> option F) (show_float : F -> bytes) (pad : bool) (lanes : nat) (clmul : bool) (hw : N) (ne : bool) (usage version : bytes)
         (w : world) (v : viewer) (word : bytes) (items : list item) (ws : list (list bytes)) (c : bytes),
    1 <= lanes -> Nat.divide lanes 64 ->
    In (v, word) viewers -> Forall2 CliSpec.written items ws -> length (filter is_columns items) <= 1 ->
    (v = Select -> exists c, In (Columns c) items) ->
    let o := options_of items in
    quote o <> LF -> quote o <> CR -> comes_from w (path_of items) c -> c <> [] ->
    exists names types t,
      TypesModel.read_file ff lanes clmul (threads_of hw items) ne o c = Some (names, types, t) /\
      (checking items /\ has_header o = true /\ header_is_empty names ->
         program ff show_float pad lanes clmul hw ne usage version w (word :: concat ws) = Done (Exit 1 [])) /\
      (~ (checking items /\ has_header o = true /\ header_is_empty names) ->
         exists r, program ff show_float pad lanes clmul hw ne usage version w (word :: concat ws) = Done r /\
           shows show_float pad v items c names types t r).
Proof.
  intros F ff sf pad lanes clmul hw ne us ve w v word items ws c L1 L2. exact (viewer_shows ff sf pad lanes clmul hw ne us ve L1 L2 w v word items ws c).
Qed.
Print Assumptions C105_viewer_shows.

(** Counting a file somebody wrote gives the number of rows written.  Missing: as in C100. *)
Theorem C105_counts_what_was_written_partial :
  forall (F : Type) (ff : bytes -> option F) (show_float : F -> bytes) (pad : bool) (lanes : nat) (clmul : bool) (hw : N) (ne : bool) (usage version : bytes)
         (w : world) (items : list item) (ws : list (list bytes)) (header : list RoundSpec.written) (e : ending) (ls : list line),
    1 <= lanes -> Nat.divide lanes 64 ->
    Forall2 CliSpec.written items ws -> length (filter is_columns items) <= 1 ->
    let o := options_of items in let sep := separator o in let q := quote o in
    has_header o = true -> q <> sep -> q <> LF -> q <> CR -> q <> 0%N -> sep <> LF -> sep <> CR -> ~ In q (null_values o) ->
    header <> [] -> Forall (well_written sep q) header -> proper sep q ls ->
    Forall (fun l => spread sep q (fst l)) ls ->
    Forall (fun l => unbroken (fst l)) ls \/ (N.of_nat (length (csv_text sep q ls)) < 1048576)%N ->
    comes_from w (path_of items) (line_text sep q (header, [e]) ++ csv_text sep q ls) ->
    ~ (checking items /\ header_is_empty (map column_name header)) ->
    exists d, says d (length ls) /\
      program ff show_float pad lanes clmul hw ne usage version w (s2b "count" :: concat ws) = Done (Exit 0 (d ++ [LF])).
Proof.
  intros F ff sf pad lanes clmul hw ne us ve w items ws header e ls L1 L2. exact (counts_written ff sf pad lanes clmul hw ne us ve L1 L2 w items ws header e ls).
Qed.
Print Assumptions C105_counts_what_was_written_partial.

(** head -n k piped into count: k rows, or all there are, if the printed rows are of the kind
    C100 is about and hold no line breaks, or less than 1 MiB is printed. *)
Theorem C105_pipe_partial :
  forall (F : Type) (ff : bytes -> option F) (show_float : F -> bytes) (pad : bool) (lanes : nat) (clmul : bool) (hw : N) (ne : bool) (usage version : bytes)
         (w : world) (items items' : list item) (ws ws' : list (list bytes)) (c : bytes),
    1 <= lanes -> Nat.divide lanes 64 ->
    Forall2 CliSpec.written items ws -> length (filter is_columns items) <= 1 ->
    Forall2 CliSpec.written items' ws' -> length (filter is_columns items') <= 1 ->
    let o := options_of items in let sep := separator o in let q := quote o in
    options_of items' = o -> path_of items' = [] -> ~ checking items' -> ~ checking items ->
    has_header o = true -> q <> sep -> q <> LF -> q <> CR -> q <> 0%N -> sep <> LF -> sep <> CR -> ~ In q (null_values o) ->
    comes_from w (path_of items) c -> c <> [] ->
    let prog := program ff show_float pad lanes clmul hw ne usage version in
    exists names types t out, TypesModel.read_file ff lanes clmul (threads_of hw items) ne o c = Some (names, types, t) /\
      prog w (s2b "head" :: concat ws) = Done (Exit 0 out) /\
      (let rows := firstn (rows_of items) (printable show_float pad types t (length names)) in
       Forall (readable_row sep q) rows -> Forall breakless rows \/ (N.of_nat (length out) < 1048576)%N ->
       forall w', standard_input w' = out ->
         exists d, says d (Nat.min (rows_of items) (total_rows t)) /\ prog w' (s2b "count" :: concat ws') = Done (Exit 0 (d ++ [LF]))).
Proof.
  intros F ff sf pad lanes clmul hw ne us ve w items items' ws ws' c L1 L2 HW HC HW' HC'.
  exact (pipe_counts ff sf pad lanes clmul hw ne us ve L1 L2 w items ws items' ws' c HW HC HW' HC').
Qed.
Print Assumptions C105_pipe_partial.

(** Rows whose values hold neither separators nor line breaks are of that kind. *)
Theorem C105_simple_rows : forall (sep q : byte) (row : list bytes), simple_row sep row -> readable_row sep q row /\ breakless row.
Proof. exact simple_readable. Qed.
Print Assumptions C105_simple_rows.

(** An empty input succeeds, and an unreadable one fails, whatever is asked for. *)
Theorem C105_empty_input :
  forall (F : Type) (ff : bytes -> option F) (show_float : F -> bytes) (pad : bool) (lanes : nat) (clmul : bool) (hw : N) (ne : bool) (usage version : bytes)
         (w : world) (v : viewer) (word : bytes) (items : list item) (ws : list (list bytes)),
    In (v, word) viewers -> Forall2 CliSpec.written items ws -> length (filter is_columns items) <= 1 ->
    (v = Select -> exists c, In (Columns c) items) -> comes_from w (path_of items) [] ->
    exists out, program ff show_float pad lanes clmul hw ne usage version w (word :: concat ws) = Done (Exit 0 out) /\
      match v with Count => out = s2b "0" ++ [LF] | Info => out <> [] | _ => out = [] end.
Proof. intros F ff sf pad lanes clmul hw ne us ve. exact (nothing_to_read ff sf pad lanes clmul hw ne us ve). Qed.
Print Assumptions C105_empty_input.

Theorem C105_unreadable_input :
  forall (F : Type) (ff : bytes -> option F) (show_float : F -> bytes) (pad : bool) (lanes : nat) (clmul : bool) (hw : N) (ne : bool) (usage version : bytes)
         (w : world) (v : viewer) (word : bytes) (items : list item) (ws : list (list bytes)) (message : bytes),
    In (v, word) viewers -> Forall2 CliSpec.written items ws -> length (filter is_columns items) <= 1 ->
    (v = Select -> exists c, In (Columns c) items) -> ~ standard (path_of items) -> file_at w (path_of items) = inl message ->
    ~ occurs (s2b "Empty file") (message ++ path_of items) ->
    program ff show_float pad lanes clmul hw ne usage version w (word :: concat ws) = Done (Exit 1 []).
Proof. intros F ff sf pad lanes clmul hw ne us ve. exact (cannot_read ff sf pad lanes clmul hw ne us ve). Qed.
Print Assumptions C105_unreadable_input.

Definition nowhere : bytes -> bytes + bytes := fun _ => inl (s2b "Failed to open file: ").
Definition running (c : bytes) (args : list string) : ProgramModel.run :=
  program (fun _ => @None N) (fun _ => []) false 16 true 4 false [] [] (World c nowhere) (map s2b args).

Definition two_rows : bytes :=
  s2b "h,k" ++ [LF; DQ] ++ s2b "a" ++ [DQ; COMMA; DQ] ++ s2b "x,y" ++ [LF] ++ s2b "w" ++ [DQ; LF; DQ] ++ repeat 98%N 70 ++ [DQ; COMMA; DQ] ++ s2b "z" ++ [DQ].
Definition two_rows_printed : bytes :=
  s2b "h,k" ++ [LF] ++ s2b "a," ++ [DQ] ++ s2b "x,y" ++ [LF] ++ s2b "w" ++ [DQ; LF] ++ repeat 98%N 70 ++ s2b ",z" ++ [LF].
(** The words that are not commands: help and the version end with 0, no word at all shows the
    usage and ends with 1, anything else that is not a file name fails. *)
Theorem C105_other_words :
  forall {F} (ff : bytes -> option F) show_float pad lanes clmul hw ne usage version (w : world) (r : list bytes),
    let program := program ff show_float pad lanes clmul hw ne usage version w in
    program [] = Done (Exit 1 usage) /\
    (forall x, In x help_words -> program (x :: r) = Done (Exit 0 usage)) /\
    (forall x, In x version_words -> program (x :: r) = Done (Exit 0 version)) /\
    (forall x, In x later_words -> program (x :: r) = Failed) /\
    (forall x, ~ In x reserved_words -> ~ file_like x -> program (x :: r) = Failed).
Proof.
  intros F ff sf pad lanes clmul hw ne usage version w r P. unfold P, ProgramModel.program.
  destruct C103_first_word as (_ & H). split; [reflexivity|].
  split; [intros x X; rewrite (proj1 (H x r) X); reflexivity|].
  split; [intros x X; rewrite (proj1 (proj2 (H x r)) X); reflexivity|].
  split; [intros x X; rewrite (proj1 (proj2 (proj2 (H x r))) X); reflexivity|].
  intros x X Y. rewrite (proj2 (proj2 (proj2 (proj2 (H x r)))) X Y). reflexivity.
Qed.
Print Assumptions C105_other_words.

(** Two rows are printed, and counted as three. *)
Theorem C105_pipe_refuted :
  exists c out, running c ["count"]%string = Done (Exit 0 (s2b "2" ++ [LF])) /\
    running c ["head"]%string = Done (Exit 0 out) /\ running out ["count"]%string = Done (Exit 0 (s2b "3" ++ [LF])).
Proof.
  exists two_rows, two_rows_printed. split; [vm_compute; reflexivity|]. split; vm_compute; reflexivity.
Qed.
Print Assumptions C105_pipe_refuted.

(** After a minus sign for the standard input every option is dropped without a word. *)
Theorem C105_dropped_options_refuted :
  exists c, running c ["count"; "-"; "--no-header"]%string = running c ["count"]%string /\
    running c ["count"; "--no-header"]%string <> running c ["count"]%string.
Proof. exists (s2b "a" ++ [LF] ++ s2b "1"). split; vm_compute; [reflexivity|discriminate]. Qed.
Print Assumptions C105_dropped_options_refuted.

Definition three_rows : bytes := s2b "id;n" ++ [LF] ++ s2b "1;x" ++ [LF] ++ s2b "2;y" ++ [LF] ++ s2b "3;z" ++ [LF].
Definition folder : world := World [] (fun p => if list_eq_dec N.eq_dec p (s2b "a.csv") then inr three_rows else inl (s2b "Failed to open file: ")).
Definition example_items : list item := [Rows 2; Input (s2b "a.csv"); Delimiter 59; Columns (s2b "n,0")].
Definition example_words : list (list bytes) := [[s2b "-n"; s2b "2"]; [s2b "a.csv"]; [s2b "--delimiter"; s2b "semicolon"]; [s2b "-c"; s2b "n,0"]].
Example C105_nonvacuous :
  Forall2 CliSpec.written example_items example_words /\ length (filter is_columns example_items) <= 1 /\
  comes_from folder (path_of example_items) three_rows /\ ~ checking example_items /\
  (let prog := program (fun _ => @None N) (fun _ => []) false 16 true 4 false [] [] folder in
   prog (s2b "head" :: concat example_words) = Done (Exit 0 (s2b "id;n" ++ [LF] ++ s2b "1;x" ++ [LF] ++ s2b "2;y" ++ [LF])) /\
   prog (s2b "select" :: concat example_words) = Done (Exit 0 (s2b "n;id" ++ [LF] ++ s2b "x;1" ++ [LF] ++ s2b "y;2" ++ [LF] ++ s2b "z;3" ++ [LF])) /\
   prog (s2b "count" :: concat example_words) = Done (Exit 0 (s2b "3" ++ [LF])) /\
   prog (map s2b ["count"; "b.csv"]%string) = Done (Exit 1 [])) /\
  Forall (simple_row 59%N) [[s2b "1"; s2b "x"]; [s2b "2"; s2b "y"]] /\
  readable_row 59%N DQ [s2b "a;b"; s2b "y"].
Proof.
  split. { constructor; [apply w_rows; [vm_compute; auto|repeat split; discriminate]|]. constructor; [apply w_input; discriminate|].
           constructor; [apply w_named; vm_compute; auto|]. constructor; [apply w_columns; [vm_compute; auto|discriminate]|constructor]. }
  split; [cbn; lia|]. split; [right; split; [intros [H|H]; discriminate|vm_compute; reflexivity]|].
  split; [intros (i & H & K); repeat (destruct H as [<-|H]; [destruct K as [K|[K|(n & K)]]; discriminate|]); destruct H|].
  split; [vm_compute; repeat split; reflexivity|].
  split; [repeat constructor; try discriminate; intros H; cbn in H; intuition discriminate|].
  split; [discriminate|]. exact (quoted_first_spread 59%N DQ [s2b "a;b"] [s2b "y"]).
Qed.
Print Assumptions C105_nonvacuous.
