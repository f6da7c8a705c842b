(** C85: what error handling reports about the data of a file. *)
From Verif Require Import Base ChunkSpec TypesSpec ReaderSpec ReaderModel TypesModel ErrorsSpec ErrorsModel CliModel StrictSpec StrictModel StrictProof.

(** Error handling never changes the data: with every mode and limit the table
    is the one read without error handling, unless the header is empty and the
    mode is strict or permissive; then open() fails. *)
Theorem C85_modes_read_the_same :
  forall (F : Type) (ff : bytes -> option F) lanes clmul num_threads ne_in o m limit data names types t,
  read_file ff lanes clmul num_threads ne_in o data = Some (names, types, t) ->
  (snd (read_checked ff lanes clmul num_threads ne_in o m limit data) = Some (names, types, t) /\
   ~ (has_header o = true /\ header_is_empty names /\ (m = FAIL_FAST \/ m = PERMISSIVE))) \/
  (snd (read_checked ff lanes clmul num_threads ne_in o m limit data) = None /\
   has_header o = true /\ header_is_empty names /\ (m = FAIL_FAST \/ m = PERMISSIVE)).
Proof. intros F ff lanes clmul num_threads ne_in o m limit. exact (modes_read_the_same ff lanes clmul num_threads ne_in o m limit). Qed.
Print Assumptions C85_modes_read_the_same.

(** The errors reported depend on the first line only: two files with the same
    first line have the same errors, whatever follows it. *)
Theorem C85_errors_depend_on_first_line_only :
  forall (F : Type) (ff : bytes -> option F) lanes clmul num_threads ne_in o m limit d1 d2,
  1 <= lanes -> Nat.divide lanes 64 -> quote o <> LF -> quote o <> CR -> d1 <> [] -> d2 <> [] ->
  first_line (quote o) d1 = first_line (quote o) d2 ->
  fst (read_checked ff lanes clmul num_threads ne_in o m limit d1) =
  fst (read_checked ff lanes clmul num_threads ne_in o m limit d2).
Proof. intros F ff lanes clmul num_threads ne_in o m limit. exact (errors_of_first_line ff lanes clmul num_threads ne_in o m limit). Qed.
Print Assumptions C85_errors_depend_on_first_line_only.

(** Where opening stops, every command fails, whatever else would succeed. *)
Theorem C85_stopped_commands_fail :
  forall (F : Type) (ff : bytes -> option F) lanes clmul num_threads ne_in o m limit data names types t,
  read_file ff lanes clmul num_threads ne_in o data = Some (names, types, t) ->
  has_header o = true -> header_is_empty names -> m = FAIL_FAST \/ m = PERMISSIVE ->
  count_checked ff lanes clmul num_threads ne_in o m limit data = Exit 1 [] /\
  forall rest_ok, convert_exit ff lanes clmul num_threads ne_in o m limit rest_ok data = 1.
Proof.
  intros F ff lanes clmul num_threads ne_in o m limit data names types t H H1 H2 H3.
  assert (E : snd (read_checked ff lanes clmul num_threads ne_in o m limit data) = None).
  { destruct (modes_read_the_same ff lanes clmul num_threads ne_in o m limit data _ _ _ H) as [(_ & A)|(A & _)]; [|exact A].
    destruct A. auto. }
  split.
  - unfold count_checked. destruct data as [|x l]; [discriminate|]. rewrite E. reflexivity.
  - intros rest_ok. unfold convert_exit, convert_errors.
    destruct (read_checked _ _ _ _ _ _ _ _ _) as [es [r|]]; [discriminate|].
    destruct (snd (open_checked _ _ _ _ _ _ _)); reflexivity.
Qed.
Print Assumptions C85_stopped_commands_fail.

(** With a header of distinct names, or without header, nothing is ever
    reported, and strict mode is the same as no error handling. *)
Theorem C85_data_errors_never_reported_refuted :
  forall (F : Type) (ff : bytes -> option F) lanes clmul num_threads ne_in o m limit data names types t,
  read_file ff lanes clmul num_threads ne_in o data = Some (names, types, t) ->
  has_header o = false \/ (~ header_is_empty names /\ forall i, ~ repeats names i) ->
  read_checked ff lanes clmul num_threads ne_in o m limit data = ([], Some (names, types, t)) /\
  count_checked ff lanes clmul num_threads ne_in o m limit data =
    count ff lanes clmul num_threads ne_in o (Stdin data) /\
  convert_exit ff lanes clmul num_threads ne_in o m limit true data = 0.
Proof.
  intros F ff lanes clmul num_threads ne_in o m limit data names types t H H1.
  assert (E : read_checked ff lanes clmul num_threads ne_in o m limit data = ([], Some (names, types, t))).
  { rewrite (read_checked_spec ff lanes clmul num_threads ne_in o m limit data _ _ _ H).
    assert (St : stops o m names = false).
    { destruct (stops o m names) eqn:Es; [|reflexivity]. apply stops_iff in Es as (A & B & _).
      destruct H1 as [H1|[H1 _]]; [congruence|contradiction]. }
    rewrite St. f_equal. destruct H1 as [->|[H1 H2]]; [reflexivity|].
    destruct (has_header o); [|reflexivity]. now apply clean_header. }
  split; [exact E|]. split.
  - unfold count_checked, count, load. rewrite E, H. cbn [snd]. destruct data; reflexivity.
  - unfold convert_exit, convert_errors. rewrite E. reflexivity.
Qed.
Print Assumptions C85_data_errors_never_reported_refuted.

(** Files the documentation calls erroneous: strict mode reads them, reports
    nothing, and the tool exits with 0. *)
Theorem C85_strict_mode_refuted :
  let strict := fun data => read_checked (fun _ : bytes => @None unit) 16 true 1 false default_options FAIL_FAST 10000 data in
  let exit := fun data => convert_exit (fun _ : bytes => @None unit) 16 true 1 false default_options FAIL_FAST 10000 true data in
  let short := s2b "a,b" ++ [LF] ++ s2b "1,2" ++ [LF] ++ s2b "3" ++ [LF] in
  let open_quote := s2b "a,b" ++ [LF] ++ s2b "1,2" ++ [LF] ++ [DQ] ++ s2b "3,4" ++ [LF] ++ s2b "5,6" ++ [LF] in
  ragged COMMA DQ short /\ fst (strict short) = [] /\ snd (strict short) <> None /\ exit short = 0 /\
  unclosed_quote DQ open_quote /\ fst (strict open_quote) = [] /\ snd (strict open_quote) <> None /\ exit open_quote = 0.
Proof.
  cbv zeta. split.
  { exists [s2b "a"; s2b "b"], [[s2b "1"; s2b "2"]; [s2b "3"]], [s2b "3"].
    split; [vm_compute; reflexivity|]. split; [right; left; reflexivity|vm_compute; discriminate]. }
  vm_compute. repeat split; discriminate.
Qed.
Print Assumptions C85_strict_mode_refuted.

(** What is recorded does not reach the exit code of the other commands: with a
    repeated column name, strict mode records it, convert exits with 1, and
    count with 0. *)
Theorem C85_recorded_errors_ignored_refuted :
  let data := s2b "a,a" ++ [LF] ++ s2b "1,2" ++ [LF] in
  let ff := fun _ : bytes => @None unit in
  fst (read_checked ff 16 true 1 false default_options FAIL_FAST 10000 data) <> [] /\
  convert_exit ff 16 true 1 false default_options FAIL_FAST 10000 true data = 1 /\
  count_checked ff 16 true 1 false default_options FAIL_FAST 10000 data = Exit 0 (s2b "1" ++ [LF]).
Proof. vm_compute. repeat split; discriminate. Qed.
Print Assumptions C85_recorded_errors_ignored_refuted.

(** An empty header stops a strict or permissive conversion, but the error is
    not among those the result of the conversion lists. *)
Theorem C85_fatal_error_not_listed_refuted :
  let data := [LF] ++ s2b "1,2" ++ [LF] in
  let ff := fun _ : bytes => @None unit in
  map e_severity (fst (read_checked ff 16 true 1 false default_options PERMISSIVE 10000 data)) = [FATAL] /\
  convert_errors ff 16 true 1 false default_options PERMISSIVE 10000 data = ([], false).
Proof. vm_compute. repeat split. Qed.
Print Assumptions C85_fatal_error_not_listed_refuted.

Example C85_nonvacuous :
  let o := default_options in
  let data := s2b "a,b" ++ [LF] ++ s2b "1,2" ++ [LF] ++ s2b "3" ++ [LF] in
  let other := s2b "a,b" ++ [LF] ++ [DQ] in
  exists names types t,
    read_file (fun _ : bytes => @None unit) 16 true 1 false o data = Some (names, types, t) /\
    ~ header_is_empty names /\ (forall i, ~ repeats names i) /\
    first_line DQ data = first_line DQ other /\ data <> other.
Proof.
  do 3 eexists. split; [vm_compute; reflexivity|]. split; [intros [H|H]; discriminate|]. split.
  - intros i (j & n & L & E1 & E2 & _).
    destruct i as [|[|i]]; [lia| |destruct i; discriminate].
    destruct j; [|lia]. injection E1 as <-. discriminate.
  - split; [vm_compute; reflexivity|discriminate].
Qed.
