(** C110: Python's read_csv as a whole. *)
From Verif Require Import Base TypesSpec WordsModel ChunkSpec ChunkModel FieldsSpec FieldsModel ReaderSpec ReaderModel TypesModel ErrorsSpec ErrorsModel StrictSpec
  PySpec PyModel PyConvSpec PyReadSpec PyReadModel PyReadProof.

(** An unknown error mode is an exception whatever the file; otherwise so is a file that cannot be
    read and an empty one, without listed errors. *)
Theorem C110_bad_calls : forall (F : Type) (ff : bytes -> option F) lanes clmul hw ne a,
  (bad_mode a -> forall file, py_read_csv ff lanes clmul hw ne a file = ReadBadArgument) /\
  (~ bad_mode a -> py_read_csv ff lanes clmul hw ne a None = ReadRaises [] /\ py_read_csv ff lanes clmul hw ne a (Some []) = ReadRaises []).
Proof. exact bad_calls. Qed.
Print Assumptions C110_bad_calls.

(** Every other call, on every file that is not empty: the file is read with the separator, the
    quote, the header and the threads asked for; an exception is thrown exactly for an empty header
    in a mode that stops, and it lists that error unless no error may be collected; otherwise the
    table has the names, the types and the number of rows of what was read, and its first chunk. *)
Theorem C110_outcomes : forall (F : Type) (ff : bytes -> option F) lanes clmul hw ne a content,
  1 <= lanes -> Nat.divide lanes 64 ->
  content <> [] -> ~ bad_mode a -> quote (asked_options a) <> LF -> quote (asked_options a) <> CR ->
  exists names types t, TypesModel.read_file ff lanes clmul (asked_threads hw a) ne (asked_options a) content = Some (names, types, t) /\
    (ra_has_header a = true /\ header_is_empty names /\ stopping a ->
       exists listed, py_read_csv ff lanes clmul hw ne a (Some content) = ReadRaises listed /\
         map e_code listed = match ra_max_errors a with Some 0%N => [] | _ => [EMPTY_HEADER] end) /\
    (~ (ra_has_header a = true /\ header_is_empty names /\ stopping a) ->
       exists tb, py_read_csv ff lanes clmul hw ne a (Some content) = ReadReturns tb /\ t_names tb = names /\ t_types tb = types /\
         Some (t_columns tb) = hd_error (chunks t) /\ t_rows tb = total_rows t).
Proof. intros F ff lanes clmul hw ne a content L1 L2. exact (outcomes ff lanes clmul hw ne L1 L2 a content). Qed.
Print Assumptions C110_outcomes.

(** Data below 1 MiB, with rows the reader reads right (C11): the table returned is that of the
    text, cut with the separator and the quote asked for; the number of threads, the error mode
    and the limit make no difference to it.
    Missing: larger files, where only the first chunk is returned (C88_large_files_refuted). *)
Theorem C110_small_files_partial : forall (F : Type) (ff : bytes -> option F) lanes clmul hw ne a content tb,
  1 <= lanes -> Nat.divide lanes 64 ->
  let o := asked_options a in
  content <> [] -> quote o <> LF -> quote o <> CR -> quote o <> separator o -> quote o <> 0%N ->
  let body := skipn (if has_header o then spec_find_row_end (quote o) content 0 else 0) content in
  length body < N.to_nat (1024 * 1024) -> Forall (safe_row (separator o) LF (quote o)) (table_rows (separator o) (quote o) body) ->
  py_read_csv ff lanes clmul hw ne a (Some content) = ReadReturns tb ->
  option_map fst (open_file ff lanes clmul o content) = Some (t_names tb, t_types tb) /\
  t_rows tb = length (table_rows (separator o) (quote o) body) /\
  t_columns tb = table_columns (fun k => append_value ff lanes (nth k (t_types tb) STRING)) (null_values o) (separator o) (quote o) (length (t_names tb)) body.
Proof. intros F ff lanes clmul hw ne a content tb L1 L2 o NE Q1 Q2 Q3 Q4. exact (small ff lanes clmul hw ne L1 L2 a content tb NE Q1 Q2 Q3 Q4). Qed.
Print Assumptions C110_small_files_partial.

(** Strict mode is documented to stop on the first error: repeated names, a row that is too short
    and a quote that is never closed are all accepted. *)
Definition strictly : read_arguments := ReadArguments None None true None (Some (s2b "strict")) None.
Theorem C110_strict_refuted :
  let read := fun data => py_read_csv (fun _ : bytes => @None unit) 16 true 1 false strictly (Some data) in
  let short := s2b "a,b" ++ [LF] ++ s2b "1,2" ++ [LF] ++ s2b "3" ++ [LF] in
  let open_quote := s2b "a,b" ++ [LF] ++ s2b "1,2" ++ [LF] ++ [DQ] ++ s2b "3,4" ++ [LF] in
  names_mode (ra_error_mode strictly) (ra_max_errors strictly) FAIL_FAST /\
  (exists tb, read (s2b "a,a" ++ [LF] ++ s2b "1,2" ++ [LF]) = ReadReturns tb /\ t_names tb = [s2b "a"; s2b "a"]) /\
  ragged COMMA DQ short /\ (exists tb, read short = ReadReturns tb) /\
  unclosed_quote DQ open_quote /\ (exists tb, read open_quote = ReadReturns tb).
Proof.
  cbv zeta. split; [exists FAIL_FAST; split; [right; right; left; reflexivity|reflexivity]|].
  split; [eexists; split; [vm_compute; reflexivity|reflexivity]|]. split.
  { exists [s2b "a"; s2b "b"], [[s2b "1"; s2b "2"]; [s2b "3"]], [s2b "3"].
    split; [vm_compute; reflexivity|]. split; [right; left; reflexivity|discriminate]. }
  split; [eexists; vm_compute; reflexivity|]. split; [vm_compute; reflexivity|]. eexists; vm_compute; reflexivity.
Qed.
Print Assumptions C110_strict_refuted.

(** A call with a tab and single quotes, no header; one that raises with the error listed and,
    with a limit of 0, without. *)
Example C110_meets :
  let read := py_read_csv (fun _ : bytes => @None unit) 16 true 1 false in
  (exists tb, read (ReadArguments (Some 9%N) (Some 39%N) false (Some 0%N) (Some (s2b "best_effort")) (Some 3%N)) (Some (s2b "1" ++ [9%N; 39%N; 120%N; 9%N; 39%N; LF] ++ s2b "2" ++ [9%N; 121%N; LF])) = ReadReturns tb /\
     t_names tb = [s2b "V1"; s2b "V2"] /\ t_types tb = [INT32; STRING] /\ t_rows tb = 2 /\
     t_columns tb = [[Some (VInt 1); Some (VInt 2)]; [Some (VString [120%N; 9%N]); Some (VString [121%N])]]) /\
  read strictly (Some ([LF] ++ s2b "1" ++ [LF])) = ReadRaises [Error EMPTY_HEADER FATAL 1 1 0 []] /\
  read (ReadArguments None None true None None (Some 0%N)) (Some ([LF] ++ s2b "1" ++ [LF])) = ReadRaises [] /\
  (exists tb, read (ReadArguments None None true None None None) (Some ([LF] ++ s2b "1" ++ [LF])) = ReadReturns tb) /\
  stopping strictly /\ ~ bad_mode strictly /\ bad_mode (ReadArguments None None true None (Some (s2b "Strict")) None).
Proof.
  cbv zeta. split; [eexists; split; [vm_compute; reflexivity|vm_compute; repeat split]|]. split; [vm_compute; reflexivity|]. split; [vm_compute; reflexivity|].
  split; [eexists; vm_compute; reflexivity|]. split; [left; exists FAIL_FAST; split; [right; right; left; reflexivity|reflexivity]|].
  split; [intros (n & E & N); injection E as <-; apply (N FAIL_FAST); right; right; left; reflexivity|].
  exists (s2b "Strict"). split; [reflexivity|]. intros m H. repeat (destruct H as [H|H]; [discriminate H|]). exact H.
Qed.
