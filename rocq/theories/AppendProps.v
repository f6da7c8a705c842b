(** C104: rows added at the end of a file leave the earlier rows as they are. *)
From Verif Require Import Base ChunkSpec FieldsSpec ReaderSpec ReaderModel ReaderProof5 TypesSpec TypesModel TypesProof3 AppendSpec AppendProof.

(** The file ends a row and its sampled lines are all there: appending anything keeps names and
    types and adds exactly the rows of the added text to every column, whatever the number of
    threads and the code path of each reading. *)
Theorem C104_earlier_rows_kept_partial :
  forall (F : Type) (ff : bytes -> option F) (lanes : nat) (clmul clmul' : bool) (num_threads num_threads' : N) (ne ne' : bool)
         (o : csv_options) (data added : bytes),
    let sep := separator o in let q := quote o in
    1 <= lanes -> Nat.divide lanes 64 -> q <> LF -> q <> CR -> q <> sep -> q <> 0%N ->
    complete q data -> sample_rows o + (if has_header o then 2 else 0) <= length (lines q data) ->
    let body := skipn (if has_header o then spec_find_row_end q data 0 else 0) (data ++ added) in
    (forall i, line_end_at body i = true -> inside_at false q body i = false) ->
    no_lone_cr body -> Forall (safe_row sep LF q) (table_rows sep q body) ->
    exists names types r r',
      TypesModel.read_file ff lanes clmul num_threads ne o data = Some (names, types, r) /\
      TypesModel.read_file ff lanes clmul' num_threads' ne' o (data ++ added) = Some (names, types, r') /\
      total_rows r' = total_rows r + length (table_rows sep q added) /\
      concat_columns (length names) (chunks r') =
        extended (concat_columns (length names) (chunks r))
          (table_columns (fun k => append_value ff lanes (nth k types STRING)) (null_values o) sep q (length names) added).
Proof.
  intros F ff lanes clmul clmul' nt nt' ne ne' o data b sep q L1 L2 A B C D Hc Hl body O N S0.
  apply (appended ff o A B C D data b Hc); try assumption. unfold header_lines. destruct (has_header o); exact Hl.
Qed.
Print Assumptions C104_earlier_rows_kept_partial.

(** Texts without quotes and without carriage returns meet the conditions on the rows. *)
Theorem C104_without_quotes :
  forall (F : Type) (ff : bytes -> option F) (lanes : nat) (clmul clmul' : bool) (num_threads num_threads' : N) (ne ne' : bool)
         (o : csv_options) (data0 added : bytes),
    let sep := separator o in let q := quote o in let data := data0 ++ [LF] in
    1 <= lanes -> Nat.divide lanes 64 -> q <> LF -> q <> CR -> q <> sep -> q <> 0%N ->
    ~ In q data -> ~ In q added -> ~ In CR data -> ~ In CR added ->
    sample_rows o + (if has_header o then 2 else 0) <= length (lines q data) ->
    exists names types r r',
      TypesModel.read_file ff lanes clmul num_threads ne o data = Some (names, types, r) /\
      TypesModel.read_file ff lanes clmul' num_threads' ne' o (data ++ added) = Some (names, types, r') /\
      total_rows r' = total_rows r + length (table_rows sep q added) /\
      concat_columns (length names) (chunks r') =
        extended (concat_columns (length names) (chunks r))
          (table_columns (fun k => append_value ff lanes (nth k types STRING)) (null_values o) sep q (length names) added).
Proof. exact @appended_plain. Qed.
Print Assumptions C104_without_quotes.

Definition no_float : bytes -> option N := fun _ => None.
Definition shown (o : csv_options) (data : bytes) :=
  match TypesModel.read_file no_float 16 true 4 false o data with
  | Some (names, types, r) => Some (names, types, total_rows r, concat_columns (length names) (chunks r))
  | None => None
  end.
Definition file (ls : list bytes) : bytes := concat (map (fun l => l ++ [LF]) ls).

(** A file shorter than the sample: one more row turns the numbers into texts. *)
Theorem C104_short_file_refuted :
  let before := file (map s2b ["a"; "7"; "8"]%string) in let after := before ++ file [s2b "x"] in
  complete DQ before /\
  shown default_options before = Some ([s2b "a"], [INT32], 2, [[Some (VInt 7); Some (VInt 8)]]) /\
  shown default_options after = Some ([s2b "a"], [STRING], 3, [[Some (VString (s2b "7")); Some (VString (s2b "8")); Some (VString (s2b "x"))]]).
Proof. split; [split; [reflexivity|eexists (s2b "a" ++ [LF] ++ s2b "7" ++ [LF] ++ s2b "8"); reflexivity]|]. split; vm_compute; reflexivity. Qed.
Print Assumptions C104_short_file_refuted.

(** A file whose last row is not ended: the row changes. *)
Theorem C104_unended_file_refuted :
  let o := mkOptions COMMA DQ true (null_values default_options) [] [] 1 in
  let before := file (map s2b ["a"; "7"]%string) ++ s2b "8" in let after := before ++ file [s2b "9"] in
  shown o before = Some ([s2b "a"], [INT32], 2, [[Some (VInt 7); Some (VInt 8)]]) /\
  shown o after = Some ([s2b "a"], [INT32], 2, [[Some (VInt 7); Some (VInt 89)]]).
Proof. split; vm_compute; reflexivity. Qed.
Print Assumptions C104_unended_file_refuted.

Example C104_nonvacuous :
  let o := mkOptions COMMA DQ true (null_values default_options) [] [] 1 in
  let before := file (map s2b ["a,b"; "7,u"; "8,v"]%string) in let added := file (map s2b ["9,w"; "x,"]%string) in
  complete (quote o) before /\ sample_rows o + 2 <= length (lines (quote o) before) /\
  ~ In DQ (before ++ added) /\ ~ In CR (before ++ added) /\
  shown o before = Some ([s2b "a"; s2b "b"], [INT32; STRING], 2, [[Some (VInt 7); Some (VInt 8)]; [Some (VString (s2b "u")); Some (VString (s2b "v"))]]) /\
  shown o (before ++ added) = Some ([s2b "a"; s2b "b"], [INT32; STRING], 4,
    [[Some (VInt 7); Some (VInt 8); Some (VInt 9); None]; [Some (VString (s2b "u")); Some (VString (s2b "v")); Some (VString (s2b "w")); None]]).
Proof.
  split; [split; [reflexivity|eexists (s2b "a,b" ++ [LF] ++ s2b "7,u" ++ [LF] ++ s2b "8,v"); reflexivity]|].
  split; [apply Nat.leb_le; vm_compute; reflexivity|]. split; [vm_compute; intuition discriminate|]. split; [vm_compute; intuition discriminate|].
  split; vm_compute; reflexivity.
Qed.
Print Assumptions C104_nonvacuous.
