(** Property theorems C11-C14, C52. *)
From Verif Require Import Base WordsModel ChunkSpec ChunkModel FieldsSpec FieldsModel FieldsProof FieldsProof2
  FieldsProof3 FieldsProof4 FieldsProof5 FieldsProof6.

(** C11: exact on rows where no unquoted field is followed, within 63 bytes, by a
    quoted separator or end of line.  Missing: the other rows, where the claim is
    false (see [C11_cached_split_refuted]). *)
Theorem C11_iterator_exact_partial :
  forall (lanes : nat) (clmul : bool) (sep eol q : byte) (data : bytes) (ne : bool),
    1 <= lanes -> Nat.divide lanes 64 -> q <> sep -> q <> eol -> q <> 0%N ->
    safe_row sep eol q (fst (raw_row (N.eqb eol) sep q false data)) ->
    option_map (fun r => (map fst (fst r), snd r)) (row_fields lanes clmul sep q eol data ne)
    = Some (raw_row (N.eqb eol) sep q false data).
Proof. exact iterator_exact. Qed.
Print Assumptions C11_iterator_exact_partial.

Theorem C11_all_quoted_rows_partial :
  forall (lanes : nat) (clmul : bool) (sep eol q : byte) (data : bytes) (ne : bool),
    1 <= lanes -> Nat.divide lanes 64 -> q <> sep -> q <> eol -> q <> 0%N ->
    Forall (fun f => starts_with q f = true) (fst (raw_row (N.eqb eol) sep q false data)) ->
    option_map (fun r => (map fst (fst r), snd r)) (row_fields lanes clmul sep q eol data ne)
    = Some (raw_row (N.eqb eol) sep q false data).
Proof. intros. apply iterator_exact; try assumption. apply safe_all_quoted. assumption. Qed.
Print Assumptions C11_all_quoted_rows_partial.

Theorem C11_quote_free_rows_partial :
  forall (lanes : nat) (clmul : bool) (sep eol q : byte) (data : bytes) (ne : bool),
    1 <= lanes -> Nat.divide lanes 64 -> q <> sep -> q <> eol -> q <> 0%N -> ~ In q data ->
    option_map (fun r => (map fst (fst r), snd r)) (row_fields lanes clmul sep q eol data ne)
    = Some (raw_row (N.eqb eol) sep q false data).
Proof. intros. apply iterator_exact; try assumption. apply safe_no_quotes. assumption. Qed.
Print Assumptions C11_quote_free_rows_partial.

(** C11 fails in general: the row [a,"b,c"] followed by 70 more bytes. *)
Theorem C11_cached_split_refuted :
  exists data : bytes,
    fst (raw_row (N.eqb LF) COMMA DQ false data) = [s2b "a"; [DQ] ++ s2b "b,c" ++ [DQ]] /\
    option_map (fun p => map fst (fst p)) (row_fields 16 true COMMA DQ LF data false)
    = Some [s2b "a"; [DQ] ++ s2b "b"; s2b "c" ++ [DQ]].
Proof. exact (ex_intro _ cache_bug_row cache_bug). Qed.
Print Assumptions C11_cached_split_refuted.

Example C11_nonvacuous :
  let data := quote_value DQ (s2b "x,y") ++ [COMMA] ++ repeat 97%N 70 ++ [COMMA; COMMA; LF; 98%N] in
  raw_row (N.eqb LF) COMMA DQ false data
    = ([quote_value DQ (s2b "x,y"); repeat 97%N 70; []; []], [98%N]) /\
  safe_row COMMA LF DQ (fst (raw_row (N.eqb LF) COMMA DQ false data)).
Proof.
  split; [vm_compute; reflexivity|].
  assert (E : fst (raw_row (N.eqb LF) COMMA DQ false
     (quote_value DQ (s2b "x,y") ++ [COMMA] ++ repeat 97%N 70 ++ [COMMA; COMMA; LF; 98%N]))
     = [quote_value DQ (s2b "x,y"); repeat 97%N 70; []; []]) by (vm_compute; reflexivity).
  cbv zeta. rewrite E. intros pre f post Hp Hf.
  assert (Hq : forall l, ~ In DQ l -> ~ quoted_delim COMMA LF DQ l).
  { intros l Hl (i & _ & Hi). rewrite inside_no_quote in Hi; [discriminate|].
    intros H. apply Hl. rewrite <- (firstn_skipn i l). apply in_or_app. left. exact H. }
  destruct pre as [|x pre]; [injection Hp as <- <-; vm_compute in Hf; discriminate|].
  injection Hp as <- Hp. destruct pre as [|y pre].
  - injection Hp as <- <-. split.
    + intros H. apply (repeat_spec 70 97%N DQ) in H. discriminate.
    + apply Hq. vm_compute. intros H. repeat destruct H as [H|H]; try discriminate; assumption.
  - injection Hp as <- Hp. destruct pre as [|z pre].
    + injection Hp as <- <-. split; [intros []|]. apply Hq. vm_compute. intros [].
    + injection Hp as <- Hp. destruct pre as [|w pre].
      * injection Hp as <- <-. split; [intros []|]. apply Hq. vm_compute. intros [].
      * injection Hp as <- Hp. destruct pre; discriminate.
Qed.

(** C12 *)
Theorem C12_iteration_lossless :
  forall (lanes : nat) (clmul : bool) (sep q eol : byte) (data : bytes) (ne : bool),
    1 <= lanes -> Nat.divide lanes 64 ->
    exists (fields : list (bytes * bool)) (rest : bytes),
      row_fields lanes clmul sep q eol data ne = Some (fields, rest) /\
      1 <= length fields <= S (length data) /\
      (data = join sep (map fst fields) /\ rest = [] \/
       data = join sep (map fst fields) ++ eol :: rest).
Proof. intros lanes clmul sep q eol data ne H1 H2. exact (row_fields_lossless lanes clmul sep q eol data ne (conj H1 H2)). Qed.
Print Assumptions C12_iteration_lossless.

Example C12_nonvacuous :
  row_fields 32 false COMMA DQ LF (s2b "ab,,c" ++ [LF] ++ s2b "next") false
  = Some ([(s2b "ab", false); ([], false); (s2b "c", false)], s2b "next").
Proof. vm_compute. reflexivity. Qed.

(** C13 *)
Theorem C13_value_roundtrip :
  forall (q : byte) (v : bytes), unquote_field q (quote_value q v) = v.
Proof. exact unquote_quote. Qed.
Print Assumptions C13_value_roundtrip.

Theorem C13_row_roundtrip :
  forall (lanes : nat) (clmul : bool) (sep q eol : byte) (rest : bytes) (values : list bytes) (ne : bool),
    1 <= lanes -> Nat.divide lanes 64 ->
    q <> sep -> q <> eol -> sep <> eol -> q <> 0%N -> values <> [] ->
    exists fields,
      row_fields lanes clmul sep q eol (join sep (map (quote_value q) values) ++ eol :: rest) ne
        = Some (fields, rest) /\
      map (fun r => unquote_field q (fst r)) fields = values /\
      Forall (fun r => snd r = true) fields.
Proof.
  intros lanes clmul sep q eol rest values ne H1 H2.
  exact (encoded_row_roundtrip lanes clmul sep q eol rest values ne (conj H1 H2)).
Qed.
Print Assumptions C13_row_roundtrip.

Example C13_nonvacuous :
  quote_value DQ (s2b "a" ++ [DQ; COMMA; LF]) = [DQ] ++ s2b "a" ++ [DQ; DQ; COMMA; LF; DQ] /\
  unquote_field DQ ([DQ] ++ s2b "a" ++ [DQ; DQ; COMMA; LF; DQ]) = s2b "a" ++ [DQ; COMMA; LF].
Proof. vm_compute. split; reflexivity. Qed.

(** C14: on a buffer holding one line all six entry points return the same fields,
    the ones of [line_fields]; [old] is the previous content of a reused vector. *)
Theorem C14_splitters_agree :
  forall (lanes : nat) (clmul : bool) (sep q : byte) (data : bytes) (old : list (bytes * bool)),
    1 <= lanes -> Nat.divide lanes 64 -> q <> sep -> newline q = false -> newline sep = false ->
    data <> [] -> one_line q data ->
    split_fields_scalar data sep q = line_fields sep q data /\
    split_fields_scalar_into data sep q old = line_fields sep q data /\
    split_fields_simd lanes clmul data sep q = Some (line_fields sep q data) /\
    split_fields_simd_into lanes clmul data sep q old = Some (line_fields sep q data) /\
    split_fields lanes clmul data sep q = Some (line_fields sep q data) /\
    split_fields_into lanes clmul data sep q old = Some (line_fields sep q data).
Proof.
  intros lanes clmul sep q data old H1 H2 H3 H4 H5 H6 H7.
  exact (splitters_agree sep q H3 H4 H5 lanes clmul data old (conj H1 H2) H7 H6).
Qed.
Print Assumptions C14_splitters_agree.

Theorem C14_empty_line :
  forall (lanes : nat) (clmul : bool) (sep q : byte) (old : list (bytes * bool)),
    split_fields_scalar [] sep q = [] /\ split_fields_scalar_into [] sep q old = [] /\
    split_fields_simd lanes clmul [] sep q = Some [] /\ split_fields_simd_into lanes clmul [] sep q old = Some [] /\
    split_fields lanes clmul [] sep q = Some [] /\ split_fields_into lanes clmul [] sep q old = Some [].
Proof. intros. repeat split. Qed.
Print Assumptions C14_empty_line.

(** C14: when the buffer goes on after the line, the splitters differ. *)
Theorem C14_beyond_the_line_refuted :
  exists data : bytes,
    split_fields_simd 16 true data COMMA DQ <> Some (split_fields_scalar data COMMA DQ).
Proof. exists (s2b "a" ++ [LF] ++ repeat 98%N 70). vm_compute. discriminate. Qed.
Print Assumptions C14_beyond_the_line_refuted.

Example C14_nonvacuous :
  let data := s2b " a ,x" ++ repeat 98%N 70 ++ [COMMA] ++ quote_value DQ (s2b "q,r") ++ [CR; LF] in
  line_fields COMMA DQ data = [(s2b "a", false); (s2b "x" ++ repeat 98%N 70, false); (s2b "q,r", true)] /\
  split_fields_simd 16 true data COMMA DQ = Some (line_fields COMMA DQ data).
Proof. vm_compute. split; reflexivity. Qed.

Example C14_one_line_met :
  one_line DQ (s2b "a," ++ [DQ; LF; DQ; CR; LF]).
Proof.
  intros i j Hij Hj Hb Hi. cbn in Hj.
  do 7 (destruct i as [|i]; [try (vm_compute in Hb; destruct Hb; discriminate); try (vm_compute in Hi; discriminate);
    do 7 (destruct j as [|j]; [try lia; vm_compute; auto|]); lia|]).
  lia.
Qed.

(** C52 *)
Theorem C52_header_one_name_per_field :
  forall (sep q : byte) (data : bytes),
    newline q = false -> data <> [] ->
    length (join sep (fst (raw_row newline sep q false data))) < length data ->
    parse_header sep q data = map (header_name q) (fst (raw_row newline sep q false data)).
Proof.
  intros sep q data Hq Hd Hl. rewrite header_names by assumption.
  apply Nat.ltb_lt in Hl. rewrite Hl. reflexivity.
Qed.
Print Assumptions C52_header_one_name_per_field.

(** C52 when the header line is not newline-terminated: complete description. *)
Theorem C52_header_any_line :
  forall (sep q : byte) (data : bytes),
    newline q = false -> data <> [] ->
    let fs := fst (raw_row newline sep q false data) in
    parse_header sep q data =
    if (length (join sep fs) <? length data) || (length fs =? 1) ||
       negb (length (header_chars q (last fs []) false []) =? 0)
    then map (header_name q) fs
    else removelast (map (header_name q) fs).
Proof. intros sep q data H. exact (header_names sep q H data). Qed.
Print Assumptions C52_header_any_line.

(** The name of a field written the CSV way, and of a field without quotes. *)
Theorem C52_quoted_name :
  forall (q : byte) (v : bytes), header_name q (quote_value q v) = trim_right blank v.
Proof. exact header_name_quoted. Qed.
Print Assumptions C52_quoted_name.

Theorem C52_plain_name :
  forall (q : byte) (f : bytes), ~ In q f -> header_name q f = trim_right blank (trim_left blank f).
Proof. exact header_name_plain. Qed.
Print Assumptions C52_plain_name.

(** Columns of a file without header. *)
Theorem C52_column_count :
  forall (sep q : byte) (l : bytes), q <> sep ->
    count_columns sep q l false 1 = 1 + unquoted_separators sep q l.
Proof. exact columns_counted. Qed.
Print Assumptions C52_column_count.

Theorem C52_columns_are_fields :
  forall (sep q : byte) (l : bytes), q <> sep -> newline q = false -> newline sep = false ->
    forallb newline (snd (raw_row newline sep q false l)) = true ->
    count_columns sep q l false 1 = length (fst (raw_row newline sep q false l)).
Proof. exact columns_are_fields. Qed.
Print Assumptions C52_columns_are_fields.

(** C52 fails for a header without newline that ends in a separator. *)
Theorem C52_trailing_separator_refuted :
  exists data : bytes,
    length (fst (raw_row newline COMMA DQ false data)) = 3 /\ length (parse_header COMMA DQ data) = 2.
Proof. exists (s2b "a,b,"). vm_compute. split; reflexivity. Qed.
Print Assumptions C52_trailing_separator_refuted.

Example C52_nonvacuous :
  parse_header COMMA DQ (s2b " id ," ++ quote_value DQ (s2b "a" ++ [DQ] ++ s2b ",b") ++ s2b "," ++ [LF] ++ s2b "1,2,3")
  = [s2b "id"; s2b "a" ++ [DQ] ++ s2b ",b"; []].
Proof. vm_compute. reflexivity. Qed.
