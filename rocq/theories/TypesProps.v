(** Column types and null detection: C19, C20, C49, C58 (and C10 for LineParser). *)
From Coq Require Import Permutation.
From Verif Require Import Base ChunkSpec ChunkModel FieldsModel FieldsSpec NumSpec NumModel DateSpec DateModel NumProps
     ReaderSpec ReaderModel ReaderProof TypesSpec TypesModel TypesProof TypesProof2 TypesProof3.

(** ** C19 *)

(** The type inferred for column k is the narrowest type that holds the types of the
    sampled cells of that column (STRING when there are none). *)
Theorem C19_inferred_type_is_narrowest :
  forall (F : Type) (ff : bytes -> option F) (lanes : nat) (clmul : bool) (o : csv_options) (data : bytes)
         (n max_rows k : nat),
    1 <= lanes -> Nat.divide lanes 64 -> quote o <> LF -> quote o <> CR -> data <> [] -> k < n ->
    exists types t,
      infer_from_sample ff lanes clmul o data n max_rows = Some types /\ length types = n /\
      nth_error types k = Some t /\
      let cells := cells_of k (sample o (if has_header o then 1 else 0) max_rows data) in
      (cells = [] -> t = STRING) /\ (cells <> [] -> narrowest (map (infer_field ff o) cells) t).
Proof.
  intros F ff lanes clmul o data n max_rows k H1 H2 H3 H4 H5 H6. eexists. eexists.
  split; [apply infer_types; try assumption; lia|]. split; [rewrite map_length; apply seq_length|].
  split; [apply nth_error_seq_map; exact H6|]. exact (column_type_narrowest ff o _).
Qed.
Print Assumptions C19_inferred_type_is_narrowest.

(** There is only one narrowest type. *)
Theorem C19_narrowest_unique :
  forall (ts : list data_type) (t u : data_type),
    narrowest ts t -> narrowest ts u -> t <> UNKNOWN -> u <> UNKNOWN -> t = u.
Proof. exact narrowest_unique. Qed.
Print Assumptions C19_narrowest_unique.

(** Reordering the sampled rows does not change the inferred types. *)
Theorem C19_row_order_irrelevant :
  forall (F : Type) (ff : bytes -> option F) (lanes : nat) (clmul : bool) (o : csv_options) (data data' : bytes)
         (n max_rows : nat),
    1 <= lanes -> Nat.divide lanes 64 -> quote o <> LF -> quote o <> CR -> data <> [] -> data' <> [] -> n <> 0 ->
    Permutation (sample o (if has_header o then 1 else 0) max_rows data)
                (sample o (if has_header o then 1 else 0) max_rows data') ->
    infer_from_sample ff lanes clmul o data n max_rows = infer_from_sample ff lanes clmul o data' n max_rows.
Proof.
  intros F ff lanes clmul o data data' n max_rows H1 H2 H3 H4 H5 H6 H7 P.
  rewrite !infer_types by assumption. f_equal. apply map_ext. intro k. apply column_type_perm, cells_perm, P.
Qed.
Print Assumptions C19_row_order_irrelevant.

(** Widening two types: commutative and associative, and the narrowest common type. *)
Theorem C19_wider_type_joins :
  forall a b c : data_type, a <> UNKNOWN -> b <> UNKNOWN ->
    wider_type a b = wider_type b a /\
    wider_type (wider_type a b) c = wider_type a (wider_type b c) /\
    narrowest [a; b] (wider_type a b).
Proof.
  intros a b c Ha Hb. split; [apply wider_comm; assumption|]. split; [apply wider_assoc|].
  exact (narrowest_pair a b Ha Hb).
Qed.
Print Assumptions C19_wider_type_joins.

(** With UNKNOWN as an operand the order does matter. *)
Theorem C19_unknown_not_commutative_refuted :
  wider_type NA UNKNOWN <> wider_type UNKNOWN NA.
Proof. discriminate. Qed.
Print Assumptions C19_unknown_not_commutative_refuted.

(** can_promote agrees with the hierarchy among BOOL, INT32, INT64, FLOAT64 and STRING ... *)
Theorem C19_can_promote_partial :
  forall a b : data_type, In a [BOOL; INT32; INT64; FLOAT64; STRING] -> In b [BOOL; INT32; INT64; FLOAT64; STRING] ->
    (can_promote a b = true <-> below a b).
Proof.
  intros a b Ha Hb. rewrite below_iff. cbn in Ha, Hb.
  repeat (destruct Ha as [<-|Ha]; [repeat (destruct Hb as [<-|Hb]; [cbv; intuition congruence|]); destruct Hb|]). destruct Ha.
Qed.
Print Assumptions C19_can_promote_partial.

(** ... but claims that numbers can be promoted to dates, which widening denies. *)
Theorem C19_can_promote_refuted :
  can_promote FLOAT64 DATE = true /\ ~ below FLOAT64 DATE /\ wider_type FLOAT64 DATE = STRING /\
  can_promote STRING TIMESTAMP = true /\ ~ below STRING TIMESTAMP.
Proof. repeat split; try reflexivity; rewrite below_iff; discriminate. Qed.
Print Assumptions C19_can_promote_refuted.

Example C19_nonvacuous :
  let data := s2b "1,a" ++ [LF] ++ s2b "2.5,2024-01-02" ++ [LF] ++ s2b ",2024-01-03" ++ [LF] in
  let o := mkOptions COMMA DQ false (s2b "NA") (s2b "true") (s2b "false") 10 in
  sample o 0 10 data = [[s2b "1"; s2b "a"]; [s2b "2.5"; s2b "2024-01-02"]; [[]; s2b "2024-01-03"]] /\
  infer_from_sample (fun v => if bytes_eqb v (s2b "2.5") then Some tt else None) 16 true o data 2 10 = Some [FLOAT64; STRING].
Proof. vm_compute. split; reflexivity. Qed.

(** ** C20 *)

(** Integer detection is exact, for texts that are not a null or boolean spelling. *)
Theorem C20_integer_detection :
  forall (F : Type) (ff : bytes -> option F) (o : csv_options) (v : bytes) (z : Z),
    v <> [] -> in_list (null_values o) v = false -> in_list (true_values o) v = false -> in_list (false_values o) v = false ->
    integer_text v = Some z ->
    infer_field ff o v = if (length v <=? 10) && (Z.abs z <=? 2147483647)%Z then INT32 else INT64.
Proof.
  intros F ff o v z Hv E1 E2 E3 I. unfold infer_field. destruct v as [|c v]; [congruence|].
  rewrite E1, E2, E3, (integer_looks _ z I). apply integer_type_spec. exact I.
Qed.
Print Assumptions C20_integer_detection.

(** In an integer column every sampled cell that is neither null nor boolean and that
    fits 64 bits is read back as the integer it denotes; in a 32-bit column the fitting
    condition is automatic. *)
Theorem C20_integer_columns_partial :
  forall (F : Type) (ff : bytes -> option F) (lanes : nat) (o : csv_options) (cells : list bytes) (T : data_type) (v : bytes),
    lanes <= 64 -> is_bytes v -> narrowest (map (infer_field ff o) cells) T -> In v cells ->
    infer_field ff o v <> NA -> infer_field ff o v <> BOOL ->
    (T = INT32 \/ T = INT64 /\ (forall z, integer_text v = Some z -> length v <= 20 /\ in_signed 64 z)) ->
    exists z, integer_text v = Some z /\ append_value ff lanes T v = Some (VInt z).
Proof.
  intros F ff lanes o cells T v H1 H2 [HN _] Hin N1 N2 HT.
  assert (B : below (infer_field ff o v) T) by (apply HN, in_map, Hin).
  apply (integer_cell ff lanes o v _ T H1 H2 eq_refl N1 N2 B).
  - destruct HT as [->|[-> _]]; tauto.
  - destruct HT as [->|[-> Hf]]; [|exact Hf]. apply (int32_fits ff o).
    apply below_iff in B. pose proof (infer_not_unknown ff o v). destruct (infer_field ff o v); try discriminate B; try congruence.
Qed.
Print Assumptions C20_integer_columns_partial.

(** In a floating-point column every cell inferred as FLOAT64 is read back as the number
    the float parser gives; in a string column every cell is read back as its text. *)
Theorem C20_float_and_string_columns_partial :
  forall (F : Type) (ff : bytes -> option F) (lanes : nat) (o : csv_options) (v : bytes),
    (infer_field ff o v = FLOAT64 -> exists f, ff v = Some f /\ append_value ff lanes FLOAT64 v = Some (VFloat f)) /\
    append_value ff lanes STRING v = Some (VString v).
Proof.
  intros F ff lanes o v. split; [|reflexivity]. intro E. destruct (infer_float ff o v E) as (f & Hf).
  exists f. split; [exact Hf|]. cbn [append_value]. rewrite Hf. reflexivity.
Qed.
Print Assumptions C20_float_and_string_columns_partial.

(** Boolean columns: the stored value is the truth value of the word; with the default
    spellings every cell inferred as BOOL is stored, except Yes and No. *)
Theorem C20_bool_columns_partial :
  forall (F : Type) (ff : bytes -> option F) (lanes : nat) (v : bytes),
    (In v (map s2b ["true"; "TRUE"; "True"; "1"; "yes"; "YES"]%string) -> append_value ff lanes BOOL v = Some (VBool true)) /\
    (In v (map s2b ["false"; "FALSE"; "False"; "0"; "no"; "NO"]%string) -> append_value ff lanes BOOL v = Some (VBool false)) /\
    (infer_field ff default_options v = BOOL -> v <> s2b "Yes" -> v <> s2b "No" ->
     exists b, append_value ff lanes BOOL v = Some (VBool b)).
Proof.
  intros F ff lanes v. split; [|split].
  - intro H. cbn in H. repeat (destruct H as [<-|H]; [reflexivity|]). destruct H.
  - intro H. cbn in H. repeat (destruct H as [<-|H]; [reflexivity|]). destruct H.
  - intros H N1 N2. apply infer_bool in H as [_ [H|H]]; vm_compute in H;
      repeat (destruct H as [<-|H]; [first [exists true; reflexivity|exists false; reflexivity|exfalso; apply N1; reflexivity|exfalso; apply N2; reflexivity]|]); destruct H.
Qed.
Print Assumptions C20_bool_columns_partial.

(** Date and timestamp columns: a cell is stored exactly when it denotes a date (for
    timestamps: when it has a documented form), as the day number / instant. *)
Theorem C20_date_columns_partial :
  forall (F : Type) (ff : bytes -> option F) (lanes : nat) (v : bytes),
    ((exists n, append_value ff lanes DATE v = Some (VInt n)) <-> (exists y m d, denotes_date v y m d)) /\
    (forall y m d, denotes_date v y m d -> (1 <= y)%Z -> append_value ff lanes DATE v = Some (VInt (day_number y m d))) /\
    (forall y t, denotes_timestamp v y t -> (1 <= y)%Z -> append_value ff lanes TIMESTAMP v = Some (VInt t)).
Proof.
  intros F ff lanes v.
  assert (E : append_value ff lanes DATE v = option_map VInt (parse_date v)) by (destruct v; reflexivity).
  assert (E2 : append_value ff lanes TIMESTAMP v = option_map VInt (parse_timestamp v)) by (destruct v; reflexivity).
  rewrite E, E2. split; [|split].
  - rewrite <- C17_accepts_exactly_dates. split.
    + intros (n & H). destruct (parse_date v) as [k|]; [now exists k|discriminate].
    + intros (n & H). rewrite H. now exists n.
  - intros y m d H Hy. rewrite (C17_day_number_partial v y m d H Hy). reflexivity.
  - intros y t H Hy. rewrite (C18_documented_forms_partial v y t H Hy). reflexivity.
Qed.
Print Assumptions C20_date_columns_partial.

(** Mixed columns lose values: a boolean cell of a column that became integer is read as null. *)
Theorem C20_bool_in_integer_column_refuted :
  forall (F : Type) (ff : bytes -> option F),
    narrowest (map (infer_field ff default_options) [s2b "true"; s2b "12"]) INT32 /\
    infer_field ff default_options (s2b "true") = BOOL /\
    append_value ff 16 INT32 (s2b "true") = None.
Proof.
  intros F ff. split; [|split; reflexivity].
  apply (narrowest_pair BOOL INT32); discriminate.
Qed.
Print Assumptions C20_bool_in_integer_column_refuted.

(** Integers that do not fit 64 bits, the default boolean word Yes, and impossible dates
    are inferred as INT64, BOOL and DATE but cannot be stored there. *)
Theorem C20_unrepresentable_cells_refuted :
  forall (F : Type) (ff : bytes -> option F),
    (infer_field ff default_options (s2b "99999999999999999999") = INT64 /\
     append_value ff 16 INT64 (s2b "99999999999999999999") = None) /\
    (infer_field ff default_options (s2b "Yes") = BOOL /\ append_value ff 16 BOOL (s2b "Yes") = None) /\
    (ff (s2b "2024-13-45") = None ->
     infer_field ff default_options (s2b "2024-13-45") = DATE /\ append_value ff 16 DATE (s2b "2024-13-45") = None).
Proof.
  intros F ff. split; [split; reflexivity|]. split; [split; reflexivity|].
  intro H. split; [|reflexivity]. unfold infer_field.
  change (s2b "2024-13-45") with (50%N :: s2b "024-13-45") at 1. cbv iota.
  replace (in_list (null_values default_options) (s2b "2024-13-45")) with false by reflexivity.
  replace (in_list (true_values default_options) (s2b "2024-13-45")) with false by reflexivity.
  replace (in_list (false_values default_options) (s2b "2024-13-45")) with false by reflexivity.
  replace (looks_integer (s2b "2024-13-45")) with false by reflexivity. rewrite H. reflexivity.
Qed.
Print Assumptions C20_unrepresentable_cells_refuted.

(** A column of dates and timestamps becomes TIMESTAMP and loses its dates. *)
Theorem C20_dates_among_timestamps_refuted :
  forall (F : Type) (ff : bytes -> option F),
    narrowest [DATE; TIMESTAMP] (wider_type DATE TIMESTAMP) /\ wider_type DATE TIMESTAMP = TIMESTAMP /\
    append_value ff 16 TIMESTAMP (s2b "2024-01-02") = None /\ append_value ff 16 DATE (s2b "2024-01-02") = Some (VInt 19724).
Proof.
  intros F ff. split.
  - apply narrowest_pair; discriminate.
  - repeat split; reflexivity.
Qed.
Print Assumptions C20_dates_among_timestamps_refuted.

(** Whole files: surrounding blanks are trimmed by the sampler but not by the reader, so a
    column of blank-padded integers is typed INT32 and read as nulls; a quoted multi-line
    cell is typed by its first line. *)
Theorem C20_trimmed_sample_refuted :
  forall (F : Type) (ff : bytes -> option F),
    read_file ff 16 true 4 false (mkOptions COMMA DQ false (s2b "NA") (s2b "true") (s2b "false") 10)
              (s2b "1, 2" ++ [LF] ++ s2b "3, 4" ++ [LF])
    = Some ([s2b "V1"; s2b "V2"], [INT32; INT32],
            mkRead [[[Some (VInt 1); Some (VInt 3)]; [None; None]]] 2 2) /\
    read_file ff 16 true 4 false (mkOptions COMMA DQ false (s2b "NA") (s2b "true") (s2b "false") 10)
              ([DQ] ++ s2b "1" ++ [LF] ++ s2b "x" ++ [DQ; LF])
    = Some ([s2b "V1"], [INT32], mkRead [[[None]]] 1 1).
Proof. intros F ff. split; vm_compute; reflexivity. Qed.
Print Assumptions C20_trimmed_sample_refuted.

Example C20_nonvacuous :
  infer_field (fun _ => @None unit) default_options (s2b "-214748364") = INT32 /\
  infer_field (fun _ => @None unit) default_options (s2b "+2147483648") = INT64 /\
  append_value (fun _ => @None unit) 16 INT64 (s2b "+2147483648") = Some (VInt 2147483648).
Proof. vm_compute. repeat split; reflexivity. Qed.

(** ** C49 *)

(** For texts that are not empty, the reader, the line parser and type inference agree:
    null exactly for the configured spellings. *)
Theorem C49_layers_agree_partial :
  forall (F : Type) (ff : bytes -> option F) (o : csv_options) (v : bytes), v <> [] ->
    is_null (make_null_checker (null_values o)) v = denotes_null (null_values o) v /\
    is_null_value (init_null_values (null_values o)) v = denotes_null (null_values o) v /\
    (infer_field ff o v = NA <-> denotes_null (null_values o) v = true).
Proof.
  intros F ff o v Hv. split; [apply is_null_spec|]. split; [|apply infer_na].
  rewrite is_null_value_spec. destruct v; [congruence|reflexivity].
Qed.
Print Assumptions C49_layers_agree_partial.

(** For the empty text the reader and inference always say null; the line parser says null
    exactly when the list has an empty piece (always so for an empty list). *)
Theorem C49_empty_text :
  forall (F : Type) (ff : bytes -> option F) (o : csv_options),
    is_null (make_null_checker (null_values o)) [] = true /\
    infer_field ff o [] = NA /\
    (is_null_value (init_null_values (null_values o)) [] = true <-> In [] (comma_pieces (null_values o))).
Proof.
  intros F ff o. split; [rewrite is_null_spec; reflexivity|]. split; [reflexivity|].
  rewrite is_null_value_spec. unfold piece_of. rewrite existsb_exists. split.
  - intros (p & Hp & E). destruct p; [exact Hp|discriminate E].
  - intro H. exists []. split; [exact H|reflexivity].
Qed.
Print Assumptions C49_empty_text.

(** So the layers disagree about empty fields with null_values = NA. *)
Theorem C49_layers_disagree_refuted :
  is_null (make_null_checker (s2b "NA")) [] = true /\ is_null_value (init_null_values (s2b "NA")) [] = false.
Proof. split; reflexivity. Qed.
Print Assumptions C49_layers_disagree_refuted.

Example C49_nonvacuous :
  is_null (make_null_checker (s2b "NA,null,NULL,")) (s2b "null") = true /\
  is_null_value (init_null_values (s2b "NA,null,NULL,")) (s2b "null") = true /\
  is_null_value (init_null_values (s2b "NA,null,NULL,")) [] = true /\
  is_null_value (init_null_values (s2b "NA,null,NULL,")) (s2b "nul") = false.
Proof. vm_compute. repeat split; reflexivity. Qed.

(** ** C58 *)

(** Without a header every sampled data row takes part in inference. *)
Theorem C58_no_header_partial :
  forall (F : Type) (ff : bytes -> option F) (lanes : nat) (clmul : bool) (o : csv_options) (data : bytes),
    1 <= lanes -> Nat.divide lanes 64 -> quote o <> LF -> quote o <> CR -> data <> [] -> has_header o = false ->
    exists names types,
      open_file ff lanes clmul o data = Some (names, types, 0) /\ length types = length names /\
      forall k t, nth_error types k = Some t ->
        let cells := cells_of k (sample o 0 (sample_rows o) data) in
        (cells = [] -> t = STRING) /\ (cells <> [] -> narrowest (map (infer_field ff o) cells) t).
Proof.
  intros F ff lanes clmul o data H1 H2 H3 H4 H5 Hh.
  destruct (open_types ff lanes clmul o data H1 H2 H3 H4 H5) as (names & E & _).
  unfold header_lines in E. rewrite Hh in E.
  assert (L : length (lines (quote o) data) <=? 0 = false).
  { destruct data as [|c l]; [congruence|]. rewrite lines_step by assumption. reflexivity. }
  rewrite L in E. eexists. eexists. split; [exact E|]. split; [now rewrite map_length, seq_length|].
  intros k t Hk. assert (Hlt : k < length names).
  { apply nth_error_Some_lt in Hk. rewrite map_length, seq_length in Hk. exact Hk. }
  rewrite nth_error_seq_map in Hk by exact Hlt. injection Hk as <-. apply column_type_narrowest.
Qed.
Print Assumptions C58_no_header_partial.

(** With a header the first data row never does: the types are those of the rows from the
    second data row on, whatever the first one contains. *)
Theorem C58_first_row_never_sampled_refuted :
  forall (F : Type) (ff : bytes -> option F) (lanes : nat) (clmul : bool) (o : csv_options) (data : bytes),
    1 <= lanes -> Nat.divide lanes 64 -> quote o <> LF -> quote o <> CR -> has_header o = true ->
    2 <= length (lines (quote o) data) ->
    exists names types header_end,
      open_file ff lanes clmul o data = Some (names, types, header_end) /\
      forall k t, nth_error types k = Some t ->
        let cells := cells_of k (sample o 2 (sample_rows o) data) in
        (cells = [] -> t = STRING) /\ (cells <> [] -> narrowest (map (infer_field ff o) cells) t).
Proof.
  intros F ff lanes clmul o data H1 H2 H3 H4 Hh HL.
  assert (Hd : data <> []) by (intros ->; cbn in HL; lia).
  destruct (open_types ff lanes clmul o data H1 H2 H3 H4 Hd) as (names & E & _).
  unfold header_lines in E. rewrite Hh in E. rewrite (proj2 (Nat.leb_gt _ _)) in E by lia. cbn [Nat.mul Nat.add] in E.
  eexists. eexists. eexists. split; [exact E|].
  intros k t Hk. assert (Hlt : k < length names).
  { apply nth_error_Some_lt in Hk. rewrite map_length, seq_length in Hk. exact Hk. }
  rewrite nth_error_seq_map in Hk by exact Hlt. injection Hk as <-. apply column_type_narrowest.
Qed.
Print Assumptions C58_first_row_never_sampled_refuted.

(** The consequence for a user: the text in the first data row is silently read as null. *)
Theorem C58_first_row_lost_refuted :
  forall (F : Type) (ff : bytes -> option F),
    read_file ff 16 true 4 false default_options (s2b "a" ++ [LF] ++ s2b "abc" ++ [LF] ++ s2b "1" ++ [LF])
    = Some ([s2b "a"], [INT32], mkRead [[[None; Some (VInt 1)]]] 2 2).
Proof. intros F ff. vm_compute. reflexivity. Qed.
Print Assumptions C58_first_row_lost_refuted.

Example C58_nonvacuous :
  let data := s2b "a" ++ [LF] ++ s2b "abc" ++ [LF] ++ s2b "1" ++ [LF] in
  lines DQ data = [s2b "a" ++ [LF]; s2b "abc" ++ [LF]; s2b "1" ++ [LF]] /\
  sample default_options 2 1000 data = [[s2b "1"]].
Proof. vm_compute. split; reflexivity. Qed.

(** ** C10 for LineParser::parse_line: every column gets exactly one entry, the k-th text
    of the line (as parse_header reads it) converted, or null. *)
Theorem C10_parse_line_rectangular :
  forall (V : Type) (conv : nat -> bytes -> option V) (sep q : byte) (ln : line_nulls) (l : bytes)
         (cols : list (list (option V))),
    l <> [] -> cols <> [] ->
    let r := parse_line conv sep q ln l cols in
    snd r = length cols /\ length (fst r) = length cols /\
    forall k col, nth_error cols k = Some col -> exists entry, nth_error (fst r) k = Some (col ++ [entry]) /\
      (parse_header sep q l <> [[]] ->
       entry = match nth_error (parse_header sep q l) k with
               | Some t => if is_null_value ln t then None else conv k t
               | None => None
               end).
Proof.
  intros V conv sep q ln l cols Hl Hc. cbv zeta. rewrite (parse_line_spec conv sep q ln l cols Hl Hc).
  cbn [fst snd]. split; [reflexivity|]. split; [apply puta_length|].
  intros k col Hk. eexists. split; [rewrite puta_nth, Hk; reflexivity|].
  intro Hh. rewrite <- (line_texts_header sep q l Hl Hh). reflexivity.
Qed.
Print Assumptions C10_parse_line_rectangular.

Example C10_parse_line_nonvacuous :
  parse_line (fun _ t => Some t) COMMA DQ (init_null_values (s2b "NA,"))
             (s2b " a ,NA," ++ [DQ] ++ s2b "x,y" ++ [DQ; LF]) [[]; []; []; []]
  = ([[Some (s2b "a")]; [None]; [Some (s2b "x,y")]; [None]], 4).
Proof. vm_compute. reflexivity. Qed.
