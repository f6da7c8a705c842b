(** Proofs about the options, and about whole commands. *)
From Verif Require Import Base NumSpec WordsModel WordsProof ChunkSpec ChunkModel ChunkProof ChunkProof2 ChunkProof3 ParquetProof FieldsSpec FieldsModel
  NumModel DateModel ReaderSpec ReaderModel ReaderProof TypesSpec TypesModel TypesProof3 ReaderProps CliSpec CliModel CliProof CliProof2 CliProof3 CliProof4.

Lemma numeral_stoul n v : numeral n v -> stoul v = Some n.
Proof.
  intros (A & B & C & D). rewrite stoul_digits by assumption. rewrite C. rewrite (proj2 (N.ltb_lt _ _)) by exact D. reflexivity.
Qed.

Lemma is_other p s : hd 0%N (s2b s) = 45%N -> hd 0%N p <> 45%N -> is p s = false.
Proof.
  intros A B. unfold is. destruct (bytes_eqb p (s2b s)) eqn:E; [|reflexivity]. apply bytes_eqb_spec in E. subst p. contradiction.
Qed.

Lemma delimiter_one c : delimiter_of [c] = Some c.
Proof.
  unfold delimiter_of, is.
  assert (K : forall s, length (s2b s) <> 1 -> bytes_eqb [c] (s2b s) = false).
  { intros s H. destruct (bytes_eqb [c] (s2b s)) eqn:E; [|reflexivity]. apply bytes_eqb_spec in E. rewrite <- E in H. exfalso. apply H. reflexivity. }
  rewrite !K by (cbn; lia). reflexivity.
Qed.

(** One item at a time. *)
Definition apply_item (i : item) (s : settings) : settings :=
  match i with
  | Rows n => set_rows n s | Threads n => set_threads n s | Delimiter c => set_delimiter c s | Quote c => set_quoting c s
  | NoHeader => set_header false s | Progress => set_progress s | Verbose => set_verbose s
  | Strict => set_mode FailFast s | Permissive => set_mode Collecting s | MaxErrors n => set_max n s
  | Columns v => set_columns v s
  | Input p => if length (in_path s) =? 0 then set_path p s else s
  end.
Definition is_columns (i : item) : bool := match i with Columns _ => true | _ => false end.

Lemma parse_item i w r s : written i w -> (is_columns i = true -> columns s = []) ->
  parse_args (w ++ r) s = parse_args r (apply_item i s).
Proof.
  intros W HC. destruct W; cbn [app apply_item].
  - destruct H as [<-|[<-|[]]]; cbn [parse_args]; change (parse_args (?a :: ?b :: r) s) with (parse_args (a :: b :: r) s);
      rewrite (numeral_stoul _ _ H0); reflexivity.
  - destruct H as [<-|[<-|[<-|[]]]]; cbn [parse_args]; rewrite (numeral_stoul _ _ H0); reflexivity.
  - destruct H as [<-|[<-|[]]]; cbn [parse_args]; rewrite delimiter_one; reflexivity.
  - destruct H as [<-|[<-|[]]]; cbn [In] in H0;
      repeat (destruct H0 as [H0|H0]; [injection H0 as <- <-; reflexivity|]); destruct H0.
  - assert (FC : hd 0%N v = first_char v) by (destruct v; reflexivity). rewrite FC. destruct H as [<-|[<-|[]]]; reflexivity.
  - destruct H as [<-|[<-|[]]]; reflexivity.
  - destruct H as [<-|[<-|[]]]; reflexivity.
  - destruct H as [<-|[<-|[]]]; reflexivity.
  - reflexivity.
  - reflexivity.
  - cbn [parse_args]. rewrite (numeral_stoul _ _ H). reflexivity.
  - specialize (HC eq_refl).
    destruct H as [<-|[<-|[]]]; cbn [parse_args]; rewrite HC; reflexivity.
  - cbn [parse_args]. rewrite !(is_other p) by (first [reflexivity|assumption]). cbn [orb andb].
    assert (F : N.eqb (first_char p) 45 = false) by (apply N.eqb_neq; destruct p; exact H0 || (intros X; discriminate X)).
    rewrite F. cbn [negb andb]. destruct (length (in_path s) =? 0); reflexivity.
Qed.

Lemma columns_kept i s : is_columns i = false -> columns (apply_item i s) = columns s.
Proof. destruct i; intros H; try reflexivity; [discriminate|]. cbn [apply_item]. destruct (length (in_path s) =? 0); reflexivity. Qed.

Lemma parse_items : forall items ws s, Forall2 written items ws ->
  length (filter is_columns items) <= (if length (columns s) =? 0 then 1 else 0) ->
  parse_args (concat ws) s = Parsed (fold_left (fun s i => apply_item i s) items s).
Proof.
  induction items as [|i items IH]; intros ws s H HC; inversion H as [|? w ? ws' W H']; subst; [reflexivity|].
  cbn [concat fold_left]. rewrite (parse_item i w (concat ws') s W).
  - apply IH; [exact H'|]. cbn [filter] in HC. destruct (is_columns i) eqn:EI.
    + cbn [length] in HC. destruct (length (columns s) =? 0); [|lia]. replace (length (filter is_columns items)) with 0 by lia. lia.
    + rewrite columns_kept by exact EI. exact HC.
  - intros EI. cbn [filter] in HC. rewrite EI in HC. cbn [length] in HC. destruct (columns s); [reflexivity|cbn [length Nat.eqb] in HC; lia].
Qed.

(** What the settings are at the end. *)
Definition f_rows i := match i with Rows n => Some n | _ => None end.
Definition f_threads i := match i with Threads n => Some n | _ => None end.
Definition f_delimiter i := match i with Delimiter n => Some n | _ => None end.
Definition f_quote i := match i with Quote n => Some n | _ => None end.
Definition f_max i := match i with MaxErrors n => Some n | _ => None end.
Definition f_columns i := match i with Columns n => Some n | _ => None end.
Definition f_input i := match i with Input n => Some n | _ => None end.
Definition f_noheader i := match i with NoHeader => true | _ => false end.
Definition f_progress i := match i with Progress => true | _ => false end.
Definition f_verbose i := match i with Verbose => true | _ => false end.
Definition f_mode i := match i with Strict => Some (Some FailFast) | Permissive => Some (Some Collecting) | _ => None end.
Definition f_has_max i := match i with MaxErrors _ => true | _ => false end.

Lemma settings_spec : forall items s, let s' := fold_left (fun s i => apply_item i s) items s in
  rows s' = last_given f_rows items (rows s) /\ threads s' = last_given f_threads items (threads s) /\
  delimiter s' = last_given f_delimiter items (delimiter s) /\ quoting s' = last_given f_quote items (quoting s) /\
  header s' = header s && negb (given f_noheader items) /\
  progress s' = progress s || given f_progress items /\ verbose s' = verbose s || given f_verbose items /\
  max_errors s' = last_given f_max items (max_errors s) /\ columns s' = last_given f_columns items (columns s).
Proof.
  induction items as [|i items IH]; intros s; cbv zeta.
  - cbn [fold_left last_given given existsb]. rewrite ?andb_true_r, ?orb_false_r. repeat split.
  - cbn [fold_left]. specialize (IH (apply_item i s)). cbv zeta in IH. set (s' := fold_left _ _ _) in *. clearbody s'.
    destruct IH as (A1 & A2 & A3 & A4 & A5 & A6 & A7 & A8 & A9).
    assert (P : forall p, rows (if length (in_path s) =? 0 then set_path p s else s) = rows s /\
      threads (if length (in_path s) =? 0 then set_path p s else s) = threads s /\
      delimiter (if length (in_path s) =? 0 then set_path p s else s) = delimiter s /\
      quoting (if length (in_path s) =? 0 then set_path p s else s) = quoting s /\
      header (if length (in_path s) =? 0 then set_path p s else s) = header s /\
      progress (if length (in_path s) =? 0 then set_path p s else s) = progress s /\
      verbose (if length (in_path s) =? 0 then set_path p s else s) = verbose s /\
      max_errors (if length (in_path s) =? 0 then set_path p s else s) = max_errors s /\
      columns (if length (in_path s) =? 0 then set_path p s else s) = columns s).
    { intros p. destruct (length (in_path s) =? 0); repeat split. }
    rewrite A1, A2, A3, A4, A5, A6, A7, A8, A9. clear A1 A2 A3 A4 A5 A6 A7 A8 A9.
    unfold last_given, given. cbn [fold_left existsb].
    destruct i; cbn [apply_item f_rows f_threads f_delimiter f_quote f_max f_columns f_noheader f_progress f_verbose orb negb];
      try (cbn [set_rows set_threads set_delimiter set_quoting set_header set_progress set_verbose set_mode set_max set_columns
           rows threads delimiter quoting header progress verbose max_errors columns];
           rewrite ?andb_false_r, ?orb_true_r; repeat split; reflexivity).
    destruct (P path) as (-> & -> & -> & -> & -> & -> & -> & -> & ->). repeat split.
Qed.

Lemma path_spec : forall items s, in_path (fold_left (fun s i => apply_item i s) items s) =
  if length (in_path s) =? 0 then match in_path s with [] => first_given (fun i => match i with Input [] => None | Input p => Some p | _ => None end) items [] | p => p end else in_path s.
Proof.
  induction items as [|i items IH]; intros s; cbn [fold_left first_given].
  - destruct (in_path s); reflexivity.
  - rewrite IH. destruct i; try reflexivity. cbn [apply_item]. destruct (in_path s) as [|c p] eqn:E.
    + cbn [length Nat.eqb set_path in_path]. destruct path; reflexivity.
    + cbn [length Nat.eqb]. rewrite E. reflexivity.
Qed.

Lemma first_ext {A} (f g : item -> option A) d : forall items, Forall (fun i => f i = g i) items -> first_given f items d = first_given g items d.
Proof. induction items as [|i r IH]; intros H; [reflexivity|]. inversion_clear H as [|? ? E H']. cbn [first_given]. rewrite E, IH by exact H'. reflexivity. Qed.

Lemma mode_spec : forall items s, error_mode (fold_left (fun s i => apply_item i s) items s) =
  match last_given f_mode items None with
  | Some m => m
  | None => match error_mode s with Disabled => if given f_has_max items then Collecting else Disabled | m => m end
  end.
Proof.
  assert (L : forall items d, last_given f_mode items d = match last_given f_mode items None with Some m => Some m | None => d end).
  { induction items as [|i items IH]; intros d; [destruct d; reflexivity|]. unfold last_given in *. cbn [fold_left].
    rewrite IH. symmetry. rewrite IH. destruct (fold_left _ items None); [reflexivity|]. destruct i; reflexivity. }
  induction items as [|i items IH]; intros s.
  - cbn. destruct (error_mode s); reflexivity.
  - cbn [fold_left]. rewrite IH. unfold last_given at 2. cbn [fold_left].
    match goal with |- _ = match fold_left ?g items ?d with _ => _ end => change (fold_left g items d) with (last_given f_mode items d) end.
    rewrite (L items (match f_mode i with Some x => x | None => None end)).
    destruct (last_given f_mode items None); [reflexivity|].
    unfold given. cbn [existsb]. 
    destruct i; cbn [apply_item f_mode f_has_max orb]; try reflexivity.
    + cbn [set_max error_mode]. destruct (error_mode s); reflexivity.
    + destruct (length (in_path s) =? 0); reflexivity.
Qed.

Lemma options_spec items ws : Forall2 written items ws -> length (filter is_columns items) <= 1 ->
  exists s, parse_args (concat ws) defaults = Parsed s /\
    rows s = last_given f_rows items 10%N /\ threads s = last_given f_threads items 0%N /\
    delimiter s = last_given f_delimiter items COMMA /\ quoting s = last_given f_quote items DQ /\
    header s = negb (given f_noheader items) /\ progress s = given f_progress items /\ verbose s = given f_verbose items /\
    max_errors s = last_given f_max items 10000%N /\ columns s = last_given f_columns items [] /\
    in_path s = first_given f_input items [] /\
    error_mode s = match last_given f_mode items None with
                   | Some m => m
                   | None => if given f_has_max items then Collecting else Disabled
                   end.
Proof.
  intros W HC. exists (fold_left (fun s i => apply_item i s) items defaults).
  split; [apply parse_items; [exact W|exact HC]|].
  destruct (settings_spec items defaults) as (A1 & A2 & A3 & A4 & A5 & A6 & A7 & A8 & A9). cbv zeta in *.
  rewrite path_spec, mode_spec. repeat (split; [assumption|]). split.
  - cbn [defaults in_path length Nat.eqb]. apply first_ext. clear HC A1 A2 A3 A4 A5 A6 A7 A8 A9.
    induction W as [|i w items ws Wi W IH]; constructor; [|exact IH]. destruct Wi; try reflexivity. destruct p; [contradiction|reflexivity].
  - reflexivity.
Qed.

(** ** Whole commands *)
Section Whole.
Context {F : Type}.
Variable ff : bytes -> option F.
Variable show_float : F -> bytes.
Variables (pad : bool) (lanes : nat) (clmul : bool) (num_threads : N) (ne_in : bool) (o : csv_options).
Hypothesis H1 : 1 <= lanes.
Hypothesis H2 : Nat.divide lanes 64.
Hypothesis HqL : quote o <> LF.
Hypothesis HqC : quote o <> CR.
Notation vt := (value_text show_float pad).

Lemma text_table_length types columns n : length (text_table vt STRING types columns n) = n.
Proof. unfold text_table. rewrite map_length, seq_length. reflexivity. Qed.

Lemma text_table_width types columns n : Forall (fun r => length r = length types) (text_table vt STRING types columns n).
Proof.
  apply Forall_forall. intros r Hr. unfold text_table in Hr. apply in_map_iff in Hr. destruct Hr as (i & <- & _).
  rewrite map_length, seq_length. reflexivity.
Qed.

Lemma Forall_firstn {A} (P : A -> Prop) n l : Forall P l -> Forall P (firstn n l).
Proof. intros H. rewrite <- (firstn_skipn n l) in H. apply Forall_app in H. apply H. Qed.

Lemma pretty_spec n c : c <> [] ->
  exists names types t, read_file ff lanes clmul num_threads ne_in o c = Some (names, types, t) /\
    length types = length names /\ 0 < length names /\
    let rows := (if has_header o then [names] else []) ++
                firstn n (text_table vt STRING types (concat_columns (length names) (chunks t)) (total_rows t)) in
    let lines := match rows with [] => [] | _ => box (has_header o) (box_widths 40 (length names) rows) rows end in
    pretty ff show_float pad lanes clmul num_threads ne_in o n (Stdin c) = Exit 0 (concat (map (fun l => l ++ [LF]) lines)) /\
    ((forall row v, In row rows -> In v row -> ~ In LF v) ->
     exists width, Forall (fun l => length l = width /\ ~ In LF l) lines).
Proof.
  intros Hc. destruct (read_shape ff lanes clmul num_threads ne_in o H1 H2 HqL HqC c Hc) as (names & types & t & E & LT & LN & NC & G & T).
  exists names, types, t. split; [exact E|]. split; [exact LT|]. split; [exact LN|]. cbv zeta.
  set (rows := (if has_header o then [names] else []) ++ firstn n _).
  assert (W : Forall (fun r => length r = length names) rows).
  { unfold rows. apply Forall_app. split; [destruct (has_header o); repeat constructor|]. apply Forall_firstn. apply Forall_forall. intros r Hr. rewrite <- LT.
    pose proof (text_table_width types (concat_columns (length names) (chunks t)) (total_rows t)) as Q. rewrite Forall_forall in Q. exact (Q r Hr). }
  split.
  - unfold pretty, load. destruct c as [|x c']; [congruence|]. rewrite E.
    rewrite <- LT in LN, G. rewrite first_rows_all by assumption. rewrite (rows_are_table show_float pad types (chunks t) G LN), LT, <- T.
    fold rows. destruct rows as [|r rs] eqn:ER; [reflexivity|]. rewrite <- ER in *.
    rewrite (boxed_spec _ (length names) rows) by (try assumption; rewrite ER; discriminate). reflexivity.
  - intros HV. exists (line_width (box_widths 40 (length names) rows)). apply Forall_forall. intros l Hl.
    destruct rows as [|r rs] eqn:ER; [destruct Hl|]. rewrite <- ER in *. apply box_in in Hl.
    destruct Hl as [->|(row & Hr & ->)]; [split; [apply rule_length|apply rule_no_lf]|split; [apply line_length; exact Hr|]].
    apply line_no_lf. intros v Hv. exact (HV row v Hr Hv).
Qed.

(** What the cells of a file are, by the specification of reading. *)
Definition conv_of (types : list data_type) : nat -> bytes -> option (@value F) := fun k => append_value ff lanes (nth k types STRING).
Definition file_body (c : bytes) : bytes := skipn (if has_header o then spec_find_row_end (quote o) c 0 else 0) c.

Lemma text_table_of types nulls sep q ncols body : length types = ncols ->
  text_table vt STRING types (table_columns (conv_of types) nulls sep q ncols body) (length (table_rows sep q body)) =
  map (fun row => map (fun k => vt (nth k types STRING) (row_cell (conv_of types) nulls q row k)) (seq 0 ncols)) (table_rows sep q body).
Proof.
  intros L. unfold text_table. rewrite L. set (R := table_rows sep q body).
  assert (E : R = map (fun i => nth i R []) (seq 0 (length R))).
  { clearbody R. clear. induction R as [|r R IH]; [reflexivity|]. cbn [length seq map nth]. f_equal. rewrite <- seq_shift, map_map. exact IH. }
  match goal with |- _ = map ?f R => assert (EE : map f R = map (fun i => f (nth i R [])) (seq 0 (length R))) by (rewrite E at 1; apply map_map); rewrite EE; clear EE E end.
  apply map_ext_in. intros i Hi. apply in_seq in Hi. apply map_ext_in. intros k Hk. apply in_seq in Hk. f_equal.
  unfold table_columns. fold R.
  rewrite nth_indep with (d' := (fun k => map (fun row => row_cell (conv_of types) nulls q row k) R) 0) by (rewrite map_length, seq_length; lia).
  rewrite (map_nth (fun k => map (fun row => row_cell (conv_of types) nulls q row k) R)). rewrite seq_nth by lia. cbn [Nat.add].
  rewrite nth_indep with (d' := row_cell (conv_of types) nulls q [] k) by (rewrite map_length; lia).
  rewrite (map_nth (fun row => row_cell (conv_of types) nulls q row k)). reflexivity.
Qed.

Lemma file_read_exact c : c <> [] -> quote o <> separator o -> quote o <> 0%N ->
  (forall i, line_end_at (file_body c) i = true -> inside_at false (quote o) (file_body c) i = false) ->
  no_lone_cr (file_body c) -> Forall (safe_row (separator o) LF (quote o)) (table_rows (separator o) (quote o) (file_body c)) ->
  exists names types t, read_file ff lanes clmul num_threads ne_in o c = Some (names, types, t) /\
    length types = length names /\ 0 < length names /\
    total_rows t = length (table_rows (separator o) (quote o) (file_body c)) /\
    concat_columns (length names) (chunks t) = table_columns (conv_of types) (null_values o) (separator o) (quote o) (length names) (file_body c).
Proof.
  intros Hc A1 A2 A3 A4 A5. unfold read_file.
  destruct (open_types ff lanes clmul o c H1 H2 HqL HqC Hc) as (names & E & N).
  match type of E with _ = Some (_, ?ts, _) => set (types := ts) in * end.
  assert (LT : length types = length names) by (unfold types; rewrite map_length, seq_length; reflexivity).
  clearbody types. rewrite E.
  assert (LN : 0 < length names) by (destruct names; [congruence|cbn; lia]).
  set (h := if has_header o then spec_find_row_end (quote o) c 0 else 0) in *.
  assert (Hh : h <= length c).
  { unfold h. destruct (has_header o); [|lia]. destruct c as [|x c']; [congruence|].
    pose proof (spec_find_row_end_bounds (quote o) (x :: c') 0 ltac:(cbn; lia)). lia. }
  destruct (C09_read_all_is_the_table_partial _ (conv_of types) lanes clmul (separator o) (quote o) (null_values o) num_threads ne_in
    (length names) c h H1 H2 HqL HqC A1 A2 LN Hh A3 A4 A5) as (t & Et & B1 & B2).
  unfold conv_of in Et. rewrite Et. exists names, types, t. repeat split; assumption.
Qed.

(** The text of a cell as the tool shows it. *)
Definition shown (types : list data_type) (ncols : nat) (row : list bytes) : list bytes :=
  map (fun k => vt (nth k types STRING) (row_cell (conv_of types) (null_values o) (quote o) row k)) (seq 0 ncols).

Lemma head_exact n c : c <> [] -> quote o <> separator o -> quote o <> 0%N ->
  (forall i, line_end_at (file_body c) i = true -> inside_at false (quote o) (file_body c) i = false) ->
  no_lone_cr (file_body c) -> Forall (safe_row (separator o) LF (quote o)) (table_rows (separator o) (quote o) (file_body c)) ->
  exists names types,
    option_map fst (option_map fst (open_file ff lanes clmul o c)) = Some names /\
    option_map snd (option_map fst (open_file ff lanes clmul o c)) = Some types /\
    length types = length names /\ 0 < length names /\
    let printed := (if has_header o then [names] else []) ++
                   firstn n (map (shown types (length names)) (table_rows (separator o) (quote o) (file_body c))) in
    head ff show_float pad lanes clmul num_threads ne_in o n (Stdin c) =
      Exit 0 (concat (map (output_row (separator o) (quote o)) printed)) /\
    (separator o <> LF -> separator o <> CR -> Forall (fun r => r <> [[]]) printed ->
     texts (separator o) (quote o) (concat (map (output_row (separator o) (quote o)) printed)) = printed).
Proof.
  intros Hc A1 A2 A3 A4 A5.
  destruct (file_read_exact c Hc A1 A2 A3 A4 A5) as (names & types & t & E & LT & LN & B1 & B2).
  exists names, types.
  assert (EO : exists h, open_file ff lanes clmul o c = Some (names, types, h)).
  { unfold read_file in E. destruct (open_file ff lanes clmul o c) as [p|]; [|discriminate].
    destruct p as ((ns, ts), h). destruct (read_all _ _ _ _ _ _ _ _ _ _ _) as [r|]; [|discriminate].
    pose proof (f_equal (fun x => match x with Some (a, b, _) => (a, b) | None => ([], []) end) E) as Q. cbv beta iota in Q.
    injection Q as -> ->. exists h. reflexivity. }
  destruct EO as (h & EO). rewrite EO. split; [reflexivity|]. split; [reflexivity|]. split; [exact LT|]. split; [exact LN|]. cbv zeta.
  set (printed := (if has_header o then [names] else []) ++ firstn n _). split.
  - destruct (head_spec ff show_float pad lanes clmul num_threads ne_in o H1 H2 HqL HqC n c Hc) as (names' & types' & t' & E' & _ & _ & EH).
    rewrite E in E'. pose proof (f_equal (fun x => match x with Some (a, b, r) => (a, b, Some r) | None => ([], [], None) end) E') as Q. cbv beta iota in Q.
    apply pair_equal_spec in Q. destruct Q as (Q1 & Q2). apply pair_equal_spec in Q1. destruct Q1 as (Q1 & Q3).
    apply some_inj in Q2. subst names' types' t'. rewrite EH. do 3 f_equal. unfold printed. f_equal. f_equal.
    rewrite B1, B2. apply text_table_of. exact LT.
  - intros S1 S2 NB. apply printed_reads_back; [congruence|assumption..|].
    intros r Hr. split; [|rewrite Forall_forall in NB; apply NB; exact Hr].
    intros ->. unfold printed in Hr. apply in_app_or in Hr. destruct Hr as [Hr|Hr].
    + destruct (has_header o); [|destruct Hr]. destruct Hr as [Hr|[]]. rewrite Hr in LN. cbn in LN. lia.
    + assert (I : In [] (map (shown types (length names)) (table_rows (separator o) (quote o) (file_body c)))).
      { rewrite <- (firstn_skipn n). apply in_or_app. left. exact Hr. }
      apply in_map_iff in I. destruct I as (x & Ex & _). apply (f_equal (@length _)) in Ex. unfold shown in Ex. rewrite map_length, seq_length in Ex. cbn in Ex. lia.
Qed.

Lemma count_exact c : c <> [] -> quote o <> separator o -> quote o <> 0%N ->
  (forall i, line_end_at (file_body c) i = true -> inside_at false (quote o) (file_body c) i = false) ->
  no_lone_cr (file_body c) -> Forall (safe_row (separator o) LF (quote o)) (table_rows (separator o) (quote o) (file_body c)) ->
  exists v, count ff lanes clmul num_threads ne_in o (Stdin c) = Exit 0 (v ++ [LF]) /\
    integer_text v = Some (Z.of_nat (length (table_rows (separator o) (quote o) (file_body c)))).
Proof.
  intros Hc A1 A2 A3 A4 A5.
  destruct (file_read_exact c Hc A1 A2 A3 A4 A5) as (names & types & t & E & LT & LN & B1 & B2).
  destruct (count_spec ff lanes clmul num_threads ne_in o H1 H2 HqL HqC c Hc) as (names' & types' & t' & E' & EH).
  rewrite E in E'. pose proof (f_equal (fun x => match x with Some (_, _, r) => total_rows r | None => 0 end) E') as Q. cbv beta iota in Q.
  rewrite <- Q, B1 in EH. eexists. split; [exact EH|].
  destruct (to_string_N_spec (N.of_nat (length (table_rows (separator o) (quote o) (file_body c))))) as (X & Y & Z & _).
  rewrite integer_digits by assumption. rewrite Y. f_equal. lia.
Qed.
End Whole.

Lemma convert_unknown (a : bytes) (rest : list bytes) (c : conversion) :
    hd 0%N a = 45%N ->
    ~ In a (map s2b ["-o"; "--output"; "-c"; "--compression"; "-r"; "--row-group"; "-j"; "--threads"; "-d"; "--delimiter"; "-q"; "--quote";
            "--no-header"; "--strict"; "--permissive"; "--max-errors"; "-p"; "--progress"; "-v"; "--verbose"; "-h"; "--help"]%string) ->
    convert_args (a :: rest) c = CRefused.
Proof.
  intros H N.
  assert (K : forall s, In (s2b s) (map s2b ["-o"; "--output"; "-c"; "--compression"; "-r"; "--row-group"; "-j"; "--threads"; "-d"; "--delimiter"; "-q"; "--quote";
            "--no-header"; "--strict"; "--permissive"; "--max-errors"; "-p"; "--progress"; "-v"; "--verbose"; "-h"; "--help"]%string) -> is a s = false).
  { intros s I. unfold is. destruct (bytes_eqb a (s2b s)) eqn:E; [|reflexivity]. apply bytes_eqb_spec in E. subst a. contradiction. }
  cbn [convert_args].
  repeat match goal with |- context [is a ?s] => 
    first [ rewrite (K s) by (cbn [map In]; tauto)
          | replace (is a s) with false by (symmetry; unfold is; destruct (bytes_eqb a (s2b s)) eqn:E; [apply bytes_eqb_spec in E; subst a; discriminate H|reflexivity]) ] end.
  cbn [orb]. assert (F : N.eqb (first_char a) 45 = true) by (destruct a; [discriminate H|]; apply N.eqb_eq; exact H). rewrite F. reflexivity.
Qed.
