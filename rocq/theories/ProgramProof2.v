(** A command reading what another one printed. *)
From Verif Require Import Base ChunkSpec FieldsSpec NumSpec ReaderSpec ReaderModel TypesSpec TypesModel RoundSpec RoundProof3 RoundProof4 ErrorsSpec StrictSpec StrictModel CliSpec CliModel CliProof CliProof3 CliProof5 CliProof6
  ShowSpec ShowModel ShowProof MainSpec MainModel MainProof ProgramSpec ProgramModel ProgramProof.

(** What is printed is written down, in the sense of RoundSpec. *)
Definition as_cell (d q : byte) (v : bytes) : RoundSpec.written := if needs_quote d q v then Quoted v else Plain v.

Lemma as_cell_bytes d q v : cell_bytes q (as_cell d q v) = output_field d q v.
Proof.
  unfold as_cell, output_field. destruct (needs_quote d q v); [|reflexivity]. cbn [cell_bytes]. unfold quote_value. do 2 f_equal.
  induction v as [|c v IH]; [reflexivity|]. cbn [double_quotes flat_map]. rewrite <- IH. destruct (N.eqb_spec c q) as [->|]; reflexivity.
Qed.

Lemma existsb_no c v : existsb (N.eqb c) v = false -> Forall (fun b => b <> c) v.
Proof.
  induction v as [|b v IH]; intros H; [constructor|]. cbn [existsb] in H. apply orb_false_iff in H. destruct H as (A & B).
  constructor; [intros ->; rewrite N.eqb_refl in A; discriminate|apply IH, B].
Qed.

Lemma as_cell_well d q v : well_written d q (as_cell d q v).
Proof.
  unfold as_cell. destruct (needs_quote d q v) eqn:E; [exact I|]. cbn. unfold needs_quote in E. apply orb_false_iff in E. destruct E as (E & E4).
  apply orb_false_iff in E. destruct E as (E & E3). apply orb_false_iff in E. destruct E as (E1 & E2).
  apply existsb_no in E1, E2, E3, E4. rewrite Forall_forall in *. intros b Hb. auto.
Qed.

Lemma fields_join d q row : row <> [] -> output_fields d q true row = join d (map (output_field d q) row).
Proof.
  assert (G : forall row, row <> [] -> output_fields d q false row = d :: join d (map (output_field d q) row)).
  { clear row. induction row as [|f row IH]; [congruence|]. intros _. cbn [output_fields map]. destruct row as [|g row].
    - cbn. rewrite app_nil_r. reflexivity.
    - rewrite IH by discriminate. reflexivity. }
  destruct row as [|f row]; [congruence|]. intros _. cbn [output_fields map app]. destruct row as [|g row]; [cbn; rewrite app_nil_r; reflexivity|].
  rewrite G by discriminate. reflexivity.
Qed.

Lemma output_is_written d q row : row <> [] -> output_row d q row = line_text d q (map (as_cell d q) row, [EndLF]).
Proof.
  intros H. unfold output_row, line_text, row_text. cbn [fst snd map concat end_bytes app]. rewrite fields_join by exact H. rewrite map_map.
  do 2 f_equal. apply map_ext. intros v. symmetry. apply as_cell_bytes.
Qed.

Lemma outputs_written d q rows : Forall (fun r => r <> []) rows ->
  concat (map (output_row d q) rows) = csv_text d q (map (fun r => (map (as_cell d q) r, [EndLF])) rows).
Proof.
  intros H. unfold csv_text. rewrite map_map. f_equal. apply map_ext_in. intros r Hr. rewrite Forall_forall in H. apply output_is_written, H, Hr.
Qed.

Lemma written_proper d q rows : Forall (fun r => r <> [] /\ r <> [[]]) rows -> proper d q (map (fun r => (map (as_cell d q) r, [EndLF])) rows).
Proof.
  induction 1 as [|r rows (A & B) _ IH]; [exact I|]. cbn [map proper]. split; [|split; [discriminate|exact IH]].
  split; [|split].
  - cbn. destruct r; [congruence|discriminate].
  - cbn. destruct r as [|v [|]]; [congruence| |discriminate]. cbn. unfold as_cell. destruct (needs_quote d q v); [discriminate|]. intros E.
    injection E as ->. congruence.
  - cbn. apply Forall_forall. intros c Hc. apply in_map_iff in Hc. destruct Hc as (v & <- & _). apply as_cell_well.
Qed.

Lemma simple_tame d q r : simple_row d r -> tame d (map (as_cell d q) r) /\ unbroken (map (as_cell d q) r).
Proof.
  intros (_ & H). split; apply Forall_forall; intros c Hc; apply in_map_iff in Hc; destruct Hc as (v & <- & Hv); rewrite Forall_forall in H; specialize (H v Hv);
    unfold as_cell; destruct (needs_quote d q v); tauto.
Qed.

Lemma printed_as_cell d q v : printed_as d q v = as_cell d q v.
Proof.
  unfold printed_as, as_cell. replace (needs_quote d q v) with (existsb (fun c => N.eqb c d || N.eqb c q || N.eqb c LF || N.eqb c CR) v); [reflexivity|].
  unfold needs_quote. induction v as [|c v IH]; [reflexivity|]. cbn [existsb]. rewrite IH, (N.eqb_sym d), (N.eqb_sym q), (N.eqb_sym LF), (N.eqb_sym CR).
  destruct (N.eqb c d), (N.eqb c q), (N.eqb c LF), (N.eqb c CR), (existsb (N.eqb d) v), (existsb (N.eqb q) v), (existsb (N.eqb LF) v), (existsb (N.eqb CR) v); reflexivity.
Qed.

Lemma simple_readable d q r : simple_row d r -> readable_row d q r /\ breakless r.
Proof.
  intros H. split.
  - split; [apply H|]. rewrite (map_ext _ _ (printed_as_cell d q)). apply tame_spread, simple_tame, H.
  - destruct H as (_ & H). eapply Forall_impl; [|exact H]. cbn. tauto.
Qed.

(** Reading what was printed. *)
Lemma printed_read {F} (ff : bytes -> option F) lanes clmul nt ne o names rows :
  1 <= lanes -> Nat.divide lanes 64 -> has_header o = true ->
  let sep := separator o in let q := quote o in
  q <> sep -> q <> LF -> q <> CR -> q <> 0%N -> sep <> LF -> sep <> CR -> ~ In q (null_values o) ->
  names <> [] -> Forall (fun r => r <> []) rows -> Forall (readable_row sep q) rows ->
  Forall breakless rows \/ (N.of_nat (length (concat (map (output_row sep q) (names :: rows)))) < 1048576)%N ->
  exists names' types' t', TypesModel.read_file ff lanes clmul nt ne o (concat (map (output_row sep q) (names :: rows))) = Some (names', types', t') /\
    total_rows t' = length rows.
Proof.
  intros L1 L2 HH sep q A B C D E G H NE R1 R2 U.
  assert (R3 : Forall (fun r => r <> [] /\ r <> [[]]) rows).
  { rewrite Forall_forall in *. intros r Hr. split; [apply R1, Hr|apply (R2 r Hr)]. }
  cbn [map concat] in U |- *. rewrite outputs_written in U by exact R1. rewrite (output_is_written sep q names NE), outputs_written by exact R1.
  destruct (file_reads ff lanes clmul nt ne o (map (as_cell sep q) names) EndLF (map (fun r => (map (as_cell sep q) r, [EndLF])) rows) L1 L2 HH A B C D E G H)
    as (ts & r & X1 & _ & _ & X2 & _).
  - destruct names; [congruence|discriminate].
  - apply Forall_forall. intros c Hc. apply in_map_iff in Hc. destruct Hc as (v & <- & _). apply as_cell_well.
  - apply written_proper, R3.
  - apply Forall_forall. intros l Hl. apply in_map_iff in Hl. destruct Hl as (r & <- & Hr). cbn [fst].
    rewrite <- (map_ext _ _ (printed_as_cell sep q)). rewrite Forall_forall in R2. apply (R2 r Hr).
  - destruct U as [U|U].
    + left. apply Forall_forall. intros l Hl. apply in_map_iff in Hl. destruct Hl as (r & <- & Hr). cbn [fst].
      rewrite Forall_forall in U. specialize (U r Hr). apply Forall_forall. intros c Hc. apply in_map_iff in Hc. destruct Hc as (v & <- & Hv).
      unfold breakless in U. rewrite Forall_forall in U. specialize (U v Hv). unfold as_cell. destruct (needs_quote sep q v); exact U.
    + right. rewrite app_length in U. fold sep q. clear - U. lia.
  - fold sep q in X1. eexists. eexists. eexists. split; [exact X1|]. rewrite map_length in X2. exact X2.
Qed.

Section Whole.
Context {F : Type}.
Variable ff : bytes -> option F.
Variable show_float : F -> bytes.
Variables (pad : bool) (lanes : nat) (clmul : bool) (hw : N) (ne : bool) (usage version : bytes).
Hypothesis L1 : 1 <= lanes.
Hypothesis L2 : Nat.divide lanes 64.
Notation prog := (program ff show_float pad lanes clmul hw ne usage version).

(** Counting a table that was written down. *)
Lemma counts_written w items ws header e ls :
  Forall2 CliSpec.written items ws -> length (filter is_columns items) <= 1 ->
  let o := options_of items in let sep := separator o in let q := quote o in
  has_header o = true -> q <> sep -> q <> LF -> q <> CR -> q <> 0%N -> sep <> LF -> sep <> CR -> ~ In q (null_values o) ->
  header <> [] -> Forall (well_written sep q) header -> proper sep q ls ->
  Forall (fun l => spread sep q (fst l)) ls ->
  Forall (fun l => unbroken (fst l)) ls \/ (N.of_nat (length (csv_text sep q ls)) < 1048576)%N ->
  comes_from w (path_of items) (line_text sep q (header, [e]) ++ csv_text sep q ls) ->
  ~ (checking items /\ header_is_empty (map column_name header)) ->
  exists d, says d (length ls) /\ prog w (s2b "count" :: concat ws) = Done (Exit 0 (d ++ [LF])).
Proof.
  intros HW HC o sep q HH A B C D E G H NE W P S0 U CF NK.
  assert (NN : line_text sep q (header, [e]) ++ csv_text sep q ls <> []).
  { unfold line_text. cbn [fst snd map concat]. destruct (row_text sep q header); destruct e; discriminate. }
  destruct (viewer_shows ff show_float pad lanes clmul hw ne usage version L1 L2 w Count (s2b "count") items ws _ (or_introl eq_refl) HW HC
    ltac:(discriminate) B C CF NN) as (names & types & t & R & _ & X).
  fold o in R, X.
  destruct (file_reads ff lanes clmul (threads_of hw items) ne o header e ls L1 L2 HH A B C D E G H NE W P S0 U) as (ts & r & R1 & _ & _ & R2 & _).
  fold sep q in R1. rewrite R in R1. injection R1 as -> -> ->.
  destruct X as (r' & X1 & X2); [intros (Y1 & _ & Y2); apply NK; auto|]. cbn in X2. destruct X2 as (d & X3 & ->). exists d. rewrite <- R2. auto.
Qed.

(** Counting what another command printed. *)
Lemma pipe_counts w items ws items' ws' c :
  Forall2 CliSpec.written items ws -> length (filter is_columns items) <= 1 -> Forall2 CliSpec.written items' ws' -> length (filter is_columns items') <= 1 ->
  let o := options_of items in let sep := separator o in let q := quote o in
  options_of items' = o -> path_of items' = [] -> ~ checking items' -> ~ checking items ->
  has_header o = true -> q <> sep -> q <> LF -> q <> CR -> q <> 0%N -> sep <> LF -> sep <> CR -> ~ In q (null_values o) ->
  comes_from w (path_of items) c -> c <> [] ->
  exists names types t out, TypesModel.read_file ff lanes clmul (threads_of hw items) ne o c = Some (names, types, t) /\
    prog w (s2b "head" :: concat ws) = Done (Exit 0 out) /\
    (let rows := firstn (rows_of items) (printable show_float pad types t (length names)) in
     Forall (readable_row sep q) rows -> Forall breakless rows \/ (N.of_nat (length out) < 1048576)%N ->
     forall w', standard_input w' = out ->
       exists d, says d (Nat.min (rows_of items) (total_rows t)) /\ prog w' (s2b "count" :: concat ws') = Done (Exit 0 (d ++ [LF]))).
Proof.
  intros HW HC HW' HC' o sep q EO EP NK' NK HH A B C D E G H CF Hc.
  destruct (viewer_shows ff show_float pad lanes clmul hw ne usage version L1 L2 w Head (s2b "head") items ws c (or_intror (or_introl eq_refl)) HW HC
    ltac:(discriminate) B C CF Hc) as (names & types & t & R & _ & X).
  fold o in R, X. destruct X as (r & X1 & X2); [intros (Y & _); contradiction|]. unfold shows in X2. cbv zeta iota beta in X2. fold o in X2. fold sep q in X2. rewrite HH in X2. cbn [app] in X2.
  exists names, types, t. eexists. split; [exact R|]. split; [rewrite X1, X2; reflexivity|].
  set (rows := firstn (rows_of items) (printable show_float pad types t (length names))) in *. cbv zeta. intros SR U w' EW.
  destruct (head_spec ff show_float pad lanes clmul (threads_of hw items) ne o L1 L2 B C (rows_of items) c Hc) as (n2 & t2 & r2 & R2 & LT & LN & _).
  rewrite R in R2. injection R2 as <- <- <-.
  assert (NE : names <> []) by (destruct names; [cbn in LN; lia|congruence]).
  assert (RN : Forall (fun r => r <> []) rows).
  { apply Forall_forall. intros x Hx. assert (In x (printable show_float pad types t (length names))).
    { rewrite <- (firstn_skipn (rows_of items)). apply in_or_app. left. exact Hx. }
    pose proof (text_table_width show_float pad types (concat_columns (length names) (chunks t)) (total_rows t)) as TW.
    rewrite Forall_forall in TW. specialize (TW x H0). intros ->. cbn in TW. lia. }
  assert (RL : length rows = Nat.min (rows_of items) (total_rows t)).
  { unfold rows. rewrite firstn_length. unfold printable. rewrite text_table_length. reflexivity. }
  destruct (printed_read ff lanes clmul (threads_of hw items') ne o names rows L1 L2 HH A B C D E G H NE RN SR U) as (n' & ty' & t' & P1 & P2).
  fold sep q in P1. 
  assert (CF' : comes_from w' (path_of items') (concat (map (output_row sep q) (names :: rows)))).
  { left. rewrite EP. split; [left; reflexivity|]. rewrite EW. reflexivity. }
  assert (NN : concat (map (output_row sep q) (names :: rows)) <> []).
  { cbn [map concat]. unfold output_row at 1. destruct (output_fields sep q true names); discriminate. }
  pose proof (viewer_shows ff show_float pad lanes clmul hw ne usage version L1 L2 w' Count (s2b "count") items' ws' (concat (map (output_row sep q) (names :: rows))) (or_introl eq_refl) HW' HC'
    ltac:(discriminate)) as V. cbv zeta in V. rewrite EO in V. fold q in V. specialize (V B C CF' NN).
  destruct V as (n3 & ty3 & t3 & V1 & _ & V2). rewrite P1 in V1. injection V1 as <- <- <-.
  destruct V2 as (r' & V2 & V3); [intros (Y & _); contradiction|]. cbn in V3. destruct V3 as (d & V3 & ->). exists d. rewrite <- RL, <- P2. auto.
Qed.

(** Nothing to read. *)
Lemma nothing_to_read w v word items ws :
  In (v, word) viewers -> Forall2 CliSpec.written items ws -> length (filter is_columns items) <= 1 ->
  (v = Select -> exists c, In (Columns c) items) -> comes_from w (path_of items) [] ->
  exists out, prog w (word :: concat ws) = Done (Exit 0 out) /\
    match v with Count => out = s2b "0" ++ [LF] | Info => out <> [] | _ => out = [] end.
Proof.
  intros Hv HW HC HS HF.
  destruct (main_with_items v word items ws Hv HW HC HS) as (s & M & E1 & E2 & E3 & E4 & E5 & E6 & E7).
  assert (HP : (hd 0%N (in_path s) <> 45)%N).
  { rewrite E2. unfold path_of. clear - HW. induction HW as [|i x items ws H _ IH]; [discriminate|]. cbn [first_given]. destruct H; try exact IH. assumption. }
  rewrite <- E2 in HF. pose proof (input_given w s [] HP HF) as HI.
  unfold program. rewrite M. unfold run_viewer, refuses. clear M.
  destruct HI as [(_ & HI)|(_ & HI)]; rewrite HI; cbn [content_of]; destruct v; unfold count, head, select, pretty, info, load; cbn [content_of]; try (eexists; split; [reflexivity|]; try reflexivity).
  all: try (unfold info_empty; discriminate).
  all: destruct (columns s) eqn:EC; [exfalso; apply (E7 eq_refl); exact EC || reflexivity|eexists; split; reflexivity].
Qed.

(** A file that cannot be read. *)
Lemma cannot_read w v word items ws message :
  In (v, word) viewers -> Forall2 CliSpec.written items ws -> length (filter is_columns items) <= 1 ->
  (v = Select -> exists c, In (Columns c) items) -> ~ standard (path_of items) -> file_at w (path_of items) = inl message ->
  ~ occurs (s2b "Empty file") (message ++ path_of items) ->
  prog w (word :: concat ws) = Done (Exit 1 []).
Proof.
  intros Hv HW HC HS NS HF NO.
  destruct (main_with_items v word items ws Hv HW HC HS) as (s & M & E1 & E2 & E3 & E4 & E5 & E6 & E7).
  assert (HP : (hd 0%N (in_path s) <> 45)%N).
  { rewrite E2. unfold path_of. clear - HW. induction HW as [|i x items ws H _ IH]; [discriminate|]. cbn [first_given]. destruct H; try exact IH. assumption. }
  rewrite <- E2 in HF, NO, NS.
  assert (IN : input_of w s = File (in_path s) (inl message)).
  { unfold input_of, is_stdin. rewrite HF.
    assert (N : is (in_path s) "-" = false). { apply not_true_iff_false. rewrite is_spec. intros E. rewrite E in HP. apply HP. reflexivity. }
    assert (X : is (in_path s) "/dev/stdin" = false) by (apply not_true_iff_false; rewrite is_spec; intros Z; apply NS; right; exact Z).
    rewrite N, X. destruct (in_path s); [exfalso; apply NS; left; reflexivity|reflexivity]. }
  assert (NC : contains (s2b "Empty file") (message ++ in_path s) = false)
    by (apply not_true_iff_false; intros C; apply contains_spec in C; contradiction).
  unfold program. rewrite M. unfold run_viewer, refuses. rewrite IN. cbn [content_of].
  destruct v; unfold count, head, select, pretty, info, load; rewrite NC; try reflexivity.
  destruct (columns s); reflexivity.
Qed.
End Whole.
