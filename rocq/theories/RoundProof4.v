(** The header line, and the whole file. *)
From Verif Require Import Base ChunkSpec FieldsSpec ReaderSpec TypesSpec RoundSpec ChunkModel ChunkProof ChunkProof2 ChunkProof3 FieldsModel FieldsProof FieldsProof2 FieldsProof3 FieldsProof4 FieldsProof6
  ReaderModel ReaderProof ReaderProof2 ReaderProof3 ReaderProof4 ReaderProof5 TypesModel TypesProof TypesProof3 LifeProof RoundProof RoundProof2 RoundProof3 ReaderProps ChunkProps.

Lemma filter_seq_first (P : nat -> bool) k n a : a <= k -> k < a + n -> (forall i, a <= i -> i < k -> P i = false) -> P k = true ->
  exists r, filter P (seq a n) = k :: r.
Proof.
  revert a. induction n as [|n IH]; intros a H1 H2 H3 H4; [lia|]. cbn [seq filter].
  destruct (Nat.eq_dec a k) as [->|NE].
  - rewrite H4. eauto.
  - rewrite (H3 a) by lia. apply IH; [lia|lia|intros i A B; apply H3; lia|exact H4].
Qed.

Section Header.
Variables sep q : byte.
Hypothesis Hqs : q <> sep.
Hypothesis HqL : q <> LF.
Hypothesis HqC : q <> CR.
Hypothesis HsL : sep <> LF.
Hypothesis HsC : sep <> CR.

(** Line breaks of a written row are quoted. *)
Definition enclosed (l : bytes) : Prop :=
  (forall i c, nth_error l i = Some c -> newline c = true -> inside_at false q l i = true) /\ endst false q l = false.
Lemma encl_app a b : enclosed a -> enclosed b -> enclosed (a ++ b).
Proof.
  intros (A & EA) (B & EB). split.
  - intros i c E N. destruct (Nat.lt_ge_cases i (length a)) as [L|L].
    + rewrite nth_error_app1 in E by exact L. rewrite inside_at_prefix by (clear - L; lia). eapply A; eassumption.
    + rewrite nth_error_app2 in E by exact L. replace i with (length a + (i - length a)) by (clear - L; lia).
      rewrite inside_at_app, EA. eapply B; eassumption.
  - rewrite endst_app, EA. exact EB.
Qed.
Lemma encl_none l : Forall (fun c => newline c = false) l -> endst false q l = false -> enclosed l.
Proof.
  intros H E. split; [|exact E]. intros i c X N. apply nth_error_In in X. rewrite Forall_forall in H. rewrite (H c X) in N. discriminate.
Qed.
Lemma inside_double v i : forall c, nth_error (double_quotes q v) i = Some c -> c <> q -> inside_at true q (double_quotes q v) i = true.
Proof.
  revert i. induction v as [|d v IH]; intros i c E N; [destruct i; discriminate|]. cbn [double_quotes] in *.
  destruct (N.eqb_spec d q) as [->|ND].
  - destruct i as [|[|i]]; cbn [nth_error] in E; try congruence.
    rewrite !inside_at_S, N.eqb_refl. cbn [xorb]. exact (IH i c E N).
  - destruct i as [|i]; [apply inside_at_0|]. cbn [nth_error] in E. rewrite inside_at_S.
    destruct (N.eqb_spec d q); [contradiction|]. cbn [xorb]. exact (IH i c E N).
Qed.
Lemma newline_not_q c : newline c = true -> c <> q.
Proof. intros H ->. unfold newline in H. apply orb_true_iff in H. destruct H as [H|H]; apply N.eqb_eq in H; congruence. Qed.
Lemma encl_quote v : enclosed (quote_value q v).
Proof.
  split; [|apply endst_quote]. intros i c E N. pose proof (newline_not_q c N) as NQ. unfold quote_value in *.
  destruct i as [|i]; cbn [nth_error] in E; [congruence|]. rewrite inside_at_S, N.eqb_refl. cbn [xorb].
  destruct (Nat.lt_ge_cases i (length (double_quotes q v))) as [L|L].
  - rewrite nth_error_app1 in E by exact L. rewrite inside_at_prefix by (clear - L; lia). eapply inside_double; eassumption.
  - rewrite nth_error_app2 in E by exact L. destruct (i - length (double_quotes q v)) as [|m]; cbn [nth_error] in E; [congruence|destruct m; discriminate].
Qed.
Lemma not_newline_ c : c <> LF -> c <> CR -> newline c = false.
Proof. intros A B. unfold newline. apply orb_false_iff. split; apply N.eqb_neq; assumption. Qed.
Lemma encl_cell c : well_written sep q c -> enclosed (cell_bytes q c).
Proof.
  destruct c as [v|v]; cbn [cell_bytes well_written]; [intros _; apply encl_quote|]. intros W. rewrite Forall_forall in W.
  apply encl_none.
  - apply Forall_forall. intros c Hc. destruct (W c Hc) as (_ & _ & A & B). apply not_newline_; assumption.
  - apply endst_none. intros H. destruct (W q H) as (A & _). congruence.
Qed.
Lemma encl_row cells : Forall (well_written sep q) cells -> enclosed (row_text sep q cells).
Proof.
  unfold row_text. intros W. induction W as [|c cells A W IH].
  - apply encl_none; [constructor|reflexivity].
  - destruct cells as [|d cells]; [apply encl_cell; exact A|].
    change (join sep (map (cell_bytes q) (c :: d :: cells))) with (cell_bytes q c ++ [sep] ++ join sep (map (cell_bytes q) (d :: cells))).
    apply encl_app; [apply encl_cell; exact A|]. apply encl_app; [|exact IH].
    apply encl_none; [constructor; [apply not_newline_; assumption|constructor]|].
    cbn [endst]. destruct (N.eqb_spec sep q); [congruence|reflexivity].
Qed.

Lemma header_row_end cells e rest : Forall (well_written sep q) cells ->
  spec_find_row_end q (line_text sep q (cells, [e]) ++ rest) 0 = length (line_text sep q (cells, [e])).
Proof.
  intros W. destruct (encl_row cells W) as (E1 & E2). unfold spec_find_row_end. cbn [skipn].
  unfold line_text. cbn [fst snd map concat]. rewrite app_nil_r, <- app_assoc. set (a := row_text sep q cells) in *.
  assert (X : exists r, row_ends false q (a ++ end_bytes e ++ rest) = (length a + (length (end_bytes e) - 1)) :: r).
  { unfold row_ends. apply filter_seq_first.
    - clear. lia.
    - rewrite !app_length. destruct e; cbn [end_bytes length]; clear; lia.
    - intros i _ Hi. destruct (Nat.lt_ge_cases i (length a)) as [L|L].
      + destruct (line_end_at (a ++ end_bytes e ++ rest) i) eqn:LE; [|reflexivity].
        rewrite inside_at_prefix by (clear - L; lia).
        unfold line_end_at, byte_is in LE. rewrite nth_error_app1 in LE by exact L.
        destruct (nth_error a i) as [c|] eqn:EC; [|discriminate].
        rewrite (E1 i c EC); [reflexivity|]. unfold newline. destruct (N.eqb c LF); [reflexivity|]. cbn [orb] in *.
        apply andb_true_iff in LE. apply LE.
      + destruct e; cbn [end_bytes length] in Hi; [exfalso; clear - Hi L; lia|].
        assert (i = length a) by (clear - Hi L; lia). subst i. unfold line_end_at, byte_is.
        assert (Y : forall j, nth_error (a ++ [CR; LF] ++ rest) (length a + j) = nth_error ([CR; LF] ++ rest) j).
        { intros j. rewrite nth_error_app2 by (clear; lia). f_equal. clear. lia. }
        change (end_bytes EndCRLF) with [CR; LF].
        pose proof (Y 0) as Y0. pose proof (Y 1) as Y1. rewrite Nat.add_0_r in Y0. rewrite Nat.add_1_r in Y1. rewrite Y0, Y1. reflexivity.
    - apply andb_true_iff. split.
      + unfold line_end_at, byte_is. rewrite nth_error_app2 by (clear; lia).
        replace (length a + (length (end_bytes e) - 1) - length a) with (length (end_bytes e) - 1) by (clear; lia).
        destruct e; reflexivity.
      + rewrite inside_at_app, E2. destruct e; cbn [end_bytes length Nat.sub app].
        * rewrite inside_at_0. reflexivity.
        * rewrite inside_at_S, inside_at_0. destruct (N.eqb_spec CR q); [congruence|reflexivity]. }
  destruct X as (r & ->). rewrite app_length. destruct e; cbn [end_bytes length]; clear; lia.
Qed.

Lemma name_of_cell c : well_written sep q c -> header_name q (cell_bytes q c) = column_name c.
Proof.
  destruct c as [v|v]; cbn [cell_bytes well_written column_name].
  - intros _. apply header_name_quoted.
  - intros W. apply header_name_plain. intros H. rewrite Forall_forall in W. destruct (W q H) as (A & _). congruence.
Qed.

Lemma header_parsed cells e : cells <> [] -> Forall (well_written sep q) cells ->
  parse_header sep q (line_text sep q (cells, [e])) = map column_name cells.
Proof.
  intros NE W.
  assert (RR : raw_row newline sep q false (line_text sep q (cells, [e])) = (map (cell_bytes q) cells, tl (end_bytes e))).
  { unfold line_text. cbn [fst snd map concat]. rewrite app_nil_r.
    rewrite (rr_cells sep q Hqs newline (fun c H => H) [] (end_bytes e) (tl (end_bytes e))); try assumption.
    - rewrite app_nil_r. f_equal. change [cell_bytes q (last cells (Plain []))] with (map (cell_bytes q) [last cells (Plain [])]).
      rewrite <- map_app, <- app_removelast_last by exact NE. reflexivity.
    - destruct e; cbn [end_bytes raw_row tl].
      + destruct (N.eqb_spec LF q); [congruence|reflexivity].
      + destruct (N.eqb_spec CR q); [congruence|reflexivity].
    - apply not_newline_; assumption. }
  assert (LJ : length (line_text sep q (cells, [e])) = length (row_text sep q cells) + length (end_bytes e)).
  { unfold line_text. cbn [fst snd map concat]. rewrite app_nil_r, app_length. reflexivity. }
  rewrite (header_names sep q); [|apply not_newline_; assumption|].
  2:{ intros H. apply (f_equal (@length N)) in H. rewrite LJ in H. destruct e; cbn [end_bytes length] in H; clear - H; lia. }
  rewrite RR. cbn [fst]. fold (row_text sep q cells).
  replace (length (row_text sep q cells) <? length (line_text sep q (cells, [e]))) with true.
  2:{ symmetry. apply Nat.ltb_lt. rewrite LJ. destruct e; cbn [end_bytes length]; clear; lia. }
  cbn [orb]. rewrite map_map. apply map_ext_in. intros c Hc. apply name_of_cell. rewrite Forall_forall in W. apply W. exact Hc.
Qed.
End Header.

Lemma small_is_serial {V} (conv : nat -> bytes -> option V) lanes clmul sep q nc nt ne ncols data he :
  0 < ncols -> (N.of_nat (length data - he) < 1048576)%N ->
  read_all conv lanes clmul sep q nc nt ne ncols data he = read_all_serial conv lanes clmul sep q nc ne ncols data he.
Proof.
  intros H1 H2. unfold read_all, read_all_with. destruct (Nat.eqb_spec ncols 0); [exfalso; lia|].
  replace (length data - he <? N.to_nat PARALLEL_THRESHOLD) with true; [reflexivity|].
  symmetry. apply Nat.ltb_lt. unfold PARALLEL_THRESHOLD.
  apply (fun H => proj1 (N.compare_lt_iff _ _) H) in H2 || idtac.
  assert (X : (N.of_nat (length data - he) < N.of_nat (N.to_nat (1024 * 1024)))%N) by (rewrite N2Nat.id; exact H2).
  clear - X. remember (N.to_nat (1024 * 1024)) as k. clear Heqk. lia.
Qed.

(** The body of a file written after [pre]. *)
Lemma body_reads {V} (conv : nat -> bytes -> option V) lanes clmul sep q nulls nt ne ncols pre ls :
  1 <= lanes -> Nat.divide lanes 64 ->
  q <> sep -> q <> LF -> q <> CR -> q <> 0%N -> sep <> LF -> sep <> CR -> ~ In q nulls -> 0 < ncols -> proper sep q ls ->
  Forall (fun l => spread sep q (fst l)) ls ->
  Forall (fun l => unbroken (fst l)) ls \/ (N.of_nat (length (csv_text sep q ls)) < 1048576)%N ->
  exists r, read_all conv lanes clmul sep q (make_null_checker nulls) nt ne ncols (pre ++ csv_text sep q ls) (length pre) = Some r /\
    total_rows r = length ls /\ concat_columns ncols (chunks r) = columns_meant conv nulls ncols (map fst ls).
Proof.
  intros L1 L2 A B C D E F G NC P S0 U.
  assert (SK : skipn (length pre) (pre ++ csv_text sep q ls) = csv_text sep q ls).
  { rewrite skipn_app, skipn_all, Nat.sub_diag. reflexivity. }
  assert (RW : table_rows sep q (csv_text sep q ls) = map (raw_fields q) ls) by (apply written_rows; assumption).
  assert (SF : Forall (safe_row sep LF q) (table_rows sep q (csv_text sep q ls))).
  { rewrite RW. apply written_safe; assumption. }
  destruct U as [U|U].
  - destruct (C09_read_all_is_the_table_partial V conv lanes clmul sep q nulls nt ne ncols (pre ++ csv_text sep q ls) (length pre)
      L1 L2 B C A D NC) as (r & R1 & R2 & R3).
    + rewrite app_length. clear. lia.
    + rewrite SK. apply ends_outside; assumption.
    + rewrite SK. apply text_no_lone; assumption.
    + rewrite SK. exact SF.
    + rewrite SK in R2, R3. exists r. split; [exact R1|]. split.
      * rewrite R2, RW. apply map_length.
      * rewrite R3. apply columns_as_meant; assumption.
  - rewrite small_is_serial; [|exact NC|].
    2:{ rewrite app_length. replace (length pre + length (csv_text sep q ls) - length pre) with (length (csv_text sep q ls)) by (clear; lia). exact U. }
    pose proof (C09_serial_is_the_table_partial V conv lanes clmul sep q nulls ne ncols (pre ++ csv_text sep q ls) (length pre)
      L1 L2 B C A D NC) as R. cbv zeta in R. rewrite SK in R. rewrite (R SF). eexists. split; [reflexivity|]. cbn [total_rows chunks].
    split; [rewrite RW; apply map_length|]. rewrite (columns_as_meant conv sep q nulls ncols ls) by assumption.
    unfold concat_columns, columns_meant. apply map_ext_in. intros k Hk. apply in_seq in Hk. cbn [map concat]. rewrite app_nil_r.
    rewrite (nth_indep _ [] (map (fun cells => cell_value conv nulls cells 0) (map fst ls))) by (rewrite map_length, seq_length; clear - Hk; lia).
    rewrite (map_nth (fun k0 => map (fun cells => cell_value conv nulls cells k0) (map fst ls))).
    rewrite seq_nth by (clear - Hk; lia). reflexivity.
Qed.

Section File.
Context {F : Type} (ff : bytes -> option F).

Lemma file_reads lanes clmul nt ne o hc e ls :
  1 <= lanes -> Nat.divide lanes 64 -> has_header o = true ->
  let sep := separator o in let q := quote o in
  q <> sep -> q <> LF -> q <> CR -> q <> 0%N -> sep <> LF -> sep <> CR -> ~ In q (null_values o) ->
  hc <> [] -> Forall (well_written sep q) hc -> proper sep q ls ->
  Forall (fun l => spread sep q (fst l)) ls ->
  Forall (fun l => unbroken (fst l)) ls \/ (N.of_nat (length (csv_text sep q ls)) < 1048576)%N ->
  exists types r, TypesModel.read_file ff lanes clmul nt ne o (line_text sep q (hc, [e]) ++ csv_text sep q ls)
      = Some (map column_name hc, types, r) /\ length types = length hc /\
    infer_from_sample ff lanes clmul o (csv_text sep q ls) (length hc) (sample_rows o) = Some types /\
    total_rows r = length ls /\
    concat_columns (length hc) (chunks r) =
      columns_meant (fun k => append_value ff lanes (nth k types STRING)) (null_values o) (length hc) (map fst ls).
Proof.
  intros L1 L2 HH sep q A B C D E F0 G NE W P S0 U.
  set (h := line_text sep q (hc, [e])).
  assert (NH : exists x y, h = x :: y).
  { unfold h, line_text. cbn [fst snd map concat]. destruct (row_text sep q hc); destruct e; cbn [end_bytes app]; eauto. }
  assert (NC : 0 < length hc) by (destruct hc; [congruence|cbn [length]; clear; lia]).
  destruct (infer_total ff lanes clmul o L1 L2 B C (csv_text sep q ls) (length hc) (sample_rows o)) as (ts & ET & EL) ||
  destruct (infer_total ff lanes clmul o (csv_text sep q ls) (length hc) (sample_rows o)) as (ts & ET & EL).
  assert (OP : open_file ff lanes clmul o (h ++ csv_text sep q ls) = Some (map column_name hc, ts, length h)).
  { unfold open_file. destruct NH as (x & y & NH). rewrite NH at 1. cbn [app].
    replace (find_row_end lanes clmul (quote o) (h ++ csv_text sep q ls) 0) with (Some (length h)).
    2:{ symmetry. destruct (C05_find_row_end_exact lanes clmul (h ++ csv_text sep q ls) 0 q L1 L2 B C) as (R & _).
        fold q. rewrite R. f_equal. apply header_row_end; assumption. }
    rewrite HH. cbv zeta. unfold slice. cbn [skipn]. rewrite Nat.sub_0_r, firstn_app, firstn_all, Nat.sub_diag. cbn [firstn].
    rewrite app_nil_r. fold sep q. assert (HP : parse_header sep q h = map column_name hc) by (apply header_parsed; assumption). rewrite HP. rewrite map_length.
    rewrite skipn_app, skipn_all, Nat.sub_diag. cbn [skipn app]. rewrite ET. reflexivity. }
  destruct (body_reads (fun k => append_value ff lanes (nth k ts STRING)) lanes clmul sep q (null_values o) nt ne (length hc) h ls)
    as (r & R1 & R2 & R3); try assumption.
  exists ts, r. unfold TypesModel.read_file. rewrite OP. rewrite map_length. fold sep q. rewrite R1.
  repeat (split; [first [reflexivity|assumption]|]). exact R3.
Qed.
End File.
