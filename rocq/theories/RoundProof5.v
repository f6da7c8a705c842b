(** The sampled rows of a written text. *)
From Verif Require Import Base ChunkSpec FieldsSpec ReaderSpec TypesSpec RoundSpec ChunkModel ChunkProof ChunkProof2 ChunkProof3 FieldsModel FieldsProof FieldsProof2 FieldsProof3 FieldsProof4 FieldsProof6
  ReaderModel ReaderProof ReaderProof2 TypesModel TypesProof TypesProof3 RoundProof RoundProof2 RoundProof3 RoundProof4.

Section Sample.
Variables sep q : byte.
Hypothesis Hqs : q <> sep.
Hypothesis HqL : q <> LF.
Hypothesis HqC : q <> CR.
Hypothesis HsL : sep <> LF.
Hypothesis HsC : sep <> CR.

Lemma row_no_newline cells : unbroken cells -> Forall (well_written sep q) cells -> existsb newline (row_text sep q cells) = false.
Proof.
  intros U W. destruct (existsb newline (row_text sep q cells)) eqn:E; [|reflexivity]. exfalso.
  apply existsb_exists in E. destruct E as (x & Hx & NX). unfold row_text in Hx.
  apply (join_in sep) in Hx. destruct Hx as [->|(f & Hf & Hc)].
  - rewrite (not_newline_ sep HsL HsC) in NX. discriminate.
  - apply in_map_iff in Hf. destruct Hf as (c & <- & Hf). unfold unbroken in U. rewrite Forall_forall in U. specialize (U c Hf).
    assert (X : x = q \/ (In x (match c with Quoted v | Plain v => v end))).
    { destruct c as [v|v]; cbn [cell_bytes] in Hc; [apply in_quote; exact Hc|right; exact Hc]. }
    destruct X as [->|X]; [rewrite (not_newline_ q HqL HqC) in NX; discriminate|].
    rewrite not_newline_ in NX; [discriminate| |]; intros ->; destruct c; tauto.
Qed.

Lemma before_newline_app a b : existsb newline a = false -> before_newline (a ++ b) = a ++ before_newline b.
Proof.
  induction a as [|c a IH]; [reflexivity|]. cbn [existsb app before_newline]. destruct (newline c); [discriminate|].
  cbn [orb]. intros H. rewrite IH by exact H. reflexivity.
Qed.

Lemma looks_empty_spec c : well_written sep q c ->
  (length (header_chars q (cell_bytes q c) false []) =? 0) = looks_empty c.
Proof.
  destruct c as [v|v]; cbn [cell_bytes well_written looks_empty].
  - intros _. unfold quote_value. rewrite header_chars_step, N.eqb_refl. cbn [andb negb]. rewrite header_chars_double.
    cbn [app]. destruct v; reflexivity.
  - intros W. assert (NQ : ~ In q v).
    { intros H. rewrite Forall_forall in W. destruct (W q H) as (A & _). congruence. }
    clear W. induction v as [|c f IH]; [reflexivity|].
    rewrite header_chars_step. destruct (N.eqb_spec c q) as [->|_]; [exfalso; apply NQ; left; reflexivity|].
    cbn [length Nat.eqb negb andb trim_left]. destruct (blank c).
    + apply IH. intros H. apply NQ. right. exact H.
    + cbn [app]. rewrite header_chars_plain; [reflexivity| |discriminate]. intros H. apply NQ. right. exact H.
Qed.

Lemma line_cells_written cells es : cells <> [] -> unbroken cells -> Forall (well_written sep q) cells ->
  (exists e, es = [e]) \/ (es = [] /\ looks_empty (last cells (Plain [])) = false) ->
  line_cells sep q (line_text sep q (cells, es)) = map column_name cells.
Proof.
  intros NE U W H. unfold line_cells, line_text. cbn [fst snd].
  pose proof (row_no_newline cells U W) as NN.
  assert (BN : before_newline (row_text sep q cells ++ concat (map end_bytes es)) = row_text sep q cells ++ []).
  { rewrite before_newline_app by exact NN. f_equal. destruct H as [(e & ->)|(-> & _)]; [destruct e|]; reflexivity. }
  rewrite BN.
  assert (RR : raw_row newline sep q false (row_text sep q cells ++ []) = (map (cell_bytes q) cells, [])).
  { rewrite (rr_cells sep q Hqs newline (fun c H => H) [] [] []); try assumption.
    - rewrite app_nil_r. f_equal. change [cell_bytes q (last cells (Plain []))] with (map (cell_bytes q) [last cells (Plain [])]).
      rewrite <- map_app, <- app_removelast_last by exact NE. reflexivity.
    - reflexivity.
    - apply not_newline_; assumption. }
  rewrite RR. cbn [fst].
  assert (NM : map (header_name q) (map (cell_bytes q) cells) = map column_name cells).
  { rewrite map_map. apply map_ext_in. intros c Hc. apply (name_of_cell sep). rewrite Forall_forall in W. apply W. exact Hc. }
  rewrite NM. destruct H as [(e & ->)|(-> & L)].
  - rewrite existsb_app, NN. destruct e; reflexivity.
  - pose proof (app_removelast_last (Plain []) NE) as D.
    assert (LW : well_written sep q (last cells (Plain []))).
    { rewrite Forall_forall in W. apply W. rewrite D at 2. apply in_or_app. right. left. reflexivity. }
    assert (LL : last (map (cell_bytes q) cells) [] = cell_bytes q (last cells (Plain []))).
    { rewrite D at 1. rewrite map_app. cbn [map]. apply last_last. }
    rewrite LL, looks_empty_spec by exact LW. rewrite L. rewrite orb_true_r. reflexivity.
Qed.

Lemma spec_end_none l : enclosed q l -> spec_find_row_end q l 0 = length l.
Proof.
  intros (E1 & _). unfold spec_find_row_end. cbn [skipn].
  destruct (row_ends false q l) as [|i r] eqn:E; [reflexivity|]. exfalso.
  assert (I : In i (row_ends false q l)) by (rewrite E; left; reflexivity).
  unfold row_ends in I. apply filter_In in I. destruct I as (_ & I). apply andb_true_iff in I. destruct I as (A & B).
  unfold line_end_at, byte_is in A. destruct (nth_error l i) as [c|] eqn:EC; [|discriminate].
  rewrite (E1 i c EC) in B; [discriminate|]. unfold newline. destruct (N.eqb c LF); [reflexivity|]. cbn [orb] in *.
  apply andb_true_iff in A. apply A.
Qed.

Lemma text_nonempty cells es : proper_line sep q (cells, es) -> forall rest, exists c r, line_text sep q (cells, es) ++ rest = c :: r.
Proof.
  intros P rest. destruct (row_starts sep q HqL HqC HsL HsC cells es P) as (c & r & E & _).
  unfold line_text. cbn [fst snd]. rewrite E. cbn [app]. eauto.
Qed.

Lemma lines_written ls : proper sep q ls -> one_ending ls -> lines q (csv_text sep q ls) = map (line_text sep q) ls.
Proof.
  induction ls as [|(cells, es) ls IH]; intros P O; [reflexivity|]. destruct P as (PL & PE & P).
  unfold csv_text. cbn [map concat]. fold (csv_text sep q ls).
  assert (W : Forall (well_written sep q) cells) by apply PL.
  assert (E : spec_find_row_end q (line_text sep q (cells, es) ++ csv_text sep q ls) 0 = length (line_text sep q (cells, es)) /\ one_ending ls).
  { destruct ls as [|l2 ls].
    - cbn [one_ending snd] in O. split; [|exact I]. destruct O as [(e & ->)|(-> & _)].
      + apply header_row_end; assumption.
      + unfold csv_text, line_text. cbn [fst snd map concat]. rewrite !app_nil_r. apply spec_end_none. apply encl_row; assumption.
    - destruct O as ((e & OE) & O). cbn [snd] in OE. subst es. split; [|exact O]. apply header_row_end; assumption. }
  destruct E as (E & O').
  destruct (text_nonempty cells es PL (csv_text sep q ls)) as (c & r & EC).
  rewrite EC, lines_step by assumption. rewrite <- EC, E. rewrite firstn_app, firstn_all, Nat.sub_diag. cbn [firstn]. rewrite app_nil_r.
  rewrite skipn_app, skipn_all, Nat.sub_diag. cbn [skipn app]. rewrite IH by assumption. reflexivity.
Qed.

Lemma one_ending_all ls : one_ending ls -> Forall (fun l => (exists e, snd l = [e]) \/ (snd l = [] /\ looks_empty (last (fst l) (Plain [])) = false)) ls.
Proof.
  induction ls as [|l ls IH]; intros O; [constructor|]. destruct ls as [|l2 ls].
  - constructor; [exact O|constructor].
  - destruct O as (A & B). constructor; [left; exact A|apply IH; exact B].
Qed.

Lemma cells_written ls : proper sep q ls -> one_ending ls -> Forall (fun l => unbroken (fst l)) ls ->
  map (line_cells sep q) (map (line_text sep q) ls) = map (map column_name) (map fst ls).
Proof.
  intros P O U. apply proper_forall in P. apply one_ending_all in O. rewrite !map_map. apply map_ext_in. intros (cells, es) Hl.
  rewrite Forall_forall in *. specialize (P _ Hl). specialize (U _ Hl). specialize (O _ Hl). cbn [fst snd] in *.
  apply line_cells_written; try assumption; apply P.
Qed.
End Sample.

Lemma sample_written o skip n ls : let sep := separator o in let q := quote o in
  q <> sep -> q <> LF -> q <> CR -> sep <> LF -> sep <> CR ->
  proper sep q ls -> one_ending ls -> Forall (fun l => unbroken (fst l)) ls ->
  sample o skip n (csv_text sep q ls) = map (map column_name) (firstn n (skipn skip (map fst ls))).
Proof.
  intros sep q A B C D E P O U. unfold sample. fold sep q.
  rewrite (lines_written sep q) by assumption.
  pose proof (cells_written sep q A B C D E ls P O U) as X.
  rewrite <- firstn_map, <- skipn_map, X. rewrite skipn_map, firstn_map. reflexivity.
Qed.

Lemma types_written {F} (ff : bytes -> option F) lanes clmul o n m ls ls' : let sep := separator o in let q := quote o in
  1 <= lanes -> Nat.divide lanes 64 ->
  q <> sep -> q <> LF -> q <> CR -> sep <> LF -> sep <> CR ->
  proper sep q ls -> one_ending ls -> Forall (fun l => unbroken (fst l)) ls ->
  proper sep q ls' -> one_ending ls' -> map fst ls = map fst ls' ->
  infer_from_sample ff lanes clmul o (csv_text sep q ls) n m = infer_from_sample ff lanes clmul o (csv_text sep q ls') n m.
Proof.
  intros sep q L1 L2 A B C D E P O U P' O' EQ.
  assert (U' : Forall (fun l => unbroken (fst l)) ls').
  { apply Forall_map. rewrite <- EQ. apply Forall_map in U. exact U. }
  destruct n as [|n].
  { unfold infer_from_sample. rewrite !orb_true_r. reflexivity. }
  destruct ls as [|(cells, es) ls].
  - destruct ls'; [reflexivity|discriminate].
  - destruct ls' as [|(cells', es') ls']; [discriminate|].
    rewrite !infer_types; try assumption; try discriminate.
    + f_equal. apply map_ext. intros k. f_equal. f_equal.
      rewrite !sample_written by assumption. rewrite EQ. reflexivity.
    + destruct (text_nonempty sep q B C D E cells' es' (proj1 P') (csv_text sep q ls')) as (c & r & X).
      unfold csv_text. cbn [map concat]. fold (csv_text sep q ls'). rewrite X. discriminate.
    + destruct (text_nonempty sep q B C D E cells es (proj1 P) (csv_text sep q ls)) as (c & r & X).
      unfold csv_text. cbn [map concat]. fold (csv_text sep q ls). rewrite X. discriminate.
Qed.
