(** The sampled rows of a written text whose quoted cells may hold line breaks. *)
From Verif Require Import Base ChunkSpec FieldsSpec ReaderSpec TypesSpec RoundSpec ChunkModel ChunkProof ChunkProof2 ChunkProof3 FieldsModel FieldsProof FieldsProof2 FieldsProof3 FieldsProof4 FieldsProof6
  ReaderModel ReaderProof ReaderProof2 TypesModel TypesProof TypesProof3 RoundProof RoundProof2 RoundProof3 RoundProof4 RoundProof5 SeenSpec.

Section Seen.
Variables sep q : byte.
Hypothesis Hqs : q <> sep.
Hypothesis HqL : q <> LF.
Hypothesis HqC : q <> CR.
Hypothesis HsL : sep <> LF.
Hypothesis HsC : sep <> CR.

Definition broken (c : written) : bool := match c with Quoted v => existsb newline v | Plain _ => false end.

Lemma quote_no_newline : newline q = false.
Proof. apply not_newline_; assumption. Qed.

Lemma bn_double v x : existsb newline v = true -> before_newline (double_quotes q v ++ x) = double_quotes q (before_newline v).
Proof.
  induction v as [|c v IH]; [discriminate|]. cbn [existsb double_quotes before_newline].
  destruct (newline c) eqn:N0.
  - intros _. destruct (N.eqb_spec c q) as [->|]; [rewrite quote_no_newline in N0; discriminate|]. cbn [app before_newline]. rewrite N0. reflexivity.
  - cbn [orb]. intros H. cbn [double_quotes]. destruct (N.eqb_spec c q) as [->|]; cbn [app before_newline]; rewrite !N0, IH by exact H; reflexivity.
Qed.

Lemma bn_cell v x : existsb newline v = true -> before_newline (quote_value q v ++ x) = q :: double_quotes q (before_newline v).
Proof.
  intros H. unfold quote_value. cbn [app before_newline]. rewrite quote_no_newline, <- app_assoc, bn_double by exact H. reflexivity.
Qed.

Lemma rr_open w : raw_row newline sep q true (double_quotes q w) = ([double_quotes q w], []).
Proof.
  induction w as [|c w IH]; [reflexivity|]. cbn [double_quotes]. destruct (N.eqb c q) eqn:E.
  - cbn [raw_row]. rewrite !N.eqb_refl. cbn [negb]. rewrite IH. reflexivity.
  - cbn [raw_row]. rewrite E, IH. reflexivity.
Qed.

Lemma header_open w : forall cur, header_chars q (double_quotes q w) true cur = cur ++ w.
Proof.
  induction w as [|c w IH]; intros cur; [cbn; rewrite app_nil_r; reflexivity|]. cbn [double_quotes]. destruct (N.eqb_spec c q) as [->|E].
  - rewrite header_chars_step, N.eqb_refl. cbn [next_is tl andb]. rewrite N.eqb_refl, IH, <- app_assoc. reflexivity.
  - rewrite header_chars_step. destruct (N.eqb_spec c q); [congruence|]. cbn [negb]. rewrite andb_false_r. cbn [andb]. rewrite IH, <- app_assoc. reflexivity.
Qed.

Lemma name_open w : header_name q (q :: double_quotes q w) = trim_right blank w.
Proof. unfold header_name. rewrite header_chars_step, N.eqb_refl. cbn [andb negb]. rewrite header_open. reflexivity. Qed.

Lemma cell_unbroken_text c : well_written sep q c -> broken c = false -> existsb newline (cell_bytes q c) = false.
Proof.
  intros W B. replace (cell_bytes q c) with (row_text sep q [c]) by reflexivity. apply row_no_newline; try assumption; [|repeat constructor; exact W].
  constructor; [|constructor]. destruct c as [v|v]; cbn [broken well_written] in *.
  - split; intros H.
    + assert (X : existsb newline v = true) by (apply existsb_exists; exists LF; split; [exact H|reflexivity]). congruence.
    + assert (X : existsb newline v = true) by (apply existsb_exists; exists CR; split; [exact H|reflexivity]). congruence.
  - rewrite Forall_forall in W. split; intros H; destruct (W _ H) as (A & B0 & C & D); congruence.
Qed.

Lemma seen_row E : forall cells, Forall (well_written sep q) cells -> existsb broken cells = true ->
  map (header_name q) (fst (raw_row newline sep q false (before_newline (row_text sep q cells ++ E)))) = map column_name (seen cells).
Proof.
  unfold row_text. induction cells as [|c cells IH]; intros W B; [discriminate|]. inversion W as [|? ? Wc Wr]; subst.
  cbn [existsb] in B. destruct (broken c) eqn:Bc.
  - destruct c as [v|v]; [|discriminate Bc]. cbn [broken] in Bc.
    assert (X : exists x, join sep (map (cell_bytes q) (Quoted v :: cells)) ++ E = quote_value q v ++ x).
    { destruct cells; cbn [map join cell_bytes]; [eexists; reflexivity|]. rewrite <- app_assoc. eexists. reflexivity. }
    destruct X as (x & ->). rewrite bn_cell by exact Bc. cbn [seen]. rewrite Bc. cbn [raw_row]. rewrite N.eqb_refl. cbn [negb]. rewrite rr_open.
    cbn [cons_first fst map]. rewrite name_open. reflexivity.
  - cbn [orb] in B. destruct cells as [|c2 cells]; [discriminate|]. specialize (IH Wr B).
    change (join sep (map (cell_bytes q) (c :: c2 :: cells))) with (cell_bytes q c ++ sep :: join sep (map (cell_bytes q) (c2 :: cells))).
    rewrite <- app_assoc. cbn [app]. set (J := join sep (map (cell_bytes q) (c2 :: cells)) ++ E) in *. clearbody J.
    rewrite before_newline_app by (apply cell_unbroken_text; assumption). cbn [before_newline]. rewrite (not_newline_ sep HsL HsC).
    rewrite (rr_cell sep q Hqs newline (fun c H => H)) by assumption.
    assert (X : forall r, raw_row newline sep q false (sep :: r) = ([] :: fst (raw_row newline sep q false r), snd (raw_row newline sep q false r))).
    { intros r. cbn [raw_row]. destruct (N.eqb_spec sep q); [congruence|]. rewrite (not_newline_ sep HsL HsC), N.eqb_refl. reflexivity. }
    rewrite X. unfold glue. cbn [fst map]. rewrite app_nil_r, IH. rewrite (name_of_cell sep) by assumption.
    destruct c as [v|v]; [cbn [broken] in Bc|]; [change (seen (Quoted v :: c2 :: cells)) with (if existsb newline v then [Quoted (before_newline v)] else Quoted v :: seen (c2 :: cells)); rewrite Bc|]; reflexivity.
Qed.

Lemma seen_unbroken cells : existsb broken cells = false -> seen cells = cells.
Proof.
  induction cells as [|c cells IH]; [reflexivity|]. cbn [existsb]. destruct c as [v|v]; cbn [broken seen].
  - destruct (existsb newline v); [discriminate|]. cbn [orb]. intros H. rewrite IH by exact H. reflexivity.
  - cbn [orb]. intros H. rewrite IH by exact H. reflexivity.
Qed.

Lemma broken_text cells : existsb broken cells = true -> existsb newline (row_text sep q cells) = true.
Proof.
  unfold row_text. induction cells as [|c cells IH]; [discriminate|]. cbn [existsb]. destruct (broken c) eqn:B.
  - intros _. assert (X : existsb newline (cell_bytes q c) = true).
    { destruct c as [v|v]; [|discriminate B]. cbn [broken cell_bytes] in *. unfold quote_value. cbn [existsb]. rewrite existsb_app. 
      assert (Y : existsb newline (double_quotes q v) = true).
      { clear - B. induction v as [|c v IH]; [discriminate|]. cbn [existsb double_quotes] in *. destruct (newline c) eqn:N0.
        - destruct (N.eqb_spec c q) as [->|]; cbn [existsb]; rewrite N0; reflexivity.
        - cbn [orb] in B. destruct (N.eqb c q); cbn [existsb]; rewrite IH by exact B; rewrite !orb_true_r; reflexivity. }
      rewrite Y. rewrite orb_true_r. reflexivity. }
    destruct cells; cbn [map join]; [exact X|]. rewrite existsb_app, X. reflexivity.
  - cbn [orb]. intros H. destruct cells as [|c2 cells]; [discriminate|]. cbn [map join] in *. rewrite existsb_app. cbn [existsb]. rewrite IH by exact H. rewrite !orb_true_r. reflexivity.
Qed.

Lemma unbroken_iff cells : Forall (well_written sep q) cells -> existsb broken cells = false -> unbroken cells.
Proof.
  intros W B. unfold unbroken. rewrite Forall_forall in *. intros c Hc. specialize (W c Hc).
  assert (Bc : broken c = false) by (destruct (broken c) eqn:X; [|reflexivity]; rewrite (proj2 (existsb_exists broken cells)) in B by (exists c; auto); discriminate).
  destruct c as [v|v]; cbn [broken well_written] in *.
  - split; intros H.
    + assert (X : existsb newline v = true) by (apply existsb_exists; exists LF; split; [exact H|reflexivity]). congruence.
    + assert (X : existsb newline v = true) by (apply existsb_exists; exists CR; split; [exact H|reflexivity]). congruence.
  - rewrite Forall_forall in W. split; intros H; destruct (W _ H) as (A & B0 & C & D); congruence.
Qed.

Lemma line_cells_seen cells es : cells <> [] -> Forall (well_written sep q) cells ->
  (exists e, es = [e]) \/ (es = [] /\ looks_empty (last cells (Plain [])) = false) ->
  line_cells sep q (line_text sep q (cells, es)) = map column_name (seen cells).
Proof.
  intros NE W H. destruct (existsb broken cells) eqn:B.
  - unfold line_cells, line_text. cbn [fst snd]. rewrite existsb_app, broken_text by exact B. cbn [orb]. apply seen_row; assumption.
  - rewrite seen_unbroken by exact B. apply line_cells_written; try assumption. apply unbroken_iff; assumption.
Qed.

Lemma cells_seen ls : proper sep q ls -> one_ending ls ->
  map (line_cells sep q) (map (line_text sep q) ls) = map (fun l => map column_name (seen (fst l))) ls.
Proof.
  intros P O. apply proper_forall in P. apply one_ending_all in O. rewrite !map_map. apply map_ext_in. intros (cells, es) Hl.
  rewrite Forall_forall in *. specialize (P _ Hl). specialize (O _ Hl). cbn [fst snd] in *.
  apply line_cells_seen; try assumption; apply P.
Qed.
End Seen.

Lemma sample_seen o skip n ls : let sep := separator o in let q := quote o in
  q <> sep -> q <> LF -> q <> CR -> sep <> LF -> sep <> CR ->
  proper sep q ls -> one_ending ls ->
  sample o skip n (csv_text sep q ls) = map (fun cells => map column_name (seen cells)) (firstn n (skipn skip (map fst ls))).
Proof.
  intros sep q A B C D E P O. unfold sample. fold sep q.
  rewrite (lines_written sep q) by assumption.
  pose proof (cells_seen sep q A B C D E ls P O) as X.
  rewrite <- firstn_map, <- skipn_map, X. rewrite <- (map_map fst (fun cells => map column_name (seen cells))), skipn_map, firstn_map. reflexivity.
Qed.

Lemma types_seen {F} (ff : bytes -> option F) lanes clmul o n m ls ls' : let sep := separator o in let q := quote o in
  1 <= lanes -> Nat.divide lanes 64 ->
  q <> sep -> q <> LF -> q <> CR -> sep <> LF -> sep <> CR ->
  proper sep q ls -> one_ending ls ->
  proper sep q ls' -> one_ending ls' -> map fst ls = map fst ls' ->
  infer_from_sample ff lanes clmul o (csv_text sep q ls) n m = infer_from_sample ff lanes clmul o (csv_text sep q ls') n m.
Proof.
  intros sep q L1 L2 A B C D E P O P' O' EQ.
  destruct n as [|n].
  { unfold infer_from_sample. rewrite !orb_true_r. reflexivity. }
  destruct ls as [|(cells, es) ls].
  - destruct ls'; [reflexivity|discriminate].
  - destruct ls' as [|(cells', es') ls']; [discriminate|].
    rewrite !infer_types; try assumption; try discriminate.
    + f_equal. apply map_ext. intros k. f_equal. f_equal.
      rewrite !sample_seen by assumption. rewrite EQ. reflexivity.
    + destruct (text_nonempty sep q B C D E cells' es' (proj1 P') (csv_text sep q ls')) as (c & r & X).
      unfold csv_text. cbn [map concat]. fold (csv_text sep q ls'). rewrite X. discriminate.
    + destruct (text_nonempty sep q B C D E cells es (proj1 P) (csv_text sep q ls)) as (c & r & X).
      unfold csv_text. cbn [map concat]. fold (csv_text sep q ls). rewrite X. discriminate.
Qed.

Lemma types_of_written :
  forall {F : Type} (ff : bytes -> option F) (lanes : nat) (clmul : bool) (num_threads : N) (ne : bool) (o : csv_options)
         (header : list written) (e : ending) (ls : list line),
    1 <= lanes -> Nat.divide lanes 64 -> has_header o = true ->
    let sep := separator o in let q := quote o in
    q <> sep -> q <> LF -> q <> CR -> q <> 0%N -> sep <> LF -> sep <> CR -> ~ In q (null_values o) ->
    header <> [] -> Forall (well_written sep q) header -> proper sep q ls ->
    Forall (fun l => spread sep q (fst l)) ls ->
    Forall (fun l => unbroken (fst l)) ls \/ (N.of_nat (length (csv_text sep q ls)) < 1048576)%N ->
    ls <> [] -> one_ending ls ->
    let sampled := map (fun cells => map column_name (seen cells)) (firstn (sample_rows o) (skipn (header_lines o) (map fst ls))) in
    exists r,
      TypesModel.read_file ff lanes clmul num_threads ne o (line_text sep q (header, [e]) ++ csv_text sep q ls)
        = Some (map column_name header, map (fun k => column_type ff o (cells_of k sampled)) (seq 0 (length header)), r).
Proof.
  intros F ff lanes clmul nt ne o hc e ls L1 L2 HH sep q A B C D E G H NE W P S0 U NL O sampled.
  destruct (file_reads ff lanes clmul nt ne o hc e ls L1 L2 HH A B C D E G H NE W P S0 U) as (ts & r & R1 & R2 & R3 & R4).
  exists r. subst sep q. rewrite R1. do 2 f_equal.
  rewrite infer_types in R3; try assumption.
  - injection R3 as <-. pose proof (sample_seen o (header_lines o) (sample_rows o) ls A B C E G P O) as X. cbv zeta in X. rewrite X. reflexivity.
  - destruct ls as [|(cells, es) ls']; [congruence|].
    destruct (text_nonempty (separator o) (quote o) B C E G cells es (proj1 P) (csv_text (separator o) (quote o) ls')) as (c & r0 & Y).
    unfold csv_text. cbn [map concat]. fold (csv_text (separator o) (quote o) ls'). intros Z. rewrite Z in Y. discriminate Y.
  - destruct hc; [congruence|discriminate].
Qed.
