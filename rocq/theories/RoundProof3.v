(** Written rows are safe; written texts without line breaks in cells. *)
From Verif Require Import Base ChunkSpec FieldsSpec ReaderSpec RoundSpec FieldsModel ChunkProof FieldsProof FieldsProof2 FieldsProof3 FieldsProof4 FieldsProof6
  ReaderModel ReaderProof ReaderProof2 RoundProof RoundProof2.

Lemma double_at q : forall v j c, c <> q -> nth_error (double_quotes q v ++ [q]) j = Some c ->
  exists a b, v = a ++ c :: b /\ j = length (double_quotes q a).
Proof.
  induction v as [|d v IH]; intros j c N E.
  - destruct j as [|[|j]]; [injection E as <-; congruence| |]; discriminate.
  - cbn [double_quotes] in E. destruct (N.eqb_spec d q) as [->|D].
    + destruct j as [|[|j]]; cbn in E; try (injection E as <-; congruence). destruct (IH j c N E) as (a & b & -> & ->).
      exists (q :: a), b. split; [reflexivity|]. cbn [double_quotes]. rewrite N.eqb_refl. reflexivity.
    + destruct j as [|j]; cbn in E.
      * injection E as <-. exists [], v. split; reflexivity.
      * destruct (IH j c N E) as (a & b & -> & ->). exists (d :: a), b. split; [reflexivity|]. cbn [double_quotes].
        destruct (N.eqb_spec d q); [contradiction|reflexivity].
Qed.

Section Safe.
Variables sep q : byte.
Hypothesis Hqs : q <> sep.
Hypothesis HqL : q <> LF.
Hypothesis HqC : q <> CR.
Hypothesis HsL : sep <> LF.
Hypothesis HsC : sep <> CR.

Definition delim (c : byte) : bool := N.eqb c sep || N.eqb c LF.
Lemma delim_q : delim q = false.
Proof. unfold delim. apply orb_false_iff. split; apply N.eqb_neq; assumption. Qed.

Lemma raw_in l f : fst l <> [] -> In f (raw_fields q l) ->
  exists c t, In c (fst l) /\ (t = [] \/ t = [CR]) /\ f = cell_bytes q c ++ t.
Proof.
  intros NE H. unfold raw_fields in H. apply in_app_or in H.
  rewrite (app_removelast_last (Plain []) NE). destruct H as [H|[<-|[]]].
  - apply in_map_iff in H. destruct H as (c & <- & H). exists c, []. split; [apply in_or_app; left; exact H|].
    split; [left; reflexivity|]. rewrite app_nil_r. reflexivity.
  - eexists; eexists. split; [apply in_or_app; right; left; reflexivity|]. split; [apply cr_of_cases|reflexivity].
Qed.

Lemma cell_no_quote c t : well_written sep q c -> t = [] \/ t = [CR] ->
  starts_with q (cell_bytes q c ++ t) = false -> exists v, c = Plain v /\ ~ In q (cell_bytes q c ++ t).
Proof.
  intros W T ST. assert (TT : forall b r, t = b :: r -> b <> q).
  { intros b r ->. destruct T as [T|T]; [discriminate|]. injection T as -> _. congruence. }
  rewrite (starts_cell sep q Hqs HqC c t W TT) in ST || rewrite (starts_cell sep q c t W TT) in ST.
  destruct c as [v|v]; [discriminate|]. exists v. split; [reflexivity|]. intros H. apply in_app_or in H.
  destruct H as [H|H].
  - cbn [cell_bytes well_written] in *. rewrite Forall_forall in W. destruct (W _ H) as (A & _). congruence.
  - destruct T as [->| ->]; [destruct H|]. destruct H as [H|[]]. congruence.
Qed.

Lemma rest_cell c t : well_written sep q c -> (match c with Quoted v => ~ In sep v /\ ~ In LF v | Plain _ => True end) ->
  t = [] \/ t = [CR] -> rest_calm q delim (cell_bytes q c ++ t).
Proof.
  intros W TM T. apply rest_app; [exact delim_q| |].
  - destruct c as [v|v]; cbn [cell_bytes well_written] in *.
    + split; [|exact (endst_quote q v)]. apply calm_quote; [exact delim_q|]. apply Forall_forall. intros c Hc.
      destruct TM as (A & B). unfold delim. apply orb_false_iff. split; apply N.eqb_neq; intros ->; contradiction.
    + apply rest_unquoted. intros H. rewrite Forall_forall in W. destruct (W _ H) as (A & _). congruence.
  - destruct T as [->| ->]; [apply rest_nil|apply rest_one; congruence].
Qed.

(** The fields of the cells, the last one with a rest. *)
Fixpoint fields_of (cells : list written) (t : bytes) : list bytes :=
  match cells with
  | [] => []
  | [c] => [cell_bytes q c ++ t]
  | c :: r => cell_bytes q c :: fields_of r t
  end.
Lemma fields_raw l : fst l <> [] -> raw_fields q l = fields_of (fst l) (cr_of (snd l)).
Proof.
  destruct l as (cells, es). cbn [fst snd]. unfold raw_fields. cbn [fst snd]. induction cells as [|c r IH]; [congruence|]. intros _.
  destruct r as [|d r]; [reflexivity|].
  change (fields_of (c :: d :: r) (cr_of es)) with (cell_bytes q c :: fields_of (d :: r) (cr_of es)). rewrite <- IH by discriminate. reflexivity.
Qed.

Lemma endst_cell c : well_written sep q c -> endst false q (cell_bytes q c) = false.
Proof.
  intros W. destruct c as [v|v]; [apply endst_quote|]. apply (endst_none q). cbn in W. intros H. rewrite Forall_forall in W. destruct (W q H) as (X & _). congruence.
Qed.

Lemma quoted_place : forall cells t i c, Forall (well_written sep q) cells -> ~ In q t ->
  nth_error (join sep (fields_of cells t)) i = Some c -> c = sep \/ c = LF -> inside_at false q (join sep (fields_of cells t)) i = true ->
  exists mid a b post, cells = mid ++ Quoted (a ++ c :: b) :: post /\
    i = length (concat (map (fun x => cell_bytes q x ++ [sep]) mid)) + 1 + length (double_quotes q a).
Proof.
  assert (IN : forall x l i c, well_written sep q x -> nth_error (cell_bytes q x ++ l) i = Some c -> c = sep \/ c = LF -> i < length (cell_bytes q x) ->
            inside_at false q (cell_bytes q x ++ l) i = true -> exists a b, x = Quoted (a ++ c :: b) /\ i = 1 + length (double_quotes q a)).
  { intros x l i c W E D L I. rewrite nth_error_app1 in E by exact L. rewrite inside_at_prefix in I by (clear - L; lia).
    assert (CQ : c <> q) by (destruct D as [-> | ->]; congruence).
    destruct x as [v|v]; cbn [cell_bytes] in *.
    - unfold quote_value in E. destruct i as [|j]; [injection E as <-; congruence|]. cbn [nth_error] in E.
      destruct (double_at q v j c CQ E) as (a & b & -> & ->). exists a, b. split; reflexivity.
    - exfalso. assert (NI : ~ In q v) by (cbn in W; intros H; rewrite Forall_forall in W; destruct (W q H) as (X & _); congruence).
      destruct (rest_unquoted q (fun _ => true) v NI) as (C & _). rewrite (C i c E eq_refl) in I. discriminate. }
  induction cells as [|x r IH]; intros t i c W NT E D I; [destruct i; discriminate E|].
  inversion W as [|y z W1 W2 E1]; subst y z. clear W.
  destruct r as [|x2 r].
  - cbn [fields_of join] in *. destruct (Nat.lt_ge_cases i (length (cell_bytes q x))) as [L|L].
    + destruct (IN x t i c W1 E D L I) as (a & b & -> & ->). exists [], a, b, []. split; reflexivity.
    + exfalso. rewrite nth_error_app2 in E by exact L. replace i with (length (cell_bytes q x) + (i - length (cell_bytes q x))) in I by (clear - L; lia).
      rewrite inside_at_app in I. rewrite (endst_cell x W1) in I.
      destruct (rest_unquoted q (fun _ => true) t NT) as (C & _). rewrite (C _ c E eq_refl) in I. discriminate.
  - change (fields_of (x :: x2 :: r) t) with (cell_bytes q x :: fields_of (x2 :: r) t) in *.
    assert (NE : fields_of (x2 :: r) t <> []) by (destruct r; discriminate).
    assert (J : join sep (cell_bytes q x :: fields_of (x2 :: r) t) = cell_bytes q x ++ [sep] ++ join sep (fields_of (x2 :: r) t)).
    { destruct (fields_of (x2 :: r) t); [congruence|reflexivity]. }
    rewrite J in *. destruct (Nat.lt_ge_cases i (length (cell_bytes q x))) as [L|L].
    + destruct (IN x _ i c W1 E D L I) as (a & b & -> & ->). exists [], a, b, (x2 :: r). split; reflexivity.
    + destruct (Nat.eq_dec i (length (cell_bytes q x))) as [->|N].
      * exfalso. rewrite <- (Nat.add_0_r (length (cell_bytes q x))), inside_at_app, (endst_cell x W1) in I. discriminate.
      * rewrite app_assoc in E, I. rewrite nth_error_app2 in E by (rewrite app_length; cbn; clear - L N; lia).
        remember (i - length (cell_bytes q x ++ [sep])) as k eqn:Ek.
        assert (Ei : i = length (cell_bytes q x ++ [sep]) + k) by (rewrite app_length in *; cbn [length] in *; clear - L N Ek; lia).
        rewrite Ei, inside_at_app in I.
        assert (ES : endst false q (cell_bytes q x ++ [sep]) = false).
        { rewrite ChunkProof.endst_app, (endst_cell x W1). cbn. destruct (N.eqb_spec sep q); [congruence|reflexivity]. }
        rewrite ES in I. destruct (IH t k c W2 NT E D I) as (mid & a & b & post & EC & EK).
        exists (x :: mid), a, b, post. split; [rewrite EC; reflexivity|]. cbn [map concat]. rewrite app_length. clear - Ei EK. lia.
Qed.

Lemma fields_split : forall cells t pre f post, cells <> [] -> fields_of cells t = pre ++ f :: post ->
  exists p c r t', cells = p ++ c :: r /\ f = cell_bytes q c ++ t' /\ (t' = [] \/ t' = t) /\ post = fields_of r t.
Proof.
  induction cells as [|x r IH]; intros t pre f post NE E; [congruence|]. destruct r as [|x2 r].
  - cbn [fields_of] in E. destruct pre as [|g [|]]; try discriminate. injection E as <- <-. exists [], x, [], t. auto.
  - change (fields_of (x :: x2 :: r) t) with (cell_bytes q x :: fields_of (x2 :: r) t) in E. destruct pre as [|g pre].
    + injection E as <- <-. exists [], x, (x2 :: r), []. rewrite app_nil_r. auto.
    + injection E as <- E. destruct (IH t pre f post ltac:(discriminate) E) as (p & c & r' & t' & -> & X). exists (x :: p), c, r', t'. split; [reflexivity|exact X].
Qed.

Lemma spread_safe l : proper_line sep q l -> spread sep q (fst l) -> safe_row sep LF q (raw_fields q l).
Proof.
  intros (NE & _ & W) SP pre f post E SF. rewrite fields_raw in E by exact NE.
  assert (T : cr_of (snd l) = [] \/ cr_of (snd l) = [CR]) by apply cr_of_cases. set (t := cr_of (snd l)) in *.
  destruct (fields_split (fst l) t pre f post NE E) as (p & c & r & t' & EC & -> & T' & ->).
  assert (T2 : t' = [] \/ t' = [CR]) by (destruct T' as [->| ->]; [left; reflexivity|exact T]).
  rewrite EC in W. assert (WC : well_written sep q c) by (rewrite Forall_forall in W; apply W, in_or_app; right; left; reflexivity).
  assert (WR : Forall (well_written sep q) r) by (apply Forall_app in W; destruct W as (_ & W); inversion W; assumption).
  destruct (cell_no_quote c t' WC T2 SF) as (v & -> & NQ). split; [exact NQ|].
  intros (i & D & I).
  assert (L : i < length (firstn 63 (join sep (fields_of r t)))).
  { unfold byte_is in D. destruct (nth_error (firstn 63 (join sep (fields_of r t))) i) eqn:X.
    - apply nth_error_Some. congruence.
    - destruct D; discriminate. }
  rewrite firstn_length in L. assert (L63 : i < 63) by (clear - L; lia).
  unfold inside_at, quotes_before in I. rewrite firstn_firstn, Nat.min_l in I by (clear - L63; lia).
  change (inside_at false q (join sep (fields_of r t)) i = true) in I.
  destruct (nth_error (join sep (fields_of r t)) i) as [b|] eqn:X; [|apply nth_error_None in X; clear - X L; lia].
  assert (Y : nth_error (firstn 63 (join sep (fields_of r t))) i = Some b).
  { rewrite <- (firstn_skipn 63 (join sep (fields_of r t))) in X. rewrite nth_error_app1 in X by (rewrite firstn_length; exact L). exact X. }
  unfold byte_is in D. rewrite Y in D.
  assert (DB : b = sep \/ b = LF) by (destruct D as [D|D]; apply N.eqb_eq in D; auto).
  destruct (quoted_place r t i b WR) as (mid & a & b' & po & ER & EI); try assumption.
  { destruct T as [->| ->]; [intros []|intros [H|[]]; congruence]. }
  rewrite ER in EC. specialize (SP p v mid a b b' po EC DB). clear - SP EI L63. lia.
Qed.

Lemma all_quoted_spread cells : all_quoted cells -> spread sep q cells.
Proof.
  intros A pre v mid a c b post E _. exfalso. unfold all_quoted in A. rewrite Forall_forall in A. destruct (A (Plain v)) as (x & X); [|discriminate].
  rewrite E. apply in_or_app. right. left. reflexivity.
Qed.
Lemma tame_spread cells : tame sep cells -> spread sep q cells.
Proof.
  intros A pre v mid a c b post E D. exfalso. unfold tame in A. rewrite Forall_forall in A. specialize (A (Quoted (a ++ c :: b))).
  destruct A as (X & Y). { rewrite E. apply in_or_app. right. right. apply in_or_app. right. left. reflexivity. }
  destruct D as [-> | ->]; [apply X|apply Y]; apply in_or_app; right; left; reflexivity.
Qed.
(** Quoted cells first, plain ones after them. *)
Lemma quoted_first_spread qs ps : spread sep q (map Quoted qs ++ map Plain ps).
Proof.
  intros pre v mid a c b post E _. exfalso. revert pre E. induction qs as [|x qs IH]; intros pre E.
  - cbn [map app] in E. assert (H : In (Quoted (a ++ c :: b)) (map Plain ps)).
    { rewrite E. apply in_or_app. right. right. apply in_or_app. right. left. reflexivity. }
    apply in_map_iff in H. destruct H as (? & H & _). discriminate H.
  - cbn [map app] in E. destruct pre as [|y pre]; [discriminate E|]. injection E as _ E. exact (IH pre E).
Qed.

Lemma written_safe ls : proper sep q ls -> Forall (fun l => spread sep q (fst l)) ls ->
  Forall (safe_row sep LF q) (map (raw_fields q) ls).
Proof.
  intros P H. apply proper_forall in P. rewrite Forall_forall in *. intros f Hf. apply in_map_iff in Hf.
  destruct Hf as (l & <- & Hl). apply spread_safe; [apply P|apply H]; assumption.
Qed.

(** ** Unbroken cells *)
Lemma newline_q : newline q = false.
Proof. unfold newline. apply orb_false_iff. split; apply N.eqb_neq; assumption. Qed.

Lemma rest_plain_cell c : well_written sep q c -> (match c with Quoted v | Plain v => ~ In LF v /\ ~ In CR v end) ->
  rest_calm q newline (cell_bytes q c).
Proof.
  intros W U. destruct c as [v|v]; cbn [cell_bytes well_written] in *.
  - split; [|exact (endst_quote q v)]. apply calm_quote; [exact newline_q|]. apply Forall_forall. intros c Hc.
    destruct U as (A & B). unfold newline. apply orb_false_iff. split; apply N.eqb_neq; intros ->; contradiction.
  - apply rest_unquoted. intros H. rewrite Forall_forall in W. destruct (W _ H) as (A & _). congruence.
Qed.

Lemma rest_row cells : Forall (well_written sep q) cells -> unbroken cells -> rest_calm q newline (row_text sep q cells).
Proof.
  intros W U. unfold row_text. apply rest_join; [exact newline_q|congruence|]. apply Forall_map. unfold unbroken in U.
  rewrite Forall_forall in *. intros c Hc. apply rest_plain_cell; [apply W; exact Hc|apply U; exact Hc].
Qed.

Lemma rest_ends es : rest_calm q newline (concat (map end_bytes es)).
Proof.
  induction es as [|e es IH]; [apply rest_nil|]. cbn [map concat]. apply rest_app; [exact newline_q| |exact IH].
  destruct e; cbn [end_bytes].
  - apply rest_one. congruence.
  - change [CR; LF] with ([CR] ++ [LF]). apply rest_app; [exact newline_q| |]; apply rest_one; congruence.
Qed.

Lemma rest_text ls : proper sep q ls -> Forall (fun l => unbroken (fst l)) ls -> rest_calm q newline (csv_text sep q ls).
Proof.
  intros P U. apply proper_forall in P. induction ls as [|l ls IH]; [apply rest_nil|].
  inversion P as [|? ? (_ & _ & W) P']; subst. inversion U; subst.
  unfold csv_text. cbn [map concat]. apply rest_app; [exact newline_q| |apply IH; assumption].
  unfold line_text. apply rest_app; [exact newline_q|apply rest_row; assumption|apply rest_ends].
Qed.

Lemma ends_outside ls : proper sep q ls -> Forall (fun l => unbroken (fst l)) ls ->
  forall i, line_end_at (csv_text sep q ls) i = true -> inside_at false q (csv_text sep q ls) i = false.
Proof.
  intros P U i H. destruct (rest_text ls P U) as [C _]. unfold line_end_at, byte_is in H.
  destruct (nth_error (csv_text sep q ls) i) as [c|] eqn:E; [|discriminate].
  apply (C i c E). unfold newline. destruct (N.eqb c LF); [reflexivity|]. cbn [orb] in *.
  apply andb_true_iff in H. apply H.
Qed.

(** No carriage return of its own. *)
Lemma nlc_nil : no_lone_cr []. Proof. intros [|i]; discriminate. Qed.
Lemma nlc_cons c l : c <> CR -> no_lone_cr l -> no_lone_cr (c :: l).
Proof.
  intros H N [|i] E.
  - unfold byte_is in E. cbn [nth_error] in E. apply N.eqb_eq in E. contradiction.
  - apply (N i). exact E.
Qed.
Lemma nlc_crlf l : no_lone_cr l -> no_lone_cr (CR :: LF :: l).
Proof.
  intros N [|[|i]] E; [reflexivity| |apply (N i); exact E]. discriminate.
Qed.
Lemma nlc_app a b : ~ In CR a -> no_lone_cr b -> no_lone_cr (a ++ b).
Proof.
  intros H N. induction a as [|c a IH]; [exact N|]. cbn [app]. apply nlc_cons.
  - intros ->. apply H. left. reflexivity.
  - apply IH. intros X. apply H. right. exact X.
Qed.
Lemma nlc_ends es l : no_lone_cr l -> no_lone_cr (concat (map end_bytes es) ++ l).
Proof.
  intros N. induction es as [|e es IH]; [exact N|]. cbn [map concat]. rewrite <- app_assoc. destruct e; cbn [end_bytes app].
  - apply nlc_cons; [discriminate|exact IH].
  - apply nlc_crlf. exact IH.
Qed.
Lemma join_in c fs : In c (join sep fs) -> c = sep \/ exists f, In f fs /\ In c f.
Proof.
  induction fs as [|f fs IH]; [intros []|]. destruct fs as [|g fs].
  - cbn [join]. intros H. right. exists f. split; [left; reflexivity|exact H].
  - change (join sep (f :: g :: fs)) with (f ++ sep :: join sep (g :: fs)). intros H. apply in_app_or in H.
    destruct H as [H|[<-|H]]; [right; exists f; split; [left; reflexivity|exact H]|left; reflexivity|].
    destruct (IH H) as [A|(x & A & B)]; [left; exact A|right; exists x; split; [right; exact A|exact B]].
Qed.
Lemma row_no_cr cells : unbroken cells -> ~ In CR (row_text sep q cells).
Proof.
  intros U H. unfold row_text in H. apply join_in in H. destruct H as [H|(f & Hf & Hc)]; [congruence|].
  apply in_map_iff in Hf. destruct Hf as (c & <- & Hf). unfold unbroken in U. rewrite Forall_forall in U. specialize (U c Hf).
  destruct c as [v|v]; cbn [cell_bytes] in Hc; [|apply U; exact Hc].
  apply in_quote in Hc. destruct Hc as [Hc|Hc]; [congruence|]. apply U. exact Hc.
Qed.
Lemma text_no_lone ls : Forall (fun l => unbroken (fst l)) ls -> no_lone_cr (csv_text sep q ls).
Proof.
  induction 1 as [|l ls U _ IH]; [exact nlc_nil|]. unfold csv_text. cbn [map concat]. unfold line_text. rewrite <- app_assoc.
  apply nlc_app; [apply row_no_cr; exact U|]. apply nlc_ends. exact IH.
Qed.
End Safe.
