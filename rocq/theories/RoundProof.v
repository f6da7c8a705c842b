(** Written tables and the rows a text holds. *)
From Verif Require Import Base ChunkSpec FieldsSpec ReaderSpec RoundSpec FieldsModel FieldsProof FieldsProof2 FieldsProof3 FieldsProof4 FieldsProof6
  ReaderModel ReaderProof ReaderProof2 PyProof.

Section Row.
Variables sep q : byte.
Hypothesis Hqs : q <> sep.
Hypothesis HqL : q <> LF.
Hypothesis HqC : q <> CR.
Hypothesis HsL : sep <> LF.
Hypothesis HsC : sep <> CR.
Variable eolp : byte -> bool.
Hypothesis eol_nl : forall c, eolp c = true -> newline c = true.

Lemma rr_cons_ne st l : exists f fs, fst (raw_row eolp sep q st l) = f :: fs.
Proof. destruct (fst (raw_row eolp sep q st l)) eqn:E; eauto. exfalso. revert E. apply (rr_nonempty eolp sep q). Qed.

Definition glue (f : bytes) (p : list bytes * bytes) : list bytes * bytes :=
  (match fst p with g :: gs => (f ++ g) :: gs | [] => [f] end, snd p).

Lemma rr_plain v l : Forall (fun b => b <> q /\ b <> sep /\ b <> LF /\ b <> CR) v ->
  raw_row eolp sep q false (v ++ l) = glue v (raw_row eolp sep q false l).
Proof.
  induction 1 as [|c v (A & B & C & D) _ IH].
  - destruct (rr_cons_ne false l) as (f & fs & E). unfold glue. cbn [app]. rewrite E.
    destruct (raw_row eolp sep q false l) as [a b]. cbn in *. subst. reflexivity.
  - cbn [app raw_row]. destruct (N.eqb_spec c q); [contradiction|].
    assert (eolp c = false).
    { destruct (eolp c) eqn:X; [|reflexivity]. apply eol_nl in X. unfold newline in X. apply orb_true_iff in X.
      destruct X as [X|X]; apply N.eqb_eq in X; contradiction. }
    rewrite H. destruct (N.eqb_spec c sep); [contradiction|]. rewrite IH.
    unfold glue, cons_first. cbn [fst snd]. destruct (rr_cons_ne false l) as (f & fs & ->). reflexivity.
Qed.

Lemma rr_quoted v l : raw_row eolp sep q false (quote_value q v ++ l) = glue (quote_value q v) (raw_row eolp sep q false l).
Proof.
  unfold quote_value.
  replace ((q :: double_quotes q v ++ [q]) ++ l) with (q :: double_quotes q v ++ (q :: l))
    by (cbn [app]; rewrite <- app_assoc; reflexivity).
  remember (double_quotes q v ++ q :: l) as m eqn:Em.
  cbn [raw_row]. rewrite N.eqb_refl. cbn [negb]. subst m.
  assert (E : raw_row eolp sep q true (q :: l) = cons_first q (raw_row eolp sep q false l)).
  { cbn [raw_row]. rewrite N.eqb_refl. reflexivity. }
  rewrite raw_row_double; [|exact Hqs|apply rr_cons_ne]. rewrite E.
  destruct (rr_cons_ne false l) as (f & fs & EF). unfold cons_first, glue. rewrite EF. cbn [fst snd app].
  rewrite <- app_assoc. reflexivity.
Qed.

Lemma rr_cell c l : well_written sep q c ->
  raw_row eolp sep q false (cell_bytes q c ++ l) = glue (cell_bytes q c) (raw_row eolp sep q false l).
Proof. destruct c; [intros _; apply rr_quoted|apply rr_plain]. Qed.

(** A row, followed by anything that does not extend its last field but by [t]. *)
Lemma rr_cells t l rest : raw_row eolp sep q false l = ([t], rest) -> eolp sep = false ->
  forall cells, cells <> [] -> Forall (well_written sep q) cells ->
  raw_row eolp sep q false (row_text sep q cells ++ l)
  = (map (cell_bytes q) (removelast cells) ++ [cell_bytes q (last cells (Plain [])) ++ t], rest).
Proof.
  intros E ES. unfold row_text. induction cells as [|c cells IH]; intros NE W; [congruence|].
  inversion W; subst. destruct cells as [|c2 cells].
  - cbn [map join removelast last app]. rewrite rr_cell by assumption. rewrite E. reflexivity.
  - change (join sep (map (cell_bytes q) (c :: c2 :: cells)))
      with (cell_bytes q c ++ sep :: join sep (map (cell_bytes q) (c2 :: cells))).
    rewrite <- app_assoc. cbn [app]. rewrite rr_cell by assumption.
    assert (X : forall r, raw_row eolp sep q false (sep :: r) = ([] :: fst (raw_row eolp sep q false r), snd (raw_row eolp sep q false r))).
    { intros r. cbn [raw_row]. destruct (N.eqb_spec sep q); [congruence|]. rewrite ES, N.eqb_refl. reflexivity. }
    rewrite X, IH by (assumption || discriminate). unfold glue. cbn [fst snd]. rewrite app_nil_r. reflexivity.
Qed.
End Row.

Section Text.
Variables sep q : byte.
Hypothesis Hqs : q <> sep.
Hypothesis HqL : q <> LF.
Hypothesis HqC : q <> CR.
Hypothesis Hq0 : q <> 0%N.
Hypothesis HsL : sep <> LF.
Hypothesis HsC : sep <> CR.

Definition cr_of (es : list ending) : bytes := match es with EndCRLF :: _ => [CR] | _ => [] end.
Definition raw_fields (l : line) : list bytes :=
  map (cell_bytes q) (removelast (fst l)) ++ [cell_bytes q (last (fst l) (Plain [])) ++ cr_of (snd l)].

Lemma lf_newline c : N.eqb LF c = true -> newline c = true.
Proof. intros H. apply N.eqb_eq in H. subst. reflexivity. Qed.
Lemma lf_sep : N.eqb LF sep = false.
Proof. apply N.eqb_neq. congruence. Qed.

Lemma ends_skip es l : exists t rest, (es <> [] -> t = cr_of es /\ trim_left newline rest = trim_left newline l) /\
  (es = [] -> l = [] -> t = [] /\ rest = []) /\
  (es <> [] \/ l = [] -> raw_row (N.eqb LF) sep q false (concat (map end_bytes es) ++ l) = ([t], rest)).
Proof.
  assert (TR : forall es l, trim_left newline (concat (map end_bytes es) ++ l) = trim_left newline l).
  { clear. induction es as [|e es IH]; intros l; [reflexivity|].
    cbn [map concat]. rewrite <- app_assoc. destruct e; cbn [end_bytes app trim_left];
      [change (newline LF) with true|change (newline CR) with true; change (newline LF) with true]; apply IH. }
  destruct es as [|e es].
  - exists [], []. split; [congruence|]. split; [auto|]. intros [X| ->]; [congruence|]. reflexivity.
  - exists (cr_of (e :: es)), (concat (map end_bytes es) ++ l).
    split; [intros _; split; [reflexivity|apply TR]|]. split; [discriminate|]. intros _.
    assert (NL : (LF =? q)%N = false) by (apply N.eqb_neq; congruence).
    assert (NC : (CR =? q)%N = false) by (apply N.eqb_neq; congruence).
    assert (NS : (CR =? sep)%N = false) by (apply N.eqb_neq; congruence).
    destruct e; cbn [map concat end_bytes app raw_row cr_of].
    + rewrite NL. change (N.eqb LF LF) with true. reflexivity.
    + rewrite NC, NS, NL. change (N.eqb LF CR) with false. change (N.eqb LF LF) with true. reflexivity.
Qed.

Lemma row_starts cells l : proper_line sep q (cells, l) -> exists c r, row_text sep q cells = c :: r /\ newline c = false.
Proof.
  intros (NE & NP & W). cbn [fst] in *.
  assert (NLb : forall c, c <> LF -> c <> CR -> newline c = false).
  { intros c A B. unfold newline. destruct (N.eqb_spec c LF); [contradiction|]. destruct (N.eqb_spec c CR); [contradiction|]. reflexivity. }
  destruct cells as [|c cells]; [congruence|]. inversion W; subst. unfold row_text.
  destruct c as [v|v].
  - destruct cells; cbn [map join cell_bytes]; unfold quote_value; cbn [app]; eexists; eexists; (split; [reflexivity|auto]).
  - destruct v as [|b v].
    + destruct cells as [|c2 cells]; [congruence|]. cbn [map join cell_bytes app]. eexists; eexists; (split; [reflexivity|auto]).
    + cbn [well_written] in H1. inversion H1 as [|? ? (A & B & C & D) _]; subst.
      destruct cells; cbn [map join cell_bytes app]; eexists; eexists; (split; [reflexivity|auto]).
Qed.

Lemma written_rows : forall ls, proper sep q ls -> table_rows sep q (csv_text sep q ls) = map raw_fields ls.
Proof.
  induction ls as [|(cells, es) ls IH]; intros P; [reflexivity|].
  destruct P as (PL & PE & P). cbn [snd fst] in *.
  unfold csv_text. cbn [map concat]. unfold line_text at 1. cbn [fst snd]. rewrite <- app_assoc.
  fold (csv_text sep q ls).
  destruct (row_starts cells es PL) as (c & r & E & NL).
  destruct (ends_skip es (csv_text sep q ls)) as (t & rest & A & B & C).
  assert (D : es <> [] \/ csv_text sep q ls = []).
  { destruct ls; [right; reflexivity|]. left. apply PE. discriminate. }
  specialize (C D). destruct PL as (NE & NP & W). cbn [fst] in *.
  pose proof (rr_cells sep q Hqs (N.eqb LF) lf_newline t _ rest C lf_sep cells NE W) as RR.
  assert (T0 : trim_left newline (row_text sep q cells ++ concat (map end_bytes es) ++ csv_text sep q ls)
    = c :: r ++ concat (map end_bytes es) ++ csv_text sep q ls).
  { rewrite E. cbn [app trim_left]. rewrite NL. reflexivity. }
  rewrite (table_rows_step (fun _ (t : bytes) => Some t) 0 sep q Hqs HqL Hq0 _ _ _ T0).
  rewrite E in RR. cbn [app] in RR. rewrite RR. cbn [fst snd].
  unfold raw_fields at 1. cbn [fst snd].
  destruct es as [|e es].
  - destruct D as [D|D]; [congruence|]. destruct (B eq_refl D) as (-> & ->).
    assert (ls = []).
    { destruct ls; [reflexivity|]. exfalso. apply PE; [discriminate|reflexivity]. }
    subst ls. reflexivity.
  - destruct A as (-> & TL); [discriminate|]. f_equal.
    rewrite (table_rows_trim sep q rest (csv_text sep q ls) HqL Hq0 Hqs TL). apply IH. exact P.
Qed.
End Text.
