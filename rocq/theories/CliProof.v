(** Proofs about the command-line tool: printed rows read back. *)
From Verif Require Import Base ChunkSpec FieldsSpec FieldsModel FieldsProof FieldsProof2 FieldsProof3 FieldsProof4 ReaderSpec ReaderModel ReaderProof
  TypesSpec TypesModel CliSpec CliModel.

Lemma flat_double q : forall f, flat_map (fun c => if N.eqb c q then [q; c] else [c]) f = double_quotes q f.
Proof.
  induction f as [|c r IH]; [reflexivity|]. cbn [flat_map double_quotes]. rewrite IH.
  destruct (N.eqb_spec c q) as [->|]; reflexivity.
Qed.

Lemma output_field_eq d q f : output_field d q f = if needs_quote d q f then quote_value q f else f.
Proof. unfold output_field, quote_value. rewrite flat_double. reflexivity. Qed.

(** ** One row *)
Section Row.
Variables (d q : byte).
Hypothesis Hdq : d <> q.
Hypothesis HdL : d <> LF.
Hypothesis HdC : d <> CR.
Hypothesis HqL : q <> LF.
Hypothesis HqC : q <> CR.
Notation row := (raw_row (N.eqb LF) d q).

Lemma row_nonempty inside l : fst (row inside l) <> [].
Proof.
  destruct l as [|c r]; [discriminate|]. cbn [raw_row].
  assert (K : forall c p, fst (cons_first c p) <> []) by (intros x [[|] ?]; discriminate).
  destruct (N.eqb c q); [apply K|]. destruct inside; [apply K|]. destruct (N.eqb LF c); [discriminate|].
  destruct (N.eqb c d); [discriminate|apply K].
Qed.

(** An unquoted field in front of a text. *)
Lemma row_plain : forall f l, needs_quote d q f = false -> row false (f ++ l) = prepend f (row false l).
Proof.
  induction f as [|c f IH]; intros l H.
  - cbn [app]. unfold prepend. pose proof (row_nonempty false l). destruct (row false l) as [[|x xs] y]; [contradiction|reflexivity].
  - unfold needs_quote in H. cbn [existsb] in H. rewrite !orb_false_iff in H.
    destruct H as ((((A1 & A2) & (B1 & B2)) & (C1 & C2)) & (D1 & D2)).
    cbn [app raw_row]. rewrite N.eqb_sym, B1. rewrite C1. rewrite (N.eqb_sym c d), A1.
    rewrite IH by (unfold needs_quote; rewrite A2, B2, C2, D2; reflexivity).
    unfold prepend, cons_first. destruct (row false l) as [[|x xs] y]; reflexivity.
Qed.

(** Inside quotes. *)
Lemma row_quoted : forall v l, row true (double_quotes q v ++ q :: l) = prepend (double_quotes q v ++ [q]) (row false l).
Proof.
  assert (C : forall c p, fst p <> [] -> cons_first c p = prepend [c] p) by exact cons_prepend.
  induction v as [|c v IH]; intros l.
  - cbn [double_quotes app raw_row]. rewrite N.eqb_refl. cbn [negb]. apply C, row_nonempty.
  - cbn [double_quotes]. destruct (N.eqb_spec c q) as [->|N].
    + cbn [app raw_row]. rewrite N.eqb_refl. cbn [negb raw_row]. rewrite IH.
      pose proof (row_nonempty false l). destruct (row false l) as [[|x xs] y]; [contradiction|reflexivity].
    + cbn [app raw_row]. rewrite (proj2 (N.eqb_neq c q) N). rewrite IH.
      pose proof (row_nonempty false l). destruct (row false l) as [[|x xs] y]; [contradiction|reflexivity].
Qed.

Lemma row_field f l : row false (output_field d q f ++ l) = prepend (output_field d q f) (row false l).
Proof.
  rewrite output_field_eq. destruct (needs_quote d q f) eqn:E; [|apply row_plain; exact E].
  unfold quote_value. cbn [app raw_row]. rewrite N.eqb_refl. cbn [negb]. rewrite <- app_assoc. cbn [app].
  rewrite row_quoted. pose proof (row_nonempty false l). destruct (row false l) as [[|x xs] y]; [contradiction|reflexivity].
Qed.

Lemma row_fields_tail : forall fs l, 
  row false (output_fields d q false fs ++ LF :: l) = ([] :: map (output_field d q) fs, l).
Proof.
  induction fs as [|f fs IH]; intros l.
  - cbn [output_fields app raw_row]. rewrite (proj2 (N.eqb_neq LF q)) by congruence. reflexivity.
  - cbn [output_fields]. cbn [app]. cbn [raw_row].
    rewrite (proj2 (N.eqb_neq d q) Hdq). rewrite (proj2 (N.eqb_neq LF d)) by congruence. rewrite N.eqb_refl.
    rewrite <- !app_assoc. rewrite row_field, IH. cbn [prepend fst snd map]. rewrite app_nil_r. reflexivity.
Qed.

Lemma row_output f fs l : row false (output_row d q (f :: fs) ++ l) = (map (output_field d q) (f :: fs), l).
Proof.
  unfold output_row. cbn [output_fields app]. rewrite <- !app_assoc. cbn [app].
  rewrite row_field, row_fields_tail. cbn [prepend fst snd map]. rewrite app_nil_r. reflexivity.
Qed.

(** A printed row that is not a single empty cell begins with something else
    than a line break. *)
Lemma output_starts f fs l : f :: fs <> [[]] ->
  trim_left newline (output_row d q (f :: fs) ++ l) = output_row d q (f :: fs) ++ l.
Proof.
  intros H. unfold output_row. cbn [output_fields app].
  assert (NC : forall c, c = d \/ c = q -> newline c = false).
  { intros c [->| ->]; unfold newline; rewrite (proj2 (N.eqb_neq _ LF)), (proj2 (N.eqb_neq _ CR)); auto. }
  destruct f as [|c f].
  - destruct fs as [|f' fs]; [congruence|]. unfold output_field. cbn [needs_quote existsb orb app output_fields trim_left].
    rewrite NC by auto. reflexivity.
  - unfold output_field. destruct (needs_quote d q (c :: f)) eqn:E.
    + cbn [app trim_left]. rewrite NC by auto. reflexivity.
    + unfold needs_quote in E. cbn [existsb] in E. rewrite !orb_false_iff in E.
      destruct E as ((_ & (C1 & _)) & (D1 & _)).
      cbn [app trim_left]. unfold newline. rewrite (N.eqb_sym c LF), C1, (N.eqb_sym c CR), D1. reflexivity.
Qed.

Lemma rows_printed : forall rows n, length (concat (map (output_row d q) rows)) <= n ->
  (forall r, In r rows -> r <> [] /\ r <> [[]]) ->
  rows_upto n d q (concat (map (output_row d q) rows)) = map (map (output_field d q)) rows.
Proof.
  induction rows as [|r rows IH]; intros n L H.
  - cbn [map concat]. destruct n; reflexivity.
  - destruct (H r (or_introl eq_refl)) as (H1 & H2). destruct r as [|f fs]; [congruence|].
    cbn [map concat] in *. rewrite app_length in L.
    assert (P : 0 < length (output_row d q (f :: fs))) by (unfold output_row; rewrite app_length; cbn [length]; lia).
    destruct n as [|n]; [lia|]. cbn [rows_upto]. rewrite output_starts by exact H2.
    destruct (output_row d q (f :: fs) ++ concat (map (output_row d q) rows)) as [|x xs] eqn:E.
    { apply app_eq_nil in E. destruct E as (E & _). rewrite E in P. cbn in P. lia. }
    rewrite <- E. rewrite row_output. cbn [fst snd]. rewrite IH; [reflexivity|lia|intros; apply H; right; assumption].
Qed.

Lemma cell_printed f : cell_of q (output_field d q f) = f.
Proof.
  rewrite output_field_eq. unfold cell_of. destruct (needs_quote d q f) eqn:E.
  - unfold quote_value at 1. cbn [starts_with]. rewrite N.eqb_refl.
    assert (W : without_cr (quote_value q f) = quote_value q f).
    { unfold without_cr, quote_value. cbn [rev]. rewrite rev_app_distr. cbn [rev app].
      rewrite (proj2 (N.eqb_neq q CR)) by auto. reflexivity. }
    rewrite W, <- unquote_dequoted. apply unquote_quote.
  - unfold needs_quote in E. rewrite !orb_false_iff in E. destruct E as (((A & B) & C) & D).
    assert (S0 : starts_with q f = false).
    { destruct f as [|c f]; [reflexivity|]. cbn [existsb] in B. apply orb_false_iff in B. cbn [starts_with].
      rewrite N.eqb_sym. apply B. }
    rewrite S0. unfold without_cr. destruct (rev f) as [|c r] eqn:R; [reflexivity|].
    destruct (N.eqb_spec c CR) as [->|]; [|reflexivity].
    exfalso. assert (I : In CR f) by (apply in_rev; rewrite R; left; reflexivity).
    assert (existsb (N.eqb CR) f = true) by (apply existsb_exists; exists CR; split; [exact I|apply N.eqb_refl]). congruence.
Qed.

Lemma printed_reads_back rows : (forall r, In r rows -> r <> [] /\ r <> [[]]) ->
  texts d q (concat (map (output_row d q) rows)) = rows.
Proof.
  intros H. unfold texts, table_rows. rewrite rows_printed by auto. rewrite map_map.
  rewrite <- (map_id rows) at 2. apply map_ext. intros r. rewrite map_map. rewrite <- (map_id r) at 2.
  apply map_ext. apply cell_printed.
Qed.
End Row.
