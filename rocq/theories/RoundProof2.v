(** Written cells and what they mean; written rows are ones the reader handles. *)
From Verif Require Import Base ChunkSpec FieldsSpec ReaderSpec RoundSpec FieldsModel ChunkProof FieldsProof FieldsProof2 FieldsProof3 FieldsProof4 FieldsProof6
  ReaderModel ReaderProof ReaderProof2 RoundProof.

Section Cell.
Variables sep q : byte.
Hypothesis Hqs : q <> sep.
Hypothesis HqL : q <> LF.
Hypothesis HqC : q <> CR.
Variable nulls : bytes.
Hypothesis Hqn : ~ In q nulls.

Lemma dequoted_quote v : dequoted q (quote_value q v) = v.
Proof. rewrite <- unquote_dequoted. apply unquote_quote. Qed.

Lemma pieces_in s p c : In p (comma_pieces s) -> In c p -> In c s.
Proof.
  revert p. induction s as [|d s IH]; intros p; cbn [comma_pieces]; [intros [<-|[]] []|].
  destruct (N.eqb d COMMA).
  - intros [<-|H] Hc; [contradiction|]. right. eapply IH; eassumption.
  - destruct (comma_pieces s) as [|x xs]; [intros [<-|[]] [<-|[]]; left; reflexivity|].
    intros [<-|H] Hc.
    + destruct Hc as [<-|Hc]; [left; reflexivity|]. right. apply (IH x); [left; reflexivity|exact Hc].
    + right. apply (IH p); [right; exact H|exact Hc].
Qed.

Lemma quoted_not_null v : denotes_null nulls (quote_value q v) = false.
Proof.
  unfold quote_value at 1. cbn [denotes_null].
  destruct (existsb _ (comma_pieces nulls)) eqn:E; [|reflexivity]. exfalso.
  apply existsb_exists in E. destruct E as (p & Hp & Hd).
  destruct (list_eq_dec N.eq_dec p _) as [->|]; [|discriminate].
  apply Hqn. eapply pieces_in; [exact Hp|left; reflexivity].
Qed.

Lemma without_cr_snoc f : without_cr (f ++ [CR]) = f.
Proof. unfold without_cr. rewrite rev_app_distr. cbn [rev app]. change (N.eqb CR CR) with true. apply rev_involutive. Qed.
Lemma without_cr_keep f : (forall g, f <> g ++ [CR]) -> without_cr f = f.
Proof.
  intros H. unfold without_cr. destruct (rev f) as [|c r] eqn:E; [reflexivity|].
  destruct (N.eqb_spec c CR) as [->|]; [|reflexivity]. exfalso. apply (H (rev r)).
  rewrite <- (rev_involutive f), E. reflexivity.
Qed.
Lemma without_cr_cell c : well_written sep q c -> without_cr (cell_bytes q c) = cell_bytes q c.
Proof.
  intros W. apply without_cr_keep. intros g E. destruct c as [v|v]; cbn [cell_bytes well_written] in *.
  - unfold quote_value in E. change (q :: double_quotes q v ++ [q]) with ((q :: double_quotes q v) ++ [q]) in E.
    apply app_inj_tail in E. destruct E as [_ E]. exact (HqC E).
  - rewrite E in W. apply Forall_app in W. destruct W as [_ W]. inversion W as [|? ? (_ & _ & _ & D) _]. congruence.
Qed.

Lemma starts_cell c t : well_written sep q c -> (forall b r, t = b :: r -> b <> q) ->
  starts_with q (cell_bytes q c ++ t) = match c with Quoted _ => true | Plain _ => false end.
Proof.
  intros W HT. destruct c as [v|v]; cbn [cell_bytes well_written] in *.
  - unfold quote_value. cbn [app starts_with]. apply N.eqb_refl.
  - destruct v as [|b v]; cbn [app starts_with].
    + destruct t as [|b t]; [reflexivity|]. apply N.eqb_neq. apply (HT b t eq_refl).
    + inversion W as [|? ? (A & _) _]. apply N.eqb_neq. exact A.
Qed.

Lemma cell_meaning c t : well_written sep q c -> t = [] \/ t = [CR] ->
  field_text nulls q (cell_bytes q c ++ t) = meaning nulls c.
Proof.
  intros W T. unfold field_text. rewrite starts_cell; [|exact W|].
  2:{ intros b r E. destruct T as [->| ->]; [discriminate|]. injection E as <- _. congruence. }
  assert (WC : without_cr (cell_bytes q c ++ t) = cell_bytes q c).
  { destruct T as [->| ->]; [rewrite app_nil_r; apply without_cr_cell; exact W|apply without_cr_snoc]. }
  rewrite WC. destruct c as [v|v]; cbn [cell_bytes meaning].
  - rewrite quoted_not_null, dequoted_quote. reflexivity.
  - reflexivity.
Qed.

Lemma cr_of_cases es : cr_of es = [] \/ cr_of es = [CR].
Proof. destruct es as [|[|] es]; cbn [cr_of]; auto. Qed.

Lemma field_cells l k : proper_line sep q l ->
  match nth_error (raw_fields q l) k with
  | None => nth_error (fst l) k = None
  | Some f => exists c, nth_error (fst l) k = Some c /\ field_text nulls q f = meaning nulls c
  end.
Proof.
  destruct l as [cells es]. intros (NE & _ & W). unfold raw_fields. cbn [fst snd] in *.
  pose proof (app_removelast_last (Plain []) NE) as D.
  set (i := removelast cells) in *. set (x := last cells (Plain [])) in *. clearbody i x. subst cells.
  apply Forall_app in W. destruct W as [WI WX]. inversion WX as [|? ? Wx _]; subst.
  destruct (Nat.lt_ge_cases k (length i)) as [L|L].
  - rewrite !nth_error_app1 by (rewrite ?map_length; exact L).
    rewrite nth_error_map. destruct (nth_error i k) as [c|] eqn:E; [|apply nth_error_None in E; lia].
    cbn [option_map]. exists c. split; [reflexivity|].
    rewrite <- (app_nil_r (cell_bytes q c)). apply cell_meaning; [|left; reflexivity].
    rewrite Forall_forall in WI. apply WI. eapply nth_error_In. exact E.
  - rewrite !nth_error_app2 by (rewrite ?map_length; exact L). rewrite map_length.
    destruct (k - length i) as [|m]; cbn [nth_error].
    + exists x. split; [reflexivity|]. apply cell_meaning; [exact Wx|apply cr_of_cases].
    + destruct m; reflexivity.
Qed.

Lemma row_cell_meant {V} (conv : nat -> bytes -> option V) l k : proper_line sep q l ->
  row_cell conv nulls q (raw_fields q l) k = cell_value conv nulls (fst l) k.
Proof.
  intros P. unfold row_cell, cell_value. pose proof (field_cells l k P) as F.
  destruct (nth_error (raw_fields q l) k) as [f|].
  - destruct F as (c & -> & ->). reflexivity.
  - rewrite F. reflexivity.
Qed.
End Cell.

Lemma proper_forall sep q ls : proper sep q ls -> Forall (proper_line sep q) ls.
Proof. induction ls; intros P; [constructor|]. destruct P as (A & _ & C). constructor; auto. Qed.

Lemma columns_as_meant {V} (conv : nat -> bytes -> option V) sep q nulls ncols ls :
  q <> sep -> q <> LF -> q <> CR -> q <> 0%N -> sep <> LF -> sep <> CR -> ~ In q nulls -> proper sep q ls ->
  table_columns conv nulls sep q ncols (csv_text sep q ls) = columns_meant conv nulls ncols (map fst ls).
Proof.
  intros A B C D E F G P. unfold table_columns, columns_meant. rewrite written_rows by assumption.
  apply map_ext. intros k. rewrite !map_map. apply map_ext_in. intros l Hl.
  apply proper_forall in P. rewrite Forall_forall in P.
  eapply (row_cell_meant sep); eauto.
Qed.

(** * Delimiters inside quotes *)
Section Calm.
Variable q : byte.
Variable p : byte -> bool.
Hypothesis pq : p q = false.
Definition calm (st : bool) (l : bytes) : Prop :=
  forall i c, nth_error l i = Some c -> p c = true -> inside_at st q l i = false.

Lemma calm_app st a b : calm st a -> calm (endst st q a) b -> calm st (a ++ b).
Proof.
  intros HA HB i c E P. destruct (Nat.lt_ge_cases i (length a)) as [L|L].
  - rewrite nth_error_app1 in E by exact L. rewrite inside_at_prefix by lia. eapply HA; eassumption.
  - rewrite nth_error_app2 in E by exact L. replace i with (length a + (i - length a)) by lia.
    rewrite inside_at_app. eapply HB; eassumption.
Qed.
Lemma calm_none st l : Forall (fun c => p c = false) l -> calm st l.
Proof. intros H i c E P. apply nth_error_In in E. rewrite Forall_forall in H. rewrite (H c E) in P. discriminate. Qed.
Lemma calm_one c : calm false [c].
Proof. intros [|i] d E P; [apply inside_at_0|destruct i; discriminate]. Qed.
Lemma endst_app st a b : endst st q (a ++ b) = endst (endst st q a) q b.
Proof. revert st. induction a as [|c a IH]; intros st; [reflexivity|]. cbn [app endst]. apply IH. Qed.
Lemma endst_none st l : ~ In q l -> endst st q l = st.
Proof.
  revert st. induction l as [|c l IH]; intros st H; [reflexivity|]. cbn [endst].
  destruct (N.eqb_spec c q) as [->|N]; [exfalso; apply H; left; reflexivity|].
  apply IH. intros X. apply H. right. exact X.
Qed.
Lemma endst_double st v : endst st q (double_quotes q v) = st.
Proof.
  revert st. induction v as [|c v IH]; intros st; [reflexivity|]. cbn [double_quotes].
  destruct (N.eqb_spec c q) as [->|N]; cbn [endst].
  - rewrite N.eqb_refl. rewrite negb_involutive. apply IH.
  - destruct (N.eqb_spec c q); [contradiction|]. apply IH.
Qed.
Lemma endst_quote v : endst false q (quote_value q v) = false.
Proof.
  unfold quote_value. cbn [endst]. rewrite N.eqb_refl. cbn [negb]. rewrite endst_app, endst_double. cbn [endst].
  rewrite N.eqb_refl. reflexivity.
Qed.
Lemma in_double c v : In c (double_quotes q v) -> c = q \/ In c v.
Proof.
  induction v as [|d v IH]; [intros []|]. cbn [double_quotes]. destruct (N.eqb_spec d q) as [->|N].
  - intros [<-|[<-|H]]; auto. destruct (IH H); auto. right. right. assumption.
  - intros [<-|H]; [right; left; reflexivity|]. destruct (IH H); auto. right. right. assumption.
Qed.
Lemma in_quote c v : In c (quote_value q v) -> c = q \/ In c v.
Proof.
  unfold quote_value. intros [<-|H]; [auto|]. apply in_app_or in H. destruct H as [H|[<-|[]]]; [apply in_double; exact H|auto].
Qed.
Lemma calm_quote v : Forall (fun c => p c = false) v -> calm false (quote_value q v).
Proof.
  intros H. apply calm_none. apply Forall_forall. intros c Hc. apply in_quote in Hc. destruct Hc as [->|Hc]; [exact pq|].
  rewrite Forall_forall in H. apply H. exact Hc.
Qed.

Definition rest_calm (l : bytes) : Prop := calm false l /\ endst false q l = false.
Lemma rest_app a b : rest_calm a -> rest_calm b -> rest_calm (a ++ b).
Proof.
  intros (A & B) (C & D). split.
  - apply calm_app; [exact A|]. rewrite B. exact C.
  - rewrite endst_app, B. exact D.
Qed.
Lemma rest_nil : rest_calm []. Proof. split; [intros [|i] c E; discriminate|reflexivity]. Qed.
Lemma rest_one c : c <> q -> rest_calm [c].
Proof. intros H. split; [apply calm_one|]. cbn [endst]. destruct (N.eqb_spec c q); [contradiction|reflexivity]. Qed.
Lemma rest_join sep fs : sep <> q -> Forall rest_calm fs -> rest_calm (join sep fs).
Proof.
  intros HS H. induction H as [|f fs A _ IH]; [exact rest_nil|].
  destruct fs as [|g fs]; [exact A|].
  change (join sep (f :: g :: fs)) with (f ++ [sep] ++ join sep (g :: fs)).
  apply rest_app; [exact A|]. apply rest_app; [apply rest_one; exact HS|exact IH].
Qed.
Lemma rest_unquoted l : ~ In q l -> rest_calm l.
Proof.
  intros H. split; [|apply endst_none; exact H].
  intros i c E P. clear E P. revert i. induction l as [|d l IH]; intros i.
  - unfold inside_at, quotes_before. rewrite firstn_nil. reflexivity.
  - destruct i as [|i]; [apply inside_at_0|]. rewrite inside_at_S.
    destruct (N.eqb_spec d q) as [->|N]; [exfalso; apply H; left; reflexivity|]. cbn [xorb]. apply IH.
    intros X. apply H. right. exact X.
Qed.
End Calm.
