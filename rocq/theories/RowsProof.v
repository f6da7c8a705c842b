(** Line ends against rows: the difference is made of blank lines and an open last row. *)
From Verif Require Import Base WordsModel WordsProof ChunkSpec ChunkModel ChunkProof ChunkProof2 ChunkProof3
  FieldsSpec FieldsModel FieldsProof FieldsProof2 FieldsProof3 FieldsProof4 FieldsProof5
  ReaderSpec ReaderModel ReaderProof ReaderProof2 ReaderProof3 ReaderProof4 ReaderProof5 RowsSpec.

Definition b2n (b : bool) : nat := if b then 1 else 0.

(** Inside a row: up to its end. *)
Lemma in_row sep q : q <> LF -> forall l st,
  let rest := snd (raw_row (N.eqb LF) sep q st l) in
  lfs q st l + b2n (row_open q false st l) = 1 + (lfs q false rest + b2n (row_open q true false rest)) /\
  blank_lines q false st l = blank_lines q true false rest /\
  length rest <= length l /\ (l <> [] -> length rest < length l).
Proof.
  intros HqL. induction l as [|c l IH]; intros st; cbv zeta.
  - cbn. repeat split; try lia; congruence.
  - assert (G : forall st', let rest := snd (raw_row (N.eqb LF) sep q st' l) in
       lfs q st' l + b2n (row_open q false st' l) = 1 + (lfs q false rest + b2n (row_open q true false rest)) /\
       blank_lines q false st' l = blank_lines q true false rest /\
       length rest <= length (c :: l) /\ (c :: l <> [] -> length rest < length (c :: l))).
    { intros st'. destruct (IH st') as (H1 & H2 & H3 & _). cbv zeta. repeat split; [exact H1|exact H2|cbn; lia|cbn; lia]. }
    cbn [lfs raw_row row_open blank_lines].
    destruct (N.eqb c q) eqn:Eq.
    + rewrite snd_cons_first. exact (G (negb st)).
    + destruct st.
      * rewrite snd_cons_first. cbn [negb andb Nat.add]. exact (G true).
      * cbn [negb andb]. destruct (N.eqb c LF) eqn:EL.
        -- rewrite N.eqb_sym, EL. cbn [snd]. repeat split; cbn; lia.
        -- rewrite N.eqb_sym, EL. cbn [Nat.add]. pose proof (G false) as G'. cbv zeta in G'.
           destruct (N.eqb c sep); rewrite ?snd_cons_first; [|exact G'].
           destruct (raw_row (N.eqb LF) sep q false l); exact G'.
Qed.

(** Blank lines in front of a row; CRs are only found before LF. *)
Lemma before_row q : q <> LF -> q <> CR -> forall l,
  let rest := trim_left newline l in
  lfs q false l + blank_lines q true false rest = lfs q false rest + blank_lines q true false l /\
  row_open q true false l = row_open q true false rest /\ length rest <= length l.
Proof.
  intros HL HC. induction l as [|c l IH]; cbv zeta; [cbn; lia|]. cbn [trim_left].
  destruct (newline c) eqn:E; [|repeat split; lia].
  cbn [lfs blank_lines row_open]. cbv zeta in IH. cbn [length]. destruct IH as (I1 & I2 & I3).
  unfold newline in E. apply orb_true_iff in E. destruct E as [E|E]; apply N.eqb_eq in E; subst c.
  - rewrite (proj2 (N.eqb_neq LF q)) by congruence. rewrite N.eqb_refl. cbn [negb andb]. repeat split; [lia|exact I2|lia].
  - rewrite (proj2 (N.eqb_neq CR q)) by congruence.
    replace (N.eqb CR LF) with false by reflexivity. rewrite N.eqb_refl. cbn [negb andb Nat.add]. repeat split; [lia|exact I2|lia].
Qed.

Lemma rows_against_lines sep q : q <> LF -> q <> CR -> forall n l, length l <= n ->
  lfs q false l + b2n (row_open q true false l) = length (rows_upto n sep q l) + blank_lines q true false l.
Proof.
  intros HL HC. induction n as [|n IH]; intros l Hn; [destruct l; [reflexivity|cbn in Hn; lia]|].
  destruct (before_row q HL HC l) as (B1 & B2 & B3). rewrite B2. cbn [rows_upto].
  destruct (trim_left newline l) as [|c m] eqn:E; [cbn in *; lia|].
  assert (Hc : newline c = false).
  { clear - E. revert E. induction l as [|x l IH]; [discriminate|]. cbn [trim_left]. destruct (newline x) eqn:N; [exact IH|].
    intros [= -> _]. exact N. }
  cbn [length]. destruct (in_row sep q HL (c :: m) false) as (R1 & R2 & R3 & R4).
  specialize (R4 ltac:(discriminate)). set (rest := snd _) in *.
  assert (H : length rest <= n) by (cbn [length] in R4, B3; lia).
  specialize (IH rest H). clear R3 H.
  assert (X : blank_lines q true false (c :: m) = blank_lines q false false (c :: m) /\ row_open q true false (c :: m) = row_open q false false (c :: m)).
  { unfold newline in Hc. apply orb_false_iff in Hc. destruct Hc as [H1 H2]. cbn [blank_lines row_open].
    rewrite H1, H2. destruct (N.eqb c q); cbn [andb]; split; reflexivity. }
  destruct X as [X1 X2]. rewrite X1 in B1. rewrite X2. clear X1 X2 E Hc. lia.
Qed.

Lemma lines_and_rows sep q l : q <> LF -> q <> CR -> no_lone_cr l ->
  spec_row_count false q l + b2n (row_open q true false l) = length (table_rows sep q l) + blank_lines q true false l.
Proof.
  intros H1 H2 H3. unfold table_rows, spec_row_count. rewrite row_ends_ends by assumption.
  rewrite ends_lfs by assumption. apply rows_against_lines; try assumption. lia.
Qed.
