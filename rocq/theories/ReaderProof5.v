(** Row counts of tidy files; counterexamples for read_all. *)
From Verif Require Import Base WordsModel WordsProof ChunkSpec ChunkModel ChunkProof ChunkProof2 ChunkProof3
  FieldsSpec FieldsModel FieldsProof FieldsProof2 FieldsProof3 FieldsProof4 FieldsProof5
  ReaderSpec ReaderModel ReaderProof ReaderProof2 ReaderProof3 ReaderProof4.

Fixpoint lfs (q : byte) (st : bool) (l : bytes) : nat :=
  match l with
  | [] => 0
  | c :: r => if N.eqb c q then lfs q (negb st) r
              else (if negb st && N.eqb c LF then 1 else 0) + lfs q st r
  end.

Lemma no_lone_cr_tl c l : no_lone_cr (c :: l) -> no_lone_cr l.
Proof. intros H i Hi. exact (H (S i) Hi). Qed.

Lemma ends_lfs q : forall l st off, no_lone_cr l -> length (ends st q l off None) = lfs q st l.
Proof.
  induction l as [|c l IH]; intros st off H; [reflexivity|]. cbn [ends lfs].
  pose proof (no_lone_cr_tl _ _ H) as Ht. destruct (N.eqb c q); [apply IH, Ht|].
  rewrite app_length, IH by exact Ht. f_equal. unfold is_eol.
  destruct (N.eqb c LF) eqn:E; [destruct (negb st); reflexivity|].
  destruct (N.eqb c CR) eqn:E2; [|destruct (negb st); reflexivity].
  specialize (H 0). unfold byte_is in H. cbn [nth_error] in H. specialize (H E2).
  destruct l as [|d l]; [discriminate|]. cbn [nx_of]. cbn in H. rewrite H. destruct (negb st); reflexivity.
Qed.

Lemma snd_cons_first c p : snd (cons_first c p) = snd p.
Proof. unfold cons_first. destruct (fst p); reflexivity. Qed.

Lemma row_lfs sep q : q <> LF -> forall l st b, tidy_lines q b st l = true -> (b = false \/ l <> []) -> lfs q st l = 1 + lfs q false (snd (raw_row (N.eqb LF) sep q st l)) /\
  tidy_lines q true false (snd (raw_row (N.eqb LF) sep q st l)) = true /\
  length (snd (raw_row (N.eqb LF) sep q st l)) < length l /\
  (no_lone_cr l -> no_lone_cr (snd (raw_row (N.eqb LF) sep q st l))).
Proof.
  intros HqL. induction l as [|c l IH]; intros st b Ht Hb.
  - destruct Hb as [->|Hb]; [discriminate|congruence].
  - assert (Hrec : forall st', tidy_lines q false st' l = true ->
       lfs q st' l = 1 + lfs q false (snd (raw_row (N.eqb LF) sep q st' l)) /\
       tidy_lines q true false (snd (raw_row (N.eqb LF) sep q st' l)) = true /\
       length (snd (raw_row (N.eqb LF) sep q st' l)) < length (c :: l) /\
       (no_lone_cr (c :: l) -> no_lone_cr (snd (raw_row (N.eqb LF) sep q st' l)))).
    { intros st' H'. destruct (IH st' false H' (or_introl eq_refl)) as (H1 & H2 & H3 & H4).
      repeat split; [exact H1|exact H2|cbn; lia|]. intros H. apply H4. eapply no_lone_cr_tl, H. }
    cbn [tidy_lines] in Ht. cbn [lfs raw_row].
    destruct (N.eqb c q) eqn:Eq.
    + rewrite snd_cons_first. exact (Hrec (negb st) Ht).
    + destruct st.
      * rewrite snd_cons_first. cbn [negb andb Nat.add]. exact (Hrec true Ht).
      * destruct (newline c && b); [discriminate|]. cbn [negb andb].
        destruct (N.eqb c LF) eqn:EL.
        -- rewrite N.eqb_sym, EL. cbn [snd]. repeat split; [exact Ht|cbn; lia|]. apply no_lone_cr_tl.
        -- rewrite N.eqb_sym, EL. cbn [Nat.add]. pose proof (Hrec false Ht) as G.
           destruct (N.eqb c sep); rewrite ?snd_cons_first; [|exact G].
           destruct (raw_row (N.eqb LF) sep q false l); exact G.
Qed.

Lemma tidy_count sep q : q <> LF -> q <> CR -> forall n l, length l <= n -> tidy_lines q true false l = true ->
  rows_upto n sep q l = rows_upto n sep q l -> length (rows_upto n sep q l) = lfs q false l.
Proof.
  intros HqL HqC. induction n as [|n IH]; intros l Hn Ht _; [destruct l; [reflexivity|cbn in Hn; lia]|].
  destruct l as [|c l]; [reflexivity|].
  assert (Hnl : newline c = false).
  { cbn [tidy_lines] in Ht. destruct (N.eqb c q) eqn:E.
    - apply N.eqb_eq in E. subst. unfold newline. apply orb_false_iff. split; apply N.eqb_neq; congruence.
    - destruct (newline c); [discriminate|reflexivity]. }
  cbn [rows_upto trim_left]. rewrite Hnl.
  assert (Hne : true = false \/ c :: l <> []) by (right; discriminate).
  destruct (row_lfs sep q HqL (c :: l) false true Ht Hne) as (H1 & H2 & H3 & _).
  set (rest := snd _) in *. clearbody rest. cbn [length]. rewrite H1. cbn [length] in H3, Hn.
  rewrite IH; [reflexivity|lia|exact H2|reflexivity].
Qed.

Lemma tidy_reported sep q l : q <> LF -> q <> CR -> no_lone_cr l -> tidy_lines q true false l = true ->
  length (table_rows sep q l) = spec_row_count false q l.
Proof.
  intros H1 H2 H3 H4. unfold table_rows, spec_row_count. rewrite row_ends_ends by assumption.
  rewrite ends_lfs by assumption. apply tidy_count; try assumption; reflexivity || lia.
Qed.

Section All.
Context {V : Type}.
Variable conv : nat -> bytes -> option V.
Variables (lanes : nat) (clmul : bool) (sep q : byte) (sp : bytes).
Hypothesis Hl : lanes_ok lanes.
Hypothesis HqL : q <> LF.
Hypothesis HqC : q <> CR.
Hypothesis Hqs : q <> sep.
Hypothesis Hq0 : q <> 0%N.
Notation nc := (make_null_checker sp).

(** reported_rows, both paths. *)
Lemma read_all_reported nt ne ncols data he : 0 < ncols -> he <= length data ->
  (forall i, line_end_at (skipn he data) i = true -> inside_at false q (skipn he data) i = false) ->
  no_lone_cr (skipn he data) ->
  Forall (safe_row sep LF q) (table_rows sep q (skipn he data)) ->
  tidy_lines q true false (skipn he data) = true ->
  exists r, read_all conv lanes clmul sep q nc nt ne ncols data he = Some r /\
    reported_rows r = total_rows r /\
    Forall (fun col => length col = reported_rows r) (concat_columns ncols (chunks r)).
Proof.
  intros Hn Hhe Hb Hcr HS HT. unfold read_all.
  generalize (N.to_nat PARALLEL_THRESHOLD). intros thr.
  generalize (N.to_nat (calculate_chunk_size (N.of_nat (length data - he)) (N.of_nat ncols) nt)). intros ch.
  destruct (read_all_with_rect conv lanes clmul sep q sp Hl HqL HqC thr ch ne ncols data he Hn Hhe) as (r & Hr & _ & Hlen).
  exists r. split; [exact Hr|].
  assert (Hrep : reported_rows r = total_rows r); [|rewrite Hrep; split; [reflexivity|exact Hlen]].
  unfold read_all_with in Hr. destruct (Nat.eqb_spec ncols 0); [lia|].
  rewrite (read_serial_exact conv lanes clmul sep q sp Hl HqL HqC Hqs Hq0) in Hr by assumption.
  destruct (length data - he <? thr); [injection Hr as <-; reflexivity|].
  destruct (chunk_ranges lanes clmul q data he ch) as [rs|] eqn:Er; [|discriminate].
  destruct (length rs <=? 1); [injection Hr as <-; reflexivity|].
  destruct (read_chunks_exact conv lanes clmul sep q sp Hl HqL HqC Hqs Hq0 ne ncols data he ch rs Hn Hhe Er) as (cs & H1 & H2); try assumption.
  { intros s e. apply (cuts_outside conv lanes clmul sep q Hl HqL HqC Hqs Hq0 ch data he Hhe Hb). exact Er. }
  rewrite H1 in Hr. injection Hr as <-. cbn [reported_rows total_rows]. symmetry. apply tidy_reported; assumption.
Qed.
End All.

(** ** Counterexamples at the real chunk sizes *)
Local Notation NC := (make_null_checker []).

Lemma to_nat_le (a b : N) : N.leb a b = true -> N.to_nat a <= N.to_nat b.
Proof. intros H. apply N.leb_le in H. lia. Qed.
Lemma to_nat_lt (a b : N) : N.ltb a b = true -> N.to_nat a < N.to_nat b.
Proof. intros H. apply N.ltb_lt in H. lia. Qed.
Lemma to_nat_mono (a b : N) : (a <= b)%N -> N.to_nat a <= N.to_nat b.
Proof. lia. Qed.

Lemma chunk_size_nat (fs nc nt : N) : (N.to_nat 1048576 <= N.to_nat (calculate_chunk_size fs nc nt) <= N.to_nat 4194304)%nat.
Proof.
  destruct (calculate_chunk_size_bounds fs nc nt) as [H1 H2]. split; apply to_nat_mono; assumption.
Qed.

Lemma lanes16 : lanes_ok 16.
Proof. split; [lia|exists 4; reflexivity]. Qed.

Lemma nat_bounds : 1 <= N.to_nat 1048576 /\ N.to_nat 4194304 + 1 < N.to_nat 67108864 /\ N.to_nat PARALLEL_THRESHOLD <= N.to_nat 67108864.
Proof.
  split; [exact (to_nat_le 1 1048576 eq_refl)|]. split; [|exact (to_nat_le PARALLEL_THRESHOLD 67108864 eq_refl)].
  pose proof (to_nat_lt 4194305 67108864 eq_refl) as H. change 4194305%N with (4194304 + 1)%N in H.
  rewrite N2Nat.inj_add in H. exact H.
Qed.

Lemma parallel_differs (nt : N) : exists data r s,
  read_all keep 16 true COMMA DQ NC nt false 1 data 0 = Some r /\
  read_all_serial keep 16 true COMMA DQ NC false 1 data 0 = Some s /\
  concat_columns 1 (chunks r) <> concat_columns 1 (chunks s).
Proof.
  exists (long_quoted (N.to_nat 67108864)).
  unfold read_all. generalize (chunk_size_nat (N.of_nat (length (long_quoted (N.to_nat 67108864)) - 0)) (N.of_nat 1) nt).
  generalize (N.to_nat (calculate_chunk_size (N.of_nat (length (long_quoted (N.to_nat 67108864)) - 0)) (N.of_nat 1) nt)).
  generalize nat_bounds.
  generalize (N.to_nat PARALLEL_THRESHOLD) as thr. generalize (N.to_nat 67108864) as n.
  generalize (N.to_nat 1048576) as a, (N.to_nat 4194304) as b. intros a b n thr H0 c H1.
  destruct (long_split 16 true false thr n c lanes16) as (rest & rows & rep & H); try lia.
  do 2 eexists. split; [exact H|]. split; [apply long_serial, lanes16|].
  cbn [chunks]. unfold concat_columns. cbn [seq map concat nth app].
  intros E. injection E as E _. destruct n; [lia|]. cbn in E. discriminate.
Qed.

Lemma threads_differ : exists data r s,
  read_all keep 16 true COMMA DQ NC 1 false 1 data 0 = Some r /\
  read_all keep 16 true COMMA DQ NC 64 false 1 data 0 = Some s /\
  concat_columns 1 (chunks r) <> concat_columns 1 (chunks s).
Proof.
  exists (long_quoted (N.to_nat 67108864)).
  unfold read_all. rewrite long_length, Nat.sub_0_r, Nat2N.inj_add, N2Nat.id.
  assert (E1 : calculate_chunk_size (67108864 + N.of_nat 3) (N.of_nat 1) 1 = 4194304%N) by (vm_compute; reflexivity).
  assert (E2 : calculate_chunk_size (67108864 + N.of_nat 3) (N.of_nat 1) 64 = 1048576%N) by (vm_compute; reflexivity).
  rewrite E1, E2. clear E1 E2.
  generalize nat_bounds. generalize (to_nat_lt 1048576 4194304 eq_refl).
  generalize (N.to_nat PARALLEL_THRESHOLD) as thr. generalize (N.to_nat 67108864) as n.
  generalize (N.to_nat 1048576) as a, (N.to_nat 4194304) as b. intros a b n thr Hab H0.
  destruct (long_split 16 true false thr n b lanes16) as (rest & rows & rep & H); try lia.
  destruct (long_split 16 true false thr n a lanes16) as (rest' & rows' & rep' & H'); try lia.
  do 2 eexists. split; [exact H|]. split; [exact H'|].
  cbn [chunks]. unfold concat_columns. cbn [seq map concat nth app].
  intros E. injection E as E _. apply (f_equal (@length byte)) in E. rewrite !repeat_length in E. lia.
Qed.

Lemma reported_differs (nt : N) : exists data r,
  read_all keep 16 true COMMA DQ NC nt false 1 data 0 = Some r /\
  total_rows r = 0 /\ reported_rows r = N.to_nat 67108864.
Proof.
  exists (repeat LF (N.to_nat 67108864)).
  unfold read_all. generalize (chunk_size_nat (N.of_nat (length (repeat LF (N.to_nat 67108864)) - 0)) (N.of_nat 1) nt).
  generalize (N.to_nat (calculate_chunk_size (N.of_nat (length (repeat LF (N.to_nat 67108864)) - 0)) (N.of_nat 1) nt)).
  generalize nat_bounds.
  generalize (N.to_nat PARALLEL_THRESHOLD) as thr. generalize (N.to_nat 67108864) as n.
  generalize (N.to_nat 1048576) as a, (N.to_nat 4194304) as b. intros a b n thr H0 c H1.
  destruct (lfs_split 16 true false thr n c lanes16) as (cs & H); try lia.
  eexists. split; [exact H|]. split; reflexivity.
Qed.

(** Files without quotes. *)
Lemma rr_rest_in sep q : forall l st x, In x (snd (raw_row (N.eqb LF) sep q st l)) -> In x l.
Proof.
  induction l as [|c l IH]; intros st x H; [destruct H|]. cbn [raw_row] in H.
  destruct (N.eqb c q); [rewrite snd_cons_first in H; right; eapply IH; exact H|].
  destruct st; [rewrite snd_cons_first in H; right; eapply IH; exact H|].
  destruct (N.eqb LF c); [right; exact H|].
  destruct (N.eqb c sep); [|rewrite snd_cons_first in H; right; eapply IH; exact H].
  right. apply (IH false). destruct (raw_row (N.eqb LF) sep q false l). exact H.
Qed.
Lemma trim_left_in p : forall (l : bytes) x, In x (trim_left p l) -> In x l.
Proof. induction l as [|c l IH]; intros x H; [destruct H|]. cbn in H. destruct (p c); [right; apply IH, H|exact H]. Qed.

Lemma quote_free_safe sep q : forall n l, ~ In q l -> Forall (safe_row sep LF q) (rows_upto n sep q l).
Proof.
  induction n as [|n IH]; intros l H; [constructor|]. cbn [rows_upto].
  destruct (trim_left newline l) as [|c l'] eqn:E; [constructor|].
  assert (H' : ~ In q (c :: l')) by (rewrite <- E; intros Hx; apply H; eapply trim_left_in; exact Hx).
  constructor.
  - apply safe_no_quotes. exact H'.
  - apply IH. intros Hx. apply H'. eapply rr_rest_in. exact Hx.
Qed.
