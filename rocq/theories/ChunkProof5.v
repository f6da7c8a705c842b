(** Row counts of ChunkFinder::find_chunks. *)
From Verif Require Import Base WordsModel WordsProof ChunkSpec ChunkModel ChunkProof ChunkProof2 ChunkProof3 ChunkProof4.

Lemma ends_first_split q : forall l st off nxt i r, ends st q l off nxt = i :: r ->
  off <= i /\ i < off + length l /\ r = ends false q (skipn (S (i - off)) l) (S i) nxt.
Proof.
  induction l as [|c l IH]; intros st off nxt i r H; [discriminate|]. rewrite ends_step in H.
  assert (G : forall st', ends st' q l (S off) nxt = i :: r ->
     off <= i /\ i < off + length (c :: l) /\ r = ends false q (skipn (S (i - off)) (c :: l)) (S i) nxt).
  { intros st' H'. destruct (IH _ _ _ _ _ H') as (G1 & G2 & G3). cbn [length]. split; [lia|]. split; [lia|].
    replace (i - off) with (S (i - S off)) by lia. exact G3. }
  destruct (N.eqb c q); [eapply G; exact H|].
  destruct (negb st && is_eol c (nx_of l nxt)) eqn:E; [|eapply G; exact H].
  cbn [app] in H. injection H as <- <-. cbn [length]. split; [lia|]. split; [lia|].
  rewrite Nat.sub_diag. cbn [skipn]. apply andb_true_iff in E. destruct E as [E _]. destruct st; [discriminate|reflexivity].
Qed.

Lemma row_ends_split q l i r : q <> LF -> q <> CR -> row_ends false q l = i :: r ->
  i < length l /\ r = map (Nat.add (S i)) (row_ends false q (skipn (S i) l)).
Proof.
  intros H1 H2 H. rewrite row_ends_ends in * by assumption.
  destruct (ends_first_split _ _ _ _ _ _ _ H) as (_ & G2 & G3). split; [lia|].
  rewrite Nat.sub_0_r in G3. rewrite ends_shift in G3. exact G3.
Qed.

Lemma piece_rows_split q l i r : q <> LF -> q <> CR -> row_ends false q l = i :: r ->
  piece_rows q l = 1 + piece_rows q (skipn (S i) l).
Proof.
  intros H1 H2 H. destruct (row_ends_split q l i r H1 H2 H) as [Hi Hr].
  unfold piece_rows, spec_row_count, spec_last_row_end. rewrite H. cbn [length rev].
  rewrite Hr, map_length, <- map_rev. rewrite skipn_length.
  destruct (rev (row_ends false q (skipn (S i) l))) as [|j rest] eqn:E.
  - cbn [map app]. replace (0 <? length l - S i) with (S i <? length l) by (destruct (Nat.ltb_spec (S i) (length l)), (Nat.ltb_spec 0 (length l - S i)); lia). lia.
  - cbn [map app]. replace (S j <? length l - S i) with (S (S i + j) <? length l); [lia|].
    destruct (Nat.ltb_spec (S (S i + j)) (length l)), (Nat.ltb_spec (S j) (length l - S i)); lia.
Qed.

Lemma chunk_row_count_spec q d fre : q <> LF -> q <> CR ->
  (forall s, fre s = Some (spec_find_row_end q d s)) ->
  forall fuel pos rows, length d - pos < fuel -> pos <= length d ->
  chunk_row_count fuel fre (length d) pos rows = Some (rows + piece_rows q (skipn pos d)).
Proof.
  intros H1 H2 Hf. induction fuel as [|fuel IH]; intros pos rows Hfu Hp; [lia|]. cbn [chunk_row_count].
  destruct (Nat.ltb_spec pos (length d)) as [Hlt|Hge].
  - rewrite Hf. pose proof (spec_find_row_end_bounds q d pos Hlt) as Hb.
    replace (pos <? spec_find_row_end q d pos) with true by lia.
    rewrite IH by lia. f_equal. unfold spec_find_row_end.
    destruct (row_ends false q (skipn pos d)) as [|i r] eqn:E.
    + rewrite skipn_all. unfold piece_rows at 2. unfold spec_row_count, spec_last_row_end. rewrite E. cbn [length rev].
      rewrite skipn_length. replace (0 <? length d - pos) with true by lia. cbn. lia.
    + rewrite (piece_rows_split q _ i r H1 H2 E), skipn_skipn. replace (pos + S i) with (S i + pos) by lia. lia.
  - replace pos with (length d) by lia. rewrite skipn_all. cbn. f_equal. lia.
Qed.

Lemma find_chunks_rows lanes clmul q data target : lanes_ok lanes -> q <> LF -> q <> CR ->
  exists bs, find_chunks lanes clmul q data target = Some bs /\
    Forall (fun b => b_rows b = piece_rows q (slice (b_start b) (b_end b) data)) bs.
Proof.
  intros Hl H1 H2. unfold find_chunks.
  destruct (chunk_ranges_tiles lanes clmul q data 0 target Hl H1 H2 (Nat.le_0_l _)) as (rs & Hr & Ht). rewrite Hr.
  destruct (map_option_total (fun '(s, e) => match chunk_row_count (S (length data)) (find_row_end lanes clmul q (firstn e data)) e s 0 with
        | Some n => Some (mkBoundary s e n) | None => None end)
     (fun _ b => b_rows b = piece_rows q (slice (b_start b) (b_end b) data)) rs) as (bs & Hb & HF).
  { intros [s e] Hin. destruct (tiles_in 0 (length data) rs Ht s e Hin) as (T1 & T2 & T3).
    pose proof (chunk_row_count_spec q (firstn e data) (find_row_end lanes clmul q (firstn e data)) H1 H2) as G.
    rewrite firstn_length_le in G by lia. rewrite G; [| |lia|lia].
    - eexists. split; [reflexivity|]. cbn [b_rows b_start b_end]. cbn [Nat.add]. unfold slice. rewrite skipn_firstn_comm. reflexivity.
    - intros s'. apply find_row_end_spec; assumption. }
  exists bs. split; [exact Hb|]. clear -HF. induction HF; constructor; assumption.
Qed.
