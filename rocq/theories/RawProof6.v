(** The line splitters with explicit reads compute what the list models compute, for every text. *)
From Verif Require Import Base TypesSpec WordsModel WordsProof ChunkSpec ChunkModel ChunkProof ChunkProof2 ChunkProof3 FieldsSpec FieldsModel FieldsProof FieldsProof4 FieldsProof5
  NumModel ReaderModel TypesModel RawModel RawProof RawModel3.

Lemma rd_some d i : i < length d -> exists c, rd d i = Some c /\ skipn i d = c :: skipn (i + 1) d.
Proof. intros H. destruct (pos d i) as [E _|c _ E1 E2]; [apply Nat.ltb_ge in E; lia|eauto]. Qed.
Lemma view_some d i n : i + n <= length d -> view d i n = Some (firstn n (skipn i d)).
Proof. intros H. unfold view, load. apply Nat.leb_le in H. rewrite H. reflexivity. Qed.

Lemma trim_front p d : forall f i n, n < f -> i + n <= length d -> exists i' n',
  raw_trim_front f p d i n = Some (i', n') /\ i' + n' = i + n /\ firstn n' (skipn i' d) = drop_while p (firstn n (skipn i d)).
Proof.
  induction f as [|f IH]; intros i n Hf Hn; [lia|]. cbn [raw_trim_front]. destruct n as [|n]; cbn [Nat.ltb Nat.leb].
  - exists i, 0. repeat split; reflexivity.
  - destruct (rd_some d i) as (c & -> & E); [lia|]. rewrite E. cbn [firstn drop_while]. destruct (p c) eqn:P.
    + replace (S n - 1) with n by lia. destruct (IH (i + 1) n) as (i' & n' & A & B & C); [lia|lia|]. exists i', n'. split; [exact A|]. split; [lia|exact C].
    + exists i, (S n). split; [reflexivity|]. split; [reflexivity|]. rewrite E. reflexivity.
Qed.
Lemma drop_while_end_snoc {A} (p : A -> bool) l x : drop_while_end p (l ++ [x]) = if p x then drop_while_end p l else l ++ [x].
Proof. unfold drop_while_end. rewrite rev_app_distr. cbn [rev app drop_while]. destruct (p x); [reflexivity|]. cbn [rev]. rewrite rev_involutive. reflexivity. Qed.
Lemma firstn_snoc_nth {A} (l : list A) n x : nth_error l n = Some x -> firstn (S n) l = firstn n l ++ [x].
Proof. revert n; induction l as [|y l IH]; intros [|n] H; try discriminate H; [injection H as ->; reflexivity|]. cbn [firstn app]. rewrite <- (IH n H). reflexivity. Qed.
Lemma trim_back p d : forall f i n, n < f -> i + n <= length d -> exists n',
  raw_trim_back f p d i n = Some n' /\ n' <= n /\ firstn n' (skipn i d) = drop_while_end p (firstn n (skipn i d)).
Proof.
  induction f as [|f IH]; intros i n Hf Hn; [lia|]. cbn [raw_trim_back]. destruct n as [|n]; cbn [Nat.ltb Nat.leb].
  - exists 0. repeat split; try reflexivity.
  - replace (i + S n - 1) with (i + n) by lia. destruct (rd_some d (i + n)) as (c & E & _); [lia|]. rewrite E.
    assert (N : nth_error (skipn i d) n = Some c) by (rewrite nth_error_skipn'; exact E).
    rewrite (firstn_snoc_nth _ _ _ N), drop_while_end_snoc. destruct (p c).
    + replace (S n - 1) with n by lia. destruct (IH i n) as (n' & A & B & C); [lia|lia|]. exists n'. split; [exact A|]. split; [lia|exact C].
    + exists (S n). split; [reflexivity|]. split; [lia|]. apply firstn_snoc_nth, N.
Qed.
Lemma raw_post_eq q d i n : i + n <= length d -> raw_post_process q d i n = Some (post_process q (firstn n (skipn i d))).
Proof.
  intros H. unfold raw_post_process, post_process. set (f := firstn n (skipn i d)).
  assert (L : length f = n) by (unfold f; rewrite firstn_length_le; [reflexivity|rewrite skipn_length; lia]).
  assert (Q : (if 2 <=? n then (let? first := rd d i in also (N.eqb first q) (let? final := rd d (i + n - 1) in Some (N.eqb final q))) else Some false) =
     Some ((2 <=? length f) && N.eqb (hd 0%N f) q && N.eqb (last f 0%N) q)).
  { rewrite L. destruct (Nat.leb_spec 2 n) as [G|G]; [|reflexivity]. destruct n as [|[|n]]; [lia|lia|].
    destruct (rd_some d i) as (a & -> & E); [lia|]. destruct (rd_some d (i + S (S n) - 1)) as (b & Eb & _); [lia|]. rewrite Eb.
    assert (N : nth_error (skipn i d) (S n) = Some b) by (rewrite nth_error_skipn'; replace (i + S n) with (i + S (S n) - 1) by lia; exact Eb).
    assert (LA : last f 0%N = b) by (unfold f; rewrite (firstn_snoc_nth _ _ _ N); apply last_last).
    assert (HD : hd 0%N f = a) by (unfold f; rewrite E; reflexivity).
    rewrite LA, HD. cbn [andb]. unfold also. destruct (N.eqb a q); reflexivity. }
  rewrite Q. set (quoted := (2 <=? length f) && N.eqb (hd 0%N f) q && N.eqb (last f 0%N) q).
  assert (S' : exists i' n', (if quoted then (i + 1, n - 2) else (i, n)) = (i', n') /\ i' + n' <= length d /\
     firstn n' (skipn i' d) = if quoted then firstn (length f - 2) (tl f) else f).
  { destruct quoted eqn:K; [|exists i, n; auto]. unfold quoted in K. rewrite !andb_true_iff, L in K. destruct K as [[K _] _]. apply Nat.leb_le in K.
    exists (i + 1), (n - 2). split; [reflexivity|]. split; [lia|]. rewrite L. unfold f. destruct n as [|[|n]]; [lia|lia|].
    destruct (rd_some d i) as (a & _ & E); [lia|]. rewrite E. change (tl (firstn (S (S n)) (a :: skipn (i + 1) d))) with (firstn (S n) (skipn (i + 1) d)). replace (S (S n) - 2) with n by lia.
    rewrite firstn_firstn. replace (Nat.min n (S n)) with n by lia. reflexivity. }
  destruct S' as (i' & n' & -> & B & <-). destruct (trim_front is_blank d (S n') i' n') as (i2 & n2 & -> & B2 & <-); [lia|exact B|].
  destruct (trim_back is_blank d (S n2) i2 n2) as (n3 & -> & B3 & C3); [lia|lia|]. rewrite view_some by lia. rewrite C3. reflexivity.
Qed.
Lemma raw_field_eq q d i j : i <= j -> j <= length d -> raw_field q d i j = Some (post_process q (slice i j d)).
Proof. intros A B. unfold raw_field. rewrite (proj2 (Nat.leb_le _ _) A). apply raw_post_eq. lia. Qed.

Section Split.
Variables sep q : byte.
Lemma raw_split_loop_eq d : forall f i fs inq fields, length d - i <= f -> fs <= i ->
  raw_split_loop f sep q d (length d) i fs inq fields = Some (split_loop sep q d (skipn i d) i fs inq fields) /\
  fst (split_loop sep q d (skipn i d) i fs inq fields) <= Nat.max i (length d).
Proof.
  induction f as [|f IH]; intros i fs inq fields Hf Hfs; cbn [raw_split_loop].
  - destruct (pos d i) as [-> ->|c E1 E2 E3]; [split; [reflexivity|cbn; lia]|]. apply Nat.ltb_lt in E1. lia.
  - destruct (pos d i) as [-> ->|c E1 E2 E3]; [split; [reflexivity|cbn; lia]|]. rewrite E1, E2, E3, split_loop_step, also_peek.
    apply Nat.ltb_lt in E1. replace (i + 1 + 1) with (i + 2) by lia.
    destruct (N.eqb c q).
    + destruct (inq && next_is q (skipn (i + 1) d)) eqn:K; [rewrite <- skipn_2|].
      * assert (i + 1 < length d). { apply andb_true_iff in K. destruct K as [_ K]. destruct (skipn (i + 1) d) eqn:S1; [discriminate K|].
          apply (f_equal (@length _)) in S1. rewrite skipn_length in S1. cbn [length] in S1. lia. }
        destruct (IH (i + 2) fs inq fields) as [A B]; [lia|lia|]. split; [exact A|lia].
      * destruct (IH (i + 1) fs (negb inq) fields) as [A B]; [lia|lia|]. split; [exact A|lia].
    + destruct inq; cbn [negb]; [destruct (IH (i + 1) fs true fields) as [A B]; [lia|lia|]; split; [exact A|lia]|].
      destruct (N.eqb c sep).
      * rewrite raw_field_eq by lia. destruct (IH (i + 1) (i + 1) false (fields ++ [post_process q (slice fs i d)])) as [A B]; [lia|lia|]. split; [exact A|lia].
      * destruct (is_nl c); [split; [reflexivity|cbn; lia]|]. destruct (IH (i + 1) fs false fields) as [A B]; [lia|lia|]. split; [exact A|lia].
Qed.
Lemma raw_last_eq d r : fst r <= length d -> raw_last_field q d (length d) r = Some (last_field q d r).
Proof.
  destruct r as [fs fields]. cbn [fst]. intros H. unfold raw_last_field, last_field. cbn [fst snd]. rewrite (proj2 (Nat.leb_le _ _) H).
  destruct (trim_back is_nl d (S (length d)) fs (length d - fs)) as (n & -> & B & C); [lia|lia|]. rewrite raw_post_eq by lia. rewrite C.
  rewrite (firstn_all2 (skipn fs d)) by (rewrite skipn_length; lia). reflexivity.
Qed.
Lemma raw_tail_eq d i fs inq fields : i <= length d -> fs <= i ->
  (let? r := raw_split_loop (S (length d)) sep q d (length d) i fs inq fields in raw_last_field q d (length d) r) =
  Some (last_field q d (split_loop sep q d (skipn i d) i fs inq fields)).
Proof. intros H1 H2. destruct (raw_split_loop_eq d (S (length d)) i fs inq fields) as [A B]; [lia|lia|]. rewrite A. apply raw_last_eq. lia. Qed.
Lemma raw_split_scalar_eq d : raw_split_scalar d (length d) sep q = Some (split_fields_scalar d sep q).
Proof.
  unfold raw_split_scalar, split_fields_scalar. destruct d as [|c d']; [reflexivity|]. change (length (c :: d') =? 0) with false. cbv iota.
  apply (raw_tail_eq (c :: d') 0 0 false []); lia.
Qed.

Lemma raw_emit_eq d p : p + 64 <= length d -> forall fuel o m fs fields, o <= 64 -> 64 - o <= fuel -> fs <= p + o ->
  (forall i, tb m i = true -> o <= i < 64) ->
  raw_emit fuel q d p fs m fields = emit_block fuel q d p fs m fields /\
  match emit_block fuel q d p fs m fields with
  | None => False
  | Some (inl _) => True
  | Some (inr (fs', _)) => fs' <= p + 64
  end.
Proof.
  intros Hp. induction fuel as [|fuel IH]; intros o m fs fields Ho Hf Hfs Hm; cbn [raw_emit emit_block]; destruct (N.eqb_spec m 0) as [Z|Z].
  - split; [reflexivity|lia].
  - exfalso. destruct (ctz_spec m Z) as [C _]. apply Hm in C. lia.
  - split; [reflexivity|lia].
  - destruct (ctz_spec m Z) as [C C2]. set (k := ctz m) in *. apply Hm in C. cbv zeta.
    destruct (rd_some d (p + k)) as (c & E & _); [lia|]. rewrite E. unfold rd in E. rewrite E. rewrite raw_field_eq by lia.
    destruct (is_nl c); [split; [reflexivity|exact I]|]. apply (IH (k + 1)); try lia.
    intros i Hi. rewrite clear_low in Hi by assumption. fold k in Hi. apply andb_true_iff in Hi. destruct Hi as [Hi Hn].
    pose proof (Hm i Hi). destruct (Nat.eqb_spec i k); [discriminate Hn|]. destruct (Nat.ltb_spec i k); [rewrite C2 in Hi by assumption; discriminate Hi|lia].
Qed.
Variable lanes : nat.
Hypothesis Hl : lanes_ok lanes.
Lemma raw_split_blocks_eq clmul d : forall fuel p fs st fields, p <= length d -> length d - p <= fuel -> fs <= p ->
  raw_split_blocks fuel lanes clmul sep q d (length d) p fs st fields = split_blocks fuel lanes clmul sep q d p fs st fields /\
  exists r, split_blocks fuel lanes clmul sep q d p fs st fields = Some r.
Proof.
  destruct Hl as [Hl1 Hl2].
  induction fuel as [|fuel IH]; intros p fs st fields Hp Hf Hfs; cbn [raw_split_blocks split_blocks]; destruct (Nat.leb_spec (p + 64) (length d)) as [L|L]; try lia.
  - split; [apply raw_tail_eq; assumption|eauto].
  - unfold scan_for_char, scan_for_two_chars. rewrite !raw_assemble_eq by lia.
    rewrite !assemble_mask_correct by (try assumption; rewrite skipn_length; lia).
    set (B := firstn 64 (skipn p d)). destruct (find_quote_mask clmul (block_mask q B) st) as [ins st'] eqn:F.
    assert (LB : length B = 64) by (unfold B; rewrite firstn_length_le; [reflexivity|rewrite skipn_length; lia]).
    set (m := N.land (N.lor (block_mask sep B) (N.lor (block_mask LF B) (block_mask CR B))) (not64 ins)).
    destruct (raw_emit_eq d p L 64 0 m fs fields) as [A X]; [lia|lia|lia| |].
    { intros i Hi. unfold m in Hi. rewrite tb_land in Hi. apply andb_true_iff in Hi. destruct Hi as [Hi _]. rewrite !tb_lor, !tb_block_mask in Hi.
      destruct (Nat.ltb_spec i 64); [lia|]. rewrite !nthb_nth_error in Hi. assert (NN : nth_error B i = None) by (apply nth_error_None; lia). rewrite NN in Hi. discriminate Hi. }
    rewrite A. destruct (emit_block 64 q d p fs m fields) as [[done|[fs' fields']]|]; [split; [reflexivity|eauto]|apply IH; lia|contradiction].
  - split; [apply raw_tail_eq; assumption|eauto].
Qed.
Lemma raw_split_simd_eq clmul d : raw_split_simd lanes clmul d (length d) sep q = split_fields_simd lanes clmul d sep q /\ exists r, split_fields_simd lanes clmul d sep q = Some r.
Proof.
  unfold raw_split_simd, split_fields_simd. destruct d as [|c d']; [split; [reflexivity|eauto]|]. change (length (c :: d') =? 0) with false. cbv iota.
  apply (raw_split_blocks_eq clmul (c :: d')); lia.
Qed.
Lemma raw_split_fields_eq clmul d : exists r, raw_split_fields lanes clmul d (length d) sep q = Some r /\ split_fields lanes clmul d sep q = Some r /\
  forall old, split_fields_into lanes clmul d sep q old = Some r.
Proof.
  unfold raw_split_fields, split_fields, split_fields_into. destruct (64 <=? length d).
  - destruct (raw_split_simd_eq clmul d) as [A [r B]]. exists r. rewrite A, B. split; [reflexivity|]. split; [reflexivity|]. intros old. exact B.
  - exists (split_fields_scalar d sep q). split; [apply raw_split_scalar_eq|]. split; [reflexivity|]. intros old. reflexivity.
Qed.
End Split.
