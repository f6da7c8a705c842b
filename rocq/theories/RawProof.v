(** The scanning code with explicit reads computes what the list models compute. *)
From Verif Require Import Base WordsModel WordsProof ChunkSpec ChunkModel ChunkProof ChunkProof2 FieldsModel ReaderModel RawModel.

Lemma skipn_1 {A} i (d : list A) : skipn (i + 1) d = tl (skipn i d).
Proof. revert d; induction i as [|i IH]; intros [|x d]; try reflexivity. cbn [Nat.add skipn]. apply IH. Qed.
Lemma skipn_2 {A} i (d : list A) : skipn (i + 2) d = tl (skipn (i + 1) d).
Proof. replace (i + 2) with (i + 1 + 1) by lia. apply skipn_1. Qed.
Lemma skipn_add {A} a b (d : list A) : skipn a (skipn b d) = skipn (b + a) d.
Proof. revert d; induction b as [|b IH]; intros [|x d]; try reflexivity; [destruct a; reflexivity|]. cbn [Nat.add skipn]. apply IH. Qed.

(** Where the index stands. *)
Inductive at_pos (d : bytes) (i : nat) : Prop :=
| AtEnd : (i <? length d) = false -> skipn i d = [] -> at_pos d i
| AtByte c : (i <? length d) = true -> rd d i = Some c -> skipn i d = c :: skipn (i + 1) d -> at_pos d i.
Lemma pos d i : at_pos d i.
Proof.
  destruct (skipn i d) as [|c r] eqn:E.
  - apply AtEnd; [|exact E]. apply (f_equal (@length _)) in E. rewrite skipn_length in E. cbn in E. apply Nat.ltb_ge. lia.
  - assert (i < length d) by (apply (f_equal (@length _)) in E; rewrite skipn_length in E; cbn [length] in E; lia).
    apply AtByte with c.
    + apply Nat.ltb_lt. assumption.
    + unfold rd. rewrite <- (firstn_skipn i d), nth_error_app2 by (rewrite firstn_length; lia).
      rewrite E, firstn_length, Nat.min_l by lia. rewrite Nat.sub_diag. reflexivity.
    + rewrite skipn_1, E. reflexivity.
Qed.
Lemma peek_next d i c : peek d (length d) i c = Some (next_is c (skipn i d)).
Proof. unfold peek. destruct (pos d i) as [-> ->|x -> -> ->]; reflexivity. Qed.
Lemma also_peek b d i c : also b (peek d (length d) i c) = Some (b && next_is c (skipn i d)).
Proof. rewrite peek_next. destruct b; reflexivity. Qed.
Lemma next_two c d i : next_is c (skipn (i + 1) d) = true -> skipn (i + 2) d = tl (skipn (i + 1) d).
Proof. intros _. apply skipn_2. Qed.

Lemma raw_assemble_eq lanes c d p : p <= length d -> forall fuel co acc, 1 <= lanes ->
  raw_assemble fuel lanes c d p co acc = assemble_mask fuel lanes c (skipn p d) co acc.
Proof.
  intros Hp. induction fuel as [|f IH]; intros co acc Hl; cbn [raw_assemble assemble_mask]; [reflexivity|].
  destruct (co <? 64); [|reflexivity]. unfold load. rewrite skipn_add, skipn_length.
  replace (lanes <=? length d - (p + co)) with (p + co + lanes <=? length d) by lia.
  destruct (_ <=? _); [|reflexivity]. apply IH. exact Hl.
Qed.

Section Lanes.
Variable lanes : nat.
Hypothesis Hl : 1 <= lanes.

Lemma raw_masks_eq q d p : p <= length d -> raw_masks lanes q d p = block_masks lanes q (skipn p d).
Proof.
  intros Hp. unfold raw_masks, block_masks. rewrite !raw_assemble_eq by assumption.
  destruct (assemble_mask 64 lanes q _ 0 0) as [a|]; [|reflexivity].
  destruct (assemble_mask 64 lanes LF _ 0 0) as [b|]; [|reflexivity]. reflexivity.
Qed.
Lemma raw_valid_eol_eq clmul qb nb cb st d off :
  raw_valid_eol clmul qb nb cb st d (length d) off = Some (block_valid_eol clmul qb nb cb st (skipn off d)).
Proof.
  unfold raw_valid_eol, block_valid_eol. destruct (find_quote_mask clmul qb st) as [iq st']. cbv zeta.
  rewrite also_peek, skipn_add. reflexivity.
Qed.

Lemma raw_analyze_tail_eq q d : forall f off inq rows last, length d - off <= f ->
  raw_analyze_tail f q d (length d) off inq rows last = Some (analyze_tail q (skipn off d) off inq rows last).
Proof.
  induction f as [|f IH]; intros off inq rows last Hf; cbn [raw_analyze_tail].
  - destruct (pos d off) as [-> ->|c E1 E2 E3]; [reflexivity|]. apply Nat.ltb_lt in E1. lia.
  - destruct (pos d off) as [-> ->|c E1 E2 E3]; [reflexivity|]. rewrite E1, E2, E3, analyze_tail_step, also_peek, peek_next.
    destruct (N.eqb c q).
    + destruct (inq && next_is q (skipn (off + 1) d)); [rewrite <- skipn_2|]; apply IH; lia.
    + destruct inq; cbn [negb]; [apply IH; lia|]. destruct (N.eqb c LF); [apply IH; lia|].
      destruct (N.eqb c CR); [|apply IH; lia]. destruct (next_is LF _); apply IH; lia.
Qed.
Lemma raw_analyze_blocks_eq clmul q d : forall f off st rows last, off <= length d -> length d - off <= f ->
  raw_analyze_blocks f lanes clmul q d (length d) off st rows last = analyze_blocks f lanes clmul q (skipn off d) off st rows last.
Proof.
  induction f as [|f IH]; intros off st rows last Ho Hf; cbn [raw_analyze_blocks analyze_blocks];
    rewrite skipn_length; replace (64 <=? length d - off) with (off + 64 <=? length d) by lia.
  - destruct (Nat.leb_spec (off + 64) (length d)); [reflexivity|]. apply raw_analyze_tail_eq. lia.
  - destruct (Nat.leb_spec (off + 64) (length d)); [|apply raw_analyze_tail_eq; lia].
    rewrite raw_masks_eq by assumption. destruct (block_masks lanes q (skipn off d)) as [[[qb nb] cb]|]; [|reflexivity].
    rewrite raw_valid_eol_eq. destruct (block_valid_eol _ _ _ _ _ _) as [eol st']. rewrite skipn_add. apply IH; lia.
Qed.
Lemma raw_analyze_eq clmul d q st : raw_analyze lanes clmul d (length d) q st = analyze_chunk_simd lanes clmul d q st.
Proof.
  unfold raw_analyze, analyze_chunk_simd. destruct d as [|x d]; [reflexivity|].
  change (length (x :: d) =? 0) with false. cbv iota. rewrite raw_analyze_blocks_eq by lia. reflexivity.
Qed.

Lemma raw_count_scalar_eq q d : forall f off inq rows last, length d - off <= f ->
  raw_count_scalar f q d (length d) off inq rows last = Some (count_rows_scalar_loop q (skipn off d) off inq rows last).
Proof.
  induction f as [|f IH]; intros off inq rows last Hf; cbn [raw_count_scalar].
  - destruct (pos d off) as [-> ->|c E1 E2 E3]; [reflexivity|]. apply Nat.ltb_lt in E1. lia.
  - destruct (pos d off) as [-> ->|c E1 E2 E3]; [reflexivity|]. rewrite E1, E2, E3, count_rows_scalar_step, also_peek, peek_next.
    replace (off + 1 + 1) with (off + 2) by lia.
    destruct (N.eqb c q).
    + destruct (inq && next_is q (skipn (off + 1) d)); [rewrite <- skipn_2|]; apply IH; lia.
    + destruct inq; cbn [negb]; [apply IH; lia|]. destruct (N.eqb c LF); [apply IH; lia|].
      destruct (N.eqb c CR); [|apply IH; lia]. destruct (next_is LF _); apply IH; lia.
Qed.
Lemma raw_count_rows_eq clmul d q : raw_count_rows lanes clmul d (length d) q = count_rows lanes clmul d q.
Proof.
  unfold raw_count_rows, count_rows, count_rows_simd. rewrite raw_analyze_eq.
  destruct (length d <? 64); [rewrite raw_count_scalar_eq by lia; reflexivity|]. reflexivity.
Qed.

Lemma raw_dual_tail_eq q d : forall f off par ro lo ri li, length d - off <= f ->
  raw_dual_tail f q d (length d) off par ro lo ri li = Some (dual_tail q (skipn off d) off par ro lo ri li).
Proof.
  induction f as [|f IH]; intros off par ro lo ri li Hf; cbn [raw_dual_tail].
  - destruct (pos d off) as [-> ->|c E1 E2 E3]; [reflexivity|]. apply Nat.ltb_lt in E1. lia.
  - destruct (pos d off) as [-> ->|c E1 E2 E3]; [reflexivity|]. rewrite E1, E2, E3, peek_next. cbn [dual_tail].
    destruct (N.eqb c q); [apply IH; lia|]. destruct (N.eqb c LF); [destruct (negb par); apply IH; lia|].
    destruct (N.eqb c CR); [|apply IH; lia]. destruct (negb (next_is LF _)); [|apply IH; lia].
    destruct (negb par); apply IH; lia.
Qed.
Lemma raw_dual_eol_eq clmul qb nb cb st d off :
  raw_dual_eol clmul qb nb cb st d (length d) off = Some (dual_block_eol clmul qb nb cb st (skipn off d)).
Proof. unfold raw_dual_eol, dual_block_eol. cbv zeta. rewrite also_peek, skipn_add. destruct (_ && _); reflexivity. Qed.
Lemma raw_dual_blocks_eq clmul q d : forall f off st ro lo ri li, off <= length d -> length d - off <= f ->
  raw_dual_blocks f lanes clmul q d (length d) off st ro lo ri li = dual_blocks f lanes clmul q (skipn off d) off st ro lo ri li.
Proof.
  induction f as [|f IH]; intros off st ro lo ri li Ho Hf; cbn [raw_dual_blocks dual_blocks];
    rewrite skipn_length; replace (64 <=? length d - off) with (off + 64 <=? length d) by lia.
  - destruct (Nat.leb_spec (off + 64) (length d)); [reflexivity|]. apply raw_dual_tail_eq. lia.
  - destruct (Nat.leb_spec (off + 64) (length d)); [|apply raw_dual_tail_eq; lia].
    rewrite raw_masks_eq by assumption. destruct (block_masks lanes q (skipn off d)) as [[[qb nb] cb]|]; [|reflexivity].
    rewrite raw_dual_eol_eq. destruct (dual_block_eol _ _ _ _ _ _) as [[eo ei] st']. rewrite skipn_add. apply IH; lia.
Qed.
Lemma raw_dual_eq clmul d q : raw_dual lanes clmul d (length d) q = analyze_chunk_dual_state_simd lanes clmul d q.
Proof.
  unfold raw_dual, analyze_chunk_dual_state_simd. destruct d as [|x d]; [reflexivity|].
  change (length (x :: d) =? 0) with false. cbv iota. rewrite raw_dual_blocks_eq by lia. reflexivity.
Qed.

(** *** Row ends *)
Definition of_scan (s : scan) : nat + nat * bool := match s with Found p => inl p | Cont _ o i => inr (o, i) end.
Definition at_suffix (d : bytes) (s : scan) : Prop := match s with Found _ => True | Cont l o _ => l = skipn o d end.
Lemma raw_scan_row_eq q d lim L : (L = Some lim \/ L = None /\ lim = length d) -> forall f off inq, length d - off <= f ->
  raw_scan_row f lim q d (length d) off inq = Some (of_scan (row_end_scan L q (skipn off d) off inq)) /\
  at_suffix d (row_end_scan L q (skipn off d) off inq).
Proof.
  intros HL. induction f as [|f IH]; intros off inq Hf; cbn [raw_scan_row].
  - destruct (pos d off) as [E1 E2|c E1 E2 E3]; [|apply Nat.ltb_lt in E1; lia].
    rewrite E1, andb_false_r, E2. cbn [row_end_scan].
    destruct (match L with Some a => off <? a | None => true end); split; try reflexivity; cbn [at_suffix]; symmetry; exact E2.
  - destruct (pos d off) as [E1 E2|c E1 E2 E3].
    + rewrite E1, andb_false_r, E2. cbn [row_end_scan].
      destruct (match L with Some a => off <? a | None => true end); split; try reflexivity; cbn [at_suffix]; symmetry; exact E2.
    + rewrite E1, andb_true_r, E3, row_end_scan_step.
      assert (EL : (off <? lim) = match L with Some a => off <? a | None => true end)
        by (destruct HL as [-> |[-> ->]]; [reflexivity|exact E1]).
      rewrite EL. destruct (match L with Some a => off <? a | None => true end).
      * rewrite E2, also_peek, peek_next. destruct (N.eqb c q).
        -- destruct (inq && next_is q (skipn (off + 1) d)); [rewrite <- skipn_2|]; apply IH; lia.
        -- destruct (negb inq); [|apply IH; lia]. destruct (N.eqb c LF); [split; reflexivity|].
           destruct (N.eqb c CR); [|apply IH; lia]. destruct (next_is LF _); split; reflexivity.
      * split; [reflexivity|]. cbn [at_suffix]. symmetry. exact E3.
Qed.
Lemma raw_row_end_scalar_eq d start q : raw_row_end_scalar d (length d) start q = Some (find_row_end_scalar d start q).
Proof.
  unfold raw_row_end_scalar, find_row_end_scalar.
  destruct (raw_scan_row_eq q d (length d) None (or_intror (conj eq_refl eq_refl)) (S (length d)) start false ltac:(lia)) as [-> _].
  destruct (row_end_scan _ _ _ _ _); reflexivity.
Qed.
Lemma raw_row_end_blocks_eq clmul q d : forall f off st, off <= length d -> length d - off <= f ->
  raw_row_end_blocks f lanes clmul q d (length d) off st = row_end_blocks f lanes clmul q (length d) (skipn off d) off st.
Proof.
  assert (T : forall off b, (let? r := raw_scan_row (S (length d)) (length d) q d (length d) off b in Some (or_size (length d) r)) =
     match row_end_scan None q (skipn off d) off b with Found p => Some p | Cont _ _ _ => Some (length d) end).
  { intros off b.
    destruct (raw_scan_row_eq q d (length d) None (or_intror (conj eq_refl eq_refl)) (S (length d)) off b ltac:(lia)) as [-> _].
    destruct (row_end_scan _ _ _ _ _); reflexivity. }
  induction f as [|f IH]; intros off st Ho Hf; cbn [raw_row_end_blocks row_end_blocks];
    rewrite skipn_length; replace (64 <=? length d - off) with (off + 64 <=? length d) by lia.
  - destruct (Nat.leb_spec (off + 64) (length d)); [reflexivity|]. apply T.
  - destruct (Nat.leb_spec (off + 64) (length d)); [|apply T].
    rewrite raw_masks_eq by assumption. destruct (block_masks lanes q (skipn off d)) as [[[qb nb] cb]|]; [|reflexivity].
    rewrite raw_valid_eol_eq. destruct (block_valid_eol _ _ _ _ _ _) as [eol st']. rewrite !skipn_add.
    destruct (N.eqb eol 0); [apply IH; lia|]. cbv zeta.
    destruct (pos d (off + ctz eol)) as [E1 E2|c E1 E2 E3].
    + rewrite E2. unfold rd. replace (nth_error d (off + ctz eol)) with (@None byte); [reflexivity|].
      symmetry. apply nth_error_None. apply Nat.ltb_ge in E1. exact E1.
    + rewrite E2, E3, peek_next. destruct (N.eqb c LF); [reflexivity|]. destruct (next_is LF _); reflexivity.
Qed.
Lemma scan_off q lim : forall n l off inq l' o i, length l <= n -> row_end_scan (Some lim) q l off inq = Cont l' o i ->
  o + length l' = off + length l.
Proof.
  induction n as [|n IH]; intros l off inq l' o i Hn H; destruct l as [|c l]; try (cbn [length] in Hn; lia).
  - cbn [row_end_scan] in H. destruct (off <? lim); inversion H; subst; reflexivity.
  - cbn [row_end_scan] in H. destruct (off <? lim); inversion H; subst; reflexivity.
  - rewrite row_end_scan_step in H. cbn [length] in *. destruct (off <? lim); [|inversion H; subst; cbn [length]; lia].
    destruct (N.eqb c q).
    + destruct (inq && next_is q l) eqn:E.
      * apply IH in H; [|destruct l; cbn [tl length] in *; lia]. destruct l; [destruct inq; discriminate E|]. cbn [tl length] in *. lia.
      * apply IH in H; lia.
    + destruct (negb inq); [|apply IH in H; lia]. destruct (N.eqb c LF); [discriminate H|].
      destruct (N.eqb c CR); [destruct (next_is LF l); discriminate H|]. apply IH in H; lia.
Qed.
Lemma raw_row_end_simd_eq clmul d start q : raw_row_end_simd lanes clmul d (length d) start q = find_row_end_simd lanes clmul d start q.
Proof.
  unfold raw_row_end_simd, find_row_end_simd. destruct (Nat.leb_spec (length d) start) as [Hs|Hs]; [reflexivity|]. cbv zeta.
  set (al := (start + 63) / 64 * 64). clearbody al. set (a := if length d <? al then length d else al). clearbody a.
  destruct (raw_scan_row_eq q d a (Some a) (or_introl eq_refl) (S (length d)) start false ltac:(lia)) as [-> HA].
  destruct (row_end_scan (Some a) q (skipn start d) start false) as [p|l o i] eqn:E; [reflexivity|]. cbn [of_scan].
  cbn [at_suffix] in HA. apply (scan_off q a (length (skipn start d))) in E; [|lia].
  rewrite skipn_length in E. rewrite HA, skipn_length in E. rewrite raw_row_end_blocks_eq by lia. rewrite HA. reflexivity.
Qed.
Lemma raw_row_end_eq clmul q d start : raw_row_end lanes clmul q d (length d) start = find_row_end lanes clmul q d start.
Proof.
  unfold raw_row_end, find_row_end. destruct (64 <=? length d - start); [apply raw_row_end_simd_eq|apply raw_row_end_scalar_eq].
Qed.
End Lanes.
