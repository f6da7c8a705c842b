From Verif Require Import Base WordsModel WordsSpec WordsProof.

(** Masks of a sequence of blocks, threading the carried state
    (the callers' loops, e.g. src/parser/simd_chunk_finder.cpp:64-144). *)
Fixpoint mask_stream (clmul : bool) (ws : list N) (prev : N) : list N :=
  match ws with
  | [] => []
  | w :: r => let '(m, p) := find_quote_mask clmul w prev in m :: mask_stream clmul r p
  end.

Fixpoint runpar (st : bool) (l : list bool) : list bool :=
  match l with
  | [] => []
  | b :: r => xorb st b :: runpar (xorb st b) r
  end.

Definition parall (st : bool) (l : list bool) : bool := fold_left xorb l st.

Lemma runpar_app st a b : runpar st (a ++ b) = runpar st a ++ runpar (parall st a) b.
Proof. revert st; induction a as [|x a IH]; intros st; [reflexivity|]. cbn. f_equal. apply IH. Qed.

Lemma parall_prexor st x n : parall st (map (tb x) (seq 0 n)) = xorb st (prexor x n).
Proof.
  induction n as [|n IH]; [cbn; rewrite xorb_false_r; reflexivity|].
  rewrite seq_S, map_app. unfold parall in *. rewrite fold_left_app, IH. cbn.
  apply xorb_assoc.
Qed.

Lemma runpar_prexor st x n :
  runpar st (map (tb x) (seq 0 n)) = map (fun i => xorb st (prexor x (S i))) (seq 0 n).
Proof.
  induction n as [|n IH]; [reflexivity|].
  rewrite seq_S, !map_app, runpar_app, IH, parall_prexor. cbn [map runpar app Nat.add].
  do 2 f_equal. apply xorb_assoc.
Qed.

Lemma bits64_tb w : bits64 w = map (tb w) (seq 0 64).
Proof. reflexivity. Qed.

Lemma bits64_len w : length (bits64 w) = 64.
Proof. reflexivity. Qed.

Lemma bits64_ext w f : (forall i, i < 64 -> tb w i = f i) -> bits64 w = map f (seq 0 64).
Proof. intros H. rewrite bits64_tb. apply map_ext_in. intros i Hi. apply in_seq in Hi. apply H. lia. Qed.

Lemma mask_stream_runpar clmul : forall ws st, Forall (fun w => (w < 2 ^ 64)%N) ws ->
  concat (map bits64 (mask_stream clmul ws (st_word st))) = runpar st (concat (map bits64 ws)).
Proof.
  induction ws as [|w ws IH]; intros st HF; [reflexivity|].
  inversion HF as [|? ? Hw HF']; subst. cbn [mask_stream map concat].
  destruct (find_quote_mask clmul w (st_word st)) as [m p] eqn:E.
  pose proof (find_quote_mask_bits clmul w st Hw) as [B S']. rewrite E in B, S'. cbn [fst snd] in *.
  assert (H1 : bits64 m = runpar st (bits64 w)).
  { rewrite (bits64_tb w), runpar_prexor. apply bits64_ext. intros i Hi.
    rewrite B. replace (i <? 64) with true by lia. reflexivity. }
  assert (H2 : parall st (bits64 w) = xorb st (prexor w 64)).
  { rewrite bits64_tb. apply parall_prexor. }
  subst p. cbn [map concat]. rewrite IH by assumption. rewrite runpar_app, H1, H2. reflexivity.
Qed.

Lemma nth_runpar : forall l st i, i < length l ->
  nth i (runpar st l) false = xorb st (Nat.odd (set_bits l (S i))).
Proof.
  unfold set_bits.
  assert (Hc : forall b (l : list bool), Nat.odd (count_occ bool_dec (b :: l) true) = xorb b (Nat.odd (count_occ bool_dec l true))).
  { intros [] l; cbn; [|destruct (Nat.odd _); reflexivity].
    rewrite Nat.odd_succ, <- Nat.negb_odd. destruct (Nat.odd _); reflexivity. }
  induction l as [|b l IH]; intros st i Hi; [cbn in Hi; lia|].
  cbn [firstn]. rewrite Hc. destruct i as [|i].
  - cbn. rewrite xorb_false_r. reflexivity.
  - cbn [runpar nth]. rewrite IH by (cbn in Hi; lia). rewrite xorb_assoc. reflexivity.
Qed.

Lemma mask_stream_spec clmul ws st i : Forall (fun w => (w < 2 ^ 64)%N) ws ->
  i < 64 * length ws ->
  nth i (concat (map bits64 (mask_stream clmul ws (st_word st)))) false =
  xorb st (Nat.odd (set_bits (concat (map bits64 ws)) (S i))).
Proof.
  intros HF Hi. rewrite mask_stream_runpar by assumption. apply nth_runpar.
  assert (Hl : length (concat (map bits64 ws)) = 64 * length ws).
  { clear. induction ws as [|w ws IH]; [reflexivity|]. cbn [map concat]. rewrite app_length, bits64_len, IH. cbn [length]. lia. }
  lia.
Qed.

Lemma tb_clmul x : (x < 2 ^ 64)%N ->
  forall i, tb (clmul_lower x ones64) i = (i <? 64)%nat && prexor x (S i).
Proof.
  intros Hx i. unfold clmul_lower. rewrite clmul_fold_bits by lia. rewrite tb_0, xorb_false_l.
  destruct (Nat.ltb_spec i 64); cbn [andb]; [|reflexivity].
  rewrite Nat.min_r by lia. reflexivity.
Qed.

Lemma prefix_impls_agree x : (x < 2 ^ 64)%N -> clmul_lower x ones64 = portable_prefix_xorsum x.
Proof.
  intros H. apply tb_inj. intros i.
  rewrite tb_clmul, portable_bits, winxor_full by exact H. reflexivity.
Qed.

Lemma scalar_mask_agrees clmul x st : (x < 2 ^ 64)%N ->
  fst (find_quote_mask clmul x (st_word st)) = scalar_find_quote_mask x (st_word st).
Proof.
  intros H. apply tb_inj. intros i. rewrite scalar_find_quote_mask_bits.
  apply find_quote_mask_bits. exact H.
Qed.

Lemma lane_independent (lanes : nat) (c : byte) (mem : bytes) :
    1 <= lanes -> Nat.divide lanes 64 -> 64 <= length mem ->
    exists w, assemble_mask 64 lanes c mem 0 0 = Some w /\ (w < 2 ^ 64)%N /\
      forall i, N.testbit w (N.of_nat i) = (i <? 64) && N.eqb (nth i mem (c + 1)%N) c.
Proof.
  intros H1 H2 H3. exists (block_mask c (firstn 64 mem)). split; [apply assemble_mask_correct; assumption|].
  split; [apply block_mask_lt64; rewrite firstn_length; lia|].
  intros i. change (N.testbit _ _) with (tb (block_mask c (firstn 64 mem)) i).
  rewrite tb_block_mask, nthb_firstn. f_equal. unfold nthb.
  destruct (nth_error mem i) as [x|] eqn:E.
  - rewrite (nth_error_nth _ _ _ E). reflexivity.
  - apply nth_error_None in E. rewrite nth_overflow by assumption. symmetry. apply N.eqb_neq. lia.
Qed.

Lemma wide_lt : 64 < 128. Proof. lia. Qed.
