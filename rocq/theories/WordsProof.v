(** Bit-level lemmas about WordsModel.v. *)
From Verif Require Import Base WordsModel.
Local Open Scope N_scope.

(** bit [i] (a nat) of a word *)
Definition tb (x : N) (i : nat) : bool := N.testbit x (N.of_nat i).

Lemma tb_inj x y : (forall i, tb x i = tb y i) -> x = y.
Proof.
  intros H; apply N.bits_inj; intros n. specialize (H (N.to_nat n)).
  unfold tb in H. rewrite N2Nat.id in H. exact H.
Qed.

Lemma tb_lxor x y i : tb (N.lxor x y) i = xorb (tb x i) (tb y i).
Proof. apply N.lxor_spec. Qed.
Lemma tb_land x y i : tb (N.land x y) i = tb x i && tb y i.
Proof. apply N.land_spec. Qed.
Lemma tb_lor x y i : tb (N.lor x y) i = tb x i || tb y i.
Proof. apply N.lor_spec. Qed.
Lemma tb_ldiff x y i : tb (N.ldiff x y) i = tb x i && negb (tb y i).
Proof. apply N.ldiff_spec. Qed.
Lemma tb_0 i : tb 0 i = false.
Proof. apply N.bits_0. Qed.
Lemma tb_1 i : tb 1 i = (i =? 0)%nat.
Proof. unfold tb. destruct i; [reflexivity|]. rewrite Nat2N.inj_succ. destruct i; reflexivity. Qed.

Lemma tb_ones64 i : tb ones64 i = (i <? 64)%nat.
Proof.
  unfold tb, ones64. rewrite N.ones_spec_iff || idtac.
  destruct (Nat.ltb_spec i 64).
  - apply N.ones_spec_low. lia.
  - apply N.ones_spec_high. lia.
Qed.

Lemma tb_w64 x i : tb (w64 x) i = (i <? 64)%nat && tb x i.
Proof.
  unfold tb, w64. destruct (Nat.ltb_spec i 64); cbn [andb].
  - apply N.mod_pow2_bits_low. lia.
  - apply N.mod_pow2_bits_high. lia.
Qed.

Lemma tb_shl64 x k i :
  tb (shl64 x (N.of_nat k)) i = (i <? 64)%nat && (k <=? i)%nat && tb x (i - k).
Proof.
  unfold shl64. rewrite tb_w64. destruct (i <? 64)%nat; cbn [andb]; [|reflexivity].
  unfold tb. destruct (Nat.leb_spec k i); cbn [andb].
  - rewrite N.shiftl_spec_high' by lia. f_equal. lia.
  - apply N.shiftl_spec_low. lia.
Qed.

Lemma tb_shr64 x k i : tb (shr64 x (N.of_nat k)) i = tb x (i + k).
Proof. unfold tb, shr64. rewrite N.shiftr_spec'. f_equal. lia. Qed.

Lemma tb_not64 x i : tb (not64 x) i = (i <? 64)%nat && negb (tb x i).
Proof. unfold not64. rewrite tb_ldiff, tb_ones64. reflexivity. Qed.

Lemma tb_high x n i : x < 2 ^ N.of_nat n -> (n <= i)%nat -> tb x i = false.
Proof.
  intros Hx Hi. unfold tb. destruct (N.eq_dec x 0) as [->|Hz]; [apply N.bits_0|].
  apply N.bits_above_log2. apply N.log2_lt_pow2; [lia|].
  eapply N.lt_le_trans; [exact Hx|]. apply N.pow_le_mono_r; lia.
Qed.

Lemma lt_pow2_of_bits x n : (forall i, (n <= i)%nat -> tb x i = false) -> x < 2 ^ N.of_nat n.
Proof.
  intros H. destruct (N.eq_dec x 0) as [->|Hz].
  - apply N.neq_0_lt_0, N.pow_nonzero. lia.
  - apply N.log2_lt_pow2; [lia|].
    destruct (N.lt_ge_cases (N.log2 x) (N.of_nat n)) as [?|Hge]; [assumption|].
    specialize (H (N.to_nat (N.log2 x))). unfold tb in H. rewrite N2Nat.id in H.
    rewrite N.bit_log2 in H by assumption. discriminate H. lia.
Qed.

(** ** Prefix xor *)

(** xor of the [n] bits i, i-1, ..., i-n+1 (indices below 0 count as 0) *)
Fixpoint winxor (x : N) (i n : nat) : bool :=
  match n with
  | O => false
  | S m => xorb ((m <=? i)%nat && tb x (i - m)) (winxor x i m)
  end.

Lemma winxor_add x i a b :
  winxor x i (a + b) = xorb (winxor x i a) ((a <=? i)%nat && winxor x (i - a) b).
Proof.
  induction b as [|b IH]; cbn [winxor].
  - rewrite Nat.add_0_r, andb_false_r, xorb_false_r. reflexivity.
  - rewrite Nat.add_succ_r. cbn [winxor]. rewrite IH.
    destruct (Nat.leb_spec (a + b) i).
    + replace (a <=? i)%nat with true by lia. replace (b <=? i - a)%nat with true by lia.
      replace (i - a - b)%nat with (i - (a + b))%nat by lia. cbn [andb].
      destruct (tb x (i - (a + b))), (winxor x i a), (winxor x (i - a) b); reflexivity.
    + destruct (Nat.leb_spec a i).
      * replace (b <=? i - a)%nat with false by lia. cbn [andb].
        rewrite !xorb_false_l. reflexivity.
      * cbn [andb]. rewrite !xorb_false_r, xorb_false_l. reflexivity.
Qed.

Lemma winxor_saturate x i n : (i < n)%nat -> winxor x i n = winxor x i (S i).
Proof.
  intros H. replace n with (S i + (n - S i))%nat by lia. rewrite winxor_add.
  replace (S i <=? i)%nat with false by lia. cbn [andb]. apply xorb_false_r.
Qed.

Lemma doubling_step x y n :
  (forall i, tb y i = (i <? 64)%nat && winxor x i n) ->
  forall i, tb (N.lxor y (shl64 y (N.of_nat n))) i = (i <? 64)%nat && winxor x i (n + n).
Proof.
  intros H i. rewrite tb_lxor, tb_shl64, !H, winxor_add.
  destruct (Nat.ltb_spec i 64); cbn [andb]; [|reflexivity].
  destruct (Nat.leb_spec n i); cbn [andb]; [|reflexivity].
  replace (i - n <? 64)%nat with true by lia. reflexivity.
Qed.

Lemma portable_bits x : x < 2 ^ 64 ->
  forall i, tb (portable_prefix_xorsum x) i = (i <? 64)%nat && winxor x i (S i).
Proof.
  intros Hx i. unfold portable_prefix_xorsum. cbn [fold_left].
  assert (H0 : forall i, tb x i = (i <? 64)%nat && winxor x i 1).
  { intros j. cbn [winxor Nat.leb]. rewrite Nat.sub_0_r, xorb_false_r. cbn [andb].
    destruct (Nat.ltb_spec j 64); [reflexivity|]. cbn [andb].
    apply (tb_high x 64 j); [exact Hx|lia]. }
  change (2 ^ 0) with (N.of_nat 1). pose proof (doubling_step x x 1 H0) as H1.
  set (y1 := N.lxor x _) in *. change (1 + 1)%nat with 2%nat in H1.
  change (2 ^ 1) with (N.of_nat 2). pose proof (doubling_step x y1 2 H1) as H2.
  set (y2 := N.lxor y1 _) in *. change (2 + 2)%nat with 4%nat in H2.
  change (2 ^ 2) with (N.of_nat 4). pose proof (doubling_step x y2 4 H2) as H3.
  set (y3 := N.lxor y2 _) in *. change (4 + 4)%nat with 8%nat in H3.
  change (2 ^ 3) with (N.of_nat 8). pose proof (doubling_step x y3 8 H3) as H4.
  set (y4 := N.lxor y3 _) in *. change (8 + 8)%nat with 16%nat in H4.
  change (2 ^ 4) with (N.of_nat 16). pose proof (doubling_step x y4 16 H4) as H5.
  set (y5 := N.lxor y4 _) in *. change (16 + 16)%nat with 32%nat in H5.
  change (2 ^ 5) with (N.of_nat 32). pose proof (doubling_step x y5 32 H5) as H6.
  change (32 + 32)%nat with 64%nat in H6.
  rewrite H6. destruct (Nat.ltb_spec i 64); cbn [andb]; [|reflexivity].
  apply winxor_saturate. assumption.
Qed.

(** xor of the bits 0..n-1 *)
Fixpoint prexor (x : N) (n : nat) : bool :=
  match n with
  | O => false
  | S m => xorb (prexor x m) (tb x m)
  end.

Lemma winxor_prexor x i n : (n <= S i)%nat ->
  winxor x i n = xorb (prexor x (S i)) (prexor x (S i - n)).
Proof.
  induction n as [|n IH]; intros H.
  - rewrite Nat.sub_0_r, xorb_nilpotent. reflexivity.
  - cbn [winxor]. replace (n <=? i)%nat with true by lia. rewrite IH by lia.
    replace (S i - n)%nat with (S (i - n)) by lia. replace (S i - S n)%nat with (i - n)%nat by lia.
    change (prexor x (S (i - n))) with (xorb (prexor x (i - n)) (tb x (i - n))).
    destruct (prexor x (S i)), (prexor x (i - n)), (tb x (i - n)); reflexivity.
Qed.

Lemma winxor_full x i : winxor x i (S i) = prexor x (S i).
Proof. rewrite winxor_prexor by lia. rewrite Nat.sub_diag. apply xorb_false_r. Qed.

Lemma clmul_fold_bits x n acc i :
  (n <= 64)%nat ->
  tb (fold_left (fun acc i => if N.testbit x (N.of_nat i)
                          then N.lxor acc (shl64 ones64 (N.of_nat i)) else acc)
            (seq 0 n) acc) i
  = xorb (tb acc i) ((i <? 64)%nat && prexor x (Nat.min n (S i))).
Proof.
  induction n as [|n IH]; intros Hn.
  - cbn. rewrite andb_false_r, xorb_false_r. reflexivity.
  - rewrite seq_S, fold_left_app, Nat.add_0_l. cbn [fold_left].
    change (N.testbit x (N.of_nat n)) with (tb x n).
    assert (E : prexor x (Nat.min (S n) (S i))
                = xorb (prexor x (Nat.min n (S i))) ((n <=? i)%nat && tb x n)).
    { destruct (Nat.leb_spec n i).
      - rewrite !Nat.min_l by lia. reflexivity.
      - rewrite !Nat.min_r by lia. cbn [andb]. rewrite xorb_false_r. reflexivity. }
    rewrite E. destruct (tb x n).
    + rewrite tb_lxor, IH, tb_shl64, tb_ones64 by lia.
      destruct (Nat.ltb_spec i 64); cbn [andb]; [|rewrite !xorb_false_r; reflexivity].
      replace (i - n <? 64)%nat with true by lia. rewrite !andb_true_r.
      rewrite xorb_assoc. reflexivity.
    + rewrite IH by lia. rewrite andb_false_r, xorb_false_r. reflexivity.
Qed.

Lemma prefix_xorsum_bits b x : x < 2 ^ 64 ->
  forall i, tb (prefix_xorsum b x) i = (i <? 64)%nat && prexor x (S i).
Proof.
  intros Hx i. destruct b; cbn [prefix_xorsum].
  - unfold clmul_lower. rewrite clmul_fold_bits by lia. rewrite tb_0, xorb_false_l.
    destruct (Nat.ltb_spec i 64); cbn [andb]; [|reflexivity].
    rewrite Nat.min_r by lia. reflexivity.
  - rewrite portable_bits by assumption. rewrite winxor_full. reflexivity.
Qed.

Lemma scalar_fold_bits x st n mask :
  (n <= 64)%nat ->
  exists m,
   fold_left
         (fun '(state, mask) i =>
            let state := if N.testbit x (N.of_nat i) then N.lxor state 1 else state in
            (state, N.lor mask (shl64 state (N.of_nat i))))
         (seq 0 n) (N.b2n st, mask)
   = (N.b2n (xorb st (prexor x n)), m) /\
   (forall i, tb m i = tb mask i || ((i <? n)%nat && xorb st (prexor x (S i)))).
Proof.
  induction n as [|n IH]; intros Hn.
  - exists mask. cbn [seq fold_left prexor]. rewrite xorb_false_r. split; [reflexivity|].
    intros i. replace (i <? 0)%nat with false by lia. rewrite orb_false_r. reflexivity.
  - destruct IH as (m & E & B); [lia|].
    rewrite seq_S, fold_left_app, E, Nat.add_0_l. cbn [fold_left].
    change (N.testbit x (N.of_nat n)) with (tb x n).
    assert (ES : (if tb x n then N.lxor (N.b2n (xorb st (prexor x n))) 1
                  else N.b2n (xorb st (prexor x n))) = N.b2n (xorb st (prexor x (S n)))).
    { cbn [prexor]. destruct (tb x n), st, (prexor x n); reflexivity. }
    rewrite ES. eexists. split; [reflexivity|].
    intros i. rewrite tb_lor, tb_shl64, B.
    assert (Eb : forall b k, tb (N.b2n b) k = ((k =? 0)%nat && b)).
    { intros [] k; cbn [N.b2n]; [rewrite tb_1, andb_true_r; reflexivity|rewrite tb_0, andb_false_r; reflexivity]. }
    rewrite Eb.
    destruct (Nat.ltb_spec i (S n)).
    + destruct (Nat.eqb_spec i n).
      * subst i. replace (n <? 64)%nat with true by lia. rewrite Nat.leb_refl, Nat.sub_diag, Nat.ltb_irrefl.
        cbn [andb Nat.eqb]. rewrite orb_false_r. reflexivity.
      * replace (i <? n)%nat with true by lia. replace (n <=? i)%nat with false by lia.
        rewrite andb_false_r. cbn [andb]. rewrite orb_false_r. reflexivity.
    + replace (i <? n)%nat with false by lia. replace (i - n =? 0)%nat with false by lia.
      cbn [andb]. rewrite !andb_false_r, !orb_false_r. reflexivity.
Qed.

Definition st_word (b : bool) : N := if b then ones64 else 0.

Lemma tb_st_word b i : tb (st_word b) i = (i <? 64)%nat && b.
Proof. destruct b; cbn [st_word]; [rewrite tb_ones64, andb_true_r|rewrite tb_0, andb_false_r]; reflexivity. Qed.

Lemma find_quote_mask_bits b x st : x < 2 ^ 64 ->
  (forall i, tb (fst (find_quote_mask b x (st_word st))) i = (i <? 64)%nat && xorb st (prexor x (S i))) /\
  snd (find_quote_mask b x (st_word st)) = st_word (xorb st (prexor x 64)).
Proof.
  intros Hx. unfold find_quote_mask. cbn [fst snd].
  assert (H : forall i, tb (N.lxor (prefix_xorsum b x) (st_word st)) i = (i <? 64)%nat && xorb st (prexor x (S i))).
  { intros i. rewrite tb_lxor, prefix_xorsum_bits, tb_st_word by assumption.
    destruct (i <? 64)%nat, st, (prexor x (S i)); reflexivity. }
  split; [exact H|]. unfold sign_extend63.
  change (N.testbit (N.lxor (prefix_xorsum b x) (st_word st)) 63)
    with (tb (N.lxor (prefix_xorsum b x) (st_word st)) 63).
  rewrite H. reflexivity.
Qed.

Lemma scalar_find_quote_mask_bits x st :
  forall i, tb (scalar_find_quote_mask x (st_word st)) i = (i <? 64)%nat && xorb st (prexor x (S i)).
Proof.
  intros i. unfold scalar_find_quote_mask.
  replace (N.land (st_word st) 1) with (N.b2n st) by (destruct st; reflexivity).
  destruct (scalar_fold_bits x st 64 0) as (m & E & B); [lia|].
  etransitivity; [|etransitivity; [apply (B i)|]].
  - f_equal. refine (f_equal snd E).
  - rewrite tb_0. reflexivity.
Qed.

(** ** block masks *)

Lemma tb_cons (b : bool) x i : tb ((if b then 1 else 0) + 2 * x) i = match i with O => b | S j => tb x j end.
Proof.
  unfold tb. destruct i as [|j].
  - change (N.of_nat 0) with 0. destruct b.
    + rewrite N.add_comm. apply N.testbit_odd_0.
    + apply N.testbit_even_0.
  - rewrite Nat2N.inj_succ. destruct b.
    + rewrite N.add_comm. apply N.testbit_odd_succ. lia.
    + apply N.testbit_even_succ. lia.
Qed.

Definition nthb {A} (f : A -> bool) (l : list A) (i : nat) : bool :=
  match nth_error l i with Some x => f x | None => false end.

Lemma tb_block_mask c l i : tb (block_mask c l) i = nthb (fun x => N.eqb x c) l i.
Proof.
  revert i; induction l as [|x r IH]; intros i; cbn [block_mask].
  - rewrite tb_0. unfold nthb. destruct i; reflexivity.
  - rewrite tb_cons. destruct i; [reflexivity|]. rewrite IH. reflexivity.
Qed.

Lemma mask_byte_block c l : mask_byte c l = block_mask c l.
Proof. induction l as [|x r IH]; [reflexivity|]. cbn. rewrite IH. reflexivity. Qed.

Lemma block_mask_lt c l : block_mask c l < 2 ^ N.of_nat (length l).
Proof.
  apply lt_pow2_of_bits. intros i Hi. rewrite tb_block_mask. unfold nthb.
  apply nth_error_None in Hi. rewrite Hi. reflexivity.
Qed.

Lemma block_mask_lt64 c l : (length l <= 64)%nat -> block_mask c l < 2 ^ 64.
Proof.
  intros H. eapply N.lt_le_trans; [apply block_mask_lt|].
  apply N.pow_le_mono_r; lia.
Qed.

Lemma nthb_firstn {A} (f : A -> bool) n l i : nthb f (firstn n l) i = (i <? n)%nat && nthb f l i.
Proof.
  unfold nthb. revert n i; induction l as [|x r IH]; intros [|n] [|i]; cbn; try reflexivity.
  - rewrite andb_false_r. reflexivity.
  - rewrite IH. reflexivity.
Qed.

Lemma nthb_skipn {A} (f : A -> bool) n l i : nthb f (skipn n l) i = nthb f l (n + i).
Proof.
  unfold nthb. revert l; induction n as [|n IH]; intros l; [reflexivity|].
  destruct l as [|x r]; cbn; [destruct i; reflexivity|apply IH].
Qed.

Lemma or_mask_bytes_bits c k : forall l acc off i,
  (length l <= 8 * k)%nat ->
  tb (or_mask_bytes acc off (mask_bytes k c l)) i =
  tb acc i || ((i <? 64)%nat && (off <=? i)%nat && nthb (fun x => N.eqb x c) l (i - off)).
Proof.
  induction k as [|k IH]; intros l acc off i Hl.
  - destruct l; [|cbn in Hl; lia]. cbn [mask_bytes or_mask_bytes].
    unfold nthb. destruct (i - off)%nat; cbn; rewrite !andb_false_r, orb_false_r; reflexivity.
  - cbn [mask_bytes or_mask_bytes].
    destruct (Nat.ltb_spec off 64).
    + rewrite IH by (rewrite skipn_length; lia).
      rewrite tb_lor, tb_shl64, mask_byte_block, tb_block_mask, nthb_firstn, nthb_skipn.
      destruct (tb acc i); [reflexivity|]. cbn [orb].
      destruct (Nat.ltb_spec i 64); cbn [andb]; [|reflexivity].
      destruct (Nat.leb_spec off i); cbn [andb].
      * destruct (Nat.ltb_spec (i - off) 8); cbn [andb].
        -- replace (off + 8 <=? i)%nat with false by lia. cbn [andb]. apply orb_false_r.
        -- replace (off + 8 <=? i)%nat with true by lia. cbn [andb orb]. f_equal. lia.
      * replace (off + 8 <=? i)%nat with false by lia. reflexivity.
    + destruct (Nat.ltb_spec i 64); cbn [andb]; [|rewrite orb_false_r; reflexivity].
      replace (off <=? i)%nat with false by lia. cbn [andb]. rewrite orb_false_r. reflexivity.
Qed.

Lemma assemble_mask_gen lanes c mem : (1 <= lanes)%nat ->
  forall fuel off acc,
  (64 - off <= fuel)%nat ->
  (forall k, (off <= k < 64)%nat -> (exists j, k = off + j * lanes)%nat -> (k + lanes <= length mem)%nat) ->
  (forall i, tb acc i = (i <? 64)%nat && (i <? off)%nat && nthb (fun x => N.eqb x c) mem i) ->
  exists w, assemble_mask fuel lanes c mem off acc = Some w /\
  forall i, tb w i = (i <? 64)%nat && nthb (fun x => N.eqb x c) mem i.
Proof.
  intros Hl. induction fuel as [|fuel IH]; intros off acc Hf Hm Ha; cbn [assemble_mask].
  - destruct (Nat.ltb_spec off 64); [lia|]. eexists; split; [reflexivity|].
    intros i. rewrite Ha. destruct (Nat.ltb_spec i 64); cbn [andb]; [|reflexivity].
    replace (i <? off)%nat with true by lia. reflexivity.
  - destruct (Nat.ltb_spec off 64).
    + assert (off + lanes <= length mem)%nat.
      { apply Hm; [lia|]. exists O. lia. }
      rewrite skipn_length. replace (lanes <=? length mem - off)%nat with true by lia.
      apply IH; [lia| |].
      * intros k Hk [j Hj]. apply Hm; [lia|]. exists (S j). lia.
      * intros i. rewrite or_mask_bytes_bits.
        2:{ rewrite firstn_length. pose proof (Nat.div_mod (lanes + 7) 8 ltac:(lia)) as Hd.
            pose proof (Nat.mod_upper_bound (lanes + 7) 8 ltac:(lia)). lia. }
        rewrite Ha, nthb_firstn, nthb_skipn.
        destruct (Nat.ltb_spec i 64); cbn [andb]; [|reflexivity].
        destruct (Nat.leb_spec off i); cbn [andb].
        -- replace (i <? off)%nat with false by lia. cbn [andb orb].
           replace (off + (i - off))%nat with i by lia.
           f_equal. lia.
        -- replace (i <? off)%nat with true by lia. replace (i <? off + lanes)%nat with true by lia.
           rewrite orb_false_r. reflexivity.
    + eexists; split; [reflexivity|].
      intros i. rewrite Ha. destruct (Nat.ltb_spec i 64); cbn [andb]; [|reflexivity].
      replace (i <? off)%nat with true by lia. reflexivity.
Qed.

Lemma assemble_mask_correct lanes c mem :
  (1 <= lanes)%nat -> Nat.divide lanes 64 -> (64 <= length mem)%nat ->
  assemble_mask 64 lanes c mem 0 0 = Some (block_mask c (firstn 64 mem)).
Proof.
  intros Hl [q Hq] Hm.
  destruct (assemble_mask_gen lanes c mem Hl 64 0 0) as (w & E & B); [lia| | |].
  - intros k [_ Hk] [j Hj]. cbn in Hj. subst k.
    assert (j + 1 <= q)%nat by nia. nia.
  - intros i. rewrite tb_0. replace (i <? 0)%nat with false by lia. rewrite andb_false_r. reflexivity.
  - rewrite E. f_equal. apply tb_inj. intros i. rewrite B, tb_block_mask, nthb_firstn. reflexivity.
Qed.

(** ** popcount, highest and lowest bit *)

Lemma popcount_double (b : bool) x : popcount ((if b then 1 else 0) + 2 * x) = ((if b then 1 else 0) + popcount x)%nat.
Proof. destruct b, x as [|p]; reflexivity. Qed.

Lemma count_true_shift (f g : nat -> bool) a n :
  (forall i, (a <= i < a + n)%nat -> f (S i) = g i) ->
  length (filter f (seq (S a) n)) = length (filter g (seq a n)).
Proof.
  revert a; induction n as [|n IH]; intros a H; [reflexivity|].
  cbn [seq filter]. rewrite H by lia. destruct (g a); cbn [length];
  rewrite IH; auto; intros; apply H; lia.
Qed.

Lemma popcount_filter n : forall x, x < 2 ^ N.of_nat n ->
  popcount x = length (filter (tb x) (seq 0 n)).
Proof.
  induction n as [|n IH]; intros x Hx.
  - change (2 ^ N.of_nat 0) with 1 in Hx. assert (x = 0) by lia. subst. reflexivity.
  - assert (E : x = (if N.odd x then 1 else 0) + 2 * N.div2 x).
    { rewrite N.add_comm. etransitivity; [apply N.div2_odd|]. destruct (N.odd x); reflexivity. }
    assert (Hd : N.div2 x < 2 ^ N.of_nat n).
    { rewrite Nat2N.inj_succ, N.pow_succ_r' in Hx. destruct (N.odd x); lia. }
    set (b := N.odd x) in *. set (y := N.div2 x) in *. clearbody b y. subst x.
    rewrite popcount_double, (IH y Hd). cbn [seq filter].
    rewrite tb_cons.
    assert (Hs : length (filter (tb ((if b then 1 else 0) + 2 * y)) (seq 1 n))
                 = length (filter (tb y) (seq 0 n))).
    { apply count_true_shift. intros i _. rewrite tb_cons. reflexivity. }
    destruct b; cbn [length]; rewrite Hs; reflexivity.
Qed.

Lemma high_bit_spec x : x <> 0 -> tb x (high_bit x) = true /\ forall i, (high_bit x < i)%nat -> tb x i = false.
Proof.
  intros Hx. unfold high_bit, tb. rewrite N2Nat.id. split; [apply N.bit_log2; assumption|].
  intros i Hi. apply N.bits_above_log2. lia.
Qed.

Lemma high_bit_lt x n : x <> 0 -> x < 2 ^ N.of_nat n -> (high_bit x < n)%nat.
Proof.
  intros Hx Hl. unfold high_bit. apply N.log2_lt_pow2 in Hl; lia.
Qed.

Lemma ctz_spec x : x <> 0 -> tb x (ctz x) = true /\ forall i, (i < ctz x)%nat -> tb x i = false.
Proof.
  destruct x as [|p]; intros H; [congruence|]. clear H. cbn [ctz].
  induction p as [p IH|p [IH1 IH2]|]; cbn [pos_ctz].
  - split; [reflexivity|]. intros; lia.
  - split.
    + change (N.pos p~0) with ((if false then 1 else 0) + 2 * N.pos p). rewrite tb_cons. assumption.
    + intros [|i] Hi; change (N.pos p~0) with ((if false then 1 else 0) + 2 * N.pos p); rewrite tb_cons; [reflexivity|].
      apply IH2. lia.
  - split; [reflexivity|]. intros; lia.
Qed.

Lemma ctz_lt x n : x <> 0 -> x < 2 ^ N.of_nat n -> (ctz x < n)%nat.
Proof.
  intros Hx Hl. destruct (ctz_spec x Hx) as [H _].
  destruct (Nat.lt_ge_cases (ctz x) n); [assumption|].
  rewrite (tb_high x n) in H by assumption. discriminate.
Qed.
