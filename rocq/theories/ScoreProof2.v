From Coq Require Import Reals SpecFloat Permutation Lra.
From Flocq Require Import Core.
From Verif Require Import Base FloatSpec FloatProof ScoreSpec DialectSpec DialectModel DialectObs
  DialectProof DialectProof2 DialectProof3 DialectProof4 DialectProof5 DialectProof6 ScoreProof.
Local Open Scope R_scope.

Lemma fmt_pow e : (-1074 <= e)%Z -> generic_format radix2 (FLT_exp (-1074) 53) (bpow radix2 e).
Proof.
  intros H. apply generic_format_FLT. exists (Float radix2 1 e); cbn [Fnum Fexp].
  - unfold F2R. cbn [Fnum Fexp]. now rewrite Rmult_1_l.
  - change (Zaux.radix_val radix2) with 2%Z. lia.
  - exact H.
Qed.
Lemma rnd_ge_pow x e : (-1074 <= e)%Z -> bpow radix2 e <= x -> bpow radix2 e <= rnd x.
Proof. intros H L. rewrite <- (rnd_fmt _ (fmt_pow e H)). apply rnd_le. exact L. Qed.

Lemma pow53 : bpow radix2 (-53) = / IZR (2 ^ 53).
Proof. reflexivity. Qed.
Lemma part_pos a b : (0 < a)%nat -> (0 < b)%nat -> (Z.of_nat b <= 2 ^ 53)%Z -> bpow radix2 (-53) <= part a b.
Proof.
  intros A B L. unfold part. apply rnd_ge_pow; [lia|]. rewrite pow53.
  assert (P : 0 < INR b) by (apply lt_0_INR; exact B).
  assert (1 <= INR a) by (change 1 with (INR 1); apply le_INR; lia).
  apply Rle_trans with (/ INR b).
  - apply Rinv_le; [exact P|]. rewrite INR_IZR_INZ. apply IZR_le. exact L.
  - unfold Rdiv. rewrite <- (Rmult_1_l (/ INR b)) at 1. apply Rmult_le_compat_r; [|assumption].
    apply Rlt_le, Rinv_0_lt_compat. exact P.
Qed.
Lemma lit_pos n d : (0 < n)%Z -> (0 < d <= 2 ^ 53)%Z -> bpow radix2 (-53) <= literal n d.
Proof.
  intros A (B & L). unfold literal. apply rnd_ge_pow; [lia|]. rewrite pow53.
  assert (P : 0 < IZR d) by (apply IZR_lt; exact B).
  assert (1 <= IZR n) by (apply IZR_le; lia).
  apply Rle_trans with (/ IZR d).
  - apply Rinv_le; [exact P|]. apply IZR_le. exact L.
  - unfold Rdiv. rewrite <- (Rmult_1_l (/ IZR d)) at 1. apply Rmult_le_compat_r; [|assumption].
    apply Rlt_le, Rinv_0_lt_compat. exact P.
Qed.
Lemma mul_pow a b e f : bpow radix2 e <= a -> bpow radix2 f <= b -> bpow radix2 (e + f) <= a * b.
Proof.
  intros A B. rewrite bpow_plus. apply Rmult_le_compat; auto using bpow_ge_0.
Qed.

Lemma base_pos p t cols b : bpow radix2 (-53) <= p -> bpow radix2 (-53) <= t -> BaseScore p t cols b ->
  bpow radix2 (-106) <= b.
Proof.
  intros P T H.
  assert (L6 := lit_pos 6 10 ltac:(lia) ltac:(lia)).
  assert (Q : bpow radix2 (-53) <= rnd (sqrt (Rmax (literal 1 10) t))).
  { apply rnd_ge_pow; [lia|]. apply Rle_trans with (sqrt (bpow radix2 (-106))).
    - replace (-106)%Z with (-53 + -53)%Z by reflexivity. rewrite bpow_plus, sqrt_square by apply bpow_ge_0. lra.
    - apply sqrt_le_1; [apply bpow_ge_0| |].
      + apply Rle_trans with t; [|apply Rmax_r]. apply Rle_trans with (2 := T). apply bpow_ge_0.
      + apply Rle_trans with t; [|apply Rmax_r]. apply Rle_trans with (2 := T). apply bpow_le. lia. }
  replace (-106)%Z with (-53 + -53)%Z by reflexivity.
  destruct H as [(_ & _ & ->)|[(_ & _ & ->)|(_ & ->)]]; apply rnd_ge_pow; try lia; apply mul_pow; auto.
  apply Rle_trans with (1 := L6). apply Rmax_l.
Qed.
Lemma boost_pos q e dq l b s : bpow radix2 (-106) <= b -> Boosted q e dq l b s -> bpow radix2 (-159) <= s.
Proof.
  intros B H.
  assert (L1 := lit_pos 11 10 ltac:(lia) ltac:(lia)).
  assert (L2 := lit_pos 12 10 ltac:(lia) ltac:(lia)).
  replace (-159)%Z with (-106 + -53)%Z by reflexivity.
  destruct H as [(_ & ->)|[(_ & ->)|(_ & _ & ->)]]; [apply rnd_ge_pow; [lia|]; apply mul_pow; auto..|].
  apply Rle_trans with (2 := B). apply bpow_le. lia.
Qed.

Lemma score_positive order o d buf : (forall t, Permutation (order t) t) -> (0 < max_rows o)%nat ->
  (Z.of_nat (length buf) < 2 ^ 53)%Z ->
  flt lit_0 (cand_score (score_dialect order o d buf)) = true <->
  (min_rows o <= length (row_texts o d buf))%nat /\ row_texts o d buf <> [].
Proof.
  intros HO HM HL. destruct (score_ok order o d buf HO HM HL) as (Z & P). cbv zeta in *. split.
  - intros H. destruct (Nat.lt_ge_cases (length (row_texts o d buf)) (min_rows o)) as [C|C].
    + apply (is_lt _ _ _ _ is_0 (Z (or_introl C))) in H. lra.
    + split; [exact C|]. intros E. apply (is_lt _ _ _ _ is_0 (Z (or_intror E))) in H. lra.
  - intros (C & NE). destruct (P C NE) as (b & s & MM & _ & _ & B & _ & X & _ & I).
    apply (is_lt _ _ _ _ is_0 I).
    pose proof (rows_count o d buf HM). pose proof (rows_total o d buf HM).
    assert (0 < length (row_texts o d buf))%nat by (destruct (row_texts o d buf); [congruence|cbn [length]; lia]).
    apply Rlt_le_trans with (bpow radix2 (-159)); [apply bpow_gt_0|].
    eapply boost_pos; [|exact X]. eapply base_pos; [| |exact B].
    + apply part_pos; [|assumption|lia]. apply count_occ_In. destruct MM as (MM & _). exact MM.
    + unfold type_part. apply Rle_trans with (2 := Rmax_l _ _). apply lit_pos; lia.
Qed.

(** ** the range of the confidence *)
Lemma confidence_range sort order o buf : (forall l, Permutation (sort l) l) -> (forall t, Permutation (order t) t) ->
  (0 < max_rows o)%nat -> (Z.of_nat (length buf) < 2 ^ 53)%Z ->
  let r := detect sort order o buf in
  let d := res_dialect r in
  exists x, Is (res_confidence r) x /\ 0 <= x <= literal 12 10 /\
    (1 < x -> exists off len, let sample := firstn len (skipn off buf) in
       EscapesSeen (quote_char d) (escape_char d) (double_quote d) sample \/
       DoublesSeen (quote_char d) (escape_char d) (double_quote d) sample).
Proof.
  intros HS HO HM HL. cbv zeta.
  assert (LP : 0 <= literal 12 10) by (apply (lit_2 12 10); lia).
  destruct (flt lit_0 (res_confidence (detect sort order o buf))) eqn:F.
  - destruct (detect_ok sort order o buf HS HO HM F) as
      (off & ch & n & d0 & cand & SK & IC & EC & ED & ECf & _). cbv zeta in *.
    set (sample := firstn (sample_len o (skipn off buf)) (skipn off buf)) in *.
    assert (SL : (Z.of_nat (length sample) < 2 ^ 53)%Z).
    { unfold sample. rewrite firstn_length, skipn_length. lia. }
    rewrite ECf in *. rewrite EC in *. rewrite ED. cbn [set_line_ending quote_char escape_char double_quote].
    destruct (proj1 (score_positive order o d0 sample HO HM SL) F) as (G & NE).
    destruct (score_ok order o d0 sample HO HM SL) as (_ & P). cbv zeta in P.
    destruct (P G NE) as (b & s & _ & _ & _ & _ & B1 & X & X1 & I).
    exists s. split; [exact I|]. split; [exact X1|]. intros H.
    exists off, (sample_len o (skipn off buf)). fold sample.
    destruct X as [(X & _)|[(X & _)|(_ & _ & ->)]]; [auto|auto|lra].
  - exists 0. split; [|split; [lra|intros; lra]].
    unfold detect in *. destruct buf as [|c b]; [exact is_0|].
    destruct (skip_comment_lines o (c :: b)) as ((off, ch), n).
    destruct (skipn off (c :: b)); [exact is_0|].
    match goal with |- context [sort ?l] => destruct (sort l) as [|best others]; [exact is_0|] end.
    destruct (flt lit_0 (cand_score best)) eqn:G; [|exact is_0].
    cbn [res_confidence] in F. congruence.
Qed.

Lemma success_ok r x : Is (res_confidence r) x -> success r = true <-> 1 / 2 < x.
Proof.
  intros H. unfold success. assert (L : Is lit_0_5 (literal 5 10)) by (apply is_lit; lia).
  replace (1 / 2) with (literal 5 10); [apply (is_lt _ _ _ _ L H)|].
  unfold literal. replace (IZR 5 / IZR 10) with (bpow radix2 (-1)) by (cbn; lra).
  rewrite rnd_fmt; [cbn; lra|apply fmt_pow; lia].
Qed.

(** ** ranking *)
Lemma value_lt_lit_opp x a : Is x a -> flt x (SFopp lit_1e_9) = true <-> a < - literal 1 1000000000.
Proof.
  intros X. assert (L : Is lit_1e_9 (literal 1 1000000000)) by (apply is_lit; lia).
  assert (Is (SFopp lit_1e_9) (- literal 1 1000000000)).
  { destruct L as (V & E & F). rewrite <- E. destruct lit_1e_9 as [s|s| |s m e]; try contradiction.
    - split; [exact V|]. split; [cbn; lra|exact I].
    - split; [exact V|]. split; [|exact I]. cbn [SFopp value]. destruct s; cbn [negb]; lra. }
  apply (is_lt _ _ _ _ X H).
Qed.
Lemma rank_ok a b x y : Is (cand_score a) x -> Is (cand_score b) y -> 0 <= x <= 2 -> 0 <= y <= 2 ->
  let eps := literal 1 1000000000 in
  (eps < rnd (x - y) -> cand_lt a b = true) /\
  (eps < rnd (y - x) -> cand_lt a b = false) /\
  (rnd (x - y) <= eps -> rnd (y - x) <= eps -> (cand_columns b < cand_columns a)%nat -> cand_lt a b = true) /\
  (rnd (x - y) <= eps -> rnd (y - x) <= eps -> (cand_columns a < cand_columns b)%nat -> cand_lt a b = false).
Proof.
  intros X Y X1 Y1. cbv zeta.
  assert (L : Is lit_1e_9 (literal 1 1000000000)) by (apply is_lit; lia).
  assert (D : Is (fsub (cand_score a) (cand_score b)) (rnd (x - y))).
  { apply is_sub; auto. apply Rabs_le. lra. }
  assert (O : rnd (y - x) = - rnd (x - y)).
  { unfold rnd. rewrite <- round_NE_opp. f_equal. lra. }
  pose proof (is_lt _ _ _ _ L D) as A. pose proof (value_lt_lit_opp _ _ D) as B.
  unfold cand_lt, flt in *. cbv zeta. rewrite O.
  assert (P := lit_bounds 1 1000000000 ltac:(lia) ltac:(lia) ltac:(lia)).
  destruct (SFltb lit_1e_9 (fsub (cand_score a) (cand_score b))) eqn:E1.
  - assert (literal 1 1000000000 < rnd (x - y)) by tauto. repeat split; intros; try reflexivity; lra.
  - assert (N1 : ~ literal 1 1000000000 < rnd (x - y)) by (intros H; apply A in H; discriminate).
    destruct (SFltb (fsub (cand_score a) (cand_score b)) (SFopp lit_1e_9)) eqn:E2.
    + assert (rnd (x - y) < - literal 1 1000000000) by tauto. repeat split; intros; try reflexivity; lra.
    + assert (N2 : ~ rnd (x - y) < - literal 1 1000000000) by (intros H; apply B in H; discriminate).
      split; [intros; contradiction|]. split; [intros; lra|]. split; intros _ _ H.
      * destruct (Nat.eqb_spec (cand_columns a) (cand_columns b)); [lia|]. cbn [negb]. apply Nat.ltb_lt. exact H.
      * destruct (Nat.eqb_spec (cand_columns a) (cand_columns b)); [lia|]. cbn [negb]. apply Nat.ltb_ge. lia.
Qed.

(** ** headers *)
Lemma half_rnd s n : (s <= n)%nat -> (0 < n)%nat -> (Z.of_nat n <= 2 ^ 52)%Z ->
  flt lit_0_5 (fdiv (of_size s) (of_size n)) = true <-> majority s n.
Proof.
  intros L P H. destruct (is_part s n L P ltac:(lia)) as (I & _).
  assert (L5 : Is lit_0_5 (1 / 2)).
  { replace (1 / 2) with (literal 5 10); [apply is_lit; lia|]. unfold literal.
    replace (IZR 5 / IZR 10) with (bpow radix2 (-1)) by (cbn; lra).
    rewrite rnd_fmt; [cbn; lra|apply fmt_pow; lia]. }
  unfold flt. rewrite (is_lt _ _ _ _ L5 I). unfold part, majority.
  assert (N0 : 0 < INR n) by (apply lt_0_INR; exact P).
  assert (Hf : rnd (1 / 2) = 1 / 2) by (eapply Is_rnd; exact L5). split.
  - intros G. destruct (Nat.lt_ge_cases n (2 * s)) as [C|C]; [exact C|exfalso].
    apply le_INR in C. rewrite mult_INR in C. cbn [INR] in C.
    assert (INR s / INR n <= 1 / 2).
    { apply Rmult_le_reg_r with (INR n); [exact N0|]. unfold Rdiv at 1. rewrite Rmult_assoc, Rinv_l by lra. lra. }
    apply rnd_le in H0. lra.
  - intros C. set (up := 1 / 2 + bpow radix2 (-53)).
    assert (U : rnd up = up).
    { apply rnd_fmt, generic_format_FLT. exists (Float radix2 (2 ^ 52 + 1) (-53)); cbn [Fnum Fexp].
      - unfold F2R, up. cbn [Fnum Fexp]. rewrite plus_IZR, Rmult_plus_distr_r, Rmult_1_l. f_equal.
        change (IZR (2 ^ 52)) with (bpow radix2 52). rewrite <- bpow_plus. cbn. lra.
      - reflexivity.
      - lia. }
    assert (LE : up <= INR s / INR n).
    { assert (C' : (n + 1 <= 2 * s)%nat) by lia. apply le_INR in C'.
      rewrite plus_INR, mult_INR in C'. cbn [INR] in C'.
      apply Rmult_le_reg_r with (INR n); [exact N0|]. unfold Rdiv. rewrite Rmult_assoc, Rinv_l by lra.
      unfold up. rewrite pow53.
      assert (INR n <= IZR (2 ^ 52)) by (rewrite INR_IZR_INZ; apply IZR_le; lia).
      assert (/ IZR (2 ^ 53) * INR n <= 1 / 2).
      { apply Rmult_le_reg_l with (IZR (2 ^ 53)); [apply IZR_lt; reflexivity|].
        rewrite <- Rmult_assoc, Rinv_r, Rmult_1_l by (apply not_0_IZR; discriminate).
        replace (IZR (2 ^ 53)) with (2 * IZR (2 ^ 52)) by (rewrite <- mult_IZR; reflexivity). lra. }
      lra. }
    apply rnd_le in LE. rewrite U in LE. unfold up in LE. assert (0 < bpow radix2 (-53)) by apply bpow_gt_0. lra.
Qed.
