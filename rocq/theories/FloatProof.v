From Coq Require Import Reals SpecFloat ZArith Lia Lra.
From Flocq Require Import Core BinarySingleNaN.
From Verif Require Import FloatSpec.
Local Open Scope R_scope.

Lemma p53 : Prec_gt_0 53. Proof. reflexivity. Qed.
Lemma p1024 : Prec_lt_emax 53 1024. Proof. reflexivity. Qed.
#[export] Existing Instance p53.
#[export] Existing Instance p1024.
Notation bf := (binary_float 53 1024).
Notation fexp := (SpecFloat.fexp 53 1024).

Lemma rnd_eq x : round radix2 fexp (round_mode mode_NE) x = rnd x.
Proof. reflexivity. Qed.

Lemma round_nearest_even_equiv s m l :
  round_nearest_even m l = choice_mode mode_NE s m l.
Proof.
  case l; [reflexivity|intro c]. case c; [|reflexivity..].
  now simpl; unfold Round.cond_incr; case Z.even.
Qed.
Lemma binary_round_aux_equiv sx mx ex lx :
  SpecFloat.binary_round_aux 53 1024 sx mx ex lx = binary_round_aux 53 1024 mode_NE sx mx ex lx.
Proof.
  unfold SpecFloat.binary_round_aux, binary_round_aux.
  set (mrse' := shr_fexp _ _ _). case mrse'; intros mrs' e'; simpl.
  now rewrite (round_nearest_even_equiv sx).
Qed.
Lemma binary_round_equiv s m e :
  SpecFloat.binary_round 53 1024 s m e = binary_round 53 1024 mode_NE s m e.
Proof.
  unfold SpecFloat.binary_round, binary_round, shl_align_fexp.
  set (mez := shl_align _ _ _); case mez as [mz ez]. apply binary_round_aux_equiv.
Qed.
Lemma normalize_equiv m e sz :
  SpecFloat.binary_normalize 53 1024 m e sz = B2SF (binary_normalize 53 1024 p53 p1024 mode_NE m e sz).
Proof.
  case m as [|p|p]; [now simpl|..]; simpl; rewrite B2SF_SF2B; apply binary_round_equiv.
Qed.
Lemma mul_equiv (x y : bf) : SFmul 53 1024 (B2SF x) (B2SF y) = B2SF (Bmult mode_NE x y).
Proof.
  case x as [sx|sx| |sx mx ex Bx]; case y as [sy|sy| |sy my ey By]; [now trivial..|].
  simpl. rewrite B2SF_SF2B. apply binary_round_aux_equiv.
Qed.
Lemma div_equiv (x y : bf) : SFdiv 53 1024 (B2SF x) (B2SF y) = B2SF (Bdiv mode_NE x y).
Proof.
  case x as [sx|sx| |sx mx ex Bx]; case y as [sy|sy| |sy my ey By]; [now trivial..|].
  simpl. rewrite B2SF_SF2B. set (melz := SFdiv_core_binary _ _ _ _ _ _).
  case melz as [[mz ez] lz]. apply binary_round_aux_equiv.
Qed.
Lemma sqrt_equiv (x : bf) : SFsqrt 53 1024 (B2SF x) = B2SF (Bsqrt mode_NE x).
Proof.
  case x as [sx|sx| |sx mx ex Bx]; [now (trivial || case sx)..|].
  case sx; [reflexivity|]. simpl. rewrite B2SF_SF2B.
  set (melz := SFsqrt_core_binary _ _ _ _). case melz as [[mz ez] lz]. apply binary_round_aux_equiv.
Qed.
Lemma sub_equiv (x y : bf) : SFsub 53 1024 (B2SF x) (B2SF y) = B2SF (Bminus mode_NE x y).
Proof.
  case x as [sx|sx| |sx mx ex Bx]; case y as [sy|sy| |sy my ey By];
    [now (trivial || simpl; case Bool.eqb)..|].
  simpl. unfold Zminus. rewrite <- Zaux.cond_Zopp_negb. apply normalize_equiv.
Qed.

(** ** [Is] and Flocq's numbers *)
Lemma value_B2R (b : bf) : value (B2SF b) = B2R b.
Proof.
  destruct b as [| | |s m e H]; try reflexivity. cbn [B2SF value B2R]. unfold F2R. cbn [Fnum Fexp].
  destruct s; cbn [Zaux.cond_Zopp]; [|now rewrite Rmult_1_l].
  rewrite opp_IZR. lra.
Qed.
Lemma Is_B x r : Is x r <-> exists b : bf, B2SF b = x /\ is_finite b = true /\ B2R b = r.
Proof.
  split.
  - intros (V & E & F). exists (SF2B x V). rewrite B2SF_SF2B. split; [reflexivity|]. split.
    + clear E. destruct x; try reflexivity; contradiction.
    + rewrite <- value_B2R, B2SF_SF2B. exact E.
  - intros (b & <- & F & <-). split; [apply valid_binary_B2SF|]. split; [apply value_B2R|].
    destruct b; try discriminate; exact I.
Qed.

Lemma rnd_le x y : x <= y -> rnd x <= rnd y.
Proof. intros H. apply round_le; auto with typeclass_instances. Qed.
Lemma rnd_0 : rnd 0 = 0.
Proof. apply round_0. auto with typeclass_instances. Qed.
Lemma fmt_rnd x : generic_format radix2 (FLT_exp (-1074) 53) (rnd x).
Proof. apply generic_format_round; auto with typeclass_instances. Qed.
Lemma rnd_fmt x : generic_format radix2 (FLT_exp (-1074) 53) x -> rnd x = x.
Proof. intros H. apply round_generic; auto with typeclass_instances. Qed.
Lemma Is_fmt x r : Is x r -> generic_format radix2 (FLT_exp (-1074) 53) r.
Proof.
  intros H. apply Is_B in H. destruct H as (b & _ & _ & <-). apply (generic_format_B2R 53 1024 b).
Qed.
Lemma Is_rnd x r : Is x r -> rnd r = r.
Proof. intros H. apply rnd_fmt. eapply Is_fmt; eauto. Qed.
Lemma fmt_int n : (Z.abs n <= 2 ^ 53)%Z -> generic_format radix2 (FLT_exp (-1074) 53) (IZR n).
Proof.
  intros H. apply generic_format_FLT.
  destruct (Z.eq_dec (Z.abs n) (2 ^ 53)) as [E|E].
  - exists (Float radix2 (Z.sgn n) 53).
    + unfold F2R. cbn [Fnum Fexp]. change (bpow radix2 53) with (IZR (2 ^ 53)).
      rewrite <- mult_IZR. f_equal. rewrite <- E, Z.mul_comm. symmetry. apply Z.abs_sgn.
    + cbn [Fnum]. destruct n; cbn; lia.
    + cbn [Fexp]. lia.
  - exists (Float radix2 n 0).
    + unfold F2R. cbn [Fnum Fexp]. cbn. now rewrite Rmult_1_r.
    + cbn [Fnum]. change (Zaux.radix_val radix2) with 2%Z. lia.
    + cbn [Fexp]. lia.
Qed.
Lemma rnd_int n : (Z.abs n <= 2 ^ 53)%Z -> rnd (IZR n) = IZR n.
Proof. intros H. apply rnd_fmt, fmt_int, H. Qed.
Lemma rnd_1 : rnd 1 = 1.
Proof. apply (rnd_int 1). cbn. lia. Qed.
Lemma rnd_2 : rnd 2 = 2.
Proof. apply (rnd_int 2). cbn. lia. Qed.

Lemma big : 2 < bpow radix2 1024.
Proof.
  change 2 with (IZR 2). replace (IZR 2) with (bpow radix2 1) by reflexivity. apply bpow_lt. lia.
Qed.

Lemma not_over x b : Rabs x <= b -> b < bpow radix2 1024 -> rnd b = b ->
  Rlt_bool (Rabs (rnd x)) (bpow radix2 1024) = true.
Proof.
  intros H B R. apply Rlt_bool_true. apply Rle_lt_trans with b; [|exact B].
  apply Rabs_le. apply Rabs_le_inv in H. destruct H as (H1 & H2). split.
  - apply rnd_le in H1. unfold rnd in H1 at 1. rewrite round_NE_opp in H1. fold (rnd b) in H1.
    rewrite R in H1. exact H1.
  - apply rnd_le in H2. rewrite R in H2. exact H2.
Qed.

Lemma is_normalize n sz : Rabs (IZR n) <= 2 ^ 53 ->
  Is (SpecFloat.binary_normalize 53 1024 n 0 sz) (IZR n).
Proof.
  intros H. rewrite normalize_equiv. apply Is_B. eexists. split; [reflexivity|].
  assert (H' : (Z.abs n <= 2 ^ 53)%Z).
  { apply le_IZR. rewrite abs_IZR. replace (IZR (2 ^ 53)) with (2 ^ 53)%R; [exact H|].
    rewrite pow_IZR. f_equal. }
  generalize (binary_normalize_correct 53 1024 p53 p1024 mode_NE n 0 sz). cbv zeta.
  replace (F2R (Float radix2 n 0)) with (IZR n) by (unfold F2R; cbn; now rewrite Rmult_1_r).
  rewrite rnd_eq, (rnd_int n H').
  rewrite Rlt_bool_true; [intros (A & B & _); auto|].
  apply Rle_lt_trans with (1 := H). change (bpow radix2 1024) with (IZR (2 ^ 1024)).
  rewrite pow_IZR. apply IZR_lt. reflexivity.
Qed.

Lemma is_mul x y a b : Is x a -> Is y b -> Rabs (a * b) <= 2 -> Is (SFmul 53 1024 x y) (rnd (a * b)).
Proof.
  intros X Y L. apply Is_B in X. apply Is_B in Y.
  destruct X as (bx & <- & Fx & <-). destruct Y as (by_ & <- & Fy & <-).
  rewrite mul_equiv. apply Is_B. eexists. split; [reflexivity|].
  generalize (Bmult_correct 53 1024 p53 p1024 mode_NE bx by_). rewrite rnd_eq.
  rewrite (not_over _ 2 L big rnd_2). intros (A & B & _). rewrite B, Fx, Fy. auto.
Qed.
Lemma is_div x y a b : Is x a -> Is y b -> b <> 0 -> Rabs (a / b) <= 2 -> Is (SFdiv 53 1024 x y) (rnd (a / b)).
Proof.
  intros X Y N L. apply Is_B in X. apply Is_B in Y.
  destruct X as (bx & <- & Fx & <-). destruct Y as (by_ & <- & Fy & <-).
  rewrite div_equiv. apply Is_B. eexists. split; [reflexivity|].
  generalize (Bdiv_correct 53 1024 p53 p1024 mode_NE bx by_ N). rewrite rnd_eq.
  rewrite (not_over _ 2 L big rnd_2). intros (A & B & _). rewrite B, Fx. auto.
Qed.
Lemma is_sub x y a b : Is x a -> Is y b -> Rabs (a - b) <= 2 -> Is (SFsub 53 1024 x y) (rnd (a - b)).
Proof.
  intros X Y L. apply Is_B in X. apply Is_B in Y.
  destruct X as (bx & <- & Fx & <-). destruct Y as (by_ & <- & Fy & <-).
  rewrite sub_equiv. apply Is_B. eexists. split; [reflexivity|].
  generalize (Bminus_correct 53 1024 p53 p1024 mode_NE bx by_ Fx Fy). rewrite rnd_eq.
  rewrite (not_over _ 2 L big rnd_2). intros (A & B & _). auto.
Qed.
Lemma is_sqrt x a : Is x a -> 0 <= a -> Is (SFsqrt 53 1024 x) (rnd (sqrt a)).
Proof.
  intros X P. apply Is_B in X. destruct X as (bx & <- & Fx & E).
  rewrite sqrt_equiv. apply Is_B. eexists. split; [reflexivity|].
  destruct (Bsqrt_correct 53 1024 p53 p1024 mode_NE bx) as (A & B & _).
  rewrite rnd_eq, E in A. split; [|exact A]. rewrite B.
  destruct bx as [s|s| |s m e H]; try discriminate; [reflexivity|].
  destruct s; [|reflexivity]. exfalso. cbn [B2R] in E. 
  assert (F2R (Float radix2 (Zneg m) e) < 0) by (apply F2R_lt_0; reflexivity).
  cbn in E. lra.
Qed.
Lemma is_lt x y a b : Is x a -> Is y b -> SFltb x y = true <-> a < b.
Proof.
  intros X Y. apply Is_B in X. apply Is_B in Y.
  destruct X as (bx & <- & Fx & <-). destruct Y as (by_ & <- & Fy & <-).
  change (SFltb (B2SF bx) (B2SF by_)) with (Bltb bx by_). rewrite Bltb_correct by assumption.
  destruct (Rlt_bool_spec (B2R bx) (B2R by_)); split; intros; try easy; lra.
Qed.
Lemma is_lt_false x y a b : Is x a -> Is y b -> SFltb x y = false <-> b <= a.
Proof.
  intros X Y. pose proof (is_lt x y a b X Y) as H. destruct (SFltb x y).
  - split; [discriminate|]. intros L. assert (a < b) by (apply H; reflexivity). lra.
  - split; [|reflexivity]. intros _. destruct (Rle_or_lt b a) as [L|L]; [exact L|].
    apply H in L. discriminate.
Qed.
