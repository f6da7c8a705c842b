(** Overwriting flags; resize; push_back_unchecked. *)
From Verif Require Import Base BuffersSpec BuffersModel BuffersObs BuffersProof BuffersProof2.

Lemma bit_of_update_at : forall d i b v, nth_error d (i / 8) = Some b ->
  bit_of (update d (i / 8) (if v : bool then N.lor b (bit_mask (i mod 8)) else N.ldiff b (bit_mask (i mod 8)))) i = Some v.
Proof.
  intros d i b v H. unfold bit_of. rewrite nth_error_update.
  assert (Hl : i / 8 <? length d = true) by (apply Nat.ltb_lt; eapply nth_error_lt; eauto).
  rewrite Hl, Nat.eqb_refl. cbn [andb]. f_equal.
  destruct v; [rewrite lor_mask_bit | rewrite ldiff_mask_bit]; rewrite Nat.eqb_refl; reflexivity.
Qed.
Lemma bit_of_update_other : forall d i j b v, i <> j -> nth_error d (i / 8) = Some b ->
  bit_of (update d (i / 8) (if v : bool then N.lor b (bit_mask (i mod 8)) else N.ldiff b (bit_mask (i mod 8)))) j = bit_of d j.
Proof.
  intros d i j b v Hij H. unfold bit_of. rewrite nth_error_update.
  destruct (Nat.eqb_spec (i / 8) (j / 8)) as [E|E]; [|reflexivity].
  assert (Hl : i / 8 <? length d = true) by (apply Nat.ltb_lt; eapply nth_error_lt; eauto).
  rewrite Hl. cbn [andb]. rewrite <- E, H. f_equal.
  assert (Hmm : i mod 8 =? j mod 8 = false) by (apply Nat.eqb_neq; apply div_mod_8; assumption).
  destruct v; [rewrite lor_mask_bit | rewrite ldiff_mask_bit]; rewrite Hmm; reflexivity.
Qed.

(** set on a bitmap that has nulls: flags change as requested (the count does not). *)
Lemma set_ok : forall m l i v, inv m l -> some_null l = true -> i < length l ->
  exists m', bm_set m i v = Some m' /\ bm_size m' = bm_size m /\
    forall j w, nth_error (update l i v) j = Some w -> is_valid m' j = Some w.
Proof.
  intros m l i v H Hnull Hi. pose proof H as (Hs & Hn & Hh & Hd). rewrite Hnull in Hd.
  destruct (nth_error l i) as [old|] eqn:Eo.
  2:{ apply nth_error_None in Eo. lia. }
  pose proof Hd as (_ & _ & Hb). specialize (Hb _ _ Eo). unfold bit_of in Hb.
  destruct (nth_error (bm_data m) (i / 8)) as [b|] eqn:Eb; [|discriminate].
  exists (Bitmap (update (bm_data m) (i / 8) (if v then N.lor b (bit_mask (i mod 8)) else N.ldiff b (bit_mask (i mod 8))))
            (bm_size m) (bm_null_count m) (bm_has_nulls m)).
  split; [|split; [reflexivity|]].
  - unfold bm_set, or_at, clear_at. destruct v; rewrite Eb; reflexivity.
  - intros j w Hj. rewrite is_valid_bit by (cbn [bm_has_nulls]; congruence). cbn [bm_data].
    rewrite nth_error_update in Hj. destruct (Nat.eqb_spec i j) as [<-|Hne].
    + assert (i <? length l = true) by (apply Nat.ltb_lt; assumption). rewrite H0 in Hj. cbn [andb] in Hj. injection Hj as <-.
      apply bit_of_update_at. assumption.
    + cbn [andb] in Hj. rewrite bit_of_update_other by assumption. apply Hd. assumption.
Qed.

Lemma bitmap_reaches : forall ops l, run (as_lists bool) [] ops = Some [l] ->
  exists m, run bitmap_impl [] ops = Some [m] /\ inv m l.
Proof.
  intros ops l E. destruct (run_sim _ _ _ _ _ _ _ _ _ _ bitmap_simulates (Forall2_nil _) E) as (st & Er & HF).
  inversion HF as [|m l0 st' lt' Hm HF' E1 E2]; subst. inversion HF'; subst. eauto.
Qed.

Lemma set_reachable : forall ops l i v, run (as_lists bool) [] ops = Some [l] -> some_null l = true -> i < length l ->
  exists m m', run bitmap_impl [] ops = Some [m] /\ bm_set m i v = Some m' /\ bm_size m' = length l /\
    forall j w, nth_error (update l i v) j = Some w -> is_valid m' j = Some w.
Proof.
  intros ops l i v E Hn Hi. destruct (bitmap_reaches _ _ E) as (m & Em & Him).
  destruct (set_ok m l i v Him Hn Hi) as (m' & E' & Hsz & H'). exists m, m'. repeat split; auto.
  rewrite Hsz. apply Him.
Qed.
