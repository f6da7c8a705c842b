From Verif Require Import Base WordsModel VarintSpec VarintModel.

Lemma lor_128 : forall x, (x < 128)%N -> N.lor x 128 = (x + 128)%N.
Proof.
  intros x H. symmetry.
  rewrite <- N.lxor_lor, N.add_nocarry_lxor; [reflexivity| |];
  apply N.bits_inj; intros n; rewrite N.land_spec, N.bits_0;
  (destruct (N.eq_dec n 7) as [->|Hn];
   [rewrite (N.testbit_eqb x 7); change (2 ^ 7)%N with 128%N; rewrite (N.div_small x 128) by assumption; reflexivity|]);
  change 128%N with (2 ^ 7)%N; rewrite N.pow2_bits_false by congruence; apply andb_false_r.
Qed.

Lemma varint_loop_read : forall fuel v rest,
  (v < 2 ^ (7 * N.of_nat fuel))%N -> fuel <> 0 ->
  read_uleb (varint_loop fuel v ++ rest) = Some (v, rest).
Proof.
  induction fuel as [|f IH]; intros v rest Hv Hf; [contradiction|]. cbn [varint_loop].
  destruct (N.leb_spec 128 v) as [Hge|Hlt].
  - assert (f <> 0) by (intros ->; cbn in Hv; lia).
    cbn [app read_uleb].
    assert (Hland : N.land v 127 = (v mod 128)%N) by (change 127%N with (N.ones 7); rewrite N.land_ones; reflexivity).
    rewrite Hland, lor_128 by (apply N.mod_lt; lia).
    destruct (N.ltb_spec (v mod 128 + 128) 128); [lia|].
    assert (Hs : N.shiftr v 7 = (v / 128)%N) by (rewrite N.shiftr_div_pow2; reflexivity).
    rewrite Hs, IH.
    + f_equal. f_equal. pose proof (N.div_mod v 128). lia.
    + apply N.div_lt_upper_bound; [lia|]. replace (7 * N.of_nat (S f))%N with (7 + 7 * N.of_nat f)%N in Hv by lia.
      rewrite N.pow_add_r in Hv. exact Hv.
    + assumption.
  - cbn [app read_uleb]. destruct (N.ltb_spec v 128); [reflexivity|lia].
Qed.

Lemma varint_loop_length : forall fuel v, length (varint_loop fuel v) <= fuel.
Proof.
  induction fuel as [|f IH]; intros v; cbn [varint_loop]; [auto|].
  destruct (128 <=? v)%N; cbn [length]; [specialize (IH (N.shiftr v 7))|]; lia.
Qed.
Lemma varint_loop_nonempty : forall fuel v, fuel <> 0 -> 1 <= length (varint_loop fuel v).
Proof. intros [|f] v H; [contradiction|]. cbn [varint_loop]. destruct (128 <=? v)%N; cbn [length]; lia. Qed.
Lemma varint_loop_bytes : forall fuel v, Forall (fun b => (b < 256)%N) (varint_loop fuel v).
Proof.
  induction fuel as [|f IH]; intros v; cbn [varint_loop]; [constructor|].
  destruct (N.leb_spec 128 v); constructor; [|apply IH|lia|constructor].
  change 127%N with (N.ones 7). rewrite N.land_ones.
  assert (v mod 2 ^ 7 < 128)%N by (apply N.mod_lt; discriminate). rewrite lor_128 by assumption. lia.
Qed.

Lemma varint64_read : forall v rest, (v < 2 ^ 64)%N -> read_uleb (write_varint64 v ++ rest) = Some (v, rest).
Proof.
  intros v rest H. unfold write_varint64, w64. rewrite N.mod_small by assumption.
  apply varint_loop_read; [|discriminate]. eapply N.lt_le_trans; [exact H|]. apply N.pow_le_mono_r; [discriminate|]. vm_compute. discriminate.
Qed.
Lemma varint32_read : forall v rest, (v < 2 ^ 32)%N -> read_uleb (write_varint32 v ++ rest) = Some (v, rest).
Proof.
  intros v rest H. unfold write_varint32. rewrite N.mod_small by assumption.
  apply varint_loop_read; [|discriminate]. eapply N.lt_le_trans; [exact H|]. apply N.pow_le_mono_r; [discriminate|]. vm_compute. discriminate.
Qed.

Lemma zigzag_value : forall z, int64 z ->
  zigzag_encode z = (if (0 <=? z)%Z then Z.to_N (2 * z) else Z.to_N (- 2 * z - 1)).
Proof.
  intros z Hz. unfold int64 in Hz. unfold zigzag_encode, u64_of_int64. rewrite Z.shiftl_mul_pow2, Z.shiftr_div_pow2 by lia.
  change (2 ^ 1)%Z with 2%Z. destruct (Z.leb_spec 0 z) as [Hp|Hn].
  - rewrite (Z.div_small z) by lia. rewrite Z.mod_0_l by lia. change (Z.to_N 0) with 0%N. rewrite N.lxor_0_r.
    rewrite Z.mod_small by lia. f_equal. lia.
  - assert (Hd : (z / 2 ^ 63 = -1)%Z) by (symmetry; apply (Z.div_unique z (2 ^ 63) (-1) (z + 2 ^ 63)); lia).
    rewrite Hd. replace ((z * 2) mod 2 ^ 64)%Z with (z * 2 + 2 ^ 64)%Z.
    2:{ apply (Z.mod_unique _ _ (-1)); lia. }
    change (Z.to_N ((-1) mod 2 ^ 64)) with (N.ones 64).
    change (N.lxor (Z.to_N (z * 2 + 2 ^ 64)) (N.ones 64)) with (N.lnot (Z.to_N (z * 2 + 2 ^ 64)) 64).
    rewrite N.lnot_sub_low.
    + change (N.ones 64) with (2 ^ 64 - 1)%N. lia.
    + destruct (N.eq_dec (Z.to_N (z * 2 + 2 ^ 64)) 0) as [->|Hnz]; [reflexivity|].
      apply N.log2_lt_pow2; [lia|]. lia.
Qed.

Lemma zigzag_bound : forall z, int64 z -> (zigzag_encode z < 2 ^ 64)%N.
Proof. intros z Hz. rewrite zigzag_value by assumption. unfold int64 in Hz. destruct (Z.leb_spec 0 z); lia. Qed.

Lemma unzigzag_zigzag : forall z, int64 z -> unzigzag (zigzag_encode z) = z.
Proof.
  intros z Hz. rewrite zigzag_value by assumption. unfold unzigzag. destruct (Z.leb_spec 0 z).
  - replace (Z.to_N (2 * z)) with (2 * Z.to_N z)%N by lia. rewrite N.even_mul. cbn [N.even orb].
    rewrite N.mul_comm, N.div_mul by discriminate. lia.
  - replace (Z.to_N (-2 * z - 1)) with (1 + 2 * Z.to_N (- z - 1))%N by lia.
    rewrite N.even_add_mul_2. cbn [N.even]. rewrite N.mul_comm, N.div_add by discriminate.
    rewrite N.div_small by lia. lia.
Qed.

Lemma signed_varint_read : forall z rest, int64 z -> read_zigzag (write_signed_varint z ++ rest) = Some (z, rest).
Proof.
  intros z rest Hz. unfold read_zigzag, write_signed_varint. rewrite varint64_read by (apply zigzag_bound; assumption).
  rewrite unzigzag_zigzag by assumption. reflexivity.
Qed.
Lemma signed_varint_nonempty : forall z, 1 <= length (write_signed_varint z).
Proof. intros. unfold write_signed_varint, write_varint64. apply varint_loop_nonempty. discriminate. Qed.
