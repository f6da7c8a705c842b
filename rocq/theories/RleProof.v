From Verif Require Import Base WordsModel VarintSpec VarintModel VarintProof ThriftSpec ThriftProof BuffersModel RleSpec RleModel.

(** ** Bit packing *)
Fixpoint horner (bw : N) (vs : list N) : N :=
  match vs with [] => 0 | v :: r => v + 2 ^ bw * horner bw r end%N.

Lemma le_value_app : forall a b, le_value (a ++ b) = (le_value a + 256 ^ N.of_nat (length a) * le_value b)%N.
Proof.
  induction a as [|x a IH]; intros b; cbn [app le_value length].
  - change (256 ^ N.of_nat 0)%N with 1%N. lia.
  - rewrite IH, Nat2N.inj_succ, N.pow_succ_r'. lia.
Qed.

Lemma pow256 : forall n, (256 ^ n = 2 ^ (8 * n))%N.
Proof. intros. rewrite N.pow_mul_r. reflexivity. Qed.

Lemma pow2_pos : forall n, (0 < 2 ^ n)%N.
Proof. intros. apply N.neq_0_lt_0, N.pow_nonzero. discriminate. Qed.

Lemma pow2_split : forall a b, (2 ^ (a + b) = 2 ^ a * 2 ^ b)%N.
Proof. intros. apply N.pow_add_r. Qed.

Lemma flush_bytes_spec : forall fuel b bits out b' k',
  bits <= 8 * fuel + 7 -> (b < 2 ^ N.of_nat bits)%N ->
  flush_bytes fuel b bits = (out, b', k') ->
  k' < 8 /\ bits = 8 * length out + k' /\
  b = (le_value out + 256 ^ N.of_nat (length out) * b')%N /\ (b' < 2 ^ N.of_nat k')%N.
Proof.
  induction fuel as [|f IH]; intros b bits out b' k' Hf Hb E; cbn [flush_bytes] in E.
  - injection E as <- <- <-. cbn [length le_value]. change (256 ^ N.of_nat 0)%N with 1%N. repeat split; try assumption; try lia.
  - destruct (Nat.leb_spec 8 bits) as [Hk|Hk].
    + destruct (flush_bytes f (N.shiftr b 8) (bits - 8)) as [[o b1] k1] eqn:E1. injection E as <- <- <-.
      rewrite N.shiftr_div_pow2 in E1.
      assert (HB : (b / 2 ^ 8 < 2 ^ N.of_nat (bits - 8))%N).
      { apply N.div_lt_upper_bound; [discriminate|]. rewrite <- pow2_split.
        replace (8 + N.of_nat (bits - 8))%N with (N.of_nat bits) by lia. exact Hb. }
      assert (HL : bits - 8 <= 8 * f + 7) by lia. destruct (IH _ _ _ _ _ HL HB E1) as (A1 & A2 & A3 & A4).
      cbn [length le_value]. split; [lia|]. split; [lia|]. split; [|assumption].
      change 255%N with (N.ones 8). rewrite N.land_ones, Nat2N.inj_succ, N.pow_succ_r'.
      pose proof (N.div_mod b (2 ^ 8) ltac:(discriminate)) as D. rewrite A3 in D. change (2 ^ 8)%N with 256%N in *.
      rewrite D at 1. lia.
    + injection E as <- <- <-. cbn [length le_value]. change (256 ^ N.of_nat 0)%N with 1%N. repeat split; try assumption; try lia.
Qed.

Lemma lor_shift : forall b v k, (b < 2 ^ k)%N -> (v * 2 ^ k < 2 ^ 64)%N ->
  N.lor b (shl64 v k) = (b + 2 ^ k * v)%N.
Proof.
  intros b v k Hb Hv. unfold shl64, w64. rewrite N.shiftl_mul_pow2, N.mod_small by assumption.
  rewrite <- N.lxor_lor.
  - rewrite <- N.add_nocarry_lxor; [lia|]. 
    apply N.bits_inj; intros n; rewrite N.land_spec, N.bits_0.
    destruct (N.lt_ge_cases n k).
    + rewrite N.mul_pow2_bits_low by assumption. apply andb_false_r.
    + destruct b as [|p]; [reflexivity|]. rewrite (N.bits_above_log2 (N.pos p)); [reflexivity|].
      eapply N.lt_le_trans; [|exact H]. apply N.log2_lt_pow2; [lia|exact Hb].
  - apply N.bits_inj; intros n; rewrite N.land_spec, N.bits_0.
    destruct (N.lt_ge_cases n k).
    + rewrite N.mul_pow2_bits_low by assumption. apply andb_false_r.
    + destruct b as [|p]; [reflexivity|]. rewrite (N.bits_above_log2 (N.pos p)); [reflexivity|].
      eapply N.lt_le_trans; [|exact H]. apply N.log2_lt_pow2; [lia|exact Hb].
Qed.

Lemma pack_loop_spec : forall bw vs b k,
  bw <= 57 -> k < 8 -> (b < 2 ^ N.of_nat k)%N -> Forall (fun v => (v < 2 ^ N.of_nat bw)%N) vs ->
  le_value (pack_loop bw vs b k) = (b + 2 ^ N.of_nat k * horner (N.of_nat bw) vs)%N /\
  length (pack_loop bw vs b k) = (k + bw * length vs + 7) / 8.
Proof.
  intros bw vs. induction vs as [|v r IH]; intros b k Hbw Hk Hb Hvs; cbn [pack_loop horner].
  - rewrite N.mul_0_r, N.add_0_r. cbn [length]. rewrite Nat.mul_0_r, Nat.add_0_r.
    destruct (Nat.ltb_spec 0 k) as [Hk0|Hk0].
    + cbn [le_value length]. change 255%N with (N.ones 8). rewrite N.land_ones, N.mod_small.
      * split; [lia|]. symmetry. apply Nat.le_antisymm; [|apply Nat.div_le_lower_bound; lia].
        assert ((k + 7) / 8 < 2) by (apply Nat.div_lt_upper_bound; lia). lia.
      * eapply N.lt_le_trans; [exact Hb|]. apply N.pow_le_mono_r; [discriminate|lia].
    + assert (k = 0) by lia. subst k. change (2 ^ N.of_nat 0)%N with 1%N in Hb. cbn [le_value length]. split; [lia|reflexivity].
  - inversion Hvs as [|? ? Hv Hr]; subst.
    assert (HP : (v * 2 ^ N.of_nat k < 2 ^ N.of_nat (k + bw))%N).
    { replace (N.of_nat (k + bw)) with (N.of_nat bw + N.of_nat k)%N by lia. rewrite pow2_split.
      apply N.mul_lt_mono_pos_r; [apply pow2_pos|exact Hv]. }
    assert (H64 : (2 ^ N.of_nat (k + bw) <= 2 ^ 64)%N) by (apply N.pow_le_mono_r; [discriminate|lia]).
    rewrite lor_shift; [|exact Hb|lia].
    assert (HS : (b + 2 ^ N.of_nat k * v < 2 ^ N.of_nat (k + bw))%N).
    { replace (N.of_nat (k + bw)) with (N.of_nat k + N.of_nat bw)%N by lia. rewrite pow2_split.
      apply N.lt_le_trans with (2 ^ N.of_nat k + 2 ^ N.of_nat k * v)%N; [lia|].
      replace (2 ^ N.of_nat k + 2 ^ N.of_nat k * v)%N with (2 ^ N.of_nat k * (v + 1))%N by lia.
      apply N.mul_le_mono_l. lia. }
    destruct (flush_bytes (k + bw) (b + 2 ^ N.of_nat k * v) (k + bw)) as [[o b1] k1] eqn:E.
    assert (HL : k + bw <= 8 * (k + bw) + 7) by lia. destruct (flush_bytes_spec _ _ _ _ _ _ HL HS E) as (A1 & A2 & A3 & A4).
    destruct (IH b1 k1 Hbw A1 A4 Hr) as [B1 B2]. split.
    + rewrite le_value_app, B1, N.mul_add_distr_l, N.add_assoc, <- A3, N.mul_assoc, pow256, <- pow2_split.
      replace (8 * N.of_nat (length o) + N.of_nat k1)%N with (N.of_nat k + N.of_nat bw)%N by lia.
      rewrite pow2_split. lia.
    + rewrite app_length, B2. cbn [length]. rewrite Nat.mul_succ_r.
      replace (k + (bw * length r + bw) + 7) with (k1 + bw * length r + 7 + length o * 8) by lia.
      rewrite Nat.div_add by discriminate. lia.
Qed.

Lemma bit_pack_spec : forall bw vs, bw <= 57 -> Forall (fun v => (v < 2 ^ N.of_nat bw)%N) vs ->
  le_value (bit_pack bw vs) = horner (N.of_nat bw) vs /\ length (bit_pack bw vs) = (bw * length vs + 7) / 8.
Proof.
  intros bw vs H1 H2. destruct (pack_loop_spec bw vs 0 0 H1 ltac:(lia) ltac:(vm_compute; reflexivity) H2) as [A B].
  unfold bit_pack. rewrite A, B. change (2 ^ N.of_nat 0)%N with 1%N. split; [lia|reflexivity].
Qed.

Lemma horner_lt : forall bw vs, Forall (fun v => (v < 2 ^ bw)%N) vs -> (horner bw vs < 2 ^ (bw * N.of_nat (length vs)))%N.
Proof.
  intros bw vs H. induction H as [|v r Hv Hr IH]; cbn [horner length].
  - rewrite N.mul_0_r. reflexivity.
  - rewrite Nat2N.inj_succ, N.mul_succ_r, N.add_comm, N.add_comm, (N.add_comm (bw * _) bw), pow2_split.
    apply N.lt_le_trans with (2 ^ bw + 2 ^ bw * horner bw r)%N; [lia|].
    replace (2 ^ bw + 2 ^ bw * horner bw r)%N with (2 ^ bw * (horner bw r + 1))%N by lia.
    apply N.mul_le_mono_l. lia.
Qed.

Lemma horner_nth : forall bw vs i, Forall (fun v => (v < 2 ^ bw)%N) vs -> i < length vs ->
  ((horner bw vs / 2 ^ (bw * N.of_nat i)) mod 2 ^ bw)%N = nth i vs 0%N.
Proof.
  intros bw vs i H. revert i. induction H as [|v r Hv Hr IH]; intros i Hi; cbn [length] in Hi; [lia|].
  cbn [horner]. destruct i as [|i].
  - cbn [nth]. rewrite N.mul_0_r. change (2 ^ 0)%N with 1%N. rewrite N.div_1_r.
    rewrite N.mul_comm, N.mod_add by (apply N.pow_nonzero; discriminate). apply N.mod_small, Hv.
  - cbn [nth]. rewrite <- IH by lia. rewrite Nat2N.inj_succ, N.mul_succ_r, N.add_comm, N.add_comm, (N.add_comm (bw * _) bw), pow2_split.
    rewrite <- N.div_div by (apply N.pow_nonzero; discriminate).
    rewrite (N.mul_comm (2 ^ bw) (horner bw r)), N.div_add by (apply N.pow_nonzero; discriminate).
    rewrite (N.div_small v) by exact Hv. rewrite N.add_0_l. reflexivity.
Qed.

Lemma unpack_horner : forall bw vs n bs, Forall (fun v => (v < 2 ^ bw)%N) vs -> n <= length vs ->
  le_value bs = horner bw vs -> unpack bw n bs = firstn n vs.
Proof.
  intros bw vs n bs H Hn E. unfold unpack. rewrite E.
  assert (L : map (fun i => nth i vs 0%N) (seq 0 n) = firstn n vs).
  { clear -Hn. revert n Hn. induction vs as [|v r IH]; intros [|n] Hn; cbn [length] in Hn; try lia; try reflexivity.
    cbn [seq map firstn nth]. f_equal. rewrite <- seq_shift, map_map. apply IH. lia. }
  rewrite <- L. apply map_ext_in. intros i Hi. apply in_seq in Hi. apply horner_nth; [assumption|lia].
Qed.

(** ** Runs *)
Lemma take_exact : forall n s rest, n = N.of_nat (length s) -> take n (s ++ rest) = Some (s, rest).
Proof. intros n s rest ->. apply take_app. Qed.

Lemma write_varint32_len : forall v, 1 <= length (write_varint32 v) <= 5.
Proof. intros. unfold write_varint32. split; [apply varint_loop_nonempty; discriminate|apply varint_loop_length]. Qed.

Lemma shl1_val : forall c, (c < 2 ^ 31)%N -> shl1_u32 c = (2 * c)%N.
Proof. intros c H. unfold shl1_u32. rewrite !N.mod_small; [reflexivity| |]; lia. Qed.

Lemma lor_even_1 : forall c, N.lor (2 * c) 1 = (2 * c + 1)%N.
Proof. intros [|p]; reflexivity. Qed.

Lemma rle_run_bytes : forall bw v, map (fun b => N.land (N.shiftr v (N.of_nat b * 8)) 255) (seq 0 ((bw + 7) / 8)) = le_bytes ((bw + 7) / 8) v.
Proof.
  intros. rewrite <- le_bytes_map. apply map_ext. intros b. change 255%N with (N.ones 8). apply N.land_ones.
Qed.

Lemma byte_width_nat : forall bw, byte_width (N.of_nat bw) = N.of_nat ((bw + 7) / 8).
Proof. intros. unfold byte_width. rewrite Nat2N.inj_div. f_equal. lia. Qed.

Lemma byte_width_enough : forall bw, (2 ^ N.of_nat bw <= 256 ^ N.of_nat ((bw + 7) / 8))%N.
Proof.
  intros. rewrite pow256. apply N.pow_le_mono_r; [discriminate|].
  pose proof (Nat.div_mod (bw + 7) 8 ltac:(discriminate)). pose proof (Nat.mod_upper_bound (bw + 7) 8 ltac:(discriminate)). lia.
Qed.

Lemma read_runs_S : forall f bw n bs, n <> 0 ->
  read_runs (S f) bw n bs =
  match read_uleb bs with
  | None => None
  | Some (h, r) =>
      let avail := N.to_nat (N.min (if N.even h then h / 2 else 8 * (h / 2)) (N.of_nat n)) in
      match take (if N.even h then byte_width bw else h / 2 * bw)%N r with
      | None => None
      | Some (data, r') =>
          let vs := if N.even h then repeat (le_value data) avail else unpack bw avail data in
          match read_runs f bw (n - avail) r' with
          | None => None
          | Some (rest, r'') => Some (vs ++ rest, r'')
          end
      end
  end.
Proof. intros f bw [|n] bs H; [contradiction|]. reflexivity. Qed.

Lemma read_runs_0 : forall f bw bs, read_runs f bw 0 bs = Some ([], bs).
Proof. intros []; reflexivity. Qed.

Lemma read_rle_run : forall bw v c f n r,
  (0 < c)%N -> (c < 2 ^ 31)%N -> (c <= N.of_nat n)%N -> (v < 2 ^ N.of_nat bw)%N ->
  read_runs (S f) (N.of_nat bw) n (rle_run bw v c ++ r) =
  match read_runs f (N.of_nat bw) (n - N.to_nat c) r with
  | None => None | Some (l, r') => Some (repeat v (N.to_nat c) ++ l, r')
  end.
Proof.
  intros bw v c f n r H0 H31 Hn Hv. unfold rle_run. rewrite rle_run_bytes, <- app_assoc, read_runs_S by lia.
  rewrite shl1_val by assumption. rewrite varint32_read by lia. cbv zeta.
  assert (Ev : N.even (2 * c) = true) by (rewrite N.even_mul; reflexivity). rewrite Ev.
  rewrite N.mul_comm, N.div_mul by discriminate. rewrite byte_width_nat.
  rewrite take_exact by (rewrite le_bytes_length; reflexivity).
  rewrite N.min_l by assumption. rewrite le_value_bytes; [reflexivity|].
  eapply N.lt_le_trans; [exact Hv|apply byte_width_enough].
Qed.

Definition padded (vs : list N) : list N := vs ++ repeat 0%N ((length vs + 7) / 8 * 8 - length vs).
Lemma padded_length : forall vs, length (padded vs) = 8 * ((length vs + 7) / 8).
Proof.
  intros. unfold padded. rewrite app_length, repeat_length.
  pose proof (Nat.div_mod (length vs + 7) 8 ltac:(discriminate)). pose proof (Nat.mod_upper_bound (length vs + 7) 8 ltac:(discriminate)). lia.
Qed.
Lemma padded_bound : forall bw vs, Forall (fun v => (v < 2 ^ bw)%N) vs -> Forall (fun v => (v < 2 ^ bw)%N) (padded vs).
Proof.
  intros. unfold padded. apply Forall_app. split; [assumption|]. apply Forall_forall. intros x Hx. apply repeat_spec in Hx. subst. apply pow2_pos.
Qed.

Lemma read_bit_packed_run : forall bw vs f n r,
  bw <= 57 -> vs <> [] -> (N.of_nat (length vs) < 2 ^ 31)%N -> n <> 0 ->
  Forall (fun v => (v < 2 ^ N.of_nat bw)%N) vs ->
  let a := Nat.min (length (padded vs)) n in
  read_runs (S f) (N.of_nat bw) n (bit_packed_run bw vs ++ r) =
  match read_runs f (N.of_nat bw) (n - a) r with
  | None => None | Some (l, r') => Some (firstn a (padded vs) ++ l, r')
  end.
Proof.
  intros bw vs f n r Hbw Hvs Hlen Hn HF a. unfold bit_packed_run. cbv zeta.
  set (g := (length vs + 7) / 8).
  assert (Hg : (N.of_nat g < 2 ^ 31)%N).
  { assert (g <= length vs). { unfold g. destruct vs as [|x [|y l]]; [contradiction|cbn; lia|]. apply Nat.div_le_upper_bound; [discriminate|]. cbn [length]. lia. } lia. }
  fold (padded vs). change (vs ++ repeat 0%N (g * 8 - length vs)) with (padded vs).
  rewrite <- app_assoc, read_runs_S by assumption. rewrite shl1_val by assumption. rewrite lor_even_1. rewrite varint32_read by lia. cbv zeta.
  assert (Ev : N.even (2 * N.of_nat g + 1) = false). { rewrite N.add_comm, N.even_add_mul_2. reflexivity. } rewrite Ev.
  replace ((2 * N.of_nat g + 1) / 2)%N with (N.of_nat g) by (apply (N.div_unique _ _ _ 1); lia).
  pose proof (padded_bound _ _ HF) as HP. destruct (bit_pack_spec bw (padded vs) Hbw HP) as [A B].
  rewrite take_exact.
  2:{ rewrite B, padded_length. fold g. replace (bw * (8 * g) + 7) with (7 + (bw * g) * 8) by lia. rewrite Nat.div_add by discriminate.
      change (7 / 8) with 0. lia. }
  replace (N.to_nat (N.min (8 * N.of_nat g) (N.of_nat n))) with a by (unfold a; rewrite padded_length; fold g; lia).
  rewrite (unpack_horner (N.of_nat bw) (padded vs)); [reflexivity|assumption| |assumption]. unfold a. lia.
Qed.

Lemma bit_packed_run_len : forall bw vs, bw <= 57 -> Forall (fun v => (v < 2 ^ N.of_nat bw)%N) vs ->
  1 <= length (bit_packed_run bw vs).
Proof. intros. unfold bit_packed_run. cbv zeta. rewrite app_length. pose proof (write_varint32_len (N.lor (shl1_u32 (N.of_nat ((length vs + 7) / 8))) 1)). lia. Qed.
Lemma rle_run_len : forall bw v c, 1 <= length (rle_run bw v c) <= 5 + (bw + 7) / 8.
Proof. intros. unfold rle_run. rewrite app_length, map_length, seq_length. pose proof (write_varint32_len (shl1_u32 c)). lia. Qed.

Lemma run_length_spec : forall v rest n,
  exists k, run_length v rest n = (n + N.of_nat k)%N /\ k <= length rest /\ firstn k rest = repeat v k /\
            (run_length v rest n <= N.max n (2 ^ 30))%N.
Proof.
  induction rest as [|x r IH]; intros n; cbn [run_length].
  - exists 0. repeat split; cbn [length firstn repeat]; lia.
  - destruct (N.eqb_spec x v) as [->|Hx]; cbn [andb].
    + destruct (N.ltb_spec n (2 ^ 30)) as [Hn|Hn].
      * destruct (IH (n + 1)%N) as (k & A & B & C & D). exists (S k). repeat split.
        -- rewrite A. lia.
        -- cbn [length]. lia.
        -- cbn [firstn repeat]. rewrite C. reflexivity.
        -- revert D. generalize (2 ^ 30)%N Hn. intros; lia.
      * exists 0. repeat split; cbn [length firstn repeat]; lia.
    + exists 0. repeat split; cbn [length firstn repeat]; lia.
Qed.

Lemma encode_runs_step : forall f bw v rest,
  encode_runs (S f) bw (v :: rest) =
  let n := run_length v rest 1 in
  if (8 <=? n)%N then rle_run bw v n ++ encode_runs f bw (skipn (N.to_nat n) (v :: rest))
  else bit_packed_run bw (firstn 8 (v :: rest)) ++ encode_runs f bw (skipn 8 (v :: rest)).
Proof. reflexivity. Qed.
Lemma encode_runs_nil : forall f bw, encode_runs f bw [] = [].
Proof. intros []; reflexivity. Qed.

Lemma Forall_skipn : forall {A} (P : A -> Prop) n l, Forall P l -> Forall P (skipn n l).
Proof. intros A P n l H. rewrite <- (firstn_skipn n l) in H. apply Forall_app in H. apply H. Qed.
Lemma Forall_firstn : forall {A} (P : A -> Prop) n l, Forall P l -> Forall P (firstn n l).
Proof. intros A P n l H. rewrite <- (firstn_skipn n l) in H. apply Forall_app in H. apply H. Qed.

Lemma firstn_padded : forall vs n, n <= length vs -> firstn n (padded vs) = firstn n vs.
Proof.
  intros vs n H. unfold padded. rewrite firstn_app. replace (n - length vs) with 0 by lia. cbn [firstn]. apply app_nil_r.
Qed.

Lemma encode_runs_read : forall m bw vs f rest,
  bw <= 57 -> length vs <= m -> Forall (fun v => (v < 2 ^ N.of_nat bw)%N) vs ->
  length (encode_runs m bw vs) <= f ->
  read_runs f (N.of_nat bw) (length vs) (encode_runs m bw vs ++ rest) = Some (vs, rest).
Proof.
  induction m as [|m IH]; intros bw vs f rest Hbw Hm HF Hf.
  - destruct vs; [|cbn [length] in Hm; lia]. cbn [length encode_runs app]. apply read_runs_0.
  - destruct vs as [|v r]; [rewrite encode_runs_nil; apply read_runs_0|].
    rewrite encode_runs_step in *. cbv zeta in *. inversion HF as [|? ? Hv Hr]; subst.
    destruct (run_length_spec v r 1) as (k & A & B & C & D).
    destruct (N.leb_spec 8 (run_length v r 1)) as [H8|H8].
    + rewrite app_length in Hf. pose proof (rle_run_len bw v (run_length v r 1)).
      destruct f as [|f]; [lia|].
      assert (D' : (run_length v r 1 <= 2 ^ 30)%N) by (revert D; generalize (run_length v r 1); intros; lia).
      assert (D2 : (run_length v r 1 < 2 ^ 31)%N) by (eapply N.le_lt_trans; [exact D'|reflexivity]).
      rewrite <- app_assoc. rewrite read_rle_run; [|lia|exact D2|cbn [length]; lia|assumption].
      remember (run_length v r 1) as c. 
      assert (Ec : N.to_nat c = S k) by lia. rewrite Ec in *. cbn [skipn] in *.
      replace (length (v :: r) - S k) with (length (skipn k r)) by (rewrite skipn_length; cbn [length]; lia).
      rewrite IH; [| assumption|rewrite skipn_length; cbn [length] in Hm; lia|apply Forall_skipn; assumption|lia].
      cbn [repeat app]. rewrite <- C, firstn_skipn. reflexivity.
    + rewrite app_length in Hf. pose proof (bit_packed_run_len bw (firstn 8 (v :: r)) Hbw (Forall_firstn _ _ _ HF)).
      destruct f as [|f]; [lia|].
      pose proof (Forall_firstn _ 8 _ HF) as HF8. pose proof (Forall_skipn _ 8 _ HF) as HS8.
      rewrite <- app_assoc. rewrite read_bit_packed_run; [|assumption|discriminate| |discriminate|assumption].
      2:{ rewrite firstn_length. assert (Nat.min 8 (length (v :: r)) <= 8) by apply Nat.le_min_l. 
          eapply N.le_lt_trans with 8%N; [lia|reflexivity]. }
      set (vs := v :: r) in *. assert (Hn : 1 <= length vs) by (cbn; lia). clearbody vs.
      assert (HL : length (padded (firstn 8 vs)) = 8).
      { rewrite padded_length, firstn_length. destruct (Nat.min_spec 8 (length vs)) as [[_ ->]|[H2 ->]]; [reflexivity|].
        replace ((length vs + 7) / 8) with 1; [reflexivity|]. apply (Nat.div_unique _ _ _ (length vs - 1)); lia. }
      rewrite HL. destruct (Nat.le_gt_cases 8 (length vs)) as [G|G].
      * rewrite Nat.min_l by assumption. rewrite <- skipn_length.
        rewrite IH; [|assumption|rewrite skipn_length; lia|assumption|lia].
        rewrite firstn_padded by (rewrite firstn_length; lia). rewrite firstn_firstn, Nat.min_id, firstn_skipn. reflexivity.
      * rewrite Nat.min_r by lia. rewrite Nat.sub_diag, read_runs_0.
        assert (ES : skipn 8 vs = []) by (apply skipn_all2; lia). assert (EF : firstn 8 vs = vs) by (apply firstn_all2; lia).
        rewrite ES, EF in *. rewrite encode_runs_nil. cbn [app]. rewrite firstn_padded, firstn_all, app_nil_r by lia. reflexivity.
Qed.

Lemma encode_runs_bound : forall m bw vs, bw <= 8 -> Forall (fun v => (v < 2 ^ N.of_nat bw)%N) vs ->
  8 * length (encode_runs m bw vs) <= 9 * (length vs + 7).
Proof.
  induction m as [|m IH]; intros bw vs Hbw HF; cbn [encode_runs length]; [lia|].
  destruct vs as [|v r]; [cbn; lia|]. 
  change (8 * length (encode_runs (S m) bw (v :: r)) <= 9 * (length (v :: r) + 7)). rewrite encode_runs_step. cbv zeta.
  destruct (run_length_spec v r 1) as (k & A & B & C & D). inversion HF; subst.
  destruct (N.leb_spec 8 (run_length v r 1)) as [H8|H8]; rewrite app_length.
  - pose proof (rle_run_len bw v (run_length v r 1)).
    assert ((bw + 7) / 8 <= 1) by (assert ((bw + 7) / 8 < 2) by (apply Nat.div_lt_upper_bound; lia); lia).
    pose proof (IH bw (skipn (N.to_nat (run_length v r 1)) (v :: r)) Hbw (Forall_skipn _ _ _ HF)) as I.
    rewrite skipn_length in I. cbn [length] in *. lia.
  - pose proof (IH bw (skipn 8 (v :: r)) Hbw (Forall_skipn _ _ _ HF)) as I. rewrite skipn_length in I.
    unfold bit_packed_run. cbv zeta. fold (padded (firstn 8 (v :: r))).
    set (vs := v :: r) in *. assert (Hn : 1 <= length vs) by (cbn; lia). clearbody vs.
    assert (HL : (length (firstn 8 vs) + 7) / 8 = 1).
    { rewrite firstn_length. destruct (Nat.min_spec 8 (length vs)) as [[_ ->]|[HQ ->]]; [reflexivity|].
      symmetry. apply (Nat.div_unique _ _ _ (length vs - 1)); lia. }
    rewrite app_length. destruct (bit_pack_spec bw (padded (firstn 8 vs)) ltac:(lia) (padded_bound _ _ (Forall_firstn _ _ _ HF))) as [_ ->].
    rewrite padded_length, HL. replace (bw * (8 * 1) + 7) with (7 + bw * 8) by lia. rewrite Nat.div_add by discriminate. change (7 / 8) with 0.
    change (length (write_varint32 (N.lor (shl1_u32 (N.of_nat 1)) 1))) with 1.
    destruct (Nat.le_gt_cases 8 (length vs)); [lia|].
    assert (ES : skipn 8 vs = []) by (apply skipn_all2; lia). rewrite ES, encode_runs_nil. cbn [length]. lia.
Qed.

(** ** Level width *)
Lemma bits_loop_spec : forall fuel m b, (m < 2 ^ N.of_nat fuel)%N ->
  bits_loop fuel m b = (b + level_width m)%N.
Proof.
  induction fuel as [|f IH]; intros m b H; cbn [bits_loop].
  - change (2 ^ N.of_nat 0)%N with 1%N in H. replace m with 0%N by lia. unfold level_width. cbn [N.eqb]. lia.
  - destruct (N.ltb_spec 0 m) as [H0|H0].
    + rewrite N.shiftr_div_pow2, IH.
      2:{ apply N.div_lt_upper_bound; [discriminate|]. rewrite Nat2N.inj_succ, N.pow_succ_r' in H. change (2 ^ 1)%N with 2%N. exact H. }
      unfold level_width. destruct (N.eqb_spec m 0); [lia|].
      destruct (N.eqb_spec (m / 2 ^ 1) 0) as [E|E].
      * change (2 ^ 1)%N with 2%N in E. apply N.div_small_iff in E; [|discriminate]. replace m with 1%N by lia. change (N.log2 1) with 0%N. lia.
      * change (2 ^ 1)%N with 2%N in *. rewrite <- N.div2_div in *. 
        assert (HL : N.log2 m = N.succ (N.log2 (N.div2 m))).
        { pose proof (N.div2_odd m) as O. destruct (N.odd m); cbn [N.b2n] in O.
          - rewrite O at 1. rewrite N.log2_succ_double by (destruct (N.div2 m); lia). reflexivity.
          - rewrite O at 1. rewrite N.add_0_r, N.log2_double by (destruct (N.div2 m); lia). reflexivity. }
        lia.
    + replace m with 0%N by lia. unfold level_width. cbn [N.eqb]. lia.
Qed.
Lemma bits_required_spec : forall m, (m < 2 ^ 32)%N -> bits_required m = level_width m.
Proof.
  intros m H. unfold bits_required. destruct (N.eqb_spec m 0) as [->|H0]; [reflexivity|].
  rewrite bits_loop_spec by exact H. lia.
Qed.
Lemma level_width_fits : forall m, (m < 2 ^ level_width m)%N.
Proof.
  intros m. unfold level_width. destruct (N.eqb_spec m 0) as [->|H]; [reflexivity|].
  rewrite N.add_1_r. apply N.log2_spec. lia.
Qed.
Lemma level_width_le : forall m b, (m < 2 ^ b)%N -> (level_width m <= b)%N.
Proof.
  intros m b H. unfold level_width. destruct (N.eqb_spec m 0); [lia|]. apply N.log2_lt_pow2 in H; lia.
Qed.
