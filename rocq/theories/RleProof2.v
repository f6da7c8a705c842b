From Verif Require Import Base WordsModel VarintSpec VarintModel VarintProof ThriftSpec ThriftProof BuffersSpec BuffersModel BuffersObs RleSpec RleModel RleProof.

(** ** Reading the flags *)
Lemma valid_flags_from_spec : forall m flags n i,
  (forall j v, nth_error flags j = Some v -> is_valid m j = Some v) -> i + n = length flags ->
  valid_flags_from m n i = Some (skipn i flags).
Proof.
  intros m flags. induction n as [|n IH]; intros i H E; cbn [valid_flags_from].
  - rewrite skipn_all2 by lia. reflexivity.
  - assert (Hi : i < length flags) by lia. apply nth_error_Some in Hi.
    destruct (nth_error flags i) as [v|] eqn:Ev; [|contradiction]. rewrite (H _ _ Ev), IH by (assumption || lia).
    f_equal. clear -Ev. revert i Ev. induction flags as [|x l IHl]; intros [|i] Ev; try discriminate; cbn [nth_error] in Ev; cbn [skipn].
    + injection Ev as ->. reflexivity.
    + exact (IHl _ Ev).
Qed.
Lemma flags_read : forall m flags, shows_flags m flags -> valid_flags_from m (bm_size m) 0 = Some flags.
Proof. intros m flags (A & B & _). rewrite (valid_flags_from_spec m flags) by (assumption || lia). reflexivity. Qed.

(** ** The length prefix *)
Lemma u32_bytes_le : forall n, u32_bytes n = le_bytes 4 n.
Proof.
  intros. rewrite <- le_bytes_map. unfold u32_bytes. cbn [seq map]. change 255%N with (N.ones 8). rewrite !N.land_ones.
  change (N.of_nat 0 * 8)%N with 0%N. change (N.of_nat 1 * 8)%N with 8%N. change (N.of_nat 2 * 8)%N with 16%N. change (N.of_nat 3 * 8)%N with 24%N.
  rewrite N.shiftr_0_r. reflexivity.
Qed.

Lemma decode_levels_prefix : forall max n data rest l,
  (N.of_nat (length data) < 2 ^ 32)%N ->
  decode_hybrid (level_width max) n data = Some (l, []) ->
  decode_levels max n ((u32_bytes (N.of_nat (length data)) ++ data) ++ rest) = Some (l, rest).
Proof.
  intros max n data rest l Hlen E. unfold decode_levels. rewrite <- app_assoc, u32_bytes_le.
  rewrite take_exact by (rewrite le_bytes_length; reflexivity).
  rewrite le_value_bytes by exact Hlen. rewrite take_app, E. reflexivity.
Qed.

(** The fast path's size computation agrees with the bytes written. *)
Lemma varint_loop_len_step : forall f v, length (varint_loop (S f) v) = if (128 <=? v)%N then S (length (varint_loop f (v / 128))) else 1.
Proof. intros. cbn [varint_loop]. destruct (128 <=? v)%N; [|reflexivity]. cbn [length]. rewrite N.shiftr_div_pow2. reflexivity. Qed.
Lemma varint_size_ok : forall h, (h < 2 ^ 32)%N -> N.of_nat (length (varint_loop 5 h)) = varint_size h.
Proof.
  intros h H. unfold varint_size. rewrite varint_loop_len_step.
  destruct (N.leb_spec 128 h); destruct (N.ltb_spec h 128); try lia.
  rewrite varint_loop_len_step. rewrite N.div_div by discriminate. change (128 * 128)%N with 16384%N.
  destruct (N.leb_spec 128 (h / 128)); destruct (N.ltb_spec h 16384); try lia;
    try (assert (128 <= h / 128)%N by (apply N.div_le_lower_bound; lia); lia);
    try (assert (h / 128 < 128)%N by (apply N.div_lt_upper_bound; lia); lia).
  rewrite varint_loop_len_step. rewrite N.div_div by discriminate. change (16384 * 128)%N with 2097152%N.
  destruct (N.leb_spec 128 (h / 16384)); destruct (N.ltb_spec h 2097152); try lia;
    try (assert (128 <= h / 16384)%N by (apply N.div_le_lower_bound; lia); lia);
    try (assert (h / 16384 < 128)%N by (apply N.div_lt_upper_bound; lia); lia).
  rewrite varint_loop_len_step. rewrite N.div_div by discriminate. change (2097152 * 128)%N with 268435456%N.
  destruct (N.leb_spec 128 (h / 2097152)); destruct (N.ltb_spec h 268435456); try lia;
    try (assert (128 <= h / 2097152)%N by (apply N.div_le_lower_bound; lia); lia);
    try (assert (h / 2097152 < 128)%N by (apply N.div_lt_upper_bound; lia); lia).
  rewrite varint_loop_len_step.
  destruct (N.leb_spec 128 (h / 268435456)); [|reflexivity].
  assert (h / 268435456 < 128)%N by (apply N.div_lt_upper_bound; lia). lia.
Qed.

Lemma levels_all : forall max flags, some_null flags = false -> levels max flags = repeat max (length flags).
Proof.
  intros max flags. induction flags as [|f l IH]; intros H; [reflexivity|]. unfold some_null in H. cbn [existsb] in H.
  apply orb_false_iff in H. destruct H as [H1 H2]. destruct f; [|discriminate].
  unfold levels. cbn [map length repeat]. f_equal. apply IH, H2.
Qed.

Lemma nulls_in_zero : forall flags, nulls_in flags = 0 -> some_null flags = false.
Proof.
  induction flags as [|f l IH]; intros H; [reflexivity|]. unfold nulls_in in H. cbn [filter] in H.
  destruct f; cbn [negb length] in H; [|discriminate]. apply IH, H.
Qed.

Lemma read_one_rle : forall bw v n, (0 < n)%nat -> (N.of_nat n < 2 ^ 31)%N -> (v < 2 ^ N.of_nat bw)%N ->
  decode_hybrid (N.of_nat bw) n (rle_run bw v (N.of_nat n)) = Some (repeat v n, []).
Proof.
  intros bw v n H0 H31 Hv. unfold decode_hybrid. pose proof (rle_run_len bw v (N.of_nat n)) as L.
  destruct (length (rle_run bw v (N.of_nat n))) as [|f] eqn:E; [lia|].
  rewrite <- (app_nil_r (rle_run bw v (N.of_nat n))). rewrite read_rle_run; [|lia|assumption|lia|assumption].
  rewrite Nat2N.id, Nat.sub_diag, read_runs_0, app_nil_r. reflexivity.
Qed.

Lemma runs_decode : forall bw vs rest, bw <= 57 -> Forall (fun v => (v < 2 ^ N.of_nat bw)%N) vs ->
  decode_hybrid (N.of_nat bw) (length vs) (encode_runs (length vs) bw vs ++ rest) = Some (vs, rest).
Proof.
  intros bw vs rest H1 H2. unfold decode_hybrid. apply encode_runs_read; [assumption|lia|assumption|]. rewrite app_length. lia.
Qed.

Lemma levels_fit : forall max flags bw, (max < 2 ^ bw)%N -> Forall (fun v => (v < 2 ^ bw)%N) (levels max flags).
Proof.
  intros. unfold levels. apply Forall_map, Forall_forall. intros [] _; [assumption|apply pow2_pos].
Qed.

Lemma def_levels_round_trip : forall nulls flags max null_count rest,
  shows_flags nulls flags -> flags <> [] -> (N.of_nat (length flags) < 2 ^ 31)%N ->
  (1 <= max < 256)%N -> null_count = nulls_in flags ->
  exists bs, encode_def_levels_hybrid_arrow nulls max null_count = Some bs /\
             decode_levels max (length flags) (bs ++ rest) = Some (levels max flags, rest).
Proof.
  intros nulls flags max null_count rest Hs Hne Hlen Hmax ->. pose proof (flags_read _ _ Hs) as HR.
  destruct Hs as (A & B & _ & _ & C & _). unfold encode_def_levels_hybrid_arrow. rewrite A, C in *.
  assert (Hl : 0 < length flags) by (destruct flags; [contradiction|cbn; lia]).
  destruct (Nat.eqb_spec (length flags) 0); [lia|]. cbv zeta.
  assert (HN : (nulls_in flags =? 0) || negb (some_null flags) = negb (some_null flags)).
  { destruct (some_null flags) eqn:E; [|apply orb_true_r]. destruct (Nat.eqb_spec (nulls_in flags) 0); [|reflexivity].
    rewrite nulls_in_zero in E by assumption. discriminate. }
  rewrite HN.
  assert (HW : N.of_nat (N.to_nat (bits_required max)) = level_width max).
  { rewrite N2Nat.id. apply bits_required_spec. eapply N.lt_trans; [apply Hmax|reflexivity]. }
  assert (HW8 : (level_width max <= 8)%N) by (apply level_width_le; apply Hmax).
  set (bw := N.to_nat (bits_required max)) in *.
  assert (Hv : (max < 2 ^ N.of_nat bw)%N) by (rewrite HW; apply level_width_fits).
  destruct (some_null flags) eqn:EN; cbn [negb andb].
  - (* slow path *)
    rewrite HR. fold (levels max flags). eexists. split; [reflexivity|].
    pose proof (levels_fit max flags _ Hv) as HF.
    assert (HLen : length (levels max flags) = length flags) by (unfold levels; apply map_length).
    pose proof (encode_runs_bound (length flags) bw (levels max flags) ltac:(lia) HF) as HB. rewrite HLen in HB.
    rewrite N.mod_small by lia. apply decode_levels_prefix; [lia|]. rewrite <- HW.
    pose proof (runs_decode bw (levels max flags) [] ltac:(lia) HF) as R. rewrite HLen, app_nil_r in R. exact R.
  - destruct (N.eqb_spec max 1) as [E1|E1]; cbn [andb].
    + (* fast path *)
      subst max. rewrite shl1_val by assumption. rewrite app_length. change (length [1%N]) with 1.
      rewrite Nat2N.inj_add, varint_size_ok by lia. change (N.of_nat 1) with 1%N. rewrite N.eqb_refl.
      eexists. split; [reflexivity|].
      assert (ER : varint_loop 5 (2 * N.of_nat (length flags)) ++ [1%N] = rle_run 1 1 (N.of_nat (length flags))).
      { unfold rle_run, write_varint32. rewrite shl1_val by assumption. rewrite N.mod_small by lia. reflexivity. }
      assert (EL : (varint_size (2 * N.of_nat (length flags)) + 1)%N = N.of_nat (length (rle_run 1 1 (N.of_nat (length flags))))).
      { rewrite <- ER, app_length, Nat2N.inj_add, varint_size_ok by lia. reflexivity. }
      rewrite ER, EL. apply decode_levels_prefix.
      * pose proof (rle_run_len 1 1 (N.of_nat (length flags))) as RL. change ((1 + 7) / 8) with 1 in RL. lia.
      * rewrite levels_all by assumption. change (level_width 1) with (N.of_nat 1). apply read_one_rle; [assumption|assumption|reflexivity].
    + eexists. split; [reflexivity|]. pose proof (rle_run_len bw max (N.of_nat (length flags))) as RL.
      assert ((bw + 7) / 8 <= 1) by (assert ((bw + 7) / 8 < 2) by (apply Nat.div_lt_upper_bound; lia); lia).
      rewrite N.mod_small by lia. apply decode_levels_prefix; [lia|].
      rewrite levels_all by assumption. rewrite <- HW. apply read_one_rle; assumption.
Qed.

(** ** Dictionary indices *)
Lemma select_valid_spec : forall flags indices,
  Forall (fun z => (0 <= z < 2 ^ 32)%Z) (select flags indices) ->
  select_valid flags indices = map Z.to_N (select flags indices).
Proof.
  induction flags as [|f l IH]; intros [|i is] H; try (destruct f; reflexivity); try reflexivity. cbn [select_valid select] in *.
  destruct f.
  - inversion H; subst. cbn [map]. rewrite IH by assumption. unfold u32_of_int32. rewrite Z.mod_small by assumption. reflexivity.
  - apply IH, H.
Qed.
Lemma select_length : forall {A} flags (l : list A), length flags = length l -> length (select flags l) = length l - nulls_in flags.
Proof.
  intros A. induction flags as [|f fs IH]; intros [|a l] H; try discriminate; try reflexivity. cbn [length] in H. injection H as H.
  assert (B : nulls_in fs <= length l). { rewrite <- H. unfold nulls_in. clear. induction fs as [|x xs I]; [auto|]. cbn [filter length]. destruct (negb x); cbn [length]; lia. }
  unfold nulls_in in *. cbn [select filter]. destruct f; cbn [negb length]; rewrite IH by assumption; lia.
Qed.

Lemma dict_indices_round_trip : forall indices nulls flags bw rest,
  shows_flags nulls flags -> length flags = length indices -> bw <= 32 ->
  Forall (fun z => (0 <= z < 2 ^ Z.of_nat bw)%Z) (select flags indices) ->
  exists bs, encode_dictionary_indices indices nulls bw = Some bs /\
    (select flags indices = [] -> bs = []) /\
    (select flags indices <> [] ->
       exists data, bs = N.of_nat bw :: data /\
         decode_hybrid (N.of_nat bw) (length (select flags indices)) (data ++ rest) = Some (map Z.to_N (select flags indices), rest)).
Proof.
  intros indices nulls flags bw rest Hs Hlen Hbw HF. pose proof Hs as (HA & HB & _ & HC & _). unfold encode_dictionary_indices.
  destruct indices as [|i0 ir].
  - destruct flags as [|f0 fr]; [|discriminate]. exists []. repeat split; intros; try reflexivity. exfalso. apply H. reflexivity.
  - set (indices := i0 :: ir) in *. assert (N0 : length indices <> 0) by (subst indices; cbn; lia). clearbody indices. cbv zeta. rewrite HC.
    pose proof (select_length flags indices Hlen) as SL.
    destruct (Nat.eqb_spec (length indices - nulls_in flags) 0) as [E|E].
    + exists []. repeat split; intros; try reflexivity. exfalso. destruct (select flags indices); [apply H; reflexivity|cbn [length] in SL; lia].
    + rewrite (valid_flags_from_spec nulls flags) by (assumption || lia). cbn [skipn].
      assert (HF32 : Forall (fun z => (0 <= z < 2 ^ 32)%Z) (select flags indices)).
      { eapply Forall_impl; [|exact HF]. cbn beta. intros z [Z1 Z2]. split; [assumption|]. eapply Z.lt_le_trans; [exact Z2|]. apply Z.pow_le_mono_r; lia. }
      rewrite select_valid_spec by assumption. eexists. split; [reflexivity|]. split.
      * intros E0. rewrite E0 in SL. cbn [length] in SL. lia.
      * intros _. eexists. split; [reflexivity|]. rewrite map_length.
        pose proof (runs_decode bw (map Z.to_N (select flags indices)) rest ltac:(lia)) as R. rewrite map_length in R. apply R.
        apply Forall_map. eapply Forall_impl; [|exact HF]. cbn beta. intros z [Z1 Z2].
        assert (ZP : (2 ^ N.of_nat bw)%N = Z.to_N (2 ^ Z.of_nat bw)).
        { rewrite <- nat_N_Z. change 2%Z with (Z.of_N 2). rewrite <- N2Z.inj_pow, N2Z.id. reflexivity. }
        rewrite ZP. lia.
Qed.

(** ** RleEncoder *)
Lemma rle_encode_round_trip : forall bw vs rest, 1 <= bw <= 32 -> Forall (fun v => (v < 2 ^ N.of_nat bw)%N) vs ->
  decode_hybrid (N.of_nat bw) (length vs) (rle_encode bw vs ++ rest) = Some (vs, rest).
Proof.
  intros bw vs rest Hbw HF. unfold rle_encode. destruct vs as [|v r]; [unfold decode_hybrid; apply read_runs_0|].
  destruct bw as [|bw]; [lia|]. apply runs_decode; [lia|assumption].
Qed.
