From Verif Require Import Base WordsModel VarintSpec VarintModel VarintProof ThriftSpec ThriftProof RleSpec RleModel RleProof DeltaSpec DeltaModel.

(** ** Packing, for every width that never needs more than 64 bits of buffer *)
Lemma pack_loop_wide : forall bw vs b k j,
  (forall i, (bw * i) mod 8 + bw <= 64) -> k = (bw * j) mod 8 -> (b < 2 ^ N.of_nat k)%N -> Forall (fun v => (v < 2 ^ N.of_nat bw)%N) vs ->
  le_value (pack_loop bw vs b k) = (b + 2 ^ N.of_nat k * horner (N.of_nat bw) vs)%N /\
  length (pack_loop bw vs b k) = (k + bw * length vs + 7) / 8.
Proof.
  intros bw vs. induction vs as [|v r IH]; intros b k j Hbw Hj Hb Hvs; cbn [pack_loop horner];
    assert (Hk : k < 8) by (subst k; apply Nat.mod_upper_bound; discriminate).
  - rewrite N.mul_0_r, N.add_0_r. cbn [length]. rewrite Nat.mul_0_r, Nat.add_0_r.
    destruct (Nat.ltb_spec 0 k) as [Hk0|Hk0].
    + cbn [le_value length]. change 255%N with (N.ones 8). rewrite N.land_ones, N.mod_small.
      * split; [lia|]. symmetry. apply Nat.le_antisymm; [|apply Nat.div_le_lower_bound; lia].
        assert ((k + 7) / 8 < 2) by (apply Nat.div_lt_upper_bound; lia). lia.
      * eapply N.lt_le_trans; [exact Hb|]. apply N.pow_le_mono_r; [discriminate|lia].
    + assert (K0 : k = 0) by lia. rewrite K0 in *. change (2 ^ N.of_nat 0)%N with 1%N in Hb. cbn [le_value length]. split; [lia|reflexivity].
  - pose proof (Forall_inv Hvs) as Hv. pose proof (Forall_inv_tail Hvs) as Hr. cbv beta in Hv. pose proof (Hbw j) as H64j. rewrite <- Hj in H64j.
    assert (HP : (v * 2 ^ N.of_nat k < 2 ^ N.of_nat (k + bw))%N).
    { replace (N.of_nat (k + bw)) with (N.of_nat bw + N.of_nat k)%N by lia. rewrite pow2_split.
      apply N.mul_lt_mono_pos_r; [apply pow2_pos|exact Hv]. }
    assert (H64 : (2 ^ N.of_nat (k + bw) <= 2 ^ 64)%N) by (apply N.pow_le_mono_r; [discriminate|lia]).
    rewrite lor_shift; [|exact Hb|lia].
    assert (HS : (b + 2 ^ N.of_nat k * v < 2 ^ N.of_nat (k + bw))%N).
    { replace (N.of_nat (k + bw)) with (N.of_nat k + N.of_nat bw)%N by lia. rewrite pow2_split.
      apply N.lt_le_trans with (2 ^ N.of_nat k + 2 ^ N.of_nat k * v)%N; [lia|].
      replace (2 ^ N.of_nat k + 2 ^ N.of_nat k * v)%N with (2 ^ N.of_nat k * (v + 1))%N by lia.
      apply N.mul_le_mono_l. lia. }
    destruct (flush_bytes (k + bw) (b + 2 ^ N.of_nat k * v) (k + bw)) as [[o b1] k1] eqn:E.
    assert (HL : k + bw <= 8 * (k + bw) + 7) by lia. destruct (flush_bytes_spec _ _ _ _ _ _ HL HS E) as (A1 & A2 & A3 & A4).
    assert (HK1 : k1 = (bw * S j) mod 8).
    { rewrite Nat.mul_succ_r, <- Nat.add_mod_idemp_l by discriminate. rewrite <- Hj, A2.
      rewrite (Nat.mul_comm 8), Nat.add_comm, Nat.mod_add by discriminate. symmetry. apply Nat.mod_small, A1. }
    destruct (IH b1 k1 (S j) Hbw HK1 A4 Hr) as [B1 B2]. split.
    + rewrite le_value_app, B1, N.mul_add_distr_l, N.add_assoc, <- A3, N.mul_assoc, pow256, <- pow2_split.
      replace (8 * N.of_nat (length o) + N.of_nat k1)%N with (N.of_nat k + N.of_nat bw)%N by lia.
      rewrite pow2_split. lia.
    + rewrite app_length, B2. cbn [length]. rewrite Nat.mul_succ_r.
      replace (k + (bw * length r + bw) + 7) with (k1 + bw * length r + 7 + length o * 8) by lia.
      rewrite Nat.div_add by discriminate. lia.
Qed.

Lemma wide_58 : forall bw, bw <= 58 -> forall i, (bw * i) mod 8 + bw <= 64.
Proof.
  intros bw H i. pose proof (Nat.mod_upper_bound (bw * i) 8 ltac:(discriminate)). destruct (Nat.eq_dec bw 58) as [->|]; [|lia].
  assert ((58 * i) mod 8 <> 7); [|lia]. intros E. pose proof (Nat.div_mod (58 * i) 8 ltac:(discriminate)). lia.
Qed.

Lemma pack_wide : forall bw vs, bw <= 58 -> Forall (fun v => (v < 2 ^ N.of_nat bw)%N) vs ->
  le_value (bit_pack bw vs) = horner (N.of_nat bw) vs /\ length (bit_pack bw vs) = (bw * length vs + 7) / 8.
Proof.
  intros bw vs H1 H2. destruct (pack_loop_wide bw vs 0 0 0 (wide_58 bw H1)) as [A B].
  - rewrite Nat.mul_0_r. reflexivity.
  - reflexivity.
  - exact H2.
  - unfold bit_pack. rewrite A, B. change (2 ^ N.of_nat 0)%N with 1%N. split; [lia|reflexivity].
Qed.

(** ** Widths *)
Lemma width_fits : forall v, (v < 2 ^ bit_width_for_value v)%N.
Proof. intros v. unfold bit_width_for_value. destruct (N.eqb_spec v 0) as [->|H]; [reflexivity|]. rewrite N.add_1_r. apply N.log2_spec. lia. Qed.
Lemma width_le : forall v w, (v < 2 ^ w)%N -> (bit_width_for_value v <= w)%N.
Proof.
  intros v w H. unfold bit_width_for_value. destruct (N.eqb_spec v 0) as [->|H0]; [lia|].
  assert (N.log2 v < w)%N by (apply N.log2_lt_pow2; [lia|exact H]). lia.
Qed.
Lemma fold_max_ge : forall l a, (a <= fold_left N.max l a)%N /\ Forall (fun v => (v <= fold_left N.max l a)%N) l.
Proof.
  induction l as [|x l IH]; intros a; cbn [fold_left]; [split; [lia|constructor]|].
  destruct (IH (N.max a x)) as [A B]. split; [lia|]. constructor; [lia|exact B].
Qed.
Lemma fold_max_lt : forall l a b, (a < b)%N -> Forall (fun v => (v < b)%N) l -> (fold_left N.max l a < b)%N.
Proof. induction l as [|x l IH]; intros a b Ha H; cbn [fold_left]; [exact Ha|]. inversion H; subst. apply IH; [lia|assumption]. Qed.
Lemma Forall_slice : forall {A} (P : A -> Prop) a b l, Forall P l -> Forall P (slice a b l).
Proof. intros A P a b l H. unfold slice. apply Forall_firstn, Forall_skipn, H. Qed.
Lemma width_of_le : forall adj mb w, Forall (fun v => (v < 2 ^ w)%N) adj -> (width_of adj mb <= w)%N.
Proof. intros adj mb w H. unfold width_of. apply width_le, fold_max_lt; [apply pow2_pos|]. apply Forall_slice, H. Qed.
Lemma width_of_fits : forall adj mb, Forall (fun v => (v < 2 ^ width_of adj mb)%N) (slice (mb_start mb) (mb_end (length adj) mb) adj).
Proof.
  intros adj mb. unfold width_of. set (s := slice _ _ adj). destruct (fold_max_ge s 0%N) as [_ B].
  eapply Forall_impl; [|exact B]. intros v Hv. cbv beta in Hv. eapply N.le_lt_trans; [exact Hv|apply width_fits].
Qed.

(** ** One mini-block *)
Lemma unpack_0 : forall k bs, unpack 0 k bs = repeat 0%N k.
Proof.
  intros k bs. unfold unpack. assert (H : forall a, map (fun i => (le_value bs / 2 ^ (0 * N.of_nat i)) mod 2 ^ 0)%N (seq a k) = repeat 0%N k).
  { induction k as [|k IH]; intros a; [reflexivity|]. cbn [seq map repeat]. f_equal; [|apply IH]. change (2 ^ 0)%N with 1%N. apply N.mod_1_r. }
  apply H.
Qed.
Lemma all_zero : forall l, Forall (fun v => (v < 2 ^ 0)%N) l -> l = repeat 0%N (length l).
Proof. intros l H. induction H as [|v l Hv Hl IH]; [reflexivity|]. cbn [length repeat]. change (2 ^ 0)%N with 1%N in Hv. f_equal; [lia|exact IH]. Qed.
Lemma mini_step : forall bits w ws n chunk r,
  (w <= bits)%N -> (w <= 58)%N -> 32 <= n -> length chunk = 32 -> Forall (fun v => (v < 2 ^ w)%N) chunk ->
  read_mini bits 32 (w :: ws) n (delta_bit_pack chunk w ++ r) =
  match read_mini bits 32 ws (n - 32) r with Some (l, r') => Some (chunk ++ l, r') | None => None end.
Proof.
  intros bits w ws n chunk r H1 H2 H3 H4 H5. destruct n as [|n]; [lia|]. cbn [read_mini].
  rewrite (proj2 (N.leb_le _ _) H1). change (N.to_nat 32) with 32. rewrite (Nat.min_l 32 (S n)) by exact H3.
  replace (32 * w / 8)%N with (4 * w)%N by (replace (32 * w)%N with (4 * w * 8)%N by lia; rewrite N.div_mul; [reflexivity|discriminate]).
  unfold delta_bit_pack. destruct (N.eqb_spec w 0) as [->|W0].
  - rewrite (take_exact (4 * 0)%N []) by reflexivity. rewrite unpack_0. rewrite (all_zero chunk H5), H4. reflexivity.
  - assert (WN : N.of_nat (N.to_nat w) = w) by (apply N2Nat.id).
    destruct (pack_wide (N.to_nat w) chunk) as [A B]; [lia|rewrite WN; exact H5|].
    rewrite take_exact.
    + rewrite WN in A. rewrite (unpack_horner w chunk 32 _ H5 ltac:(lia) A). rewrite firstn_all2 by lia. reflexivity.
    + rewrite B, H4. replace (N.to_nat w * 32 + 7) with (7 + (N.to_nat w * 4) * 8) by lia. rewrite Nat.div_add by discriminate.
      change (7 / 8) with 0. lia.
Qed.

(** ** One block *)
Lemma slice_length : forall {A} a b (l : list A), a <= b -> b <= length l -> length (slice a b l) = b - a.
Proof. intros A a b l H1 H2. unfold slice. rewrite firstn_length, skipn_length. lia. Qed.
Lemma slice_glue : forall {A} a b c (l : list A), a <= b -> b <= c -> slice a b l ++ slice b c l = slice a c l.
Proof.
  intros A a b c l H1 H2. unfold slice. replace (skipn b l) with (skipn (b - a) (skipn a l)).
  - rewrite <- (firstn_skipn (b - a) (firstn (c - a) (skipn a l))). rewrite firstn_firstn, (Nat.min_l (b - a) (c - a)) by lia. f_equal.
    rewrite firstn_skipn_comm. replace (b - a + (c - b)) with (c - a) by lia. reflexivity.
  - revert b c H1 H2 l. induction a as [|a IH]; intros b c H1 H2 l; [rewrite Nat.sub_0_r; reflexivity|].
    destruct b as [|b]; [lia|]. destruct c as [|c]; [lia|]. destruct l as [|x l]; [cbn [skipn]; rewrite skipn_nil; reflexivity|].
    cbn [skipn Nat.sub]. apply (IH b c); lia.
Qed.
Lemma slice_all : forall {A} n (l : list A), length l = n -> slice 0 n l = l.
Proof. intros A n l H. unfold slice. rewrite Nat.sub_0_r. cbn [skipn]. apply firstn_all2. lia. Qed.
Lemma write_mini_step : forall adj mb r b, mb_start mb <= mb_end (length adj) mb -> write_mini adj r = Encoded b ->
  write_mini adj (mb :: r) = Encoded (delta_bit_pack (slice (mb_start mb) (mb_end (length adj) mb) adj) (width_of adj mb) ++ b).
Proof. intros adj mb r b H1 H2. cbn [write_mini]. destruct (Nat.ltb_spec (mb_end (length adj) mb) (mb_start mb)); [lia|]. rewrite H2. reflexivity. Qed.

Lemma block_body : forall bits adj n, (58 <= bits)%N \/ Forall (fun v => (v < 2 ^ bits)%N) adj ->
  Forall (fun v => (v < 2 ^ 58)%N) adj -> (length adj = 96 /\ n = 96) \/ (length adj = 128 /\ 128 <= n) ->
  exists body, write_mini adj [0; 1; 2; 3] = Encoded body /\
    forall rest, read_mini bits 32 (map (width_of adj) [0; 1; 2; 3]) n (body ++ rest) = Some (adj, rest).
Proof.
  intros bits adj n HB H58 HN.
  assert (W58 : forall mb, (width_of adj mb <= 58)%N) by (intros; apply width_of_le, H58).
  assert (WB : forall mb, (width_of adj mb <= bits)%N) by (intros mb; destruct HB as [HB|HB]; [specialize (W58 mb); lia|apply width_of_le, HB]).
  assert (EN : forall mb, mb < 3 \/ length adj = 128 /\ mb < 4 -> mb_end (length adj) mb = mb * 32 + 32) by (intros mb H; unfold mb_end, mb_start; lia).
  assert (ST : forall mb ws k r, mb < 3 \/ length adj = 128 /\ mb < 4 -> 32 <= k ->
     read_mini bits 32 (width_of adj mb :: ws) k (delta_bit_pack (slice (mb_start mb) (mb_end (length adj) mb) adj) (width_of adj mb) ++ r) =
     match read_mini bits 32 ws (k - 32) r with Some (l, r') => Some (slice (mb * 32) (mb * 32 + 32) adj ++ l, r') | None => None end).
  { intros mb ws k r HM HK. pose proof (width_of_fits adj mb) as F. rewrite (EN mb HM) in *. unfold mb_start in *.
    apply mini_step; [apply WB|apply W58|exact HK| |exact F]. rewrite slice_length; lia. }
  destruct HN as [[L ->]|[L HN]].
  - eexists. split.
    + apply write_mini_step; [unfold mb_end, mb_start; lia|]. apply write_mini_step; [unfold mb_end, mb_start; lia|].
      apply write_mini_step; [unfold mb_end, mb_start; lia|]. apply write_mini_step; [unfold mb_end, mb_start; lia|]. reflexivity.
    + intros rest. cbn [map]. rewrite <- !app_assoc. rewrite ST by lia. rewrite ST by lia. rewrite ST by lia.
      replace (96 - 32 - 32 - 32) with 0 by lia. cbn [read_mini].
      assert (EL : slice (mb_start 3) (mb_end (length adj) 3) adj = []).
      { unfold slice, mb_start, mb_end, mb_start. replace (Nat.min (3 * 32 + 32) (length adj) - 3 * 32) with 0 by lia. reflexivity. }
      assert (EW : width_of adj 3 = 0%N) by (unfold width_of; rewrite EL; reflexivity).
      rewrite EL, EW. cbn [delta_bit_pack N.eqb app]. do 2 f_equal.
      rewrite app_nil_r. change (2 * 32 + 32) with 96. change (2 * 32) with 64. change (1 * 32 + 32) with 64. change (1 * 32) with 32. rewrite (slice_glue 32 64 96 adj) by lia. change (0 * 32 + 32) with 32. change (0 * 32) with 0.
      rewrite (slice_glue 0 32 96 adj) by lia. apply slice_all, L.
  - eexists. split.
    + apply write_mini_step; [unfold mb_end, mb_start; lia|]. apply write_mini_step; [unfold mb_end, mb_start; lia|].
      apply write_mini_step; [unfold mb_end, mb_start; lia|]. apply write_mini_step; [unfold mb_end, mb_start; lia|]. reflexivity.
    + intros rest. cbn [map]. rewrite <- !app_assoc. rewrite ST by lia. rewrite ST by lia. rewrite ST by lia. rewrite ST by lia.
      cbn [app]. assert (R0 : forall k, read_mini bits 32 [] k rest = Some ([], rest)) by (intros [|k]; reflexivity). rewrite R0. do 2 f_equal.
      rewrite app_nil_r. change (3 * 32 + 32) with 128. change (3 * 32) with 96. change (2 * 32 + 32) with 96. change (2 * 32) with 64.
      rewrite (slice_glue 64 96 128 adj) by lia. change (1 * 32 + 32) with 64. change (1 * 32) with 32. rewrite (slice_glue 32 64 128 adj) by lia.
      change (0 * 32 + 32) with 32. change (0 * 32) with 0. rewrite (slice_glue 0 32 128 adj) by lia. apply slice_all, L.
Qed.

(** ** The smallest delta *)
Lemma fold_min_spec : forall l a, (fold_left Z.min l a <= a)%Z /\ Forall (fun d => (fold_left Z.min l a <= d)%Z) l /\ (fold_left Z.min l a = a \/ In (fold_left Z.min l a) l).
Proof.
  induction l as [|x l IH]; intros a; cbn [fold_left]; [split; [lia|]; split; [constructor|left; reflexivity]|].
  destruct (IH (Z.min a x)) as (A & B & C). split; [lia|]. split; [constructor; [lia|exact B]|].
  destruct C as [C|C]; [|right; right; exact C]. rewrite C. destruct (Z.min_spec a x) as [[_ M]|[_ M]]; rewrite M; [left; reflexivity|right; left; reflexivity].
Qed.
Lemma min_delta_spec : forall l, l <> [] -> In (min_delta l) l /\ Forall (fun d => (min_delta l <= d)%Z) l.
Proof.
  intros [|x l] H; [contradiction|]. unfold min_delta. cbn [hd]. destruct (fold_min_spec (x :: l) x) as (_ & B & C). split; [|exact B].
  destruct C as [C|C]; [left; symmetry; exact C|exact C].
Qed.

Lemma sub64_ok : forall a b, int64 (a - b) -> sub64 a b = Some (a - b)%Z.
Proof. intros a b [H1 H2]. unfold sub64, fits64. rewrite (proj2 (Z.leb_le _ _) H1), (proj2 (Z.ltb_lt _ _) H2). reflexivity. Qed.
Lemma adjust_ok : forall m w block, (w <= 63)%N -> Forall (fun d => 0 <= d - m < 2 ^ Z.of_N w)%Z block ->
  exists adj, adjust m block = Some adj /\ map (fun d => m + Z.of_N d)%Z adj = block /\ Forall (fun v => (v < 2 ^ w)%N) adj /\ length adj = length block.
Proof.
  intros m w block HW H. assert (P : (2 ^ Z.of_N w <= 2 ^ 63)%Z) by (apply Z.pow_le_mono_r; lia).
  induction H as [|d r Hd Hr IH]; [exists []; repeat split; constructor|].
  destruct IH as (adj & A & B & C & D). exists (u64_of_int64 (d - m) :: adj). cbn [adjust map length]. 
  rewrite sub64_ok by (unfold int64; lia). rewrite A, B, D. unfold u64_of_int64.
  assert (E : ((d - m) mod 2 ^ 64 = d - m)%Z) by (apply Z.mod_small; lia). rewrite E.
  split; [reflexivity|]. split; [f_equal; lia|]. split; [|reflexivity]. constructor; [|exact C].
  assert (P2 : (2 ^ w)%N = Z.to_N (2 ^ Z.of_N w)) by (rewrite Z2N.inj_pow, N2Z.id by lia; reflexivity). rewrite P2. lia.
Qed.

(** ** All blocks *)
Definition spread (b : Z) (ds : list Z) : Prop :=
  forall i j, i < length ds -> j < length ds -> i / 128 = j / 128 -> (nth i ds 0 - nth j ds 0 < b)%Z.
Lemma spread_skip : forall b ds, spread b ds -> spread b (skipn 128 ds).
Proof.
  intros b ds H i j Hi Hj E. rewrite skipn_length in Hi, Hj.
  assert (K : forall k, nth k (skipn 128 ds) 0%Z = nth (128 + k) ds 0%Z).
  { intros k. rewrite <- (firstn_skipn 128 ds) at 2. rewrite app_nth2; rewrite firstn_length; [f_equal; lia|lia]. }
  rewrite !K. apply H; [lia|lia|]. replace (128 + i) with (i + 1 * 128) by lia. replace (128 + j) with (j + 1 * 128) by lia. rewrite !Nat.div_add by discriminate. lia.
Qed.
Lemma spread_first : forall b ds d d', spread b ds -> In d (firstn 128 ds) -> In d' (firstn 128 ds) -> (d - d' < b)%Z.
Proof.
  intros b ds d d' H H1 H2. apply (In_nth _ _ 0%Z) in H1, H2. destruct H1 as (i & Hi & <-), H2 as (j & Hj & <-).
  rewrite firstn_length in Hi, Hj.
  assert (K : forall k, k < Nat.min 128 (length ds) -> nth k (firstn 128 ds) 0%Z = nth k ds 0%Z).
  { intros k Hk. rewrite <- (firstn_skipn 128 ds) at 2. rewrite app_nth1; [reflexivity|]. rewrite firstn_length. exact Hk. }
  rewrite !K by assumption. apply H; [lia|lia|]. rewrite !Nat.div_small by lia. reflexivity.
Qed.

Lemma read_blocks_S : forall f bits n bs, n <> 0 -> read_blocks (S f) bits 128 4 n bs =
  match read_zigzag bs with
  | None => None
  | Some (least, r1) =>
      match take 4 r1 with
      | None => None
      | Some (widths, r2) =>
          match read_mini bits 32 widths n r2 with
          | None => None
          | Some (l, r3) =>
              match read_blocks f bits 128 4 (n - length l) r3 with
              | None => None
              | Some (rest, r4) => Some (map (fun d => least + Z.of_N d)%Z l ++ rest, r4)
              end
          end
      end
  end.
Proof. intros f bits n bs H. destruct n as [|n]; [lia|reflexivity]. Qed.
Lemma write_blocks_S : forall f ds, ds <> [] -> write_blocks (S f) ds =
      let block := firstn 128 ds in
      let m := min_delta block in
      match adjust m block with
      | None => Undefined
      | Some adj =>
          match write_mini adj [0; 1; 2; 3] with
          | Encoded body =>
              match write_blocks f (skipn 128 ds) with
              | Encoded rest => Encoded (write_signed_varint m ++ map (width_of adj) [0; 1; 2; 3] ++ body ++ rest)
              | x => x
              end
          | x => x
          end
      end.
Proof. intros f ds H. destruct ds as [|d ds]; [contradiction|reflexivity]. Qed.

Lemma blocks_read : forall bits w, (w <= 58)%N -> (w <= bits)%N -> forall fuel ds f,
  length ds <= fuel -> length ds <= f -> Forall int64 ds -> spread (2 ^ Z.of_N w) ds ->
  length ds mod 128 = 0 \/ length ds mod 128 = 96 ->
  exists b, write_blocks fuel ds = Encoded b /\ forall rest, read_blocks f bits 128 4 (length ds) (b ++ rest) = Some (ds, rest).
Proof.
  intros bits w HW HB fuel. induction fuel as [|fuel IH]; intros ds f HF Hf HI HS HT.
  - destruct ds as [|d ds]; [|cbn [length] in HF; lia]. exists []. split; [reflexivity|]. intros rest. destruct f; reflexivity.
  - destruct ds as [|d0 ds0]; [exists []; split; [reflexivity|]; intros rest; destruct f; reflexivity|].
    remember (d0 :: ds0) as ds eqn:ED. assert (NE : ds <> []) by (subst; discriminate). assert (LP : 1 <= length ds) by (subst; cbn [length]; lia). clear ED d0 ds0.
    destruct f as [|f]; [lia|]. rewrite (write_blocks_S _ _ NE). cbv zeta. set (block := firstn 128 ds). set (m := min_delta block).
    assert (NB : block <> []) by (unfold block; destruct ds; [contradiction|discriminate]).
    destruct (min_delta_spec block NB) as [MI ML]. fold m in MI, ML.
    assert (LB : length block = Nat.min 128 (length ds)) by (unfold block; apply firstn_length).
    assert (RNG : Forall (fun d => 0 <= d - m < 2 ^ Z.of_N w)%Z block).
    { apply Forall_forall. intros d Hd. rewrite Forall_forall in ML. specialize (ML d Hd). split; [lia|]. apply (spread_first _ ds); assumption. }
    assert (W63 : (w <= 63)%N) by lia. destruct (adjust_ok m w block W63 RNG) as (adj & A1 & A2 & A3 & A4). rewrite A1.
    assert (MONO : forall x, (w <= x)%N -> Forall (fun v => (v < 2 ^ x)%N) adj).
    { intros x Hx. eapply Forall_impl; [|exact A3]. intros v Hv. cbv beta in Hv. eapply N.lt_le_trans; [exact Hv|]. apply N.pow_le_mono_r; [discriminate|exact Hx]. }
    assert (SH : (length adj = 96 /\ length ds = 96) \/ (length adj = 128 /\ 128 <= length ds)).
    { rewrite A4, LB. pose proof (Nat.div_mod (length ds) 128 ltac:(discriminate)). destruct (Nat.le_gt_cases 128 (length ds)); [right; lia|]. left.
      rewrite Nat.mod_small in HT by lia. lia. }
    destruct (block_body bits adj (length ds) (or_intror (MONO bits HB)) (MONO 58%N HW) SH) as (body & B1 & B2). rewrite B1.
    assert (HSK : length (skipn 128 ds) mod 128 = 0 \/ length (skipn 128 ds) mod 128 = 96).
    { rewrite skipn_length. destruct (Nat.le_gt_cases 128 (length ds)) as [G|G]; [|left; replace (length ds - 128) with 0 by lia; reflexivity].
      replace (length ds) with ((length ds - 128) + 1 * 128) in HT by lia. rewrite Nat.mod_add in HT by discriminate. exact HT. }
    assert (L1 : length (skipn 128 ds) <= fuel) by (rewrite skipn_length; lia).
    assert (L2 : length (skipn 128 ds) <= f) by (rewrite skipn_length; lia).
    destruct (IH (skipn 128 ds) f L1 L2 (Forall_skipn _ _ _ HI) (spread_skip _ _ HS) HSK) as (bs & C1 & C2). rewrite C1.
    eexists. split; [reflexivity|]. intros rest. rewrite read_blocks_S by lia. rewrite <- !app_assoc.
    rewrite signed_varint_read by (rewrite Forall_forall in HI; apply HI; apply (in_firstn_in 128) || (unfold block in MI; rewrite <- (firstn_skipn 128 ds); apply in_or_app; left; exact MI)).
    rewrite (take_exact 4%N (map (width_of adj) [0; 1; 2; 3])) by reflexivity. rewrite B2.
    assert (LA : length ds - length adj = length (skipn 128 ds)) by (rewrite skipn_length; lia).
    rewrite LA, C2, A2. unfold block. rewrite firstn_skipn. reflexivity.
Qed.

(** ** Whole sequences *)
Lemma delta_list_ok : forall r v, Forall int64 (differences (v :: r)) -> delta_list v r = Some (differences (v :: r)).
Proof.
  induction r as [|x r IH]; intros v H; [reflexivity|]. cbn [delta_list]. change (differences (v :: x :: r)) with ((x - v)%Z :: differences (x :: r)) in *.
  inversion H; subst. rewrite sub64_ok by assumption. rewrite IH by assumption. reflexivity.
Qed.
Lemma delta_list_some : forall r v ds, delta_list v r = Some ds -> ds = differences (v :: r).
Proof.
  induction r as [|x r IH]; intros v ds H; [injection H as <-; reflexivity|]. cbn [delta_list] in H.
  unfold sub64 in H. destruct (fits64 (x - v)); [|discriminate]. destruct (delta_list x r) as [l|] eqn:E; [|discriminate]. injection H as <-.
  rewrite (IH _ _ E). reflexivity.
Qed.
Lemma differences_length : forall l, length (differences l) = length l - 1.
Proof.
  intros [|v r]; [reflexivity|]. revert v. induction r as [|x r IH]; intros v; [reflexivity|].
  change (differences (v :: x :: r)) with ((x - v)%Z :: differences (x :: r)). cbn [length]. rewrite IH. cbn [length]. lia.
Qed.
Lemma sums_ok : forall bits r v, Forall (fun z => wrap bits z = z) r -> sums bits v (differences (v :: r)) = v :: r.
Proof.
  intros bits r. induction r as [|x r IH]; intros v H; [reflexivity|]. change (differences (v :: x :: r)) with ((x - v)%Z :: differences (x :: r)).
  cbn [sums]. f_equal. inversion H as [|? ? H1 H2]; subst. replace (v + (x - v))%Z with x by lia. rewrite H1. apply IH, H2.
Qed.

Lemma round_trip : forall bits w values, (w <= 58)%N -> (w <= bits)%N -> values <> [] -> (N.of_nat (length values) < 2 ^ 64)%N ->
  Forall (fun z => wrap bits z = z) values -> Forall int64 values -> Forall int64 (differences values) ->
  spread (2 ^ Z.of_N w) (differences values) ->
  (length values - 1) mod 128 = 0 \/ (length values - 1) mod 128 = 96 ->
  exists b, encode_delta values = Encoded b /\ forall rest, read_delta bits (b ++ rest) = Some (values, rest).
Proof.
  intros bits w values HW HB NE HN HR H64 HD HS HT. destruct values as [|v r]; [contradiction|].
  destruct (blocks_read bits w HW HB (length (differences (v :: r))) (differences (v :: r)) (length (v :: r))) as (b & B1 & B2).
  - lia.
  - rewrite differences_length. lia.
  - exact HD.
  - exact HS.
  - rewrite differences_length. exact HT.
  - set (header := write_varint64 128 ++ write_varint64 4 ++ write_varint64 (N.of_nat (length (v :: r))) ++ write_signed_varint v).
    assert (E : encode_delta (v :: r) = Encoded (header ++ b)).
    { unfold encode_delta. fold header. destruct r as [|x r].
      - cbn [differences length write_blocks] in B1. injection B1 as <-. rewrite app_nil_r. reflexivity.
      - rewrite delta_list_ok by exact HD. rewrite B1. reflexivity. }
    exists (header ++ b). split; [exact E|]. intros rest. unfold read_delta, header. rewrite <- !app_assoc.
    rewrite varint64_read by reflexivity. rewrite varint64_read by reflexivity. rewrite varint64_read by exact HN.
    inversion H64 as [|? ? I1 I2]; subst. rewrite signed_varint_read by exact I1.
    change ((0 <? 128) && (128 mod 128 =? 0) && (0 <? 4) && (128 mod 4 =? 0) && (128 / 4 mod 32 =? 0))%N with true. cbv iota.
    destruct (N.eqb_spec (N.of_nat (length (v :: r))) 0) as [Z0|_]; [cbn [length] in Z0; lia|].
    rewrite Nat2N.id. rewrite differences_length in B2. rewrite B2. inversion HR as [|? ? R1 R2]; subst. rewrite R1, sums_ok by exact R2. reflexivity.
Qed.

Lemma wrap_32 : forall z, int32 z -> wrap 32 z = z.
Proof. intros z [H1 H2]. unfold wrap. change (2 ^ Z.of_N (32 - 1))%Z with 2147483648%Z. change (2 ^ Z.of_N 32)%Z with 4294967296%Z. change (2 ^ 31)%Z with 2147483648%Z in *. rewrite Z.mod_small by lia. lia. Qed.
Lemma wrap_64 : forall z, int64 z -> wrap 64 z = z.
Proof. intros z [H1 H2]. unfold wrap. change (2 ^ Z.of_N (64 - 1))%Z with 9223372036854775808%Z. change (2 ^ Z.of_N 64)%Z with 18446744073709551616%Z. change (2 ^ 63)%Z with 9223372036854775808%Z in *. rewrite Z.mod_small by lia. lia. Qed.
Lemma differences_range : forall a b l, Forall (fun z => a <= z < b)%Z l -> Forall (fun d => a - b < d < b - a)%Z (differences l).
Proof.
  intros a b [|v r] H; [constructor|]. revert v H. induction r as [|x r IH]; intros v H; [constructor|].
  change (differences (v :: x :: r)) with ((x - v)%Z :: differences (x :: r)). inversion H as [|? ? H1 H2]; subst. inversion H2; subst. constructor; [lia|]. apply IH, H2.
Qed.

(** ** The encoder throws *)
Lemma adjust_length : forall m l adj, adjust m l = Some adj -> length adj = length l.
Proof.
  intros m l. induction l as [|d l IH]; intros adj H; cbn [adjust] in H; [injection H as <-; reflexivity|].
  destruct (sub64 d m); [|discriminate]. destruct (adjust m l); [|discriminate]. injection H as <-. cbn [length]. rewrite (IH _ eq_refl). reflexivity.
Qed.
Lemma adjust_small : forall m l, Forall (fun d => int64 (d - m)) l -> exists adj, adjust m l = Some adj.
Proof.
  intros m l H. induction H as [|d l Hd Hl IH]; [exists []; reflexivity|]. destruct IH as [adj E]. cbn [adjust]. rewrite sub64_ok by exact Hd. rewrite E. eexists. reflexivity.
Qed.
Lemma write_mini_throws : forall adj, length adj < 96 -> write_mini adj [0; 1; 2; 3] = Throws.
Proof.
  intros adj H. assert (T3 : write_mini adj [3] = Throws). { cbn [write_mini]. unfold mb_end, mb_start. destruct (Nat.ltb_spec (Nat.min (3 * 32 + 32) (length adj)) (3 * 32)); [reflexivity|lia]. }
  assert (ST : forall mb r, write_mini adj r = Throws -> write_mini adj (mb :: r) = Throws) by (intros mb r E; cbn [write_mini]; rewrite E; destruct (_ <? _); reflexivity).
  apply ST, ST, ST, T3.
Qed.
Lemma write_mini_defined : forall adj mbs, write_mini adj mbs <> Undefined.
Proof. intros adj mbs. induction mbs as [|mb r IH]; cbn [write_mini]; [discriminate|]. destruct (_ <? _); [discriminate|]. destruct (write_mini adj r); congruence. Qed.
Lemma blocks_throw : forall fuel ds, length ds <= fuel -> 1 <= length ds mod 128 < 96 -> (forall d m, In d ds -> In m ds -> int64 (d - m)) -> write_blocks fuel ds = Throws.
Proof.
  induction fuel as [|fuel IH]; intros ds HF HT HI.
  - destruct ds; [cbn in HT; lia|cbn [length] in HF; lia].
  - assert (NE : ds <> []) by (intros ->; cbn in HT; lia). rewrite (write_blocks_S _ _ NE). cbv zeta.
    assert (NB : firstn 128 ds <> []) by (destruct ds; [contradiction|discriminate]).
    assert (SUB : forall d, In d (firstn 128 ds) -> In d ds) by (intros d Hd; rewrite <- (firstn_skipn 128 ds); apply in_or_app; left; exact Hd).
    destruct (min_delta_spec _ NB) as [MI _].
    destruct (adjust_small (min_delta (firstn 128 ds)) (firstn 128 ds)) as [adj E].
    { apply Forall_forall. intros d Hd. apply HI; apply SUB; assumption. }
    rewrite E. pose proof (adjust_length _ _ _ E) as LA. rewrite firstn_length in LA.
    destruct (Nat.le_gt_cases 128 (length ds)) as [G|G].
    + assert (RT : write_blocks fuel (skipn 128 ds) = Throws).
      { apply IH.
        - rewrite skipn_length. lia.
        - rewrite skipn_length. replace (length ds) with ((length ds - 128) + 1 * 128) in HT by lia. rewrite Nat.mod_add in HT by discriminate. exact HT.
        - intros d m H1 H2. apply HI; rewrite <- (firstn_skipn 128 ds); apply in_or_app; right; assumption. }
      pose proof (write_mini_defined adj [0; 1; 2; 3]). destruct (write_mini adj [0; 1; 2; 3]); [rewrite RT; reflexivity|reflexivity|contradiction].
    + rewrite Nat.mod_small in HT by lia. rewrite write_mini_throws by lia. reflexivity.
Qed.
Lemma encode_throws : forall values, 1 <= (length values - 1) mod 128 < 96 ->
  (forall d m, In d (differences values) -> In m (differences values) -> int64 (d - m)) -> Forall int64 (differences values) -> encode_delta values = Throws.
Proof.
  intros [|v [|x r]] HT HI HD; [cbn in HT; lia|cbn in HT; lia|]. unfold encode_delta. rewrite delta_list_ok by exact HD.
  rewrite blocks_throw; [reflexivity|lia| |exact HI]. rewrite differences_length. exact HT.
Qed.

(** ** Strings *)
Lemma non_null_all : forall values, non_null values (repeat false (length values)) = Some values.
Proof. induction values as [|v r IH]; [reflexivity|]. cbn [length repeat non_null]. rewrite IH. reflexivity. Qed.
Lemma non_null_spec : forall values nulls, length nulls = length values -> non_null values nulls = Some (select (map negb nulls) values).
Proof.
  induction values as [|v r IH]; intros [|b nb] H; cbn [length] in H; try lia; [reflexivity|]. cbn [non_null map select]. rewrite IH by lia. destruct b; reflexivity.
Qed.
Lemma int32_of_size_small : forall n, (Z.of_nat n < 2 ^ 31)%Z -> int32_of_size n = Z.of_nat n.
Proof. intros n H. unfold int32_of_size. rewrite Z.mod_small by lia. lia. Qed.
Lemma split_ok : forall present rest, split_lengths (map (fun s => Z.of_nat (length s)) present) (concat present ++ rest) = Some (present, rest).
Proof.
  induction present as [|s r IH]; intros rest; [reflexivity|]. cbn [map split_lengths concat]. destruct (Z.ltb_spec (Z.of_nat (length s)) 0); [lia|].
  rewrite <- app_assoc, take_exact by lia. rewrite IH. reflexivity.
Qed.

Lemma select_incl : forall {A} flags (l : list A) x, In x (select flags l) -> In x l.
Proof.
  intros A flags. induction flags as [|b fs IH]; intros [|y l] x H; cbn [select] in H; try contradiction.
  destruct b; [destruct H as [->|H]; [left; reflexivity|right; apply IH, H]|right; apply IH, H].
Qed.
Lemma select_length_le : forall {A} flags (l : list A), length (select flags l) <= length l.
Proof.
  intros A flags. induction flags as [|b fs IH]; intros [|y l]; cbn [select length]; try lia. specialize (IH l). destruct b; cbn [length]; lia.
Qed.
Lemma present_spec : forall values nulls, nulls = [] \/ length nulls = length values ->
  (match nulls with [] => Some values | _ => non_null values nulls end) = Some (present values nulls) /\
  (forall s, In s (present values nulls) -> In s values) /\ length (present values nulls) <= length values.
Proof.
  intros values nulls H. unfold present. destruct nulls as [|b nb]; [repeat split; auto|]. destruct H as [H|H]; [discriminate|].
  split; [apply non_null_spec, H|]. split; [apply select_incl|apply select_length_le].
Qed.
Lemma sizes : forall values nulls, nulls = [] \/ length nulls = length values -> Forall (fun s => Z.of_nat (length s) < 2 ^ 31)%Z values ->
  map (fun s => int32_of_size (length s)) (present values nulls) = map (fun s => Z.of_nat (length s)) (present values nulls) /\
  Forall (fun z => 0 <= z < 2 ^ 31)%Z (map (fun s : bytes => Z.of_nat (length s)) (present values nulls)).
Proof.
  intros values nulls H F. destruct (present_spec values nulls H) as (_ & I & _). rewrite Forall_forall in F. split.
  - apply map_ext_in. intros s Hs. apply int32_of_size_small, F, I, Hs.
  - apply Forall_forall. intros z Hz. apply in_map_iff in Hz. destruct Hz as (s & <- & Hs). specialize (F s (I s Hs)). cbv beta in F. lia.
Qed.
Lemma encode_strings : forall values nulls, nulls = [] \/ length nulls = length values -> present values nulls <> [] ->
  Forall (fun s => Z.of_nat (length s) < 2 ^ 31)%Z values ->
  encode_delta_length_byte_array values nulls =
  match encode_delta (map (fun s => Z.of_nat (length s)) (present values nulls)) with Encoded b => Encoded (b ++ concat (present values nulls)) | x => x end.
Proof.
  intros values nulls H NE F. destruct (present_spec values nulls H) as (P & I & L). destruct (sizes values nulls H F) as [S1 _].
  unfold encode_delta_length_byte_array. destruct values as [|v r].
  - destruct (present [] nulls) as [|s t] eqn:E; [contradiction|]. cbn [length] in L. lia.
  - rewrite P, S1. reflexivity.
Qed.
Lemma strings_round_trip : forall values nulls,
  nulls = [] \/ length nulls = length values -> present values nulls <> [] -> (N.of_nat (length values) < 2 ^ 64)%N ->
  Forall (fun s => Z.of_nat (length s) < 2 ^ 31)%Z values ->
  in_last_block (present values nulls) = 0 \/ in_last_block (present values nulls) = 96 ->
  exists b, encode_delta_length_byte_array values nulls = Encoded b /\ forall rest, read_delta_length (b ++ rest) = Some (present values nulls, rest).
Proof.
  intros values nulls H NE HN F T. destruct (present_spec values nulls H) as (P & I & L). destruct (sizes values nulls H F) as [_ R].
  rewrite encode_strings by assumption. set (ls := map (fun s : bytes => Z.of_nat (length s)) (present values nulls)) in *.
  assert (LL : length ls = length (present values nulls)) by (unfold ls; apply map_length).
  pose proof (differences_range _ _ _ R) as D. rewrite Forall_forall in D.
  destruct (round_trip 32 32 ls) as (b & B1 & B2); try lia.
  - destruct ls; [destruct (present values nulls); [contradiction|discriminate LL]|discriminate].
  - eapply Forall_impl; [|exact R]. intros z Hz. cbv beta in Hz. apply wrap_32. unfold int32. lia.
  - eapply Forall_impl; [|exact R]. intros z Hz. cbv beta in Hz. unfold int64. lia.
  - apply Forall_forall. intros d Hd. specialize (D d Hd). unfold int64. lia.
  - intros i j Hi Hj _. pose proof (D _ (nth_In _ 0%Z Hi)). pose proof (D _ (nth_In _ 0%Z Hj)). change (Z.of_N 32) with 32%Z. lia.
  - rewrite LL. exact T.
  - rewrite B1. eexists. split; [reflexivity|]. intros rest. unfold read_delta_length. rewrite <- app_assoc, B2. apply split_ok.
Qed.
Lemma strings_throw : forall values nulls,
  nulls = [] \/ length nulls = length values -> Forall (fun s => Z.of_nat (length s) < 2 ^ 31)%Z values ->
  1 <= in_last_block (present values nulls) < 96 -> encode_delta_length_byte_array values nulls = Throws.
Proof.
  intros values nulls H F T. destruct (sizes values nulls H F) as [_ R].
  assert (NE : present values nulls <> []) by (intros E; rewrite E in T; cbn in T; lia).
  rewrite encode_strings by assumption. set (ls := map (fun s : bytes => Z.of_nat (length s)) (present values nulls)) in *.
  assert (LL : length ls = length (present values nulls)) by (unfold ls; apply map_length).
  pose proof (differences_range _ _ _ R) as D. rewrite Forall_forall in D. rewrite encode_throws; [reflexivity| | |].
  - rewrite LL. exact T.
  - intros d m H1 H2. pose proof (D d H1). pose proof (D m H2). unfold int64. lia.
  - apply Forall_forall. intros d Hd. specialize (D d Hd). unfold int64. lia.
Qed.
