From Verif Require Import Base WordsModel VarintSpec VarintModel VarintProof ThriftSpec ThriftProof RleSpec RleModel RleProof DeltaSpec DeltaModel DeltaProof.

(** ** Unpacking with anything behind the values *)
Lemma horner_nth_more : forall bw vs x i, Forall (fun v => (v < 2 ^ bw)%N) vs -> i < length vs ->
  (((horner bw vs + 2 ^ (bw * N.of_nat (length vs)) * x) / 2 ^ (bw * N.of_nat i)) mod 2 ^ bw)%N = nth i vs 0%N.
Proof.
  intros bw vs x i H. revert i. induction H as [|v r Hv Hr IH]; intros i Hi; cbn [length] in Hi; [lia|].
  cbn [horner length].
  assert (E : (v + 2 ^ bw * horner bw r + 2 ^ (bw * N.of_nat (S (length r))) * x = v + (horner bw r + 2 ^ (bw * N.of_nat (length r)) * x) * 2 ^ bw)%N).
  { rewrite Nat2N.inj_succ, N.mul_succ_r, pow2_split. lia. }
  rewrite E. destruct i as [|i].
  - cbn [nth]. rewrite N.mul_0_r. change (2 ^ 0)%N with 1%N. rewrite N.div_1_r.
    rewrite N.mod_add by (apply N.pow_nonzero; discriminate). apply N.mod_small, Hv.
  - cbn [nth]. rewrite <- IH by lia. rewrite Nat2N.inj_succ, N.mul_succ_r, (N.add_comm (bw * _) bw), pow2_split.
    rewrite <- N.div_div by (apply N.pow_nonzero; discriminate).
    rewrite N.div_add by (apply N.pow_nonzero; discriminate).
    rewrite (N.div_small v) by exact Hv. rewrite N.add_0_l. reflexivity.
Qed.
Lemma unpack_more : forall bw vs bs x, Forall (fun v => (v < 2 ^ bw)%N) vs ->
  le_value bs = (horner bw vs + 2 ^ (bw * N.of_nat (length vs)) * x)%N -> unpack bw (length vs) bs = vs.
Proof.
  intros bw vs bs x H E. unfold unpack. rewrite E.
  assert (L : forall l : list N, map (fun i => nth i l 0%N) (seq 0 (length l)) = l).
  { induction l as [|v r IH]; [reflexivity|]. cbn [length seq map nth]. f_equal. rewrite <- seq_shift, map_map. exact IH. }
  transitivity (map (fun i => nth i vs 0%N) (seq 0 (length vs))); [|apply L]. apply map_ext_in. intros i Hi. apply in_seq in Hi. apply horner_nth_more; [assumption|lia].
Qed.

(** ** What [take] takes *)
Lemma take_inv : forall n bs a r, take n bs = Some (a, r) -> bs = a ++ r /\ N.of_nat (length a) = n.
Proof.
  intros n bs a r H. unfold take in H. destruct (n <=? N.of_nat (length bs))%N eqn:E; [|discriminate]. apply N.leb_le in E.
  injection H as <- <-. split; [symmetry; apply firstn_skipn|]. rewrite firstn_length. lia.
Qed.
Lemma prefix_of : forall {A} (a b c d : list A), a ++ b = c ++ d -> length a <= length c -> exists e, c = a ++ e /\ b = e ++ d.
Proof.
  intros A a. induction a as [|x a IH]; intros b c d E L; [exists c; split; [reflexivity|exact E]|].
  destruct c as [|y c]; [cbn [length] in L; lia|]. cbn [app] in E. injection E as -> E. cbn [length] in L.
  destruct (IH b c d E ltac:(lia)) as (e & -> & ->). exists e. split; reflexivity.
Qed.

(** ** A mini-block that may be short *)
Definition packed_bytes (w : N) (n : nat) : nat := (N.to_nat w * n + 7) / 8.
Lemma pack_length : forall chunk w, (w <= 58)%N -> Forall (fun v => (v < 2 ^ w)%N) chunk -> length (delta_bit_pack chunk w) = packed_bytes w (length chunk).
Proof.
  intros chunk w H1 H2. unfold delta_bit_pack, packed_bytes. destruct (N.eqb_spec w 0) as [->|W0]; [reflexivity|].
  destruct (pack_wide (N.to_nat w) chunk) as [_ B]; [lia|rewrite N2Nat.id; exact H2|exact B].
Qed.
Lemma pack_value : forall chunk w, (w <= 58)%N -> Forall (fun v => (v < 2 ^ w)%N) chunk -> le_value (delta_bit_pack chunk w) = horner w chunk.
Proof.
  intros chunk w H1 H2. unfold delta_bit_pack. destruct (N.eqb_spec w 0) as [->|W0].
  - rewrite (all_zero chunk H2). generalize (length chunk). induction n as [|n IH]; [reflexivity|]. cbn [repeat horner]. rewrite <- IH. reflexivity.
  - destruct (pack_wide (N.to_nat w) chunk) as [A _]; [lia|rewrite N2Nat.id; exact H2|]. rewrite N2Nat.id in A. exact A.
Qed.
Lemma unpack_packed : forall chunk w e, (w <= 58)%N -> Forall (fun v => (v < 2 ^ w)%N) chunk -> unpack w (length chunk) (delta_bit_pack chunk w ++ e) = chunk.
Proof.
  intros chunk w e H1 H2. set (p := delta_bit_pack chunk w).
  assert (LP : (N.of_nat (length p) * 8 >= w * N.of_nat (length chunk))%N).
  { unfold p. rewrite pack_length by assumption. unfold packed_bytes. pose proof (Nat.div_mod (N.to_nat w * length chunk + 7) 8 ltac:(discriminate)) as D.
    pose proof (Nat.mod_upper_bound (N.to_nat w * length chunk + 7) 8 ltac:(discriminate)).
    assert (N.to_nat w * length chunk <= 8 * ((N.to_nat w * length chunk + 7) / 8)) by lia.
    assert (X : (w * N.of_nat (length chunk) = N.of_nat (N.to_nat w * length chunk))%N) by lia. lia. }
  apply (unpack_more w chunk _ (2 ^ (8 * N.of_nat (length p) - w * N.of_nat (length chunk)) * le_value e)%N H2).
  rewrite le_value_app. unfold p at 1. rewrite pack_value by assumption. f_equal. rewrite N.mul_assoc, <- pow2_split. rewrite pow256. f_equal. f_equal. lia.
Qed.

Lemma read_mini_S : forall bits w ws n bs, read_mini bits 32 (w :: ws) (S n) bs =
  if (w <=? bits)%N then
    match take (4 * w) bs with
    | None => None
    | Some (data, r) =>
        match read_mini bits 32 ws (S n - Nat.min 32 (S n)) r with
        | None => None
        | Some (l, r') => Some (unpack w (Nat.min 32 (S n)) data ++ l, r')
        end
    end
  else None.
Proof.
  intros. cbn [read_mini]. replace (32 * w / 8)%N with (4 * w)%N by (replace (32 * w)%N with (4 * w * 8)%N by lia; rewrite N.div_mul; [reflexivity|discriminate]). reflexivity.
Qed.
Lemma mini_last : forall bits w ws chunk, chunk <> [] -> length chunk <= 32 -> (w <= bits)%N -> (w <= 58)%N -> Forall (fun v => (v < 2 ^ w)%N) chunk ->
  (packed_bytes w (length chunk) = 4 * N.to_nat w -> forall r, read_mini bits 32 (w :: ws) (length chunk) (delta_bit_pack chunk w ++ r) = Some (chunk, r)) /\
  (packed_bytes w (length chunk) < 4 * N.to_nat w -> forall r l r', read_mini bits 32 (w :: ws) (length chunk) (delta_bit_pack chunk w ++ r) = Some (l, r') ->
     l = chunk /\ length r' < length r).
Proof.
  intros bits w ws chunk NE L H1 H2 H3. pose proof (pack_length chunk w H2 H3) as LP.
  assert (RZ : forall r, read_mini bits 32 ws 0 r = Some ([], r)) by (intros r; destruct ws; reflexivity).
  assert (LC : exists k, length chunk = S k) by (destruct chunk; [contradiction|eexists; reflexivity]). destruct LC as [k LC]. rewrite LC.
  split.
  - intros E r. rewrite read_mini_S, (proj2 (N.leb_le _ _) H1). rewrite Nat.min_r by lia. rewrite Nat.sub_diag.
    rewrite (take_exact (4 * w)%N) by (rewrite LP, LC, E; lia). rewrite RZ, app_nil_r. do 2 f_equal. rewrite <- LC.
    pose proof (unpack_packed chunk w [] H2 H3) as U. rewrite app_nil_r in U. exact U.
  - intros E r l r' H. rewrite read_mini_S, (proj2 (N.leb_le _ _) H1) in H. rewrite Nat.min_r in H by lia. rewrite Nat.sub_diag in H.
    destruct (take (4 * w) _) as [[data q]|] eqn:T; [|discriminate H]. rewrite RZ, app_nil_r in H. injection H as <- <-.
    destruct (take_inv _ _ _ _ T) as [T1 T2]. destruct (prefix_of _ _ _ _ T1) as (e & -> & ->); [rewrite LP, LC; lia|].
    split; [rewrite <- LC; apply unpack_packed; assumption|]. rewrite app_length in T2. rewrite app_length.
    assert (0 < length e); [|lia]. rewrite LC in LP. lia.
Qed.
Lemma packed_full : forall w n, 1 <= n <= 32 -> ((32 - n) * N.to_nat w < 8 -> packed_bytes w n = 4 * N.to_nat w) /\ (8 <= (32 - n) * N.to_nat w -> packed_bytes w n < 4 * N.to_nat w).
Proof.
  intros w n H. unfold packed_bytes. generalize (N.to_nat w) as k. intros k. assert (E : k * n + (32 - n) * k = 4 * k * 8) by (rewrite (Nat.mul_comm k n), <- Nat.mul_add_distr_r; replace (n + (32 - n)) with 32 by lia; lia). split; intros G.
  - apply Nat.le_antisymm.
    + assert ((k * n + 7) / 8 < 4 * k + 1); [|lia]. apply Nat.div_lt_upper_bound; lia.
    + apply Nat.div_le_lower_bound; lia.
  - apply Nat.div_lt_upper_bound; lia.
Qed.

(** ** A reader that succeeds has seen widths it knows *)
Lemma read_mini_widths : forall bits ws n bs l r, read_mini bits 32 ws n bs = Some (l, r) ->
  forall i, i < length ws -> i * 32 < n -> (nth i ws 0 <= bits)%N.
Proof.
  intros bits ws. induction ws as [|w ws IH]; intros n bs l r H i Hi Hn; [cbn [length] in Hi; lia|].
  destruct n as [|n]; [lia|]. rewrite read_mini_S in H. destruct (N.leb_spec w bits) as [W|W]; [|discriminate].
  destruct (take (4 * w) bs) as [[data q]|]; [|discriminate]. destruct (read_mini bits 32 ws _ q) as [[l1 r1]|] eqn:E; [|discriminate].
  destruct i as [|i]; [exact W|]. cbn [nth]. apply (IH _ _ _ _ E); [cbn [length] in Hi; lia|lia].
Qed.

Definition mini (adj : list N) (mb : nat) : list N := slice (mb_start mb) (mb_end (length adj) mb) adj.

(** ** A block of 96 to 128 deltas, [n] of them still to come *)
Lemma block_any : forall bits adj n, Forall (fun v => (v < 2 ^ 58)%N) adj -> (96 <= length adj < 128 /\ n = length adj) \/ (length adj = 128 /\ 128 <= n) ->
  exists body, write_mini adj [0; 1; 2; 3] = Encoded body /\
    ((forall mb, mb < 4 -> (width_of adj mb <= bits)%N) -> (128 - length adj) * N.to_nat (width_of adj 3) < 8 ->
       forall rest, read_mini bits 32 (map (width_of adj) [0; 1; 2; 3]) n (body ++ rest) = Some (adj, rest)) /\
    (forall rest l r, read_mini bits 32 (map (width_of adj) [0; 1; 2; 3]) n (body ++ rest) = Some (l, r) ->
       l = adj /\ (forall mb, mb < 4 -> (width_of adj mb <= bits)%N) /\
       ((128 - length adj) * N.to_nat (width_of adj 3) < 8 /\ r = rest \/ 8 <= (128 - length adj) * N.to_nat (width_of adj 3) /\ length r < length rest)).
Proof.
  intros bits adj n H58 HN.
  assert (W58 : forall mb, (width_of adj mb <= 58)%N) by (intros; apply width_of_le, H58).
  assert (LA : 96 <= length adj <= 128) by lia.
  assert (EN : forall mb, mb < 3 -> mb_end (length adj) mb = mb * 32 + 32) by (intros mb H; unfold mb_end, mb_start; lia).
  assert (ST : forall mb ws k r, mb < 3 -> 32 <= k -> (width_of adj mb <= bits)%N ->
     read_mini bits 32 (width_of adj mb :: ws) k (delta_bit_pack (slice (mb_start mb) (mb_end (length adj) mb) adj) (width_of adj mb) ++ r) =
     match read_mini bits 32 ws (k - 32) r with Some (l, r') => Some (slice (mb * 32) (mb * 32 + 32) adj ++ l, r') | None => None end).
  { intros mb ws k r HM HK WB. pose proof (width_of_fits adj mb) as F. rewrite (EN mb HM) in *. unfold mb_start in *.
    apply mini_step; [exact WB|apply W58|exact HK| |exact F]. rewrite slice_length; lia. }
  set (last := slice (mb_start 3) (mb_end (length adj) 3) adj).
  assert (E3 : mb_end (length adj) 3 = length adj) by (unfold mb_end, mb_start; lia).
  assert (LL : length last = length adj - 96) by (unfold last; rewrite E3; unfold mb_start; rewrite slice_length; lia).
  assert (GL : slice 0 32 adj ++ slice 32 64 adj ++ slice 64 96 adj ++ last = adj).
  { unfold last. rewrite E3. change (mb_start 3) with 96. rewrite (slice_glue 64 96 (length adj) adj) by lia. rewrite (slice_glue 32 64 (length adj) adj) by lia.
    rewrite (slice_glue 0 32 (length adj) adj) by lia. apply slice_all. reflexivity. }
  eexists. split.
  { apply write_mini_step; [unfold mb_end, mb_start; lia|]. apply write_mini_step; [unfold mb_end, mb_start; lia|].
    apply write_mini_step; [unfold mb_end, mb_start; lia|]. apply write_mini_step; [unfold mb_end, mb_start; lia|]. reflexivity. }
  fold last.
  (* reading, when the widths are accepted *)
  assert (RD : (forall mb, mb < 4 -> (width_of adj mb <= bits)%N) -> forall rest,
    read_mini bits 32 (map (width_of adj) [0; 1; 2; 3]) n
      ((delta_bit_pack (slice (mb_start 0) (mb_end (length adj) 0) adj) (width_of adj 0) ++
        delta_bit_pack (slice (mb_start 1) (mb_end (length adj) 1) adj) (width_of adj 1) ++
        delta_bit_pack (slice (mb_start 2) (mb_end (length adj) 2) adj) (width_of adj 2) ++ delta_bit_pack last (width_of adj 3) ++ []) ++ rest) =
    match read_mini bits 32 [width_of adj 3] (n - 96) (delta_bit_pack last (width_of adj 3) ++ rest) with
    | Some (l, r') => Some (slice 0 32 adj ++ slice 32 64 adj ++ slice 64 96 adj ++ l, r') | None => None end).
  { intros WB rest. cbn [map]. rewrite <- !app_assoc. rewrite ST by (try apply WB; lia). rewrite ST by (try apply WB; lia). rewrite ST by (try apply WB; lia).
    cbn [app]. replace (n - 32 - 32 - 32) with (n - 96) by lia. destruct (read_mini bits 32 [width_of adj 3] (n - 96) _) as [[l r]|]; reflexivity. }
  (* the last mini-block *)
  assert (LAST : (forall mb, mb < 4 -> (width_of adj mb <= bits)%N) ->
    ((128 - length adj) * N.to_nat (width_of adj 3) < 8 -> forall rest, read_mini bits 32 [width_of adj 3] (n - 96) (delta_bit_pack last (width_of adj 3) ++ rest) = Some (last, rest)) /\
    (8 <= (128 - length adj) * N.to_nat (width_of adj 3) -> forall rest l r,
       read_mini bits 32 [width_of adj 3] (n - 96) (delta_bit_pack last (width_of adj 3) ++ rest) = Some (l, r) -> l = last /\ length r < length rest)).
  { intros WB. pose proof (width_of_fits adj 3) as F. fold last in F. destruct (Nat.eq_dec (length adj) 96) as [E|E].
    - assert (last = []) as -> by (destruct last; [reflexivity|cbn [length] in LL; lia]).
      assert (EW : width_of adj 3 = 0%N).
      { unfold width_of, slice. rewrite E3, E. reflexivity. }
      rewrite EW. replace (n - 96) with 0 by lia. split; [intros _ rest; reflexivity|]. intros C. cbn in C. lia.
    - assert (NE : last <> []) by (intros C; rewrite C in LL; cbn [length] in LL; lia).
      destruct (packed_full (width_of adj 3) (length last) ltac:(lia)) as [P1 P2].
      destruct (Nat.le_gt_cases 128 (length adj)) as [G|G].
      + assert (E128 : length adj = 128) by lia. split; [|intros C; rewrite E128 in C; cbn in C; lia]. intros _ rest.
        assert (SS := mini_step bits (width_of adj 3) [] (n - 96) last rest (WB 3 ltac:(lia)) (W58 3) ltac:(lia) ltac:(lia) F). rewrite SS.
        assert (R0 : forall k, read_mini bits 32 [] k rest = Some ([], rest)) by (intros [|k]; reflexivity). rewrite R0, app_nil_r. reflexivity.
      + replace (n - 96) with (length last) by lia. destruct (mini_last bits (width_of adj 3) [] last NE ltac:(lia) (WB 3 ltac:(lia)) (W58 3) F) as [M1 M2].
        replace (128 - length adj) with (32 - length last) by lia. split.
        * intros C. apply M1, P1, C.
        * intros C. apply M2, P2, C. }
  split.
  - intros WB C rest. rewrite (RD WB). destruct (LAST WB) as [L1 _]. rewrite (L1 C), GL. reflexivity.
  - intros rest l r H.
    assert (WB : forall mb, mb < 4 -> (width_of adj mb <= bits)%N).
    { intros mb Hmb. pose proof (read_mini_widths _ _ _ _ _ _ H mb ltac:(cbn; lia)) as X.
      assert (NM : nth mb (map (width_of adj) [0; 1; 2; 3]) 0%N = width_of adj mb) by (do 4 (destruct mb as [|mb]; [reflexivity|]); lia). rewrite NM in X.
      destruct (Nat.lt_ge_cases (mb * 32) n) as [G|G]; [apply X, G|].
      assert (EW : width_of adj mb = 0%N); [|lia]. assert (mb = 3) by lia. subst mb. unfold width_of, slice. rewrite E3. change (mb_start 3) with 96. replace (length adj - 96) with 0 by lia. reflexivity. }
    rewrite (RD WB) in H. destruct (LAST WB) as [L1 L2]. destruct (Nat.lt_ge_cases ((128 - length adj) * N.to_nat (width_of adj 3)) 8) as [C|C].
    + rewrite (L1 C) in H. injection H as <- <-. split; [symmetry; exact (eq_sym GL)|]. split; [exact WB|]. left. split; [exact C|reflexivity].
    + destruct (read_mini bits 32 [width_of adj 3] (n - 96) _) as [[l1 r1]|] eqn:E1; [|discriminate]. injection H as <- <-.
      destruct (L2 C _ _ _ E1) as [-> X]. split; [exact GL|]. split; [exact WB|]. right. split; assumption.
Qed.

(** ** Widths and differences *)
Lemma pow_N_Z : forall w, Z.of_N (2 ^ w) = (2 ^ Z.of_N w)%Z.
Proof. intros w. rewrite N2Z.inj_pow. reflexivity. Qed.
Lemma width_of_iff : forall adj mb w, (width_of adj mb <= w)%N <-> Forall (fun v => (v < 2 ^ w)%N) (slice (mb_start mb) (mb_end (length adj) mb) adj).
Proof.
  intros adj mb w. split; intros H.
  - eapply Forall_impl; [|apply width_of_fits]. intros v Hv. cbv beta in Hv. eapply N.lt_le_trans; [exact Hv|]. apply N.pow_le_mono_r; [discriminate|exact H].
  - unfold width_of. apply width_le, fold_max_lt; [apply pow2_pos|exact H].
Qed.
Lemma in_slice : forall {A} a b (l : list A) x, In x (slice a b l) -> In x l.
Proof. intros A a b l x H. unfold slice in H. rewrite <- (firstn_skipn a l). apply in_or_app. right. rewrite <- (firstn_skipn (b - a) (skipn a l)). apply in_or_app. left. exact H. Qed.
Section Block.
  Variables (m : Z) (block : list Z) (adj : list N).
  Hypothesis MI : In m block.
  Hypothesis ML : Forall (fun d => (m <= d)%Z) block.
  Hypothesis EQ : map (fun d => m + Z.of_N d)%Z adj = block.
  Hypothesis LB : 96 <= length block <= 128.

  Lemma adj_length : length adj = length block.
  Proof. clear -EQ. rewrite <- EQ. symmetry. apply map_length. Qed.
  Lemma in_adj : forall d, In d block <-> exists a, In a adj /\ d = (m + Z.of_N a)%Z.
  Proof. clear -EQ. intros d. rewrite <- EQ, in_map_iff. split; intros (a & A & B); exists a; [split; [exact B|symmetry; exact A]|split; [symmetry; exact B|exact A]]. Qed.
  Lemma widths_iff : forall w, (forall mb, mb < 4 -> (width_of adj mb <= w)%N) <-> (forall d least, In d block -> In least block -> (d - least < 2 ^ Z.of_N w)%Z).
  Proof.
    intros w. pose proof adj_length as LA. split.
    - intros H d least Hd Hl. apply in_adj in Hd. destruct Hd as (a & Ha & ->). rewrite Forall_forall in ML. specialize (ML least Hl).
      assert (SL : slice 0 32 adj ++ slice 32 64 adj ++ slice 64 96 adj ++ slice 96 (length adj) adj = adj).
      { rewrite (slice_glue 64 96 (length adj) adj) by lia. rewrite (slice_glue 32 64 (length adj) adj) by lia. rewrite (slice_glue 0 32 (length adj) adj) by lia. apply slice_all. reflexivity. }
      assert (B : (a < 2 ^ w)%N).
      { assert (G : forall mb lo hi, mb < 4 -> lo = mb * 32 -> hi = Nat.min (mb * 32 + 32) (length adj) -> In a (slice lo hi adj) -> (a < 2 ^ w)%N).
        { intros mb lo hi Hmb -> -> Hin. pose proof (proj1 (width_of_iff adj mb w) (H mb Hmb)) as F. rewrite Forall_forall in F. apply F. exact Hin. }
        rewrite <- SL in Ha. apply in_app_or in Ha. destruct Ha as [Ha|Ha]; [apply (G 0 0 32); (assumption || lia)|].
        apply in_app_or in Ha. destruct Ha as [Ha|Ha]; [apply (G 1 32 64); (assumption || lia)|].
        apply in_app_or in Ha. destruct Ha as [Ha|Ha]; [apply (G 2 64 96); (assumption || lia)|].
        apply (G 3 96 (length adj)); (assumption || lia). }
      apply N2Z.inj_lt in B. rewrite pow_N_Z in B. lia.
    - intros H mb Hmb. apply width_of_iff. apply Forall_forall. intros a Ha. apply in_slice in Ha.
      assert (In (m + Z.of_N a)%Z block) by (apply in_adj; exists a; split; [exact Ha|reflexivity]).
      specialize (H _ _ H0 MI). apply N2Z.inj_lt. rewrite pow_N_Z. lia.
  Qed.
  Lemma last_iff : forall k, (N.to_nat (width_of adj 3) <= k) <-> (forall d least, In d (skipn 96 block) -> In least block -> (d - least < 2 ^ Z.of_nat k)%Z).
  Proof.
    intros k. pose proof adj_length as LA.
    assert (E3 : slice (mb_start 3) (mb_end (length adj) 3) adj = skipn 96 adj).
    { unfold slice. change (mb_start 3) with 96. assert (mb_end (length adj) 3 = length adj) as -> by (unfold mb_end, mb_start; lia). apply firstn_all2. rewrite skipn_length. lia. }
    assert (ES : skipn 96 block = map (fun d => m + Z.of_N d)%Z (skipn 96 adj)) by (rewrite <- EQ; symmetry; clear; generalize 96 as n; intros n; revert n; induction adj as [|a l IH]; intros [|n]; cbn [skipn map]; try reflexivity; apply IH).
    assert (KE : N.to_nat (width_of adj 3) <= k <-> (width_of adj 3 <= N.of_nat k)%N) by lia. rewrite KE, width_of_iff, E3, ES, Forall_forall. split.
    - intros H d least Hd Hl. apply in_map_iff in Hd. destruct Hd as (a & <- & Ha). specialize (H a Ha). cbv beta in H. rewrite Forall_forall in ML. specialize (ML least Hl). cbv beta in ML.
      apply N2Z.inj_lt in H. rewrite pow_N_Z, nat_N_Z in H. lia.
    - intros H a Ha. specialize (H (m + Z.of_N a)%Z m (in_map _ _ _ Ha) MI). apply N2Z.inj_lt. rewrite pow_N_Z, nat_N_Z. lia.
  Qed.
  Lemma full_byte_iff : (128 - length block) * N.to_nat (width_of adj 3) < 8 <->
    exists k, (128 - length block) * k < 8 /\ forall d least, In d (skipn 96 block) -> In least block -> (d - least < 2 ^ Z.of_nat k)%Z.
  Proof.
    split.
    - intros H. exists (N.to_nat (width_of adj 3)). split; [exact H|]. apply last_iff. lia.
    - intros (k & K1 & K2). apply last_iff in K2. eapply Nat.le_lt_trans; [|exact K1]. apply Nat.mul_le_mono_l. exact K2.
  Qed.
End Block.

Lemma spread_split : forall b ds, (0 < b)%Z -> (forall d d', In d (firstn 128 ds) -> In d' (firstn 128 ds) -> (d - d' < b)%Z) -> spread b (skipn 128 ds) -> spread b ds.
Proof.
  intros b ds B0 H1 H2 i j Hi Hj E.
  assert (K1 : forall k, k < 128 -> nth k ds 0%Z = nth k (firstn 128 ds) 0%Z).
  { intros k Hk. destruct (Nat.lt_ge_cases k (length ds)) as [G|G].
    - rewrite <- (firstn_skipn 128 ds) at 1. rewrite app_nth1; [reflexivity|]. rewrite firstn_length. lia.
    - rewrite !nth_overflow; [reflexivity| |exact G]. rewrite firstn_length. lia. }
  assert (K2 : forall k, 128 <= k -> nth k ds 0%Z = nth (k - 128) (skipn 128 ds) 0%Z).
  { intros k Hk. destruct (Nat.lt_ge_cases k (length ds)) as [G|G].
    - rewrite <- (firstn_skipn 128 ds) at 1. rewrite app_nth2; rewrite firstn_length; [f_equal; lia|lia].
    - rewrite !nth_overflow; [reflexivity| |exact G]. rewrite skipn_length. lia. }
  destruct (Nat.lt_ge_cases i 128) as [G|G].
  - assert (j < 128). { rewrite (Nat.div_small i) in E by exact G. destruct (Nat.lt_ge_cases j 128) as [G'|G']; [exact G'|]. assert (1 <= j / 128) by (apply Nat.div_le_lower_bound; lia). lia. }
    rewrite !K1 by assumption. apply H1; apply nth_In; rewrite firstn_length; lia.
  - assert (128 <= j). { destruct (Nat.lt_ge_cases j 128) as [G'|G']; [|exact G']. rewrite (Nat.div_small j) in E by exact G'. assert (1 <= i / 128) by (apply Nat.div_le_lower_bound; lia). lia. }
    rewrite !K2 by assumption. apply H2; try (rewrite skipn_length; lia).
    replace i with (i - 128 + 1 * 128) in E by lia. replace j with (j - 128 + 1 * 128) in E by lia. rewrite !Nat.div_add in E by discriminate. lia.
Qed.
Lemma spread_mono : forall a b ds, (a <= b)%Z -> spread a ds -> spread b ds.
Proof. intros a b ds H HS i j Hi Hj E. eapply Z.lt_le_trans; [apply HS; assumption|exact H]. Qed.

Lemma last_block_small : forall ds, ds <> [] -> length ds <= 128 -> last_block ds = ds.
Proof.
  intros ds NE L. unfold last_block. assert (1 <= length ds) by (destruct ds; [contradiction|cbn [length]; lia]). rewrite Nat.div_small by lia. reflexivity.
Qed.
Lemma skipn_more : forall {A} a b (l : list A), skipn a (skipn b l) = skipn (b + a) l.
Proof. intros A a b. induction b as [|b IH]; intros l; [reflexivity|]. destruct l as [|x l]; [cbn [skipn Nat.add]; apply skipn_nil|]. cbn [skipn Nat.add]. apply IH. Qed.
Lemma last_block_skip : forall ds, 128 < length ds -> last_block ds = last_block (skipn 128 ds).
Proof.
  intros ds L. unfold last_block. rewrite skipn_more, skipn_length. f_equal.
  replace (length ds - 1) with (length ds - 128 - 1 + 1 * 128) by lia. rewrite Nat.div_add by discriminate. lia.
Qed.
Lemma ends_skip : forall ds, 128 < length ds -> ends_in_full_byte ds <-> ends_in_full_byte (skipn 128 ds).
Proof.
  intros ds L. assert (N1 : ds <> []) by (intros ->; cbn in L; lia). assert (N2 : skipn 128 ds <> []) by (intros E; apply (f_equal (@length Z)) in E; rewrite skipn_length in E; cbn in E; lia).
  unfold ends_in_full_byte. rewrite last_block_skip by exact L. tauto.
Qed.

Lemma blocks_exact : forall bits fuel ds f,
  length ds <= fuel -> length ds <= f -> Forall int64 ds -> spread (2 ^ 58) ds ->
  length ds mod 128 = 0 \/ 96 <= length ds mod 128 ->
  exists b, write_blocks fuel ds = Encoded b /\
    (spread (2 ^ Z.of_N bits) ds -> ends_in_full_byte ds -> forall rest, read_blocks f bits 128 4 (length ds) (b ++ rest) = Some (ds, rest)) /\
    (forall rest l r, read_blocks f bits 128 4 (length ds) (b ++ rest) = Some (l, r) ->
       l = ds /\ spread (2 ^ Z.of_N bits) ds /\ (ends_in_full_byte ds /\ r = rest \/ ~ ends_in_full_byte ds /\ length r < length rest)).
Proof.
  intros bits fuel.
  assert (NIL : forall f, exists b, write_blocks fuel [] = Encoded b /\
    (spread (2 ^ Z.of_N bits) [] -> ends_in_full_byte [] -> forall rest, read_blocks f bits 128 4 (length (@nil Z)) (b ++ rest) = Some ([], rest)) /\
    (forall rest l r, read_blocks f bits 128 4 (length (@nil Z)) (b ++ rest) = Some (l, r) ->
       l = [] /\ spread (2 ^ Z.of_N bits) [] /\ (ends_in_full_byte [] /\ r = rest \/ ~ ends_in_full_byte [] /\ length r < length rest))).
  { intros f. exists []. split; [destruct fuel; reflexivity|]. split; [intros _ _ rest; destruct f; reflexivity|]. intros rest l r H.
    assert (Some (@nil Z, rest) = Some (l, r)) as X by (destruct f; exact H). injection X as <- <-. split; [reflexivity|]. split; [intros i j Hi; cbn in Hi; lia|].
    left. split; [left; reflexivity|reflexivity]. }
  revert NIL. induction fuel as [|fuel IH]; intros NIL ds f HF Hf HI HS HT.
  - destruct ds as [|d ds]; [apply NIL|cbn [length] in HF; lia].
  - destruct ds as [|d0 ds0]; [apply NIL|].
    assert (NILF : forall f, exists b, write_blocks fuel [] = Encoded b /\
    (spread (2 ^ Z.of_N bits) [] -> ends_in_full_byte [] -> forall rest, read_blocks f bits 128 4 (length (@nil Z)) (b ++ rest) = Some ([], rest)) /\
    (forall rest l r, read_blocks f bits 128 4 (length (@nil Z)) (b ++ rest) = Some (l, r) ->
       l = [] /\ spread (2 ^ Z.of_N bits) [] /\ (ends_in_full_byte [] /\ r = rest \/ ~ ends_in_full_byte [] /\ length r < length rest))).
    { assert (E0 : write_blocks fuel [] = write_blocks (S fuel) []) by (destruct fuel; reflexivity). rewrite E0. exact NIL. }
    specialize (IH NILF). clear NIL NILF.
    remember (d0 :: ds0) as ds eqn:ED. assert (NE : ds <> []) by (subst; discriminate). assert (LP : 1 <= length ds) by (subst; cbn [length]; lia). clear ED d0 ds0.
    destruct f as [|f]; [lia|]. rewrite (write_blocks_S _ _ NE). cbv zeta. set (block := firstn 128 ds). set (m := min_delta block).
    assert (NB : block <> []) by (unfold block; destruct ds; [contradiction|discriminate]).
    destruct (min_delta_spec block NB) as [MI ML]. fold m in MI, ML.
    assert (LB : length block = Nat.min 128 (length ds)) by (unfold block; apply firstn_length).
    assert (RNG : Forall (fun d => 0 <= d - m < 2 ^ Z.of_N 58)%Z block).
    { apply Forall_forall. intros d Hd. rewrite Forall_forall in ML. specialize (ML d Hd). split; [lia|]. apply (spread_first _ ds); assumption. }
    destruct (adjust_ok m 58%N block ltac:(lia) RNG) as (adj & A1 & A2 & A3 & A4). rewrite A1.
    assert (SH : (96 <= length adj < 128 /\ length ds = length adj) \/ (length adj = 128 /\ 128 <= length ds)).
    { rewrite A4, LB. pose proof (Nat.div_mod (length ds) 128 ltac:(discriminate)). destruct (Nat.le_gt_cases 128 (length ds)); [right; lia|]. left.
      rewrite Nat.mod_small in HT by lia. lia. }
    assert (LB2 : 96 <= length block <= 128) by lia.
    destruct (block_any bits adj (length ds) A3 SH) as (body & B1 & B2 & B3). rewrite B1.
    assert (HSK : length (skipn 128 ds) mod 128 = 0 \/ 96 <= length (skipn 128 ds) mod 128).
    { rewrite skipn_length. destruct (Nat.le_gt_cases 128 (length ds)) as [G|G]; [|left; replace (length ds - 128) with 0 by lia; reflexivity].
      replace (length ds) with ((length ds - 128) + 1 * 128) in HT by lia. rewrite Nat.mod_add in HT by discriminate. exact HT. }
    assert (L1 : length (skipn 128 ds) <= fuel) by (rewrite skipn_length; lia).
    assert (L2 : length (skipn 128 ds) <= f) by (rewrite skipn_length; lia).
    destruct (IH (skipn 128 ds) f L1 L2 (Forall_skipn _ _ _ HI) (spread_skip _ _ HS) HSK) as (bs & C1 & C2 & C3). rewrite C1.
    assert (LA : length ds - length adj = length (skipn 128 ds)) by (rewrite skipn_length; lia).
    assert (P0 : (0 < 2 ^ Z.of_N bits)%Z) by (apply Z.pow_pos_nonneg; lia).
    pose proof (widths_iff m block adj MI ML A2 LB2 bits) as WI. pose proof (full_byte_iff m block adj MI ML A2 LB2) as FB. rewrite A4 in B2, B3.
    (* the last block *)
    assert (EB : ends_in_full_byte ds <-> (128 - length block) * N.to_nat (width_of adj 3) < 8 /\ ends_in_full_byte (skipn 128 ds)).
    { destruct (Nat.le_gt_cases (length ds) 128) as [G|G].
      - assert (EBL : block = ds) by (unfold block; apply firstn_all2; exact G).
        assert (ESK : skipn 128 ds = []) by (apply skipn_all2; exact G). rewrite ESK, FB, EBL. unfold ends_in_full_byte. rewrite last_block_small by assumption.
        split; [intros [E|[E1 E2]]; [contradiction|split; [exact E2|left; reflexivity]]|intros [E1 _]; right; split; [lia|exact E1]].
      - rewrite (ends_skip ds G). split; [intros E; split; [|exact E]|intros [_ E]; exact E]. replace (128 - length block) with 0 by lia. lia. }
    eexists. split; [reflexivity|].
    assert (I64 : int64 m) by (rewrite Forall_forall in HI; apply HI; rewrite <- (firstn_skipn 128 ds); apply in_or_app; left; exact MI).
    split.
    + intros SP EN rest. rewrite read_blocks_S by lia. rewrite <- !app_assoc. rewrite signed_varint_read by exact I64.
      rewrite (take_exact 4%N (map (width_of adj) [0; 1; 2; 3])) by reflexivity. apply EB in EN. destruct EN as [EN1 EN2].
      rewrite B2; [|apply WI; intros d least; apply spread_first; exact SP|exact EN1].
      rewrite LA, C2; [|apply spread_skip, SP|exact EN2]. rewrite A2. unfold block. rewrite firstn_skipn. reflexivity.
    + intros rest l r H. rewrite read_blocks_S in H by lia. rewrite <- !app_assoc in H. rewrite signed_varint_read in H by exact I64.
      rewrite (take_exact 4%N (map (width_of adj) [0; 1; 2; 3])) in H by reflexivity.
      destruct (read_mini bits 32 _ (length ds) _) as [[l1 r1]|] eqn:E1; [|discriminate]. destruct (B3 _ _ _ E1) as (-> & W & X).
      rewrite LA in H. destruct (read_blocks f bits 128 4 _ r1) as [[l2 r2]|] eqn:E2; [|discriminate]. injection H as <- <-.
      destruct X as [[X1 ->]|[X1 X2]].
      * destruct (C3 _ _ _ E2) as (-> & Y1 & Y2). rewrite A2. unfold block. rewrite firstn_skipn. split; [reflexivity|].
        split; [apply spread_split; [exact P0|apply WI, W|exact Y1]|]. rewrite EB. destruct Y2 as [[Y2 Y3]|[Y2 Y3]]; [left|right]; (split; [|exact Y3]); tauto.
      * (* only the last block can be short *)
        assert (G : length ds <= 128) by (destruct (Nat.le_gt_cases (length ds) 128) as [G|G]; [exact G|replace (128 - length block) with 0 in X1 by lia; cbn in X1; lia]).
        assert (ESK : skipn 128 ds = []) by (apply skipn_all2; exact G). rewrite ESK in *. cbn [length] in E2. 
        assert (X3 : Some (@nil Z, r1) = Some (l2, r2)) by (destruct f; exact E2). injection X3 as <- <-.
        assert (EBS : bs = []) by (destruct fuel; cbn in C1; congruence). subst bs. cbn [app] in X2.
        rewrite app_nil_r, A2. split; [unfold block; apply firstn_all2; exact G|].
        split; [apply spread_split; [exact P0|apply WI, W|rewrite ESK; intros i j Hi; cbn in Hi; lia]|]. right. split; [|exact X2]. rewrite EB. lia.
Qed.

(** ** Whole sequences *)
Lemma last_block_length : forall ds, ds <> [] -> length (last_block ds) = (length ds - 1) mod 128 + 1.
Proof.
  intros ds NE. assert (1 <= length ds) by (destruct ds; [contradiction|cbn [length]; lia]). unfold last_block. rewrite skipn_length.
  pose proof (Nat.div_mod (length ds - 1) 128 ltac:(discriminate)). lia.
Qed.
Lemma mod_pred : forall n, 1 <= n -> 96 <= (n - 1) mod 128 + 1 <-> n mod 128 = 0 \/ 96 <= n mod 128.
Proof.
  intros n H. pose proof (Nat.div_mod (n - 1) 128 ltac:(discriminate)) as D1. pose proof (Nat.mod_upper_bound (n - 1) 128 ltac:(discriminate)) as U1.
  pose proof (Nat.div_mod n 128 ltac:(discriminate)) as D2. pose proof (Nat.mod_upper_bound n 128 ltac:(discriminate)) as U2.
  destruct (Nat.eq_dec ((n - 1) mod 128) 127) as [E|E].
  - assert (n mod 128 = 0); [|lia]. replace n with (((n - 1) / 128 + 1) * 128) by lia. apply Nat.mod_mul. discriminate.
  - assert (n mod 128 = (n - 1) mod 128 + 1); [|lia]. symmetry. apply (Nat.mod_unique n 128 ((n - 1) / 128)); lia.
Qed.
Lemma blocks_throw_spread : forall fuel ds, length ds <= fuel -> 1 <= length ds mod 128 < 96 -> spread (2 ^ 58) ds -> write_blocks fuel ds = Throws.
Proof.
  induction fuel as [|fuel IH]; intros ds HF HT HI.
  - destruct ds; [cbn in HT; lia|cbn [length] in HF; lia].
  - assert (NE : ds <> []) by (intros ->; cbn in HT; lia). rewrite (write_blocks_S _ _ NE). cbv zeta.
    assert (NB : firstn 128 ds <> []) by (destruct ds; [contradiction|discriminate]).
    destruct (min_delta_spec _ NB) as [MI ML].
    destruct (adjust_small (min_delta (firstn 128 ds)) (firstn 128 ds)) as [adj E].
    { apply Forall_forall. intros d Hd. rewrite Forall_forall in ML. specialize (ML d Hd). cbv beta in ML. pose proof (spread_first _ _ _ _ HI Hd MI). unfold int64. lia. }
    rewrite E. pose proof (adjust_length _ _ _ E) as LA. rewrite firstn_length in LA.
    destruct (Nat.le_gt_cases 128 (length ds)) as [G|G].
    + assert (RT : write_blocks fuel (skipn 128 ds) = Throws).
      { apply IH.
        - rewrite skipn_length. lia.
        - rewrite skipn_length. replace (length ds) with ((length ds - 128) + 1 * 128) in HT by lia. rewrite Nat.mod_add in HT by discriminate. exact HT.
        - apply spread_skip, HI. }
      pose proof (write_mini_defined adj [0; 1; 2; 3]). destruct (write_mini adj [0; 1; 2; 3]); [rewrite RT; reflexivity|reflexivity|contradiction].
    + rewrite Nat.mod_small in HT by lia. rewrite write_mini_throws by lia. reflexivity.
Qed.

Lemma delta_outcomes : forall bits values, values <> [] -> (N.of_nat (length values) < 2 ^ 64)%N ->
  Forall (fun z => wrap bits z = z) values -> Forall int64 values -> Forall int64 (differences values) -> spread (2 ^ 58) (differences values) ->
  (1 <= (length values - 1) mod 128 < 96 /\ encode_delta values = Throws /\ ~ ends_in_full_byte (differences values)) \/
  exists b, encode_delta values = Encoded b /\
    (spread (2 ^ Z.of_N bits) (differences values) -> ends_in_full_byte (differences values) -> forall rest, read_delta bits (b ++ rest) = Some (values, rest)) /\
    (forall rest l r, read_delta bits (b ++ rest) = Some (l, r) ->
       l = values /\ spread (2 ^ Z.of_N bits) (differences values) /\
       (ends_in_full_byte (differences values) /\ r = rest \/ ~ ends_in_full_byte (differences values) /\ length r < length rest)).
Proof.
  intros bits values NE HN HR H64 HD HS. destruct values as [|v r]; [contradiction|]. rewrite <- differences_length.
  assert (CS : 1 <= length (differences (v :: r)) mod 128 < 96 \/ (length (differences (v :: r)) mod 128 = 0 \/ 96 <= length (differences (v :: r)) mod 128)) by lia.
  destruct CS as [G0|HT].
  - left. split; [exact G0|]. assert (DN : differences (v :: r) <> []) by (intros E; rewrite E in G0; cbn in G0; lia). split.
    + destruct r as [|x r]; [cbn in DN; congruence|]. unfold encode_delta. rewrite delta_list_ok by exact HD. rewrite blocks_throw_spread; [reflexivity|lia|lia|exact HS].
    + intros [E|[E _]]; [contradiction|]. rewrite last_block_length in E by exact DN. apply mod_pred in E; [lia|]. destruct (differences (v :: r)); [contradiction|cbn [length]; lia].
  - right.
    destruct (blocks_exact bits (length (differences (v :: r))) (differences (v :: r)) (length (v :: r)) ltac:(lia) ltac:(rewrite differences_length; lia) HD HS HT) as (b & B1 & B2 & B3).
    set (header := write_varint64 128 ++ write_varint64 4 ++ write_varint64 (N.of_nat (length (v :: r))) ++ write_signed_varint v).
    assert (E : encode_delta (v :: r) = Encoded (header ++ b)).
    { unfold encode_delta. fold header. destruct r as [|x r].
      - cbn [differences length write_blocks] in B1. injection B1 as <-. rewrite app_nil_r. reflexivity.
      - rewrite delta_list_ok by exact HD. rewrite B1. reflexivity. }
    inversion H64 as [|? ? I1 I2]; subst. inversion HR as [|? ? R1 R2]; subst.
    assert (RD : forall rest, read_delta bits ((header ++ b) ++ rest) =
      match read_blocks (length (v :: r)) bits 128 4 (length (differences (v :: r))) (b ++ rest) with None => None | Some (ds, r5) => Some (sums bits v ds, r5) end).
    { intros rest. unfold read_delta, header. rewrite <- !app_assoc.
      rewrite varint64_read by reflexivity. rewrite varint64_read by reflexivity. rewrite varint64_read by exact HN.
      rewrite signed_varint_read by exact I1.
      change ((0 <? 128) && (128 mod 128 =? 0) && (0 <? 4) && (128 mod 4 =? 0) && (128 / 4 mod 32 =? 0))%N with true. cbv iota.
      destruct (N.eqb_spec (N.of_nat (length (v :: r))) 0) as [Z0|_]; [cbn [length] in Z0; lia|].
      rewrite Nat2N.id, differences_length, R1. reflexivity. }
    exists (header ++ b). split; [exact E|]. split.
    + intros X1 X2 rest. rewrite RD, (B2 X1 X2), sums_ok by exact R2. reflexivity.
    + intros rest l q H. rewrite RD in H. destruct (read_blocks _ _ _ _ _ _) as [[l1 r1]|] eqn:E1; [|discriminate]. injection H as <- <-.
      destruct (B3 _ _ _ E1) as (-> & Y). rewrite sums_ok by exact R2. split; [reflexivity|exact Y].
Qed.

Lemma delta_exactly : forall bits values, values <> [] -> (N.of_nat (length values) < 2 ^ 64)%N ->
  Forall (fun z => wrap bits z = z) values -> Forall int64 values -> Forall int64 (differences values) -> spread (2 ^ 58) (differences values) ->
  ((exists b, encode_delta values = Encoded b /\ read_delta bits b = Some (values, [])) <->
   spread (2 ^ Z.of_N bits) (differences values) /\ ends_in_full_byte (differences values)) /\
  (forall b l, encode_delta values = Encoded b -> read_delta bits b = Some (l, []) -> l = values).
Proof.
  intros bits values NE HN HR H64 HD HS. destruct (delta_outcomes bits values NE HN HR H64 HD HS) as [(T & E & X)|(b & E & B1 & B2)].
  - rewrite E. split; [|discriminate]. split; [intros (b & C & _); discriminate|tauto].
  - rewrite E. split; [split|].
    + intros (b' & C & D). injection C as <-. rewrite <- (app_nil_r b) in D. destruct (B2 _ _ _ D) as (_ & Y1 & [[Y2 _]|[_ Y2]]); [split; assumption|cbn in Y2; lia].
    + intros [C D]. exists b. split; [reflexivity|]. rewrite <- (app_nil_r b) at 1. apply B1; assumption.
    + intros b' l C D. injection C as <-. rewrite <- (app_nil_r b) in D. apply (B2 _ _ _ D).
Qed.

Lemma split_needs : forall lengths bs l r, split_lengths lengths bs = Some (l, r) -> Forall (fun n => 0 <= n)%Z lengths ->
  (fold_right Z.add 0 lengths + Z.of_nat (length r) = Z.of_nat (length bs))%Z.
Proof.
  induction lengths as [|n ns IH]; intros bs l r H F; [injection H as <- <-; reflexivity|]. cbn [split_lengths] in H. inversion F as [|? ? F1 F2]; subst.
  destruct (Z.ltb_spec n 0); [lia|]. destruct (take (Z.to_N n) bs) as [[s q]|] eqn:T; [|discriminate]. destruct (split_lengths ns q) as [[l1 r1]|] eqn:E; [|discriminate].
  injection H as <- <-. destruct (take_inv _ _ _ _ T) as [-> T2]. specialize (IH _ _ _ E F2). cbn [fold_right]. rewrite app_length. lia.
Qed.
Lemma sum_concat : forall l : list bytes, fold_right Z.add 0%Z (map (fun s => Z.of_nat (length s)) l) = Z.of_nat (length (concat l)).
Proof. induction l as [|s l IH]; [reflexivity|]. cbn [map fold_right concat]. rewrite IH, app_length. lia. Qed.

Lemma strings_exactly : forall values nulls,
  nulls = [] \/ length nulls = length values -> present values nulls <> [] -> (N.of_nat (length values) < 2 ^ 64)%N ->
  Forall (fun s => Z.of_nat (length s) < 2 ^ 31)%Z values ->
  ((exists b, encode_delta_length_byte_array values nulls = Encoded b /\ read_delta_length b = Some (present values nulls, [])) <->
   ends_in_full_byte (differences (map (fun s => Z.of_nat (length s)) (present values nulls)))) /\
  (forall b l r, encode_delta_length_byte_array values nulls = Encoded b -> read_delta_length b = Some (l, r) -> l = present values nulls).
Proof.
  intros values nulls H NE HN F. destruct (present_spec values nulls H) as (P & I & L). destruct (sizes values nulls H F) as [_ R].
  rewrite encode_strings by assumption. set (ls := map (fun s : bytes => Z.of_nat (length s)) (present values nulls)) in *.
  assert (LL : length ls = length (present values nulls)) by (unfold ls; apply map_length).
  pose proof (differences_range _ _ _ R) as D. rewrite Forall_forall in D.
  assert (SPR : forall k, (2 ^ 32 <= k)%Z -> spread k (differences ls)).
  { intros k Hk i j Hi Hj _. pose proof (D _ (nth_In _ 0%Z Hi)). pose proof (D _ (nth_In _ 0%Z Hj)). lia. }
  destruct (delta_outcomes 32 ls) as [(T & E & X)|(b & E & B1 & B2)]; try lia.
  - destruct ls; [destruct (present values nulls); [contradiction|discriminate LL]|discriminate].
  - eapply Forall_impl; [|exact R]. intros z Hz. cbv beta in Hz. apply wrap_32. unfold int32. lia.
  - eapply Forall_impl; [|exact R]. intros z Hz. cbv beta in Hz. unfold int64. lia.
  - apply Forall_forall. intros d Hd. specialize (D d Hd). unfold int64. lia.
  - apply SPR. lia.
  - rewrite E. split; [|discriminate]. split; [intros (b & C & _); discriminate|tauto].
  - rewrite E.
    assert (RD : ends_in_full_byte (differences ls) -> read_delta_length (b ++ concat (present values nulls)) = Some (present values nulls, [])).
    { intros Y. unfold read_delta_length. rewrite (B1 (SPR (2 ^ 32)%Z (Z.le_refl _)) Y). rewrite <- (app_nil_r (concat _)). apply split_ok. }
    assert (RV : forall l r, read_delta_length (b ++ concat (present values nulls)) = Some (l, r) -> ends_in_full_byte (differences ls) /\ l = present values nulls /\ r = []).
    { intros l r Y. assert (EF : ends_in_full_byte (differences ls)).
      { unfold read_delta_length in Y. destruct (read_delta 32 _) as [[l1 r1]|] eqn:E1; [|discriminate].
        destruct (B2 _ _ _ E1) as (-> & _ & [[Z1 _]|[_ Z2]]); [exact Z1|exfalso].
        apply split_needs in Y; [|eapply Forall_impl; [|exact R]; intros z Hz; cbv beta in Hz; lia]. unfold ls in Y. rewrite sum_concat in Y. lia. }
      rewrite (RD EF) in Y. injection Y as <- <-. split; [exact EF|]. split; reflexivity. }
    split; [split|].
    + intros (b' & C & Y). injection C as <-. apply (RV _ _ Y).
    + intros Y. eexists. split; [reflexivity|]. apply RD, Y.
    + intros b' l r C Y. injection C as <-. apply (RV _ _ Y).
Qed.
