From Verif Require Import Base WordsModel VarintSpec VarintModel VarintProof ThriftSpec ThriftProof BuffersSpec BuffersModel RleSpec RleModel RleProof RleProof2 RleProof3 HybridSpec HybridProof.

Lemma firstn_repeat (v : N) : forall m n, firstn n (repeat v m) = repeat v (Nat.min n m).
Proof. induction m as [|m IH]; intros [|n]; try reflexivity. cbn [repeat firstn Nat.min]. rewrite IH. reflexivity. Qed.

(** A run of which the reader wants only a part. *)
Lemma read_rle_run_part bw v c f n r :
  (0 < c)%N -> (c < 2 ^ 31)%N -> n <> 0 -> (v < 2 ^ N.of_nat bw)%N ->
  let a := Nat.min (N.to_nat c) n in
  read_runs (S f) (N.of_nat bw) n (rle_run bw v c ++ r) =
  match read_runs f (N.of_nat bw) (n - a) r with
  | None => None | Some (l, r') => Some (repeat v a ++ l, r')
  end.
Proof.
  intros H0 H31 Hn Hv a. unfold rle_run. rewrite rle_run_bytes, <- app_assoc, read_runs_S by lia.
  rewrite shl1_val by assumption. rewrite varint32_read by lia. cbv zeta.
  assert (Ev : N.even (2 * c) = true) by (rewrite N.even_mul; reflexivity). rewrite Ev.
  rewrite N.mul_comm, N.div_mul by discriminate. rewrite byte_width_nat.
  rewrite take_exact by (rewrite le_bytes_length; reflexivity).
  replace (N.to_nat (N.min c (N.of_nat n))) with a by (unfold a; lia). rewrite le_value_bytes; [reflexivity|].
  eapply N.lt_le_trans; [exact Hv|apply byte_width_enough].
Qed.

Definition fair (p : piece) : Prop :=
  match p with Run v c => 0 < c <= 64 | Lit l => l <> [] /\ length l <= 64 end.

Lemma pieces_fair : forall l, Forall fair (pieces l).
Proof.
  intros l. remember (length l) as n eqn:En. assert (Hn : length l <= n) by lia. clear En. revert l Hn. induction n as [|n IH]; intros l Hn.
  - destruct l; [constructor|cbn [length] in Hn; lia].
  - destruct l as [|v l]; [constructor|]. destruct (starts_eight (v :: l)) eqn:E.
    + rewrite pieces_run by exact E. pose proof (lead_pos v l). constructor.
      * cbn [fair]. lia.
      * apply IH. rewrite skipn_length. cbn [length] in *. lia.
    + rewrite pieces_lit by (exact E || discriminate). pose proof (literals_pos (v :: l) ltac:(discriminate) E). constructor.
      * cbn [fair]. assert (HL : forall m r, literals r m <= r).
        { induction m as [|x m IHm]; intros [|r]; cbn [literals]; try lia. destruct (starts_eight (x :: m) && (8 <=? S r)); [lia|]. specialize (IHm r). lia. }
        split.
        -- destruct (literals 64 (v :: l)); [lia|]. discriminate.
        -- rewrite firstn_length. specialize (HL (v :: l) 64). lia.
      * apply IH. rewrite skipn_length. cbn [length] in *. lia.
Qed.

Lemma padding_eq n : (n + 7) / 8 * 8 - n = (8 - n mod 8) mod 8.
Proof.
  pose proof (Nat.div_mod n 8 ltac:(discriminate)) as E. pose proof (Nat.mod_upper_bound n 8 ltac:(discriminate)) as B.
  destruct (Nat.eq_dec (n mod 8) 0) as [Z|Z].
  - rewrite Z, Nat.sub_0_r. change (8 mod 8) with 0.
    replace ((n + 7) / 8) with (n / 8); [lia|]. apply (Nat.div_unique _ 8 _ 7); lia.
  - rewrite (Nat.mod_small (8 - n mod 8)) by lia. replace ((n + 7) / 8) with (n / 8 + 1); [lia|].
    apply (Nat.div_unique _ 8 _ (n mod 8 - 1)); lia.
Qed.
Lemma padded_shown l : padded l = shown (Lit l).
Proof. unfold padded, shown. rewrite padding_eq. reflexivity. Qed.

Lemma shown_length p : length (content p) <= length (shown p).
Proof. destruct p; cbn [content shown]; [lia|]. rewrite app_length. lia. Qed.
Lemma all_shown_length : forall ps, length (concat (map content ps)) <= length (concat (map shown ps)).
Proof.
  induction ps as [|p ps IH]; [cbn; lia|]. cbn [map concat]. rewrite !app_length. pose proof (shown_length p). lia.
Qed.

Lemma read_pieces bw : bw <= 57 -> forall ps f n rest, Forall fair ps ->
  Forall (fun v => (v < 2 ^ N.of_nat bw)%N) (concat (map content ps)) ->
  n <= length (concat (map shown ps)) -> length ps <= f ->
  exists r', read_runs f (N.of_nat bw) n (emit_all bw ps ++ rest) = Some (firstn n (concat (map shown ps)), r') /\
    (length (concat (map content ps)) = length (concat (map shown ps)) -> n = length (concat (map content ps)) -> r' = rest).
Proof.
  intros Hbw. induction ps as [|p ps IH]; intros f n rest HG HF Hn Hf.
  - cbn [map concat length] in Hn. assert (n = 0) by lia. subst n. exists rest. rewrite read_runs_0. split; [reflexivity|auto].
  - destruct n as [|n0] eqn:En.
    { eexists. rewrite read_runs_0. split; [reflexivity|]. intros _ H. exfalso. cbn [map concat] in H. rewrite app_length in H.
      inversion HG as [|? ? G1 G2]; subst. destruct p as [v c|l]; cbn [fair content] in *.
      - rewrite repeat_length in H. lia.
      - destruct l; [tauto|cbn [length] in H; lia]. }
    rewrite <- En in *. assert (Hn0 : n <> 0) by lia. clear En n0.
    inversion HG as [|? ? G1 G2]; subst. cbn [map concat] in HF. apply Forall_app in HF. destruct HF as [F1 F2].
    cbn [length] in Hf. destruct f as [|f]; [lia|]. cbn [map concat] in Hn. rewrite app_length in Hn.
    unfold emit_all. cbn [map concat]. rewrite <- app_assoc. fold (emit_all bw ps).
    set (a := Nat.min (length (shown p)) n).
    assert (R : read_runs (S f) (N.of_nat bw) n (emit bw p ++ emit_all bw ps ++ rest) =
                match read_runs f (N.of_nat bw) (n - a) (emit_all bw ps ++ rest) with
                | None => None | Some (l, r') => Some (firstn a (shown p) ++ l, r') end).
    { destruct p as [v c|l]; cbn [emit fair content shown] in *.
      - rewrite read_rle_run_part; [|lia|lia|exact Hn0|destruct c; [lia|cbn [repeat] in F1; inversion F1; assumption]].
        unfold a. rewrite Nat2N.id, repeat_length. rewrite firstn_repeat. replace (Nat.min (Nat.min c n) c) with (Nat.min c n) by lia. reflexivity.
      - destruct G1 as [Gl1 Gl2]. rewrite read_bit_packed_run; [|exact Hbw|exact Gl1|lia|exact Hn0|exact F1].
        rewrite padded_shown. reflexivity. }
    rewrite R. destruct (IH f (n - a) rest G2 F2 ltac:(unfold a; lia) ltac:(lia)) as (r' & E & Er). rewrite E. exists r'. split.
    + do 2 f_equal. cbn [map concat]. rewrite firstn_app. f_equal.
      * unfold a. rewrite Nat.min_comm. destruct (le_lt_dec n (length (shown p))) as [L|L].
        -- rewrite Nat.min_l by lia. reflexivity.
        -- rewrite Nat.min_r by lia. rewrite !firstn_all2 by lia. reflexivity.
      * f_equal. unfold a. lia.
    + intros H1 H2. pose proof (shown_length p). pose proof (all_shown_length ps). cbn [map concat] in H1, H2. rewrite app_length in H1. rewrite app_length in H1. rewrite app_length in H2.
      apply Er; [lia|]. unfold a. lia.
Qed.

Lemma emit_pos bw p : fair p -> 1 <= length (emit bw p).
Proof.
  destruct p as [v c|l]; cbn [emit]; intros _; [apply rle_run_len|]. unfold bit_packed_run. cbv zeta. rewrite app_length.
  pose proof (write_varint32_len (N.lor (shl1_u32 (N.of_nat ((length l + 7) / 8))) 1)). lia.
Qed.
Lemma emit_all_len bw : forall ps, Forall fair ps -> length ps <= length (emit_all bw ps).
Proof.
  induction ps as [|p ps IH]; intros H; [cbn; lia|]. inversion H; subst. unfold emit_all in *. cbn [map concat length]. rewrite app_length.
  pose proof (emit_pos bw p H2). specialize (IH H3). lia.
Qed.

(** What a reader of [length vs] values sees. *)
Theorem hybrid_read bw vs rest : bw <= 57 -> Forall (fun v => (v < 2 ^ N.of_nat bw)%N) vs ->
  exists r', decode_hybrid (N.of_nat bw) (length vs) (encode_hybrid_rle bw vs ++ rest)
             = Some (firstn (length vs) (concat (map shown (pieces vs))), r') /\
    (length vs = length (concat (map shown (pieces vs))) -> r' = rest).
Proof.
  intros Hbw HF. rewrite encoder_pieces. unfold decode_hybrid.
  pose proof (pieces_content vs) as PC. pose proof (all_shown_length (pieces vs)) as PL. rewrite PC in PL.
  destruct (read_pieces bw Hbw (pieces vs) (length (emit_all bw (pieces vs) ++ rest)) (length vs) rest (pieces_fair vs)) as (r' & E & Er).
  - rewrite PC. exact HF.
  - exact PL.
  - rewrite app_length. pose proof (emit_all_len bw _ (pieces_fair vs)). lia.
  - exists r'. split; [exact E|]. intros H. apply Er; rewrite PC; [exact H|reflexivity].
Qed.

(** ** When that is the sequence itself *)
Definition zeros (l : list N) : Prop := Forall (fun v => v = 0%N) l.

(** Inserting zeros moves the first other value to the right. *)
Lemma first_nonzero : forall ps j, (forall i, i < j -> nth i (concat (map content ps)) 0%N = 0%N) ->
  forall i, i < j -> nth i (concat (map shown ps)) 0%N = 0%N.
Proof.
  induction ps as [|p ps IH]; intros j H i Hi; [destruct i; reflexivity|]. cbn [map concat] in *.
  destruct (le_lt_dec (length (content p)) i) as [L|L].
  - (* behind the content of p *)
    assert (Hs : forall k, k < length (shown p) -> length (content p) <= k -> nth k (shown p) 0%N = 0%N).
    { intros k K1 K2. destruct p as [v c|l]; cbn [content shown] in *; [rewrite repeat_length in *; lia|].
      rewrite app_nth2 by lia. apply nth_repeat. }
    destruct (le_lt_dec (length (shown p)) i) as [L2|L2].
    + rewrite app_nth2 by lia. apply (IH (j - length (content p))).
      * intros k Hk. specialize (H (k + length (content p)) ltac:(lia)). rewrite app_nth2 in H by lia.
        replace (k + length (content p) - length (content p)) with k in H by lia. exact H.
      * pose proof (shown_length p). lia.
    + rewrite app_nth1 by lia. apply Hs; lia.
  - rewrite app_nth1 by (pose proof (shown_length p); lia). specialize (H i Hi). rewrite app_nth1 in H by lia.
    destruct p as [v c|l]; cbn [content shown] in *; [exact H|]. rewrite app_nth1 by lia. exact H.
Qed.

Lemma nth_zeros (l : list N) : (forall i, nth i l 0%N = 0%N) -> zeros l.
Proof.
  induction l as [|x l IH]; intros H; constructor; [exact (H 0)|]. apply IH. intros i. exact (H (S i)).
Qed.
Lemma zeros_nth l i : zeros l -> nth i l 0%N = 0%N.
Proof. revert i. induction l as [|x l IH]; intros [|i] H; try reflexivity; inversion H; subst; cbn [nth]; auto. Qed.

Lemma shifted_zeros k ps : 0 < k ->
  firstn (length (concat (map content ps))) (repeat 0%N k ++ concat (map shown ps)) = concat (map content ps) ->
  zeros (concat (map content ps)).
Proof.
  intros Hk E. apply nth_zeros. intros i.
  assert (H : forall j i, i < j -> nth i (concat (map content ps)) 0%N = 0%N).
  { induction j as [|j IHj]; intros i' Hi; [lia|]. destruct (Nat.eq_dec i' j) as [->|]; [|apply IHj; lia].
    destruct (le_lt_dec (length (concat (map content ps))) j) as [L|L]; [apply nth_overflow, L|].
    rewrite <- E. assert (En : forall (l : list N) m q, q < m -> nth q (firstn m l) 0%N = nth q l 0%N).
    { clear. induction l as [|x l IH]; intros [|m] q Hq; try lia; destruct q; try reflexivity. cbn [firstn nth]. apply IH. lia. }
    rewrite En by exact L. destruct (le_lt_dec k j) as [K|K].
    - rewrite app_nth2 by (rewrite repeat_length; lia). rewrite repeat_length. apply (first_nonzero ps j IHj). lia.
    - rewrite app_nth1 by (rewrite repeat_length; lia). apply nth_repeat. }
  apply (H (S i)). lia.
Qed.

Lemma firstn_zeros l m : zeros l -> zeros m -> length l <= length m -> firstn (length l) m = l.
Proof.
  intros Hl Hm. revert m Hm. induction Hl as [|x l Hx Hl IH]; intros m Hm L; [reflexivity|]. destruct m as [|y m]; [cbn [length] in L; lia|].
  inversion Hm; subst. cbn [length firstn]. f_equal. apply IH; [assumption|cbn [length] in L; lia].
Qed.
Lemma zeros_shown : forall ps, zeros (concat (map content ps)) -> zeros (concat (map shown ps)).
Proof.
  intros ps H. apply nth_zeros. intros i. apply (first_nonzero ps (S i)); [|lia]. intros k _. apply zeros_nth, H.
Qed.

Lemma harmless_cons p ps : (match p with Run _ _ => True | Lit l => ps = [] \/ length l mod 8 = 0 \/ zeros (concat (map content ps)) end) ->
  (harmless (p :: ps) <-> harmless ps).
Proof.
  intros Hp. split; intros H a l b E Hb Hm.
  - apply (H (p :: a) l b); [rewrite E; reflexivity|exact Hb|exact Hm].
  - destruct a as [|q a].
    + cbn [app] in E. injection E as E1 E2. subst p ps. destruct Hp as [Hp|[Hp|Hp]]; [congruence|congruence|exact Hp].
    + cbn [app] in E. injection E as E1 E2. exact (H a l b E2 Hb Hm).
Qed.

Lemma round_trip_iff : forall ps, firstn (length (concat (map content ps))) (concat (map shown ps)) = concat (map content ps) <-> harmless ps.
Proof.
  induction ps as [|p ps IH].
  - cbn. split; [intros _ a l b E; destruct a; discriminate E|reflexivity].
  - assert (Strip : shown p = content p -> (firstn (length (concat (map content (p :: ps)))) (concat (map shown (p :: ps))) = concat (map content (p :: ps)) <-> 
                      firstn (length (concat (map content ps))) (concat (map shown ps)) = concat (map content ps))).
    { intros E. cbn [map concat]. rewrite E, app_length, firstn_app, firstn_all2 by lia.
      replace (length (content p) + length (concat (map content ps)) - length (content p)) with (length (concat (map content ps))) by lia.
      split; [intros H; apply app_inv_head in H; exact H|intros ->; reflexivity]. }
    destruct p as [v c|l].
    + rewrite Strip by reflexivity. rewrite harmless_cons by exact I. exact IH.
    + destruct (Nat.eq_dec (length l mod 8) 0) as [Z|Z].
      * rewrite Strip by (cbn [shown content]; rewrite Z; apply app_nil_r). rewrite harmless_cons by (right; left; exact Z). exact IH.
      * cbn [map concat shown content]. rewrite <- !app_assoc. rewrite app_length, firstn_app, firstn_all2 by lia.
        replace (length l + length (concat (map content ps)) - length l) with (length (concat (map content ps))) by lia.
        assert (K : 0 < (8 - length l mod 8) mod 8).
        { pose proof (Nat.mod_upper_bound (length l) 8 ltac:(discriminate)). rewrite Nat.mod_small by lia. lia. }
        split.
        -- intros H. apply app_inv_head in H. apply (shifted_zeros _ ps K) in H as HZ.
           apply harmless_cons; [right; right; exact HZ|]. intros a l' b E Hb Hm.
           rewrite E in HZ. rewrite map_app, concat_app in HZ. apply Forall_app in HZ. destruct HZ as [_ HZ].
           cbn [map concat] in HZ. apply Forall_app in HZ. exact (proj2 HZ).
        -- intros H. f_equal. destruct ps as [|q ps]; [reflexivity|].
           pose proof (H [] l (q :: ps) eq_refl ltac:(discriminate) Z) as HZ. change (zeros (concat (map content (q :: ps)))) in HZ.
           apply firstn_zeros; [exact HZ| |].
           ++ apply Forall_app. split; [apply Forall_forall; intros x Hx; exact (repeat_spec _ _ _ Hx)|apply zeros_shown, HZ].
           ++ rewrite app_length. pose proof (all_shown_length (q :: ps)). lia.
Qed.

Theorem hybrid_round_trip_iff bw vs rest : bw <= 57 -> Forall (fun v => (v < 2 ^ N.of_nat bw)%N) vs ->
  ((exists r', decode_hybrid (N.of_nat bw) (length vs) (encode_hybrid_rle bw vs ++ rest) = Some (vs, r')) <-> harmless (pieces vs)).
Proof.
  intros Hbw HF. destruct (hybrid_read bw vs rest Hbw HF) as (r' & E & _). rewrite E.
  pose proof (round_trip_iff (pieces vs)) as R. rewrite pieces_content in R. rewrite <- R. split.
  - intros (r2 & E2). congruence.
  - intros E2. exists r'. rewrite E2. reflexivity.
Qed.

(** Aligned: nothing is inserted except after the last value. *)
Lemma aligned_shown : forall ps, aligned ps -> exists k, concat (map shown ps) = concat (map content ps) ++ repeat 0%N k.
Proof.
  induction ps as [|p ps IH]; intros H; [exists 0; reflexivity|].
  destruct ps as [|q ps].
  - cbn [map concat]. rewrite !app_nil_r. destruct p as [v c|l]; cbn [shown content]; [exists 0; rewrite app_nil_r; reflexivity|eauto].
  - destruct IH as [k E]. { intros a l b E Hb. apply (H (p :: a) l b); [rewrite E; reflexivity|exact Hb]. }
    exists k. cbn [map concat] in *. rewrite E. rewrite app_assoc. f_equal. f_equal.
    destruct p as [v c|l]; cbn [shown content]; [reflexivity|]. rewrite (H [] l (q :: ps) eq_refl) by discriminate. apply app_nil_r.
Qed.
(* with the last literals cut short *)
Lemma read_aligned bw : bw <= 57 -> forall ps f rest, Forall fair ps -> aligned ps ->
  Forall (fun v => (v < 2 ^ N.of_nat bw)%N) (concat (map content ps)) -> length ps <= f ->
  read_runs f (N.of_nat bw) (length (concat (map content ps))) (emit_all bw ps ++ rest) = Some (concat (map content ps), rest).
Proof.
  intros Hbw. induction ps as [|p ps IH]; intros f rest HG HA HF Hf; [apply read_runs_0|].
  inversion HG as [|? ? G1 G2]; subst. cbn [map concat] in HF |- *. apply Forall_app in HF. destruct HF as [F1 F2].
  cbn [length] in Hf. destruct f as [|f]; [lia|].
  assert (HA2 : aligned ps) by (intros a l b E Hb; apply (HA (p :: a) l b); [rewrite E; reflexivity|exact Hb]).
  unfold emit_all. cbn [map concat]. rewrite <- app_assoc. fold (emit_all bw ps). rewrite app_length.
  destruct p as [v c|l]; cbn [emit fair content] in *.
  - rewrite repeat_length. rewrite read_rle_run; [|lia|lia|lia|destruct c; [lia|cbn [repeat] in F1; inversion F1; assumption]].
    rewrite Nat2N.id. replace (c + length (concat (map content ps)) - c) with (length (concat (map content ps))) by lia.
    rewrite IH by (assumption || lia). reflexivity.
  - destruct G1 as [Gl1 Gl2]. assert (0 < length l) by (destruct l; [congruence|cbn [length]; lia]).
    rewrite read_bit_packed_run; [|exact Hbw|exact Gl1|lia|lia|exact F1].
    assert (HP : length l <= length (padded l)) by (unfold padded; rewrite app_length; lia).
    destruct ps as [|q ps].
    + cbn [map concat length]. rewrite Nat.add_0_r, Nat.min_r by exact HP. rewrite Nat.sub_diag, read_runs_0, firstn_padded, firstn_all by lia.
      reflexivity.
    + assert (Z : length l mod 8 = 0) by (apply (HA [] l (q :: ps) eq_refl); discriminate).
      assert (E : padded l = l) by (rewrite padded_shown; cbn [shown]; rewrite Z; apply app_nil_r).
      rewrite E. rewrite Nat.min_l by lia. rewrite firstn_all.
      replace (length l + length (concat (map content (q :: ps))) - length l) with (length (concat (map content (q :: ps)))) by lia.
      rewrite IH by (assumption || lia). reflexivity.
Qed.
Theorem hybrid_aligned bw vs rest : bw <= 57 -> Forall (fun v => (v < 2 ^ N.of_nat bw)%N) vs -> aligned (pieces vs) ->
  decode_hybrid (N.of_nat bw) (length vs) (encode_hybrid_rle bw vs ++ rest) = Some (vs, rest).
Proof.
  intros Hbw HF HA. rewrite encoder_pieces. unfold decode_hybrid. pose proof (pieces_content vs) as PC.
  rewrite <- PC at 2. rewrite (read_aligned bw Hbw (pieces vs)); [rewrite PC; reflexivity|apply pieces_fair|exact HA|rewrite PC; exact HF|].
  rewrite app_length. pose proof (emit_all_len bw _ (pieces_fair vs)). lia.
Qed.

(** The levels of the plain-vector writers. *)
Theorem levels_aligned nulls max rest bs :
  nulls <> [] -> (N.of_nat (length nulls) < 2 ^ 31)%N -> (1 <= max < 256)%N ->
  count_nulls nulls = 0 \/ aligned (pieces (levels max (map negb nulls))) ->
  encode_def_levels_hybrid nulls max (count_nulls nulls) = bs -> (N.of_nat (length bs) < 2 ^ 32)%N ->
  decode_levels max (length nulls) (bs ++ rest) = Some (levels max (map negb nulls), rest).
Proof.
  intros Hne Hl Hmax [C|C] E Hbs; [apply (legacy_round_trip nulls max rest bs); tauto|].
  destruct (Nat.eq_dec (count_nulls nulls) 0) as [Z|Z]; [apply (legacy_round_trip nulls max rest bs); tauto|].
  subst bs. unfold encode_def_levels_hybrid in *. destruct nulls as [|n0 nr] eqn:E; [contradiction|]. rewrite <- E in *. clear E n0 nr.
  cbv zeta in *. rewrite legacy_levels in *. destruct (Nat.eqb_spec (count_nulls nulls) 0); [contradiction|].
  assert (HW : N.of_nat (N.to_nat (bits_required max)) = level_width max).
  { rewrite N2Nat.id. apply bits_required_spec. eapply N.lt_trans; [apply Hmax|reflexivity]. }
  assert (HW8 : (level_width max <= 8)%N) by (apply level_width_le; apply Hmax).
  set (bw := N.to_nat (bits_required max)) in *.
  assert (Hv : (max < 2 ^ N.of_nat bw)%N) by (rewrite HW; apply level_width_fits).
  assert (Hlv : length (levels max (map negb nulls)) = length nulls) by (unfold levels; rewrite !map_length; reflexivity).
  set (data := encode_hybrid_rle bw _) in *.
  assert (Hd : (N.of_nat (length data) < 2 ^ 32)%N) by (rewrite app_length in Hbs; lia).
  rewrite N.mod_small in * by exact Hd. apply decode_levels_prefix; [exact Hd|]. rewrite <- HW. unfold data.
  rewrite <- Hlv. rewrite <- (app_nil_r (encode_hybrid_rle bw _)). apply hybrid_aligned; [lia|apply levels_fit; exact Hv|exact C].
Qed.

Theorem levels_iff nulls max data :
  nulls <> [] -> count_nulls nulls <> 0 -> (1 <= max < 256)%N ->
  encode_def_levels_hybrid nulls max (count_nulls nulls) = u32_bytes (N.of_nat (length data)) ++ data ->
  (N.of_nat (4 + length data) < 2 ^ 32)%N ->
  ((exists r', decode_hybrid (level_width max) (length nulls) data = Some (levels max (map negb nulls), r')) <->
   harmless (pieces (levels max (map negb nulls)))).
Proof.
  intros Hne Z Hmax E Hbs. unfold encode_def_levels_hybrid in E. destruct nulls as [|n0 nr] eqn:En; [contradiction|]. rewrite <- En in *. clear En n0 nr.
  cbv zeta in E. rewrite legacy_levels in E. destruct (Nat.eqb_spec (count_nulls nulls) 0); [contradiction|].
  assert (HW : N.of_nat (N.to_nat (bits_required max)) = level_width max).
  { rewrite N2Nat.id. apply bits_required_spec. eapply N.lt_trans; [apply Hmax|reflexivity]. }
  assert (HW8 : (level_width max <= 8)%N) by (apply level_width_le; apply Hmax).
  set (bw := N.to_nat (bits_required max)) in *.
  assert (Hv : (max < 2 ^ N.of_nat bw)%N) by (rewrite HW; apply level_width_fits).
  assert (Hlv : length (levels max (map negb nulls)) = length nulls) by (unfold levels; rewrite !map_length; reflexivity).
  assert (Ed : data = encode_hybrid_rle bw (levels max (map negb nulls))).
  { rewrite !u32_bytes_le in E. symmetry. apply (f_equal (skipn 4)) in E.
    rewrite !skipn_app, !le_bytes_length, Nat.sub_diag in E. rewrite !skipn_all2 in E by (rewrite le_bytes_length; lia). exact E. }
  rewrite Ed. rewrite <- HW, <- Hlv. pose proof (hybrid_round_trip_iff bw (levels max (map negb nulls)) [] ltac:(lia) ltac:(apply levels_fit; exact Hv)) as R.
  rewrite app_nil_r in R. exact R.
Qed.
