(** HybridRleEncoder. *)
From Verif Require Import Base WordsModel VarintSpec VarintModel VarintProof ThriftSpec ThriftProof BuffersSpec BuffersModel RleSpec RleModel RleProof RleProof2.

Inductive seg := SR (v : N) (c : nat) | SP (l : list N).
Definition content (s : seg) : list N := match s with SR v c => repeat v c | SP l => l end.
Section Segs.
Variable bw : nat.
Definition emit_seg (s : seg) : bytes := match s with SR v c => rle_run bw v (N.of_nat c) | SP l => bit_packed_run bw l end.
Definition good (s : seg) : Prop :=
  match s with
  | SR v c => 0 < c /\ (N.of_nat c < 2 ^ 31)%N
  | SP l => l <> [] /\ length l <= 64
  end.
Definition whole (s : seg) : Prop := match s with SR _ _ => True | SP l => length (padded l) = length l end.

Definition last_bytes (last : list N) : bytes := match last with [] => [] | _ => bit_packed_run bw last end.

Lemma padded_whole : forall l, length (padded l) = length l -> padded l = l.
Proof.
  intros l H. unfold padded in *. rewrite app_length in H. destruct (repeat 0%N _); [apply app_nil_r|]. cbn [length] in H. lia.
Qed.

Lemma read_segs : forall segs last f rest,
  bw <= 57 -> Forall good segs -> Forall whole segs -> length last <= 64 ->
  Forall (fun v => (v < 2 ^ N.of_nat bw)%N) (concat (map content segs) ++ last) ->
  length segs + length (last_bytes last) <= f ->
  read_runs f (N.of_nat bw) (length (concat (map content segs) ++ last))
    (concat (map emit_seg segs) ++ last_bytes last ++ rest)
  = Some (concat (map content segs) ++ last, rest).
Proof.
  induction segs as [|s segs IH]; intros last f rest Hbw HG HW Hlast HF Hf.
  - cbn [map concat app] in *. destruct last as [|v r] eqn:E; [apply read_runs_0|]. rewrite <- E in *.
    assert (EB : last_bytes last = bit_packed_run bw last) by (rewrite E; reflexivity). rewrite EB in *.
    pose proof (bit_packed_run_len bw last Hbw HF) as BL. cbn [length] in Hf. destruct f as [|f]; [lia|].
    assert (Hne : last <> []) by (rewrite E; discriminate). assert (Hl : 0 < length last) by (rewrite E; cbn; lia).
    rewrite read_bit_packed_run; [|assumption|assumption|lia|lia|assumption].
    assert (HP : length last <= length (padded last)) by (unfold padded; rewrite app_length; lia).
    rewrite Nat.min_r by assumption. rewrite Nat.sub_diag, read_runs_0, firstn_padded, firstn_all, app_nil_r by lia. reflexivity.
  - inversion HG as [|? ? G1 G2]; subst. inversion HW as [|? ? W1 W2]; subst. cbn [map concat] in *. rewrite <- !app_assoc in *.
    apply Forall_app in HF. destruct HF as [F1 F2]. cbn [length] in Hf. destruct f as [|f]; [lia|].
    rewrite app_length. destruct s as [v c|l]; cbn [emit_seg content good whole] in *.
    + rewrite repeat_length. destruct G1 as [G0 G1].
      rewrite read_rle_run; [|lia|assumption|lia|].
      2:{ destruct c; [lia|]. cbn [repeat] in F1. inversion F1; assumption. }
      rewrite Nat2N.id. replace (c + length (concat (map content segs) ++ last) - c) with (length (concat (map content segs) ++ last)) by lia.
      rewrite IH; [reflexivity|assumption..|lia].
    + destruct G1 as [G0 G1]. assert (0 < length l) by (destruct l; [contradiction|cbn; lia]).
      rewrite read_bit_packed_run; [|assumption|assumption|lia|lia|assumption].
      rewrite W1, (padded_whole l W1). rewrite Nat.min_l by lia. rewrite firstn_all.
      replace (length l + length (concat (map content segs) ++ last) - length l) with (length (concat (map content segs) ++ last)) by lia.
      rewrite IH; [reflexivity|assumption..|lia].
Qed.

Lemma emit_seg_len : forall s, 1 <= length (emit_seg s).
Proof.
  intros [v c|l]; cbn [emit_seg]; [apply rle_run_len|]. unfold bit_packed_run. cbv zeta. rewrite app_length.
  pose proof (write_varint32_len (N.lor (shl1_u32 (N.of_nat ((length l + 7) / 8))) 1)). lia.
Qed.
Lemma emit_segs_len : forall segs, length segs <= length (concat (map emit_seg segs)).
Proof. induction segs as [|s l IH]; [auto|]. cbn [map concat length]. rewrite app_length. pose proof (emit_seg_len s). lia. Qed.

Lemma decode_segs : forall segs last rest vs bs,
  bw <= 57 -> Forall good segs -> Forall whole segs -> length last <= 64 ->
  Forall (fun v => (v < 2 ^ N.of_nat bw)%N) vs ->
  vs = concat (map content segs) ++ last ->
  bs = concat (map emit_seg segs) ++ last_bytes last ->
  decode_hybrid (N.of_nat bw) (length vs) (bs ++ rest) = Some (vs, rest).
Proof.
  intros segs last rest vs bs Hbw HG HW Hlast HF -> ->. unfold decode_hybrid. rewrite <- !app_assoc.
  pose proof (emit_segs_len segs) as EL. apply read_segs; try assumption. rewrite !app_length. lia.
Qed.
End Segs.

(** ** Without eight equal values in a row *)
Lemma firstn_len : forall {A} (l : list A) n, n = length l -> firstn n l = l.
Proof. intros. subst. apply firstn_all. Qed.

Definition short_inv (bw : nat) (P : list N) (h : hybrid) : Prop :=
  exists segs, Forall (fun l => length l = 64) segs /\
    P = concat segs ++ h_buf h /\ h_out h = concat (map (bit_packed_run bw) segs) /\
    length (h_buf h) < 64 /\
    (h_buf h <> [] -> exists x, h_buf h = x ++ repeat (h_cur h) (h_rep h) /\ 1 <= h_rep h < 8).

Lemma flush_short : forall bw P out buf cur rep segs,
  Forall (fun l => length l = 64) segs -> P = concat segs ++ buf -> out = concat (map (bit_packed_run bw) segs) ->
  length buf <= 64 -> (exists x, buf = x ++ repeat cur rep /\ 1 <= rep < 8) ->
  short_inv bw P (let h1 := Hybrid out buf cur rep in if 64 <=? length (h_buf h1) then flush_buffered bw h1 else h1).
Proof.
  intros bw P out buf cur rep segs HS HP HO HL HX. cbv zeta. cbn [h_buf]. destruct (Nat.leb_spec 64 (length buf)) as [H|H].
  - destruct buf as [|b0 br] eqn:E; [cbn [length] in H; lia|]. rewrite <- E in *. destruct HX as (x & HX & HR).
    unfold flush_buffered. cbn [h_buf h_rep]. rewrite E at 1. destruct (Nat.leb_spec 8 rep); [lia|]. cbn [andb].
    unfold flush_bit_packed. cbn [h_buf h_out h_cur h_rep]. destruct (Nat.eqb_spec (length buf) 0); [lia|]. cbn [h_out h_cur h_rep h_buf].
    exists (segs ++ [buf]). cbn [h_out h_cur h_rep h_buf]. repeat split.
    + apply Forall_app. split; [assumption|]. constructor; [lia|constructor].
    + rewrite concat_app. cbn [concat]. rewrite !app_nil_r. exact HP.
    + rewrite map_app, concat_app. cbn [map concat]. rewrite app_nil_r, firstn_all, HO. reflexivity.
    + cbn [length]. lia.
    + intros C. exfalso. apply C. reflexivity.
  - exists segs. cbn [h_out h_cur h_rep h_buf]. repeat split; try assumption. intros _. exact HX.
Qed.

Lemma put_short : forall bw P h v, short_inv bw P h -> no_eight_equal (P ++ [v]) -> short_inv bw (P ++ [v]) (hybrid_put bw h v).
Proof.
  intros bw P [out buf cur rep] v (segs & S1 & S2 & S3 & S4 & S5) HN. cbn [h_out h_cur h_rep h_buf] in *.
  unfold hybrid_put. cbn [h_out h_cur h_rep h_buf].
  destruct buf as [|b0 br] eqn:E.
  - exists segs. cbn [h_out h_cur h_rep h_buf]. repeat split; try assumption.
    + rewrite S2, app_nil_r. reflexivity.
    + cbn; lia.
    + intros _. exists []. split; [reflexivity|lia].
  - rewrite <- E in *. destruct S5 as (x & HX & HR); [rewrite E; discriminate|].
    destruct (N.eqb_spec v cur) as [->|Hne].
    + assert (HR' : S rep < 8).
      { destruct (Nat.le_gt_cases 8 (S rep)) as [G|G]; [|assumption]. exfalso. assert (rep = 7) by lia. subst rep.
        apply (HN (concat segs ++ x) cur []). rewrite S2, HX. rewrite app_nil_r, <- !app_assoc. do 2 f_equal. }
      destruct (Nat.leb_spec 8 (S rep)); [lia|].
      apply (flush_short bw (P ++ [cur]) out (buf ++ [cur]) cur (S rep) segs); try assumption.
      * rewrite S2, app_assoc. reflexivity.
      * rewrite app_length. cbn [length]. lia.
      * exists x. split; [|lia]. rewrite HX, <- app_assoc. f_equal. symmetry. apply (repeat_cons rep cur).
    + destruct (Nat.leb_spec 8 rep); [lia|]. cbn [h_out h_cur h_rep h_buf].
      apply (flush_short bw (P ++ [v]) out (buf ++ [v]) v 1 segs); try assumption.
      * rewrite S2, app_assoc. reflexivity.
      * rewrite app_length. cbn [length]. lia.
      * exists buf. split; [reflexivity|lia].
Qed.

Lemma no_eight_prefix : forall a b, no_eight_equal (a ++ b) -> no_eight_equal a.
Proof. intros a b H x v y E. apply (H x v (y ++ b)). rewrite E, <- !app_assoc. reflexivity. Qed.

Lemma fold_short : forall bw vs P h, short_inv bw P h -> no_eight_equal (P ++ vs) -> short_inv bw (P ++ vs) (fold_left (hybrid_put bw) vs h).
Proof.
  induction vs as [|v r IH]; intros P h HI HN; cbn [fold_left].
  - rewrite app_nil_r in *. assumption.
  - replace (P ++ v :: r) with ((P ++ [v]) ++ r) in * by (rewrite <- app_assoc; reflexivity).
    apply IH; [|assumption]. apply put_short; [assumption|]. eapply no_eight_prefix, HN.
Qed.

Lemma seg64_good : forall segs, Forall (fun l : list N => length l = 64) segs -> Forall good (map SP segs) /\ Forall whole (map SP segs).
Proof.
  intros segs H. split; apply Forall_map; (eapply Forall_impl; [|exact H]); cbn beta; intros l E; cbn [good whole].
  - split; [intros ->; discriminate|lia].
  - rewrite padded_length, E. reflexivity.
Qed.

Lemma hybrid_short_round_trip : forall bw vs rest, bw <= 32 ->
  Forall (fun v => (v < 2 ^ N.of_nat bw)%N) vs -> no_eight_equal vs ->
  decode_hybrid (N.of_nat bw) (length vs) (encode_hybrid_rle bw vs ++ rest) = Some (vs, rest).
Proof.
  intros bw vs rest Hbw HF HN. unfold encode_hybrid_rle. destruct vs as [|v0 vr] eqn:EV; [unfold decode_hybrid; apply read_runs_0|].
  rewrite <- EV in *. clear EV v0 vr.
  assert (H0 : short_inv bw [] hybrid_new).
  { exists []. cbn [hybrid_new h_out h_cur h_rep h_buf]. repeat split; try constructor; try (cbn; lia). intros C. exfalso. apply C. reflexivity. }
  destruct (fold_short bw vs [] hybrid_new H0 HN) as (segs & S1 & S2 & S3 & S4 & S5). cbn [app] in S2.
  destruct (fold_left (hybrid_put bw) vs hybrid_new) as [out buf cur rep]. cbn [h_out h_cur h_rep h_buf] in *.
  destruct (seg64_good segs S1) as [G W].
  apply (decode_segs bw (map SP segs) buf); try assumption; try lia.
  - rewrite map_map. cbn [content]. rewrite map_id. exact S2.
  - rewrite map_map. cbn [emit_seg]. unfold flush_buffered. cbn [h_buf]. unfold last_bytes. destruct buf as [|b0 br] eqn:EB.
    + cbn [h_out]. rewrite S3, app_nil_r. reflexivity.
    + rewrite <- EB in *. cbn [h_rep]. destruct S5 as (x & HX & HR); [rewrite EB; discriminate|].
      destruct (Nat.leb_spec 8 rep); [lia|]. cbn [andb]. unfold flush_bit_packed. cbn [h_buf h_out h_cur h_rep].
      assert (length buf <> 0) by (rewrite EB; discriminate). destruct (Nat.eqb_spec (length buf) 0); [contradiction|].
      cbn [h_out h_cur h_rep h_buf]. rewrite firstn_all, S3. reflexivity.
Qed.

(** ** Constant sequences *)
Definition const_inv (bw : nat) (v : N) (n : nat) (h : hybrid) : Prop :=
  exists k j, n = 64 * k + j /\ j < 64 /\ h_buf h = repeat v j /\ h_rep h = j /\ (0 < j -> h_cur h = v) /\
    h_out h = concat (repeat (rle_run bw v 64) k).

Lemma repeat_app1 : forall {A} (a : A) n, repeat a n ++ [a] = repeat a (S n).
Proof. intros. symmetry. apply (repeat_cons n a). Qed.

Lemma concat_repeat_S : forall (x : bytes) k, concat (repeat x k) ++ x = concat (repeat x (S k)).
Proof.
  intros x. induction k as [|k IH]; [cbn [repeat concat app]; rewrite app_nil_r; reflexivity|].
  change (repeat x (S k)) with (x :: repeat x k) at 1. cbn [concat]. rewrite <- app_assoc, IH. reflexivity.
Qed.

Lemma put_const : forall bw v n h, const_inv bw v n h -> const_inv bw v (S n) (hybrid_put bw h v).
Proof.
  intros bw v n [out buf cur rep] (k & j & A & B & C & D & E & F). cbn [h_out h_cur h_rep h_buf] in *.
  unfold hybrid_put. cbn [h_out h_cur h_rep h_buf]. destruct j as [|j].
  - cbn [repeat] in C. subst buf. exists k, 1. cbn [h_out h_cur h_rep h_buf]. repeat split; try lia. exact F.
  - subst buf rep. rewrite E by lia. change (repeat v (S j)) with (v :: repeat v j). cbv iota.
    rewrite N.eqb_refl. change (v :: repeat v j) with (repeat v (S j)). rewrite repeat_app1.
    assert (HH : (if 8 <=? S (S j) then
          (if 0 <? length (repeat v (S (S j))) - S (S j) then
             Hybrid (h_out (flush_bit_packed bw (Hybrid out (repeat v (S (S j))) v (S (S j))) (length (repeat v (S (S j))) - S (S j))))
               (skipn (length (h_buf (flush_bit_packed bw (Hybrid out (repeat v (S (S j))) v (S (S j))) (length (repeat v (S (S j))) - S (S j)))) - h_rep (flush_bit_packed bw (Hybrid out (repeat v (S (S j))) v (S (S j))) (length (repeat v (S (S j))) - S (S j)))) (h_buf (flush_bit_packed bw (Hybrid out (repeat v (S (S j))) v (S (S j))) (length (repeat v (S (S j))) - S (S j)))))
               (h_cur (flush_bit_packed bw (Hybrid out (repeat v (S (S j))) v (S (S j))) (length (repeat v (S (S j))) - S (S j)))) (h_rep (flush_bit_packed bw (Hybrid out (repeat v (S (S j))) v (S (S j))) (length (repeat v (S (S j))) - S (S j))))
           else Hybrid out (repeat v (S (S j))) v (S (S j)))
        else Hybrid out (repeat v (S (S j))) v (S (S j))) = Hybrid out (repeat v (S (S j))) v (S (S j))).
    { rewrite repeat_length, Nat.sub_diag. change (0 <? 0) with false. cbv iota. destruct (8 <=? S (S j)); reflexivity. }
    cbv zeta. cbn [h_out h_cur h_rep h_buf] in *. rewrite HH. cbn [h_out h_cur h_rep h_buf]. rewrite repeat_length.
    destruct (Nat.leb_spec 64 (S (S j))) as [G|G].
    + assert (j = 62) by lia. subst j. exists (S k), 0. unfold flush_buffered. cbn [h_buf h_rep]. 
      change (repeat v 64) with (v :: repeat v 63) at 1. cbv iota. rewrite repeat_length.
      change ((8 <=? 64) && (64 =? 64)) with true. cbv iota. unfold flush_rle_run. cbn [h_rep]. change (64 =? 0) with false. cbv iota.
      cbn [h_out h_cur h_rep h_buf]. repeat split; try lia. cbn [h_out]. rewrite F.
      apply concat_repeat_S.
    + exists k, (S (S j)). cbn [h_out h_cur h_rep h_buf]. repeat split; try lia. exact F.
Qed.

Lemma fold_const : forall bw v m n h, const_inv bw v n h -> const_inv bw v (n + m) (fold_left (hybrid_put bw) (repeat v m) h).
Proof.
  induction m as [|m IH]; intros n h H; cbn [repeat fold_left]; [rewrite Nat.add_0_r; assumption|].
  rewrite Nat.add_succ_r, <- Nat.add_succ_l. apply IH, put_const, H.
Qed.

Lemma hybrid_const_round_trip : forall bw v n rest, bw <= 32 -> (v < 2 ^ N.of_nat bw)%N ->
  decode_hybrid (N.of_nat bw) n (encode_hybrid_rle bw (repeat v n) ++ rest) = Some (repeat v n, rest).
Proof.
  intros bw v n rest Hbw Hv. destruct n as [|n0]; [unfold decode_hybrid; apply read_runs_0|].
  unfold encode_hybrid_rle. change (repeat v (S n0)) with (v :: repeat v n0) at 1. cbv iota.
  set (n := S n0) in *.
  assert (H0 : const_inv bw v 0 hybrid_new).
  { exists 0, 0. cbn [hybrid_new h_out h_cur h_rep h_buf]. repeat split; try lia. }
  pose proof (fold_const bw v n 0 hybrid_new H0) as (k & j & A & B & C & D & E & F). cbn [Nat.add] in A.
  destruct (fold_left (hybrid_put bw) (repeat v n) hybrid_new) as [out buf cur rep]. cbn [h_out h_cur h_rep h_buf] in *.
  assert (HFv : Forall (fun x => (x < 2 ^ N.of_nat bw)%N) (repeat v n)) by (apply Forall_forall; intros x Hx; apply repeat_spec in Hx; subst; assumption).
  assert (HC : forall k, concat (map content (repeat (SR v 64) k)) = repeat v (64 * k)).
  { intros k'. induction k' as [|k' IH]; [reflexivity|]. change (concat (map content (repeat (SR v 64) (S k')))) with (repeat v 64 ++ concat (map content (repeat (SR v 64) k'))). rewrite IH, <- repeat_app. f_equal. lia. }
  assert (HE : forall k, concat (map (emit_seg bw) (repeat (SR v 64) k)) = concat (repeat (rle_run bw v 64) k)).
  { intros k'. induction k' as [|k' IH]; [reflexivity|]. cbn [repeat map concat]. rewrite IH. reflexivity. }
  assert (HGk : forall k, Forall good (repeat (SR v 64) k) /\ Forall whole (repeat (SR v 64) k)).
  { intros k'. split; apply Forall_forall; intros s Hs; apply repeat_spec in Hs; subst s; cbn [good whole]; [split; [lia|reflexivity]|exact I]. }
  assert (RL : length (repeat v n) = n) by apply repeat_length. rewrite <- RL at 1.
  subst buf rep. unfold flush_buffered. cbn [h_buf h_rep]. destruct j as [|j].
  - cbn [repeat]. cbn [h_out]. destruct (HGk k) as [G W].
    apply (decode_segs bw (repeat (SR v 64) k) []); try assumption; try lia; [cbn; lia| |].
    + rewrite HC, app_nil_r. f_equal. lia.
    + rewrite HE. cbn [last_bytes]. rewrite app_nil_r. exact F.
  - change (repeat v (S j)) with (v :: repeat v j) at 1. cbv iota. rewrite (repeat_length v (S j)), Nat.eqb_refl, andb_true_r.
    destruct (Nat.leb_spec 8 (S j)) as [G8|G8].
    + unfold flush_rle_run. cbn [h_rep]. change (S j =? 0) with false. cbv iota. cbn [h_out h_cur h_rep h_buf]. rewrite E by lia.
      destruct (HGk k) as [G W].
      apply (decode_segs bw (repeat (SR v 64) k ++ [SR v (S j)]) []); try assumption; try lia.
      * apply Forall_app. split; [assumption|]. constructor; [|constructor]. cbn [good]. split; lia.
      * apply Forall_app. split; [assumption|]. constructor; [exact I|constructor].
      * cbn; lia.
      * rewrite map_app, concat_app, HC. cbn [map concat content]. rewrite !app_nil_r, <- repeat_app. f_equal. lia.
      * rewrite map_app, concat_app, HE. cbn [map concat emit_seg last_bytes]. rewrite !app_nil_r, F. reflexivity.
    + unfold flush_bit_packed. cbn [h_buf h_out h_cur h_rep]. change (S j =? 0) with false. cbv iota. cbn [h_out].
      destruct (HGk k) as [G W].
      apply (decode_segs bw (repeat (SR v 64) k) (repeat v (S j))); try assumption; try lia.
      * rewrite repeat_length. lia.
      * rewrite HC, <- repeat_app. f_equal. lia.
      * rewrite HE, F. f_equal. rewrite firstn_len by (rewrite repeat_length; reflexivity). reflexivity.
Qed.

(** ** Definition levels of the column-builder writer *)
Lemma legacy_levels : forall max nulls, map (fun b : bool => if b then 0%N else max) nulls = levels max (map negb nulls).
Proof. intros. unfold levels. rewrite map_map. apply map_ext. intros []; reflexivity. Qed.
Lemma count_nulls_zero : forall nulls, count_nulls nulls = 0 -> some_null (map negb nulls) = false.
Proof.
  unfold count_nulls. induction nulls as [|b l IH]; intros H; [reflexivity|]. cbn [filter] in H. destruct b; [discriminate|].
  cbn [map some_null existsb negb orb]. apply IH, H.
Qed.
Lemma all_null_levels : forall max nulls, count_nulls nulls = length nulls -> levels max (map negb nulls) = repeat 0%N (length nulls).
Proof.
  unfold count_nulls. intros max nulls. assert (B : forall l : list bool, length (filter (fun b => b) l) <= length l).
  { induction l as [|b l IH]; [auto|]. cbn [filter length]. destruct b; cbn [length]; lia. }
  induction nulls as [|b l IH]; intros H; [reflexivity|]. cbn [filter] in H. destruct b; cbn [length] in H.
  - unfold levels in *. cbn [map length repeat negb]. f_equal. apply IH. lia.
  - specialize (B l). lia.
Qed.

Lemma legacy_round_trip : forall nulls max rest bs,
  nulls <> [] -> (N.of_nat (length nulls) < 2 ^ 31)%N -> (1 <= max < 256)%N ->
  count_nulls nulls = 0 \/ count_nulls nulls = length nulls \/ no_eight_equal (levels max (map negb nulls)) ->
  encode_def_levels_hybrid nulls max (count_nulls nulls) = bs -> (N.of_nat (length bs) < 2 ^ 32)%N ->
  decode_levels max (length nulls) (bs ++ rest) = Some (levels max (map negb nulls), rest).
Proof.
  intros nulls max rest bs Hne Hl Hmax Hc <- Hbs. unfold encode_def_levels_hybrid in *.
  destruct nulls as [|n0 nr] eqn:E; [contradiction|]. rewrite <- E in *. assert (0 < length nulls) by (rewrite E; cbn; lia). clear E n0 nr.
  cbv zeta in *. rewrite legacy_levels in *.
  assert (HW : N.of_nat (N.to_nat (bits_required max)) = level_width max).
  { rewrite N2Nat.id. apply bits_required_spec. eapply N.lt_trans; [apply Hmax|reflexivity]. }
  assert (HW8 : (level_width max <= 8)%N) by (apply level_width_le; apply Hmax).
  set (bw := N.to_nat (bits_required max)) in *.
  assert (Hv : (max < 2 ^ N.of_nat bw)%N) by (rewrite HW; apply level_width_fits).
  assert (ML : length (map negb nulls) = length nulls) by apply map_length.
  assert (Hlv : length (levels max (map negb nulls)) = length nulls) by (unfold levels; rewrite map_length; exact ML).
  set (data := if count_nulls nulls =? 0 then _ else _) in *.
  assert (Hd : (N.of_nat (length data) < 2 ^ 32)%N).
  { rewrite app_length in Hbs. lia. }
  rewrite N.mod_small in * by exact Hd. apply decode_levels_prefix; [exact Hd|]. rewrite <- HW. unfold data.
  destruct (Nat.eqb_spec (count_nulls nulls) 0) as [E0|E0].
  - rewrite levels_all by (apply count_nulls_zero; exact E0). rewrite ML. apply read_one_rle; [assumption|assumption|exact Hv].
  - destruct Hc as [C|[C|C]]; [contradiction| |].
    + rewrite (all_null_levels max nulls C). rewrite <- (app_nil_r (encode_hybrid_rle bw _)).
      apply hybrid_const_round_trip; [lia|apply pow2_pos].
    + rewrite <- Hlv. rewrite <- (app_nil_r (encode_hybrid_rle bw _)).
      apply hybrid_short_round_trip; [lia|apply levels_fit; exact Hv|exact C].
Qed.

(** rle.cpp *)
Lemma rle_levels_round_trip : forall nulls max rest, (1 <= max < 256)%N ->
  decode_hybrid (level_width max) (length nulls) (encode_definition_levels_rle nulls max ++ rest) = Some (levels max (map negb nulls), rest).
Proof.
  intros nulls max rest Hmax. unfold encode_definition_levels_rle. destruct nulls as [|n0 nr] eqn:E; [unfold decode_hybrid; apply read_runs_0|].
  rewrite <- E. clear E n0 nr. rewrite legacy_levels.
  assert (HW : N.of_nat (N.to_nat (bits_required max)) = level_width max).
  { rewrite N2Nat.id. apply bits_required_spec. eapply N.lt_trans; [apply Hmax|reflexivity]. }
  assert (HW8 : (level_width max <= 8)%N) by (apply level_width_le; apply Hmax).
  assert (HW1 : (1 <= level_width max)%N) by (unfold level_width; destruct (N.eqb_spec max 0); lia).
  rewrite <- HW. assert (Hlv : length (levels max (map negb nulls)) = length nulls) by (unfold levels; rewrite !map_length; reflexivity).
  rewrite <- Hlv. apply rle_encode_round_trip; [lia|]. apply levels_fit. rewrite HW. apply level_width_fits.
Qed.
