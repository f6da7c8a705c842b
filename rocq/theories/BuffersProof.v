(** Proofs about the bitmap: simulation of histories, bit-level lemmas. *)
From Verif Require Import Base BuffersSpec BuffersModel BuffersObs.

(** ** Histories *)
Lemma update_length : forall A (l : list A) i a, length (update l i a) = length l.
Proof. induction l; intros [|i] b; cbn [update length]; auto. Qed.

Lemma nth_error_update : forall A (l : list A) i j a,
  nth_error (update l i a) j = if (i =? j) && (i <? length l) then Some a else nth_error l j.
Proof.
  induction l as [|x l IH]; intros i j a.
  - cbn [update length]. destruct (i =? j); destruct i; reflexivity.
  - destruct i, j; cbn [update nth_error length]; try reflexivity.
    rewrite IH. reflexivity.
Qed.

Lemma Forall2_update : forall A B (R : A -> B -> Prop) la lb i a b,
  Forall2 R la lb -> R a b -> Forall2 R (update la i a) (update lb i b).
Proof.
  intros A B R la lb i a b H; revert i. induction H; intros [|i] Hab; cbn [update]; constructor; auto.
Qed.

Lemma Forall2_weaken : forall A B (R Q : A -> B -> Prop) la lb,
  (forall a b, R a b -> Q a b) -> Forall2 R la lb -> Forall2 Q la lb.
Proof. intros A B R Q la lb H HF. induction HF; constructor; auto. Qed.

Lemma Forall2_nth : forall A B (R : A -> B -> Prop) la lb i b,
  Forall2 R la lb -> nth_error lb i = Some b -> exists a, nth_error la i = Some a /\ R a b.
Proof.
  intros A B R la lb i b H; revert i. induction H; intros [|i] E; cbn in *; try discriminate.
  - injection E as <-. eauto.
  - eauto.
Qed.

Lemma nth_error_lt : forall A (l : list A) i x, nth_error l i = Some x -> i < length l.
Proof. intros A l i x E. apply nth_error_Some. congruence. Qed.

Record simulates {S L E} (R : S -> L -> Prop) (I : impl S E) (J : impl L E) : Prop := Sim {
  sim_new : R (i_new I) (i_new J);
  sim_push : forall s l e l', R s l -> i_push J l e = Some l' -> exists s', i_push I s e = Some s' /\ R s' l';
  sim_append : forall s l t m l', R s l -> R t m -> i_append J l m = Some l' ->
      exists s', i_append I s t = Some s' /\ R s' l';
  sim_clear : forall s l l', R s l -> i_clear J l = Some l' -> exists s', i_clear I s = Some s' /\ R s' l';
  sim_finalize : forall s l l', R s l -> i_finalize J l = Some l' -> exists s', i_finalize I s = Some s' /\ R s' l' }.

Lemma with_handle_sim : forall S L (R : S -> L -> Prop) f g st lt h lt',
  (forall s l l', R s l -> g l = Some l' -> exists s', f s = Some s' /\ R s' l') ->
  Forall2 R st lt -> with_handle lt h g = Some lt' ->
  exists st', with_handle st h f = Some st' /\ Forall2 R st' lt'.
Proof.
  intros S L R f g st lt h lt' Hfg HR E. unfold with_handle in *.
  destruct (nth_error lt h) as [l|] eqn:El; [|discriminate].
  destruct (Forall2_nth _ _ _ _ _ _ _ HR El) as (s & Es & Hsl). rewrite Es.
  destruct (g l) as [l'|] eqn:Eg; [|discriminate]. injection E as <-.
  destruct (Hfg _ _ _ Hsl Eg) as (s' & -> & Hs'). eexists; split; [reflexivity|].
  apply Forall2_update; assumption.
Qed.

Lemma step_sim : forall S L E (R : S -> L -> Prop) (I : impl S E) (J : impl L E) st lt o lt',
  simulates R I J -> Forall2 R st lt -> step J lt o = Some lt' ->
  exists st', step I st o = Some st' /\ Forall2 R st' lt'.
Proof.
  intros S L E R I J st lt o lt' H HR. destruct H as [Hn Hp Ha Hc Hf].
  destruct o as [|h e|h k|h|h]; cbn [step]; intros Es.
  - injection Es as <-. eexists; split; [reflexivity|]. apply Forall2_app; auto.
  - eapply with_handle_sim; eauto. intros; eapply Hp; eauto.
  - destruct (h =? k); [discriminate|].
    destruct (nth_error lt k) as [m|] eqn:Ek; [|discriminate].
    destruct (Forall2_nth _ _ _ _ _ _ _ HR Ek) as (t & -> & Htm).
    eapply with_handle_sim; eauto. intros; eapply Ha; eauto.
  - eapply with_handle_sim; eauto.
  - eapply with_handle_sim; eauto.
Qed.

Lemma run_sim : forall S L E (R : S -> L -> Prop) (I : impl S E) (J : impl L E) ops st lt lt',
  simulates R I J -> Forall2 R st lt -> run J lt ops = Some lt' ->
  exists st', run I st ops = Some st' /\ Forall2 R st' lt'.
Proof.
  intros S L E R I J ops. induction ops as [|o ops IH]; intros st lt lt' H HR; cbn [run]; intros Er.
  - injection Er as <-. eauto.
  - destruct (step J lt o) as [lt1|] eqn:Es; [|discriminate].
    destruct (step_sim _ _ _ _ _ _ _ _ _ _ H HR Es) as (st1 & -> & H1). eauto.
Qed.

Lemma push_all_sim : forall S L E (R : S -> L -> Prop) (I : impl S E) (J : impl L E) es s l l',
  simulates R I J -> R s l -> push_all J l es = Some l' ->
  exists s', push_all I s es = Some s' /\ R s' l'.
Proof.
  intros S L E R I J es. induction es as [|e es IH]; intros s l l' H HR; cbn [push_all]; intros Ep.
  - injection Ep as <-. eauto.
  - destruct (i_push J l e) as [l1|] eqn:E1; [|discriminate].
    destruct (sim_push _ _ _ H _ _ _ _ HR E1) as (s1 & -> & H1). eauto.
Qed.

Lemma build_sim : forall S L E (R : S -> L -> Prop) (I : impl S E) (J : impl L E) t l',
  simulates R I J -> build J t = Some l' -> exists s', build I t = Some s' /\ R s' l'.
Proof.
  intros S L E R I J t. induction t as [es|a IHa b IHb]; intros l' H; cbn [build]; intros Eb.
  - eapply push_all_sim; eauto. apply H.
  - destruct (build J a) as [la|] eqn:Ea; [|discriminate].
    destruct (build J b) as [lb|] eqn:Eb'; [|discriminate].
    destruct (IHa _ H eq_refl) as (x & -> & Hx). destruct (IHb _ H eq_refl) as (y & -> & Hy).
    eapply sim_append; eauto.
Qed.

Lemma build_lists : forall E (t : grouping E), build (as_lists E) t = Some (flatten t).
Proof.
  assert (P : forall E (es l : list E), push_all (as_lists E) l es = Some (l ++ es)).
  { intros E es; induction es as [|e es IH]; intros l; cbn [push_all as_lists i_push].
    - rewrite app_nil_r. reflexivity.
    - change (push_all (as_lists E) (l ++ [e]) es = Some (l ++ e :: es)). rewrite IH, <- app_assoc. reflexivity. }
  intros E t; induction t as [es|a IHa b IHb]; cbn [build flatten].
  - rewrite P. reflexivity.
  - rewrite IHa, IHb. reflexivity.
Qed.

(** ** Bits *)
Lemma land_mask : forall b k, negb (N.eqb (N.land b (bit_mask k)) 0) = N.testbit b (N.of_nat k).
Proof.
  intros b k. unfold bit_mask. rewrite N.shiftl_1_l.
  destruct (N.testbit b (N.of_nat k)) eqn:E.
  - apply negb_true_iff, N.eqb_neq. intros H.
    assert (T : N.testbit (N.land b (2 ^ N.of_nat k)) (N.of_nat k) = false) by (rewrite H; apply N.bits_0).
    rewrite N.land_spec, E, N.pow2_bits_true in T. discriminate.
  - apply negb_false_iff, N.eqb_eq. apply N.bits_inj. intros j. rewrite N.land_spec, N.bits_0, N.pow2_bits_eqb.
    destruct (N.eqb_spec (N.of_nat k) j); [subst; rewrite E; reflexivity | apply andb_false_r].
Qed.

Lemma lor_mask_bit : forall b k j,
  N.testbit (N.lor b (bit_mask k)) (N.of_nat j) = if k =? j then true else N.testbit b (N.of_nat j).
Proof.
  intros b k j. unfold bit_mask. rewrite N.shiftl_1_l, N.lor_spec, N.pow2_bits_eqb.
  destruct (Nat.eqb_spec k j).
  - subst. rewrite N.eqb_refl. apply orb_true_r.
  - destruct (N.eqb_spec (N.of_nat k) (N.of_nat j)); [lia | apply orb_false_r].
Qed.

Lemma ldiff_mask_bit : forall b k j,
  N.testbit (N.ldiff b (bit_mask k)) (N.of_nat j) = if k =? j then false else N.testbit b (N.of_nat j).
Proof.
  intros b k j. unfold bit_mask. rewrite N.shiftl_1_l, N.ldiff_spec, N.pow2_bits_eqb.
  destruct (Nat.eqb_spec k j).
  - subst. rewrite N.eqb_refl. apply andb_false_r.
  - destruct (N.eqb_spec (N.of_nat k) (N.of_nat j)); [lia | apply andb_true_r].
Qed.

Lemma byte_bits : forall b, (forall j, (8 <= j)%N -> N.testbit b j = false) -> (b < 256)%N.
Proof.
  intros b H. destruct (N.eq_dec b 0) as [->|Hn]; [reflexivity|].
  change 256%N with (2 ^ 8)%N. apply N.log2_lt_pow2; [lia|].
  destruct (N.ltb_spec (N.log2 b) 8); [assumption|].
  specialize (H (N.log2 b) H0). rewrite N.bit_log2 in H by assumption. discriminate.
Qed.
Lemma byte_high : forall b j, (b < 256)%N -> (8 <= j)%N -> N.testbit b j = false.
Proof.
  intros b j Hb Hj. destruct (N.eq_dec b 0) as [->|Hn]; [apply N.bits_0|].
  apply N.bits_above_log2. apply N.lt_le_trans with 8%N; [|assumption].
  apply N.log2_lt_pow2; [lia | exact Hb].
Qed.

Lemma lor_mask_byte : forall b k, (b < 256)%N -> k < 8 -> (N.lor b (bit_mask k) < 256)%N.
Proof.
  intros b k Hb Hk. apply byte_bits. intros j Hj. unfold bit_mask. rewrite N.shiftl_1_l, N.lor_spec, N.pow2_bits_eqb.
  rewrite (byte_high b j) by assumption. destruct (N.eqb_spec (N.of_nat k) j); [lia|reflexivity].
Qed.
Lemma ldiff_mask_byte : forall b k, (b < 256)%N -> (N.ldiff b (bit_mask k) < 256)%N.
Proof.
  intros b k Hb. apply byte_bits. intros j Hj. rewrite N.ldiff_spec, (byte_high b j) by assumption. reflexivity.
Qed.

Lemma Forall_update : forall A (P : A -> Prop) l i a, Forall P l -> P a -> Forall P (update l i a).
Proof. intros A P l i a H; revert i; induction H; intros [|i] Ha; cbn [update]; constructor; auto. Qed.

Lemma div_mod_8 : forall i j, i <> j -> i / 8 = j / 8 -> i mod 8 <> j mod 8.
Proof. intros i j Hne E F. apply Hne. rewrite (Nat.div_mod i 8), (Nat.div_mod j 8) by lia. lia. Qed.

Lemma bytes_for_div : forall n, n / 8 = length (A := N) [] + n / 8. Proof. reflexivity. Qed.

Lemma bytes_for_S : forall n, bytes_for (S n) = S (n / 8).
Proof.
  intros n. unfold bytes_for. replace (S n + 7) with (n + 1 * 8) by lia. rewrite Nat.div_add by lia. lia.
Qed.
Lemma bytes_for_cases : forall n, bytes_for n = n / 8 /\ n mod 8 = 0 \/ bytes_for n = S (n / 8) /\ n mod 8 <> 0.
Proof.
  intros n. unfold bytes_for. pose proof (Nat.div_mod n 8 ltac:(lia)) as E. pose proof (Nat.mod_upper_bound n 8 ltac:(lia)).
  destruct (Nat.eq_dec (n mod 8) 0) as [Z|Z].
  - left. split; [|assumption].
    replace (n + 7) with (7 + (n / 8) * 8) by lia. rewrite Nat.div_add by lia. reflexivity.
  - right. split; [|assumption].
    replace (n + 7) with ((n mod 8 - 1) + (S (n / 8)) * 8) by lia. rewrite Nat.div_add by lia.
    rewrite Nat.div_small by lia. reflexivity.
Qed.

(** Setting the bit at position [n = length l] of a bitmap that shows [l]. *)
Lemma bits_are_snoc : forall data l v d' b,
  bits_are data l ->
  nth_error data (length l / 8) = Some b ->
  d' = update data (length l / 8) (if v : bool then N.lor b (bit_mask (length l mod 8))
                                    else N.ldiff b (bit_mask (length l mod 8))) ->
  length data = bytes_for (S (length l)) ->
  bits_are d' (l ++ [v]).
Proof.
  intros data l v d' b (Hlen & Hby & Hbits) Hb -> Hlen'.
  pose proof (Nat.mod_upper_bound (length l) 8 ltac:(lia)) as Hm.
  assert (Hb256 : (b < 256)%N) by (rewrite Forall_forall in Hby; apply Hby; eapply nth_error_In; eauto).
  repeat split.
  - rewrite update_length, app_length. cbn [length]. rewrite Nat.add_1_r. assumption.
  - apply Forall_update; [assumption|]. destruct v; [apply lor_mask_byte; assumption | apply ldiff_mask_byte; assumption].
  - intros i w Hi. unfold bit_of. rewrite nth_error_update.
    assert (Hlt : length l / 8 <? length data = true) by (apply Nat.ltb_lt; eapply nth_error_lt; eauto).
    rewrite Hlt, andb_true_r.
    destruct (Nat.eq_dec i (length l)) as [->|Hne].
    + rewrite nth_error_app2, Nat.sub_diag in Hi by lia. cbn in Hi. injection Hi as <-.
      rewrite Nat.eqb_refl. f_equal. destruct v.
      * rewrite lor_mask_bit, Nat.eqb_refl. reflexivity.
      * rewrite ldiff_mask_bit, Nat.eqb_refl. reflexivity.
    + assert (Hil : i < length l).
      { apply nth_error_lt in Hi. rewrite app_length in Hi. cbn in Hi. lia. }
      rewrite nth_error_app1 in Hi by assumption. specialize (Hbits _ _ Hi). unfold bit_of in Hbits.
      destruct (Nat.eqb_spec (length l / 8) (i / 8)) as [E|E]; [|assumption].
      rewrite <- E, Hb in Hbits. rewrite <- Hbits. f_equal.
      assert (Hmm : length l mod 8 =? i mod 8 = false).
      { apply Nat.eqb_neq. apply div_mod_8; [congruence|assumption]. }
      destruct v.
      * rewrite lor_mask_bit, Hmm. reflexivity.
      * rewrite ldiff_mask_bit, Hmm. reflexivity.
Qed.

(** Growing by one zero byte. *)
Lemma bits_are_grow : forall data l v,
  bits_are data l -> length data <= length l / 8 ->
  bits_are (update (data ++ [0%N]) (length l / 8)
              (if v : bool then N.lor 0 (bit_mask (length l mod 8)) else 0%N)) (l ++ [v]) /\
  nth_error (data ++ [0%N]) (length l / 8) = Some 0%N.
Proof.
  intros data l v (Hlen & Hby & Hbits) Hle.
  destruct (bytes_for_cases (length l)) as [[E Z]|[E Z]]; [|lia].
  assert (Hd : length data = length l / 8) by lia.
  assert (Hnth : nth_error (data ++ [0%N]) (length l / 8) = Some 0%N).
  { rewrite nth_error_app2, Hd, Nat.sub_diag by lia. reflexivity. }
  split; [|assumption].
  repeat split.
  - rewrite update_length, !app_length. cbn [length]. rewrite !Nat.add_1_r, bytes_for_S. lia.
  - apply Forall_update.
    + apply Forall_app; split; [assumption|]. constructor; [lia|constructor].
    + destruct v; [|lia]. apply lor_mask_byte; [lia|]. apply Nat.mod_upper_bound; lia.
  - intros i w Hi. unfold bit_of. rewrite nth_error_update.
    assert (Hlt : length l / 8 <? length (data ++ [0%N]) = true) by (apply Nat.ltb_lt; eapply nth_error_lt; eauto).
    rewrite Hlt, andb_true_r.
    destruct (Nat.eq_dec i (length l)) as [->|Hne].
    + rewrite nth_error_app2, Nat.sub_diag in Hi by lia. cbn in Hi. injection Hi as <-.
      rewrite Nat.eqb_refl. f_equal. destruct v.
      * rewrite lor_mask_bit, Nat.eqb_refl. reflexivity.
      * apply N.bits_0.
    + assert (Hil : i < length l).
      { apply nth_error_lt in Hi. rewrite app_length in Hi. cbn in Hi. lia. }
      rewrite nth_error_app1 in Hi by assumption. specialize (Hbits _ _ Hi). unfold bit_of in Hbits.
      assert (Hdi : i / 8 < length l / 8).
      { apply Nat.div_lt_upper_bound; [lia|].
        rewrite <- Hd, Hlen, E. pose proof (Nat.div_mod (length l) 8 ltac:(lia)). lia. }
      destruct (Nat.eqb_spec (length l / 8) (i / 8)); [lia|].
      rewrite nth_error_app1 by lia. assumption.
Qed.

(** ** The invariant *)
Definition inv (m : bitmap) (l : list bool) : Prop :=
  bm_size m = length l /\ bm_null_count m = nulls_in l /\ bm_has_nulls m = some_null l /\
  if some_null l then bits_are (bm_data m) l
  else exists k, k <= bytes_for (length l) /\ bm_data m = repeat 255%N k.

Lemma resize_repeat : forall A (v : A) k n, k <= n -> resize (repeat v k) n v = repeat v n.
Proof.
  intros A v k n H. unfold resize. rewrite repeat_length, firstn_all2 by (rewrite repeat_length; assumption).
  rewrite <- repeat_app. f_equal. lia.
Qed.

Lemma no_null_all_true : forall l i v, some_null l = false -> nth_error l i = Some v -> v = true.
Proof.
  induction l as [|x l IH]; intros [|i] v H E; cbn in *; try discriminate;
    apply orb_false_iff in H as [H1 H2].
  - injection E as ->. destruct v; [reflexivity|discriminate].
  - eauto.
Qed.

Lemma bits_255 : forall l, some_null l = false -> bits_are (repeat 255%N (bytes_for (length l))) l.
Proof.
  intros l H. repeat split.
  - apply repeat_length.
  - apply Forall_forall. intros x Hx. apply repeat_spec in Hx. subst. reflexivity.
  - intros i v Hi. rewrite (no_null_all_true _ _ _ H Hi). unfold bit_of.
    assert (Hlt : i / 8 < bytes_for (length l)).
    { apply nth_error_lt in Hi. unfold bytes_for. apply Nat.div_lt_upper_bound; [lia|].
      destruct (bytes_for_cases (length l)) as [[E _]|[E _]]; unfold bytes_for in E; rewrite E;
        pose proof (Nat.div_mod (length l) 8 ltac:(lia)); pose proof (Nat.mod_upper_bound (length l) 8 ltac:(lia)); lia. }
    assert (Hn : nth_error (repeat 255%N (bytes_for (length l))) (i / 8) = Some 255%N).
    { clear Hi H. generalize dependent (i / 8). generalize (bytes_for (length l)) as n.
      induction n as [|n IH]; intros j Hj; [lia|]. destruct j; cbn; [reflexivity|]. apply IH; lia. }
    rewrite Hn. f_equal.
    assert (Hm : i mod 8 < 8) by (apply Nat.mod_upper_bound; lia).
    destruct (i mod 8) as [|[|[|[|[|[|[|[|n]]]]]]]]; try reflexivity; lia.
Qed.

Lemma some_null_app : forall a b, some_null (a ++ b) = some_null a || some_null b.
Proof. intros. apply existsb_app. Qed.
Lemma nulls_in_app : forall a b, nulls_in (a ++ b) = nulls_in a + nulls_in b.
Proof. intros. unfold nulls_in. rewrite filter_app, app_length. reflexivity. Qed.
Lemma nulls_in_none : forall l, some_null l = false -> nulls_in l = 0.
Proof.
  induction l as [|x l IH]; intros H; [reflexivity|]. cbn in H. apply orb_false_iff in H as [H1 H2].
  unfold nulls_in in *. cbn [filter]. rewrite H1. auto.
Qed.

Lemma inv_new : inv bm_new [].
Proof. repeat split; try reflexivity. exists 0. split; [lia|reflexivity]. Qed.

Lemma bytes_for_mono : forall a b, a <= b -> bytes_for a <= bytes_for b.
Proof. intros. unfold bytes_for. apply Nat.div_le_mono; lia. Qed.

Lemma push_valid_ok : forall m l, inv m l -> exists m', push_back_valid m = Some m' /\ inv m' (l ++ [true]).
Proof.
  intros [data sz nc has] l (Hs & Hn & Hh & Hd). cbn [bm_size bm_null_count bm_has_nulls bm_data] in *. subst.
  unfold push_back_valid. cbn [bm_size bm_null_count bm_has_nulls bm_data].
  unfold inv. rewrite some_null_app, nulls_in_app, app_length. cbn [some_null existsb negb orb nulls_in filter length].
  rewrite !orb_false_r, Nat.add_0_r, Nat.add_1_r. fold (some_null l).
  destruct (some_null l) eqn:H; cbn [negb].
  - unfold push_back_valid_slow. cbn [bm_size bm_null_count bm_has_nulls bm_data].
    destruct (Nat.leb_spec (length data) (length l / 8)) as [Hle|Hlt].
    + destruct (bits_are_grow data l true Hd Hle) as (Hg & Hnth). unfold or_at. rewrite Hnth.
      eexists; split; [reflexivity|]. cbn [bm_size bm_null_count bm_has_nulls bm_data]. auto.
    + destruct (nth_error data (length l / 8)) as [b|] eqn:Hb.
      2:{ apply nth_error_None in Hb. lia. }
      unfold or_at. rewrite Hb. eexists; split; [reflexivity|]. cbn [bm_size bm_null_count bm_has_nulls bm_data].
      split; [reflexivity|]. split; [reflexivity|]. split; [reflexivity|]. refine (bits_are_snoc data l true _ b Hd Hb eq_refl _).
      destruct Hd as (Hlen & _ & _). rewrite bytes_for_S.
      destruct (bytes_for_cases (length l)) as [[E Z]|[E Z]]; lia.
  - eexists; split; [reflexivity|]. cbn [bm_size bm_null_count bm_has_nulls bm_data].
    repeat split. destruct Hd as (k & Hk & ->). exists k. split; [|reflexivity].
    pose proof (bytes_for_mono (length l) (S (length l)) ltac:(lia)). lia.
Qed.

Lemma push_null_ok : forall m l, inv m l -> exists m', push_back_null m = Some m' /\ inv m' (l ++ [false]).
Proof.
  intros [data sz nc has] l (Hs & Hn & Hh & Hd). cbn [bm_size bm_null_count bm_has_nulls bm_data] in *. subst.
  unfold push_back_null, init_bitmap_with_all_valid. cbn [bm_size bm_null_count bm_has_nulls bm_data].
  unfold inv. rewrite some_null_app, nulls_in_app, app_length. cbn [some_null existsb negb orb nulls_in filter length].
  rewrite !orb_true_r, !Nat.add_1_r. fold (some_null l).
  set (data1 := if negb (some_null l) then resize data ((length l + 7) / 8) 255%N else data).
  assert (Hd1 : bits_are data1 l).
  { unfold data1. destruct (some_null l) eqn:H; cbn [negb]; [assumption|].
    destruct Hd as (k & Hk & ->). rewrite resize_repeat by assumption. apply bits_255; assumption. }
  assert (Hgoal : exists m',
     match (if length data1 <=? length l / 8 then Some (data1 ++ [0%N])
            else clear_at data1 (length l / 8) (length l mod 8)) with
     | None => None
     | Some d => Some (Bitmap d (S (length l)) (S (nulls_in l)) true)
     end = Some m' /\
     bm_size m' = S (length l) /\ bm_null_count m' = S (nulls_in l) /\ bm_has_nulls m' = true /\
     bits_are (bm_data m') (l ++ [false])).
  { destruct (Nat.leb_spec (length data1) (length l / 8)) as [Hle|Hlt].
    - destruct (bits_are_grow data1 l false Hd1 Hle) as (Hg & Hnth).
      eexists; split; [reflexivity|]. cbn [bm_size bm_null_count bm_has_nulls bm_data]. repeat split; auto.
      + destruct Hg as (G1 & _ & _). rewrite update_length in G1. assumption.
      + destruct Hg as (_ & G2 & _). apply Forall_app; split; [apply Hd1|]. constructor; [lia|constructor].
      + destruct Hg as (_ & _ & G3). intros i v Hi. specialize (G3 i v Hi). unfold bit_of in *.
        rewrite nth_error_update in G3.
        destruct ((length l / 8 =? i / 8) && (length l / 8 <? length (data1 ++ [0%N]))) eqn:Ec; [|assumption].
        apply andb_true_iff in Ec as [Ec _]. apply Nat.eqb_eq in Ec. rewrite <- Ec, Hnth. assumption.
    - destruct (nth_error data1 (length l / 8)) as [b|] eqn:Hb.
      2:{ apply nth_error_None in Hb. lia. }
      unfold clear_at. rewrite Hb. eexists; split; [reflexivity|]. cbn [bm_size bm_null_count bm_has_nulls bm_data].
      split; [reflexivity|]. split; [reflexivity|]. split; [reflexivity|].
      refine (bits_are_snoc data1 l false _ b Hd1 Hb eq_refl _).
      destruct Hd1 as (Hlen & _ & _). rewrite bytes_for_S.
      destruct (bytes_for_cases (length l)) as [[E Z]|[E Z]]; lia. }
  destruct Hgoal as (m' & E & H1 & H2 & H3 & H4). exists m'. split; [|auto].
  destruct (some_null l) eqn:H; cbn [negb] in *; exact E.
Qed.

Lemma push_ok : forall m l v, inv m l -> exists m', bm_push m v = Some m' /\ inv m' (l ++ [v]).
Proof. intros m l [|] H; [apply push_valid_ok | apply push_null_ok]; assumption. Qed.

Lemma is_valid_bit : forall m i, bm_has_nulls m = true -> is_valid m i = bit_of (bm_data m) i.
Proof.
  intros m i H. unfold is_valid, bit_of. rewrite H. cbn [negb]. destruct (nth_error _ _); [|reflexivity].
  rewrite land_mask. reflexivity.
Qed.

Lemma is_valid_ok : forall m l i v, inv m l -> nth_error l i = Some v -> is_valid m i = Some v.
Proof.
  intros m l i v (Hs & Hn & Hh & Hd) Hi. destruct (some_null l) eqn:H.
  - rewrite is_valid_bit by assumption. apply Hd; assumption.
  - unfold is_valid. rewrite Hh. cbn [negb]. f_equal. symmetry. eapply no_null_all_true; eauto.
Qed.

Lemma push_true_loop_ok : forall n m l, inv m l -> exists m', push_true_loop m n = Some m' /\ inv m' (l ++ repeat true n).
Proof.
  induction n as [|n IH]; intros m l H; cbn [push_true_loop repeat].
  - rewrite app_nil_r. eauto.
  - destruct (push_ok m l true H) as (m1 & -> & H1). destruct (IH _ _ H1) as (m2 & -> & H2).
    rewrite <- app_assoc in H2. eauto.
Qed.

Lemma all_true_repeat : forall l, some_null l = false -> l = repeat true (length l).
Proof.
  induction l as [|x l IH]; intros H; [reflexivity|]. cbn in H. apply orb_false_iff in H as [H1 H2].
  cbn [length repeat]. rewrite <- IH by assumption. destruct x; [reflexivity|discriminate].
Qed.

Lemma push_other_loop_ok : forall n i m l other lo, inv m l -> inv other lo -> i + n = length lo ->
  exists m', push_other_loop m other n i = Some m' /\ inv m' (l ++ skipn i lo).
Proof.
  induction n as [|n IH]; intros i m l other lo H Ho E; cbn [push_other_loop].
  - rewrite skipn_all2, app_nil_r by lia. eauto.
  - destruct (nth_error lo i) as [v|] eqn:Ev.
    2:{ apply nth_error_None in Ev. lia. }
    rewrite (is_valid_ok _ _ _ _ Ho Ev). destruct (push_ok m l v H) as (m1 & -> & H1).
    destruct (IH (S i) m1 (l ++ [v]) other lo H1 Ho ltac:(lia)) as (m2 & -> & H2).
    exists m2. split; [reflexivity|].
    replace (skipn i lo) with (v :: skipn (S i) lo).
    + rewrite <- app_assoc in H2. exact H2.
    + clear - Ev. revert i Ev. induction lo as [|x lo IH]; intros [|i] Ev; cbn in Ev; try discriminate.
      * injection Ev as ->. reflexivity.
      * change (v :: skipn (S i) lo = skipn i lo). auto.
Qed.

Lemma append_ok : forall m l o lo, inv m l -> inv o lo -> exists m', bm_append_from m o = Some m' /\ inv m' (l ++ lo).
Proof.
  intros m l o lo H Ho. unfold bm_append_from. pose proof Ho as (Os & On & Oh & Od).
  destruct (Nat.eqb_spec (bm_size o) 0) as [Z|Z].
  { rewrite Os in Z. destruct lo; [|discriminate]. rewrite app_nil_r. eauto. }
  rewrite Oh. destruct (some_null lo) eqn:HO; cbn [negb].
  - destruct (push_other_loop_ok (bm_size o) 0 m l o lo H Ho ltac:(lia)) as (m' & E & H'). eauto.
  - pose proof H as (Hs & Hn & Hh & Hd). rewrite Hh. destruct (some_null l) eqn:HL; cbn [negb].
    + destruct (push_true_loop_ok (bm_size o) m l H) as (m' & E & H').
      rewrite Os in H'. rewrite <- all_true_repeat in H' by assumption. eauto.
    + eexists; split; [reflexivity|]. unfold inv. cbn [bm_size bm_null_count bm_has_nulls bm_data].
      rewrite some_null_app, nulls_in_app, app_length, HL, HO, Hs, Os, Hn, (nulls_in_none lo HO). cbn [orb].
      repeat split; try lia. destruct Hd as (k & Hk & Hdd). exists k. split; [|assumption].
      pose proof (bytes_for_mono (length l) (length l + length lo) ltac:(lia)). lia.
Qed.

Lemma finalize_ok : forall m l, inv m l -> exists m', bm_finalize m = Some m' /\ inv m' l /\ bits_are (bm_data m') l.
Proof.
  intros m l H. unfold bm_finalize. eexists; split; [reflexivity|].
  pose proof H as (Hs & Hn & Hh & Hd). rewrite Hh. destruct (some_null l) eqn:HL; cbn [negb andb].
  - split; [assumption|assumption].
  - destruct Hd as (k & Hk & Hdd).
    destruct (Nat.ltb_spec 0 (bm_size m)) as [Hp|Hp].
    + unfold inv. cbn [bm_size bm_null_count bm_has_nulls bm_data]. rewrite HL, Hdd, Hs.
      rewrite resize_repeat by assumption. split; [|apply bits_255; assumption].
      repeat split; auto. exists (bytes_for (length l)). split; [lia|reflexivity].
    + split; [assumption|]. destruct l; [|cbn [length] in *; lia].
      cbn [length] in Hk. assert (k = 0) by (change (bytes_for 0) with 0 in Hk; lia). subst k.
      rewrite Hdd. repeat split; try reflexivity; try constructor. intros [|i] v E; discriminate.
Qed.

Lemma bitmap_simulates : simulates inv bitmap_impl (as_lists bool).
Proof.
  constructor; cbn [bitmap_impl as_lists i_new i_push i_append i_clear i_finalize].
  - apply inv_new.
  - intros s l e l' H E. injection E as <-. apply push_ok; assumption.
  - intros s l t m l' H Ht E. injection E as <-. apply append_ok; assumption.
  - intros s l l' H E. injection E as <-. eexists; split; [reflexivity|]. apply inv_new.
  - intros s l l' H E. injection E as <-. destruct (finalize_ok s l H) as (m' & E & Hi & _). eauto.
Qed.

Lemma count_loop_ok : forall m l, inv m l -> forall n i c, i + n = length l ->
  count_loop m n i c = Some (c + nulls_in (skipn i l)).
Proof.
  intros m l H. induction n as [|n IH]; intros i c E; cbn [count_loop].
  - rewrite skipn_all2 by lia. cbn. rewrite Nat.add_0_r. reflexivity.
  - destruct (nth_error l i) as [v|] eqn:Ev.
    2:{ apply nth_error_None in Ev. lia. }
    rewrite (is_valid_ok _ _ _ _ H Ev), IH by lia.
    assert (Hsk : skipn i l = v :: skipn (S i) l).
    { clear - Ev. revert i Ev. induction l as [|x lo IH]; intros [|i] Ev; cbn in Ev; try discriminate.
      * injection Ev as ->. reflexivity.
      * change (skipn i lo = v :: skipn (S i) lo). auto. }
    rewrite Hsk. f_equal. unfold nulls_in. cbn [filter]. destruct v; cbn [negb length]; lia.
Qed.

Lemma inv_shows : forall m l, inv m l -> shows_flags m l.
Proof.
  intros m l H. pose proof H as (Hs & Hn & Hh & Hd). repeat split.
  - assumption.
  - intros i v. apply is_valid_ok; assumption.
  - unfold null_count. rewrite (count_loop_ok m l H) by lia. reflexivity.
  - unfold null_count_fast. rewrite Hh. destruct (some_null l) eqn:E; cbn [negb]; [assumption|].
    symmetry. apply nulls_in_none; assumption.
  - assumption.
  - rewrite H0 in Hd. apply Hd.
  - rewrite H0 in Hd. apply Hd.
  - rewrite H0 in Hd. apply Hd.
  - destruct (finalize_ok m l H) as (m' & E & _ & Hb). eauto.
Qed.
