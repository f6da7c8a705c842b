From Verif Require Import Base ErrorsSpec ReaderModel TypesModel ErrorsModel.
From Coq Require Import Permutation Sorted.

(** ** Adding *)
Lemma add_errors_exact : forall es c,
  let r := fold_left add_error es c in
  c_mode r = c_mode c /\ c_max r = c_max c /\
  c_errors r = c_errors c ++ firstn (c_max c - length (c_errors c)) es /\
  c_suppressed r = c_suppressed c + (length es - (c_max c - length (c_errors c))) /\
  c_fatal r = c_fatal c || existsb is_fatal es.
Proof.
  induction es as [|e es IH]; intros c; cbn [fold_left].
  - cbv zeta. cbn [existsb length]. rewrite firstn_nil, app_nil_r, orb_false_r. repeat split; lia.
  - cbv zeta in *. destruct (IH (add_error c e)) as (H1 & H2 & H3 & H4 & H5). rewrite H1, H2, H3, H4, H5. clear IH H1 H2 H3 H4 H5.
    unfold add_error. destruct (Nat.leb_spec (c_max c) (length (c_errors c))) as [Hle|Hlt];
      cbn [c_mode c_max c_errors c_fatal c_suppressed existsb length].
    + replace (c_max c - length (c_errors c)) with 0 by lia. cbn [firstn]. rewrite app_nil_r.
      repeat split; try lia. unfold is_fatal at 2. destruct (e_severity e), (c_fatal c); reflexivity.
    + rewrite app_length. cbn [length].
      replace (c_max c - length (c_errors c)) with (S (c_max c - (length (c_errors c) + 1))) by lia.
      cbn [firstn]. rewrite <- app_assoc. repeat split; try lia.
      unfold is_fatal at 2. destruct (e_severity e), (c_fatal c); reflexivity.
Qed.

(** ** Merging *)
Lemma merge_errors : forall c o,
  c_errors (merge_from c o) = firstn (max (c_max c) (length (c_errors c))) (c_errors c ++ c_errors o).
Proof.
  intros c o. unfold merge_from. destruct (c_errors o) as [|e es] eqn:E.
  - cbn [c_errors]. rewrite app_nil_r, firstn_all2 by lia. reflexivity.
  - rewrite <- E. cbv zeta. cbn [c_errors]. rewrite firstn_app.
    rewrite (firstn_all2 (c_errors c)) by lia. f_equal.
    assert (F : forall (l : list error) n, firstn (Nat.min n (length l)) l = firstn n l).
    { intros l n. destruct (Nat.min_spec n (length l)) as [(_ & ->)|(H & ->)]; [reflexivity|].
      rewrite !firstn_all2 by lia. reflexivity. }
    rewrite F. f_equal. destruct (Nat.ltb_spec (length (c_errors c)) (c_max c)); lia.
Qed.
Lemma merge_suppressed : forall c o,
  c_suppressed (merge_from c o) + length (c_errors (merge_from c o)) =
  c_suppressed c + c_suppressed o + (length (c_errors c) + length (c_errors o)).
Proof.
  intros c o. unfold merge_from. destruct (c_errors o) as [|e es] eqn:E.
  - cbn [c_errors c_suppressed length]. lia.
  - rewrite <- E. cbv zeta. cbn [c_errors c_suppressed]. rewrite app_length, firstn_length.
    set (a := if length (c_errors c) <? c_max c then _ else 0).
    destruct (Nat.ltb_spec (Nat.min a (length (c_errors o))) (length (c_errors o))); lia.
Qed.
Lemma merge_fields : forall c o, c_mode (merge_from c o) = c_mode c /\ c_max (merge_from c o) = c_max c /\
  c_fatal (merge_from c o) = c_fatal c || c_fatal o.
Proof.
  intros c o. unfold merge_from. destruct (c_errors o); cbn [c_mode c_max c_fatal]; destruct (c_fatal o), (c_fatal c); auto.
Qed.

Lemma firstn_prefix : forall A n (x y : list A), firstn n (firstn n x ++ y) = firstn n (x ++ y).
Proof. induction n as [|n IH]; intros [|a x] y; cbn [firstn app]; try reflexivity. f_equal. apply IH. Qed.

Lemma merge_all : forall cs c,
  let r := fold_left merge_from cs c in
  c_mode r = c_mode c /\ c_max r = c_max c /\
  c_fatal r = c_fatal c || existsb c_fatal cs /\
  c_errors r = firstn (max (c_max c) (length (c_errors c))) (c_errors c ++ concat (map c_errors cs)) /\
  c_suppressed r + length (c_errors r) =
    c_suppressed c + list_sum (map c_suppressed cs) + (length (c_errors c) + length (concat (map c_errors cs))).
Proof.
  induction cs as [|o cs IH]; intros c; cbn [fold_left].
  - cbv zeta. cbn [existsb map concat list_sum fold_right length]. rewrite orb_false_r, app_nil_r, firstn_all2 by lia. repeat split; lia.
  - cbv zeta in *. destruct (IH (merge_from c o)) as (H1 & H2 & H3 & H4 & H5).
    destruct (merge_fields c o) as (M1 & M2 & M3). pose proof (merge_suppressed c o) as M4. pose proof (merge_errors c o) as M5.
    rewrite H1, H2, H3. cbn [existsb map concat]. change (list_sum (c_suppressed o :: map c_suppressed cs)) with (c_suppressed o + list_sum (map c_suppressed cs)).
    rewrite M1, M2, M3, orb_assoc, app_length. repeat split.
    + rewrite H4, M2. set (L := max (c_max c) (length (c_errors c))) in *.
      assert (HL : max (c_max c) (length (c_errors (merge_from c o))) = L).
      { rewrite M5, firstn_length, app_length. unfold L. lia. }
      rewrite HL, M5, app_assoc. apply firstn_prefix.
    + rewrite H5. lia.
Qed.

(** ** Histories *)
Definition einv (c : collector) (l : log) : Prop :=
  c_mode c = l_mode l /\ c_max c = l_limit l /\ l_limit l <= l_cap l /\
  length (c_errors c) + c_suppressed c = length (l_reported l) /\
  length (c_errors c) <= l_cap l /\
  c_fatal c = existsb is_fatal (l_reported l) /\
  exists rest, Permutation (c_errors c ++ rest) (l_reported l).

Lemma put_Forall2 : forall A B (R : A -> B -> Prop) la lb i a b,
  Forall2 R la lb -> R a b -> Forall2 R (put la i a) (put lb i b).
Proof. intros A B R la lb i a b H; revert i. induction H; intros [|i] Hab; cbn [put]; constructor; auto. Qed.
Lemma put_same : forall A B (R : A -> B -> Prop) la lb i a b,
  Forall2 R la lb -> nth_error lb i = Some b -> R a b -> Forall2 R (put la i a) lb.
Proof.
  intros A B R la lb i a b H; revert i. induction H; intros [|i] E Hab; cbn [put nth_error] in *; try discriminate; constructor; eauto.
  injection E as ->. assumption.
Qed.
Lemma EF2_nth : forall A B (R : A -> B -> Prop) la lb i b,
  Forall2 R la lb -> nth_error lb i = Some b -> exists a, nth_error la i = Some a /\ R a b.
Proof.
  intros A B R la lb i b H; revert i. induction H; intros [|i] E; cbn in *; try discriminate.
  - injection E as <-. eauto.
  - eauto.
Qed.
Lemma lookup_rel : forall A B (R : A -> B -> Prop) la lb ks bs,
  Forall2 R la lb -> lookup lb ks = Some bs -> exists xs, lookup la ks = Some xs /\ Forall2 R xs bs.
Proof.
  intros A B R la lb ks. induction ks as [|k ks IH]; intros bs HF E; cbn [lookup] in *.
  - injection E as <-. exists []. auto.
  - destruct (nth_error lb k) as [b|] eqn:Ek; [|discriminate]. destruct (lookup lb ks) as [l|] eqn:El; [|discriminate].
    injection E as <-. destruct (EF2_nth _ _ _ _ _ _ _ HF Ek) as (a & -> & Ha).
    destruct (IH l HF eq_refl) as (xs & -> & Hx). exists (a :: xs). split; [reflexivity|]. constructor; assumption.
Qed.

Lemma einv_merge : forall c l o m, einv c l -> einv o m -> einv (merge_from c o) (merge_log l m).
Proof.
  intros c l o m (C1 & C2 & C3 & C4 & C5 & C6 & rc & C7) (O1 & O2 & O3 & O4 & O5 & O6 & ro & O7).
  destruct (merge_fields c o) as (M1 & M2 & M3). pose proof (merge_suppressed c o) as M4. pose proof (merge_errors c o) as M5.
  unfold einv, merge_log. cbn [l_mode l_limit l_cap l_reported].
  split; [congruence|]. split; [congruence|]. split; [assumption|]. split; [rewrite app_length; lia|].
  split; [rewrite M5, firstn_length, app_length; lia|].
  split; [rewrite M3, existsb_app, C6, O6; reflexivity|].
  exists (skipn (max (c_max c) (length (c_errors c))) (c_errors c ++ c_errors o) ++ rc ++ ro).
  rewrite M5, app_assoc, firstn_skipn.
  rewrite <- C7, <- O7. rewrite <- !app_assoc. apply Permutation_app_head.
  rewrite !app_assoc. apply Permutation_app_tail. apply Permutation_app_comm.
Qed.

Lemma einv_fold : forall cs ls c l, Forall2 einv cs ls -> einv c l -> einv (fold_left merge_from cs c) (fold_left merge_log ls l).
Proof.
  intros cs ls c l HF; revert c l. induction HF; intros c l0 H0; cbn [fold_left]; auto. apply IHHF. apply einv_merge; assumption.
Qed.

Lemma einv_sort : forall sort c l, sorts sort -> einv c l -> einv (sort_by_offset sort c) l.
Proof.
  intros sort c l Hs (C1 & C2 & C3 & C4 & C5 & C6 & rc & C7). destruct (Hs (c_errors c)) as (P & _).
  unfold einv, sort_by_offset. cbn [c_mode c_max c_errors c_fatal c_suppressed].
  rewrite (Permutation_length P). repeat split; auto. exists rc. rewrite P. assumption.
Qed.

Lemma einv_add : forall c l e, einv c l -> einv (add_error c e) (Log (l_reported l ++ [e]) (l_mode l) (l_limit l) (l_cap l)).
Proof.
  intros c l e (C1 & C2 & C3 & C4 & C5 & C6 & rc & C7). unfold einv, add_error. cbn [l_mode l_limit l_cap l_reported].
  rewrite app_length, existsb_app. cbn [length existsb]. rewrite orb_false_r.
  assert (Hf : match e_severity e with FATAL => true | _ => c_fatal c end = existsb is_fatal (l_reported l) || is_fatal e).
  { rewrite <- C6. unfold is_fatal. destruct (e_severity e), (c_fatal c); reflexivity. }
  destruct (Nat.leb_spec (c_max c) (length (c_errors c))); cbn [c_mode c_max c_errors c_fatal c_suppressed].
  - repeat split; auto; try lia. exists (rc ++ [e]). rewrite app_assoc. apply Permutation_app_tail. assumption.
  - rewrite app_length. cbn [length]. repeat split; auto; try lia. exists rc.
    rewrite <- C7. rewrite <- !app_assoc. apply Permutation_app_head. apply Permutation_app_comm.
Qed.

Lemma estep_ok : forall sort o st lt lt', sorts sort -> Forall2 einv st lt -> spec_estep lt o = Some lt' ->
  exists st', estep sort st o = Some st' /\ Forall2 einv st' lt'.
Proof.
  intros sort o st lt lt' Hsort HF.
  assert (One : forall h f g, (forall c l, einv c l -> einv (f c) (g l)) ->
     option_map (fun l => put lt h (g l)) (nth_error lt h) = Some lt' ->
     exists st', option_map (fun c => put st h (f c)) (nth_error st h) = Some st' /\ Forall2 einv st' lt').
  { intros h f g Hfg E. destruct (nth_error lt h) as [l|] eqn:El; [|discriminate]. injection E as <-.
    destruct (EF2_nth _ _ _ _ _ _ _ HF El) as (c & -> & Hc). eexists; split; [reflexivity|]. apply put_Forall2; auto. }
  destruct o as [m n|h e|h|h m|h n|h k|h ks|h]; cbn [spec_estep estep].
  - intros E. injection E as <-. eexists; split; [reflexivity|]. apply Forall2_app; [assumption|]. constructor; [|constructor].
    unfold einv, new_collector. cbn. repeat split; auto; try lia. exists []. constructor.
  - apply One. intros; apply einv_add; assumption.
  - apply One. intros c l (C1 & C2 & C3 & C4 & C5 & C6 & rc & C7). unfold einv, clear. cbn.
    repeat split; auto; try lia. exists []. constructor.
  - apply One. intros c l (C1 & C2 & C3 & C4 & C5 & C6 & rc & C7). unfold einv, set_mode. cbn. repeat split; eauto.
  - apply One. intros c l (C1 & C2 & C3 & C4 & C5 & C6 & rc & C7). unfold einv, set_max_errors. cbn [l_mode l_limit l_cap l_reported c_mode c_max c_errors c_fatal c_suppressed].
    repeat split; eauto; lia.
  - destruct (nth_error lt h) as [a|] eqn:Ea; [|discriminate]. destruct (nth_error lt k) as [b|] eqn:Eb; [|discriminate].
    intros E. injection E as <-. destruct (EF2_nth _ _ _ _ _ _ _ HF Ea) as (x & -> & Hx).
    destruct (EF2_nth _ _ _ _ _ _ _ HF Eb) as (y & -> & Hy). eexists; split; [reflexivity|].
    apply put_Forall2; [assumption|]. apply einv_merge; assumption.
  - destruct (existsb (Nat.eqb h) ks); [discriminate|].
    destruct (nth_error lt h) as [a|] eqn:Ea; [|discriminate]. destruct (lookup lt ks) as [bs|] eqn:Eb; [|discriminate].
    intros E. injection E as <-. destruct (EF2_nth _ _ _ _ _ _ _ HF Ea) as (x & -> & Hx).
    destruct (lookup_rel _ _ _ _ _ _ _ HF Eb) as (xs & -> & Hxs). eexists; split; [reflexivity|].
    apply put_Forall2; [assumption|]. unfold merge_sorted. apply einv_sort; [assumption|]. apply einv_fold; assumption.
  - destruct (nth_error lt h) as [l|] eqn:El; [|discriminate]. intros E. injection E as <-.
    destruct (EF2_nth _ _ _ _ _ _ _ HF El) as (c & -> & Hc). eexists; split; [reflexivity|].
    eapply put_same; eauto. apply einv_sort; assumption.
Qed.

Lemma erun_ok : forall sort ops st lt lt', sorts sort -> Forall2 einv st lt -> spec_erun lt ops = Some lt' ->
  exists st', erun sort st ops = Some st' /\ Forall2 einv st' lt'.
Proof.
  intros sort ops. induction ops as [|o ops IH]; intros st lt lt' Hs HF E; cbn [spec_erun erun] in *.
  - injection E as <-. eauto.
  - destruct (spec_estep lt o) as [lt1|] eqn:E1; [|discriminate].
    destruct (estep_ok _ _ _ _ _ Hs HF E1) as (st1 & -> & H1). eauto.
Qed.

Lemma einv_consequences : forall c l, einv c l ->
  error_count c + c_suppressed c = length (l_reported l) /\
  error_count c <= l_cap l /\
  c_fatal c = existsb is_fatal (l_reported l) /\
  (exists rest, Permutation (c_errors c ++ rest) (l_reported l)) /\
  (c_suppressed c = 0 -> Permutation (c_errors c) (l_reported l)) /\
  (has_errors c = true \/ c_suppressed c = 0 -> should_stop c = documented_stop (l_mode l) (l_reported l)).
Proof.
  intros c l (C1 & C2 & C3 & C4 & C5 & C6 & rc & C7). unfold error_count.
  split; [assumption|]. split; [assumption|]. split; [assumption|]. split; [eauto|]. split.
  - intros Z. pose proof (Permutation_length C7) as L. rewrite app_length in L.
    destruct rc as [|x rc]; [rewrite app_nil_r in C7; assumption|]. cbn [length] in L. lia.
  - intros Hor. unfold should_stop, documented_stop, has_errors in *. rewrite <- C1. destruct (c_mode c); try reflexivity; [|assumption].
    destruct (Nat.eqb_spec (length (c_errors c)) 0) as [Z|Z]; cbn [negb] in *.
    + destruct Hor as [Hor|Hor]; [discriminate|].
      destruct (Nat.eqb_spec (length (l_reported l)) 0) as [Z'|Z']; [|lia]. cbn [negb]. rewrite C6.
      destruct (l_reported l); [reflexivity|discriminate].
    + destruct (Nat.eqb_spec (length (l_reported l)) 0) as [Z'|Z']; [lia|reflexivity].
Qed.

(** ** Header validation *)
Definition dup_error (names : list bytes) (i : nat) : error :=
  Error DUPLICATE_COLUMN_NAMES WARNING 1 (i + 1) 0 (nth i names []).

Lemma bytes_eqb_spec : forall a b, bytes_eqb a b = true <-> a = b.
Proof.
  induction a as [|x a IH]; intros [|y b]; cbn [bytes_eqb]; split; intros H; try reflexivity; try discriminate.
  - apply andb_true_iff in H as [H1 H2]. apply N.eqb_eq in H1. apply IH in H2. congruence.
  - injection H as -> ->. rewrite N.eqb_refl. apply IH. reflexivity.
Qed.

Definition occurs (n : bytes) (l : list bytes) : bool := existsb (bytes_eqb n) l.
Lemma occurs_in : forall n l, occurs n l = true <-> In n l.
Proof.
  intros n l. unfold occurs. rewrite existsb_exists. split.
  - intros (x & Hx & E). apply bytes_eqb_spec in E. subst. assumption.
  - intros H. exists n. split; [assumption|]. apply bytes_eqb_spec. reflexivity.
Qed.

(** The reported positions. *)
Definition is_dup (names : list bytes) (i : nat) : bool :=
  match nth_error names i with
  | Some (b :: n) => occurs (b :: n) (firstn i names)
  | _ => false
  end.

Lemma dup_loop : forall names c pre seen,
  (forall n, n <> [] -> In n seen <-> In n pre) ->
  duplicates_loop c names (length pre) seen =
  fold_left add_error (map (dup_error (pre ++ names)) (filter (is_dup (pre ++ names)) (seq (length pre) (length names)))) c.
Proof.
  induction names as [|n names IH]; intros c pre seen Hs; cbn [duplicates_loop length seq filter map fold_left]; [reflexivity|].
  assert (Hn : nth_error (pre ++ n :: names) (length pre) = Some n) by (rewrite nth_error_app2, Nat.sub_diag by lia; reflexivity).
  assert (Hd : is_dup (pre ++ n :: names) (length pre) = match n with [] => false | _ => occurs n pre end).
  { unfold is_dup. rewrite Hn. rewrite firstn_app, firstn_all, Nat.sub_diag. cbn [firstn]. rewrite app_nil_r. destruct n; reflexivity. }
  assert (Hl : length (pre ++ [n]) = S (length pre)) by (rewrite app_length; cbn [length]; lia).
  assert (Ha : (pre ++ [n]) ++ names = pre ++ n :: names) by (rewrite <- app_assoc; reflexivity).
  rewrite Hd. destruct n as [|b n].
  - specialize (IH c (pre ++ [[]]) seen). rewrite Hl, Ha in IH. apply IH.
    intros m Hm. rewrite in_app_iff. cbn [In]. rewrite (Hs m Hm). intuition congruence.
  - change (existsb (bytes_eqb (b :: n)) seen) with (occurs (b :: n) seen).
    assert (Ho : occurs (b :: n) seen = occurs (b :: n) pre).
    { apply eq_true_iff_eq. rewrite !occurs_in. apply Hs. discriminate. }
    rewrite Ho. destruct (occurs (b :: n) pre) eqn:E.
    + cbn [map fold_left].
      assert (Hde : dup_error (pre ++ (b :: n) :: names) (length pre) = Error DUPLICATE_COLUMN_NAMES WARNING 1 (length pre + 1) 0 (b :: n)).
      { unfold dup_error. f_equal. apply nth_error_nth. assumption. }
      rewrite Hde. specialize (IH (add_error c (Error DUPLICATE_COLUMN_NAMES WARNING 1 (length pre + 1) 0 (b :: n))) (pre ++ [b :: n]) seen).
      rewrite Hl, Ha in IH. apply IH.
      intros m Hm. rewrite in_app_iff. cbn [In]. rewrite (Hs m Hm). apply occurs_in in E.
      split; [tauto|]. intros [H|[<-|[]]]; assumption.
    + specialize (IH c (pre ++ [b :: n]) ((b :: n) :: seen)). rewrite Hl, Ha in IH. apply IH.
      intros m Hm. rewrite in_app_iff. cbn [In]. rewrite (Hs m Hm). tauto.
Qed.

Lemma is_dup_repeats : forall names i, is_dup names i = true <-> repeats names i.
Proof.
  intros names i. unfold is_dup, repeats. destruct (nth_error names i) as [[|b n]|] eqn:E.
  - split; [discriminate|]. intros (j & n & _ & _ & E' & Hn). congruence.
  - rewrite occurs_in. split.
    + intros H. apply In_nth_error in H as (j & Hj).
      assert (Hlt : j < i).
      { assert (j < length (firstn i names)) by (apply nth_error_Some; congruence). rewrite firstn_length in H. lia. }
      exists j, (b :: n). split; [assumption|]. split; [|split; [reflexivity|discriminate]].
      rewrite <- Hj. clear - Hlt. revert j names Hlt. induction i as [|i IH]; intros j names Hlt; [lia|].
      destruct names, j; cbn; try reflexivity. apply IH. lia.
    + intros (j & m & Hlt & Ej & Ei & Hm). injection Ei as <-.
      assert (Hj : nth_error (firstn i names) j = Some (b :: n)).
      { rewrite <- Ej. clear - Hlt. revert j names Hlt. induction i as [|i IH]; intros j names Hlt; [lia|].
        destruct names, j; cbn; try reflexivity. apply IH. lia. }
      eapply nth_error_In; eauto.
  - split; [discriminate|]. intros (j & n & _ & _ & E' & _). congruence.
Qed.

Lemma seq_sorted : forall n k, StronglySorted lt (seq k n).
Proof.
  induction n as [|n IH]; intros k; cbn [seq]; constructor; [apply IH|].
  apply Forall_forall. intros x Hx. apply in_seq in Hx. lia.
Qed.

Lemma header_duplicates : forall m limit names, m <> DISABLED -> ~ header_is_empty names ->
  let '(c, ok) := validate_header (new_collector m limit) names in
  ok = true /\ c_fatal c = false /\
  exists dups, (forall i, In i dups <-> repeats names i) /\ StronglySorted lt dups /\
    c_errors c = firstn limit (map (dup_error names) dups) /\
    error_count c + c_suppressed c = length dups.
Proof.
  intros m limit names Hm Hne. unfold validate_header.
  assert (He : is_enabled (new_collector m limit) = true) by (destruct m; [contradiction| | | ]; reflexivity).
  rewrite He. 
  assert (Hemp : match names with [] => true | [n] => match n with [] => true | _ => false end | _ => false end = false).
  { unfold header_is_empty in Hne. destruct names as [|[|b n] [|x r]]; try reflexivity; exfalso; apply Hne; auto. }
  rewrite Hemp. split; [reflexivity|].
  pose proof (dup_loop names (new_collector m limit) [] [] (fun n _ => iff_refl _)) as D. cbn [length app] in D. rewrite D.
  set (dups := filter (is_dup names) (seq 0 (length names))).
  destruct (add_errors_exact (map (dup_error names) dups) (new_collector m limit)) as (_ & _ & H3 & H4 & H5).
  cbn [new_collector c_errors c_max c_suppressed c_fatal length] in H3, H4, H5. rewrite Nat.sub_0_r in H3, H4.
  assert (Hfat : existsb is_fatal (map (dup_error names) dups) = false).
  { generalize dups. intros d. induction d as [|i d IH]; [reflexivity|]. exact IH. }
  split; [rewrite H5, Hfat; reflexivity|].
  exists dups. split; [|split; [|split]].
  - intros i. unfold dups. rewrite filter_In, in_seq, is_dup_repeats. split; [tauto|]. intros H. split; [|assumption].
    destruct H as (j & n & _ & _ & E & _). assert (i < length names) by (apply nth_error_Some; congruence). lia.
  - unfold dups. assert (S : forall l, StronglySorted lt l -> StronglySorted lt (filter (is_dup names) l)).
    { intros l H. induction H as [|a l Hl IH Ha]; cbn [filter]; [constructor|].
      destruct (is_dup names a); [|assumption]. constructor; [assumption|].
      apply Forall_forall. intros x Hx. apply filter_In in Hx as [Hx _]. rewrite Forall_forall in Ha. auto. }
    apply S. apply seq_sorted.
  - exact H3.
  - unfold error_count. rewrite H3, H4. cbn [app]. rewrite firstn_length, map_length. lia.
Qed.

Lemma header_empty : forall m limit names, m <> DISABLED -> header_is_empty names ->
  let '(c, ok) := validate_header (new_collector m limit) names in
  c_fatal c = true /\ error_count c + c_suppressed c = 1 /\
  ok = match m with BEST_EFFORT => true | _ => false end.
Proof.
  intros m limit names Hm Hn. unfold validate_header.
  assert (He : is_enabled (new_collector m limit) = true) by (destruct m; [contradiction| | | ]; reflexivity).
  rewrite He. destruct Hn as [->| ->]; cbn [duplicates_loop];
    (destruct m; [contradiction| | | ]); unfold new_collector, add_error, should_stop, has_errors, error_count;
    cbn [c_max c_errors length c_mode c_suppressed c_fatal e_severity];
    destruct limit; cbn [Nat.leb]; cbn; auto.
Qed.

Lemma header_disabled : forall limit names,
  validate_header (new_collector DISABLED limit) names = (new_collector DISABLED limit, true).
Proof. reflexivity. Qed.

(** ** The summary line *)
Definition paren_count (b : N) (l : bytes) : nat := length (filter (N.eqb b) l).
Lemma paren_app : forall b x y, paren_count b (x ++ y) = paren_count b x + paren_count b y.
Proof. intros. unfold paren_count. rewrite filter_app, app_length. reflexivity. Qed.
Lemma paren_digits : forall b fuel n, (b < 48)%N -> paren_count b (decimal_digits fuel n) = 0.
Proof.
  intros b fuel. induction fuel as [|f IH]; intros n Hb; cbn [decimal_digits]; [reflexivity|].
  rewrite paren_app. assert (H : paren_count b [(48 + N.of_nat (n mod 10))%N] = 0).
  { unfold paren_count. cbn [filter]. destruct (N.eqb_spec b (48 + N.of_nat (n mod 10))); [lia|reflexivity]. }
  rewrite H. destruct (n <? 10); [reflexivity|]. rewrite IH by assumption. reflexivity.
Qed.
Lemma severities_total : forall l,
  count_severity WARNING l + count_severity RECOVERABLE l + count_severity FATAL l = length l.
Proof.
  intros l. unfold count_severity. induction l as [|e l IH]; [reflexivity|]. cbn [filter length].
  destruct (e_severity e); cbn [length]; lia.
Qed.
Lemma summary_parens : forall c,
  let l := summary_first_line c in
  paren_count 40 l = (if 0 <? count_severity WARNING (c_errors c) then 1 else 0) /\
  paren_count 41 l = (if 0 <? length (c_errors c) then 1 else 0).
Proof.
  intros c. cbv zeta. unfold summary_first_line, number. pose proof (severities_total (c_errors c)) as T.
  destruct (c_errors c) as [|e es] eqn:E.
  - destruct (c_suppressed c); cbv [count_severity filter length Nat.ltb Nat.leb orb app]; [split; reflexivity|].
    rewrite !paren_app, !paren_digits by reflexivity. split; reflexivity.
  - rewrite <- E in *. assert (L : 0 < length (c_errors c)) by (rewrite E; cbn [length]; lia).
    destruct (c_suppressed c);
    (destruct (Nat.ltb_spec 0 (count_severity WARNING (c_errors c))), (Nat.ltb_spec 0 (count_severity RECOVERABLE (c_errors c))),
      (Nat.ltb_spec 0 (count_severity FATAL (c_errors c))), (Nat.ltb_spec 0 (length (c_errors c))); try lia;
     cbn [orb]; rewrite !paren_app, !paren_digits by reflexivity; split; reflexivity).
Qed.
Lemma warning_iff : forall l,
  (if 0 <? count_severity WARNING l then 1 else 0) = (if 0 <? length l then 1 else 0) <->
  (l = [] \/ exists e, In e l /\ e_severity e = WARNING).
Proof.
  intros l. assert (W : 0 < count_severity WARNING l <-> exists e, In e l /\ e_severity e = WARNING).
  { unfold count_severity. split.
    - intros H. destruct (filter _ l) as [|e r] eqn:E; [cbn in H; lia|].
      assert (I : In e (e :: r)) by (left; reflexivity). rewrite <- E in I. apply filter_In in I as (I & Hs).
      exists e. split; [assumption|]. destruct (e_severity e); try discriminate; reflexivity.
    - intros (e & I & Hs). assert (J : In e (filter (fun e => match e_severity e, WARNING with
                           | WARNING, WARNING | RECOVERABLE, RECOVERABLE | FATAL, FATAL => true
                           | _, _ => false end) l)) by (apply filter_In; rewrite Hs; auto).
      destruct (filter _ l); [contradiction|]. cbn [length]. lia. }
  rewrite <- W. destruct (Nat.ltb_spec 0 (count_severity WARNING l)) as [A|A], (Nat.ltb_spec 0 (length l)) as [B|B].
  - split; auto.
  - pose proof (severities_total l). lia.
  - split; [discriminate|]. intros [->|H]; [cbn in B|]; lia.
  - split; [|auto]. intros _. left. destruct l; [reflexivity|cbn in B; lia].
Qed.

Lemma error_limit : forall c e,
  (at_error_limit c = true -> c_errors (add_error c e) = c_errors c /\ c_suppressed (add_error c e) = S (c_suppressed c)) /\
  (at_error_limit c = false -> c_errors (add_error c e) = c_errors c ++ [e] /\ c_suppressed (add_error c e) = c_suppressed c) /\
  (forall m limit es, at_error_limit (fold_left add_error es (new_collector m limit)) = true <-> limit <= length es) /\
  (forall n, at_error_limit (set_max_errors c n) = true <-> n <= error_count c) /\
  (at_error_limit (clear c) = true <-> c_max c = 0).
Proof.
  intros c e. unfold add_error, at_error_limit.
  split; [intros H; rewrite H; auto|]. split; [intros H; rewrite H; auto|]. split; [|split].
  - intros m limit es. destruct (add_errors_exact es (new_collector m limit)) as (_ & H2 & H3 & _ & _).
    cbn [new_collector c_errors c_max length] in H2, H3. unfold add_error in H2, H3. rewrite H2, H3, Nat.leb_le.
    cbn [app]. rewrite ?Nat.sub_0_r, firstn_length. lia.
  - intros n. cbn [set_max_errors c_max c_errors]. rewrite Nat.leb_le. reflexivity.
  - cbn [clear c_max c_errors length]. rewrite Nat.leb_le. lia.
Qed.
