(** NullBitmap::set, exactly. *)
From Verif Require Import Base BuffersSpec BuffersSpec2 BuffersModel BuffersObs BuffersProof BuffersProof3.

Definition inv2 (m : bitmap) (s : list bool * nat) : Prop :=
  inv m (fst s) /\ snd s <= length (fst s) /\
  (some_null (fst s) = false -> bm_data m = repeat 255%N (bytes_for (snd s))).

Lemma inv2_new : inv2 bm_new ([], 0).
Proof. split; [apply inv_new|]. split; [reflexivity|]. intros _. reflexivity. Qed.

Lemma two_simulate : simulates inv2 bitmap_impl flags_and_finalized.
Proof.
  constructor; cbn [bitmap_impl flags_and_finalized i_new i_push i_append i_clear i_finalize].
  - apply inv2_new.
  - intros m (l, f) e l' (H & Hf & Hd) E. cbn [fst snd] in *. injection E as <-.
    destruct (push_ok m l e H) as (m' & E & H'). exists m'. split; [exact E|].
    split; [exact H'|]. cbn [fst snd]. split; [rewrite app_length; lia|].
    intros NN. rewrite some_null_app in NN. apply orb_false_iff in NN. destruct NN as (N1 & N2).
    destruct e; [|discriminate]. cbn [bm_push] in E. unfold push_back_valid in E.
    destruct H as (_ & _ & Hh & _). rewrite Hh, N1 in E. cbn [negb] in E. injection E as <-. auto.
  - intros m (l, f) t (lo, fo) l' (H & Hf & Hd) (Ho & _ & _) E. cbn [fst snd] in *. injection E as <-.
    destruct (append_ok m l t lo H Ho) as (m' & E & H'). exists m'. split; [exact E|].
    split; [exact H'|]. cbn [fst snd]. split; [rewrite app_length; lia|].
    intros NN. rewrite some_null_app in NN. apply orb_false_iff in NN. destruct NN as (N1 & N2).
    unfold bm_append_from in E. destruct H as (_ & _ & Hh & _). destruct Ho as (_ & _ & Hho & _).
    destruct (bm_size t =? 0); [injection E as <-; auto|].
    rewrite Hho, N2, Hh, N1 in E. cbn [negb] in E. injection E as <-. auto.
  - intros m (l, f) l' _ E. injection E as <-. eexists. split; [reflexivity|]. apply inv2_new.
  - intros m (l, f) l' (H & Hf & Hd) E. cbn [fst snd] in *. injection E as <-.
    destruct (finalize_ok m l H) as (m' & E & H' & _). exists m'. split; [exact E|].
    split; [exact H'|]. cbn [fst snd]. split; [lia|]. intros NN. specialize (Hd NN).
    unfold bm_finalize in E. injection E as <-. destruct H as (Hs & _ & Hh & _).
    rewrite Hh, NN. cbn [negb andb]. destruct (Nat.ltb_spec 0 (bm_size m)) as [P|P].
    + cbn [bm_data]. rewrite Hd, Hs, resize_repeat by (apply bytes_for_mono; lia). reflexivity.
    + assert (length l = 0) by lia. rewrite H. assert (f = 0) by lia. subst f. exact Hd.
Qed.

Lemma nulls_update : forall (l : list bool) i v, nth_error l i = Some v -> update l i v = l.
Proof.
  induction l as [|x l IH]; intros [|i] v E; cbn in *; try discriminate.
  - injection E as ->. reflexivity.
  - f_equal. auto.
Qed.
Lemma nulls_changed : forall l i w v, nth_error l i = Some w -> nulls_in (update l i v) = nulls_in l -> w = v.
Proof.
  unfold nulls_in. induction l as [|x l IH]; intros [|i] w v E H; cbn [update filter nth_error] in *; try discriminate.
  - injection E as ->. destruct w, v; cbn [negb length] in H; try reflexivity; lia.
  - destruct (negb x); cbn [length] in H; [injection H as H|]; eauto.
Qed.

Lemma count_loop_shown m l : (forall i v, nth_error l i = Some v -> is_valid m i = Some v) ->
  forall n i c, i + n = length l -> count_loop m n i c = Some (c + nulls_in (skipn i l)).
Proof.
  intros H. induction n as [|n IH]; intros i c E; cbn [count_loop].
  - rewrite skipn_all2 by lia. cbn. rewrite Nat.add_0_r. reflexivity.
  - destruct (nth_error l i) as [v|] eqn:Ev.
    2:{ apply nth_error_None in Ev. lia. }
    rewrite (H _ _ Ev), IH by lia.
    assert (Hsk : skipn i l = v :: skipn (S i) l).
    { clear - Ev. revert i Ev. induction l as [|x lo IH]; intros [|i] Ev; cbn in Ev; try discriminate.
      * injection Ev as ->. reflexivity.
      * change (skipn i lo = v :: skipn (S i) lo). auto. }
    rewrite Hsk. f_equal. unfold nulls_in. cbn [filter]. destruct v; cbn [negb length]; lia.
Qed.

Lemma nth_repeat_255 k j : nth_error (repeat 255%N k) j = if j <? k then Some 255%N else None.
Proof.
  revert j; induction k as [|k IH]; intros [|j]; cbn [repeat nth_error]; try reflexivity. rewrite IH. reflexivity.
Qed.

Lemma set_cases m flags f i v : inv2 m (flags, f) -> i < length flags ->
  match bm_set m i v with
  | None => ~ stored flags f i
  | Some m' =>
      stored flags f i /\ bm_size m' = length flags /\
      (forall j w, nth_error (if some_null flags then update flags i v else flags) j = Some w -> is_valid m' j = Some w) /\
      null_count m' = Some (nulls_in (if some_null flags then update flags i v else flags)) /\
      null_count_fast m' = nulls_in flags
  end.
Proof.
  intros (H & Hf & Hd) Hi. cbn [fst snd] in *. unfold stored.
  destruct (some_null flags) eqn:NN.
  - destruct (set_ok m flags i v H NN Hi) as (m' & E & Hsz & HV). rewrite E.
    pose proof H as (Hs & Hn & Hh & _).
    split; [auto|]. split; [congruence|]. split; [exact HV|].
    assert (Em : bm_null_count m' = bm_null_count m /\ bm_has_nulls m' = bm_has_nulls m).
    { unfold bm_set in E. destruct ((if v then or_at else clear_at) _ _ _); [|discriminate]. injection E as <-. auto. }
    destruct Em as (E1 & E2). split.
    + unfold null_count. rewrite (count_loop_shown m' (update flags i v) HV).
      * reflexivity.
      * rewrite update_length. lia.
    + unfold null_count_fast. rewrite E1, E2, Hh, NN. cbn [negb]. exact Hn.
  - specialize (Hd eq_refl). pose proof H as (Hs & Hn & Hh & _).
    assert (SET : bm_set m i v = match nth_error (bm_data m) (i / 8) with
      | None => None
      | Some b => Some (Bitmap (update (bm_data m) (i / 8) (if v then N.lor b (bit_mask (i mod 8)) else N.ldiff b (bit_mask (i mod 8))))
            (bm_size m) (bm_null_count m) (bm_has_nulls m)) end).
    { unfold bm_set, or_at, clear_at. destruct v; destruct (nth_error (bm_data m) (i / 8)); reflexivity. }
    rewrite SET, Hd, nth_repeat_255. destruct (Nat.ltb_spec (i / 8) (bytes_for f)) as [L|L].
    + split; [auto|]. cbn [bm_size]. split; [exact Hs|].
      assert (HV : forall m', bm_has_nulls m' = false -> forall j w, nth_error flags j = Some w -> is_valid m' j = Some w).
      { intros m' E j w Hj. unfold is_valid. rewrite E. cbn [negb]. rewrite (no_null_all_true _ _ _ NN Hj). reflexivity. }
      split; [apply HV; cbn [bm_has_nulls]; congruence|]. split.
      * unfold null_count. cbn [bm_size]. erewrite count_loop_shown; [reflexivity| |rewrite Hs; reflexivity].
        apply HV. cbn [bm_has_nulls]. congruence.
      * unfold null_count_fast. cbn [bm_has_nulls]. rewrite Hh, NN. cbn [negb]. symmetry. apply nulls_in_none. exact NN.
    + intros [X|X]; [discriminate|lia].
Qed.

Lemma reach2 ops states h flags f : run flags_and_finalized [] ops = Some states ->
  nth_error states h = Some (flags, f) ->
  exists bitmaps m, run bitmap_impl [] ops = Some bitmaps /\ nth_error bitmaps h = Some m /\ inv2 m (flags, f).
Proof.
  intros E Hh. destruct (run_sim _ _ _ _ _ _ _ _ _ _ two_simulate (Forall2_nil _) E) as (st & Er & HF).
  destruct (Forall2_nth _ _ _ _ _ _ _ HF Hh) as (m & Em & Hm). eauto.
Qed.

Lemma set_exactly ops states h flags f i v : run flags_and_finalized [] ops = Some states ->
  nth_error states h = Some (flags, f) -> i < length flags ->
  exists bitmaps m, run bitmap_impl [] ops = Some bitmaps /\ nth_error bitmaps h = Some m /\
  match bm_set m i v with
  | None => ~ stored flags f i
  | Some m' =>
      stored flags f i /\ bm_size m' = length flags /\
      (forall j w, nth_error (if some_null flags then update flags i v else flags) j = Some w -> is_valid m' j = Some w) /\
      null_count m' = Some (nulls_in (if some_null flags then update flags i v else flags)) /\
      null_count_fast m' = nulls_in flags
  end.
Proof.
  intros E Hh Hi. destruct (reach2 _ _ _ _ _ E Hh) as (bs & m & A & B & C).
  exists bs, m. split; [exact A|]. split; [exact B|]. exact (set_cases m flags f i v C Hi).
Qed.

Lemma set_right ops states h flags f i v : run flags_and_finalized [] ops = Some states ->
  nth_error states h = Some (flags, f) -> i < length flags ->
  exists bitmaps m, run bitmap_impl [] ops = Some bitmaps /\ nth_error bitmaps h = Some m /\
  ((exists m', bm_set m i v = Some m' /\
      (forall j w, nth_error (update flags i v) j = Some w -> is_valid m' j = Some w) /\
      null_count m' = Some (nulls_in (update flags i v)) /\ null_count_fast m' = nulls_in (update flags i v)) <->
   stored flags f i /\ nth_error flags i = Some v).
Proof.
  intros E Hh Hi. destruct (set_exactly _ _ _ _ _ _ v E Hh Hi) as (bs & m & A & B & C).
  exists bs, m. split; [exact A|]. split; [exact B|].
  destruct (nth_error flags i) as [w|] eqn:Ew; [|apply nth_error_None in Ew; lia].
  destruct (bm_set m i v) as [m'|].
  - destruct C as (C1 & C2 & C3 & C4 & C5). split.
    + intros (m2 & E2 & _ & _ & Q). injection E2 as <-. split; [exact C1|].
      rewrite C5 in Q. f_equal. apply (nulls_changed _ _ _ _ Ew). congruence.
    + intros (_ & Q). injection Q as ->. exists m'. split; [reflexivity|].
      rewrite (nulls_update _ _ _ Ew) in *.
      destruct (some_null flags); auto.
  - split; [intros (m2 & E2 & _); discriminate|]. intros (X & _). contradiction.
Qed.
