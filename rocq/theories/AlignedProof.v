From Verif Require Import Base AlignedSpec AlignedModel.
From Coq Require Import Permutation.

Lemma replace_length {A} : forall (l : list A) i a, length (replace l i a) = length l.
Proof. induction l as [|x l IH]; intros [|i] a; cbn; auto. Qed.
Lemma nth_replace {A} : forall (l : list A) i a j,
  nth_error (replace l i a) j = if (i =? j) && (j <? length l) then Some a else nth_error l j.
Proof.
  induction l as [|x l IH]; intros [|i] a [|j]; cbn; auto; try (now rewrite andb_false_r).
  rewrite IH. reflexivity.
Qed.
Lemma nth_replace_same {A} (l : list A) i a x : nth_error l i = Some x -> nth_error (replace l i a) i = Some a.
Proof.
  intros H. rewrite nth_replace, Nat.eqb_refl.
  assert (L : i < length l) by (apply nth_error_Some; congruence).
  apply Nat.ltb_lt in L. now rewrite L.
Qed.
Lemma nth_replace_other {A} (l : list A) i j a : i <> j -> nth_error (replace l i a) j = nth_error l j.
Proof. intros H. rewrite nth_replace. apply Nat.eqb_neq in H. now rewrite H. Qed.
Lemma nth_snoc {A} (l : list A) x j :
  nth_error (l ++ [x]) j = if j =? length l then Some x else nth_error l j.
Proof.
  destruct (j =? length l) eqn:E.
  - apply Nat.eqb_eq in E. subst j. rewrite nth_error_app2, Nat.sub_diag by lia. reflexivity.
  - apply Nat.eqb_neq in E. destruct (Nat.lt_ge_cases j (length l)) as [L|L].
    + now rewrite nth_error_app1.
    + rewrite (proj2 (nth_error_None (l ++ [x]) j)) by (rewrite app_length; cbn; lia).
      symmetry. apply nth_error_None. lia.
Qed.

Lemma store_spec block i l : i + length l <= length block ->
  store block i l = Some (firstn i block ++ l ++ skipn (i + length l) block).
Proof. intros H. unfold store. apply Nat.leb_le in H. now rewrite H. Qed.

(** The block allocate() returns. *)
Definition new_block (size padding : N) : list cell := repeat None (N.to_nat size) ++ zeros padding.
Lemma firstn_repeat {A} (x : A) : forall k n, firstn k (repeat x n) = repeat x (Nat.min k n).
Proof. induction k as [|k IH]; intros [|n]; cbn; auto. now rewrite IH. Qed.
Lemma skipn_repeat {A} (x : A) : forall k n, skipn k (repeat x n) = repeat x (n - k).
Proof. induction k as [|k IH]; intros [|n]; cbn; auto. Qed.
Lemma allocate_spec size padding m : (size + padding < 2 ^ 64)%N ->
  allocate size padding true m =
  Got (mkMemory (blocks m ++ [Some (new_block size padding)]) (freed m) (objects m))
      (mkBuffer (Some (length (blocks m))) size (size + padding)).
Proof.
  intros H. unfold allocate. cbn [negb]. rewrite N.mod_small by exact H. cbv zeta.
  assert (E : (if (0 <? padding)%N then store (repeat None (N.to_nat (size + padding))) (N.to_nat size) (repeat (Some 0%N) (N.to_nat padding))
               else Some (repeat None (N.to_nat (size + padding)))) = Some (new_block size padding)).
  { unfold new_block, zeros. destruct (0 <? padding)%N eqn:P.
    - rewrite store_spec by (rewrite !repeat_length; lia). f_equal.
      rewrite firstn_repeat, skipn_repeat, repeat_length.
      rewrite Nat.min_l by lia. replace (N.to_nat (size + padding) - _) with 0 by lia. cbn [repeat]. now rewrite app_nil_r.
    - apply N.ltb_ge in P. replace padding with 0%N by lia. rewrite N.add_0_r. cbn. now rewrite app_nil_r. }
  rewrite E. reflexivity.
Qed.
Lemma new_block_length size padding : length (new_block size padding) = N.to_nat (size + padding).
Proof. unfold new_block, zeros. rewrite app_length, !repeat_length. lia. Qed.
Lemma skipn_app_at {A} (a b : list A) n : n = length a -> skipn n (a ++ b) = b.
Proof. intros ->. rewrite skipn_app, Nat.sub_diag, skipn_all. reflexivity. Qed.
Lemma firstn_app_at {A} (a b : list A) n : n = length a -> firstn n (a ++ b) = a.
Proof. intros ->. rewrite firstn_app, Nat.sub_diag, firstn_all. cbn. now rewrite app_nil_r. Qed.

(** ** The invariant *)
Definition agrees (m : memory) (ob : option (option buffer)) (sp : option (option holding)) : Prop :=
  match ob, sp with
  | None, None | Some None, Some None => True
  | Some (Some b), Some (Some v) => shown m b = Some v
  | _, _ => False
  end.
Definition points (m : memory) (h p : nat) : Prop :=
  exists b, nth_error (objects m) h = Some (Some b) /\ b_data b = Some p.
Record Inv (m : memory) (st : list (option holding)) : Prop := {
  i_agree : forall h, agrees m (nth_error (objects m) h) (nth_error st h);
  i_alone : forall h k p, points m h p -> points m k p -> h = k;
  i_freed : forall p, nth_error (blocks m) p = Some None <-> In p (freed m);
  i_held : forall p blk, nth_error (blocks m) p = Some (Some blk) -> exists h, points m h p;
  i_once : NoDup (freed m)
}.

Lemma agree_length m st : Inv m st -> length (objects m) = length st.
Proof.
  intros I. destruct (Nat.lt_trichotomy (length (objects m)) (length st)) as [L|[L|L]]; [|exact L|]; exfalso.
  - pose proof (i_agree m st I (length (objects m))) as A.
    rewrite (proj2 (nth_error_None _ _)) in A by lia.
    destruct (nth_error st (length (objects m))) eqn:E; [exact A|]. apply nth_error_None in E. lia.
  - pose proof (i_agree m st I (length st)) as A.
    rewrite (proj2 (nth_error_None st _)) in A by lia.
    destruct (nth_error (objects m) (length st)) as [[b|]|] eqn:E; try exact A. apply nth_error_None in E. lia.
Qed.

Lemma shown_live m b v p : shown m b = Some v -> b_data b = Some p -> exists blk, nth_error (blocks m) p = Some (Some blk).
Proof.
  unfold shown. intros H E. rewrite E in H. destruct (nth_error (blocks m) p) as [[blk|]|]; [eauto|discriminate ..].
Qed.
Lemma shown_same m m' b : (forall p, b_data b = Some p -> nth_error (blocks m') p = nth_error (blocks m) p) ->
  shown m' b = shown m b.
Proof. intros H. unfold shown. destruct (b_data b) as [p|]; [|reflexivity]. now rewrite (H p eq_refl). Qed.

Lemma live_of_points m st h p : Inv m st -> points m h p -> exists blk, nth_error (blocks m) p = Some (Some blk).
Proof.
  intros I (b & E1 & E2). pose proof (i_agree m st I h) as A. rewrite E1 in A. cbn in A.
  destruct (nth_error st h) as [[v|]|]; try contradiction. eapply shown_live; eassumption.
Qed.

(** A new object with a new block. *)
Lemma inv_new m st b blk v : Inv m st ->
  b_data b = Some (length (blocks m)) ->
  shown (mkMemory (blocks m ++ [Some blk]) (freed m) (objects m ++ [Some b])) b = Some v ->
  Inv (mkMemory (blocks m ++ [Some blk]) (freed m) (objects m ++ [Some b])) (st ++ [Some v]).
Proof.
  intros I Eb Sh. pose proof (agree_length m st I) as L.
  assert (P : forall h p, points (mkMemory (blocks m ++ [Some blk]) (freed m) (objects m ++ [Some b])) h p <->
             (points m h p \/ (h = length (objects m) /\ p = length (blocks m)))).
  { intros h p. unfold points. cbn [objects]. rewrite nth_snoc. destruct (h =? length (objects m)) eqn:E.
    - apply Nat.eqb_eq in E. subst h. split.
      + intros (c & E1 & E2). injection E1 as <-. right. split; [reflexivity|congruence].
      + intros [(c & E1 & E2)|[_ ->]].
        * assert (length (objects m) < length (objects m)) by (apply nth_error_Some; congruence). lia.
        * eauto.
    - apply Nat.eqb_neq in E. split; [auto|]. intros [H|[H _]]; [exact H|lia]. }
  constructor; cbn [blocks freed].
  - intros h. cbn [objects]. rewrite !nth_snoc, <- L. destruct (h =? length (objects m)) eqn:E; [exact Sh|].
    pose proof (i_agree m st I h) as A. unfold agrees in *.
    destruct (nth_error (objects m) h) as [[c|]|]; destruct (nth_error st h) as [[w|]|]; try exact A.
    rewrite (shown_same m); [exact A|]. intros p Ep. cbn [blocks].
    destruct (shown_live m c w p A Ep) as (bb & Q). rewrite nth_error_app1; [reflexivity|].
    apply nth_error_Some. congruence.
  - intros h k p H1 H2. apply P in H1, H2. destruct H1 as [H1|[-> E1]], H2 as [H2|[-> E2]]; [|subst p|subst p|reflexivity].
    + now apply (i_alone m st I h k p).
    + destruct (live_of_points m st h _ I H1) as (bb & Q).
      assert (length (blocks m) < length (blocks m)) by (apply nth_error_Some; congruence). lia.
    + destruct (live_of_points m st k _ I H2) as (bb & Q).
      assert (length (blocks m) < length (blocks m)) by (apply nth_error_Some; congruence). lia.
  - intros p. rewrite nth_snoc. destruct (p =? length (blocks m)) eqn:E; [|apply (i_freed m st I)].
    apply Nat.eqb_eq in E. subst p. split; [discriminate|]. intros H. apply (i_freed m st I) in H.
    assert (length (blocks m) < length (blocks m)) by (apply nth_error_Some; congruence). lia.
  - intros p bb. rewrite nth_snoc. destruct (p =? length (blocks m)) eqn:E.
    + apply Nat.eqb_eq in E. intros _. exists (length (objects m)). apply P. right. auto.
    + intros H. destruct (i_held m st I p bb H) as (h & Hh). exists h. apply P. now left.
  - apply (i_once m st I).
Qed.

(** A block that is allocated and given back at once. *)
Lemma inv_lost m st : Inv m st ->
  Inv (mkMemory (blocks m ++ [None]) (freed m ++ [length (blocks m)]) (objects m)) st.
Proof.
  intros I.
  assert (N0 : ~ In (length (blocks m)) (freed m)).
  { intros H. apply (i_freed m st I) in H.
    assert (length (blocks m) < length (blocks m)) by (apply nth_error_Some; congruence). lia. }
  constructor; cbn [blocks freed].
  - intros h. cbn [objects]. pose proof (i_agree m st I h) as A. unfold agrees in *.
    destruct (nth_error (objects m) h) as [[c|]|]; destruct (nth_error st h) as [[w|]|]; try exact A.
    rewrite (shown_same m); [exact A|]. intros p Ep. cbn [blocks].
    destruct (shown_live m c w p A Ep) as (bb & Q). rewrite nth_error_app1; [reflexivity|].
    apply nth_error_Some. congruence.
  - exact (i_alone m st I).
  - intros p. rewrite nth_snoc, in_app_iff. destruct (p =? length (blocks m)) eqn:E.
    + apply Nat.eqb_eq in E. subst p. split; [intros _; right; now left|reflexivity].
    + apply Nat.eqb_neq in E. rewrite (i_freed m st I). split; [auto|].
      intros [H|[H|[]]]; [exact H|lia].
  - intros p bb. rewrite nth_snoc. destruct (p =? length (blocks m)); [discriminate|]. apply (i_held m st I).
  - apply (@Permutation_NoDup nat (length (blocks m) :: freed m)).
    + apply Permutation_cons_append.
    + constructor; [exact N0|apply (i_once m st I)].
Qed.

(** Giving back what object [h] holds, and putting [b'] in its place. *)
Lemma inv_free m st h b : Inv m st -> nth_error (objects m) h = Some (Some b) ->
  exists m1, free_data b m = Done m1 /\ objects m1 = objects m /\
    Inv (set_object m1 h None) (replace st h None) /\
    Inv (set_object m1 h (Some empty_buffer)) (replace st h (Some Nothing)).
Proof.
  intros I Eh. pose proof (agree_length m st I) as L.
  assert (Lh : h < length (objects m)) by (apply nth_error_Some; congruence).
  assert (Es : exists v, nth_error st h = Some (Some v) /\ shown m b = Some v).
  { pose proof (i_agree m st I h) as A. rewrite Eh in A. cbn in A.
    destruct (nth_error st h) as [[v|]|]; try contradiction. eauto. }
  destruct Es as (v & Es & Sv).
  (* the memory after free_data *)
  assert (K : exists m1, free_data b m = Done m1 /\ objects m1 = objects m /\
            (forall p, b_data b <> Some p -> nth_error (blocks m1) p = nth_error (blocks m) p) /\
            (forall p, b_data b = Some p -> nth_error (blocks m1) p = Some None) /\
            (forall p, In p (freed m1) <-> In p (freed m) \/ b_data b = Some p) /\
            NoDup (freed m1)).
  { unfold free_data. destruct (b_data b) as [p|] eqn:Ep.
    - destruct (shown_live m b v p Sv Ep) as (blk & Q). rewrite Q. eexists. split; [reflexivity|].
      cbn [objects blocks freed]. split; [reflexivity|]. split; [|split; [|split]].
      + intros p' Hp. apply nth_replace_other. congruence.
      + intros p' Hp. injection Hp as <-. eapply nth_replace_same. exact Q.
      + intros p'. rewrite in_app_iff. cbn [In]. split.
        * intros [H|[H|[]]]; [now left|right; congruence].
        * intros [H|H]; [now left|right; left; congruence].
      + apply (@Permutation_NoDup nat (p :: freed m)); [apply Permutation_cons_append|].
        constructor; [|apply (i_once m st I)]. intros H. apply (i_freed m st I) in H. congruence.
    - exists m. split; [reflexivity|]. split; [reflexivity|]. split; [reflexivity|].
      split; [discriminate|]. split; [|apply (i_once m st I)].
      intros p. split; [auto|]. intros [H|H]; [exact H|discriminate]. }
  destruct K as (m1 & E1 & E2 & B1 & B2 & Fr & ND). exists m1. split; [exact E1|]. split; [exact E2|].
  assert (G : forall ob sp,
            (ob = None /\ sp = None) \/ (ob = Some empty_buffer /\ sp = Some Nothing) ->
            Inv (set_object m1 h ob) (replace st h sp)).
  { intros ob sp Hob.
    assert (P : forall k p, points (set_object m1 h ob) k p <-> points m k p /\ k <> h).
    { intros k p. unfold points, set_object. cbn [objects]. rewrite E2. destruct (Nat.eq_dec h k) as [<-|Nk].
      - erewrite nth_replace_same by exact Eh. split; [|intros (_ & Z); congruence].
        intros (c & X & Y). destruct Hob as [[-> _]|[-> _]]; [discriminate|]. injection X as <-. discriminate.
      - rewrite nth_replace_other by exact Nk. split; [intros H; split; [exact H|congruence]|intros (H & _); exact H]. }
    constructor.
    - intros k. unfold set_object. cbn [objects]. rewrite E2. destruct (Nat.eq_dec h k) as [<-|Nk].
      + erewrite nth_replace_same by exact Eh. erewrite nth_replace_same by exact Es.
        destruct Hob as [[-> ->]|[-> ->]]; [exact Logic.I|]. reflexivity.
      + rewrite !nth_replace_other by exact Nk. pose proof (i_agree m st I k) as A. unfold agrees in *.
        destruct (nth_error (objects m) k) as [[c|]|] eqn:Ek; destruct (nth_error st k) as [[w|]|]; try exact A.
        rewrite (shown_same m); [exact A|]. intros p Ep. cbn [blocks]. apply B1. intros Eb.
        apply Nk. apply (i_alone m st I h k p); [exists b|exists c]; auto.
    - intros k k' p H1 H2. apply P in H1, H2. now apply (i_alone m st I k k' p).
    - intros p. cbn [set_object blocks freed]. rewrite Fr.
      destruct (b_data b) as [p0|] eqn:Ep.
      + destruct (Nat.eq_dec p0 p) as [->|Np].
        * rewrite (B2 p eq_refl). split; [intros _; now right|reflexivity].
        * rewrite B1 by congruence. rewrite (i_freed m st I). split; [auto|]. intros [H|H]; [exact H|congruence].
      + rewrite B1 by congruence. rewrite (i_freed m st I). split; [auto|]. intros [H|H]; [exact H|congruence].
    - intros p blk. cbn [set_object blocks]. intros H.
      assert (Hp : b_data b <> Some p) by (intros X; rewrite (B2 p X) in H; discriminate).
      rewrite (B1 p Hp) in H. destruct (i_held m st I p blk H) as (k & Hk). exists k. apply P. split; [exact Hk|].
      intros ->. destruct Hk as (c & X & Y). rewrite Eh in X. injection X as <-. contradiction.
    - exact ND. }
  split; apply G; auto.
Qed.

(** Handing what [k] holds to the empty object [h]. *)
Lemma inv_hand m st h k a b v : Inv m st -> h <> k ->
  nth_error (objects m) h = Some (Some a) -> b_data a = None -> nth_error (objects m) k = Some (Some b) ->
  nth_error st k = Some (Some v) ->
  Inv (set_object (set_object m h (Some b)) k (Some empty_buffer)) (replace (replace st k (Some Nothing)) h (Some v)).
Proof.
  intros I Nhk Eh Ea Ek Ev. pose proof (agree_length m st I) as L.
  assert (Lh : h < length st) by (rewrite <- L; apply nth_error_Some; congruence).
  assert (Sv : shown m b = Some v).
  { pose proof (i_agree m st I k) as A. rewrite Ek, Ev in A. exact A. }
  assert (O : forall j, nth_error (objects (set_object (set_object m h (Some b)) k (Some empty_buffer))) j =
            if j =? k then Some (Some empty_buffer) else if j =? h then Some (Some b) else nth_error (objects m) j).
  { intros j. cbn [set_object objects]. rewrite !nth_replace, replace_length, (Nat.eqb_sym k), (Nat.eqb_sym h).
    destruct (j =? k) eqn:E1.
    - apply Nat.eqb_eq in E1. subst j. assert (Q : k < length (objects m)) by (apply nth_error_Some; congruence).
      apply Nat.ltb_lt in Q. now rewrite Q.
    - destruct (j =? h) eqn:E2; [|reflexivity]. apply Nat.eqb_eq in E2. subst j.
      assert (Q : h < length (objects m)) by (apply nth_error_Some; congruence). apply Nat.ltb_lt in Q. now rewrite Q. }
  assert (P : forall j p, points (set_object (set_object m h (Some b)) k (Some empty_buffer)) j p <->
            (j = h /\ points m k p) \/ (j <> h /\ j <> k /\ points m j p)).
  { intros j p. unfold points. rewrite O. destruct (j =? k) eqn:E1.
    - apply Nat.eqb_eq in E1. subst j. split.
      + intros (c & X & Y). injection X as <-. discriminate.
      + intros [(X & _)|(_ & X & _)]; congruence.
    - apply Nat.eqb_neq in E1. destruct (j =? h) eqn:E2.
      + apply Nat.eqb_eq in E2. subst j. split.
        * intros (c & X & Y). injection X as <-. left. split; [reflexivity|]. exists b. auto.
        * intros [(_ & c & X & Y)|(X & _)]; [|congruence]. rewrite Ek in X. injection X as <-. eauto.
      + apply Nat.eqb_neq in E2. split; [intros H; right; auto|].
        intros [(X & _)|(_ & _ & X)]; [congruence|exact X]. }
  constructor; cbn [set_object blocks freed]; try apply I.
  - intros j. rewrite O. rewrite !nth_replace, replace_length, (Nat.eqb_sym k), (Nat.eqb_sym h).
    destruct (j =? k) eqn:E1.
    + apply Nat.eqb_eq in E1. subst j. apply Nat.eqb_neq in Nhk. rewrite Nat.eqb_sym, Nhk. cbn [andb].
      assert (Q : k < length st) by (apply nth_error_Some; congruence). apply Nat.ltb_lt in Q. rewrite Q. reflexivity.
    + destruct (j =? h) eqn:E2.
      * apply Nat.eqb_eq in E2. subst j. apply Nat.ltb_lt in Lh. rewrite Lh. cbn [andb]. exact Sv.
      * cbn [andb]. pose proof (i_agree m st I j) as A. exact A.
  - intros j j' p H1 H2. apply P in H1, H2.
    destruct H1 as [(-> & H1)|(N1 & N2 & H1)], H2 as [(-> & H2)|(N3 & N4 & H2)]; try reflexivity.
    + exfalso. apply N4. symmetry. exact (i_alone m st I k j' p H1 H2).
    + exfalso. apply N2. symmetry. exact (i_alone m st I k j p H2 H1).
    + exact (i_alone m st I j j' p H1 H2).
  - intros p blk H. destruct (i_held m st I p blk H) as (j & Hj). destruct (Nat.eq_dec j k) as [->|N1].
    + exists h. apply P. left. auto.
    + exists j. apply P. right. split; [|auto]. intros ->. destruct Hj as (c & X & Y). congruence.
Qed.

Lemma replace_twice {A} : forall (l : list A) i a b, replace (replace l i a) i b = replace l i b.
Proof. induction l as [|x l IH]; intros [|i] a b; cbn; auto. now rewrite IH. Qed.
Lemma replace_comm {A} : forall (l : list A) i j a b, i <> j -> replace (replace l i a) j b = replace (replace l j b) i a.
Proof. induction l as [|x l IH]; intros [|i] [|j] a b H; cbn; auto; [congruence|]. rewrite IH by congruence. reflexivity. Qed.
Lemma replace_app1 {A} : forall (l r : list A) i a, i < length l -> replace (l ++ r) i a = replace l i a ++ r.
Proof. induction l as [|x l IH]; intros r [|i] a H; cbn in *; try lia; auto. rewrite IH by lia. reflexivity. Qed.
Lemma replace_last {A} : forall (l : list A) x a, replace (l ++ [x]) (length l) a = l ++ [a].
Proof. induction l as [|y l IH]; intros x a; cbn; auto. now rewrite IH. Qed.

(** A new object that holds nothing. *)
Lemma inv_make m st : Inv m st -> Inv (add_object m empty_buffer) (st ++ [Some Nothing]).
Proof.
  intros I. pose proof (agree_length m st I) as L.
  assert (P : forall h p, points (add_object m empty_buffer) h p <-> points m h p).
  { intros h p. unfold points, add_object. cbn [objects]. rewrite nth_snoc. destruct (h =? length (objects m)) eqn:E.
    - apply Nat.eqb_eq in E. subst h. split; intros (c & X & Y).
      + injection X as <-. discriminate.
      + assert (length (objects m) < length (objects m)) by (apply nth_error_Some; congruence). lia.
    - reflexivity. }
  constructor; try (cbn [add_object blocks freed]; apply I).
  - intros h. unfold add_object. cbn [objects]. rewrite !nth_snoc, L. destruct (h =? length st); [reflexivity|].
    exact (i_agree m st I h).
  - intros h k p H1 H2. apply P in H1, H2. now apply (i_alone m st I h k p).
  - intros p blk H. destruct (i_held m st I p blk H) as (h & Hh). exists h. now apply P.
Qed.

Lemma shown_new bl fr ob (b : buffer) data pad : b_data b = Some (length bl) ->
  b_size b = N.of_nat (length data) -> b_capacity b = N.of_nat (length data + length pad) ->
  shown (mkMemory (bl ++ [Some (data ++ pad)]) fr ob) b = Some (Holds data pad).
Proof.
  intros E1 E2 E3. unfold shown. rewrite E1. cbn [blocks]. rewrite nth_snoc, Nat.eqb_refl.
  rewrite E2, E3, app_length, N.eqb_refl.
  rewrite (proj2 (N.leb_le _ _)) by lia. cbn [andb]. rewrite Nat2N.id.
  rewrite firstn_app_at, skipn_app_at by reflexivity. reflexivity.
Qed.

(** Filling a new block from the front. *)
Lemma fill_new m size padding l : (size + padding < 2 ^ 64)%N -> (N.of_nat (length l) <= size)%N ->
  fill (mkMemory (blocks m ++ [Some (new_block size padding)]) (freed m) (objects m))
       (mkBuffer (Some (length (blocks m))) size (size + padding)) l =
  Some (mkMemory (blocks m ++ [Some (map Some l ++ repeat None (N.to_nat size - length l) ++ zeros padding)]) (freed m) (objects m)).
Proof.
  intros H1 H2. unfold fill. cbn [b_data blocks freed objects]. rewrite nth_snoc, Nat.eqb_refl.
  rewrite store_spec by (rewrite map_length, new_block_length; lia). cbn [firstn app Nat.add].
  rewrite replace_last. do 5 f_equal. rewrite map_length. unfold new_block.
  rewrite skipn_app, skipn_repeat, repeat_length. replace (length l - N.to_nat size) with 0 by lia. reflexivity.
Qed.

Lemma step_ok m st o st' : Inv m st -> sane o -> unbroken o -> spec_step st o = Some st' ->
  exists m', bstep m o = Some (Done m') /\ Inv m' st'.
Proof.
  intros I Hs Hu E. destruct o as [|size padding mem|a padding mem|s padding mem|k|h k|h]; cbn [bstep sane unbroken] in *.
  - injection E as <-. eexists. split; [reflexivity|]. now apply inv_make.
  - unfold spec_step, loaded in E. destruct mem; injection E as <-.
    + rewrite allocate_spec by exact Hs. eexists. split; [reflexivity|]. unfold add_object. cbn [blocks freed objects].
      apply inv_new; [exact I|reflexivity|]. unfold new_block.
      apply shown_new; cbn [b_data b_size b_capacity]; unfold zeros; rewrite ?repeat_length; [reflexivity|lia|lia].
    + eexists. split; [reflexivity|exact I].
  - unfold spec_step, loaded in E. unfold load_file. destruct a as [| |n got].
    + injection E as <-. eexists. split; [reflexivity|exact I].
    + injection E as <-. eexists. split; [reflexivity|exact I].
    + destruct Hs as (Hs & Hg). destruct mem; [|injection E as <-; eexists; split; [reflexivity|exact I]].
      rewrite allocate_spec by exact Hs.
      destruct (0 <? n)%N eqn:En.
      * rewrite fill_new by assumption. destruct (N.of_nat (length got) <? n)%N eqn:Eg.
        -- apply N.ltb_lt in Eg. rewrite (proj2 (N.eqb_neq _ _)) in E by lia. injection E as <-.
           unfold free_data. cbn [b_data blocks freed objects]. rewrite nth_snoc, Nat.eqb_refl, replace_last.
           eexists. split; [reflexivity|]. now apply inv_lost.
        -- apply N.ltb_ge in Eg. assert (EE : n = N.of_nat (length got)) by lia. rewrite EE in E at 1. rewrite N.eqb_refl in E. injection E as <-.
           eexists. split; [reflexivity|]. unfold add_object. cbn [blocks freed objects].
           apply inv_new; [exact I|reflexivity|]. replace (N.to_nat n - length got) with 0 by lia. cbn [repeat app].
           apply shown_new; cbn [b_data b_size b_capacity]; unfold zeros; rewrite ?map_length, ?repeat_length; [reflexivity|lia|lia].
      * apply N.ltb_ge in En. assert (n = 0%N) by lia. subst n. destruct got; [|cbn in Hg; lia].
        cbn in E. injection E as <-.
        eexists. split; [reflexivity|]. unfold add_object. cbn [blocks freed objects].
        apply inv_new; [exact I|reflexivity|]. unfold new_block.
        apply (shown_new _ _ _ _ [] (zeros padding)); cbn [b_data b_size b_capacity]; unfold zeros; rewrite ?repeat_length; [reflexivity|reflexivity|cbn; lia].
  - unfold spec_step, loaded in E. unfold load_stdin. rewrite Hu in E. destruct mem; injection E as <-.
    + rewrite allocate_spec by exact Hs. rewrite fill_new by (try exact Hs; lia).
      eexists. split; [reflexivity|]. unfold add_object. cbn [blocks freed objects].
      apply inv_new; [exact I|reflexivity|]. rewrite Nat2N.id, Nat.sub_diag. cbn [repeat app].
      apply shown_new; cbn [b_data b_size b_capacity]; unfold zeros; rewrite ?map_length, ?repeat_length; [reflexivity|lia|lia].
    + eexists. split; [reflexivity|exact I].
  - cbn [spec_step] in E. destruct (nth_error st k) as [[v|]|] eqn:Ev; try discriminate. injection E as <-.
    pose proof (i_agree m st I k) as A. rewrite Ev in A. unfold agrees in A.
    destruct (nth_error (objects m) k) as [[b|]|] eqn:Ek; try contradiction.
    eexists. split; [reflexivity|].
    pose proof (agree_length m st I) as L.
    assert (Lk : k < length (objects m)) by (apply nth_error_Some; congruence).
    assert (X : Inv (set_object (set_object (add_object m empty_buffer) (length (objects m)) (Some b)) k (Some empty_buffer))
                (replace (replace (st ++ [Some Nothing]) k (Some Nothing)) (length (objects m)) (Some v))).
    { apply inv_hand with (a := empty_buffer); cbn [add_object objects].
      - now apply inv_make.
      - lia.
      - rewrite nth_snoc, Nat.eqb_refl. reflexivity.
      - reflexivity.
      - rewrite nth_error_app1 by exact Lk. exact Ek.
      - rewrite nth_error_app1 by lia. exact Ev. }
    unfold set_object, add_object in X |- *. cbn [blocks freed objects] in X |- *.
    rewrite replace_last, !replace_app1 in X by lia.
    rewrite L in X. rewrite <- (replace_length st k (Some Nothing)) in X. rewrite replace_last in X. exact X.
  - cbn [spec_step] in E. destruct (nth_error st h) as [[w|]|] eqn:Ew; try discriminate.
    destruct (nth_error st k) as [[v|]|] eqn:Ev; try discriminate.
    pose proof (i_agree m st I k) as A. rewrite Ev in A. unfold agrees in A.
    destruct (nth_error (objects m) k) as [[b|]|] eqn:Ek; try contradiction. clear A.
    pose proof (i_agree m st I h) as A. rewrite Ew in A. unfold agrees in A.
    destruct (nth_error (objects m) h) as [[a|]|] eqn:Eh; try contradiction. clear A.
    destruct (h =? k) eqn:Ehk; injection E as <-.
    + eexists. split; [reflexivity|exact I].
    + apply Nat.eqb_neq in Ehk. destruct (inv_free m st h a I Eh) as (m1 & F & O1 & _ & I1). rewrite F.
      eexists. split; [reflexivity|].
      assert (X : Inv (set_object (set_object (set_object m1 h (Some empty_buffer)) h (Some b)) k (Some empty_buffer))
                (replace (replace (replace st h (Some Nothing)) k (Some Nothing)) h (Some v))).
      { apply inv_hand with (a := empty_buffer); cbn [set_object objects]; rewrite ?O1.
        - exact I1.
        - exact Ehk.
        - eapply nth_replace_same. exact Eh.
        - reflexivity.
        - rewrite nth_replace_other by exact Ehk. exact Ek.
        - rewrite nth_replace_other by exact Ehk. exact Ev. }
      unfold set_object in X |- *. cbn [blocks freed objects] in X |- *. rewrite replace_twice in X.
      rewrite (replace_comm st h k) in X by exact Ehk. rewrite replace_twice in X. exact X.
  - cbn [spec_step] in E. destruct (nth_error st h) as [[w|]|] eqn:Ew; try discriminate. injection E as <-.
    pose proof (i_agree m st I h) as A. rewrite Ew in A. unfold agrees in A.
    destruct (nth_error (objects m) h) as [[a|]|] eqn:Eh; try contradiction.
    destruct (inv_free m st h a I Eh) as (m1 & F & _ & I1 & _). rewrite F. eexists. split; [reflexivity|exact I1].
Qed.

Lemma inv_fresh : Inv fresh_memory [].
Proof.
  constructor; unfold fresh_memory; cbn [blocks freed objects].
  - intros [|h]; exact Logic.I.
  - intros h k p (b & X & _). destruct h; discriminate.
  - intros [|p]; split; try discriminate; intros [].
  - intros [|p] blk; discriminate.
  - constructor.
Qed.

Lemma run_ok : forall ops m st st', Inv m st -> Forall sane ops -> Forall unbroken ops -> spec_run st ops = Some st' ->
  exists m', brun m ops = Some (Done m') /\ Inv m' st'.
Proof.
  induction ops as [|o r IH]; intros m st st' I Hs Hu E; cbn [spec_run brun] in *.
  - injection E as <-. eauto.
  - destruct (spec_step st o) as [s1|] eqn:E1; [|discriminate]. inversion Hs; inversion Hu; subst.
    destruct (step_ok m st o s1 I) as (m1 & B & I1); try assumption. rewrite B. eapply IH; eassumption.
Qed.

(** What all live objects show. *)
Definition all_shown (m : memory) : list (option (option holding)) := map (option_map (shown m)) (objects m).
Lemma inv_shown m st : Inv m st -> all_shown m = map (option_map Some) st.
Proof.
  intros I. pose proof (agree_length m st I) as L. unfold all_shown.
  apply nth_ext with (d := None) (d' := None); [rewrite !map_length; exact L|].
  intros h Hh. rewrite map_length in Hh.
  pose proof (i_agree m st I h) as A.
  rewrite (nth_error_nth (map _ (objects m)) h None (x := option_map (shown m) (nth h (objects m) None)))
    by (rewrite nth_error_map, (nth_error_nth' (objects m) None) by exact Hh; reflexivity).
  rewrite (nth_error_nth (map _ st) h None (x := option_map Some (nth h st None)))
    by (rewrite nth_error_map, (nth_error_nth' st None) by lia; reflexivity).
  rewrite (nth_error_nth' (objects m) None), (nth_error_nth' st None) in A by lia. unfold agrees in A.
  destruct (nth h (objects m) None), (nth h st None); try contradiction; [|reflexivity]. cbn. now rewrite A.
Qed.

Lemma points_iff m p : (exists h, points m h p) <-> In (Some p) (concat (map (fun ob => match ob with Some b => [b_data b] | None => [] end) (objects m))).
Proof.
  rewrite in_concat. split.
  - intros (h & b & X & Y). exists [b_data b]. split; [|rewrite Y; now left].
    apply in_map_iff. exists (Some b). split; [reflexivity|]. eapply nth_error_In. exact X.
  - intros (l & X & Y). apply in_map_iff in X as (ob & <- & X). destruct ob as [b|]; [|destruct Y].
    destruct Y as [Y|[]]. apply In_nth_error in X as (h & X). exists h, b. auto.
Qed.

Lemma histories ops st : Forall sane ops -> Forall unbroken ops -> spec_run [] ops = Some st ->
  exists m, brun fresh_memory ops = Some (Done m) /\
    all_shown m = map (option_map Some) st /\
    NoDup (freed m) /\
    (forall p, In p (freed m) -> p < length (blocks m)) /\
    (forall p, p < length (blocks m) ->
       (~ In p (freed m) <-> exists h b, nth_error (objects m) h = Some (Some b) /\ b_data b = Some p)).
Proof.
  intros Hs Hu E. destruct (run_ok ops fresh_memory [] st inv_fresh Hs Hu E) as (m & B & I).
  exists m. split; [exact B|]. split; [now apply inv_shown|]. split; [apply (i_once m st I)|]. split.
  - intros p H. apply (i_freed m st I) in H. apply nth_error_Some. congruence.
  - intros p L. destruct (nth_error (blocks m) p) as [[blk|]|] eqn:Q.
    + split; [intros _|intros _ H; apply (i_freed m st I) in H; congruence].
      destruct (i_held m st I p blk Q) as (h & Hh). exists h. exact Hh.
    + split; [intros H; exfalso; apply H, (i_freed m st I), Q|].
      intros (h & Hh). destruct (live_of_points m st h p I Hh) as (blk & R). congruence.
    + apply nth_error_None in Q. lia.
Qed.

(** When every object is destroyed, everything allocated has been given back. *)
Lemma all_released ops st : Forall sane ops -> Forall unbroken ops -> spec_run [] ops = Some st ->
  Forall (fun x => x = None) st ->
  exists m, brun fresh_memory ops = Some (Done m) /\ Permutation (freed m) (seq 0 (length (blocks m))).
Proof.
  intros Hs Hu E Hn. destruct (histories ops st Hs Hu E) as (m & B & S0 & ND & Lt & Live). exists m. split; [exact B|].
  apply NoDup_Permutation; [exact ND|apply seq_NoDup|]. intros p. rewrite in_seq. split; [intros H; apply Lt in H; lia|].
  intros (_ & L). cbn in L. destruct (in_dec Nat.eq_dec p (freed m)) as [H|H]; [exact H|].
  apply (Live p L) in H as (h & b & X & _). exfalso.
  assert (Y : nth_error (all_shown m) h = Some (Some (shown m b))) by (unfold all_shown; rewrite nth_error_map, X; reflexivity).
  rewrite S0, nth_error_map in Y. destruct (nth_error st h) as [x|] eqn:Z; [|discriminate].
  rewrite Forall_forall in Hn. apply nth_error_In, Hn in Z. subst x. discriminate.
Qed.

Lemma spec_run_snoc : forall ops s0 st o, spec_run s0 ops = Some st -> spec_run s0 (ops ++ [o]) = spec_step st o.
Proof.
  induction ops as [|x r IH]; intros s0 st o E; cbn [spec_run app] in *.
  - injection E as <-. destruct (spec_step s0 o); reflexivity.
  - destruct (spec_step s0 x) as [s1|]; [now apply IH|discriminate].
Qed.
