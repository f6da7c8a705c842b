From Verif Require Import Base ChunkedSpec CowSpec CowModel.

Lemma nth_replace : forall A (l : list A) i j a,
  nth_error (replace_at l i a) j = if (i =? j) && (i <? length l) then Some a else nth_error l j.
Proof.
  induction l as [|x l IH]; intros i j a.
  - cbn [replace_at length]. destruct (i =? j); destruct i; reflexivity.
  - destruct i, j; cbn [replace_at nth_error length]; try reflexivity. rewrite IH. reflexivity.
Qed.
Lemma replace_length : forall A (l : list A) i a, length (replace_at l i a) = length l.
Proof. induction l; intros [|i] b; cbn [replace_at length]; auto. Qed.
Lemma nth_lt : forall A (l : list A) i x, nth_error l i = Some x -> i < length l.
Proof. intros A l i x E. apply nth_error_Some. congruence. Qed.

Section Cow.
Context {T : Type}.
Notation state := (state T).

(** Handle [s] of a state holds the value [v]. *)
Definition holds (hp : list (list T)) (s : slot) (v : option (list T)) : Prop :=
  match s with
  | Gone => v = None
  | Null => v = Some []
  | At a => exists l, nth_error hp a = Some l /\ v = Some l
  end.
Definition winv (st : state) (sp : spec_state T) : Prop := Forall2 (holds (heap st)) (handles st) sp.

Lemma F2_nth_l : forall A B (R : A -> B -> Prop) la lb i a,
  Forall2 R la lb -> nth_error la i = Some a -> exists b, nth_error lb i = Some b /\ R a b.
Proof.
  intros A B R la lb i a H; revert i. induction H; intros [|i] E; cbn in *; try discriminate.
  - injection E as <-. eauto.
  - eauto.
Qed.
Lemma F2_nth_r : forall A B (R : A -> B -> Prop) la lb i b,
  Forall2 R la lb -> nth_error lb i = Some b -> exists a, nth_error la i = Some a /\ R a b.
Proof.
  intros A B R la lb i b H; revert i. induction H; intros [|i] E; cbn in *; try discriminate.
  - injection E as <-. eauto.
  - eauto.
Qed.
Lemma F2_replace : forall A B (R : A -> B -> Prop) la lb i a b,
  Forall2 R la lb -> R a b -> Forall2 R (replace_at la i a) (replace_at lb i b).
Proof. intros A B R la lb i a b H; revert i. induction H; intros [|i] Hab; cbn [replace_at]; constructor; auto. Qed.
Lemma F2_pointwise : forall A B (R : A -> B -> Prop) la lb, length la = length lb ->
  (forall i a b, nth_error la i = Some a -> nth_error lb i = Some b -> R a b) -> Forall2 R la lb.
Proof.
  induction la as [|a la IH]; intros [|b lb] L H; try discriminate; constructor.
  - apply (H 0); reflexivity.
  - apply IH; [injection L; auto|]. intros i x y Ex Ey. apply (H (S i)); assumption.
Qed.
Lemma F2_len : forall A B (R : A -> B -> Prop) la lb, Forall2 R la lb -> length la = length lb.
Proof. induction 1; cbn; auto. Qed.

Lemma live_inv : forall st sp h l, winv st sp -> live sp h = Some l ->
  (nth_error (handles st) h = Some Null /\ l = []) \/
  exists a, nth_error (handles st) h = Some (At a) /\ nth_error (heap st) a = Some l.
Proof.
  intros st sp h l H E. unfold live in E. destruct (nth_error sp h) as [[l0|]|] eqn:Eh; try discriminate.
  injection E as ->. destruct (F2_nth_r _ _ _ _ _ _ _ H Eh) as (s & Es & Hs).
  destruct s as [| |a]; cbn [holds] in Hs.
  - discriminate.
  - left. injection Hs as ->. auto.
  - right. destruct Hs as (l' & Hl & E). injection E as ->. eauto.
Qed.

Lemma holds_grow : forall hp x s v, holds hp s v -> holds (hp ++ [x]) s v.
Proof.
  intros hp x [| |a] v H; cbn [holds] in *; auto. destruct H as (l & Hl & E). exists l. split; [|assumption].
  rewrite nth_error_app1 by (eapply nth_lt; eauto). assumption.
Qed.

Lemma F2_impl : forall A B (R Q : A -> B -> Prop) la lb, (forall a b, R a b -> Q a b) -> Forall2 R la lb -> Forall2 Q la lb.
Proof. intros A B R Q la lb HI H. induction H; constructor; auto. Qed.

Lemma nth_snoc : forall A (l : list A) x, nth_error (l ++ [x]) (length l) = Some x.
Proof. intros. rewrite nth_error_app2, Nat.sub_diag by lia. reflexivity. Qed.

(** Exactly one handle points to [a]. *)
Lemma count_two : forall (hs : list slot) a i j, i <> j ->
  nth_error hs i = Some (At a) -> nth_error hs j = Some (At a) -> 1 < length (filter (points_to a) hs).
Proof.
  assert (One : forall (hs : list slot) a i, nth_error hs i = Some (At a) -> 0 < length (filter (points_to a) hs)).
  { induction hs as [|s hs IH]; intros a [|i] E; cbn in E; try discriminate; cbn [filter].
    - injection E as ->. cbn [points_to]. rewrite Nat.eqb_refl. cbn [length]. lia.
    - apply IH in E. destruct (points_to a s); cbn [length]; lia. }
  induction hs as [|s hs IH]; intros a i j Hij Ei Ej; [destruct i; discriminate|].
  destruct i as [|i], j as [|j]; cbn in Ei, Ej; cbn [filter].
  - lia.
  - injection Ei as ->. cbn [points_to]. rewrite Nat.eqb_refl. apply One in Ej. cbn [length]. lia.
  - injection Ej as ->. cbn [points_to]. rewrite Nat.eqb_refl. apply One in Ei. cbn [length]. lia.
  - pose proof (IH a i j ltac:(lia) Ei Ej). destruct (points_to a s); cbn [length]; lia.
Qed.

(** After ensure_unique the handle alone owns its block, and nothing observable changed. *)
Lemma ensure_unique_ok : forall st sp h l, winv st sp -> live sp h = Some l ->
  exists st' a, ensure_unique st h = Some (st', a) /\ winv st' sp /\
    nth_error (handles st') h = Some (At a) /\ nth_error (heap st') a = Some l /\
    forall j, j <> h -> nth_error (handles st') j <> Some (At a).
Proof.
  intros st sp h l H E. pose proof E as E0. apply (live_inv _ _ _ _ H) in E. unfold ensure_unique.
  assert (Hsp : nth_error sp h = Some (Some l)).
  { unfold live in E0. destruct (nth_error sp h) as [[l0|]|]; congruence. }
  assert (New : forall hs hp, Forall2 (holds hp) hs sp -> h < length hs ->
     Forall2 (holds (hp ++ [l])) (replace_at hs h (At (length hp))) sp /\
     nth_error (replace_at hs h (At (length hp))) h = Some (At (length hp)) /\
     (forall j, j <> h -> nth_error (replace_at hs h (At (length hp))) j <> Some (At (length hp)))).
  { intros hs hp HF Hh. split; [|split].
    - apply F2_pointwise; [rewrite replace_length; eapply F2_len; eauto|].
      intros i a b Ea Eb. rewrite nth_replace in Ea. destruct (Nat.eqb_spec h i) as [->|Hne].
      + destruct (Nat.ltb_spec i (length hs)); [|lia]. cbn [andb] in Ea. injection Ea as <-.
        rewrite Hsp in Eb. injection Eb as <-. exists l. split; [apply nth_snoc|reflexivity].
      + cbn [andb] in Ea. apply holds_grow. destruct (F2_nth_l _ _ _ _ _ _ _ HF Ea) as (b' & Eb' & Hb').
        congruence.
    - rewrite nth_replace, Nat.eqb_refl. destruct (Nat.ltb_spec h (length hs)); [reflexivity|lia].
    - intros j Hj Ej. rewrite nth_replace in Ej. destruct (Nat.eqb_spec h j); [congruence|]. cbn [andb] in Ej.
      destruct (F2_nth_l _ _ _ _ _ _ _ HF Ej) as (b & _ & (l' & Hl' & _)). apply nth_lt in Hl'. lia. }
  destruct E as [(En & ->)|(a & En & Ea)]; rewrite En.
  - destruct (New _ _ H (nth_lt _ _ _ _ En)) as (N1 & N2 & N3).
    eexists; eexists; split; [reflexivity|]. cbn [heap handles]. repeat split; auto. apply nth_snoc.
  - destruct (Nat.ltb_spec 1 (use_count st a)) as [Hc|Hc].
    + rewrite Ea. destruct (New _ _ H (nth_lt _ _ _ _ En)) as (N1 & N2 & N3).
      eexists; eexists; split; [reflexivity|]. cbn [heap handles]. repeat split; auto. apply nth_snoc.
    + eexists; eexists; split; [reflexivity|]. repeat split; auto.
      intros j Hj Ej. unfold use_count in Hc. pose proof (count_two _ _ _ _ Hj Ej En). lia.
Qed.

Lemma mutate_ok : forall st sp h f sp', winv st sp -> change_live sp h f = Some sp' ->
  exists st', mutate st h f = Some st' /\ winv st' sp'.
Proof.
  intros st sp h f sp' H E. unfold change_live in E. destruct (live sp h) as [l|] eqn:El; [|discriminate].
  destruct (f l) as [l'|] eqn:Ef; [|discriminate]. injection E as <-.
  destruct (ensure_unique_ok _ _ _ _ H El) as (st1 & a & E1 & H1 & Ha & Hl & Hun).
  unfold mutate. rewrite E1, Hl, Ef. eexists; split; [reflexivity|]. unfold winv. cbn [heap handles].
  apply F2_pointwise; [rewrite replace_length; eapply F2_len; exact H1|].
  intros i s v Es Ev. rewrite nth_replace in Ev. destruct (Nat.eqb_spec h i) as [<-|Hne].
  - assert (h < length sp).
    { rewrite <- (F2_len _ _ _ _ _ H1). eapply nth_lt; eauto. }
    destruct (Nat.ltb_spec h (length sp)); [|lia]. cbn [andb] in Ev. injection Ev as <-.
    rewrite Ha in Es. injection Es as <-. exists l'. split; [|reflexivity].
    rewrite nth_replace, Nat.eqb_refl. apply nth_lt in Hl. destruct (Nat.ltb_spec a (length (heap st1))); [reflexivity|lia].
  - cbn [andb] in Ev. destruct (F2_nth_l _ _ _ _ _ _ _ H1 Es) as (v' & Ev' & Hs). rewrite Ev in Ev'. injection Ev' as <-.
    destruct s as [| |b]; cbn [holds] in *; auto. destruct Hs as (lb & Hlb & E). exists lb. split; [|assumption].
    rewrite nth_replace. destruct (Nat.eqb_spec a b) as [->|]; [|assumption].
    exfalso. apply (Hun i); [congruence|assumption].
Qed.

Lemma slot_of_live : forall st sp h l, winv st sp -> live sp h = Some l ->
  exists s, nth_error (handles st) h = Some s /\ s <> Gone /\ holds (heap st) s (Some l) /\ alive (nth_error (handles st) h) = true.
Proof.
  intros st sp h l H E. apply (live_inv _ _ _ _ H) in E. destruct E as [(E & ->)|(a & E & Ea)]; rewrite E; eexists; split; eauto.
  - repeat split; discriminate.
  - split; [discriminate|]. split; [|reflexivity]. exists l. auto.
Qed.

Lemma wstep_ok : forall st sp o sp', winv st sp -> spec_wstep sp o = Some sp' ->
  exists st', wstep st o = Some st' /\ winv st' sp'.
Proof.
  intros st sp o sp' H. destruct o as [v|k|k|h k|h k|h k|h|h v|h i v|h n v|h|h|h]; cbn [spec_wstep wstep].
  - intros E. injection E as <-. eexists; split; [reflexivity|]. unfold winv. cbn [heap handles]. apply Forall2_app.
    + eapply F2_impl; [|exact H]. intros; apply holds_grow; assumption.
    + constructor; [|constructor]. exists v. split; [apply nth_snoc|reflexivity].
  - destruct (live sp k) as [l|] eqn:El; [|discriminate]. intros E. injection E as <-.
    destruct (slot_of_live _ _ _ _ H El) as (s & -> & Hg & Hs & _). 
    exists (State (heap st) (handles st ++ [s])). split; [destruct s; [contradiction|reflexivity|reflexivity]|].
    unfold winv. cbn [heap handles]. apply Forall2_app; [assumption|]. constructor; [assumption|constructor].
  - destruct (live sp k) as [l|] eqn:El; [|discriminate]. intros E. injection E as <-.
    destruct (slot_of_live _ _ _ _ H El) as (s & -> & Hg & Hs & _).
    exists (State (heap st) (replace_at (handles st) k Null ++ [s])). split; [destruct s; [contradiction|reflexivity|reflexivity]|].
    unfold winv. cbn [heap handles]. apply Forall2_app; [|constructor; [assumption|constructor]].
    apply F2_replace; [assumption|reflexivity].
  - destruct (live sp h) as [lh|] eqn:Eh; [|discriminate]. destruct (live sp k) as [l|] eqn:El; [|discriminate]. intros E. injection E as <-.
    destruct (slot_of_live _ _ _ _ H Eh) as (_ & _ & _ & _ & ->).
    destruct (slot_of_live _ _ _ _ H El) as (s & -> & Hg & Hs & _).
    exists (State (heap st) (replace_at (handles st) h s)). split; [destruct s; [contradiction|reflexivity|reflexivity]|].
    apply F2_replace; assumption.
  - destruct (live sp h) as [lh|] eqn:Eh; [|discriminate]. destruct (live sp k) as [l|] eqn:El; [|discriminate]. intros E. injection E as <-.
    destruct (slot_of_live _ _ _ _ H Eh) as (_ & _ & _ & _ & ->).
    destruct (slot_of_live _ _ _ _ H El) as (s & -> & Hg & Hs & _).
    exists (State (heap st) (replace_at (replace_at (handles st) k Null) h s)). split; [destruct s; [contradiction|reflexivity|reflexivity]|].
    apply F2_replace; [|assumption]. apply F2_replace; [assumption|reflexivity].
  - destruct (live sp h) as [lh|] eqn:Eh; [|discriminate]. destruct (live sp k) as [l|] eqn:El; [|discriminate]. intros E. injection E as <-.
    destruct (slot_of_live _ _ _ _ H Eh) as (t & -> & Hgt & Ht & _).
    destruct (slot_of_live _ _ _ _ H El) as (s & -> & Hg & Hs & _).
    exists (State (heap st) (replace_at (replace_at (handles st) k t) h s)). split.
    + destruct t; [contradiction| |]; (destruct s; [contradiction|reflexivity|reflexivity]).
    + apply F2_replace; [|assumption]. apply F2_replace; assumption.
  - destruct (live sp h) as [lh|] eqn:Eh; [|discriminate]. intros E. injection E as <-.
    destruct (slot_of_live _ _ _ _ H Eh) as (_ & _ & _ & _ & ->). eexists; split; [reflexivity|].
    apply F2_replace; [assumption|reflexivity].
  - apply mutate_ok; assumption.
  - apply mutate_ok; assumption.
  - apply mutate_ok; assumption.
  - apply mutate_ok; assumption.
  - apply mutate_ok; assumption.
  - intros E. unfold into_vec. pose proof E as E'. unfold change_live in E'.
    destruct (live sp h) as [lh|] eqn:Eh; [|discriminate]. injection E' as <-.
    destruct (live_inv _ _ _ _ H Eh) as [(En & ->)|(a & En & Ea)]; rewrite En.
    + eexists; split; [reflexivity|].
      unfold winv. apply F2_pointwise; [rewrite replace_length; eapply F2_len; exact H|].
      intros i s v Es Ev. rewrite nth_replace in Ev. destruct (Nat.eqb_spec h i) as [<-|Hne].
      * rewrite En in Es. injection Es as <-.
        assert (h < length sp) by (rewrite <- (F2_len _ _ _ _ _ H); eapply nth_lt; eauto).
        destruct (Nat.ltb_spec h (length sp)); [|lia]. cbn [andb] in Ev. injection Ev as <-. reflexivity.
      * cbn [andb] in Ev. destruct (F2_nth_l _ _ _ _ _ _ _ H Es) as (v' & Ev' & Hs). congruence.
    + apply (mutate_ok _ _ _ _ _ H E).
Qed.

Lemma wrun_ok : forall ops st sp sp', winv st sp -> spec_wrun sp ops = Some sp' ->
  exists st', wrun st ops = Some st' /\ winv st' sp'.
Proof.
  induction ops as [|o ops IH]; intros st sp sp' H E; cbn [spec_wrun wrun] in *.
  - injection E as <-. eauto.
  - destruct (spec_wstep sp o) as [sp1|] eqn:E1; [|discriminate].
    destruct (wstep_ok _ _ _ _ H E1) as (st1 & -> & H1). eauto.
Qed.

Lemma winv_as_vec : forall st sp h, winv st sp -> as_vec st h = live sp h.
Proof.
  intros st sp h H. unfold as_vec, live. destruct (nth_error (handles st) h) as [s|] eqn:E.
  - destruct (F2_nth_l _ _ _ _ _ _ _ H E) as (v & -> & Hs). destruct s; cbn [holds] in Hs.
    + subst. reflexivity.
    + subst. reflexivity.
    + destruct Hs as (l & -> & ->). reflexivity.
  - apply nth_error_None in E. rewrite (F2_len _ _ _ _ _ H) in E. apply nth_error_None in E. rewrite E. reflexivity.
Qed.

Lemma winv_index : forall st sp h i v l, winv st sp -> live sp h = Some l -> nth_error l i = Some v -> const_index st h i = Some v.
Proof.
  intros st sp h i v l H El Ei. unfold const_index. destruct (live_inv _ _ _ _ H El) as [(En & ->)|(a & -> & ->)].
  - destruct i; discriminate.
  - assumption.
Qed.
Lemma count_other : forall (hs : list slot) a h, nth_error hs h = Some (At a) -> 1 < length (filter (points_to a) hs) ->
  exists k, k <> h /\ nth_error hs k = Some (At a).
Proof.
  assert (One : forall (hs : list slot) a, 0 < length (filter (points_to a) hs) -> exists k, nth_error hs k = Some (At a)).
  { induction hs as [|s hs IH]; intros a H; cbn [filter] in H; [cbn in H; lia|]. destruct (points_to a s) eqn:E.
    - exists 0. destruct s; cbn [points_to] in E; try discriminate. apply Nat.eqb_eq in E. subst. reflexivity.
    - destruct (IH a H) as (k & Hk). exists (S k). exact Hk. }
  induction hs as [|s hs IH]; intros a h E H; [destruct h; discriminate|]. destruct h as [|h]; cbn [nth_error] in E; cbn [filter] in H.
  - injection E as ->. cbn [points_to] in H. rewrite Nat.eqb_refl in H. cbn [length] in H.
    destruct (One hs a ltac:(lia)) as (k & Hk). exists (S k). split; [discriminate|exact Hk].
  - destruct (points_to a s) eqn:EP.
    + exists 0. split; [discriminate|]. destruct s; cbn [points_to] in EP; try discriminate. apply Nat.eqb_eq in EP. subst. reflexivity.
    + destruct (IH a h E H) as (k & N & Hk). exists (S k). split; [congruence|exact Hk].
Qed.

Lemma copies_only_when_shared (st st' : state) h a b :
  nth_error (handles st) h = Some (At a) -> to_mut st h = Some (st', b) ->
  (b = a <-> forall k, k <> h -> nth_error (handles st) k <> Some (At a)).
Proof.
  intros E. unfold to_mut, ensure_unique. rewrite E. destruct (Nat.ltb_spec 1 (use_count st a)) as [Hc|Hc].
  - destruct (nth_error (heap st) a) as [l|] eqn:El; [|discriminate]. intros H. injection H as _ <-. apply nth_lt in El.
    split; [lia|]. intros H. destruct (count_other _ _ _ E Hc) as (k & Nk & Hk). exfalso. exact (H k Nk Hk).
  - intros H. injection H as _ <-. split; [|reflexivity]. intros _ k Nk Hk.
    unfold use_count in Hc. pose proof (count_two _ _ _ _ Nk Hk E). lia.
Qed.
End Cow.
