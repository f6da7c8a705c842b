From Verif Require Import Base StatsSpec ChunkedSpec ChunkedModel PlainModel StatsModel.
From Coq Require Import Permutation.

(** * Cells *)
Lemma values_app : forall T (a b : list (option T)), values (a ++ b) = values a ++ values b.
Proof. intros. unfold values. apply flat_map_app. Qed.
Lemma nulls_app : forall T (a b : list (option T)), nulls (a ++ b) = nulls a + nulls b.
Proof. intros. unfold nulls. rewrite filter_app, app_length. reflexivity. Qed.
Lemma values_some : forall T (l : list T), values (map Some l) = l.
Proof. induction l as [|x l IH]; [reflexivity|]. unfold values in *. cbn [map flat_map app]. rewrite IH. reflexivity. Qed.
Lemma nulls_some : forall T (l : list T), nulls (map Some l) = 0.
Proof. induction l as [|x l IH]; [reflexivity|]. unfold nulls in *. cbn [map filter]. exact IH. Qed.
Lemma cells_count : forall T (l : list (option T)), length l = length (values l) + nulls l.
Proof.
  induction l as [|[v|] l IH]; [reflexivity| |]; unfold values, nulls in *; cbn [flat_map filter length app]; rewrite IH; lia.
Qed.
Lemma in_values : forall T (l : list (option T)) v, In v (values l) <-> In (Some v) l.
Proof.
  intros T l v. unfold values. rewrite in_flat_map. split.
  - intros ([w|] & Hi & H); cbn in H; [|contradiction]. destruct H as [->|[]]. assumption.
  - intros H. exists (Some v). split; [assumption|left; reflexivity].
Qed.
Lemma nulls_in : forall T (l : list (option T)), 0 < nulls l <-> In None l.
Proof.
  induction l as [|[v|] l IH]; unfold nulls in *; cbn [filter length In].
  - split; [lia|contradiction].
  - rewrite IH. split; [auto|intros [E|E]; [discriminate|assumption]].
  - split; [auto|lia].
Qed.

(** * Orders *)
Definition flip {T} (lt : T -> T -> bool) (a b : T) : bool := lt b a.
Lemma greatest_flip : forall T (lt : T -> T -> bool) l m, is_greatest lt l m <-> is_least (flip lt) l m.
Proof. intros. reflexivity. Qed.

(** a strict weak order on the values that satisfy [ok] *)
Record order {T} (lt : T -> T -> bool) (ok : T -> Prop) : Prop := {
  o_irr : forall x, ok x -> lt x x = false;
  o_asym : forall x y, ok x -> ok y -> lt x y = true -> lt y x = false;
  o_neg : forall x y z, ok x -> ok y -> ok z -> lt x y = false -> lt y z = false -> lt x z = false }.
Arguments o_irr {T lt ok}. Arguments o_asym {T lt ok}. Arguments o_neg {T lt ok}.

Lemma order_flip : forall T (lt : T -> T -> bool) ok, order lt ok -> order (flip lt) ok.
Proof.
  intros T lt ok H. unfold flip. split.
  - apply (o_irr H).
  - intros x y Hx Hy. apply (o_asym H); assumption.
  - intros x y z Hx Hy Hz A B. apply (o_neg H z y x); assumption.
Qed.
Lemma int_order : order Z.ltb (fun _ => True).
Proof. split; intros; lia. Qed.
Lemma bool_order : order bool_lt (fun _ => True).
Proof. split; unfold bool_lt; intros; destruct x; try destruct y; try destruct z; cbn in *; congruence. Qed.
Lemma dbl_order : order dbl_lt (fun v => dbl_nan v = false).
Proof.
  split; unfold dbl_lt; intros; rewrite ?H, ?H0, ?H1 in *; cbn [negb andb] in *; lia.
Qed.
Lemma string_order : order string_lt (fun _ => True).
Proof.
  split.
  - intros x _. induction x as [|a x IH]; [reflexivity|]. cbn [string_lt]. rewrite N.ltb_irrefl, N.eqb_refl, IH. reflexivity.
  - intros x y _ _. revert y. induction x as [|a x IH]; intros [|b y]; cbn [string_lt]; try congruence.
    specialize (IH y). destruct (N.compare_spec a b) as [E|E|E]; intros H.
    + subst. rewrite N.ltb_irrefl, N.eqb_refl in *. cbn [orb andb] in *. auto.
    + replace (b <? a)%N with false by lia. replace (b =? a)%N with false by lia. reflexivity.
    + replace (a <? b)%N with false in H by lia. replace (a =? b)%N with false in H by lia. discriminate.
  - intros x y z _ _ _. revert y z. induction x as [|a x IH]; intros [|b y] [|c z]; cbn [string_lt]; try congruence.
    intros H1 H2. apply orb_false_iff in H1. apply orb_false_iff in H2. destruct H1 as (A1 & A2). destruct H2 as (B1 & B2).
    apply orb_false_iff. split; [lia|]. destruct (N.eqb_spec a c) as [->|]; [|reflexivity]. cbn [andb].
    assert (b = c) by lia. subst. rewrite N.eqb_refl in *. cbn [andb] in *. eauto.
Qed.

Section Order.
Context {T : Type} (lt : T -> T -> bool) (ok : T -> Prop) (O : order lt ok).

Lemma least_ok : forall l m, Forall ok l -> is_least lt l m -> ok m.
Proof. intros l m H (Hi & _). rewrite Forall_forall in H. auto. Qed.
Lemma least_same : forall l l' m, (forall x, In x l <-> In x l') -> is_least lt l m -> is_least lt l' m.
Proof. intros l l' m H (Hi & Hm). split; [apply H; assumption|]. intros x Hx. apply Hm, H. assumption. Qed.
Lemma least_single : forall x, ok x -> is_least lt [x] x.
Proof. intros x Hx. split; [left; reflexivity|]. intros y [<-|[]]. apply (o_irr O). assumption. Qed.
Lemma least_app_l : forall a b m n, Forall ok a -> Forall ok b -> is_least lt a m -> is_least lt b n ->
  lt n m = false -> is_least lt (a ++ b) m.
Proof.
  intros a b m n Ha Hb Hm Hn E. pose proof (least_ok _ _ Ha Hm). pose proof (least_ok _ _ Hb Hn).
  destruct Hm as (Mi & Ml), Hn as (Ni & Nl). split; [apply in_app_iff; auto|].
  intros x Hx. apply in_app_iff in Hx. destruct Hx as [Hx|Hx]; [auto|].
  rewrite Forall_forall in Hb. apply (o_neg O x n m); auto.
Qed.
Lemma least_app_r : forall a b m n, Forall ok a -> Forall ok b -> is_least lt a m -> is_least lt b n ->
  lt m n = false -> is_least lt (a ++ b) n.
Proof.
  intros a b m n Ha Hb Hm Hn E. apply (least_same (b ++ a)).
  - intros x. rewrite !in_app_iff. tauto.
  - eapply least_app_l; eauto.
Qed.
(** [std::min] and the ways the code writes it *)
Lemma least_app : forall a b m n, Forall ok a -> Forall ok b -> is_least lt a m -> is_least lt b n ->
  is_least lt (a ++ b) (if lt n m then n else m).
Proof.
  intros a b m n Ha Hb Hm Hn. destruct (lt n m) eqn:E.
  - eapply least_app_r; eauto. apply (o_asym O); eauto using least_ok.
  - eapply least_app_l; eauto.
Qed.
Lemma least_app' : forall a b m n, Forall ok a -> Forall ok b -> is_least lt a m -> is_least lt b n ->
  is_least lt (a ++ b) (if lt m n then m else n).
Proof.
  intros a b m n Ha Hb Hm Hn. destruct (lt m n) eqn:E.
  - eapply least_app_l; eauto. apply (o_asym O); eauto using least_ok.
  - eapply least_app_r; eauto.
Qed.
Lemma least_fold : forall r l m, Forall ok l -> Forall ok r -> is_least lt l m ->
  is_least lt (l ++ r) (fold_left (std_min lt) r m).
Proof.
  induction r as [|x r IH]; intros l m Hl Hr Hm; cbn [fold_left].
  - rewrite app_nil_r. assumption.
  - inversion Hr as [|x0 r0 Hx Hr' E0]; subst. replace (l ++ x :: r) with ((l ++ [x]) ++ r) by (rewrite <- app_assoc; reflexivity).
    apply IH; [apply Forall_app; auto|assumption|]. unfold std_min.
    apply least_app; auto using least_single.
Qed.
Lemma least_unique : forall l m n, is_least lt l m -> is_least lt l n -> lt m n = false /\ lt n m = false.
Proof. intros l m n (Mi & Ml) (Ni & Nl). auto. Qed.

(** vectors *)
Definition covers (done lanes : list T) : Prop :=
  (forall m, In m lanes -> In m done) /\
  (forall x, In x done -> exists m, In m lanes /\ lt x m = false).
Definition right_op (f : T -> T -> T) : Prop := forall a b, ok a -> ok b -> is_least lt [a; b] (f a b).
Lemma lanewise_length : forall (f : T -> T -> T) a b, length a = length b -> length (lanewise f a b) = length a.
Proof. induction a as [|x a IH]; intros [|y b] E; cbn in *; try discriminate; auto. Qed.
Lemma lanewise_in : forall (f : T -> T -> T) a b z, In z (lanewise f a b) -> exists x y, In x a /\ In y b /\ z = f x y.
Proof.
  induction a as [|x a IH]; intros [|y b] z H; cbn [lanewise In] in H; try contradiction.
  destruct H as [<-|H]; [exists x, y; cbn; auto|]. destruct (IH _ _ H) as (x' & y' & A & B & C). exists x', y'. cbn; auto.
Qed.
Lemma lanewise_l : forall (f : T -> T -> T) a b x, length a = length b -> In x a -> exists y, In y b /\ In (f x y) (lanewise f a b).
Proof.
  induction a as [|z a IH]; intros [|y b] x E H; cbn [lanewise In length] in *; try discriminate; [contradiction|].
  destruct H as [->|H]; [exists y; auto|]. destruct (IH b x) as (y' & A & B); [lia|assumption|]. exists y'. auto.
Qed.
Lemma lanewise_r : forall (f : T -> T -> T) a b y, length a = length b -> In y b -> exists x, In x a /\ In (f x y) (lanewise f a b).
Proof.
  induction a as [|z a IH]; intros [|w b] y E H; cbn [lanewise In length] in *; try discriminate; [contradiction|].
  destruct H as [->|H]; [exists z; auto|]. destruct (IH b y) as (y' & A & B); [lia|assumption|]. exists y'. auto.
Qed.
Lemma covers_step : forall f done lanes v, right_op f -> Forall ok done -> Forall ok v -> length lanes = length v ->
  covers done lanes -> covers (done ++ v) (lanewise f lanes v).
Proof.
  intros f done lanes v Hf Hd Hv El (C1 & C2).
  assert (Hl : Forall ok lanes). { rewrite Forall_forall in *. auto. }
  rewrite Forall_forall in Hd, Hv, Hl. split.
  - intros m Hm. apply in_app_iff. destruct (lanewise_in _ _ _ _ Hm) as (x & y & Hx & Hy & ->).
    destruct (Hf x y (Hl _ Hx) (Hv _ Hy)) as ([E|[E|[]]] & _); rewrite <- E; auto.
  - intros x Hx. apply in_app_iff in Hx. destruct Hx as [Hx|Hx].
    + destruct (C2 x Hx) as (m & Hm & E). destruct (lanewise_l f lanes v m El Hm) as (y & Hy & Hi).
      exists (f m y). split; [assumption|]. destruct (Hf m y (Hl _ Hm) (Hv _ Hy)) as (Hin & Hle).
      assert (ok (f m y)) by (destruct Hin as [<-|[<-|[]]]; auto).
      apply (o_neg O x m (f m y)); auto. apply Hle. left. reflexivity.
    + destruct (lanewise_r f lanes v x El Hx) as (m & Hm & Hi). exists (f m x). split; [assumption|].
      destruct (Hf m x (Hl _ Hm) (Hv _ Hx)) as (_ & Hle). apply Hle. right. left. reflexivity.
Qed.
Lemma covers_least : forall done lanes m, Forall ok done -> covers done lanes -> is_least lt lanes m -> is_least lt done m.
Proof.
  intros done lanes m Hd (C1 & C2) (Mi & Ml). split; [auto|]. intros x Hx. rewrite Forall_forall in Hd.
  destruct (C2 x Hx) as (n & Hn & E). apply (o_neg O x n m); auto.
Qed.
Lemma covers_first : forall n x, 0 < n -> ok x -> covers [x] (repeat x n).
Proof.
  intros n x Hn Hx. split.
  - intros m Hm. apply repeat_spec in Hm. subst. left. reflexivity.
  - intros y [<-|[]]. exists x. split; [destruct n; [lia|left; reflexivity]|apply (o_irr O); assumption].
Qed.
End Order.

Lemma vector_loop_ok : forall T (lt : T -> T -> bool) ok fmin fmax lanes,
  order lt ok -> right_op lt ok fmin -> right_op (flip lt) ok fmax ->
  forall fuel done vmin vmax data vmin' vmax' rest,
  length vmin = lanes -> length vmax = lanes ->
  vector_loop fuel lanes fmin fmax vmin vmax data = (vmin', vmax', rest) ->
  exists used, data = used ++ rest /\ length vmin' = lanes /\ length vmax' = lanes /\
    (Forall ok done -> Forall ok used -> covers lt done vmin -> covers (flip lt) done vmax ->
     covers lt (done ++ used) vmin' /\ covers (flip lt) (done ++ used) vmax').
Proof.
  intros T lt ok fmin fmax lanes O Hmin Hmax.
  induction fuel as [|fuel IH]; intros done vmin vmax data vmin' vmax' rest L1 L2 E; cbn [vector_loop] in E.
  - injection E as <- <- <-. exists []. rewrite app_nil_r. auto.
  - destruct (Nat.leb_spec lanes (length data)) as [Hle|Hgt].
    + assert (Lf : length (firstn lanes data) = lanes) by (rewrite firstn_length; lia).
      assert (Lm1 : length (lanewise fmin vmin (firstn lanes data)) = lanes) by (rewrite lanewise_length; lia).
      assert (Lm2 : length (lanewise fmax vmax (firstn lanes data)) = lanes) by (rewrite lanewise_length; lia).
      destruct (IH (done ++ firstn lanes data) _ _ _ _ _ _ Lm1 Lm2 E)
        as (used & Eu & L1' & L2' & H).
      exists (firstn lanes data ++ used). split; [rewrite <- app_assoc, <- Eu; symmetry; apply firstn_skipn|].
      split; [assumption|]. split; [assumption|]. intros Hd Hu C1 C2. apply Forall_app in Hu. destruct Hu as (Hu1 & Hu2).
      rewrite app_assoc. apply H; [apply Forall_app; auto|assumption| |].
      * apply (covers_step lt ok); auto. lia.
      * apply (covers_step (flip lt) ok); auto using order_flip. lia.
    + injection E as <- <- <-. exists []. rewrite app_nil_r. auto.
Qed.

Lemma reduce_least : forall T (lt : T -> T -> bool) ok f dflt l, order lt ok -> (forall a b, f a b = std_min lt a b) ->
  l <> [] -> Forall ok l -> is_least lt l (reduce f dflt l).
Proof.
  intros T lt ok f dflt [|x l] O Hf Hne Hl; [contradiction|]. inversion Hl; subst. cbn [reduce].
  replace (fold_left f l x) with (fold_left (std_min lt) l x).
  - apply (least_fold lt ok O l [x] x); auto. apply (least_single lt ok O). assumption.
  - clear -Hf. revert x. induction l as [|y l IH]; intros x; [reflexivity|]. cbn [fold_left]. rewrite Hf. apply IH.
Qed.

Lemma zmin_std : forall a b, Z.min a b = std_min Z.ltb a b.
Proof. intros. unfold std_min. destruct (Z.ltb_spec b a); lia. Qed.
Lemma zmax_std : forall a b, Z.max a b = std_min (flip Z.ltb) a b.
Proof. intros. unfold std_min, flip. destruct (Z.ltb_spec a b); lia. Qed.
Lemma fold_ext : forall A B (f g : A -> B -> A) l a, (forall x y, f x y = g x y) -> fold_left f l a = fold_left g l a.
Proof. intros A B f g l a H. revert a. induction l as [|x l IH]; intros a; [reflexivity|]. cbn [fold_left]. rewrite H. apply IH. Qed.
Lemma Forall_T : forall A (l : list A), Forall (fun _ => True) l.
Proof. induction l; constructor; auto. Qed.

Theorem minmax_int : forall lanes lo hi data, 0 < lanes -> data <> [] ->
  is_least Z.ltb data (fst (compute_minmax_int lanes lo hi data)) /\
  is_greatest Z.ltb data (snd (compute_minmax_int lanes lo hi data)).
Proof.
  intros lanes lo hi [|first later] Hn Hne; [contradiction|]. cbn [compute_minmax_int].
  destruct (vector_loop _ lanes Z.min Z.max (repeat first lanes) (repeat first lanes) (first :: later)) as [[vmin vmax] rest] eqn:E.
  assert (R1 : right_op Z.ltb (fun _ => True) Z.min).
  { intros a b _ _. split; [cbn; lia|]. intros x [<-|[<-|[]]]; lia. }
  assert (R2 : right_op (flip Z.ltb) (fun _ => True) Z.max).
  { intros a b _ _. unfold flip. split; [cbn; lia|]. intros x [<-|[<-|[]]]; lia. }
  destruct (vector_loop_ok _ Z.ltb _ Z.min Z.max lanes int_order R1 R2 _ [first] _ _ _ _ _ _ (repeat_length _ _) (repeat_length _ _) E)
    as (used & Eu & L1 & L2 & H).
  destruct H as (C1 & C2); auto using Forall_T.
  { apply (covers_first _ (fun _ => True) int_order); auto. }
  { apply (covers_first _ (fun _ => True) (order_flip _ _ _ int_order)); auto. }
  assert (Hsame : forall x, In x (([first] ++ used) ++ rest) <-> In x (first :: later)).
  { intros x. rewrite Eu, <- app_assoc. cbn [app In]. rewrite <- Eu. cbn [In]. tauto. }
  assert (N1 : vmin <> []) by (destruct vmin; cbn in *; [lia|discriminate]).
  assert (N2 : vmax <> []) by (destruct vmax; cbn in *; [lia|discriminate]).
  cbn [fst snd]. split.
  - eapply (least_same _ _ _ _ Hsame). apply (least_fold _ _ int_order); auto using Forall_T.
    apply (covers_least _ _ int_order _ vmin); auto using Forall_T.
    apply (reduce_least _ _ _ _ _ _ int_order); auto using Forall_T, zmin_std.
  - rewrite greatest_flip. eapply (least_same _ _ _ _ Hsame).
    rewrite (fold_ext _ _ (std_max Z.ltb) (std_min (flip Z.ltb))) by reflexivity.
    apply (least_fold _ _ (order_flip _ _ _ int_order)); auto using Forall_T.
    apply (covers_least _ _ (order_flip _ _ _ int_order) _ vmax); auto using Forall_T.
    apply (reduce_least _ _ _ _ _ _ (order_flip _ _ _ int_order)); auto using Forall_T, zmax_std.
Qed.
