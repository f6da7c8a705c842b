From Verif Require Import Base ChunkedSpec ChunkedModel ChunkedProof.
From Verif Require Import StatsSpec StatsModel StatsProof StatsProof2 StatsProof3 StatsProof4.
From Coq Require Import Permutation.

(** * Two kinds of hardware *)
(** x86 MINPD / MAXPD: the second operand unless the first is strictly below (above) it. *)
Definition x86_min (a b : N) : N := if dbl_lt a b then a else b.
Definition x86_max (a b : N) : N := if dbl_lt b a then a else b.
Definition x86 (lanes : nat) : hardware :=
  Hardware lanes x86_min x86_max (reduce x86_min 0%N) (reduce x86_max 0%N).
(** AArch64 FMIN / FMAX: NaN if either operand is NaN. *)
Definition arm_min (a b : N) : N := if dbl_nan a then a else if dbl_nan b then b else if dbl_lt b a then b else a.
Definition arm_max (a b : N) : N := if dbl_nan a then a else if dbl_nan b then b else if dbl_lt a b then b else a.
Definition arm (lanes : nat) : hardware :=
  Hardware lanes arm_min arm_max (reduce arm_min 0%N) (reduce arm_max 0%N).

Lemma fold_right_op : forall T (lt : T -> T -> bool) ok f r l m, order lt ok -> right_op lt ok f ->
  Forall ok l -> Forall ok r -> is_least lt l m -> is_least lt (l ++ r) (fold_left f r m).
Proof.
  intros T lt ok f r l m O Hf. revert l m. induction r as [|x r IH]; intros l m Hl Hr Hm; cbn [fold_left]; [rewrite app_nil_r; assumption|].
  inversion Hr; subst. replace (l ++ x :: r) with ((l ++ [x]) ++ r) by (rewrite <- app_assoc; reflexivity).
  assert (Fx : Forall ok [x]) by (constructor; [assumption|constructor]).
  apply IH; [apply Forall_app; auto|assumption|].
  assert (Km := least_ok _ ok _ _ Hl Hm). destruct (Hf m x Km H1) as (Hin & Hle).
  assert (Hk : ok (f m x)) by (destruct Hin as [<-|[<-|[]]]; assumption).
  destruct Hm as (Mi & Ml). split.
  - apply in_app_iff. destruct Hin as [<-|[<-|[]]]; [left; assumption|right; left; reflexivity].
  - intros y Hy. apply in_app_iff in Hy. rewrite Forall_forall in Hl. destruct Hy as [Hy|[<-|[]]].
    + apply (o_neg O y m (f m x)); auto. apply Hle. left. reflexivity.
    + apply Hle. right. left. reflexivity.
Qed.
Lemma reduce_right_op : forall T (lt : T -> T -> bool) ok f d l, order lt ok -> right_op lt ok f -> l <> [] -> Forall ok l ->
  is_least lt l (reduce f d l).
Proof.
  intros T lt ok f d [|x r] O Hf Hne Hl; [contradiction|]. inversion Hl; subst. cbn [reduce].
  apply (fold_right_op _ lt ok f r [x] x); auto. apply (least_single _ _ O). assumption.
Qed.
Lemma op_right_on_numbers : forall lanes fmin fmax, 0 < lanes -> right_op dbl_lt number fmin -> right_op gt number fmax ->
  right_on_numbers (Hardware lanes fmin fmax (reduce fmin 0%N) (reduce fmax 0%N)).
Proof.
  intros lanes fmin fmax Hl H1 H2. split; [exact Hl|]. split; cbn [hw_min hw_max hw_reduce_min hw_reduce_max].
  - intros a b Ha Hb. split; [apply H1; assumption|apply H2; assumption].
  - intros l Hne Hn. split; [apply (reduce_right_op _ _ _ _ _ _ dbl_order H1); assumption|apply (reduce_right_op _ _ _ _ _ _ gt_order H2); assumption].
Qed.
Lemma pair_least : forall T (lt : T -> T -> bool) ok a b, order lt ok -> ok a -> ok b ->
  is_least lt [a; b] (if lt b a then b else a) /\ is_least lt [a; b] (if lt a b then a else b).
Proof.
  intros T lt ok a b O Ha Hb. assert (Fa : Forall ok [a]) by (constructor; [assumption|constructor]).
  assert (Fb : Forall ok [b]) by (constructor; [assumption|constructor]).
  assert (La := least_single _ _ O a Ha). assert (Lb := least_single _ _ O b Hb). split.
  - apply (least_app _ _ O [a] [b]); assumption.
  - apply (least_app' _ _ O [a] [b]); assumption.
Qed.
Lemma x86_right : forall lanes, 0 < lanes -> right_on_numbers (x86 lanes).
Proof.
  intros lanes H. apply op_right_on_numbers; [exact H| |].
  - intros a b Ha Hb. apply (pair_least _ _ _ a b dbl_order Ha Hb).
  - intros a b Ha Hb. apply (pair_least _ _ _ a b gt_order Ha Hb).
Qed.
Lemma arm_right : forall lanes, 0 < lanes -> right_on_numbers (arm lanes).
Proof.
  intros lanes H. apply op_right_on_numbers; [exact H| |].
  - intros a b Ha Hb. unfold arm_min. unfold number in Ha, Hb. rewrite Ha, Hb. apply (pair_least _ _ number a b dbl_order Ha Hb).
  - intros a b Ha Hb. unfold arm_max. unfold number in Ha, Hb. rewrite Ha, Hb. apply (pair_least _ _ number a b gt_order Ha Hb).
Qed.
Lemma arm_op_nan : forall a b, dbl_nan a || dbl_nan b = true -> dbl_nan (arm_min a b) = true /\ dbl_nan (arm_max a b) = true.
Proof.
  intros a b H. unfold arm_min, arm_max. destruct (dbl_nan a) eqn:Ea; [auto|]. cbn [orb] in H. rewrite H. auto.
Qed.
Lemma fold_nan : forall f r m, (forall a b, dbl_nan a || dbl_nan b = true -> dbl_nan (f a b) = true) ->
  dbl_nan m || existsb dbl_nan r = true -> dbl_nan (fold_left f r m) = true.
Proof.
  intros f r m Hf. revert m. induction r as [|x r IH]; intros m H; cbn [fold_left existsb] in *; [rewrite orb_false_r in H; assumption|].
  apply IH. rewrite orb_assoc in H. apply orb_true_iff in H. destruct H as [H|H]; [rewrite (Hf _ _ H); reflexivity|rewrite H; apply orb_true_r].
Qed.
Lemma arm_propagates : forall lanes, propagates_nan (arm lanes).
Proof.
  intros lanes. split; cbn [arm hw_min hw_max hw_reduce_min hw_reduce_max]; [exact arm_op_nan|].
  intros [|x r] H; [discriminate|]. cbn [reduce existsb] in *. split; apply fold_nan; try assumption; intros a b Hab; apply arm_op_nan; assumption.
Qed.

(** * Uniqueness for the types where equivalent means equal *)
Lemma int_equiv : forall a b : Z, (a <? b)%Z = false -> (b <? a)%Z = false -> a = b.
Proof. intros. lia. Qed.
Lemma string_equiv : forall a b, string_lt a b = false -> string_lt b a = false -> a = b.
Proof.
  induction a as [|x a IH]; intros [|y b] H1 H2; cbn [string_lt] in *; try discriminate; [reflexivity|].
  apply orb_false_iff in H1. apply orb_false_iff in H2. destruct H1 as (A1 & A2). destruct H2 as (B1 & B2).
  assert (x = y) by lia. subst. rewrite N.eqb_refl in *. cbn [andb] in *. f_equal. auto.
Qed.
Lemma bool_equiv : forall a b, bool_lt a b = false -> bool_lt b a = false -> a = b.
Proof. intros [|] [|]; cbn; congruence. Qed.
Lemma agree_eq : forall T (lt : T -> T -> bool), (forall a b, lt a b = false -> lt b a = false -> a = b) ->
  forall r1 r2 a b, describes lt r1 a -> describes lt r2 b -> Permutation a b ->
  r_has_value r1 = r_has_value r2 /\ r_nulls r1 = r_nulls r2 /\ r_values r1 = r_values r2 /\
  r_total r1 = r_total r2 /\ r_has_null r1 = r_has_null r2 /\
  (r_has_value r1 = true -> r_min r1 = r_min r2 /\ r_max r1 = r_max r2).
Proof.
  intros T lt Eq r1 r2 a b H1 H2 P. destruct (describes_agree _ _ _ _ _ _ H1 H2 P) as (A & B & C & D & E & F).
  split; [assumption|]. split; [assumption|]. split; [assumption|]. split; [assumption|]. split; [assumption|].
  intros Hv. destruct (F Hv) as (F1 & F2 & F3 & F4). auto.
Qed.

(** * Builders *)
Lemma Forall2_in : forall A B (R R' : A -> B -> Prop) la lb, Forall2 R la lb -> (forall a b, In b lb -> R a b -> R' a b) -> Forall2 R' la lb.
Proof.
  intros A B R R' la lb H. induction H; intros K; constructor; [apply K; [left; reflexivity|assumption]|].
  apply IHForall2. intros a b Hb. apply K. right. assumption.
Qed.
Lemma filter_all : forall A (l : list A), filter (fun _ => negb false) l = l.
Proof. induction l as [|x l IH]; [reflexivity|]. change (x :: filter (fun _ : A => negb false) l = x :: l). rewrite IH. reflexivity. Qed.
Lemma int_builder : forall lo hi wrap dflt ops lists,
  spec_crun [] ops = Some lists ->
  (forall l v, In l lists -> In (Some v) l -> (lo <= v <= hi)%Z) ->
  exists builders, crun dflt [] ops = Some builders /\
    Forall2 (fun b l => column_describes int_lt wrap (scanned_statistics Z.ltb (fun _ => false) hi lo wrap b) l) builders lists.
Proof.
  intros lo hi wrap dflt ops lists E Hr. destruct (crun_ok dflt ops [] [] lists (Forall2_nil _) E) as (st & Er & HF).
  exists st. split; [assumption|]. eapply Forall2_in; [exact HF|]. intros b l Hl Hb.
  assert (O : order Z.ltb (fun v => (lo <= v <= hi)%Z)) by (split; intros; lia).
  assert (G1 : forall v, (lo <= v <= hi)%Z -> (v <? hi)%Z = false -> v = hi) by (intros; lia).
  assert (G2 : forall v, (lo <= v <= hi)%Z -> (lo <? v)%Z = false -> v = lo) by (intros; lia).
  assert (G3 : forall v, In (Some v) l -> false = false -> (lo <= v <= hi)%Z) by (intros; eauto).
  destruct (scanned_ok Z Z.ltb (fun v => (lo <= v <= hi)%Z) (fun _ => false) hi lo dflt wrap O G1 G2 b l Hb G3) as (A & B & C).
  rewrite filter_all in A. split; [exact A|]. split; assumption.
Qed.
Lemma inf_top : forall v, dbl_nan v = false -> (v < 2 ^ 64)%N -> dbl_lt v dbl_infinity = false -> v = dbl_infinity.
Proof.
  intros v Hn Hv H. unfold dbl_lt in H. rewrite Hn in H. cbn [negb andb] in H.
  change (dbl_nan dbl_infinity) with false in H. cbn [negb andb] in H. unfold dbl_key in H.
  change (N.testbit dbl_infinity 63) with false in H. unfold dbl_nan in Hn.
  assert (Ed : (v = dbl_magnitude v + 2 ^ 63 * (v / 2 ^ 63))%N) by (unfold dbl_magnitude; rewrite (N.add_comm (v mod 2 ^ 63)); apply N.div_mod; lia).
  assert (Et : N.testbit v 63 = N.odd (v / 2 ^ 63)) by (rewrite <- N.shiftr_div_pow2, <- N.bit0_odd, N.shiftr_spec'; f_equal; lia).
  assert (Hq : (v / 2 ^ 63 < 2)%N) by (apply N.div_lt_upper_bound; lia).
  change (dbl_magnitude dbl_infinity) with 0x7FF0000000000000%N in H.
  destruct (N.testbit v 63) eqn:E63.
  - change dbl_infinity with 0x7FF0000000000000%N in *. lia.
  - assert (v / 2 ^ 63 = 0)%N by (destruct (v / 2 ^ 63)%N as [|[p|p|]]; cbn in *; try lia; try discriminate).
    change dbl_infinity with 0x7FF0000000000000%N in *. lia.
Qed.
Lemma inf_bottom : forall v, dbl_nan v = false -> (v < 2 ^ 64)%N -> dbl_lt dbl_minus_infinity v = false -> v = dbl_minus_infinity.
Proof.
  intros v Hn Hv H. unfold dbl_lt in H. rewrite Hn in H. cbn [negb andb] in H.
  change (dbl_nan dbl_minus_infinity) with false in H. cbn [negb andb] in H. unfold dbl_key in H.
  change (N.testbit dbl_minus_infinity 63) with true in H. unfold dbl_nan in Hn.
  assert (Ed : (v = dbl_magnitude v + 2 ^ 63 * (v / 2 ^ 63))%N) by (unfold dbl_magnitude; rewrite (N.add_comm (v mod 2 ^ 63)); apply N.div_mod; lia).
  assert (Et : N.testbit v 63 = N.odd (v / 2 ^ 63)) by (rewrite <- N.shiftr_div_pow2, <- N.bit0_odd, N.shiftr_spec'; f_equal; lia).
  assert (Hq : (v / 2 ^ 63 < 2)%N) by (apply N.div_lt_upper_bound; lia).
  change (dbl_magnitude dbl_minus_infinity) with 0x7FF0000000000000%N in H.
  destruct (N.testbit v 63) eqn:E63.
  - assert (v / 2 ^ 63 = 1)%N by (destruct (v / 2 ^ 63)%N as [|[p|p|]]; cbn in *; try lia; try discriminate).
    change dbl_minus_infinity with 0xFFF0000000000000%N in *. lia.
  - lia.
Qed.
Lemma float_builder : forall dflt ops lists,
  spec_crun [] ops = Some lists ->
  (forall l v, In l lists -> In (Some v) l -> (v < 2 ^ 64)%N) ->
  exists builders, crun dflt [] ops = Some builders /\
    Forall2 (fun b l => let cs := float64_builder_statistics b in
      column_describes_range dbl_lt DoubleValue cs (values (nan_null l)) /\
      cs_null_count cs = Z.of_nat (nulls l) /\ (cs_has_null cs = true <-> In None l)) builders lists.
Proof.
  intros dflt ops lists E Hr. destruct (crun_ok dflt ops [] [] lists (Forall2_nil _) E) as (st & Er & HF).
  exists st. split; [assumption|]. eapply Forall2_in; [exact HF|]. intros b l Hl Hb. cbv zeta.
  assert (O : order dbl_lt (fun v => number v /\ (v < 2 ^ 64)%N)).
  { split.
    - intros x (Hx & _). apply (o_irr dbl_order). assumption.
    - intros x y (Hx & _) (Hy & _). apply (o_asym dbl_order); assumption.
    - intros x y z (Hx & _) (Hy & _) (Hz & _). apply (o_neg dbl_order); assumption. }
  destruct (scanned_ok N dbl_lt _ dbl_nan dbl_infinity dbl_minus_infinity dflt DoubleValue O
    ltac:(intros v (Hn & Hv); apply inf_top; assumption) ltac:(intros v (Hn & Hv); apply inf_bottom; assumption) b l Hb
    ltac:(intros v Hv Hn; split; [assumption|eauto])) as (A & B & C).
  rewrite values_nan_null. split; [exact A|]. split; assumption.
Qed.
Lemma F2_three : forall A A' B C (R : A' -> B -> Prop) (Q : A -> C -> Prop) (f : A -> A') ts lists own,
  Forall2 R (map f ts) lists -> Forall2 Q ts own -> Forall2 (fun t (lo : B * C) => R (f t) (fst lo) /\ Q t (snd lo)) ts (combine lists own).
Proof.
  intros A A' B C R Q f ts. induction ts as [|t ts IH]; intros lists own H1 H2; inversion H1; inversion H2; subst; cbn [combine]; constructor; auto.
Qed.
Lemma tracked_builder : forall T SS (lt : T -> T -> bool) dflt (c : class T SS) wrap (rel : SS -> list (option T) -> Prop) ops lists,
  rel (c_new c) [] -> (forall s l v, rel s l -> rel (c_update c s v) (l ++ [Some v])) -> (forall s l, rel s l -> rel (c_update_null c s) (l ++ [None])) ->
  (forall s l, rel s l -> describes_range lt (c_get c s) l) ->
  spec_crun [] ops = Some lists ->
  exists builders, trun dflt c [] ops = Some builders /\
    Forall2 (fun b (lo : list (option T) * list (option T)) => let cs := tracked_statistics c wrap b in
      column_describes_range lt wrap cs (values (snd lo)) /\
      cs_null_count cs = Z.of_nat (nulls (fst lo)) /\ (cs_has_null cs = true <-> In None (fst lo)))
      builders (combine lists (own_appends ops)).
Proof.
  intros T SS lt dflt c wrap rel ops lists H1 H2 H3 Hd E.
  destruct (trun_ok dflt c rel H1 H2 H3 ops [] [] [] lists (Forall2_nil _) (Forall2_nil _) E) as (ts & Et & Hb & Hr).
  exists ts. split; [assumption|]. pose proof (F2_three _ _ _ _ _ _ _ _ _ _ Hb Hr) as F. eapply Forall2_in; [exact F|].
  intros b (l, own) _ (Bi & Re). cbn [fst snd] in *. cbv zeta. split; [apply tracked_range, Hd; exact Re|]. eapply tracked_counts; eassumption.
Qed.
