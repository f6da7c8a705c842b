(** Cell types. *)
From Verif Require Import Base DialectSpec DialectModel DialectProof.

Fixpoint dropw (p : byte -> bool) (l : bytes) : bytes :=
  match l with
  | [] => []
  | c :: r => if p c then dropw p r else l
  end.

Lemma drop_blanks_w l : drop_blanks l = dropw blank l.
Proof. induction l as [|c l IH]; [reflexivity|]; cbn [drop_blanks dropw]; rewrite IH; reflexivity. Qed.
Lemma drop_spaces_w l : drop_spaces l = dropw space l.
Proof. induction l as [|c l IH]; [reflexivity|]; cbn [drop_spaces dropw]; rewrite IH; reflexivity. Qed.
Lemma drop_digits_w l : drop_digits l = dropw digit l.
Proof. induction l as [|c l IH]; [reflexivity|]; cbn [drop_digits dropw]; rewrite IH; reflexivity. Qed.

Section Trim.
Variables (p : byte -> bool) (P : byte -> Prop).
Hypothesis pP : forall c, p c = true <-> P c.

Lemma dropw_split l : exists a, l = a ++ dropw p l /\ Forall P a /\
  (forall c r, dropw p l = c :: r -> ~ P c).
Proof.
  induction l as [|c l IH].
  - exists []; repeat split; [constructor|discriminate].
  - cbn [dropw]. destruct (p c) eqn:B.
    + destruct IH as (a & E & F & H). exists (c :: a). split; [cbn [app]; congruence|].
      split; [constructor; [apply pP; exact B|exact F]|exact H].
    + exists []. split; [reflexivity|split; [constructor|]].
      intros x r E; injection E as <- _. rewrite <- pP, B; discriminate.
Qed.

Lemma dropw_app a r : Forall P a -> (forall c t, r = c :: t -> ~ P c) -> dropw p (a ++ r) = r.
Proof.
  induction 1 as [|c a Hc F IH]; intros N.
  - cbn [app]. destruct r as [|c t]; [reflexivity|]. cbn [dropw].
    destruct (p c) eqn:B; [|reflexivity]. apply pP in B. destruct (N c t eq_refl B).
  - cbn [app dropw]. rewrite (proj2 (pP c) Hc). apply IH; exact N.
Qed.

Definition trim (l : bytes) : bytes := rev (dropw p (rev (dropw p l))).

Lemma Forall_rev' {A} (Q : A -> Prop) l : Forall Q l -> Forall Q (rev l).
Proof. apply Forall_rev. Qed.

Lemma trim_ok l : Trimmed P l (trim l).
Proof.
  unfold trim. destruct (dropw_split l) as (a & E & F & H).
  destruct (dropw_split (rev (dropw p l))) as (b & E2 & F2 & H2).
  exists a, (rev b). split.
  - rewrite E at 1. f_equal. rewrite <- rev_app_distr, <- E2, rev_involutive. reflexivity.
  - split; [exact F|split; [apply Forall_rev'; exact F2|split]].
    + intros c r T.
      apply (f_equal (@rev byte)) in E2. rewrite rev_involutive, rev_app_distr in E2.
      rewrite T in E2; cbn [app] in E2. apply (H c (r ++ rev b)); exact E2.
    + intros c r T. apply (f_equal (@rev byte)) in T.
      rewrite rev_involutive, rev_app_distr in T; cbn [rev app] in T. exact (H2 c (rev r) T).
Qed.

Lemma trim_unique l t : Trimmed P l t -> t = trim l.
Proof.
  intros (a & b & -> & Fa & Fb & H1 & H2). unfold trim.
  destruct t as [|c t].
  - cbn [app]. assert (E : dropw p (a ++ b) = []).
    { rewrite <- (app_nil_r (a ++ b)). apply dropw_app; [apply Forall_app; auto|discriminate]. }
    rewrite E; reflexivity.
  - rewrite dropw_app; [|exact Fa|].
    2:{ intros x r E; cbn [app] in E; injection E as <- _. exact (H1 c t eq_refl). }
    rewrite rev_app_distr, dropw_app.
    + rewrite rev_involutive; reflexivity.
    + apply Forall_rev'; exact Fb.
    + intros x r E. apply (f_equal (@rev byte)) in E. rewrite rev_involutive in E.
      cbn [rev] in E. exact (H2 x (rev r) E).
Qed.
End Trim.

Lemma digit_ok c : digit c = true <-> Digit c.
Proof. unfold digit, Digit. rewrite andb_true_iff, !N.leb_le; reflexivity. Qed.

Lemma space_ok c : space c = true <-> White c.
Proof.
  unfold space, White. rewrite orb_true_iff, andb_true_iff, N.eqb_eq, !N.leb_le; reflexivity.
Qed.

Lemma trim_spaces_trim l : trim_spaces l = trim space l.
Proof. unfold trim_spaces, trim. rewrite !drop_spaces_w; reflexivity. Qed.
Lemma trim_blanks_trim l : trim_blanks l = trim blank l.
Proof. unfold trim_blanks, trim. rewrite !drop_blanks_w; reflexivity. Qed.

Lemma forallb_digits l : forallb digit l = true <-> Digits l.
Proof.
  unfold Digits. rewrite forallb_forall, Forall_forall.
  split; intros H x I; apply digit_ok; auto.
Qed.

Lemma sign_ok c : sign c = true <-> c = 45%N \/ c = 43%N.
Proof. unfold sign. rewrite orb_true_iff, !N.eqb_eq; reflexivity. Qed.

Lemma digit_not_sign c : digit c = true -> sign c = false.
Proof. unfold digit, sign. intros H. lia. Qed.

(** ---- integers ---- *)
Lemma integer_shape_ok l : integer_shape l = true <-> IntegerText l.
Proof.
  unfold integer_shape, IntegerText. split.
  - destruct l as [|c r]; [discriminate|]. destruct (sign c) eqn:SG.
    + destruct r as [|c2 r]; [discriminate|]. intros D. apply forallb_digits in D.
      exists [c], (c2 :: r). repeat split; auto; [|discriminate].
      apply sign_ok in SG. unfold OptSign. destruct SG as [->| ->]; auto.
    + intros D. apply forallb_digits in D. exists [], (c :: r).
      repeat split; auto; [left; reflexivity|discriminate].
  - intros (s & d & -> & HS & D & NE). destruct d as [|x d]; [congruence|].
    assert (X : sign x = false) by (inversion D; apply digit_not_sign, digit_ok; assumption).
    destruct HS as [->|[->| ->]]; cbn [app].
    + rewrite X. apply forallb_digits; exact D.
    + change (sign 43) with true. cbv iota. apply forallb_digits; exact D.
    + change (sign 45) with true. cbv iota. apply forallb_digits; exact D.
Qed.

Lemma could_be_integer_shape f : could_be_integer f = integer_shape (trim_blanks f).
Proof.
  unfold could_be_integer, integer_shape. destruct (trim_blanks f) as [|c r]; [reflexivity|].
  destruct (sign c); [destruct r; reflexivity|reflexivity].
Qed.

(** ---- floats ---- *)
Lemma drop_digits_app a r : Digits a -> (forall c t, r = c :: t -> ~ Digit c) ->
  drop_digits (a ++ r) = r.
Proof. rewrite drop_digits_w. apply (dropw_app digit Digit digit_ok). Qed.

Lemma drop_digits_split l : exists a, l = a ++ drop_digits l /\ Digits a /\
  (forall c r, drop_digits l = c :: r -> ~ Digit c).
Proof. rewrite drop_digits_w. apply (dropw_split digit Digit digit_ok). Qed.

Lemma shorter (a b : bytes) : (length b <? length (a ++ b)) = negb (match a with [] => true | _ => false end).
Proof.
  rewrite app_length. destruct a; cbn [length]; [|apply Nat.ltb_lt; lia].
  apply Nat.ltb_ge; lia.
Qed.

Lemma not_digit_lit c : ((c <? 48) || (57 <? c))%N%bool = true -> ~ Digit c.
Proof. unfold Digit. lia. Qed.

Lemma optsign_strip (s l : bytes) : OptSign s ->
  (forall c t, l = c :: t -> sign c = false) ->
  match s ++ l with c :: r => if sign c then r else s ++ l | [] => s ++ l end = l.
Proof.
  intros [->|[->| ->]] H; cbn [app].
  - destruct l as [|c t]; [reflexivity|]. rewrite (H c t eq_refl); reflexivity.
  - reflexivity.
  - reflexivity.
Qed.

Lemma optsign_take (l : bytes) : exists s r, l = s ++ r /\ OptSign s /\
  match l with c :: r => if sign c then r else l | [] => l end = r.
Proof.
  destruct l as [|c r].
  - exists [], []; repeat split; left; reflexivity.
  - destruct (sign c) eqn:SG.
    + exists [c], r. repeat split. apply sign_ok in SG. unfold OptSign. destruct SG as [->| ->]; auto.
    + exists [], (c :: r). repeat split. left; reflexivity.
Qed.

Lemma float_shape_ok l : float_shape l = true <-> FloatText l.
Proof.
  split.
  - unfold float_shape. cbv zeta.
    destruct (optsign_take l) as (s & l0 & -> & OS & ->).
    destruct (drop_digits_split l0) as (i & E & Di & Ni).
    set (l1 := drop_digits l0) in *.
    assert (D1 : (length l1 <? length l0) = negb (match i with [] => true | _ => false end))
      by (rewrite E; apply shorter).
    rewrite D1.
    (* the fraction *)
    assert (Frac : exists pt l2 (dot d2 : bool),
      (match l1 with
       | c :: r => if (c =? 46)%N
           then (true, negb (match i with [] => true | _ => false end) ||
                       (length (drop_digits r) <? length r), drop_digits r)
           else (false, negb (match i with [] => true | _ => false end), l1)
       | [] => (false, negb (match i with [] => true | _ => false end), l1)
       end) = (dot, d2, l2) /\ l1 = pt ++ l2 /\
      (dot = true <-> pt <> []) /\ (pt = [] \/ exists f, pt = 46%N :: f /\ Digits f) /\
      (d2 = true -> exists c, In c (i ++ pt) /\ Digit c)).
    { assert (I : forall x, negb (match i with [] => true | _ => false end) = true ->
                  exists c, In c (i ++ x) /\ Digit c).
      { intros x H. destruct i as [|c i]; [discriminate|]. exists c.
        split; [left; reflexivity|]. inversion Di; assumption. }
      destruct l1 as [|c r] eqn:L1.
      - exists [], [], false, (negb (match i with [] => true | _ => false end)).
        repeat split; auto; discriminate || (intros H; congruence).
      - destruct (N.eqb_spec c 46) as [->|NE].
        + destruct (drop_digits_split r) as (f & Er & Df & Nf).
          exists (46%N :: f), (drop_digits r), true,
            (negb (match i with [] => true | _ => false end) || (length (drop_digits r) <? length r)).
          split; [reflexivity|]. split; [cbn [app]; congruence|].
          split; [split; [discriminate|reflexivity]|].
          split; [right; exists f; auto|].
          intros H. apply orb_true_iff in H. destruct H as [H|H]; [exact (I _ H)|].
          rewrite Er in H at 2. rewrite shorter in H. destruct f as [|x f]; [discriminate|].
          exists x. split; [|inversion Df; assumption].
          apply in_or_app; right; right; left; reflexivity.
        + exists [], (c :: r), false, (negb (match i with [] => true | _ => false end)).
          split; [reflexivity|]. split; [reflexivity|].
          split; [split; [discriminate|congruence]|]. split; [left; reflexivity|apply I]. }
    destruct Frac as (pt & l2 & dot & d2 & Eq & E1 & Hdot & Hpt & Hd).
    rewrite Eq. clear Eq. intros H.
    destruct l2 as [|c r].
    + apply andb_true_iff in H. destruct H as [H1 H2].
      exists s, i, pt, []. rewrite app_nil_r in *.
      split; [rewrite E, E1; reflexivity|]. split; [exact OS|]. split; [exact Di|].
      split; [exact Hpt|]. split; [left; reflexivity|].
      split; [left; apply Hdot; exact H2|apply Hd; exact H1].
    + destruct ((c =? 101) || (c =? 69))%N%bool eqn:EE; [|discriminate].
      destruct (optsign_take r) as (t & x & -> & OT & Ex). rewrite Ex in H. clear Ex.
      destruct x as [|c3 x]; [discriminate|].
      apply andb_true_iff in H. destruct H as [H H3].
      apply andb_true_iff in H. destruct H as [H1 H2].
      destruct (drop_digits_split (c3 :: x)) as (dx & Edx & Ddx & _).
      destruct (drop_digits (c3 :: x)); [|discriminate]. rewrite app_nil_r in Edx. subst dx.
      exists s, i, pt, (c :: t ++ c3 :: x).
      split; [rewrite E, E1; reflexivity|]. split; [exact OS|]. split; [exact Di|].
      split; [exact Hpt|].
      split.
      { right. exists c, t, (c3 :: x). split; [reflexivity|].
        apply orb_true_iff in EE. rewrite !N.eqb_eq in EE.
        split; [exact EE|]. split; [exact OT|]. split; [exact Ddx|discriminate]. }
      split; [right; discriminate|apply Hd; exact H2].
  - intros (s & i & pt & e & -> & OS & Di & Hp & He & NE & (c & Ic & Dc)).
    assert (Hd : forall x y, pt ++ e = x :: y -> ~ Digit x /\ sign x = false).
    { intros x y E. destruct Hp as [->|(f & -> & _)].
      - cbn [app] in E. destruct He as [->|(m & t & z & -> & Hm & _)]; [discriminate|].
        injection E as <- _. destruct Hm as [->| ->]; split; try reflexivity;
          apply not_digit_lit; reflexivity.
      - injection E as <- _. split; [apply not_digit_lit; reflexivity|reflexivity]. }
    unfold float_shape. cbv zeta.
    rewrite optsign_strip; [|exact OS|].
    2:{ intros x y E. destruct i as [|z i]; [apply (Hd x y E)|]. injection E as <- _.
        inversion Di; apply digit_not_sign, digit_ok; assumption. }
    rewrite (drop_digits_app i (pt ++ e)); [|exact Di|intros x y E; apply (Hd x y E)].
    rewrite shorter.
    assert (HeN : forall x y, e = x :: y -> ~ Digit x /\ (x =? 46)%N = false).
    { intros x y E. destruct He as [->|(m & t & z & -> & Hm & _)]; [discriminate|].
      injection E as <- _. destruct Hm as [->| ->]; (split; [apply not_digit_lit|]; reflexivity). }
    set (d1 := negb (match i with [] => true | _ => false end)).
    assert (Fr : exists d2, (match pt ++ e with
       | c :: r => if (c =? 46)%N
           then (true, d1 || (length (drop_digits r) <? length r), drop_digits r)
           else (false, d1, pt ++ e)
       | [] => (false, d1, pt ++ e)
       end) = (match pt with [] => false | _ => true end, d2, e) /\ d2 = true).
    { destruct Hp as [->|(f & -> & Df)].
      - cbn [app]. exists d1. split.
        + destruct e as [|x y]; [reflexivity|]. destruct (HeN x y eq_refl) as [_ ->]. reflexivity.
        + rewrite app_nil_r in Ic. unfold d1. destruct i; [destruct Ic|reflexivity].
      - cbn [app]. change (46 =? 46)%N with true. cbv iota.
        rewrite (drop_digits_app f e); [|exact Df|intros x y E; apply (HeN x y E)].
        rewrite shorter. eexists. split; [reflexivity|].
        unfold d1. destruct i; [|reflexivity]. cbn [negb orb].
        destruct f; [|reflexivity]. exfalso. cbn [app] in Ic. destruct Ic as [<-|[]].
        revert Dc. apply not_digit_lit; reflexivity. }
    destruct Fr as (d2 & -> & ->).
    destruct He as [->|(m & t & x & -> & Hm & OT & Dx & NX)].
    + destruct pt; [destruct NE; congruence|reflexivity].
    + assert (M : ((m =? 101) || (m =? 69))%N%bool = true) by (destruct Hm as [->| ->]; reflexivity).
      rewrite M. destruct x as [|c3 x]; [congruence|].
      assert (D3 : digit c3 = true) by (inversion Dx; apply digit_ok; assumption).
      rewrite optsign_strip; [|exact OT|].
      2:{ intros a b E; injection E as <- _. apply digit_not_sign; exact D3. }
      cbn [andb]. rewrite D3. cbn [andb].
      assert (Z : drop_digits (c3 :: x) = []).
      { rewrite <- (app_nil_r (c3 :: x)). apply drop_digits_app; [exact Dx|discriminate]. }
      rewrite Z; reflexivity.
Qed.

(** ---- words ---- *)
Lemma same_text_ok : forall a b, same_text a b = true <-> a = b.
Proof.
  unfold same_text. induction a as [|x a IH]; intros [|y b].
  - split; reflexivity.
  - split; discriminate.
  - split; discriminate.
  - cbn [length combine forallb fst snd]. specialize (IH b).
    rewrite !andb_true_iff in *. rewrite N.eqb_eq.
    change (S (length a) =? S (length b)) with (length a =? length b).
    split.
    + intros (L & -> & F). f_equal. apply IH; auto.
    + intros E; injection E as -> E. destruct (proj2 IH E); auto.
Qed.

(** ---- dates and times ---- *)
Ltac digits_tac := unfold Digits; repeat first [apply Forall_nil | apply Forall_cons; [assumption|]].

Ltac split_bools :=
  repeat match goal with
  | H : (_ && _)%bool = true |- _ => apply andb_true_iff in H; destruct H
  | H : digit _ = true |- _ => apply digit_ok in H
  | H : (_ =? _)%N = true |- _ => apply N.eqb_eq in H
  end.

Lemma dash_ok c : dash_or_slash c = true <-> c = 45%N \/ c = 47%N.
Proof. unfold dash_or_slash. rewrite orb_true_iff, !N.eqb_eq; reflexivity. Qed.

Lemma date_shape_ok l : date_shape l = true <-> DateText l.
Proof.
  unfold date_shape, digits_at. split.
  - intros H. apply andb_true_iff in H. destruct H as [L H]. apply Nat.eqb_eq in L.
    do 10 (destruct l as [|? l]; [discriminate|]). destruct l; [|discriminate].
    cbn [nth forallb] in H. apply orb_true_iff in H.
    destruct H as [H|H]; split_bools; subst;
      match goal with D : dash_or_slash ?s = true |- _ => apply dash_ok in D;
        match goal with
        | |- DateText [?a0; ?a1; s; ?a3; ?a4; s; ?a6; ?a7; ?a8; ?a9] =>
            exists s, [a0; a1], [a3; a4], [a6; a7; a8; a9]
        | |- DateText [?a0; ?a1; ?a2; ?a3; s; ?a5; ?a6; s; ?a8; ?a9] =>
            exists s, [a0; a1; a2; a3], [a5; a6], [a8; a9]
        end
      end;
      (split; [assumption|]); (split; [reflexivity|]);
      repeat (split; [digits_tac|]);
      ((left; repeat split; reflexivity) || (right; repeat split; reflexivity)).
  - intros (sep & a & b & c & HS & -> & Da & Db & Dc & HL).
    assert (DS : dash_or_slash sep = true) by (apply dash_ok; exact HS).
    destruct HL as [(La & Lb & Lc)|(La & Lb & Lc)].
    + do 4 (destruct a as [|? a]; [discriminate|]). destruct a; [|discriminate].
      do 2 (destruct b as [|? b]; [discriminate|]). destruct b; [|discriminate].
      do 2 (destruct c as [|? c]; [discriminate|]). destruct c; [|discriminate].
      apply forallb_digits in Da, Db, Dc. cbn [forallb] in Da, Db, Dc.
      cbn [app length nth forallb]. rewrite DS, N.eqb_refl.
      repeat match goal with
      | H : (_ && _)%bool = true |- _ => apply andb_true_iff in H; destruct H
      end.
      repeat match goal with H : digit ?x = true |- _ => rewrite H; clear H end. reflexivity.
    + do 2 (destruct a as [|? a]; [discriminate|]). destruct a; [|discriminate].
      do 2 (destruct b as [|? b]; [discriminate|]). destruct b; [|discriminate].
      do 4 (destruct c as [|? c]; [discriminate|]). destruct c; [|discriminate].
      apply forallb_digits in Da, Db, Dc. cbn [forallb] in Da, Db, Dc.
      cbn [app length nth forallb]. rewrite DS, N.eqb_refl.
      repeat match goal with
      | H : (_ && _)%bool = true |- _ => apply andb_true_iff in H; destruct H
      end.
      repeat match goal with H : digit ?x = true |- _ => rewrite H; clear H end.
      rewrite !orb_true_r; reflexivity.
Qed.

Lemma time_shape_ok l : time_shape l = true <-> TimeText l.
Proof.
  unfold time_shape, digits_at. split.
  - intros H.
    destruct (((length l =? 5) || (length l =? 8)) &&
      forallb (fun p => digit (nth p l 0%N)) [0; 1; 3; 4] && (nth 2 l 0 =? 58)%N) eqn:C;
      [|discriminate].
    apply andb_true_iff in C. destruct C as [C C3].
    apply andb_true_iff in C. destruct C as [C1 C2].
    apply orb_true_iff in C1. rewrite !Nat.eqb_eq in C1.
    destruct C1 as [L|L].
    + do 5 (destruct l as [|? l]; [discriminate|]). destruct l; [|discriminate].
      cbn [nth forallb] in C2, C3. split_bools. subst.
      match goal with |- TimeText [?a0; ?a1; _; ?a3; ?a4] => exists [a0; a1], [a3; a4] end.
      split; [digits_tac|]. split; [digits_tac|].
      split; [reflexivity|]. split; [reflexivity|]. left; reflexivity.
    + do 8 (destruct l as [|? l]; [discriminate|]). destruct l; [|discriminate].
      cbn [nth forallb length] in C2, C3, H. cbn [Nat.eqb orb] in H. split_bools. subst.
      match goal with |- TimeText [?a0; ?a1; _; ?a3; ?a4; _; ?a6; ?a7] =>
        exists [a0; a1], [a3; a4];
        (split; [digits_tac|]); (split; [digits_tac|]);
        (split; [reflexivity|]); (split; [reflexivity|]); right; exists [a6; a7] end.
      split; [digits_tac|]. split; reflexivity.
  - intros (a & b & Da & Db & La & Lb & H).
    do 2 (destruct a as [|? a]; [discriminate|]). destruct a; [|discriminate].
    do 2 (destruct b as [|? b]; [discriminate|]). destruct b; [|discriminate].
    apply forallb_digits in Da, Db. cbn [forallb] in Da, Db.
    destruct H as [->|(c & Dc & Lc & ->)].
    + cbn [app length nth forallb].
      repeat match goal with
      | H : (_ && _)%bool = true |- _ => apply andb_true_iff in H; destruct H
      end.
      repeat match goal with H : digit ?x = true |- _ => rewrite H; clear H end. reflexivity.
    + do 2 (destruct c as [|? c]; [discriminate|]). destruct c; [|discriminate].
      apply forallb_digits in Dc. cbn [forallb] in Dc.
      cbn [app length nth forallb].
      repeat match goal with
      | H : (_ && _)%bool = true |- _ => apply andb_true_iff in H; destruct H
      end.
      repeat match goal with H : digit ?x = true |- _ => rewrite H; clear H end. reflexivity.
Qed.
