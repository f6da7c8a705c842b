From Verif Require Import Base NumSpec NumModel NumProof TypesSpec WordsModel ChunkModel FieldsModel DateModel ReaderModel TypesModel LayersSpec LayersModel.
Local Open Scope Z_scope.

Lemma digit_prefix_all : forall l, forallb is_digit l = true -> digit_prefix l = l.
Proof.
  induction l as [|c r IH]; intros H; [reflexivity|]. cbn [forallb] in H. apply andb_true_iff in H. destruct H as [H1 H2].
  cbn [digit_prefix]. unfold is_digit in H1. rewrite H1. rewrite IH by exact H2. reflexivity.
Qed.

Lemma digit_prefix_rest : forall l, skipn (length (digit_prefix l)) l = [] -> forallb is_digit l = true.
Proof.
  induction l as [|c r IH]; intros H; [reflexivity|]. cbn [digit_prefix] in H. cbn [forallb]. unfold is_digit at 1.
  destruct ((48 <=? c)%N && (c <=? 57)%N); [|discriminate H]. cbn [length skipn] in H. rewrite IH by exact H. reflexivity.
Qed.

Lemma prefix_value_acc : forall l a, forallb is_digit l = true ->
  Z.of_N (fold_left (fun a c => a * 10 + (c - 48))%N l a) = Z.of_N a * 10 ^ Z.of_nat (length l) + decimal l.
Proof.
  induction l as [|c r IH]; intros a H; [cbn [fold_left length decimal]; rewrite Z.mul_1_r; lia|].
  cbn [forallb] in H. apply andb_true_iff in H. destruct H as [H1 H2]. apply is_digit_range in H1.
  cbn [fold_left length decimal]. rewrite IH by exact H2. rewrite Nat2Z.inj_succ, Z.pow_succ_r by lia.
  rewrite N2Z.inj_add, N2Z.inj_mul, N2Z.inj_sub by lia. ring.
Qed.

Lemma prefix_value_decimal l : forallb is_digit l = true -> Z.of_N (prefix_value l) = decimal l.
Proof. intros H. unfold prefix_value. rewrite prefix_value_acc by exact H. cbn [Z.of_N]. lia. Qed.

(** from_chars on the whole text. *)
Definition whole (bits : N) (l : bytes) : option Z :=
  match from_chars bits l with Some (z, []) => Some z | _ => None end.

Lemma whole_spec bits l v : whole bits l = Some v <-> minus_text l = Some v /\ in_signed (Z.of_N bits) v.
Proof.
  unfold whole, from_chars, minus_text, in_signed, int_min.
  set (neg := match l with c :: r => if (c =? 45)%N then (true, r) else (false, l) | [] => (false, []) end).
  assert (E : match l with [] => None | c :: r => if (c =? 45)%N then option_map Z.opp (natural_text r) else natural_text l end
              = option_map (fun w => if fst neg then - w else w) (natural_text (snd neg))).
  { subst neg. destruct l as [|c r]; [reflexivity|]. destruct (c =? 45)%N; cbn [fst snd].
    - reflexivity.
    - destruct (natural_text (c :: r)); reflexivity. }
  rewrite E. destruct neg as [s d]. cbn [fst snd]. clear E.
  destruct (forallb is_digit d) eqn:Ed.
  - rewrite digit_prefix_all by exact Ed.
    destruct d as [|x y]; [cbn [natural_text option_map]; split; [discriminate|intros [H _]; discriminate H]|].
    rewrite natural_digits by discriminate. rewrite Ed. cbn [option_map].
    rewrite skipn_all. rewrite prefix_value_decimal by exact Ed. generalize (decimal (x :: y)). intros dec.
    destruct ((- 2 ^ (Z.of_N bits - 1) <=? (if s then - dec else dec)) &&
              ((if s then - dec else dec) <? 2 ^ (Z.of_N bits - 1))) eqn:Er.
    + apply andb_true_iff in Er. destruct Er as [E1 E2]. apply Z.leb_le in E1. apply Z.ltb_lt in E2.
      split; [intros H; injection H as <-; split; [reflexivity|split; assumption]|intros [H _]; exact H].
    + split; [discriminate|]. intros [H H2]. injection H as E. rewrite E in Er. apply andb_false_iff in Er.
      destruct Er as [Er|Er]; [apply Z.leb_gt in Er|apply Z.ltb_ge in Er]; lia.
  - split.
    + intros H. exfalso. pose proof (digit_prefix_rest d) as P.
      destruct (digit_prefix d) as [|x y] eqn:Ep; [discriminate H|].
      match type of H with (match (if ?b then _ else _) with _ => _ end) = _ => destruct b end; [|discriminate H].
      destruct (skipn (length (x :: y)) d) eqn:Es; [|discriminate H]. rewrite (P eq_refl) in Ed. discriminate Ed.
    + intros [H _]. destruct d; [discriminate H|]. rewrite natural_digits in H by discriminate. rewrite Ed in H. discriminate H.
Qed.

Lemma minus_integer l v : minus_text l = Some v -> integer_text l = Some v /\ hd 0%N l <> 43%N.
Proof.
  destruct l as [|c r]; [discriminate|]. cbn [minus_text integer_text hd]. destruct (N.eqb_spec c 45) as [->|H45].
  - intros H. split; [exact H|lia].
  - destruct (N.eqb_spec c 43) as [->|H43]; [intros H; discriminate H|]. intros H. split; [exact H|exact H43].
Qed.

Lemma integer_minus l v : integer_text l = Some v -> hd 0%N l <> 43%N -> minus_text l = Some v.
Proof.
  destruct l as [|c r]; [discriminate|]. cbn [minus_text integer_text hd]. destruct (N.eqb_spec c 45) as [->|H45]; [tauto|].
  destruct (N.eqb_spec c 43) as [->|H43]; [congruence|tauto].
Qed.

Section Agree.
Context {F : Type}.

Lemma builder_int_whole bits l : @builder_int F bits l = option_map VInt (whole bits l).
Proof.
  unfold builder_int, whole. destruct l as [|c r]; [reflexivity|].
  destruct (from_chars bits (c :: r)) as [[z [|x y]]|]; reflexivity.
Qed.

Lemma of_parsed_value p z : @of_parsed F p = Some (VInt z) <-> p = Value z.
Proof.
  destruct p; cbn [of_parsed]; split; intros H; try discriminate H; [inversion H|inversion H]; reflexivity.
Qed.
Lemma of_parsed_ints p x : @of_parsed F p = Some x -> exists z, x = VInt z.
Proof. destruct p; cbn [of_parsed]; intros H; try discriminate H. inversion H. eauto. Qed.

Lemma builder_int_value bits l v :
  @builder_int F bits l = Some (VInt v) <-> minus_text l = Some v /\ in_signed (Z.of_N bits) v.
Proof.
  rewrite builder_int_whole, <- whole_spec. destruct (whole bits l); cbn [option_map]; split; intros H; inversion H; reflexivity.
Qed.
Lemma builder_int_ints bits l x : @builder_int F bits l = Some x -> exists z, x = VInt z.
Proof. rewrite builder_int_whole. destruct (whole bits l); intros H; inversion H; eauto. Qed.

(** Two partial results with integer values are equal iff they have the same values. *)
Lemma same_values (a b : option (@value F)) :
  (forall x, a = Some x -> exists z, x = VInt z) -> (forall x, b = Some x -> exists z, x = VInt z) ->
  (a = b <-> forall z, a = Some (VInt z) <-> b = Some (VInt z)).
Proof.
  intros Ha Hb. split; [intros ->; tauto|]. intros H.
  destruct a as [x|].
  - destruct (Ha x eq_refl) as [z ->]. symmetry. apply H. reflexivity.
  - destruct b as [y|]; [|reflexivity]. destruct (Hb y eq_refl) as [z ->]. apply H. reflexivity.
Qed.

(** ColumnBuilder against FastArrowContext. *)
Lemma builder_arrow bits max l :
  @builder_int F bits l = of_parsed (expected false (Z.of_N bits) max l) <->
  ~ (exists v, in_signed (Z.of_N bits) v /\
       ((hd 0%N l = 43%N /\ integer_text l = Some v /\ (length l <= max)%nat) \/
        (minus_text l = Some v /\ (max < length l)%nat))).
Proof.
  rewrite same_values by (first [apply builder_int_ints|apply of_parsed_ints]). split.
  - intros H (v & Hv & [(H1 & H2 & H3)|(H1 & H2)]); specialize (H v); rewrite of_parsed_value, expected_value, builder_int_value in H.
    + destruct (proj2 H (conj H2 (conj H3 Hv))) as [H4 _]. apply minus_integer in H4. tauto.
    + destruct (proj1 H (conj H1 Hv)) as [_ [H4 _]]. lia.
  - intros H v. rewrite of_parsed_value, expected_value, builder_int_value. split.
    + intros [H1 H2]. destruct (le_lt_dec (length l) max) as [Hl|Hl].
      * apply minus_integer in H1. tauto.
      * exfalso. apply H. exists v. tauto.
    + intros (H1 & H2 & H3). destruct (N.eq_dec (hd 0%N l) 43) as [E|E].
      * exfalso. apply H. exists v. tauto.
      * split; [exact (integer_minus l v H1 E)|exact H3].
Qed.

(** FastColumnContext. *)
Definition short_of (bits : N) : nat := if (bits =? 32)%N then 9 else 18.

Lemma fast_long iso bits max l neg d : widths bits max -> is_bytes l -> take_sign l = Some (neg, d) ->
  (length l <= max)%nat -> (short_of bits < length d)%nat ->
  parse_int_fast iso bits max (short_of bits) l =
    match whole bits d with
    | Some v => if neg then negate_signed iso bits v else Value v
    | None => Reject
    end.
Proof.
  intros Hw Hb Hs Hl Hd. unfold parse_int_fast.
  destruct l as [|c r]; [discriminate Hs|]. change (length (c :: r) =? 0)%nat with false. cbn [orb].
  destruct (Nat.ltb_spec max (length (c :: r))); [lia|]. rewrite Hs.
  destruct (Nat.leb_spec (length d) (short_of bits)); [lia|]. unfold whole.
  destruct (from_chars bits d) as [[v [|x y]]|]; reflexivity.
Qed.

Lemma take_sign_cases l neg d : take_sign l = Some (neg, d) ->
  (exists c, (c = 45%N /\ neg = true \/ c = 43%N /\ neg = false) /\ l = c :: d) \/
  (neg = false /\ d = l /\ hd 0%N l <> 45%N /\ hd 0%N l <> 43%N).
Proof.
  destruct l as [|c r]; [discriminate|]. cbn [take_sign hd]. destruct (N.eqb_spec c 45) as [->|H45].
  - destruct r; [discriminate|]. intros H. inversion H. left. exists 45%N. tauto.
  - destruct (N.eqb_spec c 43) as [->|H43].
    + destruct r; [discriminate|]. intros H. inversion H. left. exists 43%N. tauto.
    + intros H. inversion H. right. auto.
Qed.

Lemma digits_small bits max ds : widths bits max -> forallb is_digit ds = true -> (length ds <= short_of bits)%nat ->
  0 <= decimal ds < 2 ^ (Z.of_N bits - 1).
Proof.
  intros Hw Hd Hl. pose proof (decimal_bound ds Hd) as P.
  assert (10 ^ Z.of_nat (length ds) <= 10 ^ Z.of_nat (short_of bits)) by (apply Z.pow_le_mono_r; lia).
  assert (10 ^ Z.of_nat (short_of bits) < 2 ^ (Z.of_N bits - 1)) by (destruct Hw as [[-> _]|[-> _]]; reflexivity).
  lia.
Qed.

(** What the parser of FastColumnContext accepts. *)
Lemma fast_value bits max l v : widths bits max -> is_bytes l ->
  (parse_int_fast false bits max (short_of bits) l = Value v <->
   (integer_text l = Some v /\ (length l <= max)%nat /\ in_signed (Z.of_N bits) v /\ v <> int_min (Z.of_N bits)) \/
   (two_signs (short_of bits) l /\ integer_text (tl l) = Some (if N.eqb (hd 0%N l) 45 then - v else v))).
Proof.
  intros Hw Hb.
  assert (Hbits : (bits = 32 \/ bits = 64)%N) by (destruct Hw as [[-> _]|[-> _]]; tauto).
  assert (HP : 10 ^ Z.of_nat (short_of bits) < 2 ^ (Z.of_N bits - 1)) by (destruct Hw as [[-> _]|[-> _]]; reflexivity).
  assert (Hmax : max = (short_of bits + 2)%nat) by (destruct Hw as [[-> ->]|[-> ->]]; reflexivity).
  destruct (take_sign l) as [[neg d]|] eqn:Es.
  2: { assert (Hl : l = [] \/ l = [45%N] \/ l = [43%N]).
       { destruct l as [|c r]; [tauto|]. cbn [take_sign] in Es. destruct (N.eqb_spec c 45) as [->|H45].
         - destruct r; [tauto|discriminate Es].
         - destruct (N.eqb_spec c 43) as [->|H43]; [destruct r; [tauto|discriminate Es]|discriminate Es]. }
       assert (E : parse_int_fast false bits max (short_of bits) l = Reject).
       { unfold parse_int_fast. rewrite Es. destruct ((length l =? 0)%nat || (max <? length l)%nat); reflexivity. }
       rewrite E. split; [discriminate|]. intros [(H & _)|[(s & ds & _ & H & _) _]].
       - destruct Hl as [->|[->| ->]]; discriminate H.
       - destruct Hl as [->|[->| ->]]; discriminate H. }
  pose proof (sign_spec l ltac:(intros ->; discriminate Es)) as Hsg. rewrite Es in Hsg. destruct Hsg as (Hi & Hdn & Hlen & Hbd).
  destruct (le_lt_dec (length d) (short_of bits)) as [Hd|Hd].
  - rewrite (fast_short false bits max (short_of bits) l Hbits HP Hb) by (intros s' d' E; rewrite Es in E; inversion E; subst; exact Hd).
    rewrite expected_value. split.
    + intros (H1 & H2 & H3). left. repeat (split; [assumption|]). intros E.
      rewrite Hi in H1. rewrite natural_digits in H1 by exact Hdn. destruct (forallb is_digit d) eqn:Ed; [|discriminate H1].
      pose proof (digits_small bits max d Hw Ed Hd) as P. cbn [option_map] in H1. inversion H1 as [E1]. rewrite <- E1 in E. unfold int_min in E.
      destruct neg; lia.
    + intros [(H1 & H2 & H3 & _)|[(s & ds & Hs & -> & Hn & Hds) H]]; [tauto|]. exfalso.
      apply take_sign_cases in Es. destruct Es as [(c & _ & E)|(_ & _ & E1 & E2)].
      * inversion E; subst. cbn [length] in Hd. lia.
      * cbn [hd] in E1, E2. tauto.
  - destruct (le_lt_dec (length l) max) as [Hl|Hl].
    2: { assert (E : parse_int_fast false bits max (short_of bits) l = Reject).
         { unfold parse_int_fast. destruct (Nat.ltb_spec max (length l)); [|lia]. rewrite orb_true_r. reflexivity. }
         rewrite E. split; [discriminate|]. intros [(_ & H & _)|[(s & ds & Hs & -> & Hn & Hds) H]]; [lia|].
         cbn [length] in Hl. lia. }
    rewrite (fast_long false bits max l neg d Hw Hb Es Hl Hd).
    assert (Hminus : forall ds, d = 45%N :: ds -> (exists c, (c = 45%N /\ neg = true \/ c = 43%N /\ neg = false) /\ l = c :: d) /\ length ds = short_of bits).
    { intros ds E. apply take_sign_cases in Es. destruct Es as [(c & Hc & El)|(_ & -> & E1 & _)].
      - split; [eauto|]. subst. cbn [length] in *. lia.
      - exfalso. apply E1. rewrite E. reflexivity. }
    split.
    + destruct (whole bits d) as [w|] eqn:Ew; [|discriminate]. apply whole_spec in Ew. destruct Ew as [Ew Hr].
      intros H.
      destruct (minus_integer d w Ew) as [Ewi Hplus].
      destruct d as [|c0 ds]; [congruence|]. cbn [hd] in Hplus.
      destruct (N.eq_dec c0 45) as [->|Hc0].
      * (* a second sign *)
        right. destruct (Hminus ds eq_refl) as [(c & Hc & El) Hn].
        assert (Hds : forallb is_digit ds = true /\ w = - decimal ds).
        { cbn [minus_text N.eqb Pos.eqb] in Ew. destruct ds as [|x y]; [discriminate Ew|]. rewrite natural_digits in Ew by discriminate.
          destruct (forallb is_digit (x :: y)) eqn:Ed2; [|discriminate Ew]. inversion Ew. auto. }
        destruct Hds as [Hds Hw2].
        pose proof (digits_small bits max ds Hw Hds ltac:(lia)) as P.
        split.
        -- exists c, ds. subst l. repeat split; try assumption. destruct Hc as [[-> _]|[-> _]]; tauto.
        -- subst l. cbn [tl hd]. rewrite Ewi. f_equal. destruct Hc as [[-> ->]|[-> ->]].
           ++ cbn [N.eqb Pos.eqb]. unfold negate_signed in H. destruct (Z.eqb_spec w (- 2 ^ (Z.of_N bits - 1))); [lia|].
              inversion H. lia.
           ++ cbn [N.eqb Pos.eqb]. inversion H. reflexivity.
      * left.
        assert (Hnat : natural_text (c0 :: ds) = Some w).
        { cbn [minus_text] in Ew. destruct (N.eqb_spec c0 45); [congruence|exact Ew]. }
        rewrite Hi, Hnat. cbn [option_map]. pose proof (natural_nonneg _ _ Hnat) as P.
        unfold in_signed, int_min in Hr |- *.
        assert (Ev : v = if neg then - w else w).
        { destruct neg; [|congruence]. unfold negate_signed in H. destruct (Z.eqb_spec w (- 2 ^ (Z.of_N bits - 1))); [lia|]. congruence. }
        split; [rewrite Ev; reflexivity|]. split; [exact Hl|]. destruct neg; lia.
    + intros [(H1 & H2 & H3 & H4)|[(s & ds & Hs & El & Hn & Hds) H]].
      * rewrite Hi in H1. destruct (natural_text d) as [w|] eqn:En; [|discriminate H1]. cbn [option_map] in H1. inversion H1 as [Ev].
        pose proof (natural_nonneg _ _ En) as P.
        assert (Ew : whole bits d = Some w).
        { apply whole_spec. split.
          - destruct d as [|c0 ds]; [congruence|]. cbn [minus_text]. destruct (N.eqb_spec c0 45) as [->|]; [discriminate En|exact En].
          - unfold in_signed, int_min in *. destruct neg; lia. }
        rewrite Ew. unfold in_signed, int_min in *. destruct neg; [|congruence].
        unfold negate_signed. destruct (Z.eqb_spec w (- 2 ^ (Z.of_N bits - 1))); [lia|]. congruence.
      * subst l. apply take_sign_cases in Es. destruct Es as [(c & Hc & E)|(_ & _ & E1 & E2)]; [|cbn [hd] in E1, E2; tauto].
        inversion E; subst. cbn [tl hd] in H.
        pose proof (digits_small bits _ ds Hw Hds ltac:(lia)) as P.
        assert (Em : minus_text (45%N :: ds) = Some (- decimal ds)).
        { cbn [minus_text N.eqb Pos.eqb]. destruct ds as [|x y]; [exfalso; cbn [length] in Hn; unfold short_of in Hn; destruct (bits =? 32)%N; discriminate Hn|].
          rewrite natural_digits by discriminate. rewrite Hds. reflexivity. }
        destruct (minus_integer _ _ Em) as [Emi _].
        assert (Ew : whole bits (45%N :: ds) = Some (- decimal ds)).
        { apply whole_spec. split; [exact Em|]. unfold in_signed, int_min. lia. }
        rewrite Ew. rewrite Emi in H. destruct Hc as [[-> ->]|[-> ->]].
        -- cbn [N.eqb Pos.eqb] in H. unfold negate_signed. destruct (Z.eqb_spec (- decimal ds) (- 2 ^ (Z.of_N bits - 1))); [lia|]. f_equal. injection H as H. lia.
        -- cbn [N.eqb Pos.eqb] in H. congruence.
Qed.

Lemma two_signs_integer n l : two_signs n l -> integer_text l = None.
Proof.
  intros (s & ds & [-> | ->] & -> & _ & _); cbn [integer_text N.eqb Pos.eqb natural_text forallb is_digit]; reflexivity.
Qed.
Lemma two_signs_value n l : (0 < n)%nat -> two_signs n l -> exists w, integer_text (tl l) = Some (if N.eqb (hd 0%N l) 45 then - w else w).
Proof.
  intros Hn (s & ds & Hs & -> & Hl & Hd). cbn [tl hd]. cbn [integer_text N.eqb Pos.eqb].
  rewrite natural_digits by (intros ->; cbn in Hl; lia). rewrite Hd. cbn [option_map].
  destruct (s =? 45)%N; [exists (decimal ds)|exists (- decimal ds)]; f_equal; lia.
Qed.

Lemma context_arrow bits max l : widths bits max -> is_bytes l ->
  (@of_parsed F (parse_int_fast false bits max (short_of bits) l) = of_parsed (expected false (Z.of_N bits) max l) <->
   ~ two_signs (short_of bits) l /\ ~ (integer_text l = Some (int_min (Z.of_N bits)) /\ (length l <= max)%nat)).
Proof.
  intros Hw Hb. rewrite same_values by apply of_parsed_ints.
  assert (Hpos : (0 < short_of bits)%nat) by (destruct Hw as [[-> _]|[-> _]]; cbn; lia).
  assert (Hmin : in_signed (Z.of_N bits) (int_min (Z.of_N bits))).
  { unfold in_signed, int_min. assert (0 < 2 ^ (Z.of_N bits - 1)) by (apply Z.pow_pos_nonneg; destruct Hw as [[-> _]|[-> _]]; lia). lia. }
  split.
  - intros H. split.
    + intros Ht. destruct (two_signs_value _ l Hpos Ht) as [w Hw2]. specialize (H w). rewrite !of_parsed_value, expected_value, fast_value in H by assumption.
      destruct (proj1 H (or_intror (conj Ht Hw2))) as [H1 _]. rewrite (two_signs_integer _ _ Ht) in H1. discriminate H1.
    + intros [H1 H2]. specialize (H (int_min (Z.of_N bits))). rewrite !of_parsed_value, expected_value, fast_value in H by assumption.
      destruct (proj2 H (conj H1 (conj H2 Hmin))) as [(_ & _ & _ & H3)|[Ht _]]; [exact (H3 eq_refl)|].
      rewrite (two_signs_integer _ _ Ht) in H1. discriminate H1.
  - intros [H1 H2] z. rewrite !of_parsed_value, expected_value, fast_value by assumption. split.
    + intros [(A & B & C & _)|[Ht _]]; [tauto|contradiction].
    + intros (A & B & C). left. repeat (split; [assumption|]). intros ->. apply H2. tauto.
Qed.
End Agree.
