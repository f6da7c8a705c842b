(** Proofs about integer parsing. *)
From Verif Require Import Base NumSpec NumModel.
Local Open Scope Z_scope.

Lemma digit_of_spec c : (c < 256)%N -> (9 <? digit_of c)%N = negb (is_digit c).
Proof.
  intros H. unfold digit_of, is_digit.
  destruct (N.leb_spec 48 c) as [H1|H1]; cbn [andb].
  - replace (c + 256 - 48)%N with ((c - 48) + 1 * 256)%N by lia. rewrite N.mod_add, N.mod_small by lia.
    destruct (N.leb_spec c 57); cbn [negb]; [apply N.ltb_ge; lia|apply N.ltb_lt; lia].
  - rewrite N.mod_small by lia. cbn [negb]. apply N.ltb_lt. lia.
Qed.

Lemma digit_of_value c : is_digit c = true -> digit_of c = (c - 48)%N.
Proof.
  unfold is_digit, digit_of. intros H. apply andb_true_iff in H. destruct H as [H1 H2].
  apply N.leb_le in H1. apply N.leb_le in H2.
  replace (c + 256 - 48)%N with ((c - 48) + 1 * 256)%N by lia. rewrite N.mod_add, N.mod_small by lia. reflexivity.
Qed.

Lemma is_digit_range c : is_digit c = true -> (48 <= c <= 57)%N.
Proof. unfold is_digit. intros H. apply andb_true_iff in H. destruct H as [H1 H2]. apply N.leb_le in H1. apply N.leb_le in H2. lia. Qed.

Lemma decimal_bound : forall l, forallb is_digit l = true -> 0 <= decimal l < 10 ^ Z.of_nat (length l).
Proof.
  induction l as [|c r IH]; intros H; [cbn; lia|].
  cbn [forallb] in H. apply andb_true_iff in H. destruct H as [H1 H2]. specialize (IH H2). apply is_digit_range in H1.
  cbn [decimal length]. rewrite Nat2Z.inj_succ, Z.pow_succ_r by lia.
  set (P := 10 ^ Z.of_nat (length r)) in *. nia.
Qed.

Lemma digit_loop_spec m : (0 < m)%N -> forall l a, is_bytes l -> (a < m)%N ->
  digit_loop m a l = if forallb is_digit l
    then Some (Z.to_N ((Z.of_N a * 10 ^ Z.of_nat (length l) + decimal l) mod Z.of_N m)) else None.
Proof.
  intros Hm. induction l as [|c r IH]; intros a Hb Ha.
  - cbn. rewrite Z.mul_1_r, Z.add_0_r, Z.mod_small by lia. rewrite N2Z.id. reflexivity.
  - inversion Hb as [|? ? Hc Hr]; subst. cbn [digit_loop forallb]. rewrite digit_of_spec by exact Hc.
    destruct (is_digit c) eqn:Ec; [|reflexivity]. cbn [negb andb].
    rewrite IH by (try exact Hr; apply N.mod_lt; lia).
    destruct (forallb is_digit r); [|reflexivity]. f_equal. f_equal.
    rewrite digit_of_value by exact Ec. apply is_digit_range in Ec.
    rewrite N2Z.inj_mod, N2Z.inj_add, N2Z.inj_mul, N2Z.inj_sub by lia.
    change (Z.of_N 10) with 10. change (Z.of_N 48) with 48.
    cbn [decimal length]. rewrite Nat2Z.inj_succ, Z.pow_succ_r by lia.
    set (P := 10 ^ Z.of_nat (length r)).
    rewrite Z.add_mod, Z.mul_mod_idemp_l, <- Z.add_mod by lia. f_equal. ring.
Qed.

Lemma pow10_U64 n : (n <= 19)%nat -> 10 ^ Z.of_nat n < Z.of_N U64.
Proof.
  intros H. apply Z.le_lt_trans with (10 ^ 19); [apply Z.pow_le_mono_r; lia|]. reflexivity.
Qed.

Lemma digit_loop_small m l : (0 < m)%N -> is_bytes l -> 10 ^ Z.of_nat (length l) <= Z.of_N m ->
  digit_loop m 0 l = if forallb is_digit l then Some (Z.to_N (decimal l)) else None.
Proof.
  intros Hm Hb Hl. rewrite digit_loop_spec by (assumption || lia). destruct (forallb is_digit l) eqn:E; [|reflexivity].
  pose proof (decimal_bound l E). cbn [Z.of_N Z.mul Z.add]. rewrite Z.mod_small by lia. reflexivity.
Qed.

Lemma combine_spec : forall l a, forallb is_digit l = true -> (a < U64)%N ->
  combine_loop a l = Z.to_N ((Z.of_N a * 10 ^ Z.of_nat (length l) + decimal l) mod Z.of_N U64).
Proof.
  induction l as [|c r IH]; intros a H Ha.
  - cbn [combine_loop length decimal]. rewrite Z.mul_1_r, Z.add_0_r, Z.mod_small by lia. rewrite N2Z.id. reflexivity.
  - cbn [forallb] in H. apply andb_true_iff in H. destruct H as [H1 H2]. cbn [combine_loop].
    apply is_digit_range in H1. assert (HU : (0 < U64)%N) by reflexivity.
    rewrite IH by (try exact H2; apply N.mod_lt; lia). f_equal.
    rewrite N2Z.inj_mod. 
    replace (a * 10 + (c + U64 - 48))%N with ((a * 10 + (c - 48)) + 1 * U64)%N by lia.
    rewrite N2Z.inj_add, N2Z.inj_mul. change (Z.of_N 1) with 1. rewrite Z.mod_add by lia.
    rewrite N2Z.inj_add, N2Z.inj_mul, N2Z.inj_sub by lia.
    change (Z.of_N 10) with 10. change (Z.of_N 48) with 48.
    cbn [decimal length]. rewrite Nat2Z.inj_succ, Z.pow_succ_r by lia.
    set (P := 10 ^ Z.of_nat (length r)).
    rewrite Z.add_mod, Z.mul_mod_idemp_l, <- Z.add_mod by lia. f_equal. ring.
Qed.

Lemma combine_small l : forallb is_digit l = true -> (length l <= 19)%nat -> combine_loop 0 l = Z.to_N (decimal l).
Proof.
  intros H Hl. rewrite combine_spec by (try assumption; reflexivity). pose proof (decimal_bound l H). pose proof (pow10_U64 _ Hl).
  change (Z.of_N 0) with 0. rewrite Z.mul_0_l, Z.add_0_l, Z.mod_small by lia. reflexivity.
Qed.

Lemma existsb_invalid : forall l, existsb (fun b => b) (map invalid_lane l) = negb (forallb is_digit l).
Proof.
  induction l as [|c r IH]; [reflexivity|]. cbn [map existsb forallb]. rewrite IH, negb_andb. f_equal.
  unfold invalid_lane, is_digit. rewrite N.ltb_antisym. rewrite (N.ltb_antisym c 57). 
  rewrite negb_andb. reflexivity.
Qed.

Lemma uint64_spec lanes l : (lanes <= 64)%nat -> is_bytes l -> (length l <= 16)%nat ->
  parse_uint64_simd lanes l = match natural_text l with Some v => Value (Z.to_N v) | None => Reject end.
Proof.
  intros Hla Hb Hl. unfold parse_uint64_simd.
  destruct (Nat.eqb_spec (length l) 0) as [E|E]; cbn [orb].
  { destruct l; [reflexivity|discriminate]. }
  destruct (Nat.ltb_spec 16 (length l)); [lia|].
  assert (Hnt : natural_text l = if forallb is_digit l then Some (decimal l) else None) by (destruct l; [cbn in E; lia|reflexivity]).
  rewrite Hnt.
  destruct ((length l <=? 8)%nat || (lanes <? 16)%nat) eqn:E8.
  - rewrite digit_loop_small; [|reflexivity|exact Hb|].
    + destruct (forallb is_digit l); reflexivity.
    + pose proof (pow10_U64 (length l) ltac:(lia)). lia.
  - apply orb_false_iff in E8. destruct E8 as [_ E8]. apply Nat.ltb_ge in E8.
    destruct (Nat.ltb_spec 64 lanes); [lia|].
    rewrite <- firstn_map, firstn_firstn, Nat.min_l by lia.
    rewrite firstn_map, firstn_app, Nat.sub_diag, firstn_all. cbn [firstn]. rewrite app_nil_r, existsb_invalid.
    destruct (forallb is_digit l) eqn:Ed; cbn [negb]; [|reflexivity]. rewrite combine_small by (assumption || lia). reflexivity.
Qed.

Lemma checked_spec : forall l a, is_bytes l -> (a < U64)%N ->
  checked_loop a l = if forallb is_digit l && (Z.of_N a * 10 ^ Z.of_nat (length l) + decimal l <? Z.of_N U64)
    then Some (Z.to_N (Z.of_N a * 10 ^ Z.of_nat (length l) + decimal l)) else None.
Proof.
  induction l as [|c r IH]; intros a Hb Ha.
  - cbn [checked_loop forallb decimal length andb]. rewrite Z.mul_1_r, Z.add_0_r, N2Z.id.
    destruct (Z.ltb_spec (Z.of_N a) (Z.of_N U64)); [reflexivity|lia].
  - inversion Hb as [|? ? Hc Hr]; subst. cbn [checked_loop forallb]. rewrite digit_of_spec by exact Hc.
    destruct (is_digit c) eqn:Ec; [|reflexivity]. cbn [negb andb]. rewrite digit_of_value by exact Ec.
    pose proof (is_digit_range _ Ec) as Hd.
    assert (EU : U64 = 18446744073709551616%N) by reflexivity.
    assert (Hval : Z.of_N (a * 10 + (c - 48)) * 10 ^ Z.of_nat (length r) + decimal r =
                   Z.of_N a * 10 ^ Z.of_nat (length (c :: r)) + decimal (c :: r)).
    { cbn [decimal length]. rewrite Nat2Z.inj_succ, Z.pow_succ_r by lia. rewrite N2Z.inj_add, N2Z.inj_mul, N2Z.inj_sub by lia.
      change (Z.of_N 10) with 10. change (Z.of_N 48) with 48. ring. }
    destruct (N.ltb_spec ((18446744073709551615 - (c - 48)) / 10) a) as [Ho|Ho].
    + assert (a * 10 + (c - 48) > 18446744073709551615)%N.
      { pose proof (N.div_mod' (18446744073709551615 - (c - 48)) 10) as Hdm.
        pose proof (N.mod_lt (18446744073709551615 - (c - 48)) 10 ltac:(lia)). lia. }
      destruct (forallb is_digit r) eqn:Er; [|reflexivity]. cbn [andb].
      pose proof (decimal_bound r Er). rewrite <- Hval.
      assert (0 < 10 ^ Z.of_nat (length r)) by (apply Z.pow_pos_nonneg; lia).
      destruct (Z.ltb_spec (Z.of_N (a * 10 + (c - 48)) * 10 ^ Z.of_nat (length r) + decimal r) (Z.of_N U64)); [|reflexivity].
      exfalso. rewrite EU in *. nia.
    + assert (a * 10 + (c - 48) <= 18446744073709551615)%N.
      { pose proof (N.mul_div_le (18446744073709551615 - (c - 48)) 10 ltac:(lia)). lia. }
      rewrite N.mod_small by lia. rewrite IH by (assumption || lia). rewrite Hval. reflexivity.
Qed.

(** The specified result. *)
Definition expected (iso : bool) (bits : Z) (max_len : nat) (l : bytes) : parsed Z :=
  if (max_len <? length l)%nat then Reject
  else match integer_text l with
  | None => Reject
  | Some v => if (int_min bits <=? v) && (v <? 2 ^ (bits - 1))
              then (if iso && (v =? int_min bits) then Undefined else Value v) else Reject
  end.

Definition judge (iso : bool) (bits v : Z) : parsed Z :=
  if (int_min bits <=? v) && (v <? 2 ^ (bits - 1))
  then (if iso && (v =? int_min bits) then Undefined else Value v) else Reject.

Lemma finish_spec iso bits neg v : (bits = 32 \/ bits = 64)%N -> 0 <= v ->
  finish iso bits neg (Z.to_N v) = judge iso (Z.of_N bits) (if neg then - v else v).
Proof.
  intros Hb Hv. unfold finish, judge, negate_signed, to_signed, int_min.
  assert (E : exists P, (2 ^ (bits - 1))%N = Z.to_N P /\ 2 ^ (Z.of_N bits - 1) = P /\ 2 ^ Z.of_N bits = 2 * P /\ 1 < P).
  { destruct Hb as [-> | ->]; [exists 2147483648|exists 9223372036854775808]; cbn; repeat split; lia. }
  destruct E as (P & E1 & E2 & E3 & HP). rewrite E1, E2, E3. clear E1 E2 E3 Hb.
  assert (Hcmp : (Z.to_N P <? Z.to_N v)%N = (P <? v)).
  { destruct (Z.ltb_spec P v); [apply N.ltb_lt|apply N.ltb_ge]; lia. }
  assert (Hcmp1 : (Z.to_N P - 1 <? Z.to_N v)%N = (P - 1 <? v)).
  { destruct (Z.ltb_spec (P - 1) v); [apply N.ltb_lt|apply N.ltb_ge]; lia. }
  assert (Hcmp2 : (Z.to_N v <? Z.to_N P)%N = (v <? P)).
  { destruct (Z.ltb_spec v P); [apply N.ltb_lt|apply N.ltb_ge]; lia. }
  rewrite Hcmp, Hcmp1, Hcmp2, Z2N.id by lia.
  destruct neg; cbn [negb andb].
  - destruct (Z.ltb_spec P v).
    + destruct (Z.leb_spec (- P) (- v)); [lia|reflexivity].
    + destruct (Z.leb_spec (- P) (- v)); [|lia]. destruct (Z.ltb_spec (- v) P); [|lia]. cbn [andb].
      destruct (Z.ltb_spec v P).
      * destruct (Z.eqb_spec v (- P)); [lia|]. destruct (Z.eqb_spec (- v) (- P)); [lia|]. rewrite andb_false_r. reflexivity.
      * replace v with P by lia. replace (P - 2 * P) with (- P) by lia. rewrite Z.eqb_refl. destruct iso; reflexivity.
  - destruct (Z.ltb_spec (P - 1) v).
    + destruct (Z.ltb_spec v P); [lia|]. rewrite andb_false_r. reflexivity.
    + destruct (Z.leb_spec (- P) v); [|lia]. destruct (Z.ltb_spec v P); [|lia]. cbn [andb].
      destruct (Z.eqb_spec v (- P)); [lia|]. rewrite andb_false_r. reflexivity.
Qed.

Lemma natural_nonneg l v : natural_text l = Some v -> 0 <= v < 10 ^ Z.of_nat (length l).
Proof.
  destruct l as [|c r]; [discriminate|]. unfold natural_text. destruct (forallb is_digit (c :: r)) eqn:E; [|discriminate].
  intros H. assert (Hv : v = decimal (c :: r)) by congruence. rewrite Hv. apply decimal_bound, E.
Qed.

Lemma sign_spec l : l <> [] ->
  match take_sign l with
  | None => integer_text l = None
  | Some (neg, d) => integer_text l = option_map (fun v => if neg then - v else v) (natural_text d) /\
                     d <> [] /\ (length d <= length l)%nat /\ (is_bytes l -> is_bytes d)
  end.
Proof.
  destruct l as [|c r]; [congruence|]. intros _. cbn [take_sign integer_text].
  destruct (N.eqb c 45).
  - destruct r as [|x r]; [reflexivity|]. split; [reflexivity|]. split; [discriminate|]. split; [cbn; lia|].
    intros H. inversion H. assumption.
  - destruct (N.eqb c 43).
    + destruct r as [|x r]; [reflexivity|]. split; [destruct (natural_text (x :: r)); reflexivity|]. split; [discriminate|]. split; [cbn; lia|].
      intros H. inversion H. assumption.
    + split; [destruct (natural_text (c :: r)); reflexivity|]. split; [discriminate|]. split; [lia|]. auto.
Qed.

Lemma int32_spec iso lanes l : (lanes <= 64)%nat -> is_bytes l ->
  parse_int32_simd iso lanes l = expected iso 32 11 l.
Proof.
  intros Hla Hb. unfold parse_int32_simd, expected.
  destruct l as [|c r]; [reflexivity|]. set (l := c :: r) in *.
  change (length l =? 0)%nat with false. cbn [orb].
  destruct (Nat.ltb_spec 11 (length l)); [reflexivity|].
  pose proof (sign_spec l ltac:(discriminate)) as Hs. destruct (take_sign l) as [[neg d]|]; [|rewrite Hs; reflexivity].
  destruct Hs as (Hi & Hd & Hlen & Hbd). rewrite Hi.
  rewrite uint64_spec by (auto; lia).
  destruct (natural_text d) as [v|] eqn:Ev; [|reflexivity]. cbn [option_map].
  apply natural_nonneg in Ev. rewrite finish_spec by (auto; lia). reflexivity.
Qed.

Lemma natural_digits d : d <> [] -> natural_text d = if forallb is_digit d then Some (decimal d) else None.
Proof. destruct d; [congruence|reflexivity]. Qed.

Lemma judge_big iso bits v : 2 ^ (bits - 1) < v \/ v < - 2 ^ (bits - 1) -> judge iso bits v = Reject.
Proof.
  intros H. unfold judge, int_min. destruct (Z.leb_spec (- 2 ^ (bits - 1)) v); [|reflexivity].
  destruct (Z.ltb_spec v (2 ^ (bits - 1))); [lia|reflexivity].
Qed.

Lemma int64_spec iso lanes l : (lanes <= 64)%nat -> is_bytes l ->
  parse_int64_simd iso lanes l = expected iso 64 20 l.
Proof.
  intros Hla Hb. unfold parse_int64_simd, expected.
  destruct l as [|c r]; [reflexivity|]. set (l := c :: r) in *.
  change (length l =? 0)%nat with false. cbn [orb].
  destruct (Nat.ltb_spec 20 (length l)); [reflexivity|].
  pose proof (sign_spec l ltac:(discriminate)) as Hs. destruct (take_sign l) as [[neg d]|]; [|rewrite Hs; reflexivity].
  destruct Hs as (Hi & Hd & Hlen & Hbd). rewrite Hi.
  destruct (Nat.ltb_spec 16 (length d)).
  - rewrite checked_spec by (auto; reflexivity). rewrite natural_digits by exact Hd.
    change (Z.of_N 0) with 0. rewrite Z.mul_0_l, Z.add_0_l.
    destruct (forallb is_digit d) eqn:Ed; [|reflexivity]. cbn [andb option_map].
    pose proof (decimal_bound d Ed) as Hbound. fold (judge iso 64 (if neg then - decimal d else decimal d)).
    destruct (Z.ltb_spec (decimal d) (Z.of_N U64)).
    + rewrite finish_spec by (auto; lia). reflexivity.
    + symmetry. apply judge_big. change (2 ^ (64 - 1)) with 9223372036854775808. change (Z.of_N U64) with 18446744073709551616 in *.
      destruct neg; lia.
  - rewrite uint64_spec by (auto; lia).
    destruct (natural_text d) as [v|] eqn:Ev; [|reflexivity]. cbn [option_map].
    apply natural_nonneg in Ev. rewrite finish_spec by (auto; lia). reflexivity.
Qed.

Lemma int32_scalar_spec iso l : is_bytes l -> parse_int32_scalar iso l = expected iso 32 11 l.
Proof.
  intros Hb. unfold parse_int32_scalar, parse_int_scalar, expected.
  destruct l as [|c r]; [reflexivity|]. set (l := c :: r) in *.
  change (length l =? 0)%nat with false. cbn [orb].
  destruct (Nat.ltb_spec 11 (length l)); [reflexivity|].
  pose proof (sign_spec l ltac:(discriminate)) as Hs. destruct (take_sign l) as [[neg d]|]; [|rewrite Hs; reflexivity].
  destruct Hs as (Hi & Hd & Hlen & Hbd). rewrite Hi. unfold parse_uint64_scalar.
  destruct (Nat.eqb_spec (length d) 0); [destruct d; [congruence|discriminate]|].
  destruct (Nat.ltb_spec 20 (length d)); [lia|]. cbn [orb].
  rewrite digit_loop_small; [|reflexivity|auto|].
  - rewrite natural_digits by exact Hd. destruct (forallb is_digit d) eqn:Ed; [|reflexivity]. cbn [option_map].
    pose proof (decimal_bound d Ed). rewrite finish_spec by (auto; lia). reflexivity.
  - pose proof (pow10_U64 (length d) ltac:(lia)). lia.
Qed.

Lemma int64_scalar_spec iso l : is_bytes l -> (length l <= 19)%nat ->
  parse_int64_scalar iso l = expected iso 64 20 l.
Proof.
  intros Hb H19. unfold parse_int64_scalar, parse_int_scalar, expected.
  destruct l as [|c r]; [reflexivity|]. set (l := c :: r) in *.
  change (length l =? 0)%nat with false. cbn [orb].
  destruct (Nat.ltb_spec 20 (length l)); [reflexivity|].
  pose proof (sign_spec l ltac:(discriminate)) as Hs. destruct (take_sign l) as [[neg d]|]; [|rewrite Hs; reflexivity].
  destruct Hs as (Hi & Hd & Hlen & Hbd). rewrite Hi. unfold parse_uint64_scalar.
  destruct (Nat.eqb_spec (length d) 0); [destruct d; [congruence|discriminate]|].
  destruct (Nat.ltb_spec 20 (length d)); [lia|]. cbn [orb].
  rewrite digit_loop_small; [|reflexivity|auto|].
  - rewrite natural_digits by exact Hd. destruct (forallb is_digit d) eqn:Ed; [|reflexivity]. cbn [option_map].
    pose proof (decimal_bound d Ed). rewrite finish_spec by (auto; lia). reflexivity.
  - pose proof (pow10_U64 (length d) ltac:(lia)). lia.
Qed.

(** The fast parsers, on texts with few digits. *)
Lemma fast_short iso bits max short l : (bits = 32 \/ bits = 64)%N ->
  10 ^ Z.of_nat short < 2 ^ (Z.of_N bits - 1) ->
  is_bytes l ->
  (forall s d, take_sign l = Some (s, d) -> (length d <= short)%nat) ->
  parse_int_fast iso bits max short l = expected iso (Z.of_N bits) max l.
Proof.
  intros Hbits Hsh Hb Hd0. unfold parse_int_fast, expected.
  destruct l as [|c r]; [destruct (Nat.ltb_spec max (length (@nil N))); reflexivity|]. set (l := c :: r) in *.
  change (length l =? 0)%nat with false. cbn [orb].
  destruct (Nat.ltb_spec max (length l)); [reflexivity|].
  pose proof (sign_spec l ltac:(discriminate)) as Hs. destruct (take_sign l) as [[neg d]|]; [|rewrite Hs; reflexivity].
  destruct Hs as (Hi & Hd & Hlen & Hbd). rewrite Hi. specialize (Hd0 neg d eq_refl).
  destruct (Nat.leb_spec (length d) short); [|lia].
  assert (HP : 10 ^ Z.of_nat (length d) <= 10 ^ Z.of_nat short) by (apply Z.pow_le_mono_r; lia).
  assert (HB : 2 ^ (Z.of_N bits - 1) <= Z.of_N (2 ^ bits)) by (destruct Hbits as [-> | ->]; cbn; lia).
  rewrite digit_loop_small; [|destruct Hbits as [-> | ->]; reflexivity|auto|lia].
  rewrite natural_digits by exact Hd. destruct (forallb is_digit d) eqn:Ed; [|reflexivity]. cbn [option_map].
  pose proof (decimal_bound d Ed) as Hdec.
  fold (judge iso (Z.of_N bits) (if neg then - decimal d else decimal d)).
  rewrite <- (finish_spec iso bits neg (decimal d) Hbits) by lia. unfold finish.
  assert (E1 : (2 ^ (bits - 1) - 1 <? Z.to_N (decimal d))%N = false).
  { apply N.ltb_ge. destruct Hbits as [-> | ->]; cbn in *; lia. }
  assert (E2 : (2 ^ (bits - 1) <? Z.to_N (decimal d))%N = false).
  { apply N.ltb_ge. destruct Hbits as [-> | ->]; cbn in *; lia. }
  rewrite E1, E2. rewrite !andb_false_r. reflexivity.
Qed.

(** From the function to the stated equivalences. *)
Lemma expected_value bits max l v :
  expected false bits max l = Value v <-> integer_text l = Some v /\ (length l <= max)%nat /\ in_signed bits v.
Proof.
  unfold expected, in_signed. destruct (Nat.ltb_spec max (length l)).
  - split; [discriminate|intros (_ & H1 & _); lia].
  - destruct (integer_text l) as [w|]; [|split; [discriminate|intros (H1 & _); discriminate]].
    destruct (Z.leb_spec (int_min bits) w); cbn [andb].
    + destruct (Z.ltb_spec w (2 ^ (bits - 1))).
      * split; [intros E; injection E as <-; repeat split; lia|intros (E & _); injection E as <-; reflexivity].
      * split; [discriminate|intros (E & _ & E2); injection E as <-; lia].
    + split; [discriminate|intros (E & _ & E2); injection E as <-; lia].
Qed.

Lemma expected_never_undefined bits max l : expected false bits max l <> Undefined.
Proof.
  unfold expected. destruct (max <? length l)%nat; [discriminate|]. destruct (integer_text l) as [w|]; [|discriminate].
  destruct ((int_min bits <=? w) && (w <? 2 ^ (bits - 1))); discriminate.
Qed.

Lemma expected_iso_value bits max l v :
  expected true bits max l = Value v <->
  integer_text l = Some v /\ (length l <= max)%nat /\ in_signed bits v /\ v <> int_min bits.
Proof.
  unfold expected, in_signed. destruct (Nat.ltb_spec max (length l)).
  - split; [discriminate|intros (_ & H1 & _); lia].
  - destruct (integer_text l) as [w|]; [|split; [discriminate|intros (H1 & _); discriminate]].
    destruct (Z.leb_spec (int_min bits) w); cbn [andb].
    + destruct (Z.ltb_spec w (2 ^ (bits - 1))).
      * destruct (Z.eqb_spec w (int_min bits)).
        -- split; [discriminate|intros (E & _ & _ & E2); injection E as <-; congruence].
        -- split; [intros E; injection E as <-; repeat split; (lia || assumption)|intros (E & _); injection E as <-; reflexivity].
      * split; [discriminate|intros (E & _ & E2 & _); injection E as <-; lia].
    + split; [discriminate|intros (E & _ & E2 & _); injection E as <-; lia].
Qed.

Lemma expected_undefined bits max l : (1 <= bits) ->
  expected true bits max l = Undefined <-> integer_text l = Some (int_min bits) /\ (length l <= max)%nat.
Proof.
  intros Hb. assert (HP : 0 < 2 ^ (bits - 1)) by (apply Z.pow_pos_nonneg; lia).
  unfold expected. destruct (Nat.ltb_spec max (length l)).
  - split; [discriminate|intros (_ & H1); lia].
  - destruct (integer_text l) as [w|]; [|split; [discriminate|intros (H1 & _); discriminate]].
    unfold int_min. destruct (Z.leb_spec (- 2 ^ (bits - 1)) w); cbn [andb].
    + destruct (Z.ltb_spec w (2 ^ (bits - 1))).
      * destruct (Z.eqb_spec w (- 2 ^ (bits - 1))) as [->|].
        -- split; [intros _; split; [reflexivity|assumption]|reflexivity].
        -- split; [discriminate|intros (E & _); injection E as ->; lia].
      * split; [discriminate|intros (E & _); injection E as ->; lia].
    + split; [discriminate|intros (E & _); injection E as ->; lia].
Qed.
