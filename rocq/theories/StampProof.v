From Verif Require Import Base NumSpec NumProof DateSpec DateModel DateProof DateProof2 StampSpec.
Local Open Scope Z_scope.

(** The part of parse_timestamp behind the seconds. *)
Definition parse_tail (rest : bytes) : option (Z * Z) :=
  match (match rest with
         | c :: r => if N.eqb c 46 then match fraction 6 0 (firstn (find_zone r) r) with None => None | Some micros => Some (micros, skipn (find_zone r) r) end else Some (0, rest)
         | [] => Some (0, [])
         end) with
  | None => None
  | Some (micros, zone) => match (match zone with [] => Some 0 | _ => parse_timezone zone end) with None => None | Some o => Some (micros, o) end
  end.

Lemma parse_timestamp_iff : forall l v, parse_timestamp l = Some v <->
  exists date sep time rest y m d hh mi ss micros o,
    l = date ++ [sep] ++ time ++ rest /\ (sep = 84 \/ sep = 32)%N /\ denotes_date date y m d /\ denotes_time time hh mi ss /\
    parse_tail rest = Some (micros, o) /\ v = instant y m d hh mi ss micros o + year0 y.
Proof.
  intros l v. split.
  - unfold parse_timestamp. destruct (Nat.ltb_spec (length l) 19) as [|Hl]; [discriminate|].
    destruct (parse_date (firstn 10 l)) as [days|] eqn:Ed; [|discriminate].
    destruct (parse_date_sound _ _ Ed) as (y & m & d & Hdate & ->).
    destruct (negb (N.eqb (at_ l 10) 84) && negb (N.eqb (at_ l 10) 32)) eqn:Es; [discriminate|].
    destruct (negb (N.eqb (at_ l 13) 58) || negb (N.eqb (at_ l 16) 58)) eqn:Ec; [discriminate|].
    apply orb_false_iff in Ec. destruct Ec as [Ec1 Ec2]. apply negb_false_iff, N.eqb_eq in Ec1. apply negb_false_iff, N.eqb_eq in Ec2.
    destruct (digits_at l 11 2 0) as [hh|] eqn:E1; [|discriminate].
    destruct (digits_at l 14 2 0) as [mi|] eqn:E2; [|discriminate].
    destruct (digits_at l 17 2 0) as [ss|] eqn:E3; [|discriminate].
    apply digits_at_some in E1; [|lia]. apply digits_at_some in E2; [|lia]. apply digits_at_some in E3; [|lia].
    destruct (Z.ltb_spec 23 hh); [discriminate|]. destruct (Z.ltb_spec 59 mi); [discriminate|]. destruct (Z.ltb_spec 59 ss); [discriminate|].
    cbn [orb]. cbv zeta. intros H3.
    assert (T : exists micros o, parse_tail (skipn 19 l) = Some (micros, o) /\ v = instant y m d hh mi ss micros o + year0 y).
    { unfold parse_tail. destruct (match skipn 19 l with [] => Some (0, []) | c :: r => _ end) as [[micros zone]|]; [|discriminate].
      destruct (match zone with [] => Some 0 | _ => parse_timezone zone end) as [o|]; [|discriminate]. injection H3 as <-. exists micros, o. split; [reflexivity|]. apply instant_sum. }
    destruct T as (micros & o & T1 & T2).
    exists (firstn 10 l), (at_ l 10), (firstn 2 (skipn 11 l) ++ [at_ l 13] ++ firstn 2 (skipn 14 l) ++ [at_ l 16] ++ firstn 2 (skipn 17 l)), (skipn 19 l), y, m, d, hh, mi, ss, micros, o.
    split; [apply split19, Hl|]. split; [apply andb_false_iff in Es; destruct Es as [Es|Es]; apply negb_false_iff, N.eqb_eq in Es; auto|].
    split; [exact Hdate|]. split; [|split; assumption].
    exists (firstn 2 (skipn 11 l)), (firstn 2 (skipn 14 l)), (firstn 2 (skipn 17 l)). rewrite Ec1, Ec2. repeat split; try apply E1; try apply E2; try apply E3; lia.
  - intros (date & sep & time & rest & y & m & d & hh & mi & ss & micros & o & Hl & Hsep & Hdate & Htime & Htail & ->).
    pose proof (denotes_length _ _ _ _ Hdate) as Ld.
    destruct Htime as (ht & mt & st & -> & Hh & Hm & Hs & B1 & B2 & B3).
    destruct (two_digits _ _ Hh) as (h1 & h2 & -> & _ & _ & _).
    destruct (two_digits _ _ Hm) as (m1 & m2 & -> & _ & _ & _).
    destruct (two_digits _ _ Hs) as (s1 & s2 & -> & _ & _ & _).
    assert (Hl' : l = date ++ sep :: h1 :: h2 :: 58%N :: m1 :: m2 :: 58%N :: s1 :: s2 :: rest) by (rewrite Hl; reflexivity).
    assert (Len : (length l = 19 + length rest)%nat) by (rewrite Hl', app_length; cbn [length]; lia).
    assert (A : forall i, at_ l (10 + i) = at_ (sep :: h1 :: h2 :: 58%N :: m1 :: m2 :: 58%N :: s1 :: s2 :: rest) i).
    { intros i. rewrite Hl', at_app by lia. f_equal. lia. }
    assert (SK : forall i, skipn (10 + i) l = skipn i (sep :: h1 :: h2 :: 58%N :: m1 :: m2 :: 58%N :: s1 :: s2 :: rest)).
    { intros i. rewrite Hl', skipn_app, Ld. rewrite skipn_all2 by lia. cbn [app]. f_equal. lia. }
    unfold parse_timestamp. destruct (Nat.ltb_spec (length l) 19); [lia|].
    rewrite Hl' at 1. rewrite firstn_exact by exact Ld. rewrite (parse_date_complete _ _ _ _ Hdate).
    pose proof (A 0%nat) as A0. pose proof (A 3%nat) as A3. pose proof (A 6%nat) as A6.
    change (at_ l 10 = sep) in A0. change (at_ l 13 = 58%N) in A3. change (at_ l 16 = 58%N) in A6. rewrite A0, A3, A6.
    assert (Es : negb (N.eqb sep 84) && negb (N.eqb sep 32) = false) by (destruct Hsep as [-> | ->]; reflexivity). rewrite Es.
    change (negb (N.eqb 58 58) || negb (N.eqb 58 58)) with false. cbv iota.
    assert (E1 : digits_at l 11 2 0 = Some hh) by (apply digits_at_some; [lia|]; change 11%nat with (10 + 1)%nat; rewrite (SK 1%nat); exact Hh).
    assert (E2 : digits_at l 14 2 0 = Some mi) by (apply digits_at_some; [lia|]; change 14%nat with (10 + 4)%nat; rewrite (SK 4%nat); exact Hm).
    assert (E3 : digits_at l 17 2 0 = Some ss) by (apply digits_at_some; [lia|]; change 17%nat with (10 + 7)%nat; rewrite (SK 7%nat); exact Hs).
    rewrite E1, E2, E3.
    destruct (Z.ltb_spec 23 hh); [lia|]. destruct (Z.ltb_spec 59 mi); [lia|]. destruct (Z.ltb_spec 59 ss); [lia|]. cbn [orb].
    change 19%nat with (10 + 9)%nat. rewrite (SK 9%nat). change (skipn 9 (sep :: h1 :: h2 :: 58%N :: m1 :: m2 :: 58%N :: s1 :: s2 :: rest)) with rest. cbv zeta.
    unfold parse_tail in Htail. destruct (match rest with [] => Some (0, []) | c :: r => _ end) as [[micros' zone]|]; [|discriminate].
    destruct (match zone with [] => Some 0 | _ => parse_timezone zone end) as [o'|]; [|discriminate]. injection Htail as -> ->. f_equal. apply instant_sum.
Qed.

(** ** The zone *)
Lemma digit_code : forall c, is_digit c = true -> c <> 58%N.
Proof. intros c H. apply is_digit_range in H. lia. Qed.
Definition minute_of (t : bytes) : option Z :=
  match t with [] => Some 0 | c :: r' =>
    let r := if N.eqb c 58 then r' else t in
    if (2 <=? length r)%nat && digit_char (at_ r 0) && digit_char (at_ r 1)
    then Some ((Z.of_N (at_ r 0) - 48) * 10 + (Z.of_N (at_ r 1) - 48))
    else if (1 <=? length r)%nat && digit_char (at_ r 0) then None
    else Some 0 end.
Definition minute_spec (t : bytes) (mm : Z) : Prop :=
  exists colon t', (colon = [] \/ colon = [58%N]) /\ t = colon ++ t' /\ (colon = [] -> forall r, t' <> 58%N :: r) /\
    ((mm = 0 /\ forall c r, t' = c :: r -> is_digit c = false) \/
     exists mt more, t' = mt ++ more /\ digits 2 mm mt).
Definition after_colon (t' : bytes) : option Z :=
  if (2 <=? length t')%nat && digit_char (at_ t' 0) && digit_char (at_ t' 1) then Some ((Z.of_N (at_ t' 0) - 48) * 10 + (Z.of_N (at_ t' 1) - 48))
  else if (1 <=? length t')%nat && digit_char (at_ t' 0) then None else Some 0.
Lemma minute_cases : forall t, (exists t', t = 58%N :: t' /\ minute_of t = after_colon t') \/ ((forall r, t <> 58%N :: r) /\ minute_of t = after_colon t).
Proof.
  intros [|c r]; [right; split; [discriminate|reflexivity]|]. unfold minute_of. destruct (N.eqb_spec c 58) as [->|N58].
  - left. exists r. split; reflexivity.
  - right. split; [intros r' E; injection E as E1 E2; contradiction|reflexivity].
Qed.
Lemma after_colon_iff : forall t' mm, after_colon t' = Some mm <->
  (mm = 0 /\ forall c r, t' = c :: r -> is_digit c = false) \/ exists mt more, t' = mt ++ more /\ digits 2 mm mt.
Proof.
  intros t' mm. unfold after_colon, at_. change digit_char with is_digit. split.
  - destruct t' as [|a [|b r]]; cbn [length Nat.leb andb nth].
    + intros H. injection H as <-. left. split; [reflexivity|discriminate].
    + destruct (is_digit a) eqn:Ea; [discriminate|]. intros H. injection H as <-. left. split; [reflexivity|]. intros c r E. injection E as <- <-. exact Ea.
    + destruct (is_digit a) eqn:Ea; cbn [andb].
      * destruct (is_digit b) eqn:Eb; [|discriminate]. intros H. injection H as <-. right. exists [a; b], r. split; [reflexivity|].
        split; [reflexivity|]. split; [cbn [forallb]; rewrite Ea, Eb; reflexivity|]. cbn [decimal length]. change (10 ^ Z.of_nat 1) with 10. change (10 ^ Z.of_nat 0) with 1. lia.
      * intros H. injection H as <-. left. split; [reflexivity|]. intros c q E. injection E as <- <-. exact Ea.
  - intros [[-> H]|(mt & more & -> & H)].
    + destruct t' as [|a r]; [reflexivity|]. specialize (H a r eq_refl). cbn [nth]. rewrite H, !andb_false_r. cbn [andb]. reflexivity.
    + destruct (two_digits _ _ H) as (a & b & -> & Ha & Hb & ->). cbn [app length Nat.leb andb nth]. rewrite Ha, Hb. reflexivity.
Qed.
Lemma minute_iff : forall t mm, minute_of t = Some mm <-> minute_spec t mm.
Proof.
  intros t mm. unfold minute_spec. destruct (minute_cases t) as [(t' & -> & ->)|(N & ->)]; rewrite after_colon_iff.
  - split.
    + intros H. exists [58%N], t'. split; [right; reflexivity|]. split; [reflexivity|]. split; [discriminate|exact H].
    + intros (colon & t'' & [-> | ->] & E & NC & H).
      * exfalso. apply (NC eq_refl t'). symmetry. exact E.
      * injection E as <-. exact H.
  - split.
    + intros H. exists [], t. split; [left; reflexivity|]. split; [reflexivity|]. split; [intros _; exact N|exact H].
    + intros (colon & t'' & [-> | ->] & E & NC & H).
      * cbn [app] in E. subst t''. exact H.
      * exfalso. apply (N t''). exact E.
Qed.
Lemma parse_timezone_eq : forall s rest, parse_timezone (s :: rest) =
  if N.eqb s 90 then Some 0
  else if negb (N.eqb s 43) && negb (N.eqb s 45) then None
  else if (length rest <? 2)%nat then None
  else match digits_at rest 0 2 0 with
       | None => None
       | Some h => match minute_of (skipn 2 rest) with
                   | None => None
                   | Some mm => if (14 <? h) || (59 <? mm) then None else Some (if N.eqb s 45 then - (h * 60 + mm) else h * 60 + mm)
                   end
       end.
Proof. reflexivity. Qed.

Lemma zone_iff : forall z o, parse_timezone z = Some o <-> zone_and_more z o.
Proof.
  intros z o. destruct z as [|s rest].
  - split; [discriminate|]. intros [(more & E & _)|(s & ht & t & hh & mm & _ & E & _)]; discriminate.
  - rewrite parse_timezone_eq. unfold zone_and_more. split.
    + destruct (N.eqb_spec s 90) as [->|N90]; [intros H; injection H as <-; left; exists rest; split; reflexivity|].
      destruct (negb (N.eqb s 43) && negb (N.eqb s 45)) eqn:Es; [discriminate|].
      destruct (Nat.ltb_spec (length rest) 2) as [|Hl]; [discriminate|].
      destruct (digits_at rest 0 2 0) as [h|] eqn:Eh; [|discriminate]. apply digits_at_some in Eh; [|lia].
      destruct (minute_of (skipn 2 rest)) as [mm|] eqn:Em; [|discriminate].
      destruct (Z.ltb_spec 14 h); [discriminate|]. destruct (Z.ltb_spec 59 mm); [discriminate|]. cbn [orb]. intros H1. injection H1 as <-. right.
      exists s, (firstn 2 rest), (skipn 2 rest), h, mm. split; [apply andb_false_iff in Es; destruct Es as [Es|Es]; apply negb_false_iff, N.eqb_eq in Es; auto|].
      split; [rewrite firstn_skipn; reflexivity|]. split; [exact Eh|]. split; [lia|]. split; [reflexivity|].
      apply minute_iff in Em. destruct Em as (colon & t' & C1 & C2 & C3 & C4). exists colon, t'. split; [exact C1|]. split; [exact C2|]. split; [exact C3|].
      destruct C4 as [C4|(mt & more & C4 & C5)]; [left; exact C4|]. right. exists mt, more. split; [exact C4|]. split; [exact C5|lia].
    + intros [(more & E & ->)|(s' & ht & t & hh & mm & Hs & E & Hh & B1 & -> & colon & t' & C1 & C2 & C3 & C4)].
      * injection E as -> ->. reflexivity.
      * injection E as <- ->. destruct (two_digits _ _ Hh) as (a & b & -> & Ha & Hb & _).
        assert (E1 : N.eqb s 90 = false) by (destruct Hs as [-> | ->]; reflexivity).
        assert (E2 : negb (N.eqb s 43) && negb (N.eqb s 45) = false) by (destruct Hs as [-> | ->]; reflexivity). rewrite E1, E2.
        cbn [app length]. change (S (S (length t)) <? 2)%nat with false. cbv iota.
        assert (E3 : digits_at (a :: b :: t) 0 2 0 = Some hh) by (apply digits_at_some; [cbn; lia|exact Hh]). rewrite E3. change (skipn 2 (a :: b :: t)) with t.
        assert (EM : minute_of t = Some mm).
        { apply minute_iff. exists colon, t'. split; [exact C1|]. split; [exact C2|]. split; [exact C3|]. destruct C4 as [C4|(mt & more & C4 & C5 & _)]; [left; exact C4|right; exists mt, more; split; assumption]. }
        rewrite EM. destruct (Z.ltb_spec 14 hh); [lia|]. destruct (Z.ltb_spec 59 mm); [|reflexivity]. destruct C4 as [[-> _]|(mt & more & _ & _ & B)]; lia.
Qed.

(** ** The fraction *)
Lemma find_zone_split : forall l, exists a b, l = a ++ b /\ length a = find_zone l /\ (forall c, In c a -> ~ zone_start c) /\ (b = [] \/ exists c r, b = c :: r /\ zone_start c).
Proof.
  induction l as [|c l IH]; [exists [], []; repeat split; [intros c []|left; reflexivity]|]. cbn [find_zone].
  destruct (N.eqb c 90 || N.eqb c 43 || N.eqb c 45) eqn:E.
  - exists [], (c :: l). repeat split; [intros x []|]. right. exists c, l. split; [reflexivity|]. apply orb_true_iff in E. rewrite orb_true_iff in E. rewrite !N.eqb_eq in E. unfold zone_start. tauto.
  - destruct IH as (a & b & -> & L & F & B). exists (c :: a), b. split; [reflexivity|]. split; [cbn [length]; rewrite L; reflexivity|]. split; [|exact B].
    intros x [<-|Hx]; [|apply F, Hx]. apply orb_false_iff in E. destruct E as [E E3]. apply orb_false_iff in E. destruct E as [E1 E2]. apply N.eqb_neq in E1, E2, E3. intros [->|[->| ->]]; congruence.
Qed.
Lemma fraction_iff : forall n f l v, fraction n f l = Some v <->
  exists ds junk, l = ds ++ junk /\ forallb is_digit ds = true /\ (length ds <= n)%nat /\ (junk = [] \/ length ds = n) /\
    v = f * 10 ^ Z.of_nat n + decimal ds * 10 ^ Z.of_nat n / 10 ^ Z.of_nat (length ds).
Proof.
  intros n f l v. split.
  - revert f l. induction n as [|n IH]; intros f l H.
    + cbn [fraction] in H. injection H as <-. exists [], l. split; [reflexivity|]. split; [reflexivity|]. split; [cbn; lia|]. split; [right; reflexivity|]. cbn. lia.
    + destruct l as [|c r]; cbn [fraction] in H.
      * injection H as <-. exists [], []. split; [reflexivity|]. split; [reflexivity|]. split; [cbn; lia|]. split; [left; reflexivity|]. cbn [decimal length]. rewrite Z.mul_0_l, Z.div_0_l by (apply Z.pow_nonzero; lia). lia.
      * destruct (digit_char c) eqn:E; [|discriminate]. destruct (IH _ _ H) as (ds & junk & -> & A & B & C & D). exists (c :: ds), junk. split; [reflexivity|].
        split; [cbn [forallb]; change is_digit with digit_char at 1; rewrite E; exact A|]. split; [cbn [length]; lia|]. split; [destruct C as [C|C]; [left; exact C|right; cbn [length]; lia]|].
        subst v. cbn [decimal length]. rewrite !Nat2Z.inj_succ, !Z.pow_succ_r by lia.
        set (P := 10 ^ Z.of_nat n). assert (HQ : 0 < 10 ^ Z.of_nat (length ds)) by (apply Z.pow_pos_nonneg; lia).
        set (Q := 10 ^ Z.of_nat (length ds)) in *. set (dd := Z.of_N c - 48).
        replace ((dd * Q + decimal ds) * (10 * P)) with ((dd * P * Q + decimal ds * P) * 10) by ring.
        replace (10 * Q) with (Q * 10) by ring. rewrite Z.div_mul_cancel_r by lia. rewrite Z.div_add_l by lia. ring.
  - intros (ds & junk & -> & A & B & [->|C] & ->); [rewrite app_nil_r; apply fraction_spec, A|].
    assert (G : forall n ds f, length ds = n -> forallb is_digit ds = true -> fraction n f (ds ++ junk) = fraction n f ds).
    { clear. induction n as [|n IH]; intros [|c ds] f L H; cbn [length] in L; try lia; [reflexivity|]. cbn [app fraction forallb] in *. apply andb_true_iff in H. destruct H as [H1 H2].
      change digit_char with is_digit. rewrite H1. apply IH; [lia|exact H2]. }
    rewrite (G n ds f C A). apply fraction_spec, A.
Qed.

Lemma zone_or_end : forall z o, (match z with [] => Some 0 | _ => parse_timezone z end) = Some o <-> (z = [] /\ o = 0) \/ zone_and_more z o.
Proof.
  intros z o. destruct z as [|c r].
  - split; [intros H; injection H as <-; left; split; reflexivity|]. intros [[_ ->]|H]; [reflexivity|]. apply zone_iff in H. discriminate.
  - rewrite zone_iff. split; [intros H; right; exact H|]. intros [[E _]|H]; [discriminate|exact H].
Qed.
Lemma zone_more_start : forall z o, zone_and_more z o -> exists c r, z = c :: r /\ zone_start c.
Proof.
  intros z o [(more & -> & _)|(s & ht & t & hh & mm & Hs & -> & _)]; [exists 90%N, more; split; [reflexivity|left; reflexivity]|].
  exists s, (ht ++ t). split; [reflexivity|]. unfold zone_start. destruct Hs; auto.
Qed.
Lemma find_zone_at : forall a z, (forall c, In c a -> ~ zone_start c) -> (z = [] \/ exists c r, z = c :: r /\ zone_start c) -> find_zone (a ++ z) = length a.
Proof.
  induction a as [|c a IH]; intros z F B; cbn [app find_zone length].
  - destruct B as [->|(c & r & -> & Hc)]; [reflexivity|]. cbn [find_zone]. rewrite zone_start_test by exact Hc. reflexivity.
  - destruct (N.eqb c 90 || N.eqb c 43 || N.eqb c 45) eqn:E.
    + exfalso. apply (F c (or_introl eq_refl)). apply orb_true_iff in E. rewrite orb_true_iff in E. rewrite !N.eqb_eq in E. unfold zone_start. tauto.
    + rewrite IH; [reflexivity|intros x Hx; apply F; right; exact Hx|exact B].
Qed.

Lemma tail_iff : forall rest micros o, parse_tail rest = Some (micros, o) <-> tail_of_timestamp rest micros o.
Proof.
  intros rest micros o. unfold tail_of_timestamp. split.
  - unfold parse_tail. intros H.
    assert (P : forall z, (match (match z with [] => Some 0 | _ => parse_timezone z end) with None => None | Some x => Some (0, x) end) = Some (micros, o) -> 
       exists point zone, z = point ++ zone /\ ((point = [] /\ micros = 0) \/ exists ds junk, point = 46%N :: ds ++ junk /\ forallb is_digit ds = true /\ (length ds <= 6)%nat /\
       (junk = [] \/ length ds = 6%nat) /\ (forall c, In c junk -> c <> 90%N /\ c <> 43%N /\ c <> 45%N) /\ micros = decimal ds * 1000000 / 10 ^ Z.of_nat (length ds)) /\
       ((zone = [] /\ o = 0) \/ zone_and_more zone o)).
    { intros z Hz. destruct (match z with [] => Some 0 | _ => parse_timezone z end) as [x|] eqn:Ez; [|discriminate]. injection Hz as <- <-.
      exists [], z. split; [reflexivity|]. split; [left; split; reflexivity|]. apply zone_or_end, Ez. }
    destruct rest as [|c r]; [apply (P []), H|]. destruct (N.eqb_spec c 46) as [->|N46]; [|apply (P (c :: r)), H].
    destruct (find_zone_split r) as (a & b & -> & L & F & B). rewrite <- L in H. rewrite firstn_exact, skipn_exact in H by reflexivity.
    destruct (fraction 6 0 a) as [mc|] eqn:Ef; [|discriminate]. destruct (match b with [] => Some 0 | _ => parse_timezone b end) as [x|] eqn:Ez; [|discriminate]. injection H as <- <-.
    apply fraction_iff in Ef. destruct Ef as (ds & junk & -> & D1 & D2 & D3 & D4). exists (46%N :: ds ++ junk), b. split; [reflexivity|]. split; [|apply zone_or_end, Ez].
    right. exists ds, junk. repeat (split; [assumption || reflexivity|]). split.
    + intros c Hc. specialize (F c ltac:(apply in_or_app; right; exact Hc)). unfold zone_start in F. tauto.
    + rewrite D4, Z.mul_0_l, Z.add_0_l. reflexivity.
  - intros (point & zone & -> & HP & HZ).
    assert (B : zone = [] \/ exists c r, zone = c :: r /\ zone_start c) by (destruct HZ as [[-> _]|HZ]; [left; reflexivity|right; eapply zone_more_start; exact HZ]).
    apply zone_or_end in HZ. unfold parse_tail. destruct HP as [[-> ->]|(ds & junk & -> & D1 & D2 & D3 & D4 & ->)].
    + cbn [app]. destruct zone as [|c r]; [injection HZ as <-; reflexivity|]. destruct B as [B|(c' & r' & E & B)]; [discriminate|]. injection E as <- <-.
      assert (Ec : N.eqb c 46 = false) by (destruct B as [->|[->| ->]]; reflexivity). rewrite Ec, HZ. reflexivity.
    + cbn [app]. change (N.eqb 46 46) with true. cbv iota.
      assert (FZ : forall c, In c (ds ++ junk) -> ~ zone_start c).
      { intros c Hc. apply in_app_or in Hc. destruct Hc as [Hc|Hc].
        - rewrite forallb_forall in D1. specialize (D1 c Hc). apply is_digit_range in D1. unfold zone_start. lia.
        - specialize (D4 c Hc). unfold zone_start. tauto. }
      rewrite find_zone_at by assumption. rewrite firstn_exact, skipn_exact by reflexivity.
      assert (FR : fraction 6 0 (ds ++ junk) = Some (decimal ds * 1000000 / 10 ^ Z.of_nat (length ds))).
      { apply fraction_iff. exists ds, junk. repeat (split; [assumption || reflexivity|]). rewrite Z.mul_0_l, Z.add_0_l. reflexivity. }
      rewrite FR, HZ. reflexivity.
Qed.
