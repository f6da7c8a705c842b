(** Cell classification; modal counts; the candidate order. *)
From Coq Require Import SpecFloat Permutation.
From Verif Require Import Base DialectSpec DialectModel DialectProof DialectProof3.

(** ---- classification ---- *)
Definition datetime_or_string (fuel : nat) (cell : bytes) : cell_type :=
  if 16 <=? length cell then
    match (match find_char cell 84%N with Some p => Some p | None => find_char cell 32%N end) with
    | Some p =>
        if 8 <=? p then
          let time_part := strip_zone (skipn (S p) cell) in
          match fuel with
          | O => STRING
          | S fuel' =>
              match infer_with fuel' (firstn p cell) with
              | DATE =>
                  match infer_with fuel' time_part with
                  | TIME => DATETIME
                  | _ => if 5 <=? length time_part then DATETIME else STRING
                  end
              | _ => STRING
              end
          end
        else STRING
    | None => STRING
    end
  else STRING.

Lemma infer_chain fuel cell : infer_with fuel cell =
  match trim_spaces cell with
  | [] => EMPTY
  | _ =>
      if existsb (same_text (trim_spaces cell)) bool_words then BOOLEAN
      else if integer_shape (trim_spaces cell) then INTEGER
      else if float_shape (trim_spaces cell) then FLOAT
      else if date_shape (trim_spaces cell) then DATE
      else if time_shape (trim_spaces cell) then TIME
      else datetime_or_string fuel (trim_spaces cell)
  end.
Proof. destruct fuel; reflexivity. Qed.

Lemma datetime_or_string_two fuel cell :
  datetime_or_string fuel cell = DATETIME \/ datetime_or_string fuel cell = STRING.
Proof.
  unfold datetime_or_string. cbv zeta.
  destruct (16 <=? length cell); [|auto].
  destruct (match find_char cell 84 with Some p => Some p | None => find_char cell 32 end); [|auto].
  destruct (8 <=? n); [|auto]. destruct fuel; [auto|].
  destruct (infer_with fuel _); auto.
  destruct (infer_with fuel _); auto; destruct (5 <=? _); auto.
Qed.

Lemma bool_word_in l : existsb (same_text l) bool_words = true <-> In l bool_words.
Proof.
  rewrite existsb_exists. split.
  - intros (w & I & E). apply same_text_ok in E. subst; exact I.
  - intros I. exists l. split; [exact I|apply same_text_ok; reflexivity].
Qed.

Lemma bool_words_plain l : In l bool_words ->
  integer_shape l = false /\ float_shape l = false /\ date_shape l = false /\ time_shape l = false.
Proof.
  intros I. cbn [bool_words In] in I.
  repeat (destruct I as [<-|I]; [vm_compute; auto|]). destruct I.
Qed.

Lemma not_numeric a x r : Digits a -> a <> [] -> ~ Digit x ->
  x <> 46%N -> x <> 101%N -> x <> 69%N ->
  integer_shape (a ++ x :: r) = false /\ float_shape (a ++ x :: r) = false.
Proof.
  intros Da NE Nx N1 N2 N3. destruct a as [|y a]; [congruence|].
  assert (Sy : sign y = false) by (inversion Da; apply digit_not_sign, digit_ok; assumption).
  split.
  - unfold integer_shape. cbn [app]. rewrite Sy.
    destruct (forallb digit (y :: a ++ x :: r)) eqn:F; [|reflexivity].
    rewrite forallb_forall in F. exfalso. apply Nx, digit_ok, F.
    change (y :: a ++ x :: r) with ((y :: a) ++ x :: r). apply in_or_app; right; left; reflexivity.
  - unfold float_shape. cbv zeta.
    assert (E0 : match (y :: a) ++ x :: r with
                 | c :: r0 => if sign c then r0 else (y :: a) ++ x :: r
                 | [] => (y :: a) ++ x :: r end = (y :: a) ++ x :: r)
      by (cbn [app]; rewrite Sy; reflexivity).
    rewrite E0. rewrite drop_digits_app; [|exact Da|].
    + destruct (N.eqb_spec x 46); [contradiction|].
      destruct (N.eqb_spec x 101); [contradiction|].
      destruct (N.eqb_spec x 69); [contradiction|]. reflexivity.
    + intros c t E; injection E as <- _. exact Nx.
Qed.

Lemma date_alone l : date_shape l = true -> integer_shape l = false /\ float_shape l = false.
Proof.
  intros H. apply date_shape_ok in H.
  destruct H as (sep & a & b & c & HS & -> & Da & _ & _ & HL).
  apply (not_numeric a sep); auto.
  - intros ->. destruct HL as [(X & _)|(X & _)]; discriminate.
  - destruct HS as [->| ->]; apply not_digit_lit; reflexivity.
  - destruct HS as [->| ->]; discriminate.
  - destruct HS as [->| ->]; discriminate.
  - destruct HS as [->| ->]; discriminate.
Qed.

Lemma time_alone l : time_shape l = true ->
  integer_shape l = false /\ float_shape l = false /\ date_shape l = false.
Proof.
  intros H. pose proof H as H0. apply time_shape_ok in H.
  assert (ND : date_shape l = false).
  { unfold time_shape in H0. unfold date_shape.
    destruct (Nat.eqb_spec (length l) 10) as [E|E]; [|reflexivity].
    rewrite E in H0. discriminate. }
  destruct H as (a & b & Da & _ & La & _ & H).
  assert (X : exists r, l = a ++ 58%N :: r)
    by (destruct H as [->|(c & _ & _ & ->)]; eexists; reflexivity).
  destruct X as (r & E). rewrite E in *.
  assert (a <> []) by (intros ->; discriminate).
  destruct (not_numeric a 58%N r); auto; try discriminate.
  apply not_digit_lit; reflexivity.
Qed.

Lemma float_alone l : float_shape l = true -> integer_shape l = false.
Proof.
  intros H. destruct (integer_shape l) eqn:I; [|reflexivity]. exfalso.
  apply float_shape_ok in H. apply integer_shape_ok in I.
  destruct I as (s & d & E & OS & Dd & _).
  assert (All : forall c, In c l -> Digit c \/ c = 43%N \/ c = 45%N).
  { intros c Ic. rewrite E in Ic. apply in_app_or in Ic. destruct Ic as [Ic|Ic].
    - destruct OS as [->|[->| ->]]; [destruct Ic|destruct Ic as [<-|[]]; auto..].
    - left. unfold Digits in Dd. rewrite Forall_forall in Dd; auto. }
  destruct H as (s' & i & pt & e & -> & _ & _ & Hp & He & NE & _).
  assert (Bad : exists c, In c (s' ++ i ++ pt ++ e) /\ (c = 46%N \/ c = 101%N \/ c = 69%N)).
  { destruct Hp as [->|(f & -> & _)].
    - destruct He as [->|(m & t & x & -> & Hm & _)]; [destruct NE; congruence|].
      exists m. split; [|tauto]. apply in_or_app; right. apply in_or_app; right.
      left; reflexivity.
    - exists 46%N. split; [|auto]. apply in_or_app; right. apply in_or_app; right.
      left; reflexivity. }
  destruct Bad as (c & Ic & Hc). destruct (All c Ic) as [X|[X|X]].
  - unfold Digit in X. lia.
  - lia.
  - lia.
Qed.

Lemma classify fuel cell t : Trimmed White cell t ->
  let r := infer_with fuel cell in
  (r = EMPTY <-> t = []) /\ (r = BOOLEAN <-> In t bool_words) /\
  (r = INTEGER <-> IntegerText t) /\ (r = FLOAT <-> FloatText t) /\
  (r = DATE <-> DateText t) /\ (r = TIME <-> TimeText t) /\
  (r = DATETIME -> exists dp sep rest x, t = dp ++ sep :: rest /\ (sep = 84%N \/ sep = 32%N) /\
                     Trimmed White dp x /\ DateText x).
Proof.
  intros T. apply (trim_unique space White space_ok) in T. rewrite <- trim_spaces_trim in T.
  cbv zeta. rewrite infer_chain, <- T. clear T cell.
  rewrite <- integer_shape_ok, <- float_shape_ok, <- date_shape_ok, <- time_shape_ok, <- bool_word_in.
  destruct t as [|c0 t0].
  { assert (B : existsb (same_text []) bool_words = false) by reflexivity.
    rewrite B. repeat split; intros H; try discriminate; reflexivity. }
  set (t := c0 :: t0). assert (NE : t <> []) by discriminate.
  destruct (existsb (same_text t) bool_words) eqn:B.
  { apply bool_word_in in B. destruct (bool_words_plain t B) as (-> & -> & -> & ->).
    repeat split; intros H; try discriminate; try reflexivity; contradiction. }
  destruct (integer_shape t) eqn:I.
  { destruct (float_shape t) eqn:F; [apply float_alone in F; congruence|].
    destruct (date_shape t) eqn:D; [apply date_alone in D; destruct D; congruence|].
    destruct (time_shape t) eqn:M; [apply time_alone in M; destruct M; congruence|].
    repeat split; intros H; try discriminate; try reflexivity; contradiction. }
  destruct (float_shape t) eqn:F.
  { destruct (date_shape t) eqn:D; [apply date_alone in D; destruct D; congruence|].
    destruct (time_shape t) eqn:M; [apply time_alone in M; destruct M as (_ & ? & _); congruence|].
    repeat split; intros H; try discriminate; try reflexivity; contradiction. }
  destruct (date_shape t) eqn:D.
  { destruct (time_shape t) eqn:M; [apply time_alone in M; destruct M as (_ & _ & ?); congruence|].
    repeat split; intros H; try discriminate; try reflexivity; contradiction. }
  destruct (time_shape t) eqn:M.
  { repeat split; intros H; try discriminate; try reflexivity; contradiction. }
  assert (DT : datetime_or_string fuel t = DATETIME ->
    exists dp sep rest x, t = dp ++ sep :: rest /\ (sep = 84%N \/ sep = 32%N) /\
                     Trimmed White dp x /\ DateText x).
  { unfold datetime_or_string. cbv zeta. destruct (16 <=? length t); [|discriminate].
    assert (FC : forall l x p, find_char l x = Some p -> l = firstn p l ++ x :: skipn (S p) l).
    { clear. induction l as [|c l IH]; intros x p H; [discriminate|]. cbn [find_char] in H.
      destruct (N.eqb_spec c x) as [->|].
      - injection H as <-. reflexivity.
      - destruct (find_char l x) as [q|] eqn:Q; [|discriminate].
        cbn [option_map] in H. injection H as <-.
        cbn [firstn skipn app]. f_equal. apply IH; exact Q. }
    destruct (find_char t 84) as [p|] eqn:P; [|destruct (find_char t 32) as [p|] eqn:P2; [|discriminate]].
    - destruct (8 <=? p); [|discriminate]. destruct fuel as [|fuel]; [discriminate|].
      destruct (infer_with fuel (firstn p t)) eqn:Q; try discriminate. intros _.
      exists (firstn p t), 84%N, (skipn (S p) t), (trim space (firstn p t)).
      split; [apply FC; exact P|]. split; [auto|].
      split; [apply (trim_ok space White space_ok)|].
      rewrite infer_chain in Q. rewrite <- trim_spaces_trim. apply date_shape_ok.
      destruct (trim_spaces (firstn p t)) as [|c1 t1]; [discriminate|].
      destruct (existsb (same_text (c1 :: t1)) bool_words); [discriminate Q|].
      destruct (integer_shape (c1 :: t1)); [discriminate Q|].
      destruct (float_shape (c1 :: t1)); [discriminate Q|].
      destruct (date_shape (c1 :: t1)); [reflexivity|].
      destruct (time_shape (c1 :: t1)); [discriminate Q|].
      destruct (datetime_or_string_two fuel (c1 :: t1)) as [W|W]; rewrite W in Q; discriminate Q.
    - destruct (8 <=? p); [|discriminate]. destruct fuel as [|fuel]; [discriminate|].
      destruct (infer_with fuel (firstn p t)) eqn:Q; try discriminate. intros _.
      exists (firstn p t), 32%N, (skipn (S p) t), (trim space (firstn p t)).
      split; [apply FC; exact P2|]. split; [auto|].
      split; [apply (trim_ok space White space_ok)|].
      rewrite infer_chain in Q. rewrite <- trim_spaces_trim. apply date_shape_ok.
      destruct (trim_spaces (firstn p t)) as [|c1 t1]; [discriminate|].
      destruct (existsb (same_text (c1 :: t1)) bool_words); [discriminate Q|].
      destruct (integer_shape (c1 :: t1)); [discriminate Q|].
      destruct (float_shape (c1 :: t1)); [discriminate Q|].
      destruct (date_shape (c1 :: t1)); [reflexivity|].
      destruct (time_shape (c1 :: t1)); [discriminate Q|].
      destruct (datetime_or_string_two fuel (c1 :: t1)) as [W|W]; rewrite W in Q; discriminate Q. }
  destruct (datetime_or_string_two fuel t) as [W|W]; rewrite W in *;
    repeat split; intros H; try discriminate; try contradiction; try (exact (DT H)); auto.
Qed.

(** ---- modal counts ---- *)
Definition freq_table (counts : list nat) (t : list (nat * nat)) : Prop :=
  forall k n, In (k, n) t <-> (count_occ Nat.eq_dec counts k = n /\ 0 < n).

Lemma bump_in c t : NoDup (map fst t) -> NoDup (map fst (bump c t)) /\
  (forall k, In k (map fst (bump c t)) <-> k = c \/ In k (map fst t)) /\
  (forall k n, In (k, n) (bump c t) <->
     (k <> c /\ In (k, n) t) \/ (k = c /\ In (c, n - 1) t /\ 0 < n) \/
     (k = c /\ n = 1 /\ ~ In c (map fst t))).
Proof.
  induction t as [|(k0, n0) t IH]; intros ND.
  - cbn [bump map fst]. split; [repeat constructor; intros []|]. split.
    + intros k; cbn [In]. intuition.
    + intros k n; cbn [In]. split.
      * intros [E|[]]. injection E as <- <-. right; right; auto.
      * intros [(_ & [])|[(_ & [] & _)|(-> & -> & _)]]. auto.
  - cbn [map fst] in ND. inversion ND as [|? ? NI ND']; subst.
    destruct (IH ND') as (A & B & C). cbn [bump]. destruct (Nat.eqb_spec k0 c) as [->|NE].
    + cbn [map fst]. split; [constructor; assumption|]. split.
      * intros k; cbn [In]. intuition.
      * intros k n; cbn [In]. split.
        -- intros [E|I].
           ++ injection E as <- <-. right; left. split; [reflexivity|]. split; [left; f_equal; lia|lia].
           ++ destruct (Nat.eq_dec k c) as [->|Nk]; [|left; auto].
              exfalso. apply NI. apply (in_map fst) in I. exact I.
        -- intros [(Nk & [E|I])|[(-> & [E|I] & P)|(-> & -> & N)]].
           ++ injection E as -> ->. congruence.
           ++ auto.
           ++ injection E as ->. left. f_equal. lia.
           ++ exfalso. apply NI. apply (in_map fst) in I. exact I.
           ++ exfalso. apply N. left; reflexivity.
    + cbn [map fst]. split.
      { constructor; [|exact A]. rewrite B. intros [E|I]; [congruence|contradiction]. }
      split.
      * intros k; cbn [In]. rewrite B. intuition.
      * intros k n; cbn [In]. rewrite C. split.
        -- intros [E|[(Nk & I)|[(-> & I & P)|(-> & -> & N)]]].
           ++ injection E as <- <-. left; auto.
           ++ left; auto.
           ++ right; left; auto.
           ++ right; right. split; [reflexivity|split; [reflexivity|]]. intros [E|I]; congruence.
        -- intros [(Nk & [E|I])|[(-> & [E|I] & P)|(-> & -> & N)]].
           ++ auto.
           ++ right; left; auto.
           ++ injection E as E _. congruence.
           ++ right; right; left; auto.
           ++ right; right; right. split; [reflexivity|split; [reflexivity|]]. intros I; apply N; auto.
Qed.

Lemma bump_table c counts t : NoDup (map fst t) -> freq_table counts t ->
  NoDup (map fst (bump c t)) /\ freq_table (counts ++ [c]) (bump c t).
Proof.
  intros ND FT. destruct (bump_in c t ND) as (A & B & C). split; [exact A|].
  intros k n. rewrite C, count_occ_app. cbn [count_occ].
  assert (K : ~ In c (map fst t) <-> count_occ Nat.eq_dec counts c = 0).
  { split.
    - intros N. destruct (Nat.eq_dec (count_occ Nat.eq_dec counts c) 0); [assumption|].
      exfalso. apply N. change c with (fst (c, count_occ Nat.eq_dec counts c)).
      apply in_map. apply FT. split; [reflexivity|lia].
    - intros Z I. apply in_map_iff in I. destruct I as ((k', n') & E & I). cbn [fst] in E. subst k'.
      apply FT in I. lia. }
  destruct (Nat.eq_dec c k) as [->|NE].
  - split.
    + intros [(Nk & _)|[(_ & I & P)|(_ & -> & N)]]; [congruence| |].
      * apply FT in I. lia.
      * apply K in N. lia.
    + intros (E & P). right. destruct (Nat.eq_dec n 1) as [->|N1].
      * right. split; [reflexivity|split; [reflexivity|]]. apply K. lia.
      * left. split; [reflexivity|]. split; [|lia]. apply FT. lia.
  - unfold freq_table in FT. rewrite (FT k n). split.
    + intros [(_ & E & P)|[(E & _)|(E & _)]]; [lia|congruence|congruence].
    + intros (E & P). left. split; [congruence|lia].
Qed.

Lemma count_freq_ok counts : freq_table counts (count_freq counts).
Proof.
  unfold count_freq.
  assert (G : forall rest done t, NoDup (map fst t) -> freq_table done t ->
    freq_table (done ++ rest) (fold_left (fun t c => bump c t) rest t)).
  { induction rest as [|c rest IH]; intros dn t ND FT.
    - rewrite app_nil_r; exact FT.
    - cbn [fold_left]. destruct (bump_table c dn t ND FT) as (A & B).
      specialize (IH (dn ++ [c]) (bump c t) A B). rewrite <- app_assoc in IH. exact IH. }
  apply (G counts [] []); [constructor|].
  intros k n. cbn [count_occ In]. split; [intros []|lia].
Qed.

Lemma modal_ok entries : let m := modal entries in
  (In m entries \/ m = (0, 0)) /\ (forall e, In e entries -> snd e <= snd m).
Proof.
  cbv zeta. unfold modal.
  assert (G : forall (l : list (nat * nat)) (acc : nat * nat), let m := fold_left (fun acc e => if snd acc <? snd e then e else acc) l acc in
    (In m l \/ m = acc) /\ snd acc <= snd m /\ (forall e, In e l -> snd e <= snd m)).
  { induction l as [|e l IH]; intros acc; cbv zeta; cbn [fold_left].
    - split; [auto|]. split; [lia|intros e []].
    - destruct (IH (if snd acc <? snd e then e else acc)) as (A & B & C).
      destruct (Nat.ltb_spec (snd acc) (snd e)) as [G|G].
      + split; [destruct A as [A|A]; [left; right; exact A|left; left; congruence]|].
        split; [lia|]. intros x [<-|I]; [exact B|auto].
      + split; [destruct A as [A|A]; [left; right; exact A|right; exact A]|].
        split; [exact B|]. intros x [<-|I]; [lia|auto]. }
  destruct (G entries (0, 0)) as (A & _ & C). auto.
Qed.

Lemma modal_mode counts entries : counts <> [] -> Permutation entries (count_freq counts) ->
  Mode (fst (modal entries)) counts.
Proof.
  intros NE P.
  assert (FT : freq_table counts entries).
  { intros k n. rewrite <- (count_freq_ok counts k n).
    split; apply Permutation_in; [exact P|apply Permutation_sym; exact P]. }
  destruct (modal_ok entries) as (A & B).
  destruct (modal entries) as (m, f) eqn:M. cbn [fst snd] in *.
  assert (Pos : 0 < f).
  { destruct counts as [|c cs]; [congruence|].
    assert (I : In (c, count_occ Nat.eq_dec (c :: cs) c) entries).
    { apply FT. split; [reflexivity|]. apply count_occ_In. left; reflexivity. }
    apply B in I. cbn [snd] in I.
    assert (0 < count_occ Nat.eq_dec (c :: cs) c) by (apply count_occ_In; left; reflexivity). lia. }
  destruct A as [A|A]; [|injection A as -> ->; lia].
  apply FT in A. destruct A as (E & _).
  split; [apply (count_occ_In Nat.eq_dec); lia|].
  intros k. rewrite E. destruct (Nat.eq_dec (count_occ Nat.eq_dec counts k) 0); [lia|].
  apply (B (k, count_occ Nat.eq_dec counts k)). apply FT. split; [reflexivity|lia].
Qed.

(** ---- the candidate order ---- *)
Lemma round_opp p e m x : binary_round p e true m x = SFopp (binary_round p e false m x).
Proof.
  unfold binary_round. destruct (shl_align m x _) as (mz, ez).
  unfold binary_round_aux. destruct (shr_fexp p e (Zpos mz) ez loc_Exact) as (mrs, e').
  destruct (shr_fexp p e _ e' loc_Exact) as (mrs2, e2).
  destruct (shr_m mrs2); try reflexivity. destruct (Zle_bool e2 (e - p)); reflexivity.
Qed.

Definition is_zero (x : spec_float) : bool := match x with S754_zero _ => true | _ => false end.

Lemma opp_opp x : SFopp (SFopp x) = x.
Proof. destruct x as [s|s| |s m e]; try reflexivity; cbn [SFopp]; rewrite negb_involutive; reflexivity. Qed.

Lemma sub_swap_finite sa ma ea sb mb eb :
  let a := S754_finite sa ma ea in let b := S754_finite sb mb eb in
  (is_zero (fsub a b) = true /\ is_zero (fsub b a) = true) \/ fsub b a = SFopp (fsub a b).
Proof.
  cbv zeta. unfold fsub, SFsub. rewrite (Z.min_comm eb ea).
  set (x := cond_Zopp sa _). set (y := cond_Zopp sb _).
  replace (y - x)%Z with (- (x - y))%Z by lia.
  destruct (x - y)%Z as [|m|m]; cbn [Z.opp binary_normalize].
  + left; split; reflexivity.
  + right. apply round_opp.
  + right. rewrite round_opp, opp_opp. reflexivity.
Qed.

(** Subtracting the other way round changes the sign. *)
Lemma sub_swap a b : (is_zero (fsub a b) = true /\ is_zero (fsub b a) = true) \/
  fsub b a = SFopp (fsub a b).
Proof.
  destruct a as [sa|sa| |sa ma ea], b as [sb|sb| |sb mb eb];
    first [ apply sub_swap_finite
          | right; reflexivity
          | destruct sa; right; reflexivity
          | destruct sb; right; reflexivity
          | destruct sa, sb; ((right; reflexivity) || (left; split; reflexivity)) ].
Qed.

Lemma lt_opp x y : SFltb x (SFopp y) = SFltb y (SFopp x).
Proof.
  unfold SFltb.
  destruct x as [sx|sx| |sx mx ex], y as [sy|sy| |sy my ey]; try reflexivity;
    try (destruct sx, sy; reflexivity); try (destruct sx; reflexivity); try (destruct sy; reflexivity).
  cbn [SFopp SFcompare].
  destruct sx, sy; cbn [negb]; try reflexivity;
    rewrite (Z.compare_antisym ex ey);
    change (Pos.compare_cont Eq my mx) with (Pos.compare_cont (CompOpp Eq) my mx);
    rewrite <- Pos.compare_cont_antisym;
    destruct (Z.compare ex ey); cbn [CompOpp]; try reflexivity;
    destruct (Pos.compare_cont Eq mx my); reflexivity.
Qed.

Definition eps := lit_1e_9.

Lemma eps_shape : exists m e, eps = S754_finite false m e.
Proof. eexists; eexists; vm_compute; reflexivity. Qed.

(** Above and below swap with the arguments. *)
Lemma above_below a b : flt eps (fsub a b) = flt (fsub b a) (SFopp eps).
Proof.
  destruct eps_shape as (m & e & E). unfold flt.
  destruct (sub_swap a b) as [(Z1 & Z2)|X].
  - rewrite E. destruct (fsub a b); try discriminate. destruct (fsub b a); try discriminate. reflexivity.
  - rewrite X. rewrite lt_opp, opp_opp. reflexivity.
Qed.

Lemma above_not_below a b : flt eps (fsub a b) = true -> flt eps (fsub b a) = false.
Proof.
  destruct eps_shape as (m & e & E). unfold flt. rewrite E. intros H.
  destruct (sub_swap a b) as [(Z1 & Z2)|X].
  - destruct (fsub a b); discriminate.
  - rewrite X. destruct (fsub a b) as [s|s| |s m' e']; try discriminate.
    + destruct s; [discriminate|reflexivity].
    + destruct s; [discriminate|reflexivity].
Qed.

Definition tie_break (a b : candidate) : bool :=
  if negb (cand_columns a =? cand_columns b) then cand_columns b <? cand_columns a
  else if negb (quote_char (cand_dialect a) =? quote_char (cand_dialect b))%N
  then (quote_char (cand_dialect a) =? 34)%N
  else if negb (Bool.eqb (double_quote (cand_dialect a)) (double_quote (cand_dialect b)))
  then double_quote (cand_dialect a)
  else if negb (delimiter (cand_dialect a) =? delimiter (cand_dialect b))%N
  then (delimiter (cand_dialect a) =? 44)%N
  else false.

Lemma cand_lt_eq a b : cand_lt a b =
  if flt eps (fsub (cand_score a) (cand_score b)) then true
  else if flt eps (fsub (cand_score b) (cand_score a)) then false
  else tie_break a b.
Proof.
  unfold cand_lt. cbv zeta. rewrite (above_below (cand_score b)). reflexivity.
Qed.

Lemma tie_asym a b : tie_break a b = true -> tie_break b a = false.
Proof.
  unfold tie_break.
  rewrite (Nat.eqb_sym (cand_columns b)), (N.eqb_sym (quote_char (cand_dialect b)) (quote_char (cand_dialect a))),
    (N.eqb_sym (delimiter (cand_dialect b)) (delimiter (cand_dialect a))).
  destruct (Nat.eqb_spec (cand_columns a) (cand_columns b)) as [E1|N1]; cbn [negb].
  2:{ intros H; apply Nat.ltb_lt in H. apply Nat.ltb_ge; lia. }
  destruct (N.eqb_spec (quote_char (cand_dialect a)) (quote_char (cand_dialect b))) as [E2|N2]; cbn [negb].
  2:{ intros H; apply N.eqb_eq in H. apply N.eqb_neq; congruence. }
  destruct (double_quote (cand_dialect a)), (double_quote (cand_dialect b)); cbn [Bool.eqb negb];
    try (intros; congruence);
    (destruct (N.eqb_spec (delimiter (cand_dialect a)) (delimiter (cand_dialect b))) as [E3|N3]; cbn [negb];
     [discriminate|intros H; apply N.eqb_eq in H; apply N.eqb_neq; congruence]).
Qed.

Lemma tie_trans a b c : tie_break a b = true -> tie_break b c = true -> tie_break a c = true.
Proof.
  unfold tie_break.
  destruct (cand_dialect a) as [da qa ea ba la ca], (cand_dialect b) as [db qb eb bb lb cb],
    (cand_dialect c) as [dc qc ec bc lc cc]; cbn [quote_char double_quote delimiter].
  generalize (cand_columns a) as x, (cand_columns b) as y, (cand_columns c) as z. intros x y z.
  destruct (Nat.eqb_spec x y) as [->|N1]; cbn [negb].
  - destruct (Nat.eqb_spec y z) as [->|N1']; cbn [negb]; [|intros _ H; exact H].
    destruct (N.eqb_spec qa qb) as [->|N2]; cbn [negb].
    + destruct (N.eqb_spec qb qc) as [->|N2']; cbn [negb]; [|intros _ H; exact H].
      destruct ba, bb, bc; cbn [Bool.eqb negb]; try (intros; congruence); try (intros; reflexivity);
        (destruct (N.eqb_spec da db) as [->|N3]; cbn [negb]; [discriminate|];
         intros H1; apply N.eqb_eq in H1; subst da;
         destruct (N.eqb_spec db dc) as [->|N4]; cbn [negb]; [discriminate|];
         intros H2; apply N.eqb_eq in H2; congruence).
    + intros H1; apply N.eqb_eq in H1; subst qa.
      destruct (N.eqb_spec qb qc) as [->|N2']; cbn [negb].
      * intros _. destruct (N.eqb_spec 34 qc); [congruence|reflexivity].
      * intros H2; apply N.eqb_eq in H2; subst qb. congruence.
  - intros H1; apply Nat.ltb_lt in H1.
    destruct (Nat.eqb_spec y z) as [->|N1']; cbn [negb].
    + intros _. destruct (Nat.eqb_spec x z); [lia|]. cbn [negb]. apply Nat.ltb_lt; lia.
    + intros H2; apply Nat.ltb_lt in H2.
      destruct (Nat.eqb_spec x z); [lia|]. cbn [negb]. apply Nat.ltb_lt; lia.
Qed.

Lemma cand_asym a b : cand_lt a b = true -> cand_lt b a = false.
Proof.
  rewrite !cand_lt_eq.
  destruct (flt eps (fsub (cand_score a) (cand_score b))) eqn:A.
  - intros _. rewrite (above_not_below _ _ A). reflexivity.
  - destruct (flt eps (fsub (cand_score b) (cand_score a))); [discriminate|apply tie_asym].
Qed.

Definition tied (a b : candidate) : Prop :=
  flt eps (fsub (cand_score a) (cand_score b)) = false /\
  flt eps (fsub (cand_score b) (cand_score a)) = false.

Lemma cand_trans a b c : tied a b -> tied b c -> tied a c ->
  cand_lt a b = true -> cand_lt b c = true -> cand_lt a c = true.
Proof.
  intros (A1 & A2) (B1 & B2) (C1 & C2). rewrite !cand_lt_eq, A1, A2, B1, B2, C1, C2.
  apply tie_trans.
Qed.
