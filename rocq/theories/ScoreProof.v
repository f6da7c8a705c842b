From Coq Require Import Reals SpecFloat Permutation Lra.
From Verif Require Import Base FloatSpec FloatProof ScoreSpec DialectSpec DialectModel DialectObs
  DialectProof DialectProof2 DialectProof3 DialectProof4 DialectProof5 DialectProof6.
Local Open Scope R_scope.

Lemma is_size n : (Z.of_nat n <= 2 ^ 53)%Z -> Is (of_size n) (INR n).
Proof.
  intros H. unfold of_size. rewrite INR_IZR_INZ. apply is_normalize.
  rewrite <- abs_IZR, pow_IZR. apply IZR_le. rewrite Z.abs_eq by lia. exact H.
Qed.
Lemma is_lit n d : (0 <= n <= 2 ^ 53)%Z -> (0 < d <= 2 ^ 53)%Z -> (n <= 2 * d)%Z -> Is (of_lit n d) (literal n d).
Proof.
  intros N D L. unfold of_lit, literal. apply is_div.
  - apply is_normalize. rewrite <- abs_IZR, pow_IZR. apply IZR_le. rewrite Z.abs_eq by lia. apply N.
  - apply is_normalize. rewrite <- abs_IZR, pow_IZR. apply IZR_le. rewrite Z.abs_eq by lia. apply D.
  - apply not_0_IZR. lia.
  - assert (P : 0 < IZR d) by (apply IZR_lt; lia).
    assert (0 <= IZR n) by (apply IZR_le; lia).
    rewrite Rabs_pos_eq by (apply Rle_mult_inv_pos; assumption).
    apply Rmult_le_reg_r with (IZR d); [exact P|]. unfold Rdiv. rewrite Rmult_assoc, Rinv_l by lra.
    rewrite Rmult_1_r, <- mult_IZR. apply IZR_le. exact L.
Qed.
Lemma is_0 : Is lit_0 0.
Proof. repeat split. Qed.

Lemma part_le_1 a b : (a <= b)%nat -> (0 < b)%nat -> 0 <= INR a / INR b <= 1.
Proof.
  intros L P. assert (0 < INR b) by (apply lt_0_INR; exact P).
  assert (0 <= INR a) by apply pos_INR. assert (INR a <= INR b) by (apply le_INR; exact L).
  split; [apply Rle_mult_inv_pos; assumption|].
  apply Rmult_le_reg_r with (INR b); [assumption|]. unfold Rdiv. rewrite Rmult_assoc, Rinv_l by lra. lra.
Qed.
Lemma is_part a b : (a <= b)%nat -> (0 < b)%nat -> (Z.of_nat b <= 2 ^ 53)%Z ->
  Is (fdiv (of_size a) (of_size b)) (part a b) /\ 0 <= part a b <= 1.
Proof.
  intros L P H. destruct (part_le_1 a b L P) as (A & B). split.
  - apply is_div; [apply is_size; lia|apply is_size; lia|apply not_0_INR; lia|rewrite Rabs_pos_eq; lra].
  - unfold part. split; [rewrite <- rnd_0|rewrite <- rnd_1]; apply rnd_le; assumption.
Qed.
Lemma is_max x y a b : Is x a -> Is y b -> Is (fmax x y) (Rmax a b).
Proof.
  intros X Y. unfold fmax, flt. destruct (SFltb x y) eqn:E.
  - apply (is_lt _ _ _ _ X Y) in E. rewrite Rmax_right by lra. exact Y.
  - apply (is_lt_false _ _ _ _ X Y) in E. rewrite Rmax_left by lra. exact X.
Qed.

(** values of the literals, roughly *)
Lemma lit_bounds n d : (0 <= n)%Z -> (0 < d)%Z -> (n <= d)%Z -> 0 <= literal n d <= 1.
Proof.
  intros N D L. unfold literal. assert (0 < IZR d) by (apply IZR_lt; lia).
  assert (0 <= IZR n) by (apply IZR_le; lia). assert (IZR n <= IZR d) by (apply IZR_le; lia).
  split; [rewrite <- rnd_0|rewrite <- rnd_1]; apply rnd_le.
  - apply Rle_mult_inv_pos; assumption.
  - apply Rmult_le_reg_r with (IZR d); [assumption|]. unfold Rdiv. rewrite Rmult_assoc, Rinv_l by lra. lra.
Qed.
Lemma lit_mono n m d : (0 < d)%Z -> (n <= m)%Z -> literal n d <= literal m d.
Proof.
  intros D L. unfold literal. apply rnd_le. apply Rmult_le_compat_r; [|apply IZR_le; exact L].
  apply Rlt_le, Rinv_0_lt_compat, IZR_lt. exact D.
Qed.
Lemma lit_2 n d : (0 <= n)%Z -> (0 < d)%Z -> (n <= 2 * d)%Z -> 0 <= literal n d <= 2.
Proof.
  intros N D L. unfold literal. assert (0 < IZR d) by (apply IZR_lt; lia).
  assert (0 <= IZR n) by (apply IZR_le; lia). assert (IZR n <= 2 * IZR d) by (rewrite <- mult_IZR; apply IZR_le; lia).
  split; [rewrite <- rnd_0|rewrite <- rnd_2]; apply rnd_le.
  - apply Rle_mult_inv_pos; assumption.
  - apply Rmult_le_reg_r with (IZR d); [assumption|]. unfold Rdiv. rewrite Rmult_assoc, Rinv_l by lra. lra.
Qed.

Lemma rnd_01 x : 0 <= x <= 1 -> 0 <= rnd x <= 1.
Proof. intros (A & B). split; [rewrite <- rnd_0|rewrite <- rnd_1]; apply rnd_le; assumption. Qed.
Lemma mul_01 a b : 0 <= a <= 1 -> 0 <= b <= 1 -> 0 <= a * b <= 1.
Proof.
  intros (A & B) (C & D). split; [apply Rmult_le_pos; assumption|].
  rewrite <- (Rmult_1_r 1). apply Rmult_le_compat; assumption.
Qed.
Lemma max_01 a b : 0 <= a <= 1 -> 0 <= b <= 1 -> 0 <= Rmax a b <= 1.
Proof. intros. unfold Rmax. destruct (Rle_dec a b); assumption. Qed.
Lemma sqrt_01 a : 0 <= a <= 1 -> 0 <= sqrt a <= 1.
Proof. intros (A & B). split; [apply sqrt_pos|]. rewrite <- sqrt_1. apply sqrt_le_1; lra. Qed.
Lemma is_mul01 x y a b : Is x a -> Is y b -> 0 <= a <= 1 -> 0 <= b <= 1 -> Is (fmul x y) (rnd (a * b)).
Proof.
  intros X Y A B. apply is_mul; auto. destruct (mul_01 a b A B). rewrite Rabs_pos_eq; lra.
Qed.

(** ** the base score *)
Lemma base_ok pat typ p t cols : Is pat p -> Is typ t -> 0 <= p <= 1 -> 0 <= t <= 1 ->
  exists b, BaseScore p t cols b /\ 0 <= b <= 1 /\
    Is (if flt lit_0_9 pat && (1 <? cols) then
          fmul pat (fmax lit_0_6 (fsqrt (fmax lit_0_1 typ)))
        else if flt lit_0_8 pat && (1 <? cols) then
          fmul pat (fsqrt (fmax lit_0_1 typ))
        else fmul pat typ) b.
Proof.
  intros P T P1 T1.
  assert (L1 : Is lit_0_1 (literal 1 10)) by (apply is_lit; lia).
  assert (L6 : Is lit_0_6 (literal 6 10)) by (apply is_lit; lia).
  assert (L8 : Is lit_0_8 (literal 8 10)) by (apply is_lit; lia).
  assert (L9 : Is lit_0_9 (literal 9 10)) by (apply is_lit; lia).
  assert (B1 := lit_bounds 1 10 ltac:(lia) ltac:(lia) ltac:(lia)).
  assert (B6 := lit_bounds 6 10 ltac:(lia) ltac:(lia) ltac:(lia)).
  assert (M : Is (fmax lit_0_1 typ) (Rmax (literal 1 10) t)) by (apply is_max; assumption).
  assert (M1 := max_01 _ _ B1 T1).
  assert (Q : Is (fsqrt (fmax lit_0_1 typ)) (rnd (sqrt (Rmax (literal 1 10) t)))) by (apply is_sqrt; [exact M|lra]).
  assert (Q1 := rnd_01 _ (sqrt_01 _ M1)).
  assert (M6 : Is (fmax lit_0_6 (fsqrt (fmax lit_0_1 typ))) (Rmax (literal 6 10) (rnd (sqrt (Rmax (literal 1 10) t)))))
    by (apply is_max; assumption).
  assert (M61 := max_01 _ _ B6 Q1).
  unfold flt. destruct (SFltb lit_0_9 pat) eqn:C9; cbn [andb].
  - apply (is_lt _ _ _ _ L9 P) in C9. destruct (Nat.ltb_spec 1 cols) as [C|C].
    + eexists. split; [left; split; [exact C9|split; [exact C|reflexivity]]|].
      split; [apply rnd_01, mul_01; assumption|apply is_mul01; assumption].
    + rewrite andb_false_r. eexists. split; [right; right; split; [right; exact C|reflexivity]|].
      split; [apply rnd_01, mul_01; assumption|apply is_mul01; assumption].
  - apply (is_lt_false _ _ _ _ L9 P) in C9. destruct (SFltb lit_0_8 pat) eqn:C8; cbn [andb].
    + apply (is_lt _ _ _ _ L8 P) in C8. destruct (Nat.ltb_spec 1 cols) as [C|C].
      * eexists. split; [right; left; split; [split; assumption|split; [exact C|reflexivity]]|].
        split; [apply rnd_01, mul_01; assumption|apply is_mul01; assumption].
      * eexists. split; [right; right; split; [right; exact C|reflexivity]|].
        split; [apply rnd_01, mul_01; assumption|apply is_mul01; assumption].
    + apply (is_lt_false _ _ _ _ L8 P) in C8.
      eexists. split; [right; right; split; [left; exact C8|reflexivity]|].
      split; [apply rnd_01, mul_01; assumption|apply is_mul01; assumption].
Qed.

(** ** escapes *)
Lemma adjacent_cons a b x l : Adjacent a b (x :: l) <-> (x = a /\ hd_error l = Some b) \/ Adjacent a b l.
Proof.
  split.
  - intros (i & A & B). destruct i as [|i].
    + left. cbn [nth_error] in *. injection A as ->. split; [reflexivity|]. destruct l; exact B.
    + right. exists i. split; assumption.
  - intros [(-> & B)|(i & A & B)].
    + exists 0%nat. split; [reflexivity|]. cbn [nth_error]. destruct l; exact B.
    + exists (S i). split; assumption.
Qed.
Lemma adjacent_nil a b : ~ Adjacent a b [].
Proof. intros (i & A & _). destruct i; discriminate. Qed.
Lemma escape_counts_ok q e : forall l,
  ((0 < fst (escape_counts l q e))%nat <-> e <> q /\ Adjacent e q l) /\
  ((0 < snd (escape_counts l q e))%nat <-> Adjacent q q l).
Proof.
  induction l as [|a r IH].
  - cbn [escape_counts fst snd]. split; split; try lia; intros; exfalso.
    + destruct H as (_ & H). exact (adjacent_nil _ _ H).
    + exact (adjacent_nil _ _ H).
  - destruct r as [|b r].
    + cbn [escape_counts fst snd]. rewrite !adjacent_cons. cbn [hd_error].
      split; split; try lia; intros; exfalso.
      * destruct H as (_ & [(_ & H)|H]); [discriminate|exact (adjacent_nil _ _ H)].
      * destruct H as [(_ & H)|H]; [discriminate|exact (adjacent_nil _ _ H)].
    + change (escape_counts (a :: b :: r) q e) with
        (let (ne, nd) := escape_counts (b :: r) q e in
          ((Nat.b2n (negb (e =? q)%N && (a =? e)%N && (b =? q)%N) + ne)%nat,
           (Nat.b2n ((a =? q)%N && (b =? q)%N) + nd)%nat)).
      destruct (escape_counts (b :: r) q e) as (ne, nd). cbn [fst snd] in *.
      rewrite (adjacent_cons e q a), (adjacent_cons q q a). cbn [hd_error].
      destruct IH as (I1 & I2). rewrite <- I2. split.
      * destruct (N.eqb_spec e q) as [->|NE]; cbn [negb andb Nat.b2n].
        -- rewrite Nat.add_0_l, I1. tauto.
        -- destruct (N.eqb_spec a e) as [->|NA]; cbn [andb].
           ++ destruct (N.eqb_spec b q) as [->|NB]; cbn [Nat.b2n]; [split; [intros _; auto|lia]|].
              rewrite Nat.add_0_l, I1. split; [tauto|]. intros (_ & [(_ & E)|H]); [congruence|auto].
           ++ cbn [Nat.b2n]. rewrite Nat.add_0_l, I1. split; [tauto|]. intros (_ & [(E & _)|H]); [congruence|auto].
      * destruct (N.eqb_spec a q) as [->|NA]; cbn [andb].
        -- destruct (N.eqb_spec b q) as [->|NB]; cbn [Nat.b2n]; [split; [intros _; auto|lia]|].
           rewrite Nat.add_0_l. split; [tauto|]. intros [(_ & E)|H]; [congruence|auto].
        -- cbn [Nat.b2n]. rewrite Nat.add_0_l. split; [tauto|]. intros [(E & _)|H]; [congruence|auto].
Qed.
Lemma pattern_pos l q e : (0 <? detect_escape_pattern l q e)%Z = true <->
  e <> q /\ Adjacent e q l /\ ~ Adjacent q q l.
Proof.
  unfold detect_escape_pattern. destruct (escape_counts_ok q e l) as (A & B).
  destruct (escape_counts l q e) as (ne, nd). cbn [fst snd] in *. rewrite <- B.
  assert (A' : (0 < ne)%nat <-> e <> q /\ Adjacent e q l) by exact A. clear A B.
  destruct (Nat.ltb_spec 0 ne) as [C|C]; cbn [andb].
  - destruct (Nat.eqb_spec nd 0) as [->|D]; [split; [intros _; split; [tauto|split; [tauto|lia]]|intros _; lia]|].
    replace (ne =? 0)%nat with false by (symmetry; apply Nat.eqb_neq; lia). rewrite andb_false_r.
    split; [discriminate|]. intros (_ & _ & X). lia.
  - split; [|intros (X & Y & _); assert (0 < ne)%nat by (apply A'; auto); lia].
    destruct ((0 <? nd)%nat && (ne =? 0)%nat); [|discriminate]. intros X. apply Z.ltb_lt in X. lia.
Qed.
Lemma pattern_neg l q : (detect_escape_pattern l q q <? 0)%Z = true <-> Adjacent q q l.
Proof.
  unfold detect_escape_pattern. destruct (escape_counts_ok q q l) as (A & B).
  destruct (escape_counts l q q) as (ne, nd). cbn [fst snd] in *. rewrite <- B.
  assert (E : ne = 0%nat) by (destruct ne; [reflexivity|destruct A as (A & _); destruct (A ltac:(lia)); congruence]).
  subst ne. change (0 <? 0)%nat with false. cbn [andb]. rewrite Nat.eqb_refl, andb_true_r.
  destruct (Nat.ltb_spec 0 nd) as [C|C].
  - split; [intros _; exact C|intros _; apply Z.ltb_lt; lia].
  - split; [discriminate|lia].
Qed.

Lemma boost_ok d buf base b : Is base b -> 0 <= b <= 1 ->
  exists s, Boosted (quote_char d) (escape_char d) (double_quote d) buf b s /\
    0 <= s <= literal 12 10 /\
    Is (if negb (quote_char d =? 0)%N then
          let esc := if double_quote d then 0%N else escape_char d in
          if negb (esc =? 0)%N then
            let s := detect_escape_pattern buf (quote_char d) esc in
            if (0 <? s)%Z && negb (double_quote d) then fmul base lit_1_2
            else if (s <? 0)%Z && double_quote d then fmul base lit_1_2
            else base
          else if double_quote d then
            if (detect_escape_pattern buf (quote_char d) (quote_char d) <? 0)%Z
            then fmul base lit_1_1 else base
          else base
        else base) s.
Proof.
  intros X B. cbv zeta.
  assert (L1 : Is lit_1_1 (literal 11 10)) by (apply is_lit; lia).
  assert (L2 : Is lit_1_2 (literal 12 10)) by (apply is_lit; lia).
  assert (B1 := lit_2 11 10 ltac:(lia) ltac:(lia) ltac:(lia)).
  assert (B2 := lit_2 12 10 ltac:(lia) ltac:(lia) ltac:(lia)).
  assert (O : 1 <= literal 12 10).
  { unfold literal. rewrite <- rnd_1. apply rnd_le. lra. }
  assert (M : forall x l, Is x l -> 0 <= l <= 2 -> l <= literal 12 10 ->
    Is (fmul base x) (rnd (b * l)) /\ 0 <= rnd (b * l) <= literal 12 10).
  { intros x l Xl (U & V) W. assert (0 <= b * l) by (apply Rmult_le_pos; lra).
    assert (b * l <= l) by (rewrite <- (Rmult_1_l l) at 2; apply Rmult_le_compat_r; lra).
    split; [apply is_mul; auto; rewrite Rabs_pos_eq; lra|]. split; [rewrite <- rnd_0; apply rnd_le; lra|].
    apply Rle_trans with l; [|exact W]. rewrite <- (Is_rnd _ _ Xl) at 2. apply rnd_le. assumption. }
  destruct (M _ _ L2 B2 ltac:(lra)) as (M2 & M2').
  destruct (M _ _ L1 B1 (lit_mono 11 12 10 ltac:(lia) ltac:(lia))) as (M1 & M1'). clear M.
  unfold Boosted, EscapesSeen, DoublesSeen.
  destruct (N.eqb_spec (quote_char d) 0) as [Q|Q]; cbn [negb].
  { exists b. split; [right; right; tauto|]. split; [lra|exact X]. }
  destruct (double_quote d) eqn:D.
  - cbn [N.eqb negb]. destruct (detect_escape_pattern buf (quote_char d) (quote_char d) <? 0)%Z eqn:P.
    + apply pattern_neg in P. eexists. split; [right; left; split; [auto|reflexivity]|]. split; assumption.
    + exists b. split; [|split; [lra|exact X]]. right; right. split; [intros (_ & H & _); discriminate|].
      split; [|reflexivity]. intros (_ & _ & H). apply pattern_neg in H. congruence.
  - destruct (N.eqb_spec (escape_char d) 0) as [E|E]; cbn [negb].
    + exists b. split; [right; right; split; [tauto|split; [intros (_ & H & _); discriminate|reflexivity]]|].
      split; [lra|exact X].
    + rewrite andb_true_r, andb_false_r.
      destruct (0 <? detect_escape_pattern buf (quote_char d) (escape_char d))%Z eqn:P.
      * apply pattern_pos in P. eexists. split; [left; split; [tauto|reflexivity]|]. split; assumption.
      * exists b. split; [|split; [lra|exact X]]. right; right.
        split; [|split; [intros (_ & H & _); discriminate|reflexivity]].
        intros (_ & _ & _ & H). apply pattern_pos in H. congruence.
Qed.

(** ** pattern and type scores *)
Local Open Scope nat_scope.
Lemma fold_max_spec l : forall m, let x := fold_left (fun m (e : nat * nat) => Nat.max m (snd e)) l m in
  m <= x /\ (forall e, In e l -> snd e <= x) /\ (x = m \/ exists e, In e l /\ snd e = x).
Proof.
  induction l as [|a l IH]; intros m; cbn [fold_left].
  - split; [lia|]. split; [intros e []|auto].
  - destruct (IH (Nat.max m (snd a))) as (A & B & C). split; [lia|]. split.
    + intros e [<-|I]; [lia|auto].
    + destruct C as [C|(e & I & E)]; [|right; exists e; split; [right; exact I|exact E]].
      destruct (Nat.max_spec m (snd a)) as [(H & E)|(H & E)].
      * right. exists a. split; [left; reflexivity|]. rewrite C, E. reflexivity.
      * left. rewrite C, E. reflexivity.
Qed.
Lemma top_freq counts m : Mode m counts ->
  fold_left (fun m (e : nat * nat) => Nat.max m (snd e)) (count_freq counts) 0 = count_occ Nat.eq_dec counts m.
Proof.
  intros (I & H). destruct (fold_max_spec (count_freq counts) 0) as (_ & B & C). cbv zeta in *.
  assert (P : 0 < count_occ Nat.eq_dec counts m) by (apply count_occ_In; exact I).
  assert (Im : In (m, count_occ Nat.eq_dec counts m) (count_freq counts)) by (apply count_freq_ok; auto).
  apply B in Im. cbn [snd] in Im.
  destruct C as [C|((k, n) & Ik & E)]; [lia|]. cbn [snd] in E. apply count_freq_ok in Ik.
  destruct Ik as (Ek & _). specialize (H k). lia.
Qed.

Lemma filter_le {A} (f : A -> bool) l : length (filter f l) <= length l.
Proof. induction l as [|x l IH]; cbn [filter length]; [lia|]. destruct (f x); cbn [length]; lia. Qed.

Lemma join_long sep raw : length raw <= S (length (join sep raw)).
Proof.
  induction raw as [|f [|g r] IH]; cbn [length]; [lia|lia|].
  change (join sep (f :: g :: r)) with (f ++ sep :: join sep (g :: r)).
  rewrite app_length. cbn [length] in *. lia.
Qed.
Lemma fields_le d row : row <> [] -> 0 < length (extract_fields d row) <= S (length row).
Proof.
  intros NE. destruct (field_count d row _ NE eq_refl) as (raw & E & L & _).
  rewrite <- L. split; [|rewrite <- E; apply join_long].
  destruct raw; [cbn [join] in E; congruence|cbn [length]; lia].
Qed.

Fixpoint total (d : dialect) (rows : list bytes) : nat :=
  match rows with [] => 0 | r :: t => length (extract_fields d r) + total d t end.
Lemma total_flat d rows : length (flat_map (extract_fields d) rows) = total d rows.
Proof. induction rows as [|r t IH]; [reflexivity|]. cbn [flat_map total]. rewrite app_length, IH. reflexivity. Qed.

Lemma total_bound d buf : forall l low,
  (forall s e, In (s, e) l -> low <= s /\ s < e /\ e <= length buf) ->
  (forall i j p q, i < j -> nth_error l i = Some p -> nth_error l j = Some q -> snd p < fst q) ->
  low <= S (length buf) ->
  total d (map (fun r => slice (fst r) (snd r) buf) l) + low <= S (length buf).
Proof.
  induction l as [|(s, e) l IH]; intros low H O L; [cbn [map total]; lia|].
  cbn [map total fst snd]. destruct (H s e (or_introl eq_refl)) as (A & B & C).
  assert (NE : slice s e buf <> []) by (apply slice_nonempty; assumption).
  destruct (fields_le d _ NE) as (_ & F).
  assert (SL : length (slice s e buf) = e - s) by (unfold slice; rewrite firstn_length, skipn_length; lia).
  assert (G : total d (map (fun r => slice (fst r) (snd r) buf) l) + S e <= S (length buf)).
  { apply IH; [| |lia].
    - intros s' e' I. destruct (H s' e' (or_intror I)) as (A' & B' & C'). split; [|auto].
      apply In_nth_error in I. destruct I as (j & I).
      specialize (O 0 (S j) (s, e) (s', e') ltac:(lia) eq_refl I). cbn [fst snd] in O. lia.
    - intros i j p q Lt P Q. apply (O (S i) (S j)); [lia|exact P|exact Q]. }
  lia.
Qed.
Lemma rows_total o d buf : 0 < max_rows o -> total d (row_texts o d buf) <= S (length buf).
Proof.
  intros H. destruct (rows_facts o d buf H) as (_ & A & B & _).
  pose proof (total_bound d buf (find_rows o d buf) 0) as T. rewrite Nat.add_0_r in T.
  apply T; [|exact B|lia]. intros s e I. destruct (A s e I) as (X & Y & _). lia.
Qed.
Lemma rows_nonempty o d buf r : 0 < max_rows o -> In r (row_texts o d buf) -> r <> [].
Proof.
  intros H I. unfold row_texts in I. apply in_map_iff in I. destruct I as ((s, e) & <- & I).
  destruct (rows_bounds o d buf H s e I). apply slice_nonempty; assumption.
Qed.
Lemma rows_count o d buf : 0 < max_rows o -> length (row_texts o d buf) <= total d (row_texts o d buf).
Proof.
  intros H. assert (N : forall r, In r (row_texts o d buf) -> r <> []) by (intros; eapply rows_nonempty; eauto).
  induction (row_texts o d buf) as [|r t IH]; [cbn; lia|]. cbn [length total].
  assert (r <> []) by (apply N; left; reflexivity).
  destruct (fields_le d r H0). specialize (IH ltac:(intros; apply N; right; assumption)). lia.
Qed.

(** The rows whose cells are looked at for the type score. *)
Definition type_rows (rows : list bytes) : list bytes := if 1 <? length rows then skipn 1 rows else rows.
Definition type_cells (o : options) (d : dialect) (buf : bytes) : list bytes :=
  flat_map (extract_fields d) (type_rows (row_texts o d buf)).

Lemma total_skip d rows : total d (type_rows rows) <= total d rows.
Proof. unfold type_rows. destruct (1 <? length rows); [|lia]. destruct rows; cbn [skipn total]; lia. Qed.
Lemma cells_pos o d buf : 0 < max_rows o -> row_texts o d buf <> [] -> 0 < length (type_cells o d buf).
Proof.
  intros H NE. assert (N : forall r, In r (row_texts o d buf) -> r <> []) by (intros; eapply rows_nonempty; eauto).
  unfold type_cells. rewrite total_flat. unfold type_rows.
  destruct (row_texts o d buf) as [|a [|b t]]; [congruence| |]; cbn [length Nat.ltb Nat.leb skipn total].
  - destruct (fields_le d a); [apply N; left; reflexivity|lia].
  - destruct (fields_le d b); [apply N; right; left; reflexivity|lia].
Qed.

Local Open Scope R_scope.
Lemma type_ok o d buf : (0 < max_rows o)%nat -> (Z.of_nat (length buf) < 2 ^ 53)%Z -> row_texts o d buf <> [] ->
  let t := type_part (length (filter typed_cell (type_cells o d buf))) (length (type_cells o d buf)) in
  Is (type_score o d buf) t /\ 0 <= t <= 1.
Proof.
  intros H L NE. cbv zeta. unfold type_score, type_part.
  pose proof (cells_pos o d buf H NE) as P.
  assert (U : (length (type_cells o d buf) <= S (length buf))%nat).
  { unfold type_cells. rewrite total_flat. pose proof (total_skip d (row_texts o d buf)).
    pose proof (rows_total o d buf H). lia. }
  unfold type_cells in *. unfold type_rows in *. cbv zeta.
  set (body := if (1 <? length (row_texts o d buf))%nat then skipn 1 (row_texts o d buf) else row_texts o d buf) in *.
  destruct (row_texts o d buf) as [|r0 rs]; [congruence|].
  set (cells := flat_map (extract_fields d) body) in *.
  destruct cells as [|c0 cs]; [cbn [length] in P; lia|]. set (cl := c0 :: cs) in *.
  destruct (is_part (length (filter typed_cell cl)) (length cl) (filter_le _ _) P ltac:(lia)) as (I & B).
  assert (B1 := lit_bounds 1 10000000000 ltac:(lia) ltac:(lia) ltac:(lia)).
  split; [apply is_max; [apply is_lit; lia|exact I]|apply max_01; assumption].
Qed.

Lemma count_occ_le (l : list nat) m : (count_occ Nat.eq_dec l m <= length l)%nat.
Proof. induction l as [|x l IH]; [cbn; lia|]. cbn [count_occ length]. destruct (Nat.eq_dec x m); lia. Qed.

Lemma score_ok order o d buf : (forall t, Permutation (order t) t) -> (0 < max_rows o)%nat ->
  (Z.of_nat (length buf) < 2 ^ 53)%Z ->
  let c := score_dialect order o d buf in
  let rows := row_texts o d buf in
  let counts := map (fun r => length (extract_fields d r)) rows in
  ((length rows < min_rows o)%nat \/ rows = [] -> Is (cand_score c) 0) /\
  ((min_rows o <= length rows)%nat -> rows <> [] -> exists b s,
     let p := part (count_occ Nat.eq_dec counts (cand_columns c)) (length rows) in
     let t := type_part (length (filter typed_cell (type_cells o d buf))) (length (type_cells o d buf)) in
     Mode (cand_columns c) counts /\
     Is (cand_pattern c) p /\ Is (cand_type c) t /\
     BaseScore p t (cand_columns c) b /\ 0 <= b <= 1 /\
     Boosted (quote_char d) (escape_char d) (double_quote d) buf b s /\ 0 <= s <= literal 12 10 /\
     Is (cand_score c) s).
Proof.
  intros HO HM HL. cbv zeta. unfold score_dialect, pattern_score. cbv zeta. split.
  - intros [H|H].
    + apply Nat.ltb_lt in H. rewrite H. exact is_0.
    + rewrite H. cbn [length map]. destruct (0 <? min_rows o)%nat; exact is_0.
  - intros G NE. replace (length (row_texts o d buf) <? min_rows o)%nat with false
      by (symmetry; apply Nat.ltb_ge; exact G).
    destruct (type_ok o d buf HM HL NE) as (T & T1).
    pose proof (rows_count o d buf HM) as RC. pose proof (rows_total o d buf HM) as RT.
    set (counts := map (fun r => length (extract_fields d r)) (row_texts o d buf)) in *.
    assert (LC : length counts = length (row_texts o d buf)) by (unfold counts; apply map_length).
    assert (NC : counts <> []) by (destruct (row_texts o d buf); [congruence|discriminate]).
    pose proof (modal_mode counts (order (count_freq counts)) NC (HO _)) as MM.
    pose proof (top_freq counts _ MM) as TF.
    destruct counts as [|c0 cs]; [congruence|]. set (cn := c0 :: cs) in *.
    cbn [cand_columns cand_pattern cand_type cand_score].
    set (cols := fst (modal (order (count_freq cn)))) in *.
    rewrite TF. rewrite <- LC.
    destruct (is_part (count_occ Nat.eq_dec cn cols) (length cn) (count_occ_le _ _) ltac:(unfold cn; cbn [length]; lia) ltac:(lia)) as (P & P1).
    destruct (base_ok _ _ _ _ cols P T P1 T1) as (b & B & B1 & IB).
    destruct (boost_ok d buf _ b IB B1) as (s & X & X1 & IS).
    exists b, s. split; [exact MM|]. split; [exact P|]. split; [exact T|]. split; [exact B|].
    split; [exact B1|]. split; [exact X|]. split; [exact X1|exact IS].
Qed.
