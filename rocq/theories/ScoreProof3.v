From Coq Require Import Reals SpecFloat Permutation Lra.
From Flocq Require Import Core.
From Verif Require Import Base FloatSpec FloatProof ScoreSpec DialectSpec DialectModel DialectObs
  DialectProof DialectProof2 DialectProof3 DialectProof4 DialectProof5 DialectProof6 ScoreProof ScoreProof2.

Definition text_cell (f : bytes) : bool := match infer_cell_type f with STRING => true | _ => false end.
Definition value_cell (f : bytes) : bool :=
  match infer_cell_type f with STRING | EMPTY => false | _ => true end.

Lemma filled_len f : negb (length f =? 0) = filled f.
Proof. destruct f; reflexivity. Qed.

Lemma header_ok o d buf : 0 < max_rows o -> (Z.of_nat (length buf) < 2 ^ 52)%Z ->
  detect_header o d buf = true <->
  exists h r rest, row_texts o d buf = h :: r :: rest /\
    LooksLikeHeader text_cell value_cell (extract_fields d h) (extract_fields d r).
Proof.
  intros HM HL. unfold detect_header.
  pose proof (rows_total o d buf HM) as RT.
  assert (NEr : forall r, In r (row_texts o d buf) -> r <> []) by (intros; eapply rows_nonempty; eauto).
  destruct (row_texts o d buf) as [|h [|r rest]] eqn:E.
  - split; [discriminate|]. intros (h & r & rest & X & _). discriminate.
  - split; [discriminate|]. intros (h' & r & rest & X & _). discriminate.
  - assert (Nh : h <> []) by (apply NEr; left; reflexivity).
    assert (Nr : r <> []) by (apply NEr; right; left; reflexivity).
    destruct (fields_le d h Nh) as (Fh & _). destruct (fields_le d r Nr) as (Fr & _).
    cbn [total] in RT. cbv zeta.
    replace (length (extract_fields d h) =? 0) with false by (symmetry; apply Nat.eqb_neq; lia).
    replace (length (extract_fields d r) =? 0) with false by (symmetry; apply Nat.eqb_neq; lia).
    cbn [orb].
    set (hf := extract_fields d h) in *. set (df := extract_fields d r) in *.
    replace (filter (fun f => (match infer_cell_type f with STRING => true | _ => false end) && negb (length f =? 0)) hf)
      with (filter (fun f => text_cell f && filled f) hf)
      by (apply filter_ext; intros f; rewrite filled_len; reflexivity).
    replace (filter (fun f : list byte => negb (length f =? 0)) hf) with (filter filled hf)
      by (apply filter_ext; intros f; rewrite filled_len; reflexivity).
    replace (filter (fun f => match infer_cell_type f with STRING => false | EMPTY => false | _ => true end) df)
      with (filter value_cell df) by (apply filter_ext; reflexivity).
    assert (SN : length (filter (fun f => text_cell f && filled f) hf) <= length (filter filled hf)).
    { clear. induction hf as [|f l IH]; [cbn; lia|]. cbn [filter].
      destruct (text_cell f), (filled f); cbn [andb length]; lia. }
    assert (NL : length (filter filled hf) <= length hf) by apply filter_le.
    assert (M : flt lit_0_5 (if 0 <? length (filter filled hf)
        then fdiv (of_size (length (filter (fun f => text_cell f && filled f) hf))) (of_size (length (filter filled hf)))
        else lit_0) = true <-> majority (length (filter (fun f => text_cell f && filled f) hf)) (length (filter filled hf))).
    { destruct (Nat.ltb_spec 0 (length (filter filled hf))) as [C|C]; [apply half_rnd; lia|].
      unfold majority. split; [discriminate|lia]. }
    assert (V : (0 <? length (filter value_cell df)) = true <-> exists f, In f df /\ value_cell f = true).
    { rewrite Nat.ltb_lt. split.
      - intros P. destruct (filter value_cell df) as [|f l] eqn:Q; [cbn in P; lia|].
        exists f. apply filter_In. rewrite Q. left; reflexivity.
      - intros (f & I). apply filter_In in I. destruct (filter value_cell df); [destruct I|cbn; lia]. }
    assert (W : (length (filter (fun f => text_cell f && filled f) hf) =? length hf) = true <->
      forall f, In f hf -> text_cell f = true /\ filled f = true).
    { rewrite Nat.eqb_eq. clear. induction hf as [|f l IH]; [split; [intros _ f []|reflexivity]|].
      cbn [filter]. pose proof (filter_le (fun f => text_cell f && filled f) l) as L.
      destruct (text_cell f) eqn:T, (filled f) eqn:F; cbn [andb length].
      + split.
        * intros X. injection X as X. intros g [<-|I]; [auto|]. apply IH; assumption.
        * intros X. f_equal. apply IH. intros g I. apply X. right; exact I.
      + split; [intros X; lia|]. intros X. destruct (X f (or_introl eq_refl)). congruence.
      + split; [intros X; lia|]. intros X. destruct (X f (or_introl eq_refl)). congruence.
      + split; [intros X; lia|]. intros X. destruct (X f (or_introl eq_refl)). congruence. }
    rewrite andb_true_iff, orb_true_iff, M, V, W. unfold LooksLikeHeader. split.
    + intros H. exists h, r, rest. split; [reflexivity|]. exact H.
    + intros (h' & r' & rest' & X & H). injection X as -> -> _. exact H.
Qed.

Lemma header_detect sort order o buf : 0 < max_rows o -> (Z.of_nat (length buf) < 2 ^ 52)%Z ->
  let r := detect sort order o buf in
  let d := res_dialect r in
  (flt lit_0 (res_confidence r) = false -> res_header r = false) /\
  (flt lit_0 (res_confidence r) = true -> exists off len ch n, let sample := firstn len (skipn off buf) in
     skip_comment_lines o buf = (off, ch, n) /\ len = sample_len o (skipn off buf) /\
     (res_header r = true <->
      exists s e s2 e2 rest, find_rows o d sample = (s, e) :: (s2, e2) :: rest /\
        LooksLikeHeader text_cell value_cell (extract_fields d (slice s e sample)) (extract_fields d (slice s2 e2 sample)))).
Proof.
  intros HM HL. cbv zeta. unfold detect. destruct buf as [|b0 buf0].
  { split; [reflexivity|discriminate]. }
  set (buf := b0 :: buf0) in *. destruct (skip_comment_lines o buf) as ((off, ch), n) eqn:SK.
  destruct (skipn off buf) as [|x data0] eqn:SD; [split; [reflexivity|discriminate]|]. rewrite <- SD.
  set (data := skipn off buf) in *. set (sample := firstn (sample_len o data) data).
  destruct (sort (map (fun d => score_dialect order o d sample) (generate_candidates o))) as [|best others];
    [split; [reflexivity|discriminate]|].
  destruct (flt lit_0 (cand_score best)) eqn:P; [|split; [reflexivity|discriminate]].
  cbn [res_confidence res_header res_dialect]. split; [rewrite P; discriminate|]. intros _.
  exists off, (sample_len o data), ch, n. fold data. fold sample. split; [reflexivity|]. split; [reflexivity|].
  set (d := set_line_ending _ _ _).
  rewrite header_ok; [|exact HM|unfold sample, data; rewrite firstn_length, skipn_length; lia].
  unfold row_texts. split.
  - intros (h & r & rest & E & H). destruct (find_rows o d sample) as [|(s, e) [|(s2, e2) l]]; try discriminate.
    cbn [map fst snd] in E. injection E as <- <- _. exists s, e, s2, e2, l. split; [reflexivity|exact H].
  - intros (s & e & s2 & e2 & rest & E & H). rewrite E. cbn [map fst snd]. do 3 eexists. split; [reflexivity|exact H].
Qed.

(** ** warnings *)
Lemma warning_ok sort order o buf : (forall l, Permutation (sort l) l) -> (forall t, Permutation (order t) t) ->
  0 < max_rows o -> (Z.of_nat (length buf) < 2 ^ 53)%Z ->
  let r := detect sort order o buf in
  (res_warning r = EmptyInput <-> buf = []) /\
  (res_warning r = OnlyComments <-> buf <> [] /\ exists ch n off, skip_comment_lines o buf = (off, ch, n) /\ skipn off buf = []) /\
  (res_warning r = NotDetected <-> Is (res_confidence r) 0%R /\ buf <> [] /\
     exists ch n off, skip_comment_lines o buf = (off, ch, n) /\ skipn off buf <> []) /\
  (res_warning r = Ambiguous <->
     exists best second rest x y, res_candidates r = best :: second :: rest /\
       Is (cand_score best) x /\ Is (cand_score second) y /\ (0 < x /\ rnd (literal 9 10 * x) < y)%R) /\
  res_warning r <> NotOpened.
Proof.
  intros HS HO HM HL. cbv zeta. unfold detect. destruct buf as [|b0 buf0].
  { cbn [res_warning res_candidates res_confidence]. split; [tauto|]. split; [split; [discriminate|intros (H & _); congruence]|].
    split; [split; [discriminate|intros (_ & H & _); congruence]|].
    split; [split; [discriminate|intros (b & s & l & x & y & E & _); discriminate]|discriminate]. }
  set (buf := b0 :: buf0) in *. destruct (skip_comment_lines o buf) as ((off, ch), n) eqn:SK.
  destruct (skipn off buf) as [|x0 data0] eqn:SD.
  { cbn [res_warning res_candidates res_confidence]. split; [split; discriminate|].
    split; [split; [intros _; split; [discriminate|]; exists ch, n, off; auto|reflexivity]|].
    split; [split; [discriminate|]|].
    { intros (_ & _ & c' & n' & o' & E & H). injection E as <- <- <-. congruence. }
    split; [split; [discriminate|intros (b & s & l & x & y & E & _); discriminate]|discriminate]. }
  rewrite <- SD.
  set (data := skipn off buf) in *. set (sample := firstn (sample_len o data) data).
  assert (SL : (Z.of_nat (length sample) < 2 ^ 53)%Z) by (unfold sample, data; rewrite firstn_length, skipn_length; lia).
  assert (ND : data <> []) by (rewrite SD; discriminate).
  assert (IA : forall c, In c (sort (map (fun d => score_dialect order o d sample) (generate_candidates o))) ->
    exists x, Is (cand_score c) x /\ (0 <= x <= literal 12 10)%R).
  { intros c I. apply (Permutation_in c (HS _)) in I. apply in_map_iff in I. destruct I as (d & <- & _).
    destruct (score_ok order o d sample HO HM SL) as (Z0 & Z1). cbv zeta in *.
    assert (LP : (0 <= literal 12 10)%R) by (apply (lit_2 12 10); lia).
    destruct (Nat.lt_ge_cases (length (row_texts o d sample)) (min_rows o)) as [C|C].
    - exists 0%R. split; [auto|lra].
    - destruct (row_texts o d sample) eqn:E.
      + exists 0%R. split; [auto|lra].
      + destruct (Z1 C) as (b & s & _ & _ & _ & _ & _ & _ & X1 & X2); [discriminate|]. exists s. auto. }
  assert (OC : forall w : warning, w = OnlyComments -> ~ (buf <> [] /\ exists c n' o', (off, ch, n) = (o', c, n') /\ skipn o' buf = [])).
  { intros _ _ (_ & c' & n' & o' & E & H). injection E as <- _ _. exact (ND H). }
  assert (YD : exists c n' o', (off, ch, n) = (o', c, n') /\ skipn o' buf <> []) by (exists ch, n, off; split; [reflexivity|exact ND]).
  destruct (sort (map (fun d => score_dialect order o d sample) (generate_candidates o))) as [|best others].
  { cbn [res_warning res_candidates res_confidence]. split; [split; discriminate|].
    split; [split; [discriminate|intros H; exfalso; exact (OC _ eq_refl H)]|].
    split; [split; [intros _; split; [exact is_0|split; [discriminate|exact YD]]|reflexivity]|].
    split; [split; [discriminate|intros (b & s & l & x & y & E & _); discriminate]|discriminate]. }
  destruct (IA best (or_introl eq_refl)) as (x & X & X1).
  destruct (flt lit_0 (cand_score best)) eqn:P.
  - apply (is_lt _ _ _ _ is_0 X) in P. cbn [res_warning res_candidates res_confidence].
    assert (NZ : ~ (Is (cand_score best) 0%R /\ buf <> [] /\ exists c n' o', (off, ch, n) = (o', c, n') /\ skipn o' buf <> [])).
    { intros (I0 & _). destruct X as (_ & X & _). destruct I0 as (_ & I0 & _). lra. }
    destruct others as [|second rest].
    { split; [split; discriminate|]. split; [split; [discriminate|intros H; exfalso; exact (OC _ eq_refl H)]|].
      split; [split; [discriminate|intros H; exfalso; exact (NZ H)]|].
      split; [split; [discriminate|intros (b & s & l & u & y & E & _); discriminate]|discriminate]. }
    destruct (IA second (or_intror (or_introl eq_refl))) as (y & Y & Y1).
    assert (L9 : Is lit_0_9 (literal 9 10)) by (apply is_lit; lia).
    assert (B9 := lit_bounds 9 10 ltac:(lia) ltac:(lia) ltac:(lia)).
    assert (L12 := lit_2 12 10 ltac:(lia) ltac:(lia) ltac:(lia)).
    assert (MU : Is (fmul lit_0_9 (cand_score best)) (rnd (literal 9 10 * x))).
    { apply is_mul; auto. rewrite Rabs_pos_eq by (apply Rmult_le_pos; lra).
      apply Rle_trans with (1 * x)%R; [apply Rmult_le_compat_r; lra|lra]. }
    pose proof (is_lt _ _ _ _ MU Y) as G. unfold flt.
    destruct (SFltb (fmul lit_0_9 (cand_score best)) (cand_score second)).
    + split; [split; discriminate|]. split; [split; [discriminate|intros H; exfalso; exact (OC _ eq_refl H)]|].
      split; [split; [discriminate|intros H; exfalso; exact (NZ H)]|].
      split; [|discriminate]. split; [|reflexivity]. intros _.
      exists best, second, rest, x, y. split; [reflexivity|]. split; [exact X|]. split; [exact Y|]. split; [exact P|]. apply G. reflexivity.
    + split; [split; discriminate|]. split; [split; [discriminate|intros H; exfalso; exact (OC _ eq_refl H)]|].
      split; [split; [discriminate|intros H; exfalso; exact (NZ H)]|].
      split; [|discriminate]. split; [discriminate|]. intros (b & s & l & u & v & E & U & V & _ & H).
      injection E as <- <- _. destruct X as (_ & <- & _). destruct Y as (_ & <- & _).
      destruct U as (_ & <- & _). destruct V as (_ & <- & _). apply G in H. discriminate.
  - apply (is_lt_false _ _ _ _ is_0 X) in P. cbn [res_warning res_candidates res_confidence].
    split; [split; discriminate|]. split; [split; [discriminate|intros H; exfalso; exact (OC _ eq_refl H)]|].
    split; [split; [intros _; split; [exact is_0|split; [discriminate|exact YD]]|reflexivity]|].
    split; [|discriminate]. split; [discriminate|]. intros (b & s & l & u & v & E & U & V & H & _).
    injection E as <- _. destruct X as (_ & <- & _). destruct U as (_ & <- & _). lra.
Qed.

(** the winner is nearly the best *)
Lemma winner_nearly_best sort order o buf : (forall t, Permutation (order t) t) -> 0 < max_rows o ->
  (Z.of_nat (length buf) < 2 ^ 53)%Z -> (forall l, Permutation (sort l) l) ->
  let r := detect sort order o buf in
  Winner cand_lt (res_candidates r) (res_candidates r) ->
  forall best rest c x y, res_candidates r = best :: rest -> In c (res_candidates r) ->
    Is (cand_score best) x -> Is (cand_score c) y -> (0 <= x <= 2)%R -> (0 <= y <= 2)%R ->
    (rnd (y - x) <= literal 1 1000000000)%R.
Proof.
  intros HO HM HL HS r W best rest c x y E I X Y X1 Y1. specialize (W best rest E c I).
  destruct (Rle_or_lt (rnd (y - x)) (literal 1 1000000000)) as [H|H]; [exact H|].
  destruct (rank_ok c best y x Y X Y1 X1) as (A & _). rewrite (A H) in W. discriminate.
Qed.

Lemma is_valid_ok d : is_valid d = true <->
  delimiter d <> quote_char d /\ (delimiter d = 9%N \/ (32 <= delimiter d <= 126)%N) /\
  (32 <= quote_char d <= 126)%N.
Proof.
  unfold is_valid. destruct (N.eqb_spec (delimiter d) (quote_char d)); [split; [discriminate|tauto]|].
  destruct (N.eqb_spec (delimiter d) 10); cbn [orb]; [split; [discriminate|lia]|].
  destruct (N.eqb_spec (delimiter d) 13); cbn [orb]; [split; [discriminate|lia]|].
  destruct (N.eqb_spec (quote_char d) 10); cbn [orb]; [split; [discriminate|lia]|].
  destruct (N.eqb_spec (quote_char d) 13); cbn [orb]; [split; [discriminate|lia]|].
  destruct (N.eqb_spec (delimiter d) 9); cbn [negb andb].
  - destruct (N.ltb_spec (quote_char d) 32); cbn [orb]; [split; [discriminate|lia]|].
    destruct (N.ltb_spec 126 (quote_char d)); split; try discriminate; try reflexivity; lia.
  - destruct (N.ltb_spec (delimiter d) 32); cbn [orb]; [split; [discriminate|lia]|].
    destruct (N.ltb_spec 126 (delimiter d)); [split; [discriminate|lia]|].
    destruct (N.ltb_spec (quote_char d) 32); cbn [orb]; [split; [discriminate|lia]|].
    destruct (N.ltb_spec 126 (quote_char d)); split; try discriminate; try reflexivity; lia.
Qed.
