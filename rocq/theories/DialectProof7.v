(** Date-times, and single detection runs. *)
From Coq Require Import SpecFloat Permutation.
From Verif Require Import Base DialectSpec DialectModel DialectObs DialectProof DialectProof2
  DialectProof3 DialectProof4 DialectProof5 DialectProof6.

Lemma find_none l x : ~ In x l -> find_char l x = None.
Proof.
  induction l as [|c l IH]; intros H; [reflexivity|]. cbn [find_char].
  destruct (N.eqb_spec c x) as [->|]; [exfalso; apply H; left; reflexivity|].
  rewrite IH; [reflexivity|]. intros I; apply H; right; exact I.
Qed.
Lemma find_at l x r : ~ In x l -> find_char (l ++ x :: r) x = Some (length l).
Proof.
  induction l as [|c l IH]; intros H; cbn [app find_char length].
  - rewrite N.eqb_refl. reflexivity.
  - destruct (N.eqb_spec c x) as [->|]; [exfalso; apply H; left; reflexivity|].
    rewrite IH; [reflexivity|]. intros I; apply H; right; exact I.
Qed.

Lemma date_chars d : DateText d -> length d = 10 /\ forall c, In c d -> Digit c \/ c = 45%N \/ c = 47%N.
Proof.
  intros (sep & a & b & c & HS & -> & Da & Db & Dc & HL). split.
  - rewrite !app_length. cbn [length]. lia.
  - intros x I. unfold Digits in *. rewrite Forall_forall in *.
    repeat (apply in_app_or in I; destruct I as [I|I]);
      try (left; auto; fail); destruct I as [<-|[]]; destruct HS as [->| ->]; auto.
Qed.
Lemma time_chars t : TimeText t -> (length t = 5 \/ length t = 8) /\ forall c, In c t -> Digit c \/ c = 58%N.
Proof.
  intros (a & b & Da & Db & La & Lb & H). unfold Digits in *. rewrite Forall_forall in *.
  destruct H as [->|(c & Dc & Lc & ->)].
  - rewrite !app_length. cbn [length]. split; [lia|]. intros x I.
    repeat (apply in_app_or in I; destruct I as [I|I]); auto. destruct I as [<-|[]]; auto.
  - rewrite Forall_forall in Dc.
    rewrite !app_length. cbn [length]. split; [lia|]. intros x I.
    repeat (apply in_app_or in I; destruct I as [I|I]); auto; destruct I as [<-|[]]; auto.
Qed.
Lemma zone_chars z : ZoneText z ->
  forall c, In c z -> Digit c \/ c = 90%N \/ c = 43%N \/ c = 45%N \/ c = 58%N.
Proof.
  intros [->|[->|(sg & h & m & HS & Dh & _ & Dm & _ & HZ)]] c I.
  - destruct I.
  - destruct I as [<-|[]]; auto.
  - unfold Digits in *. rewrite Forall_forall in *.
    destruct HZ as [->| ->]; destruct I as [<-|I]; try (destruct HS as [->| ->]; auto; fail);
      apply in_app_or in I; destruct I as [I|I]; auto. destruct I as [<-|I]; auto.
Qed.

Lemma no_white_trimmed l : (forall c r, l = c :: r -> ~ White c) -> (forall c r, l = r ++ [c] -> ~ White c) ->
  Trimmed White l l.
Proof. intros A B. exists [], []. rewrite app_nil_r. repeat split; auto. Qed.

Lemma strip_zone_long t z : TimeText t -> ZoneText z -> 5 <= length (strip_zone (t ++ z)).
Proof.
  intros T Z. destruct (time_chars t T) as (L & C).
  assert (N1 : ~ In 43%N t) by (intros I; destruct (C _ I) as [D|D]; [unfold Digit in D; lia|discriminate]).
  assert (N2 : ~ In 45%N t) by (intros I; destruct (C _ I) as [D|D]; [unfold Digit in D; lia|discriminate]).
  assert (N3 : forall a, last (a :: t) 0%N = 90%N -> False \/ t = []).
  { intros a E. destruct t as [|b t0]; [right; reflexivity|]. left.
    assert (I : In 90%N (b :: t0)).
    { rewrite <- E. cbn [last]. clear. revert b. induction t0 as [|x t0 IH]; intros b; [left; reflexivity|].
      cbn [last]. right. apply IH. }
    destruct (C _ I) as [D|D]; [unfold Digit in D; lia|discriminate]. }
  assert (NE : t <> []) by (intros ->; cbn [length] in L; lia).
  assert (LT : (last t 0 =? 90)%N = false).
  { apply N.eqb_neq. intros E. destruct (N3 0%N) as [[]|X]; [|contradiction].
    cbn [last]. destruct t; [contradiction|exact E]. }
  destruct Z as [->|[->|(sg & h & m & HS & Dh & Lh & Dm & Lm & HZ)]].
  - rewrite app_nil_r. unfold strip_zone. destruct t as [|a t0]; [contradiction|].
    rewrite LT, (find_none _ _ N1), (find_none _ _ N2). lia.
  - unfold strip_zone. destruct (t ++ [90%N]) as [|a t0] eqn:E; [destruct t; discriminate|].
    rewrite <- E. rewrite last_last, N.eqb_refl, removelast_last.
    rewrite (find_none _ _ N1), (find_none _ _ N2). lia.
  - assert (LZ : (last (t ++ z) 0 =? 90)%N = false).
    { apply N.eqb_neq. intros E.
      assert (X : exists z0 y, z = z0 ++ [y] /\ Digit y).
      { destruct m as [|m1 [|m2 [|]]]; try discriminate.
        unfold Digits in Dm. rewrite Forall_forall in Dm.
        destruct HZ as [->| ->].
        - exists (sg :: h ++ [m1]), m2. split; [|apply Dm; right; left; reflexivity].
          cbn [app]. rewrite <- app_assoc. reflexivity.
        - exists (sg :: h ++ [58%N; m1]), m2. split; [|apply Dm; right; left; reflexivity].
          cbn [app]. rewrite <- app_assoc. reflexivity. }
      destruct X as (z0 & y & -> & Dy). rewrite app_assoc, last_last in E. subst y. unfold Digit in Dy. lia. }
    assert (X : exists z', z = sg :: z' /\ ~ In 43%N z').
    { unfold Digits in *. rewrite Forall_forall in *.
      assert (F : forall c, Digit c -> c <> 43%N) by (unfold Digit; lia).
      destruct HZ as [->| ->]; eexists; (split; [reflexivity|]); intros I; apply in_app_or in I;
        destruct I as [I|I]; try (eapply F; eauto; fail).
      destruct I as [I|I]; [discriminate|eapply F; eauto]. }
    destruct X as (z' & -> & NZ).
    unfold strip_zone. destruct (t ++ sg :: z') as [|a t0] eqn:E; [destruct t; discriminate|].
    rewrite <- E in *. rewrite LZ. destruct HS as [->| ->].
    + rewrite (find_at _ _ _ N1). destruct (Nat.ltb_spec 0 (length t)); [|lia].
      rewrite firstn_length, app_length. lia.
    + rewrite find_none. 2:{ intros I; apply in_app_or in I. destruct I as [I|[I|I]]; [auto|discriminate|auto]. }
      rewrite (find_at _ _ _ N2). destruct (Nat.ltb_spec 5 (length t));
        rewrite ?firstn_length, app_length; lia.
Qed.

Lemma chain_datetime fuel t : t <> [] -> Trimmed White t t -> ~ In t bool_words ->
  integer_shape t = false -> float_shape t = false -> date_shape t = false -> time_shape t = false ->
  infer_with fuel t = datetime_or_string fuel t.
Proof.
  intros NE T B I F D M. apply (trim_unique space White space_ok) in T. rewrite <- trim_spaces_trim in T.
  rewrite infer_chain, <- T. destruct t as [|c t]; [contradiction|].
  assert (BW : existsb (same_text (c :: t)) bool_words = false).
  { destruct (existsb (same_text (c :: t)) bool_words) eqn:E; [|reflexivity].
    apply bool_word_in in E. contradiction. }
  rewrite BW, I, F, D, M. reflexivity.
Qed.

Lemma datetime_complete d s t z : DateText d -> s = 84%N \/ s = 32%N -> TimeText t -> ZoneText z ->
  infer_cell_type (d ++ s :: t ++ z) = DATETIME.
Proof.
  intros D HS T Z. destruct (date_chars d D) as (Ld & Cd). destruct (time_chars t T) as (Lt & Ct).
  pose proof (zone_chars z Z) as Cz.
  set (cell := d ++ s :: t ++ z).
  assert (Lc : 16 <= length cell) by (unfold cell; rewrite app_length; cbn [length]; rewrite app_length; lia).
  assert (NW : forall c, In c (t ++ z) -> ~ White c).
  { intros c I. apply in_app_or in I. unfold White. destruct I as [I|I].
    - destruct (Ct c I) as [X|X]; [unfold Digit in X|]; lia.
    - destruct (Cz c I) as [X|X]; [unfold Digit in X|]; lia. }
  assert (TR : Trimmed White cell cell).
  { apply no_white_trimmed.
    - intros c r E. destruct d as [|c0 d0]; [discriminate|]. unfold cell in E. cbn [app] in E.
      injection E as -> _. destruct (Cd c (or_introl eq_refl)) as [X|X]; unfold White; [unfold Digit in X|]; lia.
    - intros c r E. apply NW.
      assert (N : t ++ z <> []) by (destruct t; [cbn [length] in Lt; lia|discriminate]).
      destruct (exists_last N) as (u & y & EU). unfold cell in E. rewrite EU in E.
      replace (d ++ s :: u ++ [y]) with ((d ++ s :: u) ++ [y]) in E by (rewrite <- app_assoc; reflexivity).
      apply app_inj_tail in E. destruct E as (_ & ->). rewrite EU. apply in_or_app. right. left. reflexivity. }
  assert (HI : In s cell) by (unfold cell; apply in_or_app; right; left; reflexivity).
  assert (B : ~ In cell bool_words).
  { intros I. assert (length cell <= 5); [|lia]. cbn [bool_words In] in I.
    repeat (destruct I as [<-|I]; [cbn [length]; lia|]). destruct I. }
  assert (FD : exists d0 dr, d = d0 :: dr /\ Digit d0).
  { destruct D as (sep & a & b & c & _ & -> & Da & _ & _ & HL).
    destruct a as [|d0 a]; [cbn [length] in HL; lia|]. inversion Da; subst. eexists; eexists; split; [reflexivity|assumption]. }
  assert (NUM : integer_shape cell = false /\ float_shape cell = false).
  { pose proof D as D'. destruct D' as (sep & a & b & c & HSP & E & Da & _ & _ & HL).
    unfold cell. rewrite E. rewrite <- app_assoc. cbn [app].
    apply not_numeric; auto.
    - intros ->. cbn [length] in HL. lia.
    - destruct HSP as [->| ->]; apply not_digit_lit; reflexivity.
    - destruct HSP as [->| ->]; discriminate.
    - destruct HSP as [->| ->]; discriminate.
    - destruct HSP as [->| ->]; discriminate. }
  destruct NUM as (NI & NF).
  assert (ND : date_shape cell = false) by (unfold date_shape; destruct (Nat.eqb_spec (length cell) 10); [lia|reflexivity]).
  assert (NT : time_shape cell = false).
  { unfold time_shape. destruct (Nat.eqb_spec (length cell) 5); [lia|]. destruct (Nat.eqb_spec (length cell) 8); [lia|]. reflexivity. }
  unfold infer_cell_type. rewrite chain_datetime; auto.
  2:{ intros E. rewrite E in Lc. cbn [length] in Lc. lia. }
  unfold datetime_or_string. cbv zeta. destruct (Nat.leb_spec 16 (length cell)); [|lia].
  assert (P : match find_char cell 84 with Some p => Some p | None => find_char cell 32 end = Some 10).
  { assert (Nd : forall x, x = 84%N \/ x = 32%N -> ~ In x d).
    { intros x Hx I. destruct (Cd x I) as [Q|Q]; [unfold Digit in Q|]; lia. }
    destruct HS as [->| ->].
    - unfold cell. rewrite find_at by (apply Nd; auto). rewrite Ld. reflexivity.
    - rewrite find_none.
      + unfold cell. rewrite find_at by (apply Nd; auto). rewrite Ld. reflexivity.
      + unfold cell. intros I. apply in_app_or in I. destruct I as [I|[I|I]]; [apply (Nd 84%N); auto|discriminate|].
        apply in_app_or in I. destruct I as [I|I].
        * destruct (Ct _ I) as [Q|Q]; [unfold Digit in Q|]; lia.
        * destruct (Cz _ I) as [Q|Q]; [unfold Digit in Q|]; lia. }
  rewrite P. change (8 <=? 10) with true. cbv iota.
  assert (F1 : firstn 10 cell = d).
  { unfold cell. rewrite <- Ld at 1. rewrite firstn_app, Nat.sub_diag, firstn_all, firstn_O, app_nil_r. reflexivity. }
  assert (F2 : skipn 11 cell = t ++ z).
  { unfold cell. replace 11 with (length (d ++ [s])) by (rewrite app_length, Ld; reflexivity).
    replace (d ++ s :: t ++ z) with ((d ++ [s]) ++ t ++ z) by (rewrite <- app_assoc; reflexivity).
    rewrite skipn_app, skipn_all, Nat.sub_diag. reflexivity. }
  rewrite F1, F2.
  destruct (length cell) as [|fuel] eqn:EL; [lia|].
  assert (TD : Trimmed White d d).
  { assert (ND' : forall c, In c d -> ~ White c).
    { intros c I. unfold White. destruct (Cd c I) as [Q|Q]; [unfold Digit in Q|]; lia. }
    apply no_white_trimmed.
    - intros c r ->. apply ND'. left; reflexivity.
    - intros c r ->. apply ND'. apply in_or_app. right. left. reflexivity. }
  destruct (classify fuel d d TD) as (_ & _ & _ & _ & X & _).
  replace (infer_with fuel d) with DATE by (symmetry; apply X; exact D).
  pose proof (strip_zone_long t z T Z) as LZ.
  destruct (Nat.leb_spec 5 (length (strip_zone (t ++ z)))); [|lia].
  destruct (infer_with fuel (strip_zone (t ++ z))); reflexivity.
Qed.

(** ---- one run ---- *)
Lemma detect_winner sort order o buf off ch n best :
  (forall t, Permutation (order t) t) ->
  skip_comment_lines o buf = (off, ch, n) -> skipn off buf <> [] ->
  let sample := firstn (sample_len o (skipn off buf)) (skipn off buf) in
  let l := map (fun d => score_dialect (fun t => t) o d sample) (generate_candidates o) in
  forallb (one_length o sample) (generate_candidates o) = true ->
  Permutation (sort l) l -> Winner cand_lt l (sort l) ->
  In best l -> Forall (fun x => cand_lt best x = true \/ x = best) l ->
  flt lit_0 (cand_score best) = true ->
  let r := detect sort order o buf in
  res_confidence r = cand_score best /\ res_columns r = cand_columns best /\
  res_dialect r = set_line_ending (cand_dialect best) (detect_line_ending sample) ch.
Proof.
  intros HO SK NE sample l OL HS HW HI HF HP r. subst r.
  assert (NB : buf <> []) by (intros ->; destruct off; apply NE; reflexivity).
  unfold detect. destruct buf as [|c0 b0]; [contradiction|]. set (buf := c0 :: b0) in *.
  rewrite SK. destruct (skipn off buf) as [|d0 dr] eqn:ED; [contradiction|].
  fold sample. rewrite (scores_any_order order o sample _ HO OL). fold l.
  assert (EH : exists t, sort l = best :: t).
  { destruct (sort l) as [|h t] eqn:E.
    - apply Permutation_nil in HS. rewrite HS in HI. destruct HI.
    - exists t. f_equal. assert (Ih : In h l) by (eapply Permutation_in; [exact HS|left; reflexivity]).
      rewrite Forall_forall in HF. destruct (HF h Ih) as [X|X]; [|exact X].
      rewrite (HW h t eq_refl best HI) in X. discriminate. }
  destruct EH as (t & ->). rewrite HP. repeat split.
Qed.

Lemma best_at (l : list candidate) k best : nth_error l k = Some best ->
  forallb (fun i => (i =? k) || cand_lt best (nth i l best)) (seq 0 (length l)) = true ->
  In best l /\ Forall (fun x => cand_lt best x = true \/ x = best) l.
Proof.
  intros H F. split; [eapply nth_error_In; exact H|]. apply Forall_forall. intros x I.
  apply In_nth_error in I. destruct I as (i & Ei).
  assert (Li : i < length l) by (apply nth_error_Some; congruence).
  rewrite forallb_forall in F. specialize (F i). rewrite in_seq in F.
  assert (G := F ltac:(lia)). apply orb_true_iff in G. destruct G as [G|G].
  - apply Nat.eqb_eq in G. subst i. right. congruence.
  - left. erewrite nth_error_nth in G; [exact G|exact Ei].
Qed.

(** With one candidate, sorting is immaterial. *)
Lemma detect_one sort order o d buf : (forall l, Permutation (sort l) l) ->
  generate_candidates o = [d] -> detect sort order o buf = detect (fun l => l) order o buf.
Proof.
  intros HS G. unfold detect. destruct buf as [|c b]; [reflexivity|].
  destruct (skip_comment_lines o (c :: b)) as ((off, ch), n). rewrite G. cbn [map].
  destruct (skipn off (c :: b)) as [|x y]; [reflexivity|].
  set (s := firstn (sample_len o (x :: y)) (x :: y)).
  pose proof (HS [score_dialect order o d s]) as P.
  apply Permutation_sym, Permutation_length_1_inv in P. rewrite P. reflexivity.
Qed.

Lemma detect_single_score order o d buf ch n : (forall t, Permutation (order t) t) ->
  generate_candidates o = [d] -> skip_comment_lines o buf = (0, ch, n) -> buf <> [] ->
  let sample := firstn (sample_len o buf) buf in
  one_length o sample d = true ->
  flt lit_0 (cand_score (score_dialect (fun t => t) o d sample)) = true ->
  res_confidence (detect (fun l => l) order o buf) = cand_score (score_dialect (fun t => t) o d sample).
Proof.
  intros HO G SK NE sample OL HP.
  set (best := score_dialect (fun t => t) o d sample) in *.
  destruct (detect_winner (fun l => l) order o buf 0 ch n best HO) as (C & _); auto.
  - change (skipn 0 buf) with buf. fold sample. rewrite G. cbn [forallb]. rewrite OL. reflexivity.
  - change (skipn 0 buf) with buf. fold sample. rewrite G. cbn [map]. fold best.
    intros h t E x [<-|[]]. injection E as <- _. destruct (cand_lt best best) eqn:X; [|reflexivity].
    pose proof (cand_asym _ _ X). congruence.
  - change (skipn 0 buf) with buf. fold sample. rewrite G. left. reflexivity.
  - change (skipn 0 buf) with buf. fold sample. rewrite G. constructor; [right; reflexivity|constructor].
Qed.
