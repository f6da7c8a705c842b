(** Exactly which cells are date-times; exactly what comment skipping leaves. *)
From Coq Require Import SpecFloat Permutation.
From Verif Require Import Base DialectSpec DialectSpec2 DialectModel DialectObs DialectProof DialectProof2
  DialectProof3 DialectProof4 DialectProof5 DialectProof6 DialectProof7.

Lemma find_char_some : forall l x p, find_char l x = Some p ->
  l = firstn p l ++ x :: skipn (S p) l /\ ~ In x (firstn p l) /\ p < length l.
Proof.
  induction l as [|c l IH]; intros x p H; [discriminate|]. cbn [find_char] in H.
  destruct (N.eqb_spec c x) as [->|NE].
  - injection H as <-. cbn [firstn skipn app length]. repeat split; [intros []|lia].
  - destruct (find_char l x) as [q|] eqn:Q; [|discriminate].
    cbn [option_map] in H. injection H as <-. destruct (IH x q Q) as (A & B & C).
    cbn [firstn skipn app length]. repeat split; [f_equal; exact A| |lia].
    intros [E|I]; [congruence|exact (B I)].
Qed.
Lemma find_char_none : forall l x, find_char l x = None -> ~ In x l.
Proof.
  induction l as [|c l IH]; intros x H; [intros []|]. cbn [find_char] in H.
  destruct (N.eqb_spec c x) as [->|NE]; [discriminate|].
  destruct (find_char l x) as [q|] eqn:Q; [discriminate|].
  intros [E|I]; [congruence|]. exact (IH x Q I).
Qed.

Lemma strip_zone_five rest : 5 <= length (strip_zone rest) <-> FiveBytes rest.
Proof.
  assert (K : forall u,
    5 <= length (match find_char u 43%N with
      | Some p => if 0 <? p then firstn p u
                  else match find_char u 45%N with
                       | Some m => if 5 <? m then firstn m u else u | None => u end
      | None => match find_char u 45%N with
                | Some m => if 5 <? m then firstn m u else u | None => u end
      end) <-> 5 <= length u /\ (hd_error u = Some 43%N \/ ~ In 43%N (firstn 5 u))).
  { intros u.
    assert (D : 5 <= length (match find_char u 45%N with
                | Some m => if 5 <? m then firstn m u else u | None => u end) <-> 5 <= length u).
    { destruct (find_char u 45%N) as [m|] eqn:M; [|tauto].
      destruct (Nat.ltb_spec 5 m); [|tauto]. apply find_char_some in M. destruct M as (_ & _ & M).
      rewrite firstn_length. lia. }
    destruct (find_char u 43%N) as [p|] eqn:P.
    - destruct (find_char_some _ _ _ P) as (E & NI & L). destruct (Nat.ltb_spec 0 p) as [G|G].
      + rewrite firstn_length. split.
        * intros H. split; [lia|]. right. intros I. apply NI.
          replace (firstn 5 u) with (firstn 5 (firstn p u)) in I
            by (rewrite firstn_firstn; f_equal; lia).
          rewrite <- (firstn_skipn 5 (firstn p u)). apply in_or_app. left. exact I.
        * intros (H & [X|X]).
          -- exfalso. rewrite E in X. destruct u as [|c u]; [discriminate|].
             destruct p as [|p]; [lia|]. cbn [firstn app hd_error] in X. injection X as ->.
             apply NI. left. reflexivity.
          -- destruct (Nat.le_gt_cases 5 p); [lia|]. exfalso. apply X.
             rewrite E. rewrite firstn_app, firstn_length. apply in_or_app. right.
             replace (5 - Nat.min p (length u)) with (S (4 - p)) by lia. left. reflexivity.
      + assert (p = 0) by lia. subst p. rewrite D. split; [|tauto]. intros H. split; [exact H|].
        left. rewrite E. reflexivity.
    - rewrite D. apply find_char_none in P. split; [|tauto]. intros H. split; [exact H|]. right.
      intros I. apply P. rewrite <- (firstn_skipn 5 u). apply in_or_app. left. exact I. }
  unfold strip_zone. cbv zeta. rewrite K. unfold FiveBytes.
  destruct rest as [|a r] eqn:R.
  - split.
    + intros (L & _). cbn [length] in L. lia.
    + intros (u & [E|(E & _)] & L & _); [destruct u; discriminate|subst u; cbn [length] in L; lia].
  - rewrite <- R. assert (NE : rest <> []) by (subst; discriminate). clear R.
    destruct (exists_last NE) as (v & y & ->). rewrite last_last, removelast_last.
    destruct (N.eqb_spec y 90) as [->|NY].
    + split.
      * intros H. exists v. split; [left; reflexivity|exact H].
      * intros (u & [E|(E & X)] & H).
        -- apply app_inj_tail in E. destruct E as (-> & _). exact H.
        -- exfalso. exact (X v eq_refl).
    + split.
      * intros H. exists (v ++ [y]). split; [right; split; [reflexivity|]|exact H].
        intros w E. apply app_inj_tail in E. destruct E as (_ & E). congruence.
      * intros (u & [E|(E & X)] & H).
        -- apply app_inj_tail in E. destruct E as (_ & E). congruence.
        -- rewrite E. exact H.
Qed.

Lemma date_not_white d : DateText d -> forall c, In c d -> ~ White c.
Proof.
  intros D c I. destruct (date_chars d D) as (_ & C).
  unfold White. destruct (C c I) as [X|X]; [unfold Digit in X|]; lia.
Qed.

Lemma infer_date fuel dp : infer_with fuel dp = DATE <-> DateText (trim space dp).
Proof.
  destruct (classify fuel dp (trim space dp) (trim_ok space White space_ok dp)) as (_ & _ & _ & _ & X & _).
  exact X.
Qed.

Lemma datetime_exact cell t : Trimmed White cell t ->
  infer_cell_type cell = DATETIME <-> LooksLikeDateTime t.
Proof.
  intros T. pose proof T as T0. apply (trim_unique space White space_ok) in T0.
  rewrite <- trim_spaces_trim in T0. unfold infer_cell_type. rewrite infer_chain, <- T0.
  assert (Lct : length t <= length cell).
  { destruct T as (a & b & -> & _). rewrite !app_length. lia. }
  destruct T as (_ & _ & _ & _ & _ & H1 & H2). clear T0.
  generalize dependent (length cell). intros fuel Lf. clear cell.
  assert (DTx : 16 <= length t -> datetime_or_string fuel t = DATETIME <-> LooksLikeDateTime t).
  { intros L16. unfold datetime_or_string. cbv zeta.
    destruct (Nat.leb_spec 16 (length t)); [|lia].
    destruct fuel as [|fuel]; [lia|].
    assert (IM : forall p sep, t = firstn p t ++ sep :: skipn (S p) t -> p < length t -> 
       (sep = 84%N \/ (sep = 32%N /\ ~ In 84%N t)) -> ~ In sep (firstn p t) ->
       8 <= p /\ DateText (trim space (firstn p t)) /\ FiveBytes (skipn (S p) t) <-> LooksLikeDateTime t).
    { intros p sep E Lp HS NI. split.
      - intros (_ & D & F).
        destruct (trim_ok space White space_ok (firstn p t)) as (a & b & E1 & Fa & Fb & _).
        assert (a = []).
        { destruct a as [|c a]; [reflexivity|]. exfalso. rewrite E, E1 in H1. cbn [app] in H1.
          inversion Fa; subst. eapply H1; [reflexivity|assumption]. }
        subst a. cbn [app] in E1.
        exists (trim space (firstn p t)), b, sep, (skipn (S p) t).
        split; [rewrite E at 1; rewrite E1 at 1; rewrite <- app_assoc; reflexivity|].
        split; [exact D|]. split; [exact Fb|]. split; [|exact F].
        destruct HS as [->|(-> & NT)]; [left; reflexivity|right].
        split; [reflexivity|]. split.
        + intros I. apply NI. rewrite E1. apply in_or_app. right. exact I.
        + intros I. apply NT. rewrite E. apply in_or_app. right. right. exact I.
      - intros (d & w & s & rest & Et & D & Fw & Hs & F).
        destruct (date_chars d D) as (Ld & Cd).
        assert (NTd : forall x, In x (d ++ w) -> x <> 84%N).
        { intros x I -> . apply in_app_or in I. destruct I as [I|I].
          - destruct (Cd _ I) as [Q|Q]; [unfold Digit in Q|]; lia.
          - rewrite Forall_forall in Fw. specialize (Fw _ I). unfold White in Fw. lia. }
        assert (NSd : ~ In 32%N d).
        { intros I. destruct (Cd _ I) as [Q|Q]; [unfold Digit in Q|]; lia. }
        (* the two splittings of t are at the same place *)
        assert (U : forall a b (x : byte) u v, a ++ x :: u = b ++ x :: v -> ~ In x a -> ~ In x b -> a = b /\ u = v).
        { clear. induction a as [|c a IH]; intros [|e b] x u v E A B; cbn [app] in E.
          - injection E as ->. auto.
          - injection E as -> _. exfalso. apply B. left; reflexivity.
          - injection E as -> _. exfalso. apply A. left; reflexivity.
          - injection E as -> E. destruct (IH b x u v E) as (-> & ->).
            + intros I. apply A. right. exact I.
            + intros I. apply B. right. exact I.
            + auto. }
        rewrite app_assoc in Et.
        assert (SS : s = sep).
        { destruct Hs as [->|(-> & W & R)]; destruct HS as [->|(-> & NT)]; auto.
          - exfalso. apply NT. rewrite Et. apply in_or_app. right. left. reflexivity.
          - exfalso. assert (I : In 84%N t) by (rewrite E; apply in_or_app; right; left; reflexivity).
            rewrite Et in I. apply in_app_or in I. destruct I as [I|[I|I]]; [|discriminate|exact (R I)].
            exact (NTd _ I eq_refl). }
        subst s. destruct (U (firstn p t) (d ++ w) sep (skipn (S p) t) rest) as (E1 & E2).
        + rewrite <- E. exact Et.
        + exact NI.
        + intros I. destruct Hs as [->|(-> & W & _)]; [exact (NTd _ I eq_refl)|].
          apply in_app_or in I. destruct I; auto.
        + assert (Lp2 : p = length (d ++ w)).
          { rewrite <- E1, firstn_length. lia. }
          rewrite E1, E2. split; [rewrite Lp2, app_length; lia|]. split; [|exact F].
          assert (TR : Trimmed White (d ++ w) d).
          { exists [], w. cbn [app]. repeat split; auto.
            - intros c r ->. apply (date_not_white _ D). left. reflexivity.
            - intros c r ->. apply (date_not_white _ D). apply in_or_app. right. left. reflexivity. }
          apply (trim_unique space White space_ok) in TR. rewrite <- TR. exact D. }
    assert (GO : forall p sep, t = firstn p t ++ sep :: skipn (S p) t -> p < length t -> 
       (sep = 84%N \/ (sep = 32%N /\ ~ In 84%N t)) -> ~ In sep (firstn p t) ->
       (if 8 <=? p then
          match infer_with fuel (firstn p t) with
          | DATE => match infer_with fuel (strip_zone (skipn (S p) t)) with
                    | TIME => DATETIME
                    | _ => if 5 <=? length (strip_zone (skipn (S p) t)) then DATETIME else STRING end
          | _ => STRING end else STRING) = DATETIME <-> LooksLikeDateTime t).
    { intros p sep E Lp HS NI. rewrite <- (IM p sep E Lp HS NI). clear IM.
      rewrite <- infer_date with (fuel := fuel), <- strip_zone_five.
      assert (TT : infer_with fuel (strip_zone (skipn (S p) t)) = TIME -> 5 <= length (strip_zone (skipn (S p) t))).
      { intros Q.
        destruct (classify fuel _ _ (trim_ok space White space_ok (strip_zone (skipn (S p) t)))) as (_ & _ & _ & _ & _ & X & _).
        apply X in Q. destruct (time_chars _ Q) as (Q1 & _).
        destruct (trim_ok space White space_ok (strip_zone (skipn (S p) t))) as (a & b & E1 & _).
        apply (f_equal (@length N)) in E1. rewrite !app_length in E1. lia. }
      destruct (Nat.leb_spec 8 p) as [G|G].
      2:{ split; [discriminate|]. intros (X & _). lia. }
      destruct (infer_with fuel (firstn p t)) eqn:Q; try (split; [discriminate|intros (_ & X & _); discriminate X]).
      destruct (Nat.leb_spec 5 (length (strip_zone (skipn (S p) t)))) as [G5|G5].
      - destruct (infer_with fuel (strip_zone (skipn (S p) t))); split; auto.
      - destruct (infer_with fuel (strip_zone (skipn (S p) t))) eqn:Q2;
          try (split; [discriminate|intros (_ & _ & X); lia]).
        specialize (TT eq_refl). lia. }
    destruct (find_char t 84) as [p|] eqn:P.
    - destruct (find_char_some _ _ _ P) as (E & NI & Lp). apply (GO p 84%N); auto.
    - pose proof (find_char_none _ _ P) as NT. destruct (find_char t 32) as [p|] eqn:P2.
      + destruct (find_char_some _ _ _ P2) as (E & NI & Lp). apply (GO p 32%N); auto.
      + pose proof (find_char_none _ _ P2) as NS. split; [discriminate|].
        intros (d & w & s & rest & Et & _ & _ & Hs & _). exfalso.
        assert (I : In s t) by (rewrite Et; apply in_or_app; right; apply in_or_app; right; left; reflexivity).
        destruct Hs as [->|(-> & _)]; auto. }
  assert (SH : LooksLikeDateTime t -> 16 <= length t /\ ~ In t bool_words /\ integer_shape t = false /\ float_shape t = false /\
     date_shape t = false /\ time_shape t = false).
  { intros (d & w & s & rest & Et & D & Fw & Hs & u & Hu & Lu & _).
    destruct (date_chars d D) as (Ld & _).
    assert (LR : 5 <= length rest).
    { destruct Hu as [->|(-> & _)]; [rewrite app_length|]; lia. }
    assert (Lc : 16 <= length t) by (rewrite Et, !app_length; cbn [length]; lia).
    split; [exact Lc|]. split.
    { intros I. assert (length t <= 5); [|lia]. cbn [bool_words In] in I.
      repeat (destruct I as [<-|I]; [cbn [length]; lia|]). destruct I. }
    assert (NUM : integer_shape t = false /\ float_shape t = false).
    { destruct D as (sep & a & b & c & HSP & E & Da & _ & _ & HL).
      rewrite Et, E. rewrite <- app_assoc. cbn [app].
      apply not_numeric; auto.
      - intros ->. cbn [length] in HL. lia.
      - destruct HSP as [->| ->]; apply not_digit_lit; reflexivity.
      - destruct HSP as [->| ->]; discriminate.
      - destruct HSP as [->| ->]; discriminate.
      - destruct HSP as [->| ->]; discriminate. }
    destruct NUM as (A & B). repeat split; auto.
    - unfold date_shape; destruct (Nat.eqb_spec (length t) 10); [lia|reflexivity].
    - unfold time_shape. destruct (Nat.eqb_spec (length t) 5); [lia|]. destruct (Nat.eqb_spec (length t) 8); [lia|]. reflexivity. }
  destruct t as [|c0 t0] eqn:Et0.
  { split; [discriminate|]. intros H. apply SH in H. cbn [length] in H. lia. }
  rewrite <- Et0 in *.
  destruct (existsb (same_text t) bool_words) eqn:B.
  { split; [discriminate|]. intros H. apply SH in H. apply bool_word_in in B. tauto. }
  destruct (integer_shape t) eqn:I; [split; [discriminate|intros H; apply SH in H; destruct H as (_ & _ & H & _); discriminate H]|].
  destruct (float_shape t) eqn:F; [split; [discriminate|intros H; apply SH in H; destruct H as (_ & _ & _ & H & _); discriminate H]|].
  destruct (date_shape t) eqn:D; [split; [discriminate|intros H; apply SH in H; destruct H as (_ & _ & _ & _ & H & _); discriminate H]|].
  destruct (time_shape t) eqn:M; [split; [discriminate|intros H; apply SH in H; destruct H as (_ & _ & _ & _ & _ & H); discriminate H]|].
  destruct (Nat.le_gt_cases 16 (length t)) as [G|G]; [exact (DTx G)|].
  split; [|intros H; apply SH in H; lia].
  unfold datetime_or_string. destruct (Nat.leb_spec 16 (length t)); [lia|discriminate].
Qed.

(** ---- comment lines ---- *)
Lemma plain_split : forall a b r s, plain_text a -> plain_text b ->
  (forall c t, r = c :: t -> c = LF \/ c = CR) -> (forall c t, s = c :: t -> c = LF \/ c = CR) ->
  a ++ r = b ++ s -> a = b /\ r = s.
Proof.
  induction a as [|x a IH]; intros [|y b] r s A B R S E; cbn [app] in E.
  - auto.
  - exfalso. inversion B; subst. destruct (R y (b ++ s) eq_refl); tauto.
  - exfalso. inversion A; subst. destruct (S x (a ++ r) eq_refl); tauto.
  - injection E as -> E. inversion A; inversion B; subst.
    destruct (IH b r s) as (-> & ->); auto.
Qed.

Lemma FirstLine_det buf l r l' r' : FirstLine buf l r -> FirstLine buf l' r' -> l = l' /\ r = r'.
Proof.
  intros A B.
  assert (X : forall b l r, FirstLine b l r -> exists e, b = l ++ e /\ plain_text l /\
    (forall c t, e = c :: t -> c = LF \/ c = CR) /\
    ((e = [] /\ r = []) \/ e = LF :: r \/ e = CR :: LF :: r \/ (e = CR :: r /\ hd_error r <> Some LF))).
  { clear. destruct 1.
    - exists []. rewrite app_nil_r. split; [reflexivity|]. split; [exact H|]. split; [discriminate|auto].
    - eexists. split; [reflexivity|]. split; [exact H|]. split; [|auto]. intros c t E; injection E as <- _; auto.
    - eexists. split; [reflexivity|]. split; [exact H|]. split; [|auto]. intros c t E; injection E as <- _; auto.
    - eexists. split; [reflexivity|]. split; [exact H|]. split; [|auto]. intros c t E; injection E as <- _; auto. }
  destruct (X _ _ _ A) as (e & E & P & H & K). destruct (X _ _ _ B) as (e' & E' & P' & H' & K').
  rewrite E in E'. destruct (plain_split _ _ _ _ P P' H H' E') as (-> & ->). split; [reflexivity|].
  destruct K as [(-> & ->)|[->|[->|(-> & K)]]]; destruct K' as [(K1 & ->)|[K1|[K1|(K1 & K')]]];
    try discriminate K1; try reflexivity; unfold LF, CR in *; try discriminate K1;
    injection K1 as K1; subst; cbn [hd_error] in *; congruence.
Qed.

Lemma FirstLine_exists buf : exists l r, FirstLine buf l r.
Proof.
  destruct (to_eol_ok buf 0) as (p & r & E & P & H & _).
  destruct (past_eol_ok p r 0 H P) as (t & r' & _ & _ & F). exists p, r'. rewrite E. exact F.
Qed.

Lemma Marks_det a b l : Marks a l -> Marks b l -> a = b.
Proof.
  intros (bl & r & -> & F & N) (bl' & r' & E & F' & N').
  destruct (blanks_unique _ _ _ _ _ _ E) as (_ & -> & _); auto.
Qed.

Section Exact.
Variable o : options.
Local Notation cs := (comment_chars o).
Hypothesis noLF : ~ In LF cs.
Hypothesis noCR : ~ In CR cs.

Lemma first_mark_step ch c ms : FirstMark (ch :: c :: ms) = FirstMark ((if (ch =? 0)%N then c else ch) :: ms).
Proof.
  unfold FirstMark. cbn [filter]. destruct (N.eqb_spec ch 0); cbn [negb]; [reflexivity|].
  destruct (N.eqb_spec ch 0); [contradiction|]. cbn [negb hd]. destruct (negb (c =? 0)%N); reflexivity.
Qed.
Lemma first_mark_one ch : FirstMark [ch] = ch.
Proof. unfold FirstMark. cbn [filter]. destruct (N.eqb_spec ch 0); cbn [negb hd]; auto. Qed.

Lemma skip_exact : forall l ls rest, Leading cs l ls rest ->
  forall fuel off ch n ms, length l <= fuel -> Forall2 Marks ms ls ->
  exists off', skip_loop fuel o l off ch n = (off', FirstMark (ch :: ms), n + length ls) /\
    (Forall Blank rest -> off' = off + length l) /\
    (~ Forall Blank rest -> off' + length rest = off + length l).
Proof.
  assert (STEP : forall fuel l off ch n, l <> [] -> skip_loop (S fuel) o l off ch n =
      let (l1, off1) := past_blanks l off in
      match l1 with
      | [] => (off1, ch, n)
      | c :: _ =>
          if negb (is_comment_char o c) then (off, ch, n)
          else
            let ch' := if (ch =? 0)%N then c else ch in
            let (l2, off2) := to_eol l1 off1 in
            let (l3, off3) := past_eol l2 off2 in
            skip_loop fuel o l3 off3 ch' (S n)
      end) by (intros ? [|? ?] ? ? ? X; [congruence|reflexivity]).
  induction 1 as [buf NC|buf l r ls rest FL CL L IH]; intros fuel off ch n ms Hf HM.
  - inversion HM; subst ms. rewrite first_mark_one. cbn [length]. rewrite Nat.add_0_r.
    destruct buf as [|c0 b0] eqn:EB.
    { exists off. split; [destruct fuel; reflexivity|]. split; intros; cbn [length]; lia. }
    rewrite <- EB in *. assert (NE : buf <> []) by (subst; discriminate).
    destruct fuel as [|fuel]; [rewrite EB in Hf; cbn [length] in Hf; lia|].
    rewrite (STEP fuel buf off ch n NE).
    destruct (past_blanks_ok buf off) as (bl & F & E & P). rewrite P.
    destruct (drop_blanks_split buf) as (_ & _ & _ & NB).
    destruct (drop_blanks buf) as [|c r] eqn:D.
    + rewrite app_nil_r in E. exists (off + length bl). split; [reflexivity|].
      rewrite <- E in *. split; [reflexivity|]. intros X. contradiction.
    + specialize (NB c r eq_refl).
      destruct (is_comment_char o c) eqn:CC; cbn [negb].
      * exfalso. apply comment_char_in in CC.
        destruct (FirstLine_exists buf) as (fl & fr & FL). apply (NC fl fr FL).
        assert (X : exists p', fl = bl ++ c :: p').
        { destruct (to_eol_ok (c :: r) 0) as (p & r2 & E2 & Pp & Hr & _).
          assert (Pbl : plain_text (bl ++ p)).
          { apply Forall_app; split; [|exact Pp].
            eapply Forall_impl; [|exact F]. intros a; apply blank_plain. }
          destruct (past_eol_ok (bl ++ p) r2 0 Hr Pbl) as (t & r3 & E3 & _ & FL2).
          rewrite <- app_assoc, <- E2, <- E in FL2.
          destruct (FirstLine_det _ _ _ _ _ FL FL2) as (-> & _).
          destruct p as [|x p']; [|cbn [app] in E2; injection E2 as <- _; eauto].
          exfalso. cbn [app] in E2. subst r2. cbn [hd_error] in Hr.
          destruct Hr as [Hr|[Hr|Hr]]; [discriminate| |]; injection Hr as Hr; subst c; contradiction. }
        destruct X as (p' & ->). exists bl, c, p'. auto.
      * exists off. split; [reflexivity|]. split; [|reflexivity].
        intros X. exfalso. rewrite E in X. apply Forall_app in X. destruct X as (_ & X).
        inversion X; subst; contradiction.
  - inversion HM as [|m l' ms' ls' Mm HM']; subst.
    destruct CL as (bl & c & x & -> & F & NB & Ic).
    assert (m = c) by (apply (Marks_det _ _ _ Mm); exists bl, x; auto). subst m.
    assert (NE : buf <> []).
    { destruct (FirstLine_prefix _ _ _ FL) as (t & ->). destruct bl; discriminate. }
    destruct fuel as [|fuel]; [destruct buf; [congruence|cbn [length] in Hf; lia]|].
    rewrite (STEP fuel buf off ch n NE).
    destruct (past_blanks_ok buf off) as (bl2 & F2 & E & P). rewrite P.
    destruct (drop_blanks_split buf) as (_ & _ & _ & NB2).
    destruct (FirstLine_prefix _ _ _ FL) as (tt & Et). rewrite <- app_assoc in Et. cbn [app] in Et.
    destruct (drop_blanks buf) as [|c2 r0] eqn:D.
    { exfalso. rewrite app_nil_r in E. rewrite <- E, Et in F2. apply Forall_app in F2. destruct F2 as (_ & F2).
      inversion F2; subst; contradiction. }
    specialize (NB2 c2 r0 eq_refl). rewrite E in Et.
    destruct (blanks_unique _ _ _ _ _ _ Et) as (<- & -> & Er); auto.
    assert (CC : is_comment_char o c = true) by (apply comment_char_in; exact Ic).
    rewrite CC. cbn [negb]. cbv zeta.
    destruct (to_eol_ok (c :: r0) (off + length bl2)) as (p & r2 & E2 & Pp & Hr & T). rewrite T.
    assert (Pbl : plain_text (bl2 ++ p)).
    { apply Forall_app; split; [|exact Pp].
      eapply Forall_impl; [|exact F]. intros a; apply blank_plain. }
    destruct (past_eol_ok (bl2 ++ p) r2 (off + length bl2 + length p) Hr Pbl)
      as (t & r3 & E3 & T3 & FL2). rewrite T3.
    rewrite <- app_assoc, <- E2, <- E in FL2.
    destruct (FirstLine_det _ _ _ _ _ FL FL2) as (EL & ->).
    assert (LB : length buf = length bl2 + length p + length t + length r3).
    { rewrite E, E2, E3, !app_length. lia. }
    assert (LP : 1 <= length p).
    { apply app_inv_head in EL. rewrite <- EL. cbn [length]. lia. }
    destruct (IH fuel (off + length bl2 + length p + length t) (if (ch =? 0)%N then c else ch) (S n) ms')
      as (off' & Q1 & Q2 & Q3); [lia|exact HM'|].
    exists off'. rewrite Q1, first_mark_step. cbn [length].
    split; [f_equal; lia|]. split; intros X; [specialize (Q2 X)|specialize (Q3 X)]; lia.
Qed.

Lemma skip_exactly buf ls rest ms : Leading cs buf ls rest -> Forall2 Marks ms ls ->
  exists off, skip_comment_lines o buf = (off, FirstMark ms, length ls) /\
    (cs <> [] -> Forall Blank rest -> off = length buf) /\
    (cs = [] \/ ~ Forall Blank rest -> off <= length buf /\ skipn off buf = rest).
Proof.
  intros L HM.
  assert (SUF : exists e, buf = e ++ rest).
  { clear HM. induction L as [buf|buf l r ls rest FL _ _ IH]; [exists []; reflexivity|].
    assert (X : exists t, buf = t ++ r).
    { clear IH. destruct FL.
      - exists l. rewrite app_nil_r. reflexivity.
      - exists (l ++ [LF]). rewrite <- app_assoc. reflexivity.
      - exists (l ++ [CR; LF]). rewrite <- app_assoc. reflexivity.
      - exists (l ++ [CR]). rewrite <- app_assoc. reflexivity. }
    destruct X as (t & ->). destruct IH as (e & ->). exists (t ++ e). rewrite app_assoc. reflexivity. }
  destruct SUF as (e & SUF).
  assert (ZERO : cs = [] -> ls = [] /\ rest = buf).
  { intros Z. inversion L; subst; auto. destruct H0 as (? & ? & ? & _ & _ & _ & I). rewrite Z in I. destruct I. }
  unfold skip_comment_lines. destruct buf as [|c0 b0] eqn:EB.
  - destruct e; [|discriminate]. cbn [app] in SUF. subst rest.
    inversion L; subst.
    + inversion HM; subst. exists 0. split; [reflexivity|]. split; auto.
    + exfalso. destruct H0 as (bl & c & x & -> & _). destruct (FirstLine_prefix _ _ _ H) as (t & X).
      destruct bl; discriminate.
  - destruct cs as [|k ks] eqn:K.
    + destruct (ZERO eq_refl) as (-> & ->). inversion HM; subst. exists 0. split; [reflexivity|].
      split; [congruence|]. intros _. split; [lia|reflexivity].
    + rewrite <- K in *. rewrite <- EB in *.
      destruct (skip_exact buf ls rest L (length buf) 0 0%N 0 ms (le_n _) HM) as (off & Q1 & Q2 & Q3).
      exists off. split; [rewrite Q1; f_equal|].
      split; [intros _ X; specialize (Q2 X); lia|].
      intros [X|X]; [rewrite K in X; discriminate|]. specialize (Q3 X).
      assert (LE : length buf = length e + length rest) by (rewrite SUF, app_length; reflexivity).
      assert (off = length e) by lia. subst off. split; [lia|].
      rewrite SUF, skipn_app, skipn_all, Nat.sub_diag. reflexivity.
Qed.
End Exact.
