(** Consequences of the line structure; fields; comment blocks; line endings. *)
From Verif Require Import Base DialectSpec DialectModel DialectObs DialectProof.

(** ---- lines ---- *)
Lemma text_end_le l s i e : s <= i -> TextEnd l s i e -> s <= e <= i.
Proof. intros H [(? & _ & _ & ->)|(_ & ->)]; lia. Qed.

Lemma LineEnd_lt g l i : LineEnd g l i -> i < length l.
Proof. intros [_ [H|[H _]]]; apply nth_error_Some; congruence. Qed.

Lemma Lines_in g l s ls : Lines g l s ls -> forall a b, In (a, b) ls ->
  s <= a /\ a <= b <= length l /\ (forall j, a <= j < b -> ~ LineEnd g l j).
Proof.
  induction 1 as [s H|s H N|s i e rest Hs LE N TE L IH]; intros a b I.
  - destruct I.
  - destruct I as [E|[]]; injection E as <- <-.
    split; [lia|split; [lia|]]. intros j Hj; apply N; lia.
  - pose proof (LineEnd_lt _ _ _ LE). pose proof (text_end_le _ _ _ _ Hs TE).
    destruct I as [E|I].
    + injection E as <- <-. split; [lia|split; [lia|]]. intros j Hj; apply N; lia.
    + destruct (IH a b I) as (X & Y & Z). split; [lia|auto].
Qed.

Lemma Lines_sorted g l s ls : Lines g l s ls ->
  forall i j p q, i < j -> nth_error ls i = Some p -> nth_error ls j = Some q -> snd p < fst q.
Proof.
  induction 1 as [s H|s H N|s k e rest Hs LE N TE L IH]; intros i j p q Hij Hp Hq.
  - destruct i; discriminate.
  - destruct j; [lia|]. destruct j; discriminate.
  - destruct j; [lia|]. destruct i.
    + injection Hp as <-. cbn [nth_error] in Hq.
      apply nth_error_In in Hq. destruct q as (a, b).
      destruct (Lines_in _ _ _ _ L a b Hq) as (X & _).
      pose proof (text_end_le _ _ _ _ Hs TE). cbn [fst snd]; lia.
    + apply (IH i j p q); auto; lia.
Qed.

Lemma Lines_cover g l s ls : Lines g l s ls -> forall p, s <= p < length l ->
  (exists a b, In (a, b) ls /\ a <= p < b) \/ LineEnd g l p \/
  (LineEnd g l (S p) /\ nth_error l p = Some CR /\ nth_error l (S p) = Some LF).
Proof.
  induction 1 as [s H|s H N|s k e rest Hs LE N TE L IH]; intros p Hp.
  - lia.
  - left; exists s, (length l); split; [left; reflexivity|lia].
  - destruct (Nat.lt_ge_cases k p) as [G|G].
    + destruct (IH p) as [(a & b & I & B)|X]; [lia| |right; exact X].
      left; exists a, b; split; [right; exact I|exact B].
    + destruct (Nat.eq_dec p k) as [->|NE]; [right; left; exact LE|].
      destruct TE as [(B & F1 & F2 & ->)|(_ & ->)].
      * destruct (Nat.eq_dec p (k - 1)) as [->|NE2].
        -- right; right. replace (S (k - 1)) with k by lia. auto.
        -- left; exists s, (k - 1); split; [left; reflexivity|lia].
      * left; exists s, k; split; [left; reflexivity|lia].
Qed.

Lemma firstn_nth {A} : forall (m : list A) n i x,
  nth_error (firstn n m) i = Some x -> nth_error m i = Some x.
Proof.
  induction m as [|y m IH]; intros n i x H.
  - rewrite firstn_nil in H; destruct i; discriminate.
  - destruct n; [destruct i; discriminate|]. destruct i; [exact H|].
    cbn [firstn nth_error] in *; eauto.
Qed.

Lemma firstn_filter_nth {A} (f : A -> bool) n l i x :
  nth_error (firstn n (filter f l)) i = Some x ->
  exists k, nth_error l k = Some x /\ f x = true /\ i <= k.
Proof.
  intros H.
  assert (H' : nth_error (filter f l) i = Some x)
    by (eapply firstn_nth; eassumption).
  clear H n; revert i H'. induction l as [|y l IH]; intros i H; [destruct i; discriminate|].
  cbn [filter] in H. destruct (f y) eqn:F.
  - destruct i.
    + injection H as <-. exists 0; repeat split; auto.
    + destruct (IH i H) as (k & ? & ? & ?). exists (S k); repeat split; auto; lia.
  - destruct (IH i H) as (k & ? & ? & ?). exists (S k); repeat split; auto; lia.
Qed.

Lemma kept_sorted {A} (f : A -> bool) (R : A -> A -> Prop) l n :
  (forall i j p q, i < j -> nth_error l i = Some p -> nth_error l j = Some q -> R p q) ->
  forall i j p q, i < j -> nth_error (firstn n (filter f l)) i = Some p ->
    nth_error (firstn n (filter f l)) j = Some q -> R p q.
Proof.
  intros H.
  assert (G : forall m : list A, (forall i j p q, i < j -> nth_error m i = Some p ->
      nth_error m j = Some q -> R p q) ->
    forall n i j p q, i < j -> nth_error (firstn n m) i = Some p ->
      nth_error (firstn n m) j = Some q -> R p q).
  { clear. intros m H n i j p q Hij Hp Hq.
    apply (H i j p q Hij); eapply firstn_nth; eassumption. }
  apply G. clear n G.
  induction l as [|y l IH]; intros i j p q Hij Hp Hq.
  - destruct i; discriminate.
  - assert (H' : forall i j p q, i < j -> nth_error l i = Some p -> nth_error l j = Some q -> R p q).
    { intros i' j' p' q' L P Q. apply (H (S i') (S j') p' q'); auto; lia. }
    cbn [filter] in Hp, Hq. destruct (f y).
    + destruct j; [lia|]. destruct i.
      * injection Hp as <-. cbn [nth_error] in Hq.
        destruct (firstn_filter_nth f (length (filter f l)) l j q) as (k & K & _).
        { rewrite firstn_all; exact Hq. }
        apply (H 0 (S k) y q); auto; lia.
      * apply (IH H' i j p q); auto; lia.
    + apply (IH H' i j p q); auto.
Qed.

(** ---- fields ---- *)
Section Fields.
Variable d : dialect.
Local Notation g := (quoting_of d).
Local Notation sep := (delimiter d).

Fixpoint sel (base : nat) (ms : list bool) (rest : bytes) : list nat :=
  match ms, rest with
  | m :: ms', c :: r =>
      if m && (c =? sep)%N then base :: sel (S base) ms' r else sel (S base) ms' r
  | _, _ => []
  end.

Lemma fields_loop_scan rest inq cur fields : fields_loop d rest inq cur fields =
  match rest with
  | [] => fields ++ [cur]
  | c :: r =>
      scan d c r (fun c2 r' => fields_loop d r' inq (cur ++ [c; c2]) fields)
        (fields_loop d r (negb inq) (cur ++ [c]) fields)
        (if negb inq && (c =? sep)%N then fields_loop d r inq [] (fields ++ [cur])
         else fields_loop d r inq (cur ++ [c]) fields)
        fields
  end.
Proof. destruct rest; reflexivity. Qed.

Lemma join_cons c x r : join sep ((c :: x) :: r) = c :: join sep (x :: r).
Proof. destruct r; reflexivity. Qed.

Lemma separators_cons base c x r : separators base ((c :: x) :: r) = separators (S base) (x :: r).
Proof.
  destruct r; [reflexivity|]. cbn [separators length].
  replace (base + S (length x)) with (S base + length x) by lia. reflexivity.
Qed.

Lemma fields_ok : forall n rest inq cur fields base, length rest <= n ->
  exists x others, fields_loop d rest inq cur fields = fields ++ (cur ++ x) :: others /\
    join sep (x :: others) = rest /\
    separators base (x :: others) = sel base (free g inq rest) rest.
Proof.
  induction n as [|n IH]; intros rest inq cur fields base Hn.
  - destruct rest; [|cbn [length] in Hn; lia].
    exists [], []. rewrite fields_loop_scan, app_nil_r; repeat split.
  - destruct rest as [|c r].
    { exists [], []. rewrite fields_loop_scan, app_nil_r; repeat split. }
    cbn [length] in Hn. rewrite fields_loop_scan.
    apply (scan_turn d c r _ _ _ _ (fun res => exists x others,
      res = fields ++ (cur ++ x) :: others /\ join sep (x :: others) = c :: r /\
      separators base (x :: others) = sel base (free g inq (c :: r)) (c :: r)) inq).
    + intros c2 r' -> E. cbn [length] in Hn.
      destruct (IH r' inq (cur ++ [c; c2]) fields (S (S base))) as (x & o & E1 & E2 & E3); [lia|].
      exists (c :: c2 :: x), o. rewrite E1, E, !join_cons, !separators_cons, E2, E3.
      cbn [sel andb]. rewrite <- app_assoc; repeat split.
    + intros E.
      destruct (IH r (negb inq) (cur ++ [c]) fields (S base)) as (x & o & E1 & E2 & E3); [lia|].
      exists (c :: x), o. rewrite E1, E, !join_cons, !separators_cons, E2, E3.
      cbn [sel andb]. rewrite <- app_assoc; repeat split.
    + intros E. rewrite E. cbn [sel]. destruct (negb inq && (c =? sep)%N) eqn:D.
      * destruct (IH r inq [] (fields ++ [cur]) (S base)) as (x & o & E1 & E2 & E3); [lia|].
        exists [], (x :: o). rewrite E1, <- app_assoc; cbn [app]. rewrite app_nil_r.
        split; [reflexivity|]. apply andb_true_iff in D; destruct D as [_ D].
        apply N.eqb_eq in D. split.
        -- change (join sep ([] :: x :: o)) with (sep :: join sep (x :: o)). rewrite E2, D; reflexivity.
        -- change (separators base ([] :: x :: o)) with
             ((base + 0) :: separators (S (base + 0)) (x :: o)).
           rewrite Nat.add_0_r, E3; reflexivity.
      * destruct (IH r inq (cur ++ [c]) fields (S base)) as (x & o & E1 & E2 & E3); [lia|].
        exists (c :: x), o. rewrite E1, !join_cons, !separators_cons, E2, E3.
        rewrite <- app_assoc; repeat split.
Qed.

Lemma sel_in : forall rest ms base n, length ms = length rest ->
  In n (sel base ms rest) <->
  exists k, n = base + k /\ nth_error ms k = Some true /\ nth_error rest k = Some sep.
Proof.
  induction rest as [|c r IH]; intros [|m ms] base n L; cbn [length sel] in *; try lia.
  - split; [intros []|]. intros (k & _ & H & _); destruct k; discriminate.
  - injection L as L.
    assert (Rest : In n (sel (S base) ms r) <->
      exists k, n = base + S k /\ nth_error (m :: ms) (S k) = Some true /\
                nth_error (c :: r) (S k) = Some sep).
    { rewrite (IH ms (S base) n L). cbn [nth_error].
      split; intros (k & -> & X); exists k; split; auto; lia. }
    destruct (m && (c =? sep)%N) eqn:D.
    + apply andb_true_iff in D; destruct D as [-> D]; apply N.eqb_eq in D; subst c.
      cbn [In]. rewrite Rest. split.
      * intros [<-|(k & X)]; [exists 0; rewrite Nat.add_0_r; auto|exists (S k); exact X].
      * intros ([|k] & -> & X); [left; lia|right; exists k; auto].
    + rewrite Rest. split.
      * intros (k & X); exists (S k); exact X.
      * intros ([|k] & -> & X & Y); [|exists k; auto].
        cbn [nth_error] in X, Y. injection X as ->. injection Y as ->.
        rewrite N.eqb_refl in D; discriminate.
Qed.

Lemma sel_lower : forall rest ms base n, In n (sel base ms rest) -> base <= n.
Proof.
  induction rest as [|c r IH]; intros [|m ms] base n; cbn [sel]; try (intros []; fail).
  destruct (m && _).
  - intros [<-|I]; [lia|apply IH in I; lia].
  - intros I; apply IH in I; lia.
Qed.

Lemma sel_sorted : forall rest ms base i j x y, i < j ->
  nth_error (sel base ms rest) i = Some x -> nth_error (sel base ms rest) j = Some y -> x < y.
Proof.
  induction rest as [|c r IH]; intros [|m ms] base i j x y Hij Hi Hj; cbn [sel] in *;
    try (destruct i; discriminate).
  destruct (m && _).
  - destruct j; [lia|]. destruct i.
    + injection Hi as <-. cbn [nth_error] in Hj. apply nth_error_In, sel_lower in Hj; lia.
    + apply (IH ms (S base) i j x y); auto; lia.
  - eapply IH; eauto.
Qed.

Lemma strip_ok raw : Unquoted (q_quote g) raw (strip_quotes d raw).
Proof.
  unfold strip_quotes, quoting_of; cbn [q_quote].
  destruct (quote_char d =? 0)%N eqn:Z; cbn [negb].
  - rewrite andb_false_r; cbn [andb]. right; split; [discriminate|reflexivity].
  - rewrite andb_true_r.
    destruct ((2 <=? length raw) && (hd 0%N raw =? quote_char d)%N &&
              (last raw 0%N =? quote_char d)%N) eqn:C.
    + apply andb_true_iff in C; destruct C as [C C3].
      apply andb_true_iff in C; destruct C as [C1 C2].
      apply Nat.leb_le in C1. apply N.eqb_eq in C2, C3.
      left; exists (quote_char d); split; [reflexivity|].
      destruct raw as [|a raw]; [cbn [length] in C1; lia|]. cbn [hd] in C2; subst a.
      destruct (@exists_last byte raw) as (v & z & ->).
      { intros ->; cbn [length] in C1; lia. }
      rewrite app_comm_cons, last_last in C3; subst z.
      cbn [length skipn]. rewrite app_length; cbn [length].
      replace (S (length v + 1) - 2) with (length v) by lia.
      rewrite firstn_app, firstn_all, Nat.sub_diag; cbn [firstn].
      rewrite app_nil_r; reflexivity.
    + right; split; [|reflexivity]. intros c v E ->. injection E as <-.
      cbn [hd length] in C. rewrite app_length, N.eqb_refl in C; cbn [length] in C.
      rewrite app_comm_cons, last_last, N.eqb_refl in C.
      rewrite (proj2 (Nat.leb_le 2 (S (length v + 1)))) in C by lia. discriminate.
Qed.

Lemma extract_fields_ok row : row <> [] -> exists raw,
  join sep raw = row /\
  Lists (fun i => FreeAt g row i /\ nth_error row i = Some sep) (separators 0 raw) /\
  Forall2 (Unquoted (q_quote g)) raw (extract_fields d row).
Proof.
  intros NE. unfold extract_fields. destruct row as [|c r] eqn:R; [congruence|].
  rewrite <- R in *. clear NE.
  destruct (fields_ok (length row) row false [] [] 0) as (x & o & E1 & E2 & E3); [lia|].
  exists (x :: o). rewrite E1. split; [exact E2|split].
  - rewrite E3. split.
    + intros n. rewrite sel_in by apply free_len.
      unfold FreeAt. split.
      * intros (k & -> & X); exact X.
      * intros X; exists n; split; [reflexivity|exact X].
    + intros i j a b; apply sel_sorted.
  - cbn [app]. clear. induction (x :: o) as [|y ys IH]; [constructor|].
    cbn [map]; constructor; [apply strip_ok|exact IH].
Qed.
End Fields.

(** ---- comment blocks ---- *)
Definition plain_text (l : bytes) : Prop := Forall (fun c => c <> LF /\ c <> CR) l.

Lemma past_blanks_ok : forall l off, exists bl,
  Forall Blank bl /\ l = bl ++ drop_blanks l /\
  past_blanks l off = (drop_blanks l, off + length bl).
Proof.
  induction l as [|c l IH]; intros off.
  - exists []; cbn [past_blanks drop_blanks app length]; rewrite Nat.add_0_r; repeat split; constructor.
  - cbn [past_blanks drop_blanks]; destruct (blank c) eqn:B.
    + destruct (IH (S off)) as (bl & F & E & P). exists (c :: bl).
      split; [constructor; [apply blank_ok; exact B|exact F]|].
      split; [cbn [app]; congruence|]. rewrite P; cbn [length]; f_equal; lia.
    + exists []; cbn [app length]; rewrite Nat.add_0_r; repeat split; constructor.
Qed.

Lemma to_eol_ok : forall l off, exists p r, l = p ++ r /\ plain_text p /\
  (r = [] \/ hd_error r = Some LF \/ hd_error r = Some CR) /\
  to_eol l off = (r, off + length p).
Proof.
  induction l as [|c l IH]; intros off.
  - exists [], []; cbn [to_eol app length]; rewrite Nat.add_0_r; repeat split; [constructor|auto].
  - cbn [to_eol]. destruct ((c =? 10) || (c =? 13))%N%bool eqn:E.
    + exists [], (c :: l); cbn [app length hd_error]; rewrite Nat.add_0_r; repeat split; [constructor|].
      apply orb_true_iff in E; destruct E as [E|E]; apply N.eqb_eq in E; subst c; auto.
    + destruct (IH (S off)) as (p & r & -> & F & H & T). exists (c :: p), r.
      apply orb_false_iff in E; destruct E as [E1 E2]; apply N.eqb_neq in E1, E2.
      split; [reflexivity|split; [constructor; [split; assumption|exact F]|split; [exact H|]]].
      rewrite T; cbn [length]; f_equal; lia.
Qed.

Lemma past_eol_ok line l off :
  (l = [] \/ hd_error l = Some LF \/ hd_error l = Some CR) -> plain_text line ->
  exists t r, l = t ++ r /\ past_eol l off = (r, off + length t) /\ FirstLine (line ++ l) line r.
Proof.
  intros H P. destruct l as [|c l].
  - exists [], []; cbn [past_eol app length]; rewrite Nat.add_0_r, app_nil_r; repeat split.
    constructor; exact P.
  - cbn [hd_error] in H. unfold past_eol.
    destruct (N.eqb_spec c 13) as [->|N13].
    + destruct l as [|c2 l2].
      * exists [13%N], []; cbn [app length]. rewrite Nat.add_1_r. repeat split.
        apply FL_cr; [exact P|discriminate].
      * destruct (N.eqb_spec c2 10) as [->|N10].
        -- exists [13%N; 10%N], l2; cbn [app length]. replace (off + 2) with (S (S off)) by lia.
           repeat split. apply FL_crlf; exact P.
        -- exists [13%N], (c2 :: l2); cbn [app length]. rewrite Nat.add_1_r. repeat split.
           apply FL_cr; [exact P|]. cbn [hd_error]; unfold LF; congruence.
    + destruct (N.eqb_spec c 10) as [->|N10].
      * exists [10%N], l; cbn [app length]. rewrite Nat.add_1_r. repeat split.
        apply FL_lf; exact P.
      * exfalso. destruct H as [H|[H|H]]; [discriminate| |]; injection H as H; unfold LF, CR in H; congruence.
Qed.

Lemma FirstLine_prefix buf l r : FirstLine buf l r -> exists t, buf = l ++ t.
Proof.
  destruct 1; [exists []; rewrite app_nil_r; reflexivity|eexists; reflexivity..].
Qed.

Lemma blank_plain c : Blank c -> c <> LF /\ c <> CR.
Proof. intros [->| ->]; split; discriminate. Qed.

Section Comments.
Variable o : options.
Local Notation cs := (comment_chars o).
Hypothesis no_eol : ~ In LF cs /\ ~ In CR cs.

Lemma not_comment_first bl c r : Forall Blank bl -> ~ Blank c -> ~ In c cs ->
  Leading cs (bl ++ c :: r) [] (bl ++ c :: r).
Proof.
  intros F N I. constructor. intros l r' FL (bl' & c' & x & -> & F' & N' & I').
  destruct (FirstLine_prefix _ _ _ FL) as (t & E).
  rewrite <- app_assoc in E; cbn [app] in E.
  destruct (blanks_unique bl bl' c c' _ _ E) as (_ & -> & _); auto.
Qed.

Lemma not_comment_blank b : Forall Blank b -> Leading cs b [] b.
Proof.
  intros F. constructor. intros l r' FL (bl' & c' & x & -> & F' & N' & I').
  destruct (FirstLine_prefix _ _ _ FL) as (t & ->).
  rewrite <- app_assoc in F; apply Forall_app in F; destruct F as [_ F].
  inversion F; contradiction.
Qed.

(** The marker reported: the first one, unless one was known already. *)
Definition marker (ch : byte) (ls : list bytes) (ch' : byte) : Prop :=
  if (ch =? 0)%N then
    match ls with
    | [] => ch' = 0%N
    | l :: _ => exists c, Marks c l /\ In c cs /\ (c <> 0%N -> ch' = c)
    end
  else ch' = ch.

Lemma skip_ok : forall fuel l off ch n, length l <= fuel ->
  exists eaten ls rest off' ch',
    skip_loop fuel o l off ch n = (off', ch', n + length ls) /\
    l = eaten ++ rest /\ off' = off + length eaten /\ marker ch ls ch' /\
    (Leading cs l ls rest \/
     (rest = [] /\ exists b, b <> [] /\ Forall Blank b /\ Leading cs l ls b)).
Proof.
  assert (Stop : forall ch, marker ch [] ch).
  { intros ch; unfold marker; destruct (N.eqb_spec ch 0); auto. }
  destruct no_eol as [noLF noCR].
  induction fuel as [|fuel IH]; intros l off ch n Hf.
  - destruct l; [|cbn [length] in Hf; lia].
    exists [], [], [], off, ch. cbn [skip_loop app length]. rewrite !Nat.add_0_r.
    repeat split; auto. left. apply not_comment_blank; constructor.
  - destruct l as [|c0 l0] eqn:L.
    { exists [], [], [], off, ch. cbn [skip_loop app length]. rewrite !Nat.add_0_r.
      repeat split; auto. left. apply not_comment_blank; constructor. }
    rewrite <- L in *.
    assert (NE : l <> []) by (subst l; discriminate).
    assert (Step : skip_loop (S fuel) o l off ch n =
      let (l1, off1) := past_blanks l off in
      match l1 with
      | [] => (off1, ch, n)
      | c :: _ =>
          if negb (is_comment_char o c) then (off, ch, n)
          else
            let ch' := if (ch =? 0)%N then c else ch in
            let (l2, off2) := to_eol l1 off1 in
            let (l3, off3) := past_eol l2 off2 in
            skip_loop fuel o l3 off3 ch' (S n)
      end) by (subst l; reflexivity).
    rewrite Step; clear Step.
    destruct (past_blanks_ok l off) as (bl & F & E & P). rewrite P.
    destruct (drop_blanks_split l) as (_ & _ & _ & NB).
    destruct (drop_blanks l) as [|c r] eqn:D.
    + rewrite app_nil_r in E. exists bl, [], [], (off + length bl), ch.
      cbn [length]; rewrite Nat.add_0_r, app_nil_r. repeat split; auto.
      right. split; [reflexivity|]. exists l. rewrite <- E in F.
      split; [exact NE|split; [exact F|apply not_comment_blank; exact F]].
    + specialize (NB c r eq_refl).
      destruct (is_comment_char o c) eqn:CC; cbn [negb].
      * apply comment_char_in in CC.
        destruct (to_eol_ok (c :: r) (off + length bl)) as (p & r2 & E2 & Pp & Hr & T).
        rewrite T.
        assert (Pbl : plain_text (bl ++ p)).
        { apply Forall_app; split; [|exact Pp].
          eapply Forall_impl; [|exact F]. intros a; apply blank_plain. }
        destruct (past_eol_ok (bl ++ p) r2 (off + length bl + length p) Hr Pbl)
          as (t & r3 & E3 & T3 & FL). rewrite T3.
        assert (Hp : exists p', p = c :: p').
        { destruct p as [|x p']; [|cbn [app] in E2; injection E2 as <- _; eauto].
          exfalso. cbn [app] in E2. subst r2. cbn [hd_error] in Hr.
          destruct Hr as [Hr|[Hr|Hr]]; [discriminate| |]; injection Hr as Hr; subst c;
            contradiction. }
        destruct Hp as (p' & ->).
        assert (El : l = (bl ++ c :: p') ++ r2) by (rewrite <- app_assoc, <- E2; exact E).
        rewrite <- El in FL.
        assert (CL : CommentLine cs (bl ++ c :: p')) by (exists bl, c, p'; auto).
        destruct (IH r3 (off + length bl + length (c :: p') + length t)
                    (if (ch =? 0)%N then c else ch) (S n))
          as (eaten & ls & rest & off' & ch' & Q1 & Q2 & Q3 & Q4 & Q5).
        { rewrite El, E3, !app_length in Hf; cbn [length] in Hf. lia. }
        exists ((bl ++ c :: p') ++ t ++ eaten), ((bl ++ c :: p') :: ls), rest, off', ch'.
        split; [change (length ((bl ++ c :: p') :: ls)) with (S (length ls));
                replace (n + S (length ls)) with (S n + length ls) by lia; exact Q1|].
        split; [rewrite El, E3, Q2, !app_assoc; reflexivity|].
        split; [rewrite Q3, !app_length; lia|].
        split.
        { revert Q4. unfold marker. destruct (N.eqb_spec ch 0) as [->|NZ].
          - intros M. exists c. split; [exists bl, p'; auto|]. split; [exact CC|].
            intros NZ. destruct (N.eqb_spec c 0); [contradiction|exact M].
          - destruct (N.eqb_spec ch 0); [contradiction|]. auto. }
        destruct Q5 as [Q5|(-> & b & NB' & Fb & Q5)].
        { left. eapply Leading_line; eauto. }
        { right. split; [reflexivity|]. exists b. repeat split; auto. eapply Leading_line; eauto. }
      * exists [], [], l, off, ch. cbn [app length]; rewrite !Nat.add_0_r. repeat split; auto.
        left. rewrite E. apply not_comment_first; auto.
        intros I; apply comment_char_in in I; congruence.
Qed.
End Comments.

(** ---- line endings ---- *)
Lemma crlf_cons c r : HasCRLF (c :: r) <-> (c = CR /\ hd_error r = Some LF) \/ HasCRLF r.
Proof.
  unfold HasCRLF; split.
  - intros ([|i] & A & B).
    + left. cbn [nth_error] in A, B. injection A as ->. destruct r; auto.
    + right. exists i; auto.
  - intros [(-> & H)|(i & A & B)]; [exists 0|exists (S i); auto].
    split; [reflexivity|destruct r; exact H].
Qed.

Lemma cr_cons c r : HasCR (c :: r) <-> (c = CR /\ hd_error r <> Some LF) \/ HasCR r.
Proof.
  unfold HasCR; split.
  - intros ([|i] & A & B).
    + left. cbn [nth_error] in A, B. injection A as ->. destruct r; auto.
    + right. exists i; auto.
  - intros [(-> & H)|(i & A & B)]; [exists 0|exists (S i); auto].
    split; [reflexivity|destruct r; exact H].
Qed.

(** The bare LFs after a byte that is not CR. *)
Lemma lf_cons c r : c <> CR -> HasLF (c :: r) <-> c = LF \/ HasLF r.
Proof.
  intros N. unfold HasLF; split.
  - intros ([|i] & A & B).
    + left. injection A as ->. reflexivity.
    + right. exists i. split; [exact A|]. destruct i; [auto|right].
      destruct B as [B|B]; [discriminate|].
      replace (S (S i) - 1) with (S i) in B by lia.
      replace (S i - 1) with i by lia. exact B.
  - intros [->|(i & A & B)]; [exists 0; auto|]. exists (S i). split; [exact A|right].
    replace (S i - 1) with i by lia. destruct i; [cbn [nth_error]; congruence|].
    destruct B as [B|B]; [discriminate|]. replace (S i - 1) with i in B by lia. exact B.
Qed.

Lemma lf_after_cr c r : c <> LF -> HasLF (CR :: c :: r) <-> HasLF (c :: r).
Proof.
  intros N. unfold HasLF; split.
  - intros ([|[|i]] & A & B).
    + discriminate.
    + cbn [nth_error] in A. congruence.
    + exists (S i). split; [exact A|right]. destruct B as [B|B]; [discriminate|].
      replace (S (S i) - 1) with (S i) in B by lia. replace (S i - 1) with i by lia. exact B.
  - intros ([|i] & A & B).
    + cbn [nth_error] in A. congruence.
    + exists (S (S i)). split; [exact A|right]. destruct B as [B|B]; [discriminate|].
      replace (S (S i) - 1) with (S i) by lia. replace (S i - 1) with i in B by lia. exact B.
Qed.

Lemma lf_after_crlf r : HasLF (CR :: LF :: r) <-> HasLF r.
Proof.
  unfold HasLF; split.
  - intros ([|[|i]] & A & B).
    + discriminate.
    + destruct B as [B|B]; [discriminate|]. cbn in B; congruence.
    + exists i. split; [exact A|]. destruct i; [auto|right].
      destruct B as [B|B]; [discriminate|].
      replace (S (S (S i)) - 1) with (S (S i)) in B by lia. replace (S i - 1) with i by lia. exact B.
  - intros (i & A & B). exists (S (S i)). split; [exact A|right].
    replace (S (S i) - 1) with (S i) by lia. destruct i; [discriminate|].
    destruct B as [B|B]; [discriminate|]. replace (S i - 1) with i in B by lia. exact B.
Qed.

Lemma ending_loop_ok : forall n l a b c, length l <= n ->
  exists a' b' c', ending_loop l a b c = (a', b', c') /\ (a' = true <-> a = true \/ HasCRLF l) /\ (b' = true <-> b = true \/ HasLF l) /\ (c' = true <-> c = true \/ HasCR l).
Proof.
  assert (Nil : forall a b c, exists a' b' c', ending_loop [] a b c = (a', b', c') /\ (a' = true <-> a = true \/ HasCRLF []) /\ (b' = true <-> b = true \/ HasLF []) /\ (c' = true <-> c = true \/ HasCR [])).
  { intros a b c; exists a, b, c. split; [reflexivity|].
    split; [|split]; (split; [intros; left; assumption|]); intros [H|(i & H & _)]; auto;
      destruct i; discriminate. }
  induction n as [|n IH]; intros l a b c Hn.
  - destruct l; [apply Nil|cbn [length] in Hn; lia].
  - destruct l as [|x r]; [apply Nil|]. cbn [length] in Hn.
    destruct (N.eq_dec x 13) as [->|N13].
    + destruct r as [|y r].
      * exists a, b, true. split; [reflexivity|].
        change 13%N with CR. rewrite crlf_cons, cr_cons. cbn [hd_error].
        assert (Z : ~ HasCRLF [] /\ ~ HasLF [CR]).
        { split; [intros (i & H & _); destruct i; discriminate|].
          intros ([|i] & H & _); [discriminate|destruct i; discriminate]. }
        destruct Z as [Z1 Z2].
        split; [|split].
        -- split; [auto|]. intros [H|[(_ & H)|H]]; [auto|discriminate|contradiction].
        -- split; [auto|]. intros [H|H]; [auto|contradiction].
        -- split; [|reflexivity]. intros _. right; left; split; [reflexivity|discriminate].
      * destruct (N.eq_dec y 10) as [->|N10].
        -- destruct (IH r true b c) as (a' & b' & c' & E & A & B & C); [cbn [length] in Hn; lia|].
           exists a', b', c'. split; [exact E|].
           change 13%N with CR; change 10%N with LF.
           rewrite lf_after_crlf, !crlf_cons, !cr_cons; cbn [hd_error].
           assert (X : LF <> CR) by discriminate.
           split; [|split; [exact B|]].
           ++ rewrite A. split; intros _; [right; left; auto|left; reflexivity].
           ++ rewrite C. split; [intros [H|H]; auto|].
              intros [H|[(_ & H)|[(H & _)|H]]]; auto; congruence.
        -- destruct (IH (y :: r) a b true) as (a' & b' & c' & E & A & B & C); [lia|].
           exists a', b', c'.
           split.
           { rewrite <- E. change (ending_loop (13%N :: y :: r) a b c) with
               (if (y =? 10)%N then ending_loop r true b c else ending_loop (y :: r) a b true).
             destruct (N.eqb_spec y 10); [contradiction|reflexivity]. }
           change 13%N with CR. rewrite lf_after_cr by exact N10.
           rewrite (crlf_cons CR), (cr_cons CR); cbn [hd_error].
           split; [|split; [exact B|]].
           ++ rewrite A. split; [intros [H|H]; auto|].
              intros [H|[(_ & H)|H]]; auto. injection H as H; contradiction.
           ++ rewrite C. split; intros _; [|left; reflexivity].
              right; left; split; [reflexivity|]. unfold LF; congruence.
    + assert (NC : x <> CR) by exact N13.
      pose proof (lf_cons x r NC) as R1; pose proof (crlf_cons x r) as R2; pose proof (cr_cons x r) as R3.
      destruct (N.eq_dec x 10) as [->|N10].
      * destruct (IH r a true c) as (a' & b' & c' & E & A & B & C); [lia|].
        exists a', b', c'. split; [exact E|]. rewrite R1, R2, R3. split; [|split].
        -- rewrite A. split; [intros [H|H]; auto|]. intros [H|[(H & _)|H]]; auto; contradiction.
        -- rewrite B. split; intros _; [right; left; reflexivity|left; reflexivity].
        -- rewrite C. split; [intros [H|H]; auto|]. intros [H|[(H & _)|H]]; auto; contradiction.
      * destruct (IH r a b c) as (a' & b' & c' & E & A & B & C); [lia|].
        exists a', b', c'. split.
        { rewrite <- E. cbn [ending_loop].
          destruct (N.eqb_spec x 13); [contradiction|].
          destruct (N.eqb_spec x 10); [contradiction|reflexivity]. }
        rewrite R1, R2, R3. split; [|split].
        -- rewrite A. split; [intros [H|H]; auto|]. intros [H|[(H & _)|H]]; auto; contradiction.
        -- rewrite B. split; [intros [H|H]; auto|]. intros [H|[H|H]]; auto; contradiction.
        -- rewrite C. split; [intros [H|H]; auto|]. intros [H|[(H & _)|H]]; auto; contradiction.
Qed.

Lemma line_ending_ok buf :
  match detect_line_ending buf with
  | LE_LF => HasLF buf /\ ~ HasCRLF buf /\ ~ HasCR buf
  | LE_CRLF => HasCRLF buf /\ ~ HasLF buf /\ ~ HasCR buf
  | LE_CR => HasCR buf /\ ~ HasLF buf /\ ~ HasCRLF buf
  | LE_UNKNOWN => ~ HasLF buf /\ ~ HasCRLF buf /\ ~ HasCR buf
  | LE_MIXED => (HasLF buf /\ HasCRLF buf) \/ (HasLF buf /\ HasCR buf) \/ (HasCRLF buf /\ HasCR buf)
  end.
Proof.
  unfold detect_line_ending.
  destruct (ending_loop_ok (length buf) buf false false false (le_n _))
    as (a & b & c & E & A & B & C).
  rewrite E. clear E.
  assert (F : forall P, (false = true <-> false = true \/ P) -> ~ P) by (intros P [_ H] p; discriminate (H (or_intror p))).
  assert (T : forall P, (true = true <-> false = true \/ P) -> P)
    by (intros P [H _]; destruct (H eq_refl) as [X|X]; [discriminate|exact X]).
  destruct a, b, c; cbn;
    repeat match goal with
    | H : true = true <-> _ |- _ => apply T in H
    | H : false = true <-> _ |- _ => apply F in H
    end; tauto.
Qed.
