(** Row finding: the rows are the kept lines of the sample. *)
From Verif Require Import Base DialectSpec DialectModel DialectObs.

Lemma quote_is d c : is_quote d c = is (q_quote (quoting_of d)) c.
Proof.
  unfold is_quote, quoting_of; cbn [q_quote].
  destruct (quote_char d =? 0)%N; reflexivity.
Qed.

Lemma escape_is d c : is_escape d c = is (q_escape (quoting_of d)) c.
Proof.
  unfold is_escape, quoting_of; cbn [q_escape].
  destruct (double_quote d); [reflexivity|].
  destruct (escape_char d =? 0)%N; reflexivity.
Qed.

Lemma quote_next d c c2 r : is_quote d c = true ->
  next_is (c2 :: r) (quote_char d) = is (q_quote (quoting_of d)) c2.
Proof.
  unfold is_quote, quoting_of; cbn [q_quote next_is].
  destruct (quote_char d =? 0)%N; [discriminate|reflexivity].
Qed.

(** The ways one turn of a scan can go. *)
Inductive turn (g : quoting) (inq : bool) (c : byte) (r : bytes) : Prop :=
| T_pair c2 r' : r = c2 :: r' ->
    free g inq (c :: r) = false :: false :: free g inq r' -> turn g inq c r
| T_toggle : free g inq (c :: r) = false :: free g (negb inq) r -> turn g inq c r
| T_text : free g inq (c :: r) = negb inq :: free g inq r -> turn g inq c r.

Lemma free_length g : forall n l inq, length l <= n -> length (free g inq l) = length l.
Proof.
  induction n as [|n IH]; intros l inq Hn.
  - destruct l; [reflexivity|cbn [length] in Hn; lia].
  - destruct l as [|c [|c2 r]]; [reflexivity|reflexivity|].
    cbn [length] in Hn.
    change (free g inq (c :: c2 :: r)) with
      (if is (q_escape g) c then false :: false :: free g inq r
       else if is (q_quote g) c then
         if q_doubled g && is (q_quote g) c2 then false :: false :: free g inq r
         else false :: free g (negb inq) (c2 :: r)
       else negb inq :: free g inq (c2 :: r)).
    destruct (is (q_escape g) c); [cbn [length]; rewrite IH by lia; reflexivity|].
    destruct (is (q_quote g) c).
    + destruct (q_doubled g && is (q_quote g) c2);
        cbn [length]; rewrite IH by (cbn [length]; lia); reflexivity.
    + cbn [length]; rewrite IH by (cbn [length]; lia); reflexivity.
Qed.

Lemma free_len g inq l : length (free g inq l) = length l.
Proof. apply (free_length g (length l)); lia. Qed.

Lemma free_step g inq c c2 r : free g inq (c :: c2 :: r) =
  if is (q_escape g) c then false :: false :: free g inq r
  else if is (q_quote g) c then
    if q_doubled g && is (q_quote g) c2 then false :: false :: free g inq r
    else false :: free g (negb inq) (c2 :: r)
  else negb inq :: free g inq (c2 :: r).
Proof. reflexivity. Qed.

(** The turns of both loops follow the same scheme. *)
Definition scan {A} (d : dialect) (c : byte) (r : bytes)
    (pair : byte -> bytes -> A) (toggle : A) (text : A) (stuck : A) : A :=
  let plain :=
    if is_quote d c then
      if double_quote d && next_is r (quote_char d) then
        match r with c2 :: r' => pair c2 r' | [] => stuck end
      else toggle
    else text in
  if is_escape d c then match r with c2 :: r' => pair c2 r' | [] => plain end else plain.

Lemma scan_turn {A} d c r (pair : byte -> bytes -> A) toggle text stuck (P : A -> Prop) inq :
  (forall c2 r', r = c2 :: r' ->
     free (quoting_of d) inq (c :: r) = false :: false :: free (quoting_of d) inq r' ->
     P (pair c2 r')) ->
  (free (quoting_of d) inq (c :: r) = false :: free (quoting_of d) (negb inq) r -> P toggle) ->
  (free (quoting_of d) inq (c :: r) = negb inq :: free (quoting_of d) inq r -> P text) ->
  P (scan d c r pair toggle text stuck).
Proof.
  intros Hp Ht Hx; unfold scan.
  destruct r as [|c2 r].
  - cbn [next_is]; rewrite andb_false_r.
    assert (E : free (quoting_of d) inq [c] = [negb (is_quote d c) && negb inq])
      by (rewrite quote_is; reflexivity).
    destruct (is_escape d c), (is_quote d c); (apply Ht || apply Hx); exact E.
  - pose proof (free_step (quoting_of d) inq c c2 r) as E.
    rewrite <- escape_is, <- quote_is in E.
    destruct (is_escape d c); [exact (Hp c2 r eq_refl E)|].
    destruct (is_quote d c) eqn:Q; [|exact (Hx E)].
    rewrite (quote_next d c c2 r Q).
    change (q_doubled (quoting_of d)) with (double_quote d) in E.
    destruct (double_quote d && is (q_quote (quoting_of d)) c2);
      [exact (Hp c2 r eq_refl E)|exact (Ht E)].
Qed.

(** ---- comment lines ---- *)
Lemma blank_ok c : blank c = true <-> Blank c.
Proof.
  unfold blank, Blank, SPACE, TAB.
  rewrite orb_true_iff, !N.eqb_eq; reflexivity.
Qed.

Lemma drop_blanks_split l : exists bl, l = bl ++ drop_blanks l /\ Forall Blank bl /\
  (forall c r, drop_blanks l = c :: r -> ~ Blank c).
Proof.
  induction l as [|c l IH].
  - exists []; cbn [drop_blanks app]; repeat split; [constructor|discriminate].
  - cbn [drop_blanks]; destruct (blank c) eqn:B.
    + destruct IH as (bl & E & F & H); exists (c :: bl); repeat split.
      * cbn [app]; congruence.
      * constructor; [apply blank_ok; exact B|exact F].
      * exact H.
    + exists []; repeat split; [constructor|].
      intros c' r E; injection E as -> ->. rewrite <- blank_ok, B; discriminate.
Qed.

Lemma blanks_unique : forall (a b : bytes) x y r s, a ++ x :: r = b ++ y :: s ->
  Forall Blank a -> Forall Blank b -> ~ Blank x -> ~ Blank y -> a = b /\ x = y /\ r = s.
Proof.
  induction a as [|p a IH]; intros b x y r s E Fa Fb Nx Ny; destruct b as [|p' b].
  - cbn [app] in E; injection E as -> ->; auto.
  - cbn [app] in E; injection E as -> E. inversion Fb; subst; contradiction.
  - cbn [app] in E; injection E as -> E. inversion Fa; subst; contradiction.
  - cbn [app] in E; injection E as -> E. inversion Fa; inversion Fb; subst.
    destruct (IH _ _ _ _ _ E) as (-> & -> & ->); auto.
Qed.

Lemma comment_char_in o c : is_comment_char o c = true <-> In c (comment_chars o).
Proof.
  unfold is_comment_char; rewrite existsb_exists; split.
  - intros (x & I & E); apply N.eqb_eq in E; subst; exact I.
  - intros I; exists c; rewrite N.eqb_refl; auto.
Qed.

Lemma comment_line_ok o l : is_comment_line o l = true <-> CommentLine (comment_chars o) l.
Proof.
  unfold is_comment_line.
  destruct (drop_blanks_split l) as (bl & E & F & H).
  split.
  - destruct (_ || _); [discriminate|].
    destruct (drop_blanks l) as [|c r] eqn:D; [discriminate|].
    intros C; exists bl, c, r; repeat split; auto.
    + exact (H c r eq_refl).
    + apply comment_char_in; exact C.
  - intros (bl' & c & r & E' & F' & N & I).
    destruct (comment_chars o) as [|k ks] eqn:K; [destruct I|].
    destruct l as [|x l]; [destruct bl'; discriminate|]. cbn [orb].
    destruct (drop_blanks (x :: l)) as [|c' r'] eqn:D.
    + rewrite app_nil_r in E. exfalso. rewrite E' in E; subst bl.
      apply Forall_app in F; destruct F as [_ F]; inversion F; contradiction.
    + destruct (blanks_unique bl bl' c' c r' r) as (_ & -> & _); auto; try congruence.
      * exact (H c' r' eq_refl).
      * apply comment_char_in; rewrite K; exact I.
Qed.

(** ---- the row loop ---- *)
Section Rows.
Variables (o : options) (d : dialect) (buf : bytes).
Local Notation g := (quoting_of d).

Definition keep (p : nat * nat) : bool :=
  (fst p <? snd p) && negb (is_comment_line o (slice (fst p) (snd p) buf)).

(** The scan stands before byte i, with this state. *)
Definition at_ (i : nat) (inq : bool) (rest : bytes) : Prop :=
  exists p f, buf = p ++ rest /\ length p = i /\
    free g false buf = f ++ free g inq rest /\ length f = i.

Lemma at_start : at_ 0 false buf.
Proof. exists [], []; repeat split. Qed.

Lemma at_skip1 i inq inq' c r m : at_ i inq (c :: r) ->
  free g inq (c :: r) = m :: free g inq' r -> at_ (S i) inq' r.
Proof.
  intros (p & f & E & L & E2 & L2) H.
  exists (p ++ [c]), (f ++ [m]). rewrite <- !app_assoc, !app_length; cbn [app length].
  rewrite <- H; repeat split; auto; lia.
Qed.

Lemma at_skip2 i inq inq' c c2 r m m2 : at_ i inq (c :: c2 :: r) ->
  free g inq (c :: c2 :: r) = m :: m2 :: free g inq' r -> at_ (S (S i)) inq' r.
Proof.
  intros (p & f & E & L & E2 & L2) H.
  exists (p ++ [c; c2]), (f ++ [m; m2]). rewrite <- !app_assoc, !app_length; cbn [app length].
  rewrite <- H; repeat split; auto; lia.
Qed.

Lemma at_byte i inq c r : at_ i inq (c :: r) -> nth_error buf i = Some c.
Proof.
  intros (p & f & E & L & _). rewrite E, nth_error_app2 by lia.
  rewrite <- L, Nat.sub_diag; reflexivity.
Qed.

Lemma at_next i inq c r : at_ i inq (c :: r) -> nth_error buf (S i) = hd_error r.
Proof.
  intros (p & f & E & L & _). rewrite E, nth_error_app2 by lia.
  replace (S i - length p) with 1 by lia; destruct r; reflexivity.
Qed.

Lemma at_next2 i inq c c2 r : at_ i inq (c :: c2 :: r) -> nth_error buf (S i) = Some c2.
Proof. intros A; rewrite (at_next _ _ _ _ A); reflexivity. Qed.

Lemma at_mark i inq rest m l : at_ i inq rest -> free g inq rest = m :: l ->
  FreeAt g buf i <-> m = true.
Proof.
  intros (p & f & E & L & E2 & L2) H. unfold FreeAt.
  rewrite E2, nth_error_app2 by lia. rewrite L2, Nat.sub_diag, H; cbn [nth_error].
  split; [intros X; injection X; auto|intros ->; reflexivity].
Qed.

Lemma at_mark2 i inq rest m m2 l : at_ i inq rest -> free g inq rest = m :: m2 :: l ->
  FreeAt g buf (S i) <-> m2 = true.
Proof.
  intros (p & f & E & L & E2 & L2) H. unfold FreeAt.
  rewrite E2, nth_error_app2 by lia. replace (S i - length f) with 1 by lia.
  rewrite H; cbn [nth_error].
  split; [intros X; injection X; auto|intros ->; reflexivity].
Qed.

Lemma at_len i inq rest : at_ i inq rest -> length buf = i + length rest.
Proof. intros (p & f & -> & L & _). rewrite app_length; lia. Qed.

Lemma line_end_bound i : LineEnd g buf i -> i < length buf.
Proof.
  intros [_ [H|[H _]]]; apply nth_error_Some; congruence.
Qed.

Lemma nth_CR i c : nth_error buf i = Some c -> nth i buf 0%N = c.
Proof. intros H; exact (nth_error_nth buf i 0%N H). Qed.

Lemma prev_cr i : 0 < i <= length buf ->
  (nth (i - 1) buf 0 =? 13)%N = true <-> nth_error buf (i - 1) = Some CR.
Proof.
  intros B. rewrite N.eqb_eq. split; intros H.
  - rewrite (nth_error_nth' buf 0%N) by lia. rewrite H; reflexivity.
  - apply nth_CR in H; exact H.
Qed.

(** What find_rows makes of a state of the loop. *)
Definition finish (res : list (nat * nat) * nat) : list (nat * nat) :=
  let (rows, start) := res in
  if (start <? length buf) && (length rows <? max_rows o) then
    if negb (is_comment_line o (slice start (length buf) buf))
    then rows ++ [(start, length buf)] else rows
  else rows.

Lemma add_row_keep s e rows : add_row o buf s e rows = rows ++ filter keep [(s, e)].
Proof.
  unfold add_row; cbn [filter]; unfold keep; cbn [fst snd].
  destruct (_ && _); [reflexivity|rewrite app_nil_r; reflexivity].
Qed.

Lemma rows_loop_scan rest i start inq rows : rows_loop o d buf rest i start inq rows =
  match rest with
  | [] => (rows, start)
  | c :: r =>
      scan d c r (fun _ r' => rows_loop o d buf r' (S (S i)) start inq rows)
        (rows_loop o d buf r (S i) start (negb inq) rows)
        (if negb inq then
          if (c =? 10)%N then
            let e := if (start <? i) && (nth (i - 1) buf 0 =? 13)%N then i - 1 else i in
            let rows' := add_row o buf start e rows in
            if max_rows o <=? length rows' then (rows', S i)
            else rows_loop o d buf r (S i) (S i) inq rows'
          else if (c =? 13)%N && negb (next_is r 10%N) then
            let rows' := add_row o buf start i rows in
            if max_rows o <=? length rows' then (rows', S i)
            else rows_loop o d buf r (S i) (S i) inq rows'
          else rows_loop o d buf r (S i) start inq rows
        else rows_loop o d buf r (S i) start inq rows)
        (rows, start)
  end.
Proof. destruct rest; reflexivity. Qed.

Lemma firstn_full {A} n (a b : list A) : n <= length a -> firstn n (a ++ b) = firstn n a.
Proof.
  intros H. rewrite firstn_app. replace (n - length a) with 0 by lia.
  rewrite firstn_O, app_nil_r; reflexivity.
Qed.

Lemma Lines_exist : forall n s, length buf - s <= n -> exists ls, Lines g buf s ls.
Proof.
  assert (D : forall i, LineEnd g buf i \/ ~ LineEnd g buf i).
  { intros i. unfold LineEnd, FreeAt.
    assert (X : forall (a b : option byte), a = b \/ a <> b).
    { intros a b; destruct a as [a|], b as [b|]; try (right; congruence); [|left; reflexivity].
      destruct (N.eq_dec a b); [left|right]; congruence. }
    assert (Y : forall (a b : option bool), a = b \/ a <> b).
    { intros [[|]|] [[|]|]; (left; congruence) || (right; congruence). }
    destruct (Y (nth_error (free g false buf) i) (Some true)); [|right; tauto].
    destruct (X (nth_error buf i) (Some LF)); [left; tauto|].
    destruct (X (nth_error buf i) (Some CR)); [|right; tauto].
    destruct (X (nth_error buf (S i)) (Some LF)); [right; tauto|left; tauto]. }
  assert (F : forall n s, (forall i, s <= i < s + n -> ~ LineEnd g buf i) \/
     exists i, s <= i < s + n /\ LineEnd g buf i /\ forall j, s <= j < i -> ~ LineEnd g buf j).
  { induction n as [|n IH]; intros s; [left; intros; lia|].
    destruct (D s) as [H|H].
    - right; exists s; split; [lia|split; [exact H|intros; lia]].
    - destruct (IH (S s)) as [N|(i & B & L & M)].
      + left; intros i B. destruct (Nat.eq_dec i s); [subst; exact H|apply N; lia].
      + right; exists i; split; [lia|split; [exact L|]].
        intros j Bj. destruct (Nat.eq_dec j s); [subst; exact H|apply M; lia]. }
  induction n as [|n IH]; intros s B; [exists []; constructor; lia|].
  destruct (Nat.le_gt_cases (length buf) s) as [G|G]; [exists []; constructor; lia|].
  destruct (F (length buf - s) s) as [N|(i & Bi & L & M)].
  - exists [(s, length buf)]; constructor; [exact G|].
    intros i Hi L. pose proof (line_end_bound _ L). apply (N i); [lia|exact L].
  - destruct (IH (S i)) as (ls & Hl); [lia|].
    assert (X : {s < i /\ nth_error buf i = Some LF /\ nth_error buf (i - 1) = Some CR} +
                {~ (s < i /\ nth_error buf i = Some LF /\ nth_error buf (i - 1) = Some CR)}).
    { destruct (lt_dec s i); [|right; tauto].
      destruct (nth_error buf i) as [x|]; [|right; intros (_ & ? & _); discriminate].
      destruct (N.eq_dec x LF); [subst|right; intros (_ & E & _); congruence].
      destruct (nth_error buf (i - 1)) as [y|]; [|right; intros (_ & _ & ?); discriminate].
      destruct (N.eq_dec y CR); [subst; left; auto|right; intros (_ & _ & E); congruence]. }
    destruct X as [X|X]; eexists; eapply Lines_cons with (i := i); eauto; try lia.
    + left; destruct X as (? & ? & ?); repeat split; auto.
    + right; split; auto.
Qed.

Hypothesis max_pos : 0 < max_rows o.

Lemma rows_ok : forall n rest i start inq rows, length rest <= n ->
  at_ i inq rest -> start <= i -> (forall j, start <= j < i -> ~ LineEnd g buf j) ->
  length rows < max_rows o ->
  exists ls, Lines g buf start ls /\
    finish (rows_loop o d buf rest i start inq rows) =
    firstn (max_rows o) (rows ++ filter keep ls).
Proof.
  induction n as [|n IH]; intros rest i start inq rows Hn A Hs Hno Hr.
  - (* the end *)
    destruct rest; [|cbn [length] in Hn; lia]. clear Hn.
    pose proof (at_len _ _ _ A) as L; cbn [length] in L.
    rewrite rows_loop_scan. unfold finish.
    destruct (Nat.ltb_spec start (length buf)) as [B|B]; cbn [andb].
    + exists [(start, length buf)]. split.
      * constructor; [exact B|]. intros j Hj LE. pose proof (line_end_bound _ LE).
        apply (Hno j); [lia|exact LE].
      * cbn [filter]; unfold keep at 1; cbn [fst snd].
        destruct (Nat.ltb_spec start (length buf)); [|lia]; cbn [andb].
        destruct (Nat.ltb_spec (length rows) (max_rows o)); [|lia].
        destruct (negb _).
        -- rewrite firstn_all2; [reflexivity|rewrite app_length; cbn [length]; lia].
        -- rewrite app_nil_r, firstn_all2 by lia; reflexivity.
    + exists []. split; [constructor; lia|].
      cbn [filter]; rewrite app_nil_r, firstn_all2 by lia; reflexivity.
  - destruct rest as [|c r]; [apply (IH [] i start inq rows); auto; cbn [length]; lia|].
    cbn [length] in Hn. rewrite rows_loop_scan.
    apply (scan_turn d c r _ _ _ _ (fun res => exists ls, Lines g buf start ls /\
      finish res = firstn (max_rows o) (rows ++ filter keep ls)) inq).
    + intros c2 r' -> E. cbn [length] in Hn.
      apply IH; auto; try lia.
      * exact (at_skip2 _ _ _ _ _ _ _ _ A E).
      * intros j Hj [F F2].
        destruct (Nat.eq_dec j i) as [->|]; [apply (at_mark _ _ _ _ _ A E) in F; discriminate|].
        destruct (Nat.eq_dec j (S i)) as [->|]; [apply (at_mark2 _ _ _ _ _ _ A E) in F; discriminate|].
        apply (Hno j); [lia|split; [exact F|exact F2]].
    + intros E. apply IH; auto; try lia.
      * exact (at_skip1 _ _ _ _ _ _ A E).
      * intros j Hj [F F2].
        destruct (Nat.eq_dec j i) as [->|]; [apply (at_mark _ _ _ _ _ A E) in F; discriminate|].
        apply (Hno j); [lia|split; [exact F|exact F2]].
    + intros E.
      pose proof (at_skip1 _ _ _ _ _ _ A E) as A'.
      pose proof (at_mark _ _ _ _ _ A E) as M.
      pose proof (at_byte _ _ _ _ A) as Bc.
      pose proof (at_next _ _ _ _ A) as Bn.
      pose proof (at_len _ _ _ A) as Ln; cbn [length] in Ln.
      assert (Quiet : ~ LineEnd g buf i -> exists ls, Lines g buf start ls /\
          finish (rows_loop o d buf r (S i) start inq rows) =
          firstn (max_rows o) (rows ++ filter keep ls)).
      { intros Q. apply IH; auto; try lia.
        intros j Hj LE. destruct (Nat.eq_dec j i) as [->|]; [exact (Q LE)|].
        apply (Hno j); [lia|exact LE]. }
      assert (Ends : forall e, LineEnd g buf i -> TextEnd buf start i e ->
          exists ls, Lines g buf start ls /\
          finish (let rows' := add_row o buf start e rows in
                  if max_rows o <=? length rows' then (rows', S i)
                  else rows_loop o d buf r (S i) (S i) inq rows') =
          firstn (max_rows o) (rows ++ filter keep ls)).
      { intros e LE TE. cbv zeta. rewrite add_row_keep.
        destruct (Nat.leb_spec (max_rows o) (length (rows ++ filter keep [(start, e)]))) as [Full|Room].
        - destruct (Lines_exist (length buf) (S i)) as (ls & Hl); [lia|].
          exists ((start, e) :: ls). split; [econstructor; eauto|].
          change ((start, e) :: ls) with ([(start, e)] ++ ls).
          rewrite filter_app, app_assoc, firstn_full by exact Full.
          unfold finish.
          destruct (Nat.ltb_spec (length (rows ++ filter keep [(start, e)])) (max_rows o)); [lia|].
          rewrite andb_false_r.
          rewrite firstn_all2; [reflexivity|].
          rewrite app_length. cbn [filter]. destruct (keep (start, e)); cbn [length]; lia.
        - destruct (IH r (S i) (S i) inq (rows ++ filter keep [(start, e)])) as (ls & Hl & Hf);
            auto; try lia.
          exists ((start, e) :: ls). split; [econstructor; eauto|].
          rewrite Hf. change ((start, e) :: ls) with ([(start, e)] ++ ls).
          rewrite filter_app, app_assoc; reflexivity. }
      destruct inq; cbn [negb].
      * apply Quiet. intros [F _]; apply M in F; discriminate.
      * destruct (N.eqb_spec c 10) as [->|N10].
        -- (* LF *)
           assert (LE : LineEnd g buf i) by (split; [apply M; reflexivity|left; exact Bc]).
           apply Ends; [exact LE|]. unfold TextEnd.
           destruct (Nat.ltb_spec start i) as [G|G]; cbn [andb].
           ++ destruct (nth (i - 1) buf 0 =? 13)%N eqn:P.
              ** left. assert (P' : nth_error buf (i - 1) = Some CR) by (apply prev_cr; [lia|exact P]).
                 auto.
              ** right. split; [|reflexivity]. intros (_ & _ & P').
                 apply prev_cr in P'; [congruence|lia].
           ++ right. split; [lia|reflexivity].
        -- destruct (N.eqb_spec c 13) as [->|N13]; cbn [andb].
           ++ assert (X : next_is r 10 = false <-> hd_error r <> Some LF).
              { unfold next_is, LF; destruct r as [|c2 r2]; cbn [hd_error];
                  [split; [discriminate|reflexivity]|].
                rewrite N.eqb_neq; split; congruence. }
              destruct (next_is r 10) eqn:Nx; cbn [negb].
              ** apply Quiet. intros [_ [F|[_ F]]]; [rewrite Bc in F; discriminate|].
                 rewrite Bn in F. apply X in F; discriminate.
              ** apply Ends.
                 --- split; [apply M; reflexivity|right; split; [exact Bc|]].
                     rewrite Bn; apply X; reflexivity.
                 --- right. split; [|reflexivity]. intros (_ & F & _); rewrite Bc in F; discriminate.
           ++ apply Quiet. intros [_ [F|[F _]]]; rewrite Bc in F; injection F as F; unfold LF, CR in F; congruence.
Qed.

Lemma find_rows_ok : exists ls, Lines g buf 0 ls /\
  find_rows o d buf = firstn (max_rows o) (filter keep ls).
Proof.
  destruct (rows_ok (length buf) buf 0 0 false []) as (ls & L & F);
    auto using at_start; try (intros; lia).
  exists ls; split; [exact L|exact F].
Qed.

End Rows.
