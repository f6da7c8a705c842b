(** Detection runs, stated against the specification. *)
From Coq Require Import SpecFloat Permutation.
From Verif Require Import Base DialectSpec DialectModel DialectObs DialectProof DialectProof2
  DialectProof3 DialectProof4 DialectProof5.

Lemma keeps_filter {A} (P : A -> Prop) (f : A -> bool) l : (forall x, f x = true <-> P x) ->
  Keeps P l (filter f l).
Proof.
  intros H. induction l as [|x l IH]; [constructor|]. cbn [filter].
  destruct (f x) eqn:E; constructor; auto.
  - apply H; exact E.
  - intros HP. apply H in HP. congruence.
Qed.

Lemma keep_ok o buf p : keep o buf p = true <-> RowLine (comment_chars o) buf p.
Proof.
  unfold keep, RowLine. rewrite andb_true_iff, Nat.ltb_lt, negb_true_iff.
  rewrite <- comment_line_ok. split; intros (A & B); split; auto; [congruence|].
  destruct (is_comment_line o (slice (fst p) (snd p) buf)); congruence.
Qed.

Lemma rows_spec o d buf : 0 < max_rows o ->
  Rows (quoting_of d) (comment_chars o) (max_rows o) buf (find_rows o d buf).
Proof.
  intros H. destruct (find_rows_ok o d buf H) as (ls & L & E).
  exists ls, (filter (keep o buf) ls). split; [exact L|]. split; [|exact E].
  apply keeps_filter. apply keep_ok.
Qed.

Lemma rows_facts o d buf : 0 < max_rows o ->
  let g := quoting_of d in
  length (find_rows o d buf) <= max_rows o /\
  (forall s e, In (s, e) (find_rows o d buf) ->
     s < e /\ e <= length buf /\ (forall j, s <= j < e -> ~ LineEnd g buf j) /\
     ~ CommentLine (comment_chars o) (slice s e buf)) /\
  (forall i j p q, i < j -> nth_error (find_rows o d buf) i = Some p ->
     nth_error (find_rows o d buf) j = Some q -> snd p < fst q) /\
  (length (find_rows o d buf) < max_rows o ->
   forall p, p < length buf ->
     (exists s e, In (s, e) (find_rows o d buf) /\ s <= p < e) \/
     (exists s e, s <= p < e /\ CommentLine (comment_chars o) (slice s e buf)) \/
     LineEnd g buf p \/ (LineEnd g buf (S p) /\ nth_error buf p = Some CR)).
Proof.
  intros H g. destruct (find_rows_ok o d buf H) as (ls & L & E). rewrite E.
  split; [rewrite firstn_length; lia|]. split; [|split].
  - intros s e I.
    assert (I' : In (s, e) (filter (keep o buf) ls)).
    { rewrite <- (firstn_skipn (max_rows o)). apply in_or_app. left. exact I. }
    apply filter_In in I'. destruct I' as (I' & K).
    apply keep_ok in K. destruct K as (K1 & K2). cbn [fst snd] in K1, K2.
    destruct (Lines_in _ _ _ _ L s e I') as (_ & B & N). repeat split; auto; lia.
  - apply (kept_sorted (keep o buf) (fun p q => snd p < fst q)).
    apply (Lines_sorted _ _ _ _ L).
  - intros Short p Hp.
    assert (F : firstn (max_rows o) (filter (keep o buf) ls) = filter (keep o buf) ls).
    { apply firstn_all2. rewrite firstn_length in Short. lia. }
    rewrite F.
    destruct (Lines_cover _ _ _ _ L p ltac:(lia)) as [(a & b & I & B)|[X|(X & Y & _)]]; [|auto|auto].
    destruct (keep o buf (a, b)) eqn:K.
    + left. exists a, b. split; [apply filter_In; auto|exact B].
    + right. left. exists a, b. split; [exact B|].
      unfold keep in K. cbn [fst snd] in K. apply comment_line_ok.
      destruct (Nat.ltb_spec a b); [|lia]. cbn [andb] in K.
      destruct (is_comment_line o (slice a b buf)); [reflexivity|discriminate].
Qed.

Lemma skip_spec o buf : ~ In LF (comment_chars o) -> ~ In CR (comment_chars o) ->
  exists off ch ls, skip_comment_lines o buf = (off, ch, length ls) /\
    off <= length buf /\
    (Leading (comment_chars o) buf ls (skipn off buf) \/
     (off = length buf /\ exists b, b <> [] /\ Forall Blank b /\ Leading (comment_chars o) buf ls b)) /\
    match ls with
    | [] => ch = 0%N
    | l :: _ => exists c, Marks c l /\ In c (comment_chars o) /\ (c <> 0%N -> ch = c)
    end.
Proof.
  intros N1 N2. unfold skip_comment_lines.
  assert (T : forall b, comment_chars o = [] \/ b = [] ->
     Leading (comment_chars o) b [] b).
  { intros b [E|E].
    - rewrite E. constructor. intros l r _ (bl & c & x & _ & _ & _ & I). exact I.
    - subst b. apply not_comment_blank. constructor. }
  destruct buf as [|c buf].
  { exists 0, 0%N, []. split; [reflexivity|]. split; [cbn [length]; lia|]. split; [left|reflexivity].
    apply T; auto. }
  destruct (comment_chars o) as [|k ks] eqn:K.
  { exists 0, 0%N, []. split; [reflexivity|]. split; [lia|]. split; [left|reflexivity].
    apply T; auto. }
  rewrite <- K in *.
  destruct (skip_ok o (conj N1 N2) (length (c :: buf)) (c :: buf) 0 0%N 0 (le_n _))
    as (eaten & ls & rest & off & ch & E & B & O & M & L).
  exists off, ch, ls. split; [exact E|]. cbn [plus] in O.
  split; [rewrite B, app_length; lia|].
  assert (R : skipn off (c :: buf) = rest).
  { rewrite B, O, skipn_app, skipn_all, Nat.sub_diag. reflexivity. }
  split; [|exact M]. rewrite R.
  destruct L as [L|(-> & L)]; [left; exact L|right].
  split; [rewrite B, app_length, O; cbn [length]; lia|exact L].
Qed.

Lemma report_spec sort order o buf :
  (forall l, Permutation (sort l) l) -> (forall t, Permutation (order t) t) ->
  0 < max_rows o ->
  let r := detect sort order o buf in
  let d := res_dialect r in
  flt lit_0 (res_confidence r) = true ->
  In (delimiter d) (delimiters o) /\
  ((In (quote_char d) (quote_chars o) /\
    ((double_quote d = true /\ escape_char d = quote_char d) \/
     (double_quote d = false /\ In (escape_char d) (escape_chars o) /\ escape_char d <> quote_char d)))
   \/ (quote_char d = 0%N /\ escape_char d = 0%N /\ double_quote d = false)) /\
  exists off len sample rows counts,
    sample = firstn len (skipn off buf) /\
    Nat.min (length buf - off) (Nat.min (sample_size o) MAX_ADAPTIVE_SAMPLE) <= len /\
    skip_comment_lines o buf = (off, res_comment r, res_comment_lines r) /\
    comment_char d = res_comment r /\
    line_ending d = detect_line_ending sample /\
    Rows (quoting_of d) (comment_chars o) (max_rows o) sample rows /\
    res_rows r = length rows /\ min_rows o <= length rows /\
    Forall2 (FieldCount (quoting_of d) (delimiter d))
            (map (fun p => slice (fst p) (snd p) sample) rows) counts /\
    Mode (res_columns r) counts.
Proof.
  intros HS HO HM r d HD.
  destruct (detect_ok sort order o buf HS HO HM HD) as
    (off & ch & n & d0 & cand & SK & IC & EC & ED & ECf & ECo & ER & EK & EN & _).
  fold r in ED, ECf, ECo, ER, EK, EN. fold d in ED.
  set (sample := firstn (sample_len o (skipn off buf)) (skipn off buf)) in *.
  rewrite ED. cbn [set_line_ending delimiter quote_char double_quote escape_char comment_char line_ending].
  destruct (candidates_in o d0 IC) as (C1 & C2). split; [exact C1|]. split; [exact C2|].
  assert (G : flt lit_0 (cand_score (score_dialect order o d0 sample)) = true).
  { rewrite <- EC, <- ECf. exact HD. }
  destruct (score_counts order o d0 sample G) as (NE & MR & CO).
  exists off, (sample_len o (skipn off buf)), sample, (find_rows o d0 sample),
    (map (fun r => length (extract_fields d0 r)) (row_texts o d0 sample)).
  split; [reflexivity|].
  split. { rewrite <- skipn_length. apply sample_len_low. }
  split; [rewrite EK, EN; exact SK|]. split; [symmetry; exact EK|]. split; [reflexivity|].
  assert (Q : quoting_of (set_line_ending d0 (detect_line_ending sample) ch) = quoting_of d0) by reflexivity.
  rewrite ?Q. change (delimiter (set_line_ending d0 (detect_line_ending sample) ch)) with (delimiter d0).
  split; [apply rows_spec; exact HM|]. split; [exact ER|].
  split; [unfold row_texts in MR; rewrite map_length in MR; exact MR|].
  split.
  - unfold row_texts. rewrite map_map.
    assert (B := rows_bounds o d0 sample HM). clear - B.
    induction (find_rows o d0 sample) as [|(s, e) l IH]; [constructor|].
    cbn [map fst snd]. constructor.
    + apply field_count; [|reflexivity]. destruct (B s e) as (B1 & B2); [left; reflexivity|].
      apply slice_nonempty; assumption.
    + apply IH. intros s' e' I. apply B. right. exact I.
  - rewrite ECo, EC, CO. apply modal_mode; [exact NE|apply HO].
Qed.

(** ---- ranking ---- *)
Definition beats (a b : candidate) : bool := flt lit_1e_9 (fsub (cand_score a) (cand_score b)).

Lemma ranked_swo (P : candidate -> Prop) (rank : candidate -> nat) (q : byte) :
  (forall a b, P a -> P b -> (beats a b = true <-> rank b < rank a)) ->
  (forall a, P a -> quote_char (cand_dialect a) = 34%N \/ quote_char (cand_dialect a) = q) ->
  strict_weak_order cand_lt P.
Proof.
  intros HR HQ.
  assert (E : forall a b, P a -> P b -> cand_lt a b =
     (if rank b <? rank a then true else if rank a <? rank b then false else tie_break a b)).
  { intros a b Pa Pb. rewrite cand_lt_eq.
    pose proof (HR a b Pa Pb) as H1. pose proof (HR b a Pb Pa) as H2. unfold beats in H1, H2. fold eps in H1, H2.
    destruct (Nat.ltb_spec (rank b) (rank a)); destruct (Nat.ltb_spec (rank a) (rank b)).
    - lia.
    - destruct (flt eps (fsub (cand_score a) (cand_score b))); [reflexivity|].
      assert (false = true) by (apply H1; assumption). discriminate.
    - destruct (flt eps (fsub (cand_score a) (cand_score b))).
      { assert (rank b < rank a) by (apply H1; reflexivity). lia. }
      destruct (flt eps (fsub (cand_score b) (cand_score a))); [reflexivity|].
      assert (false = true) by (apply H2; assumption). discriminate.
    - destruct (flt eps (fsub (cand_score a) (cand_score b))).
      { assert (rank b < rank a) by (apply H1; reflexivity). lia. }
      destruct (flt eps (fsub (cand_score b) (cand_score a))).
      { assert (rank a < rank b) by (apply H2; reflexivity). lia. }
      reflexivity. }
  assert (T : forall a b, P a -> P b -> tie_break a b =
     (if cand_columns b <? cand_columns a then true else if cand_columns a <? cand_columns b then false else
      let x := cand_dialect a in let y := cand_dialect b in
      let q1 := Nat.b2n (quote_char x =? 34)%N in let q2 := Nat.b2n (quote_char y =? 34)%N in
      if q2 <? q1 then true else if q1 <? q2 then false else
      let b1 := Nat.b2n (double_quote x) in let b2 := Nat.b2n (double_quote y) in
      if b2 <? b1 then true else if b1 <? b2 then false else
      (Nat.b2n (delimiter y =? 44)%N <? Nat.b2n (delimiter x =? 44)%N))).
  { intros a b Pa Pb. apply HQ in Pa. apply HQ in Pb. unfold tie_break. cbv zeta.
    generalize dependent (cand_dialect a). generalize dependent (cand_dialect b).
    intros [db qb eb bb lb cb] Pb [da qa ea ba la ca] Pa.
    cbn [quote_char double_quote delimiter] in *.
    destruct (Nat.eqb_spec (cand_columns a) (cand_columns b)) as [Ec|Nc]; cbn [negb].
    2:{ destruct (Nat.ltb_spec (cand_columns b) (cand_columns a)), (Nat.ltb_spec (cand_columns a) (cand_columns b)); auto; lia. }
    rewrite Ec, Nat.ltb_irrefl.
    destruct (N.eqb_spec qa qb) as [->|Nq]; cbn [negb].
    - rewrite Nat.ltb_irrefl. destruct ba, bb; cbn [Bool.eqb negb Nat.b2n Nat.ltb Nat.leb]; try reflexivity;
        (destruct (N.eqb_spec da db) as [->|Nd]; cbn [negb];
         [destruct (db =? 44)%N; reflexivity|]);
        destruct (N.eqb_spec da 44), (N.eqb_spec db 44); try reflexivity; congruence.
    - destruct (N.eqb_spec qa 34), (N.eqb_spec qb 34); cbn [Nat.b2n Nat.ltb Nat.leb]; try reflexivity; try congruence.
      destruct Pa, Pb; congruence. }
  set (key := fun a => let x := cand_dialect a in
    (rank a, cand_columns a, Nat.b2n (quote_char x =? 34)%N, Nat.b2n (double_quote x), Nat.b2n (delimiter x =? 44)%N)).
  set (above := fun k k' : nat * nat * nat * nat * nat =>
    let '(a1, a2, a3, a4, a5) := k in let '(b1, b2, b3, b4, b5) := k' in
    b1 < a1 \/ (a1 = b1 /\ (b2 < a2 \/ (a2 = b2 /\ (b3 < a3 \/ (a3 = b3 /\ (b4 < a4 \/ (a4 = b4 /\ b5 < a5)))))))).
  assert (K : forall a b, P a -> P b -> (cand_lt a b = true <-> above (key a) (key b))).
  { intros a b Pa Pb. rewrite E, T by assumption. unfold above, key. cbv zeta.
    repeat match goal with |- context [if ?x <? ?y then _ else _] => destruct (Nat.ltb_spec x y) end;
      rewrite ?Nat.ltb_lt; split; intros G; try reflexivity; try discriminate; lia. }
  assert (KF : forall a b, P a -> P b -> (cand_lt a b = false <-> ~ above (key a) (key b))).
  { intros a b Pa Pb. rewrite <- K by assumption. destruct (cand_lt a b); split; intros; congruence. }
  unfold strict_weak_order, incomparable. split; [|split].
  - intros a Pa. apply KF; auto. destruct (key a) as ((((a1 & a2) & a3) & a4) & a5). unfold above. lia.
  - intros a b c Pa Pb Pc. rewrite !K by assumption.
    destruct (key a) as ((((a1 & a2) & a3) & a4) & a5), (key b) as ((((b1 & b2) & b3) & b4) & b5),
      (key c) as ((((c1 & c2) & c3) & c4) & c5). unfold above. lia.
  - intros a b c Pa Pb Pc. rewrite !KF by assumption.
    destruct (key a) as ((((a1 & a2) & a3) & a4) & a5), (key b) as ((((b1 & b2) & b3) & b4) & b5),
      (key c) as ((((c1 & c2) & c3) & c4) & c5). unfold above. lia.
Qed.

Definition one_length (o : options) (buf : bytes) (d : dialect) : bool :=
  match count_freq (snd (pattern_score o d buf)) with
  | [] | [_] => true
  | _ => false
  end.

Lemma scores_any_order order o buf ds : (forall t, Permutation (order t) t) ->
  forallb (one_length o buf) ds = true ->
  map (fun d => score_dialect order o d buf) ds = map (fun d => score_dialect (fun t => t) o d buf) ds.
Proof.
  intros HO. induction ds as [|d ds IH]; [reflexivity|]. cbn [forallb map].
  rewrite andb_true_iff. intros (A & B). rewrite (IH B). f_equal.
  unfold one_length in A. destruct (count_freq (snd (pattern_score o d buf))) as [|(k, n) [|]] eqn:E.
  - apply (score_single order o d buf 0 0 HO). right.
    destruct (snd (pattern_score o d buf)) as [|x l]; [reflexivity|]. exfalso.
    pose proof (modal_mode (x :: l) (count_freq (x :: l)) ltac:(discriminate) (Permutation_refl _)) as M.
    rewrite E in M. cbn [modal fold_left fst] in M.
    unfold count_freq in E. cbn [fold_left bump] in E.
    assert (G : forall l t, t <> [] -> fold_left (fun t c => bump c t) l t <> []).
    { clear. induction l as [|c l IH]; intros t H; [exact H|]. cbn [fold_left]. apply IH.
      destruct t as [|(k, n) t]; [discriminate|]. cbn [bump]. destruct (k =? c); discriminate. }
    apply (G l [(x, 1)]); [discriminate|exact E].
  - apply (score_single order o d buf k n HO). left. exact E.
  - discriminate.
Qed.
