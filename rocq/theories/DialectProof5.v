(** Whole detection runs. *)
From Coq Require Import SpecFloat Permutation.
From Verif Require Import Base DialectSpec DialectModel DialectObs DialectProof DialectProof2
  DialectProof3 DialectProof4.

(** ---- cells counted as typed ---- *)
Lemma letters_ok : forall w lower, Forall (fun x => 97 <= x <= 122)%N lower ->
  map to_lower w = lower <-> SameLetters w lower.
Proof.
  induction w as [|c w IH]; intros [|x lower] F.
  - split; [constructor|reflexivity].
  - split; [discriminate|intros H; inversion H].
  - split; [discriminate|intros H; inversion H].
  - inversion F as [|? ? Hx F']; subst. cbn [map]. split.
    + intros E. injection E as E1 E2. constructor; [|apply IH; assumption].
      unfold to_lower in E1. destruct ((65 <=? c) && (c <=? 90))%N; lia.
    + intros H. inversion H as [|? ? ? ? Hc H']; subst. f_equal; [|apply IH; assumption].
      unfold to_lower. destruct ((65 <=? c) && (c <=? 90))%N eqn:B; lia.
Qed.

Lemma special_ok l : l <> [] ->
  (match l with
   | [] => false
   | c :: r =>
      same_text (map to_lower l) [110; 97; 110]%N ||
      ((3 <=? length l) &&
       (same_text (if sign c then map to_lower r else map to_lower l) [105; 110; 102]%N ||
        same_text (if sign c then map to_lower r else map to_lower l)
          [105; 110; 102; 105; 110; 105; 116; 121]%N))
   end) = true <-> SpecialFloat l.
Proof.
  assert (L1 : Forall (fun x => 97 <= x <= 122)%N [110; 97; 110]%N) by (repeat constructor; lia).
  assert (L2 : Forall (fun x => 97 <= x <= 122)%N [105; 110; 102]%N) by (repeat constructor; lia).
  assert (L3 : Forall (fun x => 97 <= x <= 122)%N [105; 110; 102; 105; 110; 105; 116; 121]%N)
    by (repeat constructor; lia).
  intros NE. destruct l as [|c r]; [congruence|]. unfold SpecialFloat.
  rewrite orb_true_iff, andb_true_iff, orb_true_iff, !same_text_ok, (letters_ok _ _ L1).
  assert (Long : forall w, (SameLetters w [105; 110; 102]%N \/
     SameLetters w [105; 110; 102; 105; 110; 105; 116; 121]%N) -> 3 <= length w).
  { intros w [H|H]; assert (G : forall a b, SameLetters a b -> length a = length b)
      by (intros a b X; induction X; cbn [length]; congruence); rewrite (G _ _ H); cbn [length]; lia. }
  split.
  - intros [H|(_ & H)]; [left; exact H|right].
    destruct (sign c) eqn:SG.
    + exists [c], r. split; [reflexivity|]. split.
      * apply sign_ok in SG. unfold OptSign. destruct SG as [->| ->]; auto.
      * rewrite <- (letters_ok _ _ L2), <- (letters_ok _ _ L3). exact H.
    + exists [], (c :: r). split; [reflexivity|]. split; [left; reflexivity|].
      rewrite <- (letters_ok _ _ L2), <- (letters_ok _ _ L3). exact H.
  - intros [H|(s & w & E & OS & H)]; [left; exact H|right].
    split.
    + apply Nat.leb_le. rewrite E, app_length. specialize (Long w H). lia.
    + rewrite <- (letters_ok _ _ L2), <- (letters_ok _ _ L3) in H.
      destruct OS as [->|[->| ->]]; cbn [app] in E.
      * subst w. destruct (sign c) eqn:SG; [|exact H].
        exfalso. apply sign_ok in SG. cbn [map] in H.
        destruct SG as [->| ->]; destruct H as [H|H]; discriminate.
      * injection E as -> ->. exact H.
      * injection E as -> ->. exact H.
Qed.

Lemma could_be_float_ok f : could_be_float f = true <->
  FloatText (trim_blanks f) \/ SpecialFloat (trim_blanks f).
Proof.
  unfold could_be_float. destruct (trim_blanks f) as [|c r] eqn:E.
  - split; [discriminate|]. intros [H|H].
    + apply float_shape_ok in H. discriminate.
    + destruct H as [H|(s & w & X & _ & H)]; [inversion H|].
      destruct s; [|discriminate]. cbn [app] in X. subst w. destruct H as [H|H]; inversion H.
  - rewrite <- float_shape_ok, <- special_ok by discriminate. cbv zeta.
    assert (U : forall (b : bool) (x y : bytes), map to_lower (if b then x else y) = (if b then map to_lower x else map to_lower y))
      by (intros [] ? ?; reflexivity).
    destruct (same_text (map to_lower (c :: r)) [110; 97; 110]%N); cbn [orb]; [tauto|].
    destruct ((3 <=? length (c :: r)) && _); [tauto|].
    split; [auto|]. intros [H|H]; [exact H|discriminate].
Qed.

Lemma trimmed_white f t : Trimmed Blank f t -> (forall c, In c t -> ~ White c) -> Trimmed White f t.
Proof.
  intros (a & b & E & Fa & Fb & _ & _) N. exists a, b. split; [exact E|].
  assert (BW : forall c, Blank c -> White c) by (unfold Blank, White, SPACE, TAB; lia).
  split; [eapply Forall_impl; [exact BW|exact Fa]|].
  split; [eapply Forall_impl; [exact BW|exact Fb]|].
  split; intros c r ->; apply N; [left; reflexivity|apply in_or_app; right; left; reflexivity].
Qed.

Lemma number_chars t : IntegerText t \/ FloatText t -> forall c, In c t -> ~ White c.
Proof.
  assert (DD : forall l, Digits l -> forall c, In c l -> ~ White c).
  { intros l H c I. unfold Digits in H. rewrite Forall_forall in H. specialize (H c I).
    unfold Digit in H. unfold White. lia. }
  assert (SS : forall l, OptSign l -> forall c, In c l -> ~ White c).
  { intros l [->|[->| ->]] c I; [destruct I|destruct I as [<-|[]]; unfold White; lia..]. }
  intros [(s & d & -> & OS & Dd & _)|(s & i & pt & e & -> & OS & Di & Hp & He & _)] c I.
  - apply in_app_or in I. destruct I; [eapply SS|eapply DD]; eauto.
  - apply in_app_or in I. destruct I as [I|I]; [eapply SS; eauto|].
    apply in_app_or in I. destruct I as [I|I]; [eapply DD; eauto|].
    apply in_app_or in I. destruct I as [I|I].
    + destruct Hp as [->|(f & -> & Df)]; [destruct I|]. destruct I as [<-|I]; [unfold White; lia|].
      eapply DD; eauto.
    + destruct He as [->|(m & x & y & -> & Hm & Ox & Dy & _)]; [destruct I|].
      destruct I as [<-|I]; [unfold White; lia|].
      apply in_app_or in I. destruct I; [eapply SS|eapply DD]; eauto.
Qed.

Lemma typed_cell_ok f t : Trimmed Blank f t ->
  typed_cell f = true <-> (infer_cell_type f <> STRING \/ SpecialFloat t).
Proof.
  intros T. pose proof T as T0.
  apply (trim_unique blank Blank blank_ok) in T. rewrite <- trim_blanks_trim in T.
  unfold typed_cell. rewrite !orb_true_iff, could_be_integer_shape, integer_shape_ok,
    could_be_float_ok, <- T. unfold infer_cell_type.
  assert (I : IntegerText t -> infer_with (length f) f = INTEGER).
  { intros H. destruct (classify (length f) f t) as (_ & _ & X & _); [|apply X; exact H].
    apply trimmed_white; [exact T0|apply number_chars; auto]. }
  assert (F : FloatText t -> infer_with (length f) f = FLOAT).
  { intros H. destruct (classify (length f) f t) as (_ & _ & _ & X & _); [|apply X; exact H].
    apply trimmed_white; [exact T0|apply number_chars; auto]. }
  destruct (infer_with (length f) f) eqn:Q.
  all: try (split; [intros _; left; discriminate|intros _; right; reflexivity]).
  split.
  - intros [[H|[H|H]]|H]; [discriminate (I H)|discriminate (F H)|right; exact H|discriminate].
  - intros [H|H]; [congruence|auto].
Qed.

(** ---- candidates ---- *)
Lemma candidates_in o d : In d (generate_candidates o) ->
  In (delimiter d) (delimiters o) /\
  ((In (quote_char d) (quote_chars o) /\
    ((double_quote d = true /\ escape_char d = quote_char d) \/
     (double_quote d = false /\ In (escape_char d) (escape_chars o) /\ escape_char d <> quote_char d)))
   \/ (quote_char d = 0%N /\ escape_char d = 0%N /\ double_quote d = false)).
Proof.
  unfold generate_candidates. intros I. apply in_flat_map in I. destruct I as (dl & Id & I).
  apply in_app_or in I. destruct I as [I|[<-|[]]].
  - apply in_flat_map in I. destruct I as (q & Iq & I). destruct I as [<-|I].
    + cbn [delimiter quote_char double_quote escape_char].
      split; [exact Id|]. left. split; [exact Iq|]. left. split; reflexivity.
    + apply in_map_iff in I. destruct I as (e & <- & I). apply filter_In in I. destruct I as (I & N).
      cbn [delimiter quote_char double_quote escape_char]. split; [exact Id|]. left.
      split; [exact Iq|]. right. split; [reflexivity|]. split; [exact I|].
      apply negb_true_iff, N.eqb_neq in N. exact N.
  - cbn [delimiter quote_char double_quote escape_char].
    split; [exact Id|]. right. repeat split.
Qed.

Lemma relabel_rows o d e c buf : forall n rest i start inq rows, length rest <= n ->
  rows_loop o (set_line_ending d e c) buf rest i start inq rows =
  rows_loop o d buf rest i start inq rows.
Proof.
  induction n as [|n IH]; intros rest i start inq rows Hn.
  - destruct rest; [reflexivity|cbn [length] in Hn; lia].
  - destruct rest as [|x r]; [reflexivity|]. cbn [length] in Hn.
    rewrite (rows_loop_scan o (set_line_ending d e c) buf (x :: r)), (rows_loop_scan o d buf (x :: r)).
    unfold scan.
    change (is_quote (set_line_ending d e c) x) with (is_quote d x).
    change (is_escape (set_line_ending d e c) x) with (is_escape d x).
    change (double_quote (set_line_ending d e c)) with (double_quote d).
    change (quote_char (set_line_ending d e c)) with (quote_char d).
    cbv zeta. rewrite !IH by lia.
    destruct r as [|x2 r2]; [reflexivity|]. cbn [length] in Hn. rewrite !IH by lia. reflexivity.
Qed.

Lemma relabel_find o d e c buf : find_rows o (set_line_ending d e c) buf = find_rows o d buf.
Proof. unfold find_rows. rewrite (relabel_rows o d e c buf (length buf)) by lia. reflexivity. Qed.

Lemma field_count d row n : row <> [] -> n = length (extract_fields d row) ->
  FieldCount (quoting_of d) (delimiter d) row n.
Proof.
  intros NE ->. destruct (extract_fields_ok d row NE) as (raw & E & L & F).
  exists raw. split; [exact E|]. split; [|exact L].
  clear -F. induction F; cbn [length]; congruence.
Qed.

Lemma slice_nonempty {A} (s e : nat) (l : list A) : s < e -> e <= length l -> slice s e l <> [].
Proof.
  intros H1 H2 E. apply (f_equal (@length A)) in E. unfold slice in E.
  rewrite firstn_length, skipn_length in E. cbn [length] in E. lia.
Qed.

Lemma rows_bounds o d buf : 0 < max_rows o -> forall s e, In (s, e) (find_rows o d buf) ->
  s < e /\ e <= length buf.
Proof.
  intros MP s e I. destruct (find_rows_ok o d buf MP) as (ls & L & E). rewrite E in I.
  assert (I' : In (s, e) (filter (keep o buf) ls)).
  { rewrite <- (firstn_skipn (max_rows o) (filter (keep o buf) ls)). apply in_or_app; left; exact I. }
  apply filter_In in I'. destruct I' as (I' & K).
  destruct (Lines_in _ _ _ _ L s e I') as (_ & B & _).
  unfold keep in K. cbn [fst snd] in K. apply andb_true_iff in K. destruct K as (K & _).
  apply Nat.ltb_lt in K. lia.
Qed.

(** A positive score means the rows were counted. *)
Lemma score_counts order o d buf :
  flt lit_0 (cand_score (score_dialect order o d buf)) = true ->
  let counts := map (fun r => length (extract_fields d r)) (row_texts o d buf) in
  counts <> [] /\ min_rows o <= length (row_texts o d buf) /\
  cand_columns (score_dialect order o d buf) = fst (modal (order (count_freq counts))).
Proof.
  cbv zeta. unfold score_dialect, pattern_score. cbv zeta.
  destruct (Nat.ltb_spec (length (row_texts o d buf)) (min_rows o)) as [G|G]; [discriminate|].
  destruct (map (fun r => length (extract_fields d r)) (row_texts o d buf)) as [|c cs] eqn:M;
    [discriminate|].
  intros _. split; [discriminate|]. split; [exact G|]. cbn [cand_columns]. reflexivity.
Qed.

Lemma score_dialect_of order o d buf : cand_dialect (score_dialect order o d buf) = d.
Proof.
  unfold score_dialect. destruct (pattern_score o d buf) as (p, counts). destruct counts; reflexivity.
Qed.

Global Opaque MAX_ADAPTIVE_SAMPLE.

Lemma sample_len_low o data :
  Nat.min (length data) (Nat.min (sample_size o) MAX_ADAPTIVE_SAMPLE) <= sample_len o data <= length data.
Proof.
  unfold sample_len. cbv zeta.
  destruct (0 <? first_newline o data).
  - destruct (Nat.ltb_spec (sample_size o) (first_newline o data * (min_rows o + 1))); lia.
  - destruct (Nat.ltb_spec (sample_size o) (length data)); lia.
Qed.

Definition detected (r : result) : Prop := flt lit_0 (res_confidence r) = true.

Lemma detect_ok sort order o buf :
  (forall l, Permutation (sort l) l) -> (forall t, Permutation (order t) t) ->
  0 < max_rows o ->
  detected (detect sort order o buf) ->
  exists off ch n d cand, let r := detect sort order o buf in
    let data := skipn off buf in let sample := firstn (sample_len o data) data in
    skip_comment_lines o buf = (off, ch, n) /\
    In d (generate_candidates o) /\ cand = score_dialect order o d sample /\
    res_dialect r = set_line_ending d (detect_line_ending sample) ch /\
    res_confidence r = cand_score cand /\ res_columns r = cand_columns cand /\
    res_rows r = length (find_rows o d sample) /\
    res_comment r = ch /\ res_comment_lines r = n /\
    Permutation (map cand_dialect (res_candidates r)) (generate_candidates o).
Proof.
  intros HS HO MP. unfold detected, detect. destruct buf as [|b0 buf0]; [discriminate|].
  set (buf := b0 :: buf0).
  destruct (skip_comment_lines o buf) as ((off, ch), n) eqn:SK.
  destruct (skipn off buf) as [|x data0] eqn:SD; [discriminate|]. rewrite <- SD.
  set (data := skipn off buf). set (sample := firstn (sample_len o data) data).
  set (cands := map (fun d => score_dialect order o d sample) (generate_candidates o)).
  pose proof (HS cands) as P.
  destruct (sort cands) as [|best others] eqn:SC; [discriminate|].
  destruct (flt lit_0 (cand_score best)) eqn:Pos; [|discriminate].
  intros _. assert (I : In best cands) by (apply (Permutation_in best P); left; reflexivity).
  unfold cands in I. apply in_map_iff in I. destruct I as (d & E & Id).
  exists off, ch, n, d, best. cbv zeta.
  cbn [res_dialect res_confidence res_columns res_rows res_comment res_comment_lines res_candidates].
  split; [reflexivity|]. split; [exact Id|]. split; [symmetry; exact E|].
  rewrite <- E, score_dialect_of, relabel_find.
  repeat (split; [reflexivity|]).
  rewrite E.
  apply (Permutation_map cand_dialect) in P. rewrite P. unfold cands. rewrite map_map.
  rewrite (map_ext _ (fun d => d)) by (intros a; apply score_dialect_of). rewrite map_id. reflexivity.
Qed.

(** ---- bounded reading ---- *)
Lemma past_blanks_local : forall l off x l1 off1, past_blanks l off = (l1, off1) -> l1 <> [] ->
  past_blanks (l ++ x) off = (l1 ++ x, off1).
Proof.
  induction l as [|c l IH]; intros off x l1 off1 H NE.
  - cbn [past_blanks] in H. injection H as <- _. congruence.
  - cbn [past_blanks app] in *. destruct (blank c); [eapply IH; eauto|].
    injection H as <- <-. reflexivity.
Qed.

Lemma to_eol_local : forall l off x l1 off1, to_eol l off = (l1, off1) -> l1 <> [] ->
  to_eol (l ++ x) off = (l1 ++ x, off1).
Proof.
  induction l as [|c l IH]; intros off x l1 off1 H NE.
  - cbn [to_eol] in H. injection H as <- _. congruence.
  - cbn [to_eol app] in *. destruct ((c =? 10) || (c =? 13))%N%bool; [|eapply IH; eauto].
    injection H as <- <-. reflexivity.
Qed.

Lemma past_eol_local : forall l off x l1 off1, past_eol l off = (l1, off1) -> l1 <> [] ->
  past_eol (l ++ x) off = (l1 ++ x, off1).
Proof.
  intros l off x l1 off1 H NE. destruct l as [|c l]; [cbn in H; injection H as <- _; congruence|].
  unfold past_eol in *. cbn [app]. destruct (c =? 13)%N.
  - destruct l as [|c2 l]; [injection H as <- _; congruence|]. cbn [app].
    destruct (c2 =? 10)%N; injection H as <- <-; reflexivity.
  - destruct (c =? 10)%N; injection H as <- <-; reflexivity.
Qed.

Lemma off_lengths l off : length (fst (past_blanks l off)) + snd (past_blanks l off) = length l + off.
Proof.
  revert off. induction l as [|c l IH]; intros off; [reflexivity|]. cbn [past_blanks].
  destruct (blank c); [rewrite IH; cbn [length]; lia|reflexivity].
Qed.
Lemma eol_lengths l off : length (fst (to_eol l off)) + snd (to_eol l off) = length l + off.
Proof.
  revert off. induction l as [|c l IH]; intros off; [reflexivity|]. cbn [to_eol].
  destruct (_ || _); [reflexivity|rewrite IH; cbn [length]; lia].
Qed.
Lemma peol_lengths l off : length (fst (past_eol l off)) + snd (past_eol l off) = length l + off.
Proof.
  destruct l as [|c l]; [reflexivity|]. unfold past_eol. destruct (c =? 13)%N.
  - destruct l as [|c2 l]; [cbn [fst snd length]; lia|].
    destruct (c2 =? 10)%N; cbn [fst snd length]; lia.
  - destruct (c =? 10)%N; cbn [fst snd length]; lia.
Qed.

Lemma skip_loop_step f o l off ch n : l <> [] -> skip_loop (S f) o l off ch n =
  let (l1, off1) := past_blanks l off in
  match l1 with
  | [] => (off1, ch, n)
  | c :: _ =>
      if negb (is_comment_char o c) then (off, ch, n)
      else
        let ch' := if (ch =? 0)%N then c else ch in
        let (l2, off2) := to_eol l1 off1 in
        let (l3, off3) := past_eol l2 off2 in
        skip_loop f o l3 off3 ch' (S n)
  end.
Proof. destruct l; [congruence|reflexivity]. Qed.

Lemma skip_end f o off ch n : skip_loop f o [] off ch n = (off, ch, n).
Proof. destruct f; reflexivity. Qed.

Lemma past_blanks_mono l : forall o1, o1 <= snd (past_blanks l o1).
Proof.
  induction l as [|a l IHl]; intros o1; cbn [past_blanks]; [cbn; lia|].
  destruct (blank a); [specialize (IHl (S o1)); lia|cbn; lia].
Qed.
Lemma to_eol_mono l : forall o1, o1 <= snd (to_eol l o1).
Proof.
  induction l as [|a l IHl]; intros o1; cbn [to_eol]; [cbn; lia|].
  destruct (_ || _); [cbn; lia|specialize (IHl (S o1)); lia].
Qed.
Lemma to_eol_stop l : forall o1,
  match fst (to_eol l o1) with [] => True | a :: _ => ((a =? 10) || (a =? 13))%N%bool = true end.
Proof.
  induction l as [|a l IHl]; intros o1; cbn [to_eol]; [exact I|].
  destruct ((a =? 10) || (a =? 13))%N%bool eqn:E; [exact E|apply IHl].
Qed.

Lemma skip_local o x : forall f l off ch n off' ch' n',
  skip_loop f o l off ch n = (off', ch', n') -> off' < off + length l ->
  forall f', f <= f' -> (length l <= f) -> skip_loop f' o (l ++ x) off ch n = (off', ch', n').
Proof.
  induction f as [|f IH]; intros l off ch n off' ch' n' H B f' Hf Hl.
  - destruct l; [|cbn [length] in Hl; lia]. cbn [skip_loop] in H.
    injection H as <- <- <-. cbn [length] in B. lia.
  - destruct l as [|c0 l0]; [cbn [skip_loop] in H; injection H as <- <- <-; cbn [length] in B; lia|].
    set (l := c0 :: l0) in *.
    destruct f' as [|f']; [lia|].
    rewrite skip_loop_step in H by discriminate.
    rewrite skip_loop_step by discriminate.
    pose proof (off_lengths l off) as LB.
    destruct (past_blanks l off) as (l1, off1) eqn:PB. cbn [fst snd] in LB.
    destruct l1 as [|c r]; [injection H as <- <- <-; cbn [length] in LB; lia|].
    rewrite (past_blanks_local l off x _ _ PB) by discriminate. cbn [app].
    destruct (is_comment_char o c); cbn [negb] in *; [|exact H].
    cbv zeta in *.
    pose proof (eol_lengths (c :: r) off1) as LE.
    destruct (to_eol (c :: r) off1) as (l2, off2) eqn:TE. cbn [fst snd] in LE.
    pose proof (peol_lengths l2 off2) as LP.
    destruct (past_eol l2 off2) as (l3, off3) eqn:PE. cbn [fst snd] in LP.
    destruct l3 as [|y l3].
    { rewrite skip_end in H. injection H as <- <- <-. cbn [length] in LP. lia. }
    assert (N2 : l2 <> []) by (intros ->; cbn in PE; injection PE; discriminate).
    change (c :: r ++ x) with ((c :: r) ++ x).
    rewrite (to_eol_local _ _ x _ _ TE N2), (past_eol_local _ _ x _ _ PE) by discriminate.
    assert (M1 : off <= off1).
    { assert (G := past_blanks_mono l off). rewrite PB in G. exact G. }
    assert (M2 : off1 <= off2).
    { assert (G := to_eol_mono (c :: r) off1). rewrite TE in G. exact G. }
    assert (M3 : off2 < off3).
    { assert (G := to_eol_stop (c :: r) off1). rewrite TE in G. cbn [fst] in G.
      clear - PE N2 G. destruct l2 as [|a l2]; [congruence|]. unfold past_eol in PE.
      destruct (a =? 13)%N.
      - destruct l2 as [|a2 l2]; [injection PE; discriminate|].
        destruct (a2 =? 10)%N; injection PE as _ PE; lia.
      - destruct (a =? 10)%N; [injection PE as _ PE; lia|discriminate]. }
    apply (IH (y :: l3) off3 _ _ _ _ _ H); lia.
Qed.

Lemma skip_comment_local o p x off ch n : skip_comment_lines o p = (off, ch, n) ->
  off < length p -> skip_comment_lines o (p ++ x) = (off, ch, n).
Proof.
  unfold skip_comment_lines. destruct p as [|c p]; [cbn [length]; intros _ H; lia|].
  cbn [app]. destruct (comment_chars o) as [|k ks] eqn:K; [auto|].
  intros H B. change (c :: p ++ x) with ((c :: p) ++ x).
  apply (skip_local o x (length (c :: p)) (c :: p) 0 0%N 0); auto.
  rewrite app_length; lia.
Qed.

Lemma find_char_firstn_app (a x : bytes) k b : k <= length a ->
  find_char (firstn k (a ++ x)) b = find_char (firstn k a) b.
Proof.
  intros H. rewrite firstn_app. replace (k - length a) with 0 by lia.
  rewrite firstn_O, app_nil_r. reflexivity.
Qed.

Lemma sample_local o data x : sample_size o < length data -> MAX_ADAPTIVE_SAMPLE <= length data ->
  firstn (sample_len o (data ++ x)) (data ++ x) = firstn (sample_len o data) data.
Proof.
  intros H1 H2.
  assert (E : first_newline o (data ++ x) = first_newline o data).
  { unfold first_newline. rewrite find_char_firstn_app by lia. reflexivity. }
  assert (S1 : sample_len o (data ++ x) = sample_len o data /\ sample_len o data <= length data).
  { unfold sample_len. cbv zeta. rewrite E, app_length.
    destruct (0 <? first_newline o data).
    - destruct (Nat.ltb_spec (sample_size o) (first_newline o data * (min_rows o + 1))); lia.
    - destruct (Nat.ltb_spec (sample_size o) (length data + length x)); [|lia].
      destruct (Nat.ltb_spec (sample_size o) (length data)); lia. }
  destruct S1 as (S1 & S2). rewrite S1, firstn_app.
  replace (sample_len o data - length data) with 0 by lia. rewrite firstn_O, app_nil_r. reflexivity.
Qed.

Lemma detect_local sort order o p x off ch n :
  skip_comment_lines o p = (off, ch, n) ->
  off + sample_size o < length p -> off + MAX_ADAPTIVE_SAMPLE <= length p ->
  detect sort order o (p ++ x) = detect sort order o p.
Proof.
  intros SK B1 B2.
  assert (Sk2 : skip_comment_lines o (p ++ x) = (off, ch, n)) by (apply skip_comment_local; [exact SK|lia]).
  unfold detect. destruct p as [|c p]; [cbn [length] in B1; lia|].
  set (q := c :: p) in *. change ((c :: p) ++ x) with (q ++ x).
  assert (Q : q ++ x = c :: p ++ x) by reflexivity. rewrite Q, <- Q.
  rewrite SK, Sk2.
  assert (DE : skipn off (q ++ x) = skipn off q ++ x).
  { rewrite skipn_app. replace (off - length q) with 0 by lia. reflexivity. }
  rewrite DE.
  assert (LD : length (skipn off q) = length q - off) by apply skipn_length.
  rewrite sample_local by lia.
  destruct (skipn off q) as [|y data]; [cbn [length] in LD; lia|].
  reflexivity.
Qed.

(** ---- the detected dialect ---- *)
Lemma validate_separable d : validate_passes d = true <-> Separable (delimiter d) (quote_char d).
Proof.
  unfold validate_passes, Separable, LF, CR.
  destruct (N.eqb_spec (delimiter d) (quote_char d)); [split; [discriminate|tauto]|].
  destruct (N.eqb_spec (delimiter d) 10); [split; [discriminate|tauto]|].
  destruct (N.eqb_spec (delimiter d) 13); [split; [discriminate|tauto]|].
  destruct (N.eqb_spec (quote_char d) 10); [split; [discriminate|tauto]|].
  destruct (N.eqb_spec (quote_char d) 13); [split; [discriminate|tauto]|].
  split; [auto|reflexivity].
Qed.

(** With one row length only, the iteration order of the table is immaterial. *)
Lemma score_single order o d buf k n : (forall t, Permutation (order t) t) ->
  count_freq (snd (pattern_score o d buf)) = [(k, n)] \/ snd (pattern_score o d buf) = [] ->
  score_dialect order o d buf = score_dialect (fun t => t) o d buf.
Proof.
  intros HO H. unfold score_dialect. destruct (pattern_score o d buf) as (p, counts).
  cbn [snd] in H. destruct counts as [|c cs]; [reflexivity|].
  destruct H as [H|H]; [|discriminate].
  pose proof (HO (count_freq (c :: cs))) as P. rewrite H in *.
  apply Permutation_sym, Permutation_length_1_inv in P. rewrite P. reflexivity.
Qed.
