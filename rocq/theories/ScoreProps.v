(** C47, C71, C76, C91, C92: scores, confidence, ranking, headers and warnings
    of a detection, in real numbers. *)
From Coq Require Import Reals SpecFloat Permutation Lra.
From Verif Require Import Base FloatSpec FloatProof ScoreSpec DialectSpec DialectModel DialectObs
  DialectProof3 DialectProof5 DialectProof6 ScoreProof ScoreProof2 ScoreProof3 DialectProps.

(** ** C71: the confidence.
    Missing from the full property: the upper bound is 1.2, not 1; above 1
    only with doubled or escaped quotes in the sample (see the refutation in
    DialectProps). *)
Theorem C71_confidence_range_partial : forall sort order o buf,
  (forall l, Permutation (sort l) l) -> (forall t, Permutation (order t) t) ->
  0 < max_rows o -> (Z.of_nat (length buf) < 2 ^ 53)%Z ->
  let r := detect sort order o buf in
  let d := res_dialect r in
  exists x, Is (res_confidence r) x /\ (0 <= x <= literal 12 10)%R /\
    ((1 < x)%R -> exists off len, let sample := firstn len (skipn off buf) in
       EscapesSeen (quote_char d) (escape_char d) (double_quote d) sample \/
       DoublesSeen (quote_char d) (escape_char d) (double_quote d) sample).
Proof. exact confidence_range. Qed.
Print Assumptions C71_confidence_range_partial.
Theorem C71_success_is_above_one_half : forall r x, Is (res_confidence r) x ->
  success r = true <-> (1 / 2 < x)%R.
Proof. exact success_ok. Qed.
Print Assumptions C71_success_is_above_one_half.
(** The score of every candidate is the formula of the specification. *)
Theorem C71_score_formula : forall order o d sample,
  (forall t, Permutation (order t) t) -> 0 < max_rows o -> (Z.of_nat (length sample) < 2 ^ 53)%Z ->
  let c := score_dialect order o d sample in
  let rows := map (fun r => slice (fst r) (snd r) sample) (find_rows o d sample) in
  let counts := map (fun r => length (extract_fields d r)) rows in
  let cells := flat_map (extract_fields d) (if 1 <? length rows then skipn 1 rows else rows) in
  (length rows < min_rows o \/ rows = [] -> Is (cand_score c) 0) /\
  (min_rows o <= length rows -> rows <> [] -> exists b s,
     let p := part (count_occ Nat.eq_dec counts (cand_columns c)) (length rows) in
     let t := type_part (length (filter typed_cell cells)) (length cells) in
     Mode (cand_columns c) counts /\
     Is (cand_pattern c) p /\ Is (cand_type c) t /\
     BaseScore p t (cand_columns c) b /\ (0 <= b <= 1)%R /\
     Boosted (quote_char d) (escape_char d) (double_quote d) sample b s /\
     (0 <= s <= literal 12 10)%R /\
     Is (cand_score c) s).
Proof. exact score_ok. Qed.
Print Assumptions C71_score_formula.
(** A candidate scores above 0 exactly when it finds enough rows. *)
Theorem C71_positive_exactly_with_enough_rows : forall order o d sample,
  (forall t, Permutation (order t) t) -> 0 < max_rows o -> (Z.of_nat (length sample) < 2 ^ 53)%Z ->
  flt lit_0 (cand_score (score_dialect order o d sample)) = true <->
  min_rows o <= length (find_rows o d sample) /\ find_rows o d sample <> [].
Proof.
  intros order o d sample H1 H2 H3. rewrite (score_positive order o d sample H1 H2 H3).
  unfold row_texts. rewrite map_length. destruct (find_rows o d sample); [|cbn [map]].
  - split; intros (A & B); split; auto.
  - split; intros (A & B); (split; [exact A|discriminate]).
Qed.
Print Assumptions C71_positive_exactly_with_enough_rows.
Example C71_range_meets : 0 < max_rows default_options /\ (Z.of_nat (length doubled_sample) < 2 ^ 53)%Z /\
  (exists i, nth_error doubled_sample i = Some 34%N /\ nth_error doubled_sample (S i) = Some 34%N) /\
  min_rows default_options <= length (find_rows default_options default_dialect doubled_sample).
Proof.
  split; [apply Nat.ltb_lt; reflexivity|]. split; [reflexivity|]. split.
  - exists 2. split; reflexivity.
  - apply Nat.leb_le. reflexivity.
Qed.

(** ** C47: ranking by score.  Missing from the full property: the order is
    not transitive (see the refutations in DialectProps), so that candidates
    whose scores are near each other need not be in the right order. *)
Theorem C47_ranks_by_score_partial : forall a b x y,
  Is (cand_score a) x -> Is (cand_score b) y -> (0 <= x <= 2)%R -> (0 <= y <= 2)%R ->
  let eps := literal 1 1000000000 in
  ((eps < rnd (x - y))%R -> cand_lt a b = true) /\
  ((eps < rnd (y - x))%R -> cand_lt a b = false) /\
  ((rnd (x - y) <= eps)%R -> (rnd (y - x) <= eps)%R -> cand_columns b < cand_columns a -> cand_lt a b = true) /\
  ((rnd (x - y) <= eps)%R -> (rnd (y - x) <= eps)%R -> cand_columns a < cand_columns b -> cand_lt a b = false).
Proof. exact rank_ok. Qed.
Print Assumptions C47_ranks_by_score_partial.
Theorem C47_winner_is_nearly_best_partial : forall sort order o buf,
  (forall t, Permutation (order t) t) -> 0 < max_rows o -> (Z.of_nat (length buf) < 2 ^ 53)%Z ->
  (forall l, Permutation (sort l) l) ->
  let r := detect sort order o buf in
  Winner cand_lt (res_candidates r) (res_candidates r) ->
  forall best rest c x y, res_candidates r = best :: rest -> In c (res_candidates r) ->
    Is (cand_score best) x -> Is (cand_score c) y -> (0 <= x <= 2)%R -> (0 <= y <= 2)%R ->
    (rnd (y - x) <= literal 1 1000000000)%R.
Proof. exact winner_nearly_best. Qed.
Print Assumptions C47_winner_is_nearly_best_partial.
Example C47_scores_meet : exists a b, Is (cand_score a) 1%R /\ Is (cand_score b) 0%R /\
  cand_lt a b = true.
Proof.
  exists (mkCandidate default_dialect lit_0 lit_0 (of_size 1) 2), (mkCandidate default_dialect lit_0 lit_0 lit_0 0).
  split; [|split].
  - change 1%R with (INR 1). apply is_size. cbn. lia.
  - exact is_0.
  - reflexivity.
Qed.

(** ** C76: what the two validators accept *)
Theorem C76_validators_exactly : forall d,
  (validate_passes d = true <-> Separable (delimiter d) (quote_char d)) /\
  (is_valid d = true <->
     delimiter d <> quote_char d /\ (delimiter d = 9%N \/ (32 <= delimiter d <= 126)%N) /\
     (32 <= quote_char d <= 126)%N).
Proof. intros d. split; [apply validate_separable|apply is_valid_ok]. Qed.
Print Assumptions C76_validators_exactly.
(** With printable options the quoteless dialect is the only one in the way. *)
Theorem C76_valid_unless_quoteless : forall sort order o buf,
  (forall l, Permutation (sort l) l) -> (forall t, Permutation (order t) t) -> 0 < max_rows o ->
  (forall d, In d (delimiters o) -> d = 9%N \/ (32 <= d <= 126)%N) ->
  (forall q, In q (quote_chars o) -> (32 <= q <= 126)%N /\ ~ In q (delimiters o)) ->
  let r := detect sort order o buf in
  flt lit_0 (res_confidence r) = true ->
  is_valid (res_dialect r) = true <-> quote_char (res_dialect r) <> 0%N.
Proof.
  intros sort order o buf HS HO HM HD HQ r F.
  destruct (report_spec sort order o buf HS HO HM F) as (D & Q & _). fold r in D, Q.
  rewrite is_valid_ok. split; [intros (_ & _ & B) E; rewrite E in B; lia|]. intros N.
  destruct Q as [(Q & _)|(Q & _)]; [|contradiction]. destruct (HQ _ Q) as (A & B).
  split; [intros E; rewrite E in D; contradiction|]. split; [apply HD; exact D|exact A].
Qed.
Print Assumptions C76_valid_unless_quoteless.
Example C76_printable_meets :
  (forall d, In d (delimiters default_options) -> d = 9%N \/ (32 <= d <= 126)%N) /\
  (forall q, In q (quote_chars default_options) -> (32 <= q <= 126)%N /\ ~ In q (delimiters default_options)).
Proof.
  split.
  - intros d I. cbn [delimiters default_options In] in I.
    repeat (destruct I as [<-|I]; [lia|]). destruct I.
  - intros q I. cbn [quote_chars default_options In] in I. split.
    + repeat (destruct I as [<-|I]; [lia|]). destruct I.
    + intros J. cbn [delimiters default_options In] in J.
      repeat (destruct I as [<-|I]; [repeat (destruct J as [J|J]; [discriminate|]); destruct J|]). destruct I.
Qed.

(** ** C91: headers *)
Theorem C91_header_rule : forall sort order o buf, 0 < max_rows o -> (Z.of_nat (length buf) < 2 ^ 52)%Z ->
  let r := detect sort order o buf in
  let d := res_dialect r in
  (flt lit_0 (res_confidence r) = false -> res_header r = false) /\
  (flt lit_0 (res_confidence r) = true -> exists off len ch n, let sample := firstn len (skipn off buf) in
     skip_comment_lines o buf = (off, ch, n) /\ len = sample_len o (skipn off buf) /\
     (res_header r = true <->
      exists s e s2 e2 rest, find_rows o d sample = (s, e) :: (s2, e2) :: rest /\
        LooksLikeHeader (fun f => match infer_cell_type f with STRING => true | _ => false end)
          (fun f => match infer_cell_type f with STRING | EMPTY => false | _ => true end)
          (extract_fields d (slice s e sample)) (extract_fields d (slice s2 e2 sample)))).
Proof. exact header_detect. Qed.
Print Assumptions C91_header_rule.
Example C91_meets : let r := detect some_sort (fun t => t) default_options plain_sample in
  flt lit_0 (res_confidence r) = true /\ res_header r = true.
Proof. vm_compute. split; reflexivity. Qed.

(** ** C92: warnings *)
Theorem C92_warnings : forall sort order o buf,
  (forall l, Permutation (sort l) l) -> (forall t, Permutation (order t) t) ->
  0 < max_rows o -> (Z.of_nat (length buf) < 2 ^ 53)%Z ->
  let r := detect sort order o buf in
  (res_warning r = EmptyInput <-> buf = []) /\
  (res_warning r = OnlyComments <->
     buf <> [] /\ exists ch n off, skip_comment_lines o buf = (off, ch, n) /\ skipn off buf = []) /\
  (res_warning r = NotDetected <-> Is (res_confidence r) 0%R /\ buf <> [] /\
     exists ch n off, skip_comment_lines o buf = (off, ch, n) /\ skipn off buf <> []) /\
  (res_warning r = Ambiguous <->
     exists best second rest x y, res_candidates r = best :: second :: rest /\
       Is (cand_score best) x /\ Is (cand_score second) y /\ (0 < x /\ rnd (literal 9 10 * x) < y)%R) /\
  res_warning r <> NotOpened.
Proof. exact warning_ok. Qed.
Print Assumptions C92_warnings.
(** All kinds of outcome occur. *)
Example C92_meets :
  res_warning (detect some_sort (fun t => t) default_options []) = EmptyInput /\
  res_warning (detect some_sort (fun t => t) default_options [35;97;10]%N) = OnlyComments /\
  res_warning (detect some_sort (fun t => t) default_options [97;44;98;10]%N) = NotDetected /\
  res_warning (detect some_sort (fun t => t) default_options plain_sample) = Ambiguous /\
  res_warning (detect some_sort (fun t => t) dq_options doubled_sample) <> NotDetected.
Proof. vm_compute. repeat split. discriminate. Qed.
