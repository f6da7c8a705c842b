From Verif Require Import Base NumSpec NumModel NumProps DateSpec DateModel StampSpec StampProof StampProps ReaderSpec ReaderModel ReaderProof TypesSpec TypesModel TypesProof TypesProof3 KeepSpec.

Lemma in_words v l : existsb (bytes_eqb v) l = true <-> In v l.
Proof.
  rewrite existsb_exists. split.
  - intros (x & Hx & E). apply bytes_eqb_spec in E. now subst.
  - intros H. exists v. split; [exact H|]. now apply bytes_eqb_spec.
Qed.

Lemma words_apart v : In v truth_words -> In v falsehood_words -> False.
Proof.
  intros H1 H2. cbn in H1, H2.
  repeat (destruct H1 as [<-|H1]; [repeat (destruct H2 as [H2|H2]; [discriminate H2|]); exact H2|]). exact H1.
Qed.

Section K.
Context {F : Type}.
Variable ff : bytes -> option F.

Lemma bool_means v x : @append_bool F v = Some x <-> means ff BOOL v x.
Proof.
  unfold append_bool. cbn [means].
  change true_words with truth_words. change false_words with falsehood_words.
  destruct (existsb (bytes_eqb v) truth_words) eqn:E1.
  - apply in_words in E1. split.
    + intros H. injection H as <-. now left.
    + intros [[_ ->]|[H _]]; [reflexivity|]. exfalso. exact (words_apart v E1 H).
  - assert (N1 : ~ In v truth_words) by (rewrite <- in_words, E1; discriminate).
    destruct (existsb (bytes_eqb v) falsehood_words) eqn:E2.
    + apply in_words in E2. split.
      * intros H. injection H as <-. now right.
      * intros [[H _]|[_ ->]]; [contradiction|reflexivity].
    + assert (N2 : ~ In v falsehood_words) by (rewrite <- in_words, E2; discriminate).
      split; [discriminate|]. intros [[H _]|[H _]]; contradiction.
Qed.

Lemma kept_iff lanes T v x : lanes <= 64 -> is_bytes v -> append_value ff lanes T v = Some x <-> means ff T v x.
Proof.
  intros Hl Hb. destruct T; cbn [append_value]; try (cbn [means]; split; [intros H; injection H as <-; reflexivity|intros ->; reflexivity]).
  - apply bool_means.
  - cbn [means]. unfold integer_in. split.
    + unfold of_parsed. destruct (parse_int32_simd false lanes v) as [z| |] eqn:E; try discriminate.
      intros H. injection H as <-. exists z. split; [|reflexivity]. now apply (C15_int32_exact lanes v z Hl Hb).
    + intros (z & H & ->). apply (C15_int32_exact lanes v z Hl Hb) in H. rewrite H. reflexivity.
  - cbn [means]. unfold integer_in. split.
    + unfold of_parsed. destruct (parse_int64_simd false lanes v) as [z| |] eqn:E; try discriminate.
      intros H. injection H as <-. exists z. split; [|reflexivity]. now apply (C16_int64_exact lanes v z Hl Hb).
    + intros (z & H & ->). apply (C16_int64_exact lanes v z Hl Hb) in H. rewrite H. reflexivity.
  - cbn [means]. split.
    + destruct (ff v) as [f|]; [|discriminate]. intros H. injection H as <-. exists f. split; reflexivity.
    + intros (f & -> & ->). reflexivity.
  - assert (E : match v with [] => None | _ => option_map VInt (parse_date v) end = option_map (@VInt F) (parse_date v)) by (destruct v; reflexivity).
    rewrite E. cbn [means]. unfold date_value. split.
    + destruct (parse_date v) as [n|] eqn:P; [|discriminate]. intros H. injection H as <-. exists n. split; [|reflexivity]. now apply C17_value_exactly.
    + intros (n & H & ->). apply C17_value_exactly in H. rewrite H. reflexivity.
  - assert (E : match v with [] => None | _ => option_map VInt (parse_timestamp v) end = option_map (@VInt F) (parse_timestamp v)) by (destruct v; reflexivity).
    rewrite E. cbn [means]. unfold timestamp_value. split.
    + destruct (parse_timestamp v) as [n|] eqn:P; [|discriminate]. intros H. injection H as <-. exists n. split; [|reflexivity]. now apply C18_accepted_exactly.
    + intros (n & H & ->). apply C18_accepted_exactly in H. rewrite H. reflexivity.
Qed.

Lemma none_iff lanes T v : lanes <= 64 -> is_bytes v -> append_value ff lanes T v = None <-> ~ (exists x, means ff T v x).
Proof.
  intros Hl Hb. split.
  - intros H (x & Hx). apply (kept_iff lanes T v x Hl Hb) in Hx. congruence.
  - intros H. destruct (append_value ff lanes T v) as [x|] eqn:E; [|reflexivity]. exfalso. apply H. exists x. now apply (kept_iff lanes T v x Hl Hb).
Qed.

Lemma date_length v y m d : denotes_date v y m d -> length v = 10.
Proof.
  intros (sep & yt & mt & dt & _ & -> & (L1 & _) & (L2 & _) & (L3 & _) & _).
  rewrite !app_length. cbn [length]. clear - L1 L2 L3. lia.
Qed.

Lemma infer_date o v : infer_field ff o v = DATE -> length v = 10.
Proof.
  unfold infer_field. destruct v as [|c v]; [discriminate|].
  destruct (in_list (null_values o) (c :: v)); [discriminate|].
  destruct (in_list (true_values o) (c :: v)); [discriminate|].
  destruct (in_list (false_values o) (c :: v)); [discriminate|].
  destruct (looks_integer (c :: v)).
  { unfold integer_type. intros H. destruct (length (c :: v) <=? 10); [|discriminate]. destruct (int32_loop 0 (after_sign (c :: v))); [|discriminate].
    destruct (_ || _)%bool in H; discriminate. }
  destruct (ff (c :: v)); [discriminate|].
  destruct (looks_date (c :: v)) eqn:L.
  - intros _. unfold looks_date in L. apply andb_prop in L as [L _]. apply andb_prop in L as [L _]. apply andb_prop in L as [L _]. now apply Nat.eqb_eq.
  - destruct (looks_timestamp (c :: v)); discriminate.
Qed.

Lemma lost_iff lanes o cells T v :
  lanes <= 64 -> is_bytes v -> narrowest (map (infer_field ff o) cells) T -> In v cells -> infer_field ff o v <> NA ->
  append_value ff lanes T v = None <-> lost ff (infer_field ff o v) T v.
Proof.
  intros Hl Hb [HN _] Hin N1.
  assert (B : below (infer_field ff o v) T) by (apply HN, in_map, Hin).
  rewrite (none_iff lanes T v Hl Hb).
  assert (NU := infer_not_unknown ff o v). apply below_iff in B.
  destruct T; cbn [lost means].
  - destruct (infer_field ff o v); try discriminate B; congruence.
  - split.
    + intros H. split; intros W; apply H; [exists (VBool true)|exists (VBool false)]; [now left|now right].
    + intros [H1 H2] (x & [[W _]|[W _]]); contradiction.
  - split.
    + intros H. split; [|intros (z & Hz); apply H; exists (VInt z); exists z; split; [exact Hz|reflexivity]].
      destruct (infer_field ff o v) eqn:E; try discriminate B; try congruence. exfalso.
      destruct (integer_cell ff lanes o v INT32 INT32 Hl Hb E ltac:(discriminate) ltac:(discriminate)) as (z & Iz & A); [now apply below_iff|now left|now apply (int32_fits ff o)|].
      apply H. exists (VInt z). now apply (kept_iff lanes INT32 v).
    + intros [_ H] (x & z & Hz & _). apply H. now exists z.
  - split.
    + intros H. split; [|intros (z & Hz); apply H; exists (VInt z); exists z; split; [exact Hz|reflexivity]].
      destruct (infer_field ff o v) eqn:E; try discriminate B; try congruence; try tauto. exfalso.
      destruct (integer_cell ff lanes o v INT32 INT64 Hl Hb E ltac:(discriminate) ltac:(discriminate)) as (z & Iz & A); [now apply below_iff|now right|now apply (int32_fits ff o)|].
      apply H. exists (VInt z). now apply (kept_iff lanes INT64 v).
    + intros [_ H] (x & z & Hz & _). apply H. now exists z.
  - split.
    + intros H. assert (E : ff v = None). { destruct (ff v) as [f|] eqn:Ef; [|reflexivity]. exfalso. apply H. exists (VFloat f), f. split; reflexivity. }
      split; [|exact E].
      destruct (infer_field ff o v) eqn:Ei; try discriminate B; try congruence; try tauto.
      exfalso. destruct (infer_float ff o v Ei) as (f & Hf). congruence.
    + intros [_ H] (x & f & Hf & _). congruence.
  - split; [|tauto]. intros H. apply H. exists (VString v). reflexivity.
  - split.
    + intros H (n & Hn). apply H. exists (VInt n), n. split; [exact Hn|reflexivity].
    + intros H (x & n & Hn & _). apply H. now exists n.
  - split.
    + intros H. right. intros (n & Hn). apply H. exists (VInt n), n. split; [exact Hn|reflexivity].
    + intros [H|H] (x & n & Hn & _).
      * apply infer_date in H. destruct Hn as (date & sep & time & rest & y & m & d & hh & mi & ss & micros & o' & -> & _ & D & _).
        apply date_length in D. rewrite !app_length in H. cbn [length] in H. clear - H D. lia.
      * apply H. now exists n.
  - destruct (infer_field ff o v); try discriminate B; congruence.
Qed.

(** With the default words for true and false. *)
Lemma default_bool v : infer_field ff default_options v = BOOL ->
  (In v truth_words \/ In v falsehood_words \/ v = s2b "Yes" \/ v = s2b "No") /\ integer_text v = None /\
  ((~ In v truth_words /\ ~ In v falsehood_words) <-> (v = s2b "Yes" \/ v = s2b "No")).
Proof.
  intros H. apply infer_bool in H as [_ [H|H]]; vm_compute in H;
    repeat (destruct H as [<-|H]; [split; [|split; [reflexivity|]]|]); try (destruct H; fail);
    try (first [left; apply in_words; reflexivity|right; left; apply in_words; reflexivity|right; right; left; reflexivity|right; right; right; reflexivity]);
    rewrite <- !in_words;
    (split; [intros [A B]; first [exfalso; apply A; reflexivity|exfalso; apply B; reflexivity|left; reflexivity|right; reflexivity]
            |intros [E|E]; try discriminate E; split; intros W; vm_compute in W; discriminate W]).
Qed.

Lemma lost_default lanes cells T v :
  (forall w, In w (comma_pieces (true_values default_options)) \/ In w (comma_pieces (false_values default_options)) -> w <> [] -> ff w = None) ->
  lanes <= 64 -> is_bytes v -> narrowest (map (infer_field ff default_options) cells) T -> In v cells -> infer_field ff default_options v <> NA ->
  let t := infer_field ff default_options v in
  append_value ff lanes T v = None <->
    (T = BOOL /\ (v = s2b "Yes" \/ v = s2b "No")) \/
    (t = BOOL /\ (T = INT32 \/ T = INT64 \/ T = FLOAT64)) \/
    (t = INT64 /\ T = INT64 /\ ~ (exists z, integer_in 64 20 v z)) \/
    ((t = INT32 \/ t = INT64) /\ T = FLOAT64 /\ ff v = None) \/
    (t = DATE /\ T = DATE /\ ~ (exists n, date_value v n)) \/
    (t = DATE /\ T = TIMESTAMP) \/
    (t = TIMESTAMP /\ T = TIMESTAMP /\ ~ (exists n, timestamp_value v n)).
Proof.
  intros HW Hl Hb HN Hin N1 t. rewrite (lost_iff lanes default_options cells T v Hl Hb HN Hin N1). fold t. fold t in N1.
  assert (B : below t T) by (apply (proj1 HN); unfold t; apply in_map, Hin). apply below_iff in B.
  assert (NU : t <> UNKNOWN) by apply infer_not_unknown.
  assert (DB : t = BOOL -> (forall w n z, ~ integer_in w n v z) /\ ff v = None /\ ((~ In v truth_words /\ ~ In v falsehood_words) <-> (v = s2b "Yes" \/ v = s2b "No"))).
  { intros E. destruct (default_bool v E) as (_ & I & W). split; [intros w n z (Hz & _); congruence|]. split; [|exact W].
    destruct (infer_bool ff default_options v E) as (Hv & Hc). exact (HW v Hc Hv). }
  destruct T; cbn [lost].
  - destruct t; try discriminate B; congruence.
  - assert (E : t = BOOL) by (destruct t; try discriminate B; congruence). destruct (DB E) as (_ & _ & W). rewrite W. split; [left; tauto|].
    intros [H|[H|[H|[H|[H|[H|H]]]]]]; [tauto|..]; exfalso; decompose [and or] H; congruence.
  - split.
    + intros [E _]. right; left. tauto.
    + intros [H|[H|[H|[H|[H|[H|H]]]]]]; try (exfalso; decompose [and or] H; congruence).
      split; [tauto|]. destruct (DB (proj1 H)) as (W & _). intros (z & Hz). exact (W _ _ _ Hz).
  - split.
    + intros [[E|E] Hz]; [right; left; tauto|]. right; right; left. tauto.
    + intros [H|[H|[H|[H|[H|[H|H]]]]]]; try (exfalso; decompose [and or] H; congruence).
      * split; [tauto|]. destruct (DB (proj1 H)) as (W & _). intros (z & Hz). exact (W _ _ _ Hz).
      * tauto.
  - split.
    + intros [[E|E] Hz]; [right; left; tauto|]. right; right; right; left. tauto.
    + intros [H|[H|[H|[H|[H|[H|H]]]]]]; try (exfalso; decompose [and or] H; congruence).
      * split; [tauto|]. exact (proj1 (proj2 (DB (proj1 H)))).
      * tauto.
  - split; [tauto|]. intros [H|[H|[H|[H|[H|[H|H]]]]]]; exfalso; decompose [and or] H; congruence.
  - assert (E : t = DATE) by (destruct t; try discriminate B; congruence). split; [tauto|].
    intros [H|[H|[H|[H|[H|[H|H]]]]]]; try (exfalso; decompose [and or] H; congruence). tauto.
  - assert (E : t = DATE \/ t = TIMESTAMP) by (destruct t; try discriminate B; try congruence; tauto). split.
    + intros [H|H]; [tauto|]. destruct E; tauto.
    + intros [H|[H|[H|[H|[H|[H|H]]]]]]; try (exfalso; decompose [and or] H; congruence); tauto.
  - destruct t; try discriminate B; congruence.
Qed.
End K.
