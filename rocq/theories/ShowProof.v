(** Proofs for the descriptions. *)
From Verif Require Import Base NumSpec DialectModel WordsModel ChunkSpec ChunkModel FieldsSpec FieldsModel NumModel ReaderSpec ReaderModel
  TypesSpec TypesModel ErrorsSpec ErrorsModel CliSpec CliModel CliProof2 CliProof4 SplitSpec DeliverSpec DeliverProof DeliverProof2 ShowSpec ShowModel.

(** ** Texts *)
Lemma says_number n : says (to_string_N (N.of_nat n)) n.
Proof.
  destruct (to_string_N_spec (N.of_nat n)) as (A & B & C & D). unfold says, natural_text. split.
  - destruct (to_string_N (N.of_nat n)) as [|c r]; [congruence|]. rewrite A, B. f_equal. lia.
  - intros E. specialize (D E). rewrite D. reflexivity.
Qed.

Lemma says_digits w n : says w n -> forallb is_digit w = true.
Proof. unfold says, natural_text. intros (H & _). revert H. destruct w; [discriminate|]. destruct (forallb _ _); congruence. Qed.

Lemma says_inj w n m : says w n -> says w m -> n = m.
Proof. unfold says. intros (A & _) (B & _). rewrite A in B. injection B as B. lia. Qed.

Lemma digits_not_in w n c : says w n -> is_digit c = false -> ~ In c w.
Proof. intros A B C. apply says_digits in A. rewrite forallb_forall in A. apply A in C. congruence. Qed.

(** The first place of a character that does not occur before. *)
Lemma split_first {A} (x : A) : forall a b r s, ~ In x a -> ~ In x b -> a ++ x :: r = b ++ x :: s -> a = b /\ r = s.
Proof.
  induction a as [|c a IH]; intros [|d b] r s Ha Hb E.
  - injection E as E. split; [reflexivity|exact E].
  - injection E as E1 E2. subst d. exfalso. apply Hb. left. reflexivity.
  - injection E as E1 E2. subst c. exfalso. apply Ha. left. reflexivity.
  - injection E as E1 E2. subst d. destruct (IH b r s) as (-> & ->); [intros K; apply Ha; right; exact K|intros K; apply Hb; right; exact K|exact E2|].
    split; reflexivity.
Qed.

Lemma split_last {A} (x : A) a b r s : ~ In x r -> ~ In x s -> a ++ x :: r = b ++ x :: s -> a = b /\ r = s.
Proof.
  intros Hr Hs E. apply (f_equal (@rev A)) in E. rewrite !rev_app_distr in E. cbn [rev] in E. rewrite <- !app_assoc in E. cbn [app] in E.
  apply split_first in E; [|rewrite <- in_rev; assumption|rewrite <- in_rev; assumption].
  destruct E as (E1 & E2). apply (f_equal (@rev A)) in E1, E2. rewrite !rev_involutive in E1. rewrite !rev_involutive in E2. split; assumption.
Qed.

(** ** info *)
Lemma format_delimiter_spec d : shown_char delimiter_words d (format_delimiter d).
Proof.
  unfold format_delimiter.
  destruct (N.eqb_spec d COMMA) as [->|H1]; [left; cbn; tauto|].
  destruct (N.eqb_spec d 9) as [->|H2]; [left; cbn; tauto|].
  destruct (N.eqb_spec d 59) as [->|H3]; [left; cbn; tauto|].
  destruct (N.eqb_spec d 124) as [->|H4]; [left; cbn; tauto|].
  destruct (N.eqb_spec d 58) as [->|H5]; [left; cbn; tauto|].
  right. split; [|reflexivity]. cbn. intuition congruence.
Qed.

Lemma format_quote_spec q : shown_char quote_words q (format_quote q).
Proof.
  unfold format_quote. destruct (N.eqb_spec q DQ) as [->|H1]; [left; cbn; tauto|].
  right. split; [|reflexivity]. cbn. intuition congruence.
Qed.

Lemma type_name_spec t : In (t, type_name t) type_words.
Proof. destruct t; cbn; tauto. Qed.

Lemma column_lines_spec : forall names types k, length types = length names ->
  exists cols, column_lines k names types = as_text cols /\ length cols = length names /\
    forall j, j < length names -> column_line (k + j) (nth j names []) (nth j types UNKNOWN) (nth j cols []).
Proof.
  induction names as [|n ns IH]; intros [|t ts] k H; try discriminate H.
  - exists []. repeat split. intros j J. cbn in J. lia.
  - injection H as H. destruct (IH ts (S k) H) as (cols & E & L & P).
    exists ((s2b "  " ++ to_string_N (N.of_nat k) ++ s2b ": " ++ n ++ s2b " (" ++ type_name t ++ s2b ")") :: cols).
    split; [|split].
    + cbn [column_lines]. rewrite E. unfold as_text. cbn [map concat]. rewrite <- !app_assoc. reflexivity.
    + cbn [length]. lia.
    + intros [|j] J.
      * rewrite Nat.add_0_r. exists (to_string_N (N.of_nat k)), (type_name t). split; [apply says_number|]. split; [apply type_name_spec|]. reflexivity.
      * cbn [nth]. replace (k + S j) with (S k + j) by lia. apply P. cbn [length] in J. lia.
Qed.

Lemma as_text_app a b : as_text (a ++ b) = as_text a ++ as_text b.
Proof. unfold as_text. rewrite map_app, concat_app. reflexivity. Qed.
Lemma as_text_cons a b : as_text (a :: b) = a ++ [LF] ++ as_text b.
Proof. unfold as_text. cbn [map concat]. rewrite <- app_assoc. reflexivity. Qed.

(** The texts assembled. *)
Lemma describing_lines source size d q rows header names types :
  length types = length names -> names <> [] ->
  exists ls, describing source size d q rows header names types ls /\
    as_text ls =
      s2b "Source: " ++ source ++ [LF]
        ++ match size with Some n => s2b "Size: " ++ to_string_N (N.of_nat n) ++ s2b " bytes" ++ [LF] | None => [] end
        ++ (s2b "Dialect: delimiter=" ++ format_delimiter d ++ s2b ", quote=" ++ format_quote q ++ [LF])
        ++ s2b "Rows: " ++ to_string_N (N.of_nat rows) ++ [LF]
        ++ s2b "Columns: " ++ to_string_N (N.of_nat (length names)) ++ [LF]
        ++ if header && negb (match names with [] => true | _ => false end)
           then [LF] ++ s2b "Column names:" ++ [LF] ++ column_lines 0 names types else [].
Proof.
  intros L N. destruct (column_lines_spec names types 0 L) as (cols & E & LC & P).
  eexists. split.
  - exists (match size with Some n => [s2b "Size: " ++ to_string_N (N.of_nat n) ++ s2b " bytes"] | None => [] end),
      (to_string_N (N.of_nat rows)), (to_string_N (N.of_nat (length names))), (format_delimiter d), (format_quote q),
      (if header then [] :: s2b "Column names:" :: cols else []).
    split; [destruct size; [eexists; split; [apply says_number|reflexivity]|reflexivity]|].
    split; [apply says_number|]. split; [apply says_number|]. split; [apply format_delimiter_spec|]. split; [apply format_quote_spec|].
    split; [|reflexivity]. destruct header; [|reflexivity]. exists cols. split; [reflexivity|]. split; [exact LC|exact P].
  - rewrite as_text_cons, as_text_app, !as_text_cons.
    assert (X : (if header && negb match names with [] => true | _ => false end
           then [LF] ++ s2b "Column names:" ++ [LF] ++ column_lines 0 names types else []) =
       as_text (if header then [] :: s2b "Column names:" :: cols else [])).
    { destruct names as [|n0 ns]; [congruence|]. destruct header; cbn [andb negb]; [|reflexivity].
      rewrite !as_text_cons, E. reflexivity. }
    rewrite X. rewrite <- !app_assoc. f_equal. f_equal. f_equal. f_equal.
    destruct size; [|reflexivity]. rewrite as_text_cons. unfold as_text. cbn [map concat]. rewrite app_nil_r, <- !app_assoc. reflexivity.
Qed.

Section Info.
Context {F : Type}.
Variable ff : bytes -> option F.
Variables (lanes : nat) (clmul : bool) (num_threads : N) (ne_in : bool) (o : csv_options).
Hypotheses (H1 : 1 <= lanes) (H2 : Nat.divide lanes 64) (HqL : quote o <> LF) (HqC : quote o <> CR).

(** The content of an input that is there. *)
Lemma info_spec i c again :
  (i = Stdin c \/ exists path, i = File path (inr c)) -> c <> [] -> quote o <> separator o -> quote o <> 0%N ->
  exists names types rs ls,
    option_map fst (open_file ff lanes clmul o c) = Some (names, types) /\
    chunk_ranges lanes clmul (quote o) c (header_end_of o c) (chunk_of num_threads o c (length names)) = Some rs /\
    let R := rows_of_parts (separator o) (quote o) (file_parts (quote o) (N.to_nat PARALLEL_THRESHOLD) c (header_end_of o c) rs) in
    info ff lanes clmul num_threads ne_in o (option_map N.of_nat again) i = Exit 0 (as_text ls) /\
    describing (source_text i) (match i with Stdin _ => Some (length c) | _ => again end) (separator o) (quote o) (length R) (has_header o)
      names types ls.
Proof.
  intros Hi Hc A1 A2. destruct (file_delivered ff lanes clmul num_threads ne_in o H1 H2 HqL HqC c Hc A1 A2) as (names & types & t & rs & E & L & N & Er & B & _).
  assert (NE : names <> []) by (destruct names; [cbn in N; lia|congruence]).
  destruct (describing_lines (source_text i) (match i with Stdin _ => Some (length c) | _ => again end) (separator o) (quote o)
    (total_rows t) (has_header o) names types L NE) as (ls & D & T).
  exists names, types, rs, ls. split.
  { unfold read_file in E. destruct (open_file ff lanes clmul o c) as [[[ns ts] x]|]; [|discriminate E].
    cbn [option_map fst]. destruct (read_all _ _ _ _ _ _ _ _ _ _ _) in E; [|discriminate E]. injection E as -> -> _. reflexivity. }
  split; [exact Er|]. cbv zeta in B |- *. rewrite <- B. split; [|exact D]. rewrite T. unfold info.
  assert (EL : load ff lanes clmul num_threads ne_in o (info_empty o i) i = Table names types t).
  { destruct Hi as [->|(path & ->)]; unfold load; destruct c as [|x c]; try congruence; rewrite E; reflexivity. }
  rewrite EL. f_equal. f_equal. f_equal. f_equal. f_equal.
  destruct Hi as [->|(path & ->)]; [reflexivity|]. destruct again; reflexivity.
Qed.
End Info.

(** ** What the description tells *)
Lemma shown_char_inj words c c' w w' : (forall c w, In (c, w) words -> 2 <= length w) ->
  (forall c c' w, In (c, w) words -> In (c', w) words -> c = c') ->
  shown_char words c w -> shown_char words c' w' -> w = w' -> c = c'.
Proof.
  intros A B [C|(C & ->)] [D|(D & ->)] E.
  - subst w'. apply (B c c' w C D).
  - subst w. apply A in C. cbn in C. lia.
  - subst w'. apply A in D. cbn in D. lia.
  - congruence.
Qed.

Lemma delimiter_words_long c w : In (c, w) delimiter_words -> 2 <= length w.
Proof. cbn. intros H. repeat (destruct H as [H|H]; [injection H as <- <-; cbn; lia|]). destruct H. Qed.
Lemma delimiter_words_inj c c' w : In (c, w) delimiter_words -> In (c', w) delimiter_words -> c = c'.
Proof.
  cbn. intros H K. repeat (destruct H as [H|H]; [injection H as <- <-; repeat (destruct K as [K|K]; [injection K; congruence|]); destruct K|]). destruct H.
Qed.

Lemma delimiter_word_shape c w : shown_char delimiter_words c w -> ~ In COMMA w.
Proof.
  intros [H|(H & ->)].
  - cbn in H. repeat (destruct H as [H|H]; [injection H as <- <-; cbn; intuition discriminate|]). destruct H.
  - intros [K|[]]. apply H. cbn. left. congruence.
Qed.
Lemma quote_words_inj c c' w w' : shown_char quote_words c w -> shown_char quote_words c' w' -> w = w' -> c = c'.
Proof.
  apply shown_char_inj.
  - intros x y [H|[]]. injection H as <- <-. cbn. lia.
  - intros x y z [H|[]] [K|[]]. congruence.
Qed.

Lemma type_words_inj t t' w : In (t, w) type_words -> In (t', w) type_words -> t = t'.
Proof.
  cbn. intros H K. repeat (destruct H as [H|H]; [injection H as <- <-; repeat (destruct K as [K|K]; [injection K; congruence|]); destruct K|]). destruct H.
Qed.
Lemma type_words_shape t w : In (t, w) type_words -> ~ In 40%N w.
Proof. cbn. intros H. repeat (destruct H as [H|H]; [injection H as <- <-; cbn; intuition discriminate|]). destruct H. Qed.

Lemma column_line_inj k k' n n' t t' l : column_line k n t l -> column_line k' n' t' l -> k = k' /\ n = n' /\ t = t'.
Proof.
  intros (d & w & A & B & ->) (d' & w' & A' & B' & E).
  injection E as E. change (s2b ": ") with (58%N :: [32%N]) in E. cbn [app] in E.
  apply split_first in E; [|eapply digits_not_in; [eassumption|reflexivity]|eapply digits_not_in; [eassumption|reflexivity]].
  destruct E as (-> & E). injection E as E.
  assert (X : (n ++ [32%N]) ++ 40%N :: (w ++ [41%N]) = (n' ++ [32%N]) ++ 40%N :: (w' ++ [41%N])) by (rewrite <- !app_assoc; exact E).
  clear E. rename X into E.
  apply split_last in E.
  - destruct E as (E1 & E2). apply app_inj_tail in E1, E2. destruct E1 as (-> & _), E2 as (-> & _).
    split; [eapply says_inj; eassumption|]. split; [reflexivity|]. eapply type_words_inj; eassumption.
  - rewrite in_app_iff. intros [K|[K|[]]]; [exact (type_words_shape _ _ B K)|discriminate K].
  - rewrite in_app_iff. intros [K|[K|[]]]; [exact (type_words_shape _ _ B' K)|discriminate K].
Qed.

Lemma app_nil_inj {A} (a b : list A) x y : a = b -> a ++ x = b ++ y -> x = y.
Proof. intros -> H. apply app_inv_head in H. exact H. Qed.

Lemma describing_tells s s' z z' d d' q q' r r' h h' ns ns' ts ts' ls :
  length ts = length ns -> length ts' = length ns' -> ns <> [] -> ns' <> [] ->
  describing s z d q r h ns ts ls -> describing s' z' d' q' r' h' ns' ts' ls ->
  s = s' /\ z = z' /\ d = d' /\ q = q' /\ r = r' /\ h = h' /\ length ns = length ns' /\ (h = true -> ns = ns' /\ ts = ts').
Proof.
  intros L L' Z0 Z0' (sl & rw & cw & dw & qw & cp & A1 & A2 & A3 & A4 & A5 & A6 & ->)
    (sl' & rw' & cw' & dw' & qw' & cp' & B1 & B2 & B3 & B4 & B5 & B6 & E).
  injection E as Es E. split; [exact Es|].
  assert (Z : z = z' /\ (s2b "Dialect: delimiter=" ++ dw ++ s2b ", quote=" ++ qw) :: (s2b "Rows: " ++ rw) :: (s2b "Columns: " ++ cw) :: cp =
     (s2b "Dialect: delimiter=" ++ dw' ++ s2b ", quote=" ++ qw') :: (s2b "Rows: " ++ rw') :: (s2b "Columns: " ++ cw') :: cp').
  { destruct z as [n|], z' as [n'|].
    - destruct A1 as (w & W & ->), B1 as (w' & W' & ->). pose proof (f_equal (@tl bytes) E) as E0. cbn [app] in E. injection E as Ew E1 E2 E3 E4.
      change (s2b " bytes") with (32%N :: s2b "bytes") in Ew.
      apply split_first in Ew; [|eapply digits_not_in; [eassumption|reflexivity]|eapply digits_not_in; [eassumption|reflexivity]].
      destruct Ew as (-> & _). split; [f_equal; eapply says_inj; eassumption|]. exact E0.
    - destruct A1 as (w & W & ->). subst sl'. cbn [app] in E. discriminate E.
    - destruct B1 as (w & W & ->). subst sl. cbn [app] in E. discriminate E.
    - subst. split; [reflexivity|exact E]. }
  destruct Z as (Z & E'). split; [exact Z|]. clear E. injection E' as E1 E2 E3 E4.
  change (s2b ", quote=") with (COMMA :: s2b " quote=") in E1. cbn [app] in E1.
  apply split_first in E1; [|eapply delimiter_word_shape; eassumption|eapply delimiter_word_shape; eassumption].
  destruct E1 as (E1 & E5). injection E5 as E5.
  split; [eapply (shown_char_inj delimiter_words); [exact delimiter_words_long|exact delimiter_words_inj| | |]; eassumption|].
  split; [eapply quote_words_inj; eassumption|].
  subst rw' cw'. split; [eapply says_inj; eassumption|].
  assert (LN : length ns = length ns') by (eapply says_inj; eassumption).
  subst cp'. assert (Hh : h = h').
  { destruct h, h'; try reflexivity.
    - destruct A6 as (? & -> & _). discriminate B6.
    - destruct B6 as (? & -> & _). discriminate A6. }
  split; [exact Hh|]. split; [exact LN|]. subst h'. intros ->.
  destruct A6 as (cols & -> & C1 & C2), B6 as (cols' & Ec & C1' & C2'). injection Ec as ->.
  assert (P : forall k, k < length ns -> nth k ns [] = nth k ns' [] /\ nth k ts UNKNOWN = nth k ts' UNKNOWN).
  { intros k K. specialize (C2 k K). specialize (C2' k ltac:(lia)). destruct (column_line_inj _ _ _ _ _ _ _ C2 C2') as (_ & X & Y). split; assumption. }
  split; (eapply nth_ext; [lia|]); intros k K; apply P; lia.
Qed.

(** ** Lines *)
Lemma s2b_no_lf_app a b : ~ In LF a -> ~ In LF b -> ~ In LF (a ++ b).
Proof. rewrite in_app_iff. tauto. Qed.

Lemma says_no_lf w n : says w n -> ~ In LF w.
Proof. intros H. eapply digits_not_in; [exact H|reflexivity]. Qed.

Lemma shown_no_lf words c w : (forall c w, In (c, w) words -> ~ In LF w) -> c <> LF -> shown_char words c w -> ~ In LF w.
Proof. intros A B [C|(_ & ->)]; [eapply A; exact C|]. intros [D|[]]. congruence. Qed.

Lemma describing_no_lf s z d q r h ns ts ls : describing s z d q r h ns ts ls -> ~ In LF s -> d <> LF -> q <> LF ->
  (forall n, In n ns -> ~ In LF n) -> Forall (fun l => ~ In LF l) ls.
Proof.
  intros (sl & rw & cw & dw & qw & cp & A1 & A2 & A3 & A4 & A5 & A6 & ->) Hs Hd Hq Hn.
  assert (W1 : ~ In LF dw).
  { eapply shown_no_lf; [|exact Hd|exact A4]. cbn. intros c w H. repeat (destruct H as [H|H]; [injection H as <- <-; cbn; intuition discriminate|]). destruct H. }
  assert (W2 : ~ In LF qw).
  { eapply shown_no_lf; [|exact Hq|exact A5]. cbn. intros c w H. repeat (destruct H as [H|H]; [injection H as <- <-; cbn; intuition discriminate|]). destruct H. }
  assert (K : forall t, existsb (N.eqb LF) (s2b t) = false -> ~ In LF (s2b t)).
  { intros t E X. assert (existsb (N.eqb LF) (s2b t) = true) by (apply existsb_exists; exists LF; split; [exact X|reflexivity]). congruence. }
  constructor; [apply s2b_no_lf_app; [apply K; reflexivity|exact Hs]|].
  apply Forall_app. split.
  { destruct z as [n|]; [|subst; constructor]. destruct A1 as (w & W & ->). constructor; [|constructor].
    apply s2b_no_lf_app; [apply K; reflexivity|]. apply s2b_no_lf_app; [eapply says_no_lf; exact W|apply K; reflexivity]. }
  constructor.
  { apply s2b_no_lf_app; [apply K; reflexivity|]. apply s2b_no_lf_app; [exact W1|]. apply s2b_no_lf_app; [apply K; reflexivity|exact W2]. }
  constructor; [apply s2b_no_lf_app; [apply K; reflexivity|eapply says_no_lf; exact A2]|].
  constructor; [apply s2b_no_lf_app; [apply K; reflexivity|eapply says_no_lf; exact A3]|].
  destruct h; [|subst; constructor]. destruct A6 as (cols & -> & C1 & C2).
  constructor; [intros []|]. constructor; [apply K; reflexivity|].
  apply Forall_forall. intros l Hl. apply (In_nth _ _ []) in Hl. destruct Hl as (k & Kl & <-).
  destruct (C2 k ltac:(lia)) as (num & w & X1 & X2 & ->).
  apply s2b_no_lf_app; [apply K; reflexivity|]. apply s2b_no_lf_app; [eapply says_no_lf; exact X1|].
  apply s2b_no_lf_app; [apply K; reflexivity|]. apply s2b_no_lf_app; [apply Hn; apply nth_In; lia|].
  apply s2b_no_lf_app; [apply K; reflexivity|]. apply s2b_no_lf_app; [|apply K; reflexivity].
  cbn in X2. repeat (destruct X2 as [X2|X2]; [injection X2 as _ <-; cbn; intuition discriminate|]). destruct X2.
Qed.

Lemma as_text_lines ls : Forall (fun l => ~ In LF l) ls -> output_lines (as_text ls) [] = ls.
Proof. intros H. unfold as_text. rewrite output_lines_concat by exact H. destruct ls; reflexivity. Qed.
