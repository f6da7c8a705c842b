(** Dialect detection as a whole with explicit reads. *)
From Coq Require Import SpecFloat.
From Verif Require Import Base RawModel RawProof ChunkModel ReaderModel DialectModel RawModel4 RawModel5 RawProof8 RawProof9 RawProof10 RawProof11.

Lemma map_option_is {A B} (f : A -> option B) (g : A -> B) l : (forall x, In x l -> f x = Some (g x)) -> map_option f l = Some (map g l).
Proof.
  intros H. induction l as [|x l IH]; [reflexivity|]. cbn [map_option map]. rewrite H by (left; reflexivity). rewrite IH; [reflexivity|]. intros y Hy. apply H. right. exact Hy.
Qed.
Definition row_in (d : bytes) (r : nat * nat) : Prop := fst r <= snd r /\ snd r <= length d.
Lemma add_row_in o d s e rows : e <= length d -> Forall (row_in d) rows -> Forall (row_in d) (add_row o d s e rows).
Proof.
  intros H F. unfold add_row. destruct (s <? e) eqn:G; [|exact F]. cbn [andb]. destruct (negb _); [|exact F]. apply Forall_app. split; [exact F|].
  constructor; [split; cbn [fst snd]; lia|constructor].
Qed.
Lemma rows_loop_in o dia (d : bytes) : forall n i start inq rows, length d - i <= n -> i <= length d -> start <= length d -> Forall (row_in d) rows ->
  Forall (row_in d) (fst (rows_loop o dia d (skipn i d) i start inq rows)) /\ snd (rows_loop o dia d (skipn i d) i start inq rows) <= length d.
Proof.
  induction n as [|n IH]; intros i start inq rows Hn L Ls F.
  { rewrite skipn_all2 by lia. split; [exact F|exact Ls]. }
  destruct (pos d i) as [G E|c G R E]; [rewrite E; split; [exact F|exact Ls]|]. rewrite E. apply Nat.ltb_lt in G. cbn [rows_loop].
  assert (P1 : S i = i + 1) by lia. assert (P2 : S (S i) = i + 1 + 1) by lia. rewrite P2, P1.
  destruct (pos d (i + 1)) as [G2 E2|c2 G2 R2 E2].
  - rewrite E2. cbn [next_is]. rewrite !andb_false_r. cbn [negb]. rewrite !andb_true_r. rewrite <- E2.
    match goal with |- Forall _ (fst (if _ then ?b else ?b)) /\ _ => assert (X : Forall (row_in d) (fst b) /\ snd b <= length d) end.
    { destruct (is_quote dia c); [apply IH; lia || exact F|]. destruct inq; cbn [negb]; [apply IH; lia || exact F|]. destruct (c =? 10)%N.
      - assert (X : Forall (row_in d) (add_row o d start (if (start <? i) && (nth (i - 1) d 0 =? 13)%N then i - 1 else i) rows)) by (apply add_row_in; [destruct (_ && _); lia|exact F]).
        destruct (max_rows o <=? _); [split; [exact X|cbn [snd]; lia]|]. apply IH; lia || exact X.
      - destruct (c =? 13)%N; [|apply IH; lia || exact F]. assert (X : Forall (row_in d) (add_row o d start i rows)) by (apply add_row_in; [lia|exact F]).
        destruct (max_rows o <=? _); [split; [exact X|cbn [snd]; lia]|]. apply IH; lia || exact X. }
    destruct (is_escape dia c); exact X.
  - apply Nat.ltb_lt in G2. rewrite E2. cbn [next_is]. destruct (is_escape dia c); [apply IH; lia || exact F|].
    destruct (is_quote dia c); [destruct (double_quote dia && (c2 =? quote_char dia)%N); [|rewrite <- E2]; apply IH; lia || exact F|]. rewrite <- E2.
    destruct inq; cbn [negb]; [apply IH; lia || exact F|]. destruct (c =? 10)%N.
    + assert (X : Forall (row_in d) (add_row o d start (if (start <? i) && (nth (i - 1) d 0 =? 13)%N then i - 1 else i) rows)) by (apply add_row_in; [destruct (_ && _); lia|exact F]).
      destruct (max_rows o <=? _); [split; [exact X|cbn [snd]; lia]|]. apply IH; lia || exact X.
    + destruct ((c =? 13)%N && _); [|apply IH; lia || exact F]. assert (X : Forall (row_in d) (add_row o d start i rows)) by (apply add_row_in; [lia|exact F]).
      destruct (max_rows o <=? _); [split; [exact X|cbn [snd]; lia]|]. apply IH; lia || exact X.
Qed.
Lemma find_rows_in o dia (d : bytes) : Forall (row_in d) (find_rows o dia d).
Proof.
  unfold find_rows. destruct (rows_loop_in o dia d (length d) 0 0 false []) as [A B]; try lia; [constructor|]. change (skipn 0 d) with d in A, B.
  destruct (rows_loop o dia d d 0 0 false []) as [rows start]. cbn [fst snd] in *. destruct (_ && _); [|exact A]. destruct (negb _); [|exact A].
  apply Forall_app. split; [exact A|]. constructor; [split; cbn [fst snd]; lia|constructor].
Qed.
Lemma row_texts_raw o dia (d : bytes) : raw_row_texts o dia d (length d) = Some (row_texts o dia d).
Proof.
  unfold raw_row_texts, row_texts. rewrite find_rows_raw. apply map_option_is. intros [s e] I. pose proof (find_rows_in o dia d) as F.
  rewrite Forall_forall in F. destruct (F _ I) as [A B]. cbn [fst snd] in *. unfold raw_row_text. rewrite (proj2 (Nat.leb_le _ _) A), load_some by lia. reflexivity.
Qed.
Lemma fields_raw dia l : map_option (raw_fields dia) l = Some (map (extract_fields dia) l).
Proof. apply map_option_is. intros r _. apply extract_fields_raw. Qed.
Lemma pattern_score_raw o dia (d : bytes) : raw_pattern_score o dia d (length d) = Some (pattern_score o dia d).
Proof.
  unfold raw_pattern_score, pattern_score. rewrite row_texts_raw. destruct (_ <? _); [reflexivity|]. rewrite fields_raw. cbv zeta. rewrite map_map. destruct (map _ _); reflexivity.
Qed.
Lemma typed_cell_raw f : raw_typed_cell f = Some (typed_cell f).
Proof.
  unfold raw_typed_cell, typed_cell. rewrite could_be_integer_raw. destruct (could_be_integer f); [reflexivity|]. rewrite could_be_float_raw. destruct (could_be_float f); [reflexivity|].
  rewrite infer_raw by apply le_n. reflexivity.
Qed.
Lemma count_map {A} (p : A -> bool) l : count_true (map p l) = length (filter p l).
Proof. unfold count_true. induction l as [|x l IH]; [reflexivity|]. cbn [map filter]. destruct (p x); cbn [length]; rewrite IH; reflexivity. Qed.
Lemma type_score_raw o dia (d : bytes) : raw_type_score o dia d (length d) = Some (type_score o dia d).
Proof.
  unfold raw_type_score, type_score. rewrite row_texts_raw. destruct (row_texts o dia d) as [|r0 rs]; [reflexivity|]. rewrite fields_raw. rewrite <- flat_map_concat_map.
  cbv zeta. destruct (flat_map _ _) as [|x l]; [reflexivity|]. rewrite (map_option_is raw_typed_cell typed_cell) by (intros; apply typed_cell_raw). rewrite count_map. reflexivity.
Qed.
Lemma escape_raw (d : bytes) q e : raw_escape_pattern d (length d) q e = Some (detect_escape_pattern d q e).
Proof.
  unfold raw_escape_pattern, detect_escape_pattern. rewrite escape_loop_ok by lia. change (skipn 0 d) with d. destruct (escape_counts d q e) as [a b]. reflexivity.
Qed.
Lemma score_raw order o dia (d : bytes) : raw_score order o dia d (length d) = Some (score_dialect order o dia d).
Proof.
  unfold raw_score, score_dialect. rewrite pattern_score_raw. destruct (pattern_score o dia d) as [pat counts]. destruct counts as [|k ks]; [reflexivity|].
  rewrite type_score_raw. cbv zeta. rewrite !escape_raw. destruct (negb (quote_char dia =? 0)%N); [|reflexivity]. destruct (negb _); [reflexivity|].
  destruct (double_quote dia); reflexivity.
Qed.
Lemma header_raw o dia (d : bytes) : raw_header o dia d (length d) = Some (detect_header o dia d).
Proof.
  unfold raw_header, detect_header. rewrite row_texts_raw. destruct (row_texts o dia d) as [|h [|r rs]]; [reflexivity|reflexivity|].
  unfold raw_fields. rewrite !extract_fields_raw. cbv zeta. destruct (_ || _); [reflexivity|].
  rewrite (map_option_is _ (fun f => (f, infer_cell_type f))) by (intros f _; rewrite infer_raw by apply le_n; reflexivity).
  rewrite (map_option_is _ infer_cell_type) by (intros f _; apply infer_raw; apply le_n).
  assert (FM : forall A B (g : A -> B) (p : B -> bool) l, length (filter p (map g l)) = length (filter (fun x => p (g x)) l)).
  { intros A B g p l. induction l as [|x l IH]; [reflexivity|]. cbn [map filter]. destruct (p (g x)); cbn [length]; rewrite IH; reflexivity. }
  rewrite !FM. reflexivity.
Qed.
Lemma sample_len_raw o (d : bytes) : raw_sample_len o d (length d) = Some (sample_len o d).
Proof. unfold raw_sample_len. rewrite first_newline_raw. reflexivity. Qed.
Lemma skip_off o (d : bytes) off ch n : skip_comment_lines o d = (off, ch, n) -> off <= length d.
Proof.
  assert (X : forall g off ch n a b c, off <= length d -> skip_loop g o (skipn off d) off ch n = (a, b, c) -> a <= length d).
  { clear. induction g as [|g IH]; intros off ch n a b c L H; cbn [skip_loop] in H; [injection H as <- _ _; exact L|].
    destruct (pos d off) as [G E|c0 G _ E]; [rewrite E in H; injection H as <- _ _; exact L|]. apply Nat.ltb_lt in G.
    destruct (while_all blank d off L) as (j & _ & B & C). rewrite (past_blanks_at d _ off eq_refl), <- C in H.
    replace (off + (length (skipn off d) - length (skipn j d))) with j in H by (rewrite !skipn_length; lia).
    rewrite E in H at 1. destruct (pos d j) as [G2 E2|c1 G2 R2 E2]; [rewrite E2 in H; injection H as <- _ _; lia|]. rewrite E2 in H. cbv iota in H.
    destruct (negb (is_comment_char o c1)); [injection H as <- _ _; exact L|]. rewrite <- E2 in H.
    destruct (while_all not_eol d j ltac:(lia)) as (k & K1 & K2 & K3). rewrite (to_eol_at (skipn j d) j) in H. fold not_eol in H. rewrite <- K3 in H.
    replace (j + (length (skipn j d) - length (skipn k d))) with k in H by (rewrite !skipn_length; lia).
    destruct (past_eol_ok d k ltac:(lia)) as (m & M1 & M2 & M3). rewrite M2 in H. apply (IH m _ _ _ _ _ ltac:(lia) H). }
  unfold skip_comment_lines. destruct d as [|x r]; [intros H; injection H as <- _ _; lia|]. destruct (comment_chars o); [intros H; injection H as <- _ _; lia|].
  intros H. apply (X (length (x :: r)) 0 0%N 0 off ch n); [lia|exact H].
Qed.
Lemma detect_raw sort order o (buf : bytes) : raw_detect sort order o buf (length buf) = Some (detect sort order o buf).
Proof.
  unfold raw_detect, detect. destruct buf as [|x r]; [reflexivity|]. set (buf := x :: r) in *. replace (length buf =? 0) with false by reflexivity. clearbody buf. clear x r.
  rewrite skip_comments_ok. destruct (skip_comment_lines o buf) as [[off ch] n] eqn:SK. apply skip_off in SK. rewrite (proj2 (Nat.leb_le _ _) SK), load_some by lia.
  assert (X : firstn (length buf - off) (skipn off buf) = skipn off buf) by (apply firstn_all2; rewrite skipn_length; lia). rewrite X. clear X.
  assert (LD : length (skipn off buf) = length buf - off) by apply skipn_length. rewrite <- LD. set (data := skipn off buf) in *. clearbody data. clear LD SK. clear buf.
  destruct data as [|y s] eqn:ED; [reflexivity|]. rewrite <- ED. replace (length data =? 0) with false by (rewrite ED; reflexivity). clear ED y s.
  rewrite sample_len_raw. assert (SL : sample_len o data <= length data) by (unfold sample_len; apply Nat.le_min_l).
  rewrite load_some by lia. change (skipn 0 data) with data. assert (LS : length (firstn (sample_len o data) data) = sample_len o data) by (apply firstn_length_le; exact SL).
  set (sample := firstn (sample_len o data) data) in *. clearbody sample. rewrite <- LS.
  rewrite line_ending_raw. rewrite (map_option_is _ (fun dia => score_dialect order o dia sample)) by (intros; apply score_raw). cbv zeta.
  destruct (sort _) as [|best others]; [reflexivity|]. destruct (flt lit_0 (cand_score best)); [|reflexivity].
  rewrite header_raw, find_rows_raw. reflexivity.
Qed.
