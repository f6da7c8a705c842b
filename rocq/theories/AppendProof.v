(** Proofs for added rows. *)
From Verif Require Import Base WordsModel WordsProof ChunkSpec ChunkModel ChunkProof ChunkProof2 ChunkProof3 ChunkProof4 ChunkProof5 ChunkProps
  FieldsSpec FieldsModel NumSpec ReaderSpec ReaderModel ReaderProof ReaderProof2 ReaderProof3 ReaderProps TypesSpec TypesModel TypesProof TypesProof2 TypesProof3 FieldsProof6 ReaderProof5 AppendSpec.

Lemma byte_is_app a b i c : i < length a -> byte_is (a ++ b) i c = byte_is a i c.
Proof. intros H. unfold byte_is. rewrite nth_error_app1 by exact H. reflexivity. Qed.

Lemma last_lf a0 : byte_is (a0 ++ [LF]) (length a0) LF = true.
Proof. unfold byte_is. rewrite nth_error_app2 by apply le_n. rewrite Nat.sub_diag. reflexivity. Qed.

Lemma line_end_app a0 b i : i < length (a0 ++ [LF]) -> line_end_at ((a0 ++ [LF]) ++ b) i = line_end_at (a0 ++ [LF]) i.
Proof.
  intros H. unfold line_end_at. rewrite (byte_is_app (a0 ++ [LF]) b i LF) by exact H. rewrite (byte_is_app (a0 ++ [LF]) b i CR) by exact H.
  destruct (Nat.eq_dec i (length a0)) as [->|N].
  - rewrite last_lf. reflexivity.
  - rewrite app_length in H. cbn in H. rewrite (byte_is_app (a0 ++ [LF]) b (S i) LF) by (rewrite app_length; cbn; lia). reflexivity.
Qed.

Lemma inside_app (q : byte) st a b i : i <= length a -> inside_at st q (a ++ b) i = inside_at st q a i.
Proof. intros H. unfold inside_at, quotes_before. rewrite firstn_app. replace (i - length a) with 0 by lia. cbn [firstn]. rewrite app_nil_r. reflexivity. Qed.

Section A.
Variable q : byte.
Hypothesis HqL : q <> LF.
Hypothesis HqC : q <> CR.

Lemma complete_cut l : complete q l -> row_cut q l.
Proof. intros (A & B). right. split; [|exact B]. rewrite <- spec_ends_inside_endst. exact A. Qed.

Lemma filter_ext_in' {A} (f g : A -> bool) l : (forall x, In x l -> f x = g x) -> filter f l = filter g l.
Proof. apply filter_ext_in. Qed.

Lemma row_ends_app a0 b : exists r, row_ends false q ((a0 ++ [LF]) ++ b) = row_ends false q (a0 ++ [LF]) ++ r.
Proof.
  unfold row_ends. rewrite (app_length (a0 ++ [LF]) b), seq_app, filter_app. eexists. f_equal.
  apply filter_ext_in. intros i Hi. apply in_seq in Hi. rewrite line_end_app by lia. rewrite inside_app by lia. reflexivity.
Qed.

Lemma row_ends_cut a : a <> [] -> row_cut q a -> row_ends false q a <> [].
Proof.
  intros Ha [->|(E & a0 & ->)]; [congruence|]. intros N.
  assert (H : In (length a0) (row_ends false q (a0 ++ [LF]))); [|rewrite N in H; exact H].
  unfold row_ends. apply filter_In. split; [apply in_seq; rewrite app_length; cbn; lia|].
  apply andb_true_intro. split.
  - unfold line_end_at. rewrite last_lf. reflexivity.
  - rewrite inside_app by lia. unfold inside_at, quotes_before. rewrite firstn_all. rewrite endst_app in E. cbn [endst] in E.
    destruct (N.eqb_spec LF q) as [X|_]; [congruence|]. rewrite endst_spec in E. rewrite E. reflexivity.
Qed.

(** The first row end of [a ++ b] is that of [a], and what follows it in [a] is cut again. *)
Lemma first_end_app a b : a <> [] -> row_cut q a ->
  spec_find_row_end q (a ++ b) 0 = spec_find_row_end q a 0 /\ spec_find_row_end q a 0 <= length a /\ 0 < spec_find_row_end q a 0 /\
  row_cut q (skipn (spec_find_row_end q a 0) a).
Proof.
  intros Ha Hc. pose proof (row_ends_cut a Ha Hc) as Hne.
  destruct Hc as [->|(E & a0 & Ea)]; [congruence|].
  destruct (row_ends_app a0 b) as (r & Hr). rewrite <- Ea in Hr.
  unfold spec_find_row_end. cbn [skipn]. destruct (row_ends false q a) as [|i rest] eqn:Er; [congruence|].
  rewrite Hr. cbn [app].
  destruct (row_ends_split q a i rest HqL HqC Er) as (Hi & _).
  split; [reflexivity|]. split; [lia|]. split; [lia|].
  cbn [Nat.add].
  assert (Hin : In i (row_ends false q a)) by (rewrite Er; left; reflexivity).
  unfold row_ends in Hin. apply filter_In in Hin. destruct Hin as (_ & Hin). apply andb_prop in Hin. destruct Hin as (Hle & Hins).
  destruct (Nat.eq_dec (S i) (length a)) as [El|Nl].
  - left. apply skipn_all2. lia.
  - right. split.
    + assert (S1 : endst false q (firstn (S i) a) = false).
      { rewrite endst_spec. apply Bool.negb_true_iff in Hins. unfold inside_at, quotes_before in Hins.
        cbn [xorb] in Hins |- *.
        destruct (nth_error a i) as [c|] eqn:Ec; [|apply nth_error_None in Ec; lia].
        assert (Ef : firstn (S i) a = firstn i a ++ [c]).
        { clear - Ec. revert i Ec. induction a as [|x a IH]; intros i Ec; [destruct i; discriminate|]. destruct i as [|i]; [injection Ec as ->; reflexivity|].
          cbn [firstn app]. f_equal. apply IH. exact Ec. }
        rewrite Ef, count_occ_app. cbn [count_occ].
        assert (c <> q). { unfold line_end_at, byte_is in Hle. rewrite Ec in Hle. intros ->. apply orb_prop in Hle. destruct Hle as [Hle|Hle].
          - apply N.eqb_eq in Hle. congruence.
          - apply andb_prop in Hle. destruct Hle as (Hle & _). apply N.eqb_eq in Hle. congruence. }
        destruct (N.eq_dec c q); [congruence|]. rewrite Nat.add_0_r. exact Hins. }
      rewrite <- (firstn_skipn (S i) a) in E. rewrite endst_app, S1 in E. exact E.
    + subst a. rewrite app_length in Nl, Hi. cbn in Nl, Hi. exists (skipn (S i) a0). rewrite skipn_app.
      replace (S i - length a0) with 0 by lia. reflexivity.
Qed.

Lemma lines_app : forall n a b, length a <= n -> row_cut q a -> lines q (a ++ b) = lines q a ++ lines q b.
Proof.
  induction n as [|n IH]; intros a b Hn Hc.
  - destruct a; [reflexivity|cbn in Hn; lia].
  - destruct a as [|c a]; [reflexivity|].
    destruct (first_end_app (c :: a) b ltac:(discriminate) Hc) as (E1 & E2 & E3 & E4).
    change ((c :: a) ++ b) with (c :: a ++ b) at 1. rewrite lines_step by assumption. rewrite (lines_step q c a) by assumption.
    change (c :: a ++ b) with ((c :: a) ++ b). rewrite E1.
    rewrite firstn_app. replace (spec_find_row_end q (c :: a) 0 - length (c :: a)) with 0 by lia. cbn [firstn]. rewrite app_nil_r.
    rewrite skipn_app. replace (spec_find_row_end q (c :: a) 0 - length (c :: a)) with 0 by lia. cbn [skipn].
    rewrite IH; [reflexivity| |exact E4]. rewrite skipn_length. cbn [length] in Hn |- *. lia.
Qed.
End A.


Lemma header_some sep q l : l <> [] -> parse_header sep q l <> [].
Proof.
  intros H. unfold parse_header. destruct l as [|c l]; [congruence|]. destruct (header_loop sep q (c :: l) false [] []) as [ns cur].
  destruct ns as [|n ns]; [|destruct (_ || _); [destruct ns|]; discriminate]. cbn [length Nat.eqb]. rewrite orb_true_r. discriminate.
Qed.

Lemma complete_nonempty q l : complete q l -> l <> [].
Proof. intros (_ & l0 & ->). destruct l0; discriminate. Qed.

Section B.
Context {F : Type}.
Variable ff : bytes -> option F.
Variable o : csv_options.
Hypothesis HqL : quote o <> LF.
Hypothesis HqC : quote o <> CR.
Hypothesis Hqs : quote o <> separator o.
Hypothesis Hq0 : quote o <> 0%N.

Definition body_start (data : bytes) : nat := if has_header o then spec_find_row_end (quote o) data 0 else 0.
Definition names_of (data : bytes) : list bytes :=
  if has_header o then parse_header (separator o) (quote o) (slice 0 (spec_find_row_end (quote o) data 0) data)
  else map (fun i => 86%N :: decimal_digits (S i) (S i))
           (seq 0 (count_columns (separator o) (quote o) (slice 0 (spec_find_row_end (quote o) data 0) data) false 1)).
Definition types_of (data : bytes) : list data_type :=
  map (fun k => column_type ff o (cells_of k (sample o (header_lines o) (sample_rows o) (skipn (body_start data) data)))) (seq 0 (length (names_of data))).

Lemma names_some data : data <> [] -> row_cut (quote o) data -> names_of data <> [].
Proof.
  intros Hd Hc. destruct (first_end_app (quote o) HqL HqC data [] Hd Hc) as (_ & A & B & _).
  unfold names_of. destruct (has_header o).
  - apply header_some. unfold slice. cbn [skipn]. rewrite Nat.sub_0_r. destruct data; [congruence|]. destruct (spec_find_row_end (quote o) (n :: data) 0); [lia|discriminate].
  - intros E. apply map_eq_nil in E. rewrite columns_counted in E by assumption. discriminate E.
Qed.

Lemma opened lanes clmul data : 1 <= lanes -> Nat.divide lanes 64 -> data <> [] -> row_cut (quote o) data -> skipn (body_start data) data <> [] ->
  open_file ff lanes clmul o data = Some (names_of data, types_of data, body_start data).
Proof.
  intros L1 L2 Hd Hc Hb. unfold open_file. destruct data as [|c l] eqn:Ed; [congruence|]. rewrite <- Ed in *.
  destruct (C05_find_row_end_exact lanes clmul data 0 (quote o) L1 L2 HqL HqC) as (E & _). rewrite E. cbv zeta.
  fold (names_of data). fold (body_start data).
  rewrite infer_types; try assumption; [reflexivity|]. pose proof (names_some data Hd Hc) as N. destruct (names_of data); [congruence|discriminate].
Qed.

Variables (data b : bytes).
Hypothesis Hc : complete (quote o) data.
Hypothesis Hl : sample_rows o + 2 * header_lines o <= length (lines (quote o) data).

Lemma cut_data : row_cut (quote o) data.
Proof. apply complete_cut. exact Hc. Qed.

Lemma start_same : body_start (data ++ b) = body_start data.
Proof. unfold body_start. destruct (has_header o); [|reflexivity]. apply first_end_app; try assumption; [eapply complete_nonempty; exact Hc|exact cut_data]. Qed.

Lemma start_le : body_start data <= length data.
Proof. unfold body_start. destruct (has_header o); [|lia]. apply (first_end_app (quote o) HqL HqC data []); [eapply complete_nonempty; exact Hc|exact cut_data]. Qed.

Lemma body_cut : row_cut (quote o) (skipn (body_start data) data).
Proof.
  unfold body_start. destruct (has_header o); [|exact cut_data].
  apply (first_end_app (quote o) HqL HqC data []); [eapply complete_nonempty; exact Hc|exact cut_data].
Qed.

Lemma body_app : skipn (body_start data) (data ++ b) = skipn (body_start data) data ++ b.
Proof. rewrite skipn_app. pose proof start_le as L. replace (body_start data - length data) with 0 by (clear - L; lia). reflexivity. Qed.

Lemma names_same : names_of (data ++ b) = names_of data.
Proof.
  destruct (first_end_app (quote o) HqL HqC data b (complete_nonempty _ _ Hc) cut_data) as (E & L & _).
  unfold names_of, slice. rewrite E. cbn [skipn]. rewrite Nat.sub_0_r. rewrite firstn_app.
  replace (spec_find_row_end (quote o) data 0 - length data) with 0 by (clear - L; lia). cbn [firstn]. rewrite app_nil_r. reflexivity.
Qed.

Lemma body_lines : lines (quote o) (skipn (body_start data) data) = skipn (header_lines o) (lines (quote o) data).
Proof. unfold body_start, header_lines. destruct (has_header o); [apply lines_drop_header; try assumption; exact (complete_nonempty _ _ Hc)|reflexivity]. Qed.

Lemma types_same : types_of (data ++ b) = types_of data.
Proof.
  unfold types_of. rewrite names_same, start_same, body_app. apply map_ext. intros k. f_equal. f_equal. unfold sample. f_equal.
  rewrite (lines_app (quote o) HqL HqC (length (skipn (body_start data) data)) _ b (le_n _) body_cut).
  assert (L : sample_rows o + header_lines o <= length (lines (quote o) (skipn (body_start data) data))).
  { rewrite body_lines, skipn_length. clear - Hl. lia. }
  rewrite skipn_app, firstn_app. rewrite skipn_length.
  replace (sample_rows o - _) with 0 by (clear - L; lia). cbn [firstn]. apply app_nil_r.
Qed.

Lemma body_some : skipn (body_start data) data <> [].
Proof.
  intros E. pose proof body_lines as BL. rewrite E in BL. pose proof (f_equal (@length _) BL) as L. rewrite skipn_length in L. cbn in L.
  unfold header_lines in *. unfold body_start in E. destruct (has_header o); [clear - L Hl; lia|]. cbn [skipn] in E. exact (complete_nonempty _ _ Hc E).
Qed.

Hypothesis Hout : forall i, line_end_at (skipn (body_start data) (data ++ b)) i = true -> inside_at false (quote o) (skipn (body_start data) (data ++ b)) i = false.
Hypothesis Hlone : no_lone_cr (skipn (body_start data) (data ++ b)).
Hypothesis Hsafe : Forall (safe_row (separator o) LF (quote o)) (table_rows (separator o) (quote o) (skipn (body_start data) (data ++ b))).

Lemma rows_both : table_rows (separator o) (quote o) (skipn (body_start data) (data ++ b)) =
  table_rows (separator o) (quote o) (skipn (body_start data) data) ++ table_rows (separator o) (quote o) b.
Proof. rewrite body_app. apply (table_rows_app (fun _ (t : bytes) => Some t) 0 (separator o) (quote o) Hqs HqL Hq0 HqC (length (skipn (body_start data) data))); [apply le_n|exact body_cut]. Qed.

Lemma before_end : exists a0, skipn (body_start data) data = a0 ++ [LF].
Proof. destruct body_cut as [E|(_ & A)]; [exfalso; exact (body_some E)|exact A]. Qed.

Lemma line_end_in l i : line_end_at l i = true -> i < length l.
Proof.
  unfold line_end_at, byte_is. intros H. destruct (nth_error l i) eqn:E; [apply nth_error_Some; congruence|discriminate].
Qed.

Lemma appended lanes clmul clmul' nt nt' ne ne' : 1 <= lanes -> Nat.divide lanes 64 ->
  exists names types r r',
    TypesModel.read_file ff lanes clmul nt ne o data = Some (names, types, r) /\
    TypesModel.read_file ff lanes clmul' nt' ne' o (data ++ b) = Some (names, types, r') /\
    total_rows r' = total_rows r + length (table_rows (separator o) (quote o) b) /\
    concat_columns (length names) (chunks r') =
      extended (concat_columns (length names) (chunks r))
        (table_columns (fun k => append_value ff lanes (nth k types STRING)) (null_values o) (separator o) (quote o) (length names) b).
Proof.
  intros L1 L2. pose proof (complete_nonempty _ _ Hc) as Hd.
  destruct before_end as (a0 & Ea).
  assert (O1 : open_file ff lanes clmul o data = Some (names_of data, types_of data, body_start data)).
  { apply opened; try assumption; [exact cut_data|exact body_some]. }
  assert (O2 : open_file ff lanes clmul' o (data ++ b) = Some (names_of data, types_of data, body_start data)).
  { unfold open_file. destruct (data ++ b) as [|c l] eqn:Ed; [destruct data; [congruence|discriminate]|]. rewrite <- Ed in *.
    destruct (C05_find_row_end_exact lanes clmul' (data ++ b) 0 (quote o) L1 L2 HqL HqC) as (E & _). rewrite E. cbv zeta.
    fold (names_of (data ++ b)). fold (body_start (data ++ b)).
    rewrite infer_types; try assumption.
    - fold (types_of (data ++ b)). rewrite names_same, types_same, start_same. reflexivity.
    - rewrite start_same, body_app, Ea. destruct a0; discriminate.
    - rewrite names_same. pose proof (names_some data Hd cut_data) as N. destruct (names_of data); [congruence|discriminate]. }
  assert (NC : 0 < length (names_of data)). { pose proof (names_some data Hd cut_data) as N. destruct (names_of data); [congruence|cbn; clear; lia]. }
  set (conv := fun k => append_value ff lanes (nth k (types_of data) STRING)).
  destruct (C09_read_all_is_the_table_partial _ conv lanes clmul (separator o) (quote o) (null_values o) nt ne (length (names_of data)) data (body_start data)
              L1 L2 HqL HqC Hqs Hq0 NC start_le) as (r & R1 & R2 & R3).
  { intros i Hi. pose proof (line_end_in _ _ Hi) as Li. specialize (Hout i). rewrite body_app in Hout. rewrite Ea in *.
    rewrite line_end_app in Hout by exact Li. rewrite inside_app in Hout by (clear - Li; lia). exact (Hout Hi). }
  { intros i Hi. specialize (Hlone i). rewrite body_app in Hlone. rewrite Ea in *.
    assert (Li : i < length (a0 ++ [LF])). { unfold byte_is in Hi. destruct (nth_error (a0 ++ [LF]) i) eqn:E; [apply nth_error_Some; congruence|discriminate]. }
    rewrite byte_is_app in Hlone by exact Li. specialize (Hlone Hi).
    destruct (Nat.eq_dec i (length a0)) as [->|Ni].
    - unfold byte_is in Hi. rewrite nth_error_app2 in Hi by apply le_n. rewrite Nat.sub_diag in Hi. discriminate Hi.
    - rewrite byte_is_app in Hlone; [exact Hlone|]. rewrite app_length in *. cbn in *. clear - Li Ni. lia. }
  { pose proof Hsafe as S0. rewrite rows_both in S0. apply Forall_app in S0. apply S0. }
  destruct (C09_read_all_is_the_table_partial _ conv lanes clmul' (separator o) (quote o) (null_values o) nt' ne' (length (names_of data)) (data ++ b) (body_start data)
              L1 L2 HqL HqC Hqs Hq0 NC) as (r' & R1' & R2' & R3'); try assumption.
  { rewrite app_length. pose proof start_le as L. clear - L. lia. }
  exists (names_of data), (types_of data), r, r'.
  split; [unfold TypesModel.read_file; rewrite O1; fold conv; rewrite R1; reflexivity|].
  split; [unfold TypesModel.read_file; rewrite O2; fold conv; rewrite R1'; reflexivity|].
  split; [rewrite R2, R2', rows_both, app_length; reflexivity|].
  fold conv. rewrite R3, R3'. unfold table_columns, extended. rewrite rows_both. clear.
  generalize (table_rows (separator o) (quote o) (skipn (body_start data) data)) (table_rows (separator o) (quote o) b). intros ra rb.
  induction (seq 0 (length (names_of data))) as [|k ks IH]; [reflexivity|]. cbn [map combine fst snd]. rewrite map_app, IH. reflexivity.
Qed.
End B.

Lemma not_in_skipn {A} (c : A) n l : ~ In c l -> ~ In c (skipn n l).
Proof. intros H Hi. apply H. rewrite <- (firstn_skipn n l). apply in_or_app. right. exact Hi. Qed.

Lemma appended_plain (F : Type) (ff : bytes -> option F) (lanes : nat) (clmul clmul' : bool) (num_threads num_threads' : N) (ne ne' : bool)
         (o : csv_options) (data0 added : bytes) :
    let sep := separator o in let q := quote o in let data := data0 ++ [LF] in
    1 <= lanes -> Nat.divide lanes 64 -> q <> LF -> q <> CR -> q <> sep -> q <> 0%N ->
    ~ In q data -> ~ In q added -> ~ In CR data -> ~ In CR added ->
    sample_rows o + (if has_header o then 2 else 0) <= length (lines q data) ->
    exists names types r r',
      TypesModel.read_file ff lanes clmul num_threads ne o data = Some (names, types, r) /\
      TypesModel.read_file ff lanes clmul' num_threads' ne' o (data ++ added) = Some (names, types, r') /\
      total_rows r' = total_rows r + length (table_rows sep q added) /\
      concat_columns (length names) (chunks r') =
        extended (concat_columns (length names) (chunks r))
          (table_columns (fun k => append_value ff lanes (nth k types STRING)) (null_values o) sep q (length names) added).
Proof.
  intros sep q data L1 L2 A B C D Q1 Q2 R1 R2 Hl.
  assert (Q : ~ In q (data ++ added)) by (intros H; apply in_app_or in H; tauto).
  assert (R : ~ In CR (data ++ added)) by (intros H; apply in_app_or in H; tauto).
  assert (No : forall l i, ~ In q l -> inside_at false q l i = false).
  { intros l i H. unfold inside_at, quotes_before. assert (Z : count_occ N.eq_dec (firstn i l) q = 0).
    { apply count_occ_not_In. intros Hi. apply H. rewrite <- (firstn_skipn i l). apply in_or_app. left. exact Hi. }
    rewrite Z. reflexivity. }
  apply (appended ff o A B C D data added); try assumption.
  - split; [|exists data0; reflexivity]. change (inside_at false q data (length data) = false). apply No. exact Q1.
  - unfold header_lines. destruct (has_header o); exact Hl.
  - intros i _. apply No. apply not_in_skipn. exact Q.
  - intros i Hi. exfalso. unfold byte_is in Hi. destruct (nth_error (skipn _ _) i) eqn:E in Hi; [|discriminate].
    apply N.eqb_eq in Hi. subst. apply nth_error_In in E. exact (not_in_skipn _ _ _ R E).
  - apply quote_free_safe. apply not_in_skipn. exact Q.
Qed.
