From Verif Require Import Base WordsModel WordsProof ChunkSpec ChunkModel ChunkProof ChunkProof2 ChunkProof3
  FieldsSpec FieldsModel FieldsProof FieldsProof2 FieldsProof3 FieldsProof4 FieldsProof5
  ReaderSpec ReaderModel ReaderProof ReaderProof2 ReaderProof3 ReaderProof6 SplitSpec SplitProof DeliverSpec.

Section Deliver.
Context {V : Type} (conv : nat -> bytes -> option V).
Variables (lanes : nat) (clmul : bool) (sep q : byte) (sp : bytes).
Hypothesis Hl : lanes_ok lanes.
Hypothesis HqL : q <> LF.
Hypothesis HqC : q <> CR.
Hypothesis Hqs : q <> sep.
Hypothesis Hq0 : q <> 0%N.
Notation nc := (make_null_checker sp).
Notation rd := (read_rows conv lanes clmul sep q nc).
Notation split := (split_in_blocks sep LF q).

(** The flags always say whether the field starts with a quote. *)
Lemma flag_first v p : flag_ok q (firstn p v) (starts_with q v).
Proof. clear. intros H. destruct v as [|c v], p as [|p]; try reflexivity; cbn in H; congruence. Qed.

Lemma next_flag st ne f ne' st' : sf_next lanes clmul sep q LF st ne = Some (Some (f, ne'), st') -> flag_ok q f ne'.
Proof.
  assert (Q : negb (N.eqb q 0) = true) by (apply negb_true_iff, N.eqb_neq; exact Hq0).
  assert (NI : forall v, next_is q v = starts_with q v) by (intros [|c v]; reflexivity).
  assert (FC : forall st prev p b x y z, Some (sf_cut st prev p b x) = Some (Some (y, z), st') -> y = firstn p (sf_v st) /\ z = x).
  { clear. intros st prev p b x y z H. unfold sf_cut in H. destruct b; injection H as <- <- _; split; reflexivity. }
  assert (FF : forall st prev x y z, Some (sf_finish st prev x) = Some (Some (y, z), st') -> y = sf_v st /\ z = x).
  { clear. intros st prev x y z H. unfold sf_finish in H. injection H as <- <- _; split; reflexivity. }
  unfold sf_next. destruct (sf_finished st); [discriminate|]. destruct (negb (N.eqb (sf_prev st) 0)).
  - cbv zeta. destruct (64 <=? ctz (sf_prev st) + 1); [discriminate|]. destruct (nth_error (sf_v st) (ctz (sf_prev st))); [|discriminate].
    intros H. apply FC in H. destruct H as [-> ->]. rewrite Q, NI. cbn [andb]. apply flag_first.
  - destruct (sf_v st) as [|c0 r] eqn:Ev.
    + intros H. apply FF in H. destruct H as [-> ->]. rewrite Ev. intros X. congruence.
    + rewrite <- Ev. cbv zeta. rewrite Q. cbn [andb].
      assert (ST : N.eqb c0 q = starts_with q (sf_v st)) by (rewrite Ev; reflexivity).
      destruct (if N.eqb c0 q then _ else _) as [[[pos|] np]|]; [| |discriminate].
      * destruct (length (sf_v st) <=? pos).
        -- intros H. apply FF in H. destruct H as [-> ->]. rewrite ST. intros _. reflexivity.
        -- destruct (nth_error (sf_v st) pos); [|discriminate]. intros H. apply FC in H. destruct H as [-> ->]. rewrite ST. apply flag_first.
      * intros H. apply FF in H. destruct H as [-> ->]. rewrite ST. intros _. reflexivity.
Qed.

Lemma all_flags : forall fuel st ne fs rest, sf_all fuel lanes clmul sep q LF st ne = Some (fs, rest) ->
  Forall (fun r => flag_ok q (fst r) (snd r)) fs.
Proof.
  induction fuel as [|fuel IH]; intros st ne fs rest H; [discriminate|]. cbn [sf_all] in H.
  destruct (sf_next lanes clmul sep q LF st ne) as [[[(f, ne')|] st']|] eqn:E; [| |discriminate].
  - destruct (sf_all fuel lanes clmul sep q LF st' ne') as [(fs', rest')|] eqn:E2; [|discriminate]. injection H as <- <-.
    constructor; [exact (next_flag _ _ _ _ _ E)|]. exact (IH _ _ _ _ E2).
  - injection H as <- <-. constructor.
Qed.

Lemma row_fields_blocks v ne : exists rs, row_fields lanes clmul sep q LF v ne = Some (rs, snd (split v)) /\
  Forall2 (fun f r => fst r = f /\ flag_ok q f (snd r)) (fst (split v)) rs.
Proof.
  pose proof (iterator_blocks sep LF q Hqs HqL Hq0 lanes clmul v ne (proj1 Hl) (proj2 Hl)) as H.
  destruct (row_fields lanes clmul sep q LF v ne) as [[rs rest]|] eqn:E; [|discriminate]. cbn [option_map fst snd] in H.
  injection H as H. exists rs. rewrite <- H. cbn [fst snd]. split; [reflexivity|].
  pose proof (all_flags _ _ _ _ _ E) as F. clear -F. induction F as [|[f b] rs F1 _ IH]; constructor; [split; [reflexivity|exact F1]|exact IH].
Qed.

Lemma split_lossless v : (v = join sep (fst (split v)) /\ snd (split v) = []) \/ v = join sep (fst (split v)) ++ LF :: snd (split v).
Proof.
  destruct (row_fields_lossless lanes clmul sep q LF v false Hl) as (rs & rest & E & _ & D).
  pose proof (iterator_blocks sep LF q Hqs HqL Hq0 lanes clmul v false (proj1 Hl) (proj2 Hl)) as H.
  rewrite E in H. cbn [option_map fst snd] in H. injection H as <-. cbn [fst snd]. exact D.
Qed.
Lemma split_shorter v : v <> [] -> length (snd (split v)) < length v.
Proof.
  intros N. destruct (split_lossless v) as [[_ ->]|E]; [destruct v; cbn; [congruence|lia]|].
  rewrite E at 2. rewrite app_length. cbn [length]. lia.
Qed.

Lemma delivered_nil n : delivered_upto n sep q [] = [].
Proof. destruct n; reflexivity. Qed.
Lemma ended_nil n : ended_upto n sep q [] = [].
Proof. destruct n; reflexivity. Qed.
Lemma delivered_fuel : forall n m l, length l <= n -> length l <= m -> delivered_upto n sep q l = delivered_upto m sep q l.
Proof.
  induction n as [|n IH]; intros m l Hn Hm.
  - destruct l; [|cbn in Hn; lia]. rewrite !delivered_nil. reflexivity.
  - destruct m as [|m]; [destruct l; [|cbn in Hm; lia]; rewrite !delivered_nil; reflexivity|].
    cbn [delivered_upto]. destruct (trim_left newline l) as [|c l'] eqn:E; [reflexivity|]. f_equal.
    pose proof (trim_left_length newline l) as Ht. rewrite E in Ht.
    pose proof (split_shorter (c :: l') ltac:(discriminate)) as Hr. apply IH; lia.
Qed.
Lemma ended_fuel : forall n m l, length l <= n -> length l <= m -> ended_upto n sep q l = ended_upto m sep q l.
Proof.
  induction n as [|n IH]; intros m l Hn Hm.
  - destruct l; [|cbn in Hn; lia]. rewrite !ended_nil. reflexivity.
  - destruct m as [|m]; [destruct l; [|cbn in Hm; lia]; rewrite !ended_nil; reflexivity|].
    cbn [ended_upto]. destruct (trim_left newline l) as [|c l'] eqn:E; [reflexivity|]. f_equal.
    pose proof (trim_left_length newline l) as Ht. rewrite E in Ht.
    pose proof (split_shorter (c :: l') ltac:(discriminate)) as Hr. apply IH; lia.
Qed.

Lemma delivered_step l c l' : trim_left newline l = c :: l' ->
  delivered_rows sep q l = fst (split (c :: l')) :: delivered_rows sep q (snd (split (c :: l'))).
Proof.
  intros E. unfold delivered_rows. pose proof (trim_left_length newline l) as Ht. rewrite E in Ht.
  destruct l as [|x l]; [discriminate|].
  pose proof (split_shorter (c :: l') ltac:(discriminate)) as Hr.
  assert (S1 : delivered_upto (length (x :: l)) sep q (x :: l) = fst (split (c :: l')) :: delivered_upto (length l) sep q (snd (split (c :: l')))).
  { cbn [length delivered_upto]. rewrite E. reflexivity. }
  rewrite S1. f_equal. apply delivered_fuel; cbn [length] in *; lia.
Qed.
Lemma delivered_blank l : trim_left newline l = [] -> delivered_rows sep q l = [].
Proof. unfold delivered_rows. destruct l as [|x l]; [reflexivity|]. intros E. cbn [length delivered_upto]. rewrite E. reflexivity. Qed.
Lemma ended_step l c l' : trim_left newline l = c :: l' ->
  ended_fields sep q l = delimited sep (c :: l') (fst (split (c :: l'))) ++ ended_fields sep q (snd (split (c :: l'))).
Proof.
  intros E. unfold ended_fields. pose proof (trim_left_length newline l) as Ht. rewrite E in Ht.
  destruct l as [|x l]; [discriminate|].
  pose proof (split_shorter (c :: l') ltac:(discriminate)) as Hr.
  assert (S1 : ended_upto (length (x :: l)) sep q (x :: l) = delimited sep (c :: l') (fst (split (c :: l'))) ++ ended_upto (length l) sep q (snd (split (c :: l')))).
  { cbn [length ended_upto]. rewrite E. reflexivity. }
  rewrite S1. f_equal. apply ended_fuel; cbn [length] in *; lia.
Qed.
Lemma ended_blank l : trim_left newline l = [] -> ended_fields sep q l = [].
Proof. unfold ended_fields. destruct l as [|x l]; [reflexivity|]. intros E. cbn [length ended_upto]. rewrite E. reflexivity. Qed.

Lemma read_rows_delivered : forall fuel ne l cols rows, length l <= fuel ->
  rd fuel ne l cols rows = Some (add_rows conv q sp (delivered_rows sep q l) cols, rows + length (delivered_rows sep q l)).
Proof.
  induction fuel as [|fuel IH]; intros ne l cols rows Hf.
  - destruct l; [|cbn in Hf; lia]. cbn. rewrite add_rows_nil, Nat.add_0_r. reflexivity.
  - destruct l as [|c l]; [cbn; rewrite add_rows_nil, Nat.add_0_r; reflexivity|].
    destruct (trim_left newline (c :: l)) as [|d l'] eqn:Es.
    { cbn [read_rows]. rewrite skip_empty_trim, Es, (delivered_blank _ Es), add_rows_nil, Nat.add_0_r. reflexivity. }
    rewrite (delivered_step _ _ _ Es).
    destruct (row_fields_blocks (d :: l') ne) as (rs & Hr & HF).
    rewrite (read_rows_step conv lanes clmul sep q sp fuel ne (c :: l) cols rows rs (snd (split (d :: l')))); [|discriminate|rewrite skip_empty_trim, Es; discriminate|rewrite skip_empty_trim, Es; exact Hr].
    pose proof (trim_left_length newline (c :: l)) as Ht. rewrite Es in Ht.
    pose proof (split_shorter (d :: l') ltac:(discriminate)) as Hrs.
    rewrite IH by (cbn [length] in *; lia). f_equal. f_equal; [|cbn [length]; lia].
    rewrite <- add_rows_cons. f_equal. rewrite put_spec. apply map_ext. intros [k col]. cbn [fst snd].
    rewrite Nat.sub_0_r. rewrite (cells_spec conv q sp _ _ k HF). reflexivity.
Qed.

Lemma add_rows_columns ncols rows : add_rows conv q sp rows (empty_columns ncols) = columns_of conv sp q ncols rows.
Proof.
  unfold add_rows, columns_of, empty_columns. rewrite repeat_length. generalize 0.
  induction ncols as [|n IH]; intros k; [reflexivity|]. cbn [repeat seq combine map fst snd app]. f_equal. apply IH.
Qed.

Lemma serial_delivered ne ncols data he : 0 < ncols ->
  read_all_serial conv lanes clmul sep q nc ne ncols data he =
  Some (mkRead [columns_of conv sp q ncols (delivered_rows sep q (skipn he data))]
               (length (delivered_rows sep q (skipn he data))) (length (delivered_rows sep q (skipn he data)))).
Proof.
  intros Hn. unfold read_all_serial. destruct (Nat.eqb_spec ncols 0); [lia|]. cbv zeta.
  rewrite read_rows_delivered by lia. rewrite add_rows_columns.
  assert (Hlen : match columns_of conv sp q ncols (delivered_rows sep q (skipn he data)) with [] => 0 | c :: _ => length c end = length (delivered_rows sep q (skipn he data))).
  { destruct ncols as [|n0]; [lia|]. unfold columns_of. cbn [seq map]. apply map_length. }
  rewrite Hlen. reflexivity.
Qed.

Lemma chunk_delivered ne ncols data st : 0 < ncols ->
  parse_chunk conv lanes clmul sep q nc ne data (empty_columns ncols) st =
  Some (columns_of conv sp q ncols (delivered_rows sep q (own_part q st data)), length (delivered_rows sep q (own_part q st data))).
Proof.
  intros Hn. unfold parse_chunk. unfold empty_columns at 1. rewrite repeat_length.
  destruct (Nat.eqb_spec ncols 0); [lia|]. rewrite orb_false_r.
  destruct data as [|c data].
  - cbn [length Nat.eqb]. assert (E : own_part q st [] = []) by (destruct st; reflexivity). rewrite E.
    f_equal. f_equal. rewrite <- add_rows_columns. cbn. rewrite add_rows_nil. reflexivity.
  - change (length (c :: data) =? 0) with false. cbv iota.
    assert (E : (if st then let '(in_quote, r) := skip_quoted q (c :: data) in skip_row q in_quote r else c :: data) = own_part q st (c :: data)).
    { destruct st; [|reflexivity]. exact (resume_spec q HqL HqC (length (c :: data)) (c :: data) (le_n _)). }
    rewrite E. rewrite read_rows_delivered by lia. rewrite add_rows_columns. reflexivity.
Qed.

Lemma fold_sum l a : fold_left Nat.add l a = a + list_sum l.
Proof. revert a. induction l as [|x l IH]; intros a; [cbn; lia|]. cbn [fold_left list_sum fold_right]. rewrite IH. unfold list_sum. lia. Qed.

Lemma chunks_delivered ne ncols data he chunk rs : 0 < ncols -> he <= length data ->
  chunk_ranges lanes clmul q data he chunk = Some rs ->
  let own := fun r => own_part q (inside_at false q (skipn he data) (fst r - he)) (slice (fst r) (snd r) data) in
  read_chunks conv lanes clmul sep q nc ne ncols data rs =
    Some (mkRead (map (fun r => columns_of conv sp q ncols (delivered_rows sep q (own r))) rs)
                 (list_sum (map (fun r => length (delivered_rows sep q (own r))) rs)) (spec_row_count false q (skipn he data))).
Proof.
  intros Hn Hhe Hr own.
  destruct (chunk_ranges_tiles lanes clmul q data he chunk Hl HqL HqC Hhe) as (rs' & Hr' & Ht).
  rewrite Hr in Hr'. injection Hr' as <-.
  assert (Hd : map_option (fun c => analyze_chunk_dual_state_simd lanes clmul c q) (pieces data rs) = Some (map (dual_of q) (pieces data rs)))
    by (apply map_option_dual; assumption).
  destruct (parallel_row_count lanes clmul q data he chunk rs _ Hl HqL HqC Hhe Hr Hd) as [Htot Hst].
  unfold read_chunks. fold (pieces data rs). rewrite Hd. rewrite Hst.
  assert (Hcomb : combine rs (map (fun '(s, _) => inside_at false q (skipn he data) (s - he)) rs) =
                  map (fun r => (r, inside_at false q (skipn he data) (fst r - he))) rs).
  { clear. induction rs as [|[s e] rs IH]; [reflexivity|]. cbn [map combine fst]. rewrite IH. reflexivity. }
  rewrite Hcomb.
  rewrite (map_option_map _ (fun p => (columns_of conv sp q ncols (delivered_rows sep q (own_part q (snd p) (slice (fst (fst p)) (snd (fst p)) data))),
      length (delivered_rows sep q (own_part q (snd p) (slice (fst (fst p)) (snd (fst p)) data)))))).
  2:{ intros [[s e] st] HI. cbn [fst snd]. apply chunk_delivered. exact Hn. }
  rewrite !map_map. cbn [fst snd]. f_equal. f_equal; [|exact Htot]. rewrite fold_sum. reflexivity.
Qed.

Lemma all_delivered thr ch ne ncols data he : 0 < ncols -> he <= length data ->
  let body := skipn he data in
  let own := fun r => own_part q (inside_at false q body (fst r - he)) (slice (fst r) (snd r) data) in
  exists rs, chunk_ranges lanes clmul q data he ch = Some rs /\
  read_all_with conv lanes clmul sep q nc thr ch ne ncols data he =
    Some (if (length body <? thr) || (length rs <=? 1)
          then mkRead [columns_of conv sp q ncols (delivered_rows sep q body)]
                      (length (delivered_rows sep q body)) (length (delivered_rows sep q body))
          else mkRead (map (fun r => columns_of conv sp q ncols (delivered_rows sep q (own r))) rs)
                      (list_sum (map (fun r => length (delivered_rows sep q (own r))) rs)) (spec_row_count false q body)).
Proof.
  intros Hn Hhe body own.
  destruct (chunk_ranges_tiles lanes clmul q data he ch Hl HqL HqC Hhe) as (rs & Hr & _). exists rs. split; [exact Hr|].
  unfold read_all_with. destruct (Nat.eqb_spec ncols 0); [lia|].
  rewrite serial_delivered by exact Hn. fold body. rewrite Hr. assert (Lb : length body = length data - he) by (unfold body; apply skipn_length). rewrite Lb.
  destruct (length data - he <? thr); [reflexivity|]. cbn [orb]. destruct (length rs <=? 1); [reflexivity|].
  exact (chunks_delivered ne ncols data he ch rs Hn Hhe Hr).
Qed.

(** ** When they are right *)
Lemma split_iff v : split v = raw_row (N.eqb LF) sep q false v <-> Forall (balanced q) (delimited sep v (fst (split v))).
Proof. unfold split_in_blocks. apply (blocks_iff sep LF q); try assumption. lia. Qed.

Lemma same_fields v : fst (split v) = fst (raw_row (N.eqb LF) sep q false v) -> split v = raw_row (N.eqb LF) sep q false v.
Proof.
  intros E. destruct (rr_join (N.eqb LF) sep q v false) as (tail & Hv & Ht). rewrite <- E in Hv.
  assert (K : snd (split v) = snd (raw_row (N.eqb LF) sep q false v)).
  { destruct (split_lossless v) as [[S1 S2]|S1].
    - rewrite S2. assert (T0 : tail = []).
      { apply (f_equal (@length _)) in S1, Hv. rewrite app_length in Hv. destruct tail; [reflexivity|cbn [length] in Hv; lia]. }
      subst tail. destruct Ht as [[_ ->]|(c & _ & Hc)]; [reflexivity|]. discriminate Hc.
    - assert (T0 : tail = LF :: snd (split v)) by (apply (app_inv_head (join sep (fst (split v)))); congruence).
      destruct Ht as [[Hc _]|(c & _ & Hc)]; [rewrite Hc in T0; discriminate|]. rewrite T0 in Hc. injection Hc as _ Hc. exact Hc. }
  rewrite (surjective_pairing (split v)), E, K. symmetry. apply surjective_pairing.
Qed.

Lemma delivered_iff : forall n l, length l <= n ->
  (delivered_rows sep q l = table_rows sep q l <-> Forall (balanced q) (ended_fields sep q l)).
Proof.
  induction n as [|n IH]; intros l Hn.
  - destruct l; [|cbn in Hn; lia]. split; [constructor|reflexivity].
  - destruct (trim_left newline l) as [|c l'] eqn:Es.
    { rewrite (delivered_blank l Es), (ended_blank l Es). rewrite (table_rows_blank sep q l Es). split; [constructor|reflexivity]. }
    rewrite (delivered_step _ _ _ Es), (ended_step _ _ _ Es), (table_rows_step conv lanes sep q Hqs HqL Hq0 l c l' Es).
    pose proof (trim_left_length newline l) as Ht. rewrite Es in Ht.
    pose proof (split_shorter (c :: l') ltac:(discriminate)) as Hr.
    specialize (IH (snd (split (c :: l'))) ltac:(lia)). rewrite Forall_app, <- IH, <- split_iff. split.
    + intros H. pose proof (f_equal (hd []) H) as H1. pose proof (f_equal (@tl _) H) as H2. cbn [hd tl] in H1, H2.
      pose proof (same_fields _ H1) as H3. split; [exact H3|]. rewrite H2, H3. reflexivity.
    + intros [H1 H2]. rewrite H2, H1. reflexivity.
Qed.
End Deliver.
