(** Reader: chunks that start inside quotes. *)
From Verif Require Import Base WordsModel WordsProof ChunkSpec ChunkModel ChunkProof ChunkProof2 ChunkProof3
  FieldsSpec FieldsModel FieldsProof FieldsProof2 FieldsProof3 FieldsProof4 FieldsProof5
  ReaderSpec ReaderModel ReaderProof ReaderProof2 ReaderProof3 ReaderProof4 ReaderProof5.

Section R.
Variables (sep q : byte).
Hypothesis HqL : q <> LF.
Hypothesis HqC : q <> CR.

Lemma skip_row_step st c r : skip_row q st (c :: r) =
  if N.eqb c q then (if st && next_is q r then skip_row q st (tl r) else skip_row q (negb st) r)
  else if negb st && (N.eqb c LF || N.eqb c CR) then (if N.eqb c CR && next_is LF r then tl r else r)
  else skip_row q st r.
Proof.
  cbn [skip_row]. destruct (N.eqb c q); [|reflexivity].
  destruct st, r as [|d r]; cbn [andb next_is tl]; try reflexivity; destruct (N.eqb d q); reflexivity.
Qed.

Lemma skip_quoted_step c r : skip_quoted q (c :: r) =
  if N.eqb c q then (if next_is q r then skip_quoted q (tl r) else (false, r)) else skip_quoted q r.
Proof. cbn [skip_quoted]. destruct (N.eqb c q); [|reflexivity]. destruct r as [|d r]; [reflexivity|]. cbn [next_is tl]. reflexivity. Qed.

Lemma after_step st c r : after_row_end q st (c :: r) =
  if N.eqb c q then after_row_end q (negb st) r
  else if st then after_row_end q st r
  else if N.eqb c LF then r
  else if N.eqb c CR then (if next_is LF r then tl r else r)
  else after_row_end q st r.
Proof. cbn [after_row_end]. destruct r; reflexivity. Qed.

Lemma next_is_cons (r : bytes) x : next_is x r = true -> exists r', r = x :: r' /\ tl r = r'.
Proof. destruct r as [|d r]; [discriminate|]. cbn. intros H. apply N.eqb_eq in H. subst. eauto. Qed.

Lemma skip_row_spec : forall n l st, length l <= n -> skip_row q st l = after_row_end q st l.
Proof.
  induction n as [|n IH]; intros l st Hn; [destruct l; [reflexivity|cbn in Hn; lia]|].
  destruct l as [|c r]; [reflexivity|]. cbn [length] in Hn. rewrite skip_row_step, after_step.
  destruct (N.eqb c q) eqn:Ec.
  - destruct (st && next_is q r) eqn:E; [|apply IH; lia].
    apply andb_true_iff in E. destruct E as [-> E]. destruct (next_is_cons _ _ E) as (r' & -> & Ht). cbn [tl].
    rewrite after_step, N.eqb_refl. cbn [negb]. apply IH. cbn in Hn. lia.
  - destruct st; cbn [negb andb]; [apply IH; lia|].
    destruct (N.eqb c LF) eqn:EL; cbn [orb].
    + apply N.eqb_eq in EL. subst c. reflexivity.
    + destruct (N.eqb c CR); [reflexivity|apply IH; lia].
Qed.

Lemma resume_spec : forall n l, length l <= n ->
  (let '(in_quote, r) := skip_quoted q l in skip_row q in_quote r) = after_row_end q true l.
Proof.
  induction n as [|n IH]; intros l Hn; [destruct l; [reflexivity|cbn in Hn; lia]|].
  destruct l as [|c r]; [reflexivity|]. cbn [length] in Hn. rewrite skip_quoted_step, after_step.
  destruct (N.eqb c q) eqn:Ec; [|apply IH; lia].
  destruct (next_is q r) eqn:E.
  - destruct (next_is_cons _ _ E) as (r' & -> & Ht). cbn [tl]. rewrite after_step, N.eqb_refl. cbn [negb].
    apply IH. cbn in Hn. lia.
  - cbn [negb]. apply (skip_row_spec (length r)). lia.
Qed.

(** Rows counted in one pass: [mid] = in the middle of a row. *)
Fixpoint cnt (mid st : bool) (l : bytes) : nat :=
  match l with
  | [] => 0
  | c :: r =>
      if N.eqb c q then (if mid then 0 else 1) + cnt true (negb st) r
      else if st then (if mid then 0 else 1) + cnt true true r
      else if mid then (if N.eqb c LF then cnt false false r else cnt true false r)
      else if newline c then cnt false false r else 1 + cnt true false r
  end.

Lemma cnt_row : forall l st, cnt true st l = cnt false false (snd (raw_row (N.eqb LF) sep q st l)).
Proof.
  induction l as [|c l IH]; intros st; [reflexivity|]. cbn [cnt raw_row].
  destruct (N.eqb c q); [rewrite snd_cons_first; apply IH|].
  destruct st; [rewrite snd_cons_first; apply IH|].
  rewrite (N.eqb_sym LF c). destruct (N.eqb c LF); [reflexivity|].
  rewrite IH. destruct (N.eqb c sep); [destruct (raw_row (N.eqb LF) sep q false l); reflexivity|rewrite snd_cons_first; reflexivity].
Qed.

Lemma newline_not_q c : newline c = true -> N.eqb c q = false.
Proof.
  unfold newline. intros H. apply N.eqb_neq. intros ->. apply orb_true_iff in H.
  destruct H as [H|H]; apply N.eqb_eq in H; congruence.
Qed.

Lemma cnt_trim : forall l, cnt false false l = cnt false false (trim_left newline l).
Proof.
  induction l as [|c l IH]; [reflexivity|]. cbn [trim_left]. destruct (newline c) eqn:E; [|reflexivity].
  cbn [cnt]. rewrite (newline_not_q c E), E. exact IH.
Qed.

Lemma RRS l : l <> [] -> length (snd (raw_row (N.eqb LF) sep q false l)) < length l.
Proof.
  intros H. destruct (rr_join (N.eqb LF) sep q l false) as (tail & Hv & Ht).
  destruct Ht as [[_ ->]|(c & _ & ->)]; [destruct l; cbn; [congruence|lia]|].
  rewrite Hv at 2. rewrite app_length. cbn. lia.
Qed.

Lemma rows_cnt : forall n l, length l <= n -> length (rows_upto n sep q l) = cnt false false l.
Proof.
  induction n as [|n IH]; intros l Hn; [destruct l; [reflexivity|cbn in Hn; lia]|].
  cbn [rows_upto]. rewrite cnt_trim. pose proof (trim_left_length newline l) as Hl.
  destruct (trim_left newline l) as [|c l'] eqn:E; [reflexivity|].
  assert (Hc : newline c = false).
  { clear -E. induction l as [|x l IH]; [discriminate|]. cbn in E. destruct (newline x) eqn:Ex; [auto|]. injection E as <- <-. exact Ex. }
  assert (Hrest : cnt false false (c :: l') = 1 + cnt false false (snd (raw_row (N.eqb LF) sep q false (c :: l')))).
  { cbn [cnt raw_row]. destruct (N.eqb c q); [rewrite snd_cons_first, cnt_row; reflexivity|]. rewrite Hc, cnt_row.
    assert (EL : N.eqb LF c = false) by (unfold newline in Hc; apply orb_false_iff in Hc; rewrite N.eqb_sym; tauto).
    rewrite EL. destruct (N.eqb c sep); [destruct (raw_row (N.eqb LF) sep q false l'); reflexivity|rewrite snd_cons_first; reflexivity]. }
  assert (Hs : length (snd (raw_row (N.eqb LF) sep q false (c :: l'))) < length (c :: l')).
  { apply RRS. discriminate. }
  pose proof (IH (snd (raw_row (N.eqb LF) sep q false (c :: l'))) ltac:(lia)) as IH'.
  destruct (raw_row (N.eqb LF) sep q false (c :: l')) as [row rest] eqn:ER. cbn [snd fst] in *. cbn [length]. rewrite IH', Hrest. reflexivity.
Qed.

Lemma table_cnt l : length (table_rows sep q l) = cnt false false l.
Proof. apply rows_cnt. lia. Qed.

Lemma cnt_app_LF b : forall a0 mid st, (st = true -> mid = true) ->
  cnt mid st ((a0 ++ [LF]) ++ b) = cnt mid st (a0 ++ [LF]) + cnt (endst st q (a0 ++ [LF])) (endst st q (a0 ++ [LF])) b.
Proof.
  assert (EL : N.eqb LF q = false) by (apply N.eqb_neq; congruence).
  induction a0 as [|c a0 IH]; intros mid st H.
  - cbn [app cnt endst]. rewrite EL. change (N.eqb LF LF) with true. change (newline LF) with true. destruct st.
    + rewrite (H eq_refl). reflexivity.
    + destruct mid; reflexivity.
  - cbn [app cnt endst]. destruct (N.eqb c q).
    + rewrite IH by (intros; reflexivity). destruct mid; lia.
    + destruct st.
      * rewrite IH by (intros; reflexivity). destruct mid; lia.
      * destruct mid; [destruct (N.eqb c LF)|destruct (newline c)]; rewrite IH by (try discriminate; intros; reflexivity); lia.
Qed.

Lemma cnt_after : forall l st, no_lone_cr l -> cnt true st l = cnt false false (after_row_end q st l).
Proof.
  induction l as [|c r IH]; intros st H; [reflexivity|]. rewrite after_step. cbn [cnt].
  pose proof (no_lone_cr_tl _ _ H) as Ht.
  destruct (N.eqb c q); [apply IH, Ht|]. destruct st; [apply IH, Ht|].
  destruct (N.eqb c LF) eqn:EL; [reflexivity|]. destruct (N.eqb c CR) eqn:EC; [|apply IH, Ht].
  specialize (H 0). unfold byte_is in H. cbn [nth_error] in H. specialize (H EC).
  destruct r as [|d r]; [discriminate|]. cbn in H. cbn [next_is tl]. rewrite H. cbn [cnt].
  apply N.eqb_eq in H. subst d. assert (E : N.eqb LF q = false) by (apply N.eqb_neq; congruence). rewrite E. reflexivity.
Qed.

Lemma part_rows st l : no_lone_cr l -> length (table_rows sep q (own_part q st l)) = cnt st st l.
Proof. intros H. rewrite table_cnt. unfold own_part. destruct st; [symmetry; apply cnt_after, H|reflexivity]. Qed.

Lemma cnt_tiles data : forall rs a st, tiles a (length data) rs ->
  (forall s e, In (s, e) rs -> e < length data -> nth_error data (e - 1) = Some LF) ->
  cnt st st (skipn a data) =
  fold_right Nat.add 0 (map (fun '(s, e) => cnt (endst st q (slice a s data)) (endst st q (slice a s data)) (slice s e data)) rs).
Proof.
  induction rs as [|[s e] rs IH]; intros a st Ht Hn.
  - cbn in Ht. subst a. rewrite skipn_all. reflexivity.
  - cbn [tiles] in Ht. destruct Ht as (-> & Hse & He & Ht). cbn [map fold_right].
    assert (E0 : slice a a data = []) by (unfold slice; rewrite Nat.sub_diag; reflexivity). rewrite E0. cbn [endst].
    destruct (Nat.eq_dec e (length data)) as [->|Hne].
    + destruct rs as [|[s1 e1] rs]; [|cbn [tiles] in Ht; lia]. cbn [map fold_right]. rewrite slice_to_end. lia.
    + assert (Hcut : exists b0, slice a e data = b0 ++ [LF]).
      { exists (slice a (e - 1) data). rewrite <- (slice_app data a (e - 1) e) by lia. f_equal. unfold slice.
        rewrite (skipn_nth_cons _ _ _ (Hn a e (or_introl eq_refl) ltac:(lia))). replace (e - (e - 1)) with 1 by lia. reflexivity. }
      destruct Hcut as (b0 & Hb).
      rewrite <- (slice_to_end data a), <- (slice_app data a e (length data)) by lia. rewrite slice_to_end, Hb.
      rewrite cnt_app_LF by auto. f_equal. rewrite (IH e _ Ht).
      2:{ intros s0 e0 Hin. apply (Hn s0 e0). right. exact Hin. }
      f_equal. apply map_ext_in. intros [s1 e1] Hin.
      destruct (tiles_in _ _ _ Ht s1 e1 Hin) as (T1 & T2 & T3).
      rewrite <- Hb. rewrite <- (slice_app data a e s1) by lia. rewrite endst_app. reflexivity.
Qed.
End R.

Section Parts.
Context {V : Type} (conv : nat -> bytes -> option V).
Variables (lanes : nat) (clmul : bool) (sep q : byte) (sp : bytes).
Hypothesis Hl : lanes_ok lanes.
Hypothesis HqL : q <> LF.
Hypothesis HqC : q <> CR.
Hypothesis Hqs : q <> sep.
Hypothesis Hq0 : q <> 0%N.
Notation nc := (make_null_checker sp).
Notation table := (table_columns conv sp sep q).

Definition part (he : nat) (data : bytes) (r : nat * nat) : bytes :=
  own_part q (inside_at false q (skipn he data) (fst r - he)) (slice (fst r) (snd r) data).

Lemma parse_chunk_part ne ncols data st : 0 < ncols ->
  Forall (safe_row sep LF q) (table_rows sep q (own_part q st data)) ->
  parse_chunk conv lanes clmul sep q nc ne data (empty_columns ncols) st =
  Some (table ncols (own_part q st data), length (table_rows sep q (own_part q st data))).
Proof.
  intros Hn HS. destruct st; [|exact (parse_chunk_exact conv lanes clmul sep q sp Hl HqL HqC Hqs Hq0 ne ncols data Hn HS)].
  unfold own_part in *. unfold parse_chunk. unfold empty_columns at 1. rewrite repeat_length.
  destruct (Nat.eqb_spec ncols 0); [lia|]. rewrite orb_false_r.
  destruct data as [|c data].
  - cbn [length Nat.eqb after_row_end]. f_equal. f_equal. rewrite <- add_rows_table. cbn. rewrite add_rows_nil. reflexivity.
  - change (length (c :: data) =? 0) with false. cbv iota.
    rewrite (resume_spec q HqL HqC (length (c :: data)) (c :: data)) by lia.
    rewrite (read_rows_exact conv lanes clmul sep q sp Hl Hqs HqL Hq0) by (assumption || lia).
    rewrite add_rows_table. reflexivity.
Qed.

Lemma ends_LF data he chunk rs : he <= length data -> no_lone_cr (skipn he data) ->
  chunk_ranges lanes clmul q data he chunk = Some rs ->
  forall s e, In (s, e) rs -> e < length data -> nth_error data (e - 1) = Some LF.
Proof.
  intros Hhe Hcr Hr s e HI He.
  destruct (chunk_ranges_tiles lanes clmul q data he chunk Hl HqL HqC Hhe) as (rs' & Hr' & Ht).
  rewrite Hr in Hr'. injection Hr' as <-.
  destruct (tiles_in he (length data) rs Ht s e HI) as (T1 & T2 & T3).
  destruct (chunk_ranges_clean lanes clmul q data he chunk rs Hl HqL HqC Hr s e HI) as [Hc|[Hc1 Hc2]]; [lia|].
  unfold line_end_at in Hc2.
  assert (Hb : byte_is data (e - 1) LF = true).
  { destruct (byte_is data (e - 1) LF) eqn:E; [reflexivity|]. cbn [orb] in Hc2.
    apply andb_true_iff in Hc2. destruct Hc2 as [C1 C2].
    specialize (Hcr (e - 1 - he)). unfold byte_is in Hcr, C1, C2. rewrite !nth_error_skipn' in Hcr.
    replace (he + (e - 1 - he)) with (e - 1) in Hcr by lia. specialize (Hcr C1).
    replace (he + S (e - 1 - he)) with (S (e - 1)) in Hcr by lia. rewrite Hcr in C2. discriminate. }
  unfold byte_is in Hb. destruct (nth_error data (e - 1)) as [c|]; [|discriminate].
  apply N.eqb_eq in Hb. congruence.
Qed.

Lemma nth_slice (data : bytes) s e i : nth_error (slice s e data) i = if i <? e - s then nth_error data (s + i) else None.
Proof.
  unfold slice. destruct (Nat.ltb_spec i (e - s)).
  - rewrite nth_error_firstn_lt by lia. rewrite nth_error_skipn'. reflexivity.
  - apply nth_error_None. rewrite firstn_length. lia.
Qed.

Lemma slice_no_lone_cr data he s e : he <= s -> e <= length data -> no_lone_cr (skipn he data) ->
  (e < length data -> nth_error data (e - 1) = Some LF) -> no_lone_cr (slice s e data).
Proof.
  intros H1 H2 Hcr Hend i Hi. specialize (Hcr (s + i - he)). unfold byte_is in *. rewrite !nth_error_skipn' in Hcr.
  rewrite nth_slice in *. replace (he + (s + i - he)) with (s + i) in Hcr by lia.
  replace (he + S (s + i - he)) with (s + S i) in Hcr by lia.
  destruct (Nat.ltb_spec i (e - s)) as [Hlt|]; [|discriminate].
  specialize (Hcr Hi). destruct (Nat.ltb_spec (S i) (e - s)) as [|Hge]; [exact Hcr|]. exfalso.
  assert (Ee : s + S i = e) by lia.
  destruct (Nat.eq_dec e (length data)) as [El|Hne].
  - rewrite Ee, El in Hcr. rewrite (proj2 (nth_error_None data (length data))) in Hcr by lia. discriminate.
  - specialize (Hend ltac:(lia)). replace (e - 1) with (s + i) in Hend by lia. rewrite Hend in Hi. discriminate.
Qed.

Lemma read_chunks_parts ne ncols data he chunk rs : 0 < ncols -> he <= length data ->
  chunk_ranges lanes clmul q data he chunk = Some rs ->
  no_lone_cr (skipn he data) ->
  Forall (fun r => Forall (safe_row sep LF q) (table_rows sep q (part he data r))) rs ->
  read_chunks conv lanes clmul sep q nc ne ncols data rs =
    Some (mkRead (map (fun r => table ncols (part he data r)) rs)
                 (length (table_rows sep q (skipn he data))) (spec_row_count false q (skipn he data))).
Proof.
  intros Hn Hhe Hr Hcr HS.
  destruct (chunk_ranges_tiles lanes clmul q data he chunk Hl HqL HqC Hhe) as (rs' & Hr' & Ht).
  rewrite Hr in Hr'. injection Hr' as <-.
  assert (Hd : map_option (fun c => analyze_chunk_dual_state_simd lanes clmul c q) (pieces data rs) = Some (map (dual_of q) (pieces data rs)))
    by (apply map_option_dual; assumption).
  destruct (parallel_row_count lanes clmul q data he chunk rs _ Hl HqL HqC Hhe Hr Hd) as [Htot Hst].
  unfold read_chunks. fold (pieces data rs). rewrite Hd. rewrite Hst.
  assert (Hcomb : combine rs (map (fun '(s, _) => inside_at false q (skipn he data) (s - he)) rs) =
                  map (fun r => (r, inside_at false q (skipn he data) (fst r - he))) rs).
  { clear. induction rs as [|[s e] rs IH]; [reflexivity|]. cbn [map combine fst]. rewrite IH. reflexivity. }
  rewrite Hcomb.
  rewrite (map_option_map _ (fun p => (table ncols (own_part q (snd p) (slice (fst (fst p)) (snd (fst p)) data)),
      length (table_rows sep q (own_part q (snd p) (slice (fst (fst p)) (snd (fst p)) data)))))).
  2:{ intros [[s e] st] HI. apply in_map_iff in HI. destruct HI as ([s0 e0] & E & HI). injection E as -> -> <-.
      cbn [fst snd]. apply parse_chunk_part; [exact Hn|]. rewrite Forall_forall in HS. apply (HS (s, e) HI). }
  rewrite !map_map. cbn [fst snd]. f_equal. f_equal; [|exact Htot].
  rewrite (table_cnt sep q HqL HqC), (cnt_tiles q HqL HqC data rs he false Ht) by (eapply ends_LF; eassumption).
  rewrite <- fold_symmetric by (intros; lia). f_equal. apply map_ext_in. intros [s e] HI. cbn [fst snd].
  destruct (tiles_in he (length data) rs Ht s e HI) as (T1 & T2 & T3).
  rewrite (part_rows sep q HqL HqC).
  2:{ refine (slice_no_lone_cr data he s e _ _ Hcr _); [lia|lia|]. intros He. exact (ends_LF data he chunk rs Hhe Hcr Hr s e HI He). }
  assert (E : inside_at false q (skipn he data) (s - he) = endst false q (slice he s data)).
  { unfold inside_at. rewrite endst_spec. unfold slice. reflexivity. }
  rewrite E. reflexivity.
Qed.

Lemma read_all_parts thr ch ne ncols data he : 0 < ncols -> he <= length data ->
  no_lone_cr (skipn he data) ->
  Forall (safe_row sep LF q) (table_rows sep q (skipn he data)) ->
  (forall rs, chunk_ranges lanes clmul q data he ch = Some rs ->
     Forall (fun r => Forall (safe_row sep LF q) (table_rows sep q (part he data r))) rs) ->
  exists r, read_all_with conv lanes clmul sep q nc thr ch ne ncols data he = Some r /\
    total_rows r = length (table_rows sep q (skipn he data)) /\
    (chunks r = [table ncols (skipn he data)] \/
     exists rs, chunk_ranges lanes clmul q data he ch = Some rs /\ chunks r = map (fun r => table ncols (part he data r)) rs).
Proof.
  intros Hn Hhe Hcr HS Hp. unfold read_all_with. destruct (Nat.eqb_spec ncols 0); [lia|].
  rewrite (read_serial_exact conv lanes clmul sep q sp Hl HqL HqC Hqs Hq0) by assumption.
  assert (Hser : forall a b, exists r, Some (mkRead [table ncols (skipn he data)] a b) = Some r /\
     total_rows r = a /\ (chunks r = [table ncols (skipn he data)] \/
     exists rs, chunk_ranges lanes clmul q data he ch = Some rs /\ chunks r = map (fun r => table ncols (part he data r)) rs)).
  { intros a b. eexists. split; [reflexivity|]. split; [reflexivity|]. left. reflexivity. }
  destruct (length data - he <? thr); [apply Hser|].
  destruct (chunk_ranges_tiles lanes clmul q data he ch Hl HqL HqC Hhe) as (rs & Hr & _). rewrite Hr in *.
  destruct (length rs <=? 1); [apply Hser|].
  rewrite (read_chunks_parts ne ncols data he ch rs Hn Hhe Hr Hcr (Hp rs eq_refl)).
  eexists. split; [reflexivity|]. split; [reflexivity|]. right. exists rs. split; reflexivity.
Qed.
End Parts.
