(** Reader: whole-file results. *)
From Verif Require Import Base WordsModel WordsProof ChunkSpec ChunkModel ChunkProof ChunkProof2 ChunkProof3
  FieldsSpec FieldsModel FieldsProof FieldsProof2 FieldsProof3 FieldsProof4 FieldsProof5
  ReaderSpec ReaderModel ReaderProof ReaderProof2.

(** ** The uninitialised flag *)
Definition flags_alike (x y : bytes * bool) : Prop := fst x = fst y /\ (fst x <> [] -> snd x = snd y).

Lemma flags_refl l : Forall2 flags_alike l l.
Proof. induction l; constructor; [split; auto|assumption]. Qed.

Lemma sf_next_ne lanes clmul sep q eol st ne ne' :
  sf_next lanes clmul sep q eol st ne = sf_next lanes clmul sep q eol st ne' \/
  exists st', sf_next lanes clmul sep q eol st ne = Some (Some ([], ne), st') /\
              sf_next lanes clmul sep q eol st ne' = Some (Some ([], ne'), st').
Proof.
  unfold sf_next. destruct (sf_finished st); [left; reflexivity|].
  destruct (negb (N.eqb (sf_prev st) 0)); [left; reflexivity|].
  destruct (sf_v st) as [|c v] eqn:E; [|left; reflexivity].
  right. unfold sf_finish. rewrite E. eexists. split; reflexivity.
Qed.

Lemma sf_all_ne lanes clmul sep q eol : forall fuel st ne ne',
  match sf_all fuel lanes clmul sep q eol st ne, sf_all fuel lanes clmul sep q eol st ne' with
  | Some (a, r), Some (b, r') => r = r' /\ Forall2 flags_alike a b
  | None, None => True
  | _, _ => False
  end.
Proof.
  induction fuel as [|fuel IH]; intros st ne ne'; [exact I|]. cbn [sf_all].
  destruct (sf_next_ne lanes clmul sep q eol st ne ne') as [E|(st' & E1 & E2)].
  - rewrite E. destruct (sf_next lanes clmul sep q eol st ne') as [[[[f n]|] st']|]; [| |exact I].
    + destruct (sf_all fuel lanes clmul sep q eol st' n) as [[a r]|]; [|exact I].
      split; [reflexivity|apply flags_refl].
    + split; [reflexivity|constructor].
  - rewrite E1, E2. specialize (IH st' ne ne').
    destruct (sf_all fuel lanes clmul sep q eol st' ne) as [[a r]|], (sf_all fuel lanes clmul sep q eol st' ne') as [[b r']|]; try contradiction; [|exact I].
    destruct IH as [-> HF]. split; [reflexivity|]. constructor; [|exact HF]. split; [reflexivity|]. cbn. congruence.
Qed.

Lemma Forall2_len {A B} (P : A -> B -> Prop) a b : Forall2 P a b -> length a = length b.
Proof. induction 1; cbn; congruence. Qed.

Lemma inside_step' q data a n : a + n <= length data ->
  endst (inside_at false q data a) q (firstn n (skipn a data)) = inside_at false q data (a + n).
Proof.
  intros H. unfold inside_at, quotes_before. rewrite <- !endst_spec, <- endst_app. f_equal.
  symmetry. rewrite <- (firstn_skipn a data) at 1. rewrite firstn_app, firstn_length_le by lia.
  replace (a + n - a) with n by lia. rewrite firstn_all2 by (rewrite firstn_length_le by lia; lia). reflexivity.
Qed.

Section Whole.
Context {V : Type}.
Variable conv : nat -> bytes -> option V.
Variables (lanes : nat) (clmul : bool) (sep q : byte) (sp : bytes).
Hypothesis Hl : lanes_ok lanes.
Notation nc := (make_null_checker sp).

Lemma put_alike : forall cols k a b, Forall2 flags_alike a b -> put conv q sp k a cols = put conv q sp k b cols.
Proof.
  induction cols as [|c cols IH]; intros k a b H; [reflexivity|].
  destruct H as [|[f n] [f' n'] a b [H1 H2] H]; cbn [put]; [reflexivity|].
  cbn [fst snd] in *. subst f'. f_equal; [|apply IH; exact H]. f_equal. f_equal.
  destruct f as [|x f]; [reflexivity|]. rewrite (H2 ltac:(discriminate)). reflexivity.
Qed.

Lemma read_rows_ne : forall fuel ne ne' l cols rows,
  read_rows conv lanes clmul sep q nc fuel ne l cols rows = read_rows conv lanes clmul sep q nc fuel ne' l cols rows.
Proof.
  induction fuel as [|fuel IH]; intros ne ne' l cols rows; [destruct l; reflexivity|].
  destruct l as [|c l]; [reflexivity|].
  destruct (skip_empty (c :: l)) as [|d l'] eqn:Es; [cbn [read_rows]; rewrite Es; reflexivity|].
  pose proof (sf_all_ne lanes clmul sep q LF (S (S (length (d :: l')))) (sf_init (d :: l')) ne ne') as H.
  destruct (row_fields_lossless lanes clmul sep q LF (d :: l') ne Hl) as (rs & rest & Hr & _).
  destruct (row_fields_lossless lanes clmul sep q LF (d :: l') ne' Hl) as (rs' & rest' & Hr' & _).
  unfold row_fields in Hr, Hr'. rewrite Hr, Hr' in H. destruct H as [-> HF].
  rewrite (read_rows_step conv lanes clmul sep q sp fuel ne (c :: l) cols rows rs rest'); [|discriminate|rewrite Es; discriminate|rewrite Es; exact Hr].
  rewrite (read_rows_step conv lanes clmul sep q sp fuel ne' (c :: l) cols rows rs' rest'); [|discriminate|rewrite Es; discriminate|rewrite Es; exact Hr'].
  rewrite (put_alike cols 0 rs rs' HF). apply IH.
Qed.

Lemma parse_chunk_ne ne ne' data cols st :
  parse_chunk conv lanes clmul sep q nc ne data cols st = parse_chunk conv lanes clmul sep q nc ne' data cols st.
Proof. unfold parse_chunk. destruct (_ || _); [reflexivity|]. apply read_rows_ne. Qed.

Lemma read_serial_ne ne ne' n data he :
  read_all_serial conv lanes clmul sep q nc ne n data he = read_all_serial conv lanes clmul sep q nc ne' n data he.
Proof. unfold read_all_serial. destruct (n =? 0); [reflexivity|]. rewrite (read_rows_ne _ ne ne'). reflexivity. Qed.

Lemma map_option_ext {A B} (f g : A -> option B) l : (forall x, f x = g x) -> map_option f l = map_option g l.
Proof. intros H. induction l as [|x l IH]; [reflexivity|]. cbn. rewrite H, IH. reflexivity. Qed.

Lemma read_all_ne nt ne ne' n data he :
  read_all conv lanes clmul sep q nc nt ne n data he = read_all conv lanes clmul sep q nc nt ne' n data he.
Proof.
  unfold read_all. generalize (N.to_nat PARALLEL_THRESHOLD). intros thr.
  generalize (N.to_nat (calculate_chunk_size (N.of_nat (length data - he)) (N.of_nat n) nt)). intros ch.
  unfold read_all_with. destruct (n =? 0); [reflexivity|]. rewrite (read_serial_ne ne ne').
  destruct (length data - he <? thr); [reflexivity|].
  destruct (chunk_ranges lanes clmul q data he ch) as [rs|]; [|reflexivity].
  destruct (length rs <=? 1); [reflexivity|]. unfold read_chunks.
  destruct (map_option _ (map _ rs)) as [ds|]; [|reflexivity].
  rewrite (map_option_ext _ (fun '(r, st) => parse_chunk conv lanes clmul sep q nc ne' (slice (fst r) (snd r) data) (empty_columns n) st)); [reflexivity|].
  intros [r st]. apply parse_chunk_ne.
Qed.

(** ** Rectangular results *)
Definition rect (n : nat) (ncols : nat) (cols : list (list (option V))) : Prop :=
  length cols = ncols /\ Forall (fun c => length c = n) cols.

Lemma empty_rect ncols : rect 0 ncols (empty_columns ncols).
Proof.
  unfold rect, empty_columns. rewrite repeat_length. split; [reflexivity|].
  apply Forall_forall. intros c Hc. apply repeat_spec in Hc. subst. reflexivity.
Qed.

Lemma parse_chunk_rect ne data ncols st : 0 < ncols ->
  exists cols n, parse_chunk conv lanes clmul sep q nc ne data (empty_columns ncols) st = Some (cols, n) /\ rect n ncols cols.
Proof.
  intros Hn. destruct (empty_rect ncols) as [E1 E2]. unfold parse_chunk.
  destruct ((length data =? 0) || (length (empty_columns ncols) =? 0)).
  - exists (empty_columns ncols), 0. split; [reflexivity|apply empty_rect].
  - match goal with |- context [read_rows _ _ _ _ _ _ (S (length ?L))] => set (l := L) end.
    destruct (read_rows_rect conv lanes clmul sep q sp Hl (S (length l)) ne l (empty_columns ncols) 0 0) as (cols & n & H1 & H2 & H3 & H4); [lia|exact E2|].
    exists cols, n. split; [exact H1|]. split; [congruence|]. rewrite Nat.sub_0_r in H4. exact H4.
Qed.

Lemma read_serial_rect ne ncols data he : 0 < ncols ->
  exists cols n, read_all_serial conv lanes clmul sep q nc ne ncols data he = Some (mkRead [cols] n n) /\ rect n ncols cols.
Proof.
  intros Hn. unfold read_all_serial. destruct (Nat.eqb_spec ncols 0); [lia|].
  destruct (empty_rect ncols) as [E1 E2]. cbv zeta.
  destruct (read_rows_rect conv lanes clmul sep q sp Hl (S (length (skipn he data))) ne (skipn he data) (empty_columns ncols) 0 0) as (cols & n0 & H1 & H2 & H3 & H4); [lia|exact E2|].
  rewrite H1. rewrite Nat.sub_0_r in H4. cbn [Nat.add] in H4.
  destruct cols as [|c cols]; [rewrite E1 in H3; cbn in H3; lia|].
  exists (c :: cols), n0. replace (length c) with n0 by (inversion H4; congruence).
  split; [reflexivity|]. split; [congruence|exact H4].
Qed.

Hypothesis HqL : q <> LF.
Hypothesis HqC : q <> CR.

Lemma combine_states {A} (rs : list A) (ss : list bool) : length ss = length rs -> map fst (combine rs ss) = rs.
Proof. revert ss. induction rs as [|r rs IH]; intros [|s ss] H; try discriminate; [reflexivity|]. cbn. rewrite IH by (cbn in H; lia). reflexivity. Qed.

Lemma link_states_length : forall ds st, length (link_states st ds) = length ds.
Proof. induction ds as [|d ds IH]; intros st; [reflexivity|]. cbn [link_states length]. rewrite IH. reflexivity. Qed.

Lemma read_chunks_rect ne ncols data rs : 0 < ncols ->
  exists r ns, read_chunks conv lanes clmul sep q nc ne ncols data rs = Some r /\
    Forall2 (fun n cols => rect n ncols cols) ns (chunks r) /\ total_rows r = fold_left Nat.add ns 0 /\
    length (chunks r) = length rs.
Proof.
  intros Hn. unfold read_chunks. rewrite map_option_dual by assumption.
  set (ds := map (dual_of q) _).
  destruct (map_option_total (fun '(r, st) => parse_chunk conv lanes clmul sep q nc ne (slice (fst r) (snd r) data) (empty_columns ncols) st)
              (fun _ y => rect (snd y) ncols (fst y)) (combine rs (link_states false ds))) as (ys & Hy & HF).
  { intros [r st] _. destruct (parse_chunk_rect ne (slice (fst r) (snd r) data) ncols st Hn) as (cols & n & H1 & H2).
    exists (cols, n). split; assumption. }
  rewrite Hy. eexists. exists (map snd ys). split; [reflexivity|]. cbn [chunks total_rows].
  repeat split.
  - clear Hy. induction HF as [|x y l ys Hxy HF IH]; constructor; assumption.
  - rewrite map_length. apply Forall2_len in HF. rewrite <- HF, combine_length, link_states_length.
    unfold ds. rewrite !map_length. lia.
Qed.

(** ** Agreement with the table *)
Hypothesis Hqs : q <> sep.
Hypothesis Hq0 : q <> 0%N.
Notation body he data := (skipn he data).
Notation table := (table_columns conv sp sep q).

Lemma add_rows_table ncols l : add_rows conv q sp (table_rows sep q l) (empty_columns ncols) = table ncols l.
Proof.
  unfold add_rows, table_columns, empty_columns. rewrite repeat_length. generalize 0.
  induction ncols as [|n IH]; intros k; [reflexivity|]. cbn [repeat seq combine map fst snd app]. f_equal. apply IH.
Qed.

Lemma read_serial_exact ne ncols data he : 0 < ncols ->
  Forall (safe_row sep LF q) (table_rows sep q (body he data)) ->
  read_all_serial conv lanes clmul sep q nc ne ncols data he =
  Some (mkRead [table ncols (body he data)] (length (table_rows sep q (body he data))) (length (table_rows sep q (body he data)))).
Proof.
  intros Hn HS. unfold read_all_serial. destruct (Nat.eqb_spec ncols 0); [lia|]. cbv zeta.
  rewrite (read_rows_exact conv lanes clmul sep q sp Hl Hqs HqL Hq0) by (assumption || lia).
  rewrite add_rows_table.
  assert (Hlen : match table ncols (body he data) with [] => 0 | c :: _ => length c end = length (table_rows sep q (body he data))).
  { destruct ncols as [|n0]; [lia|]. unfold table_columns. cbn [seq map]. apply map_length. }
  rewrite Hlen. reflexivity.
Qed.

Lemma parse_chunk_exact ne ncols data : 0 < ncols -> 
  Forall (safe_row sep LF q) (table_rows sep q data) ->
  parse_chunk conv lanes clmul sep q nc ne data (empty_columns ncols) false =
  Some (table ncols data, length (table_rows sep q data)).
Proof.
  intros Hn HS. unfold parse_chunk. unfold empty_columns at 1. rewrite repeat_length.
  destruct (Nat.eqb_spec ncols 0); [lia|]. rewrite orb_false_r.
  destruct data as [|c data].
  - cbn [length Nat.eqb]. f_equal. f_equal. rewrite <- add_rows_table. cbn. rewrite add_rows_nil. reflexivity.
  - cbn [length Nat.eqb]. rewrite (read_rows_exact conv lanes clmul sep q sp Hl Hqs HqL Hq0) by (assumption || cbn; lia).
    rewrite add_rows_table. reflexivity.
Qed.

Lemma chunks_rows data : forall rs a, tiles a (length data) rs ->
  (forall s e, In (s, e) rs -> e < length data -> row_cut q (slice s e data)) ->
  table_rows sep q (skipn a data) = concat (map (fun '(s, e) => table_rows sep q (slice s e data)) rs).
Proof.
  induction rs as [|[s e] rs IH]; intros a Ht Hc.
  - cbn in Ht. subst a. rewrite skipn_all. reflexivity.
  - cbn [tiles] in Ht. destruct Ht as (-> & Hse & He & Ht). cbn [map concat].
    destruct (Nat.eq_dec e (length data)) as [->|Hne].
    + rewrite <- (IH (length data) Ht) by (intros s0 e0 Hin; apply Hc; right; exact Hin).
      rewrite skipn_all, slice_to_end. unfold table_rows at 3. cbn. rewrite app_nil_r. reflexivity.
    + rewrite <- (IH e Ht) by (intros s0 e0 Hin; apply Hc; right; exact Hin).
      rewrite <- (slice_to_end data a), <- (slice_app data a e (length data)) by lia. rewrite slice_to_end.
      apply (table_rows_app conv lanes sep q Hqs HqL Hq0 HqC (length (slice a e data))); [lia|]. apply Hc; [left; reflexivity|lia].
Qed.

Lemma table_concat ncols cs : table_columns conv sp sep q ncols = table_columns conv sp sep q ncols ->
  forall l, table_rows sep q l = concat (map (table_rows sep q) cs) ->
  table ncols l = concat_columns ncols (map (table ncols) cs).
Proof.
  intros _ l Hrow. unfold table_columns, concat_columns. apply map_ext_in. intros k Hk. apply in_seq in Hk.
  rewrite Hrow, concat_map, !map_map. f_equal. apply map_ext. intros c.
  set (F := fun k0 => map (fun row => row_cell conv sp q row k0) (table_rows sep q c)).
  change (map (fun k0 => map (fun row => row_cell conv sp q row k0) (table_rows sep q c)) (seq 0 ncols)) with (map F (seq 0 ncols)).
  rewrite (nth_indep _ [] (F 0)) by (rewrite map_length, seq_length; lia). rewrite map_nth, seq_nth by lia. reflexivity.
Qed.

Lemma map_option_map {A B} (f : A -> option B) (g : A -> B) l : (forall x, In x l -> f x = Some (g x)) ->
  map_option f l = Some (map g l).
Proof.
  induction l as [|x l IH]; intros H; [reflexivity|]. cbn. rewrite (H x (or_introl eq_refl)), IH; [reflexivity|].
  intros y Hy. apply H. right. exact Hy.
Qed.

Lemma slice_row_cut data he s e : he <= s -> s < e -> e <= length data ->
  inside_at false q (body he data) (s - he) = false -> inside_at false q (body he data) (e - he) = false ->
  nth_error data (e - 1) = Some LF -> row_cut q (slice s e data).
Proof.
  intros H1 H2 H3 Hs He Hn. right. split.
  - pose proof (inside_step' q (body he data) (s - he) (e - s)) as H. rewrite skipn_length in H.
    specialize (H ltac:(lia)). rewrite Hs in H. replace (s - he + (e - s)) with (e - he) in H by lia. rewrite He in H.
    rewrite skipn_skipn in H. replace (s - he + he) with s in H by lia. exact H.
  - exists (slice s (e - 1) data).
    rewrite <- (slice_app data s (e - 1) e) by lia. f_equal. unfold slice.
    rewrite (skipn_nth_cons _ _ _ Hn). replace (e - (e - 1)) with 1 by lia. reflexivity.
Qed.

Lemma read_chunks_list ne ncols data he chunk rs : 0 < ncols -> he <= length data ->
  chunk_ranges lanes clmul q data he chunk = Some rs ->
  (forall s e, In (s, e) rs -> e < length data -> inside_at false q (body he data) (e - he) = false) ->
  no_lone_cr (body he data) ->
  Forall (safe_row sep LF q) (table_rows sep q (body he data)) ->
  let cs := map (fun x => table ncols (slice (fst x) (snd x) data)) rs in
  read_chunks conv lanes clmul sep q nc ne ncols data rs =
    Some (mkRead cs (length (table_rows sep q (body he data))) (spec_row_count false q (body he data))) /\
    concat_columns ncols cs = table ncols (body he data) /\
    table_rows sep q (body he data) = concat (map (fun '(s, e) => table_rows sep q (slice s e data)) rs).
Proof.
  intros Hn Hhe Hr Hin Hcr HS cs.
  destruct (chunk_ranges_tiles lanes clmul q data he chunk Hl HqL HqC Hhe) as (rs' & Hr' & Ht).
  rewrite Hr in Hr'. injection Hr' as <-.
  assert (Hd : map_option (fun c => analyze_chunk_dual_state_simd lanes clmul c q) (pieces data rs) = Some (map (dual_of q) (pieces data rs)))
    by (apply map_option_dual; assumption).
  destruct (parallel_row_count lanes clmul q data he chunk rs _ Hl HqL HqC Hhe Hr Hd) as [Htot Hst].
  (* starts are outside quotes *)
  assert (Hstart : forall s e, In (s, e) rs -> inside_at false q (body he data) (s - he) = false).
  { assert (G : forall rs a, tiles a (length data) rs -> inside_at false q (body he data) (a - he) = false ->
       (forall s e, In (s, e) rs -> e < length data -> inside_at false q (body he data) (e - he) = false) ->
       forall s e, In (s, e) rs -> inside_at false q (body he data) (s - he) = false).
    { clear. induction rs as [|[s0 e0] rs IH]; intros a Ht Ha Hin s e HI; [destruct HI|].
      cbn [tiles] in Ht. destruct Ht as (-> & H1 & H2 & Ht). destruct HI as [HI|HI].
      - injection HI as <- <-. exact Ha.
      - destruct (Nat.eq_dec e0 (length data)) as [->|Hne].
        + destruct rs as [|[s1 e1] rs]; [destruct HI|]. cbn [tiles] in Ht. lia.
        + refine (IH e0 Ht _ _ s e HI); [apply (Hin a e0); [left; reflexivity|lia]|].
          intros s1 e1 H. apply (Hin s1 e1). right. exact H. }
    apply (G rs he Ht); [rewrite Nat.sub_diag; reflexivity|exact Hin]. }
  assert (Hcuts : forall s e, In (s, e) rs -> e < length data -> row_cut q (slice s e data)).
  { intros s e HI He. destruct (tiles_in he (length data) rs Ht s e HI) as (T1 & T2 & T3).
    apply (slice_row_cut data he); try assumption; [eapply Hstart; exact HI|eapply Hin; [exact HI|exact He]|].
    destruct (chunk_ranges_clean lanes clmul q data he chunk rs Hl HqL HqC Hr s e HI) as [Hc|[Hc1 Hc2]]; [lia|].
    unfold line_end_at in Hc2.
    assert (Hb : byte_is data (e - 1) LF = true).
    { destruct (byte_is data (e - 1) LF) eqn:E; [reflexivity|]. cbn [orb] in Hc2.
      apply andb_true_iff in Hc2. destruct Hc2 as [C1 C2].
      specialize (Hcr (e - 1 - he)). unfold byte_is in Hcr, C1, C2. rewrite !nth_error_skipn' in Hcr.
      replace (he + (e - 1 - he)) with (e - 1) in Hcr by lia. specialize (Hcr C1).
      replace (he + S (e - 1 - he)) with (S (e - 1)) in Hcr by lia. rewrite Hcr in C2. discriminate. }
    unfold byte_is in Hb. destruct (nth_error data (e - 1)) as [c|]; [|discriminate].
    apply N.eqb_eq in Hb. congruence. }
  pose proof (chunks_rows data rs he Ht Hcuts) as Hrows.
  assert (HSc : forall s e, In (s, e) rs -> Forall (safe_row sep LF q) (table_rows sep q (slice s e data))).
  { intros s e HI. rewrite Hrows in HS. rewrite Forall_concat in HS. rewrite Forall_forall in HS. apply HS.
    apply in_map_iff. exists (s, e). split; [reflexivity|exact HI]. }
  unfold read_chunks. fold (pieces data rs). rewrite Hd. rewrite Hst.
  assert (Hcomb : combine rs (map (fun '(s, _) => inside_at false q (body he data) (s - he)) rs) = map (fun r => (r, false)) rs).
  { clear -Hstart. assert (G : forall l : list (nat * nat), (forall s e, In (s, e) l -> inside_at false q (body he data) (s - he) = false) ->
      combine l (map (fun '(s, _) => inside_at false q (body he data) (s - he)) l) = map (fun r => (r, false)) l).
    { induction l as [|[s e] l IH]; intros H; [reflexivity|]. cbn [map combine]. rewrite (H s e (or_introl eq_refl)), IH; [reflexivity|].
      intros s0 e0 HI. apply (H s0 e0). right. exact HI. }
    apply G. exact Hstart. }
  rewrite Hcomb.
  rewrite (map_option_map _ (fun p => (table ncols (slice (fst (fst p)) (snd (fst p)) data), length (table_rows sep q (slice (fst (fst p)) (snd (fst p)) data))))).
  2:{ intros [[s e] st] HI. apply in_map_iff in HI. destruct HI as ([s0 e0] & E & HI). injection E as -> -> <-.
      cbn [fst snd]. apply parse_chunk_exact; [exact Hn|]. apply (HSc s e HI). }
  rewrite !map_map. cbn [fst snd]. unfold cs. split; [|split; [|exact Hrows]].
  - f_equal. f_equal; [|exact Htot]. rewrite Hrows.
    clear. assert (G : forall l a, fold_left Nat.add (map (fun x : nat * nat => length (table_rows sep q (slice (fst x) (snd x) data))) l) a =
      a + length (concat (map (fun '(s, e) => table_rows sep q (slice s e data)) l))).
    { induction l as [|[s e] l IH]; intros a; [cbn; lia|]. cbn [map fold_left concat fst snd]. rewrite IH, app_length. lia. }
    rewrite G. reflexivity.
  - symmetry. rewrite (table_concat ncols (map (fun x => slice (fst x) (snd x) data) rs) eq_refl (body he data)).
    + rewrite map_map. reflexivity.
    + rewrite Hrows, map_map. f_equal. apply map_ext. intros [s e]. reflexivity.
Qed.

Lemma read_chunks_exact ne ncols data he chunk rs : 0 < ncols -> he <= length data ->
  chunk_ranges lanes clmul q data he chunk = Some rs ->
  (forall s e, In (s, e) rs -> e < length data -> inside_at false q (body he data) (e - he) = false) ->
  no_lone_cr (body he data) ->
  Forall (safe_row sep LF q) (table_rows sep q (body he data)) ->
  exists cs, read_chunks conv lanes clmul sep q nc ne ncols data rs =
    Some (mkRead cs (length (table_rows sep q (body he data))) (spec_row_count false q (body he data))) /\
    concat_columns ncols cs = table ncols (body he data).
Proof.
  intros Hn Hhe Hr Hin Hcr HS.
  destruct (read_chunks_list ne ncols data he chunk rs Hn Hhe Hr Hin Hcr HS) as (A & B & _).
  eexists. split; [exact A|exact B].
Qed.
End Whole.
