(** Reader: read_all, positive results and counterexamples. *)
From Verif Require Import Base WordsModel WordsProof ChunkSpec ChunkModel ChunkProof ChunkProof2 ChunkProof3
  FieldsSpec FieldsModel FieldsProof FieldsProof2 FieldsProof3 FieldsProof4 FieldsProof5
  ReaderSpec ReaderModel ReaderProof ReaderProof2 ReaderProof3.

Section All.
Context {V : Type}.
Variable conv : nat -> bytes -> option V.
Variables (lanes : nat) (clmul : bool) (sep q : byte) (sp : bytes).
Hypothesis Hl : lanes_ok lanes.
Hypothesis HqL : q <> LF.
Hypothesis HqC : q <> CR.
Notation nc := (make_null_checker sp).

Lemma rect_concat ncols : forall cs ns, Forall2 (fun n cols => rect (V := V) n ncols cols) ns cs ->
  Forall (fun col => length col = fold_left Nat.add ns 0) (concat_columns ncols cs).
Proof.
  intros cs ns HF. apply Forall_forall. intros col Hc. unfold concat_columns in Hc.
  apply in_map_iff in Hc. destruct Hc as (k & <- & Hk). apply in_seq in Hk.
  assert (G : forall a, length (concat (map (fun cols => nth k cols []) cs)) + a = fold_left Nat.add ns a).
  { induction HF as [|n cols ns cs H HF IH]; intros a; [reflexivity|].
    cbn [map concat fold_left]. rewrite app_length, <- IH. destruct H as [H1 H2].
    assert (length (nth k cols []) = n) by (rewrite Forall_forall in H2; apply H2, nth_In; lia). lia. }
  specialize (G 0). lia.
Qed.

Lemma read_all_with_rect thr ch ne ncols data he : 0 < ncols -> he <= length data ->
  exists r, read_all_with conv lanes clmul sep q nc thr ch ne ncols data he = Some r /\
    Forall (fun cols => length cols = ncols /\ exists n, Forall (fun c => length c = n) cols) (chunks r) /\
    Forall (fun col => length col = total_rows r) (concat_columns ncols (chunks r)).
Proof.
  intros Hn Hhe. unfold read_all_with. destruct (Nat.eqb_spec ncols 0); [lia|].
  assert (Hser : exists r, read_all_serial conv lanes clmul sep q nc ne ncols data he = Some r /\
    Forall (fun cols => length cols = ncols /\ exists n, Forall (fun c => length c = n) cols) (chunks r) /\
    Forall (fun col => length col = total_rows r) (concat_columns ncols (chunks r))).
  { destruct (read_serial_rect conv lanes clmul sep q sp Hl ne ncols data he Hn) as (cols & n0 & H1 & H2).
    eexists. split; [exact H1|]. cbn [chunks total_rows]. split.
    - constructor; [|constructor]. split; [apply H2|]. exists n0. apply H2.
    - apply (rect_concat ncols [cols] [n0]). constructor; [exact H2|constructor]. }
  destruct (length data - he <? thr); [exact Hser|].
  destruct (chunk_ranges_tiles lanes clmul q data he ch Hl HqL HqC Hhe) as (rs & -> & _).
  destruct (length rs <=? 1); [exact Hser|].
  destruct (read_chunks_rect conv lanes clmul sep q sp Hl HqL HqC ne ncols data rs Hn) as (r & ns & H1 & H2 & H3 & _).
  exists r. split; [exact H1|]. split.
  - clear -H2. induction H2 as [|n cols ns cs H H2 IH]; constructor; [|exact IH].
    split; [apply H|]. exists n. apply H.
  - rewrite H3. apply rect_concat. exact H2.
Qed.

Hypothesis Hqs : q <> sep.
Hypothesis Hq0 : q <> 0%N.

Lemma concat_one ncols (t : list (list (option V))) : length t = ncols -> concat_columns ncols [t] = t.
Proof.
  intros <-. unfold concat_columns. cbn [map concat].
  rewrite (map_ext _ (fun k => nth k t [])) by (intros; apply app_nil_r).
  clear. induction t as [|c t IH]; [reflexivity|]. cbn [length seq map nth]. f_equal.
  rewrite <- seq_shift, map_map. exact IH.
Qed.

Lemma table_length ncols l : length (table_columns conv sp sep q ncols l) = ncols.
Proof. unfold table_columns. rewrite map_length, seq_length. reflexivity. Qed.

Lemma read_all_with_exact thr ch ne ncols data he : 0 < ncols -> he <= length data ->
  (forall rs s e, chunk_ranges lanes clmul q data he ch = Some rs -> In (s, e) rs -> e < length data ->
     inside_at false q (skipn he data) (e - he) = false) ->
  no_lone_cr (skipn he data) ->
  Forall (safe_row sep LF q) (table_rows sep q (skipn he data)) ->
  exists r, read_all_with conv lanes clmul sep q nc thr ch ne ncols data he = Some r /\
    total_rows r = length (table_rows sep q (skipn he data)) /\
    concat_columns ncols (chunks r) = table_columns conv sp sep q ncols (skipn he data).
Proof.
  intros Hn Hhe Hb Hcr HS. unfold read_all_with. destruct (Nat.eqb_spec ncols 0); [lia|].
  rewrite (read_serial_exact conv lanes clmul sep q sp Hl HqL HqC Hqs Hq0) by assumption.
  assert (Hser : forall a b, exists r, Some (mkRead [table_columns conv sp sep q ncols (skipn he data)] a b) = Some r /\
     total_rows r = a /\ concat_columns ncols (chunks r) = table_columns conv sp sep q ncols (skipn he data)).
  { intros a b. eexists. split; [reflexivity|]. split; [reflexivity|]. apply concat_one, table_length. }
  destruct (length data - he <? thr); [apply Hser|].
  destruct (chunk_ranges_tiles lanes clmul q data he ch Hl HqL HqC Hhe) as (rs & Hr & _). rewrite Hr.
  destruct (length rs <=? 1); [apply Hser|].
  destruct (read_chunks_exact conv lanes clmul sep q sp Hl HqL HqC Hqs Hq0 ne ncols data he ch rs Hn Hhe Hr) as (cs & H1 & H2); try assumption.
  { intros s e. apply Hb. exact Hr. }
  rewrite H1. eexists. split; [reflexivity|]. split; [reflexivity|exact H2].
Qed.

(** No line break inside quotes: no boundary condition is needed. *)
Lemma cuts_outside ch data he : he <= length data ->
  (forall i, line_end_at (skipn he data) i = true -> inside_at false q (skipn he data) i = false) ->
  forall rs s e, chunk_ranges lanes clmul q data he ch = Some rs -> In (s, e) rs -> e < length data ->
     inside_at false q (skipn he data) (e - he) = false.
Proof.
  intros Hhe H rs s e Hr Hin He.
  destruct (chunk_ranges_tiles lanes clmul q data he ch Hl HqL HqC Hhe) as (rs' & Hr' & Ht).
  rewrite Hr in Hr'. injection Hr' as <-.
  destruct (tiles_in he (length data) rs Ht s e Hin) as (T1 & T2 & T3).
  destruct (chunk_ranges_clean lanes clmul q data he ch rs Hl HqL HqC Hr s e Hin) as [C|[C1 C2]]; [lia|].
  assert (Hi : inside_at false q (skipn he data) (e - 1 - he) = false).
  { apply H. rewrite line_end_at_skipn. replace (he + (e - 1 - he)) with (e - 1) by lia. exact C2. }
  pose proof (inside_step' q (skipn he data) (e - 1 - he) 1) as Hs. rewrite skipn_length in Hs.
  specialize (Hs ltac:(lia)). rewrite Hi in Hs. replace (e - 1 - he + 1) with (e - he) in Hs by lia.
  rewrite <- Hs. rewrite skipn_skipn. replace (e - 1 - he + he) with (e - 1) by lia.
  unfold line_end_at, byte_is in C2.
  destruct (nth_error data (e - 1)) as [c|] eqn:Ec; [|discriminate].
  rewrite (skipn_nth_cons _ _ _ Ec). cbn [firstn].
  assert (N.eqb c q = false).
  { apply N.eqb_neq. intros ->. apply orb_true_iff in C2. destruct C2 as [C2|C2].
    - apply N.eqb_eq in C2. congruence.
    - apply andb_true_iff in C2. destruct C2 as [C2 _]. apply N.eqb_eq in C2. congruence. }
  rewrite endst_spec. cbn [count_occ]. destruct (N.eq_dec c q) as [->|]; [rewrite N.eqb_refl in H0; discriminate|]. reflexivity.
Qed.
End All.

(** ** Counterexamples *)
Lemma row_ends_LF l : exists r, row_ends false DQ (LF :: l) = 0 :: r.
Proof. unfold row_ends. cbn [length seq filter]. eexists. reflexivity. Qed.

Lemma find_at_LF data c l : skipn c data = LF :: l -> spec_find_row_end DQ data c = c + 1.
Proof. intros H. unfold spec_find_row_end. rewrite H. destruct (row_ends_LF l) as [r ->]. reflexivity. Qed.

Lemma first_range lanes clmul data c l rs : lanes_ok lanes -> skipn c data = LF :: l -> c + 1 < length data ->
  chunk_ranges lanes clmul DQ data 0 c = Some rs -> exists rs', rs = (0, c + 1) :: rs' /\ rs' <> [].
Proof.
  intros Hl Hs Hc Hr.
  assert (HL : DQ <> LF) by discriminate. assert (HC : DQ <> CR) by discriminate.
  pose proof (fre_ok_find_row_end lanes clmul DQ data Hl HL HC) as Hok.
  unfold chunk_ranges in Hr. destruct (length data) as [|n] eqn:En; [lia|]. cbn [chunk_ranges_loop] in Hr.
  change (0 <? S n) with true in Hr. cbv iota in Hr.
  destruct (chunk_end_ok _ c (S n) 0 Hok ltac:(lia)) as [He _]. rewrite He in Hr.
  replace (0 + c <? S n) with true in Hr by lia. rewrite find_row_end_spec in Hr by assumption.
  cbn [Nat.add] in Hr. rewrite (find_at_LF data c l Hs) in Hr.
  destruct (chunk_ranges_loop n _ c (S n) (c + 1)) as [r|] eqn:Er; [|discriminate]. injection Hr as <-.
  exists r. split; [reflexivity|]. intros ->.
  destruct n as [|n]; [lia|]. cbn [chunk_ranges_loop] in Er. replace (c + 1 <? S (S n)) with true in Er by lia.
  destruct (chunk_end _ c (S (S n)) (c + 1)); [|discriminate].
  destruct (chunk_ranges_loop n _ _ _ _); discriminate.
Qed.

Definition long_quoted (n : nat) : bytes := DQ :: repeat LF n ++ [DQ; LF].
Definition keep (_ : nat) (t : bytes) : option bytes := Some t.

Lemma rr_lfs k rest : raw_row (N.eqb LF) COMMA DQ true (repeat LF k ++ rest) =
  (fun p => ((match fst p with f :: fs => (repeat LF k ++ f) :: fs | [] => [repeat LF k] end), snd p)) (raw_row (N.eqb LF) COMMA DQ true rest).
Proof.
  induction k as [|k IH].
  - cbn [repeat app]. destruct (raw_row (N.eqb LF) COMMA DQ true rest) as [[|f fs] r] eqn:E; [|reflexivity].
    exfalso. revert E. clear. generalize true.
    induction rest as [|c rest IH]; intros b E; [discriminate|]. cbn [raw_row] in E.
    destruct (N.eqb c DQ); [destruct (raw_row (N.eqb LF) COMMA DQ (negb b) rest) as [[|]]; discriminate|].
    destruct b; [destruct (raw_row (N.eqb LF) COMMA DQ true rest) as [[|]]; discriminate|].
    destruct (N.eqb LF c); [discriminate|]. destruct (N.eqb c COMMA); [destruct (raw_row (N.eqb LF) COMMA DQ false rest) as [[|]]; discriminate|].
    destruct (raw_row (N.eqb LF) COMMA DQ false rest) as [[|]]; discriminate.
  - cbn [repeat app raw_row]. change (N.eqb LF DQ) with false. cbv iota. rewrite IH.
    destruct (raw_row (N.eqb LF) COMMA DQ true rest) as [[|f fs] r]; reflexivity.
Qed.

Lemma rows_first k : table_rows COMMA DQ (DQ :: repeat LF k) = [[DQ :: repeat LF k]].
Proof.
  rewrite (table_rows_step keep 0 COMMA DQ ltac:(discriminate) ltac:(discriminate) ltac:(discriminate) (DQ :: repeat LF k) DQ (repeat LF k)); [|reflexivity].
  cbn [raw_row]. change (N.eqb DQ DQ) with true. cbv iota. cbn [negb].
  rewrite <- (app_nil_r (repeat LF k)) at 1 2. rewrite rr_lfs. cbn [raw_row fst snd cons_first app]. rewrite app_nil_r. reflexivity.
Qed.

Lemma rows_whole k : table_rows COMMA DQ (long_quoted k) = [[DQ :: repeat LF k ++ [DQ]]].
Proof.
  unfold long_quoted.
  rewrite (table_rows_step keep 0 COMMA DQ ltac:(discriminate) ltac:(discriminate) ltac:(discriminate) (DQ :: repeat LF k ++ [DQ; LF]) DQ (repeat LF k ++ [DQ; LF])); [|reflexivity].
  cbn [raw_row]. change (N.eqb DQ DQ) with true. cbv iota. cbn [negb].
  rewrite rr_lfs. cbn [raw_row]. change (N.eqb DQ DQ) with true. cbv iota. cbn [negb].
  change (N.eqb LF DQ) with false. change (N.eqb LF LF) with true. cbv iota.
  cbn [fst snd cons_first app]. reflexivity.
Qed.

Lemma undouble_lfs k v : undouble DQ false (repeat LF k ++ v) = repeat LF k ++ undouble DQ false v.
Proof. induction k as [|k IH]; [reflexivity|]. cbn [repeat app undouble]. change (N.eqb LF DQ) with false. cbv iota. rewrite IH. reflexivity. Qed.

Lemma rev_lfs k : rev (repeat LF k) = repeat LF k.
Proof.
  induction k as [|k IH]; [reflexivity|]. cbn [repeat rev]. rewrite IH.
  clear. induction k as [|k IH]; [reflexivity|]. cbn [repeat app]. rewrite IH. reflexivity.
Qed.

Lemma cell_first k : 0 < k -> field_text [] DQ (DQ :: repeat LF k) = Some (DQ :: repeat LF k).
Proof.
  intros Hk. unfold field_text.
  assert (Hc : without_cr (DQ :: repeat LF k) = DQ :: repeat LF k).
  { unfold without_cr. cbn [rev]. rewrite rev_lfs. destruct k as [|k]; [lia|]. cbn [repeat app]. reflexivity. }
  rewrite Hc. unfold denotes_null. cbn [comma_pieces existsb].
  destruct (list_eq_dec N.eq_dec [] (DQ :: repeat LF k)) as [E|_]; [discriminate|]. cbv iota. cbn [orb].
  cbn [starts_with]. change (N.eqb DQ DQ) with true. cbv iota.
  f_equal. unfold dequoted. cbn [rev]. rewrite rev_lfs. destruct k as [|k]; [lia|].
  cbn [repeat app starts_with]. change (N.eqb LF DQ) with false. rewrite andb_false_r.
  change (DQ :: LF :: repeat LF k) with ([DQ] ++ repeat LF (S k)).
  cbn [app undouble]. change (N.eqb DQ DQ) with true. cbv iota. f_equal.
  cbn [repeat undouble]. change (N.eqb LF DQ) with false. cbv iota. f_equal.
  rewrite <- (app_nil_r (repeat LF k)) at 1. rewrite undouble_lfs. cbn [undouble]. apply app_nil_r.
Qed.

Lemma cell_whole k : field_text [] DQ (DQ :: repeat LF k ++ [DQ]) = Some (repeat LF k).
Proof.
  unfold field_text.
  assert (Hc : without_cr (DQ :: repeat LF k ++ [DQ]) = DQ :: repeat LF k ++ [DQ]).
  { unfold without_cr. cbn [rev]. rewrite rev_app_distr. reflexivity. }
  rewrite Hc. unfold denotes_null. cbn [comma_pieces existsb].
  destruct (list_eq_dec N.eq_dec [] (DQ :: repeat LF k ++ [DQ])) as [E|_]; [discriminate|]. cbv iota. cbn [orb].
  cbn [starts_with]. change (N.eqb DQ DQ) with true. cbv iota. f_equal.
  unfold dequoted. cbn [rev length]. rewrite rev_app_distr, app_length. cbn [rev app length].
  replace (2 <=? S (length (repeat LF k) + 1)) with true by lia. cbn [starts_with andb]. change (N.eqb DQ DQ) with true. cbn [andb]. cbv iota.
  cbn [tl]. replace (S (length (repeat LF k) + 1) - 2) with (length (repeat LF k)) by lia.
  rewrite firstn_app, firstn_all, Nat.sub_diag. cbn [firstn].
  rewrite undouble_lfs. cbn. apply app_nil_r.
Qed.

Lemma table_first k : 0 < k -> table_columns keep [] COMMA DQ 1 (DQ :: repeat LF k) = [[Some (DQ :: repeat LF k)]].
Proof. intros Hk. unfold table_columns. rewrite rows_first. cbn [seq map]. unfold row_cell. cbn [nth_error]. rewrite cell_first by assumption. reflexivity. Qed.
Lemma table_whole k : table_columns keep [] COMMA DQ 1 (long_quoted k) = [[Some (repeat LF k)]].
Proof. unfold table_columns. rewrite rows_whole. cbn [seq map]. unfold row_cell. cbn [nth_error]. rewrite cell_whole. reflexivity. Qed.

Lemma safe_quoted f : starts_with DQ f = true -> safe_row COMMA LF DQ [f].
Proof.
  intros H pre g post E Hg. destruct pre as [|x pre]; [injection E as <- <-; congruence|].
  injection E as _ E. destruct pre; discriminate.
Qed.

Lemma long_skip n c : 1 <= c -> c < n -> exists l, skipn c (long_quoted n) = LF :: l.
Proof.
  intros H1 H2. destruct c as [|c]; [lia|]. unfold long_quoted. cbn [skipn].
  rewrite skipn_app, repeat_length. replace (c - n) with 0 by lia.
  replace n with (c + S (n - c - 1)) by lia. rewrite repeat_app, skipn_app, repeat_length, Nat.sub_diag.
  rewrite (skipn_all2 (repeat LF c)) by (rewrite repeat_length; lia). cbn [skipn repeat app]. eexists. reflexivity.
Qed.

Lemma long_slice n c : 1 <= c -> c < n -> slice 0 (c + 1) (long_quoted n) = DQ :: repeat LF c.
Proof.
  intros H1 H2. unfold slice. cbn [skipn]. rewrite Nat.sub_0_r, Nat.add_1_r. unfold long_quoted. cbn [firstn]. f_equal.
  rewrite firstn_app, repeat_length. replace (c - n) with 0 by lia. cbn [firstn]. rewrite app_nil_r.
  replace n with (c + (n - c)) by lia. rewrite repeat_app, firstn_app, repeat_length, Nat.sub_diag. cbn [firstn].
  rewrite app_nil_r. apply firstn_all2. rewrite repeat_length. lia.
Qed.

Lemma long_length n : length (long_quoted n) = n + 3.
Proof. unfold long_quoted. cbn [length]. rewrite app_length, repeat_length. cbn. lia. Qed.

Lemma long_split lanes clmul ne thr n c : lanes_ok lanes -> 1 <= c -> c < n -> thr <= n + 3 ->
  exists rest rows rep,
    read_all_with keep lanes clmul COMMA DQ (make_null_checker []) thr c ne 1 (long_quoted n) 0 =
    Some (mkRead ([[Some (DQ :: repeat LF c)]] :: rest) rows rep).
Proof.
  intros Hl H1 H2 Ht. assert (HL : DQ <> LF) by discriminate. assert (HC : DQ <> CR) by discriminate.
  unfold read_all_with. cbn [Nat.eqb]. rewrite long_length. replace (n + 3 - 0 <? thr) with false by lia.
  destruct (chunk_ranges_tiles lanes clmul DQ (long_quoted n) 0 c Hl HL HC ltac:(lia)) as (rs & Hr & _). rewrite Hr.
  destruct (long_skip n c H1 H2) as [l Hs].
  destruct (first_range lanes clmul (long_quoted n) c l rs Hl Hs) as (rs' & -> & Hne); [rewrite long_length; lia|exact Hr|].
  assert (Hle : (length ((0, c + 1) :: rs') <=? 1) = false) by (destruct rs'; [congruence|reflexivity]). rewrite Hle. clear Hle.
  unfold read_chunks. rewrite map_option_dual by assumption. cbn [map]. cbn [link_states].
  set (ss := link_states _ _). clearbody ss. cbn [combine map_option].
  cbn [fst snd]. rewrite long_slice by assumption.
  rewrite (parse_chunk_exact keep lanes clmul COMMA DQ [] Hl HL HC); [|discriminate|discriminate|lia|].
  2:{ rewrite rows_first. constructor; [|constructor]. apply safe_quoted. reflexivity. }
  rewrite table_first by lia.
  destruct (map_option_total (fun '(r, st) => parse_chunk keep lanes clmul COMMA DQ (make_null_checker []) ne (slice (fst r) (snd r) (long_quoted n)) (empty_columns 1) st)
     (fun _ _ => True) (combine (rs') ss)) as (ys & Hy & _).
  { intros [r st] _. destruct (parse_chunk_rect keep lanes clmul COMMA DQ [] Hl ne (slice (fst r) (snd r) (long_quoted n)) 1 st ltac:(lia)) as (cols & m & G & _).
    exists (cols, m). split; [exact G|exact I]. }
  rewrite Hy. cbn [map fst]. do 3 eexists. reflexivity.
Qed.

Lemma long_serial lanes clmul ne n : lanes_ok lanes ->
  read_all_serial keep lanes clmul COMMA DQ (make_null_checker []) ne 1 (long_quoted n) 0 =
  Some (mkRead [[[Some (repeat LF n)]]] 1 1).
Proof.
  intros Hl. rewrite (read_serial_exact keep lanes clmul COMMA DQ [] Hl); [|discriminate|discriminate|discriminate|discriminate|lia|].
  - cbn [skipn]. rewrite table_whole, rows_whole. reflexivity.
  - cbn [skipn]. rewrite rows_whole. constructor; [|constructor]. apply safe_quoted. reflexivity.
Qed.

(** Only blank lines. *)
Lemma lfs_rows n : table_rows COMMA DQ (repeat LF n) = [].
Proof. apply table_rows_blank. induction n as [|n IH]; [reflexivity|]. cbn [repeat trim_left]. change (newline LF) with true. cbv iota. exact IH. Qed.

Lemma lfs_outside n i : inside_at false DQ (repeat LF n) i = false.
Proof. apply no_quotes_outside. intros H. apply repeat_spec in H. discriminate. Qed.

Lemma lfs_count n : spec_row_count false DQ (repeat LF n) = n.
Proof.
  unfold spec_row_count, row_ends. rewrite repeat_length.
  transitivity (length (seq 0 n)); [|apply seq_length]. f_equal.
  assert (G : forall l, (forall i, In i l -> i < n) -> filter (fun i => line_end_at (repeat LF n) i && negb (inside_at false DQ (repeat LF n) i)) l = l).
  { induction l as [|i l IH]; intros H; [reflexivity|]. cbn [filter]. rewrite lfs_outside.
    assert (Hi : line_end_at (repeat LF n) i = true).
    { unfold line_end_at, byte_is. rewrite (nth_error_repeat LF) by (apply H; left; reflexivity). reflexivity. }
    rewrite Hi. cbn [negb andb]. f_equal. apply IH. intros j Hj. apply H. right. exact Hj. }
  apply G. intros i Hi. apply in_seq in Hi. lia.
Qed.

Lemma lfs_split lanes clmul ne thr n c : lanes_ok lanes -> c + 1 < n -> thr <= n ->
  exists cs, read_all_with keep lanes clmul COMMA DQ (make_null_checker []) thr c ne 1 (repeat LF n) 0 =
    Some (mkRead cs 0 n).
Proof.
  intros Hl H2 Ht. assert (HL : DQ <> LF) by discriminate. assert (HC : DQ <> CR) by discriminate.
  unfold read_all_with. cbn [Nat.eqb]. rewrite repeat_length. replace (n - 0 <? thr) with false by lia.
  destruct (chunk_ranges_tiles lanes clmul DQ (repeat LF n) 0 c Hl HL HC ltac:(lia)) as (rs & Hr & _). rewrite Hr.
  destruct (first_range lanes clmul (repeat LF n) c (repeat LF (n - c - 1)) rs Hl) as (rs' & -> & Hne); [|rewrite repeat_length; lia|exact Hr|].
  { replace n with (c + S (n - c - 1)) at 1 by lia. rewrite repeat_app, skipn_app, repeat_length, Nat.sub_diag.
    rewrite (skipn_all2 (repeat LF c)) by (rewrite repeat_length; lia). reflexivity. }
  destruct rs' as [|r1 rs']; [congruence|]. cbn [length Nat.leb].
  destruct (read_chunks_exact keep lanes clmul COMMA DQ [] Hl HL HC ltac:(discriminate) ltac:(discriminate) ne 1 (repeat LF n) 0 c _ ltac:(lia) ltac:(lia) Hr) as (cs & H & _).
  - intros s e _ _. apply lfs_outside.
  - intros i Hi. cbn [skipn] in Hi. unfold byte_is in Hi. destruct (nth_error (repeat LF n) i) as [x|] eqn:E; [|discriminate].
    apply nth_error_In, repeat_spec in E. subst. discriminate.
  - cbn [skipn]. rewrite lfs_rows. constructor.
  - cbn [skipn] in H. rewrite lfs_rows, lfs_count in H. exists cs. exact H.
Qed.
