(** Dates, timestamps, sampling, opening and reading with explicit reads. *)
From Verif Require Import Base TypesSpec WordsModel WordsProof ChunkSpec ChunkModel ChunkProof ChunkProof2 FieldsModel NumModel DateModel ReaderModel TypesModel
  RawModel RawProof RawProof2 RawProof3 RawModel2.

Lemma rd_at v i : i < length v -> rd v i = Some (at_ v i).
Proof. intros H. unfold rd, at_. apply nth_error_nth'. exact H. Qed.
Lemma at_skipn k v i : at_ (skipn k v) i = at_ v (k + i).
Proof. unfold at_. revert v; induction k as [|k IH]; intros [|x v]; try reflexivity; [destruct i; reflexivity|]. cbn [skipn Nat.add nth]. apply IH. Qed.
Lemma digits_skipn k v : forall n i acc, digits_at (skipn k v) i n acc = digits_at v (k + i) n acc.
Proof. induction n as [|n IH]; intros i acc; [reflexivity|]. cbn [digits_at]. rewrite at_skipn, IH. replace (k + S i) with (S (k + i)) by lia. reflexivity. Qed.
Lemma raw_digits_at_eq v : forall n i acc, i + n <= length v -> raw_digits_at v i n acc = Some (digits_at v i n acc).
Proof.
  induction n as [|n IH]; intros i acc H; [reflexivity|]. cbn [raw_digits_at digits_at]. rewrite rd_at by lia. cbv zeta.
  destruct (_ || _); [reflexivity|]. replace (i + 1) with (S i) by lia. apply IH. lia.
Qed.
Lemma raw_parse_date_eq v : raw_parse_date v = Some (parse_date v).
Proof.
  unfold raw_parse_date, parse_date. destruct (Nat.eqb_spec (length v) 10) as [H|H]; cbn [negb]; [|reflexivity]. cbv zeta.
  rewrite !rd_at, !raw_digits_at_eq by lia. destruct (negb _ && negb _); [reflexivity|]. destruct (negb _); [reflexivity|].
  destruct (digits_at v 0 4 0); [|reflexivity]. destruct (digits_at v 5 2 0); [|reflexivity]. destruct (digits_at v 8 2 0); reflexivity.
Qed.
Lemma raw_digit_eq v i : i < length v -> raw_digit v i = Some (digit_char (at_ v i)).
Proof. intros H. unfold raw_digit. rewrite rd_at by exact H. reflexivity. Qed.
Lemma also_some a b : also a (Some b) = Some (a && b).
Proof. destruct a; reflexivity. Qed.

Lemma raw_parse_timezone_eq v s : s < length v -> raw_parse_timezone v s = Some (parse_timezone (skipn s v)).
Proof.
  intros Hs. unfold raw_parse_timezone. replace (length v <=? s) with false by lia.
  destruct (pos v s) as [E1 _|first E1 E2 E3]; [apply Nat.ltb_ge in E1; lia|]. rewrite E2, E3. cbn [parse_timezone].
  destruct (N.eqb first 90); [reflexivity|]. destruct (negb _ && negb _); [reflexivity|]. cbv zeta. rewrite skipn_length.
  replace (length v - (s + 1) <? 2) with (length v <? s + 1 + 2) by lia.
  destruct (Nat.ltb_spec (length v) (s + 1 + 2)) as [H2|H2]; [reflexivity|]. rewrite raw_digits_at_eq by lia.
  rewrite digits_skipn, Nat.add_0_r. destruct (digits_at v (s + 1) 2 0) as [tz_hour|]; [|reflexivity].
  rewrite skipn_add.
  match goal with |- (let? minute := ?A in _) = Some (match ?B with Some _ => _ | None => _ end) => assert (EM : A = Some B) end.
  { destruct (pos v (s + 1 + 2)) as [F1 F2|c F1 F2 F3].
    - rewrite F1, F2. reflexivity.
    - rewrite F1, F2, F3. apply Nat.ltb_lt in F1.
      set (p := if N.eqb c 58 then s + 1 + 2 + 1 else s + 1 + 2).
      assert (ER : (if N.eqb c 58 then skipn (s + 1 + 2 + 1) v else c :: skipn (s + 1 + 2 + 1) v) = skipn p v)
        by (unfold p; destruct (N.eqb c 58); [reflexivity|symmetry; exact F3]).
      rewrite ER. rewrite !at_skipn, skipn_length. replace (p + 0) with p by lia.
      replace (2 <=? length v - p) with (p + 2 <=? length v) by lia. replace (1 <=? length v - p) with (p <? length v) by lia.
      clearbody p. clear ER.
      destruct (Nat.leb_spec (p + 2) (length v)) as [G|G]; cbn [also andb].
      + rewrite !raw_digit_eq, !rd_at by lia. rewrite also_some. replace (p <? length v) with true by lia. cbn [andb also].
        destruct (digit_char (at_ v p)), (digit_char (at_ v (p + 1))); reflexivity.
      + destruct (Nat.ltb_spec p (length v)) as [G'|G']; cbn [also andb]; [|reflexivity].
        rewrite raw_digit_eq by lia. destruct (digit_char _); reflexivity. }
  rewrite EM. match goal with |- match ?B with _ => _ end = _ => destruct B end; reflexivity.
Qed.
Lemma raw_zone_eq v : forall f i, length v - i <= f -> i <= length v -> raw_zone f v i = Some (i + find_zone (skipn i v)).
Proof.
  induction f as [|f IH]; intros i Hf Hi; cbn [raw_zone]; destruct (pos v i) as [E1 E2|c E1 E2 E3]; rewrite E1.
  - rewrite E2. cbn [find_zone]. f_equal. apply Nat.ltb_ge in E1. lia.
  - apply Nat.ltb_lt in E1. lia.
  - rewrite E2. cbn [find_zone]. f_equal. apply Nat.ltb_ge in E1. lia.
  - rewrite E2, E3. cbn [find_zone]. destruct (_ || _); [f_equal; lia|]. apply Nat.ltb_lt in E1. rewrite IH by lia. f_equal. lia.
Qed.
Lemma find_zone_len l : find_zone l <= length l.
Proof. induction l as [|c r IH]; cbn [find_zone length]; [lia|]. destruct (_ || _); lia. Qed.
Lemma raw_fraction_eq v e : e <= length v -> forall w frac i, raw_fraction w frac v e i = Some (fraction w frac (firstn (e - i) (skipn i v))).
Proof.
  intros He. induction w as [|w IH]; intros frac i; [reflexivity|]. cbn [raw_fraction fraction]. destruct (Nat.ltb_spec i e) as [H|H].
  - destruct (pos v i) as [E1 _|c _ E2 E3]; [apply Nat.ltb_ge in E1; lia|]. rewrite E2, E3. destruct (e - i) as [|k] eqn:EK; [lia|]. cbn [firstn].
    destruct (digit_char c); [|reflexivity]. rewrite IH. replace (e - (i + 1)) with k by lia. reflexivity.
  - replace (e - i) with 0 by lia. reflexivity.
Qed.
Lemma raw_parse_timestamp_eq v : raw_parse_timestamp v = Some (parse_timestamp v).
Proof.
  unfold raw_parse_timestamp, parse_timestamp. destruct (Nat.ltb_spec (length v) 19) as [H|H]; [reflexivity|].
  unfold view, load. replace (0 + 10 <=? length v) with true by lia. change (skipn 0 v) with v. rewrite raw_parse_date_eq.
  destruct (parse_date (firstn 10 v)) as [days|]; [|reflexivity]. rewrite !rd_at, !raw_digits_at_eq by lia.
  destruct (negb _ && negb _); [reflexivity|].
  assert (EB : (if negb (N.eqb (at_ v 13) 58) then Some true else Some (negb (N.eqb (at_ v 16) 58))) =
               Some (negb (N.eqb (at_ v 13) 58) || negb (N.eqb (at_ v 16) 58))) by (destruct (negb (N.eqb (at_ v 13) 58)); reflexivity).
  rewrite EB. destruct (negb _ || negb _); [reflexivity|].
  destruct (digits_at v 11 2 0) as [hour|]; [|reflexivity]. destruct (digits_at v 14 2 0) as [minute|]; [|reflexivity].
  destruct (digits_at v 17 2 0) as [second|]; [|reflexivity]. destruct (_ || _); [reflexivity|]. cbv zeta.
  set (total := fun micros tz => (days * 24 * 60 * 60 * 1000000 + hour * 60 * 60 * 1000000 + minute * 60 * 1000000 + second * 1000000 + micros - tz * 60 * 1000000)%Z).
  assert (ZONE : forall p, p <= length v ->
    (if p <? length v then raw_parse_timezone v p else Some (Some 0%Z)) = Some (match skipn p v with [] => Some 0%Z | _ :: _ => parse_timezone (skipn p v) end)).
  { intros p Hp. destruct (pos v p) as [E1 E2|c E1 E2 E3]; rewrite E1; [rewrite E2; reflexivity|].
    rewrite E3, <- E3. apply Nat.ltb_lt in E1. apply raw_parse_timezone_eq. exact E1. }
  destruct (pos v 19) as [E1 E2|c E1 E2 E3]; rewrite E1; cbn [also].
  - rewrite E2. rewrite E1. reflexivity.
  - rewrite E2, E3. apply Nat.ltb_lt in E1. destruct (N.eqb c 46).
    + rewrite raw_zone_eq by lia. change (19 + 1) with 20.
      pose proof (find_zone_len (skipn 20 v)) as HZ. rewrite skipn_length in HZ.
      rewrite raw_fraction_eq by lia. replace (20 + find_zone (skipn 20 v) - 20) with (find_zone (skipn 20 v)) by lia.
      destruct (fraction 6 0 _) as [micros|]; cbn [option_map]; [|reflexivity]. rewrite ZONE by lia. rewrite skipn_add.
      destruct (match skipn _ v with [] => Some 0%Z | _ :: _ => _ end) as [tz|]; reflexivity.
    + rewrite ZONE by lia. rewrite E3. destruct (parse_timezone _) as [tz|]; reflexivity.
Qed.

Lemma raw_all_digits_eq v l : (forall i, In i l -> i < length v) -> raw_all_digits v l = Some (forallb (fun i => digit_char (at_ v i)) l).
Proof.
  induction l as [|i l IH]; intros H; [reflexivity|]. cbn [raw_all_digits forallb]. rewrite raw_digit_eq by (apply H; left; reflexivity).
  rewrite IH by (intros j Hj; apply H; right; exact Hj). apply also_some.
Qed.
Lemma raw_looks_date_eq v : raw_looks_date v = Some (looks_date v).
Proof.
  unfold raw_looks_date, looks_date, raw_date_separators. destruct (Nat.eqb_spec (length v) 10) as [H|H]; [|reflexivity].
  rewrite raw_all_digits_eq by (intros i Hi; cbn in Hi; lia). rewrite !rd_at by lia. rewrite also_some. rewrite also_some. cbn [andb]. reflexivity.
Qed.
Lemma raw_looks_timestamp_eq v : raw_looks_timestamp v = Some (looks_timestamp v).
Proof.
  unfold raw_looks_timestamp, looks_timestamp, raw_date_separators. destruct (Nat.leb_spec 19 (length v)) as [H|H]; [|reflexivity].
  rewrite raw_all_digits_eq by (intros i Hi; cbn in Hi; lia). rewrite !rd_at by lia. rewrite !also_some. cbn [andb]. rewrite !andb_assoc. reflexivity.
Qed.

Section Inference.
Context {F : Type}.
Variable ff : bytes -> option F.
Lemma raw_infer_field_eq o v : raw_infer_field ff o v = Some (infer_field ff o v).
Proof.
  unfold raw_infer_field, infer_field. destruct v as [|c v]; [reflexivity|]. set (w := c :: v). clearbody w.
  destruct (in_list _ w); [reflexivity|]. destruct (in_list _ w); [reflexivity|]. destruct (in_list _ w); [reflexivity|].
  destruct (looks_integer w); [reflexivity|]. destruct (ff w); [reflexivity|]. rewrite raw_looks_date_eq, raw_looks_timestamp_eq.
  destruct (looks_date w); [reflexivity|]. destruct (looks_timestamp w); reflexivity.
Qed.
Lemma raw_update_types_eq o : forall types fields, raw_update_types ff o types fields = Some (update_types ff o types fields).
Proof.
  induction types as [|t ts IH]; intros [|f fs]; try reflexivity. cbn [raw_update_types update_types]. rewrite raw_infer_field_eq, IH. reflexivity.
Qed.
Lemma sample_step sep q c r inq cur fs : sample_loop sep q (c :: r) inq cur fs =
  if is_nl c then fs ++ [drop_while_end is_blank cur]
  else if N.eqb c q then
    if inq && next_is q r then sample_loop sep q (tl r) inq (cur ++ [q]) fs else sample_loop sep q r (negb inq) cur fs
  else if N.eqb c sep && negb inq then sample_loop sep q r inq [] (fs ++ [drop_while_end is_blank cur])
  else if (length cur =? 0) && negb inq && is_blank c then sample_loop sep q r inq cur fs
  else sample_loop sep q r inq (cur ++ [c]) fs.
Proof. cbn [sample_loop]. destruct (is_nl c); [reflexivity|]. destruct (N.eqb c q); [|reflexivity]. destruct inq, r; reflexivity. Qed.
Lemma raw_sample_loop_eq sep q d e : e <= length d -> forall f i inq cur fs, e - i <= f ->
  raw_sample_loop f sep q d e i inq cur fs = Some (sample_loop sep q (skipn i (firstn e d)) inq cur fs).
Proof.
  intros He. assert (HW : length (firstn e d) = e) by (rewrite firstn_length; lia).
  assert (HR : forall i, i < e -> rd d i = rd (firstn e d) i) by (intros i Hi; unfold rd; rewrite nth_error_firstn_lt by exact Hi; reflexivity).
  assert (HP : forall b i c, also b (peek d e i c) = Some (b && next_is c (skipn i (firstn e d)))).
  { intros b i c. rewrite <- also_peek, HW. unfold peek. destruct (Nat.ltb_spec i e) as [H|H]; [rewrite HR by exact H|]; reflexivity. }
  induction f as [|f IH]; intros i inq cur fs Hf; cbn [raw_sample_loop].
  - replace (i <? e) with false by lia. rewrite skipn_all2 by lia. reflexivity.
  - destruct (Nat.ltb_spec i e) as [H|H]; [|rewrite skipn_all2 by lia; reflexivity]. rewrite HR by exact H.
    destruct (pos (firstn e d) i) as [E1 _|c _ E2 E3]; [apply Nat.ltb_ge in E1; lia|]. rewrite E2, E3, sample_step, HP. replace (i + 1 + 1) with (i + 2) by lia.
    destruct (is_nl c); [reflexivity|]. destruct (N.eqb c q).
    + destruct (inq && next_is q _); [rewrite <- skipn_2|]; apply IH; lia.
    + destruct (N.eqb c sep && negb inq); [apply IH; lia|]. destruct (_ && is_blank c); apply IH; lia.
Qed.

Variables (lanes : nat) (clmul : bool) (o : csv_options).
Hypothesis HL : lanes_ok lanes.
Lemma lanes_1 : 1 <= lanes.
Proof. exact (proj1 HL). Qed.
Lemma slice_skip {A} a b (l : list A) : skipn a (firstn b l) = slice a b l.
Proof. unfold slice. rewrite skipn_firstn_comm. reflexivity. Qed.

Lemma raw_sample_rows_eq d : forall f off left types,
  raw_sample_rows ff f lanes clmul o d (length d) off left types = sample_rows_loop ff f (find_row_end lanes clmul (quote o) d) o d off left types.
Proof.
  induction f as [|f IH]; intros off left types; cbn [raw_sample_rows sample_rows_loop]; [reflexivity|].
  destruct (_ || _); [reflexivity|]. rewrite (raw_row_end_eq lanes lanes_1).
  destruct (row_end_total lanes clmul (quote o) HL d off) as (e & -> & He). destruct (e - off =? 0); [apply IH|].
  rewrite raw_sample_loop_eq by lia. rewrite raw_update_types_eq, slice_skip. apply IH.
Qed.
Lemma sample_rows_total d : forall f off left types, length d - off < f -> 
  exists r, sample_rows_loop ff f (find_row_end lanes clmul (quote o) d) o d off left types = Some r.
Proof.
  induction f as [|f IH]; intros off left types Hf; [lia|]. cbn [sample_rows_loop].
  destruct (Nat.leb_spec (length d) off) as [H|H]; cbn [orb]; [eexists; reflexivity|]. destruct (left =? 0); [eexists; reflexivity|].
  destruct (row_end_bounds lanes clmul (quote o) HL d off H) as (e & -> & He). replace (e - off =? 0) with false by lia. apply IH. lia.
Qed.
Lemma raw_infer_same d n mr : exists types, infer_from_sample ff lanes clmul o d n mr = Some types /\
  raw_infer ff lanes clmul o d (length d) n mr = Some types.
Proof.
  unfold raw_infer, infer_from_sample. cbv zeta. destruct (_ || _); [eexists; split; reflexivity|]. rewrite (raw_row_end_eq lanes lanes_1).
  assert (E : exists off, (if has_header o then find_row_end lanes clmul (quote o) d 0 else Some 0) = Some off).
  { destruct (has_header o); [|eexists; reflexivity]. destruct (row_end_total lanes clmul (quote o) HL d 0) as (e & A & _). exists e. exact A. }
  destruct E as (off & ->). rewrite raw_sample_rows_eq.
  destruct (sample_rows_total d (S (length d)) off mr (repeat UNKNOWN n) ltac:(lia)) as (r & ->). eexists; split; reflexivity.
Qed.
Lemma raw_open_same d : raw_open ff lanes clmul o d (length d) = Some (open_file ff lanes clmul o d) /\
  (d <> [] -> exists names types he, open_file ff lanes clmul o d = Some (names, types, he) /\ he <= length d).
Proof.
  unfold raw_open, open_file. destruct d as [|x d0]; [split; [reflexivity|congruence]|]. set (d := x :: d0) in *.
  change (length d =? 0) with false. cbv iota. rewrite (raw_row_end_eq lanes lanes_1).
  destruct (row_end_total lanes clmul (quote o) HL d 0) as (e & -> & He). cbv zeta.
  assert (EL : load d 0 e = Some (slice 0 e d)) by (unfold load, slice; replace (0 + e <=? length d) with true by lia; rewrite Nat.sub_0_r; reflexivity).
  assert (EE : length (slice 0 e d) = e) by (unfold slice; rewrite Nat.sub_0_r, firstn_length; cbn [skipn]; lia).
  assert (EC : slice 0 e d = firstn e d) by (unfold slice; rewrite Nat.sub_0_r; reflexivity).
  match goal with |- (let? names := ?A in _) = _ /\ _ => assert (EN : A = Some (if has_header o then parse_header (separator o) (quote o) (slice 0 e d)
                       else map (fun i => 86%N :: decimal_digits (S i) (S i)) (seq 0 (count_columns (separator o) (quote o) (slice 0 e d) false 1)))) end.
  { destruct (has_header o).
    - rewrite EL. rewrite <- EE at 2. apply raw_parse_header_eq.
    - rewrite raw_count_columns_eq by lia. cbn [skipn]. rewrite EC. reflexivity. }
  rewrite EN. set (names := if has_header o then parse_header _ _ _ else _). clearbody names. clear EN.
  set (he := if has_header o then e else 0). assert (Hhe : he <= length d) by (unfold he; destruct (has_header o); lia). clearbody he.
  assert (ES : load d he (length d - he) = Some (skipn he d)).
  { unfold load. replace (he + (length d - he) <=? length d) with true by lia. rewrite firstn_all2 by (rewrite skipn_length; lia). reflexivity. }
  rewrite ES. rewrite <- (skipn_length he d).
  destruct (raw_infer_same (skipn he d) (length names) (sample_rows o)) as (types & -> & ->). split; [reflexivity|].
  intros _. exists names, types, he. split; [reflexivity|exact Hhe].
Qed.
Lemma raw_read_file_same num_threads ne d :
  raw_read_file ff lanes clmul num_threads ne o d (length d) = Some (read_file ff lanes clmul num_threads ne o d) /\
  (d <> [] -> exists r, read_file ff lanes clmul num_threads ne o d = Some r).
Proof.
  unfold raw_read_file, read_file. destruct (raw_open_same d) as [-> HO]. destruct d as [|x d0]; [split; [reflexivity|congruence]|]. set (d := x :: d0) in *.
  destruct (HO ltac:(discriminate)) as (names & types & he & -> & Hhe). unfold raw_read_all, read_all.
  set (thr := N.to_nat PARALLEL_THRESHOLD). clearbody thr. set (ch := N.to_nat (calculate_chunk_size _ _ _)). clearbody ch.
  set (cv := fun k => append_value ff lanes (nth k types STRING)).
  destruct (read_total lanes clmul (quote o) HL cv (separator o) (null_values o) thr ch ne (length names) d he Hhe) as (r & HR). rewrite HR.
  rewrite (raw_read_all_same cv lanes clmul (separator o) (quote o) (make_null_checker (null_values o)) lanes_1 thr ch ne (length names) d he r Hhe).
  - split; [reflexivity|]. intros _. eexists. reflexivity.
  - intros rs E. destruct (ranges_total lanes clmul (quote o) HL d he ch Hhe) as (rs' & E' & T). rewrite E in E'. injection E' as ->. exact T.
  - exact HR.
Qed.
End Inference.
