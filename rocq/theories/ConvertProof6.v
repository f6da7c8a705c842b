(** The whole conversion. *)
From Verif Require Import Base WordsModel ChunkModel FieldsModel VarintSpec BuffersSpec BuffersModel BuffersReach TypesSpec ReaderModel ReaderSpec ReaderProof3 ReaderProof4 ReaderProps FieldsSpec TypesModel TypesProof3 ChunkSpec ChunkProof2 QueueSpec QueueModel PlainSpec ParquetSpec ParquetModel PipelineModel PipelineProof ParquetObs ParquetProof ParquetProof3 ParquetProof5 ConvertModel ConvertObs ConvertProof ConvertProof2 ConvertProof3 ConvertProof4 ConvertProof5.
Local Notation cells := (list (list (option cell))) (only parsing).

Lemma f2_len : forall A B (R : A -> B -> Prop) a b, Forall2 R a b -> length a = length b.
Proof. intros A B R a b H. induction H as [|x y a b _ _ IH]; cbn [length]; congruence. Qed.
Lemma footer_smaller : forall schema a b, a <= b -> footer_fits schema b -> footer_fits schema a.
Proof. intros schema a b H. unfold footer_fits. intros F. nia. Qed.
Lemma filter_all : forall (l : list cells) m, 0 < m -> Forall (fun c => length c = m) l -> filter has_columns l = l.
Proof.
  intros l m Hm H. induction H as [|c l Hc _ IH]; [reflexivity|]. cbn [filter]. destruct c; [cbn in Hc; lia|]. cbn [has_columns]. rewrite IH. reflexivity.
Qed.

Section Whole.
Variable library : compression -> bytes -> option bytes.
Variable below : nat -> nat -> bool.
Variable options : parquet_options.
Variable decompress : Z -> bytes -> option bytes.
Hypothesis HL : undone library decompress (o_compression options).
Hypothesis HS : o_compression options = NONE \/ o_enable_dictionary options = false.

(** Chunks with at least one column each. *)
Lemma chunks_to_file : forall trace names types aas (css : list cells), names <> [] -> length types = length names ->
  Forall2 (chunk_built types) aas css -> Forall (fun c => length c = length names) css -> Forall (Forall page_fits) css ->
  (~ In STRING types -> Forall page_fits (concat_columns (length names) css)) -> footer_fits (schema_of names types) (length css) ->
  (forall encoded, pipeline_input library below options (schema_of names types) aas = Some encoded -> exists s, run pipeline_capacity (pipeline encoded) trace s /\ finished s) ->
  exists p parts file, write_chunks library below options trace (opened (schema_of names types)) (schema_of names types) aas = Some p /\
    ps_closed (fst (do_close p)) = [file] /\
    read_file decompress file = Some (Table (map leaf_of (schema_of names types)) (map (concat_columns (length names)) parts)) /\
    concat parts = css /\ joined types (length css) parts.
Proof.
  intros trace names types aas css HN HT HF HW HP HB HFT HTr. set (m := length names) in *. assert (Hm : 0 < m) by (unfold m; destruct names; [contradiction|cbn; lia]).
  assert (LS : length (schema_of names types) = m) by (apply schema_length; exact HT). assert (TS := schema_types names types HT).
  assert (NOSTR : has_strings (schema_of names types) = false -> ~ In STRING types).
  { intros H HI. rewrite strings_flag, TS in H. assert (X : existsb (fun t => match t with STRING => true | _ => false end) types = true) by (apply existsb_exists; exists STRING; auto). congruence. }
  destruct (row_groups_ok (schema_of names types) aas css) as (groups & parts & RG & CP & BG & J & LG); [rewrite TS; exact HF| |].
  { intros H. rewrite TS, LS. apply untyped_fits, HB, NOSTR, H. }
  rewrite TS, LS in *. rewrite (filter_all _ m Hm HW) in CP. pose proof (f2_len _ _ _ _ _ HF) as LA. rewrite LA in J, LG.
  assert (PF : forall part, In part parts -> Forall page_fits (concat_columns m part)).
  { intros part HI. unfold joined in J. destruct ((length css <=? 1) || existsb _ types) eqn:EX.
    - rewrite Forall_forall in J. specialize (J _ HI). destruct part as [|c [|c' part]]; try discriminate J. assert (HC : In c css) by (rewrite <- CP; apply in_concat; exists [c]; split; [exact HI|left; reflexivity]).
      rewrite Forall_forall in HW, HP. rewrite concat_part; [exact (HP _ HC)|exact (HW _ HC)|exact Hm].
    - apply orb_false_iff in EX. destruct EX as [_ EX]. eapply part_fits; [|exact HI]. rewrite CP. apply HB. intros HI2. assert (X : existsb (fun t => match t with STRING => true | _ => false end) types = true) by (apply existsb_exists; exists STRING; auto). congruence. }
  set (gs := combine groups (map (concat_columns m) parts)).
  assert (LP : length groups = length (map (concat_columns m) parts)) by (rewrite map_length; exact (f2_len _ _ _ _ _ BG)).
  assert (F1 : map fst gs = groups) by (unfold gs; clear - LP; revert LP; generalize (map (concat_columns m) parts); induction groups as [|g groups IH]; intros [|c l] L; cbn [length] in L; try lia; [reflexivity|]; cbn [combine map fst]; rewrite IH by lia; reflexivity).
  assert (F2 : map snd gs = map (concat_columns m) parts) by (unfold gs; clear - LP; revert LP; generalize (map (concat_columns m) parts); induction groups as [|g groups IH]; intros [|c l] L; cbn [length] in L; try lia; [reflexivity|]; cbn [combine map snd]; rewrite IH by lia; reflexivity).
  assert (GF : Forall (fun g : group => group_fits (schema_of names types) (fst g) (snd g)) gs).
  { unfold gs. clear - BG PF HT. induction BG as [|g part groups parts (n & B) _ IH]; [constructor|]. cbn [map combine]. constructor; [|apply IH; intros p Hp; apply PF; right; exact Hp].
    cbn [fst snd]. exists n. apply built_fits; [exact HT|exact B|apply PF; left; reflexivity]. }
  assert (SN : schema_of names types <> []) by (intros X; rewrite X in LS; cbn in LS; lia).
  assert (FF : footer_fits (schema_of names types) (length gs)) by (eapply footer_smaller; [|exact HFT]; rewrite <- (map_length fst), F1; exact LG).
  destruct (file_round_trip library below options decompress (schema_of names types) gs [] [] HL HS SN (Forall_nil _) (Forall_nil _) GF FF) as (p & oks1 & oks2 & file & R & L1 & C & RF).
  destruct (groups_encode library below options (schema_of names types) gs SN GF) as (es & ES & _). rewrite F1 in *. rewrite F2 in RF.
  destruct (chunks_written library below options trace (schema_of names types) aas groups es RG ES HTr) as (p' & W & PR).
  exists p', parts, file. split; [exact W|]. split; [|split; [exact RF|split; [exact CP|exact J]]].
  cbn [app] in R. rewrite app_nil_r in R. unfold session in R.
  assert (R0 : prun library below options writer_new [POpen true None; PSetSchema (schema_of names types)] = Some (opened (schema_of names types), [true; true])) by reflexivity.
  rewrite (prun_cat library below options _ (map PWrite groups ++ [PClose]) _ _ _ R0) in R.
  rewrite (prun_cat library below options _ [PClose] _ _ _ PR) in R. cbn [prun pstep] in R. destruct (do_close p') as [p2 ok] eqn:EC. cbn [fst]. apply some_inj in R. injection R as R _. subst p2. exact C.
Qed.

Lemma whole_conversion : forall ff lanes clmul num_threads ne o data, 1 <= lanes -> Nat.divide lanes 64 -> quote o <> LF -> quote o <> CR -> data <> [] ->
  (forall w f, ff w = Some f -> (f < 2 ^ 64)%N) ->
  exists names types header_end r, open_file ff lanes clmul o data = Some (names, types, header_end) /\
    read_all (fun k => append_value ff lanes (nth k types STRING)) lanes clmul (separator o) (quote o) (make_null_checker (null_values o)) num_threads ne (length names) data header_end = Some r /\
    header_end <= length data /\ names <> [] /\ length types = length names /\
    let css := map cells_of_columns (chunks r) in
    (Forall (Forall page_fits) css -> (~ In STRING types -> Forall page_fits (concat_columns (length names) css)) -> footer_fits (schema_of names types) (length css) ->
     forall trace, (forall encoded, queue_input library below options ff lanes clmul num_threads ne o data = Some encoded -> exists s, run pipeline_capacity (pipeline encoded) trace s /\ finished s) ->
     exists c parts file, convert library below options trace ff lanes clmul num_threads ne o data true true None = Some c /\
       cv_error c = None /\ cv_rows c = reported_rows r /\ cv_cols c = length names /\ ps_closed (cv_writer c) = [file] /\
       read_file decompress file = Some (Table (map leaf_of (schema_of names types)) (map (concat_columns (length names)) parts)) /\
       concat parts = css /\ joined types (length css) parts).
Proof.
  intros ff lanes clmul num_threads ne o data H1 H2 H3 H4 H5 HFF.
  destruct (open_types ff lanes clmul o data H1 H2 H3 H4 H5) as (names & E & HN).
  set (types := map _ _) in E. set (he := if has_header o then _ else 0) in E.
  assert (LT : length types = length names) by (unfold types; rewrite map_length, seq_length; reflexivity).
  assert (LH : he <= length data). { unfold he. destruct (has_header o); [|lia]. apply spec_find_row_end_bounds. destruct data; [contradiction|cbn; lia]. }
  assert (LN : 0 < length names) by (destruct names; [contradiction|cbn; lia]).
  set (conv := fun k => append_value ff lanes (nth k types STRING)).
  destruct (read_all_with_rect conv lanes clmul (separator o) (quote o) (null_values o) (conj H1 H2) H3 H4 (N.to_nat PARALLEL_THRESHOLD)
    (N.to_nat (calculate_chunk_size (N.of_nat (length data - he)) (N.of_nat (length names)) num_threads)) ne (length names) data he LN LH) as (r & ER & RC & _).
  change (read_all conv lanes clmul (separator o) (quote o) (make_null_checker (null_values o)) num_threads ne (length names) data he = Some r) in ER.
  exists names, types, he, r. split; [exact E|]. split; [exact ER|]. split; [exact LH|]. split; [exact HN|]. split; [exact LT|]. intros css HP HB HFT trace HTr.
  pose proof (read_converted conv _ _ _ _ _ _ _ _ _ _ _ _ ER) as CV.
  destruct (fill_all types (chunks r)) as (aas & EA & FA).
  { eapply Forall_impl; [|exact RC]. intros c [A B]. split; [congruence|exact B]. }
  { eapply Forall_impl; [|exact CV]. intros c Hc k x Hx. destruct (Hc k x Hx) as (v & Hv). exact (append_value_fits ff lanes _ v x HFF Hv). }
  { unfold css in HP. apply Forall_forall. intros c Hc. rewrite Forall_forall in HP. apply HP, in_map, Hc. }
  destruct (chunks_to_file trace names types aas css HN LT FA) as (p & parts & file & W & C & RF & CP & J).
  { unfold css. apply Forall_map. eapply Forall_impl; [|exact RC]. intros c [A _]. unfold cells_of_columns. rewrite map_length. exact A. }
  { exact HP. } { exact HB. } { exact HFT. }
  { intros encoded HE. apply HTr. unfold queue_input. rewrite E. fold conv. rewrite ER, EA. exact HE. }
  eexists _, parts, file. split.
  - unfold convert. rewrite E. fold conv. rewrite ER. cbn [negb]. change (do_open writer_new true None) with (fst (do_open writer_new true None), true). cbv zeta. cbn [negb]. fold (opened (schema_of names types)). rewrite EA, W. reflexivity.
  - cbn [cv_error cv_rows cv_cols cv_writer]. split; [reflexivity|]. split; [reflexivity|]. split; [reflexivity|]. split; [exact C|]. split; [exact RF|]. split; [exact CP|exact J].
Qed.
End Whole.

(** ** Schedules and failures *)
Lemma schedules_agree : forall library below options ff lanes clmul num_threads ne o data go_on os_accepts capacity trace1 trace2,
  (forall trace, In trace [trace1; trace2] -> forall encoded, queue_input library below options ff lanes clmul num_threads ne o data = Some encoded ->
     exists s, run pipeline_capacity (pipeline encoded) trace s /\ finished s) ->
  convert library below options trace1 ff lanes clmul num_threads ne o data go_on os_accepts capacity =
  convert library below options trace2 ff lanes clmul num_threads ne o data go_on os_accepts capacity.
Proof.
  intros library below options ff lanes clmul nt ne o data go_on osa capacity t1 t2 H. unfold convert, queue_input in *. destruct (open_file ff lanes clmul o data) as [[[names types] he]|]; [|reflexivity].
  destruct (read_all _ _ _ _ _ _ _ _ _ _ _) as [r|]; [|reflexivity]. destruct (negb go_on); [reflexivity|]. destruct (do_open writer_new osa capacity) as [p opened]. destruct (negb opened); [reflexivity|]. cbv zeta.
  destruct (all_or_none _) as [cs|]; [|reflexivity]. set (schema := schema_of names types) in *.
  assert (E : forall p, write_chunks library below options t1 p schema cs = write_chunks library below options t2 p schema cs).
  { intros q. destruct cs as [|c1 [|c2 cs]]; [reflexivity|reflexivity|]. unfold write_chunks, pipeline_input in *. destruct (row_groups schema (c1 :: c2 :: cs)) as [groups|]; [|reflexivity].
    destruct (encode_groups library below options schema groups) as [encoded|]; [|reflexivity].
    destruct (H t1 (or_introl eq_refl) encoded eq_refl) as (s1 & R1 & F1). destruct (H t2 (or_intror (or_introl eq_refl)) encoded eq_refl) as (s2 & R2 & F2).
    destruct (pipeline_result _ _ _ _ R1 F1) as [_ D1]. destruct (pipeline_result _ _ _ _ R2 F2) as [_ D2]. rewrite D1, D2. reflexivity. }
  rewrite E. reflexivity.
Qed.
Lemma failures : forall library below options trace ff lanes clmul num_threads ne o data go_on os_accepts capacity c,
  convert library below options trace ff lanes clmul num_threads ne o data go_on os_accepts capacity = Some c ->
  (data = [] -> cv_error c = Some InputFailed) /\
  (go_on = false -> cv_error c <> None) /\ (os_accepts = false -> cv_error c <> None) /\
  (cv_error c <> None -> ps_closed (cv_writer c) = [] /\ ps_open (cv_writer c) = false).
Proof.
  intros library below options trace ff lanes clmul nt ne o data go_on osa capacity c H. unfold convert in H. destruct (open_file ff lanes clmul o data) as [[[names types] he]|] eqn:EO.
  - destruct (read_all _ _ _ _ _ _ _ _ _ _ _) as [r|]; [|discriminate]. assert (DN : data <> []) by (intros ->; discriminate EO).
    destruct go_on; cbn [negb] in H.
    + unfold do_open in H. change (ps_open writer_new) with false in H. destruct osa; cbv iota zeta in H; cbn [negb] in H.
      * destruct (all_or_none _) as [cs|]; [|discriminate]. destruct (write_chunks _ _ _ _ _ _ _) as [p|]; [|discriminate]. injection H as <-. cbn [cv_error]. repeat split; try discriminate; try contradiction; intros X; congruence.
      * injection H as <-. cbn [cv_error cv_writer]. repeat split; try discriminate. intros X; congruence.
    + injection H as <-. cbn [cv_error cv_writer]. repeat split; try discriminate. intros X; congruence.
  - injection H as <-. cbn [cv_error cv_writer]. repeat split; discriminate.
Qed.

Section TextToFile.
Variable library : compression -> bytes -> option bytes.
Variable below : nat -> nat -> bool.
Variable options : parquet_options.
Variable decompress : Z -> bytes -> option bytes.
Hypothesis HL : undone library decompress (o_compression options).
Hypothesis HS : o_compression options = NONE \/ o_enable_dictionary options = false.
Lemma cells_concat : forall m (cs : list (list (list (option (@value N))))), concat_columns m (map cells_of_columns cs) = cells_of_columns (concat_columns m cs).
Proof.
  intros m cs. unfold concat_columns, cells_of_columns at 2. rewrite map_map. apply map_ext. intros k. rewrite concat_map, !map_map. f_equal. apply map_ext. intros c. unfold cells_of_columns. change (@nil (option cell)) with (map (option_map cell_of) []). apply map_nth.
Qed.
Lemma chunk_page_fits : forall m (css : list cells), Forall (fun c => length c = m) css -> 0 < m -> Forall page_fits (concat_columns m css) -> Forall (Forall page_fits) css.
Proof.
  intros m css HW Hm HP. apply Forall_forall. intros c Hc. rewrite Forall_forall in HW. assert (P := part_fits m (map (fun c => [c]) css)).
  replace (concat (map (fun c => [c]) css)) with css in P by (clear; induction css as [|x l IH]; [reflexivity|cbn [map concat app]; rewrite <- IH; reflexivity]).
  specialize (P HP [c] (in_map _ _ _ Hc)). rewrite concat_part in P; [exact P|exact (HW _ Hc)|exact Hm].
Qed.
Lemma text_to_file : forall ff lanes clmul num_threads ne o data names types header_end,
  1 <= lanes -> Nat.divide lanes 64 -> quote o <> LF -> quote o <> CR -> quote o <> separator o -> quote o <> 0%N -> data <> [] ->
  (forall w f, ff w = Some f -> (f < 2 ^ 64)%N) ->
  open_file ff lanes clmul o data = Some (names, types, header_end) ->
  let body := skipn header_end data in
  (forall i, line_end_at body i = true -> inside_at false (quote o) body i = false) -> no_lone_cr body ->
  Forall (safe_row (separator o) LF (quote o)) (table_rows (separator o) (quote o) body) ->
  let table := cells_of_columns (table_columns (fun k => append_value ff lanes (nth k types STRING)) (null_values o) (separator o) (quote o) (length names) body) in
  Forall page_fits table ->
  exists r, TypesModel.read_file ff lanes clmul num_threads ne o data = Some (names, types, r) /\
   (footer_fits (schema_of names types) (length (chunks r)) ->
    forall trace, (forall encoded, queue_input library below options ff lanes clmul num_threads ne o data = Some encoded ->
                     exists s, run pipeline_capacity (pipeline encoded) trace s /\ finished s) ->
    exists c groups file, convert library below options trace ff lanes clmul num_threads ne o data true true None = Some c /\
      cv_error c = None /\ ps_closed (cv_writer c) = [file] /\
      ParquetSpec.read_file decompress file = Some (Table (map leaf_of (schema_of names types)) groups) /\
      concat_columns (length names) groups = table).
Proof.
  intros ff lanes clmul nt ne o data names types he H1 H2 H3 H4 H6 H7 H5 HF HO body B1 B2 B3 table HP.
  destruct (whole_conversion library below options decompress HL HS ff lanes clmul nt ne o data H1 H2 H3 H4 H5 HF) as (names' & types' & he' & r & E & R & LE & HN & LT & W).
  rewrite HO in E. injection E as <- <- <-. assert (Hm : 0 < length names) by (destruct names; [contradiction|cbn; lia]).
  exists r. split; [unfold TypesModel.read_file; rewrite HO, R; reflexivity|]. intros FT trace T.
  destruct (C09_read_all_is_the_table_partial _ (fun k => append_value ff lanes (nth k types STRING)) lanes clmul (separator o) (quote o) (null_values o) nt ne (length names) data he H1 H2 H3 H4 H6 H7 Hm LE B1 B2 B3) as (r' & R' & _ & CT).
  rewrite R in R'. injection R' as <-.
  destruct (read_all_with_rect (fun k => append_value ff lanes (nth k types STRING)) lanes clmul (separator o) (quote o) (null_values o) (conj H1 H2) H3 H4 (N.to_nat PARALLEL_THRESHOLD)
    (N.to_nat (calculate_chunk_size (N.of_nat (length data - he)) (N.of_nat (length names)) nt)) ne (length names) data he Hm LE) as (r' & ER & RC & _).
  assert (r' = r). { apply some_inj. rewrite <- R. symmetry. exact ER. } subst r'.
  assert (TC : concat_columns (length names) (map cells_of_columns (chunks r)) = table) by (rewrite cells_concat, CT; reflexivity).
  assert (HW : Forall (fun c => length c = length names) (map cells_of_columns (chunks r))). { apply Forall_map. eapply Forall_impl; [|exact RC]. intros c [A _]. unfold cells_of_columns. rewrite map_length. exact A. }
  destruct (W) with (trace := trace) as (c & parts & file & X1 & X2 & _ & _ & X5 & X6 & X7 & _).
  - apply (chunk_page_fits (length names)); [exact HW|exact Hm|rewrite TC; exact HP].
  - intros _. rewrite TC. exact HP.
  - rewrite map_length. exact FT.
  - exact T.
  - exists c, (map (concat_columns (length names)) parts), file. split; [exact X1|]. split; [exact X2|]. split; [exact X5|]. split; [exact X6|]. rewrite concat_nested, X7. exact TC.
Qed.
End TextToFile.
