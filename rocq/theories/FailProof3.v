(** Conversions whose writer thread throws. *)
From Verif Require Import Base WordsModel ChunkModel FieldsModel VarintSpec BuffersSpec BuffersModel BuffersReach TypesSpec ReaderModel ReaderSpec ReaderProof3 ReaderProof4 ReaderProps FieldsSpec TypesModel TypesProof3 ChunkSpec ChunkProof2 QueueSpec QueueModel PlainSpec ParquetSpec ParquetModel PipelineModel PipelineProof ParquetObs ParquetProof ParquetProof3 ParquetProof5 ConvertModel ConvertObs ConvertProof ConvertProof2 ConvertProof3 ConvertProof4 ConvertProof5 ConvertProof6 FailModel FailProof FailProof2.
Local Notation cells := (list (list (option cell))) (only parsing).

Section Whole.
Variable library : compression -> bytes -> option bytes.
Variable below : nat -> nat -> bool.
Variable options : parquet_options.
Variable decompress : Z -> bytes -> option bytes.
Hypothesis HL : undone library decompress (o_compression options).
Hypothesis HS : o_compression options = NONE \/ o_enable_dictionary options = false.

Lemma chunks_fit : forall names types aas (css : list cells), names <> [] -> length types = length names ->
  Forall2 (chunk_built types) aas css -> Forall (fun c => length c = length names) css -> Forall (Forall page_fits) css ->
  (~ In STRING types -> Forall page_fits (concat_columns (length names) css)) -> footer_fits (schema_of names types) (length css) ->
  exists gs : list group, row_groups (schema_of names types) aas = Some (map fst gs) /\ schema_of names types <> [] /\
    Forall (fun g : group => group_fits (schema_of names types) (fst g) (snd g)) gs /\ footer_fits (schema_of names types) (length gs).
Proof.
  intros names types aas css HN HT HF HW HP HB HFT. set (m := length names) in *. assert (Hm : 0 < m) by (unfold m; destruct names; [contradiction|cbn; lia]).
  assert (LS : length (schema_of names types) = m) by (apply schema_length; exact HT). assert (TS := schema_types names types HT).
  assert (NOSTR : has_strings (schema_of names types) = false -> ~ In STRING types).
  { intros H HI. rewrite strings_flag, TS in H. assert (X : existsb (fun t => match t with STRING => true | _ => false end) types = true) by (apply existsb_exists; exists STRING; auto). congruence. }
  destruct (row_groups_ok (schema_of names types) aas css) as (groups & parts & RG & CP & BG & J & LG); [rewrite TS; exact HF| |].
  { intros H. rewrite TS, LS. apply untyped_fits, HB, NOSTR, H. }
  rewrite TS, LS in *. rewrite (filter_all _ m Hm HW) in CP. pose proof (f2_len _ _ _ _ _ HF) as LA. rewrite LA in J, LG.
  assert (PF : forall part, In part parts -> Forall page_fits (concat_columns m part)).
  { intros part HI. unfold joined in J. destruct ((length css <=? 1) || existsb _ types) eqn:EX.
    - rewrite Forall_forall in J. specialize (J _ HI). destruct part as [|c [|c' part]]; try discriminate J. assert (HC : In c css) by (rewrite <- CP; apply in_concat; exists [c]; split; [exact HI|left; reflexivity]).
      rewrite Forall_forall in HW, HP. rewrite concat_part; [exact (HP _ HC)|exact (HW _ HC)|exact Hm].
    - apply orb_false_iff in EX. destruct EX as [_ EX]. eapply part_fits; [|exact HI]. rewrite CP. apply HB. intros HI2. assert (X : existsb (fun t => match t with STRING => true | _ => false end) types = true) by (apply existsb_exists; exists STRING; auto). congruence. }
  set (gs := combine groups (map (concat_columns m) parts)).
  assert (LP : length groups = length (map (concat_columns m) parts)) by (rewrite map_length; exact (f2_len _ _ _ _ _ BG)).
  assert (F1 : map fst gs = groups) by (unfold gs; clear - LP; revert LP; generalize (map (concat_columns m) parts); induction groups as [|g groups IH]; intros [|c l] L; cbn [length] in L; try lia; [reflexivity|]; cbn [combine map fst]; rewrite IH by lia; reflexivity).
  assert (GF : Forall (fun g : group => group_fits (schema_of names types) (fst g) (snd g)) gs).
  { unfold gs. clear - BG PF HT. induction BG as [|g part groups parts (n & B) _ IH]; [constructor|]. cbn [map combine]. constructor; [|apply IH; intros p Hp; apply PF; right; exact Hp].
    cbn [fst snd]. exists n. apply built_fits; [exact HT|exact B|apply PF; left; reflexivity]. }
  assert (SN : schema_of names types <> []) by (intros X; rewrite X in LS; cbn in LS; lia).
  assert (FF : footer_fits (schema_of names types) (length gs)) by (eapply footer_smaller; [|exact HFT]; rewrite <- (map_length fst), F1; exact LG).
  exists gs. rewrite F1. auto.
Qed.

(** The file of a complete run. *)
Lemma complete_file : forall schema (gs : list group) encoded, schema <> [] -> Forall (fun g : group => group_fits schema (fst g) (snd g)) gs -> footer_fits schema (length gs) ->
  encode_groups library below options schema (map fst gs) = Some encoded ->
  exists file, ps_closed (fst (do_close (written (opened schema) encoded))) = [file] /\
    ParquetSpec.read_file decompress file = Some (Table (map leaf_of schema) (map snd gs)).
Proof.
  intros schema gs encoded Hne HG HF HE. destruct (groups_encode library below options schema gs Hne HG) as (es & E1 & E2 & E3).
  rewrite (encoded_groups _ _ _ _ _ _ E1) in HE. assert (X : encoded = map zgroup es) by congruence. subst encoded.
  rewrite written_clean by (unfold clean; cbn; auto). change (ps_offset (opened schema)) with 4%Z.
  set (p := grown _ _ _ _). assert (CP : clean p) by apply clean_grown. rewrite (clean_self p CP). unfold p. eexists. split; [apply close_grown|].
  rewrite (file_with_read library below options decompress HL HS schema gs es [] 0 Hne HF E3 E2) by (change (2 ^ 31)%Z with 2147483648%Z; lia). reflexivity.
Qed.

Lemma broken_conversion : forall ff lanes clmul num_threads ne o data, 1 <= lanes -> Nat.divide lanes 64 -> quote o <> LF -> quote o <> CR -> data <> [] ->
  (forall w f, ff w = Some f -> (f < 2 ^ 64)%N) ->
  exists names types r, TypesModel.read_file ff lanes clmul num_threads ne o data = Some (names, types, r) /\
    let css := map cells_of_columns (chunks r) in
    (Forall (Forall page_fits) css -> (~ In STRING types -> Forall page_fits (concat_columns (length names) css)) -> footer_fits (schema_of names types) (length css) ->
     forall encoded, queue_input library below options ff lanes clmul num_threads ne o data = Some encoded ->
     exists groups, length groups = length encoded /\
       (forall trace s, run pipeline_capacity (pipeline encoded) trace s -> finished s ->
          exists c file, convert library below options trace ff lanes clmul num_threads ne o data true true None = Some c /\ cv_error c = None /\ ps_closed (cv_writer c) = [file] /\
            ParquetSpec.read_file decompress file = Some (Table (map leaf_of (schema_of names types)) groups)) /\
       (forall n at_ notices trace s, n < length encoded -> run pipeline_capacity (broken_pipeline n notices encoded) trace s -> flag_was_set n notices encoded trace -> finished s ->
          exists f left file, convert_failing library below options n at_ trace ff lanes clmul num_threads ne o data = Some (f, left) /\ f <> Success /\
            (n + 1 + pipeline_capacity < length encoded -> f = ProcessAborts) /\ ps_closed left = [file] /\
            match at_ with
            | InColumn _ => ParquetSpec.read_file decompress file = Some (Table (map leaf_of (schema_of names types)) (firstn n groups))
            | AtTheEnd => forall g, nth_error encoded n = Some g -> ParquetSpec.read_file decompress file = if (fst g =? 0)%Z then Some (Table (map leaf_of (schema_of names types)) (firstn n groups)) else None
            end)).
Proof.
  intros ff lanes clmul num_threads ne o data H1 H2 H3 H4 H5 HFF.
  destruct (open_types ff lanes clmul o data H1 H2 H3 H4 H5) as (names & E & HN).
  set (types := map _ _) in E. set (he := if has_header o then _ else 0) in E.
  assert (LT : length types = length names) by (unfold types; rewrite map_length, seq_length; reflexivity).
  assert (LH : he <= length data). { unfold he. destruct (has_header o); [|lia]. apply spec_find_row_end_bounds. destruct data; [contradiction|cbn; lia]. }
  assert (LN : 0 < length names) by (destruct names; [contradiction|cbn; lia]).
  set (conv := fun k => append_value ff lanes (nth k types STRING)).
  destruct (read_all_with_rect conv lanes clmul (separator o) (quote o) (null_values o) (conj H1 H2) H3 H4 (N.to_nat PARALLEL_THRESHOLD)
    (N.to_nat (calculate_chunk_size (N.of_nat (length data - he)) (N.of_nat (length names)) num_threads)) ne (length names) data he LN LH) as (r & ER & RC & _).
  change (read_all conv lanes clmul (separator o) (quote o) (make_null_checker (null_values o)) num_threads ne (length names) data he = Some r) in ER.
  exists names, types, r. split; [unfold TypesModel.read_file; rewrite E; fold conv; rewrite ER; reflexivity|]. intros css HP HB HFT encoded HQ.
  pose proof (read_converted conv _ _ _ _ _ _ _ _ _ _ _ _ ER) as CV.
  destruct (fill_all types (chunks r)) as (aas & EA & FA).
  { eapply Forall_impl; [|exact RC]. intros c [A B]. split; [congruence|exact B]. }
  { eapply Forall_impl; [|exact CV]. intros c Hc k x Hx. destruct (Hc k x Hx) as (v & Hv). exact (append_value_fits ff lanes _ v x HFF Hv). }
  { unfold css in HP. apply Forall_forall. intros c Hc. rewrite Forall_forall in HP. apply HP, in_map, Hc. }
  destruct (chunks_fit names types aas css HN LT FA) as (gs & RG & SN & GF & FF).
  { unfold css. apply Forall_map. eapply Forall_impl; [|exact RC]. intros c [A _]. unfold cells_of_columns. rewrite map_length. exact A. }
  { exact HP. } { exact HB. } { exact HFT. }
  assert (PI : pipeline_input library below options (schema_of names types) aas = Some encoded).
  { revert HQ. unfold queue_input. rewrite E. fold conv. rewrite ER, EA. intros HQ. exact HQ. }
  assert (EG : encode_groups library below options (schema_of names types) (map fst gs) = Some encoded /\ exists a b l, aas = a :: b :: l).
  { unfold pipeline_input in PI. destruct aas as [|a [|b l]]; try discriminate. rewrite RG in PI. split; [exact PI|eauto]. }
  destruct EG as [EG (ca & cb & cl & AAS)].
  exists (map snd gs). destruct (groups_encode library below options (schema_of names types) gs SN GF) as (es & E1 & E2 & E3).
  assert (EZ : encoded = map zgroup es) by (rewrite (encoded_groups _ _ _ _ _ _ E1) in EG; congruence).
  assert (LE : length (map snd gs) = length encoded) by (rewrite EZ, !map_length; symmetry; exact E3).
  split; [exact LE|]. split.
  - intros trace s HR HD. destruct (pipeline_result _ _ _ _ HR HD) as [_ D]. destruct (complete_file _ _ _ SN GF FF EG) as (file & C & RF).
    exists (Conversion None (reported_rows r) (length names) (fst (do_close (written (opened (schema_of names types)) encoded)))), file. split; [|split; [reflexivity|split; [exact C|exact RF]]].
    unfold convert. rewrite E. fold conv. rewrite ER. cbn [negb]. change (do_open writer_new true None) with (fst (do_open writer_new true None), true). cbv zeta. cbn [negb]. fold (opened (schema_of names types)). rewrite EA.
      rewrite AAS. unfold write_chunks. rewrite <- AAS. rewrite RG, EG, D. reflexivity.
  - intros n at_ notices trace s LNN HR HFL HD. destruct (broken_ends _ _ _ _ _ _ HR HFL HD) as (_ & B2 & B3). destruct (B2 LNN) as [B4 B5].
    assert (LNG : n < length gs) by (eapply Nat.lt_le_trans; [exact LNN|]; rewrite <- LE, map_length; apply le_n).
    destruct (broken_left library below options decompress HL HS (schema_of names types) gs n at_ SN GF FF LNG) as (enc & file & G1 & _ & G3 & G4).
    assert (enc = encoded) by congruence. subst enc.
    exists (fate_of n trace), (left_behind (opened (schema_of names types)) n at_ (firstn (S n) encoded)), file.
    split; [unfold convert_failing; rewrite E, HQ, B5; reflexivity|]. split; [exact B4|]. split; [exact B3|]. split; [exact G3|exact G4].
Qed.
End Whole.
