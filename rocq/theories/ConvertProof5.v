(** From the text to the file. *)
From Verif Require Import Base WordsModel ChunkModel FieldsModel VarintSpec BuffersSpec BuffersModel BuffersReach TypesSpec ReaderModel ReaderSpec ReaderProof3 ReaderProof4 TypesModel TypesProof3 ChunkSpec ChunkProof2 QueueSpec QueueModel PlainSpec ParquetSpec ParquetModel PipelineModel PipelineProof ParquetObs ParquetProof ParquetProof3 ParquetProof5 ConvertModel ConvertObs ConvertProof ConvertProof2 ConvertProof3 ConvertProof4.
Local Notation cells := (list (list (option cell))) (only parsing).

(** One chunk. *)
Lemma fill_built : forall n types cols, length cols = length types -> Forall (fun c => length c = n) cols ->
  (forall k x, In (Some x) (nth k cols []) -> value_fits (nth k types STRING) x) -> Forall page_fits (cells_of_columns cols) ->
  exists aa, fill_chunk types cols = Some aa /\ columns_built n types aa (cells_of_columns cols).
Proof.
  intros n. induction types as [|t types IH]; intros [|c cols] HL HN HV HP; cbn [length] in HL; try lia.
  - exists []. split; [reflexivity|constructor].
  - cbn [cells_of_columns map] in *. apply Forall_cons_iff in HN. destruct HN as [N1 N2]. apply Forall_cons_iff in HP. destruct HP as [P1 P2].
    destruct (appends_built t c (create_builder t) [] (created t)) as (a & E & B).
    + intros x Hx. exact (HV 0 x Hx).
    + cbn [app]. unfold page_fits in P1. lia.
    + destruct (IH cols ltac:(lia) N2 (fun k x => HV (S k) x) P2) as (aa & E2 & B2). exists (a :: aa). cbn [fill_chunk]. rewrite E, E2. split; [reflexivity|].
      constructor; [exact B|rewrite map_length; exact N1|exact B2].
Qed.
Lemma fill_all : forall types cs, Forall (fun cols => length cols = length types /\ exists n, Forall (fun c => length c = n) cols) cs ->
  Forall (fun cols => forall k x, In (Some x) (nth k cols []) -> value_fits (nth k types STRING) x) cs ->
  Forall (fun cols => Forall page_fits (cells_of_columns cols)) cs ->
  exists aas, all_or_none (map (fill_chunk types) cs) = Some aas /\ Forall2 (chunk_built types) aas (map cells_of_columns cs).
Proof.
  intros types cs. induction cs as [|c cs IH]; intros H1 H2 H3; [exists []; split; [reflexivity|constructor]|].
  apply Forall_cons_iff in H1, H2, H3. destruct H1 as [[L (n & N)] H1], H2 as [V H2], H3 as [P H3].
  destruct (fill_built n types c L N V P) as (aa & E & B). destruct (IH H1 H2 H3) as (aas & E2 & B2). exists (aa :: aas). cbn [map all_or_none]. rewrite E, E2. split; [reflexivity|].
  cbn [map]. constructor; [right; exists n; exact B|exact B2].
Qed.

(** Sizes. *)
Lemma page_part : forall a b c : list (option cell), page_fits (a ++ b ++ c) -> page_fits b.
Proof. intros a b c H. unfold page_fits in *. rewrite !app_length, !text_bytes_app in H. lia. Qed.
Lemma part_fits : forall m (cparts : list (list cells)), Forall page_fits (concat_columns m (concat cparts)) -> forall part, In part cparts -> Forall page_fits (concat_columns m part).
Proof.
  intros m cparts H part HI. apply in_split in HI. destruct HI as (x & y & ->). rewrite concat_app in H. cbn [concat] in H.
  unfold concat_columns in *. apply Forall_map, Forall_forall. intros k Hk. rewrite Forall_forall in H. specialize (H _ (in_map _ _ _ Hk)). cbn beta in H.
  rewrite !map_app, !concat_app in H. exact (page_part _ _ _ H).
Qed.
Lemma untyped_fits : forall ts (cc : cells), Forall page_fits cc -> untyped_text_small ts cc.
Proof.
  induction ts as [|t ts IH]; intros [|c cc] H; cbn [untyped_text_small]; try exact I. apply Forall_cons_iff in H. destruct H as [H1 H2]. split; [|apply IH, H2].
  intros _. unfold page_fits in H1. lia.
Qed.
Lemma concat_part : forall m (c : cells), length c = m -> 0 < m -> concat_columns m [c] = c.
Proof.
  intros m c H Hm. assert (W : widen m c = c) by (destruct c; [cbn in H; lia|reflexivity]).
  rewrite concat_columns_cons by (rewrite W; exact H). rewrite W, concat_columns_nil, <- H, glue_nil. reflexivity.
Qed.
Lemma concat_nested : forall m (cparts : list (list cells)), concat_columns m (map (concat_columns m) cparts) = concat_columns m (concat cparts).
Proof.
  intros m cparts. unfold concat_columns at 1 3. apply map_ext_in. intros k Hk. apply in_seq in Hk. rewrite map_map.
  induction cparts as [|p cparts IH]; [reflexivity|]. cbn [map concat]. rewrite map_app, concat_app, <- IH. f_equal.
  unfold concat_columns. rewrite (nth_indep _ [] (concat (map (fun cols => nth m cols []) p))) by (rewrite map_length, seq_length; lia).
  change (concat (map (fun cols => nth m cols []) p)) with ((fun k => concat (map (fun cols => nth k cols []) p)) m). rewrite map_nth. rewrite seq_nth by lia. reflexivity.
Qed.

(** What the writer wants. *)
Lemma built_fits : forall n names types g (cc : cells), length types = length names -> columns_built n types g cc -> Forall page_fits cc -> columns_fit n (schema_of names types) g cc.
Proof.
  intros n. unfold schema_of. induction names as [|nm names IH]; intros types g cc HL H HP; inversion H as [|t ts a aa c cc' HB HN HR]; subst; cbn [length] in HL; try lia; cbn [combine map].
  - constructor.
  - apply Forall_cons_iff in HP. destruct HP as [P1 P2]. constructor; [|apply IH; [lia|exact HR|exact P2]].
    unfold column_fits. cbn [cs_type cs_nullable fst snd]. split; [exact (proj1 HB)|]. split; [exact (built_holds _ _ _ HB)|]. split; [reflexivity|]. split; [discriminate|exact P1].
Qed.
Lemma schema_types : forall names types, length types = length names -> map cs_type (schema_of names types) = types.
Proof. unfold schema_of. induction names as [|nm names IH]; intros [|t types] H; cbn [length] in H; try lia; [reflexivity|]. cbn [combine map cs_type fst snd]. rewrite IH by lia. reflexivity. Qed.
Lemma schema_length : forall names types, length types = length names -> length (schema_of names types) = length names.
Proof. intros names types H. rewrite <- (map_length cs_type), schema_types by exact H. exact H. Qed.

Section Write.
Variable library : compression -> bytes -> option bytes.
Variable below : nat -> nat -> bool.
Variable options : parquet_options.

Lemma encodes_groups : forall schema groups gs, Forall2 (encodes library below options schema) groups gs -> exists encoded, encode_groups library below options schema groups = Some encoded.
Proof.
  intros schema groups gs H. induction H as [|g x groups gs (a & r & -> & _ & E) _ (l & IH)]; [exists []; reflexivity|]. cbn [encode_groups]. rewrite E, IH. eexists. reflexivity.
Qed.
Lemma prun_cat : forall a b p p' oks, prun library below options p a = Some (p', oks) ->
  prun library below options p (a ++ b) = match prun library below options p' b with None => None | Some (p'', oks') => Some (p'', oks ++ oks') end.
Proof.
  induction a as [|o a IH]; intros b p p' oks H; cbn [prun app] in *; [injection H as <- <-; destruct (prun library below options p b) as [[]|]; reflexivity|].
  destruct (pstep library below options p o) as [[p1 ok]|]; [|discriminate]. destruct (prun library below options p1 a) as [[p2 oks2]|] eqn:E; [|discriminate]. injection H as <- <-.
  rewrite (IH b _ _ _ E). destruct (prun library below options p2 b) as [[]|]; reflexivity.
Qed.
Definition opened (schema : list column_schema) : pstate := do_set_schema (fst (do_open writer_new true None)) schema.
Lemma opened_facts : forall schema, ps_open (opened schema) = true /\ ps_schema (opened schema) = schema.
Proof. split; reflexivity. Qed.

(** Writing the chunks through the queue or directly is writing the row groups one after another. *)
Lemma chunks_written : forall trace schema cs groups gs, row_groups schema cs = Some groups -> Forall2 (encodes library below options schema) groups gs ->
  (forall encoded, pipeline_input library below options schema cs = Some encoded -> exists s, run pipeline_capacity (pipeline encoded) trace s /\ finished s) ->
  exists p, write_chunks library below options trace (opened schema) schema cs = Some p /\ prun library below options (opened schema) (map PWrite groups) = Some (p, map (fun _ => true) groups).
Proof.
  intros trace schema cs groups gs HG HE HT. destruct (encodes_groups _ _ _ HE) as (encoded & E). destruct (opened_facts schema) as [O1 O2].
  assert (SQ := sequential library below options groups encoded (opened schema) O1). rewrite O2 in SQ. specialize (SQ E).
  destruct cs as [|c1 [|c2 r]].
  - injection HG as <-. exists (opened schema). split; reflexivity.
  - cbn [row_groups filter] in HG. injection HG as <-. cbn [write_chunks]. destruct c1 as [|a c1]; cbn [has_columns filter map] in *.
    + exists (opened schema). split; [reflexivity|]. reflexivity.
    + unfold do_write. rewrite O1, O2. cbn [negb]. inversion HE as [|x y l l' (a' & r' & EQ & _ & EE) _]; subst. rewrite EE. cbn [option_map fst].
      eexists. split; [reflexivity|]. cbn [prun pstep]. unfold do_write. rewrite O1, O2. cbn [negb]. rewrite EE. reflexivity.
  - unfold write_chunks, pipeline_input in *. rewrite HG, E in *. destruct (HT _ eq_refl) as (s & HR & HF). destruct (pipeline_result _ _ _ _ HR HF) as [_ D]. rewrite D. eexists. split; [reflexivity|exact SQ].
Qed.
End Write.
