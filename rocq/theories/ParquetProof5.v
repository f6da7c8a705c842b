(** The whole file. *)
From Verif Require Import Base VarintSpec ThriftSpec ThriftModel ThriftProof MetaSpec MetaModel MetaProof MetaProps
  TypesSpec BuffersModel BuffersReach RleModel RleProof RleProof2 PlainSpec PlainModel PlainProof ParquetSpec ParquetModel ParquetObs
  ParquetProof ParquetProof2 ParquetProof3 ParquetProof4.

Section File.
Variable library : compression -> bytes -> option bytes.
Variable below : nat -> nat -> bool.
Variable options : parquet_options.
Definition group : Type := list arrow_column * list (list (option cell)).

Lemma fits_size : forall n ss aa cc, columns_fit n ss aa cc -> ss <> [] -> (N.of_nat n < 2 ^ 31)%N /\ exists a r, aa = a :: r /\ ac_size a = n.
Proof.
  intros n ss aa cc H Hne. destruct H as [|s ss a aa c cc (_ & HH & HL & _ & HP) _]; [contradiction|]. split.
  - unfold page_fits in HP. lia.
  - exists a, aa. split; [reflexivity|]. destruct (holds_shows a c HH) as [_ ->]. exact HL.
Qed.
Lemma groups_encode : forall schema (groups : list group), schema <> [] -> Forall (fun g => group_fits schema (fst g) (snd g)) groups ->
  exists gs, Forall2 (encodes library below options schema) (map fst groups) gs /\
    Forall2 (fun (g : group) x => (N.of_nat (fst x) < 2 ^ 31)%N /\ group_encoded library below options schema (fst g) (snd g) x) groups gs /\ length gs = length groups.
Proof.
  intros schema groups Hne H. induction H as [|[cols cells] groups (n & Hf) _ (gs & I1 & I2 & I3)]; [exists []; repeat split; constructor|].
  cbn [fst snd] in Hf. destruct (fits_size _ _ _ _ Hf Hne) as (Hn & a & r & -> & Hsz).
  destruct (columns_encode library below options n _ _ _ Hf) as (ee & E1 & E2).
  exists ((n, ee) :: gs). cbn [map fst length]. split; [|split].
  - constructor; [|exact I1]. exists a, r. cbn [fst snd]. auto.
  - constructor; [|exact I2]. cbn [fst snd]. split; [exact Hn|]. exact E2.
  - lia.
Qed.
Lemma encoded_forall : forall schema groups gs, Forall2 (fun (g : group) x => (N.of_nat (fst x) < 2 ^ 31)%N /\ group_encoded library below options schema (fst g) (snd g) x) groups gs ->
  Forall (fun g => (N.of_nat (fst g) < 2 ^ 31)%N /\ exists cols cells, group_encoded library below options schema cols cells g) gs.
Proof. intros schema groups gs H. induction H as [|[cols cells] x groups gs [A B] _ IH]; constructor; [|exact IH]. split; [exact A|]. eexists _, _. exact B. Qed.
Lemma whole_file_eq : forall schema gs, whole_file schema gs =
  file_magic ++ bodies gs ++ meta_bytes (the_metadata schema gs) ++ int32_bytes (to_int32 (length (meta_bytes (the_metadata schema gs)))) ++ file_magic.
Proof. reflexivity. Qed.
Lemma whole_file_footer : forall schema groups gs, schema <> [] -> footer_fits schema (length groups) -> length gs = length groups ->
  Forall2 (fun (g : group) x => (N.of_nat (fst x) < 2 ^ 31)%N /\ group_encoded library below options schema (fst g) (snd g) x) groups gs ->
  footer (whole_file schema gs) = Some (meta_bytes (the_metadata schema gs)) /\
  read_as parse_file_meta (meta_bytes (the_metadata schema gs)) = Some (the_metadata schema gs, []).
Proof.
  intros schema groups gs Hne HF HL H. pose proof (encoded_forall _ _ _ H) as HA. rewrite <- HL in HF.
  pose proof (metadata_ok library below options schema gs HA HF Hne) as OK. split.
  - rewrite whole_file_eq. apply footer_found.
    assert (HA' : Forall (fun g => exists cols cells, group_encoded library below options schema cols cells g) gs) by (eapply Forall_impl; [|exact HA]; intros g [_ X]; exact X).
    pose proof (metadata_length library below options schema gs Hne HA' OK) as W. destruct (fits_names _ _ HF) as (_ & _ & _ & _ & X). 
    eapply N.le_lt_trans; [|exact X]. lia.
  - destruct (C63_file_metadata _ OK) as (bs & W & R). destruct (W (new_writer [])) as (E & _). unfold meta_bytes. rewrite E. cbn [new_writer w_buffer app].
    specialize (R []). rewrite app_nil_r in R. exact R.
Qed.
Lemma read_schema_ok : forall schema k, footer_fits schema k ->
  read_schema (SchemaEl None None None (s2b "schema") (Some (to_int32 (length schema))) None :: map schema_leaf schema) = Some (map leaf_of schema).
Proof.
  intros schema k HF. destruct (fits_names _ _ HF) as (_ & _ & X & _). change (2 ^ 31)%N with 2147483648%N in X.
  cbn [read_schema se_type se_num_children]. rewrite map_length, to_int32_N by (change (2 ^ 31)%N with 2147483648%N; lia). rewrite Z.eqb_refl.
  clear. induction schema as [|s schema IH]; [reflexivity|]. cbn [map all_some]. rewrite IH.
  assert (E : read_leaf (schema_leaf s) = Some (leaf_of s)); [|rewrite E; reflexivity].
  unfold read_leaf, schema_leaf. cbn [se_type se_repetition se_name se_num_children se_converted bind]. rewrite type_code_of.
  assert (P : ptype_of_code (ptype_code (physical (cs_type s))) = Some (physical (cs_type s))) by (destruct (cs_type s); reflexivity). rewrite P. cbn [bind].
  unfold leaf_of. destruct (cs_nullable s); reflexivity.
Qed.
Lemma rows_sum : forall gs off, fold_right Z.add 0%Z (map rg_num_rows (place_groups off gs)) = rows_of gs.
Proof. induction gs as [|[n es] gs IH]; intros off; [reflexivity|]. cbn [place_groups map fold_right group_at rg_num_rows]. rewrite IH. reflexivity. Qed.

Lemma file_round_trip : forall decompress schema groups pre post,
  undone library decompress (o_compression options) -> o_compression options = NONE \/ o_enable_dictionary options = false ->
  schema <> [] -> Forall no_open pre -> Forall no_open post ->
  Forall (fun g : group => group_fits schema (fst g) (snd g)) groups -> footer_fits schema (length groups) ->
  exists p oks1 oks2 file,
    prun library below options writer_new (pre ++ session schema (map fst groups) ++ post)
      = Some (p, oks1 ++ map (fun _ => true) (session schema (map fst groups)) ++ oks2) /\ length oks1 = length pre /\
    ps_closed p = [file] /\ read_file decompress file = Some (Table (map leaf_of schema) (map snd groups)).
Proof.
  intros decompress schema groups pre post HLs HSafe Hne Hpre Hpost HG HF.
  destruct (groups_encode schema groups Hne HG) as (gs & E1 & E2 & E3).
  destruct (session_run library below options pre post schema (map fst groups) gs Hpre Hpost E1) as (p & oks1 & oks2 & R & L & C).
  exists p, oks1, oks2, (whole_file schema gs). split; [exact R|]. split; [exact L|]. split; [exact C|].
  destruct (whole_file_footer schema groups gs Hne HF E3 E2) as [F1 F2].
  unfold read_file. rewrite F1. cbn [bind]. rewrite F2. unfold the_metadata at 1 2 3 4, file_metadata. cbn [fm_schema fm_row_groups fm_num_rows ps_schema ps_groups ps_rows].
  rewrite (read_schema_ok schema _ HF). cbn [bind].
  assert (RG : Forall2 (fun g c => exists cols, group_encoded library below options schema cols c g) gs (map snd groups)).
  { clear - E2. induction E2 as [|[cols cells] x groups gs [A B] _ IH]; [constructor|]. cbn [map snd]. constructor; [|exact IH]. exists cols. exact B. }
  pose proof (read_groups_ok library below options decompress HLs HSafe schema gs (map snd groups) RG file_magic
    (meta_bytes (the_metadata schema gs) ++ int32_bytes (to_int32 (length (meta_bytes (the_metadata schema gs)))) ++ file_magic)) as RR.
  rewrite <- whole_file_eq in RR. change (len_z file_magic) with 4%Z in RR. rewrite RR. cbn [bind]. rewrite rows_sum, Z.eqb_refl. reflexivity.
Qed.

(** ** Layout *)
Lemma place_consecutive : forall es off, Forall sized es -> forall rest upto, consecutive (off + len_z (body es)) upto rest -> consecutive off upto (place_chunks off es ++ rest).
Proof.
  intros es off H. revert off. induction H as [|e es ((A & _) & _) _ IH]; intros off rest upto HC; cbn [place_chunks app consecutive].
  - unfold body in HC. cbn [map concat] in HC. change (len_z []) with 0%Z in HC. rewrite Z.add_0_r in HC. exact HC.
  - eexists. split; [reflexivity|]. destruct (chunk_at off e) as [-> ->]. split; [reflexivity|]. split; [exact A|]. apply IH.
    unfold body in HC. cbn [map concat] in HC. rewrite len_app in HC. rewrite <- Z.add_assoc. exact HC.
Qed.
Lemma groups_consecutive : forall k gs off, Forall (group_sized k) gs -> consecutive off (off + len_z (bodies gs)) (concat (map rg_columns (place_groups off gs))).
Proof.
  intros k gs off H. revert off. induction H as [|[n es] gs (A & _) _ IH]; intros off; cbn [place_groups map concat].
  - unfold bodies. cbn [map concat consecutive]. change (len_z []) with 0%Z. lia.
  - cbn [group_at rg_columns]. apply place_consecutive; [exact A|]. unfold bodies. cbn [map concat snd]. rewrite len_app, Z.add_assoc. apply IH.
Qed.
Definition chunk_is (file : bytes) (n : nat) (x : arrow_column * column_schema) (ch : column_chunk) : Prop :=
  exists m e, cc_meta ch = Some m /\ encode_column_arrow library below options (fst x) (snd x) = Some e /\
    bytes_at file (chunk_start m) (cm_compressed m) = Some (chunk_bytes e) /\ cm_num_values m = Z.of_nat n.
Definition group_is (schema : list column_schema) (file : bytes) (g : group) (rg : row_group) : Prop :=
  (exists n, columns_fit n schema (fst g) (snd g) /\ rg_num_rows rg = Z.of_nat n /\ Forall2 (chunk_is file n) (combine (fst g) schema) (rg_columns rg)) /\
  rg_total_byte_size rg = total cm_uncompressed (rg_columns rg) /\ rg_total_compressed rg = Some (total cm_compressed (rg_columns rg)) /\
  rg_file_offset rg = first_page (rg_columns rg).
Lemma chunks_are : forall n ss aa cc ee, encoded_as library below options n ss aa cc ee -> forall pre suf,
  Forall2 (chunk_is (pre ++ body ee ++ suf) n) (combine aa ss) (place_chunks (len_z pre) ee).
Proof.
  intros n ss aa cc ee H. induction H as [|s ss a aa c cc e ee page dict HL He (Sh & _) Rd _ IH]; intros pre suf; [constructor|].
  cbn [combine place_chunks]. unfold body. cbn [map concat]. fold (body ee). rewrite <- app_assoc. constructor.
  - exists (meta_of (len_z pre) e), e. split; [reflexivity|]. split; [exact He|]. destruct (chunk_at (len_z pre) e) as [-> ->].
    split; [apply bytes_at_app|]. cbn [meta_of column_metadata cm_num_values]. rewrite Sh, HL. reflexivity.
  - rewrite <- len_app, app_assoc. apply IH.
Qed.
Lemma totals : forall es off, total cm_uncompressed (place_chunks off es) = sum (map unc es) /\ total cm_compressed (place_chunks off es) = len_z (body es) /\
  (es <> [] -> first_page (place_chunks off es) = Some off).
Proof.
  induction es as [|e es IH]; intros off; [repeat split; intros []; reflexivity|]. destruct (IH (off + len_z (chunk_bytes e))%Z) as (A & B & _).
  unfold total in *. cbn [place_chunks map fold_right cc_meta]. rewrite A, B. unfold body. cbn [map concat]. rewrite len_app. repeat split.
  intros _. cbn [first_page cc_meta option_map]. destruct (chunk_at off e) as [-> _]. reflexivity.
Qed.
Lemma groups_are : forall schema groups gs, schema <> [] -> Forall (fun g : group => group_fits schema (fst g) (snd g)) groups ->
  Forall2 (fun (g : group) x => columns_fit (fst x) schema (fst g) (snd g) /\ group_encoded library below options schema (fst g) (snd g) x) groups gs -> forall pre suf,
  Forall2 (group_is schema (pre ++ bodies gs ++ suf)) groups (place_groups (len_z pre) gs).
Proof.
  intros schema groups gs Hne HG H. induction H as [|g [n es] groups gs [A B] _ IH]; intros pre suf; [constructor|].
  inversion HG; subst. cbn [place_groups]. unfold bodies. cbn [map concat snd]. fold (bodies gs). rewrite <- app_assoc. constructor.
  - unfold group_encoded in B. cbn [fst snd] in A, B. unfold group_is, group_at. cbn [rg_num_rows rg_columns rg_total_byte_size rg_total_compressed rg_file_offset].
    destruct (totals es (len_z pre)) as (T1 & T2 & T3). rewrite T1, T2, T3; [|inversion B; subst; [contradiction|discriminate]]. split; [|auto].
    exists n. split; [exact A|]. split; [reflexivity|]. apply (chunks_are _ _ _ _ _ B).
  - rewrite <- len_app, app_assoc. apply IH. assumption.
Qed.
Lemma groups_encode_fit : forall schema (groups : list group), schema <> [] -> Forall (fun g => group_fits schema (fst g) (snd g)) groups ->
  exists gs, Forall2 (encodes library below options schema) (map fst groups) gs /\
    Forall2 (fun (g : group) x => columns_fit (fst x) schema (fst g) (snd g) /\ group_encoded library below options schema (fst g) (snd g) x) groups gs /\ length gs = length groups.
Proof.
  intros schema groups Hne H. induction H as [|[cols cells] groups (n & Hf) _ (gs & I1 & I2 & I3)]; [exists []; repeat split; constructor|].
  cbn [fst snd] in Hf. destruct (fits_size _ _ _ _ Hf Hne) as (Hn & a & r & -> & Hsz).
  destruct (columns_encode library below options n _ _ _ Hf) as (ee & E1 & E2).
  exists ((n, ee) :: gs). cbn [map fst length]. split; [|split].
  - constructor; [|exact I1]. exists a, r. cbn [fst snd]. auto.
  - constructor; [|exact I2]. cbn [fst snd]. split; [exact Hf|]. exact E2.
  - lia.
Qed.
Lemma file_layout : forall schema groups pre post,
  schema <> [] -> Forall no_open pre -> Forall no_open post ->
  Forall (fun g : group => group_fits schema (fst g) (snd g)) groups -> footer_fits schema (length groups) ->
  exists p oks1 oks2 file foot fm,
    prun library below options writer_new (pre ++ session schema (map fst groups) ++ post)
      = Some (p, oks1 ++ map (fun _ => true) (session schema (map fst groups)) ++ oks2) /\ length oks1 = length pre /\
    ps_closed p = [file] /\ footer file = Some foot /\ read_as parse_file_meta foot = Some (fm, []) /\
    consecutive 4 (Z.of_nat (length file) - 8 - Z.of_nat (length foot)) (concat (map rg_columns (fm_row_groups fm))) /\
    Forall2 (group_is schema file) groups (fm_row_groups fm) /\
    fm_num_rows fm = fold_right Z.add 0%Z (map rg_num_rows (fm_row_groups fm)).
Proof.
  intros schema groups pre post Hne Hpre Hpost HG HF.
  destruct (groups_encode_fit schema groups Hne HG) as (gs & E1 & E2 & E3).
  destruct (session_run library below options pre post schema (map fst groups) gs Hpre Hpost E1) as (p & oks1 & oks2 & R & L & C).
  assert (E2' : Forall2 (fun (g : group) x => (N.of_nat (fst x) < 2 ^ 31)%N /\ group_encoded library below options schema (fst g) (snd g) x) groups gs).
  { clear - E2 Hne. induction E2 as [|g x groups gs [A B] _ IH]; constructor; [|exact IH]. split; [apply (fits_size _ _ _ _ A Hne)|exact B]. }
  destruct (whole_file_footer schema groups gs Hne HF E3 E2') as [F1 F2].
  exists p, oks1, oks2, (whole_file schema gs), (meta_bytes (the_metadata schema gs)), (the_metadata schema gs).
  split; [exact R|]. split; [exact L|]. split; [exact C|]. split; [exact F1|]. split; [exact F2|].
  assert (GS : Forall (group_sized (length schema)) gs).
  { pose proof (encoded_forall _ _ _ E2') as HA. destruct (fits_names _ _ HF) as (_ & N2 & _). eapply Forall_impl; [|exact HA]. intros [n es] (Hn & cols & cells & HE). unfold group_encoded in HE. cbn [fst snd] in *.
    destruct (encoded_sized _ _ _ _ _ _ _ _ HE N2 Hn) as [A B]. unfold group_sized. cbn [fst snd]. auto. }
  set (m := meta_bytes (the_metadata schema gs)) in *. unfold the_metadata, file_metadata. cbn [fm_row_groups fm_num_rows ps_groups ps_rows].
  split; [|split; [|symmetry; apply rows_sum]].
  - replace (Z.of_nat (length (whole_file schema gs)) - 8 - Z.of_nat (length m))%Z with (4 + len_z (bodies gs))%Z.
    + apply (groups_consecutive (length schema)). exact GS.
    + rewrite whole_file_eq. fold m. rewrite !app_length. unfold int32_bytes. rewrite int_bytes_length. unfold len_z. cbn [length file_magic]. lia.
  - rewrite whole_file_eq. fold m. change 4%Z with (len_z file_magic). apply groups_are; assumption.
Qed.
End File.
