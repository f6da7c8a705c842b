(** Reading the file back. *)
From Verif Require Import Base VarintSpec ThriftSpec ThriftModel ThriftProof MetaSpec MetaModel MetaProof MetaProps
  TypesSpec BuffersModel BuffersReach RleModel RleProof RleProof2 PlainSpec PlainModel PlainProof ParquetSpec ParquetModel ParquetObs ParquetProof ParquetProof2 ParquetProof3.

(** ** Byte ranges *)
Lemma bytes_at_app : forall a b c, bytes_at (a ++ b ++ c) (len_z a) (len_z b) = Some b.
Proof.
  intros a b c. unfold bytes_at, len_z. rewrite !app_length.
  destruct (Z.leb_spec 0 (Z.of_nat (length a))); [|lia]. destruct (Z.leb_spec 0 (Z.of_nat (length b))); [|lia].
  destruct (Z.leb_spec (Z.of_nat (length a) + Z.of_nat (length b)) (Z.of_nat (length a + (length b + length c)))); [|lia]. cbn [andb].
  rewrite !Nat2Z.id, skipn_app, skipn_all, Nat.sub_diag. cbn [skipn app]. rewrite firstn_app, Nat.sub_diag, firstn_all. cbn [firstn]. rewrite app_nil_r. reflexivity.
Qed.
Lemma footer_found : forall content m, (N.of_nat (length m) < 2 ^ 31)%N ->
  footer (file_magic ++ content ++ m ++ int32_bytes (to_int32 (length m)) ++ file_magic) = Some m.
Proof.
  intros content m Hm. rewrite to_int32_N by exact Hm. unfold footer. cbv zeta.
  set (tl := int32_bytes (Z.of_nat (length m)) ++ file_magic). set (file := file_magic ++ content ++ m ++ tl).
  assert (LI : length (int32_bytes (Z.of_nat (length m))) = 4) by apply int_bytes_length.
  assert (L8 : length tl = 8) by (unfold tl; rewrite app_length, LI; reflexivity).
  assert (LF : Z.of_nat (length file) = (4 + len_z content + len_z m + 8)%Z).
  { unfold file, len_z. rewrite !app_length, L8. cbn [length file_magic]. lia. }
  assert (B1 : bytes_at file 0 4 = Some file_magic) by (apply (bytes_at_app [] file_magic)).
  assert (B2 : bytes_at file (Z.of_nat (length file) - 8) 8 = Some tl).
  { rewrite LF. replace (4 + len_z content + len_z m + 8 - 8)%Z with (len_z (file_magic ++ content ++ m)) by (rewrite !len_app; unfold len_z; cbn [length file_magic]; lia).
    replace 8%Z with (len_z tl) by (unfold len_z; lia). unfold file. rewrite !app_assoc. rewrite <- (app_nil_r (((file_magic ++ content) ++ m) ++ tl)), <- !app_assoc. rewrite !app_assoc, <- (app_assoc _ tl []).
    apply bytes_at_app. }
  rewrite B1. cbn [bind]. rewrite B2. cbn [bind].
  assert (F4 : firstn 4 tl = int32_bytes (Z.of_nat (length m))) by (unfold tl; rewrite <- LI at 1; rewrite firstn_app, Nat.sub_diag, firstn_all; apply app_nil_r).
  assert (S4 : skipn 4 tl = file_magic) by (unfold tl; rewrite <- LI at 1; rewrite skipn_app, Nat.sub_diag, skipn_all; reflexivity).
  rewrite F4, S4. unfold int32_bytes. rewrite le_value_int. change (8 * Z.of_nat 4)%Z with 32%Z.
  rewrite Z.mod_small by (change (2 ^ 31)%N with 2147483648%N in Hm; change (2 ^ 32)%Z with 4294967296%Z; lia). rewrite Z2N.id by lia.
  destruct (list_eq_dec N.eq_dec file_magic MAGIC) as [_|X]; [|exfalso; apply X; reflexivity]. cbn [andb].
  fold (len_z m). destruct (Z.leb_spec (12 + len_z m) (Z.of_nat (length file))); [|unfold len_z in *; lia].
  replace (Z.of_nat (length file) - 8 - len_z m)%Z with (len_z (file_magic ++ content)) by (rewrite LF, len_app; unfold len_z; cbn [length file_magic]; lia).
  unfold file. rewrite app_assoc. apply bytes_at_app.
Qed.

Lemma names_small : forall ss s, In s ss -> 400 + length (cs_name s) <= names_bytes ss.
Proof. induction ss as [|x ss IH]; intros s HI; [contradiction|]. cbn [names_bytes]. destruct HI as [->|HI]; [lia|]. specialize (IH s HI). lia. Qed.
Lemma names_count : forall ss, 400 * length ss <= names_bytes ss.
Proof. induction ss as [|x ss IH]; cbn [names_bytes length]; lia. Qed.
Lemma fits_names : forall schema k, footer_fits schema k -> (N.of_nat (names_bytes schema) < 2 ^ 31)%N /\ (forall s, In s schema -> small (cs_name s)) /\ (400 * N.of_nat (length schema) < 2 ^ 31)%N /\
   (400 * N.of_nat (k * length schema) < 2 ^ 31)%N /\ (N.of_nat ((k + 1) * names_bytes schema + 999) < 2 ^ 31)%N.
Proof.
  intros schema k H. unfold footer_fits in H. change (2 ^ 31)%N with 2147483648%N in *.
  assert (A : (N.of_nat (names_bytes schema) < 2147483648)%N) by nia. pose proof (names_count schema).
  conjs; [exact A| |lia|nia|nia].
  intros s HI. pose proof (names_small _ _ HI). unfold small. change (2 ^ 31)%N with 2147483648%N. lia.
Qed.
Lemma type_code_of : forall t, to_parquet_type t = ptype_code (physical t).
Proof. intros []; reflexivity. Qed.
Lemma schema_weight : forall ss, wtE (map t_schema_element (map schema_leaf ss)) + wtE (map t_column_order (map (fun _ => TypeOrder) ss)) <= names_bytes ss.
Proof.
  induction ss as [|s ss IH]; cbn [map wtE names_bytes]; [lia|].
  assert (wt (t_schema_element (schema_leaf s)) <= 150 + length (cs_name s)).
  { unfold t_schema_element, schema_leaf. cbn [se_type se_type_length se_repetition se_name se_num_children se_converted of_]. rewrite wt_struct, !wtF_app.
    assert (X : forall o, wtF (of_ 6 VI32 o) <= 21) by (intros [|]; cbn; lia).
    specialize (X (match cs_type s with STRING => Some 0%Z | _ => None end)). cbn [wtF wt app]. lia. }
  assert (wt (t_column_order TypeOrder) = 13) by reflexivity. lia.
Qed.

Lemma chunk_at : forall off e, chunk_start (meta_of off e) = off /\ cm_compressed (meta_of off e) = len_z (chunk_bytes e).
Proof.
  intros off e. unfold chunk_start, meta_of, column_metadata, dict_bytes. cbn [cm_dict_offset cm_data_offset cm_compressed]. split; [|reflexivity].
  destruct (e_uses_dict e); [destruct (e_dict_header e); [destruct (e_dict_content e)|]|]; try reflexivity; change (len_z []) with 0%Z; lia.
Qed.

Section File.
Variable library : compression -> bytes -> option bytes.
Variable below : nat -> nat -> bool.
Variable options : parquet_options.

(** One column of a row group, encoded. *)
Inductive encoded_as (n : nat) : list column_schema -> list arrow_column -> list (list (option cell)) -> list encoded_column -> Prop :=
| ea_nil : encoded_as n [] [] [] []
| ea_cons : forall s ss a aa c cc e ee page dict, length c = n -> encode_column_arrow library below options a s = Some e -> column_shape library options s c e page dict ->
    (forall decompress, undone library decompress (o_compression options) -> column_reads library options decompress s c e page dict) ->
    encoded_as n ss aa cc ee -> encoded_as n (s :: ss) (a :: aa) (c :: cc) (e :: ee).
Lemma columns_encode : forall n ss aa cc, columns_fit n ss aa cc ->
  exists ee, encode_columns library below options aa ss = Some ee /\ encoded_as n ss aa cc ee.
Proof.
  intros n ss aa cc H. induction H as [|s ss a aa c cc Hf _ (ee & E & IH)]; [exists []; split; [reflexivity|constructor]|].
  destruct (encode_column_ok library below options n s a c Hf) as (e & page & dict & Ee & Sh & Rd).
  exists (e :: ee). cbn [encode_columns]. rewrite Ee, E. split; [reflexivity|]. econstructor; try eassumption. destruct Hf as (_ & _ & Hn & _). exact Hn.
Qed.

(** Sizes of an encoded column. *)
Definition BIG : Z := 8589934592%Z.
Definition sized (e : encoded_column) : Prop :=
  (0 < len_z (chunk_bytes e) <= BIG)%Z /\ (0 <= unc e <= BIG)%Z /\ (0 <= e_num_values e <= BIG)%Z /\ int32 (e_codec e) /\
  small (e_name e) /\ (e_header e <> []).
Lemma shape_sized : forall s c e page dict, column_shape library options s c e page dict -> (N.of_nat (length c) < 2 ^ 31)%N -> small (cs_name s) -> sized e.
Proof.
  intros s c e page dict (A & B & C & D & E & F & G & (h & H1 & H2 & H3) & I) Hc Hn.
  pose proof (header_length h H2 H3) as LH. destruct (header_read h H2) as [NH _]. pose proof (stored_length library options page) as LS.
  change (2 ^ 31)%N with 2147483648%N in *. 
  assert (DB : (len_z (dict_bytes e) <= 4294967296)%Z /\ (0 <= unc e <= BIG)%Z).
  { unfold unc, dict_bytes, BIG. destruct dict as [[raw entries]|].
    - destruct I as (_ & -> & _ & -> & HD & -> & -> & LR). pose proof (header_length _ HD I). pose proof (stored_length library options raw). change (2 ^ 31)%N with 2147483648%N in *.
      unfold len_z. rewrite app_length, H1, F. lia.
    - rewrite I. unfold len_z. cbn [length]. rewrite H1, F. lia. }
  assert (HH : e_header e <> []) by (rewrite H1; exact NH).
  unfold sized. conjs; try (apply DB).
  - unfold chunk_bytes. rewrite !len_app. unfold len_z. destruct (e_header e); [contradiction|]. cbn [length]. lia.
  - unfold chunk_bytes. rewrite !len_app. destruct DB. unfold BIG, len_z in *. rewrite H1, G. lia.
  - rewrite A. lia.
  - rewrite A. unfold BIG. lia.
  - rewrite D. unfold codec_of. destruct (shrinks library options page); [|unfold int32; lia]. destruct (o_compression options); unfold int32; cbn; lia.
  - rewrite C. exact Hn.
  - exact HH.
Qed.

(** The metadata are within their types. *)
Lemma body_size : forall es, Forall sized es -> (0 <= len_z (body es) <= BIG * Z.of_nat (length es))%Z /\ (0 <= sum (map unc es) <= BIG * Z.of_nat (length es))%Z.
Proof.
  intros es H. induction H as [|e es (A & B & _) _ [I1 I2]]; [unfold body, len_z; cbn; lia|].
  unfold body. cbn [map concat sum fold_right length]. fold (body es) (sum (map unc es)). rewrite len_app. lia.
Qed.
Definition small_off (off : Z) : Prop := (0 <= off < 2 ^ 62)%Z.
Lemma chunks_ok : forall es off, Forall sized es -> (0 <= off)%Z -> (off + len_z (body es) < 2 ^ 62)%Z -> Forall ok_column_chunk (place_chunks off es).
Proof.
  intros es off H. revert off. induction H as [|e es He HF IH]; intros off H0 H1; cbn [place_chunks]; constructor.
  - destruct (body_size es HF) as [[B0 _] _]. unfold body in H1. cbn [map concat] in H1. fold (body es) in H1. rewrite len_app in H1.
    destruct He as ((A1 & A2) & (B1 & B2) & (C1 & C2) & D & E & F). unfold ok_column_chunk. cbn [cc_file_path cc_file_offset cc_meta all_opt].
    conjs; [exact I|unfold int64; lia|]. unfold ok_column_meta, meta_of, column_metadata. cbn [cm_type cm_encodings cm_path cm_codec cm_num_values cm_uncompressed cm_compressed cm_data_offset cm_dict_offset cm_statistics].
    assert (DL : (0 <= len_z (dict_bytes e) <= len_z (chunk_bytes e))%Z) by (unfold chunk_bytes; rewrite len_app; unfold len_z; lia).
    unfold BIG in *. change (2 ^ 62)%Z with 4611686018427387904%Z in *.
    assert (I64 : forall z, (0 <= z < 4611686018427387904)%Z -> int64 z) by (intros z Hz; unfold int64; change (2 ^ 63)%Z with 9223372036854775808%Z; lia).
    conjs; try assumption; try (apply I64; lia); try exact I.
    + destruct (e_type e); unfold int32; cbn; lia.
    + unfold small. destruct (e_uses_dict e); cbn; lia.
    + destruct (e_uses_dict e); repeat constructor; unfold int32; lia.
    + unfold small; cbn; lia.
    + repeat constructor; assumption.
    + destruct (e_uses_dict e); [|exact I]. destruct (e_dict_header e); [|exact I]. destruct (e_dict_content e); [|exact I]. apply I64. lia.
  - apply IH.
    + destruct He as ((A1 & _) & _). lia.
    + unfold body in H1. cbn [map concat] in H1. fold (body es) in H1. rewrite len_app in H1. lia.
Qed.
Lemma place_length : forall es off, length (place_chunks off es) = length es.
Proof. induction es as [|e es IH]; intros off; cbn [place_chunks length]; [reflexivity|f_equal; apply IH]. Qed.
Definition group_sized (k : nat) (g : nat * list encoded_column) : Prop :=
  Forall sized (snd g) /\ length (snd g) = k /\ (N.of_nat (fst g) < 2 ^ 31)%N.
Lemma bodies_size : forall k gs, Forall (group_sized k) gs -> (0 <= len_z (bodies gs) <= BIG * Z.of_nat (length gs * k))%Z /\ (0 <= rows_of gs <= BIG * Z.of_nat (length gs))%Z.
Proof.
  intros k gs H. induction H as [|[n es] gs (A & B & C) _ [I1 I2]]; [unfold bodies, rows_of, len_z; cbn; lia|].
  unfold bodies, rows_of. cbn [map concat sum fold_right length fst snd]. fold (bodies gs). unfold rows_of in I2. fold (sum (map (fun g : nat * list encoded_column => Z.of_nat (fst g)) gs)).
  rewrite len_app. cbn [snd fst] in A, B, C. destruct (body_size es A) as [X _]. rewrite B in X. unfold BIG in *. change (2 ^ 31)%N with 2147483648%N in C. lia.
Qed.
Lemma groups_ok : forall k gs, Forall (group_sized k) gs -> (N.of_nat k < 8388608)%N -> forall off, (0 <= off)%Z -> (off + len_z (bodies gs) < 2 ^ 62)%Z ->
  Forall ok_row_group (place_groups off gs).
Proof.
  intros k gs H Hk. induction H as [|[n es] gs (A & B & C) HF IH]; intros off H0 H1; cbn [place_groups]; constructor.
  - cbn [fst snd] in A, B, C. unfold bodies in H1. cbn [map concat snd] in H1. fold (bodies gs) in H1. rewrite len_app in H1.
    destruct (bodies_size k gs HF) as [[X _] _]. destruct (body_size es A) as [[Y1 Y2] [Z1 Z2]]. rewrite B in Y2, Z2.
    unfold ok_row_group, group_at. cbn [rg_columns rg_total_byte_size rg_num_rows rg_file_offset rg_total_compressed all_opt].
    change (2 ^ 62)%Z with 4611686018427387904%Z in *. change (2 ^ 31)%N with 2147483648%N in *. unfold BIG in *.
    assert (I64 : forall z, (0 <= z < 9223372036854775808)%Z -> int64 z) by (intros z Hz; unfold int64; change (2 ^ 63)%Z with 9223372036854775808%Z; lia).
    conjs; try (apply I64; lia).
    + unfold small. rewrite place_length, B. change (2 ^ 31)%N with 2147483648%N. lia.
    + apply chunks_ok; [exact A|lia|lia].
  - apply IH.
    + cbn [snd fst] in A. destruct (body_size es A). lia.
    + unfold bodies in H1. cbn [map concat snd] in H1. fold (bodies gs) in H1. rewrite len_app in H1. lia.
Qed.

(** ** Length of the footer *)
Lemma chunks_weight : forall n ss aa cc ee, encoded_as n ss aa cc ee -> forall off,
  wtE (map t_column_chunk (place_chunks off ee)) + 135 * length ss <= names_bytes ss.
Proof.
  intros n ss aa cc ee H. induction H as [|s ss a aa c cc e ee page dict _ _ (_ & _ & HN & _) _ _ IH]; intros off; cbn [place_chunks map wtE names_bytes length]; [lia|].
  specialize (IH (off + len_z (chunk_bytes e))%Z).
  assert (wt (t_column_chunk (ColumnChunk None 0 (Some (meta_of off e)))) <= 265 + length (cs_name s)); [|lia].
  unfold t_column_chunk, meta_of, column_metadata. cbn [cc_file_path cc_file_offset cc_meta of_ app]. rewrite wt_struct. cbn [wtF wt].
  unfold t_column_meta. cbn [cm_type cm_encodings cm_path cm_codec cm_num_values cm_uncompressed cm_compressed cm_data_offset cm_dict_offset cm_statistics of_].
  rewrite wt_struct, !wtF_app, HN. unfold list_tree. cbn [wtF]. rewrite !wt_list. 
  assert (X1 : wtE (map VI32 (if e_uses_dict e then [0; 8; 3]%Z else [0; 3]%Z)) <= 30) by (destruct (e_uses_dict e); cbn; lia).
  match goal with |- context[of_ 11 VI64 ?o] => assert (X2 : wtF (of_ 11 VI64 o) <= 21) by (destruct o; cbn; lia) end.
  cbn [map wtE wt]. lia.
Qed.
Definition group_encoded (schema : list column_schema) (cols : list arrow_column) (cells : list (list (option cell))) (g : nat * list encoded_column) : Prop :=
  encoded_as (fst g) schema cols cells (snd g).
Lemma groups_weight : forall schema gs, schema <> [] -> Forall (fun g => exists cols cells, group_encoded schema cols cells g) gs ->
  forall off, wtE (map t_row_group (place_groups off gs)) <= length gs * names_bytes schema.
Proof.
  intros schema gs Hs H. induction H as [|[n es] gs (cols & cells & HE) _ IH]; intros off; cbn [place_groups map wtE length]; [lia|].
  specialize (IH (off + len_z (body es))%Z).
  assert (wt (t_row_group (group_at off n es)) <= names_bytes schema); [|lia].
  pose proof (chunks_weight _ _ _ _ _ HE off) as W. cbn [snd] in W. assert (1 <= length schema) by (destruct schema; [contradiction|cbn; lia]).
  unfold t_row_group, group_at. cbn [rg_columns rg_total_byte_size rg_num_rows rg_file_offset rg_total_compressed of_ app].
  rewrite wt_struct. cbn [wtF]. unfold list_tree. rewrite wt_list. cbn [wt]. lia.
Qed.
Definition the_metadata (schema : list column_schema) (gs : list (nat * list encoded_column)) : file_meta :=
  file_metadata (PState true false [] None [] schema 0 (place_groups 4 gs) (rows_of gs)).
Lemma metadata_length : forall schema gs, schema <> [] -> Forall (fun g => exists cols cells, group_encoded schema cols cells g) gs ->
  ok_file_meta (the_metadata schema gs) ->
  length (meta_bytes (the_metadata schema gs)) <= (length gs + 1) * names_bytes schema + 999.
Proof.
  intros schema gs Hs HG HO. unfold meta_bytes. rewrite file_meta_emits. pose proof (wf_file_meta _ HO) as HW. unfold t_file_meta in *.
  eapply Nat.le_trans; [apply weight_struct; exact HW|]. rewrite wt_struct, !wtF_app.
  unfold the_metadata, file_metadata. cbn [fm_version fm_schema fm_num_rows fm_row_groups fm_key_values fm_created_by fm_column_orders ps_schema ps_groups ps_rows of_].
  unfold list_tree. cbn [wtF map]. rewrite !wt_list. cbn [wtE].
  pose proof (schema_weight schema) as SW. pose proof (groups_weight schema gs Hs HG 4%Z) as GW.
  assert (R : wt (t_schema_element (SchemaEl None None None (s2b "schema") (Some (to_int32 (length schema))) None)) = 49) by reflexivity.
  assert (CB : length created_by = 36) by reflexivity. rewrite R. cbn [wt]. lia.
Qed.

(** ** The footer is within its types *)
Lemma encoded_sized : forall n ss aa cc ee, encoded_as n ss aa cc ee -> (forall s, In s ss -> small (cs_name s)) -> (N.of_nat n < 2 ^ 31)%N ->
  Forall sized ee /\ length ee = length ss.
Proof.
  intros n ss aa cc ee H Hs Hn. induction H as [|s ss a aa c cc e ee page dict HL _ Sh _ _ IH]; [split; [constructor|reflexivity]|].
  destruct IH as [I1 I2]; [intros x Hx; apply Hs; right; exact Hx|]. split; [|cbn; lia]. constructor; [|exact I1].
  eapply shape_sized; [exact Sh|rewrite HL; exact Hn|apply Hs; left; reflexivity].
Qed.
Lemma metadata_ok : forall schema gs, Forall (fun g => (N.of_nat (fst g) < 2 ^ 31)%N /\ exists cols cells, group_encoded schema cols cells g) gs ->
  footer_fits schema (length gs) -> schema <> [] -> ok_file_meta (the_metadata schema gs).
Proof.
  intros schema gs HG HF Hne. destruct (fits_names _ _ HF) as (N1 & N2 & N3 & N4 & _).
  assert (GS : Forall (group_sized (length schema)) gs).
  { eapply Forall_impl; [|exact HG]. intros [n es] (Hn & cols & cells & HE). unfold group_encoded in HE. cbn [fst snd] in *.
    destruct (encoded_sized _ _ _ _ _ HE N2 Hn) as [A B]. unfold group_sized. cbn [fst snd]. auto. }
  destruct (bodies_size _ _ GS) as [[B1 B2] [B3 B4]].
  change (2 ^ 31)%N with 2147483648%N in *. assert (1 <= length schema) by (destruct schema; [contradiction|cbn; lia]).
  assert (GL : (N.of_nat (length gs) < 5368710)%N) by nia.
  unfold ok_file_meta, the_metadata, file_metadata. cbn [fm_version fm_schema fm_num_rows fm_row_groups fm_key_values fm_created_by fm_column_orders ps_schema ps_groups ps_rows all_opt].
  unfold BIG in *. conjs; try exact I.
  - unfold int32; lia.
  - unfold small. cbn [length]. rewrite map_length. change (2 ^ 31)%N with 2147483648%N. lia.
  - constructor.
    + unfold ok_schema_element. cbn [se_type se_type_length se_repetition se_name se_num_children se_converted all_opt]. conjs; try exact I; [unfold small; cbn; lia|apply to_int32_range].
    + apply Forall_map. apply Forall_forall. intros s Hin. unfold ok_schema_element, schema_leaf. cbn [se_type se_type_length se_repetition se_name se_num_children se_converted all_opt].
      conjs; try exact I; try (apply N2; exact Hin).
      * destruct (cs_type s); unfold int32; cbn; lia.
      * destruct (cs_nullable s); unfold int32; lia.
      * destruct (cs_type s); cbn; try exact I. unfold int32; lia.
  - unfold int64. change (2 ^ 63)%Z with 9223372036854775808%Z. lia.
  - assert (LG : forall gs off, length (place_groups off gs) = length gs) by (induction gs0 as [|[n es] gs0 IH]; intros off; cbn [place_groups length]; [reflexivity|f_equal; apply IH]).
    unfold small. rewrite LG. change (2 ^ 31)%N with 2147483648%N. lia.
  - apply (groups_ok (length schema)); [exact GS|lia|lia|]. change (2 ^ 62)%Z with 4611686018427387904%Z. nia.
  - unfold small. cbn. lia.
  - unfold small. rewrite map_length. change (2 ^ 31)%N with 2147483648%N. lia.
Qed.

(** ** Chunks *)
Variable decompress : Z -> bytes -> option bytes.
Hypothesis HLs : undone library decompress (o_compression options).
Hypothesis HSafe : o_compression options = NONE \/ o_enable_dictionary options = false.
Lemma codec_agrees : forall a b, o_enable_dictionary options = true -> codec_of library options a = codec_of library options b.
Proof. intros a b H. destruct HSafe as [HN|HN]; [|congruence]. unfold codec_of, shrinks. rewrite HN. reflexivity. Qed.
Lemma read_chunk_ok : forall pre suf s c e page dict, column_shape library options s c e page dict -> column_reads library options decompress s c e page dict ->
  read_chunk decompress (pre ++ chunk_bytes e ++ suf) (leaf_of s) (meta_of (len_z pre) e) = Some c.
Proof.
  intros pre suf s c e page dict (A & B & C & D & E & F & G & _ & I) (NE & RD). unfold read_chunk. cbv zeta. destruct (chunk_at (len_z pre) e) as [-> ->].
  rewrite bytes_at_app. cbn [bind]. unfold meta_of, column_metadata. cbn [cm_dict_offset cm_data_offset cm_compressed cm_codec cm_num_values cm_type cm_path].
  cbn [leaf_of l_type l_name l_optional].
  assert (FIN : ((cs_type s = cs_type s) -> (len_z pre + len_z (chunk_bytes e) - len_z (e_header e ++ e_content e) =? len_z pre + len_z (dict_bytes e))%Z
         && (e_num_values e =? Z.of_nat (length c))%Z && (to_parquet_type (e_type e) =? ptype_code (physical (cs_type s)))%Z
         && (if list_eq_dec (list_eq_dec N.eq_dec) [e_name e] [cs_name s] then true else false) = true)).
  { intros _. unfold chunk_bytes. rewrite !len_app. rewrite A, B, C, type_code_of, physical_stored, !Z.eqb_refl. 
    destruct (list_eq_dec (list_eq_dec N.eq_dec) [cs_name s] [cs_name s]); [|contradiction].
    destruct (Z.eqb_spec (len_z pre + (len_z (dict_bytes e) + (len_z (e_header e) + len_z (e_content e))) - (len_z (e_header e) + len_z (e_content e))) (len_z pre + len_z (dict_bytes e))); [reflexivity|lia]. }
  specialize (FIN eq_refl). destruct dict as [[raw entries]|].
  - destruct I as (I1 & I2 & I3 & I4 & I5 & I6 & I7 & I8). destruct RD as [RD1 RD2].
    assert (DB : dict_bytes e = header_bytes (dict_header library options raw (length entries)) ++ stored library options raw) by (unfold dict_bytes; rewrite I2, I4, I6; reflexivity).
    unfold chunk_bytes at 1. rewrite DB. rewrite I2, I4, I6. rewrite <- (physical_stored (cs_type s)) at 1. rewrite I3 at 1. cbn [physical].
    rewrite <- app_assoc, RD1 by (apply codec_agrees; exact I1). rewrite RD2. cbn [bind]. fold (len_z (e_header e ++ e_content e)). rewrite <- DB. match goal with |- (if ?b then _ else _) = _ => assert (FB : b = true) by exact FIN; rewrite FB end. reflexivity.
  - assert (DB : dict_bytes e = []) by (unfold dict_bytes; rewrite I; reflexivity).
    assert (CB : chunk_bytes e = e_header e ++ e_content e) by (unfold chunk_bytes; rewrite DB; reflexivity).
    rewrite I, CB, DB in *. rewrite RD. cbn [bind]. match goal with |- (if ?b then _ else _) = _ => assert (FB : b = true) by exact FIN; rewrite FB end. reflexivity.
Qed.
Lemma read_chunks_ok : forall n ss aa cc ee, encoded_as n ss aa cc ee -> forall pre suf,
  read_chunks decompress (pre ++ body ee ++ suf) (map leaf_of ss) (place_chunks (len_z pre) ee) (Z.of_nat n) = Some cc.
Proof.
  intros n ss aa cc ee H. induction H as [|s ss a aa c cc e ee page dict HL _ Sh Rd _ IH]; intros pre suf; [reflexivity|].
  cbn [map place_chunks read_chunks cc_meta bind]. unfold body. cbn [map concat]. fold (body ee). rewrite <- app_assoc.
  rewrite (read_chunk_ok pre (body ee ++ suf) s c e page dict Sh (Rd decompress HLs)). cbn [bind]. rewrite HL, Z.eqb_refl.
  rewrite <- len_app, app_assoc, IH. reflexivity.
Qed.
Lemma read_groups_ok : forall schema gs cells, Forall2 (fun g c => exists cols, group_encoded schema cols c g) gs cells -> forall pre suf,
  all_some (map (fun g => read_chunks decompress (pre ++ bodies gs ++ suf) (map leaf_of schema) (rg_columns g) (rg_num_rows g)) (place_groups (len_z pre) gs)) = Some cells.
Proof.
  intros schema gs cells H.
  assert (G : forall mid pre suf, all_some (map (fun g => read_chunks decompress (pre ++ mid ++ bodies gs ++ suf) (map leaf_of schema) (rg_columns g) (rg_num_rows g)) (place_groups (len_z (pre ++ mid)) gs)) = Some cells).
  { induction H as [|[n es] c gs cells (cols & HE) _ IH]; intros mid pre suf; [reflexivity|]. cbn [place_groups map all_some group_at rg_columns rg_num_rows].
    unfold bodies. cbn [map concat snd]. fold (bodies gs). 
    unfold group_encoded in HE. cbn [fst snd] in HE.
    pose proof (read_chunks_ok _ _ _ _ _ HE (pre ++ mid) (bodies gs ++ suf)) as RC. rewrite <- !app_assoc in RC. rewrite <- !app_assoc, RC.
    rewrite <- len_app. specialize (IH (mid ++ body es) pre suf). rewrite <- !app_assoc in IH |- *. rewrite IH. reflexivity. }
  intros pre suf. specialize (G [] pre suf). rewrite app_nil_r in G. exact G.
Qed.
End File.
