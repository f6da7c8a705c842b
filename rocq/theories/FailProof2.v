(** What a broken pipeline leaves behind. *)
From Verif Require Import Base VarintSpec ThriftSpec ThriftModel ThriftProof MetaSpec MetaModel MetaProof MetaProps
  TypesSpec BuffersModel BuffersReach RleModel RleProof RleProof2 PlainSpec PlainModel PlainProof ParquetSpec ParquetModel ParquetObs
  ParquetProof ParquetProof2 ParquetProof3 ParquetProof4 ParquetProof5 QueueSpec QueueModel PipelineModel ConvertProof5 ConvertProof6 FailModel.

Definition zgroup (g : nat * list encoded_column) : Z * list encoded_column := (Z.of_nat (fst g), snd g).
Lemma written_clean : forall gs p, clean p -> written p (map zgroup gs) = grown p (bodies gs) (place_groups (ps_offset p) gs) (rows_of gs).
Proof.
  unfold written. induction gs as [|[n es] gs IH]; intros p HC; cbn [map fold_left zgroup fst snd].
  - unfold bodies, rows_of. cbn [map concat place_groups sum fold_right]. apply clean_self, HC.
  - rewrite write_group_clean by exact HC. rewrite IH by apply clean_grown. pose proof HC as (_ & _ & _ & HL). cbn [grown ps_offset]. rewrite len_app, <- HL.
    rewrite grown_grown. unfold bodies, rows_of. cbn [map concat place_groups sum fold_right fst snd app]. reflexivity.
Qed.
Definition broken_bytes (g : nat * list encoded_column) (at_ : place) : bytes := match at_ with InColumn j => body (firstn (S j) (snd g)) | AtTheEnd => body (snd g) end.
Definition broken_rows (g : nat * list encoded_column) (at_ : place) : Z := match at_ with InColumn _ => 0%Z | AtTheEnd => Z.of_nat (fst g) end.
Lemma broken_clean : forall p g at_, clean p -> broken_group p (zgroup g) at_ = grown p (broken_bytes g at_) [] (broken_rows g at_).
Proof.
  intros p [n es] at_ HC. destruct at_ as [j|]; unfold broken_group, broken_bytes, broken_rows; cbn [zgroup fst snd]; rewrite fold_write_column by exact HC; cbn [fst]; [reflexivity|].
  unfold grown. cbn [ps_open ps_failed ps_file ps_capacity ps_closed ps_schema ps_offset ps_groups ps_rows]. rewrite Z.add_0_r. reflexivity.
Qed.
Definition meta_with (schema : list column_schema) (gs : list (nat * list encoded_column)) (rows : Z) : file_meta :=
  file_metadata (PState true false [] None [] schema 0 (place_groups 4 gs) rows).
Definition file_with (schema : list column_schema) (gs : list (nat * list encoded_column)) (extra : bytes) (rows : Z) : bytes :=
  file_magic ++ bodies gs ++ extra ++ meta_bytes (meta_with schema gs rows) ++ int32_bytes (to_int32 (length (meta_bytes (meta_with schema gs rows)))) ++ file_magic.
Lemma close_grown : forall schema gs extra more, ps_closed (fst (do_close (grown (grown (opened schema) (bodies gs) (place_groups 4 gs) (rows_of gs)) extra [] more))) = [file_with schema gs extra (rows_of gs + more)].
Proof.
  intros. rewrite grown_grown, app_nil_r. unfold do_close. cbn [grown ps_open negb].
  set (md := w_buffer _). set (p := grown (opened schema) _ _ _).
  assert (CP : clean p) by apply clean_grown.
  rewrite (write_bytes_clean p) by exact CP. rewrite (write_bytes_clean (grown p md [] 0)) by apply clean_grown. rewrite write_bytes_clean by apply clean_grown. rewrite !grown_grown. cbn [fst grown ps_closed ps_file].
  unfold p. cbn [grown ps_closed ps_file]. change (ps_closed (opened schema)) with (@nil bytes). cbn [app]. f_equal.
  change (ps_file (opened schema)) with file_magic. unfold file_with. rewrite <- !app_assoc. reflexivity.
Qed.

Section Read.
Variable library : compression -> bytes -> option bytes.
Variable below : nat -> nat -> bool.
Variable options : parquet_options.
Variable decompress : Z -> bytes -> option bytes.
Hypothesis HLs : undone library decompress (o_compression options).
Hypothesis HSafe : o_compression options = NONE \/ o_enable_dictionary options = false.

Lemma file_with_read : forall schema groups gs extra more, schema <> [] -> footer_fits schema (length groups) -> length gs = length groups ->
  Forall2 (fun (g : group) x => (N.of_nat (fst x) < 2 ^ 31)%N /\ group_encoded library below options schema (fst g) (snd g) x) groups gs ->
  (0 <= more < 2 ^ 31)%Z ->
  ParquetSpec.read_file decompress (file_with schema gs extra (rows_of gs + more)) =
    if (more =? 0)%Z then Some (Table (map leaf_of schema) (map snd groups)) else None.
Proof.
  intros schema groups gs extra more Hne HF HL E2 HM. pose proof (encoded_forall _ _ _ _ _ _ E2) as HA.
  assert (HF' := HF). rewrite <- HL in HF'.
  pose proof (metadata_ok library below options schema gs HA HF' Hne) as OK0.
  assert (HA' : Forall (fun g => exists cols cells, group_encoded library below options schema cols cells g) gs) by (eapply Forall_impl; [|exact HA]; intros g [_ X]; exact X).
  set (fm := meta_with schema gs (rows_of gs + more)).
  assert (OK : ok_file_meta fm).
  { unfold fm, meta_with, the_metadata in *. unfold ok_file_meta, file_metadata in *. cbn [fm_version fm_schema fm_num_rows fm_row_groups fm_key_values fm_created_by fm_column_orders ps_schema ps_groups ps_rows] in *.
    assert (B : (0 <= rows_of gs <= 2147483648 * Z.of_nat (length gs))%Z).
    { clear - HA. unfold rows_of. induction gs as [|[n es] gs IH]; [cbn; lia|]. apply Forall_cons_iff in HA. destruct HA as [[A _] HA]. specialize (IH HA). cbn [map sum fold_right fst length] in *. cbn [fst] in A. change (2 ^ 31)%N with 2147483648%N in A. unfold sum in *. lia. }
    assert (NG : (Z.of_nat (length gs) < 2 ^ 31)%Z).
    { destruct (fits_names _ _ HF') as (_ & _ & _ & _ & X). change (2 ^ 31)%N with 2147483648%N in X. change (2 ^ 31)%Z with 2147483648%Z. assert (1 <= length schema) by (destruct schema; [contradiction|cbn; lia]). pose proof (names_count schema). nia. }
    assert (RI : int64 (rows_of gs + more)) by (unfold int64; change (2 ^ 63)%Z with 9223372036854775808%Z; change (2 ^ 31)%Z with 2147483648%Z in *; lia).
    clear - OK0 RI. tauto. }
  assert (LB : length (meta_bytes fm) <= (length gs + 1) * names_bytes schema + 999).
  { unfold meta_bytes. rewrite file_meta_emits. pose proof (wf_file_meta _ OK) as HW. unfold t_file_meta in *. eapply Nat.le_trans; [apply weight_struct; exact HW|]. rewrite wt_struct, !wtF_app.
    unfold fm, meta_with, file_metadata. cbn [fm_version fm_schema fm_num_rows fm_row_groups fm_key_values fm_created_by fm_column_orders ps_schema ps_groups ps_rows of_].
    unfold list_tree. cbn [wtF map]. rewrite !wt_list. cbn [wtE]. pose proof (schema_weight schema) as SW. pose proof (groups_weight library below options schema gs Hne HA' 4%Z) as GW.
    assert (R : wt (t_schema_element (SchemaEl None None None (s2b "schema") (Some (to_int32 (length schema))) None)) = 49) by reflexivity.
    assert (CB : length created_by = 36) by reflexivity. rewrite R. cbn [wt]. lia. }
  assert (FT : footer (file_with schema gs extra (rows_of gs + more)) = Some (meta_bytes fm)).
  { unfold file_with. fold fm. rewrite (app_assoc (bodies gs)). apply footer_found. destruct (fits_names _ _ HF') as (_ & _ & _ & _ & X). eapply N.le_lt_trans; [|exact X]. lia. }
  assert (PM : read_as parse_file_meta (meta_bytes fm) = Some (fm, [])).
  { destruct (C63_file_metadata _ OK) as (bs & W & R). destruct (W (new_writer [])) as (E & _). unfold meta_bytes. rewrite E. cbn [new_writer w_buffer app]. specialize (R []). rewrite app_nil_r in R. exact R. }
  unfold ParquetSpec.read_file. rewrite FT. cbn [bind]. rewrite PM. unfold fm at 1 2 3 4, meta_with, file_metadata. cbn [fm_schema fm_row_groups fm_num_rows ps_schema ps_groups ps_rows].
  rewrite (read_schema_ok below _ _ HF). cbn [bind].
  assert (RG : Forall2 (fun g c => exists cols, group_encoded library below options schema cols c g) gs (map snd groups)).
  { clear - E2. induction E2 as [|[cols cells] x groups gs [A B] _ IH]; [constructor|]. cbn [map snd]. constructor; [|exact IH]. exists cols. exact B. }
  pose proof (read_groups_ok library below options decompress HLs HSafe schema gs (map snd groups) RG file_magic
    (extra ++ meta_bytes fm ++ int32_bytes (to_int32 (length (meta_bytes fm))) ++ file_magic)) as RR.
  change (len_z file_magic) with 4%Z in RR. unfold file_with. fold fm. rewrite RR. cbn [bind]. rewrite rows_sum.
  destruct (Z.eqb_spec more 0) as [->|NE]; [rewrite Z.add_0_r, Z.eqb_refl; reflexivity|]. destruct (Z.eqb_spec (rows_of gs + more) (rows_of gs)); [lia|reflexivity].
Qed.
Lemma encoded_groups : forall schema colss gs, Forall2 (encodes library below options schema) colss gs -> encode_groups library below options schema colss = Some (map zgroup gs).
Proof.
  intros schema colss gs H. induction H as [|cols [n es] colss gs (a & r & -> & Hn & He) _ IH]; [reflexivity|]. cbn [encode_groups]. rewrite He, IH. cbn [map zgroup fst snd] in *. rewrite Hn. reflexivity.
Qed.
Lemma firstn_f2 : forall A B (R : A -> B -> Prop) k a b, Forall2 R a b -> Forall2 R (firstn k a) (firstn k b).
Proof. intros A B R k a b H. revert k. induction H as [|x y a b HR _ IH]; intros [|k]; cbn [firstn]; constructor; auto. Qed.
Lemma nth_f2 : forall A B (R : A -> B -> Prop) a b, Forall2 R a b -> forall k y, nth_error b k = Some y -> exists x, nth_error a k = Some x /\ R x y.
Proof. intros A B R a b H. induction H as [|x y a b HR _ IH]; intros [|k] z E; cbn [nth_error] in *; try discriminate; [injection E as <-; exists x; auto|apply IH, E]. Qed.

(** The groups before the broken one are in the file, and nothing else. *)
Lemma broken_left : forall schema (groups : list group) n at_, schema <> [] ->
  Forall (fun g : group => group_fits schema (fst g) (snd g)) groups -> footer_fits schema (length groups) -> n < length groups ->
  exists encoded file, encode_groups library below options schema (map fst groups) = Some encoded /\ length encoded = length groups /\
    ps_closed (left_behind (opened schema) n at_ (firstn (S n) encoded)) = [file] /\
    match at_ with
    | InColumn _ => ParquetSpec.read_file decompress file = Some (Table (map leaf_of schema) (firstn n (map snd groups)))
    | AtTheEnd => forall g, nth_error encoded n = Some g ->
        ParquetSpec.read_file decompress file = if (fst g =? 0)%Z then Some (Table (map leaf_of schema) (firstn n (map snd groups))) else None
    end.
Proof.
  intros schema groups n at_ Hne HG HF LN. destruct (groups_encode library below options schema groups Hne HG) as (gs & E1 & E2 & E3).
  assert (LG : length (map zgroup gs) = length groups) by (rewrite map_length; exact E3).
  destruct (nth_error gs n) as [g|] eqn:EN; [|apply nth_error_None in EN; lia].
  assert (LB : left_behind (opened schema) n at_ (firstn (S n) (map zgroup gs)) =
     fst (do_close (grown (grown (opened schema) (bodies (firstn n gs)) (place_groups 4 (firstn n gs)) (rows_of (firstn n gs))) (broken_bytes g at_) [] (broken_rows g at_)))).
  { unfold left_behind. rewrite firstn_firstn, Nat.min_l by lia. rewrite (firstn_map zgroup n gs), written_clean by (unfold clean; cbn; auto).
    assert (NE : nth_error (firstn (S n) (map zgroup gs)) n = Some (zgroup g)).
    { rewrite <- (firstn_skipn (S n) (map zgroup gs)) in LG. assert (X : nth_error (map zgroup gs) n = Some (zgroup g)) by (rewrite nth_error_map, EN; reflexivity).
      rewrite <- (firstn_skipn (S n) (map zgroup gs)) in X. rewrite nth_error_app1 in X; [exact X|]. rewrite firstn_length, map_length. lia. }
    rewrite NE, broken_clean by apply clean_grown. reflexivity. }
  assert (HF' : footer_fits schema (length (firstn n groups))) by (eapply footer_smaller; [|exact HF]; rewrite firstn_length; lia).
  assert (HL' : length (firstn n gs) = length (firstn n groups)) by (rewrite !firstn_length, E3; reflexivity).
  assert (E2' := firstn_f2 _ _ _ n _ _ E2). destruct (nth_f2 _ _ _ _ _ E2 _ _ EN) as (gg & _ & (GN & _)).
  assert (BR : (0 <= broken_rows g at_ < 2 ^ 31)%Z) by (destruct at_; cbn [broken_rows]; change (2 ^ 31)%N with 2147483648%N in GN; change (2 ^ 31)%Z with 2147483648%Z; lia).
  pose proof (file_with_read schema (firstn n groups) (firstn n gs) (broken_bytes g at_) (broken_rows g at_) Hne HF' HL' E2' BR) as RD.
  eexists. eexists. split; [exact (encoded_groups _ _ _ E1)|]. split; [exact LG|]. split; [rewrite LB; apply close_grown|]. rewrite firstn_map. destruct at_ as [j|].
  - cbn [broken_rows] in *. exact RD.
  - intros g' EG. rewrite nth_error_map, EN in EG. cbn [option_map] in EG. injection EG as <-. cbn [zgroup fst]. exact RD.
Qed.
End Read.
