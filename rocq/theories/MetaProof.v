From Verif Require Import Base VarintSpec ThriftSpec ThriftModel ThriftProof MetaSpec MetaModel.

(** The Thrift tree of each structure. *)
Definition of_ {A} (id : Z) (tree : A -> value) (o : option A) : list (Z * value) :=
  match o with None => [] | Some a => [(id, tree a)] end.
Definition list_tree {A} (t : ttype) (tree : A -> value) (l : list A) : value := VList t (map tree l).

Definition t_statistics (s : statistics) : value := VStruct
  (of_ 1 VBinary (s_max s) ++ of_ 2 VBinary (s_min s) ++ of_ 3 VI64 (s_null_count s) ++
   of_ 4 VI64 (s_distinct_count s) ++ of_ 5 VBinary (s_max_value s) ++ of_ 6 VBinary (s_min_value s)).
Definition t_schema_element (s : schema_element) : value := VStruct
  (of_ 1 VI32 (se_type s) ++ of_ 2 VI32 (se_type_length s) ++ of_ 3 VI32 (se_repetition s) ++
   [(4%Z, VBinary (se_name s))] ++ of_ 5 VI32 (se_num_children s) ++ of_ 6 VI32 (se_converted s)).
Definition t_data_page (d : data_page_header) : value := VStruct
  ([(1%Z, VI32 (dp_num_values d))] ++ [(2%Z, VI32 (dp_encoding d))] ++ [(3%Z, VI32 (dp_def_encoding d))] ++
   [(4%Z, VI32 (dp_rep_encoding d))] ++ of_ 5 t_statistics (dp_statistics d)).
Definition t_dict_page (d : dict_page_header) : value := VStruct
  ([(1%Z, VI32 (di_num_values d))] ++ [(2%Z, VI32 (di_encoding d))] ++ of_ 3 VBool (di_is_sorted d)).
Definition t_data_page_v2 (d : data_page_header_v2) : value := VStruct
  ([(1%Z, VI32 (d2_num_values d))] ++ [(2%Z, VI32 (d2_num_nulls d))] ++ [(3%Z, VI32 (d2_num_rows d))] ++
   [(4%Z, VI32 (d2_encoding d))] ++ [(5%Z, VI32 (d2_def_length d))] ++ [(6%Z, VI32 (d2_rep_length d))] ++
   of_ 7 VBool (d2_is_compressed d) ++ of_ 8 t_statistics (d2_statistics d)).
Definition t_page_header (p : page_header) : value := VStruct
  ([(1%Z, VI32 (ph_type p))] ++ [(2%Z, VI32 (ph_uncompressed p))] ++ [(3%Z, VI32 (ph_compressed p))] ++
   of_ 4 VI32 (ph_crc p) ++ of_ 5 t_data_page (ph_data p) ++ of_ 7 t_dict_page (ph_dict p)).
Definition t_key_value (k : key_value) : value := VStruct ([(1%Z, VBinary (kv_key k))] ++ of_ 2 VBinary (kv_value k)).
Definition t_column_meta (c : column_meta) : value := VStruct
  ([(1%Z, VI32 (cm_type c))] ++ [(2%Z, list_tree TI32 VI32 (cm_encodings c))] ++ [(3%Z, list_tree TBinary VBinary (cm_path c))] ++
   [(4%Z, VI32 (cm_codec c))] ++ [(5%Z, VI64 (cm_num_values c))] ++ [(6%Z, VI64 (cm_uncompressed c))] ++
   [(7%Z, VI64 (cm_compressed c))] ++ [(9%Z, VI64 (cm_data_offset c))] ++ of_ 11 VI64 (cm_dict_offset c) ++
   of_ 12 t_statistics (cm_statistics c)).
Definition t_column_chunk (c : column_chunk) : value := VStruct
  (of_ 1 VBinary (cc_file_path c) ++ [(2%Z, VI64 (cc_file_offset c))] ++ of_ 3 t_column_meta (cc_meta c)).
Definition t_row_group (r : row_group) : value := VStruct
  ([(1%Z, list_tree TStruct t_column_chunk (rg_columns r))] ++ [(2%Z, VI64 (rg_total_byte_size r))] ++
   [(3%Z, VI64 (rg_num_rows r))] ++ of_ 5 VI64 (rg_file_offset r) ++ of_ 6 VI64 (rg_total_compressed r)).
Definition t_column_order (c : column_order) : value := VStruct [(1%Z, VStruct [])].
Definition t_file_meta (f : file_meta) : value := VStruct
  ([(1%Z, VI32 (fm_version f))] ++ [(2%Z, list_tree TStruct t_schema_element (fm_schema f))] ++ [(3%Z, VI64 (fm_num_rows f))] ++
   [(4%Z, list_tree TStruct t_row_group (fm_row_groups f))] ++ of_ 5 (list_tree TStruct t_key_value) (fm_key_values f) ++
   of_ 6 VBinary (fm_created_by f) ++ of_ 7 (list_tree TStruct t_column_order) (fm_column_orders f)).

(** ** Writing is emitting the tree *)
Lemma emit_fields_app : forall w a b, emit_fields w (a ++ b) = emit_fields (emit_fields w a) b.
Proof. intros. unfold emit_fields. apply fold_left_app. Qed.
Lemma opt_emits : forall A (write : writer -> A -> writer) (tree : A -> value) id code o w,
  (forall w a, write w a = emit w (tree a)) -> (forall a, code_of_field (tree a) = code) -> (forall a b, tree a <> VBool b) ->
  write_opt w id code o write = emit_fields w (of_ id tree o).
Proof.
  intros A write tree id code [a|] w H1 H2 H3; [|reflexivity]. cbn [write_opt of_ emit_fields fold_left fst snd].
  rewrite H2, H1. specialize (H3 a). destruct (tree a); try reflexivity. exfalso. eapply H3. reflexivity.
Qed.
Lemma req_emits : forall A (write : writer -> A -> writer) (tree : A -> value) id code a w,
  (forall w a, write w a = emit w (tree a)) -> (forall a, code_of_field (tree a) = code) -> (forall a b, tree a <> VBool b) ->
  write_req w id code a write = emit_fields w [(id, tree a)].
Proof. intros A write tree id code a w H1 H2 H3. exact (opt_emits A write tree id code (Some a) w H1 H2 H3). Qed.
Lemma opt_bool_emits : forall id o w, write_opt_bool w id o = emit_fields w (of_ id VBool o).
Proof. intros id [b|] w; reflexivity. Qed.
Lemma list_emits : forall A (write : writer -> A -> writer) (tree : A -> value) t w l,
  (forall w a, write w a = emit w (tree a)) -> write_list (code_of_type t) write w l = emit w (list_tree t tree l).
Proof.
  intros A write tree t w l H. unfold list_tree. rewrite emit_list, map_length. unfold write_list, write_list_end, emit_elems.
  generalize (write_list_begin w (code_of_type t) (N.of_nat (length l))). induction l as [|a l IH]; intros w1; [reflexivity|].
  cbn [fold_left map]. rewrite H. apply IH.
Qed.
Lemma binary_emits : forall w a, write_binary w a = emit w (VBinary a). Proof. reflexivity. Qed.
Lemma i32_emits : forall w a, write_i32 w a = emit w (VI32 a). Proof. reflexivity. Qed.
Lemma i64_emits : forall w a, write_i64 w a = emit w (VI64 a). Proof. reflexivity. Qed.

Ltac side := first [assumption | reflexivity | (intros; reflexivity) | (intros; discriminate) | (intros; apply list_emits; assumption)].
Lemma statistics_emits : forall w s, write_statistics w s = emit w (t_statistics s).
Proof.
  intros w s. unfold t_statistics. rewrite emit_struct. unfold write_statistics. cbv zeta. rewrite !emit_fields_app.
  rewrite (opt_emits _ write_binary VBinary 1), (opt_emits _ write_binary VBinary 2), (opt_emits _ write_i64 VI64 3),
    (opt_emits _ write_i64 VI64 4), (opt_emits _ write_binary VBinary 5), (opt_emits _ write_binary VBinary 6) by side. reflexivity.
Qed.
Lemma schema_element_emits : forall w s, write_schema_element w s = emit w (t_schema_element s).
Proof.
  intros w s. unfold t_schema_element. rewrite emit_struct. unfold write_schema_element. cbv zeta. rewrite !emit_fields_app.
  rewrite (opt_emits _ write_i32 VI32 1), (opt_emits _ write_i32 VI32 2), (opt_emits _ write_i32 VI32 3),
    (req_emits _ write_binary VBinary 4), (opt_emits _ write_i32 VI32 5), (opt_emits _ write_i32 VI32 6) by side. reflexivity.
Qed.
Lemma data_page_emits : forall w s, write_data_page w s = emit w (t_data_page s).
Proof.
  intros w s. pose proof statistics_emits. unfold t_data_page. rewrite emit_struct. unfold write_data_page. cbv zeta. rewrite !emit_fields_app.
  rewrite (req_emits _ write_i32 VI32 1), (req_emits _ write_i32 VI32 2), (req_emits _ write_i32 VI32 3),
    (req_emits _ write_i32 VI32 4), (opt_emits _ write_statistics t_statistics 5) by side. reflexivity.
Qed.
Lemma dict_page_emits : forall w s, write_dict_page w s = emit w (t_dict_page s).
Proof.
  intros w s. unfold t_dict_page. rewrite emit_struct. unfold write_dict_page. cbv zeta. rewrite !emit_fields_app.
  rewrite (req_emits _ write_i32 VI32 1), (req_emits _ write_i32 VI32 2), opt_bool_emits by side. reflexivity.
Qed.
Lemma data_page_v2_emits : forall w s, write_data_page_v2 w s = emit w (t_data_page_v2 s).
Proof.
  intros w s. pose proof statistics_emits. unfold t_data_page_v2. rewrite emit_struct. unfold write_data_page_v2. cbv zeta. rewrite !emit_fields_app.
  rewrite (req_emits _ write_i32 VI32 1), (req_emits _ write_i32 VI32 2), (req_emits _ write_i32 VI32 3),
    (req_emits _ write_i32 VI32 4), (req_emits _ write_i32 VI32 5), (req_emits _ write_i32 VI32 6), opt_bool_emits,
    (opt_emits _ write_statistics t_statistics 8) by side. reflexivity.
Qed.
Lemma page_header_emits : forall w s, write_page_header w s = emit w (t_page_header s).
Proof.
  intros w s. pose proof data_page_emits. pose proof dict_page_emits. unfold t_page_header. rewrite emit_struct. unfold write_page_header. cbv zeta. rewrite !emit_fields_app.
  rewrite (req_emits _ write_i32 VI32 1), (req_emits _ write_i32 VI32 2), (req_emits _ write_i32 VI32 3),
    (opt_emits _ write_i32 VI32 4), (opt_emits _ write_data_page t_data_page 5), (opt_emits _ write_dict_page t_dict_page 7) by side. reflexivity.
Qed.
Lemma key_value_emits : forall w s, write_key_value w s = emit w (t_key_value s).
Proof.
  intros w s. unfold t_key_value. rewrite emit_struct. unfold write_key_value. cbv zeta. rewrite !emit_fields_app.
  rewrite (req_emits _ write_binary VBinary 1), (opt_emits _ write_binary VBinary 2) by side. reflexivity.
Qed.
Lemma column_meta_emits : forall w s, write_column_meta w s = emit w (t_column_meta s).
Proof.
  intros w s. pose proof statistics_emits.
  assert (L1 : forall w l, write_list TYPE_I32 write_i32 w l = emit w (list_tree TI32 VI32 l)) by (intros; apply (list_emits _ write_i32 VI32 TI32); side).
  assert (L2 : forall w l, write_list TYPE_BINARY write_binary w l = emit w (list_tree TBinary VBinary l)) by (intros; apply (list_emits _ write_binary VBinary TBinary); side).
  unfold t_column_meta. rewrite emit_struct. unfold write_column_meta. cbv zeta. rewrite !emit_fields_app.
  rewrite (req_emits _ write_i32 VI32 1), (req_emits _ _ (list_tree TI32 VI32) 2), (req_emits _ _ (list_tree TBinary VBinary) 3),
    (req_emits _ write_i32 VI32 4), (req_emits _ write_i64 VI64 5), (req_emits _ write_i64 VI64 6), (req_emits _ write_i64 VI64 7),
    (req_emits _ write_i64 VI64 9), (opt_emits _ write_i64 VI64 11), (opt_emits _ write_statistics t_statistics 12) by side. reflexivity.
Qed.
Lemma column_chunk_emits : forall w s, write_column_chunk w s = emit w (t_column_chunk s).
Proof.
  intros w s. pose proof column_meta_emits. unfold t_column_chunk. rewrite emit_struct. unfold write_column_chunk. cbv zeta. rewrite !emit_fields_app.
  rewrite (opt_emits _ write_binary VBinary 1), (req_emits _ write_i64 VI64 2), (opt_emits _ write_column_meta t_column_meta 3) by side. reflexivity.
Qed.
Lemma row_group_emits : forall w s, write_row_group w s = emit w (t_row_group s).
Proof.
  intros w s.
  assert (L1 : forall w l, write_list TYPE_STRUCT write_column_chunk w l = emit w (list_tree TStruct t_column_chunk l))
    by (intros; apply (list_emits _ write_column_chunk t_column_chunk TStruct); apply column_chunk_emits).
  unfold t_row_group. rewrite emit_struct. unfold write_row_group. cbv zeta. rewrite !emit_fields_app.
  rewrite (req_emits _ _ (list_tree TStruct t_column_chunk) 1), (req_emits _ write_i64 VI64 2), (req_emits _ write_i64 VI64 3),
    (opt_emits _ write_i64 VI64 5), (opt_emits _ write_i64 VI64 6) by side. reflexivity.
Qed.
Lemma column_order_emits : forall w s, write_column_order w s = emit w (t_column_order s).
Proof. reflexivity. Qed.
Lemma file_meta_emits : forall w s, write_file_meta w s = emit w (t_file_meta s).
Proof.
  intros w s.
  assert (L1 : forall w l, write_list TYPE_STRUCT write_schema_element w l = emit w (list_tree TStruct t_schema_element l))
    by (intros; apply (list_emits _ write_schema_element t_schema_element TStruct); apply schema_element_emits).
  assert (L2 : forall w l, write_list TYPE_STRUCT write_row_group w l = emit w (list_tree TStruct t_row_group l))
    by (intros; apply (list_emits _ write_row_group t_row_group TStruct); apply row_group_emits).
  assert (L3 : forall w l, write_list TYPE_STRUCT write_key_value w l = emit w (list_tree TStruct t_key_value l))
    by (intros; apply (list_emits _ write_key_value t_key_value TStruct); apply key_value_emits).
  assert (L4 : forall w l, write_list TYPE_STRUCT write_column_order w l = emit w (list_tree TStruct t_column_order l))
    by (intros; apply (list_emits _ write_column_order t_column_order TStruct); apply column_order_emits).
  unfold t_file_meta. rewrite emit_struct. unfold write_file_meta. cbv zeta. rewrite !emit_fields_app.
  rewrite (req_emits _ write_i32 VI32 1), (req_emits _ _ (list_tree TStruct t_schema_element) 2), (req_emits _ write_i64 VI64 3),
    (req_emits _ _ (list_tree TStruct t_row_group) 4), (opt_emits _ _ (list_tree TStruct t_key_value) 5),
    (opt_emits _ write_binary VBinary 6), (opt_emits _ _ (list_tree TStruct t_column_order) 7) by side. reflexivity.
Qed.

(** ** The trees are well formed *)
Lemma wff_app : forall a b, wf_fields a -> wf_fields b -> wf_fields (a ++ b).
Proof. intros a b Ha Hb. induction a as [|[i v] a IH]; [assumption|]. inversion Ha; subst. cbn [app]. constructor; auto. Qed.
Lemma wff_opt : forall A (P : A -> Prop) id tree o, int16 id -> (forall a, P a -> wf (tree a)) -> all_opt P o -> wf_fields (of_ id tree o).
Proof. intros A P id tree [a|] Hi Ht Ho; cbn [of_]; repeat constructor; auto; unfold int16 in Hi; lia. Qed.
Lemma wff_one : forall id v, int16 id -> wf v -> wf_fields [(id, v)].
Proof. intros. repeat constructor; auto; unfold int16 in H; lia. Qed.
Lemma wf_list_tree : forall A (P : A -> Prop) t (tree : A -> value) l,
  small l -> Forall P l -> (forall a, P a -> wf (tree a)) -> (forall a, type_of (tree a) = t) -> wf (list_tree t tree l).
Proof.
  intros A P t tree l Hs HF Ht Hty. unfold list_tree. constructor; [rewrite map_length; exact Hs|].
  clear Hs. induction HF; cbn [map]; constructor; auto.
Qed.
Lemma wf_small : forall s, small s -> wf (VBinary s).
Proof. intros s H. constructor. unfold small in H. lia. Qed.
Ltac wff := repeat match goal with
  | |- wf_fields (_ ++ _) => apply wff_app
  | |- wf_fields (of_ _ VBinary _) => eapply (wff_opt _ small); [unfold int16; lia|exact wf_small|assumption]
  | |- wf_fields (of_ _ VI32 _) => eapply (wff_opt _ int32); [unfold int16; lia|exact wf_i32|assumption]
  | |- wf_fields (of_ _ VI64 _) => eapply (wff_opt _ int64); [unfold int16; lia|exact wf_i64|assumption]
  | |- wf_fields (of_ _ VBool ?o) => apply (wff_opt _ (fun _ => True)); [unfold int16; lia|intros; constructor|destruct o; exact I]
  | |- wf_fields (of_ _ _ _) => eapply wff_opt; [unfold int16; lia|eassumption|assumption]
  | |- wf_fields [_] => apply wff_one; [unfold int16; lia|]
  | |- wf (VI32 _) => constructor; assumption
  | |- wf (VI64 _) => constructor; assumption
  | |- wf (VBinary _) => apply wf_small; assumption
  | |- wf (VStruct _) => constructor
  end.
Lemma wf_statistics : forall s, ok_statistics s -> wf (t_statistics s).
Proof. intros s (A & B & C & D & E & F). unfold t_statistics. wff. Qed.
Lemma wf_schema_element : forall s, ok_schema_element s -> wf (t_schema_element s).
Proof. intros s (A & B & C & D & E & F). unfold t_schema_element. wff. Qed.
Lemma wf_data_page : forall s, ok_data_page s -> wf (t_data_page s).
Proof. intros s (A & B & C & D & E). pose proof wf_statistics. unfold t_data_page. wff. Qed.
Lemma wf_dict_page : forall s, ok_dict_page s -> wf (t_dict_page s).
Proof. intros s (A & B). unfold t_dict_page. wff. Qed.
Lemma wf_data_page_v2 : forall s, ok_data_page_v2 s -> wf (t_data_page_v2 s).
Proof. intros s (A & B & C & D & E & F & G). pose proof wf_statistics. unfold t_data_page_v2. wff. Qed.
Lemma wf_page_header : forall s, ok_page_header s -> wf (t_page_header s).
Proof. intros s (A & B & C & D & E & F). pose proof wf_data_page. pose proof wf_dict_page. unfold t_page_header. wff. Qed.
Lemma wf_key_value : forall s, ok_key_value s -> wf (t_key_value s).
Proof. intros s (A & B). unfold t_key_value. wff. Qed.
Lemma wf_column_meta : forall s, ok_column_meta s -> wf (t_column_meta s).
Proof.
  intros s (A & B & B' & C & C' & D & E & F & G & H & I & J). pose proof wf_statistics. unfold t_column_meta. wff.
  - apply (wf_list_tree _ int32); auto. exact wf_i32.
  - apply (wf_list_tree _ small); auto. exact wf_small.
Qed.
Lemma wf_column_chunk : forall s, ok_column_chunk s -> wf (t_column_chunk s).
Proof. intros s (A & B & C). pose proof wf_column_meta. unfold t_column_chunk. wff. Qed.
Lemma wf_row_group : forall s, ok_row_group s -> wf (t_row_group s).
Proof.
  intros s (A & A' & B & C & D & E). unfold t_row_group. wff.
  apply (wf_list_tree _ ok_column_chunk); auto. exact wf_column_chunk.
Qed.
Lemma wf_column_order : forall s, wf (t_column_order s).
Proof. intros s. unfold t_column_order. wff. constructor. Qed.
Lemma wf_file_meta : forall s, ok_file_meta s -> wf (t_file_meta s).
Proof.
  intros s (A & B & B' & C & D & D' & E & F & G). unfold t_file_meta.
  assert (K : forall l, small l /\ Forall ok_key_value l -> wf (list_tree TStruct t_key_value l)).
  { intros l (K1 & K2). apply (wf_list_tree _ ok_key_value); auto. exact wf_key_value. }
  assert (O : forall l, small l -> wf (list_tree TStruct t_column_order l)).
  { intros l K1. apply (wf_list_tree _ (fun _ => True)); auto; [|intros; apply wf_column_order]. clear. induction l; constructor; auto. }
  wff.
  - apply (wf_list_tree _ ok_schema_element); auto. exact wf_schema_element.
  - apply (wf_list_tree _ ok_row_group); auto. exact wf_row_group.
  - exact (wff_opt _ _ 5 _ _ ltac:(unfold int16; lia) K E).
Qed.

(** ** Parsing the trees *)
Lemma parse_list_tree : forall A (parse : value -> option A) t tree l, (forall a, parse (tree a) = Some a) -> as_list parse (list_tree t tree l) = Some l.
Proof.
  intros A parse t tree l H. unfold as_list, list_tree. rewrite map_map. induction l as [|a l IH]; cbn [map all_some]; [reflexivity|].
  rewrite H, IH. reflexivity.
Qed.
Ltac getf := cbn [fields_of bind app field of_ Z.eqb Pos.eqb opt req as_i32 as_i64 as_binary as_bool option_map].

Lemma p_statistics : forall s, parse_statistics (t_statistics s) = Some s.
Proof. intros [[a|] [b|] [c|] [d|] [e|] [f|]]; reflexivity. Qed.
Lemma p_schema_element : forall s, parse_schema_element (t_schema_element s) = Some s.
Proof. intros [[a|] [b|] [c|] d [e|] [f|]]; reflexivity. Qed.
Lemma p_data_page : forall s, parse_data_page (t_data_page s) = Some s.
Proof. intros [a b c d [e|]]; [|reflexivity]. unfold parse_data_page, t_data_page.
  cbn [dp_num_values dp_encoding dp_def_encoding dp_rep_encoding dp_statistics]. unfold opt, req. getf. rewrite p_statistics. reflexivity. Qed.
Lemma p_dict_page : forall s, parse_dict_page (t_dict_page s) = Some s.
Proof. intros [a b [c|]]; reflexivity. Qed.
Lemma p_data_page_v2 : forall s, parse_data_page_v2 (t_data_page_v2 s) = Some s.
Proof. intros [a b c d e f [g|] [h|]]; try reflexivity; unfold parse_data_page_v2, t_data_page_v2;
  cbn [d2_num_values d2_num_nulls d2_num_rows d2_encoding d2_def_length d2_rep_length d2_is_compressed d2_statistics]; unfold opt, req; getf; rewrite p_statistics; reflexivity. Qed.
Lemma p_page_header : forall s, parse_page_header (t_page_header s) = Some s.
Proof. intros [a b c [d|] [e|] [f|]]; try reflexivity; unfold parse_page_header, t_page_header;
  cbn [ph_type ph_uncompressed ph_compressed ph_crc ph_data ph_dict]; unfold opt, req; getf; rewrite ?p_data_page, ?p_dict_page; reflexivity. Qed.
Lemma p_key_value : forall s, parse_key_value (t_key_value s) = Some s.
Proof. intros [a [b|]]; reflexivity. Qed.
Lemma p_column_meta : forall s, parse_column_meta (t_column_meta s) = Some s.
Proof. intros [a b c d e f g h [i|] [j|]]; unfold parse_column_meta, t_column_meta;
  cbn [cm_type cm_encodings cm_path cm_codec cm_num_values cm_uncompressed cm_compressed cm_data_offset cm_dict_offset cm_statistics];
  unfold opt, req; getf; rewrite (parse_list_tree _ as_i32 TI32 VI32) by reflexivity; rewrite (parse_list_tree _ as_binary TBinary VBinary) by reflexivity;
  cbn [bind]; rewrite ?p_statistics; reflexivity. Qed.
Lemma p_column_chunk : forall s, parse_column_chunk (t_column_chunk s) = Some s.
Proof. intros [[a|] b [c|]]; try reflexivity; unfold parse_column_chunk, t_column_chunk; cbn [cc_file_path cc_file_offset cc_meta];
  unfold opt, req; getf; rewrite p_column_meta; reflexivity. Qed.
Lemma p_row_group : forall s, parse_row_group (t_row_group s) = Some s.
Proof. intros [a b c [d|] [e|]]; unfold parse_row_group, t_row_group; cbn [rg_columns rg_total_byte_size rg_num_rows rg_file_offset rg_total_compressed];
  unfold opt, req; getf; rewrite (parse_list_tree _ parse_column_chunk TStruct t_column_chunk) by exact p_column_chunk; reflexivity. Qed.
Lemma p_column_order : forall s, parse_column_order (t_column_order s) = Some s.
Proof. intros []. reflexivity. Qed.
Lemma p_file_meta : forall s, parse_file_meta (t_file_meta s) = Some s.
Proof. intros [a b c d [e|] [f|] [g|]]; unfold parse_file_meta, t_file_meta;
  cbn [fm_version fm_schema fm_num_rows fm_row_groups fm_key_values fm_created_by fm_column_orders];
  unfold opt, req; getf; rewrite (parse_list_tree _ parse_schema_element TStruct t_schema_element) by exact p_schema_element;
  cbn [bind]; rewrite (parse_list_tree _ parse_row_group TStruct t_row_group) by exact p_row_group; cbn [bind];
  rewrite ?(parse_list_tree _ parse_key_value TStruct t_key_value) by exact p_key_value;
  rewrite ?(parse_list_tree _ parse_column_order TStruct t_column_order) by exact p_column_order; reflexivity. Qed.

(** ** Together *)
Lemma meta_round_trip : forall A (write : writer -> A -> writer) (parse : value -> option A) tree a,
  (forall w a, write w a = emit w (tree a)) -> (forall a, parse (tree a) = Some a) -> (forall a, exists l, tree a = VStruct l) -> wf (tree a) ->
  round_trips write parse a.
Proof.
  intros A write parse tree a Hw Hp Hs Hf. destruct (Hs a) as (l & El).
  assert (Hl : wf_fields l) by (rewrite El in Hf; inversion Hf; assumption).
  destruct (struct_round_trip l Hl) as (bs & W & R). exists bs. split.
  - intros w. rewrite Hw, El, W. repeat split.
  - intros rest. unfold read_as. rewrite R, <- El, Hp. reflexivity.
Qed.
