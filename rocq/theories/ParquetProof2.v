(** How long the Thrift structures can get. *)
From Verif Require Import Base WordsModel VarintSpec VarintModel VarintProof ThriftSpec ThriftModel ThriftProof MetaSpec MetaModel MetaProof MetaProps
  TypesSpec BuffersModel RleModel PlainSpec PlainModel ParquetSpec ParquetModel ParquetObs ParquetProof.

Fixpoint wt (v : value) : nat :=
  match v with
  | VBool _ => 1 | VI16 _ | VI32 _ | VI64 _ => 10 | VDouble _ => 8 | VBinary s => 10 + length s
  | VList _ l => 11 + (fix go (l : list value) := match l with [] => 0 | x :: r => wt x + go r end) l
  | VStruct l => 1 + (fix go (l : list (Z * value)) := match l with [] => 0 | (_, x) :: r => 11 + wt x + go r end) l
  end.
Fixpoint wtE (l : list value) : nat := match l with [] => 0 | x :: r => wt x + wtE r end.
Fixpoint wtF (l : list (Z * value)) : nat := match l with [] => 0 | (_, x) :: r => 11 + wt x + wtF r end.
Lemma wt_list : forall t l, wt (VList t l) = 11 + wtE l. Proof. reflexivity. Qed.
Lemma wt_struct : forall l, wt (VStruct l) = 1 + wtF l. Proof. reflexivity. Qed.
Lemma wtF_app : forall a b, wtF (a ++ b) = wtF a + wtF b.
Proof. induction a as [|[i v] a IH]; intros b; cbn [app wtF]; [reflexivity|]. rewrite IH. lia. Qed.
Definition len (w : writer) : nat := length (w_buffer w).
Lemma len_push : forall w bs, len (push_bytes w bs) = len w + length bs.
Proof. intros. unfold len, push_bytes. cbn [w_buffer]. apply app_length. Qed.
Lemma svarint_le : forall z, length (write_signed_varint z) <= 10.
Proof. intros. apply varint_loop_length. Qed.
Lemma varint64_le : forall n, length (write_varint64 n) <= 10.
Proof. intros. apply varint_loop_length. Qed.
Lemma len_begin : forall w id c, len (write_field_begin w id c) <= len w + 11.
Proof.
  intros w id c. unfold write_field_begin. cbv zeta. destruct (_ && _)%bool; unfold len; cbn [w_buffer push_bytes]; rewrite !app_length; cbn [length]; [lia|].
  pose proof (svarint_le id). lia.
Qed.
Lemma len_end : forall w, len (write_struct_end w) = len w + 1.
Proof. intros w. unfold write_struct_end, write_field_stop. cbv zeta. destruct (w_stack (push_bytes w [0%N])); unfold len; cbn [w_buffer push_bytes]; rewrite app_length; reflexivity. Qed.
Theorem emit_weight :
  (forall v, wf v -> forall w, len (emit w v) <= len w + wt v) /\
  (forall t l, wf_elems t l -> forall w, len (emit_elems w l) <= len w + wtE l) /\
  (forall l, wf_fields l -> forall w, len (emit_fields w l) <= len w + wtF l).
Proof.
  apply (wf_all_ind (fun v _ => forall w, len (emit w v) <= len w + wt v) (fun t l _ => forall w, len (emit_elems w l) <= len w + wtE l)
    (fun l _ => forall w, len (emit_fields w l) <= len w + wtF l)).
  - intros b w. cbn [emit wt]. unfold write_bool. rewrite len_push. cbn [length]. lia.
  - intros z Hz w. cbn [emit wt]. unfold write_i16. rewrite len_push. pose proof (svarint_le z). lia.
  - intros z Hz w. cbn [emit wt]. unfold write_i32. rewrite len_push. pose proof (svarint_le z). lia.
  - intros z Hz w. cbn [emit wt]. unfold write_i64. rewrite len_push. pose proof (svarint_le z). lia.
  - intros n Hn w. cbn [emit wt]. unfold write_double. rewrite len_push, map_length, seq_length. lia.
  - intros s Hs w. cbn [emit wt]. unfold write_binary. rewrite !len_push. pose proof (varint64_le (N.of_nat (length s))). lia.
  - intros t l Hlen Hl IH w. rewrite emit_list, wt_list. pose proof (IH (write_list_begin w (code_of_type t) (N.of_nat (length l)))) as I.
    assert (len (write_list_begin w (code_of_type t) (N.of_nat (length l))) <= len w + 11); [|lia].
    unfold write_list_begin. destruct (_ <? 15)%N; rewrite ?len_push; cbn [length]; [lia|]. pose proof (varint64_le (N.of_nat (length l))). lia.
  - intros l Hl IH w. rewrite emit_struct, wt_struct, len_end. pose proof (IH (write_struct_begin w)) as I. unfold len in *. cbn [write_struct_begin w_buffer] in I. lia.
  - intros t w. cbn. lia.
  - intros t v l Ht Hv IHv Hl IHl w. change (emit_elems w (v :: l)) with (emit_elems (emit w v) l). cbn [wtE].
    pose proof (IHl (emit w v)). pose proof (IHv w). lia.
  - intros w. cbn. lia.
  - intros id v l Hid Hv IHv Hl IHl w. cbn [wtF].
    change (emit_fields w ((id, v) :: l)) with (emit_fields (let w2 := write_field_begin w id (code_of_field v) in match v with VBool _ => w2 | _ => emit w2 v end) l).
    match goal with |- len (emit_fields ?w1 l) <= _ => pose proof (IHl w1) as I; assert (len w1 <= len w + 11 + wt v); [|lia] end.
    cbv zeta. pose proof (len_begin w id (code_of_field v)). pose proof (IHv (write_field_begin w id (code_of_field v))).
    destruct v; lia.
Qed.
Lemma weight_struct : forall l, wf (VStruct l) -> length (w_buffer (emit (new_writer []) (VStruct l))) <= wt (VStruct l).
Proof. intros l H. destruct emit_weight as (A & _). apply (A _ H (new_writer [])). Qed.

Lemma header_length : forall h, ok_page_header h ->
  (match ph_data h with Some d => dp_statistics d = None | None => True end) -> length (header_bytes h) <= 250.
Proof.
  intros h H HS. unfold header_bytes. rewrite page_header_emits. unfold t_page_header. eapply Nat.le_trans; [apply weight_struct; exact (wf_page_header h H)|].
  rewrite wt_struct. destruct h as [a b c crc d di]. cbn [ph_type ph_uncompressed ph_compressed ph_crc ph_data ph_dict] in *. rewrite !wtF_app.
  assert (D : wtF (of_ 5 t_data_page d) <= 96).
  { destruct d as [d|]; [|cbn; lia]. cbn [of_ wtF]. unfold t_data_page. rewrite wt_struct, HS. cbn. lia. }
  assert (DI : wtF (of_ 7 t_dict_page di) <= 66).
  { destruct di as [[x y [z|]]|]; cbn; lia. }
  assert (wtF (of_ 4 VI32 crc) <= 21) by (destruct crc; cbn; lia).
  cbn [wtF wt]. lia.
Qed.
