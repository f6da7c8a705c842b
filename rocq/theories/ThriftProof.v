From Verif Require Import Base WordsModel VarintSpec VarintModel VarintProof ThriftSpec ThriftModel.

Scheme wf_ind2 := Induction for wf Sort Prop
with wfe_ind2 := Induction for wf_elems Sort Prop
with wff_ind2 := Induction for wf_fields Sort Prop.
Combined Scheme wf_all_ind from wf_ind2, wfe_ind2, wff_ind2.

(** ** Fuel *)
Fixpoint sz (v : value) : nat :=
  match v with
  | VList _ l => S ((fix go (l : list value) := match l with [] => 1 | x :: r => S (sz x + go r) end) l)
  | VStruct l => S ((fix go (l : list (Z * value)) := match l with [] => 1 | (_, x) :: r => S (sz x + go r) end) l)
  | _ => 1
  end.
Fixpoint szE (l : list value) : nat := match l with [] => 1 | x :: r => S (sz x + szE r) end.
Fixpoint szF (l : list (Z * value)) : nat := match l with [] => 1 | (_, x) :: r => S (sz x + szF r) end.
Lemma sz_list : forall t l, sz (VList t l) = S (szE l).
Proof. reflexivity. Qed.
Lemma sz_struct : forall l, sz (VStruct l) = S (szF l).
Proof. reflexivity. Qed.

Lemma emit_list : forall w t l, emit w (VList t l) = emit_elems (write_list_begin w (code_of_type t) (N.of_nat (length l))) l.
Proof.
  intros w t l. cbn [emit]. unfold write_list_end. generalize (write_list_begin w (code_of_type t) (N.of_nat (length l))). 
  unfold emit_elems. induction l as [|x l IH]; intros w1; cbn [fold_left]; [reflexivity|]. apply IH.
Qed.
Lemma emit_struct : forall w l, emit w (VStruct l) = write_struct_end (emit_fields (write_struct_begin w) l).
Proof.
  intros w l. cbn [emit]. f_equal. generalize (write_struct_begin w). unfold emit_fields.
  induction l as [|[id x] l IH]; intros w1; cbn [fold_left fst snd]; [reflexivity|]. apply IH.
Qed.
Lemma push_push : forall w a b, push_bytes (push_bytes w a) b = push_bytes w (a ++ b).
Proof. intros. unfold push_bytes. cbn [w_buffer w_last w_stack]. rewrite app_assoc. reflexivity. Qed.

(** ** Small arithmetic *)
Lemma nibbles : forall h l, (h < 16)%N -> (l < 16)%N ->
  (N.lor (N.shiftl h 4) l mod 256 = 16 * h + l)%N.
Proof.
  intros h l Hh Hl. assert (E : N.lor (N.shiftl h 4) l = (16 * h + l)%N).
  { rewrite <- N.lxor_lor.
    - rewrite <- N.add_nocarry_lxor.
      + rewrite N.shiftl_mul_pow2. change (2 ^ 4)%N with 16%N. lia.
      + apply N.bits_inj. intros n. rewrite N.land_spec, N.bits_0. destruct (N.lt_ge_cases n 4).
        * rewrite N.shiftl_spec_low by assumption. reflexivity.
        * rewrite (N.testbit_eqb l). rewrite (N.div_small l). apply andb_false_r.
          eapply N.lt_le_trans; [exact Hl|]. change 16%N with (2 ^ 4)%N. apply N.pow_le_mono_r; lia.
    - apply N.bits_inj. intros n. rewrite N.land_spec, N.bits_0. destruct (N.lt_ge_cases n 4).
      + rewrite N.shiftl_spec_low by assumption. reflexivity.
      + rewrite (N.testbit_eqb l). rewrite (N.div_small l). apply andb_false_r.
        eapply N.lt_le_trans; [exact Hl|]. change 16%N with (2 ^ 4)%N. apply N.pow_le_mono_r; lia. }
  rewrite E. apply N.mod_small. lia.
Qed.
Lemma code_lt : forall t, (0 < code_of_type t < 16)%N.
Proof. intros []; vm_compute; split; reflexivity. Qed.
Lemma field_code_lt : forall v, (0 < code_of_field v < 16)%N.
Proof. intros [[]| | | | | | | ]; vm_compute; split; reflexivity. Qed.
Lemma type_code : forall t, type_of_code (code_of_type t) = Some t.
Proof. intros []; reflexivity. Qed.
Lemma hi_nibble : forall h l, (l < 16)%N -> ((16 * h + l) / 16 = h)%N.
Proof. intros. symmetry. apply (N.div_unique _ _ _ l); lia. Qed.
Lemma lo_nibble : forall h l, (l < 16)%N -> ((16 * h + l) mod 16 = l)%N.
Proof. intros. symmetry. apply (N.mod_unique _ _ h); lia. Qed.

Lemma take_app : forall s rest, take (N.of_nat (length s)) (s ++ rest) = Some (s, rest).
Proof.
  intros. unfold take. rewrite app_length. destruct (N.leb_spec (N.of_nat (length s)) (N.of_nat (length s + length rest))); [|lia].
  rewrite Nnat.Nat2N.id, firstn_app, skipn_app, Nat.sub_diag, firstn_all, skipn_all. cbn [firstn skipn].
  rewrite app_nil_r. reflexivity.
Qed.
Fixpoint le_bytes (n : nat) (v : N) : bytes :=
  match n with O => [] | S m => (v mod 256)%N :: le_bytes m (v / 256)%N end.
Lemma le_value_bytes : forall n v, (v < 256 ^ N.of_nat n)%N -> le_value (le_bytes n v) = v.
Proof.
  induction n as [|n IH]; intros v Hv; cbn [le_bytes le_value].
  - cbn in Hv. lia.
  - rewrite IH. + pose proof (N.div_mod v 256). lia.
    + apply N.div_lt_upper_bound; [lia|]. replace (N.of_nat (S n)) with (1 + N.of_nat n)%N in Hv by lia.
      rewrite N.pow_add_r in Hv. exact Hv.
Qed.
Lemma le_bytes_length : forall n v, length (le_bytes n v) = n.
Proof. induction n as [|n IH]; intros v; cbn [le_bytes length]; auto. Qed.
Lemma le_bytes_map : forall n v, map (fun i => (N.shiftr v (N.of_nat i * 8) mod 256)%N) (seq 0 n) = le_bytes n v.
Proof.
  induction n as [|n IH]; intros v; [reflexivity|]. cbn [seq map le_bytes]. f_equal.
  rewrite <- seq_shift, map_map, <- IH. apply map_ext. intros i. f_equal.
  rewrite !N.shiftr_div_pow2. replace (N.of_nat (S i) * 8)%N with (8 + N.of_nat i * 8)%N by lia.
  rewrite N.pow_add_r. change (2 ^ 8)%N with 256%N. rewrite N.div_div; [reflexivity|discriminate|]. apply N.pow_nonzero. discriminate.
Qed.
Lemma to_int16_wrap : forall z, to_int16 z = wrap16 z.
Proof. reflexivity. Qed.
Lemma wrap16_small : forall z, int16 z -> wrap16 z = z.
Proof. intros z H. unfold int16 in H. unfold wrap16. rewrite Z.mod_small by lia. lia. Qed.
Lemma wrap16_add : forall a b, wrap16 (a + wrap16 b) = wrap16 (a + b).
Proof.
  intros a b. unfold wrap16. f_equal.
  replace (a + ((b + 2 ^ 15) mod 2 ^ 16 - 2 ^ 15) + 2 ^ 15)%Z with (a + (b + 2 ^ 15) mod 2 ^ 16)%Z by lia.
  rewrite Zplus_mod_idemp_r. f_equal. lia.
Qed.

(** ** One field header *)
Lemma field_header : forall id v last, int16 id ->
  exists hdr, 1 <= length hdr /\
    (forall w, w_last w = last -> write_field_begin w id (code_of_field v) = Writer (w_buffer w ++ hdr) id (w_stack w)) /\
    (forall f rest, read_fields (S f) last (hdr ++ rest) =
       match (if code_of_field v =? 1 then Some (VBool true, rest)
              else if code_of_field v =? 2 then Some (VBool false, rest)
              else match type_of_code (code_of_field v) with
                   | None => None
                   | Some t => read_value f t rest
                   end)%N with
       | None => None
       | Some (x, r2) => match read_fields f id r2 with
                         | None => None
                         | Some (l, r3) => Some ((id, x) :: l, r3)
                         end
       end).
Proof.
  intros id v last Hid. pose proof (field_code_lt v) as Hc. set (c := code_of_field v) in *.
  destruct ((0 <? to_int16 (id - last)) && (to_int16 (id - last) <=? 15))%Z eqn:E.
  - set (d := to_int16 (id - last)) in *. apply andb_true_iff in E as (E1 & E2). apply Z.ltb_lt in E1. apply Z.leb_le in E2.
    exists [(16 * Z.to_N d + c)%N]. split; [cbn [length]; lia|]. split.
    + intros w Hw. unfold write_field_begin. rewrite Hw. fold d.
      destruct (Z.ltb_spec 0 d); [|lia]. destruct (Z.leb_spec d 15); [|lia]. cbn [andb].
      rewrite nibbles by lia. reflexivity.
    + intros f rest. cbn [read_fields app]. rewrite hi_nibble, lo_nibble by lia.
      destruct (N.eqb_spec (16 * Z.to_N d + c) 0); [lia|]. destruct (N.eqb_spec (Z.to_N d) 0); [lia|].
      rewrite Z2N.id by lia.
      assert (Hid2 : wrap16 (last + d) = id).
      { change d with (wrap16 (id - last)). rewrite wrap16_add. replace (last + (id - last))%Z with id by lia. apply wrap16_small. assumption. }
      rewrite Hid2. reflexivity.
  - exists (c :: write_signed_varint id). split; [cbn [length]; lia|]. split.
    + intros w Hw. unfold write_field_begin. rewrite Hw, E. rewrite push_push. reflexivity.
    + intros f rest. cbn [read_fields app].
      destruct (N.eqb_spec c 0); [lia|]. rewrite (N.div_small c 16), (N.mod_small c 16) by lia. rewrite N.eqb_refl.
      rewrite signed_varint_read; [reflexivity|]. unfold int64. unfold int16 in Hid. lia.
Qed.

Definition prim_ok (v : value) : Prop :=
  exists bs, (forall w, emit w v = push_bytes w bs) /\ sz v + 1 <= 3 * length bs /\
    forall f rest, sz v <= f -> read_value f (type_of v) (bs ++ rest) = Some (v, rest).

Theorem emit_all :
  (forall v, wf v -> prim_ok v) /\
  (forall t l, wf_elems t l -> exists bs, (forall w, emit_elems w l = push_bytes w bs) /\ szE l <= 1 + 3 * length bs /\
     forall f rest, szE l <= f -> read_elems f t (N.of_nat (length l)) (bs ++ rest) = Some (l, rest)) /\
  (forall l, wf_fields l -> forall last, exists bs,
     (forall w, w_last w = last -> exists last', emit_fields w l = Writer (w_buffer w ++ bs) last' (w_stack w)) /\
     szF l <= 1 + 3 * length bs /\
     forall f rest, szF l <= f -> read_fields f last (bs ++ 0%N :: rest) = Some (l, rest)).
Proof.
  apply wf_all_ind.
  - (* bool *) intros b. exists [if b then 1%N else 0%N]. split; [reflexivity|]. split; [cbn; lia|].
    intros [|f] rest Hf; [cbn in Hf; lia|]. destruct b; reflexivity.
  - intros z Hz. exists (write_signed_varint z). split; [reflexivity|]. pose proof (signed_varint_nonempty z). split; [cbn [sz]; lia|].
    intros [|f] rest Hf; [cbn in Hf; lia|]. cbn [read_value type_of]. rewrite signed_varint_read; [reflexivity|]. unfold int64; unfold int16 in Hz; lia.
  - intros z Hz. exists (write_signed_varint z). split; [reflexivity|]. pose proof (signed_varint_nonempty z). split; [cbn [sz]; lia|].
    intros [|f] rest Hf; [cbn in Hf; lia|]. cbn [read_value type_of]. rewrite signed_varint_read; [reflexivity|]. unfold int64; unfold int32 in Hz; lia.
  - intros z Hz. exists (write_signed_varint z). split; [reflexivity|]. pose proof (signed_varint_nonempty z). split; [cbn [sz]; lia|].
    intros [|f] rest Hf; [cbn in Hf; lia|]. cbn [read_value type_of]. rewrite signed_varint_read; [reflexivity|]. assumption.
  - (* double *) intros n Hn. exists (le_bytes 8 n). split; [intros w; cbn [emit]; unfold write_double; rewrite le_bytes_map; reflexivity|].
    split; [cbn [sz]; rewrite le_bytes_length; lia|].
    intros [|f] rest Hf; [cbn in Hf; lia|]. cbn [read_value type_of].
    pose proof (take_app (le_bytes 8 n) rest) as T. rewrite le_bytes_length in T. change (N.of_nat 8) with 8%N in T. rewrite T, le_value_bytes; [reflexivity|].
    change (256 ^ N.of_nat 8)%N with (2 ^ 64)%N. assumption.
  - (* binary *) intros s Hs. exists (write_varint64 (N.of_nat (length s)) ++ s).
    split; [intros w; cbn [emit]; unfold write_binary; apply push_push|].
    split. { rewrite app_length. assert (1 <= length (write_varint64 (N.of_nat (length s)))) by (apply varint_loop_nonempty; discriminate). cbn [sz]. lia. }
    intros [|f] rest Hf; [cbn in Hf; lia|]. cbn [read_value type_of]. rewrite <- app_assoc, varint64_read by assumption.
    rewrite take_app. reflexivity.
  - (* list *) intros t l Hlen Hl (bs & Hw & Hsz & Hr).
    pose proof (code_lt t) as Hc.
    destruct (N.ltb_spec (N.of_nat (length l)) 15) as [Hs|Hs].
    + exists ((16 * N.of_nat (length l) + code_of_type t)%N :: bs). split; [|split].
      * intros w. rewrite emit_list. unfold write_list_begin. destruct (N.ltb_spec (N.of_nat (length l)) 15); [|lia].
        rewrite nibbles by lia. rewrite Hw, push_push. reflexivity.
      * rewrite sz_list. cbn [length]. lia.
      * intros f rest Hf. rewrite sz_list in Hf. destruct f as [|f]; [lia|]. cbn [read_value type_of app].
        rewrite hi_nibble, lo_nibble by lia. rewrite type_code. destruct (N.ltb_spec (N.of_nat (length l)) 15); [|lia].
        rewrite Hr by lia. reflexivity.
    + exists (((240 + code_of_type t)%N :: write_varint64 (N.of_nat (length l))) ++ bs). split; [|split].
      * intros w. rewrite emit_list. unfold write_list_begin. destruct (N.ltb_spec (N.of_nat (length l)) 15); [lia|].
        assert (Hn : (N.lor 240 (code_of_type t) mod 256 = 240 + code_of_type t)%N) by (destruct t; reflexivity).
        rewrite Hn. rewrite Hw, !push_push. reflexivity.
      * rewrite sz_list, app_length. cbn [length]. lia.
      * intros f rest Hf. rewrite sz_list in Hf. destruct f as [|f]; [lia|]. cbn [read_value type_of app].
        change 240%N with (16 * 15)%N. rewrite hi_nibble, lo_nibble by lia. rewrite type_code.
        change (15 <? 15)%N with false. cbv iota. rewrite <- app_assoc, varint64_read by lia.
        rewrite Hr by lia. reflexivity.
  - (* struct *) intros l Hl IH. destruct (IH 0%Z) as (bs & Hw & Hsz & Hr). exists (bs ++ [0%N]). split; [|split].
    + intros w. rewrite emit_struct. destruct (Hw (write_struct_begin w) eq_refl) as (last' & Hw').
      rewrite Hw'. unfold write_struct_end, write_field_stop, write_struct_begin, push_bytes. cbn [w_stack w_buffer w_last].
      rewrite app_assoc. destruct w; reflexivity.
    + rewrite sz_struct, app_length. cbn [length]. lia.
    + intros f rest Hf. rewrite sz_struct in Hf. destruct f as [|f]; [lia|]. cbn [read_value type_of].
      rewrite <- app_assoc. cbn [app]. rewrite Hr by lia. reflexivity.
  - (* no elements *) intros t. exists []. split; [intros w; unfold push_bytes; rewrite app_nil_r; destruct w; reflexivity|].
    split; [cbn; lia|]. intros [|f] rest Hf; [cbn in Hf; lia|]. reflexivity.
  - intros t v l Ht Hv (bv & Wv & Sv & Rv) Hl (bl & Wl & Sl & Rl). exists (bv ++ bl). split; [|split].
    + intros w. change (emit_elems w (v :: l)) with (emit_elems (emit w v) l). rewrite Wv, Wl. apply push_push.
    + cbn [szE]. rewrite app_length. lia.
    + intros f rest Hf. cbn [szE] in Hf. destruct f as [|f]; [lia|]. cbn [read_elems].
      destruct (N.eqb_spec (N.of_nat (length (v :: l))) 0); [cbn [length] in *; lia|].
      rewrite <- app_assoc. rewrite <- Ht. rewrite Rv by lia. 
      replace (N.pred (N.of_nat (length (v :: l)))) with (N.of_nat (length l)) by (cbn [length]; lia).
      rewrite Ht, Rl by lia. reflexivity.
  - (* no fields *) intros last. exists []. split; [intros w Hw; exists (w_last w); rewrite app_nil_r; destruct w; reflexivity|].
    split; [cbn; lia|]. intros [|f] rest Hf; [cbn in Hf; lia|]. reflexivity.
  - intros id v l Hid Hv (bv & Wv & Sv & Rv) Hl IH last.
    destruct (field_header id v last Hid) as (hdr & Lh & Wh & Rh). destruct (IH id) as (bl & Wl & Sl & Rl).
    assert (G : (code_of_field v =? 1)%N = false -> (code_of_field v =? 2)%N = false ->
       type_of_code (code_of_field v) = Some (type_of v) ->
       (forall w, emit_fields w ((id, v) :: l) = emit_fields (emit (write_field_begin w id (code_of_field v)) v) l) ->
       exists bs,
         (forall w, w_last w = last -> exists last', emit_fields w ((id, v) :: l) = Writer (w_buffer w ++ bs) last' (w_stack w)) /\
         szF ((id, v) :: l) <= 1 + 3 * length bs /\
         forall f rest, szF ((id, v) :: l) <= f -> read_fields f last (bs ++ 0%N :: rest) = Some ((id, v) :: l, rest)).
    { intros G1 G2 G3 G4. exists (hdr ++ bv ++ bl). split; [|split].
      - intros w Hw. rewrite G4, (Wh w Hw), Wv. destruct (Wl (push_bytes (Writer (w_buffer w ++ hdr) id (w_stack w)) bv) eq_refl) as (last' & E).
        exists last'. rewrite E. cbn [push_bytes w_buffer w_stack]. rewrite <- !app_assoc. reflexivity.
      - cbn [szF]. rewrite !app_length. lia.
      - intros f rest Hf. cbn [szF] in Hf. destruct f as [|f]; [lia|]. rewrite <- !app_assoc, Rh.
        rewrite G1, G2, G3. rewrite Rv by lia. rewrite Rl by lia. reflexivity. }
    destruct v as [b|z|z|z|n|s|t l'|fs]; [|apply G; reflexivity ..].
    exists (hdr ++ bl). split; [|split].
    + intros w Hw. change (emit_fields w ((id, VBool b) :: l)) with (emit_fields (write_field_begin w id (code_of_field (VBool b))) l).
      rewrite (Wh w Hw). destruct (Wl (Writer (w_buffer w ++ hdr) id (w_stack w)) eq_refl) as (last' & E).
      exists last'. rewrite E. cbn [w_buffer w_stack]. rewrite app_assoc. reflexivity.
    + cbn [szF sz]. rewrite app_length. lia.
    + intros f rest Hf. cbn [szF] in Hf. destruct f as [|f]; [lia|]. rewrite <- app_assoc, Rh.
      destruct b.
      * change (code_of_field (VBool true) =? 1)%N with true. cbv iota. rewrite Rl by lia. reflexivity.
      * change (code_of_field (VBool false) =? 1)%N with false. change (code_of_field (VBool false) =? 2)%N with true. cbv iota. rewrite Rl by lia. reflexivity.
Qed.

Lemma struct_round_trip : forall fields, wf_fields fields -> exists bs,
  (forall w, emit w (VStruct fields) = push_bytes w bs) /\
  forall rest, read_struct (bs ++ rest) = Some (fields, rest).
Proof.
  intros fields H. destruct emit_all as (A & _ & _). destruct (A (VStruct fields) (wf_struct _ H)) as (bs & W & S & R).
  exists bs. split; [exact W|]. intros rest. unfold read_struct. change TStruct with (type_of (VStruct fields)).
  rewrite R; [reflexivity|]. rewrite app_length. lia.
Qed.
