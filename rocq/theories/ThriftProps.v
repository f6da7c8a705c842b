(** C29: Thrift compact structures. *)
From Verif Require Import Base VarintSpec ThriftSpec ThriftModel ThriftProof.

(** Any tree, written to any buffer through a writer in any state: bytes are only appended, the
    writer's field-id state is restored, and a standard reader recovers the tree and stops
    exactly at its end, whatever follows. *)
Theorem C29_struct_round_trip : forall fields, wf_fields fields -> exists bs,
  (forall w, w_buffer (emit w (VStruct fields)) = w_buffer w ++ bs /\
             w_last (emit w (VStruct fields)) = w_last w /\ w_stack (emit w (VStruct fields)) = w_stack w) /\
  forall rest, read_struct (bs ++ rest) = Some (fields, rest).
Proof.
  intros fields H. destruct (struct_round_trip fields H) as (bs & W & R). exists bs. split; [|exact R].
  intros w. rewrite W. repeat split.
Qed.
Print Assumptions C29_struct_round_trip.

(** Nested struct, descending and far-apart ids, both list forms, 16-bit wrap-around of ids. *)
Definition sample : list (Z * value) :=
  [ (1%Z, VI32 (-7)); (3%Z, VBool true); (40%Z, VBinary (s2b "name")); (2%Z, VBool false);
    (32767%Z, VStruct [(5%Z, VI64 (2 ^ 62)); (4%Z, VList TStruct [VStruct []; VStruct [(1%Z, VI16 3)]])]);
    ((-32768)%Z, VList TI32 (repeat (VI32 9) 20)); (6%Z, VDouble 4607182418800017408); (7%Z, VList TBool [VBool true; VBool false]) ].
Example C29_meets : wf_fields sample /\
  read_struct (w_buffer (emit (new_writer []) (VStruct sample)) ++ [1; 2]%N) = Some (sample, [1; 2]%N).
Proof.
  split; [|vm_compute; reflexivity].
  unfold sample. cbn [repeat].
  repeat (first [apply wff_nil | apply wff_cons | apply wfe_nil | apply wfe_cons | apply wf_bool | apply wf_i16 | apply wf_i32 | apply wf_i64
    | apply wf_double | apply wf_binary | apply wf_list | apply wf_struct | reflexivity | (unfold int16, int32, int64; lia)]).
Qed.
