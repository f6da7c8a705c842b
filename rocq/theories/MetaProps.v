(** C63: Parquet metadata round-trips. *)
From Verif Require Import Base VarintSpec ThriftSpec ThriftModel MetaSpec MetaModel MetaProof.

Theorem C63_file_metadata : forall f, ok_file_meta f -> round_trips write_file_meta parse_file_meta f.
Proof.
  intros f H. apply (meta_round_trip _ _ _ t_file_meta); [exact file_meta_emits|exact p_file_meta|eexists; reflexivity|].
  apply wf_file_meta. exact H.
Qed.
Print Assumptions C63_file_metadata.

Theorem C63_page_header : forall p, ok_page_header p -> round_trips write_page_header parse_page_header p.
Proof.
  intros f H. apply (meta_round_trip _ _ _ t_page_header); [exact page_header_emits|exact p_page_header|eexists; reflexivity|].
  apply wf_page_header. exact H.
Qed.
Print Assumptions C63_page_header.

Theorem C63_data_page_header_v2 : forall d, ok_data_page_v2 d -> round_trips write_data_page_v2 parse_data_page_v2 d.
Proof.
  intros f H. apply (meta_round_trip _ _ _ t_data_page_v2); [exact data_page_v2_emits|exact p_data_page_v2|eexists; reflexivity|].
  apply wf_data_page_v2. exact H.
Qed.
Print Assumptions C63_data_page_header_v2.

Definition sample_column (n : Z) : column_chunk :=
  ColumnChunk None n (Some (ColumnMeta 6 [0; 3; 8]%Z [s2b "name"] 6 100 2000 1000 (n + 50) (Some n)
    (Some (Stat None None (Some 3%Z) None (Some (s2b "zz")) (Some (s2b "aa")))))).
Definition sample_file : file_meta :=
  FileMeta 1 [SchemaEl None None None (s2b "schema") (Some 2%Z) None; SchemaEl (Some 6%Z) None (Some 1%Z) (s2b "name") None (Some 0%Z)]
    300 [RowGroup [sample_column 4; sample_column 1004] 4000 100 (Some 4%Z) None; RowGroup [] 0 0 None (Some 7%Z)]
    (Some [KeyValue (s2b "k") None; KeyValue (s2b "k2") (Some (s2b "v"))]) (Some (s2b "libvroom")) (Some [TypeOrder; TypeOrder]).
Example C63_meets : ok_file_meta sample_file /\
  read_as parse_file_meta (w_buffer (write_file_meta (new_writer []) sample_file) ++ [80]%N) = Some (sample_file, [80]%N).
Proof.
  split; [|vm_compute; reflexivity].
  cbv - [int32 int64 small]. unfold small, int32, int64.
  repeat (first [apply conj | apply Forall_cons | apply Forall_nil | exact I | (cbn [length]; lia)]).
Qed.
Example C63_page_meets :
  let p := Page 0 500 300 None (Some (DataPage 100 8 3 3 (Some (Stat None None (Some 0%Z) None None None)))) (Some (DictPage 5 0 (Some false))) in
  ok_page_header p /\ read_as parse_page_header (w_buffer (write_page_header (new_writer []) p) ++ [1; 2]%N) = Some (p, [1; 2]%N).
Proof.
  split; [|vm_compute; reflexivity].
  cbv - [int32 int64 small]. unfold small, int32, int64.
  repeat (first [apply conj | apply Forall_cons | apply Forall_nil | exact I | (cbn [length]; lia)]).
Qed.
