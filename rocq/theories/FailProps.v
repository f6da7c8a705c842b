(** C108: a background writer that fails. *)
From Verif Require Import Base WordsModel ChunkModel FieldsModel VarintSpec BuffersSpec BuffersModel BuffersReach TypesSpec ReaderModel ReaderSpec TypesModel QueueSpec QueueModel QueueSched PlainSpec ParquetSpec ParquetModel ParquetObs ParquetProof ParquetProps PipelineModel PipelineProof ConvertModel ConvertObs ConvertProof3 ConvertProof5 ConvertProps FailModel FailProof FailProof2 FailProof3.

(** Whichever row group throws and whenever the caller notices: nobody waits for ever, and the
    number of steps is bounded but for spurious wake-ups. *)
Theorem C108_nobody_waits_for_ever : forall A (cap n : nat) notices (groups : list A) trace s, 1 <= cap ->
  run cap (broken_pipeline n notices groups) trace s -> flag_was_set n notices groups trace ->
  (stuck s -> finished s) /\ length trace <= 4 * length groups + 6 + 2 * spurious trace.
Proof. intros A cap n notices groups trace s HC HR HF. split; [exact (broken_stuck cap n notices groups trace s HC HR HF)|exact (broken_bounded cap n notices groups trace s HR)]. Qed.
Print Assumptions C108_nobody_waits_for_ever.

(** A failure is never reported as success, and nothing else is reported as a failure; if more row
    groups than the queue holds follow, the process is aborted. *)
Theorem C108_failure_noticed : forall A (cap n : nat) notices (groups : list A) trace s,
  run cap (broken_pipeline n notices groups) trace s -> flag_was_set n notices groups trace -> finished s ->
  (n < length groups -> fate_of n trace <> Success /\ delivered (events_of 1 trace) = firstn (S n) groups) /\
  (length groups <= n -> fate_of n trace = Success /\ delivered (events_of 1 trace) = groups) /\
  (n + 1 + cap < length groups -> fate_of n trace = ProcessAborts).
Proof. intros A cap n notices groups trace s HR HF HD. destruct (broken_ends cap n notices groups trace s HR HF HD) as (A1 & A2 & A3). auto. Qed.
Print Assumptions C108_failure_noticed.

(** A conversion that uses the queue and whose row group number n throws: success is not reported;
    and the file left behind, closed by the destructor, reads as the table of the row groups before
    it, if the exception came while a column was recorded; if it came when the row group was to be
    recorded, the file contradicts itself and is not read (unless that group has no rows).
    [groups] are the row groups of the complete conversion. *)
Theorem C108_broken_conversion_partial : forall library below options decompress ff lanes clmul num_threads ne o data,
  lossless library decompress (o_compression options) -> o_compression options <> LZ4 ->
  o_compression options = NONE \/ o_enable_dictionary options = false ->
  1 <= lanes -> Nat.divide lanes 64 -> quote o <> LF -> quote o <> CR -> data <> [] ->
  (forall w f, ff w = Some f -> (f < 2 ^ 64)%N) ->
  exists names types r, TypesModel.read_file ff lanes clmul num_threads ne o data = Some (names, types, r) /\
    let css := map cells_of_columns (chunks r) in
    (Forall (Forall page_fits) css -> (~ In STRING types -> Forall page_fits (concat_columns (length names) css)) -> footer_fits (schema_of names types) (length css) ->
     forall encoded, queue_input library below options ff lanes clmul num_threads ne o data = Some encoded ->
     exists groups, length groups = length encoded /\
       (forall trace s, run pipeline_capacity (pipeline encoded) trace s -> finished s ->
          exists c file, convert library below options trace ff lanes clmul num_threads ne o data true true None = Some c /\ cv_error c = None /\ ps_closed (cv_writer c) = [file] /\
            ParquetSpec.read_file decompress file = Some (Table (map leaf_of (schema_of names types)) groups)) /\
       (forall n at_ notices trace s, n < length encoded -> run pipeline_capacity (broken_pipeline n notices encoded) trace s -> flag_was_set n notices encoded trace -> finished s ->
          exists f left file, convert_failing library below options n at_ trace ff lanes clmul num_threads ne o data = Some (f, left) /\ f <> Success /\
            (n + 1 + pipeline_capacity < length encoded -> f = ProcessAborts) /\ ps_closed left = [file] /\
            match at_ with
            | InColumn _ => ParquetSpec.read_file decompress file = Some (Table (map leaf_of (schema_of names types)) (firstn n groups))
            | AtTheEnd => forall g, nth_error encoded n = Some g ->
                ParquetSpec.read_file decompress file = if (fst g =? 0)%Z then Some (Table (map leaf_of (schema_of names types)) (firstn n groups)) else None
            end)).
Proof.
  intros library below options decompress ff lanes clmul nt ne o data HL HZ HD H1 H2 H3 H4 H5 HF.
  exact (broken_conversion library below options decompress (lossless_undone _ _ _ HZ HL) HD ff lanes clmul nt ne o data H1 H2 H3 H4 H5 HF).
Qed.
Print Assumptions C108_broken_conversion_partial.

(** Six row groups; the second throws: the process is aborted, and what it leaves behind is a valid
    file with the first row group only. *)
Definition six_schema : list column_schema := [ColumnSchema (s2b "a") INT32 true].
Definition six_groups : list (list arrow_column) := map (fun z => int_chunk [z]) [1; 2; 3; 4; 5; 6]%Z.
Definition six_encoded : list (Z * list encoded_column) :=
  Eval vm_compute in match encode_groups no_library (fun _ _ => true) (Options NONE false) six_schema six_groups with Some l => l | None => [] end.
Theorem C108_readable_leftover_refuted :
  encode_groups no_library (fun _ _ => true) (Options NONE false) six_schema six_groups = Some six_encoded /\
  exists trace s file, run pipeline_capacity (broken_pipeline 1 (fun _ => false) six_encoded) trace s /\ flag_was_set 1 (fun _ => false) six_encoded trace /\ finished s /\
    fate_of 1 trace = ProcessAborts /\ In (Sleeps 0) trace /\
    ps_closed (left_behind (opened six_schema) 1 (InColumn 0) (delivered (events_of 1 trace))) = [file] /\
    ParquetSpec.read_file no_decompress file = Some (Table [Leaf (s2b "a") P_INT32 true None] [[[Some (CInt 1)]]]).
Proof.
  split; [vm_compute; reflexivity|].
  destruct (schedule pipeline_capacity [0; 0; 0; 0; 0; 1; 1; 0; 1; 0] (broken_pipeline 1 (fun _ => false) six_encoded) []) as [[tr s]|] eqn:E; [|vm_compute in E; discriminate E].
  assert (R : run pipeline_capacity (broken_pipeline 1 (fun _ => false) six_encoded) tr s) by (eapply schedule_ok; [apply run_nil|exact E]).
  assert (X : fate_of 1 tr = ProcessAborts /\ existsb (fun l => match l with Sleeps 0 => true | _ => false end) tr = true /\
    match ps_closed (left_behind (opened six_schema) 1 (InColumn 0) (delivered (events_of 1 tr))) with
    | [file] => ParquetSpec.read_file no_decompress file = Some (Table [Leaf (s2b "a") P_INT32 true None] [[[Some (CInt 1)]]]) | _ => False end /\
    map call_of (q_threads s) = [None; None]).
  { assert (Y : match schedule pipeline_capacity [0; 0; 0; 0; 0; 1; 1; 0; 1; 0] (broken_pipeline 1 (fun _ => false) six_encoded) [] with
        | Some (tr, s) => fate_of 1 tr = ProcessAborts /\ existsb (fun l => match l with Sleeps 0 => true | _ => false end) tr = true /\
            match ps_closed (left_behind (opened six_schema) 1 (InColumn 0) (delivered (events_of 1 tr))) with
            | [file] => ParquetSpec.read_file no_decompress file = Some (Table [Leaf (s2b "a") P_INT32 true None] [[[Some (CInt 1)]]]) | _ => False end /\
            map call_of (q_threads s) = [None; None]
        | None => True end) by (vm_compute; repeat split; reflexivity).
    rewrite E in Y. exact Y. }
  destruct X as (X1 & X2 & X3 & X4).
  destruct (ps_closed (left_behind (opened six_schema) 1 (InColumn 0) (delivered (events_of 1 tr)))) as [|file [|]] eqn:EC; try contradiction.
  exists tr, s, file. split; [exact R|]. split; [intros _ Z; discriminate Z|]. split.
  - intros t Ht. assert (I := in_map call_of _ _ Ht). rewrite X4 in I. destruct I as [I|[I|[]]]; symmetry; exact I.
  - split; [exact X1|]. split; [|split; [exact EC|exact X3]]. apply existsb_exists in X2. destruct X2 as (l & Y1 & Y2). destruct l as [i c r|[|i]|i]; try discriminate Y2. exact Y1.
Qed.
Print Assumptions C108_readable_leftover_refuted.

(** A failure near the end: the caller closes, joins and reports the error; here the exception comes
    when the row group is to be recorded.  And a caller that notices the flag. *)
Example C108_meets : exists trace s trace' s',
  run pipeline_capacity (broken_pipeline 1 (fun _ => false) two_encoded) trace s /\ flag_was_set 1 (fun _ => false) two_encoded trace /\ finished s /\ fate_of 1 trace = ErrorReported /\
  run pipeline_capacity (broken_pipeline 0 (fun i => i =? 1) two_encoded) trace' s' /\ flag_was_set 0 (fun i => i =? 1) two_encoded trace' /\ finished s' /\ fate_of 0 trace' = ProcessAborts /\
  exists file, ps_closed (left_behind (opened two_chunks_schema) 1 AtTheEnd (delivered (events_of 1 trace))) = [file] /\ ParquetSpec.read_file no_decompress file = None.
Proof.
  destruct (schedule pipeline_capacity [0; 1; 0; 1; 0; 1] (broken_pipeline 1 (fun _ => false) two_encoded) []) as [[tr s]|] eqn:E; [|vm_compute in E; discriminate E].
  destruct (schedule pipeline_capacity [0; 1; 1] (broken_pipeline 0 (fun i => i =? 1) two_encoded) []) as [[tr' s']|] eqn:E'; [|vm_compute in E'; discriminate E'].
  assert (R : run pipeline_capacity (broken_pipeline 1 (fun _ => false) two_encoded) tr s) by (eapply schedule_ok; [apply run_nil|exact E]).
  assert (R' : run pipeline_capacity (broken_pipeline 0 (fun i => i =? 1) two_encoded) tr' s') by (eapply schedule_ok; [apply run_nil|exact E']).
  assert (Y : match schedule pipeline_capacity [0; 1; 0; 1; 0; 1] (broken_pipeline 1 (fun _ => false) two_encoded) [] with
      | Some (tr, s) => fate_of 1 tr = ErrorReported /\ map call_of (q_threads s) = [None; None] /\
          match ps_closed (left_behind (opened two_chunks_schema) 1 AtTheEnd (delivered (events_of 1 tr))) with [file] => ParquetSpec.read_file no_decompress file = None | _ => False end
      | None => True end) by (vm_compute; repeat split; reflexivity).
  assert (Y' : match schedule pipeline_capacity [0; 1; 1] (broken_pipeline 0 (fun i => i =? 1) two_encoded) [] with
      | Some (tr, s) => fate_of 0 tr = ProcessAborts /\ map call_of (q_threads s) = [None; None] /\ (0 <? length (delivered (events_of 1 tr))) = true
      | None => True end) by (vm_compute; repeat split; reflexivity).
  rewrite E in Y. rewrite E' in Y'. destruct Y as (Y1 & Y2 & Y3), Y' as (Z1 & Z2 & Z3).
  assert (FIN : forall s : system (Z * list encoded_column), map call_of (q_threads s) = [None; None] -> finished s).
  { intros x HX t Ht. assert (I := in_map call_of _ _ Ht). rewrite HX in I. destruct I as [I|[I|[]]]; symmetry; exact I. }
  destruct (ps_closed (left_behind (opened two_chunks_schema) 1 AtTheEnd (delivered (events_of 1 tr)))) as [|file [|]] eqn:EC; try contradiction.
  exists tr, s, tr', s'. split; [exact R|]. split; [intros _ Z; discriminate Z|]. split; [apply FIN, Y2|]. split; [exact Y1|].
  split; [exact R'|]. split; [intros _ _; apply Nat.ltb_lt, Z3|]. split; [apply FIN, Z2|]. split; [exact Z1|].
  exists file. split; [exact EC|exact Y3].
Qed.
Print Assumptions C108_meets.
