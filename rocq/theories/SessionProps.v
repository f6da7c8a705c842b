(** C109: the row-group pipeline of ParquetWriter, used through its public calls.
    [library], [below], [options] as in ParquetProps; [traces]: for each finish_pipeline, the steps
    the caller and the writer thread take. *)
From Verif Require Import Base TypesSpec MetaSpec BuffersModel ParquetSpec ParquetModel ParquetObs ParquetProof5 QueueSpec QueueModel PipelineModel
  SessionModel SessionSpec SessionProof SessionProof2 SessionProof3 ParquetProps ConvertProps.

(** For every schedule: calls in their order, with any number of pipelines between plain writes,
    do to the file and report what the same calls with write in place of the pipelines do and report.
    Missing from the full claim: calls out of order (C109_broken_exactly says what happens). *)
Theorem C109_same_as_write_partial : forall library below options traces calls plain, fair traces -> orderly false calls plain ->
  match prun library below options writer_new plain with
  | None => wrun library below options traces session_new calls = Undefined
  | Some (p, oks) => wrun library below options traces session_new calls = Gives (WState p None, reported calls oks)
  end.
Proof. exact orderly_same. Qed.
Print Assumptions C109_same_as_write_partial.

(** ... so a table written in any mixture of pipelines and writes reads back, and every call
    reports success. *)
Theorem C109_reads_back_partial : forall library below options decompress schema groups traces calls,
  lossless library decompress (o_compression options) -> o_compression options <> LZ4 ->
  o_compression options = NONE \/ o_enable_dictionary options = false ->
  schema <> [] -> Forall (fun g => group_fits schema (fst g) (snd g)) groups -> footer_fits schema (length groups) ->
  fair traces -> orderly false calls (session schema (map fst groups)) ->
  exists p oks file, wrun library below options traces session_new calls = Gives (WState p None, oks) /\ Forall (eq true) oks /\
    ps_closed p = [file] /\ read_file decompress file = Some (Table (map leaf_of schema) (map snd groups)).
Proof. exact reads_back. Qed.
Print Assumptions C109_reads_back_partial.

(** Destroying the writer after calls in their order leaves the file that a call of close would
    leave, whether or not it was closed before. *)
Theorem C109_destruction_closes : forall library below options traces calls plain, fair traces -> orderly false calls plain ->
  match prun library below options writer_new (plain ++ [PClose]) with
  | None => lifetime library below options traces calls = Undefined
  | Some (p, oks) => lifetime library below options traces calls = Gives (p, reported calls (removelast oks)) /\ ps_open p = false
  end.
Proof. exact destroyed. Qed.
Print Assumptions C109_destruction_closes.

(** For every sequence of calls and every schedule: there is a data race or the process is ended
    only if the calls are misused, that is, a pipeline is never finished, a second one is started
    before the first is finished, or the file is opened, written or closed after row groups were
    handed over and before the pipeline is finished; and calls so misused never give a result. *)
Theorem C109_broken_exactly : forall library below options traces calls, fair traces ->
  (lifetime library below options traces calls = Broken -> misused calls) /\
  (misused calls -> lifetime library below options traces calls = Broken \/ lifetime library below options traces calls = Undefined).
Proof. exact broken_exactly. Qed.
Print Assumptions C109_broken_exactly.

(** After any calls: start_pipeline on a closed file, and submit_row_group and finish_pipeline
    without a pipeline, report failure and change nothing. *)
Theorem C109_refused_without_effect : forall library below options traces calls s oks o,
  wrun library below options traces session_new calls = Gives (s, oks) -> fair traces ->
  match o with WStart => file_open calls = false | WSubmit _ | WFinish => ~ running calls | _ => False end ->
  forall trace, wstep library below options trace s o = Gives (s, false).
Proof. exact refused. Qed.
Print Assumptions C109_refused_without_effect.

(** Concrete calls: a plain write, two pipelines (a group of no columns among them), schema set again. *)
Definition a_group : list arrow_column := int_chunk [1; 2]%Z ++ [AString (Column (StrBuf [122; 122]%N [0; 2; 2]%N) (Bitmap [] 2 0 false))].
Definition b_group : list arrow_column := int_chunk [3]%Z ++ [name1].
Definition mixed : list wop :=
  [WOpen true None; WSetSchema two_chunks_schema; WWrite b_group; WStart; WSubmit a_group; WSubmit []; WSubmit b_group; WFinish; WStart; WSetSchema two_chunks_schema; WSubmit a_group; WFinish; WClose].
Definition unmixed : list pop :=
  [POpen true None; PSetSchema two_chunks_schema; PWrite b_group; PWrite a_group; PWrite []; PWrite b_group; PSetSchema two_chunks_schema; PWrite a_group; PClose].
Example C109_meets : fair (fun _ => in_turn) /\ orderly false mixed unmixed /\
  (exists p file, wrun no_library (fun _ _ => true) (Options NONE false) (fun _ => in_turn) session_new mixed = Gives (WState p None, repeat true 13) /\
     ps_closed p = [file] /\ option_map (fun t => length (t_groups t)) (read_file no_decompress file) = Some 4) /\
  orderly false ([WOpen true None; WSetSchema two_chunks_schema; WStart] ++ map WSubmit [a_group; b_group] ++ [WFinish; WClose]) (session two_chunks_schema [a_group; b_group]).
Proof.
  split; [exact turns_fair|]. split; [|split].
  - apply orderly_open, orderly_schema, orderly_write. cbn [orb].
    apply (orderly_pipeline [WSubmit a_group; WSubmit []; WSubmit b_group] [PWrite a_group; PWrite []; PWrite b_group]); [repeat constructor|].
    apply (orderly_pipeline [WSetSchema two_chunks_schema; WSubmit a_group] [PSetSchema two_chunks_schema; PWrite a_group]); [repeat constructor|].
    repeat constructor.
  - eexists. eexists. split; [vm_compute; reflexivity|]. split; [reflexivity|vm_compute; reflexivity].
  - apply orderly_open, orderly_schema. apply (orderly_pipeline [WSubmit a_group; WSubmit b_group] [PWrite a_group; PWrite b_group]); repeat constructor.
Qed.

(** Destroyed without close, the file reads the same. *)
Example C109_destroyed : exists p q oks oks' file,
  lifetime no_library (fun _ _ => true) (Options NONE false) (fun _ => in_turn) (removelast mixed) = Gives (p, oks) /\ ps_closed p = [file] /\ wrun no_library (fun _ _ => true) (Options NONE false) (fun _ => in_turn) session_new mixed = Gives (WState q None, oks') /\ ps_closed q = [file].
Proof. do 5 eexists. split; [vm_compute; reflexivity|]. split; [reflexivity|]. split; [vm_compute; reflexivity|reflexivity]. Qed.

(** Each kind of misuse. *)
Definition lived (calls : list wop) : stepped (pstate * list bool) := lifetime no_library (fun _ _ => true) (Options NONE false) (fun _ => in_turn) calls.
Definition begun : list wop := [WOpen true None; WSetSchema two_chunks_schema; WStart].
Example C109_misused :
  lived begun = Broken /\ lived (begun ++ [WStart; WFinish; WClose]) = Broken /\
  lived (begun ++ [WSubmit a_group; WClose; WFinish]) = Broken /\ lived (begun ++ [WSubmit a_group; WWrite b_group; WFinish; WClose]) = Broken /\
  misused begun /\ misused (begun ++ [WSubmit a_group; WClose; WFinish]).
Proof.
  repeat (split; [vm_compute; reflexivity|]). split.
  - left. exists [WOpen true None; WSetSchema two_chunks_schema], []. split; [reflexivity|]. split; [reflexivity|intros []].
  - right. exists (begun ++ [WSubmit a_group]), WClose, [WFinish]. split; [reflexivity|]. right. split; [reflexivity|].
    exists [WOpen true None; WSetSchema two_chunks_schema], [WSubmit a_group], a_group. split; [reflexivity|]. split; [split; [reflexivity|]|].
    + intros [H|[]]. discriminate H.
    + split; [discriminate|left; reflexivity].
Qed.

(** Without misuse: the file is closed before the first row group is handed over; every call
    reports success, and the file has no row. *)
Theorem C109_success_means_written_refuted : exists calls p oks file,
  In (WSubmit a_group) calls /\ ~ misused calls /\
  lived calls = Gives (p, oks) /\ Forall (eq true) oks /\ length oks = length calls /\
  ps_closed p = [file] /\ read_file no_decompress file = Some (Table (map leaf_of two_chunks_schema) []).
Proof.
  exists (begun ++ [WClose; WSubmit a_group; WFinish]). eexists. exists (repeat true 6). eexists.
  split; [right; right; right; right; left; reflexivity|]. split.
  - intros M. apply (broken_exactly no_library (fun _ _ => true) (Options NONE false) (fun _ => in_turn)) in M; [|exact turns_fair].
    destruct M as [M|M]; vm_compute in M; discriminate M.
  - split; [vm_compute; reflexivity|]. split; [repeat constructor|]. split; [reflexivity|]. split; [reflexivity|vm_compute; reflexivity].
Qed.
Print Assumptions C109_success_means_written_refuted.
