(** A table written through pipelines reads back. *)
From Verif Require Import Base TypesSpec MetaSpec BuffersModel ParquetSpec ParquetModel ParquetObs ParquetProof5 QueueSpec QueueModel PipelineModel
  SessionModel SessionSpec SessionProof ParquetProps.

Lemma prun_length library below options ops : forall p p' oks, prun library below options p ops = Some (p', oks) -> length oks = length ops.
Proof.
  induction ops as [|o r IH]; intros p p' oks H; cbn [prun] in H; [injection H as <- <-; reflexivity|].
  destruct (pstep library below options p o) as [[p1 ok]|]; [|discriminate H]. destruct (prun library below options p1 r) as [[p2 ks]|] eqn:R; [|discriminate H].
  injection H as <- <-. cbn [length]. rewrite (IH _ _ _ R). reflexivity.
Qed.

Lemma reads_back : forall library below options decompress schema groups traces calls,
  lossless library decompress (o_compression options) -> o_compression options <> LZ4 ->
  o_compression options = NONE \/ o_enable_dictionary options = false ->
  schema <> [] -> Forall (fun g => group_fits schema (fst g) (snd g)) groups -> footer_fits schema (length groups) ->
  fair traces -> orderly false calls (session schema (map fst groups)) ->
  exists p oks file, wrun library below options traces session_new calls = Gives (WState p None, oks) /\ Forall (eq true) oks /\
    ps_closed p = [file] /\ read_file decompress file = Some (Table (map leaf_of schema) (map snd groups)).
Proof.
  intros library below options decompress schema groups traces calls L N D S0 G F T O.
  destruct (C65_written_file_reads_back_partial library below options decompress schema groups [] [] L N D S0 (Forall_nil _) (Forall_nil _) G F)
    as (p & o1 & o2 & file & R & L1 & C & RD).
  pose proof (orderly_same library below options traces calls _ T O) as X. cbn [app] in R. rewrite app_nil_r in R. rewrite R in X.
  exists p. eexists. exists file. split; [exact X|]. split; [|split; [exact C|exact RD]]. apply reported_true.
  apply prun_length in R. destruct o1; [|discriminate L1]. cbn [app] in *. rewrite app_length, map_length in R.
  destruct o2; [|cbn [length] in R; lia]. rewrite app_nil_r. apply Forall_forall. intros x H. apply in_map_iff in H. destruct H as (y & <- & _). reflexivity.
Qed.

Lemma refused : forall library below options traces calls s oks o,
  wrun library below options traces session_new calls = Gives (s, oks) -> fair traces ->
  match o with WStart => file_open calls = false | WSubmit _ | WFinish => ~ running calls | _ => False end ->
  forall trace, wstep library below options trace s o = Gives (s, false).
Proof.
  intros library below options traces calls s oks o R F H trace. rewrite (run_simple _ _ _ _ F) in R.
  destruct (tracks_run _ _ _ _ _ _ R) as [A B _]. destruct o; try contradiction; unfold wstep; cbv zeta.
  - rewrite A, H. reflexivity.
  - destruct (ws_queue s); [|reflexivity]. exfalso. apply H, B. discriminate.
  - destruct (ws_queue s); [|reflexivity]. exfalso. apply H, B. discriminate.
Qed.

(** Destroying the writer closes the file. *)
Lemma destroyed : forall library below options traces calls plain, fair traces -> orderly false calls plain ->
  match prun library below options writer_new (plain ++ [PClose]) with
  | None => lifetime library below options traces calls = Undefined
  | Some (p, oks) => lifetime library below options traces calls = Gives (p, reported calls (removelast oks)) /\ ps_open p = false
  end.
Proof.
  intros library below options traces calls plain F O. pose proof (orderly_same library below options traces calls plain F O) as X.
  rewrite prun_app. unfold lifetime. destruct (prun library below options writer_new plain) as [[p oks]|]; rewrite X; [|reflexivity].
  cbn [prun pstep ws_queue ws_writer]. unfold do_close. destruct (ps_open p) eqn:E; cbn [negb fst].
  - rewrite removelast_app by discriminate. cbn [removelast]. rewrite app_nil_r. split; reflexivity.
  - rewrite removelast_app by discriminate. cbn [removelast]. rewrite app_nil_r. split; [reflexivity|exact E].
Qed.
