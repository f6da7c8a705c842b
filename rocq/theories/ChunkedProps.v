(** C24: chunked column builders. *)
From Verif Require Import Base ChunkedSpec ChunkedModel ChunkedProof.

Theorem C24_chunked_builder_is_a_list : forall T (dflt : T) ops lists,
  spec_crun [] ops = Some lists ->
  exists builders, crun dflt [] ops = Some builders /\
    Forall2 (fun b l =>
      storage_size b = length l /\
      shows_cells (fst (raw_values b), fst (null_bitmap b)) l /\
      shows_cells (concat (map fst (all_chunks b)), concat (map snd (all_chunks b))) l /\
      Forall (fun c => fst c <> [] /\ length (fst c) = length (snd c)) (all_chunks b) /\
      fst (num_chunks b) = length (all_chunks b)) builders lists.
Proof.
  intros T dflt ops lists E. destruct (crun_ok dflt ops [] [] lists (Forall2_nil _) E) as (st & Er & HF).
  exists st. split; [assumption|]. clear E Er. induction HF; constructor; [|assumption].
  apply (binv_all dflt). assumption.
Qed.
Print Assumptions C24_chunked_builder_is_a_list.

Example C24_meets :
  let ops := [CNew; CNew; CAppend 0 (Some 1); CFill 1 [None; Some 2]; CRead 0; CMerge 0 1; CRead 0;
              CAppend 0 (Some 3); CFinalize 0; CAppend 1 (Some 9); CFill 0 [Some 4]; CMerge 1 0; CRead 1]%nat in
  spec_crun [] ops = Some [[]; [Some 9; Some 1; None; Some 2; Some 3; Some 4]] /\
  option_map (map (fun b => (fst (raw_values b), fst (null_bitmap b)))) (crun 0 [] ops)
  = Some [([], []); ([9; 1; 0; 2; 3; 4], [false; false; true; false; false; false])].
Proof. vm_compute. auto. Qed.
Print Assumptions C24_meets.

(** The writing vectors must not be kept across a read: what is written through them after a
    read is counted by size() but missing from raw_values(). *)
Theorem C24_kept_context_refuted :
  exists b : @builder nat,
    (exists b0 b1, crun 0 [] [CNew; CNew; CAppend 1 (Some 1); CMerge 0 1] = Some [b0; b1] /\
       b = context_append 0 (snd (raw_values (context_append 0 (open_context b0) (Some 2)))) (Some 3)) /\
    storage_size b = 3 /\ fst (raw_values b) = [1; 2].
Proof. eexists. split; [eexists; eexists; split; reflexivity|]. split; reflexivity. Qed.
Print Assumptions C24_kept_context_refuted.
