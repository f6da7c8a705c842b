(** C86, C87: loading input into memory, and the life of the buffers. *)
From Verif Require Import Base AlignedSpec AlignedModel AlignedProof.
From Coq Require Import Permutation.

(** ** C86 *)

(** Whatever happened before: a file that can be opened and delivers all its
    bytes is loaded completely, followed by exactly the padding asked for, all
    zero. *)
Theorem C86_file_is_loaded_whole :
  forall ops st content padding, Forall sane ops -> Forall unbroken ops -> spec_run [] ops = Some st ->
  (N.of_nat (length content) + padding < 2 ^ 64)%N ->
  exists m, brun fresh_memory (ops ++ [LoadFile (Sized (N.of_nat (length content)) content) padding true]) = Some (Done m) /\
    all_shown m = map (option_map Some) st ++ [Some (Some (Holds (map Some content) (zeros padding)))].
Proof.
  intros ops st content padding Hs Hu E Hp.
  destruct (histories (ops ++ [LoadFile (Sized (N.of_nat (length content)) content) padding true])
              (st ++ [Some (Holds (map Some content) (zeros padding))])) as (m & B & Sh & _).
  - apply Forall_app. split; [exact Hs|]. constructor; [|constructor]. cbn. split; [exact Hp|lia].
  - apply Forall_app. split; [exact Hu|]. constructor; [exact I|constructor].
  - rewrite (spec_run_snoc _ _ _ _ E). cbn [spec_step loaded]. rewrite N.eqb_refl. reflexivity.
  - exists m. split; [exact B|]. rewrite Sh, map_app. reflexivity.
Qed.
Print Assumptions C86_file_is_loaded_whole.

(** A file that cannot be opened, whose size is unknown, that delivers fewer
    bytes than it has, or for which there is no memory: an exception, no object,
    and all objects as before. *)
Theorem C86_failures_leave_nothing_behind :
  forall ops st a padding memory, Forall sane ops -> Forall unbroken ops -> spec_run [] ops = Some st ->
  sane (LoadFile a padding memory) ->
  (forall content, a = Sized (N.of_nat (length content)) content -> memory = false) ->
  exists m, brun fresh_memory (ops ++ [LoadFile a padding memory]) = Some (Done m) /\
    all_shown m = map (option_map Some) st.
Proof.
  intros ops st a padding memory Hs Hu E Hp Ha.
  destruct (histories (ops ++ [LoadFile a padding memory]) st) as (m & B & Sh & _).
  - apply Forall_app. split; [exact Hs|]. constructor; [exact Hp|constructor].
  - apply Forall_app. split; [exact Hu|]. constructor; [exact I|constructor].
  - rewrite (spec_run_snoc _ _ _ _ E). cbn [spec_step loaded]. destruct a as [| |n got]; try reflexivity.
    destruct memory; [|reflexivity]. destruct (N.of_nat (length got) =? n)%N eqn:Q; [|reflexivity].
    apply N.eqb_eq in Q. rewrite <- Q in Ha. specialize (Ha got eq_refl). discriminate.
  - exists m. split; [exact B|exact Sh].
Qed.
Print Assumptions C86_failures_leave_nothing_behind.

(** Standard input that ends properly is loaded completely. *)
Theorem C86_stdin_partial :
  forall ops st s padding, Forall sane ops -> Forall unbroken ops -> spec_run [] ops = Some st ->
  broken s = false -> (N.of_nat (length (delivered s)) + padding < 2 ^ 64)%N ->
  exists m, brun fresh_memory (ops ++ [LoadStdin s padding true]) = Some (Done m) /\
    all_shown m = map (option_map Some) st ++ [Some (Some (Holds (map Some (delivered s)) (zeros padding)))].
Proof.
  intros ops st s padding Hs Hu E Hb Hp.
  destruct (histories (ops ++ [LoadStdin s padding true])
              (st ++ [Some (Holds (map Some (delivered s)) (zeros padding))])) as (m & B & Sh & _).
  - apply Forall_app. split; [exact Hs|]. constructor; [exact Hp|constructor].
  - apply Forall_app. split; [exact Hu|]. constructor; [exact Hb|constructor].
  - rewrite (spec_run_snoc _ _ _ _ E). cbn [spec_step loaded]. rewrite Hb. reflexivity.
  - exists m. split; [exact B|]. rewrite Sh, map_app. reflexivity.
Qed.
Print Assumptions C86_stdin_partial.

(** A read error on standard input is documented to throw; the input delivered
    so far is returned as if it were complete. *)
Theorem C86_broken_stdin_refuted :
  forall content padding, (N.of_nat (length content) + padding < 2 ^ 64)%N ->
  loaded (LoadStdin (Stream content true) padding true) = None /\
  bstep fresh_memory (LoadStdin (Stream content true) padding true) =
  bstep fresh_memory (LoadStdin (Stream content false) padding true) /\
  exists m, bstep fresh_memory (LoadStdin (Stream content true) padding true) = Some (Done m) /\
    all_shown m = [Some (Some (Holds (map Some content) (zeros padding)))].
Proof.
  intros content padding H. split; [reflexivity|]. split; [reflexivity|].
  destruct (C86_stdin_partial [] [] (Stream content false) padding) as (m & B & Sh); try constructor; [exact H|].
  exists m. split; [|exact Sh]. cbn [app brun] in B.
  change (bstep fresh_memory (LoadStdin (Stream content false) padding true) = Some (Done m)).
  destruct (bstep fresh_memory (LoadStdin (Stream content false) padding true)) as [[m'|]|]; [|discriminate ..].
  exact B.
Qed.
Print Assumptions C86_broken_stdin_refuted.

(** Size and padding are added without a check: if the sum does not fit in 64
    bits, allocate() writes outside the block it got. *)
Theorem C86_sum_wraps_refuted :
  forall size padding, (size < 2 ^ 64)%N -> (padding < 2 ^ 64)%N -> (2 ^ 64 <= size + padding)%N ->
  bstep fresh_memory (Allocate size padding true) = Some Undefined.
Proof.
  intros size padding H1 H2 H3. cbn [bstep]. unfold allocate. cbn [negb]. cbv zeta.
  rewrite (proj2 (N.ltb_lt 0 padding)) by lia.
  assert (E : ((size + padding) mod 2 ^ 64 = size + padding - 2 ^ 64)%N).
  { symmetry. apply (N.mod_unique _ _ 1); lia. }
  rewrite E. unfold store. rewrite !repeat_length.
  rewrite (proj2 (Nat.leb_gt _ _)) by lia. reflexivity.
Qed.
Print Assumptions C86_sum_wraps_refuted.

(** ** C87 *)

(** Any history of creating, loading, moving (also onto itself) and destroying
    buffers: no undefined behaviour; every object shows what it should; no block
    is given back twice; and a block has not been given back exactly if some
    object holds it. *)
Theorem C87_buffers_live_and_die :
  forall ops st, Forall sane ops -> Forall unbroken ops -> spec_run [] ops = Some st ->
  exists m, brun fresh_memory ops = Some (Done m) /\
    all_shown m = map (option_map Some) st /\
    NoDup (freed m) /\
    (forall p, In p (freed m) -> p < length (blocks m)) /\
    (forall p, p < length (blocks m) ->
       (~ In p (freed m) <-> exists h b, nth_error (objects m) h = Some (Some b) /\ b_data b = Some p)).
Proof. exact histories. Qed.
Print Assumptions C87_buffers_live_and_die.

(** When all objects are destroyed, all memory has been given back, each block
    once. *)
Theorem C87_everything_released :
  forall ops st, Forall sane ops -> Forall unbroken ops -> spec_run [] ops = Some st ->
  Forall (fun x => x = None) st ->
  exists m, brun fresh_memory ops = Some (Done m) /\ Permutation (freed m) (seq 0 (length (blocks m))).
Proof. exact all_released. Qed.
Print Assumptions C87_everything_released.

Example C87_nonvacuous :
  let ops := [LoadFile (Sized 3 [65; 66; 67]%N) 2 true; Make; MoveTo 1 0; MoveTo 1 1; LoadFile (Sized 3 [65]%N) 2 true;
              MoveNew 1; Allocate 1 1 true; MoveTo 3 2; Drop 3; Drop 2; Drop 1; Drop 0] in
  Forall sane ops /\ Forall unbroken ops /\
  spec_run [] (firstn 8 ops) = Some [Some Nothing; Some Nothing; Some Nothing;
     Some (Holds [Some 65; Some 66; Some 67]%N [Some 0; Some 0]%N)] /\
  spec_run [] ops = Some [None; None; None; None] /\
  exists m, brun fresh_memory ops = Some (Done m) /\ freed m = [1; 2; 0].
Proof.
  cbv zeta. split; [repeat (constructor; [cbn; try exact I; try (split; lia); lia|]); constructor|].
  split; [repeat (constructor; [exact I|]); constructor|].
  split; [reflexivity|]. split; [reflexivity|]. eexists. split; reflexivity.
Qed.
