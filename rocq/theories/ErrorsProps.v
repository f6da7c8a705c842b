(** C26, C27, C61, C62: error collection and header validation. *)
From Verif Require Import Base ErrorsSpec ReaderModel TypesModel ErrorsModel ErrorsProof.
From Coq Require Import Permutation Sorted.

(** ** C26 *)
(** Reporting errors to a fresh collector: it keeps the first [limit], counts the rest. *)
Theorem C26_keeps_the_first : forall m limit es,
  let r := fold_left add_error es (new_collector m limit) in
  c_errors r = firstn limit es /\
  c_suppressed r = length es - limit /\
  c_fatal r = existsb is_fatal es.
Proof.
  intros m limit es. destruct (add_errors_exact es (new_collector m limit)) as (_ & _ & H3 & H4 & H5).
  cbn [new_collector c_errors c_max c_suppressed c_fatal length] in H3, H4, H5. rewrite Nat.sub_0_r in H3, H4. auto.
Qed.
Print Assumptions C26_keeps_the_first.

(** Any history of any number of collectors: creation, reporting, clearing, changing mode and
    limit, merging (also with itself), merging and sorting. *)
Theorem C26_every_history : forall sort ops logs,
  sorts sort -> spec_erun [] ops = Some logs ->
  exists st, erun sort [] ops = Some st /\ length st = length logs /\
    forall h c l, nth_error st h = Some c -> nth_error logs h = Some l ->
      error_count c + c_suppressed c = length (l_reported l) /\
      error_count c <= l_cap l /\
      c_fatal c = existsb is_fatal (l_reported l) /\
      (exists rest, Permutation (c_errors c ++ rest) (l_reported l)) /\
      (c_suppressed c = 0 -> Permutation (c_errors c) (l_reported l)) /\
      (has_errors c = true \/ c_suppressed c = 0 ->
       should_stop c = documented_stop (l_mode l) (l_reported l)).
Proof.
  intros sort ops logs Hs E. destruct (erun_ok sort ops [] [] logs Hs (Forall2_nil _) E) as (st & Er & HF).
  exists st. split; [exact Er|]. split; [clear Er E; induction HF; cbn [length]; congruence|].
  intros h c l Hc Hl. destruct (EF2_nth _ _ _ _ _ _ _ HF Hl) as (c' & Hc' & Hi).
  rewrite Hc in Hc'. injection Hc' as <-. apply einv_consequences. exact Hi.
Qed.
Print Assumptions C26_every_history.

(** An insertion sort meets the contract assumed of std::sort. *)
Fixpoint insert_error (e : error) (l : list error) : list error :=
  match l with
  | [] => [e]
  | x :: r => if e_offset e <=? e_offset x then e :: l else x :: insert_error e r
  end.
Definition insertion_sort (l : list error) : list error := fold_right insert_error [] l.
Lemma insertion_sort_sorts : sorts insertion_sort.
Proof.
  intros l. induction l as [|e l (IHp & IHs)]; cbn [insertion_sort fold_right]; [split; constructor|].
  fold (insertion_sort l). generalize dependent (insertion_sort l). intros s Hp Hs.
  split.
  - rewrite <- Hp. clear. induction s as [|x s IH]; cbn [insert_error]; [reflexivity|].
    destruct (e_offset e <=? e_offset x); [reflexivity|]. rewrite perm_swap, <- IH. reflexivity.
  - clear Hp. induction Hs as [|x s Hs IH Hx]; cbn [insert_error]; [repeat constructor|].
    destruct (Nat.leb_spec (e_offset e) (e_offset x)).
    + constructor; [constructor; assumption|]. constructor. assumption.
    + constructor; [assumption|]. destruct s as [|y s]; cbn [insert_error] in *.
      * constructor. unfold offset_order. lia.
      * inversion Hx; subst. destruct (e_offset e <=? e_offset y); constructor; [unfold offset_order; lia|assumption].
Qed.

Definition e1 : error := Error 4 RECOVERABLE 2 1 30 [].
Definition e2 : error := Error 1 FATAL 5 1 10 [].
Definition e3 : error := Error 6 WARNING 3 1 20 [].
Example C26_meets :
  let ops := [ENew PERMISSIVE 2; EAdd 0 e1; EAdd 0 e3; EAdd 0 e2; ENew FAIL_FAST 1; EAdd 1 e3;
              ESetMax 1 4; EMergeSorted 1 [0]; EMerge 0 0; ESetMode 0 BEST_EFFORT] in
  spec_erun [] ops = Some [Log [e1; e3; e2; e1; e3; e2] BEST_EFFORT 2 2; Log [e3; e1; e3; e2] FAIL_FAST 4 4] /\
  erun insertion_sort [] ops = Some [Collector BEST_EFFORT 2 [e1; e3] true 4; Collector FAIL_FAST 4 [e3; e3; e1] true 1].
Proof. vm_compute. auto. Qed.

(** at_error_limit tells exactly whether one more error would be kept; of a fresh collector it
    tells whether as many errors as the limit were reported, and after an increase of the limit
    reporting goes on. *)
Theorem C26_limit_tells_what_is_kept : forall c e,
  (at_error_limit c = true -> c_errors (add_error c e) = c_errors c /\ c_suppressed (add_error c e) = S (c_suppressed c)) /\
  (at_error_limit c = false -> c_errors (add_error c e) = c_errors c ++ [e] /\ c_suppressed (add_error c e) = c_suppressed c) /\
  (forall m limit es, at_error_limit (fold_left add_error es (new_collector m limit)) = true <-> limit <= length es) /\
  (forall n, at_error_limit (set_max_errors c n) = true <-> n <= error_count c) /\
  (at_error_limit (clear c) = true <-> c_max c = 0).
Proof. exact error_limit. Qed.
Print Assumptions C26_limit_tells_what_is_kept.

(** With a limit of 0, FAIL_FAST does not stop at an error that is not fatal. *)
Theorem C26_fail_fast_limit_zero_refuted :
  let c := add_error (new_collector FAIL_FAST 0) e1 in
  should_stop c = false /\ documented_stop FAIL_FAST [e1] = true.
Proof. split; reflexivity. Qed.
Print Assumptions C26_fail_fast_limit_zero_refuted.

(** The comment on should_stop (error.h:285-287) promises that a fatal error stops parsing in
    every mode but DISABLED; in BEST_EFFORT mode it does not. *)
Theorem C26_fatal_stops_unless_disabled_refuted :
  exists m, m <> DISABLED /\ forall limit e, is_fatal e = true ->
    should_stop (add_error (new_collector m limit) e) = false.
Proof.
  exists BEST_EFFORT. split; [discriminate|]. intros limit e _. unfold should_stop, add_error, new_collector.
  cbn [c_max c_errors length]. destruct (limit <=? 0); reflexivity.
Qed.
Print Assumptions C26_fatal_stops_unless_disabled_refuted.

(** ** C27 *)
Theorem C27_merge_sorted_complete : forall sort c cs,
  sorts sort ->
  let r := merge_sorted sort c cs in
  let everything := c_errors c ++ concat (map c_errors cs) in
  let total := length everything in
  Permutation (c_errors r) (firstn (max (c_max c) (error_count c)) everything) /\
  Sorted offset_order (c_errors r) /\
  (total <= c_max c -> Permutation (c_errors r) everything) /\
  c_suppressed r + error_count r = c_suppressed c + list_sum (map c_suppressed cs) + total /\
  c_fatal r = c_fatal c || existsb c_fatal cs /\
  c_mode r = c_mode c /\ c_max r = c_max c.
Proof.
  intros sort c cs Hs. cbv zeta. destruct (merge_all cs c) as (H1 & H2 & H3 & H4 & H5).
  unfold merge_sorted, sort_by_offset, error_count. cbn [c_errors c_suppressed c_fatal c_mode c_max].
  destruct (Hs (c_errors (fold_left merge_from cs c))) as (P & S).
  split; [rewrite P, H4; reflexivity|]. split; [exact S|].
  split; [intros Hle; rewrite P, H4, firstn_all2 by lia; reflexivity|].
  split; [rewrite (Permutation_length P), app_length; exact H5|]. auto.
Qed.
Print Assumptions C27_merge_sorted_complete.

Example C27_meets :
  let a := fold_left add_error [e1] (new_collector PERMISSIVE 9) in
  let b := fold_left add_error [e3; e2; e3] (new_collector PERMISSIVE 2) in
  let r := merge_sorted insertion_sort (new_collector PERMISSIVE 9) [a; b] in
  c_errors r = [e2; e3; e1] /\ c_suppressed r = 1 /\ c_fatal r = true.
Proof. vm_compute. auto. Qed.

(** ** C61: header validation *)
Theorem C61_duplicate_names_reported : forall m limit names,
  m <> DISABLED -> ~ header_is_empty names ->
  let '(c, ok) := validate_header (new_collector m limit) names in
  ok = true /\ c_fatal c = false /\
  exists dups, (forall i, In i dups <-> repeats names i) /\ StronglySorted lt dups /\
    c_errors c = firstn limit (map (fun i => Error DUPLICATE_COLUMN_NAMES WARNING 1 (i + 1) 0 (nth i names [])) dups) /\
    error_count c + c_suppressed c = length dups.
Proof. exact header_duplicates. Qed.
Print Assumptions C61_duplicate_names_reported.

Example C61_meets :
  let names := [s2b "a"; []; s2b "b"; s2b "a"; []; s2b "a"] in
  ~ header_is_empty names /\ repeats names 3 /\ ~ repeats names 4 /\
  map e_column (c_errors (fst (validate_header (new_collector PERMISSIVE 9) names))) = [4; 6].
Proof.
  cbv zeta. split; [intros [H|H]; discriminate|]. split.
  - exists 0, (s2b "a"). repeat split; try lia. discriminate.
  - split; [|vm_compute; reflexivity]. intros (j & n & _ & _ & E & Hn). injection E as <-. congruence.
Qed.

Theorem C61_empty_header_reported : forall m limit names,
  m <> DISABLED -> header_is_empty names ->
  let '(c, ok) := validate_header (new_collector m limit) names in
  c_fatal c = true /\ error_count c + c_suppressed c = 1 /\
  ok = match m with BEST_EFFORT => true | _ => false end.
Proof. exact header_empty. Qed.
Print Assumptions C61_empty_header_reported.

Theorem C61_disabled_reports_nothing : forall limit names,
  validate_header (new_collector DISABLED limit) names = (new_collector DISABLED limit, true).
Proof. exact header_disabled. Qed.
Print Assumptions C61_disabled_reports_nothing.

(** FAIL_FAST is documented to stop at the first error; a duplicate column name is recorded
    and open() succeeds all the same. *)
Theorem C61_fail_fast_stops_refuted : exists names c,
  validate_header (new_collector FAIL_FAST 100) names = (c, true) /\
  should_stop c = true /\ documented_stop FAIL_FAST (c_errors c) = true.
Proof. exists [s2b "a"; s2b "a"]. eexists. vm_compute. repeat split. Qed.
Print Assumptions C61_fail_fast_stops_refuted.

(** ** C62: the first line of summary() *)
Definition opens (l : bytes) : nat := length (filter (N.eqb 40) l).
Definition closes (l : bytes) : nat := length (filter (N.eqb 41) l).
Theorem C62_summary_balanced_partial : forall c,
  opens (summary_first_line c) = closes (summary_first_line c) <->
  (c_errors c = [] \/ exists e, In e (c_errors c) /\ e_severity e = WARNING).
Proof.
  intros c. destruct (summary_parens c) as (H1 & H2). unfold opens, closes.
  unfold paren_count in H1, H2. rewrite H1, H2. apply warning_iff.
Qed.
Print Assumptions C62_summary_balanced_partial.
Example C62_meets :
  summary_first_line (fold_left add_error [e1; e2; e3; e3] (new_collector PERMISSIVE 10)) =
  s2b "Total errors: 4 (Warnings: 2, Errors: 1, Fatal: 1)".
Proof. vm_compute. reflexivity. Qed.

Theorem C62_summary_balanced_refuted :
  let c := add_error (new_collector PERMISSIVE 10) e1 in
  summary_first_line c = s2b "Total errors: 1, Errors: 1)" /\
  opens (summary_first_line c) = 0 /\ closes (summary_first_line c) = 1.
Proof. vm_compute. auto. Qed.
Print Assumptions C62_summary_balanced_refuted.
