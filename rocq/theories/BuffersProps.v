(** C21, C22, C23, C59, C60: validity bitmaps, string buffers, column builders, Arrow export. *)
From Verif Require Import Base BuffersSpec BuffersModel BuffersObs BuffersProof BuffersProof2 BuffersProof3.

(** C21.  Any history of any length over any number of bitmaps: no operation is undefined,
    and every bitmap shows exactly the list of flags pushed into it. *)
Theorem C21_bitmap_is_a_list_of_flags : forall ops lists,
  run (as_lists bool) [] ops = Some lists ->
  exists bitmaps, run bitmap_impl [] ops = Some bitmaps /\ Forall2 shows_flags bitmaps lists.
Proof.
  intros ops lists E.
  destruct (run_sim _ _ _ _ _ _ _ _ _ _ bitmap_simulates (Forall2_nil _) E) as (st & Er & HF).
  exists st. split; [assumption|]. eapply Forall2_weaken; [|exact HF]. exact inv_shows.
Qed.
Print Assumptions C21_bitmap_is_a_list_of_flags.

Example C21_meets :
  let ops := [New; New; Push 0 true; Push 0 true; Finalize 0; Push 1 true; Push 1 false; AppendFrom 0 1;
              Push 0 true; Clear 1; AppendFrom 1 0; Push 1 false]%nat in
  run (as_lists bool) [] ops = Some [[true; true; true; false; true]; [true; true; true; false; true; false]] /\
  option_map (map (fun m => (bm_size m, null_count m, null_count_fast m, is_valid m 3))) (run bitmap_impl [] ops)
  = Some [(5, Some 1, 1, Some false); (6, Some 2, 2, Some false)].
Proof. vm_compute. auto. Qed.
Print Assumptions C21_meets.

(** C60 (overwriting a flag).  The full claim: after set(i, v) on an in-range index, reading
    gives v at i, everything else is unchanged, and both null counts are right.
    Proved: the reading part, when at least one null has been pushed. *)
Theorem C60_set_flag_partial : forall ops flags i v,
  run (as_lists bool) [] ops = Some [flags] -> some_null flags = true -> i < length flags ->
  exists m m', run bitmap_impl [] ops = Some [m] /\ bm_set m i v = Some m' /\
    bm_size m' = length flags /\
    forall j w, nth_error (update flags i v) j = Some w -> is_valid m' j = Some w.
Proof. exact set_reachable. Qed.
Print Assumptions C60_set_flag_partial.

Example C60_meets : run (as_lists bool) [] [New; Push 0 true; Push 0 false] = Some [[true; false]].
Proof. reflexivity. Qed.
Print Assumptions C60_meets.

(** Setting a flag to null where no null was pushed before: the write is out of bounds ... *)
Theorem C60_set_null_first_refuted :
  exists ops m, run (as_lists bool) [] ops = Some [[true]] /\ run bitmap_impl [] ops = Some [m] /\
    bm_set m 0 false = None.
Proof. exists [New; Push 0 true], (Bitmap [] 1 0 false). repeat split. Qed.
Print Assumptions C60_set_null_first_refuted.

(** ... or, after finalize(), in bounds but ignored by every reader. *)
Theorem C60_set_null_ignored_refuted :
  exists ops m m', run (as_lists bool) [] ops = Some [[true]] /\ run bitmap_impl [] ops = Some [m] /\
    bm_set m 0 false = Some m' /\ is_valid m' 0 = Some true /\ null_count m' = Some 0.
Proof.
  exists [New; Push 0 true; Finalize 0], (Bitmap [255%N] 1 0 false), (Bitmap [254%N] 1 0 false). repeat split.
Qed.
Print Assumptions C60_set_null_ignored_refuted.

(** The fast null count is not maintained: the two counts disagree. *)
Theorem C60_set_count_refuted :
  exists ops m m', run (as_lists bool) [] ops = Some [[true; false]] /\ run bitmap_impl [] ops = Some [m] /\
    bm_set m 1 true = Some m' /\ null_count m' = Some 0 /\ null_count_fast m' = 1.
Proof.
  exists [New; Push 0 true; Push 0 false], (Bitmap [253%N] 2 1 true), (Bitmap [255%N] 2 1 true). repeat split.
Qed.
Print Assumptions C60_set_count_refuted.

(** resize(n) promises n valid flags; a null pushed before comes back with the next null. *)
Theorem C60_resize_refuted :
  exists m m', run bitmap_impl [] [New; Push 0 false] = Some [m] /\
    is_valid (bm_resize m 1) 0 = Some true /\
    push_back_null (bm_resize m 1) = Some m' /\ is_valid m' 0 = Some false /\ null_count_fast m' = 2.
Proof. exists (Bitmap [0%N] 1 1 true), (Bitmap [0%N] 2 2 true). repeat split. Qed.
Print Assumptions C60_resize_refuted.

(** C22. *)
Theorem C22_string_buffer_is_a_list_of_strings : forall ops lists,
  run (as_small_lists texts_size two32) [] ops = Some lists ->
  exists bufs, run strbuf_impl [] ops = Some bufs /\
    Forall2 (fun b l => shows_texts b (map text l)) bufs lists.
Proof.
  intros ops lists E.
  destruct (run_sim _ _ _ _ _ _ _ _ _ _ strbuf_simulates (Forall2_nil _) E) as (st & Er & HF).
  exists st. split; [assumption|]. eapply Forall2_weaken; [|exact HF]. exact sinv_shows.
Qed.
Print Assumptions C22_string_buffer_is_a_list_of_strings.

Example C22_meets :
  let ops := [New; New; Push 0 (Some (s2b "ab")); Push 0 None; Push 1 (Some (s2b "cde")); AppendFrom 0 1; AppendFrom 1 0] in
  run (as_small_lists texts_size two32) [] ops =
    Some [[Some (s2b "ab"); None; Some (s2b "cde")]; [Some (s2b "cde"); Some (s2b "ab"); None; Some (s2b "cde")]] /\
  option_map (map (fun b => (sb_get b 0, sb_get b 1, sb_get b 2))) (run strbuf_impl [] ops)
  = Some [(Some (s2b "ab"), Some [], Some (s2b "cde")); (Some (s2b "cde"), Some (s2b "ab"), Some [])].
Proof. vm_compute. auto. Qed.
Print Assumptions C22_meets.

(** The bound is sharp: a string of 2^32 bytes reads back as the empty string. *)
Theorem C22_four_gigabytes_refuted : forall s, N.of_nat (length s) = two32 ->
  sb_get (sb_push_back sb_new s) 0 = Some [] /\ sb_length (sb_push_back sb_new s) 0 = Some 0%N.
Proof. exact sb_wraps. Qed.
Print Assumptions C22_four_gigabytes_refuted.

(** push_back_unchecked does not store the string, even with enough capacity reserved. *)
Theorem C22_push_back_unchecked_refuted :
  exists s, sb_get (sb_push_back_unchecked sb_new s) 0 <> Some s.
Proof. exists (s2b "a"). vm_compute. discriminate. Qed.
Print Assumptions C22_push_back_unchecked_refuted.

(** What it stores instead: as many zero bytes. *)
Theorem C22_push_back_unchecked_stores_zeros : forall (b : strbuf) (s : bytes),
  sb_push_back_unchecked b s = sb_push_back b (repeat 0%N (length s)).
Proof.
  intros b s. unfold sb_push_back_unchecked, sb_push_back. cbv zeta.
  assert (R : resize (sb_data b) (length (sb_data b) + length s) 0%N = sb_data b ++ repeat 0%N (length s)).
  { unfold resize. rewrite firstn_all2 by lia. do 2 f_equal. lia. }
  rewrite R, app_length, repeat_length. reflexivity.
Qed.
Print Assumptions C22_push_back_unchecked_stores_zeros.

(** C23: fixed-width columns under any history of appends and merges ... *)
Theorem C23_merging_fixed_columns : forall V (dflt : V) ops lists,
  run (as_lists (option V)) [] ops = Some lists ->
  exists cols, run (fixed_impl dflt) [] ops = Some cols /\ Forall2 shows_fixed cols lists.
Proof.
  intros V dflt ops lists E.
  destruct (run_sim _ _ _ _ _ _ _ _ _ _ (fixed_simulates dflt) (Forall2_nil _) E) as (st & Er & HF).
  exists st. split; [assumption|]. eapply Forall2_weaken; [|exact HF]. exact (finv_shows dflt).
Qed.
Print Assumptions C23_merging_fixed_columns.

(** ... string columns ... *)
Theorem C23_merging_string_columns : forall ops lists,
  run (as_small_lists texts_size two32) [] ops = Some lists ->
  exists cols, run string_impl [] ops = Some cols /\ Forall2 shows_strings cols lists.
Proof.
  intros ops lists E.
  destruct (run_sim _ _ _ _ _ _ _ _ _ _ (string_simulates_at two32 (N.le_refl _)) (Forall2_nil _) E) as (st & Er & HF).
  exists st. split; [assumption|]. eapply Forall2_weaken; [|exact HF]. exact tinv_shows.
Qed.
Print Assumptions C23_merging_string_columns.

(** ... and whatever the grouping of the merges, the result is the concatenation. *)
Theorem C23_any_grouping : forall V (dflt : V) t,
  exists c, build (fixed_impl dflt) t = Some c /\ shows_fixed c (flatten t).
Proof.
  intros V dflt t.
  destruct (build_sim _ _ _ _ _ _ _ _ (fixed_simulates dflt) (build_lists _ t)) as (c & E & H).
  exists c. split; [assumption|]. exact (finv_shows dflt c _ H).
Qed.
Print Assumptions C23_any_grouping.

Example C23_meets :
  let t := Join (Piece [Some 1%Z; None]) (Join (Piece []) (Piece [None; Some 7%Z])) in
  flatten t = [Some 1%Z; None; None; Some 7%Z] /\
  option_map (fun c => (c_values c, col_null_count c, is_valid (c_nulls c) 2, is_valid (c_nulls c) 3)) (build (fixed_impl 0%Z) t)
  = Some ([1; 0; 0; 7]%Z, 2, Some false, Some true).
Proof. vm_compute. auto. Qed.
Print Assumptions C23_meets.

(** C59: what an Arrow consumer reads from an exported column is the column. *)
Theorem C59_export_fixed : forall V (dflt : V) ops lists i cells c,
  run (as_lists (option V)) [] ops = Some lists -> nth_error lists i = Some cells ->
  option_map (fun cs => nth_error cs i) (run (fixed_impl dflt) [] ops) = Some (Some c) ->
  aa_length (fx_export c) = length cells /\
  aa_null_count (fx_export c) = nulls_in (valid_flags cells) /\
  (forall j cell, nth_error cells j = Some cell -> arrow_read_fixed (fx_export c) j = Some cell) /\
  (forall j, length cells <= j -> arrow_read_fixed (fx_export c) j = None).
Proof.
  intros V dflt ops lists i cells c E Ei Ec.
  destruct (run_sim _ _ _ _ _ _ _ _ _ _ (fixed_simulates dflt) (Forall2_nil _) E) as (st & Er & HF).
  destruct (Forall2_nth _ _ _ _ _ _ _ HF Ei) as (c' & Ec' & H). rewrite Er in Ec. cbn [option_map] in Ec.
  rewrite Ec' in Ec. injection Ec as <-. exact (finv_export dflt c' cells H).
Qed.
Print Assumptions C59_export_fixed.

(** For strings, while the total stays below 2^31 (Arrow offsets are signed). *)
Theorem C59_export_strings : forall ops lists i cells c,
  run (as_small_lists texts_size two31) [] ops = Some lists -> nth_error lists i = Some cells ->
  (texts_size cells < two31)%N ->
  option_map (fun cs => nth_error cs i) (run string_impl [] ops) = Some (Some c) ->
  aa_length (st_export c) = length cells /\
  aa_null_count (st_export c) = nulls_in (valid_flags cells) /\
  (forall j cell, nth_error cells j = Some cell -> arrow_read_utf8 (st_export c) j = Some cell) /\
  (forall j, length cells <= j -> arrow_read_utf8 (st_export c) j = None).
Proof.
  intros ops lists i cells c E Ei Hlim Ec.
  assert (L : (two31 <= two32)%N) by (vm_compute; discriminate).
  destruct (run_sim _ _ _ _ _ _ _ _ _ _ (string_simulates_at two31 L) (Forall2_nil _) E) as (st & Er & HF).
  destruct (Forall2_nth _ _ _ _ _ _ _ HF Ei) as (c' & Ec' & H). rewrite Er in Ec. cbn [option_map] in Ec.
  rewrite Ec' in Ec. injection Ec as <-. exact (tinv_export c' cells H Hlim).
Qed.
Print Assumptions C59_export_strings.

Example C59_meets :
  let ops := [New; Push 0 (Some (s2b "xy")); Push 0 None; Push 0 (Some (s2b "z"))] in
  run (as_small_lists texts_size two31) [] ops = Some [[Some (s2b "xy"); None; Some (s2b "z")]] /\
  option_map (map (fun c => map (arrow_read_utf8 (st_export c)) [0; 1; 2; 3])) (run string_impl [] ops)
  = Some [[Some (Some (s2b "xy")); Some None; Some (Some (s2b "z")); None]].
Proof. vm_compute. auto. Qed.
Print Assumptions C59_meets.

(** Between 2^31 and 2^32 bytes the library itself still reads the string back, but the
    exported array is invalid for every Arrow consumer. *)
Theorem C59_two_gigabytes_refuted : forall s c, (two31 <= N.of_nat (length s) < two32)%N ->
  st_push (Column sb_new bm_new) (Some s) = Some c ->
  sb_get (c_values c) 0 = Some s /\ arrow_read_utf8 (st_export c) 0 = None.
Proof. exact export_too_long. Qed.
Print Assumptions C59_two_gigabytes_refuted.

(** What lies in the value buffer of any column, whatever its history: the values, and the
    default of its class at the missing ones. *)
Theorem C59_values_under_nulls : forall V (dflt : V) ops lists i cells c,
  run (as_lists (option V)) [] ops = Some lists -> nth_error lists i = Some cells ->
  option_map (fun cs => nth_error cs i) (run (fixed_impl dflt) [] ops) = Some (Some c) ->
  c_values c = map (fun cell => match cell with Some v => v | None => dflt end) cells.
Proof.
  intros V dflt ops lists i cells c E Ei Ec.
  destruct (run_sim _ _ _ _ _ _ _ _ _ _ (fixed_simulates dflt) (Forall2_nil _) E) as (st & Er & HF).
  destruct (Forall2_nth _ _ _ _ _ _ _ HF Ei) as (c' & Ec' & H). rewrite Er in Ec. cbn [option_map] in Ec.
  rewrite Ec' in Ec. injection Ec as <-. exact (proj1 H).
Qed.
Print Assumptions C59_values_under_nulls.
