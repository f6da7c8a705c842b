(** C42, C43, C44: column statistics. *)
From Verif Require Import Base ChunkedSpec ChunkedModel ChunkedProof.
From Verif Require Import StatsSpec StatsModel StatsProof StatsProof2 StatsProof3 StatsProof4 StatsProof5.
From Coq Require Import Permutation.

(** ** C43: vectorised minimum and maximum *)
Theorem C43_vector_minmax_int : forall lanes data, 0 < lanes -> data <> [] ->
  (let '(lo, hi) := compute_minmax_int lanes (-2 ^ 31) (2 ^ 31 - 1) data in
   is_least int_lt data lo /\ is_greatest int_lt data hi) /\
  (let '(lo, hi) := compute_minmax_int lanes (-2 ^ 63) (2 ^ 63 - 1) data in
   is_least int_lt data lo /\ is_greatest int_lt data hi).
Proof.
  intros lanes data H1 H2.
  pose proof (minmax_int lanes (-2 ^ 31) (2 ^ 31 - 1) data H1 H2) as A. pose proof (minmax_int lanes (-2 ^ 63) (2 ^ 63 - 1) data H1 H2) as B.
  destruct (compute_minmax_int lanes (-2 ^ 31) (2 ^ 31 - 1) data), (compute_minmax_int lanes (-2 ^ 63) (2 ^ 63 - 1) data). auto.
Qed.
Print Assumptions C43_vector_minmax_int.
(** The same result for every vector width. *)
Theorem C43_same_for_every_width : forall lanes lanes' data, 0 < lanes -> 0 < lanes' ->
  compute_minmax_int lanes (-2 ^ 31) (2 ^ 31 - 1) data = compute_minmax_int lanes' (-2 ^ 31) (2 ^ 31 - 1) data /\
  compute_minmax_int lanes (-2 ^ 63) (2 ^ 63 - 1) data = compute_minmax_int lanes' (-2 ^ 63) (2 ^ 63 - 1) data.
Proof.
  assert (G : forall lo hi lanes lanes' data, 0 < lanes -> 0 < lanes' -> compute_minmax_int lanes lo hi data = compute_minmax_int lanes' lo hi data).
  { intros lo hi lanes lanes' data H H'. destruct data as [|x r]; [reflexivity|].
    destruct (minmax_int lanes lo hi (x :: r) H ltac:(discriminate)) as ((A1 & A2) & (A3 & A4)).
    destruct (minmax_int lanes' lo hi (x :: r) H' ltac:(discriminate)) as ((B1 & B2) & (B3 & B4)).
    destruct (compute_minmax_int lanes lo hi (x :: r)) as (a, b), (compute_minmax_int lanes' lo hi (x :: r)) as (a', b').
    cbn [fst snd] in *. f_equal; apply int_equiv; auto. }
  auto.
Qed.
Print Assumptions C43_same_for_every_width.
Example C43_int_meets : compute_minmax_int 4 (-2 ^ 31) (2 ^ 31 - 1) [7; -3; 12; 0; 5; 5; -9; 100; 2; -50]%Z = (-50, 100)%Z.
Proof. vm_compute. reflexivity. Qed.

(** Doubles.  Missing from the full property: inputs with NaN on hardware whose minimum of a
    NaN and a number is the number; see the refutation. *)
Theorem C43_vector_minmax_double_partial : forall hw data, right_on_numbers hw ->
  propagates_nan hw \/ Forall (fun v => dbl_nan v = false) data ->
  let numbers := filter (fun v => negb (dbl_nan v)) data in
  let '(lo, hi) := compute_minmax_float64 hw data in
  (numbers = [] -> dbl_nan lo = true /\ dbl_nan hi = true) /\
  (numbers <> [] -> is_least dbl_lt numbers lo /\ is_greatest dbl_lt numbers hi).
Proof.
  intros hw data R C. cbv zeta. destruct (minmax_float64 hw data R C) as (A & B).
  destruct (compute_minmax_float64 hw data) as (lo, hi). split; [|exact B].
  intros E. specialize (A E). injection A as -> ->. auto.
Qed.
Print Assumptions C43_vector_minmax_double_partial.
(** the numbers used in the examples *)
Definition d1 : N := 0x3FF0000000000000. Definition d5 : N := 0x4014000000000000. Definition dneg2 : N := 0xC000000000000000.
Example C43_double_meets :
  right_on_numbers (arm 2) /\ propagates_nan (arm 2) /\ right_on_numbers (x86 2) /\
  compute_minmax_float64 (arm 2) [quiet_nan; d1; quiet_nan; quiet_nan; d5; dneg2; d5] = (dneg2, d5) /\
  compute_minmax_float64 (x86 2) [d1; d5; dneg2; d5] = (dneg2, d5).
Proof.
  split; [apply arm_right; lia|]. split; [apply arm_propagates|]. split; [apply x86_right; lia|].
  split; [vm_compute; reflexivity|vm_compute; reflexivity].
Qed.
(** On x86, where the minimum of a NaN and a number is the number, a NaN makes the vector loop
    forget what it had seen, and no NaN is left to trigger the fallback: the minimum of
    1, NaN, NaN, 5, 5 comes out as 5. *)
Theorem C43_vector_minmax_double_refuted : exists hw data,
  right_on_numbers hw /\ hw_min hw quiet_nan d5 = d5 /\ In d1 data /\ dbl_lt d1 d5 = true /\
  compute_minmax_float64 hw data = (d5, d5).
Proof.
  exists (x86 2), [d1; quiet_nan; quiet_nan; d5; d5]. split; [apply x86_right; lia|].
  split; [vm_compute; reflexivity|]. split; [left; reflexivity|]. split; [vm_compute; reflexivity|vm_compute; reflexivity].
Qed.
Print Assumptions C43_vector_minmax_double_refuted.

(** ** C42: the reported statistics are those of what was seen *)
Theorem C42_integer_statistics : forall lanes h, 0 < lanes ->
  describes int_lt (report_of (int32_class lanes) h) (cells h) /\
  describes int_lt (report_of (int64_class lanes) h) (cells h).
Proof.
  intros lanes h H. split; apply (inv_describes int_lt (fun _ => True)); apply int_history; exact H.
Qed.
Print Assumptions C42_integer_statistics.
Theorem C42_string_statistics : forall h, describes string_lt (report_of string_class h) (cells h).
Proof. intros h. apply (inv_describes string_lt (fun _ => True)). apply string_history. Qed.
Print Assumptions C42_string_statistics.
Theorem C42_bool_statistics : forall h, describes bool_lt (report_of bool_class h) (cells h).
Proof. intros h. apply bool_inv_describes, bool_history. Qed.
Print Assumptions C42_bool_statistics.
(** Doubles, a NaN counting as a null.  Missing: NaN in a batch given without null flags. *)
Theorem C42_double_statistics_partial : forall hw h, right_on_numbers hw -> plain_batches_numbers h ->
  describes dbl_lt (report_of (double_class hw) h) (nan_null (cells h)).
Proof. intros hw h R P. apply (inv_describes dbl_lt number). apply double_history; assumption. Qed.
Print Assumptions C42_double_statistics_partial.
(** With NaN anywhere, the range (not the counts) is right on hardware that propagates NaN. *)
Theorem C42_double_range_partial : forall hw h, right_on_numbers hw -> propagates_nan hw ->
  describes_range dbl_lt (report_of (double_class hw) h) (nan_null (cells h)).
Proof. intros hw h R P. exact (proj2 (double_history_range hw R P h)). Qed.
Print Assumptions C42_double_range_partial.
(** On every hardware: a batch of one NaN is not counted at all, neither as value nor as null,
    while the same value given alone is a null; and a NaN next to a number is counted as a value. *)
Theorem C42_double_batch_counts_refuted : forall hw, right_on_numbers hw ->
  r_total (report_of (double_class hw) (Batched Fresh [quiet_nan])) = 0%Z /\
  r_total (report_of (double_class hw) (Updated Fresh quiet_nan)) = 1%Z /\
  (propagates_nan hw ->
     r_values (report_of (double_class hw) (Batched Fresh [d1; quiet_nan])) = 2%Z /\
     r_values (report_of (double_class hw) (Updated (Updated Fresh d1) quiet_nan)) = 1%Z).
Proof.
  intros hw R. split; [vm_compute; reflexivity|]. split; [vm_compute; reflexivity|]. intros P.
  split; [|vm_compute; reflexivity]. unfold report_of. cbn [run_history double_class c_batch c_new c_get dbl_update_batch].
  destruct (minmax_float64 hw [d1; quiet_nan] R (or_introl P)) as (_ & M).
  assert (En : numbers [d1; quiet_nan] = [d1]) by (vm_compute; reflexivity). rewrite En in M.
  destruct (M ltac:(discriminate)) as (([M1|[]] & _) & _). destruct (compute_minmax_float64 hw [d1; quiet_nan]) as (a, b).
  cbn [fst] in M1. rewrite <- M1. reflexivity.
Qed.
Print Assumptions C42_double_batch_counts_refuted.
Example C42_meets :
  let h := Merged (BatchedNulls (Updated Fresh 4%Z) [9; -7; 3]%Z [false; true]) (UpdatedNull (Batched (Cleared (Updated Fresh 99%Z)) [5; -1; 8; 8; 6]%Z)) in
  cells h = [Some 4; Some 9; None; Some 3; Some 5; Some (-1); Some 8; Some 8; Some 6; None]%Z /\
  report_of (int32_class 4) h = Report true (-1)%Z 9%Z 2 8 10 true.
Proof. split; vm_compute; reflexivity. Qed.
Example C42_double_meets :
  let h := Merged (BatchedNulls (Updated Fresh quiet_nan) [d1; quiet_nan; d5] [true]) (Batched Fresh [dneg2; d1]) in
  plain_batches_numbers h /\ report_of (double_class (x86 2)) h = Report true dneg2 d5 3 3 6 true.
Proof.
  split; [|vm_compute; reflexivity]. cbn [plain_batches_numbers]. split; [exact I|]. split; [exact I|].
  constructor; [vm_compute; reflexivity|]. constructor; [vm_compute; reflexivity|constructor].
Qed.

(** Statistics asked of a column builder: integers, dates and timestamps, after any history. *)
Theorem C42_integer_builder_statistics : forall ops lists,
  spec_crun [] ops = Some lists ->
  ((forall l v, In l lists -> In (Some v) l -> (-2 ^ 31 <= v <= 2 ^ 31 - 1)%Z) ->
   exists builders, crun 0%Z [] ops = Some builders /\
     Forall2 (fun b l => column_describes int_lt Int32Value (int32_builder_statistics b) l) builders lists) /\
  ((forall l v, In l lists -> In (Some v) l -> (-2 ^ 63 <= v <= 2 ^ 63 - 1)%Z) ->
   exists builders, crun 0%Z [] ops = Some builders /\
     Forall2 (fun b l => column_describes int_lt Int64Value (int64_builder_statistics b) l) builders lists).
Proof.
  intros ops lists E. split; intros H; apply int_builder; assumption.
Qed.
Print Assumptions C42_integer_builder_statistics.
(** Doubles: NaN is left out of the range but is not counted as a null here. *)
Theorem C42_double_builder_statistics : forall ops lists,
  spec_crun [] ops = Some lists ->
  (forall l v, In l lists -> In (Some v) l -> (v < 2 ^ 64)%N) ->
  exists builders, crun quiet_nan [] ops = Some builders /\
    Forall2 (fun b l => let cs := float64_builder_statistics b in
      column_describes_range dbl_lt DoubleValue cs (values (nan_null l)) /\
      cs_null_count cs = Z.of_nat (nulls l) /\ (cs_has_null cs = true <-> In None l)) builders lists.
Proof. exact (float_builder quiet_nan). Qed.
Print Assumptions C42_double_builder_statistics.
(** Strings and booleans: the null count is that of the builder's cells, but minimum and maximum
    are those of the cells appended one by one to this builder (even if moved away since), not
    of its cells.  Missing: cells written through the vectors, and cells merged in. *)
Theorem C42_string_builder_statistics_partial : forall ops lists,
  spec_crun [] ops = Some lists ->
  exists builders, trun [] string_class [] ops = Some builders /\
    Forall2 (fun b (lo : list (option bytes) * list (option bytes)) => let cs := string_builder_statistics b in
      column_describes_range string_lt StringValue cs (values (snd lo)) /\
      cs_null_count cs = Z.of_nat (nulls (fst lo)) /\ (cs_has_null cs = true <-> In None (fst lo)))
      builders (combine lists (own_appends ops)).
Proof.
  intros ops lists. apply (tracked_builder _ _ string_lt [] string_class StringValue (inv string_lt (fun _ => True))).
  - apply inv_new.
  - intros. apply (inv_update _ _ string_order); auto.
  - intros. apply inv_update_null. assumption.
  - intros s l H. apply (inv_describes string_lt (fun _ => True)). assumption.
Qed.
Print Assumptions C42_string_builder_statistics_partial.
Theorem C42_bool_builder_statistics_partial : forall ops lists,
  spec_crun [] ops = Some lists ->
  exists builders, trun false bool_class [] ops = Some builders /\
    Forall2 (fun b (lo : list (option bool) * list (option bool)) => let cs := bool_builder_statistics b in
      column_describes_range bool_lt BoolValue cs (values (snd lo)) /\
      cs_null_count cs = Z.of_nat (nulls (fst lo)) /\ (cs_has_null cs = true <-> In None (fst lo)))
      builders (combine lists (own_appends ops)).
Proof.
  intros ops lists. apply (tracked_builder _ _ bool_lt false bool_class BoolValue bool_inv).
  - exact bool_inv_new.
  - intros. apply bool_inv_update. assumption.
  - intros. apply bool_inv_null. assumption.
  - intros s l H. apply bool_inv_describes in H. apply H.
Qed.
Print Assumptions C42_bool_builder_statistics_partial.
(** After a merge the statistics are wrong: the builder holds b and a (its own cell was b), but
    reports b as its minimum; the emptied builder still reports a. *)
Theorem C42_merged_builder_statistics_refuted :
  let ops := [CNew; CAppend 0 (Some (s2b "b")); CNew; CAppend 1 (Some (s2b "a")); CMerge 0 1] in
  spec_crun [] ops = Some [[Some (s2b "b"); Some (s2b "a")]; []] /\
  exists b0 b1, trun [] string_class [] ops = Some [b0; b1] /\
    cs_min (string_builder_statistics b0) = StringValue (s2b "b") /\
    cs_min (string_builder_statistics b1) = StringValue (s2b "a").
Proof.
  split; [vm_compute; reflexivity|]. eexists _, _. split; [vm_compute; reflexivity|]. split; vm_compute; reflexivity.
Qed.
Print Assumptions C42_merged_builder_statistics_refuted.
Example C42_builder_meets :
  let ops := [CNew; CNew; CAppend 0 (Some 7%Z); CFill 1 [None; Some (-2)%Z; Some 40%Z]; CMerge 0 1; CAppend 0 None] in
  spec_crun [] ops = Some [[Some 7; None; Some (-2); Some 40; None]; []]%Z /\
  option_map (map int32_builder_statistics) (crun 0%Z [] ops)
  = Some [ColumnStatistics true 2 0 (Int32Value (-2)) (Int32Value 40); ColumnStatistics false 0 0 NoValue NoValue].
Proof. split; vm_compute; reflexivity. Qed.

(** ** C44: merging, in any grouping and any order *)
Theorem C44_integer_merge : forall lanes lanes' h h', 0 < lanes -> 0 < lanes' -> Permutation (cells h) (cells h') ->
  let r := report_of (int64_class lanes) h in let r' := report_of (int64_class lanes') h' in
  r_has_value r = r_has_value r' /\ r_nulls r = r_nulls r' /\ r_values r = r_values r' /\
  r_total r = r_total r' /\ r_has_null r = r_has_null r' /\
  (r_has_value r = true -> r_min r = r_min r' /\ r_max r = r_max r').
Proof.
  intros lanes lanes' h h' L L' P. apply (agree_eq _ int_lt int_equiv _ _ (cells h) (cells h')); [| |exact P]; apply C42_integer_statistics; assumption.
Qed.
Print Assumptions C44_integer_merge.
Theorem C44_int32_merge : forall lanes lanes' h h', 0 < lanes -> 0 < lanes' -> Permutation (cells h) (cells h') ->
  let r := report_of (int32_class lanes) h in let r' := report_of (int32_class lanes') h' in
  r_has_value r = r_has_value r' /\ r_nulls r = r_nulls r' /\ r_values r = r_values r' /\
  r_total r = r_total r' /\ r_has_null r = r_has_null r' /\
  (r_has_value r = true -> r_min r = r_min r' /\ r_max r = r_max r').
Proof.
  intros lanes lanes' h h' L L' P. apply (agree_eq _ int_lt int_equiv _ _ (cells h) (cells h')); [| |exact P]; apply C42_integer_statistics; assumption.
Qed.
Print Assumptions C44_int32_merge.
Theorem C44_string_merge : forall h h', Permutation (cells h) (cells h') ->
  let r := report_of string_class h in let r' := report_of string_class h' in
  r_has_value r = r_has_value r' /\ r_nulls r = r_nulls r' /\ r_values r = r_values r' /\
  r_total r = r_total r' /\ r_has_null r = r_has_null r' /\
  (r_has_value r = true -> r_min r = r_min r' /\ r_max r = r_max r').
Proof. intros h h' P. apply (agree_eq _ string_lt string_equiv _ _ (cells h) (cells h')); [| |exact P]; apply C42_string_statistics. Qed.
Print Assumptions C44_string_merge.
Theorem C44_bool_merge : forall h h', Permutation (cells h) (cells h') ->
  let r := report_of bool_class h in let r' := report_of bool_class h' in
  r_has_value r = r_has_value r' /\ r_nulls r = r_nulls r' /\ r_values r = r_values r' /\
  r_total r = r_total r' /\ r_has_null r = r_has_null r' /\
  (r_has_value r = true -> r_min r = r_min r' /\ r_max r = r_max r').
Proof. intros h h' P. apply (agree_eq _ bool_lt bool_equiv _ _ (cells h) (cells h')); [| |exact P]; apply C42_bool_statistics. Qed.
Print Assumptions C44_bool_merge.
(** Doubles: equal as numbers (+0 and -0 are not told apart).  Missing: NaN in plain batches. *)
Theorem C44_double_merge_partial : forall hw hw' h h', right_on_numbers hw -> right_on_numbers hw' ->
  plain_batches_numbers h -> plain_batches_numbers h' -> Permutation (nan_null (cells h)) (nan_null (cells h')) ->
  let r := report_of (double_class hw) h in let r' := report_of (double_class hw') h' in
  r_has_value r = r_has_value r' /\ r_nulls r = r_nulls r' /\ r_values r = r_values r' /\
  r_total r = r_total r' /\ r_has_null r = r_has_null r' /\
  (r_has_value r = true ->
    dbl_lt (r_min r) (r_min r') = false /\ dbl_lt (r_min r') (r_min r) = false /\
    dbl_lt (r_max r) (r_max r') = false /\ dbl_lt (r_max r') (r_max r) = false).
Proof.
  intros hw hw' h h' R R' B B' P. apply (describes_agree _ dbl_lt _ _ (nan_null (cells h)) (nan_null (cells h'))); [| |exact P]; apply C42_double_statistics_partial; assumption.
Qed.
Print Assumptions C44_double_merge_partial.
Example C44_meets :
  let parts := Merged (Batched Fresh [3; 1]%Z) (Merged (Updated Fresh 9%Z) (UpdatedNull Fresh)) in
  let whole := BatchedNulls Fresh [3; 1; 0; 9]%Z [false; false; true] in
  Permutation (cells parts) (cells whole) /\ report_of (int64_class 2) parts = report_of (int64_class 8) whole.
Proof.
  split; [|vm_compute; reflexivity]. vm_compute. do 2 constructor. apply perm_swap.
Qed.

(** The writer's own merging: column statistics accumulated from cells of one type and merged in
    any grouping are the statistics of all the cells, in order. *)
Theorem C44_column_statistics_merge : forall ty t,
  (forall v, In (Some v) (tree_cells t) -> type_of v = Some ty) ->
  column_describes value_lt (fun v => v) (run_tree t) (nan_null_values (tree_cells t)).
Proof.
  intros ty t H. apply (cinv_describes ty). apply tree_cinv. apply Forall_forall. intros [v|] Hv; [apply H; assumption|exact I].
Qed.
Print Assumptions C44_column_statistics_merge.
Example C44_tree_meets :
  let t := MergedStats (Accumulated [None; Some (StringValue (s2b "pear"))])
             (MergedStats (Accumulated []) (Accumulated [Some (StringValue (s2b "fig")); Some (StringValue (s2b "plum"))])) in
  run_tree t = ColumnStatistics true 1 0 (StringValue (s2b "fig")) (StringValue (s2b "plum")).
Proof. vm_compute. reflexivity. Qed.
(** Serialized minimum and maximum read back. *)
Theorem C44_serialized_statistic_reads_back : forall v t, type_of v = Some t -> fits_type v ->
  read_statistic t (serialize_statistic v) = Some v.
Proof. exact serialize_ok. Qed.
Print Assumptions C44_serialized_statistic_reads_back.
Example C44_serialize_meets : serialize_statistic (Int32Value (-2)) = [254; 255; 255; 255]%N /\ fits_type (Int32Value (-2)).
Proof. split; [vm_compute; reflexivity|cbn; lia]. Qed.
