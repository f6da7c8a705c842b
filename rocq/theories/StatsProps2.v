(** C42, C44: statistics of doubles when there are NaN values, exactly. *)
From Verif Require Import Base StatsSpec StatsSpec2 StatsModel StatsProof5 StatsProof6.
From Coq Require Import Permutation.

(** A NaN in a batch without null flags is counted as a value if the batch holds a number too,
    and not at all otherwise; everything else is counted as it should. *)
Theorem C42_double_counts_exactly : forall hw h, right_on_numbers hw -> propagates_nan hw ->
  let r := report_of (double_class hw) h in
  (r_values r = Z.of_nat (length (values (nan_null (cells h)))) + Z.of_nat (nans_beside_numbers h))%Z /\
  (r_nulls r = Z.of_nat (nulls (nan_null (cells h))) - Z.of_nat (nans_beside_numbers h) - Z.of_nat (nans_alone h))%Z.
Proof.
  intros hw h R P. destruct (counts_history hw R P h) as (A & B). split; [exact A|].
  change (s_null_count (run_history (double_class hw) h) = Z.of_nat (nulls (nan_null (cells h))) - Z.of_nat (nans_beside_numbers h) - Z.of_nat (nans_alone h))%Z. lia.
Qed.
Print Assumptions C42_double_counts_exactly.

(** So the statistics describe the column exactly when no such batch holds a NaN. *)
Theorem C42_double_statistics_exactly : forall hw h, right_on_numbers hw -> propagates_nan hw ->
  (describes dbl_lt (report_of (double_class hw) h) (nan_null (cells h)) <-> plain_batches_numbers h).
Proof. intros hw h R P. exact (describes_iff hw R P h). Qed.
Print Assumptions C42_double_statistics_exactly.

(** The range never depends on the grouping. *)
Theorem C44_double_range : forall hw hw' h h', right_on_numbers hw -> propagates_nan hw -> right_on_numbers hw' -> propagates_nan hw' ->
  Permutation (nan_null (cells h)) (nan_null (cells h')) ->
  let r := report_of (double_class hw) h in let r' := report_of (double_class hw') h' in
  r_has_value r = r_has_value r' /\
  (r_has_value r = true ->
    dbl_lt (r_min r) (r_min r') = false /\ dbl_lt (r_min r') (r_min r) = false /\
    dbl_lt (r_max r) (r_max r') = false /\ dbl_lt (r_max r') (r_max r) = false).
Proof.
  intros hw hw' h h' R P R' P' H. apply (range_agree _ dbl_lt _ _ (nan_null (cells h)) (nan_null (cells h'))); [| |exact H].
  - exact (proj2 (StatsProof3.double_history_range hw R P h)).
  - exact (proj2 (StatsProof3.double_history_range hw' R' P' h')).
Qed.
Print Assumptions C44_double_range.

(** The counts do, exactly by the NaN values in batches without null flags. *)
Theorem C44_double_counts_exactly : forall hw hw' h h', right_on_numbers hw -> propagates_nan hw -> right_on_numbers hw' -> propagates_nan hw' ->
  Permutation (nan_null (cells h)) (nan_null (cells h')) ->
  let r := report_of (double_class hw) h in let r' := report_of (double_class hw') h' in
  (r_values r = r_values r' <-> nans_beside_numbers h = nans_beside_numbers h') /\
  (r_nulls r = r_nulls r' <-> nans_beside_numbers h + nans_alone h = nans_beside_numbers h' + nans_alone h') /\
  (r_total r = r_total r' <-> nans_alone h = nans_alone h').
Proof.
  intros hw hw' h h' R P R' P' H. cbv zeta.
  destruct (C42_double_counts_exactly hw h R P) as (A & B). destruct (C42_double_counts_exactly hw' h' R' P') as (A' & B').
  pose proof (Permutation_length (StatsProof3.values_perm _ _ _ H)) as PV. pose proof (StatsProof3.nulls_perm _ _ _ H) as PN.
  change (r_total (report_of (double_class hw) h)) with (r_values (report_of (double_class hw) h) + r_nulls (report_of (double_class hw) h))%Z.
  change (r_total (report_of (double_class hw') h')) with (r_values (report_of (double_class hw') h') + r_nulls (report_of (double_class hw') h'))%Z.
  rewrite A, B, A', B', PV, PN. lia.
Qed.
Print Assumptions C44_double_counts_exactly.

(** One batch of a number and a NaN, and the same two values as two batches merged. *)
Definition one_batch : history N := Batched Fresh [0x3FF0000000000000; quiet_nan]%N.
Definition two_batches : history N := Merged (Batched Fresh [0x3FF0000000000000]%N) (Batched Fresh [quiet_nan]).
Theorem C44_double_grouping_refuted : forall hw, right_on_numbers hw -> propagates_nan hw ->
  cells one_batch = cells two_batches /\
  r_values (report_of (double_class hw) one_batch) = 2%Z /\ r_values (report_of (double_class hw) two_batches) = 1%Z /\
  r_total (report_of (double_class hw) two_batches) = 1%Z.
Proof.
  intros hw R P. destruct (C42_double_counts_exactly hw one_batch R P) as (A & B). destruct (C42_double_counts_exactly hw two_batches R P) as (A' & B').
  split; [reflexivity|]. split; [rewrite A; vm_compute; reflexivity|]. split; [rewrite A'; vm_compute; reflexivity|].
  change (r_total (report_of (double_class hw) two_batches))
    with (r_values (report_of (double_class hw) two_batches) + r_nulls (report_of (double_class hw) two_batches))%Z.
  rewrite A', B'. vm_compute. reflexivity.
Qed.
Print Assumptions C44_double_grouping_refuted.

Example C42_counts_meet :
  let h := Merged (BatchedNulls two_batches [quiet_nan; 5%N] [false; true]) one_batch in
  right_on_numbers (arm 2) /\ propagates_nan (arm 2) /\
  report_of (double_class (arm 2)) h = Report true 0x3FF0000000000000%N 0x3FF0000000000000%N 2 3 5 true /\
  nans_beside_numbers h = 1 /\ nans_alone h = 1 /\ nulls (nan_null (cells h)) = 4 /\ length (values (nan_null (cells h))) = 2.
Proof. split; [apply arm_right; lia|]. split; [apply arm_propagates|]. vm_compute. repeat split. Qed.
Print Assumptions C42_counts_meet.
