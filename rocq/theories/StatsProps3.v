(** C43 on hardware whose minimum and maximum take the second operand when one is NaN (x86). *)
From Verif Require Import Base StatsSpec StatsSpec3 ChunkedSpec ChunkedModel PlainModel StatsModel StatsProof StatsProof2 StatsProof5 StatsProof7 StatsProps.

(** Leading NaNs, the first number, and what follows.  The result is the least and the greatest of
    the values remembered: those with no NaN behind them in their lane.  Missing from the full
    description: a last complete vector that contains a NaN (the result then depends on the
    order in which the lanes are reduced). *)
Theorem C43_double_taking_second_partial : forall hw nans first later, right_on_numbers hw -> takes_second hw ->
  Forall (fun v => dbl_nan v = true) nans -> dbl_nan first = false -> last_vector_numbers (hw_lanes hw) later ->
  let '(lo, hi) := compute_minmax_float64 hw (nans ++ first :: later) in
  (remembered (hw_lanes hw) first later lo /\ forall v, remembered (hw_lanes hw) first later v -> dbl_lt v lo = false) /\
  (remembered (hw_lanes hw) first later hi /\ forall v, remembered (hw_lanes hw) first later v -> dbl_lt hi v = false).
Proof. exact takes_second_exact. Qed.
Print Assumptions C43_double_taking_second_partial.

(** So it is the true minimum (maximum) of the numbers exactly when one of these is remembered. *)
Theorem C43_double_right_exactly_when_partial : forall hw nans first later, right_on_numbers hw -> takes_second hw ->
  Forall (fun v => dbl_nan v = true) nans -> dbl_nan first = false -> last_vector_numbers (hw_lanes hw) later ->
  let data := nans ++ first :: later in
  let numbers := filter (fun v => negb (dbl_nan v)) data in
  let '(lo, hi) := compute_minmax_float64 hw data in
  (is_least dbl_lt numbers lo <-> exists v, remembered (hw_lanes hw) first later v /\ is_least dbl_lt numbers v) /\
  (is_greatest dbl_lt numbers hi <-> exists v, remembered (hw_lanes hw) first later v /\ is_greatest dbl_lt numbers v).
Proof. exact takes_second_right. Qed.
Print Assumptions C43_double_right_exactly_when_partial.

(** Two lanes: -2 is forgotten, the first number and the rest are not. *)
Example C43_taking_second_meets :
  right_on_numbers (x86 2) /\ takes_second (x86 2) /\
  last_vector_numbers (hw_lanes (x86 2)) [dneg2; d5; quiet_nan; d5; d5; d5; d5] /\
  column 2 0 [dneg2; d5; quiet_nan; d5; d5; d5; d5] = [dneg2; quiet_nan; d5] /\
  compute_minmax_float64 (x86 2) ([quiet_nan] ++ d1 :: [dneg2; d5; quiet_nan; d5; d5; d5; d5]) = (d1, d5).
Proof.
  split; [apply x86_right; lia|]. split; [apply x86_takes_second|].
  split; [intros [|[|l]] H; [vm_compute; reflexivity|vm_compute; reflexivity|cbn in H; lia]|].
  split; vm_compute; reflexivity.
Qed.
