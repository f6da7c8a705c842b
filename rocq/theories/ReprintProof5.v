From Verif Require Import Base NumSpec NumModel NumProof DateSpec DateModel DateProof DateProof2 TypesSpec TypesModel
  CliModel CliProof2 ReprintSpec ReprintProof.
Local Open Scope Z_scope.

Lemma to_string_shortest z : shortest_numeral (to_string z) z.
Proof.
  split; [apply to_string_spec|]. destruct (Z.eq_dec z 0) as [->|Hz]; [left; reflexivity|]. right. unfold to_string.
  assert (P : forall n, n <> 0%N -> exists d ds, to_string_N n = d :: ds /\ is_digit d = true /\ d <> 48%N).
  { intros n Hn. destruct (to_string_N_spec n) as (A & _ & C & D). destruct (to_string_N n) as [|d ds]; [congruence|].
    cbn [forallb hd] in A, D. apply andb_true_iff in A. exists d, ds. split; [reflexivity|]. split; [apply A|]. intros E. apply Hn. exact (D E). }
  destruct (Z.ltb_spec z 0) as [L|L].
  - destruct (P (Z.to_N (- z)) ltac:(lia)) as (d & ds & -> & Q). exists [45%N], d, ds. split; [reflexivity|]. split; [right; reflexivity|exact Q].
  - destruct (P (Z.to_N z) ltac:(lia)) as (d & ds & -> & Q). exists [], d, ds. split; [reflexivity|]. split; [left; reflexivity|exact Q].
Qed.

Lemma date_printed pad y m d : valid_date y m d -> printed_date pad (show_date pad (day_number y m d)) y m d.
Proof.
  intros V. unfold show_date. rewrite gmtime_date_number by exact V. pose proof (month_bound y m d V).
  exists (if pad then repeat 48%N (4 - length (to_string y))%nat else []), (to_string y), (two m), (two d).
  split; [unfold show_year; destruct pad; [rewrite <- app_assoc|]; reflexivity|]. split; [apply to_string_shortest|].
  split; [apply two_digits_of; lia|]. split; [apply two_digits_of; lia|reflexivity].
Qed.

Lemma stamp_printed pad us y m d s : valid_date y m d -> 0 <= s < 86400 -> whole_second us = (day_number y m d * 86400 + s) * 1000000 ->
  exists dt tt, show_timestamp pad us = dt ++ [84%N] ++ tt /\ printed_date pad dt y m d /\ printed_time tt s.
Proof.
  rewrite whole_second_quot. intros V Hs E. unfold show_timestamp.
  assert (Q : Z.quot us 1000000 = day_number y m d * 86400 + s) by lia. rewrite Q.
  assert (D : (day_number y m d * 86400 + s) / 86400 = day_number y m d) by (rewrite Z.add_comm, Z.div_add by lia; rewrite Z.div_small by lia; lia).
  assert (M : (day_number y m d * 86400 + s) mod 86400 = s) by (rewrite Z.add_comm, Z.mod_add by lia; apply Z.mod_small; lia).
  rewrite D, M.
  assert (A : 0 <= s / 3600 <= 23) by (split; [apply Z.div_pos; lia|]; assert (s / 3600 < 24) by (apply Z.div_lt_upper_bound; lia); lia).
  pose proof (Z.mod_pos_bound (s / 60) 60 ltac:(lia)) as B. pose proof (Z.mod_pos_bound s 60 ltac:(lia)) as C.
  exists (show_date pad (day_number y m d)), (two (s / 3600) ++ [58%N] ++ two (s / 60 mod 60) ++ [58%N] ++ two (s mod 60)).
  split; [reflexivity|]. split; [apply date_printed; exact V|].
  exists (s / 3600), (s / 60 mod 60), (s mod 60), (two (s / 3600)), (two (s / 60 mod 60)), (two (s mod 60)).
  split; [reflexivity|]. split; [apply two_digits_of; lia|]. split; [apply two_digits_of; lia|]. split; [apply two_digits_of; lia|].
  assert (E1 : s / 60 = (s / 3600) * 60 + s / 60 mod 60).
  { pose proof (Z.div_mod (s / 60) 60 ltac:(lia)) as Q1. rewrite Z.div_div in Q1 by lia. change (60 * 60) with 3600 in Q1. lia. }
  pose proof (Z.div_mod s 60 ltac:(lia)) as E2. lia.
Qed.
