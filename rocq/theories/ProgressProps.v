(** C113: the progress bar. *)
From Verif Require Import Base ReaderModel TypesSpec TypesModel CliModel QueueSpec QueueModel PipelineModel ParquetModel ConvertModel ProgressSpec ProgressModel ProgressProof.

(** After any reports, at least one, the terminal's line is exactly the picture and the
    percentage of the last of them; nothing of an earlier one is left, and no other line was
    touched. *)
Theorem C113_bar_shows_the_last_report : forall width reports done total,
  Forall sensible (reports ++ [(done, total)]) -> (100 * N.of_nat width < 2 ^ 64)%N ->
  exists b out picture, updates (new_bar true width) (reports ++ [(done, total)]) = Some (b, out, true) /\
    picture_of (hundredths done total) width picture /\
    display out = Terminal [] (s2b "[" ++ picture ++ s2b "] " ++ three_columns (hundredths done total) ++ s2b "%") (width + 7).
Proof.
  intros width reports done total HS HW.
  destruct (updates_display (reports ++ [(done, total)]) width (-1) fresh HW HS) as (b & out & E & _ & D).
  - destruct reports; discriminate.
  - split; [cbn [fresh line length]; lia|left; reflexivity].
  - assert (L : nonempty_last (reports ++ [(done, total)]) 0 = hundredths done total)
      by (unfold nonempty_last; rewrite map_app; apply last_last).
    rewrite L in D. exists b, out, (pic (hundredths done total) width). split; [exact E|]. split; [apply pic_ok|exact D].
Qed.
Print Assumptions C113_bar_shows_the_last_report.

(** It is redrawn exactly when the percentage changes. *)
Theorem C113_redrawn_on_change_only : forall width reports,
  Forall sensible reports -> (100 * N.of_nat width < 2 ^ 64)%N ->
  exists b out, updates (new_bar true width) reports = Some (b, out, true) /\
    length (filter (N.eqb 13) out) = changes None (map (fun r => hundredths (fst r) (snd r)) reports).
Proof.
  intros width reports HS HW. destruct (updates_cases reports (new_bar true width)) as (b & out & E & _).
  exists b, out. split; [exact E|]. exact (updates_redraws reports width (-1) HW HS ltac:(lia) b out true E).
Qed.
Print Assumptions C113_redrawn_on_change_only.

(** Whatever is reported, sensible or not: nothing is written outside of the bar's string, and
    the bar never asks to stop. *)
Theorem C113_never_stops_the_work : forall b reports, exists b' out, updates b reports = Some (b', out, true).
Proof. intros b reports. destruct (updates_cases reports b) as (b' & out & E & _). eauto. Qed.
Print Assumptions C113_never_stops_the_work.

(** Finishing leaves a full bar above a new line; clearing leaves a line of blanks. *)
Theorem C113_ends_clean : forall width reports,
  Forall sensible reports -> (100 * N.of_nat width < 2 ^ 64)%N ->
  exists b out, updates (new_bar true width) reports = Some (b, out, true) /\
    display (out ++ finish b) = Terminal [s2b "[" ++ repeat 61%N width ++ s2b "] 100%"] [] 0 /\
    display (out ++ clear_bar b) = Terminal [] (repeat 32%N (width + 7)) 0.
Proof.
  intros width reports HS HW. destruct reports as [|r reports].
  - exists (new_bar true width), []. split; [reflexivity|]. split.
    + exact (finish_shows width (-1) fresh ltac:(cbn [fresh line length]; lia)).
    + exact (clear_shows width (-1) fresh ltac:(cbn [fresh line length]; lia)).
  - destruct (updates_display (r :: reports) width (-1) fresh HW HS ltac:(discriminate)) as (b & out & E & B & D).
    + split; [cbn [fresh line length]; lia|left; reflexivity].
    + exists b, out. split; [exact E|]. unfold display. rewrite !fold_left_app, D, B.
      split; [apply finish_shows|apply clear_shows]; cbn [line]; rewrite text_length; lia.
Qed.
Print Assumptions C113_ends_clean.

(** Without a terminal nothing is written. *)
Theorem C113_silent_without_terminal : forall width reports,
  exists b out, updates (new_bar false width) reports = Some (b, out, true) /\ out = [] /\ finish b = [] /\ clear_bar b = [].
Proof.
  intros width reports. exists (new_bar false width), []. split; [|repeat split].
  induction reports as [|(p & t) r IH]; [reflexivity|]. cbn [updates].
  change (update (new_bar false width) p t) with (Some (new_bar false width, [] : bytes, true)). cbv iota beta. rewrite IH. reflexivity.
Qed.
Print Assumptions C113_silent_without_terminal.

Example C113_meets :
  let reports := [(0, 1000); (3, 1000); (333, 1000); (1000, 1000)]%N in
  Forall sensible reports /\ changes None (map (fun r => hundredths (fst r) (snd r)) reports) = 3 /\
  option_map (fun '(_, out, _) => display out) (updates (new_bar true 10) (firstn 3 reports)) =
    Some (Terminal [] (s2b "[===>      ]  33%") 17).
Proof.
  cbv zeta. split; [|vm_compute; auto]. repeat constructor; cbn [fst snd]; lia.
Qed.

(** The full bar does not mean that the conversion went well: with -p on a terminal every
    conversion leaves the same full bar behind, also one that could not read its input. *)
Theorem C113_full_bar_means_success_refuted :
  (forall c, exists out, drawn true c = Some out /\ display out = Terminal [s2b "[" ++ repeat 61%N 40 ++ s2b "] 100%"] [] 0) /\
  (forall library below options trace ff lanes clmul nt ne o go_on os capacity,
     exists c, ConvertModel.convert library below options trace ff lanes clmul nt ne o [] go_on os capacity = Some c /\ cv_error c = Some InputFailed).
Proof.
  split.
  - intros c. unfold drawn, calls. destruct (cv_error c) as [[]|]; eexists; (split; [vm_compute; reflexivity|vm_compute; reflexivity]).
  - intros. eexists. split; [reflexivity|reflexivity].
Qed.
Print Assumptions C113_full_bar_means_success_refuted.

(** The callback is documented (vroom.h:26) to receive bytes processed and the total of bytes.
    A conversion always reports a total of 100. *)
Theorem C113_totals_are_bytes_refuted : forall c r, In r (calls c) -> snd r = 100%N.
Proof.
  intros c r. unfold calls. destruct (cv_error c) as [[]|]; cbn [In]; intuition; subst; reflexivity.
Qed.
Print Assumptions C113_totals_are_bytes_refuted.
