(** C17, C18, both directions: which texts are dates and timestamps for the parser, and their values. *)
From Verif Require Import Base NumSpec DateSpec DateModel DateProof DateProof2 StampSpec StampProof.
Local Open Scope Z_scope.

(** Dates of the year 0 are one day late. *)
Theorem C17_value_exactly :
  forall (l : bytes) (n : Z), parse_date l = Some n <->
    exists y m d, denotes_date l y m d /\ n = day_number y m d + (if y =? 0 then 1 else 0).
Proof.
  intros l n. split.
  - intros H. destruct (parse_date_sound l n H) as (y & m & d & Hd & ->). exists y, m, d. split; [exact Hd|reflexivity].
  - intros (y & m & d & Hd & ->). exact (parse_date_complete l y m d Hd).
Qed.
Print Assumptions C17_value_exactly.

(** A timestamp is a date, T or a blank, a time of day and a tail; the value is that instant. *)
Theorem C18_accepted_exactly :
  forall (l : bytes) (v : Z), parse_timestamp l = Some v <->
    exists date sep time rest y m d hh mi ss micros o,
      l = date ++ [sep] ++ time ++ rest /\ (sep = 84 \/ sep = 32)%N /\ denotes_date date y m d /\ denotes_time time hh mi ss /\
      tail_of_timestamp rest micros o /\
      v = instant y m d hh mi ss micros o + (if y =? 0 then 86400 * 1000000 else 0).
Proof.
  intros l v. rewrite parse_timestamp_iff. split; intros (date & sep & time & rest & y & m & d & hh & mi & ss & micros & o & A & B & C & D & E & F);
    exists date, sep, time, rest, y, m, d, hh, mi, ss, micros, o; repeat (split; [assumption|]); (split; [apply tail_iff; exact E|exact F]).
Qed.
Print Assumptions C18_accepted_exactly.

Example C18_tails_meet :
  tail_of_timestamp [] 0 0 /\ tail_of_timestamp (s2b ".5+01:00") 500000 60 /\ tail_of_timestamp (s2b "Z and more") 0 0 /\
  tail_of_timestamp (s2b ".123456xyz-02junk") 123456 (-120) /\
  ~ (exists micros o, tail_of_timestamp (s2b ".12x") micros o) /\ ~ (exists micros o, tail_of_timestamp (s2b "+05:3") micros o) /\
  ~ (exists micros o, tail_of_timestamp (s2b "+15") micros o).
Proof.
  split; [apply tail_iff; vm_compute; reflexivity|]. split; [apply tail_iff; vm_compute; reflexivity|]. split; [apply tail_iff; vm_compute; reflexivity|].
  split; [apply tail_iff; vm_compute; reflexivity|]. split; [|split]; intros (micros & o & H); apply tail_iff in H; vm_compute in H; discriminate.
Qed.
Print Assumptions C18_tails_meet.
