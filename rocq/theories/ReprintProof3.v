From Verif Require Import Base NumSpec NumModel NumProof NumProps DateSpec DateModel DateProof DateProof2 StampSpec FieldsSpec FieldsModel WordsModel ChunkSpec ChunkModel ReaderSpec ReaderModel TypesSpec TypesModel TypesProof TypesProof3
  CliSpec CliModel CliProof CliProof2 KeepSpec KeepProof RoundSpec RoundProof RoundProof2 RoundProof3 RoundProof4 RoundProof5 ReprintSpec ReprintProof ReprintProof2.

Section T.
Context {F : Type}.
Variable ff : bytes -> option F.
Variable show_float : F -> bytes.
Variable pad : bool.
Hypothesis no_date : forall v n, date_value v n -> ff v = None.
Hypothesis no_stamp : forall v n, timestamp_value v n -> ff v = None.
Notation text := (value_text show_float pad).

Lemma storable_text T x : storable pad T x ->
  clean (text T (Some x)) /\ means ff T (text T (Some x)) (after_printing T x) /\
  type_again T (infer_field ff default_options (text T (Some x))).
Proof.
  intros P. destruct T; cbn [storable means after_printing type_again] in *; try contradiction.
  - destruct P as ([] & ->); cbn [value_text]; (split; [repeat constructor; try discriminate; lia|]); (split; [|reflexivity]); [left|right]; (split; [|reflexivity]); left; reflexivity.
  - destruct P as (z & -> & Hz). cbn [value_text]. split; [apply to_string_clean|]. split.
    + exists z. split; [|reflexivity].
      split; [apply to_string_spec|]. split; [|exact Hz]. apply to_string_length; [lia|]. unfold in_signed, int_min in Hz.
      change (2 ^ (32 - 1))%Z with 2147483648%Z in Hz. change (10 ^ Z.of_nat 10)%Z with 10000000000%Z. lia.
    + rewrite infer_integer_text. destruct (_ && _); tauto.
  - destruct P as (z & -> & Hz). cbn [value_text]. split; [apply to_string_clean|]. split.
    + exists z. split; [|reflexivity].
      split; [apply to_string_spec|]. split; [|exact Hz]. apply to_string_length; [lia|]. unfold in_signed, int_min in Hz.
      change (2 ^ (64 - 1))%Z with 9223372036854775808%Z in Hz. change (10 ^ Z.of_nat 19)%Z with 10000000000000000000%Z. lia.
    + rewrite infer_integer_text. destruct (_ && _); tauto.
  - destruct P as (n & -> & P). cbn [value_text]. destruct (day_again pad n P) as (y & m & d & Hy & E & D).
    pose proof (first_year_range pad).
    assert (V : date_value (show_date pad n) n) by (exists y, m, d; split; [exact D|destruct (Z.eqb_spec y 0); lia]).
    split; [exact (date_clean _ _ _ _ D)|]. split; [exists n; split; [exact V|reflexivity]|].
    apply (infer_date ff _ y m d D). exact (no_date _ _ V).
  - destruct P as (n & -> & P). cbn [value_text]. destruct (instant_again pad n P) as (y & m & d & hh & mi & ss & time & Hy & T & E & date & D & ->).
    assert (V : timestamp_value (date ++ [84%N] ++ time) (whole_second n)).
    { exists date, 84%N, time, [], y, m, d, hh, mi, ss, 0%Z, 0%Z. rewrite app_nil_r. split; [reflexivity|]. split; [left; reflexivity|].
      split; [exact D|]. split; [exact T|]. split.
      { exists [], []. split; [reflexivity|]. split; left; split; reflexivity. }
      pose proof (first_year_range pad). destruct (Z.eqb_spec y 0); lia. }
    split; [repeat apply clean_app; [exact (date_clean _ _ _ _ D)|apply clean_one; lia|exact (time_clean _ _ _ _ T)]|].
    split; [exists (whole_second n); split; [exact V|reflexivity]|].
    apply (infer_stamp ff date time y m d hh mi ss D T). exact (no_stamp _ _ V).
Qed.

Lemma again_not_na T x : storable pad T x -> infer_field ff default_options (text T (Some x)) <> NA.
Proof. intros P. destruct (storable_text T x P) as (_ & _ & A). destruct T; cbn [storable] in P; cbn [type_again] in A; try contradiction; intros E; rewrite E in A; try discriminate A; destruct A; discriminate. Qed.

Variable lanes : nat.
Hypothesis Hl : lanes <= 64.

Definition top_of (T : data_type) : data_type := match T with INT32 | INT64 => INT64 | _ => T end.

Lemma column_again_seen T (column sampled : list (option (@value F))) :
  (forall x, In (Some x) column -> storable pad T x) -> (forall c, In c sampled -> In c column) -> well_seen T column sampled ->
  let T' := column_type ff default_options (map (text T) sampled) in
  type_again T T' /\
  forall x, In (Some x) column -> append_value ff lanes T' (text T (Some x)) = Some (after_printing T x).
Proof.
  intros St Sub ((x0 & Hx0) & Big) T'.
  assert (N : narrowest (map (infer_field ff default_options) (map (text T) sampled)) T').
  { apply (column_type_narrowest ff default_options). destruct sampled; [contradiction|discriminate]. }
  clearbody T'. destruct N as (NL & NU).
  assert (Lo : forall x, In (Some x) sampled -> below (infer_field ff default_options (text T (Some x))) T').
  { intros x Hx. apply NL. rewrite map_map. apply in_map_iff. exists (Some x). split; [reflexivity|exact Hx]. }
  assert (Hi : below T' (top_of T)).
  { apply NU.
    - pose proof (St x0 (Sub _ Hx0)) as P. destruct T; cbn in P; try contradiction; discriminate.
    - intros a Ha. rewrite map_map in Ha. apply in_map_iff in Ha. destruct Ha as (c & <- & Hc). apply below_iff.
      destruct c as [x|].
      + pose proof (St x (Sub _ Hc)) as P. destruct (storable_text T x P) as (_ & _ & A).
        destruct T; cbn in P; try contradiction; cbn [type_again top_of] in *; try (rewrite A; reflexivity); destruct A as [-> | ->]; reflexivity.
      + pose proof (St x0 (Sub _ Hx0)) as P. destruct T; cbn in P; try contradiction; reflexivity. }
  pose proof (St x0 (Sub _ Hx0)) as P0. destruct (storable_text T x0 P0) as (_ & _ & A0). pose proof (Lo x0 Hx0) as L0.
  apply below_iff in L0, Hi.
  assert (TA : type_again T T').
  { destruct T; cbn in P0; try contradiction; cbn [type_again top_of] in *; try (rewrite A0 in L0; symmetry; now apply belowb_antisym);
    (destruct A0 as [A0|A0]; rewrite A0 in L0); destruct T'; try discriminate L0; try discriminate Hi; tauto. }
  split; [exact TA|]. intros x Hx. pose proof (St x Hx) as P. destruct (storable_text T x P) as (Cl & M & _).
  apply (kept_iff ff lanes); [exact Hl|apply clean_bytes; exact Cl|].
  destruct T; cbn in P; try contradiction; cbn [type_again] in TA; try (rewrite TA; exact M).
  - destruct P as (z & -> & Hz). cbn [means after_printing] in *. destruct M as (z' & (M1 & M2 & M3) & M4). injection M4 as <-.
    destruct TA as [-> | ->]; exists z; (split; [|reflexivity]); split; try assumption; split; try assumption; [lia|apply signed32_64; exact Hz].
  - destruct P as (z & -> & Hz). cbn [means after_printing] in *. destruct M as (z' & (M1 & M2 & M3) & M4). injection M4 as <-.
    destruct TA as [-> | ->]; exists z; (split; [|reflexivity]); [|split; [assumption|split; assumption]].
    assert (Z32 : in_signed 32 z).
    { destruct (Big (or_intror eq_refl)) as [All|(w & Hw & Bw)]; [apply All; exact Hx|]. exfalso.
      specialize (Lo _ Hw). cbn [value_text] in Lo. rewrite infer_integer_text in Lo.
      destruct (Z.leb_spec (Z.abs w) 2147483647); [lia|]. rewrite andb_false_r in Lo. apply below_iff in Lo. discriminate Lo. }
    split; [exact M1|]. split; [|exact Z32]. cbn [value_text]. apply to_string_length; [lia|]. unfold in_signed, int_min in Z32.
    change (2 ^ (32 - 1))%Z with 2147483648%Z in Z32. change (10 ^ Z.of_nat 10)%Z with 10000000000%Z. lia.
Qed.
Lemma column_again T (column : list (option (@value F))) :
  (forall x, In (Some x) column -> storable pad T x) -> well_sampled T column ->
  let T' := column_type ff default_options (map (text T) (firstn 1000 (skipn 1 column))) in
  type_again T T' /\
  forall x, In (Some x) column -> append_value ff lanes T' (text T (Some x)) = Some (after_printing T x).
Proof.
  intros St W. apply (column_again_seen T column); [exact St| |exact W].
  intros c Hc. assert (Hc2 : In c (skipn 1 column)) by (rewrite <- (firstn_skipn 1000 (skipn 1 column)); apply in_or_app; left; exact Hc).
  rewrite <- (firstn_skipn 1 column). apply in_or_app. right. exact Hc2.
Qed.
End T.
