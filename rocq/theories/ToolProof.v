(** Proofs about convert as a whole. *)
From Verif Require Import Base TypesSpec WordsModel ChunkModel FieldsModel ReaderSpec ReaderModel TypesModel ErrorsSpec ErrorsModel ErrorsProof CliSpec CliModel CliProof6 StrictSpec StrictModel StrictProof
  CompressSpec MainSpec MainModel MainProof ProgramSpec ProgramModel
  MetaSpec BuffersModel PlainSpec ParquetSpec ParquetModel ParquetObs ParquetProps QueueSpec QueueModel PipelineModel ConvertModel ConvertObs ConvertProps PyConvSpec PyConvModel PyConvProof
  ToolSpec ToolModel.

Definition g_mode (i : citem) : option (option CliModel.mode) :=
  match i with CStrict => Some (Some FailFast) | CPermissive => Some (Some Collecting) | _ => None end.
Definition g_max (i : citem) : bool := match i with CMaxErrors _ => true | _ => false end.
Definition mode_of_items (items : list citem) : CliModel.mode :=
  match last_citem g_mode items None with Some m => m | None => if cgiven g_max items then Collecting else Disabled end.

Lemma last_mode items : forall d,
  (exists before after (m : bool), items = before ++ (if m then CStrict else CPermissive) :: after /\ ~ In CStrict after /\ ~ In CPermissive after /\
     last_citem g_mode items d = Some (if m then FailFast else Collecting)) \/
  (~ In CStrict items /\ ~ In CPermissive items /\ last_citem g_mode items d = d).
Proof.
  unfold last_citem. induction items as [|i items IH]; intros d; [right; cbn; tauto|].
  cbn [fold_left]. destruct (IH (match g_mode i with Some x => x | None => d end)) as [(b & a & m & E & N1 & N2 & L)|(N1 & N2 & L)].
  - left. exists (i :: b), a, m. rewrite E at 1. auto.
  - rewrite L. destruct i; cbn [g_mode]; try (right; cbn [In]; repeat split; [intros [X|X]; [discriminate|contradiction]|intros [X|X]; [discriminate|contradiction]]).
    + left. exists [], items, true. auto.
    + left. exists [], items, false. auto.
Qed.

Lemma strict_mode items : mode_of_items items = FailFast <-> strict_wanted items.
Proof.
  unfold mode_of_items, strict_wanted. destruct (last_mode items None) as [(b & a & m & E & N1 & N2 & ->)|(N1 & N2 & ->)].
  - destruct m.
    + split; [intros _; exists b, a; auto|reflexivity].
    + split; [discriminate|]. intros (b' & a' & E' & M1 & M2). exfalso. rewrite E in E'. clear - E' N1 N2 M1 M2.
      revert b' E'. induction b as [|x b IH]; intros [|y b'] E'; cbn in E'.
      * discriminate E'.
      * injection E' as _ E'. apply N1. rewrite E'. apply in_or_app. right. left. reflexivity.
      * injection E' as _ E'. apply M2. rewrite <- E'. apply in_or_app. right. left. reflexivity.
      * injection E' as _ E'. exact (IH b' E').
  - split; [destruct (cgiven g_max items); discriminate|]. intros (b & a & -> & _). exfalso. apply N1. apply in_or_app. right. left. reflexivity.
Qed.

Lemma some_mode items : mode_of_items items <> Disabled <-> errors_wanted items.
Proof.
  unfold mode_of_items, errors_wanted. destruct (last_mode items None) as [(b & a & m & E & N1 & N2 & ->)|(N1 & N2 & ->)].
  - split; [intros _|intros _; destruct m; discriminate]. exists (if m then CStrict else CPermissive).
    split; [rewrite E; apply in_or_app; right; left; reflexivity|destruct m; auto].
  - unfold cgiven. destruct (existsb g_max items) eqn:X.
    + split; [intros _|intros _; discriminate]. apply existsb_exists in X. destruct X as (i & Hi & X). exists i. split; [exact Hi|].
      destruct i; try discriminate X. right. right. eexists. reflexivity.
    + split; [congruence|]. intros (i & Hi & [->|[->|(n & ->)]]); [contradiction|contradiction|]. exfalso.
      assert (existsb g_max items = true); [|congruence]. apply existsb_exists. eexists. split; [exact Hi|reflexivity].
Qed.

Lemma main_converts items ws p k : one_input p items -> Forall2 cwritten items ws -> output_asked items <> [] ->
  In (compression_asked items, k) MainSpec.compression_names ->
  exists c, main (s2b "convert" :: concat ws) = ConvertFile c k /\ in_path (common c) = p /\ csv_of (common c) = reading_options items /\
    threads (common c) = last_citem (fun i => match i with CThreads n => Some n | _ => None end) items 0%N /\
    max_errors (common c) = errors_kept items /\ error_mode (common c) = mode_of_items items.
Proof.
  intros (b & a & E & HF) HW HO HK.
  destruct (convert_spec items ws p b a E HF HW) as (c & P & A1 & A2 & A3 & A4 & A5 & A6 & A7 & A8 & _ & _ & A11 & A12).
  exists c. rewrite main_convert. unfold output_asked in HO. unfold compression_asked in HK. split.
  - unfold start_convert. rewrite P.
    assert (NP : in_path (common c) <> []).
    { rewrite A1. clear - E HW. subst items. apply Forall2_app_inv_l in HW as (w1 & w2 & _ & H2 & _). inversion H2; subst.
      match goal with H : cwritten (CInput p) _ |- _ => inversion H; subst; assumption end. }
    destruct (in_path (common c)); [congruence|]. rewrite <- A2 in HO. destruct (out_path c) eqn:O; [congruence|].
    rewrite <- A3 in HK. apply codec_iff in HK. rewrite HK. reflexivity.
  - split; [exact A1|]. split; [unfold csv_of; rewrite A6, A7, A8; reflexivity|]. split; [exact A5|]. split; [exact A11|exact A12].
Qed.

Section Tool.
Variable library : ParquetModel.compression -> bytes -> option bytes.
Variable below : nat -> nat -> bool.
Variable trace : list (label (Z * list encoded_column)).
Variable ff : bytes -> option N.
Variables (lanes : nat) (clmul : bool) (hw : N) (ne : bool).
Notation run := (tool library below trace ff lanes clmul hw ne).

(** What happens with a file the reader makes something of. *)
Lemma tool_converts items ws p k w data names types t os cap r : one_input p items -> Forall2 cwritten items ws -> output_asked items <> [] ->
  In (compression_asked items, k) MainSpec.compression_names -> file_at w p = inr data ->
  let o := reading_options items in
  TypesModel.read_file ff lanes clmul (reading_threads hw items) ne o data = Some (names, types, t) ->
  convert library below (Options (as_parquet k) false) trace ff lanes clmul (reading_threads hw items) ne o data true os cap = Some r ->
  (errors_wanted items /\ has_header o = true /\ header_is_empty names /\ run w os cap (s2b "convert" :: concat ws) = Ended 1 []) \/
  (~ (errors_wanted items /\ has_header o = true /\ header_is_empty names) /\
   exists code, run w os cap (s2b "convert" :: concat ws) = Ended code (ps_closed (cv_writer r)) /\
     (cv_error r <> None -> code = 1) /\
     (cv_error r = None -> (code = 0 \/ code = 1) /\
        (code = 1 <-> strict_wanted items /\ has_header o = true /\ (exists i, repeats names i) /\ (errors_kept items <> 0)%N))).
Proof.
  intros HI HW HO HK HF o HR HC.
  destruct (main_converts items ws p k HI HW HO HK) as (c & M & E1 & E2 & E3 & E4 & E5). fold o in E2.
  unfold tool. rewrite M. unfold run_convert. rewrite E1, HF. cbv zeta.
  set (m := mode_of (mode_of_items items)). set (limit := N.to_nat (errors_kept items)).
  assert (V1 : v_csv (options_given c k) = o) by (exact E2).
  assert (V2 : v_mode (options_given c k) = m) by (unfold m; rewrite <- E5; reflexivity).
  assert (V3 : v_limit (options_given c k) = limit) by (unfold limit; rewrite <- E4; reflexivity).
  assert (V4 : reader_threads hw (options_given c k) = reading_threads hw items).
  { unfold reader_threads, reading_threads. cbv zeta. rewrite <- E3. reflexivity. }
  assert (V5 : v_compression (options_given c k) = as_parquet k) by reflexivity.
  assert (V6 : v_dictionary (options_given c k) = false) by reflexivity.
  unfold convert_with. rewrite V1, V2, V3, V4, V5, V6. clear V1 V3 V4 V5 V6.
  pose proof (read_checked_spec ff lanes clmul (reading_threads hw items) ne o m limit data names types t HR) as R.
  unfold convert_errors. rewrite R.
  assert (MM : (m = FAIL_FAST \/ m = PERMISSIVE) <-> errors_wanted items).
  { rewrite <- some_mode. unfold m. destruct (mode_of_items items); cbn; split; intros H; try discriminate; try tauto; try (destruct H; discriminate); auto. }
  pose proof (stops_iff o m names) as ST. destruct (stops o m names) eqn:Es.
  - left. destruct ST as (ST & _). specialize (ST eq_refl). destruct ST as (S1 & S2 & S3).
    split; [apply MM, S3|]. split; [exact S1|]. split; [exact S2|].
    assert (O : snd (open_checked ff lanes clmul o m limit data) = None).
    { unfold TypesModel.read_file in HR. destruct (open_file ff lanes clmul o data) as [[[ns ts] he]|] eqn:E; [|discriminate HR].
      destruct (read_all _ _ _ _ _ _ _ _ _ _ _) as [r'|]; [|discriminate HR].
      assert (X1 : ns = names) by (exact (f_equal (fun x => match x with Some (a, _, _) => a | None => [] end) HR)). subst ns.
      rewrite (open_checked_spec ff lanes clmul o m limit _ _ _ _ E), Es. reflexivity. }
    rewrite O. reflexivity.
  - right. assert (NS : ~ (errors_wanted items /\ has_header o = true /\ header_is_empty names)).
    { intros (S1 & S2 & S3). assert (stops o m names = true); [|congruence]. apply stops_iff. split; [exact S2|]. split; [exact S3|apply MM, S1]. }
    split; [exact NS|]. rewrite HC. eexists. split; [reflexivity|]. split.
    { intros H. destruct (cv_error r); [reflexivity|congruence]. }
    intros ->. cbv iota.
    set (es := if has_header o then _ else _).
    assert (EE : m = FAIL_FAST -> (es <> [] <-> has_header o = true /\ (exists i, repeats names i) /\ errors_kept items <> 0%N)).
    { intros Hm. unfold es. destruct (has_header o) eqn:HH; [|split; [congruence|intros (X & _); discriminate]].
      assert (NE : ~ header_is_empty names). { intros X. apply NS. split; [apply MM; auto|]. split; [reflexivity|exact X]. }
      pose proof (header_duplicates m limit names ltac:(congruence) NE) as D. destruct (validate_header _ names) as [cc ok].
      destruct D as (_ & _ & dups & D1 & _ & D2 & _). cbn [fst]. rewrite D2.
      destruct dups as [|i dups].
      - rewrite firstn_nil. split; [congruence|]. intros (_ & (i & X) & _). apply D1 in X. destruct X.
      - assert (R1 : repeats names i) by (apply D1; left; reflexivity). unfold limit.
        destruct (errors_kept items) as [|pp] eqn:EK; [cbn; split; [congruence|tauto]|].
        destruct (N.to_nat (N.pos pp)) as [|n] eqn:EN; [lia|]. cbn. split; [intros _|discriminate].
        split; [reflexivity|]. split; [exists i; exact R1|discriminate]. }
    clearbody es. assert (MF : m = FAIL_FAST <-> strict_wanted items).
    { rewrite <- strict_mode. unfold m. destruct (mode_of_items items); cbn; split; congruence. }
    destruct es as [|x es].
    + split; [auto|]. split; [discriminate|]. intros (X1 & X2). apply MF in X1. destruct (EE X1) as (_ & Y). exfalso. apply Y; [exact X2|reflexivity].
    + destruct m eqn:Em; try (split; [auto|]; split; [discriminate|]; intros (X1 & _); apply MF in X1; discriminate X1).
      split; [auto|]. split; [|reflexivity]. intros _. split; [apply MF; reflexivity|]. apply (EE eq_refl). discriminate.
Qed.

Lemma tool_unreadable items ws p k w message os cap : one_input p items -> Forall2 cwritten items ws -> output_asked items <> [] ->
  In (compression_asked items, k) MainSpec.compression_names -> file_at w p = inl message ->
  run w os cap (s2b "convert" :: concat ws) = Ended 1 [].
Proof.
  intros HI HW HO HK HF. destruct (main_converts items ws p k HI HW HO HK) as (c & M & E1 & _).
  unfold tool. rewrite M. unfold run_convert. rewrite E1, HF. reflexivity.
Qed.

Lemma tool_empty items ws p k w os cap : one_input p items -> Forall2 cwritten items ws -> output_asked items <> [] ->
  In (compression_asked items, k) MainSpec.compression_names -> file_at w p = inr [] ->
  run w os cap (s2b "convert" :: concat ws) = Ended 1 [].
Proof.
  intros HI HW HO HK HF. destruct (main_converts items ws p k HI HW HO HK) as (c & M & E1 & _).
  unfold tool. rewrite M. unfold run_convert. rewrite E1, HF. reflexivity.
Qed.

Hypothesis L1 : 1 <= lanes.
Hypothesis L2 : Nat.divide lanes 64.
Lemma tool_refused items ws p k w data cap : one_input p items -> Forall2 cwritten items ws -> output_asked items <> [] ->
  In (compression_asked items, k) MainSpec.compression_names -> file_at w p = inr data ->
  quote (reading_options items) <> LF -> quote (reading_options items) <> CR ->
  run w false cap (s2b "convert" :: concat ws) = Ended 1 [].
Proof.
  intros HI HW HO HK HF Q1 Q2. destruct data as [|x data]; [exact (tool_empty items ws p k w false cap HI HW HO HK HF)|].
  set (o := reading_options items) in *. set (nt := reading_threads hw items).
  assert (ND : x :: data <> []) by discriminate.
  destruct (CliProof3.read_shape ff lanes clmul nt ne o L1 L2 Q1 Q2 (x :: data) ND) as (names & types & t & E & _).
  assert (C : exists r, convert library below (Options (as_parquet k) false) trace ff lanes clmul nt ne o (x :: data) true false cap = Some r).
  { unfold TypesModel.read_file in E. unfold convert. destruct (open_file ff lanes clmul o (x :: data)) as [[[ns ts] he]|]; [|eexists; reflexivity].
    destruct (read_all _ _ _ _ _ _ _ _ _ _ _) as [r'|]; [|discriminate E]. cbn [negb].
    eexists. reflexivity. }
  destruct C as (r & C).
  destruct (C69_failures_reported _ _ _ _ _ _ _ _ _ _ _ _ _ _ _ C) as (_ & _ & F1 & F2). specialize (F1 eq_refl).
  destruct (tool_converts items ws p k w (x :: data) names types t false cap r HI HW HO HK HF E C) as [(_ & _ & _ & X)|(_ & code & X & Y & _)]; [exact X|].
  rewrite X, (Y F1), (proj1 (F2 F1)). reflexivity.
Qed.
End Tool.
