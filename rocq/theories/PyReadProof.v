From Verif Require Import Base TypesSpec WordsModel ChunkSpec ChunkModel FieldsSpec FieldsModel NumModel DateModel ReaderSpec ReaderModel TypesModel ErrorsSpec ErrorsModel ErrorsProof CliModel CliProof3 StrictModel StrictProof
  PySpec PyModel PyProof PyConvSpec PyConvModel PyConvProof PyReadSpec PyReadModel.

Section Read.
Context {F : Type}.
Variable ff : bytes -> option F.
Variables (lanes : nat) (clmul : bool) (hw : N) (ne : bool).
Hypothesis L1 : 1 <= lanes.
Hypothesis L2 : Nat.divide lanes 64.
Notation rd := (py_read_csv ff lanes clmul hw ne).

Lemma options_given a : (reader_options_of a = None <-> bad_mode a) /\
  (forall v, reader_options_of a = Some v -> ro_csv v = asked_options a /\
     (if (ro_num_threads v =? 0)%N then hw else ro_num_threads v) = asked_threads hw a /\
     names_mode (ra_error_mode a) (ra_max_errors a) (ro_mode v) /\
     ro_limit v = N.to_nat (match ra_max_errors a with Some n => n | None => 10000 end)).
Proof.
  unfold reader_options_of. cbv zeta. destruct (parse_mode (ra_error_mode a)) as [m|] eqn:E.
  - pose proof (proj1 (mode_parsed _ _) E) as M. split.
    + split; [unfold with_limit; destruct (ra_max_errors a); discriminate|]. intros (n & E1 & NO). rewrite E1 in M. destruct (NO m M).
    + intros v. unfold with_limit. intros H.
      assert (X : ro_csv v = asked_options a /\ ro_num_threads v = match ra_num_threads a with Some n => n | None => 0%N end /\
                  ro_mode v = match m, ra_max_errors a with DISABLED, Some _ => PERMISSIVE | _, _ => m end /\
                  ro_limit v = N.to_nat (match ra_max_errors a with Some n => n | None => 10000 end)).
      { unfold asked_options. destruct (ra_max_errors a); injection H as <-; cbn [ro_csv ro_num_threads ro_mode ro_limit];
          (split; [destruct (ra_separator a), (ra_quote a); reflexivity|]); (split; [reflexivity|]); split; try reflexivity; destruct m; reflexivity. }
      destruct X as (X1 & X2 & X3 & X4). split; [exact X1|]. split; [|split; [exists m; split; [exact M|exact X3]|exact X4]].
      rewrite X2. unfold asked_threads. destruct (ra_num_threads a) as [[|p]|]; reflexivity.
  - split; [|discriminate]. split; [|reflexivity]. intros _. destruct (ra_error_mode a) as [n|] eqn:E1; [|discriminate E].
    exists n. split; [exact E1|]. intros m I. apply (mode_parsed (Some n) m) in I. congruence.
Qed.
Lemma mode_unique a l m m' : names_mode a l m -> names_mode a l m' -> m = m'.
Proof.
  intros (x & Hx & ->) (y & Hy & ->). assert (x = y) as ->; [|reflexivity].
  assert (A : parse_mode a = Some x) by (apply mode_parsed; exact Hx). assert (B : parse_mode a = Some y) by (apply mode_parsed; exact Hy). congruence.
Qed.

Lemma no_file a : rd a None = ReadRaises [] \/ rd a None = ReadBadArgument.
Proof. unfold py_read_csv. destruct (reader_options_of a); auto. Qed.

Lemma whole a content : content <> [] -> ~ bad_mode a -> quote (asked_options a) <> LF -> quote (asked_options a) <> CR ->
  exists names types t, TypesModel.read_file ff lanes clmul (asked_threads hw a) ne (asked_options a) content = Some (names, types, t) /\
    rd a (Some content) =
      if stops (asked_options a) (match reader_options_of a with Some v => ro_mode v | None => DISABLED end) names
      then ReadRaises (match ra_max_errors a with Some 0%N => [] | _ => [Error EMPTY_HEADER FATAL 1 1 0 []] end)
      else ReadReturns (table_of names types t).
Proof.
  intros NE NB Q1 Q2. destruct (options_given a) as (O1 & O2). destruct (reader_options_of a) as [v|] eqn:E; [|exfalso; apply NB, O1; reflexivity].
  destruct (O2 v eq_refl) as (A1 & A2 & A3 & A4).
  destruct (read_shape ff lanes clmul (asked_threads hw a) ne (asked_options a) L1 L2 Q1 Q2 content NE) as (names & types & t & R & _).
  exists names, types, t. split; [exact R|]. unfold py_read_csv. rewrite E. cbv zeta. rewrite A2, A1.
  rewrite (read_checked_spec ff lanes clmul (asked_threads hw a) ne (asked_options a) (ro_mode v) (ro_limit v) content names types t R).
  destruct (stops (asked_options a) (ro_mode v) names) eqn:ST; [|reflexivity]. apply stops_iff in ST. destruct ST as (H1 & H2 & H3). rewrite H1.
  apply f_equal. rewrite A4. clear - H2 H3. unfold validate_header, is_enabled, new_collector. cbn [c_mode].
  destruct H2 as [->| ->]; (destruct H3 as [->| ->]); unfold add_error, should_stop, has_errors; cbn [c_max c_errors length e_severity c_mode c_fatal c_suppressed];
    (destruct (ra_max_errors a) as [[|p]|]; [reflexivity| |]);
    (assert (Z : (N.to_nat (Npos p) <=? 0) = false) by (apply Nat.leb_gt; lia); rewrite Z; reflexivity) || reflexivity.
Qed.
End Read.

Section Read2.
Context {F : Type}.
Variable ff : bytes -> option F.
Variables (lanes : nat) (clmul : bool) (hw : N) (ne : bool).
Hypothesis L1 : 1 <= lanes.
Hypothesis L2 : Nat.divide lanes 64.
Notation rd := (py_read_csv ff lanes clmul hw ne).

Lemma stopping_iff a v names : reader_options_of a = Some v ->
  (stops (asked_options a) (ro_mode v) names = true <-> ra_has_header a = true /\ header_is_empty names /\ stopping a).
Proof.
  intros E. destruct (options_given hw a) as (_ & O2). destruct (O2 v E) as (_ & _ & A3 & _). rewrite stops_iff. unfold stopping.
  split; intros (H1 & H2 & H3); (split; [exact H1|]; split; [exact H2|]).
  - destruct H3 as [H3|H3]; rewrite H3 in A3; auto.
  - destruct H3 as [H3|H3]; [left|right]; apply (mode_unique _ _ _ _ A3 H3).
Qed.

Lemma outcomes a content : content <> [] -> ~ bad_mode a -> quote (asked_options a) <> LF -> quote (asked_options a) <> CR ->
  exists names types t, TypesModel.read_file ff lanes clmul (asked_threads hw a) ne (asked_options a) content = Some (names, types, t) /\
    (ra_has_header a = true /\ header_is_empty names /\ stopping a ->
       exists listed, rd a (Some content) = ReadRaises listed /\
         map e_code listed = match ra_max_errors a with Some 0%N => [] | _ => [EMPTY_HEADER] end) /\
    (~ (ra_has_header a = true /\ header_is_empty names /\ stopping a) ->
       exists tb, rd a (Some content) = ReadReturns tb /\ t_names tb = names /\ t_types tb = types /\
         Some (t_columns tb) = hd_error (chunks t) /\ t_rows tb = total_rows t).
Proof.
  intros NE NB Q1 Q2. destruct (whole ff lanes clmul hw ne L1 L2 a content NE NB Q1 Q2) as (names & types & t & R & W).
  exists names, types, t. split; [exact R|]. destruct (options_given hw a) as (O1 & _).
  destruct (reader_options_of a) as [v|] eqn:E; [|exfalso; apply NB, O1; reflexivity].
  pose proof (stopping_iff a v names E) as ST. rewrite W. destruct (stops (asked_options a) (ro_mode v) names).
  - split; [|intros H; exfalso; apply H, ST; reflexivity]. intros _. eexists. split; [reflexivity|]. destruct (ra_max_errors a) as [[|]|]; reflexivity.
  - split; [intros H; apply ST in H; discriminate H|]. intros _. eexists. split; [reflexivity|].
    destruct (read_shape ff lanes clmul (asked_threads hw a) ne (asked_options a) L1 L2 Q1 Q2 content NE) as (names' & types' & t' & R' & _ & LN & C & G & _).
    rewrite R in R'. injection R' as <- <- <-. clear - C G LN.
    unfold table_of. destruct (chunks t) as [|c [|c2 r]]; [congruence|repeat split|].
    destruct c as [|x c]; [|repeat split]. exfalso. inversion G as [|? ? G1 _]. destruct G1 as (G1 & _). cbn in G1. lia.
Qed.
Lemma small a content tb : content <> [] -> quote (asked_options a) <> LF -> quote (asked_options a) <> CR ->
  quote (asked_options a) <> separator (asked_options a) -> quote (asked_options a) <> 0%N ->
  let o := asked_options a in
  let body := skipn (if has_header o then spec_find_row_end (quote o) content 0 else 0) content in
  length body < N.to_nat (1024 * 1024) -> Forall (safe_row (separator o) LF (quote o)) (table_rows (separator o) (quote o) body) ->
  rd a (Some content) = ReadReturns tb ->
  option_map fst (open_file ff lanes clmul o content) = Some (t_names tb, t_types tb) /\
  t_rows tb = length (table_rows (separator o) (quote o) body) /\
  t_columns tb = table_columns (fun k => append_value ff lanes (nth k (t_types tb) STRING)) (null_values o) (separator o) (quote o) (length (t_names tb)) body.
Proof.
  intros NE Q1 Q2 Q3 Q4 o body SM SF H.
  unfold py_read_csv in H. destruct (reader_options_of a) as [v|] eqn:E; [|discriminate H]. destruct (options_given hw a) as (_ & O2).
  destruct (O2 v E) as (A1 & A2 & _). cbv zeta in H. rewrite A2, A1 in H.
  assert (RC : read_csv ff lanes clmul (asked_threads hw a) ne o (ro_mode v) (ro_limit v) content = Some tb).
  { unfold read_csv. fold o in H. destruct (read_checked ff lanes clmul (asked_threads hw a) ne o (ro_mode v) (ro_limit v) content) as [es [[[n ty] r]|]]; [|discriminate H].
    cbn [snd]. congruence. }
  destruct (csv_small ff lanes clmul (asked_threads hw a) ne o (ro_mode v) (ro_limit v) L1 L2 Q1 Q2 Q3 Q4 content NE SM SF tb RC) as (B1 & _ & _ & b & B4 & _ & B6).
  split; [exact B1|]. destruct B6 as (B6 & B7 & _). unfold stream_next in B4. injection B4 as <-. cbn [b_length b_children] in B6, B7.
  split; [exact B6|exact B7].
Qed.
End Read2.

Lemma bad_calls : forall (F : Type) (ff : bytes -> option F) lanes clmul hw ne a,
  (bad_mode a -> forall file, py_read_csv ff lanes clmul hw ne a file = ReadBadArgument) /\
  (~ bad_mode a -> py_read_csv ff lanes clmul hw ne a None = ReadRaises [] /\ py_read_csv ff lanes clmul hw ne a (Some []) = ReadRaises []).
Proof.
  intros F ff lanes clmul hw ne a. destruct (options_given hw a) as (O & _). unfold py_read_csv. destruct (reader_options_of a) as [v|].
  - split; [intros H; apply O in H; discriminate H|]. intros _. split; reflexivity.
  - split; [reflexivity|]. intros H. exfalso. apply H, O. reflexivity.
Qed.
