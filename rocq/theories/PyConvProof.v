From Verif Require Import Base TypesSpec WordsModel ChunkModel FieldsModel ReaderSpec ReaderModel TypesModel TypesProof ErrorsSpec ErrorsModel CliModel StrictSpec StrictModel StrictProof StrictProps
  MetaSpec BuffersModel ParquetSpec ParquetModel ParquetObs ParquetProps QueueSpec QueueModel PipelineModel ConvertModel ConvertObs ConvertProof6 ConvertProps PyConvSpec PyConvModel.

Lemma is_name n s : is n s = true <-> n = s2b s.
Proof. unfold is. apply bytes_eqb_spec. Qed.
Lemma named_some {A} n s (a : A) other x : named n s a other = Some x <-> (n = s2b s /\ x = a) \/ (n <> s2b s /\ other = Some x).
Proof.
  unfold named. destruct (is n s) eqn:E.
  - apply is_name in E. split; [intros [= <-]; left; split; [exact E|reflexivity]|]. intros [[_ ->]|[N _]]; [reflexivity|contradiction].
  - assert (N : n <> s2b s) by (intros C; apply is_name in C; congruence). split; [intros H; right; split; assumption|]. intros [[C _]|[_ H]]; [contradiction|exact H].
Qed.

Lemma compression_names a k : parse_compression a = Some k <-> names_codec a k.
Proof.
  destruct a as [n|]; cbn [parse_compression names_codec]; [|split; [intros [= <-]; reflexivity|intros ->; reflexivity]].
  unfold codec_names. split.
  - rewrite !named_some. cbn [In]. intros H.
    repeat (destruct H as [(-> & ->)|(_ & H)]; [tauto|]). discriminate H.
  - cbn [In]. intros [[= <- <-]|[[= <- <-]|[[= <- <-]|[[= <- <-]|[[= <- <-]|[]]]]]]; reflexivity.
Qed.

Lemma mode_parsed a m : parse_mode a = Some m <-> match a with None => m = DISABLED | Some n => In (n, m) mode_names end.
Proof.
  destruct a as [n|]; cbn [parse_mode]; [|split; [intros [= <-]; reflexivity|intros ->; reflexivity]].
  unfold mode_names. split.
  - rewrite named_some. cbn [In]. intros [(-> & ->)|(_ & H)]; [tauto|].
    destruct (is n "fail_fast") eqn:E1; [apply is_name in E1; injection H as <-; subst; tauto|].
    destruct (is n "strict") eqn:E2; [apply is_name in E2; injection H as <-; subst; tauto|]. cbn [orb] in H.
    rewrite !named_some in H. repeat (destruct H as [(-> & ->)|(_ & H)]; [tauto|]). discriminate H.
  - cbn [In]. intros [[= <- <-]|[[= <- <-]|[[= <- <-]|[[= <- <-]|[[= <- <-]|[]]]]]]; reflexivity.
Qed.

Lemma options_set a v : set_options a = Some v ->
  names_codec (a_compression a) (v_compression v) /\ names_mode (a_error_mode a) (a_max_errors a) (v_mode v) /\
  v_csv v = default_options /\ v_csv_num_threads v = 0%N /\ v_dictionary v = false /\
  v_limit v = N.to_nat (match a_max_errors a with Some n => n | None => 10000 end).
Proof.
  unfold set_options. destruct (parse_compression (a_compression a)) as [k|] eqn:E1; [|discriminate].
  destruct (parse_mode (a_error_mode a)) as [m|] eqn:E2; [|discriminate].
  unfold with_limit. intros H. apply compression_names in E1. apply mode_parsed in E2.
  destruct (a_max_errors a) as [n|]; injection H as <-; cbn [v_compression v_mode v_csv v_csv_num_threads v_dictionary v_limit];
    (split; [exact E1|]; split; [exists m; split; [exact E2|destruct m; reflexivity]|]; repeat split).
Qed.

Lemma options_accepted a k m : names_codec (a_compression a) k -> names_mode (a_error_mode a) (a_max_errors a) m ->
  exists v, set_options a = Some v /\ v_compression v = k /\ v_mode v = m.
Proof.
  intros H1 (m0 & H2 & ->). apply compression_names in H1. apply mode_parsed in H2. unfold set_options. rewrite H1, H2.
  unfold with_limit. destruct (a_max_errors a) as [n|]; eexists; (split; [reflexivity|]); split; try reflexivity; destruct m0; reflexivity.
Qed.

Section Files.
Variable library : compression -> bytes -> option bytes.
Variable below : nat -> nat -> bool.
Variable trace : list (label (Z * list encoded_column)).
Variable ff : bytes -> option N.
Variables (lanes : nat) (clmul : bool) (hw : N) (ne : bool).
Notation tp := (to_parquet library below trace ff lanes clmul hw ne).

Lemma ignored a a' data os cap : a_compression a = a_compression a' -> a_error_mode a = a_error_mode a' -> a_max_errors a = a_max_errors a' ->
  tp a data os cap = tp a' data os cap.
Proof.
  intros E1 E2 E3. unfold to_parquet, set_options. rewrite E1, E2, E3.
  destruct (parse_compression (a_compression a')); [|reflexivity]. destruct (parse_mode (a_error_mode a')); [|reflexivity].
  destruct (with_limit m (a_max_errors a')). reflexivity.
Qed.

(** Opening stops exactly for empty headers in strict and permissive mode. *)
Lemma outcome a v data names types t : set_options a = Some v -> TypesModel.read_file ff lanes clmul hw ne default_options data = Some (names, types, t) ->
  tp a data true None =
  if stops default_options (v_mode v) names then Some (Raises [])
  else match convert library below (Options (v_compression v) false) trace ff lanes clmul hw ne default_options data true true None with
       | Some c => match cv_error c with
                   | Some _ => Some (Raises (fst (read_checked ff lanes clmul hw ne default_options (v_mode v) (v_limit v) data)))
                   | None => Some (Returns (cv_writer c))
                   end
       | None => None
       end.
Proof.
  intros Ev Er. unfold to_parquet. rewrite Ev. destruct (options_set a v Ev) as (_ & _ & C1 & C2 & C3 & _). unfold convert_with, reader_threads.
  rewrite C1, C2, C3. change (0 =? 0)%N with true. cbv iota.
  pose proof (read_checked_spec ff lanes clmul hw ne default_options (v_mode v) (v_limit v) data names types t Er) as R.
  unfold convert_errors. rewrite R. destruct (stops default_options (v_mode v) names) eqn:Es.
  - assert (O : snd (open_checked ff lanes clmul default_options (v_mode v) (v_limit v) data) = None).
    { unfold TypesModel.read_file in Er. destruct (open_file ff lanes clmul default_options data) as [[[ns ts] he]|] eqn:E; [|discriminate Er].
      destruct (read_all _ _ _ _ _ _ _ _ _ _ _) as [r|]; [|discriminate Er].
      assert (X1 : ns = names) by (exact (f_equal (fun x => match x with Some (a, _, _) => a | None => [] end) Er)). subst ns.
      rewrite (open_checked_spec ff lanes clmul default_options (v_mode v) (v_limit v) _ _ _ _ E), Es. reflexivity. }
    rewrite O. reflexivity.
  - destruct (convert _ _ _ _ _ _ _ _ _ _ _ _ _ _) as [c|]; [|reflexivity]. destruct (cv_error c); reflexivity.
Qed.
End Files.
