(** Proofs for main. *)
From Verif Require Import Base ReaderModel ReaderProof CliSpec CliModel CliProof4 CliProof5 CliProof6 CompressSpec MainSpec MainModel.

Lemma is_iff a s : is a s = true <-> a = s2b s.
Proof. unfold is. apply bytes_eqb_spec. Qed.
Lemma is_false a s : a <> s2b s -> is a s = false.
Proof. intros H. destruct (is a s) eqn:E; [|reflexivity]. apply is_iff in E. contradiction. Qed.

(** ** main *)
Lemma main_help w r : In w help_words -> main (w :: r) = ShowUsage 0.
Proof. cbn. intros H. repeat (destruct H as [<-|H]; [reflexivity|]). destruct H. Qed.
Lemma main_version w r : In w version_words -> main (w :: r) = ShowVersion.
Proof. cbn. intros H. repeat (destruct H as [<-|H]; [reflexivity|]). destruct H. Qed.
Lemma main_viewer v w r : In (v, w) viewers -> main (w :: r) = start_viewer v r.
Proof. cbn. intros H. repeat (destruct H as [H|H]; [injection H as <- <-; reflexivity|]). destruct H. Qed.
Lemma main_later w r : In w later_words -> main (w :: r) = Refuse.
Proof. cbn. intros H. repeat (destruct H as [<-|H]; [reflexivity|]). destruct H. Qed.
Lemma main_convert r : main (s2b "convert" :: r) = start_convert r.
Proof. reflexivity. Qed.

Lemma main_other w r : ~ In w reserved_words ->
  main (w :: r) = if negb (N.eqb (first_char w) 45) && existsb (N.eqb 46) w then start_convert (w :: r) else Refuse.
Proof.
  intros H. unfold main.
  assert (K : forall s, In (s2b s) reserved_words -> is w s = false).
  { intros s Hs. apply is_false. intros ->. contradiction. }
  rewrite !K by (vm_compute; tauto). reflexivity.
Qed.

Lemma dot_iff w : existsb (N.eqb 46) w = true <-> In 46%N w.
Proof.
  rewrite existsb_exists. split.
  - intros (c & Hc & E). apply N.eqb_eq in E. now subst.
  - intros H. exists 46%N. split; [exact H|reflexivity].
Qed.

Lemma first_char_hd w : first_char w = hd 0%N w.
Proof. destruct w; reflexivity. Qed.

Lemma main_file w r : file_like w -> main (w :: r) = main (s2b "convert" :: w :: r).
Proof.
  intros (H1 & H2 & H3). rewrite main_convert, main_other by exact H1. rewrite first_char_hd.
  apply N.eqb_neq in H2. rewrite H2. apply dot_iff in H3. rewrite H3. reflexivity.
Qed.

Lemma main_unknown w r : ~ In w reserved_words -> ~ file_like w -> main (w :: r) = Refuse.
Proof.
  intros H1 H2. rewrite main_other by exact H1. rewrite first_char_hd.
  destruct (N.eqb_spec (hd 0%N w) 45) as [E|E]; [reflexivity|]. destruct (existsb (N.eqb 46) w) eqn:D; [|reflexivity].
  exfalso. apply H2. split; [exact H1|]. split; [exact E|]. now apply dot_iff.
Qed.

Lemma codec_iff n k : codec_of n = Some k <-> In (n, k) compression_names.
Proof.
  unfold codec_of. split.
  - intros H. destruct (is n "zstd") eqn:E1; [apply is_iff in E1; injection H as <-; subst; cbn; tauto|].
    destruct (is n "snappy") eqn:E2; [apply is_iff in E2; injection H as <-; subst; cbn; tauto|].
    destruct (is n "lz4") eqn:E3; [apply is_iff in E3; injection H as <-; subst; cbn; tauto|].
    destruct (is n "gzip") eqn:E4; [apply is_iff in E4; injection H as <-; subst; cbn; tauto|].
    destruct (is n "none") eqn:E5; [apply is_iff in E5; injection H as <-; subst; cbn; tauto|]. discriminate.
  - cbn. intros H. repeat (destruct H as [H|H]; [injection H as <- <-; reflexivity|]). destruct H.
Qed.

(** ** what can be converted *)
Definition good (p : bytes) : Prop := p = [] \/ (p <> s2b "convert" /\ hd 0%N p <> 45%N).

Lemma convert_path n : forall args c c', length args <= n -> good (in_path (common c)) -> convert_args args c = CParsed c' -> good (in_path (common c')).
Proof.
  induction n as [|n IH]; intros args c c' L G.
  - destruct args; [|cbn in L; lia]. cbn. intros E. injection E as <-. exact G.
  - destruct args as [|a r]; [cbn; intros E; injection E as <-; exact G|]. cbn [length] in L. cbn [convert_args].
    repeat match goal with
    | |- (if ?b then match r with [] => _ | _ :: _ => _ end else _) = _ -> _ => destruct b; [destruct r as [|v r']; [discriminate|cbn [length] in L]|]
    | |- (if ?b then convert_args _ _ else _) = _ -> _ => destruct b eqn:?
    | |- match stoul ?v with Some _ => _ | None => _ end = _ -> _ => destruct (stoul v); [|discriminate]
    | |- (if ?b then CHelp else _) = _ -> _ => destruct b; [discriminate|]
    | |- convert_args ?x _ = _ -> _ => apply (IH x); [lia|]
    | |- CRefused = _ -> _ => discriminate
    end; try exact G.
    cbn [with_common common set_path in_path]. 
    unfold good. match goal with H : negb _ && _ = true |- _ => apply andb_prop in H as [H _]; rewrite first_char_hd in H; apply Bool.negb_true_iff, N.eqb_neq in H end.
    right. split; [|assumption]. intros ->. match goal with H : is (s2b "convert") "convert" = false |- _ => discriminate H end.
Qed.

Lemma viewers_not_convert v w : In (v, w) viewers -> ~ file_like w /\ w <> s2b "convert".
Proof.
  intros H. split.
  - intros (N & _). apply N. unfold reserved_words. apply in_or_app. right. apply in_or_app. right. right. apply in_or_app. left.
    change w with (snd (v, w)). now apply in_map.
  - cbn in H. repeat (destruct H as [H|H]; [injection H as _ <-; discriminate|]). destruct H.
Qed.

(** The five cases. *)
Lemma main_cases (w : bytes) (r : list bytes) :
  In w help_words \/ In w version_words \/ In w later_words \/ (exists v, In (v, w) viewers) \/ w = s2b "convert" \/ file_like w \/ (~ In w reserved_words /\ ~ file_like w).
Proof.
  destruct (in_dec (list_eq_dec N.eq_dec) w reserved_words) as [H|H].
  - unfold reserved_words in H. apply in_app_or in H as [H|H]; [tauto|]. apply in_app_or in H as [H|H]; [tauto|].
    destruct H as [H|H]; [right; right; right; right; left; now symmetry|]. apply in_app_or in H as [H|H]; [|tauto].
    right; right; right; left. apply in_map_iff in H as ([v w'] & <- & H). exists v. exact H.
  - destruct (N.eq_dec (hd 0%N w) 45) as [E|E].
    + do 6 right. split; [exact H|]. intros (_ & F & _). contradiction.
    + destruct (in_dec N.eq_dec 46%N w) as [D|D].
      * do 5 right. left. split; [exact H|]. split; assumption.
      * do 6 right. split; [exact H|]. intros (_ & _ & F). contradiction.
Qed.

Lemma start_viewer_view v r v' s : start_viewer v r = View v' s -> v' = v /\ (v = Select -> columns s <> []).
Proof.
  unfold start_viewer. destruct (parse_args r defaults) as [s0|s0 ?| | |]; try discriminate.
  - destruct v; try (intros E; injection E as <- <-; split; [reflexivity|discriminate]).
    destruct (columns s0) eqn:C; [discriminate|]. intros E. injection E as <- <-. split; [reflexivity|]. intros _. rewrite C. discriminate.
  - destruct v; try (intros E; injection E as <- <-; split; [reflexivity|discriminate]).
    destruct (columns s0) eqn:C; [discriminate|]. intros E. injection E as <- <-. split; [reflexivity|]. intros _. rewrite C. discriminate.
Qed.
Lemma start_viewer_no_convert v r c k : start_viewer v r <> ConvertFile c k.
Proof. unfold start_viewer. destruct (parse_args r defaults); destruct v; try discriminate; destruct (columns s); discriminate. Qed.
Lemma start_convert_no_view r v s : start_convert r <> View v s.
Proof.
  unfold start_convert. destruct (convert_args r convert_defaults); try discriminate. destruct (in_path (common c)); [discriminate|]. destruct (out_path c); [discriminate|].
  destruct (codec_of (compression c)); discriminate.
Qed.
Lemma start_convert_file r c k : start_convert r = ConvertFile c k ->
  convert_args r convert_defaults = CParsed c /\ in_path (common c) <> [] /\ out_path c <> [] /\ In (compression c, k) compression_names.
Proof.
  unfold start_convert. destruct (convert_args r convert_defaults) as [c0| | |]; try discriminate.
  destruct (in_path (common c0)) eqn:I; [discriminate|]. destruct (out_path c0) eqn:O; [discriminate|].
  destruct (codec_of (compression c0)) eqn:K; [|discriminate]. intros E. injection E as <- <-.
  split; [reflexivity|]. split; [rewrite I; discriminate|]. split; [rewrite O; discriminate|]. now apply codec_iff.
Qed.

Lemma converted r c k : start_convert r = ConvertFile c k ->
  in_path (common c) <> [] /\ in_path (common c) <> s2b "convert" /\ hd 0%N (in_path (common c)) <> 45%N /\ out_path c <> [] /\ In (compression c, k) compression_names.
Proof.
  intros E. apply start_convert_file in E. destruct E as (P & I & O & K). split; [exact I|].
  destruct (convert_path (length r) r convert_defaults c (le_n _) (or_introl eq_refl) P) as [G|(G1 & G2)]; [contradiction|]. tauto.
Qed.

Lemma runs_only_when_asked : forall args : list bytes,
    (forall v s, main args = View v s -> exists w r, args = w :: r /\ In (v, w) viewers /\ (v = Select -> columns s <> [])) /\
    (forall c k, main args = ConvertFile c k ->
       (exists w r, args = w :: r /\ (w = s2b "convert" \/ file_like w)) /\
       in_path (common c) <> [] /\ in_path (common c) <> s2b "convert" /\ hd 0%N (in_path (common c)) <> 45%N /\
       out_path c <> [] /\ In (compression c, k) compression_names).
Proof.
  intros [|w r]; [split; intros; discriminate|].
  destruct (main_cases w r) as [H|[H|[H|[(v & H)|[H|[H|(H1 & H2)]]]]]].
  - rewrite (main_help w r H). split; intros; discriminate.
  - rewrite (main_version w r H). split; intros; discriminate.
  - rewrite (main_later w r H). split; intros; discriminate.
  - rewrite (main_viewer v w r H). split.
    + intros v' s E. apply start_viewer_view in E. destruct E as (-> & E). exists w, r. tauto.
    + intros c k E. exfalso. exact (start_viewer_no_convert _ _ _ _ E).
  - subst w. rewrite main_convert. split.
    + intros v s E. exfalso. exact (start_convert_no_view _ _ _ E).
    + intros c k E. apply converted in E. split; [exists (s2b "convert"), r; tauto|exact E].
  - rewrite (main_file w r H), main_convert. split.
    + intros v s E. exfalso. exact (start_convert_no_view _ _ _ E).
    + intros c k E. apply converted in E. split; [exists w, r; tauto|exact E].
  - rewrite (main_unknown w r H1 H2). split; intros; discriminate.
Qed.

Lemma start_viewer_exit v r n : start_viewer v r = ShowUsage n -> n = 0.
Proof. unfold start_viewer. destruct (parse_args r defaults); destruct v; try discriminate; try (destruct (columns s); discriminate); intros E; injection E as <-; reflexivity. Qed.
Lemma start_viewer_version v r : start_viewer v r <> ShowVersion.
Proof. unfold start_viewer. destruct (parse_args r defaults); destruct v; try discriminate; destruct (columns s); discriminate. Qed.
Lemma start_convert_exit r n : start_convert r = ShowUsage n -> n = 0.
Proof.
  unfold start_convert. destruct (convert_args r convert_defaults); try discriminate.
  - destruct (in_path (common c)); [discriminate|]. destruct (out_path c); [discriminate|]. destruct (codec_of (compression c)); discriminate.
  - intros E. injection E as <-. reflexivity.
Qed.
Lemma start_convert_version r : start_convert r <> ShowVersion.
Proof.
  unfold start_convert. destruct (convert_args r convert_defaults); try discriminate.
  destruct (in_path (common c)); [discriminate|]. destruct (out_path c); [discriminate|]. destruct (codec_of (compression c)); discriminate.
Qed.

Lemma exit_codes : forall args : list bytes,
    (exit_code (main args) = Some 0 <-> (main args = ShowVersion \/ main args = ShowUsage 0)) /\
    (forall n, exit_code (main args) = Some n -> n <= 1) /\
    (main args = ShowVersion <-> exists w r, args = w :: r /\ In w version_words).
Proof.
  intros args. split; [|split].
  - destruct (main args); cbn [exit_code]; split; intros H; try discriminate; try tauto; try (destruct H; discriminate).
    + injection H as ->. tauto.
    + destruct H as [H|H]; [discriminate|]. injection H as ->. reflexivity.
  - intros n. destruct args as [|w r]; [cbn; intros E; injection E as <-; lia|].
    assert (U : forall k, main (w :: r) = ShowUsage k -> k = 0).
    { intros k. destruct (main_cases w r) as [H|[H|[H|[(v & H)|[H|[H|(H1 & H2)]]]]]].
      - rewrite (main_help w r H). intros E. injection E as <-. reflexivity.
      - rewrite (main_version w r H). discriminate.
      - rewrite (main_later w r H). discriminate.
      - rewrite (main_viewer v w r H). apply start_viewer_exit.
      - subst w. rewrite main_convert. apply start_convert_exit.
      - rewrite (main_file w r H), main_convert. apply start_convert_exit.
      - rewrite (main_unknown w r H1 H2). discriminate. }
    destruct (main (w :: r)); cbn [exit_code]; intros E; try discriminate; injection E as <-; try lia. rewrite (U _ eq_refl). lia.
  - split.
    + destruct args as [|w r]; [discriminate|]. intros E. exists w, r. split; [reflexivity|].
      destruct (main_cases w r) as [H|[H|[H|[(v & H)|[H|[H|(H1 & H2)]]]]]].
      * rewrite (main_help w r H) in E. discriminate.
      * exact H.
      * rewrite (main_later w r H) in E. discriminate.
      * rewrite (main_viewer v w r H) in E. exfalso. exact (start_viewer_version _ _ E).
      * subst w. rewrite main_convert in E. exfalso. exact (start_convert_version _ E).
      * rewrite (main_file w r H), main_convert in E. exfalso. exact (start_convert_version _ E).
      * rewrite (main_unknown w r H1 H2) in E. discriminate.
    + intros (w & r & -> & H). exact (main_version w r H).
Qed.

Lemma last_columns_kept items d : d <> [] -> Forall (fun i => match i with Columns v => v <> [] | _ => True end) items ->
  last_given (fun i => match i with Columns v => Some v | _ => None end) items d <> [].
Proof.
  unfold last_given. revert d. induction items as [|i items IH]; intros d Hd HF; [exact Hd|]. cbn [fold_left]. inversion HF; subst.
  apply IH; [|assumption]. destruct i; assumption.
Qed.
Lemma last_columns items : (exists c, In (Columns c) items) -> Forall (fun i => match i with Columns v => v <> [] | _ => True end) items ->
  forall d, last_given (fun i => match i with Columns v => Some v | _ => None end) items d <> [].
Proof.
  induction items as [|i items IH]; intros (c & H) HF d; [destruct H|]. inversion HF; subst. destruct H as [H|H].
  - subst i. unfold last_given. cbn [fold_left]. apply last_columns_kept; assumption.
  - unfold last_given. cbn [fold_left]. apply IH; [now exists c|assumption].
Qed.

Lemma viewer_runs : forall (v : viewer) (w : bytes) (items : list item) (ws : list (list bytes)),
    In (v, w) viewers -> Forall2 written items ws -> length (filter is_columns items) <= 1 ->
    (v = Select -> exists c, In (Columns c) items) ->
    exists s, main (w :: concat ws) = View v s /\
      in_path s = first_given (fun i => match i with Input p => Some p | _ => None end) items [] /\
      columns s = last_given (fun i => match i with Columns v => Some v | _ => None end) items [] /\
      rows s = last_given (fun i => match i with Rows n => Some n | _ => None end) items 10%N /\
      delimiter s = last_given (fun i => match i with Delimiter c => Some c | _ => None end) items COMMA /\
      quoting s = last_given (fun i => match i with Quote c => Some c | _ => None end) items DQ /\
      header s = negb (given (fun i => match i with NoHeader => true | _ => false end) items).
Proof.
  intros v w items ws Hv HW HC HS.
  destruct (options_spec items ws HW HC) as (s & P & A1 & _ & A3 & A4 & A5 & _ & _ & _ & A9 & A10 & _).
  exists s. rewrite (main_viewer v w _ Hv). split; [|tauto]. unfold start_viewer. rewrite P.
  destruct v; try reflexivity.
  assert (NE : columns s <> []).
  { rewrite A9. apply last_columns; [exact (HS eq_refl)|]. clear - HW. induction HW as [|i w items ws H _ IH]; [constructor|]. constructor; [|exact IH].
    destruct H; try exact I. assumption. }
  destruct (columns s); [congruence|reflexivity].
Qed.

Lemma convert_runs : forall (items : list citem) (ws : list (list bytes)) (p : bytes) (before after : list citem) (k : codec),
    items = before ++ CInput p :: after -> Forall (fun i => match i with CInput _ => False | _ => True end) (before ++ after) ->
    Forall2 cwritten items ws ->
    last_citem (fun i => match i with COutput x => Some x | _ => None end) items [] <> [] ->
    In (last_citem (fun i => match i with CCompression x => Some x | _ => None end) items (s2b "zstd"), k) compression_names ->
    exists c, main (s2b "convert" :: concat ws) = ConvertFile c k /\ in_path (common c) = p /\
      out_path c = last_citem (fun i => match i with COutput x => Some x | _ => None end) items [] /\
      row_group c = last_citem (fun i => match i with CRowGroup x => Some x | _ => None end) items 1000000%N /\
      delimiter (common c) = last_citem (fun i => match i with CDelimiter x => Some x | _ => None end) items COMMA /\
      quoting (common c) = last_citem (fun i => match i with CQuote x => Some x | _ => None end) items DQ /\
      header (common c) = negb (cgiven (fun i => match i with CNoHeader => true | _ => false end) items).
Proof.
  intros items ws p before after k E HF HW HO HK.
  destruct (convert_spec items ws p before after E HF HW) as (c & P & A1 & A2 & A3 & A4 & _ & A6 & A7 & A8 & _).
  exists c. rewrite main_convert. split; [|tauto]. unfold start_convert. rewrite P.
  assert (NP : in_path (common c) <> []).
  { rewrite A1. clear - E HW. subst items. apply Forall2_app_inv_l in HW as (w1 & w2 & _ & H2 & _). inversion H2; subst.
    match goal with H : cwritten (CInput p) _ |- _ => inversion H; subst; assumption end. }
  destruct (in_path (common c)); [congruence|]. rewrite <- A2 in HO. destruct (out_path c) eqn:O; [congruence|].
  rewrite <- A3 in HK. apply codec_iff in HK. rewrite HK. reflexivity.
Qed.
