From Verif Require Import Base NumSpec NumModel NumProof NumProps DateSpec DateModel DateProof DateProof2 StampSpec FieldsSpec FieldsModel WordsModel ChunkSpec ChunkModel ReaderSpec ReaderModel TypesSpec TypesModel TypesProof TypesProof3
  CliSpec CliModel CliProof CliProof2 KeepSpec KeepProof RoundSpec RoundProof RoundProof2 RoundProof3 RoundProof4 RoundProof5 SeenSpec RoundProof6 ReprintSpec ReprintProof ReprintProof2 ReprintProof3 ReprintProof4.

Section Table.
Context {F : Type}.
Variable ff : bytes -> option F.
Variable show_float : F -> bytes.
Variable again : F -> F.
Variable pad : bool.
Hypothesis no_date : forall v n, date_value v n -> ff v = None.
Hypothesis no_stamp : forall v n, timestamp_value v n -> ff v = None.
Notation text := (value_text show_float pad).
Notation W := (written_name COMMA DQ).
Notation nulls := (null_values default_options).
Notation keep := (keepable ff show_float again pad).
Notation sampled_text := (fun t => column_name (W t)).

Lemma not_na_not_null v : infer_field ff default_options v <> NA -> denotes_null nulls v = false.
Proof. intros N. rewrite infer_na in N. destruct (denotes_null _ _); [exfalso; apply N; reflexivity|reflexivity]. Qed.

Lemma glimpse_clean t : clean t -> glimpse t = t.
Proof. intros C. unfold glimpse. rewrite (clean_plain t C). cbn [seen]. apply clean_trim. exact C. Qed.

Lemma clean_facts t : clean t -> denotes_null nulls t = false -> ~ In LF t /\ ~ In CR t /\ meaning nulls (W t) = Some t /\ glimpse t = t.
Proof.
  intros C N. pose proof (glimpse_clean t C) as G. rewrite (clean_plain t C). cbn [meaning]. rewrite N. unfold clean in C. rewrite Forall_forall in C.
  split; [intros H; apply C in H; change LF with 10%N in H; lia|]. split; [intros H; apply C in H; change CR with 13%N in H; lia|].
  split; [reflexivity|exact G].
Qed.

Lemma float_clean f : (forall c, In c (show_float f) -> (33 <= c < 128)%N /\ c <> DQ /\ c <> COMMA) -> clean (show_float f).
Proof. intros H. apply Forall_forall. intros c Hc. exact (H c Hc). Qed.

Lemma keep_facts T x : keep T x -> let t := text T (Some x) in existsb newline t = has_break (Some x) /\ meaning nulls (W t) = Some t.
Proof.
  intros K. cbv zeta.
  assert (NB : forall t, ~ In LF t -> ~ In CR t -> existsb newline t = false).
  { intros t A B. destruct (existsb newline t) eqn:E; [|reflexivity]. exfalso. apply existsb_exists in E. destruct E as (c & Hc & N).
    unfold newline in N. apply orb_true_iff in N. rewrite !N.eqb_eq in N. destruct N as [-> | ->]; contradiction. }
  assert (O : storable pad T x -> existsb newline (text T (Some x)) = false /\ meaning nulls (W (text T (Some x))) = Some (text T (Some x))).
  { intros P. destruct (storable_text ff show_float pad no_date no_stamp T x P) as (C & _).
    pose proof (not_na_not_null _ (again_not_na ff show_float pad no_date no_stamp T x P)) as N. destruct (clean_facts _ C N) as (A & B & D & _). auto. }
  assert (Ty : storable pad T x -> has_break (Some x) = false).
  { destruct T; cbn [storable]; intros P; try contradiction; destruct P as (y & P); try (destruct P as (-> & _)); try subst x; reflexivity. }
  destruct T; cbn [keepable] in K; try (rewrite (Ty K); exact (O K)).
  - destruct K as (f & -> & E & C & I). cbn [value_text]. apply float_clean in C.
    assert (N : denotes_null nulls (show_float f) = false) by (apply not_na_not_null; destruct I as [<-|[<-|[<-|[]]]]; discriminate).
    destruct (clean_facts _ C N) as (A & B & D & _). cbn [has_break]. auto.
  - destruct K as (s & -> & N). cbn [value_text has_break]. split; [reflexivity|]. unfold written_name.
    destruct (existsb _ s); cbn [meaning]; [reflexivity|rewrite N; reflexivity].
Qed.

(** Every cell, null or not. *)
Lemma cell_break T (c : option (@value F)) : (forall x, c = Some x -> keep T x) -> existsb newline (text T c) = has_break c.
Proof. intros H. destruct c as [x|]; [exact (proj1 (keep_facts T x (H x eq_refl)))|reflexivity]. Qed.
Lemma cell_meaning T (c : option (@value F)) : (forall x, c = Some x -> keep T x) ->
  meaning nulls (W (text T c)) = match c with Some _ => Some (text T c) | None => None end.
Proof. intros H. destruct c as [x|]; [exact (proj2 (keep_facts T x (H x eq_refl)))|reflexivity]. Qed.

Lemma broken_name t : broken (W t) = existsb newline t.
Proof.
  unfold written_name. destruct (existsb (fun c => N.eqb c COMMA || N.eqb c DQ || N.eqb c LF || N.eqb c CR) t) eqn:E; cbn [broken]; [reflexivity|].
  destruct (existsb newline t) eqn:N; [|reflexivity]. apply existsb_exists in N. destruct N as (c & Hc & N).
  assert (X : existsb (fun c => N.eqb c COMMA || N.eqb c DQ || N.eqb c LF || N.eqb c CR) t = true).
  { apply existsb_exists. exists c. split; [exact Hc|]. unfold newline in N. apply orb_true_iff in N. destruct N as [-> | ->]; rewrite ?orb_true_r; reflexivity. }
  congruence.
Qed.

(** The k-th cell that is seen of a row. *)
Lemma seen_nth : forall (cells : list bytes) k, k < length cells ->
  nth_error (map column_name (seen (map W cells))) k =
  if forallb (fun t => negb (existsb newline t)) (firstn k cells) then Some (glimpse (nth k cells [])) else None.
Proof.
  induction cells as [|t cells IH]; intros k Hk; [cbn in Hk; lia|].
  assert (One : existsb newline t = true -> seen (map W (t :: cells)) = seen [W t]).
  { intros B. rewrite <- broken_name in B. cbn [map seen]. destruct (W t) as [v|v]; [|discriminate B]. cbn [broken] in B. rewrite B. reflexivity. }
  assert (Two : existsb newline t = false -> seen (map W (t :: cells)) = W t :: seen (map W cells) /\ seen [W t] = [W t]).
  { intros B. rewrite <- broken_name in B. cbn [map seen]. destruct (W t) as [v|v]; [|auto]. cbn [broken] in B. rewrite B. auto. }
  assert (G : forall c r, seen [W t] = c :: r -> glimpse t = column_name c) by (intros c r E; unfold glimpse; rewrite E; reflexivity).
  destruct (existsb newline t) eqn:B.
  - rewrite One by reflexivity. clear One Two. rewrite <- broken_name in B. destruct (W t) as [v|v] eqn:EW; [|discriminate B]. cbn [broken] in B. cbn [seen] in *. rewrite B in *.
    destruct k as [|k]; cbn [map nth_error firstn forallb nth].
    + rewrite (G _ _ eq_refl). reflexivity.
    + rewrite <- broken_name, EW. cbn [broken]. rewrite B. cbn [negb andb]. destruct k; reflexivity.
  - destruct (Two eq_refl) as (-> & E). destruct k as [|k]; cbn [map nth_error firstn forallb nth].
    + rewrite (G _ _ E). reflexivity.
    + rewrite B. cbn [negb andb]. cbn [length] in Hk. apply IH. lia.
Qed.

Lemma cells_of_filter {A B} k (g : B -> list A) (p : B -> bool) (h : B -> A) (l : list B) :
  (forall i, In i l -> nth_error (g i) k = if p i then Some (h i) else None) ->
  cells_of k (map g l) = map h (filter p l).
Proof.
  unfold cells_of. induction l as [|i l IH]; intros H; [reflexivity|]. cbn [map flat_map filter]. rewrite (H i (or_introl eq_refl)).
  rewrite IH by (intros j Hj; apply H; right; exact Hj). destruct (p i); reflexivity.
Qed.

Variable lanes : nat.
Hypothesis Hl : lanes <= 64.

Lemma column_kept T (column sampled : list (option (@value F))) :
  (forall x, In (Some x) column -> keep T x) -> (forall c, In c sampled -> In c column) -> seen_enough ff show_float T column sampled ->
  let T' := column_type ff default_options (map (fun c => glimpse (text T c)) sampled) in
  type_again T T' /\
  forall x, In (Some x) column -> append_value ff lanes T' (text T (Some x)) = Some (after_reading again T x).
Proof.
  intros K Sub SE. cbv zeta.
  assert (O : (forall x, In (Some x) column -> storable pad T x) -> well_seen T column sampled ->
     (forall x, after_reading again T x = after_printing T x \/ T = FLOAT64) -> T <> FLOAT64 ->
     let T' := column_type ff default_options (map (fun c => glimpse (text T c)) sampled) in
     type_again T T' /\ forall x, In (Some x) column -> append_value ff lanes T' (text T (Some x)) = Some (after_reading again T x)).
  { intros St WS AR NF.
    pose proof (column_again_seen ff show_float pad no_date no_stamp lanes Hl T column sampled St Sub WS) as (A & B).
    assert (E : map (fun c => glimpse (text T c)) sampled = map (text T) sampled).
    { apply map_ext_in. intros c Hc. destruct c as [x|]; [|reflexivity]. pose proof (St x (Sub _ Hc)) as P.
      destruct (storable_text ff show_float pad no_date no_stamp T x P) as (C & _).
      exact (proj2 (proj2 (proj2 (clean_facts _ C (not_na_not_null _ (again_not_na ff show_float pad no_date no_stamp T x P)))))). }
    cbv zeta. rewrite E. split; [exact A|]. intros x Hx. rewrite (B x Hx). destruct (AR x) as [-> | X]; [reflexivity|contradiction]. }
  set (T' := column_type _ _ _).
  destruct T; cbn [keepable seen_enough] in *; try (apply O; [exact K|exact SE|intros x; left; reflexivity|discriminate]); cbn [type_again].
  - (* floats *)
    destruct SE as (f0 & H0 & I0).
    assert (Sx : forall f, In (Some (VFloat f)) column -> glimpse (show_float f) = show_float f /\ In (infer_field ff default_options (show_float f)) [INT32; INT64; FLOAT64] /\ ff (show_float f) = Some (again f)).
    { intros f Hf. destruct (K _ Hf) as (f' & E & Rd & C & I). injection E as <-. apply float_clean in C.
      assert (N : denotes_null nulls (show_float f) = false) by (apply not_na_not_null; destruct I as [<-|[<-|[<-|[]]]]; discriminate).
      split; [exact (proj2 (proj2 (proj2 (clean_facts _ C N))))|]. split; assumption. }
    assert (N : narrowest (map (infer_field ff default_options) (map (fun c => glimpse (text FLOAT64 c)) sampled)) T').
    { apply (column_type_narrowest ff default_options). destruct sampled; [contradiction|discriminate]. }
    destruct N as (NL & NU).
    assert (TE : T' = FLOAT64).
    { apply belowb_antisym; apply below_iff.
      - apply NU; [discriminate|]. intros a Ha. rewrite map_map in Ha. apply in_map_iff in Ha. destruct Ha as (c & <- & Hc). apply below_iff.
        destruct c as [x|]; [|reflexivity]. pose proof (Sub _ Hc) as Hc'. destruct (K _ Hc') as (f & -> & _). cbn [value_text].
        destruct (Sx f Hc') as (-> & I & _). destruct I as [<-|[<-|[<-|[]]]]; reflexivity.
      - rewrite <- I0. apply NL. rewrite map_map. apply in_map_iff. exists (Some (VFloat f0)). split; [|exact H0]. cbn [value_text].
        destruct (Sx f0 (Sub _ H0)) as (-> & _). reflexivity. }
    split; [exact TE|]. intros x Hx. rewrite TE. destruct (K _ Hx) as (f & -> & Rd & _). cbn [value_text append_value after_reading]. rewrite Rd. reflexivity.
  - (* texts *)
    destruct SE as (s0 & H0 & I0).
    assert (N : narrowest (map (infer_field ff default_options) (map (fun c => glimpse (text STRING c)) sampled)) T').
    { apply (column_type_narrowest ff default_options). destruct sampled; [contradiction|discriminate]. }
    destruct N as (NL & NU).
    assert (TE : T' = STRING).
    { assert (B : below STRING T').
      { rewrite <- I0. apply NL. rewrite map_map. apply in_map_iff. exists (Some (VString s0)). split; [reflexivity|exact H0]. }
      apply below_iff in B. destruct T'; try discriminate B. reflexivity. }
    split; [exact TE|]. intros x Hx. rewrite TE. destruct (K _ Hx) as (s & -> & _). reflexivity.
Qed.

Hypothesis L1 : 1 <= lanes.
Hypothesis L2 : Nat.divide lanes 64.

Lemma sample_sub (columns : list (list (option (@value F)))) k c : In c (in_sample columns k) -> In c (nth k columns []).
Proof.
  unfold in_sample. intros H. apply in_map_iff in H. destruct H as (i & <- & Hi). apply filter_In in Hi. destruct Hi as (Hi & _).
  assert (Hi2 : In i (seq 1 (length (nth k columns []) - 1))) by (rewrite <- (firstn_skipn 1000 (seq 1 _)); apply in_or_app; left; exact Hi).
  apply in_seq in Hi2. apply nth_In. lia.
Qed.

Lemma table_kept clmul nt ne (names : list bytes) (types : list data_type) (columns : list (list (option (@value F)))) nrows :
  names <> [] -> length names = length types ->
  (forall k, k < length types ->
     length (nth k columns []) = nrows /\ (forall x, In (Some x) (nth k columns []) -> keep (nth k types STRING) x) /\
     seen_enough ff show_float (nth k types STRING) (nth k columns []) (in_sample columns k)) ->
  (length types = 1 -> ~ In None (nth 0 columns [])) ->
  let rows := text_table text STRING types columns nrows in
  (forall row, In row rows -> spread COMMA DQ (map W row)) ->
  (forall row t, In row rows -> In t row -> existsb newline t = false) \/ (N.of_nat (length (concat (map (output_row COMMA DQ) rows))) < 1048576)%N ->
  exists types' r,
    read_file ff lanes clmul nt ne default_options (concat (map (output_row COMMA DQ) (names :: rows)))
      = Some (map column_name (map W names), types', r) /\
    length types' = length types /\ total_rows r = nrows /\
    (forall k, k < length types -> type_again (nth k types STRING) (nth k types' STRING)) /\
    concat_columns (length types) (chunks r) =
      map (fun k => map (option_map (after_reading again (nth k types STRING))) (nth k columns [])) (seq 0 (length types)).
Proof.
  intros NE LN HC H1 rows Sp Br.
  set (ls := map (fun r : list bytes => (map W r, [EndLF])) rows : list line).
  set (n := length types) in *.
  assert (Hn : 0 < n) by (rewrite <- LN; destruct names; [congruence|cbn; lia]).
  assert (Cell : forall i k, k < n -> forall x, nth i (nth k columns []) None = Some x -> keep (nth k types STRING) x).
  { intros i k Hk x E. apply (proj1 (proj2 (HC k Hk))). rewrite <- E. apply nth_In.
    destruct (Nat.lt_ge_cases i (length (nth k columns []))); [assumption|]. rewrite nth_overflow in E by assumption. discriminate. }
  assert (Rows : forall r, In r rows -> exists i, i < nrows /\ r = map (fun k => text (nth k types STRING) (nth i (nth k columns []) None)) (seq 0 n)).
  { intros r Hr. unfold rows, text_table in Hr. apply in_map_iff in Hr. destruct Hr as (i & <- & Hi). apply in_seq in Hi. exists i. split; [lia|reflexivity]. }
  assert (RL : forall r, In r rows -> length r = n).
  { intros r Hr. destruct (Rows r Hr) as (i & _ & ->). rewrite map_length, seq_length. reflexivity. }
  assert (LsRows : map fst ls = map (map W) rows) by (unfold ls; rewrite map_map; reflexivity).
  assert (Out : concat (map (output_row COMMA DQ) (names :: rows)) = line_text COMMA DQ (map W names, [EndLF]) ++ csv_text COMMA DQ ls).
  { cbn [map concat]. rewrite header_written. f_equal. unfold csv_text, ls. rewrite map_map. f_equal. apply map_ext. intros r. apply header_written. }
  assert (Proper : proper COMMA DQ ls).
  { assert (PL : forall l, In l ls -> proper_line COMMA DQ l /\ snd l <> []).
    { intros l Hl'. unfold ls in Hl'. apply in_map_iff in Hl'. destruct Hl' as (r & <- & Hr). split; [|discriminate]. cbn [fst snd]. split; [|split].
      - cbn [fst]. pose proof (RL r Hr). destruct r; [cbn in *; lia|discriminate].
      - cbn [fst]. intros X. destruct (Rows r Hr) as (i & Hi & Er). assert (N1 : n = 1).
        { rewrite <- (RL r Hr). destruct r as [|a [|b r]]; try discriminate X. reflexivity. }
        rewrite N1 in Er. cbn [seq map] in Er. subst r. cbn [map] in X. injection X as X.
        apply (H1 N1). pose proof (cell_meaning (nth 0 types STRING) (nth i (nth 0 columns []) None) (Cell i 0 ltac:(lia))) as Z.
        rewrite X in Z. cbn [meaning denotes_null] in Z. destruct (nth i (nth 0 columns []) None) as [x|] eqn:E; [discriminate Z|].
        rewrite <- E. apply nth_In. rewrite (proj1 (HC 0 Hn)). exact Hi.
      - cbn [fst]. apply Forall_forall. intros c Hc. apply in_map_iff in Hc. destruct Hc as (t & <- & Ht). apply name_well. }
    clear - PL. induction ls as [|l ls IH]; [exact I|]. cbn [proper]. split; [exact (proj1 (PL l (or_introl eq_refl)))|].
    split; [intros _; exact (proj2 (PL l (or_introl eq_refl)))|]. apply IH. intros l' H. apply PL. right. exact H. }
  assert (Spread : Forall (fun l => spread COMMA DQ (fst l)) ls).
  { apply Forall_forall. intros l Hl'. unfold ls in Hl'. apply in_map_iff in Hl'. destruct Hl' as (r & <- & Hr). cbn [fst]. exact (Sp r Hr). }
  assert (Body : concat (map (output_row COMMA DQ) rows) = csv_text COMMA DQ ls).
  { unfold csv_text, ls. rewrite map_map. f_equal. apply map_ext. intros r. apply header_written. }
  assert (Unb : Forall (fun l => unbroken (fst l)) ls \/ (N.of_nat (length (csv_text COMMA DQ ls)) < 1048576)%N).
  { destruct Br as [Br|Br]; [left|right; rewrite <- Body; exact Br].
    apply Forall_forall. intros l Hl'. unfold ls in Hl'. apply in_map_iff in Hl'. destruct Hl' as (r & <- & Hr). cbn [fst].
    apply (unbroken_iff COMMA DQ).
    - apply Forall_forall. intros c Hc. apply in_map_iff in Hc. destruct Hc as (t & <- & Ht). apply name_well.
    - destruct (existsb broken (map W r)) eqn:X; [|reflexivity]. apply existsb_exists in X. destruct X as (c & Hc & X).
      apply in_map_iff in Hc. destruct Hc as (t & <- & Ht). rewrite broken_name, (Br r t Hr Ht) in X. discriminate X. }
  assert (One : one_ending ls).
  { assert (X : Forall (fun l => exists e, snd l = [e]) ls).
    { apply Forall_forall. intros l Hl'. unfold ls in Hl'. apply in_map_iff in Hl'. destruct Hl' as (r & <- & Hr). exists EndLF. reflexivity. }
    clear - X. induction X as [|l ls A X IH]; [exact I|]. cbn [one_ending]. destruct ls; [left; exact A|]. split; [exact A|exact IH]. }
  assert (HW : Forall (well_written COMMA DQ) (map W names)).
  { apply Forall_forall. intros c Hc. apply in_map_iff in Hc. destruct Hc as (m & <- & _). apply name_well. }
  destruct (file_reads ff lanes clmul nt ne default_options (map W names) EndLF ls L1 L2 eq_refl) as (types' & r & R1 & R2 & R3 & R4 & R5);
    try exact Proper; try exact Spread; try exact HW; try discriminate; try exact Unb.
  { vm_compute. intuition discriminate. }
  { destruct names; [congruence|discriminate]. }
  cbn [separator quote default_options] in R1, R3, R5. change (separator default_options) with COMMA in *. change (quote default_options) with DQ in *.
  rewrite map_length in R2, R3, R5. rewrite LN in R2, R3, R5. fold n in R2, R3, R5.
  exists types', r. unfold n. rewrite Out. split; [exact R1|]. split; [exact R2|].
  assert (NR : length rows = nrows) by (unfold rows, text_table; rewrite map_length, seq_length; reflexivity).
  split. { rewrite R4. unfold ls. rewrite map_length. exact NR. }
  assert (Col : forall k, k < n -> map (fun row => nth k row []) rows = map (text (nth k types STRING)) (nth k columns [])).
  { intros k Hk. unfold rows, text_table. rewrite map_map. rewrite <- (map_nth_seq (nth k columns []) None). rewrite (proj1 (HC k Hk)), map_map. fold n.
    apply map_ext. intros i. rewrite (nth_indep _ [] (text (nth 0 types STRING) (nth i (nth 0 columns []) None))) by (rewrite map_length, seq_length; exact Hk).
    rewrite (map_nth (fun k0 => text (nth k0 types STRING) (nth i (nth k0 columns []) None))). rewrite seq_nth by exact Hk. reflexivity. }
  assert (Ty : forall k, k < n -> nth k types' STRING = column_type ff default_options (map (fun c => glimpse (text (nth k types STRING) c)) (in_sample columns k))).
  { intros k Hk. rewrite infer_types in R3; try assumption; try discriminate; [| |lia].
    - injection R3 as <-. rewrite (nth_indep _ STRING (column_type ff default_options (cells_of 0 (sample default_options (header_lines default_options) (sample_rows default_options) (csv_text COMMA DQ ls)))))
        by (rewrite map_length, seq_length; exact Hk).
      rewrite (map_nth (fun k0 => column_type ff default_options (cells_of k0 (sample default_options (header_lines default_options) (sample_rows default_options) (csv_text COMMA DQ ls))))).
      rewrite seq_nth by exact Hk. cbn [Nat.add]. f_equal.
      pose proof (sample_seen default_options (header_lines default_options) (sample_rows default_options) ls) as SW. cbv zeta in SW.
      change (separator default_options) with COMMA in SW. change (quote default_options) with DQ in SW.
      rewrite SW by (assumption || discriminate). clear SW. rewrite LsRows.
      change (header_lines default_options) with 1. change (sample_rows default_options) with 1000.
      rewrite skipn_map, firstn_map, map_map. unfold in_sample. rewrite (proj1 (HC k Hk)), map_map.
      assert (RS : firstn 1000 (skipn 1 rows) = map (fun i => map (fun k => text (nth k types STRING) (nth i (nth k columns []) None)) (seq 0 n)) (firstn 1000 (seq 1 (nrows - 1)))).
      { unfold rows, text_table. fold n. rewrite skipn_map, firstn_map. f_equal. f_equal. destruct nrows as [|m]; [reflexivity|]. cbn [seq skipn]. rewrite Nat.sub_succ, Nat.sub_0_r. reflexivity. }
      rewrite RS, map_map. apply cells_of_filter. intros i _.
      assert (NthR : forall j, j < n -> nth j (map (fun k => text (nth k types STRING) (nth i (nth k columns []) None)) (seq 0 n)) [] = text (nth j types STRING) (nth i (nth j columns []) None)).
      { intros j Hj. rewrite (nth_indep _ [] (text (nth 0 types STRING) (nth i (nth 0 columns []) None))) by (rewrite map_length, seq_length; exact Hj).
        rewrite (map_nth (fun k0 => text (nth k0 types STRING) (nth i (nth k0 columns []) None))). rewrite seq_nth by exact Hj. reflexivity. }
      rewrite seen_nth by (rewrite map_length, seq_length; exact Hk). rewrite NthR by exact Hk.
      assert (FB : forallb (fun t => negb (existsb newline t)) (firstn k (map (fun k => text (nth k types STRING) (nth i (nth k columns []) None)) (seq 0 n))) =
                   forallb (fun j => negb (has_break (nth i (nth j columns []) None))) (seq 0 k)).
      { rewrite firstn_map. replace (firstn k (seq 0 n)) with (seq 0 k).
        - assert (Lt : forall j, In j (seq 0 k) -> j < n) by (intros j Hj; apply in_seq in Hj; lia). clear - Cell Lt no_date no_stamp.
          induction (seq 0 k) as [|j l IH]; [reflexivity|]. cbn [map forallb]. rewrite IH by (intros j' Hj'; apply Lt; right; exact Hj').
          f_equal. f_equal. apply cell_break. apply Cell. apply Lt. left. reflexivity.
        - replace n with (k + (n - k)) by lia. rewrite seq_app, firstn_app, seq_length, Nat.sub_diag. cbn [firstn]. rewrite app_nil_r, firstn_all2 by (rewrite seq_length; lia). reflexivity. }
      rewrite FB. reflexivity.
    - intros X. assert (NS : in_sample columns 0 <> []).
      { destruct (HC 0 Hn) as (_ & _ & SE). intros Z. unfold seen_enough, well_seen in SE. rewrite Z in SE.
        destruct (nth 0 types STRING); try (destruct SE as ((x & []) & _)); destruct SE as (x & [] & _). }
      assert (LL : length ls = nrows) by (unfold ls; rewrite map_length; exact NR).
      pose proof (proj1 (HC 0 Hn)) as Len.
      clearbody ls. destruct ls as [|(cells, es) ls'].
      + cbn [length] in LL. rewrite <- LL in Len. apply NS. unfold in_sample. rewrite Len. reflexivity.
      + destruct (text_nonempty COMMA DQ ltac:(discriminate) ltac:(discriminate) ltac:(discriminate) ltac:(discriminate) cells es (proj1 Proper) (csv_text COMMA DQ ls')) as (c & r0 & Y).
        unfold csv_text in X. cbn [map concat] in X. fold (csv_text COMMA DQ ls') in X. rewrite Y in X. discriminate X. }
  split.
  { intros k Hk. rewrite (Ty k Hk). destruct (HC k Hk) as (_ & St & WS).
    exact (proj1 (column_kept (nth k types STRING) (nth k columns []) (in_sample columns k) St (sample_sub columns k) WS)). }
  fold n. rewrite R5, LsRows. unfold columns_meant. apply map_ext_in. intros k Hk. apply in_seq in Hk. assert (Hk' : k < n) by lia.
  destruct (HC k Hk') as (Len & St & WS).
  destruct (column_kept (nth k types STRING) (nth k columns []) (in_sample columns k) St (sample_sub columns k) WS) as (_ & Again).
  cbv zeta in Again. rewrite <- (Ty k Hk') in Again.
  rewrite map_map. unfold rows, text_table. fold n. rewrite map_map. rewrite <- (map_nth_seq (nth k columns []) None). rewrite Len, map_map.
  apply map_ext_in. intros i Hi. apply in_seq in Hi. unfold cell_value. rewrite !map_map, nth_error_map.
  rewrite (nth_error_nth' (seq 0 n) 0) by (rewrite seq_length; exact Hk'). rewrite seq_nth by exact Hk'. cbn [option_map Nat.add].
  rewrite (cell_meaning (nth k types STRING) (nth i (nth k columns []) None) (Cell i k Hk')).
  destruct (nth i (nth k columns []) None) as [x|] eqn:E; [|reflexivity]. cbn [option_map]. apply Again.
  rewrite <- E. apply nth_In. rewrite Len. lia.
Qed.
End Table.

(** Rows of which the quoted cells come first. *)
Lemma quoted_then_plain row : (exists quoted plain, map (written_name COMMA DQ) row = map Quoted quoted ++ map Plain plain) ->
  spread COMMA DQ (map (written_name COMMA DQ) row).
Proof. intros (a & b & E). rewrite E. apply quoted_first_spread. Qed.
