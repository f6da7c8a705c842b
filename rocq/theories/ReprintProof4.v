From Verif Require Import Base NumSpec NumModel NumProof NumProps DateSpec DateModel DateProof DateProof2 StampSpec FieldsSpec FieldsModel WordsModel ChunkSpec ChunkModel ReaderSpec ReaderModel TypesSpec TypesModel TypesProof TypesProof3
  CliSpec CliModel CliProof CliProof2 KeepSpec KeepProof RoundSpec RoundProof RoundProof2 RoundProof3 RoundProof4 RoundProof5 ReprintSpec ReprintProof ReprintProof2 ReprintProof3.

(** ** The printed text as written cells *)
Lemma output_fields_join d q : forall row, output_fields d q true row = join d (map (output_field d q) row).
Proof.
  assert (T : forall row, output_fields d q false row = match row with [] => [] | _ => d :: join d (map (output_field d q) row) end).
  { induction row as [|f r IH]; [reflexivity|]. cbn [output_fields map]. rewrite IH. destruct r; cbn [map join]; [rewrite app_nil_r|]; reflexivity. }
  intros [|f r]; [reflexivity|]. cbn [output_fields map app]. rewrite T. destruct r; cbn [map join]; [rewrite app_nil_r|]; reflexivity.
Qed.
Lemma quote_test d q n : needs_quote d q n = existsb (fun c => N.eqb c d || N.eqb c q || N.eqb c LF || N.eqb c CR) n.
Proof.
  unfold needs_quote. induction n as [|c n IH]; [reflexivity|]. cbn [existsb]. rewrite <- IH.
  rewrite (N.eqb_sym d c), (N.eqb_sym q c), (N.eqb_sym LF c), (N.eqb_sym CR c).
  destruct (N.eqb c d), (N.eqb c q), (N.eqb c LF), (N.eqb c CR), (existsb (N.eqb d) n), (existsb (N.eqb q) n), (existsb (N.eqb LF) n), (existsb (N.eqb CR) n); reflexivity.
Qed.
Lemma name_written d q n : output_field d q n = cell_bytes q (written_name d q n).
Proof. rewrite output_field_eq, quote_test. unfold written_name. destruct (existsb _ n); reflexivity. Qed.
Lemma name_well d q n : well_written d q (written_name d q n).
Proof.
  unfold written_name. destruct (existsb _ n) eqn:E; [exact I|]. cbn [well_written]. apply Forall_forall. intros c Hc.
  assert (X : (N.eqb c d || N.eqb c q || N.eqb c LF || N.eqb c CR) = false).
  { destruct (N.eqb c d || N.eqb c q || N.eqb c LF || N.eqb c CR) eqn:Y; [|reflexivity]. rewrite <- E. symmetry. apply existsb_exists. exists c. split; assumption. }
  rewrite !orb_false_iff, !N.eqb_neq in X. tauto.
Qed.
Lemma header_written d q names : output_row d q names = line_text d q (map (written_name d q) names, [EndLF]).
Proof.
  unfold output_row, line_text, row_text. cbn [fst snd map concat end_bytes]. rewrite app_nil_r, output_fields_join, map_map. f_equal. f_equal.
  apply map_ext. intros n. apply name_written.
Qed.
Lemma clean_plain t : clean t -> written_name COMMA DQ t = Plain t.
Proof.
  intros H. unfold written_name. destruct (existsb _ t) eqn:E; [|reflexivity]. exfalso. apply existsb_exists in E. destruct E as (c & Hc & E).
  unfold clean in H. rewrite Forall_forall in H. specialize (H c Hc). rewrite !orb_true_iff, !N.eqb_eq in E.
  change COMMA with 44%N in E. change DQ with 34%N in E. change LF with 10%N in E. change CR with 13%N in E. lia.
Qed.
Lemma clean_trim t : clean t -> column_name (Plain t) = t.
Proof.
  intros H. assert (B : forall c, In c t -> blank c = false).
  { intros c Hc. unfold clean in H. rewrite Forall_forall in H. specialize (H c Hc). unfold blank. apply orb_false_iff. rewrite !N.eqb_neq. split; intros ->; destruct H as ((H & _) & _); apply H; reflexivity. }
  cbn [column_name].
  assert (L : forall l, (forall c, In c l -> blank c = false) -> trim_left blank l = l) by (intros [|c r] Hl; [reflexivity|]; cbn [trim_left]; rewrite (Hl c (or_introl eq_refl)); reflexivity).
  rewrite (L t B). unfold trim_right. rewrite L; [apply rev_involutive|]. intros c Hc. apply B. now apply in_rev.
Qed.

Section Table.
Context {F : Type}.
Variable ff : bytes -> option F.
Variable show_float : F -> bytes.
Variable pad : bool.
Variable lanes : nat.
Hypothesis L1 : 1 <= lanes.
Hypothesis L2 : Nat.divide lanes 64.
Hypothesis no_date : forall v n, date_value v n -> ff v = None.
Hypothesis no_stamp : forall v n, timestamp_value v n -> ff v = None.
Notation text := (value_text show_float pad).

Lemma lanes64 : lanes <= 64.
Proof. apply Nat.divide_pos_le; [lia|exact L2]. Qed.

Lemma cell_clean T (c : option (@value F)) : (forall x, c = Some x -> storable pad T x) -> clean (text T c).
Proof.
  intros H. destruct c as [x|]; [|constructor]. exact (proj1 (storable_text ff show_float pad no_date no_stamp T x (H x eq_refl))).
Qed.
Lemma cell_null T (c : option (@value F)) : (forall x, c = Some x -> storable pad T x) ->
  denotes_null (null_values default_options) (text T c) = match c with None => true | Some _ => false end.
Proof.
  intros H. destruct c as [x|]; [|reflexivity]. pose proof (again_not_na ff show_float pad no_date no_stamp T x (H x eq_refl)) as N.
  rewrite infer_na in N. destruct (denotes_null _ _); [exfalso; apply N; reflexivity|reflexivity].
Qed.

Lemma cells_of_full {A} k (rows : list (list A)) d n : (forall r, In r rows -> length r = n) -> k < n -> cells_of k rows = map (fun r => nth k r d) rows.
Proof.
  intros H Hk. unfold cells_of. induction rows as [|r rows IH]; [reflexivity|]. cbn [flat_map map].
  rewrite (nth_error_nth' r d) by (rewrite (H r (or_introl eq_refl)); exact Hk). cbn [app]. rewrite IH; [reflexivity|]. intros r' Hr. apply H. right. exact Hr.
Qed.

Lemma map_nth_seq {A} (l : list A) d : map (fun i => nth i l d) (seq 0 (length l)) = l.
Proof.
  induction l as [|x l IH]; [reflexivity|]. cbn [length seq map nth]. f_equal. rewrite <- seq_shift, map_map. exact IH.
Qed.

Lemma table_again clmul nt ne (names : list bytes) (types : list data_type) (columns : list (list (option (@value F)))) nrows :
  names <> [] -> length names = length types ->
  (forall k, k < length types ->
     length (nth k columns []) = nrows /\ (forall x, In (Some x) (nth k columns []) -> storable pad (nth k types STRING) x) /\
     well_sampled (nth k types STRING) (nth k columns [])) ->
  (length types = 1 -> ~ In None (nth 0 columns [])) ->
  exists types' r,
    read_file ff lanes clmul nt ne default_options
      (concat (map (output_row COMMA DQ) (names :: text_table text STRING types columns nrows)))
      = Some (map column_name (map (written_name COMMA DQ) names), types', r) /\
    length types' = length types /\ total_rows r = nrows /\
    (forall k, k < length types -> type_again (nth k types STRING) (nth k types' STRING)) /\
    concat_columns (length types) (chunks r) =
      map (fun k => map (option_map (after_printing (nth k types STRING))) (nth k columns [])) (seq 0 (length types)).
Proof.
  intros NE LN HC H1. set (rows := text_table text STRING types columns nrows).
  set (ls := map (fun r : list bytes => (map Plain r, [EndLF])) rows : list line).
  set (n := length types) in *.
  assert (Hn : 0 < n) by (rewrite <- LN; destruct names; [congruence|cbn; lia]).
  assert (Cell : forall i k, k < n -> forall x, nth i (nth k columns []) None = Some x -> storable pad (nth k types STRING) x).
  { intros i k Hk x E. apply (proj1 (proj2 (HC k Hk))). rewrite <- E. apply nth_In.
    destruct (Nat.lt_ge_cases i (length (nth k columns []))); [assumption|]. rewrite nth_overflow in E by assumption. discriminate. }
  assert (Rows : forall r, In r rows -> exists i, i < nrows /\ r = map (fun k => text (nth k types STRING) (nth i (nth k columns []) None)) (seq 0 n)).
  { intros r Hr. unfold rows, text_table in Hr. apply in_map_iff in Hr. destruct Hr as (i & <- & Hi). apply in_seq in Hi. exists i. split; [lia|reflexivity]. }
  assert (RL : forall r, In r rows -> length r = n).
  { intros r Hr. destruct (Rows r Hr) as (i & _ & ->). rewrite map_length, seq_length. reflexivity. }
  assert (RC : forall r, In r rows -> Forall clean r).
  { intros r Hr. destruct (Rows r Hr) as (i & _ & ->). apply Forall_forall. intros t Ht. apply in_map_iff in Ht. destruct Ht as (k & <- & Hk). apply in_seq in Hk.
    apply cell_clean. apply Cell. lia. }
  assert (LsRows : map fst ls = map (map Plain) rows) by (unfold ls; rewrite map_map; reflexivity).
  assert (Out : concat (map (output_row COMMA DQ) (names :: rows)) = line_text COMMA DQ (map (written_name COMMA DQ) names, [EndLF]) ++ csv_text COMMA DQ ls).
  { cbn [map concat]. rewrite header_written. f_equal. unfold csv_text, ls. rewrite map_map. f_equal. apply map_ext_in. intros r Hr.
    rewrite header_written. f_equal. f_equal. apply map_ext_in. intros t Ht. apply clean_plain. specialize (RC r Hr). rewrite Forall_forall in RC. apply RC. exact Ht. }
  assert (Proper : proper COMMA DQ ls).
  { assert (PL : forall l, In l ls -> proper_line COMMA DQ l /\ snd l <> []).
    { intros l Hl. unfold ls in Hl. apply in_map_iff in Hl. destruct Hl as (r & <- & Hr). split; [|discriminate]. cbn [fst snd]. split; [|split].
      - cbn [fst]. pose proof (RL r Hr). destruct r; [cbn in *; lia|discriminate].
      - cbn [fst]. intros X. destruct (Rows r Hr) as (i & Hi & Er). assert (N1 : n = 1).
        { rewrite <- (RL r Hr). destruct r as [|a [|b r]]; try discriminate X. reflexivity. }
        rewrite N1 in Er. cbn [seq map] in Er. subst r. cbn [map] in X. injection X as X.
        apply (H1 N1). pose proof (cell_null (nth 0 types STRING) (nth i (nth 0 columns []) None) (Cell i 0 ltac:(lia))) as Z.
        rewrite X in Z. cbn [denotes_null] in Z. destruct (nth i (nth 0 columns []) None) as [x|] eqn:E; [discriminate Z|].
        rewrite <- E. apply nth_In. rewrite (proj1 (HC 0 Hn)). exact Hi.
      - cbn [fst]. apply Forall_forall. intros c Hc. apply in_map_iff in Hc. destruct Hc as (t & <- & Ht). specialize (RC r Hr). rewrite Forall_forall in RC.
        specialize (RC t Ht). cbn [well_written]. unfold clean in RC. eapply Forall_impl; [|exact RC]. cbn. intros c Hc.
        change COMMA with 44%N. change DQ with 34%N. change LF with 10%N. change CR with 13%N. lia. }
    clear - PL. induction ls as [|l ls IH]; [exact I|]. cbn [proper]. split; [exact (proj1 (PL l (or_introl eq_refl)))|].
    split; [intros _; exact (proj2 (PL l (or_introl eq_refl)))|]. apply IH. intros l' H. apply PL. right. exact H. }
  assert (Spread : Forall (fun l => spread COMMA DQ (fst l)) ls).
  { apply Forall_forall. intros l Hl. unfold ls in Hl. apply in_map_iff in Hl. destruct Hl as (r & <- & Hr). cbn [fst]. apply tame_spread.
    apply Forall_forall. intros c Hc. apply in_map_iff in Hc. destruct Hc as (t & <- & _). exact I. }
  assert (Unb : Forall (fun l => unbroken (fst l)) ls).
  { apply Forall_forall. intros l Hl. unfold ls in Hl. apply in_map_iff in Hl. destruct Hl as (r & <- & Hr). cbn [fst].
    apply Forall_forall. intros c Hc. apply in_map_iff in Hc. destruct Hc as (t & <- & Ht). specialize (RC r Hr). rewrite Forall_forall in RC. specialize (RC t Ht).
    unfold clean in RC. rewrite Forall_forall in RC. split; intros X; apply RC in X; [change LF with 10%N in X|change CR with 13%N in X]; lia. }
  assert (One : one_ending ls).
  { assert (X : Forall (fun l => exists e, snd l = [e]) ls).
    { apply Forall_forall. intros l Hl. unfold ls in Hl. apply in_map_iff in Hl. destruct Hl as (r & <- & Hr). exists EndLF. reflexivity. }
    clear - X. induction X as [|l ls A X IH]; [exact I|]. cbn [one_ending]. destruct ls; [left; exact A|]. split; [exact A|exact IH]. }
  assert (HW : Forall (well_written COMMA DQ) (map (written_name COMMA DQ) names)).
  { apply Forall_forall. intros c Hc. apply in_map_iff in Hc. destruct Hc as (m & <- & _). apply name_well. }
  destruct (file_reads ff lanes clmul nt ne default_options (map (written_name COMMA DQ) names) EndLF ls L1 L2 eq_refl) as (types' & r & R1 & R2 & R3 & R4 & R5);
    try exact Proper; try exact Spread; try exact HW; try discriminate; try (left; exact Unb).
  { vm_compute. intuition discriminate. }
  { destruct names; [congruence|discriminate]. }
  cbn [separator quote default_options] in R1, R3, R5. change (separator default_options) with COMMA in *. change (quote default_options) with DQ in *.
  rewrite map_length in R2, R3, R5. rewrite LN in R2, R3, R5. fold n in R2, R3, R5.
  exists types', r. unfold n. rewrite Out. split; [exact R1|]. split; [exact R2|].
  assert (NR : length rows = nrows) by (unfold rows, text_table; rewrite map_length, seq_length; reflexivity).
  split. { rewrite R4. unfold ls. rewrite map_length. exact NR. }
  (* the columns *)
  assert (Col : forall k, k < n -> map (fun row => nth k row []) rows = map (text (nth k types STRING)) (nth k columns [])).
  { intros k Hk. unfold rows, text_table. rewrite map_map. rewrite <- (map_nth_seq (nth k columns []) None). rewrite (proj1 (HC k Hk)), map_map. fold n.
    apply map_ext. intros i. rewrite (nth_indep _ [] (text (nth 0 types STRING) (nth i (nth 0 columns []) None))) by (rewrite map_length, seq_length; exact Hk).
    rewrite (map_nth (fun k0 => text (nth k0 types STRING) (nth i (nth k0 columns []) None))). rewrite seq_nth by exact Hk. reflexivity. }
  assert (Ty : forall k, k < n -> nth k types' STRING = column_type ff default_options (map (text (nth k types STRING)) (firstn 1000 (skipn 1 (nth k columns []))))).
  { intros k Hk. rewrite infer_types in R3; try assumption; try discriminate; [| |lia].
    - injection R3 as <-. rewrite (nth_indep _ STRING (column_type ff default_options (cells_of 0 (sample default_options (header_lines default_options) (sample_rows default_options) (csv_text COMMA DQ ls)))))
        by (rewrite map_length, seq_length; exact Hk).
      rewrite (map_nth (fun k0 => column_type ff default_options (cells_of k0 (sample default_options (header_lines default_options) (sample_rows default_options) (csv_text COMMA DQ ls))))).
      rewrite seq_nth by exact Hk. cbn [Nat.add]. f_equal.
      pose proof (sample_written default_options (header_lines default_options) (sample_rows default_options) ls) as SW. cbv zeta in SW.
      change (separator default_options) with COMMA in SW. change (quote default_options) with DQ in SW.
      rewrite SW by (assumption || discriminate). clear SW. rewrite LsRows.
      change (header_lines default_options) with 1. change (sample_rows default_options) with 1000.
      rewrite skipn_map, firstn_map, map_map.
      assert (Id : map (fun x => map column_name (map Plain x)) (firstn 1000 (skipn 1 rows)) = firstn 1000 (skipn 1 rows)).
      { rewrite <- (map_id (firstn 1000 (skipn 1 rows))) at 2. apply map_ext_in. intros x Hx. rewrite map_map. rewrite <- (map_id x) at 2. apply map_ext_in.
        intros t Ht. apply clean_trim.
        assert (Hx1 : In x rows).
        { rewrite <- (firstn_skipn 1 rows). apply in_or_app. right. rewrite <- (firstn_skipn 1000 (skipn 1 rows)). apply in_or_app. left. exact Hx. }
        specialize (RC x Hx1). rewrite Forall_forall in RC. apply RC. exact Ht. }
      rewrite Id. rewrite (cells_of_full k _ [] n).
      + rewrite <- firstn_map, <- skipn_map, (Col k Hk), skipn_map, firstn_map. reflexivity.
      + intros x Hx. apply RL. rewrite <- (firstn_skipn 1 rows). apply in_or_app. right. rewrite <- (firstn_skipn 1000 (skipn 1 rows)). apply in_or_app. left. exact Hx.
      + exact Hk.
    - intros X. destruct (HC 0 Hn) as (Len & _ & ((x & Hx) & _)). assert (LL : length ls = nrows) by (unfold ls; rewrite map_length; exact NR).
      clearbody ls. destruct ls as [|(cells, es) ls'].
      + cbn [length] in LL. assert (NR0 : nrows = 0) by (symmetry; exact LL).
        rewrite NR0 in Len. destruct (nth 0 columns []); [|discriminate Len]. destruct Hx.
      + destruct (text_nonempty COMMA DQ ltac:(discriminate) ltac:(discriminate) ltac:(discriminate) ltac:(discriminate) cells es (proj1 Proper) (csv_text COMMA DQ ls')) as (c & r0 & Y).
        unfold csv_text in X. cbn [map concat] in X. fold (csv_text COMMA DQ ls') in X. rewrite Y in X. discriminate X. }
  split.
  { intros k Hk. rewrite (Ty k Hk). destruct (HC k Hk) as (_ & St & WS).
    exact (proj1 (column_again ff show_float pad no_date no_stamp lanes lanes64 (nth k types STRING) (nth k columns []) St WS)). }
  fold n. rewrite R5, LsRows. unfold columns_meant. apply map_ext_in. intros k Hk. apply in_seq in Hk. assert (Hk' : k < n) by lia.
  destruct (HC k Hk') as (Len & St & WS).
  destruct (column_again ff show_float pad no_date no_stamp lanes lanes64 (nth k types STRING) (nth k columns []) St WS) as (_ & Again).
  rewrite <- (Ty k Hk') in Again.
  rewrite map_map. unfold rows, text_table. fold n. rewrite map_map. rewrite <- (map_nth_seq (nth k columns []) None) at 1. rewrite Len, map_map.
  apply map_ext_in. intros i Hi. apply in_seq in Hi. unfold cell_value. rewrite !map_map, nth_error_map.
  rewrite (nth_error_nth' (seq 0 n) 0) by (rewrite seq_length; exact Hk'). rewrite seq_nth by exact Hk'. cbn [option_map Nat.add meaning].
  rewrite (cell_null (nth k types STRING) (nth i (nth k columns []) None) (Cell i k Hk')).
  destruct (nth i (nth k columns []) None) as [x|] eqn:E; [|reflexivity]. cbn [option_map]. apply Again.
  rewrite <- E. apply nth_In. rewrite Len. lia.
Qed.
End Table.

Lemma first_rows_table {T V} (show : T -> option V -> bytes) (dt : T) types (columns : list (list (option V))) N n :
  firstn n (text_table show dt types columns N) = text_table show dt types (map (firstn n) columns) (Nat.min n N).
Proof.
  unfold text_table. rewrite firstn_map.
  assert (E : firstn n (seq 0 N) = seq 0 (Nat.min n N)).
  { destruct (Nat.le_gt_cases n N) as [L|L].
    - replace N with (n + (N - n)) by lia. rewrite seq_app, firstn_app, seq_length. rewrite firstn_all2 by (rewrite seq_length; lia).
      rewrite Nat.sub_diag. cbn [firstn]. rewrite app_nil_r. f_equal. lia.
    - rewrite firstn_all2 by (rewrite seq_length; lia). f_equal. lia. }
  rewrite E. apply map_ext_in. intros i Hi. apply in_seq in Hi. apply map_ext. intros k. f_equal.
  replace (nth k (map (firstn n) columns) []) with (firstn n (nth k columns [])).
  - assert (Hn : i < n) by lia. generalize (nth k columns []). clear - Hn. revert n Hn. induction i as [|i IH]; intros n Hn l; destruct n as [|n]; try lia; destruct l as [|x l]; try reflexivity.
    cbn [firstn nth]. apply IH. lia.
  - rewrite <- (map_nth (firstn n) columns [] k). f_equal. apply firstn_nil.
Qed.
