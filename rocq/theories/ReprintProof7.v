(** head of any table; head of its own output. *)
From Verif Require Import Base NumSpec DateSpec WordsModel ChunkSpec ChunkModel FieldsSpec FieldsModel ReaderSpec ReaderModel TypesSpec TypesModel
  KeepSpec RoundSpec CliSpec CliModel CliProof3 CliProof4 CliProof5 DeliverSpec DeliverProof DeliverProof2 ReprintSpec ReprintProof ReprintProof2 ReprintProof3 ReprintProof4 ReprintProof6.

Section Head.
Context {F : Type}.
Variable ff : bytes -> option F.
Variable show_float : F -> bytes.
Variable again : F -> F.
Variables (pad : bool) (lanes : nat) (clmul : bool) (nt : N) (ne : bool).
Hypothesis no_date : forall v n, date_value v n -> ff v = None.
Hypothesis no_stamp : forall v n, timestamp_value v n -> ff v = None.
Hypothesis L1 : 1 <= lanes.
Hypothesis L2 : Nat.divide lanes 64.
Notation text := (value_text show_float pad).
Notation W := (written_name COMMA DQ).

Lemma head_kept n c names types (t : @read_result (@value F)) :
  c <> [] -> read_file ff lanes clmul nt ne default_options c = Some (names, types, t) ->
  let column := fun k => firstn n (nth k (concat_columns (length names) (chunks t)) []) in
  let rows := text_table text STRING types (map column (seq 0 (length types))) (Nat.min n (total_rows t)) in
  (forall k, k < length types ->
     (forall x, In (Some x) (column k) -> keepable ff show_float again pad (nth k types STRING) x) /\
     seen_enough ff show_float (nth k types STRING) (column k) (in_sample (map column (seq 0 (length types))) k)) ->
  (length types = 1 -> ~ In None (column 0)) ->
  (forall row, In row rows -> spread COMMA DQ (map W row)) ->
  (forall row t, In row rows -> In t row -> existsb newline t = false) \/ (N.of_nat (length (concat (map (output_row COMMA DQ) rows))) < 1048576)%N ->
  exists types' r,
    head ff show_float pad lanes clmul nt ne default_options n (Stdin c) = Exit 0 (concat (map (output_row COMMA DQ) (names :: rows))) /\
    read_file ff lanes clmul nt ne default_options (concat (map (output_row COMMA DQ) (names :: rows))) = Some (map column_name (map W names), types', r) /\
    length names = length types /\ length types' = length types /\
    total_rows r = Nat.min n (total_rows t) /\
    (forall k, k < length types -> length (column k) = Nat.min n (total_rows t)) /\
    (forall k, k < length types -> type_again (nth k types STRING) (nth k types' STRING)) /\
    concat_columns (length types) (chunks r) =
      map (fun k => map (option_map (after_reading again (nth k types STRING))) (column k)) (seq 0 (length types)).
Proof.
  intros Hc E column rows HC HN Sp Br.
  destruct (head_spec ff show_float pad lanes clmul nt ne default_options L1 L2 ltac:(discriminate) ltac:(discriminate) n c Hc) as (names' & types' & t' & E' & LT & LN & EH).
  rewrite E in E'. injection E' as <- <- <-.
  destruct (file_delivered ff lanes clmul nt ne default_options L1 L2 ltac:(discriminate) ltac:(discriminate) c Hc ltac:(discriminate) ltac:(discriminate))
    as (names' & types' & t' & rs & E' & _ & _ & _ & TR & CC).
  rewrite E in E'. injection E' as <- <- <-. cbv zeta in TR, CC.
  set (R := rows_of_parts _ _ _) in *. clearbody R.
  change (has_header default_options) with true in EH. cbn [app] in EH. rewrite first_rows_table in EH.
  change (separator default_options) with COMMA in EH. change (quote default_options) with DQ in EH.
  assert (Col : forall k, nth k (map (firstn n) (concat_columns (length names) (chunks t))) [] = column k).
  { intros k. unfold column. rewrite <- (map_nth (firstn n) _ [] k). f_equal. symmetry. apply firstn_nil. }
  assert (Col' : forall k, k < length types -> nth k (map column (seq 0 (length types))) [] = column k).
  { intros k Hk. rewrite (nth_indep _ [] (column 0)) by (rewrite map_length, seq_length; exact Hk). rewrite (map_nth column), seq_nth by exact Hk. reflexivity. }
  assert (Rows : text_table text STRING types (map (firstn n) (concat_columns (length names) (chunks t))) (Nat.min n (total_rows t)) = rows).
  { unfold rows, text_table. apply map_ext. intros i. apply map_ext_in. intros k Hk. apply in_seq in Hk. rewrite Col, Col' by lia. reflexivity. }
  rewrite Rows in EH.
  assert (Len : forall k, k < length types -> length (column k) = Nat.min n (total_rows t)).
  { intros k Hk. unfold column. rewrite firstn_length. f_equal. rewrite CC, TR. unfold columns_of.
    rewrite (nth_indep _ [] ((fun k0 => map (fun row => row_cell (conv_of ff lanes types) (null_values default_options) (quote default_options) row k0) R) 0))
      by (rewrite map_length, seq_length; lia).
    rewrite (map_nth (fun k0 => map (fun row => row_cell (conv_of ff lanes types) (null_values default_options) (quote default_options) row k0) R)).
    apply map_length. }
  assert (H64 : lanes <= 64) by (apply Nat.divide_pos_le; [lia|exact L2]).
  destruct (table_kept ff show_float again pad no_date no_stamp lanes H64 L1 L2 clmul nt ne names types (map column (seq 0 (length types))) (Nat.min n (total_rows t)))
    as (types' & r & A1 & A2 & A3 & A4 & A5).
  - intros ->. cbn in LN. lia.
  - symmetry. exact LT.
  - intros k Hk. rewrite Col' by exact Hk. destruct (HC k Hk) as (B1 & B2). split; [exact (Len k Hk)|]. split; assumption.
  - intros L. rewrite Col' by lia. exact (HN L).
  - exact Sp.
  - exact Br.
  - exists types', r. fold rows in A1. split; [exact EH|]. split; [exact A1|]. split; [symmetry; exact LT|]. split; [exact A2|]. split; [exact A3|]. split; [exact Len|]. split; [exact A4|].
    rewrite A5. apply map_ext_in. intros k Hk. apply in_seq in Hk. rewrite Col' by lia. reflexivity.
Qed.

Hypothesis show_again : forall f, show_float (again f) = show_float f.

Lemma text_same T T' x : keepable ff show_float again pad T x -> type_again T T' -> text T' (Some (after_reading again T x)) = text T (Some x).
Proof.
  destruct T; cbn [keepable storable type_again]; intros K E; try contradiction; try subst T'.
  - destruct K as (b & ->). reflexivity.
  - destruct K as (z & -> & _). destruct E as [-> | ->]; reflexivity.
  - destruct K as (z & -> & _). destruct E as [-> | ->]; reflexivity.
  - destruct K as (f & -> & _). cbn [after_reading value_text]. apply show_again.
  - destruct K as (s & -> & _). reflexivity.
  - destruct K as (z & -> & _). reflexivity.
  - destruct K as (us & -> & _). cbn [after_reading after_printing value_text]. unfold show_timestamp.
    rewrite whole_second_quot, Z.quot_mul by discriminate. reflexivity.
Qed.

Lemma head_twice n c names types (t : @read_result (@value F)) :
  c <> [] -> read_file ff lanes clmul nt ne default_options c = Some (names, types, t) ->
  let column := fun k => firstn n (nth k (concat_columns (length names) (chunks t)) []) in
  let rows := text_table text STRING types (map column (seq 0 (length types))) (Nat.min n (total_rows t)) in
  (forall k, k < length types ->
     (forall x, In (Some x) (column k) -> keepable ff show_float again pad (nth k types STRING) x) /\
     seen_enough ff show_float (nth k types STRING) (column k) (in_sample (map column (seq 0 (length types))) k)) ->
  (length types = 1 -> ~ In None (column 0)) ->
  (forall row, In row rows -> spread COMMA DQ (map W row)) ->
  (forall row t, In row rows -> In t row -> existsb newline t = false) \/ (N.of_nat (length (concat (map (output_row COMMA DQ) rows))) < 1048576)%N ->
  (forall m, In m names -> column_name (W m) = m) ->
  exists out,
    head ff show_float pad lanes clmul nt ne default_options n (Stdin c) = Exit 0 out /\
    head ff show_float pad lanes clmul nt ne default_options n (Stdin out) = Exit 0 out.
Proof.
  intros Hc E column rows HC HN Sp Br NM.
  destruct (head_kept n c names types t Hc E HC HN Sp Br) as (types' & r & A & B & LN & LT & TR & Len & Ty & CC).
  fold column in A, B, CC, Len. fold rows in A, B.
  exists (concat (map (output_row COMMA DQ) (names :: rows))). split; [exact A|].
  assert (NN : map column_name (map W names) = names).
  { rewrite map_map. transitivity (map (fun m : bytes => m) names); [apply map_ext_in; exact NM|apply map_id]. }
  rewrite NN in B.
  set (out := concat (map (output_row COMMA DQ) (names :: rows))) in *.
  destruct (head_spec ff show_float pad lanes clmul nt ne default_options L1 L2 ltac:(discriminate) ltac:(discriminate) n out) as (names2 & types2 & t2 & E2 & _ & _ & EH).
  { unfold out. cbn [map concat]. rewrite header_written. unfold line_text. cbn [snd]. destruct (concat _); discriminate || (destruct names; discriminate) || idtac.
    all: intros X; apply app_eq_nil in X; destruct X as (X & _); apply app_eq_nil in X; destruct X as (_ & X); discriminate X. }
  rewrite B in E2. injection E2 as <- <- <-. rewrite EH. f_equal.
  change (separator default_options) with COMMA. change (quote default_options) with DQ. change (has_header default_options) with true.
  unfold out. f_equal. f_equal. cbn [app]. f_equal.
  rewrite LN, CC, TR.
  rewrite first_rows_table. rewrite Nat.min_assoc, Nat.min_id.
  unfold rows, text_table. rewrite LT. apply map_ext_in. intros i Hi. apply in_seq in Hi. apply map_ext_in. intros k Hk. apply in_seq in Hk.
  assert (Hk' : k < length types) by lia.
  assert (P : forall (g : nat -> list (option (@value F))), nth k (map g (seq 0 (length types))) [] = g k).
  { intros g. rewrite (nth_indep _ [] (g 0)) by (rewrite map_length, seq_length; exact Hk'). rewrite (map_nth g), seq_nth by exact Hk'. reflexivity. }
  rewrite map_map, !P. rewrite firstn_all2 by (rewrite map_length, (Len k Hk'); apply Nat.le_min_l).
  assert (Q : forall (g : @value F -> @value F) l, nth i (map (option_map g) l) None = option_map g (nth i l None)).
  { intros g l. exact (map_nth (option_map g) l None i). }
  rewrite Q. change (firstn n (nth k (concat_columns (length names) (chunks t)) [])) with (column k).
  destruct (nth i (column k) None) as [x|] eqn:Ex; [|reflexivity]. cbn [option_map]. apply text_same; [|exact (Ty k Hk')].
  apply (proj1 (HC k Hk')). rewrite <- Ex. apply nth_In. pose proof (Len k Hk') as LK.
  change (length (column k) = Nat.min n (total_rows t)) in LK. rewrite LK. lia.
Qed.
End Head.

Section Select.
Context {F : Type}.
Variable ff : bytes -> option F.
Variable show_float : F -> bytes.
Variable again : F -> F.
Variables (pad : bool) (lanes : nat) (clmul : bool) (nt : N) (ne : bool).
Hypothesis no_date : forall v n, date_value v n -> ff v = None.
Hypothesis no_stamp : forall v n, timestamp_value v n -> ff v = None.
Hypothesis L1 : 1 <= lanes.
Hypothesis L2 : Nat.divide lanes 64.
Notation text := (value_text show_float pad).
Notation W := (written_name COMMA DQ).

Lemma nth_map_seq {A} (g : nat -> A) n k d : k < n -> nth k (map g (seq 0 n)) d = g k.
Proof. intros H. rewrite (nth_indep _ d (g 0)) by (rewrite map_length, seq_length; exact H). rewrite (map_nth g), seq_nth by exact H. reflexivity. Qed.

Lemma project_table {T V} (show : T -> option V -> bytes) (dt : T) types (columns : list (list (option V))) N idx :
  (forall k, In k idx -> k < length types) ->
  project idx (text_table show dt types columns N) =
  text_table show dt (map (fun k => nth k types dt) idx) (map (fun k => nth k columns []) idx) N.
Proof.
  intros H. unfold project, text_table. rewrite map_map. apply map_ext. intros i. rewrite map_length.
  rewrite <- (map_nth_seq idx 0) at 1. rewrite map_map. apply map_ext_in. intros j Hj. apply in_seq in Hj.
  rewrite nth_map_seq by (apply H, nth_In; lia).
  rewrite (nth_indep (map (fun k => nth k types dt) idx) dt (nth 0 types dt)) by (rewrite map_length; lia).
  rewrite (map_nth (fun k => nth k types dt) idx 0 j).
  rewrite (nth_indep (map (fun k => nth k columns []) idx) [] (nth 0 columns [])) by (rewrite map_length; lia).
  rewrite (map_nth (fun k => nth k columns []) idx 0 j). reflexivity.
Qed.

Lemma select_kept spec c names types (t : @read_result (@value F)) idx :
  c <> [] -> spec <> [] -> (N.of_nat (length names) <= 2 ^ 64)%N ->
  read_file ff lanes clmul nt ne default_options c = Some (names, types, t) ->
  columns_named true names (listed_columns spec) = Some idx -> idx <> [] ->
  let column := fun k => nth k (concat_columns (length names) (chunks t)) [] in
  let rows := text_table text STRING (map (fun k => nth k types STRING) idx) (map column idx) (total_rows t) in
  (forall j, j < length idx -> let k := nth j idx 0 in
     (forall x, In (Some x) (column k) -> keepable ff show_float again pad (nth k types STRING) x) /\
     seen_enough ff show_float (nth k types STRING) (column k) (in_sample (map column idx) j)) ->
  (length idx = 1 -> ~ In None (column (nth 0 idx 0))) ->
  (forall row, In row rows -> spread COMMA DQ (map W row)) ->
  (forall row t, In row rows -> In t row -> existsb newline t = false) \/ (N.of_nat (length (concat (map (output_row COMMA DQ) rows))) < 1048576)%N ->
  let out := concat (map (output_row COMMA DQ) (map (fun k => nth k names []) idx :: rows)) in
  exists types' r,
    select ff show_float pad lanes clmul nt ne default_options spec (Stdin c) = Exit 0 out /\
    read_file ff lanes clmul nt ne default_options out = Some (map column_name (map W (map (fun k => nth k names []) idx)), types', r) /\
    length types' = length idx /\ total_rows r = total_rows t /\
    (forall j, j < length idx -> type_again (nth (nth j idx 0) types STRING) (nth j types' STRING)) /\
    concat_columns (length idx) (chunks r) = map (fun k => map (option_map (after_reading again (nth k types STRING))) (column k)) idx.
Proof.
  intros Hc Hs HL E CN NI column rows HC HN Sp Br out.
  destruct (select_spec ff show_float pad lanes clmul nt ne default_options L1 L2 ltac:(discriminate) ltac:(discriminate) spec c Hc Hs) as (names' & types' & t' & E' & LT & LN & ES).
  rewrite E in E'. injection E' as <- <- <-. cbv zeta in ES. specialize (ES HL).
  change (has_header default_options) with true in ES. rewrite CN in ES.
  destruct idx as [|k0 ks]; [congruence|]. set (idx := k0 :: ks) in *.
  change (separator default_options) with COMMA in ES. change (quote default_options) with DQ in ES.
  assert (Bd : forall k, In k idx -> k < length types) by (intros k Hk; rewrite LT; exact (columns_named_bound _ _ _ _ CN k Hk)).
  destruct (file_delivered ff lanes clmul nt ne default_options L1 L2 ltac:(discriminate) ltac:(discriminate) c Hc ltac:(discriminate) ltac:(discriminate))
    as (names' & types' & t' & rs & E' & _ & _ & _ & TR & CC).
  rewrite E in E'. injection E' as <- <- <-. cbv zeta in TR, CC.
  set (R := rows_of_parts _ _ _) in *. clearbody R.
  assert (EO : (if true then [names] else []) ++ text_table text STRING types (concat_columns (length names) (chunks t)) (total_rows t) =
               names :: text_table text STRING types (concat_columns (length names) (chunks t)) (total_rows t)) by reflexivity.
  rewrite EO in ES. unfold project in ES. cbn [map] in ES. fold (project idx (text_table text STRING types (concat_columns (length names) (chunks t)) (total_rows t))) in ES.
  rewrite (project_table text STRING types _ _ idx Bd) in ES. fold column in ES. fold rows in ES. 
  assert (Len : forall k, In k idx -> length (column k) = total_rows t).
  { intros k Hk. specialize (Bd k Hk). unfold column. rewrite CC, TR. unfold columns_of. rewrite nth_map_seq by lia. apply map_length. }
  assert (Lt' : length (map (fun k => nth k types STRING) idx) = length idx) by apply map_length.
  assert (NT : forall j, j < length idx -> nth j (map (fun k => nth k types STRING) idx) STRING = nth (nth j idx 0) types STRING).
  { intros j Hj. rewrite (nth_indep _ STRING (nth 0 types STRING)) by (rewrite map_length; exact Hj). exact (map_nth (fun k => nth k types STRING) idx 0 j). }
  assert (NCl : forall j, j < length idx -> nth j (map column idx) [] = column (nth j idx 0)).
  { intros j Hj. rewrite (nth_indep _ [] (column 0)) by (rewrite map_length; exact Hj). exact (map_nth column idx 0 j). }
  assert (H64 : lanes <= 64) by (apply Nat.divide_pos_le; [lia|exact L2]).
  destruct (table_kept ff show_float again pad no_date no_stamp lanes H64 L1 L2 clmul nt ne (map (fun k => nth k names []) idx) (map (fun k => nth k types STRING) idx) (map column idx) (total_rows t))
    as (types' & r & A1 & A2 & A3 & A4 & A5).
  - discriminate.
  - rewrite !map_length. reflexivity.
  - rewrite Lt'. intros j Hj. rewrite NT, NCl by exact Hj. assert (Hin : In (nth j idx 0) idx) by (apply nth_In; exact Hj).
    destruct (HC j Hj) as (B1 & B2). split; [exact (Len _ Hin)|]. split; assumption.
  - rewrite Lt'. intros L. rewrite NCl by lia. exact (HN L).
  - exact Sp.
  - exact Br.
  - rewrite Lt' in A2, A4, A5. exists types', r. fold rows in A1. split; [exact ES|]. split; [exact A1|]. split; [exact A2|]. split; [exact A3|].
    split; [intros j Hj; rewrite <- (NT j Hj); exact (A4 j Hj)|].
    rewrite A5. rewrite <- (map_nth_seq idx 0) at 2. rewrite map_map. apply map_ext_in. intros j Hj. apply in_seq in Hj. rewrite NT, NCl by lia. reflexivity.
Qed.
End Select.
