(** What the tools print, for every input. *)
From Verif Require Import Base NumSpec WordsModel WordsProof ChunkSpec ChunkModel ChunkProof ChunkProof2 ChunkProof3 FieldsSpec FieldsModel
  NumModel DateModel ReaderSpec ReaderModel ReaderProof ReaderProof3 TypesSpec TypesModel TypesProof3 CliSpec CliModel CliProof CliProof2 CliProof3 CliProof4 CliProof5
  SplitSpec DeliverSpec DeliverProof.

Lemma columns_concat {V} (conv : nat -> bytes -> option V) sp q ncols (rss : list (list (list bytes))) :
  concat_columns ncols (map (columns_of conv sp q ncols) rss) = columns_of conv sp q ncols (concat rss).
Proof.
  unfold concat_columns, columns_of. apply map_ext_in. intros k Hk. apply in_seq in Hk.
  rewrite concat_map, !map_map. f_equal. apply map_ext. intros rows.
  rewrite nth_indep with (d' := (fun k => map (fun row => row_cell conv sp q row k) rows) 0) by (rewrite map_length, seq_length; lia).
  rewrite (map_nth (fun k => map (fun row => row_cell conv sp q row k) rows)). rewrite seq_nth by lia. reflexivity.
Qed.

Lemma sum_concat {A} (ls : list (list A)) : list_sum (map (@length _) ls) = length (concat ls).
Proof. induction ls as [|l ls IH]; [reflexivity|]. cbn [map list_sum fold_right concat]. rewrite app_length. change (fold_right Nat.add 0 (map (length (A:=A)) ls)) with (list_sum (map (@length A) ls)). rewrite IH. reflexivity. Qed.

Lemma parts_are_read {V} (conv : nat -> bytes -> option V) lanes clmul sep q sp thr ch ne ncols data he :
  1 <= lanes -> Nat.divide lanes 64 -> q <> LF -> q <> CR -> q <> sep -> q <> 0%N -> 0 < ncols -> he <= length data ->
  exists rs r, chunk_ranges lanes clmul q data he ch = Some rs /\
    read_all_with conv lanes clmul sep q (make_null_checker sp) thr ch ne ncols data he = Some r /\
    chunks r = map (fun p => columns_of conv sp q ncols (delivered_rows sep q p)) (file_parts q thr data he rs) /\
    total_rows r = length (rows_of_parts sep q (file_parts q thr data he rs)) /\
    concat_columns ncols (chunks r) = columns_of conv sp q ncols (rows_of_parts sep q (file_parts q thr data he rs)).
Proof.
  intros L1 L2 H1 H2 H3 H4 H5 H6.
  destruct (all_delivered conv lanes clmul sep q sp (conj L1 L2) H1 H2 H3 H4 thr ch ne ncols data he H5 H6) as (rs & E1 & E2).
  exists rs. eexists. split; [exact E1|]. split; [exact E2|].
  assert (C : forall r : read_result (V:=V), chunks r = map (fun p => columns_of conv sp q ncols (delivered_rows sep q p)) (file_parts q thr data he rs) ->
    total_rows r = list_sum (map (fun p => length (delivered_rows sep q p)) (file_parts q thr data he rs)) ->
    chunks r = map (fun p => columns_of conv sp q ncols (delivered_rows sep q p)) (file_parts q thr data he rs) /\
    total_rows r = length (rows_of_parts sep q (file_parts q thr data he rs)) /\
    concat_columns ncols (chunks r) = columns_of conv sp q ncols (rows_of_parts sep q (file_parts q thr data he rs))).
  { intros r A B. split; [exact A|]. split.
    - rewrite B. unfold rows_of_parts. rewrite <- sum_concat, map_map. reflexivity.
    - rewrite A. unfold rows_of_parts. rewrite <- columns_concat, map_map. reflexivity. }
  apply C; unfold file_parts; destruct ((length (skipn he data) <? thr) || (length rs <=? 1)); cbn [chunks total_rows map list_sum fold_right].
  - reflexivity.
  - rewrite map_map. reflexivity.
  - lia.
  - rewrite map_map. reflexivity.
Qed.

Section Tools.
Context {F : Type} (ff : bytes -> option F) (show_float : F -> bytes) (pad : bool).
Variables (lanes : nat) (clmul : bool) (num_threads : N) (ne_in : bool) (o : csv_options).
Hypothesis H1 : 1 <= lanes.
Hypothesis H2 : Nat.divide lanes 64.
Hypothesis HqL : quote o <> LF.
Hypothesis HqC : quote o <> CR.
Notation conv_of := (conv_of ff lanes).
Notation vt := (value_text show_float pad).

Lemma text_table_rows types nulls q ncols R : length types = ncols ->
  text_table vt STRING types (columns_of (conv_of types) nulls q ncols R) (length R) =
  map (fun row => map (fun k => vt (nth k types STRING) (row_cell (conv_of types) nulls q row k)) (seq 0 ncols)) R.
Proof.
  intros L. unfold text_table. rewrite L.
  assert (E : R = map (fun i => nth i R []) (seq 0 (length R))).
  { clear. induction R as [|r R IH]; [reflexivity|]. cbn [length seq map nth]. f_equal. rewrite <- seq_shift, map_map. exact IH. }
  match goal with |- _ = map ?f R => assert (EE : map f R = map (fun i => f (nth i R [])) (seq 0 (length R))) by (rewrite E at 1; apply map_map); rewrite EE; clear EE E end.
  apply map_ext_in. intros i Hi. apply in_seq in Hi. apply map_ext_in. intros k Hk. apply in_seq in Hk. f_equal.
  unfold columns_of.
  rewrite nth_indep with (d' := (fun k => map (fun row => row_cell (conv_of types) nulls q row k) R) 0) by (rewrite map_length, seq_length; lia).
  rewrite (map_nth (fun k => map (fun row => row_cell (conv_of types) nulls q row k) R)). rewrite seq_nth by lia. cbn [Nat.add].
  rewrite nth_indep with (d' := row_cell (conv_of types) nulls q [] k) by (rewrite map_length; lia).
  rewrite (map_nth (fun row => row_cell (conv_of types) nulls q row k)). reflexivity.
Qed.

Definition header_end_of (c : bytes) : nat := if has_header o then spec_find_row_end (quote o) c 0 else 0.
Definition chunk_of (c : bytes) (ncols : nat) : nat :=
  N.to_nat (calculate_chunk_size (N.of_nat (length c - header_end_of c)) (N.of_nat ncols) num_threads).

Lemma file_delivered c : c <> [] -> quote o <> separator o -> quote o <> 0%N ->
  exists names types t rs, read_file ff lanes clmul num_threads ne_in o c = Some (names, types, t) /\
    length types = length names /\ 0 < length names /\
    chunk_ranges lanes clmul (quote o) c (header_end_of c) (chunk_of c (length names)) = Some rs /\
    let R := rows_of_parts (separator o) (quote o) (file_parts (quote o) (N.to_nat PARALLEL_THRESHOLD) c (header_end_of c) rs) in
    total_rows t = length R /\
    concat_columns (length names) (chunks t) = columns_of (conv_of types) (null_values o) (quote o) (length names) R.
Proof.
  intros Hc A1 A2. unfold read_file.
  destruct (open_types ff lanes clmul o c H1 H2 HqL HqC Hc) as (names & E & N).
  match type of E with _ = Some (_, ?ts, _) => set (types := ts) in * end.
  assert (LT : length types = length names) by (unfold types; rewrite map_length, seq_length; reflexivity).
  clearbody types. rewrite E.
  assert (LN : 0 < length names) by (destruct names; [congruence|cbn; lia]).
  fold (header_end_of c) in E |- *.
  assert (Hh : header_end_of c <= length c).
  { unfold header_end_of. destruct (has_header o); [|lia]. destruct c as [|x c']; [congruence|].
    pose proof (spec_find_row_end_bounds (quote o) (x :: c') 0 ltac:(cbn; lia)). lia. }
  destruct (parts_are_read (conv_of types) lanes clmul (separator o) (quote o) (null_values o) (N.to_nat PARALLEL_THRESHOLD) (chunk_of c (length names)) ne_in
    (length names) c (header_end_of c) H1 H2 HqL HqC A1 A2 LN Hh) as (rs & t & Er & Et & _ & B1 & B2).
  unfold read_all. unfold conv_of, chunk_of in Et. rewrite Et. exists names, types, t, rs. repeat split; assumption.
Qed.

Lemma head_delivered n c : c <> [] -> quote o <> separator o -> quote o <> 0%N ->
  exists names types rs,
    option_map fst (open_file ff lanes clmul o c) = Some (names, types) /\ length types = length names /\ 0 < length names /\
    chunk_ranges lanes clmul (quote o) c (header_end_of c) (chunk_of c (length names)) = Some rs /\
    let R := rows_of_parts (separator o) (quote o) (file_parts (quote o) (N.to_nat PARALLEL_THRESHOLD) c (header_end_of c) rs) in
    head ff show_float pad lanes clmul num_threads ne_in o n (Stdin c) =
      Exit 0 (concat (map (output_row (separator o) (quote o))
        ((if has_header o then [names] else []) ++ firstn n (map (shown ff show_float pad lanes o types (length names)) R)))) /\
    exists v, count ff lanes clmul num_threads ne_in o (Stdin c) = Exit 0 (v ++ [LF]) /\ integer_text v = Some (Z.of_nat (length R)).
Proof.
  intros Hc A1 A2.
  destruct (file_delivered c Hc A1 A2) as (names & types & t & rs & E & LT & LN & Er & B1 & B2).
  exists names, types, rs.
  assert (EO : option_map fst (open_file ff lanes clmul o c) = Some (names, types)).
  { unfold read_file in E. destruct (open_file ff lanes clmul o c) as [p|]; [|discriminate].
    destruct p as ((ns, ts), h). destruct (read_all _ _ _ _ _ _ _ _ _ _ _) as [r|]; [|discriminate].
    pose proof (f_equal (fun x => match x with Some (a, b, _) => (a, b) | None => ([], []) end) E) as Q. cbv beta iota in Q.
    injection Q as -> ->. reflexivity. }
  split; [exact EO|]. split; [exact LT|]. split; [exact LN|]. split; [exact Er|]. cbv zeta in *.
  set (R := rows_of_parts _ _ _) in *. clearbody R. split.
  - destruct (head_spec ff show_float pad lanes clmul num_threads ne_in o H1 H2 HqL HqC n c Hc) as (names' & types' & t' & E' & _ & _ & EH).
    rewrite E in E'. pose proof (f_equal (fun x => match x with Some (a, b, r) => (a, b, Some r) | None => ([], [], None) end) E') as Q. cbv beta iota in Q.
    apply pair_equal_spec in Q. destruct Q as (Q1 & Q2). apply pair_equal_spec in Q1. destruct Q1 as (Q1 & Q3).
    injection Q2 as Q2. subst names' types' t'. rewrite EH. do 5 f_equal.
    rewrite B1, B2. rewrite text_table_rows by exact LT. reflexivity.
  - destruct (count_spec ff lanes clmul num_threads ne_in o H1 H2 HqL HqC c Hc) as (names' & types' & t' & E' & EH).
    rewrite E in E'. pose proof (f_equal (fun x => match x with Some (_, _, r) => total_rows r | None => 0 end) E') as Q. cbv beta iota in Q.
    rewrite <- Q, B1 in EH. eexists. split; [exact EH|].
    destruct (to_string_N_spec (N.of_nat (length R))) as (X & Y & Z & _).
    rewrite integer_digits by assumption. rewrite Y. f_equal. lia.
Qed.
End Tools.
