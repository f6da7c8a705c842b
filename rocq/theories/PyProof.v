(** Proofs about the Python module: the table read from a file. *)
From Verif Require Import Base TypesSpec WordsModel WordsProof ChunkSpec ChunkModel ChunkProof ChunkProof2 ChunkProof3 ParquetProof FieldsSpec FieldsModel
  NumModel DateModel ReaderSpec ReaderModel ReaderProof ReaderProof2 ReaderProof3 ReaderProof4 ReaderProof5 TypesModel TypesProof3 ErrorsSpec ErrorsModel
  CliModel StrictSpec StrictModel StrictProof PySpec PyModel.

Section Read.
Context {F : Type}.
Variable ff : bytes -> option F.
Variables (lanes : nat) (clmul : bool) (num_threads : N) (ne_in : bool) (o : csv_options).
Hypothesis H1 : 1 <= lanes.
Hypothesis H2 : Nat.divide lanes 64.
Hypothesis HqL : quote o <> LF.
Hypothesis HqC : quote o <> CR.
Hypothesis Hqs : quote o <> separator o.
Hypothesis Hq0 : quote o <> 0%N.

Definition values_of (types : list data_type) : nat -> bytes -> option (@value F) := fun k => append_value ff lanes (nth k types STRING).
Definition body_start (c : bytes) : nat := if has_header o then spec_find_row_end (quote o) c 0 else 0.

Lemma opened c : c <> [] -> exists names types, open_file ff lanes clmul o c = Some (names, types, body_start c) /\
  length types = length names /\ 0 < length names /\ body_start c <= length c.
Proof.
  intros Hc. destruct (open_types ff lanes clmul o c H1 H2 HqL HqC Hc) as (names & E & N).
  match type of E with _ = Some (_, ?ts, _) => set (types := ts) in * end.
  assert (LT : length types = length names) by (unfold types; rewrite map_length, seq_length; reflexivity).
  clearbody types. exists names, types. split; [exact E|]. split; [exact LT|]. split; [destruct names; [congruence|cbn; lia]|].
  unfold body_start. destruct (has_header o); [|lia]. destruct c as [|x c']; [congruence|].
  pose proof (spec_find_row_end_bounds (quote o) (x :: c') 0 ltac:(cbn; lia)). lia.
Qed.

(** The serial path. *)
Lemma file_small c : c <> [] -> length (skipn (body_start c) c) < N.to_nat PARALLEL_THRESHOLD ->
  Forall (safe_row (separator o) LF (quote o)) (table_rows (separator o) (quote o) (skipn (body_start c) c)) ->
  exists names types, open_file ff lanes clmul o c = Some (names, types, body_start c) /\
    length types = length names /\ 0 < length names /\
    read_file ff lanes clmul num_threads ne_in o c = Some (names, types,
      mkRead [table_columns (values_of types) (null_values o) (separator o) (quote o) (length names) (skipn (body_start c) c)]
             (length (table_rows (separator o) (quote o) (skipn (body_start c) c)))
             (length (table_rows (separator o) (quote o) (skipn (body_start c) c)))).
Proof.
  intros Hc Hs HS. destruct (opened c Hc) as (names & types & E & LT & LN & Hh). exists names, types.
  split; [exact E|]. split; [exact LT|]. split; [exact LN|]. unfold read_file. rewrite E. unfold read_all, read_all_with.
  destruct (Nat.eqb_spec (length names) 0); [lia|]. rewrite skipn_length in Hs.
  generalize dependent (N.to_nat PARALLEL_THRESHOLD). intros thr Hs.
  replace (length c - body_start c <? thr) with true by lia.
  fold (values_of types).
  rewrite (read_serial_exact (values_of types) lanes clmul (separator o) (quote o) (null_values o) (conj H1 H2) HqL HqC Hqs Hq0) by assumption.
  reflexivity.
Qed.

Lemma first_piece data he chunk rs : he < length data ->
  chunk_ranges lanes clmul (quote o) data he chunk = Some rs ->
  exists rs', rs = (he, if he + chunk <? length data then spec_find_row_end (quote o) data (he + chunk) else length data) :: rs'.
Proof.
  intros Hh Hr. pose proof (fre_ok_find_row_end lanes clmul (quote o) data (conj H1 H2) HqL HqC) as Hok.
  unfold chunk_ranges in Hr. destruct (length data) as [|n] eqn:En; [lia|]. cbn [chunk_ranges_loop] in Hr.
  replace (he <? S n) with true in Hr by lia.
  destruct (chunk_end_ok _ chunk (S n) he Hok ltac:(lia)) as [He _]. rewrite He in Hr.
  assert (E : (if he + chunk <? S n then find_row_end lanes clmul (quote o) data (he + chunk) else Some (S n)) =
    Some (if he + chunk <? S n then spec_find_row_end (quote o) data (he + chunk) else S n)).
  { destruct (he + chunk <? S n); [|reflexivity]. apply find_row_end_spec; try assumption. split; assumption. }
  rewrite E in Hr. destruct (chunk_ranges_loop n _ _ _ _) as [r|]; [|discriminate]. injection Hr as <-. eexists. reflexivity.
Qed.

Lemma slice_tail (c : bytes) a : slice a (length c) c = skipn a c.
Proof. unfold slice. apply firstn_all2. rewrite skipn_length. lia. Qed.

(** The parallel path: what the first chunk is. *)
Lemma file_large c : c <> [] -> N.to_nat PARALLEL_THRESHOLD <= length (skipn (body_start c) c) -> 
  (forall i, line_end_at (skipn (body_start c) c) i = true -> inside_at false (quote o) (skipn (body_start c) c) i = false) ->
  no_lone_cr (skipn (body_start c) c) ->
  Forall (safe_row (separator o) LF (quote o)) (table_rows (separator o) (quote o) (skipn (body_start c) c)) ->
  exists names types r size, read_file ff lanes clmul num_threads ne_in o c = Some (names, types, r) /\
    length types = length names /\ 0 < length names /\
    N.to_nat 1048576 <= size <= N.to_nat 4194304 /\
    let cut := if body_start c + size <? length c then spec_find_row_end (quote o) c (body_start c + size) else length c in
    let rows := table_rows (separator o) (quote o) (skipn (body_start c) c) in
    total_rows r = length rows /\
    (exists later, chunks r = table_columns (values_of types) (null_values o) (separator o) (quote o) (length names) (slice (body_start c) cut c) :: later) /\
    (exists later, rows = table_rows (separator o) (quote o) (slice (body_start c) cut c) ++ later).
Proof.
  intros Hc Hs Hb Hcr HS. destruct (opened c Hc) as (names & types & E & LT & LN & Hh).
  unfold read_file. rewrite E. unfold read_all. fold (values_of types).
  set (he := body_start c) in *.
  generalize (chunk_size_nat (N.of_nat (length c - he)) (N.of_nat (length names)) num_threads).
  generalize (N.to_nat (calculate_chunk_size (N.of_nat (length c - he)) (N.of_nat (length names)) num_threads)) as size.
  pose proof (proj1 nat_bounds) as Hb1. 
  assert (Hthr : 1 <= N.to_nat PARALLEL_THRESHOLD) by exact (to_nat_le 1 PARALLEL_THRESHOLD eq_refl).
  generalize dependent (N.to_nat PARALLEL_THRESHOLD). intros thr Hs Hthr.
  generalize (N.to_nat 1048576), (N.to_nat 4194304). intros a b size Hsz.
  rewrite skipn_length in Hs.
  assert (Hlt : he < length c) by lia.
  destruct (chunk_ranges_tiles lanes clmul (quote o) c he size (conj H1 H2) HqL HqC ltac:(lia)) as (rs & Hr & Ht).
  destruct (first_piece c he size rs Hlt Hr) as (rs' & Ers).
  set (cut := if he + size <? length c then spec_find_row_end (quote o) c (he + size) else length c) in *.
  unfold read_all_with. destruct (Nat.eqb_spec (length names) 0); [lia|].
  replace (length c - he <? thr) with false by lia. rewrite Hr.
  destruct (read_chunks_list (values_of types) lanes clmul (separator o) (quote o) (null_values o) (conj H1 H2) HqL HqC Hqs Hq0 ne_in (length names) c he size rs LN ltac:(lia) Hr) as (R1 & _ & R3); try assumption.
  { intros s e. apply (cuts_outside (values_of types) lanes clmul (separator o) (quote o) (conj H1 H2) HqL HqC Hqs Hq0 size c he ltac:(lia) Hb). exact Hr. }
  destruct (length rs <=? 1) eqn:Le.
  - assert (rs' = []) by (destruct rs'; [reflexivity|rewrite Ers in Le; cbn in Le; lia]). subst rs' rs.
    cbn [tiles] in Ht. destruct Ht as (_ & _ & _ & Ht).
    rewrite (read_serial_exact (values_of types) lanes clmul (separator o) (quote o) (null_values o) (conj H1 H2) HqL HqC Hqs Hq0) by assumption.
    do 4 eexists. split; [reflexivity|]. split; [exact LT|]. split; [exact LN|]. split; [exact Hsz|]. fold cut. cbv zeta.
    cbn [total_rows chunks]. split; [reflexivity|]. rewrite Ht, slice_tail. split; [exists []; reflexivity|exists []; rewrite app_nil_r; reflexivity].
  - rewrite R1. do 4 eexists. split; [reflexivity|]. split; [exact LT|]. split; [exact LN|]. split; [exact Hsz|]. fold cut. cbv zeta.
    cbn [total_rows chunks]. split; [reflexivity|]. rewrite Ers. cbn [map fst snd]. split; [eexists; reflexivity|].
    rewrite R3, Ers. cbn [map concat]. eexists. reflexivity.
Qed.
End Read.

Section Table.
Context {F : Type}.
Variable ff : bytes -> option F.
Variables (lanes : nat) (clmul : bool) (num_threads : N) (ne_in : bool) (o : csv_options) (m : ErrorsSpec.mode) (limit : nat).

Lemma read_csv_spec c names types r : read_file ff lanes clmul num_threads ne_in o c = Some (names, types, r) ->
  read_csv ff lanes clmul num_threads ne_in o m limit c = if stops o m names then None else Some (table_of names types r).
Proof.
  intros H. unfold read_csv. rewrite (read_checked_spec ff lanes clmul num_threads ne_in o m limit c _ _ _ H). cbn [snd].
  destruct (stops o m names); reflexivity.
Qed.

Lemma read_csv_fails c names types r : read_file ff lanes clmul num_threads ne_in o c = Some (names, types, r) ->
  (read_csv ff lanes clmul num_threads ne_in o m limit c = None <->
   has_header o = true /\ header_is_empty names /\ (m = FAIL_FAST \/ m = PERMISSIVE)).
Proof.
  intros H. rewrite (read_csv_spec _ _ _ _ H). rewrite <- stops_iff. destruct (stops o m names); split; congruence.
Qed.

Lemma schema_names (t : @table F) : length (t_names t) = length (t_columns t) -> map fst (stream_schema t) = t_names t.
Proof.
  intros H. unfold stream_schema, num_columns. rewrite map_map. cbn [fst]. rewrite <- H. generalize (t_names t). clear.
  induction l as [|x l IH]; [reflexivity|]. cbn [length seq map nth]. f_equal. rewrite <- seq_shift, map_map. exact IH.
Qed.

Lemma schema_formats (t : @table F) : length (t_types t) = length (t_columns t) -> map snd (stream_schema t) = map format_of (t_types t).
Proof.
  intros H. unfold stream_schema, num_columns. rewrite map_map. cbn [snd]. rewrite <- H. generalize (t_types t). clear.
  induction l as [|x l IH]; [reflexivity|]. cbn [length seq map nth]. f_equal. rewrite <- seq_shift, map_map. exact IH.
Qed.
End Table.

Lemma columns_lengths {V} (conv : nat -> bytes -> option V) nulls sep q n l :
  Forall (fun col => length col = length (table_rows sep q l)) (table_columns conv nulls sep q n l).
Proof. unfold table_columns. apply Forall_forall. intros col H. apply in_map_iff in H. destruct H as (k & <- & _). apply map_length. Qed.

Lemma columns_count {V} (conv : nat -> bytes -> option V) nulls sep q n l : length (table_columns conv nulls sep q n l) = n.
Proof. unfold table_columns. rewrite map_length, seq_length. reflexivity. Qed.

Section Csv.
Context {F : Type}.
Variable ff : bytes -> option F.
Variables (lanes : nat) (clmul : bool) (num_threads : N) (ne_in : bool) (o : csv_options) (m : ErrorsSpec.mode) (limit : nat).
Hypothesis H1 : 1 <= lanes.
Hypothesis H2 : Nat.divide lanes 64.
Hypothesis HqL : quote o <> LF.
Hypothesis HqC : quote o <> CR.
Hypothesis Hqs : quote o <> separator o.
Hypothesis Hq0 : quote o <> 0%N.
Notation rows_of l := (table_rows (separator o) (quote o) l).
Notation columns_of types n l := (table_columns (values_of ff lanes types) (null_values o) (separator o) (quote o) n l).
Notation csv c := (read_csv ff lanes clmul num_threads ne_in o m limit c).

Lemma csv_small c : c <> [] -> length (skipn (body_start o c) c) < N.to_nat PARALLEL_THRESHOLD ->
  Forall (safe_row (separator o) LF (quote o)) (rows_of (skipn (body_start o c) c)) ->
  forall t, csv c = Some t ->
  option_map fst (open_file ff lanes clmul o c) = Some (t_names t, t_types t) /\
  map fst (stream_schema t) = t_names t /\ map snd (stream_schema t) = map format_of (t_types t) /\
  exists b, stream_next t false = Some b /\ readable b /\
    holds b (length (rows_of (skipn (body_start o c) c))) (columns_of (t_types t) (length (t_names t)) (skipn (body_start o c) c)).
Proof.
  intros Hc Hs HS t Ht.
  destruct (file_small ff lanes clmul num_threads ne_in o H1 H2 HqL HqC Hqs Hq0 c Hc Hs HS) as (names & types & E & LT & LN & ER).
  rewrite (read_csv_spec ff lanes clmul num_threads ne_in o m limit c _ _ _ ER) in Ht.
  destruct (stops o m names); [discriminate|]. apply some_inj in Ht. unfold table_of in Ht. cbn [chunks total_rows] in Ht. subst t.
  rewrite E. cbn [option_map fst t_names t_types].
  split; [reflexivity|]. split; [apply schema_names; cbn [t_names t_columns]; rewrite columns_count; reflexivity|].
  split; [apply schema_formats; cbn [t_types t_columns]; rewrite columns_count; exact LT|].
  unfold stream_next. eexists. split; [reflexivity|]. cbn [t_rows t_columns]. split.
  - unfold readable. cbn [b_children b_length]. apply Forall_impl with (2 := columns_lengths _ _ _ _ _ _). intros col Hl. rewrite Hl. lia.
  - unfold holds. cbn [b_length b_children]. split; [reflexivity|]. split; [reflexivity|]. apply columns_lengths.
Qed.

Lemma csv_large c : c <> [] -> N.to_nat PARALLEL_THRESHOLD <= length (skipn (body_start o c) c) -> 
  (forall i, line_end_at (skipn (body_start o c) c) i = true -> inside_at false (quote o) (skipn (body_start o c) c) i = false) ->
  no_lone_cr (skipn (body_start o c) c) ->
  Forall (safe_row (separator o) LF (quote o)) (rows_of (skipn (body_start o c) c)) ->
  exists size, N.to_nat 1048576 <= size <= N.to_nat 4194304 /\
  let cut := if body_start o c + size <? length c then spec_find_row_end (quote o) c (body_start o c + size) else length c in
  forall t, csv c = Some t ->
  exists b, stream_next t false = Some b /\
    b_length b = length (rows_of (skipn (body_start o c) c)) /\
    b_children b = columns_of (t_types t) (length (t_names t)) (slice (body_start o c) cut c) /\
    (readable b <-> rows_of (slice (body_start o c) cut c) = rows_of (skipn (body_start o c) c)).
Proof.
  intros Hc Hs Hb Hcr HS.
  destruct (file_large ff lanes clmul num_threads ne_in o H1 H2 HqL HqC Hqs Hq0 c Hc Hs Hb Hcr HS) as (names & types & r & size & ER & LT & LN & Hsz & G).
  exists size. split; [exact Hsz|].
  set (cut := if body_start o c + size <? length c then spec_find_row_end (quote o) c (body_start o c + size) else length c) in *.
  cbv zeta in G |- *. destruct G as (T & (later & C) & (more & R)). intros t Ht.
  rewrite (read_csv_spec ff lanes clmul num_threads ne_in o m limit c _ _ _ ER) in Ht.
  destruct (stops o m names); [discriminate|]. apply some_inj in Ht.
  assert (Et : t = mkTable names types (columns_of types (length names) (slice (body_start o c) cut c)) (length (rows_of (skipn (body_start o c) c)))).
  { rewrite <- Ht. unfold table_of. rewrite C, T. destruct later; [reflexivity|].
    destruct (columns_of types (length names) (slice (body_start o c) cut c)) eqn:EC; [|reflexivity].
    apply (f_equal (@length _)) in EC. rewrite columns_count in EC. cbn in EC. lia. }
  clear Ht. subst t. cbn [t_types t_names]. unfold stream_next. eexists. split; [reflexivity|]. cbn [b_length b_children t_rows t_columns].
  split; [reflexivity|]. split; [reflexivity|]. unfold readable. cbn [b_length b_children].
  pose proof (columns_lengths (values_of ff lanes types) (null_values o) (separator o) (quote o) (length names) (slice (body_start o c) cut c)) as L.
  pose proof (columns_count (values_of ff lanes types) (null_values o) (separator o) (quote o) (length names) (slice (body_start o c) cut c)) as N.
  split.
  - intros RD. rewrite R, app_length in RD.
    destruct (columns_of types (length names) (slice (body_start o c) cut c)) as [|col cols]; [cbn in N; lia|].
    inversion RD as [|? ? A _]; subst. inversion L as [|? ? B _]; subst. rewrite R. destruct more; [rewrite app_nil_r; reflexivity|cbn in A; lia].
  - intros EQ. rewrite <- EQ. apply Forall_impl with (2 := L). intros col Hl. rewrite Hl. lia.
Qed.
End Csv.

(** A file of two rows, far apart. *)
Definition far_apart (n : nat) : bytes := 49%N :: repeat LF n ++ [50%N; LF].

Lemma trim_lfs n l : trim_left newline (repeat LF n ++ l) = trim_left newline l.
Proof. induction n as [|n IH]; [reflexivity|]. cbn [repeat app trim_left]. change (newline LF) with true. cbv iota. exact IH. Qed.

Lemma table_rows_trim sep q l l' : q <> LF -> q <> 0%N -> q <> sep -> trim_left newline l = trim_left newline l' -> table_rows sep q l = table_rows sep q l'.
Proof.
  intros A B C E. destruct (trim_left newline l') as [|c r] eqn:T.
  - rewrite (table_rows_blank sep q l E), (table_rows_blank sep q l' T). reflexivity.
  - rewrite (table_rows_step keep 0 sep q C A B l c r E), (table_rows_step keep 0 sep q C A B l' c r T). reflexivity.
Qed.

Lemma far_rows n : 0 < n -> table_rows COMMA DQ (far_apart n) = [[s2b "1"]; [s2b "2"]].
Proof.
  intros H. destruct n as [|n]; [lia|]. unfold far_apart.
  rewrite (table_rows_step keep 0 COMMA DQ ltac:(discriminate) ltac:(discriminate) ltac:(discriminate) _ 49%N (repeat LF (S n) ++ [50%N; LF])) by reflexivity.
  cbn [repeat app raw_row]. change (N.eqb 49 DQ) with false. change (N.eqb LF 49) with false. change (N.eqb 49 COMMA) with false. change (N.eqb LF DQ) with false. change (N.eqb LF LF) with true. cbv iota.
  cbn [cons_first fst snd]. f_equal.
  rewrite (table_rows_trim COMMA DQ (repeat LF n ++ [50%N; LF]) [50%N; LF]) by (discriminate || apply trim_lfs). reflexivity.
Qed.

Lemma far_first c : table_rows COMMA DQ (49%N :: repeat LF (S c)) = [[s2b "1"]].
Proof.
  rewrite (table_rows_step keep 0 COMMA DQ ltac:(discriminate) ltac:(discriminate) ltac:(discriminate) _ 49%N (repeat LF (S c))) by reflexivity.
  cbn [repeat app raw_row]. change (N.eqb 49 DQ) with false. change (N.eqb LF 49) with false. change (N.eqb 49 COMMA) with false. change (N.eqb LF DQ) with false. change (N.eqb LF LF) with true. cbv iota.
  cbn [cons_first fst snd]. f_equal. apply lfs_rows.
Qed.

Lemma firstn_lfs k n l : k <= n -> firstn k (repeat LF n ++ l) = repeat LF k.
Proof.
  intros H. replace n with (k + (n - k)) by lia. rewrite repeat_app, <- app_assoc.
  rewrite firstn_app, repeat_length, Nat.sub_diag. cbn [firstn]. rewrite app_nil_r. apply firstn_all2. rewrite repeat_length. lia.
Qed.

Lemma far_slice n c : c < n -> slice 0 (S c + 1) (far_apart n) = 49%N :: repeat LF (S c).
Proof.
  intros H. unfold slice. cbn [skipn]. rewrite Nat.sub_0_r, Nat.add_1_r. unfold far_apart.
  rewrite firstn_cons. f_equal. apply firstn_lfs. lia.
Qed.

Lemma far_skip n c : c < n -> exists l, skipn (S c) (far_apart n) = LF :: l.
Proof.
  intros H. unfold far_apart. cbn [skipn]. rewrite skipn_app, repeat_length. replace (c - n) with 0 by lia.
  replace n with (c + S (n - c - 1)) by lia. rewrite repeat_app, skipn_app, repeat_length, Nat.sub_diag.
  rewrite (skipn_all2 (repeat LF c)) by (rewrite repeat_length; lia). cbn [skipn repeat app]. eexists. reflexivity.
Qed.

Lemma far_length n : length (far_apart n) = n + 3.
Proof. unfold far_apart. cbn [length]. rewrite app_length, repeat_length. cbn. lia. Qed.

Lemma far_bytes n x : In x (far_apart n) -> x = LF \/ x = 49%N \/ x = 50%N.
Proof.
  unfold far_apart. intros [H|H]; [auto|]. apply in_app_iff in H as [H|H]; [apply repeat_spec in H; auto|]. cbn in H. intuition.
Qed.

Definition headerless : csv_options := mkOptions COMMA DQ false (s2b "NA,null,NULL,") (s2b "true,TRUE,True,yes,YES,Yes") (s2b "false,FALSE,False,no,NO,No") 1000.

Lemma far_unreadable_at {F} (ff : bytes -> option F) nt m limit n :
  1 <= N.to_nat 1048576 /\ N.to_nat 4194304 + 1 < n /\ N.to_nat PARALLEL_THRESHOLD <= n -> let c := far_apart n in
  table_rows COMMA DQ c = [[s2b "1"]; [s2b "2"]] /\
  exists t b, read_csv ff 16 true nt false headerless m limit c = Some t /\ stream_next t false = Some b /\
    b_length b = 2 /\ b_children b <> [] /\ Forall (fun col => length col = 1) (b_children b) /\ ~ readable b.
Proof.
  intros NB. cbv zeta.
  assert (Hn : 0 < n) by lia. split; [apply far_rows; exact Hn|].
  assert (A1 : quote headerless <> LF) by discriminate. assert (A2 : quote headerless <> CR) by discriminate.
  assert (A3 : quote headerless <> separator headerless) by discriminate. assert (A4 : quote headerless <> 0%N) by discriminate.
  destruct lanes16 as (L1 & L2).
  assert (NQ : ~ In DQ (far_apart n)) by (intros H; apply far_bytes in H; destruct H as [|[|]]; discriminate).
  assert (B0 : far_apart n <> []) by discriminate.
  assert (B1 : N.to_nat PARALLEL_THRESHOLD <= length (skipn (body_start headerless (far_apart n)) (far_apart n))).
  { change (body_start headerless (far_apart n)) with 0. cbn [skipn]. rewrite far_length. lia. }
  assert (B2 : forall i, line_end_at (skipn (body_start headerless (far_apart n)) (far_apart n)) i = true ->
     inside_at false (quote headerless) (skipn (body_start headerless (far_apart n)) (far_apart n)) i = false).
  { intros i _. apply no_quotes_outside. exact NQ. }
  assert (B3 : no_lone_cr (skipn (body_start headerless (far_apart n)) (far_apart n))).
  { change (body_start headerless (far_apart n)) with 0. cbn [skipn]. intros i Hi. unfold byte_is in Hi.
    destruct (nth_error (far_apart n) i) as [x|] eqn:E; [|discriminate]. apply nth_error_In in E. apply far_bytes in E.
    destruct E as [->|[->| ->]]; discriminate. }
  assert (B4 : Forall (safe_row (separator headerless) LF (quote headerless)) (table_rows (separator headerless) (quote headerless) (skipn (body_start headerless (far_apart n)) (far_apart n)))).
  { apply quote_free_safe. exact NQ. }
  destruct (csv_large ff 16 true nt false headerless m limit L1 L2 A1 A2 A3 A4 (far_apart n) B0 B1 B2 B3 B4) as (size & Hsz & G).
  destruct (file_large ff 16 true nt false headerless L1 L2 A1 A2 A3 A4 (far_apart n) B0 B1 B2 B3 B4) as (names & types & r & _ & ER & _ & LN & _).
  destruct (read_csv ff 16 true nt false headerless m limit (far_apart n)) as [t|] eqn:ET.
  2:{ apply (read_csv_fails ff 16 true nt false headerless m limit _ _ _ _ ER) in ET. destruct ET as (ET & _). discriminate. }
  cbv zeta in G. destruct (G t eq_refl) as (b & Gb & G1 & G2 & G3). exists t, b. split; [reflexivity|]. split; [exact Gb|].
  change (body_start headerless (far_apart n)) with 0 in G1, G2, G3. cbn [skipn Nat.add] in G1, G2, G3.
  change (quote headerless) with DQ in G1, G2, G3. change (separator headerless) with COMMA in G1, G2, G3.
  rewrite far_rows in G1, G3 by exact Hn.
  assert (EC : (if size <? length (far_apart n) then spec_find_row_end DQ (far_apart n) size else length (far_apart n)) = size + 1).
  { rewrite far_length. destruct size as [|s]; [lia|]. destruct (far_skip n s) as (l & E); [lia|].
    rewrite (find_at_LF _ _ _ E). replace (S s <? n + 3) with true by lia. reflexivity. }
  rewrite EC in G2, G3. destruct size as [|s]; [lia|]. rewrite far_slice in G2, G3 by lia. rewrite far_first in G3.
  split; [exact G1|]. rewrite G2. split.
  - intros E0. apply (f_equal (@length _)) in E0. rewrite columns_count in E0. cbn [length] in E0.
    assert (T : t_names t = names).
    { rewrite (read_csv_spec ff 16 true nt false headerless m limit _ _ _ _ ER) in ET. change (stops headerless m names) with false in ET. cbv iota in ET.
      apply some_inj in ET. subst t. unfold table_of. destruct (chunks r) as [|x [|]]; reflexivity. }
    rewrite T in E0. lia.
  - split.
    + pose proof (columns_lengths (values_of ff 16 (t_types t)) (null_values headerless) COMMA DQ (length (t_names t)) (49%N :: repeat LF (S s))) as L.
      rewrite far_first in L. exact L.
    + rewrite G3. discriminate.
Qed.

Lemma far_unreadable {F} (ff : bytes -> option F) nt m limit : let c := far_apart (N.to_nat 67108864) in
  table_rows COMMA DQ c = [[s2b "1"]; [s2b "2"]] /\
  exists t b, read_csv ff 16 true nt false headerless m limit c = Some t /\ stream_next t false = Some b /\
    b_length b = 2 /\ b_children b <> [] /\ Forall (fun col => length col = 1) (b_children b) /\ ~ readable b.
Proof. exact (far_unreadable_at ff nt m limit (N.to_nat 67108864) nat_bounds). Qed.
