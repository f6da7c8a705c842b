From Coq Require Import Permutation.
From Verif Require Import Base ChunkSpec ChunkModel ChunkProps TypesSpec FieldsModel FieldsSpec FieldsProof6 FieldsProps
     NumSpec NumModel NumProof NumProps DateSpec DateModel ReaderSpec ReaderModel ReaderProof TypesModel TypesProof TypesProof2.

Lemma digit_char_is : digit_char = is_digit. Proof. reflexivity. Qed.

Lemma decimal_nonneg l : forallb is_digit l = true -> (0 <= decimal l)%Z.
Proof. intro H. pose proof (decimal_bound l H). lia. Qed.

Lemma int32_loop_spec : forall l a, forallb is_digit l = true -> (0 <= a <= 2147483647)%Z ->
  int32_loop a l = if (a * 10 ^ Z.of_nat (length l) + decimal l <=? 2147483647)%Z
                   then Some (a * 10 ^ Z.of_nat (length l) + decimal l)%Z else None.
Proof.
  induction l as [|c l IH]; intros a H Ha.
  - cbn. rewrite Z.mul_1_r, Z.add_0_r. destruct (Z.leb_spec a 2147483647); [reflexivity|lia].
  - cbn [forallb] in H. apply andb_true_iff in H as [Hc Hl]. pose proof (is_digit_range c Hc) as Rc.
    cbn [int32_loop decimal length]. pose proof (decimal_nonneg l Hl) as Dl.
    rewrite Nat2Z.inj_succ, Z.pow_succ_r by lia. assert (P : (0 < 10 ^ Z.of_nat (length l))%Z) by (apply Z.pow_pos_nonneg; lia).
    set (p := (10 ^ Z.of_nat (length l))%Z) in *. set (a' := (a * 10 + (Z.of_N c - 48))%Z).
    replace (a * (10 * p) + ((Z.of_N c - 48) * p + decimal l))%Z with (a' * p + decimal l)%Z by (unfold a'; ring).
    assert (A0 : (0 <= a')%Z) by (unfold a'; lia).
    cbv zeta. destruct (Z.ltb_spec 2147483647 a').
    + destruct (Z.leb_spec (a' * p + decimal l) 2147483647); [|reflexivity]. nia.
    + rewrite IH by (try assumption; lia). fold p. reflexivity.
Qed.

Lemma looks_integer_text v : looks_integer v = true -> 
  exists m, integer_text v = Some (if N.eqb (nth 0 v 0%N) 45 then (- m)%Z else m) /\
            (0 <= m)%Z /\ m = decimal (after_sign v) /\ forallb is_digit (after_sign v) = true /\ v <> [].
Proof.
  unfold looks_integer. rewrite digit_char_is. intro H. apply andb_true_iff in H as [H1 H2].
  exists (decimal (after_sign v)). split; [|split; [now apply decimal_nonneg|auto]].
  - destruct v as [|c v]; [discriminate|]. unfold integer_text, after_sign, sign_char in *. cbn [nth].
    destruct (N.eqb_spec c 45) as [->|H45]; cbn [orb] in *.
    + unfold natural_text. destruct v as [|d v]; [discriminate|]. rewrite H1. reflexivity.
    + destruct (N.eqb_spec c 43) as [->|H43]; cbn [orb] in *.
      * unfold natural_text. destruct v as [|d v]; [discriminate|]. rewrite H1. reflexivity.
      * unfold natural_text. rewrite H1. reflexivity.
  - split; [reflexivity|]. split; [exact H1|]. destruct v; [discriminate H2|discriminate].
Qed.

Lemma integer_looks v z : integer_text v = Some z -> looks_integer v = true.
Proof.
  unfold integer_text, looks_integer, after_sign, sign_char. rewrite digit_char_is. destruct v as [|c v]; [discriminate|].
  destruct (N.eqb c 45) eqn:E1; cbn [orb].
  - unfold natural_text. destruct v; [discriminate|]. destruct (forallb is_digit (n :: v)); [reflexivity|discriminate].
  - destruct (N.eqb c 43) eqn:E2; cbn [orb].
    + unfold natural_text. destruct v; [discriminate|]. destruct (forallb is_digit (n :: v)); [reflexivity|discriminate].
    + unfold natural_text. destruct (forallb is_digit (c :: v)); [reflexivity|discriminate].
Qed.

Lemma integer_type_spec v z : integer_text v = Some z ->
  integer_type v = if (length v <=? 10) && (Z.abs z <=? 2147483647)%Z then INT32 else INT64.
Proof.
  intro H. pose proof (integer_looks v z H) as L. destruct (looks_integer_text v L) as (m & E & M0 & Em & D & _).
  rewrite H in E. injection E as Ez. unfold integer_type.
  destruct (length v <=? 10); [|reflexivity]. cbn [andb].
  rewrite int32_loop_spec by (try assumption; lia). rewrite Z.mul_0_l, Z.add_0_l, <- Em.
  assert (A : Z.abs z = m) by (subst z; destruct (N.eqb _ _); lia). rewrite A.
  destruct (Z.leb_spec m 2147483647); [|reflexivity].
  replace (m <=? 2147483648)%Z with true by (symmetry; apply Z.leb_le; lia). rewrite orb_true_r. reflexivity.
Qed.

Section Cells.
Context {F : Type}.
Variable ff : bytes -> option F.

Definition special (o : csv_options) (v : bytes) : bool :=
  in_list (null_values o) v || in_list (true_values o) v || in_list (false_values o) v.

Lemma infer_integer o v t : infer_field ff o v = t -> t = INT32 \/ t = INT64 ->
  exists z, integer_text v = Some z /\
            t = (if (length v <=? 10) && (Z.abs z <=? 2147483647)%Z then INT32 else INT64).
Proof.
  unfold infer_field. intros E Ht. destruct v as [|c v]; [destruct Ht; congruence|].
  destruct (in_list (null_values o) (c :: v)); [destruct Ht; congruence|].
  destruct (in_list (true_values o) (c :: v)); [destruct Ht; congruence|].
  destruct (in_list (false_values o) (c :: v)); [destruct Ht; congruence|].
  destruct (looks_integer (c :: v)) eqn:L.
  - destruct (looks_integer_text _ L) as (m & I & _). eexists. split; [exact I|].
    rewrite <- E. apply integer_type_spec. exact I.
  - destruct (ff (c :: v)); [destruct Ht; congruence|]. destruct (looks_date _); [destruct Ht; congruence|].
    destruct (looks_timestamp _); destruct Ht; congruence.
Qed.

Lemma infer_float o v : infer_field ff o v = FLOAT64 -> exists f, ff v = Some f.
Proof.
  unfold infer_field. intros E. destruct v as [|c v]; [discriminate|].
  destruct (in_list (null_values o) (c :: v)); [discriminate|].
  destruct (in_list (true_values o) (c :: v)); [discriminate|].
  destruct (in_list (false_values o) (c :: v)); [discriminate|].
  destruct (looks_integer (c :: v)) eqn:L.
  - exfalso. unfold integer_type in E. destruct (length (c :: v) <=? 10); [|discriminate].
    destruct int32_loop; [|discriminate]. destruct (negb _ || _); discriminate.
  - destruct (ff (c :: v)) as [f|] eqn:Ef; [now exists f|]. destruct (looks_date _); [discriminate|].
    destruct (looks_timestamp _); discriminate.
Qed.

Lemma infer_bool o v : infer_field ff o v = BOOL -> v <> [] /\ (In v (comma_pieces (true_values o)) \/ In v (comma_pieces (false_values o))).
Proof.
  unfold infer_field. intros E. destruct v as [|c v]; [discriminate|]. split; [discriminate|].
  assert (P : forall s, in_list s (c :: v) = true -> In (c :: v) (comma_pieces s)).
  { intros s H. rewrite in_list_spec in H by discriminate. unfold piece_of in H. apply existsb_exists in H as (p & Hp & Q).
    destruct (list_eq_dec N.eq_dec p (c :: v)); [now subst|discriminate]. }
  destruct (in_list (null_values o) (c :: v)); [discriminate|].
  destruct (in_list (true_values o) (c :: v)) eqn:T; [left; auto|].
  destruct (in_list (false_values o) (c :: v)) eqn:Fl; [right; auto|].
  destruct (looks_integer (c :: v)) eqn:L.
  - exfalso. unfold integer_type in E. destruct (length (c :: v) <=? 10); [|discriminate].
    destruct int32_loop; [|discriminate]. destruct (negb _ || _); discriminate.
  - destruct (ff (c :: v)); [discriminate|]. destruct (looks_date _); [discriminate|].
    destruct (looks_timestamp _); discriminate.
Qed.

Lemma infer_na o v : infer_field ff o v = NA <-> denotes_null (null_values o) v = true.
Proof.
  unfold infer_field, denotes_null. destruct v as [|c v]; [tauto|].
  pose proof (in_list_spec (null_values o) (c :: v) ltac:(discriminate)) as E. unfold piece_of in E. rewrite <- E.
  destruct (in_list (null_values o) (c :: v)); [tauto|]. split; [|discriminate]. intro H. exfalso. revert H.
  destruct (in_list (true_values o) (c :: v)); [discriminate|].
  destruct (in_list (false_values o) (c :: v)); [discriminate|].
  destruct (looks_integer (c :: v)).
  - unfold integer_type. destruct (length (c :: v) <=? 10); [|discriminate].
    destruct int32_loop; [|discriminate]. destruct (negb _ || _); discriminate.
  - destruct (ff (c :: v)); [discriminate|]. destruct (looks_date _); [discriminate|].
    destruct (looks_timestamp _); discriminate.
Qed.

Lemma append_int32 lanes v z : lanes <= 64 -> is_bytes v -> integer_text v = Some z -> length v <= 11 -> in_signed 32 z ->
  append_value ff lanes INT32 v = Some (VInt z).
Proof.
  intros H1 H2 H3 H4 H5. unfold append_value. rewrite (proj2 (proj1 (C15_int32_exact lanes v z H1 H2))); auto.
Qed.
Lemma append_int64 lanes v z : lanes <= 64 -> is_bytes v -> integer_text v = Some z -> length v <= 20 -> in_signed 64 z ->
  append_value ff lanes INT64 v = Some (VInt z).
Proof.
  intros H1 H2 H3 H4 H5. unfold append_value. rewrite (proj2 (proj1 (C16_int64_exact lanes v z H1 H2))); auto.
Qed.

Lemma small_signed32 z : (Z.abs z <= 2147483647)%Z -> in_signed 32 z.
Proof. unfold in_signed, int_min. change (2 ^ (32 - 1))%Z with 2147483648%Z. lia. Qed.
Lemma signed32_64 z : in_signed 32 z -> in_signed 64 z.
Proof. unfold in_signed, int_min. change (2 ^ (32 - 1))%Z with 2147483648%Z. change (2 ^ (64 - 1))%Z with 9223372036854775808%Z. lia. Qed.

(** A cell of an integer column. *)
Lemma integer_cell lanes o v t T : lanes <= 64 -> is_bytes v ->
  infer_field ff o v = t -> t <> NA -> t <> BOOL -> below t T -> T = INT32 \/ T = INT64 ->
  (forall z, integer_text v = Some z -> length v <= 20 /\ in_signed 64 z) ->
  exists z, integer_text v = Some z /\ append_value ff lanes T v = Some (VInt z).
Proof.
  intros H1 H2 E N1 N2 B HT Hfit. apply below_iff in B.
  assert (Ht : t = INT32 \/ t = INT64).
  { pose proof (infer_not_unknown ff o v). destruct HT as [->| ->]; destruct t; try discriminate B; try congruence; tauto. }
  destruct (infer_integer o v t E Ht) as (z & I & Et). exists z. split; [exact I|].
  destruct (Hfit z I) as [L R].
  destruct HT as [->| ->]; [|apply append_int64; auto].
  assert (t = INT32) by (destruct Ht; [assumption|]; subst t; rewrite H in B; discriminate B).
  rewrite H in Et. destruct (Nat.leb_spec (length v) 10), (Z.leb_spec (Z.abs z) 2147483647); cbn [andb] in Et; try discriminate.
  apply append_int32; try assumption; [lia|]. apply small_signed32. assumption.
Qed.

(** An inferred 32-bit cell always fits. *)
Lemma int32_fits o v : infer_field ff o v = INT32 -> forall z, integer_text v = Some z -> length v <= 20 /\ in_signed 64 z.
Proof.
  intros E z I. destruct (infer_integer o v INT32 E (or_introl eq_refl)) as (z' & I' & Et).
  rewrite I in I'. injection I' as <-.
  destruct (Nat.leb_spec (length v) 10), (Z.leb_spec (Z.abs z) 2147483647); cbn [andb] in Et; try discriminate.
  split; [lia|]. apply signed32_64, small_signed32. assumption.
Qed.
End Cells.

(** Null detection in the four layers *)
Lemma line_texts_header sep q l : l <> [] -> parse_header sep q l <> [[]] -> line_texts sep q l = parse_header sep q l.
Proof.
  intros Hl H. unfold line_texts. unfold parse_header in *. destruct l as [|c l]; [congruence|].
  destruct (header_loop sep q (c :: l) false [] []) as [names cur].
  destruct (Nat.eqb_spec (length cur) 0) as [E|E]; cbn [negb orb] in *; [|reflexivity].
  destruct (Nat.eqb_spec (length names) 0) as [E2|E2]; [|reflexivity].
  destruct names; [|discriminate]. destruct cur; [|discriminate]. exfalso. apply H. reflexivity.
Qed.

Lemma before_newline_split l : existsb newline l = true ->
  exists nl rest, l = before_newline l ++ nl :: rest /\ newline nl = true.
Proof.
  induction l as [|c l IH]; [discriminate|]. cbn [existsb before_newline]. destruct (newline c) eqn:E.
  - intros _. exists c, l. auto.
  - cbn [orb]. intro H. destruct (IH H) as (nl & rest & E1 & E2). exists nl, rest. split; [cbn; congruence|exact E2].
Qed.
Lemma before_newline_none l : existsb newline l = false -> before_newline l = l.
Proof.
  induction l as [|c l IH]; [reflexivity|]. cbn [existsb before_newline]. destruct (newline c); [discriminate|].
  cbn [orb]. intro H. now rewrite IH.
Qed.
Lemma before_newline_free l : existsb newline (before_newline l) = false.
Proof. induction l as [|c l IH]; [reflexivity|]. cbn [before_newline]. destruct (newline c) eqn:E; [reflexivity|]. cbn. now rewrite E. Qed.

Lemma sample_fields_cells sep q l : newline q = false -> sample_fields sep q l = line_cells sep q l.
Proof.
  intro Hq. unfold line_cells. destruct (existsb newline l) eqn:E; cbn [orb].
  - destruct (before_newline_split l E) as (nl & rest & E1 & E2).
    rewrite E1 at 1. apply sample_fields_line; auto. apply before_newline_free.
  - rewrite (before_newline_none l E). rewrite sample_fields_last by assumption. cbv zeta.
    destruct (length _ =? 0); reflexivity.
Qed.

Lemma not_newline q : q <> LF -> q <> CR -> newline q = false.
Proof. intros H1 H2. unfold newline. apply orb_false_iff. split; apply N.eqb_neq; assumption. Qed.

Definition header_lines (o : csv_options) : nat := if has_header o then 1 else 0.

Lemma sampled_is_sample o n data : newline (quote o) = false ->
  sampled o n data = sample o (header_lines o) n data.
Proof.
  intro Hq. unfold sampled, sample, header_lines.
  assert (E : (if has_header o then tl (lines (quote o) data) else lines (quote o) data) =
              skipn (if has_header o then 1 else 0) (lines (quote o) data)).
  { destruct (has_header o); [|reflexivity]. destruct (lines (quote o) data); reflexivity. }
  rewrite E. apply map_ext. intro l. now apply sample_fields_cells.
Qed.

Definition column_type {F} (ff : bytes -> option F) (o : csv_options) (cells : list bytes) : data_type :=
  unknown_to_string (fold_types (map (infer_field ff o) cells)).

Lemma column_type_narrowest {F} (ff : bytes -> option F) o cells :
  (cells = [] -> column_type ff o cells = STRING) /\
  (cells <> [] -> narrowest (map (infer_field ff o) cells) (column_type ff o cells)).
Proof.
  unfold column_type. split; [intros ->; reflexivity|]. intro H.
  destruct (fold_types_narrowest (map (infer_field ff o) cells)) as [N U].
  - destruct cells; [congruence|discriminate].
  - apply Forall_forall. intros t Ht. apply in_map_iff in Ht as (v & <- & _). apply infer_not_unknown.
  - assert (E : unknown_to_string (fold_types (map (infer_field ff o) cells)) = fold_types (map (infer_field ff o) cells)).
    { unfold unknown_to_string. destruct (fold_types _); try reflexivity. congruence. }
    now rewrite E.
Qed.

Lemma cells_perm {A} k (r1 r2 : list (list A)) : Permutation r1 r2 -> Permutation (cells_of k r1) (cells_of k r2).
Proof. intro H. unfold cells_of. now apply Permutation_flat_map. Qed.

Lemma column_type_perm {F} (ff : bytes -> option F) o c1 c2 : Permutation c1 c2 -> column_type ff o c1 = column_type ff o c2.
Proof.
  intro H. unfold column_type. f_equal. apply fold_types_perm; [now apply Permutation_map|].
  apply Forall_forall. intros t Ht. apply in_map_iff in Ht as (v & <- & _). apply infer_not_unknown.
Qed.

Lemma infer_types {F} (ff : bytes -> option F) lanes clmul o data n max :
  1 <= lanes -> Nat.divide lanes 64 -> quote o <> LF -> quote o <> CR -> data <> [] -> n <> 0 ->
  infer_from_sample ff lanes clmul o data n max =
  Some (map (fun k => column_type ff o (cells_of k (sample o (header_lines o) max data))) (seq 0 n)).
Proof.
  intros. rewrite infer_sample_spec by assumption. rewrite sampled_is_sample by (apply not_newline; assumption). reflexivity.
Qed.

Lemma nth_error_seq_map {A} (f : nat -> A) n k : k < n -> nth_error (map f (seq 0 n)) k = Some (f k).
Proof.
  intro H. rewrite nth_error_map. rewrite (nth_error_nth' _ 0) by (rewrite seq_length; exact H).
  rewrite seq_nth by exact H. reflexivity.
Qed.

Lemma lines_drop_header q data : q <> LF -> q <> CR -> data <> [] ->
  lines q (skipn (spec_find_row_end q data 0) data) = skipn 1 (lines q data).
Proof. intros HL HC Hd. destruct data as [|c l]; [congruence|]. rewrite (lines_step q c l) by assumption. reflexivity. Qed.

Lemma skipn_S_tl {A} n (l : list A) : skipn n (skipn 1 l) = skipn (S n) l.
Proof. destruct l; [now rewrite !skipn_nil|reflexivity]. Qed.

Lemma parse_header_nonempty sep q l : l <> [] -> parse_header sep q l <> [].
Proof.
  intros H E. unfold parse_header in E. destruct l as [|c l]; [congruence|]. destruct (header_loop sep q (c :: l) false [] []) as [n cur].
  destruct (negb (length cur =? 0)) eqn:E1; cbn [orb] in E; [destruct n; discriminate|].
  destruct n; [discriminate E|discriminate E].
Qed.

Lemma count_columns_ge sep q : forall l inq n, n <= count_columns sep q l inq n.
Proof.
  assert (S1 : forall c r inq n, count_columns sep q (c :: r) inq n =
     if N.eqb c q then if inq && next_is q r then count_columns sep q (tl r) inq n else count_columns sep q r (negb inq) n
     else if N.eqb c sep && negb inq then count_columns sep q r inq (n + 1) else count_columns sep q r inq n).
  { intros. cbn [count_columns]. destruct (N.eqb c q); [destruct inq, r as [|c' r]; reflexivity|]. destruct (N.eqb c sep && negb inq); reflexivity. }
  induction l as [|x|x y l IH1 IH2] using ChunkProof.list_two_ind; intros inq n; [cbn; lia| |].
  - rewrite S1. cbn [next_is tl]. destruct (N.eqb x q); [destruct (inq && false)|destruct (N.eqb x sep && negb inq)]; cbn [count_columns]; lia.
  - rewrite S1. cbn [tl]. destruct (N.eqb x q); [destruct (inq && next_is q (y :: l)); [apply IH1|apply IH2]|].
    destruct (N.eqb x sep && negb inq); [|apply IH2]. specialize (IH2 inq (n + 1)). lia.
Qed.

(** open: the types are those of the rows after [skip] lines. *)
Lemma open_types {F} (ff : bytes -> option F) lanes clmul o data :
  1 <= lanes -> Nat.divide lanes 64 -> quote o <> LF -> quote o <> CR -> data <> [] ->
  exists names, open_file ff lanes clmul o data =
    Some (names,
          map (fun k => if length (lines (quote o) data) <=? header_lines o then UNKNOWN
                        else column_type ff o (cells_of k (sample o (2 * header_lines o) (sample_rows o) data)))
              (seq 0 (length names)),
          if has_header o then spec_find_row_end (quote o) data 0 else 0) /\
    names <> [].
Proof.
  intros H1 H2 HL HC Hd. unfold open_file. destruct data as [|c l] eqn:Ed; [congruence|]. rewrite <- Ed in *.
  destruct (C05_find_row_end_exact lanes clmul data 0 (quote o) H1 H2 HL HC) as (E & _ & _ & P & _).
  specialize (P ltac:(rewrite Ed; cbn; lia)).
  rewrite E. set (e := spec_find_row_end (quote o) data 0) in *.
  assert (Hs : slice 0 e data <> []).
  { unfold slice. rewrite Nat.sub_0_r. cbn [skipn]. rewrite Ed. destruct e; [lia|discriminate]. }
  set (names := if has_header o then parse_header _ _ _ else _). cbv zeta.
  assert (Hn : names <> []).
  { unfold names. destruct (has_header o); [now apply parse_header_nonempty|].
    pose proof (count_columns_ge (separator o) (quote o) (slice 0 e data) false 1).
    destruct (count_columns (separator o) (quote o) (slice 0 e data) false 1); [lia|discriminate]. }
  clearbody names. exists names. split; [|exact Hn].
  destruct (skipn (if has_header o then e else 0) data) as [|c' l'] eqn:Er.
  - assert (Hh : has_header o = true) by (destruct (has_header o); [reflexivity|cbn in Er; congruence]).
    rewrite Hh in *. unfold infer_from_sample. cbn [length Nat.eqb orb]. unfold header_lines. rewrite Hh.
    assert (EL : skipn 1 (lines (quote o) data) = []).
    { rewrite <- lines_drop_header by assumption. fold e. rewrite Er. reflexivity. }
    assert (LL : length (lines (quote o) data) <= 1).
    { pose proof (skipn_length 1 (lines (quote o) data)) as Q. rewrite EL in Q. cbn in Q. lia. }
    rewrite (proj2 (Nat.leb_le _ _)) by exact LL. do 3 f_equal.
    apply list_ext. intro k. destruct (Nat.lt_ge_cases k (length names)) as [L|L].
    + rewrite nth_error_seq_map by exact L. rewrite (nth_error_nth' _ UNKNOWN) by (rewrite repeat_length; exact L).
      now rewrite nth_repeat.
    + rewrite !(proj2 (nth_error_None _ _)); [reflexivity| |]; rewrite ?map_length, ?seq_length, ?repeat_length; exact L.
  - rewrite <- Er.
    rewrite infer_types; try assumption; [|rewrite Er; discriminate|destruct names; [congruence|discriminate]].
    assert (EL : lines (quote o) (skipn (if has_header o then e else 0) data) = skipn (header_lines o) (lines (quote o) data)).
    { unfold header_lines. destruct (has_header o); [apply lines_drop_header; assumption|reflexivity]. }
    assert (LL : header_lines o < length (lines (quote o) data)).
    { destruct (Nat.lt_ge_cases (header_lines o) (length (lines (quote o) data))) as [Q|Q]; [exact Q|].
      rewrite (skipn_all2 (lines (quote o) data)) in EL by exact Q. rewrite Er in EL. rewrite lines_step in EL by assumption. discriminate. }
    rewrite (proj2 (Nat.leb_gt _ _)) by exact LL.
    do 3 f_equal. apply map_ext. intro k. do 2 f_equal. unfold sample. rewrite EL.
    rewrite skipn_add. replace (header_lines o + header_lines o) with (2 * header_lines o) by lia. reflexivity.
Qed.

Lemma nth_error_Some_lt {A} (l : list A) k x : nth_error l k = Some x -> k < length l.
Proof. intro H. apply nth_error_Some. congruence. Qed.

Lemma puta_length {V} (conv : nat -> bytes -> option V) ln : forall cols ts k, length (puta conv ln k ts cols) = length cols.
Proof. induction cols as [|c cols IH]; intros [|t ts] k; cbn; auto. Qed.

Lemma narrowest_pair a b : a <> UNKNOWN -> b <> UNKNOWN -> narrowest [a; b] (wider_type a b).
Proof. intros Ha Hb. apply (fold_types_narrowest [a; b]); [discriminate|]. repeat constructor; assumption. Qed.
