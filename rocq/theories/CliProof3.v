(** Proofs about the commands head, count and select. *)
From Verif Require Import Base NumSpec WordsModel WordsProof ChunkSpec ChunkModel ChunkProof ChunkProof2 ChunkProof3 ChunkProps FieldsSpec FieldsModel
  FieldsProof FieldsProof2 FieldsProof3 NumModel DateModel ReaderSpec ReaderModel ReaderProof ReaderProof2 ReaderProof3 ReaderProof4
  TypesSpec TypesModel TypesProof3 CliSpec CliModel CliProof CliProof2.

Section Cmd.
Context {F : Type}.
Variable ff : bytes -> option F.
Variable show_float : F -> bytes.
Variables (pad : bool) (lanes : nat) (clmul : bool) (num_threads : N) (ne_in : bool) (o : csv_options).
Notation vt := (value_text show_float pad).

(** Row [i] of a table, as text. *)
Definition text_row (types : list data_type) (columns : list (list (option (@value F)))) (i : nat) : list bytes :=
  map (fun k => vt (nth k types STRING) (nth i (nth k columns []) None)) (seq 0 (length types)).

Definition good_chunk (ncols : nat) (c : list (list (option (@value F)))) : Prop :=
  length c = ncols /\ exists n, Forall (fun col => length col = n) c.

Definition chunk_len (c : list (list (option (@value F)))) : nat := match c with [] => 0 | col :: _ => length col end.

Lemma combine_seq {A B} (l1 : list A) (l2 : list B) d1 d2 : length l1 = length l2 ->
  combine l1 l2 = map (fun k => (nth k l1 d1, nth k l2 d2)) (seq 0 (length l1)).
Proof.
  revert l2. induction l1 as [|x l1 IH]; intros [|y l2] E; try discriminate; [reflexivity|].
  cbn [length seq map nth combine]. f_equal. rewrite <- seq_shift, map_map. apply IH. cbn in E. lia.
Qed.

Lemma chunk_row_eq types c i : length types = length c -> chunk_row show_float pad types c i = text_row types c i.
Proof.
  intros E. unfold chunk_row, text_row. rewrite (combine_seq types c STRING []) by exact E. rewrite map_map. reflexivity.
Qed.

Definition chunk_rows types c := map (text_row types c) (seq 0 (chunk_len c)).

Lemma firstn_seq_min : forall L n a, firstn n (seq a L) = seq a (Nat.min L n).
Proof. induction L as [|L IH]; intros [|n] a; cbn [seq firstn Nat.min]; auto. rewrite IH. reflexivity. Qed.

Lemma first_rows_all types : forall cs n, Forall (good_chunk (length types)) cs -> 0 < length types ->
  first_rows show_float pad types cs n = firstn n (concat (map (chunk_rows types) cs)).
Proof.
  induction cs as [|c cs IH]; intros n HF Hn; [cbn [first_rows map concat]; rewrite firstn_nil; reflexivity|].
  inversion_clear HF as [|? ? Hc HF']. destruct Hc as (Lc & _). cbn [first_rows map concat].
  destruct c as [|col c]; [cbn in Lc; lia|].
  rewrite firstn_app. unfold chunk_rows at 1 2. cbn [chunk_len]. rewrite map_length, seq_length.
  assert (E : map (chunk_row show_float pad types (col :: c)) (seq 0 (Nat.min (length col) n)) =
              firstn n (map (text_row types (col :: c)) (seq 0 (length col)))).
  { rewrite firstn_map, firstn_seq_min. apply map_ext. intros i. apply chunk_row_eq. symmetry. exact Lc. }
  rewrite E. f_equal. destruct (Nat.leb_spec n (Nat.min (length col) n)) as [L|L].
  - replace (n - length col) with 0 by lia. reflexivity.
  - rewrite IH by assumption. f_equal. lia.
Qed.

Lemma column_of_chunks ncols (cs : list (list (list (option (@value F))))) k : k < ncols ->
  nth k (concat_columns ncols cs) [] = concat (map (fun c => nth k c []) cs).
Proof.
  intros H. unfold concat_columns. rewrite nth_indep with (d' := (fun k => concat (map (fun cols => nth k cols []) cs)) 0)
    by (rewrite map_length, seq_length; exact H).
  rewrite (map_nth (fun k => concat (map (fun cols => nth k cols []) cs))). rewrite seq_nth by exact H. reflexivity.
Qed.

Lemma good_len ncols c k : good_chunk ncols c -> k < ncols -> length (nth k c []) = chunk_len c.
Proof.
  intros (L & n & HF) Hk. rewrite Forall_forall in HF. destruct c as [|col c]; [cbn in L; lia|]. cbn [chunk_len].
  rewrite (HF col) by (left; reflexivity). apply HF, nth_In. lia.
Qed.

Lemma map_option_length {A B} (f : A -> option B) : forall l r, map_option f l = Some r -> length r = length l.
Proof.
  induction l as [|x l IH]; intros r E; cbn [map_option] in E; [injection E as <-; reflexivity|].
  destruct (f x); [|discriminate]. destruct (map_option f l); [|discriminate]. injection E as <-. cbn [length].
  f_equal. apply IH. reflexivity.
Qed.

Definition sum_len (cs : list (list (list (option (@value F))))) : nat := fold_right (fun c n => chunk_len c + n) 0 cs.

Lemma nth_chunks ncols k : k < ncols -> forall cs, Forall (good_chunk ncols) cs ->
  length (concat (map (fun c : list (list (option (@value F))) => nth k c []) cs)) = sum_len cs.
Proof.
  intros Hk. induction cs as [|c cs IH]; intros HF; [reflexivity|]. inversion_clear HF as [|? ? Hc HF'].
  cbn [map concat sum_len fold_right]. rewrite app_length, (IH HF'), (good_len ncols c k Hc Hk). reflexivity.
Qed.

Lemma rows_of_chunks types : forall cs, Forall (good_chunk (length types)) cs -> 0 < length types ->
  concat (map (chunk_rows types) cs) = map (text_row types (concat_columns (length types) cs)) (seq 0 (sum_len cs)).
Proof.
  induction cs as [|c cs IH]; intros HF Hn; [reflexivity|]. pose proof HF as HF0. inversion_clear HF as [|? ? Hc HF'].
  cbn [map concat sum_len fold_right]. fold (sum_len cs). rewrite seq_app, map_app. f_equal.
  - unfold chunk_rows. apply map_ext_in. intros i Hi. apply in_seq in Hi. unfold text_row. apply map_ext_in.
    intros k Hk. apply in_seq in Hk. rewrite column_of_chunks by lia. cbn [map concat].
    rewrite app_nth1 by (rewrite (good_len (length types) c k Hc ltac:(lia)); lia). reflexivity.
  - rewrite IH by assumption. rewrite Nat.add_0_l.
    assert (E : forall m a, map (text_row types (concat_columns (length types) cs)) (seq a m) =
      map (text_row types (concat_columns (length types) (c :: cs))) (seq (chunk_len c + a) m)).
    { induction m as [|m IHm]; intros a; [reflexivity|]. cbn [seq map]. f_equal.
      - unfold text_row. apply map_ext_in. intros k Hk. apply in_seq in Hk. rewrite !column_of_chunks by lia. cbn [map concat].
        rewrite app_nth2 by (rewrite (good_len (length types) c k Hc ltac:(lia)); lia).
        rewrite (good_len (length types) c k Hc ltac:(lia)). do 2 f_equal. lia.
      - rewrite IHm. do 2 f_equal. lia. }
    rewrite (E (sum_len cs) 0). rewrite Nat.add_0_r. reflexivity.
Qed.

Lemma rows_are_table types cs : Forall (good_chunk (length types)) cs -> 0 < length types ->
  concat (map (chunk_rows types) cs) = text_table vt STRING types (concat_columns (length types) cs) (sum_len cs).
Proof. intros A B. rewrite rows_of_chunks by assumption. reflexivity. Qed.

Lemma selected_rows_all types idx : (forall k, In k idx -> k < length types) -> forall cs, Forall (good_chunk (length types)) cs ->
  0 < length types ->
  concat (map (selected_rows show_float pad types idx) cs) = project idx (concat (map (chunk_rows types) cs)).
Proof.
  intros Hi. induction cs as [|c cs IH]; intros HF Hn; [reflexivity|]. inversion_clear HF as [|? ? Hc HF'].
  cbn [map concat]. unfold project. rewrite map_app. f_equal; [|apply IH; assumption].
  destruct Hc as (Lc & _). destruct c as [|col c]; [cbn in Lc; rewrite <- Lc in Hn; inversion Hn|].
  unfold selected_rows, chunk_rows. cbn [chunk_len]. rewrite map_map. apply map_ext. intros i.
  unfold selected_row, text_row. apply map_ext_in. intros k Hk.
  rewrite nth_indep with (d' := (fun k => vt (nth k types STRING) (nth i (nth k (col :: c) []) None)) 0)
    by (rewrite map_length, seq_length; auto).
  rewrite (map_nth (fun k => vt (nth k types STRING) (nth i (nth k (col :: c) []) None))). rewrite seq_nth by auto. reflexivity.
Qed.

Hypothesis H1 : 1 <= lanes.
Hypothesis H2 : Nat.divide lanes 64.
Hypothesis HqL : quote o <> LF.
Hypothesis HqC : quote o <> CR.
(** ** What reading delivers *)
Lemma read_shape c : c <> [] ->
  exists names types t, read_file ff lanes clmul num_threads ne_in o c = Some (names, types, t) /\
    length types = length names /\ 0 < length names /\ chunks t <> [] /\
    Forall (good_chunk (length names)) (chunks t) /\
    total_rows t = sum_len (chunks t).
Proof.
  intros Hc. unfold read_file.
  destruct (open_types ff lanes clmul o c H1 H2 HqL HqC Hc) as (names & E & N).
  match type of E with _ = Some (_, ?ts, ?he) => set (types := ts) in *; set (h := he) in * end.
  assert (LT : length types = length names) by (unfold types; rewrite map_length, seq_length; reflexivity).
  clearbody types. rewrite E.
  assert (LN : 0 < length names) by (destruct names; [congruence|cbn; lia]).
  assert (Hh : h <= length c).
  { unfold h. destruct (has_header o); [|lia]. destruct c as [|x c']; [congruence|].
    pose proof (spec_find_row_end_bounds (quote o) (x :: c') 0 ltac:(cbn; lia)). lia. }
  destruct (read_all_with_rect (fun k => append_value ff lanes (nth k types STRING)) lanes clmul (separator o) (quote o) (null_values o)
        (conj H1 H2) HqL HqC (N.to_nat PARALLEL_THRESHOLD)
        (N.to_nat (calculate_chunk_size (N.of_nat (length c - h)) (N.of_nat (length names)) num_threads)) ne_in (length names) c h LN Hh)
    as (t & Et & A & B).
  unfold read_all. rewrite Et. exists names, types, t. split; [reflexivity|]. split; [exact LT|]. split; [exact LN|].
  assert (G : Forall (good_chunk (length names)) (chunks t)) by exact A.
  assert (T : total_rows t = sum_len (chunks t)).
  { rewrite Forall_forall in B.
    assert (I : In (nth 0 (concat_columns (length names) (chunks t)) []) (concat_columns (length names) (chunks t))).
    { apply nth_In. unfold concat_columns. rewrite map_length, seq_length. exact LN. }
    apply B in I. rewrite column_of_chunks in I by exact LN. rewrite <- I. apply (nth_chunks (length names) 0 LN _ G). }
  split; [|split; assumption].
  destruct (chunks t) eqn:EC; [|discriminate]. exfalso.
  clear -Et EC LN. unfold read_all_with in Et. destruct (length names =? 0) eqn:Z; [apply Nat.eqb_eq in Z; lia|].
  assert (Ser : forall x, read_all_serial (fun k => append_value ff lanes (nth k types STRING)) lanes clmul (separator o) (quote o) (make_null_checker (null_values o)) ne_in (length names) c h = Some x -> chunks x <> []).
  { intros x E. unfold read_all_serial in E. rewrite Z in E.
    match type of E with match ?m with _ => _ end = _ => destruct m as [p|]; [|discriminate] end.
    destruct p. apply (f_equal (fun x => match x with Some r => chunks r | None => [] end)) in E. cbn [chunks] in E. rewrite <- E. discriminate. }
  destruct (_ <? _); [apply (Ser _ Et EC)|].
  match type of Et with match ?m with _ => _ end = _ => destruct m as [ranges|]; [|discriminate] end.
  destruct (length ranges <=? 1) eqn:R; [apply (Ser _ Et EC)|]. apply Nat.leb_gt in R.
  unfold read_chunks in Et.
  match type of Et with match ?m with _ => _ end = _ => destruct m as [ds|] eqn:ED; [|discriminate] end.
  match type of Et with match ?m with _ => _ end = _ => destruct m as [rs|] eqn:ER; [|discriminate] end.
  apply (f_equal (fun x => match x with Some r => chunks r | None => [] end)) in Et. cbn [chunks] in Et.
  rewrite EC in Et. apply (f_equal (@length _)) in Et. rewrite map_length in Et. cbn [length] in Et.
  apply map_option_length in ER. apply map_option_length in ED. rewrite map_length in ED.
  rewrite combine_length in ER. pose proof (link_states_length ds false). lia.
Qed.

(** ** head, count *)
Lemma head_spec n c : c <> [] ->
  exists names types t, read_file ff lanes clmul num_threads ne_in o c = Some (names, types, t) /\
    length types = length names /\ 0 < length names /\
    head ff show_float pad lanes clmul num_threads ne_in o n (Stdin c) =
    Exit 0 (concat (map (output_row (separator o) (quote o))
      ((if has_header o then [names] else []) ++
       firstn n (text_table vt STRING types (concat_columns (length names) (chunks t)) (total_rows t))))).
Proof.
  intros Hc. destruct (read_shape c Hc) as (names & types & t & E & LT & LN & NC & G & T).
  exists names, types, t. split; [exact E|]. split; [exact LT|]. split; [exact LN|].
  unfold head, load. destruct c as [|x c']; [congruence|]. rewrite E.
  rewrite <- LT in *. rewrite T, <- rows_are_table by assumption.
  destruct (chunks t) as [|a cs] eqn:EC; [congruence|]. rewrite first_rows_all by assumption. reflexivity.
Qed.

Lemma count_spec c : c <> [] ->
  exists names types t, read_file ff lanes clmul num_threads ne_in o c = Some (names, types, t) /\
    count ff lanes clmul num_threads ne_in o (Stdin c) = Exit 0 (to_string_N (N.of_nat (total_rows t)) ++ [LF]).
Proof.
  intros Hc. destruct (read_shape c Hc) as (names & types & t & E & _). exists names, types, t. split; [exact E|].
  unfold count, load. destruct c as [|x c']; [congruence|]. rewrite E. reflexivity.
Qed.

(** ** select *)
End Cmd.

Lemma find_name_spec name : forall names i, find_name name names i = option_map (Nat.add i) (position name names).
Proof.
  induction names as [|n r IH]; intros i; [reflexivity|]. cbn [find_name position].
  destruct (list_eq_dec N.eq_dec n name) as [E|E].
  { rewrite (proj2 (bytes_eqb_spec n name) E). cbn. f_equal. lia. }
  destruct (bytes_eqb n name) eqn:B; [apply bytes_eqb_spec in B; congruence|]. rewrite IH.
  destruct (position name r); cbn; [f_equal; lia|reflexivity].
Qed.

Lemma position_bound name : forall names k, position name names = Some k -> k < length names /\ nth_error names k = Some name.
Proof.
  induction names as [|n r IH]; intros k E; [discriminate|]. cbn [position] in E.
  destruct (list_eq_dec N.eq_dec n name) as [->|]; [injection E as <-; cbn; split; [lia|reflexivity]|].
  destruct (position name r) as [j|]; [|discriminate]. injection E as <-. destruct (IH j eq_refl). cbn. split; [lia|assumption].
Qed.


(** ** The list of columns *)
Lemma comma_pieces_nil l : comma_pieces l <> [].
Proof. destruct l as [|c r]; [discriminate|]. cbn [comma_pieces]. destruct (N.eqb c COMMA); [discriminate|]. destruct (comma_pieces r); discriminate. Qed.

Lemma get_lines_spec : forall l cur,
  filter (fun p => negb (length p =? 0)) (map trimmed (get_lines l cur)) =
  filter (fun p => negb (length p =? 0)) (map trimmed (match comma_pieces l with p :: r => (cur ++ p) :: r | [] => [] end)).
Proof.
  induction l as [|c r IH]; intros cur.
  - cbn [get_lines comma_pieces]. destruct cur; [reflexivity|]. rewrite app_nil_r. reflexivity.
  - cbn [get_lines comma_pieces]. destruct (N.eqb_spec c COMMA) as [->|N].
    + cbn [map]. rewrite app_nil_r. cbn [filter]. rewrite IH. pose proof (comma_pieces_nil r).
      destruct (comma_pieces r); [congruence|]. reflexivity.
    + rewrite IH. pose proof (comma_pieces_nil r). destruct (comma_pieces r) as [|p ps]; [congruence|].
      rewrite <- app_assoc. reflexivity.
Qed.

Lemma drop_blanks_spec l : drop_blanks l = trim_left blank l.
Proof.
  induction l as [|c r IH]; [reflexivity|]. cbn [drop_blanks trim_left]. rewrite IH. reflexivity.
Qed.
Lemma trim_spec l : trim l = trimmed l.
Proof. unfold trim, trimmed, trim_right. rewrite !drop_blanks_spec. reflexivity. Qed.

Lemma digitb_only p : forallb digitb p = digits_only p.
Proof. reflexivity. Qed.

Lemma read_digits_only : forall p acc, digits_only p = true -> read_digits p acc = number_of p acc.
Proof.
  induction p as [|c r IH]; intros acc H; [reflexivity|]. cbn [digits_only forallb] in H. apply andb_true_iff in H.
  cbn [read_digits number_of]. unfold digitb. rewrite (proj1 H). apply IH. apply H.
Qed.

Lemma stoul_digits p : p <> [] -> digits_only p = true ->
  stoul p = if (number_of p 0 <? 2 ^ 64)%N then Some (number_of p 0) else None.
Proof.
  intros N D. destruct p as [|c r]; [congruence|]. unfold stoul.
  assert (R : (48 <= c <= 57)%N).
  { cbn [digits_only forallb] in D. apply andb_true_iff in D. destruct D as (D & _). apply andb_true_iff in D. rewrite !N.leb_le in D. exact D. }
  assert (S1 : is_space c = false).
  { unfold is_space. apply orb_false_iff. split; [apply N.eqb_neq; lia|]. apply andb_false_iff. right. apply N.leb_gt. lia. }
  cbn [skip_space]. rewrite S1. rewrite (proj2 (N.eqb_neq c 45)) by lia. rewrite (proj2 (N.eqb_neq c 43)) by lia. cbn [orb].
  assert (S2 : digitb c = true) by (unfold digitb; apply andb_true_iff; rewrite !N.leb_le; lia).
  rewrite S2, read_digits_only by exact D. reflexivity.
Qed.
