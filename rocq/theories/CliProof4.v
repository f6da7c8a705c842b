(** Proofs about the commands select and pretty. *)
From Verif Require Import Base NumSpec WordsModel WordsProof ChunkSpec ChunkModel FieldsSpec FieldsModel
  NumModel DateModel ReaderSpec ReaderModel TypesSpec TypesModel CliSpec CliModel CliProof CliProof2 CliProof3.

Lemma choose_spec o names : (N.of_nat (length names) <= 2 ^ 64)%N -> forall specs acc,
  let pieces := filter (fun p => negb (length p =? 0)) (map trimmed specs) in
  match columns_named (has_header o) names pieces with
  | Some ks => choose o names specs acc = Chosen (acc ++ ks)
  | None => choose o names specs acc = Refused \/
            choose o names specs acc = ChoiceThrows /\
            exists p, In p pieces /\ digits_only p = true /\ (2 ^ 64 <= number_of p 0)%N
  end.
Proof.
  intros HL. induction specs as [|s r IH]; intros acc; cbv zeta.
  - cbn [map filter columns_named choose]. rewrite app_nil_r. reflexivity.
  - cbn [map filter choose]. rewrite trim_spec. destruct (trimmed s) as [|c p] eqn:ET.
    + cbn [length Nat.eqb negb]. apply IH.
    + cbn [length Nat.eqb negb]. set (w := c :: p). cbn [columns_named]. unfold column_named. change (forallb digitb w) with (digits_only w).
      specialize (IH). set (rest := filter _ _) in *.
      destruct (digits_only w) eqn:D.
      * rewrite (stoul_digits w) by (try exact D; discriminate).
        destruct (N.ltb_spec (number_of w 0) (2 ^ 64)) as [L|L].
        -- destruct (N.leb_spec (N.of_nat (length names)) (number_of w 0)) as [G|G].
           ++ rewrite (proj2 (N.ltb_ge _ _)) by exact G. left. reflexivity.
           ++ rewrite (proj2 (N.ltb_lt _ _)) by exact G.
              specialize (IH (acc ++ [N.to_nat (number_of w 0)])). cbv zeta in IH. fold rest in IH.
              destruct (columns_named (has_header o) names rest) as [ks|].
              ** rewrite IH, <- app_assoc. reflexivity.
              ** destruct IH as [IH|(IH & x & A & B)]; [left; exact IH|right; split; [exact IH|]]. exists x. split; [right; exact A|exact B].
        -- rewrite (proj2 (N.ltb_ge _ _)) by lia. right. split; [reflexivity|]. exists w. split; [left; reflexivity|]. split; assumption.
      * destruct (has_header o) eqn:EH; [|left; reflexivity]. rewrite find_name_spec.
        destruct (position w names) as [k|] eqn:EP; [|left; reflexivity]. cbn [option_map Nat.add].
        specialize (IH (acc ++ [k])). cbv zeta in IH. fold rest in IH.
        destruct (columns_named true names rest) as [ks|].
        -- rewrite IH, <- app_assoc. reflexivity.
        -- destruct IH as [IH|(IH & x & A & B)]; [left; exact IH|right; split; [exact IH|]]. exists x. split; [right; exact A|exact B].
Qed.

Lemma column_named_bound h names p k : column_named h names p = Some k -> k < length names.
Proof.
  unfold column_named. destruct (digits_only p).
  - destruct (N.ltb_spec (number_of p 0) (N.of_nat (length names))); [|discriminate]. intros E. injection E as <-. lia.
  - destruct h; [|discriminate]. intros E. apply position_bound in E. apply E.
Qed.
Lemma columns_named_bound h names : forall ps ks, columns_named h names ps = Some ks -> forall k, In k ks -> k < length names.
Proof.
  induction ps as [|p r IH]; intros ks E k Hk; cbn [columns_named] in E; [injection E as <-; destruct Hk|].
  destruct (column_named h names p) as [j|] eqn:EJ; [|discriminate]. destruct (columns_named h names r) as [js|]; [|discriminate].
  injection E as <-. destruct Hk as [<-|Hk]; [apply (column_named_bound _ _ _ _ EJ)|apply (IH js eq_refl k Hk)].
Qed.

Section Select.
Context {F : Type}.
Variable ff : bytes -> option F.
Variable show_float : F -> bytes.
Variables (pad : bool) (lanes : nat) (clmul : bool) (num_threads : N) (ne_in : bool) (o : csv_options).
Hypothesis H1 : 1 <= lanes.
Hypothesis H2 : Nat.divide lanes 64.
Hypothesis HqL : quote o <> LF.
Hypothesis HqC : quote o <> CR.
Notation vt := (value_text show_float pad).

Lemma select_spec columns c : c <> [] -> columns <> [] ->
  exists names types t, read_file ff lanes clmul num_threads ne_in o c = Some (names, types, t) /\
    length types = length names /\ 0 < length names /\
    let result := select ff show_float pad lanes clmul num_threads ne_in o columns (Stdin c) in
    let pieces := listed_columns columns in
    ((N.of_nat (length names) <= 2 ^ 64)%N ->
     match columns_named (has_header o) names pieces with
     | Some (k :: ks) =>
         result = Exit 0 (concat (map (output_row (separator o) (quote o))
           (project (k :: ks) ((if has_header o then [names] else []) ++
              text_table vt STRING types (concat_columns (length names) (chunks t)) (total_rows t)))))
     | _ => result = Exit 1 [] \/
            result = Throws /\ exists p, In p pieces /\ digits_only p = true /\ (2 ^ 64 <= number_of p 0)%N
     end).
Proof.
  intros Hc Hcol. destruct (read_shape ff lanes clmul num_threads ne_in o H1 H2 HqL HqC c Hc) as (names & types & t & E & LT & LN & NC & G & T).
  exists names, types, t. split; [exact E|]. split; [exact LT|]. split; [exact LN|]. cbv zeta. intros HL.
  unfold select, load. destruct columns as [|col0 cols]; [congruence|]. set (columns := col0 :: cols) in *. destruct c as [|x c']; [congruence|]. rewrite E.
  pose proof (choose_spec o names HL (get_lines columns []) []) as C. cbv zeta in C. rewrite get_lines_spec in C.
  pose proof (comma_pieces_nil columns) as NP.
  assert (EL : filter (fun p => negb (length p =? 0)) (map trimmed match comma_pieces columns with p :: r => ([] ++ p) :: r | [] => [] end) = listed_columns columns).
  { unfold listed_columns. destruct (comma_pieces columns); [congruence|reflexivity]. }
  rewrite EL in C. destruct (columns_named (has_header o) names (listed_columns columns)) as [ks|] eqn:EK.
  - rewrite C. cbn [app]. destruct ks as [|k ks]; [left; reflexivity|].
    do 4 f_equal. unfold project. rewrite map_app. f_equal.
    + destruct (has_header o); reflexivity.
    + assert (HI : forall j, In j (k :: ks) -> j < length types) by (intros j Hj; rewrite LT; exact (columns_named_bound _ _ _ _ EK j Hj)).
      rewrite <- LT in G, LN. rewrite (selected_rows_all show_float pad types (k :: ks) HI (chunks t) G LN).
      rewrite (rows_are_table show_float pad types (chunks t) G LN), LT, <- T. reflexivity.
  - destruct C as [C|(C & P)]; rewrite C; [left; reflexivity|right; split; [reflexivity|exact P]].
Qed.
End Select.

(** ** Names that can be listed *)
Definition plain_name (n : bytes) : Prop := n <> [] /\ ~ In COMMA n /\ trimmed n = n /\ digits_only n = false.

Lemma comma_pieces_app p l : ~ In COMMA p -> comma_pieces (p ++ COMMA :: l) = p :: comma_pieces l.
Proof.
  induction p as [|c p IH]; intros H; [cbn [app comma_pieces]; rewrite N.eqb_refl; reflexivity|].
  cbn [app comma_pieces]. destruct (N.eqb_spec c COMMA) as [->|N]; [exfalso; apply H; left; reflexivity|].
  rewrite IH by (intros I; apply H; right; exact I). reflexivity.
Qed.
Lemma comma_pieces_one p : ~ In COMMA p -> comma_pieces p = [p].
Proof.
  induction p as [|c p IH]; intros H; [reflexivity|].
  cbn [comma_pieces]. destruct (N.eqb_spec c COMMA) as [->|N]; [exfalso; apply H; left; reflexivity|].
  rewrite IH by (intros I; apply H; right; exact I). reflexivity.
Qed.

Lemma listed_joined : forall ns, ns <> [] -> Forall plain_name ns -> listed_columns (joined ns) = ns.
Proof.
  unfold listed_columns. induction ns as [|n ns IH]; intros NE HF; [congruence|]. pose proof (Forall_inv HF) as (A & B & C & D). pose proof (Forall_inv_tail HF) as HF'.
  assert (Ln : negb (length n =? 0) = true) by (destruct n; [exfalso; apply A; reflexivity|reflexivity]).
  destruct ns as [|m ns]; cbn [joined].
  - rewrite comma_pieces_one by exact B. cbn [map filter]. rewrite C, Ln. reflexivity.
  - rewrite comma_pieces_app by exact B. cbn [map filter]. rewrite C, Ln. f_equal. apply IH; [discriminate|exact HF'].
Qed.

Lemma columns_by_name names : forall ns ks, Forall plain_name ns -> Forall2 (fun n k => position n names = Some k) ns ks ->
  columns_named true names ns = Some ks.
Proof.
  intros ns ks HP H. induction H as [|n k ns ks E H IH]; [reflexivity|]. inversion_clear HP as [|? ? (_ & _ & _ & D) HF'].
  cbn [columns_named]. unfold column_named. rewrite D, E, IH by exact HF'. reflexivity.
Qed.

(** ** pretty *)
Lemma num_columns_same n rows : rows <> [] -> Forall (fun r : list bytes => length r = n) rows -> num_columns rows = n.
Proof.
  intros NE HF. unfold num_columns.
  assert (K : forall rows a, Forall (fun r : list bytes => length r = n) rows -> fold_left (fun m (row : list bytes) => Nat.max m (length row)) rows a = if length rows =? 0 then a else Nat.max a n).
  { clear. induction rows as [|r rows IH]; intros a HF; [reflexivity|]. inversion_clear HF as [|? ? E HF']. cbn [fold_left length Nat.eqb].
    rewrite IH by exact HF'. rewrite E. destruct (length rows =? 0); lia. }
  rewrite K by exact HF. destruct rows; [congruence|]. cbn [length Nat.eqb]. lia.
Qed.

Lemma widest_fold (k : nat) : forall rows a,
  fold_left (fun w (row : list bytes) => Nat.max w (length (nth k row []))) rows a = Nat.max a (widest (map (fun row => nth k row []) rows)).
Proof.
  induction rows as [|r rows IH]; intros a; cbn [fold_left map widest fold_right]; [lia|]. rewrite IH. fold (widest (map (fun row => nth k row []) rows)). lia.
Qed.

Lemma widths_spec n rows : rows <> [] -> Forall (fun r : list bytes => length r = n) rows -> widths rows = box_widths 40 n rows.
Proof.
  intros NE HF. unfold widths, box_widths. rewrite (num_columns_same n rows NE HF). apply map_ext. intros k.
  rewrite widest_fold. unfold MAX_COLUMN_WIDTH. rewrite Nat.max_0_l. apply Nat.min_comm.
Qed.

Lemma sep_line_spec ws : sep_line ws = box_rule ws ++ [LF].
Proof. unfold sep_line, box_rule. cbn [s2b app list_ascii_of_string map]. reflexivity. Qed.

Lemma pretty_cell_spec w v : length v <= w \/ 3 < w -> pretty_cell w v = s2b " " ++ in_width w v ++ s2b " |".
Proof.
  intros H. unfold pretty_cell, fit, in_width. destruct (Nat.ltb_spec w (length v)) as [L|L].
  - destruct (Nat.ltb_spec 3 w) as [M|M]; [|lia]. destruct (Nat.leb_spec (length v) w); [lia|].
    rewrite app_length, firstn_length. change (length (s2b "...")) with 3.
    destruct (Nat.ltb_spec (Nat.min (w - 3) (length v) + 3) w); [lia|]. cbn [app]. reflexivity.
  - destruct (Nat.leb_spec (length v) w); [|lia]. destruct (Nat.ltb_spec (length v) w) as [M|M].
    + rewrite <- !app_assoc. reflexivity.
    + replace (w - length v) with 0 by lia. cbn [repeat]. rewrite app_nil_r. reflexivity.
Qed.

Lemma widest_in v cells : In v cells -> length v <= widest cells.
Proof.
  induction cells as [|c cells IH]; intros H; [destruct H|]. cbn [widest fold_right]. fold (widest cells).
  destruct H as [->|H]; [lia|]. apply IH in H. lia.
Qed.

Lemma combine_seq_map {A B} (f : nat * A -> B) (d : A) (l : list A) : forall a, 
  map f (combine (seq a (length l)) l) = map (fun k => f (a + k, nth k l d)) (seq 0 (length l)).
Proof.
  induction l as [|x l IH]; intros a; [reflexivity|]. cbn [length seq combine map nth]. f_equal; [rewrite Nat.add_0_r; reflexivity|].
  rewrite IH, <- seq_shift, map_map. apply map_ext. intros k. rewrite Nat.add_succ_r. reflexivity.
Qed.

Lemma pretty_line_spec n rows row : Forall (fun r : list bytes => length r = n) rows -> In row rows ->
  pretty_line (box_widths 40 n rows) row = box_line (box_widths 40 n rows) row ++ [LF].
Proof.
  intros HF Hr. unfold pretty_line, box_line. rewrite (combine_seq_map _ 0). cbn [s2b list_ascii_of_string map app]. f_equal.
  cbn [app]. f_equal. f_equal. apply map_ext_in. intros k Hk. cbn [fst snd Nat.add].
  apply in_seq in Hk. unfold box_widths in Hk at 1. rewrite map_length, seq_length in Hk.
  rewrite pretty_cell_spec; [reflexivity|]. unfold box_widths.
  rewrite nth_indep with (d' := (fun k => Nat.min 40 (widest (map (fun row => nth k row []) rows))) 0) by (rewrite map_length, seq_length; lia).
  rewrite (map_nth (fun k => Nat.min 40 (widest (map (fun row => nth k row []) rows)))). rewrite seq_nth by lia. cbn [Nat.add].
  assert (L : length (nth k row []) <= widest (map (fun row => nth k row []) rows)).
  { apply widest_in. apply (in_map (fun row => nth k row [])). exact Hr. }
  lia.
Qed.

Lemma boxed_spec header n rows : rows <> [] -> Forall (fun r : list bytes => length r = n) rows ->
  boxed header rows = concat (map (fun l => l ++ [LF]) (box header (box_widths 40 n rows) rows)).
Proof.
  intros NE HF. unfold boxed, box. rewrite (widths_spec n rows NE HF). set (ws := box_widths 40 n rows).
  rewrite sep_line_spec. cbn [map concat]. f_equal. rewrite map_app, concat_app. cbn [map concat]. rewrite app_nil_r. f_equal.
  assert (K : forall rs a, (forall r, In r rs -> In r rows) -> 0 < a ->
    concat (map (fun ir => pretty_line ws (snd ir) ++ (if header && (fst ir =? 0) then box_rule ws ++ [LF] else [])) (combine (seq a (length rs)) rs)) =
    concat (map (fun l => l ++ [LF]) (map (box_line ws) rs))).
  { induction rs as [|r rs IH]; intros a HI Ha; [reflexivity|]. cbn [length seq combine map concat fst snd].
    rewrite IH by (try lia; intros x Hx; apply HI; right; exact Hx).
    destruct a; [lia|]. cbn [Nat.eqb]. rewrite andb_false_r, app_nil_r. f_equal. apply pretty_line_spec; [exact HF|apply HI; left; reflexivity]. }
  destruct rows as [|h rs]; [congruence|]. cbn [length seq combine map concat fst snd Nat.eqb]. rewrite andb_true_r.
  rewrite (K rs 1) by (try lia; intros x Hx; right; exact Hx).
  assert (EH : pretty_line ws h = box_line ws h ++ [LF]) by (apply pretty_line_spec; [exact HF|left; reflexivity]). rewrite EH.
  destruct header; cbn [map concat]; rewrite <- ?app_assoc, ?app_nil_r; reflexivity.
Qed.

Lemma output_lines_concat : forall ls cur, Forall (fun l => ~ In LF l) ls ->
  output_lines (concat (map (fun l => l ++ [LF]) ls)) cur = match ls with [] => match cur with [] => [] | _ => [cur] end | l :: r => (cur ++ l) :: r end.
Proof.
  assert (K : forall l cur rest, ~ In LF l -> output_lines (l ++ LF :: rest) cur = (cur ++ l) :: output_lines rest []).
  { induction l as [|c l IH]; intros cur rest H; cbn [app output_lines].
    - rewrite N.eqb_refl, app_nil_r. reflexivity.
    - destruct (N.eqb_spec c LF) as [->|N]; [exfalso; apply H; left; reflexivity|].
      rewrite IH by (intros I; apply H; right; exact I). rewrite <- app_assoc. reflexivity. }
  induction ls as [|l ls IH]; intros cur HF; [reflexivity|]. inversion_clear HF as [|? ? A HF'].
  cbn [map concat]. rewrite <- app_assoc. cbn [app]. rewrite K by exact A. f_equal. rewrite IH by exact HF'. destruct ls; reflexivity.
Qed.

Lemma in_width_length w v : length v <= w \/ 3 <= w -> length (in_width w v) = w.
Proof.
  intros H. unfold in_width. destruct (Nat.leb_spec (length v) w).
  - rewrite app_length, repeat_length. lia.
  - rewrite app_length, firstn_length. change (length (s2b "...")) with 3. lia.
Qed.

Definition line_width (ws : list nat) : nat := 1 + fold_right (fun w n => w + 3 + n) 0 ws.

Lemma rule_length ws : length (box_rule ws) = line_width ws.
Proof.
  unfold box_rule, line_width. rewrite app_length. change (length (s2b "+")) with 1. f_equal.
  induction ws as [|w ws IH]; [reflexivity|]. cbn [map concat fold_right]. rewrite app_length, IH, app_length, repeat_length.
  change (length (s2b "+")) with 1. lia.
Qed.

Lemma line_length n rows row : In row rows -> length (box_line (box_widths 40 n rows) row) = line_width (box_widths 40 n rows).
Proof.
  intros Hr. unfold box_line, line_width. rewrite app_length. change (length (s2b "|")) with 1. f_equal.
  assert (K : forall ws a, (forall k, k < length ws -> length (nth (a + k) row []) <= nth k ws 0 \/ 3 <= nth k ws 0) ->
    length (concat (map (fun k => s2b " " ++ in_width (nth (k - a) ws 0) (nth k row []) ++ s2b " |") (seq a (length ws)))) = fold_right (fun w m => w + 3 + m) 0 ws).
  { induction ws as [|w ws IH]; intros a H; [reflexivity|]. cbn [length seq map concat fold_right].
    assert (EM : map (fun k => s2b " " ++ in_width (nth (k - a) (w :: ws) 0) (nth k row []) ++ s2b " |") (seq (S a) (length ws)) =
                 map (fun k => s2b " " ++ in_width (nth (k - S a) ws 0) (nth k row []) ++ s2b " |") (seq (S a) (length ws))).
    { apply map_ext_in. intros k Hk. apply in_seq in Hk. replace (k - a) with (S (k - S a)) by lia. reflexivity. }
    rewrite EM. rewrite app_length, IH.
    - rewrite Nat.sub_diag. cbn [nth]. rewrite !app_length, in_width_length by (pose proof (H 0 ltac:(cbn; lia)) as Q; rewrite Nat.add_0_r in Q; exact Q).
      change (length (s2b " ")) with 1. change (length (s2b " |")) with 2. lia.
    - intros k Hk. pose proof (H (S k) ltac:(cbn; lia)) as Q. cbn [nth] in Q. rewrite Nat.add_succ_r in Q. exact Q. }
  rewrite <- (K _ 0).
  - f_equal. f_equal. apply map_ext. intros k. rewrite Nat.sub_0_r. reflexivity.
  - intros k Hk. unfold box_widths in *. rewrite map_length, seq_length in Hk. cbn [Nat.add].
    rewrite nth_indep with (d' := (fun k => Nat.min 40 (widest (map (fun row => nth k row []) rows))) 0) by (rewrite map_length, seq_length; lia).
    rewrite (map_nth (fun k => Nat.min 40 (widest (map (fun row => nth k row []) rows)))). rewrite seq_nth by lia. cbn [Nat.add].
    assert (L : length (nth k row []) <= widest (map (fun row => nth k row []) rows)).
    { apply widest_in. apply (in_map (fun row => nth k row [])). exact Hr. }
    lia.
Qed.

Lemma rule_no_lf ws : ~ In LF (box_rule ws).
Proof.
  unfold box_rule. intros H. apply in_app_or in H. destruct H as [H|H]; [cbn in H; intuition discriminate|].
  apply in_concat in H. destruct H as (l & Hl & H). apply in_map_iff in Hl. destruct Hl as (w & <- & _).
  apply in_app_or in H. destruct H as [H|H]; [apply repeat_spec in H; discriminate|cbn in H; intuition discriminate].
Qed.

Lemma in_width_no_lf w v : ~ In LF v -> ~ In LF (in_width w v).
Proof.
  intros H I. unfold in_width in I. destruct (length v <=? w); apply in_app_or in I; destruct I as [I|I].
  - exact (H I).
  - apply repeat_spec in I. discriminate.
  - apply H. rewrite <- (firstn_skipn (w - 3) v). apply in_or_app. left. exact I.
  - cbn in I. intuition discriminate.
Qed.

Lemma line_no_lf ws row : (forall v, In v row -> ~ In LF v) -> ~ In LF (box_line ws row).
Proof.
  intros HV H. unfold box_line in H. apply in_app_or in H. destruct H as [H|H]; [cbn in H; intuition discriminate|].
  apply in_concat in H. destruct H as (l & Hl & H). apply in_map_iff in Hl. destruct Hl as (k & <- & _).
  apply in_app_or in H. destruct H as [H|H]; [cbn in H; intuition discriminate|]. apply in_app_or in H. destruct H as [H|H].
  - revert H. apply in_width_no_lf. destruct (Nat.lt_ge_cases k (length row)) as [L|L]; [apply HV, nth_In, L|].
    rewrite nth_overflow by exact L. intros [].
  - cbn in H. intuition discriminate.
Qed.

Lemma box_in header ws rows l : In l (box header ws rows) -> l = box_rule ws \/ exists row, In row rows /\ l = box_line ws row.
Proof.
  unfold box. intros [<-|H]; [left; reflexivity|]. apply in_app_or in H. destruct H as [H|[<-|[]]]; [|left; reflexivity].
  destruct rows as [|h r]; [destruct H|]. destruct header.
  - destruct H as [<-|[<-|H]]; [right; exists h; split; [left|]; reflexivity|left; reflexivity|].
    apply in_map_iff in H. destruct H as (x & <- & H). right. exists x. split; [right; exact H|reflexivity].
  - apply in_map_iff in H. destruct H as (x & <- & H). right. exists x. split; [exact H|reflexivity].
Qed.

Lemma boxed_lines header n rows : rows <> [] -> Forall (fun r : list bytes => length r = n) rows ->
  (forall row v, In row rows -> In v row -> ~ In LF v) ->
  output_lines (boxed header rows) [] = box header (box_widths 40 n rows) rows /\
  Forall (fun l => length l = line_width (box_widths 40 n rows)) (output_lines (boxed header rows) []).
Proof.
  intros NE HF HV. rewrite (boxed_spec header n rows NE HF). set (ws := box_widths 40 n rows).
  assert (E : output_lines (concat (map (fun l => l ++ [LF]) (box header ws rows))) [] = box header ws rows).
  { rewrite output_lines_concat; [destruct (box header ws rows); reflexivity|]. apply Forall_forall. intros l Hl.
    apply box_in in Hl. destruct Hl as [->|(row & Hr & ->)]; [apply rule_no_lf|apply line_no_lf]. intros v Hv. exact (HV row v Hr Hv). }
  rewrite E. split; [reflexivity|]. apply Forall_forall. intros l Hl. apply box_in in Hl.
  destruct Hl as [->|(row & Hr & ->)]; [apply rule_length|apply line_length; exact Hr].
Qed.
