From Coq Require Import Relations Permutation.
From Verif Require Import Base ChunkSpec ChunkModel ChunkProof4 ChunkProps TypesSpec FieldsModel FieldsSpec
     NumSpec NumModel NumProof DateModel ReaderSpec ReaderModel ReaderProof TypesModel.

(** ** The order *)
Definition belowb (a b : data_type) : bool :=
  match a, b with
  | UNKNOWN, UNKNOWN => true
  | UNKNOWN, _ => false
  | _, UNKNOWN => false
  | NA, _ => true
  | _, NA => false
  | _, STRING => true
  | BOOL, (BOOL | INT32 | INT64 | FLOAT64) => true
  | INT32, (INT32 | INT64 | FLOAT64) => true
  | INT64, (INT64 | FLOAT64) => true
  | FLOAT64, FLOAT64 => true
  | DATE, (DATE | TIMESTAMP) => true
  | TIMESTAMP, TIMESTAMP => true
  | _, _ => false
  end.

Lemma belowb_trans a b c : belowb a b = true -> belowb b c = true -> belowb a c = true.
Proof. destruct a, b; try discriminate; destruct c; try discriminate; reflexivity. Qed.

Lemma step_below a b : promotes a b -> below a b.
Proof. apply rt_step. Qed.
Lemma below_refl a : below a a. Proof. apply rt_refl. Qed.
Lemma below_trans a b c : below a b -> below b c -> below a c.
Proof. apply rt_trans. Qed.

Lemma below_iff a b : below a b <-> belowb a b = true.
Proof.
  split.
  - induction 1 as [a b H| |a b c H1 I1 H2 I2].
    + destruct H; try reflexivity. destruct t; try reflexivity. congruence.
    + destruct x; reflexivity.
    + eapply belowb_trans; eassumption.
  - assert (B1 := step_below _ _ p_bool). assert (B2 := step_below _ _ p_int32).
    assert (B3 := step_below _ _ p_int64). assert (B4 := step_below _ _ p_float).
    assert (B5 := step_below _ _ p_date). assert (B6 := step_below _ _ p_timestamp).
    destruct a, b; intro H; try discriminate H; try apply below_refl;
      try (apply step_below; constructor; discriminate);
      eauto 6 using below_trans.
Qed.

Lemma wider_cases a b : b <> UNKNOWN -> a <> UNKNOWN ->
  wider_type a b <> UNKNOWN /\ belowb a (wider_type a b) = true /\ belowb b (wider_type a b) = true /\
  (forall u, u <> UNKNOWN -> belowb a u = true -> belowb b u = true -> belowb (wider_type a b) u = true).
Proof.
  intros Hb Ha. destruct a, b; try congruence; (split; [discriminate|]); (split; [reflexivity|]); (split; [reflexivity|]);
    intros u Hu; destruct u; cbn; congruence.
Qed.

Lemma wider_unknown_l b : wider_type UNKNOWN b = b. Proof. reflexivity. Qed.
Lemma wider_comm a b : a <> UNKNOWN -> b <> UNKNOWN -> wider_type a b = wider_type b a.
Proof. destruct a, b; try congruence; reflexivity. Qed.
Lemma wider_assoc a b c : wider_type (wider_type a b) c = wider_type a (wider_type b c).
Proof. destruct a, b; try reflexivity; destruct c; reflexivity. Qed.
Lemma wider_not_unknown a b : b <> UNKNOWN -> wider_type a b <> UNKNOWN.
Proof. destruct a, b; try congruence; discriminate. Qed.

Definition fold_types (ts : list data_type) : data_type := fold_left wider_type ts UNKNOWN.

Lemma fold_wider ts : forall a, a <> UNKNOWN -> Forall (fun t => t <> UNKNOWN) ts ->
  fold_left wider_type ts a <> UNKNOWN /\ belowb a (fold_left wider_type ts a) = true /\
  (forall t, In t ts -> belowb t (fold_left wider_type ts a) = true) /\
  (forall u, u <> UNKNOWN -> belowb a u = true -> (forall t, In t ts -> belowb t u = true) ->
             belowb (fold_left wider_type ts a) u = true).
Proof.
  induction ts as [|t ts IH]; intros a Ha H.
  - cbn. split; [exact Ha|]. split; [destruct a; reflexivity|]. split; [tauto|auto].
  - inversion H as [|? ? Ht Hts]; subst. destruct (wider_cases a t Ht Ha) as (W1 & W2 & W3 & W4).
    destruct (IH (wider_type a t) W1 Hts) as (I1 & I2 & I3 & I4). cbn [fold_left].
    split; [exact I1|]. split; [eapply belowb_trans; eassumption|]. split.
    + intros u [->|Hu]; [eapply belowb_trans; eassumption|auto].
    + intros u Hu Hau Hall. apply I4; [exact Hu| |intros; apply Hall; now right].
      apply W4; auto. apply Hall. now left.
Qed.

Lemma fold_types_narrowest ts : ts <> [] -> Forall (fun t => t <> UNKNOWN) ts ->
  narrowest ts (fold_types ts) /\ fold_types ts <> UNKNOWN.
Proof.
  intros Hne H. destruct ts as [|t ts]; [congruence|]. inversion H; subst.
  unfold fold_types. cbn [fold_left]. rewrite wider_unknown_l.
  destruct (fold_wider ts t) as (I1 & I2 & I3 & I4); [assumption|assumption|].
  split; [split|exact I1].
  - intros a [->|Ha]; apply below_iff; auto.
  - intros u Hu Hall. apply below_iff. apply I4; [exact Hu| |]; intros; apply below_iff; apply Hall; [now left|now right].
Qed.

Lemma belowb_antisym a b : belowb a b = true -> belowb b a = true -> a = b.
Proof. destruct a, b; try discriminate; reflexivity. Qed.

Lemma narrowest_unique ts t u : narrowest ts t -> narrowest ts u -> t <> UNKNOWN -> u <> UNKNOWN -> t = u.
Proof.
  intros [A1 A2] [B1 B2] Ht Hu. apply belowb_antisym; apply below_iff; [apply A2|apply B2]; auto.
Qed.

Lemma fold_types_perm ts ts' : Permutation ts ts' -> Forall (fun t => t <> UNKNOWN) ts -> fold_types ts = fold_types ts'.
Proof.
  intros P H. destruct ts as [|t ts]; [apply Permutation_nil in P; now subst|].
  assert (H' : Forall (fun t => t <> UNKNOWN) ts') by (eapply Permutation_Forall; eassumption).
  assert (ts' <> []) by (intro E; subst; apply Permutation_sym, Permutation_nil in P; discriminate).
  destruct (fold_types_narrowest (t :: ts)) as [N1 U1]; [discriminate|assumption|].
  destruct (fold_types_narrowest ts') as [N2 U2]; [assumption|assumption|].
  apply (narrowest_unique ts'); auto. destruct N1 as [N1 N1']. split.
  - intros a Ha. apply N1. eapply Permutation_in; [apply Permutation_sym|]; eassumption.
  - intros u Hu Hall. apply N1'; [exact Hu|]. intros a Ha. apply Hall. eapply Permutation_in; eassumption.
Qed.

Lemma fold_types_app t1 t2 : fold_types (t1 ++ t2) = wider_type (fold_types t1) (fold_types t2) \/ t2 = [].
Proof.
  destruct t2 as [|t t2]; [now right|]. left. unfold fold_types. rewrite fold_left_app.
  cbn [fold_left]. rewrite wider_unknown_l. generalize (fold_left wider_type t1 UNKNOWN) as a.
  clear t1. revert t. induction t2 as [|u t2 IH]; intros t a; [reflexivity|]. cbn [fold_left].
  rewrite wider_assoc. apply IH.
Qed.

(** ** infer_field *)
Section Infer.
Context {F : Type}.
Variable ff : bytes -> option F.

Lemma infer_not_unknown o v : infer_field ff o v <> UNKNOWN.
Proof.
  unfold infer_field. destruct v as [|c v]; [discriminate|].
  destruct (in_list (null_values o) (c :: v)); [discriminate|].
  destruct (in_list (true_values o) (c :: v)); [discriminate|].
  destruct (in_list (false_values o) (c :: v)); [discriminate|].
  destruct (looks_integer (c :: v)).
  - unfold integer_type. destruct (length (c :: v) <=? 10); [|discriminate].
    destruct int32_loop; [|discriminate]. destruct (negb _ || _); discriminate.
  - destruct (ff (c :: v)); [discriminate|]. destruct (looks_date _); [discriminate|]. destruct (looks_timestamp _); discriminate.
Qed.

Lemma bytes_eqb_spec a b : bytes_eqb a b = true <-> a = b.
Proof.
  revert b; induction a as [|x a IH]; destruct b as [|y b]; cbn; try (split; [discriminate|discriminate]); [tauto|].
  rewrite andb_true_iff, IH, N.eqb_eq. split; [intros [-> ->]; reflexivity|intro E; inversion E; auto].
Qed.
End Infer.

Lemma piece_length_le s : piece_length s <= length s.
Proof. induction s as [|c s IH]; cbn; [lia|]. destruct (N.eqb c COMMA); lia. Qed.

(** Pieces, one at a time. *)
Lemma comma_pieces_step s :
  comma_pieces s = firstn (piece_length s) s ::
                   (if piece_length s <? length s then comma_pieces (skipn (S (piece_length s)) s) else []).
Proof.
  induction s as [|c s IH]; [reflexivity|].
  cbn [comma_pieces piece_length]. destruct (N.eqb c COMMA) eqn:E.
  - cbn [firstn skipn]. cbn [length]. destruct (Nat.ltb_spec 0 (S (length s))); [|lia]. reflexivity.
  - rewrite IH. cbn [firstn skipn length]. reflexivity.
Qed.

Lemma listed_spec fuel : forall s v, length s <= fuel -> v <> [] ->
  listed fuel s v = existsb (fun p => if list_eq_dec N.eq_dec p v then true else false) (comma_pieces s).
Proof.
  induction fuel as [|fuel IH]; intros s v Hl Hv.
  - destruct s; [|cbn in Hl; lia]. destruct v; [congruence|reflexivity].
  - destruct s as [|c s]; [destruct v; [congruence|reflexivity]|].
    rewrite comma_pieces_step. cbn [listed existsb].
    set (n := piece_length (c :: s)). pose proof (piece_length_le (c :: s)) as Hn. fold n in Hn.
    destruct (bytes_eqb v (firstn n (c :: s))) eqn:E.
    + apply bytes_eqb_spec in E. destruct (list_eq_dec N.eq_dec (firstn n (c :: s)) v); [reflexivity|congruence].
    + destruct (list_eq_dec N.eq_dec (firstn n (c :: s)) v) as [Q|Q].
      { exfalso. assert (bytes_eqb v (firstn n (c :: s)) = true) by (apply bytes_eqb_spec; auto). congruence. }
      cbn [orb]. rewrite IH; [|rewrite skipn_length; cbn [length] in *; lia|exact Hv].
      destruct (Nat.ltb_spec n (length (c :: s))); [reflexivity|].
      rewrite (skipn_all2 (c :: s)) by lia. destruct v; [congruence|reflexivity].
Qed.

Definition piece_of (s v : bytes) : bool :=
  existsb (fun p => if list_eq_dec N.eq_dec p v then true else false) (comma_pieces s).
Lemma in_list_spec s v : v <> [] -> in_list s v = piece_of s v.
Proof. intro H. apply listed_spec; [lia|exact H]. Qed.

(** ** LineParser null detection *)
Lemma line_null_step fuel s start ln :
  line_null_loop (S fuel) s start ln =
  if start <=? length s then
    let n := piece_length (skipn start s) in
    let piece := firstn n (skipn start s) in
    line_null_loop fuel s (start + n + 1)
      match piece with
      | [] => mkLN (ln_set ln) (ln_max ln) true
      | _ => mkLN (ln_set ln ++ [piece]) (Nat.max (ln_max ln) n) (ln_empty ln)
      end
  else ln.
Proof. reflexivity. Qed.

Definition add_piece (ln : line_nulls) (piece : bytes) : line_nulls :=
  match piece with
  | [] => mkLN (ln_set ln) (ln_max ln) true
  | _ => mkLN (ln_set ln ++ [piece]) (Nat.max (ln_max ln) (length piece)) (ln_empty ln)
  end.

Lemma skipn_add {A} (l : list A) a b : skipn b (skipn a l) = skipn (a + b) l.
Proof.
  revert l; induction a as [|a IH]; intro l; [reflexivity|]. destruct l; [now rewrite !skipn_nil|]. cbn. apply IH.
Qed.

Lemma line_null_loop_spec fuel : forall s start ln, start <= length s -> length s - start < fuel ->
  line_null_loop fuel s start ln = fold_left add_piece (comma_pieces (skipn start s)) ln.
Proof.
  induction fuel as [|fuel IH]; intros s start ln H1 H2; [lia|].
  rewrite line_null_step. destruct (Nat.leb_spec start (length s)); [|lia]. cbv zeta.
  rewrite comma_pieces_step. set (n := piece_length (skipn start s)).
  pose proof (piece_length_le (skipn start s)) as Hn. fold n in Hn. rewrite skipn_length in Hn.
  cbn [fold_left].
  replace (match firstn n (skipn start s) with
           | [] => mkLN (ln_set ln) (ln_max ln) true
           | _ :: _ => mkLN (ln_set ln ++ [firstn n (skipn start s)]) (Nat.max (ln_max ln) n) (ln_empty ln)
           end) with (add_piece ln (firstn n (skipn start s))).
  2:{ unfold add_piece. destruct (firstn n (skipn start s)) eqn:E; [reflexivity|].
      rewrite <- E at 2. rewrite firstn_length, skipn_length. rewrite Nat.min_l by lia. reflexivity. }
  rewrite skipn_length. destruct (Nat.ltb_spec n (length s - start)).
  - rewrite IH by lia. rewrite skipn_add. replace (start + S n) with (start + n + 1) by lia. reflexivity.
  - destruct fuel as [|fuel]; [reflexivity|]. rewrite line_null_step.
    destruct (Nat.leb_spec (start + n + 1) (length s)); [lia|]. reflexivity.
Qed.

Lemma add_pieces_fields ps : forall ln,
  let r := fold_left add_piece ps ln in
  (ln_empty r = ln_empty ln || existsb (fun p => length p =? 0) ps) /\
  (forall v, v <> [] -> (In v (ln_set r) <-> In v (ln_set ln) \/ In v ps)) /\
  (ln_max ln <= ln_max r) /\ (forall v, In v ps -> length v <= ln_max r).
Proof.
  induction ps as [|p ps IH]; intro ln; cbn [fold_left].
  - cbv zeta. cbn. split; [now rewrite orb_false_r|]. split; [tauto|]. split; [lia|tauto].
  - cbv zeta. destruct (IH (add_piece ln p)) as (I1 & I2 & I3 & I4). cbv zeta in *.
    rewrite I1. split; [|split; [|split]].
    + destruct p as [|c p]; cbn [add_piece ln_empty existsb length Nat.eqb]; [now rewrite !orb_true_r|reflexivity].
    + intros v Hv. rewrite (I2 v Hv). destruct p as [|c p]; cbn [add_piece ln_set].
      * cbn. split; [tauto|]. intros [H|[H|H]]; [tauto|congruence|tauto].
      * rewrite in_app_iff. cbn. tauto.
    + eapply Nat.le_trans; [|exact I3]. destruct p; cbn [add_piece ln_max]; lia.
    + intros v [->|Hv]; [|auto]. eapply Nat.le_trans; [|exact I3]. destruct v; cbn [add_piece ln_max length]; lia.
Qed.

Lemma is_null_value_spec s v :
  is_null_value (init_null_values s) v =
  match v with [] => piece_of s [] | _ => piece_of s v end.
Proof.
  unfold init_null_values. rewrite line_null_loop_spec by lia. cbn [skipn].
  destruct (add_pieces_fields (comma_pieces s) (mkLN [] 0 false)) as (I1 & I2 & I3 & I4). cbv zeta in *.
  set (r := fold_left add_piece (comma_pieces s) (mkLN [] 0 false)) in *.
  assert (P : forall w, piece_of s w = true <-> In w (comma_pieces s)).
  { intro w. unfold piece_of. rewrite existsb_exists. split.
    - intros (p & Hp & E). destruct (list_eq_dec N.eq_dec p w); [now subst|discriminate].
    - intro H. exists w. split; [exact H|]. destruct (list_eq_dec N.eq_dec w w); congruence. }
  unfold is_null_value. destruct v as [|c v].
  - rewrite I1. cbn [ln_empty orb]. apply eq_true_iff_eq. rewrite P. rewrite existsb_exists. split.
    + intros (p & Hp & E). destruct p; [exact Hp|discriminate].
    + intro H. exists []. auto.
  - apply eq_true_iff_eq. rewrite P.
    pose proof (I2 (c :: v) ltac:(discriminate)) as Hset. cbn [ln_set In] in Hset.
    destruct (Nat.ltb_spec (ln_max r) (length (c :: v))) as [L|L].
    + split; [discriminate|]. intro H. apply I4 in H. lia.
    + rewrite existsb_exists. split.
      * intros (p & Hp & E). apply bytes_eqb_spec in E. subst. tauto.
      * intro H. exists (c :: v). split; [tauto|]. now apply bytes_eqb_spec.
Qed.

(** ** Sampling *)
Lemma spec_row_end_shift q data off : off <= length data ->
  spec_find_row_end q data off = off + spec_find_row_end q (skipn off data) 0.
Proof.
  intro H. unfold spec_find_row_end. cbn [skipn]. destruct (row_ends false q (skipn off data)); [rewrite skipn_length; lia|lia].
Qed.

Lemma lines_upto_fuel n q : forall m l, length l <= n -> length l <= m -> q <> LF -> q <> CR -> lines_upto n q l = lines_upto m q l.
Proof.
  induction n as [|n IH]; intros m l Hn Hm HL HC.
  - destruct l; [destruct m; reflexivity|cbn in Hn; lia].
  - destruct m as [|m]; [destruct l; [reflexivity|cbn in Hm; lia]|].
    destruct l as [|c l]; [reflexivity|]. cbn [lines_upto].
    destruct (C05_find_row_end_exact 16 true (c :: l) 0 q) as (_ & _ & _ & P & _); try lia; try assumption.
    { exists 4. reflexivity. }
    specialize (P ltac:(cbn; lia)). f_equal. apply IH; auto; rewrite skipn_length; cbn [length] in *; lia.
Qed.

Lemma lines_step q c l : q <> LF -> q <> CR ->
  lines q (c :: l) = firstn (spec_find_row_end q (c :: l) 0) (c :: l) :: lines q (skipn (spec_find_row_end q (c :: l) 0) (c :: l)).
Proof.
  intros HL HC. unfold lines at 1. cbn [length lines_upto]. f_equal. unfold lines.
  destruct (C05_find_row_end_exact 16 true (c :: l) 0 q) as (_ & _ & _ & P & _); try lia; try assumption.
  { exists 4. reflexivity. }
  specialize (P ltac:(cbn; lia)).
  apply lines_upto_fuel; auto; rewrite skipn_length; cbn [length] in *; lia.
Qed.

Lemma list_ext {A} (a : list A) : forall b, (forall k, nth_error a k = nth_error b k) -> a = b.
Proof.
  induction a as [|x a IH]; intros [|y b] H; [reflexivity| | |].
  - specialize (H 0); discriminate.
  - specialize (H 0); discriminate.
  - pose proof (H 0) as H0. cbn in H0. injection H0 as ->. f_equal. apply IH. intro k. exact (H (S k)).
Qed.

Section Sample.
Context {F : Type}.
Variable ff : bytes -> option F.

Lemma rows_loop_step fuel fre o data offset rows_left types :
  sample_rows_loop ff (S fuel) fre o data offset rows_left types =
      if (length data <=? offset) || (rows_left =? 0) then Some types
      else match fre offset with
           | None => None
           | Some row_end =>
               if row_end - offset =? 0
               then sample_rows_loop ff fuel fre o data (S offset) rows_left types
               else sample_rows_loop ff fuel fre o data row_end (rows_left - 1)
                      (update_types ff o types (sample_fields (separator o) (quote o) (slice offset row_end data)))
           end.
Proof. reflexivity. Qed.

Lemma sample_loop_spec o data fre : quote o <> LF -> quote o <> CR ->
  (forall off, fre off = Some (spec_find_row_end (quote o) data off)) ->
  forall fuel offset rows_left types, length data < fuel + offset -> 1 <= fuel ->
  sample_rows_loop ff fuel fre o data offset rows_left types =
  Some (fold_left (fun ts row => update_types ff o ts (sample_fields (separator o) (quote o) row))
                  (firstn rows_left (lines (quote o) (skipn offset data))) types).
Proof.
  intros HL HC Hfre. induction fuel as [|fuel IH]; intros offset rows_left types Hf Hf1; [lia|].
  rewrite rows_loop_step. destruct (Nat.leb_spec (length data) offset) as [L|L]; cbn [orb].
  - rewrite skipn_all2 by lia. cbn. rewrite firstn_nil. reflexivity.
  - destruct (Nat.eqb_spec rows_left 0) as [->|R]; [reflexivity|].
    rewrite Hfre. rewrite (spec_row_end_shift _ _ offset) by lia.
    destruct (skipn offset data) as [|c l] eqn:E.
    { exfalso. assert (length (skipn offset data) = 0) by now rewrite E. rewrite skipn_length in H. lia. }
    destruct (C05_find_row_end_exact 16 true (c :: l) 0 (quote o)) as (_ & _ & _ & P & _); try lia; try assumption.
    { exists 4. reflexivity. }
    specialize (P ltac:(cbn; lia)).
    set (e := spec_find_row_end (quote o) (c :: l) 0) in *.
    destruct (Nat.eqb_spec (offset + e - offset) 0); [lia|].
    destruct rows_left as [|rl]; [lia|].
    rewrite IH by lia.
    rewrite lines_step by assumption. fold e. cbn [firstn fold_left].
    replace (S rl - 1) with rl by lia.
    rewrite <- E. rewrite skipn_add.
    unfold slice. rewrite E. replace (offset + e - offset) with e by lia. reflexivity.
Qed.

Lemma update_types_nth o ts fs k : nth_error (update_types ff o ts fs) k =
  match nth_error ts k with
  | None => None
  | Some t => Some (match nth_error fs k with Some f => wider_type t (infer_field ff o f) | None => t end)
  end.
Proof.
  revert fs k. induction ts as [|t ts IH]; intros fs k; [destruct fs, k; reflexivity|].
  destruct fs as [|f fs]; [cbn [update_types]; destruct (nth_error (t :: ts) k); destruct k; reflexivity|].
  destruct k as [|k]; [reflexivity|]. cbn [update_types nth_error]. apply IH.
Qed.

Lemma fold_update_nth o rows k : forall ts, nth_error (fold_left (update_types ff o) rows ts) k =
  option_map (fun t => fold_left wider_type (map (infer_field ff o) (cells_of k rows)) t) (nth_error ts k).
Proof.
  induction rows as [|r rows IH]; intro ts; [cbn; now destruct (nth_error ts k)|].
  cbn [fold_left]. rewrite IH, update_types_nth. unfold cells_of. cbn [flat_map].
  destruct (nth_error ts k) as [t|]; [|reflexivity]. cbn [option_map].
  destruct (nth_error r k); reflexivity.
Qed.

Lemma update_types_length o ts fs : length (update_types ff o ts fs) = length ts.
Proof. revert fs; induction ts as [|t ts IH]; intros [|f fs]; cbn [update_types length]; auto. Qed.

Lemma fold_update_length o rows : forall ts, length (fold_left (update_types ff o) rows ts) = length ts.
Proof. induction rows as [|r rows IH]; intro ts; [reflexivity|]. cbn [fold_left]. rewrite IH. apply update_types_length. Qed.

(** The rows whose cells take part in inference. *)
Definition sampled (o : csv_options) (max_rows : nat) (data : bytes) : list (list bytes) :=
  map (sample_fields (separator o) (quote o))
      (firstn max_rows (if has_header o then tl (lines (quote o) data) else lines (quote o) data)).

Lemma fold_left_map {A B C} (f : A -> B) (g : C -> B -> C) l : forall c,
  fold_left g (map f l) c = fold_left (fun c a => g c (f a)) l c.
Proof. induction l as [|a l IH]; intro c; [reflexivity|]. cbn. apply IH. Qed.

Lemma infer_sample_spec lanes clmul o data n_columns max_rows :
  1 <= lanes -> Nat.divide lanes 64 -> quote o <> LF -> quote o <> CR -> data <> [] -> n_columns <> 0 ->
  infer_from_sample ff lanes clmul o data n_columns max_rows =
  Some (map (fun k => unknown_to_string (fold_types (map (infer_field ff o) (cells_of k (sampled o max_rows data)))))
            (seq 0 n_columns)).
Proof.
  intros H1 H2 HL HC Hd Hn. unfold infer_from_sample.
  destruct (Nat.eqb_spec (length data) 0) as [E|_]; [destruct data; [congruence|discriminate]|].
  destruct (Nat.eqb_spec n_columns 0) as [E|_]; [congruence|]. cbn [orb].
  assert (Hfre : forall off, find_row_end lanes clmul (quote o) data off = Some (spec_find_row_end (quote o) data off)).
  { intro off. apply (C05_find_row_end_exact lanes clmul data off (quote o)); assumption. }
  rewrite (Hfre 0).
  assert (E : (if has_header o then Some (spec_find_row_end (quote o) data 0) else Some 0) =
              Some (if has_header o then spec_find_row_end (quote o) data 0 else 0)) by (destruct (has_header o); reflexivity).
  rewrite E. clear E.
  rewrite (sample_loop_spec o data _ HL HC Hfre) by lia.
  cbn [option_map]. f_equal.
  replace (firstn max_rows (lines (quote o) (skipn (if has_header o then spec_find_row_end (quote o) data 0 else 0) data)))
    with (firstn max_rows (if has_header o then tl (lines (quote o) data) else lines (quote o) data)).
  2:{ destruct (has_header o); [|reflexivity]. destruct data as [|c l]; [congruence|]. rewrite lines_step by assumption. reflexivity. }
  rewrite <- (fold_left_map (sample_fields (separator o) (quote o)) (update_types ff o)).
  fold (sampled o max_rows data).
  set (rows := sampled o max_rows data).
  assert (N : forall k, nth_error (fold_left (update_types ff o) rows (repeat UNKNOWN n_columns)) k =
              nth_error (map (fun k => fold_types (map (infer_field ff o) (cells_of k rows))) (seq 0 n_columns)) k).
  { intro k. rewrite fold_update_nth. destruct (Nat.lt_ge_cases k n_columns) as [L|L].
    - rewrite (nth_error_nth' _ UNKNOWN) by (rewrite repeat_length; exact L). rewrite nth_repeat.
      rewrite (nth_error_nth' _ UNKNOWN) by (rewrite map_length, seq_length; exact L).
      rewrite (nth_indep _ UNKNOWN (fold_types (map (infer_field ff o) (cells_of 0 rows)))) by (rewrite map_length, seq_length; exact L).
      rewrite (map_nth (fun k => fold_types (map (infer_field ff o) (cells_of k rows)))).
      rewrite seq_nth by exact L. reflexivity.
    - rewrite !(proj2 (nth_error_None _ _)); [reflexivity| |]; rewrite ?map_length, ?seq_length, ?repeat_length; exact L. }
  rewrite <- (map_map (fun k => fold_types (map (infer_field ff o) (cells_of k rows))) unknown_to_string).
  f_equal. apply list_ext. exact N.
Qed.
End Sample.
