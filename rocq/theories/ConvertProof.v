(** Builders: appending and merging, in terms of histories. *)
From Verif Require Import Base VarintSpec BuffersSpec BuffersModel BuffersObs BuffersProof BuffersProof2 BuffersProof3 BuffersProps BuffersReach BuffersReachProof
  TypesSpec TypesModel ReaderSpec PlainSpec ParquetModel ParquetObs ConvertModel ConvertObs.

(** ** Histories *)
Section Histories.
Context {S E : Type}.
Variable I : impl S E.
Definition shift_op (n : nat) (o : op E) : op E :=
  match o with New => New | Push h e => Push (n + h) e | AppendFrom h k => AppendFrom (n + h) (n + k) | Clear h => Clear (n + h) | Finalize h => Finalize (n + h) end.
Lemma run_app : forall a b st, run I st (a ++ b) = match run I st a with Some st' => run I st' b | None => None end.
Proof. induction a as [|o a IH]; intros b st; cbn [app run]; [reflexivity|]. destruct (step I st o); [apply IH|reflexivity]. Qed.
Lemma update_app : forall (pre st : list S) h s, update (pre ++ st) (length pre + h) s = pre ++ update st h s.
Proof. induction pre as [|p pre IH]; intros; cbn [app length plus update]; [reflexivity|]. f_equal. apply IH. Qed.
Lemma handle_app : forall (pre st : list S) h f, with_handle (pre ++ st) (length pre + h) f = option_map (app pre) (with_handle st h f).
Proof.
  intros. unfold with_handle. rewrite nth_error_app2 by lia. replace (length pre + h - length pre) with h by lia.
  destruct (nth_error st h); [|reflexivity]. destruct (f s); [|reflexivity]. cbn [option_map]. f_equal. apply update_app.
Qed.
Lemma run_shift : forall ops (pre st : list S), run I (pre ++ st) (map (shift_op (length pre)) ops) = option_map (app pre) (run I st ops).
Proof.
  induction ops as [|o ops IH]; intros pre st; cbn [map run]; [reflexivity|].
  assert (E1 : step I (pre ++ st) (shift_op (length pre) o) = option_map (app pre) (step I st o)).
  { destruct o as [|h e|h k|h|h]; cbn [shift_op step].
    - cbn [option_map]. now rewrite app_assoc.
    - apply handle_app.
    - destruct (Nat.eqb_spec h k) as [->|N]; [rewrite Nat.eqb_refl; reflexivity|]. destruct (Nat.eqb_spec (length pre + h) (length pre + k)); [lia|].
      rewrite nth_error_app2 by lia. replace (length pre + k - length pre) with k by lia. destruct (nth_error st k); [apply handle_app|reflexivity].
    - apply handle_app.
    - apply handle_app. }
  rewrite E1. destruct (step I st o) as [st'|]; cbn [option_map]; [apply IH|reflexivity].
Qed.
Lemma step_length : forall st o st', step I st o = Some st' -> length st' = length st + match o with New => 1 | _ => 0 end.
Proof.
  assert (W : forall (st : list S) h f st', with_handle st h f = Some st' -> length st' = length st + 0).
  { intros st h f st' H. unfold with_handle in H. destruct (nth_error st h); [|discriminate]. destruct (f s); [|discriminate]. injection H as <-. rewrite update_length. lia. }
  intros st o st' H. destruct o as [|h e|h k|h|h]; cbn [step] in H; try (eapply W; exact H).
  - injection H as <-. rewrite app_length. reflexivity.
  - destruct (h =? k); [discriminate|]. destruct (nth_error st k); [|discriminate]. eapply W; exact H.
Qed.
Definition news (ops : list (op E)) : nat := length (filter (fun o => match o with New => true | _ => false end) ops).
Lemma run_length : forall ops st st', run I st ops = Some st' -> length st' = length st + news ops.
Proof.
  induction ops as [|o ops IH]; intros st st' H; cbn [run] in H; [injection H as <-; cbn; lia|].
  destruct (step I st o) as [st1|] eqn:E1; [|discriminate]. apply IH in H. apply step_length in E1. unfold news in *. cbn [filter]. destruct o; cbn [length]; lia.
Qed.
End Histories.

Section Built.
Context {S L E : Type}.
Variables (I : impl S E) (A : impl L E).
Hypothesis sim : forall ops lists, run A [] ops = Some lists -> exists st, run I [] ops = Some st.
Lemma built_new : built I A (i_new I) (i_new A).
Proof. exists [New], [i_new A], [i_new I], 0. repeat split. Qed.
Lemma built_push : forall s l e l', built I A s l -> i_push A l e = Some l' -> exists s', i_push I s e = Some s' /\ built I A s' l'.
Proof.
  intros s l e l' (ops & lists & states & i & E1 & E2 & E3 & E4) H.
  assert (R : run A [] (ops ++ [Push i e]) = Some (update lists i l')) by (rewrite run_app, E1; cbn [run step]; unfold with_handle; rewrite E2, H; reflexivity).
  destruct (sim _ _ R) as (st & R2). pose proof R2 as R3. rewrite run_app, E3 in R2. cbn [run step] in R2. unfold with_handle in R2. rewrite E4 in R2.
  destruct (i_push I s e) as [s'|] eqn:EP; [|discriminate]. exists s'. split; [reflexivity|]. injection R2 as <-.
  exists (ops ++ [Push i e]), (update lists i l'), (update states i s'), i. split; [exact R|]. rewrite !nth_error_update. rewrite Nat.eqb_refl.
  apply nth_error_lt in E2. apply nth_error_lt in E4. destruct (Nat.ltb_spec i (length lists)); [|lia]. destruct (Nat.ltb_spec i (length states)); [|lia].
  split; [reflexivity|]. split; [exact R3|reflexivity].
Qed.
Lemma built_append : forall s l t m l', built I A s l -> built I A t m -> i_append A l m = Some l' -> exists s', i_append I s t = Some s' /\ built I A s' l'.
Proof.
  intros s l t m l' (ops & lists & states & i & E1 & E2 & E3 & E4) (ops2 & lists2 & states2 & j & F1 & F2 & F3 & F4) H.
  pose proof (run_length A _ _ _ E1) as LA. pose proof (run_length I _ _ _ E3) as LI. cbn [length plus] in LA, LI.
  set (o := @AppendFrom E i (length lists + j)) in *.
  assert (RA : run A [] (ops ++ map (shift_op (length lists)) ops2 ++ [o]) = Some (update (lists ++ lists2) i l')).
  { rewrite run_app, E1, run_app. rewrite <- (app_nil_r lists) at 1. rewrite run_shift, F1. cbn [option_map run step o].
    pose proof (nth_error_lt _ _ _ _ E2). destruct (Nat.eqb_spec i (length lists + j)); [lia|]. rewrite nth_error_app2 by lia. replace (length lists + j - length lists) with j by lia. rewrite F2.
    unfold with_handle. rewrite nth_error_app1 by lia. rewrite E2, H. reflexivity. }
  destruct (sim _ _ RA) as (st & RI). pose proof RI as RI'. rewrite run_app, E3, run_app in RI. rewrite <- (app_nil_r states) in RI at 1.
  replace (length lists) with (length states) in RI at 1 by lia. rewrite run_shift, F3 in RI. cbn [option_map run step o] in RI.
  pose proof (nth_error_lt _ _ _ _ E4). destruct (Nat.eqb_spec i (length lists + j)); [lia|]. rewrite nth_error_app2 in RI by lia. replace (length lists + j - length states) with j in RI by lia. rewrite F4 in RI.
  unfold with_handle in RI. rewrite nth_error_app1 in RI by lia. rewrite E4 in RI. destruct (i_append I s t) as [s'|] eqn:EP; [|discriminate]. exists s'. split; [reflexivity|].
  injection RI as <-. exists (ops ++ map (shift_op (length lists)) ops2 ++ [o]), (update (lists ++ lists2) i l'), (update (states ++ states2) i s'), i. split; [exact RA|]. rewrite !nth_error_update, Nat.eqb_refl, !app_length.
  apply nth_error_lt in E2. destruct (Nat.ltb_spec i (length lists + length lists2)); [|lia]. destruct (Nat.ltb_spec i (length states + length states2)); [|lia].
  split; [reflexivity|]. split; [exact RI'|reflexivity].
Qed.
End Built.
Lemma fixed_sim : forall V (dflt : V) ops lists, run (as_lists (option V)) [] ops = Some lists -> exists st, run (fixed_impl dflt) [] ops = Some st.
Proof. intros V dflt ops lists H. destruct (C23_merging_fixed_columns V dflt ops lists H) as (st & E & _). exists st. exact E. Qed.
Lemma string_sim : forall ops lists, run (as_small_lists texts_size two32) [] ops = Some lists -> exists st, run string_impl [] ops = Some st.
Proof. intros ops lists H. destruct (C23_merging_string_columns ops lists H) as (st & E & _). exists st. exact E. Qed.

(** ** Cells *)
Lemma text_bytes_app : forall a b, text_bytes (a ++ b) = text_bytes a + text_bytes b.
Proof. induction a as [|[[]|] a IH]; intros d; cbn [app text_bytes]; rewrite ?IH; lia. Qed.
Lemma texts_text_bytes : forall l, texts_size l = N.of_nat (text_bytes (map (option_map CBytes) l)).
Proof.
  intros l. unfold texts_size. f_equal. induction l as [|[s|] l IH]; cbn [map option_map text concat text_bytes]; [reflexivity| |].
  - rewrite app_length, IH. reflexivity.
  - cbn [app]. exact IH.
Qed.
Lemma in_app_some : forall V (P : V -> Prop) a b, (forall z, In (Some z) a -> P z) -> (forall z, In (Some z) b -> P z) -> forall z, In (Some z) (a ++ b) -> P z.
Proof. intros V P a b Ha Hb z H. apply in_app_or in H. destruct H; auto. Qed.

Lemma created : forall t, column_built t (create_builder t) [].
Proof.
  intros t. split; [destruct t; reflexivity|]. destruct t; cbn [create_builder]; exists []; split; try (apply built_new); try reflexivity; try (split; [intros ? []|reflexivity]).
Qed.
(** What may be appended to a column of type [t]. *)
Definition value_fits (t : data_type) (v : @value N) : Prop :=
  match stored_type t, v with
  | BOOL, VBool _ => True
  | INT32, VInt z | DATE, VInt z => int32 z
  | INT64, VInt z | TIMESTAMP, VInt z => int64 z
  | FLOAT64, VFloat f => (f < 2 ^ 64)%N
  | STRING, VString _ => True
  | _, _ => False
  end.
Lemma push_fixed : forall V (dflt : V) c l e, fixed_built dflt c l -> exists c', fx_push dflt c e = Some c' /\ fixed_built dflt c' (l ++ [e]).
Proof. intros V dflt c l e H. apply (built_push _ _ (fixed_sim V dflt) c l e (l ++ [e]) H). reflexivity. Qed.
Lemma merge_fixed : forall V (dflt : V) c l d m, fixed_built dflt c l -> fixed_built dflt d m -> exists c', fx_merge_from c d = Some c' /\ fixed_built dflt c' (l ++ m).
Proof. intros V dflt c l d m H1 H2. apply (built_append _ _ (fixed_sim V dflt) c l d m (l ++ m) H1 H2). reflexivity. Qed.
Lemma push_string : forall c l e, strings_built c l -> (texts_size (l ++ [e]) < two32)%N -> exists c', st_push c e = Some c' /\ strings_built c' (l ++ [e]).
Proof.
  intros c l e H HS. apply (built_push _ _ string_sim c l e (l ++ [e]) H). cbn [as_small_lists i_push guard]. unfold guard. destruct (N.ltb_spec (texts_size (l ++ [e])) two32); [reflexivity|lia].
Qed.
Lemma merge_string : forall c l d m, strings_built c l -> strings_built d m -> (texts_size (l ++ m) < two32)%N -> exists c', st_merge_from c d = Some c' /\ strings_built c' (l ++ m).
Proof.
  intros c l d m H1 H2 HS. apply (built_append _ _ string_sim c l d m (l ++ m) H1 H2). cbn [as_small_lists i_append]. unfold guard. destruct (N.ltb_spec (texts_size (l ++ m)) two32); [reflexivity|lia].
Qed.
Lemma snoc_in : forall V (P : V -> Prop) l (e : option V), (forall z, In (Some z) l -> P z) -> (forall z, e = Some z -> P z) -> forall z, In (Some z) (l ++ [e]) -> P z.
Proof. intros V P l e H1 H2. apply in_app_some; [exact H1|]. intros z [->|[]]. auto. Qed.
Lemma append_built : forall t a c v, column_built t a c -> (forall x, v = Some x -> value_fits t x) -> (N.of_nat (text_bytes (c ++ [option_map cell_of v])) < 2 ^ 32)%N ->
  exists a', append_cell a v = Some a' /\ column_built t a' (c ++ [option_map cell_of v]).
Proof.
  intros t a c v [HT HB] HV HS. unfold value_fits in HV. rewrite <- HT in HV.
  destruct a as [x|x|x|x|x|x|x]; cbn [ac_type] in *.
  - destruct HB as (l & B & ->). destruct v as [v|].
    + specialize (HV v eq_refl). destruct v as [b| | |]; try contradiction. destruct (push_fixed _ _ _ _ (Some (if b then 1 else 0)%N) B) as (x' & E & B'). exists (ABool x'). cbn [append_cell]. rewrite E. split; [reflexivity|]. split; [exact HT|].
      exists (l ++ [Some (if b then 1 else 0)%N]). split; [exact B'|]. rewrite map_app. destruct b; reflexivity.
    + destruct (push_fixed _ _ _ _ None B) as (x' & E & B'). exists (ABool x'). cbn [append_cell]. rewrite E. split; [reflexivity|]. split; [exact HT|]. exists (l ++ [None]). split; [exact B'|]. rewrite map_app. reflexivity.
  - destruct HB as (l & B & R & ->). destruct v as [v|].
    + specialize (HV v eq_refl). destruct v as [|z| |]; try contradiction. destruct (push_fixed _ _ _ _ (Some z) B) as (x' & E & B'). exists (AInt32 x'). cbn [append_cell]. rewrite E. split; [reflexivity|]. split; [exact HT|].
      exists (l ++ [Some z]). split; [exact B'|]. split; [apply snoc_in; [exact R|intros y [= <-]; exact HV]|]. rewrite map_app. reflexivity.
    + destruct (push_fixed _ _ _ _ None B) as (x' & E & B'). exists (AInt32 x'). cbn [append_cell]. rewrite E. split; [reflexivity|]. split; [exact HT|]. exists (l ++ [None]). split; [exact B'|]. split; [apply snoc_in; [exact R|discriminate]|]. rewrite map_app. reflexivity.
  - destruct HB as (l & B & R & ->). destruct v as [v|].
    + specialize (HV v eq_refl). destruct v as [|z| |]; try contradiction. destruct (push_fixed _ _ _ _ (Some z) B) as (x' & E & B'). exists (AInt64 x'). cbn [append_cell]. rewrite E. split; [reflexivity|]. split; [exact HT|].
      exists (l ++ [Some z]). split; [exact B'|]. split; [apply snoc_in; [exact R|intros y [= <-]; exact HV]|]. rewrite map_app. reflexivity.
    + destruct (push_fixed _ _ _ _ None B) as (x' & E & B'). exists (AInt64 x'). cbn [append_cell]. rewrite E. split; [reflexivity|]. split; [exact HT|]. exists (l ++ [None]). split; [exact B'|]. split; [apply snoc_in; [exact R|discriminate]|]. rewrite map_app. reflexivity.
  - destruct HB as (l & B & R & ->). destruct v as [v|].
    + specialize (HV v eq_refl). destruct v as [| |f|]; try contradiction. destruct (push_fixed _ _ _ _ (Some f) B) as (x' & E & B'). exists (AFloat64 x'). cbn [append_cell]. rewrite E. split; [reflexivity|]. split; [exact HT|].
      exists (l ++ [Some f]). split; [exact B'|]. split; [apply snoc_in; [exact R|intros y [= <-]; exact HV]|]. rewrite map_app. reflexivity.
    + destruct (push_fixed _ _ _ _ None B) as (x' & E & B'). exists (AFloat64 x'). cbn [append_cell]. rewrite E. split; [reflexivity|]. split; [exact HT|]. exists (l ++ [None]). split; [exact B'|]. split; [apply snoc_in; [exact R|discriminate]|]. rewrite map_app. reflexivity.
  - destruct HB as (l & B & ->).
    assert (W : forall e, option_map cell_of v = option_map CBytes e -> (texts_size (l ++ [e]) < two32)%N).
    { intros e He. rewrite texts_text_bytes, map_app. cbn [map]. rewrite <- He. exact HS. }
    destruct v as [v|].
    + specialize (HV v eq_refl). destruct v as [| | |s]; try contradiction. destruct (push_string _ _ (Some s) B (W (Some s) eq_refl)) as (x' & E & B'). exists (AString x'). cbn [append_cell]. rewrite E. split; [reflexivity|]. split; [exact HT|].
      exists (l ++ [Some s]). split; [exact B'|]. rewrite map_app. reflexivity.
    + destruct (push_string _ _ None B (W None eq_refl)) as (x' & E & B'). exists (AString x'). cbn [append_cell]. rewrite E. split; [reflexivity|]. split; [exact HT|]. exists (l ++ [None]). split; [exact B'|]. rewrite map_app. reflexivity.
  - destruct HB as (l & B & R & ->). destruct v as [v|].
    + specialize (HV v eq_refl). destruct v as [|z| |]; try contradiction. destruct (push_fixed _ _ _ _ (Some z) B) as (x' & E & B'). exists (ADate x'). cbn [append_cell]. rewrite E. split; [reflexivity|]. split; [exact HT|].
      exists (l ++ [Some z]). split; [exact B'|]. split; [apply snoc_in; [exact R|intros y [= <-]; exact HV]|]. rewrite map_app. reflexivity.
    + destruct (push_fixed _ _ _ _ None B) as (x' & E & B'). exists (ADate x'). cbn [append_cell]. rewrite E. split; [reflexivity|]. split; [exact HT|]. exists (l ++ [None]). split; [exact B'|]. split; [apply snoc_in; [exact R|discriminate]|]. rewrite map_app. reflexivity.
  - destruct HB as (l & B & R & ->). destruct v as [v|].
    + specialize (HV v eq_refl). destruct v as [|z| |]; try contradiction. destruct (push_fixed _ _ _ _ (Some z) B) as (x' & E & B'). exists (ATimestamp x'). cbn [append_cell]. rewrite E. split; [reflexivity|]. split; [exact HT|].
      exists (l ++ [Some z]). split; [exact B'|]. split; [apply snoc_in; [exact R|intros y [= <-]; exact HV]|]. rewrite map_app. reflexivity.
    + destruct (push_fixed _ _ _ _ None B) as (x' & E & B'). exists (ATimestamp x'). cbn [append_cell]. rewrite E. split; [reflexivity|]. split; [exact HT|]. exists (l ++ [None]). split; [exact B'|]. split; [apply snoc_in; [exact R|discriminate]|]. rewrite map_app. reflexivity.
Qed.
Lemma appends_built : forall t vs a c, column_built t a c -> (forall x, In (Some x) vs -> value_fits t x) -> (N.of_nat (text_bytes (c ++ map (option_map cell_of) vs)) < 2 ^ 32)%N ->
  exists a', append_cells a vs = Some a' /\ column_built t a' (c ++ map (option_map cell_of) vs).
Proof.
  intros t. induction vs as [|v vs IH]; intros a c HB HV HS; cbn [append_cells map].
  - exists a. rewrite app_nil_r. split; [reflexivity|exact HB].
  - cbn [map] in HS. destruct (append_built t a c v HB) as (a' & E & B'); [intros x ->; apply HV; left; reflexivity| |].
    + rewrite text_bytes_app in HS |- *. change (option_map cell_of v :: map (option_map cell_of) vs) with ([option_map cell_of v] ++ map (option_map cell_of) vs) in HS. rewrite text_bytes_app in HS. lia.
    + rewrite E. assert (X : c ++ option_map cell_of v :: map (option_map cell_of) vs = (c ++ [option_map cell_of v]) ++ map (option_map cell_of) vs) by (rewrite <- app_assoc; reflexivity). rewrite X in *.
      apply IH; [exact B'|intros x Hx; apply HV; right; exact Hx|exact HS].
Qed.
Lemma merge_built : forall t a c b d, column_built t a c -> column_built t b d -> (stored_type t = STRING -> (N.of_nat (text_bytes (c ++ d)) < 2 ^ 32)%N) ->
  exists a', merge_column a b = Some a' /\ column_built t a' (c ++ d).
Proof.
  intros t a c b d [HT HB] [HT' HB'] HS. rewrite <- HT in HT'.
  destruct a as [x|x|x|x|x|x|x]; destruct b as [y|y|y|y|y|y|y]; try discriminate HT'; cbn [ac_type merge_column] in *.
  1: { destruct HB as (l & B & ->), HB' as (m & B' & ->). destruct (merge_fixed _ _ _ _ _ _ B B') as (x' & E & B2). rewrite E. eexists. split; [reflexivity|]. split; [exact HT|]. exists (l ++ m). split; [exact B2|]. rewrite map_app. reflexivity. }
  4: { destruct HB as (l & B & ->), HB' as (m & B' & ->).
       assert (W : (texts_size (l ++ m) < two32)%N) by (rewrite texts_text_bytes, map_app; apply HS; symmetry; exact HT).
       destruct (merge_string _ _ _ _ B B' W) as (x' & E & B2). rewrite E. eexists. split; [reflexivity|]. split; [exact HT|]. exists (l ++ m). split; [exact B2|]. rewrite map_app. reflexivity. }
  all: destruct HB as (l & B & R & ->), HB' as (m & B' & R' & ->); destruct (merge_fixed _ _ _ _ _ _ B B') as (x' & E & B2); rewrite E; eexists; split; [reflexivity|]; split; [exact HT|];
    exists (l ++ m); split; [exact B2|]; split; [apply in_app_some; assumption|rewrite map_app; reflexivity].
Qed.
