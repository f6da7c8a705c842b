(** The row groups. *)
From Verif Require Import Base VarintSpec BuffersSpec BuffersModel BuffersReach TypesSpec TypesModel ReaderSpec PlainSpec ParquetModel ParquetObs ParquetProof ConvertModel ConvertObs ConvertProof ConvertProof2.
Local Notation cells := (list (list (option cell))) (only parsing).

Lemma built_holds : forall t a c, column_built t a c -> column_holds a c.
Proof.
  intros t a c [_ H]. destruct a; cbn [column_holds]; try (destruct H as (l & B & R & E); eexists _, l; split; [exact B|]; split; assumption).
  - destruct H as (l & B & E). exists 0%N, l. split; assumption.
  - exact H.
Qed.
Lemma built_size : forall t a c, column_built t a c -> ac_size a = length c.
Proof. intros t a c H. destruct (holds_shows a c (built_holds _ _ _ H)) as [_ ->]. reflexivity. Qed.
Lemma chunk_size : forall ts aa cc, chunk_built ts aa cc -> size_of aa = rows_of cc /\ has_columns aa = has_columns cc.
Proof.
  intros ts aa cc [[-> ->]|[n H]]; [split; reflexivity|]. destruct H as [|t ts a aa c cc HB HL _]; [split; reflexivity|]. cbn [size_of rows_of has_columns]. split; [|reflexivity]. apply (built_size _ _ _ HB).
Qed.
Lemma concat_filter : forall m (css : list cells), concat_columns m (filter has_columns css) = concat_columns m css.
Proof.
  intros m css. unfold concat_columns. apply map_ext. intros k. induction css as [|c css IH]; [reflexivity|]. cbn [filter map concat]. destruct c as [|x c]; cbn [has_columns].
  - rewrite IH. destruct k; reflexivity.
  - cbn [map concat]. rewrite IH. reflexivity.
Qed.
Lemma rows_in_cons : forall (c : cells) css, rows_in (c :: css) = rows_of c + rows_in css.
Proof. reflexivity. Qed.
Lemma rows_filter : forall css : list cells, rows_in (filter has_columns css) = rows_in css.
Proof. induction css as [|c css IH]; [reflexivity|]. cbn [filter]. destruct c as [|x c]; cbn [has_columns]; rewrite ?rows_in_cons, ?IH; reflexivity. Qed.
Lemma rows_app : forall a b : list cells, rows_in (a ++ b) = rows_in a + rows_in b.
Proof. intros. unfold rows_in. rewrite map_app, list_sum_app. reflexivity. Qed.
Lemma removelast_rows : forall a : list cells, rows_in (removelast a) <= rows_in a.
Proof. intros a. destruct a as [|x a] using rev_ind; [cbn; lia|]. rewrite removelast_last, rows_app. lia. Qed.
Lemma Forall2_split : forall A B (R : A -> B -> Prop) x y l, Forall2 R (x ++ y) l -> exists u v, l = u ++ v /\ Forall2 R x u /\ Forall2 R y v.
Proof. intros A B R x y l H. apply Forall2_app_inv_l in H. destruct H as (u & v & H1 & H2 & ->). exists u, v. auto. Qed.
Lemma size_rows : forall ts part css, Forall2 (chunk_built ts) part css -> list_sum (map size_of part) = rows_in css.
Proof.
  intros ts part css H. induction H as [|a c part css HC _ IH]; [reflexivity|]. rewrite rows_in_cons. cbn [map].
  change (list_sum (size_of a :: map size_of part)) with (size_of a + list_sum (map size_of part)). rewrite IH. destruct (chunk_size _ _ _ HC) as [-> _]. reflexivity.
Qed.

(** The cells of the pieces. *)
Lemma cut_cells : forall ts T parts, cut T parts -> forall css, Forall2 (chunk_built ts) (concat parts) css ->
  exists cparts, concat cparts = css /\ Forall2 (Forall2 (chunk_built ts)) parts cparts /\
    (forall before part after, map (filter has_columns) cparts = before ++ part :: after -> rows_in (removelast part) < T /\ (after <> [] -> T <= rows_in part)).
Proof.
  intros ts T parts H. induction H as [|part HN HT|part x rest HX HT HG _ IH]; intros css HF; cbn [concat] in HF.
  - inversion HF. exists []. split; [reflexivity|]. split; [constructor|]. intros [|b before] part after E; discriminate E.
  - rewrite app_nil_r in HF. exists [css]. cbn [concat]. rewrite app_nil_r. split; [reflexivity|]. split; [repeat constructor; exact HF|].
    intros before p after E. cbn [map] in E. destruct before as [|b before]; [|destruct before; discriminate E]. injection E as <- <-. split; [|intros X; contradiction].
    pose proof (removelast_rows (filter has_columns css)). rewrite rows_filter in H. rewrite (size_rows _ _ _ HF) in HT. lia.
  - apply Forall2_split in HF. destruct HF as (u & v & -> & HU & HV). destruct (IH v HV) as (cparts & C1 & C2 & C3).
    exists (u :: cparts). cbn [concat]. rewrite C1. split; [reflexivity|]. split; [constructor; assumption|].
    intros before p after E. cbn [map] in E. destruct before as [|b before]; [|injection E as _ E; exact (C3 _ _ _ E)]. injection E as <- <-.
    pose proof HU as HU'. apply Forall2_split in HU'. destruct HU' as (u1 & u2 & -> & H1 & H2). inversion H2 as [|x' c l l' HC HNil]; subst. inversion HNil; subst. clear HNil.
    assert (HXC : has_columns c = true). { destruct (chunk_size _ _ _ HC) as [_ <-]. destruct x; [|reflexivity]. destruct HX as [HX|HX]; [cbn in HX; lia|contradiction]. }
    rewrite filter_app. cbn [filter]. rewrite HXC. rewrite removelast_last, rows_filter. split.
    + rewrite <- (size_rows _ _ _ H1). exact HT.
    + intros _. rewrite rows_app, rows_filter. rewrite (size_rows _ _ _ HU), rows_app in HG. exact HG.
Qed.

Lemma small_parts : forall ts m cparts, m = length ts -> (forall c, In c (concat cparts) -> length (widen m c) = m) -> untyped_text_small ts (concat_columns m (concat cparts)) ->
  forall part, In part cparts -> untyped_text_small ts (concat_columns m part).
Proof.
  intros ts m cparts Hm HW HS part HI. apply in_split in HI. destruct HI as (b & a & ->). rewrite concat_app in HS, HW. cbn [concat] in HS, HW.
  assert (A : forall x y, (forall c, In c x -> length (widen m c) = m) -> concat_columns m (x ++ y) = glue (concat_columns m x) (concat_columns m y)).
  { induction x as [|c x IH]; intros y Hx; cbn [app].
    - rewrite concat_columns_nil. rewrite <- (concat_columns_length _ m y) at 2. rewrite nil_glue. reflexivity.
    - rewrite !concat_columns_cons by (apply Hx; left; reflexivity). rewrite IH by (intros z Hz; apply Hx; right; exact Hz). rewrite glue_assoc; [reflexivity| |]; rewrite ?concat_columns_length; [apply Hx; left; reflexivity|reflexivity]. }
  assert (B : forall x y, length x = m -> length y = m -> untyped_text_small ts (glue x y) -> untyped_text_small ts y).
  { clear - Hm. subst m. induction ts as [|t ts IH]; intros [|x a] [|y b] L1 L2 H; cbn [length glue untyped_text_small] in *; try lia; try exact I. destruct H as [H1 H2]. split; [|eapply IH; [| |exact H2]; lia].
    intros Ht. specialize (H1 Ht). rewrite text_bytes_app in H1. lia. }
  rewrite A in HS by (intros c Hc; apply HW, in_or_app; left; exact Hc). apply B in HS; [|apply concat_columns_length|apply concat_columns_length].
  rewrite A in HS by (intros c Hc; apply HW, in_or_app; right; apply in_or_app; left; exact Hc).
  eapply small_weaken; [| |exact HS]; rewrite concat_columns_length; exact Hm.
Qed.
Lemma created_columns : forall ts, columns_built 0 ts (map create_builder ts) (repeat [] (length ts)).
Proof. induction ts as [|t ts IH]; cbn [map length repeat]; constructor; [apply created|reflexivity|exact IH]. Qed.
Lemma strings_flag : forall schema, has_strings schema = existsb (fun t => match t with STRING => true | _ => false end) (map cs_type schema).
Proof. intros schema. unfold has_strings. induction schema as [|s schema IH]; [reflexivity|]. cbn [existsb map]. rewrite IH. f_equal. destruct (cs_type s); reflexivity. Qed.

Lemma filter_le : forall A (f : A -> bool) l, length (filter f l) <= length l.
Proof. intros A f l. induction l as [|x l IH]; [apply le_n|]. cbn [filter]. destruct (f x); cbn [length]; lia. Qed.
Lemma all_length : forall A (l : list (option A)) r, all_or_none l = Some r -> length r = length l.
Proof. intros A l. induction l as [|[a|] l IH]; intros r E; cbn [all_or_none] in E; [injection E as <-; reflexivity| |discriminate]. destruct (all_or_none l) as [s|]; [|discriminate]. injection E as <-. cbn [length]. rewrite (IH _ eq_refl). reflexivity. Qed.
Lemma cut_count : forall T parts, cut T parts -> length parts <= length (concat parts).
Proof.
  intros T parts H. induction H as [|part HN HT|part x rest HX HT HG _ IH]; cbn [concat length]; [lia| |].
  - rewrite app_nil_r. destruct part; [contradiction|]. cbn [length]. lia.
  - rewrite !app_length. cbn [length]. lia.
Qed.
Lemma target_value : N.of_nat TARGET_ROW_GROUP_SIZE = 262144%N.
Proof. unfold TARGET_ROW_GROUP_SIZE. rewrite N2Nat.id. reflexivity. Qed.
Lemma row_groups_ok : forall schema chunks css, Forall2 (chunk_built (map cs_type schema)) chunks css ->
  (has_strings schema = false -> untyped_text_small (map cs_type schema) (concat_columns (length schema) css)) ->
  exists groups parts, row_groups schema chunks = Some groups /\ concat parts = filter has_columns css /\
    Forall2 (fun g part => exists n, columns_built n (map cs_type schema) g (concat_columns (length schema) part)) groups parts /\
    joined (map cs_type schema) (length chunks) parts /\ length groups <= length chunks.
Proof.
  intros schema chunks css HF HS. set (ts := map cs_type schema) in *. assert (LT : length ts = length schema) by apply map_length.
  assert (SINGLE : forall chunks css, Forall2 (chunk_built ts) chunks css -> Forall2 (fun g part => exists n, columns_built n ts g (concat_columns (length schema) part)) (filter has_columns chunks) (map (fun c => [c]) (filter has_columns css))).
  { intros ch cs H. induction H as [|a c ch cs HC _ IH]; [constructor|]. cbn [filter]. pose proof (chunk_widen _ _ _ HC) as LW. destruct (chunk_size _ _ _ HC) as [_ ->]. destruct (has_columns c) eqn:HH; [|exact IH].
    cbn [map]. constructor; [|exact IH]. destruct HC as [[-> ->]|[n HC]]; [discriminate HH|]. exists n. rewrite concat_columns_cons by (rewrite LT in LW; exact LW). rewrite concat_columns_nil. destruct c as [|x c]; [discriminate HH|]. cbn [widen].
    destruct (columns_built_length _ _ _ _ HC) as [_ LC]. rewrite <- LT, <- LC, glue_nil. exact HC. }
  assert (ONES : forall l : list cells, Forall (fun part : list cells => length part = 1) (map (fun c => [c]) l)) by (intros l; apply Forall_map, Forall_forall; reflexivity).
  assert (CS : forall l : list cells, concat (map (fun c => [c]) l) = l) by (induction l as [|x l IH]; [reflexivity|cbn [map concat app]; rewrite IH; reflexivity]).
  destruct chunks as [|c1 [|c2 r]].
  - inversion HF; subst. exists [], []. split; [reflexivity|]. split; [reflexivity|]. split; [constructor|]. split; [apply Forall_nil|apply le_n].
  - inversion HF as [|x k l l' HC HN]; subst. inversion HN; subst. exists (filter has_columns [c1]), (map (fun c => [c]) (filter has_columns [k])). split; [reflexivity|]. split; [apply CS|]. split; [apply SINGLE; exact HF|]. split; [apply ONES|apply filter_le].
  - unfold row_groups, joined. replace (length (c1 :: c2 :: r) <=? 1) with false by reflexivity. cbn [orb]. unfold ts at 2. rewrite <- strings_flag. set (chunks := c1 :: c2 :: r) in *. clearbody chunks.
    destruct (has_strings schema) eqn:HSt.
    + exists (filter has_columns chunks), (map (fun c => [c]) (filter has_columns css)). split; [reflexivity|]. split; [apply CS|]. split; [apply SINGLE; exact HF|]. split; [apply ONES|apply filter_le].
    + specialize (HS eq_refl). destruct (batches_cut chunks) as (parts & C & CC & M). rewrite <- CC in HF. destruct (cut_cells ts _ _ C css HF) as (cparts & D1 & D2 & D3).
      assert (NS : Forall (fun t => t <> STRING) ts).
      { apply Forall_forall. intros t Ht ->. rewrite strings_flag in HSt. fold ts in HSt. assert (X : existsb (fun t => match t with STRING => true | _ => false end) ts = true) by (apply existsb_exists; exists STRING; auto). congruence. }
      assert (W : forall c, In c css -> length (widen (length schema) c) = length schema).
      { intros c Hc. clear - HF Hc LT. induction HF as [|a x l l' HC _ IH]; [destruct Hc|]. destruct Hc as [->|Hc]; [|apply IH, Hc]. pose proof (chunk_widen _ _ _ HC) as LW. rewrite LT in LW. exact LW. }
      assert (MB : forall part cp, Forall2 (chunk_built ts) part cp -> untyped_text_small ts (concat_columns (length schema) cp) ->
        exists g, merge_chunks (map (fun s => create_builder (cs_type s)) schema) part = Some g /\ exists n, columns_built n ts g (concat_columns (length schema) cp)).
      { intros part cp Hp Hsm. destruct (merge_chunks_built ts part cp NS Hp 0 _ _ (created_columns ts)) as (n & g & E & B).
        - rewrite LT. rewrite <- (concat_columns_length _ (length schema) cp) at 1. rewrite nil_glue. exact Hsm.
        - exists g. unfold ts in E. rewrite map_map in E. split; [exact E|]. exists n. rewrite LT in B. rewrite <- (concat_columns_length _ (length schema) cp) in B at 1. rewrite nil_glue in B. exact B. }
      assert (SM : forall part, In part cparts -> untyped_text_small ts (concat_columns (length schema) part)).
      { apply small_parts; [symmetry; exact LT|rewrite D1; exact W|rewrite D1; exact HS]. }
      assert (G : exists groups, all_or_none (map (merge_chunks (map (fun s => create_builder (cs_type s)) schema)) parts) = Some groups /\
        Forall2 (fun g part => exists n, columns_built n ts g (concat_columns (length schema) part)) groups cparts).
      { clear - D2 MB SM. induction D2 as [|part cp parts cparts H _ IH]; [exists []; split; [reflexivity|constructor]|].
        destruct (MB part cp H (SM cp (or_introl eq_refl))) as (g & E & B). destruct IH as (groups & E2 & B2); [intros p Hp; apply SM; right; exact Hp|].
        exists (g :: groups). cbn [map all_or_none]. rewrite E, E2. split; [reflexivity|]. constructor; assumption. }
      destruct G as (groups & E & B). exists groups, (map (filter has_columns) cparts).
      split; [|split; [|split; [|split]]].
      * rewrite <- E, <- M, map_map. reflexivity.
      * rewrite <- D1. clear. induction cparts as [|p cp IH]; [reflexivity|]. cbn [map concat]. rewrite filter_app, IH. reflexivity.
      * clear - B. induction B as [|g p groups cparts H _ IH]; cbn [map]; constructor; [|exact IH]. rewrite concat_filter. exact H.
      * intros before part after EQ. destruct (D3 _ _ _ EQ) as [R1 R2]. pose proof target_value as TV. generalize dependent TARGET_ROW_GROUP_SIZE. intros T C D3 R1 R2 TV. split; [lia|]. intros X. specialize (R2 X). lia.
      * clear - E C CC. pose proof (cut_count _ _ C) as L. rewrite CC in L. apply all_length in E. rewrite map_length in E. lia.
Qed.
