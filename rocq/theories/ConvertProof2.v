(** Batching. *)
From Verif Require Import Base VarintSpec BuffersSpec BuffersModel BuffersReach TypesSpec TypesModel ReaderSpec PlainSpec ParquetModel ParquetObs ConvertModel ConvertObs ConvertProof.

Local Notation cells := (list (list (option cell))) (only parsing).
(** Column-wise concatenation of two chunks. *)
Fixpoint glue (a b : cells) : cells := match a, b with x :: r, y :: s => (x ++ y) :: glue r s | _, _ => [] end.
Definition widen (m : nat) (c : cells) : cells := match c with [] => repeat [] m | _ => c end.
Lemma glue_length : forall a b, length a = length b -> length (glue a b) = length a.
Proof. induction a as [|x a IH]; intros [|y b] H; cbn [length glue] in *; try lia. rewrite IH; lia. Qed.
Lemma glue_assoc : forall a b c, length a = length b -> length b = length c -> glue (glue a b) c = glue a (glue b c).
Proof. induction a as [|x a IH]; intros [|y b] [|z c] H1 H2; cbn [length glue] in *; try lia; try reflexivity. rewrite app_assoc. f_equal. apply IH; lia. Qed.
Lemma glue_nil : forall a, glue a (repeat [] (length a)) = a.
Proof. induction a as [|x a IH]; cbn [length repeat glue]; [reflexivity|]. rewrite app_nil_r, IH. reflexivity. Qed.
Lemma nil_glue : forall a, glue (repeat [] (length a)) a = a.
Proof. induction a as [|x a IH]; cbn [length repeat glue]; [reflexivity|]. rewrite IH. reflexivity. Qed.
Lemma concat_columns_length : forall V m (l : list (list (list V))), length (concat_columns m l) = m.
Proof. intros. unfold concat_columns. rewrite map_length, seq_length. reflexivity. Qed.
Lemma concat_columns_nil : forall m, concat_columns m ([] : list cells) = repeat [] m.
Proof. intros m. unfold concat_columns. cbn [map concat]. generalize 0. induction m as [|m IH]; intros k; cbn [seq map repeat]; [reflexivity|]. f_equal. apply IH. Qed.
Lemma concat_columns_cons : forall m (c : cells) l, length (widen m c) = m -> concat_columns m (c :: l) = glue (widen m c) (concat_columns m l).
Proof.
  intros m c l H. unfold concat_columns. cbn [map concat].
  assert (G : forall w k f, length w = m - k -> k <= m -> (forall j, j < m - k -> nth j w [] = nth (k + j) c []) ->
     map (fun k => nth k c [] ++ f k) (seq k (m - k)) = glue w (map f (seq k (m - k)))).
  { clear H. intros w k f. remember (m - k) as n eqn:En. revert k w En. induction n as [|n IH]; intros k w En Hw Hk Hn; cbn [seq map]; [destruct w; [reflexivity|cbn in Hw; lia]|].
    destruct w as [|x w]; [cbn in Hw; lia|]. cbn [glue]. f_equal.
    - f_equal. specialize (Hn 0 ltac:(lia)). cbn [nth] in Hn. rewrite Nat.add_0_r in Hn. symmetry. exact Hn.
    - apply IH; [lia|cbn in Hw; lia|lia|]. intros j Hj. specialize (Hn (S j) ltac:(lia)). cbn [nth] in Hn. rewrite Hn. f_equal. lia. }
  specialize (G (widen m c) 0 (fun k => concat (map (fun cols => nth k cols []) l))). rewrite Nat.sub_0_r in G. apply G; [exact H|lia|].
  intros j Hj. destruct c; [|reflexivity]. cbn [widen]. rewrite nth_repeat. cbn [plus]. destruct j; reflexivity.
Qed.

Lemma columns_built_length : forall n ts aa cc, columns_built n ts aa cc -> length aa = length ts /\ length cc = length ts.
Proof. intros n ts aa cc H. induction H as [|t ts a aa c cc _ _ _ [IH1 IH2]]; cbn [length]; lia. Qed.
Lemma small_weaken : forall ts a b, length a = length ts -> length b = length ts -> untyped_text_small ts (glue a b) -> untyped_text_small ts a.
Proof.
  induction ts as [|t ts IH]; intros [|x a] [|y b] L1 L2 H; cbn [length glue untyped_text_small] in *; try lia; try exact I. destruct H as [H1 H2]. split; [|eapply IH; [| |exact H2]; lia].
  intros Ht. specialize (H1 Ht). rewrite text_bytes_app in H1. lia.
Qed.

(** Numeric batches: no column of type STRING. *)
Lemma merge_columns_built : forall ts, Forall (fun t => t <> STRING) ts -> forall n1 aa cc, columns_built n1 ts aa cc -> forall n2 bb dd, columns_built n2 ts bb dd -> untyped_text_small ts (glue cc dd) ->
  exists ee, merge_columns aa bb = Some ee /\ columns_built (n1 + n2) ts ee (glue cc dd).
Proof.
  intros ts HN n1 aa cc H. induction H as [|t ts a aa c cc HB HL _ IH]; intros n2 bb dd H2 HS; inversion H2 as [|t' ts' b bb' d dd' HB2 HL2 H2']; subst.
  - exists []. split; [reflexivity|constructor].
  - apply Forall_cons_iff in HN. destruct HN as [N1 N2]. cbn [glue untyped_text_small] in HS. destruct HS as [S1 S2].
    destruct (merge_built t a c b d HB HB2) as (e & E & BE); [intros _; apply S1, N1|].
    destruct (IH N2 _ _ _ H2' S2) as (ee & EE & BB). exists (e :: ee). cbn [merge_columns]. rewrite E, EE. split; [reflexivity|]. cbn [glue]. constructor; [exact BE|rewrite app_length; reflexivity|exact BB].
Qed.
Lemma chunk_widen : forall ts aa cc, chunk_built ts aa cc -> length (widen (length ts) cc) = length ts.
Proof. intros ts aa cc [[_ ->]|[n H]]; [apply repeat_length|]. apply columns_built_length in H. destruct cc; [apply repeat_length|apply H]. Qed.
Lemma merge_chunks_built : forall ts chunks css, Forall (fun t => t <> STRING) ts -> Forall2 (chunk_built ts) chunks css -> forall n aa cc, columns_built n ts aa cc ->
  untyped_text_small ts (glue cc (concat_columns (length ts) css)) ->
  exists n' ee, merge_chunks aa chunks = Some ee /\ columns_built n' ts ee (glue cc (concat_columns (length ts) css)).
Proof.
  intros ts chunks css HN H. induction H as [|bb dd chunks css HC HR IH]; intros n aa cc HB HS.
  - exists n, aa. split; [reflexivity|]. destruct (columns_built_length _ _ _ _ HB) as [_ L]. rewrite concat_columns_nil, <- L, glue_nil. exact HB.
  - destruct (columns_built_length _ _ _ _ HB) as [_ L]. rewrite (concat_columns_cons _ dd css (chunk_widen _ _ _ HC)) in HS |- *.
    assert (LW := chunk_widen _ _ _ HC). assert (LC := concat_columns_length _ (length ts) css).
    rewrite <- glue_assoc in HS |- * by lia. cbn [merge_chunks].
    destruct HC as [[-> ->]|[m HC]].
    + cbn [widen] in *. rewrite <- L in HS |- *. rewrite glue_nil in HS |- *. rewrite L in HS |- *. replace (merge_columns aa []) with (Some aa) by (destruct aa; reflexivity). exact (IH n aa cc HB HS).
    + assert (W : widen (length ts) dd = dd). { destruct dd; [|reflexivity]. destruct (columns_built_length _ _ _ _ HC) as [_ L2]. cbn in L2. rewrite <- L2. reflexivity. }
      rewrite W in *. destruct (merge_columns_built ts HN _ _ _ HB _ _ _ HC) as (ee & E & BE).
      { eapply small_weaken; [| |exact HS]; [rewrite glue_length; lia|lia]. }
      rewrite E. exact (IH _ _ _ BE HS).
Qed.

(** ** The batches *)
Definition size_of (c : list arrow_column) : nat := match c with [] => 0 | a :: _ => ac_size a end.
Lemma slice_mid : forall A (pre cur post : list A), slice (length pre) (length pre + length cur) (pre ++ cur ++ post) = cur.
Proof.
  intros. unfold slice. replace (length pre + length cur - length pre) with (length cur) by lia. rewrite skipn_app, skipn_all, Nat.sub_diag. cbn [skipn app]. rewrite firstn_app, firstn_all, Nat.sub_diag. cbn. apply app_nil_r.
Qed.
(** Consecutive pieces: every piece but the last has at least the target size, and none has it
    without its last chunk. *)
Inductive cut (T : nat) : list (list (list arrow_column)) -> Prop :=
| cut_nil : cut T []
| cut_last : forall part, part <> [] -> list_sum (map size_of part) < T -> cut T [part]
| cut_more : forall part x rest, size_of x <> 0 \/ x <> [] -> list_sum (map size_of part) < T -> T <= list_sum (map size_of (part ++ [x])) -> cut T rest -> cut T ((part ++ [x]) :: rest).
Lemma batch_loop_cut : forall r pre cur, list_sum (map size_of cur) < TARGET_ROW_GROUP_SIZE ->
  exists parts, cut TARGET_ROW_GROUP_SIZE parts /\ concat parts = cur ++ r /\
    map (fun b => slice (fst b) (snd b) (pre ++ cur ++ r)) (batch_loop (length (pre ++ cur)) (length pre) (list_sum (map size_of cur)) r) = parts.
Proof.
  induction r as [|c r IH]; intros pre cur HT.
  - cbn [batch_loop]. rewrite app_length. destruct (Nat.ltb_spec (length pre) (length pre + length cur)).
    + exists [cur]. split; [constructor; [destruct cur; [cbn in H; lia|discriminate]|exact HT]|]. cbn [concat map fst snd]. split; [reflexivity|]. rewrite slice_mid. reflexivity.
    + assert (cur = []) by (destruct cur; [reflexivity|cbn in H; lia]). subst cur. exists []. split; [constructor|]. split; reflexivity.
  - cbn [batch_loop]. assert (LS : list_sum (map size_of (cur ++ [c])) = list_sum (map size_of cur) + size_of c) by (rewrite map_app, list_sum_app; cbn; lia).
    assert (NEXT : S (length (pre ++ cur)) = length (pre ++ cur ++ [c])) by (rewrite !app_length; cbn; lia).
    assert (EQ : pre ++ cur ++ c :: r = pre ++ (cur ++ [c]) ++ r) by (rewrite <- app_assoc; reflexivity).
    destruct c as [|a c'].
    + cbn [size_of] in LS. rewrite Nat.add_0_r in LS. destruct (IH pre (cur ++ [[]])) as (parts & C & CC & M); [lia|]. exists parts. split; [exact C|]. split; [rewrite CC, <- app_assoc; reflexivity|].
      rewrite NEXT, EQ, <- LS. exact M.
    + cbn [size_of] in LS. rewrite <- LS. destruct (Nat.leb_spec TARGET_ROW_GROUP_SIZE (list_sum (map size_of (cur ++ [a :: c'])))).
      * destruct (IH (pre ++ cur ++ [a :: c']) []) as (parts & C & CC & M); [cbn; lia|]. exists ((cur ++ [a :: c']) :: parts). split; [constructor; [right; discriminate|exact HT|exact H|exact C]|].
        cbn [concat]. rewrite CC. split; [rewrite <- app_assoc; reflexivity|]. cbn [map fst snd]. f_equal.
        -- rewrite EQ, NEXT, app_length. apply slice_mid.
        -- rewrite NEXT. cbn [app map list_sum fold_right] in M. rewrite app_nil_r in M. rewrite EQ. rewrite <- !app_assoc in *. exact M.
      * destruct (IH pre (cur ++ [a :: c']) H) as (parts & C & CC & M). exists parts. split; [exact C|]. split; [rewrite CC, <- app_assoc; reflexivity|]. rewrite NEXT, EQ. exact M.
Qed.

Lemma batches_cut : forall chunks, exists parts, cut TARGET_ROW_GROUP_SIZE parts /\ concat parts = chunks /\ map (fun b => slice (fst b) (snd b) chunks) (batches chunks) = parts.
Proof.
  intros chunks. destruct (batch_loop_cut chunks [] []) as (parts & H); [cbn; assert (TARGET_ROW_GROUP_SIZE <> 0) by (unfold TARGET_ROW_GROUP_SIZE; lia); lia|]. exists parts. exact H.
Qed.
