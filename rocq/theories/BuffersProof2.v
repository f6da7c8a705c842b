(** Proofs about string buffers, column builders and their Arrow export. *)
From Verif Require Import Base BuffersSpec BuffersModel BuffersObs BuffersProof.

(** ** String buffers *)
(** Offsets without wrap-around. *)
Fixpoint ends (base : N) (l : list bytes) : list N :=
  match l with
  | [] => []
  | s :: r => (base + N.of_nat (length s))%N :: ends (base + N.of_nat (length s))%N r
  end.

Definition sinv (b : strbuf) (l : list (option bytes)) : Prop :=
  (texts_size l < two32)%N /\ sb_data b = concat (map text l) /\ sb_offsets b = 0%N :: ends 0 (map text l).

Lemma ends_app : forall a b base, ends base (a ++ b) = ends base a ++ ends (base + N.of_nat (length (concat a))) b.
Proof.
  induction a as [|s a IH]; intros b base; cbn [app ends concat length].
  - rewrite N.add_0_r. reflexivity.
  - rewrite IH, app_length. do 3 f_equal. lia.
Qed.

Lemma ends_shift : forall l base k, map (fun o => (o + k)%N) (ends base l) = ends (base + k) l.
Proof.
  induction l as [|s l IH]; intros base k; cbn [ends map]; [reflexivity|].
  rewrite IH. replace (base + N.of_nat (length s) + k)%N with (base + k + N.of_nat (length s))%N by lia. reflexivity.
Qed.

Lemma ends_bound : forall l base o, In o (ends base l) -> (o <= base + N.of_nat (length (concat l)))%N.
Proof.
  induction l as [|s l IH]; intros base o H; cbn [ends In concat] in *; [contradiction|].
  rewrite app_length. destruct H as [<-|H]; [lia|]. apply IH in H. lia.
Qed.

Lemma u32_small : forall n, (n < two32)%N -> u32 n = n.
Proof. intros. apply N.mod_small; assumption. Qed.

Lemma texts_size_app : forall a b, texts_size (a ++ b) = (texts_size a + texts_size b)%N.
Proof. intros. unfold texts_size. rewrite map_app, concat_app, app_length. lia. Qed.

Lemma sinv_push : forall b l e, sinv b l -> (texts_size (l ++ [e]) < two32)%N ->
  sinv (match e with Some s => sb_push_back b s | None => sb_push_back_empty b end) (l ++ [e]).
Proof.
  intros b l e (Ht & Hd & Ho) Hn.
  assert (E : match e with Some s => sb_push_back b s | None => sb_push_back_empty b end =
              sb_push_back b (text e)).
  { destruct e; [reflexivity|]. unfold sb_push_back_empty, sb_push_back, text. rewrite app_nil_r. reflexivity. }
  rewrite E. unfold sb_push_back, sinv. cbn [sb_data sb_offsets].
  rewrite map_app, concat_app, Hd, Ho. cbn [map concat]. rewrite app_nil_r.
  split; [assumption|]. split; [reflexivity|].
  rewrite ends_app. cbn [ends app]. do 2 f_equal.
  rewrite app_length. rewrite u32_small.
  - f_equal. lia.
  - unfold texts_size in Hn. rewrite map_app, concat_app, app_length in Hn. cbn [map concat] in Hn.
    rewrite app_nil_r in Hn. assumption.
Qed.

Lemma sinv_append : forall b l o lo, sinv b l -> sinv o lo -> (texts_size (l ++ lo) < two32)%N ->
  exists b', sb_append_from b o = Some b' /\ sinv b' (l ++ lo).
Proof.
  intros b l o lo (Ht & Hd & Ho) (Ot & Od & Oo) Hn. unfold sb_append_from. eexists; split; [reflexivity|].
  unfold sinv. cbn [sb_data sb_offsets]. split; [assumption|]. rewrite map_app, concat_app, Hd, Od.
  split; [reflexivity|]. rewrite Ho, Oo. cbn [skipn]. rewrite ends_app. cbn [app]. do 2 f_equal.
  rewrite N.add_0_l. fold (texts_size l). rewrite (u32_small (texts_size l)) by assumption.
  transitivity (ends (0 + texts_size l) (map text lo)); [|rewrite N.add_0_l; reflexivity].
  rewrite <- ends_shift.
  apply map_ext_in. intros x Hx. apply ends_bound in Hx. fold (texts_size lo) in Hx.
  apply u32_small. rewrite texts_size_app in Hn. lia.
Qed.

Lemma two32_pos : (0 < two32)%N. Proof. reflexivity. Qed.

Lemma sinv_new : sinv sb_new [].
Proof. repeat split. Qed.

Lemma strbuf_simulates : simulates sinv strbuf_impl (as_small_lists texts_size two32).
Proof.
  constructor; cbn [strbuf_impl as_small_lists i_new i_push i_append i_clear i_finalize]; unfold guard.
  - apply sinv_new.
  - intros s l e l' H E. destruct (N.ltb_spec (texts_size (l ++ [e])) two32); [|discriminate]. injection E as <-.
    eexists; split; [reflexivity|]. apply sinv_push; assumption.
  - intros s l t m l' H Ht E. destruct (N.ltb_spec (texts_size (l ++ m)) two32); [|discriminate]. injection E as <-.
    apply sinv_append; assumption.
  - intros s l l' H E. injection E as <-. eexists; split; [reflexivity|]. apply sinv_new.
  - intros s l l' H E. injection E as <-. eauto.
Qed.

Lemma ends_nth : forall l i s base, nth_error l i = Some s ->
  exists st, nth_error (base :: ends base l) i = Some st /\
             nth_error (ends base l) i = Some (st + N.of_nat (length s))%N /\
             st = (base + N.of_nat (length (concat (firstn i l))))%N.
Proof.
  induction l as [|x l IH]; intros [|i] s base E; cbn in E; try discriminate.
  - injection E as ->. exists base. cbn. rewrite N.add_0_r. auto.
  - destruct (IH i s (base + N.of_nat (length x))%N E) as (st & H1 & H2 & H3).
    exists st. split; [|split].
    + destruct i; exact H1.
    + exact H2.
    + cbn [firstn concat]. rewrite app_length, H3. lia.
Qed.

Lemma concat_at : forall (l : list bytes) i s, nth_error l i = Some s ->
  firstn (length s) (skipn (length (concat (firstn i l))) (concat l)) = s /\
  length (concat (firstn i l)) + length s <= length (concat l).
Proof.
  induction l as [|x l IH]; intros [|i] s E; cbn in E; try discriminate.
  - injection E as ->. cbn [firstn concat length skipn]. rewrite firstn_app, firstn_all, Nat.sub_diag. cbn [firstn].
    rewrite app_nil_r, app_length. split; [reflexivity|lia].
  - destruct (IH _ _ E) as (H1 & H2). cbn [firstn concat]. rewrite !app_length.
    rewrite skipn_app, skipn_all2 by lia. cbn [app].
    replace (length x + length (concat (firstn i l)) - length x) with (length (concat (firstn i l))) by lia.
    split; [assumption|lia].
Qed.

Lemma ends_length : forall l base, length (ends base l) = length l.
Proof. induction l; intros; cbn [ends length]; auto. Qed.

Lemma sinv_shows : forall b l, sinv b l -> shows_texts b (map text l).
Proof.
  intros b l (Ht & Hd & Ho). repeat split.
  - unfold sb_size. rewrite Ho. cbn [length]. rewrite ends_length. lia.
  - assumption.
  - destruct (ends_nth _ _ _ 0%N H) as (st & H1 & H2 & H3). destruct (concat_at _ _ _ H) as (C1 & C2).
    unfold sb_get. rewrite Ho, H1, Nat.add_1_r. cbn [nth_error]. rewrite H2.
    fold (texts_size l) in *. unfold texts_size in Ht.
    assert (E : u32 (st + N.of_nat (length s) + two32 - st) = N.of_nat (length s)).
    { unfold u32. replace (st + N.of_nat (length s) + two32 - st)%N with (N.of_nat (length s) + 1 * two32)%N by lia.
      rewrite N.mod_add by (pose proof two32_pos; lia). apply N.mod_small. lia. }
    cbv zeta. rewrite E, Hd.
    destruct (N.leb_spec (st + N.of_nat (length s)) (N.of_nat (length (concat (map text l))))); [|lia].
    rewrite H3, N.add_0_l, !Nat2N.id, C1. reflexivity.
  - destruct (ends_nth _ _ _ 0%N H) as (st & H1 & H2 & H3). destruct (concat_at _ _ _ H) as (C1 & C2).
    unfold sb_length. rewrite Ho, H1, Nat.add_1_r. cbn [nth_error]. rewrite H2. f_equal.
    unfold u32. replace (st + N.of_nat (length s) + two32 - st)%N with (N.of_nat (length s) + 1 * two32)%N by lia.
    rewrite N.mod_add by (pose proof two32_pos; lia). apply N.mod_small. unfold texts_size in Ht. lia.
Qed.

(** Beyond the limit. *)
Lemma sb_wraps : forall s, N.of_nat (length s) = two32 ->
  sb_get (sb_push_back sb_new s) 0 = Some [] /\ sb_length (sb_push_back sb_new s) 0 = Some 0%N.
Proof.
  intros s E. unfold sb_push_back, sb_new, sb_get, sb_length. cbn [sb_data sb_offsets app nth_error Nat.add].
  rewrite E. change (u32 two32) with 0%N. change (u32 (0 + two32 - 0)) with 0%N.
  cbv zeta. split; [|reflexivity].
  destruct (N.leb_spec (0 + 0) (N.of_nat (length s))); [reflexivity|lia].
Qed.

(** ** Columns *)
Section Fixed.
Context {V : Type}.
Variable dflt : V.

Definition value_or (c : option V) : V := match c with Some v => v | None => dflt end.

Definition finv (c : column (list V)) (l : list (option V)) : Prop :=
  c_values c = map value_or l /\ inv (c_nulls c) (valid_flags l).

Lemma fixed_simulates : simulates finv (fixed_impl dflt) (as_lists (option V)).
Proof.
  constructor; cbn [fixed_impl as_lists i_new i_push i_append i_clear i_finalize].
  - split; [reflexivity | apply inv_new].
  - intros s l e l' (Hv & Hn) E. injection E as <-. unfold fx_push.
    destruct e as [v|].
    + destruct (push_valid_ok _ _ Hn) as (n & -> & H'). eexists; split; [reflexivity|].
      split; cbn [c_values c_nulls]; [rewrite Hv, map_app; reflexivity | unfold valid_flags in *; rewrite map_app; exact H'].
    + destruct (push_null_ok _ _ Hn) as (n & -> & H'). eexists; split; [reflexivity|].
      split; cbn [c_values c_nulls]; [rewrite Hv, map_app; reflexivity | unfold valid_flags in *; rewrite map_app; exact H'].
  - intros s l t m l' (Hv & Hn) (Tv & Tn) E. injection E as <-. unfold fx_merge_from.
    destruct (append_ok _ _ _ _ Hn Tn) as (n & -> & H'). eexists; split; [reflexivity|].
    split; cbn [c_values c_nulls]; [rewrite Hv, Tv, map_app; reflexivity | unfold valid_flags in *; rewrite map_app; exact H'].
  - intros s l l' _ E. injection E as <-. eexists; split; [reflexivity|]. split; [reflexivity | apply inv_new].
  - intros s l l' H E. injection E as <-. eauto.
Qed.

Lemma shows_fast : forall m l, shows_flags m l -> null_count_fast m = nulls_in l.
Proof. intros m l (_ & _ & _ & H & _). exact H. Qed.

Lemma finv_shows : forall c l, finv c l -> shows_fixed c l.
Proof.
  intros c l (Hv & Hn). pose proof (inv_shows _ _ Hn) as Hf. split; [|split; [|split]].
  - unfold fx_size. rewrite Hv, map_length. reflexivity.
  - assumption.
  - unfold col_null_count. apply shows_fast. assumption.
  - intros i v E. rewrite Hv. apply (map_nth_error value_or) in E. exact E.
Qed.

(** ** Export *)
Lemma arrow_valid_ok : forall B (c : column B) W (vals : W) len l i (cell : option V),
  inv (c_nulls c) (valid_flags l) -> nth_error l i = Some cell ->
  arrow_valid (ArrowArray len (null_count_fast (c_nulls c))
                 (if bm_has_nulls (c_nulls c) then Some (bm_data (c_nulls c)) else None) vals) i
  = Some (match cell with Some _ => true | None => false end).
Proof.
  intros B c W vals len l i cell Hn E. unfold arrow_valid. cbn [aa_validity].
  destruct Hn as (Hs & Hc & Hh & Hd).
  assert (E' : nth_error (valid_flags l) i = Some (match cell with Some _ => true | None => false end)).
  { unfold valid_flags. exact (map_nth_error (fun c => match c with Some _ => true | None => false end) _ _ E). }
  rewrite Hh. destruct (some_null (valid_flags l)) eqn:H.
  - apply Hd. assumption.
  - f_equal. symmetry. eapply no_null_all_true; eauto.
Qed.

Lemma finv_export : forall c l, finv c l ->
  aa_length (fx_export c) = length l /\ aa_null_count (fx_export c) = nulls_in (valid_flags l) /\
  (forall i cell, nth_error l i = Some cell -> arrow_read_fixed (fx_export c) i = Some cell) /\
  (forall i, length l <= i -> arrow_read_fixed (fx_export c) i = None).
Proof.
  intros c l (Hv & Hn).
  assert (HL : fx_size c = length l) by (unfold fx_size; rewrite Hv, map_length; reflexivity).
  split; [exact HL|]. split.
  { cbn [fx_export aa_null_count]. apply shows_fast, inv_shows. assumption. }
  split.
  - intros i cell E. unfold arrow_read_fixed, fx_export. cbn [aa_length aa_values].
    pose proof (nth_error_lt _ _ _ _ E). destruct (Nat.leb_spec (fx_size c) i); [lia|].
    rewrite (arrow_valid_ok _ c _ _ _ l i cell Hn E).
    destruct cell as [v|]; [|reflexivity].
    rewrite Hv, (map_nth_error value_or _ _ E). reflexivity.
  - intros i Hi. unfold arrow_read_fixed, fx_export. cbn [aa_length]. destruct (Nat.leb_spec (fx_size c) i); [reflexivity|lia].
Qed.
End Fixed.

Definition tinv (c : column strbuf) (l : list (option bytes)) : Prop :=
  sinv (c_values c) l /\ inv (c_nulls c) (valid_flags l).

Lemma string_simulates_at : forall limit, (limit <= two32)%N ->
  simulates tinv string_impl (as_small_lists texts_size limit).
Proof.
  intros limit Hlim.
  constructor; cbn [string_impl as_small_lists i_new i_push i_append i_clear i_finalize]; unfold guard.
  - split; [apply sinv_new | apply inv_new].
  - intros s l e l' (Hv & Hn) E. destruct (N.ltb_spec (texts_size (l ++ [e])) limit); [|discriminate]. injection E as <-.
    pose proof (sinv_push (c_values s) l e Hv ltac:(lia)) as Hs. unfold st_push.
    destruct e as [v|].
    + destruct (push_valid_ok _ _ Hn) as (n & -> & H'). eexists; split; [reflexivity|].
      split; cbn [c_values c_nulls]; [exact Hs | unfold valid_flags in *; rewrite map_app; exact H'].
    + destruct (push_null_ok _ _ Hn) as (n & -> & H'). eexists; split; [reflexivity|].
      split; cbn [c_values c_nulls]; [exact Hs | unfold valid_flags in *; rewrite map_app; exact H'].
  - intros s l t m l' (Hv & Hn) (Tv & Tn) E. destruct (N.ltb_spec (texts_size (l ++ m)) limit); [|discriminate]. injection E as <-.
    unfold st_merge_from. destruct (sinv_append _ _ _ _ Hv Tv ltac:(lia)) as (v & -> & Hs).
    destruct (append_ok _ _ _ _ Hn Tn) as (n & -> & H'). eexists; split; [reflexivity|].
    split; cbn [c_values c_nulls]; [exact Hs | unfold valid_flags in *; rewrite map_app; exact H'].
  - intros s l l' _ E. injection E as <-. eexists; split; [reflexivity|]. split; [apply sinv_new | apply inv_new].
  - intros s l l' H E. injection E as <-. eauto.
Qed.

Lemma tinv_shows : forall c l, tinv c l -> shows_strings c l.
Proof.
  intros c l (Hv & Hn). split; [apply sinv_shows; assumption|]. split; [apply inv_shows; assumption|].
  unfold col_null_count. apply shows_fast, inv_shows. assumption.
Qed.

Lemma signed32_small : forall n, (n < two31)%N -> signed32 n = Z.of_N n.
Proof. intros n H. unfold signed32. destruct (N.ltb_spec n two31); [reflexivity|lia]. Qed.

Lemma tinv_export : forall c l, tinv c l -> (texts_size l < two31)%N ->
  aa_length (st_export c) = length l /\ aa_null_count (st_export c) = nulls_in (valid_flags l) /\
  (forall i cell, nth_error l i = Some cell -> arrow_read_utf8 (st_export c) i = Some cell) /\
  (forall i, length l <= i -> arrow_read_utf8 (st_export c) i = None).
Proof.
  intros c l (Hv & Hn) Hlim.
  assert (HL : sb_size (c_values c) = length l).
  { destruct (sinv_shows _ _ Hv) as (H & _). rewrite map_length in H. exact H. }
  split; [exact HL|]. split.
  { cbn [st_export aa_null_count]. apply shows_fast, inv_shows. assumption. }
  split.
  - intros i cell E. unfold arrow_read_utf8, st_export. cbn [aa_length aa_values fst snd].
    pose proof (nth_error_lt _ _ _ _ E). destruct (Nat.leb_spec (sb_size (c_values c)) i); [lia|].
    rewrite (arrow_valid_ok _ c _ _ _ l i cell Hn E).
    destruct cell as [v|]; [|reflexivity].
    destruct Hv as (_ & Hd & Ho).
    pose proof (map_nth_error text _ _ E) as Et. cbn [text] in Et.
    destruct (ends_nth _ _ _ 0%N Et) as (st & H1 & H2 & H3). destruct (concat_at _ _ _ Et) as (C1 & C2).
    rewrite Ho, H1. cbn [nth_error]. rewrite H2, Hd. unfold texts_size in Hlim.
    cbv zeta. rewrite !signed32_small by lia.
    destruct (Z.leb_spec 0 (Z.of_N st)); [|lia].
    destruct (Z.leb_spec (Z.of_N st) (Z.of_N (st + N.of_nat (length v)))); [|lia].
    destruct (Z.leb_spec (Z.of_N (st + N.of_nat (length v))) (Z.of_nat (length (concat (map text l))))); [|lia].
    cbn [andb]. do 2 f_equal. unfold slice.
    replace (Z.to_nat (Z.of_N (st + N.of_nat (length v))) - Z.to_nat (Z.of_N st)) with (length v) by lia.
    replace (Z.to_nat (Z.of_N st)) with (length (concat (firstn i (map text l)))) by lia. exact C1.
  - intros i Hi. unfold arrow_read_utf8, st_export. cbn [aa_length].
    destruct (Nat.leb_spec (sb_size (c_values c)) i); [reflexivity|lia].
Qed.

(** The first string too long for a signed offset. *)
Lemma export_too_long : forall s c, (two31 <= N.of_nat (length s) < two32)%N ->
  st_push (Column sb_new bm_new) (Some s) = Some c ->
  sb_get (c_values c) 0 = Some s /\ arrow_read_utf8 (st_export c) 0 = None.
Proof.
  intros s c Hs E.
  assert (Hguard : i_push (as_small_lists texts_size two32) [] (Some s) = Some [Some s]).
  { cbn [as_small_lists i_push app]. unfold guard, texts_size. cbn [map text concat]. rewrite app_nil_r.
    destruct (N.ltb_spec (N.of_nat (length s)) two32); [reflexivity|lia]. }
  assert (H0 : tinv (Column sb_new bm_new) []) by (split; [apply sinv_new | apply inv_new]).
  destruct (sim_push _ _ _ (string_simulates_at two32 (N.le_refl _)) _ [] (Some s) _ H0 Hguard)
    as (c' & E' & H').
  change (st_push (Column sb_new bm_new) (Some s) = Some c') in E'. rewrite E' in E. injection E as <-.
  destruct H' as (Hv & Hn). split.
  - apply (sinv_shows _ _ Hv). reflexivity.
  - unfold arrow_read_utf8, st_export. cbn [aa_length aa_values fst snd].
    destruct (sinv_shows _ _ Hv) as (HL & _). rewrite HL. cbn [map length Nat.leb].
    rewrite (arrow_valid_ok _ c' _ _ _ [Some s] 0 (Some s) Hn eq_refl).
    destruct Hv as (_ & Hd & Ho). rewrite Ho, Hd. cbn [map text ends nth_error concat]. rewrite app_nil_r, N.add_0_l.
    cbv zeta. unfold signed32. change (0 <? two31)%N with true. cbv iota.
    destruct (N.ltb_spec (N.of_nat (length s)) two31); [lia|].
    destruct (Z.leb_spec (Z.of_N 0) (Z.of_N (N.of_nat (length s)) - Z.of_N two32)); [lia|].
    cbn [andb]. rewrite andb_false_r. reflexivity.
Qed.
