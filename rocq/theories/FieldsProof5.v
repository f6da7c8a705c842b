(** The line splitters (continued): vectorised version, one-line agreement. *)
From Verif Require Import Base WordsModel WordsProof ChunkSpec ChunkModel ChunkProof ChunkProof2 ChunkProof3
  FieldsSpec FieldsModel FieldsProof FieldsProof2 FieldsProof3 FieldsProof4.

(** ** Clearing the lowest set bit *)
Lemma tb_double x i : tb (2 * x) i = match i with O => false | S j => tb x j end.
Proof. pose proof (tb_cons false x i) as H. cbn [N.add] in H. exact H. Qed.

Lemma clear_low_bits p : forall i,
  tb (N.land (Npos p) (Npos p - 1)) i = tb (Npos p) i && negb (i =? ctz (Npos p)).
Proof.
  induction p as [p IH|p IH|]; intros i.
  - replace (N.pos p~1) with (1 + 2 * N.pos p)%N by lia.
    replace (1 + 2 * N.pos p - 1)%N with (0 + 2 * N.pos p)%N by lia.
    rewrite tb_land, (tb_cons true), (tb_cons false).
    replace (1 + 2 * N.pos p)%N with (N.pos p~1) by lia. cbn [ctz pos_ctz].
    destruct i as [|i]; [reflexivity|]. rewrite andb_diag, andb_true_r. reflexivity.
  - replace (N.pos p~0 - 1)%N with (1 + 2 * (N.pos p - 1))%N by lia.
    replace (N.land (N.pos p~0) (1 + 2 * (N.pos p - 1)))%N with (0 + 2 * (N.land (N.pos p) (N.pos p - 1)))%N.
    + rewrite (tb_cons false). replace (N.pos p~0) with (0 + 2 * N.pos p)%N at 1 by lia.
      rewrite (tb_cons false). cbn [ctz pos_ctz]. destruct i as [|i]; [reflexivity|].
      rewrite IH. cbn [ctz Nat.eqb]. reflexivity.
    + apply tb_inj. intros j. rewrite (tb_cons false), tb_land.
      replace (N.pos p~0) with (0 + 2 * N.pos p)%N by lia. rewrite (tb_cons false), (tb_cons true).
      destruct j as [|j]; [reflexivity|]. rewrite tb_land. reflexivity.
  - change (N.land 1 (1 - 1)) with 0%N. rewrite tb_0, tb_1. cbn [ctz pos_ctz].
    destruct (i =? 0); reflexivity.
Qed.

Lemma clear_low m : m <> 0%N -> forall i, tb (N.land m (m - 1)) i = tb m i && negb (i =? ctz m).
Proof. destruct m as [|p]; [congruence|]. intros _. apply clear_low_bits. Qed.

Lemma nth_error_skipn' {A} (l : list A) n i : nth_error (skipn n l) i = nth_error l (n + i).
Proof. revert l. induction n as [|n IH]; intros l; [reflexivity|]. destruct l; [destruct i; reflexivity|apply IH]. Qed.

(** ** Trimming *)
Lemma trim_left_all p a b : forallb p a = true -> trim_left p (a ++ b) = trim_left p b.
Proof.
  induction a as [|c a IH]; intros H; [reflexivity|]. cbn in *. apply andb_true_iff in H.
  destruct H as [-> H]. apply IH. assumption.
Qed.
Lemma forallb_rev {A} (p : A -> bool) l : forallb p (rev l) = forallb p l.
Proof.
  induction l as [|c l IH]; [reflexivity|]. cbn. rewrite forallb_app, IH. cbn.
  rewrite andb_true_r. apply andb_comm.
Qed.
Lemma trim_right_all p a b : forallb p b = true -> trim_right p (a ++ b) = trim_right p a.
Proof.
  intros H. unfold trim_right. rewrite rev_app_distr, trim_left_all; [reflexivity|].
  rewrite forallb_rev. assumption.
Qed.
Lemma trim_right_id p (l : bytes) : (forall a c, l = a ++ [c] -> p c = false) -> trim_right p l = l.
Proof.
  intros H. destruct l as [|x l0]; [reflexivity|].
  destruct (exists_last (l := x :: l0)) as (a & c & E); [discriminate|].
  rewrite E in *. unfold trim_right. rewrite rev_app_distr. cbn. rewrite (H a c eq_refl).
  cbn. rewrite rev_involutive. reflexivity.
Qed.

Section Line.
Variables sep q : byte.
Hypothesis Hqs : q <> sep.
Hypothesis Hqn : newline q = false.
Hypothesis Hsn : newline sep = false.
Notation rr := (raw_row newline sep q).

(** Where the row ends. *)
Lemma rr_row_end : forall v st,
  let e := length (join sep (fst (rr st v))) in
  (forall i, i < e -> nthb newline v i && negb (inside_at st q v i) = false) /\
  (e < length v -> nthb newline v e = true /\ inside_at st q v e = false).
Proof.
  induction v as [|c r IH]; intros st; cbv zeta.
  - cbn. split; lia.
  - assert (Hcf : forall st', st' = xorb st (N.eqb c q) ->
       newline c && negb st = false ->
       let e := length (join sep (fst (prepend [c] (rr st' r)))) in
       (forall i, i < e -> nthb newline (c :: r) i && negb (inside_at st q (c :: r) i) = false) /\
       (e < length (c :: r) -> nthb newline (c :: r) e = true /\ inside_at st q (c :: r) e = false)).
    { intros st' E H0. specialize (IH st'). cbv zeta in *. pose proof (rr_nonempty newline sep q st' r) as Hne.
      unfold prepend. destruct (fst (rr st' r)) as [|f fs]; [congruence|]. cbn [fst].
      assert (Hlj : length (join sep (([c] ++ f) :: fs)) = S (length (join sep (f :: fs)))) by (destruct fs; reflexivity).
      rewrite Hlj. destruct IH as [IH1 IH2]. split.
      - intros [|i] Hi; [rewrite inside_at_0; exact H0|]. rewrite inside_at_S, <- E. apply IH1. lia.
      - cbn [length]. intros Hl. rewrite inside_at_S, <- E. apply IH2. lia. }
    rewrite rr_cons. destruct (N.eqb c q) eqn:Ec.
    + apply Hcf; [destruct st; reflexivity|]. apply N.eqb_eq in Ec. subst c. rewrite Hqn. reflexivity.
    + destruct st; [apply Hcf; [reflexivity|apply andb_false_r]|].
      destruct (newline c) eqn:En.
      * cbn [fst join length]. split; [lia|]. intros _. rewrite inside_at_0. split; [exact En|reflexivity].
      * destruct (N.eqb c sep) eqn:Es; [|apply Hcf; [reflexivity|reflexivity]].
        cbn [fst]. specialize (IH false). cbv zeta in IH. pose proof (rr_nonempty newline sep q false r) as Hne.
        destruct (fst (rr false r)) as [|f fs]; [congruence|].
        change (join sep ([] :: f :: fs)) with (sep :: join sep (f :: fs)). cbn [length].
        destruct IH as [IH1 IH2]. split.
        -- intros [|i] Hi; [cbn; rewrite En; reflexivity|]. rewrite inside_at_S, Ec. apply IH1. lia.
        -- intros Hl. rewrite inside_at_S, Ec. apply IH2. lia.
Qed.

Lemma nthb_newline v i : nthb newline v i = true <-> byte_is v i LF = true \/ byte_is v i CR = true.
Proof.
  unfold byte_is. rewrite nthb_nth_error. destruct (nth_error v i); [|split; [discriminate|intros [H|H]; discriminate]].
  unfold newline. apply orb_true_iff.
Qed.

Lemma one_line_tail v tail : one_line q v ->
  v = join sep (fst (rr false v)) ++ tail -> forallb newline tail = true.
Proof.
  intros Ho Hv. apply forallb_forall. intros c Hc. apply In_nth_error in Hc. destruct Hc as (k & Hk).
  destruct (rr_row_end v false) as [_ He]. set (e := length (join sep (fst (rr false v)))) in *.
  assert (Hkl : k < length tail) by (apply nth_error_Some; congruence).
  assert (Hlen : length v = e + length tail) by (unfold e; rewrite Hv at 1; rewrite app_length; reflexivity).
  destruct (He ltac:(lia)) as [H1 H2].
  assert (Hj : byte_is v (e + k) LF = true \/ byte_is v (e + k) CR = true).
  { apply (Ho e (e + k)); [lia|lia|apply nthb_newline; assumption|assumption]. }
  apply nthb_newline in Hj. rewrite nthb_nth_error in Hj. rewrite Hv in Hj.
  rewrite nth_error_app2 in Hj by (unfold e; lia).
  replace (e + k - length (join sep (fst (rr false v)))) with k in Hj by (unfold e; lia).
  rewrite Hk in Hj. assumption.
Qed.

Lemma post_map l : map (post_process q) l = map (reported_field q) l.
Proof. apply map_ext, post_process_spec. Qed.


Lemma one_line_rest v : one_line q v -> forallb newline (snd (rr false v)) = true.
Proof.
  intros Ho. destruct (rr_join newline sep q v false) as (tail & Hv & Ht).
  pose proof (one_line_tail v tail Ho Hv) as Hf.
  destruct Ht as [[_ ->]|(c & _ & ->)]; [reflexivity|]. cbn in Hf. apply andb_true_iff in Hf. apply Hf.
Qed.

Lemma scalar_spec data : data <> [] -> one_line q data ->
  last_field q data (split_loop sep q data data 0 0 false []) = line_fields sep q data.
Proof.
  intros Hd Ho. destruct (split_loop_spec sep q Hqs Hqn Hsn data [] [] false []) as [H1 (tail & H2 & H3)].
  cbn [app length Nat.add] in *. rewrite prepend_nil in * by apply rr_nonempty.
  unfold last_field. rewrite H1, H2. unfold line_fields. rewrite map_app, !post_map. cbn [map].
  rewrite post_process_spec, drop_while_end_trim, is_nl_newline.
  rewrite trim_right_all; [reflexivity|].
  destruct H3 as [->|(c & Hc & ->)]; [reflexivity|]. cbn. rewrite Hc. apply one_line_rest, Ho.
Qed.

(** ** The vectorised splitter *)
Notation E := (endg newline sep q).

Lemma sl_toggle data c rest i fs inq fields :
  split_loop sep q data (c :: rest) i fs inq fields =
  if N.eqb c q then split_loop sep q data rest (i + 1) fs (negb inq) fields
  else if inq then split_loop sep q data rest (i + 1) fs inq fields
  else if N.eqb c sep then
    split_loop sep q data rest (i + 1) (i + 1) inq (fields ++ [post_process q (slice fs i data)])
  else if is_nl c then (fs, fields)
  else split_loop sep q data rest (i + 1) fs inq fields.
Proof.
  rewrite split_loop_step. destruct (N.eqb c q) eqn:Ec; [|reflexivity].
  destruct inq; [|reflexivity]. cbn [andb]. destruct rest as [|d rest]; [reflexivity|].
  cbn [next_is tl]. destruct (N.eqb d q) eqn:Ed; [|reflexivity].
  rewrite (split_loop_step sep q data d). rewrite Ed. cbn [negb andb].
  replace (i + 1 + 1) with (i + 2) by lia. reflexivity.
Qed.

Lemma sl_prefix data : forall n l i fs inq fields, n <= length l -> (forall j, j < n -> E inq l j = false) ->
  split_loop sep q data l i fs inq fields =
  split_loop sep q data (skipn n l) (i + n) fs (endst inq q (firstn n l)) fields.
Proof.
  induction n as [|n IH]; intros l i fs inq fields Hn H.
  - cbn [skipn firstn endst]. rewrite Nat.add_0_r. reflexivity.
  - destruct l as [|c r]; [cbn in Hn; lia|]. cbn [length] in Hn.
    rewrite sl_toggle. cbn [skipn firstn endst].
    pose proof (H 0 ltac:(lia)) as H0. rewrite endg_0 in H0.
    assert (HS : forall j, j < n -> E (xorb inq (N.eqb c q)) r j = false).
    { intros j Hj. rewrite <- endg_S. apply H. lia. }
    replace (i + S n) with (i + 1 + n) by lia.
    destruct (N.eqb c q) eqn:Ec.
    + apply IH; [lia|]. intros j Hj. rewrite <- (HS j Hj). destruct inq; reflexivity.
    + destruct inq; [apply IH; [lia|exact HS]|]. unfold dlm in H0. rewrite andb_true_r in H0.
      apply orb_false_iff in H0. destruct H0 as [-> H2]. rewrite is_nl_newline, H2.
      apply IH; [lia|exact HS].
Qed.

Lemma sl_first data n l i fs inq fields c : nth_error l n = Some c -> E inq l n = true ->
  (forall j, j < n -> E inq l j = false) ->
  split_loop sep q data l i fs inq fields =
  if newline c then (fs, fields)
  else split_loop sep q data (skipn (S n) l) (i + S n) (i + S n) false
         (fields ++ [post_process q (slice fs (i + n) data)]).
Proof.
  intros Hc He Hl. assert (Hn : n < length l) by (apply nth_error_Some; congruence).
  rewrite (sl_prefix data n) by (assumption || lia). rewrite (skipn_nth_cons _ _ _ Hc).
  unfold endg in He. apply andb_true_iff in He. destruct He as [Hd Hi].
  rewrite nthb_nth_error, Hc in Hd.
  assert (Hst : endst inq q (firstn n l) = false).
  { rewrite endst_spec. unfold inside_at, quotes_before in Hi. destruct (xorb _ _); [discriminate|reflexivity]. }
  assert (Hcq : N.eqb c q = false).
  { apply N.eqb_neq. intros ->. unfold dlm in Hd. apply orb_true_iff in Hd. destruct Hd as [Hd|Hd].
    - apply N.eqb_eq in Hd. congruence.
    - congruence. }
  rewrite sl_toggle, Hst, Hcq. replace (i + n + 1) with (i + S n) by lia. rewrite is_nl_newline.
  unfold dlm in Hd. destruct (N.eqb c sep) eqn:Es; [|destruct (newline c); [reflexivity|discriminate]].
  apply N.eqb_eq in Es. subst c. rewrite Hsn. reflexivity.
Qed.

Lemma E_skipn data a j : a <= length data ->
  E (inside_at false q data a) (skipn a data) j = E false data (a + j).
Proof.
  intros Ha. unfold endg. rewrite nthb_skipn. f_equal. f_equal.
  assert (Hla : length (firstn a data) = a) by (apply firstn_length_le; assumption).
  pose proof (inside_at_app false q (firstn a data) (skipn a data) j) as H.
  rewrite firstn_skipn, Hla in H. rewrite H, endst_spec. reflexivity.
Qed.

Lemma inside_step data a n : a + n <= length data ->
  endst (inside_at false q data a) q (firstn n (skipn a data)) = inside_at false q data (a + n).
Proof.
  intros H. unfold inside_at, quotes_before. rewrite <- !endst_spec, <- endst_app. f_equal.
  symmetry. rewrite <- (firstn_skipn a data) at 1. rewrite firstn_app, firstn_length_le by lia.
  replace (a + n - a) with n by lia. rewrite firstn_all2 by (rewrite firstn_length_le by lia; lia). reflexivity.
Qed.

(** The last field of a line that ends at the unquoted newline [p]. *)
Lemma last_at_newline data fs p fields : one_line q data -> p < length data -> fs <= p ->
  nthb newline data p = true -> inside_at false q data p = false ->
  (forall j, fs <= j -> j < p -> E false data j = false) ->
  last_field q data (fs, fields) = fields ++ [post_process q (slice fs p data)].
Proof.
  intros Ho Hp Hfs Hn Hi Hno. unfold last_field. cbn [fst snd]. f_equal. f_equal. f_equal.
  rewrite drop_while_end_trim, is_nl_newline.
  assert (Hs : skipn fs data = slice fs p data ++ skipn p data).
  { rewrite <- (slice_to_end data fs), <- (slice_to_end data p). symmetry. apply slice_app; lia. }
  rewrite Hs, trim_right_all.
  - apply trim_right_id. intros a c Ha. destruct (newline c) eqn:En; [exfalso|reflexivity].
    assert (Hlen : length (slice fs p data) = p - fs) by (apply slice_len; lia).
    rewrite Ha, app_length in Hlen. cbn in Hlen.
    assert (Hc : nth_error data (p - 1) = Some c).
    { assert (H1 : nth_error (slice fs p data) (length a) = Some c)
        by (rewrite Ha, nth_error_app2, Nat.sub_diag by lia; reflexivity).
      assert (H2 : nth_error (skipn fs data) (length a) = Some c)
        by (rewrite Hs, nth_error_app1 by (rewrite Ha, app_length; cbn; lia); exact H1).
      rewrite nth_error_skipn' in H2. replace (p - 1) with (fs + length a) by lia. exact H2. }
    specialize (Hno (p - 1) ltac:(lia) ltac:(lia)). unfold endg in Hno.
    rewrite nthb_nth_error, Hc in Hno. unfold dlm in Hno. rewrite En, orb_true_r in Hno. cbn [andb] in Hno.
    assert (Hin : inside_at false q data p = inside_at false q data (p - 1)).
    { replace p with (p - 1 + 1) at 1 by lia. rewrite <- inside_step by lia.
      rewrite (skipn_nth_cons _ _ _ Hc). cbn [firstn endst].
      destruct (N.eqb c q) eqn:Ecq; [apply N.eqb_eq in Ecq; subst c; congruence|reflexivity]. }
    rewrite Hin in Hi. rewrite Hi in Hno. discriminate.
  - apply forallb_forall. intros c Hc. apply In_nth_error in Hc. destruct Hc as (k & Hk).
    rewrite nth_error_skipn' in Hk.
    assert (Hkl : p + k < length data) by (apply nth_error_Some; congruence).
    assert (Hj : byte_is data (p + k) LF = true \/ byte_is data (p + k) CR = true)
      by (apply (Ho p (p + k)); [lia|lia|apply nthb_newline; assumption|assumption]).
    apply nthb_newline in Hj. rewrite nthb_nth_error, Hk in Hj. exact Hj.
Qed.

Lemma emit_block_spec data pos : one_line q data -> pos + 64 <= length data ->
  forall fuel o m fs fields, o <= 64 -> 64 - o <= fuel -> fs <= pos + o ->
  (forall i, tb m i = (o <=? i) && (i <? 64) && E false data (pos + i)) ->
  (forall j, fs <= j -> j < pos + o -> E false data j = false) ->
  match emit_block fuel q data pos fs m fields with
  | None => False
  | Some (inl done) =>
      last_field q data (split_loop sep q data (skipn (pos + o) data) (pos + o) fs
                           (inside_at false q data (pos + o)) fields) = done
  | Some (inr (fs', fields')) =>
      fs' <= pos + 64 /\ (forall j, fs' <= j -> j < pos + 64 -> E false data j = false) /\
      split_loop sep q data (skipn (pos + o) data) (pos + o) fs (inside_at false q data (pos + o)) fields
      = split_loop sep q data (skipn (pos + 64) data) (pos + 64) fs' (inside_at false q data (pos + 64)) fields'
  end.
Proof.
  intros Ho Hlen. induction fuel as [|fuel IH]; intros o m fs fields Ho64 Hfu Hfs Hm Hno.
  all: cbn [emit_block]; destruct (N.eqb_spec m 0) as [Hm0|Hm0].
  1,3: split; [lia|]; assert (HE : forall i, o <= i -> i < 64 -> E false data (pos + i) = false);
    [intros i H1 H2; specialize (Hm i); rewrite Hm0, tb_0 in Hm;
     apply Nat.leb_le in H1; apply Nat.ltb_lt in H2; rewrite H1, H2 in Hm; symmetry; exact Hm|];
    split; [intros j H1 H2; destruct (Nat.ltb_spec j (pos + o)); [apply Hno; lia|];
            replace j with (pos + (j - pos)) by lia; apply HE; lia|];
    rewrite (sl_prefix data (64 - o) (skipn (pos + o) data));
    [|rewrite skipn_length; lia|intros j Hj; rewrite E_skipn by lia;
      replace (pos + o + j) with (pos + (o + j)) by lia; apply HE; lia];
    rewrite skipn_skipn; rewrite inside_step by lia;
    replace (64 - o + (pos + o)) with (pos + 64) by lia;
    replace (pos + o + (64 - o)) with (pos + 64) by lia; reflexivity.
  - assert (o = 64) by lia. subst o. apply Hm0. apply tb_inj. intros i. rewrite Hm, tb_0.
    destruct (Nat.leb_spec 64 i), (Nat.ltb_spec i 64); try reflexivity. lia.
  - destruct (ctz_spec m Hm0) as [Hc1 Hc2]. set (k := ctz m) in *.
    rewrite Hm in Hc1. apply andb_true_iff in Hc1. destruct Hc1 as [Hc1 HE].
    apply andb_true_iff in Hc1. destruct Hc1 as [Hok Hk64].
    apply Nat.leb_le in Hok. apply Nat.ltb_lt in Hk64.
    destruct (nth_error data (pos + k)) as [c|] eqn:Hc; [|apply nth_error_None in Hc; lia].
    assert (Hpre : forall i, o <= i -> i < k -> E false data (pos + i) = false).
    { intros i H1 H2. pose proof (Hc2 i H2) as H3. rewrite Hm in H3.
      replace (o <=? i) with true in H3 by (symmetry; apply Nat.leb_le; lia).
      replace (i <? 64) with true in H3 by (symmetry; apply Nat.ltb_lt; lia). exact H3. }
    assert (Hsl : split_loop sep q data (skipn (pos + o) data) (pos + o) fs (inside_at false q data (pos + o)) fields =
       if newline c then (fs, fields) else
       split_loop sep q data (skipn (pos + (k + 1)) data) (pos + (k + 1)) (pos + (k + 1)) false
         (fields ++ [post_process q (slice fs (pos + k) data)])).
    { rewrite (sl_first data (k - o) (skipn (pos + o) data) (pos + o) fs _ fields c).
      - destruct (newline c); [reflexivity|]. rewrite skipn_skipn.
        replace (S (k - o) + (pos + o)) with (pos + (k + 1)) by lia.
        replace (pos + o + S (k - o)) with (pos + (k + 1)) by lia.
        replace (pos + o + (k - o)) with (pos + k) by lia. reflexivity.
      - rewrite nth_error_skipn'. replace (pos + o + (k - o)) with (pos + k) by lia. exact Hc.
      - rewrite E_skipn by lia. replace (pos + o + (k - o)) with (pos + k) by lia. exact HE.
      - intros j Hj. rewrite E_skipn by lia. replace (pos + o + j) with (pos + (o + j)) by lia. apply Hpre; lia. }
    assert (Hins : inside_at false q data (pos + k) = false).
    { unfold endg in HE. apply andb_true_iff in HE. destruct (inside_at false q data (pos + k)); [destruct HE; discriminate|reflexivity]. }
    rewrite is_nl_newline. destruct (newline c) eqn:En.
    + rewrite Hsl. apply last_at_newline; try assumption; try lia.
      * rewrite nthb_nth_error, Hc. exact En.
      * intros j H1 H2. destruct (Nat.ltb_spec j (pos + o)); [apply Hno; lia|].
        replace j with (pos + (j - pos)) by lia. apply Hpre; lia.
    + assert (Hcq : N.eqb c q = false).
      { unfold endg in HE. rewrite nthb_nth_error, Hc in HE. unfold dlm in HE. rewrite En, orb_false_r in HE.
        apply andb_true_iff in HE. destruct HE as [HE _]. apply N.eqb_eq in HE. subst c. apply N.eqb_neq. congruence. }
      assert (Hins' : inside_at false q data (pos + (k + 1)) = false).
      { replace (pos + (k + 1)) with (pos + k + 1) by lia. rewrite <- inside_step by lia.
        rewrite (skipn_nth_cons _ _ _ Hc). cbn [firstn endst]. rewrite Hcq. exact Hins. }
      rewrite Hsl. replace (pos + k + 1) with (pos + (k + 1)) by lia. 
      specialize (IH (k + 1) (N.land m (m - 1)) (pos + (k + 1)) (fields ++ [post_process q (slice fs (pos + k) data)])).
      rewrite Hins' in IH. apply IH; try lia.
      * intros i. rewrite clear_low by assumption. rewrite Hm. fold k.
        destruct (Nat.leb_spec o i), (Nat.leb_spec (k + 1) i), (Nat.ltb_spec i 64), (Nat.eqb_spec i k);
          cbn [andb negb]; rewrite ?andb_true_r, ?andb_false_r; try reflexivity; try lia.
        apply Hpre; lia.
Qed.

Lemma block_valid lanes clmul data pos : lanes_ok lanes -> pos + 64 <= length data ->
  let st := inside_at false q data pos in
  exists sm qm em, scan_for_char lanes sep (skipn pos data) = Some sm /\
   scan_for_char lanes q (skipn pos data) = Some qm /\
   scan_for_two_chars lanes LF CR (skipn pos data) = Some em /\
   (forall i, tb (N.land (N.lor sm em) (not64 (fst (find_quote_mask clmul qm (st_word st))))) i
              = (0 <=? i) && (i <? 64) && E false data (pos + i)) /\
   snd (find_quote_mask clmul qm (st_word st)) = st_word (inside_at false q data (pos + 64)).
Proof.
  intros [Hl1 Hl2] Hlen st.
  assert (Hsk : 64 <= length (skipn pos data)) by (rewrite skipn_length; lia).
  set (B := firstn 64 (skipn pos data)).
  exists (block_mask sep B), (block_mask q B), (N.lor (block_mask LF B) (block_mask CR B)).
  unfold scan_for_char, scan_for_two_chars.
  rewrite !assemble_mask_correct by assumption. fold B.
  split; [reflexivity|]. split; [reflexivity|]. split; [reflexivity|].
  assert (HB : length B = 64) by (unfold B; apply firstn_length_le; lia).
  destruct (find_quote_mask_bits clmul (block_mask q B) st) as [F1 F2]; [apply block_mask_lt64; lia|].
  split.
  - intros i. rewrite tb_land, !tb_lor, tb_not64, F1, !tb_block_mask.
    replace (0 <=? i) with true by reflexivity. cbn [andb].
    destruct (Nat.ltb_spec i 64) as [Hi|Hi].
    + cbn [andb]. unfold endg. rewrite !nthb_nth_error. unfold B at 1 2 3.
      rewrite (nth_error_firstn_lt 64 (skipn pos data) i) by assumption.
      rewrite nth_error_skipn'. destruct (nth_error data (pos + i)) as [c|] eqn:Ec; [|reflexivity].
      unfold dlm, newline.
      destruct (N.eqb c sep || (N.eqb c LF || N.eqb c CR)) eqn:Ed; [|reflexivity]. cbn [andb]. f_equal.
      assert (Hcq : N.eqb c q = false).
      { apply N.eqb_neq. intros ->. apply orb_true_iff in Ed. destruct Ed as [Ed|Ed].
        - apply N.eqb_eq in Ed. congruence.
        - unfold newline in Hqn. congruence. }
      assert (HcB : nth_error B i = Some c).
      { unfold B. rewrite nth_error_firstn_lt by assumption. rewrite nth_error_skipn'. exact Ec. }
      cbn [prexor]. rewrite prexor_count, tb_block_mask, nthb_nth_error, HcB, Hcq, xorb_false_r.
      rewrite <- (inside_step data pos i) by lia. fold st. rewrite endst_spec. unfold quotes_before.
      f_equal. f_equal. f_equal. unfold B. rewrite firstn_firstn. f_equal. lia.
    + rewrite andb_false_r. reflexivity.
  - rewrite F2. rewrite prexor_count. rewrite <- (inside_step data pos 64) by lia. rewrite endst_spec.
    unfold quotes_before. unfold B. rewrite firstn_firstn, Nat.min_id. reflexivity.
Qed.

Lemma split_blocks_spec lanes clmul data : lanes_ok lanes -> one_line q data ->
  forall fuel pos fs fields, length data - pos <= fuel * 64 + 63 -> pos <= length data -> fs <= pos ->
  (forall j, fs <= j -> j < pos -> E false data j = false) ->
  split_blocks fuel lanes clmul sep q data pos fs (st_word (inside_at false q data pos)) fields =
  Some (last_field q data (split_loop sep q data (skipn pos data) pos fs (inside_at false q data pos) fields)).
Proof.
  intros HL Ho. induction fuel as [|fuel IH]; intros pos fs fields Hf Hp Hfs Hno.
  - cbn [split_blocks]. destruct (Nat.leb_spec (pos + 64) (length data)); [lia|].
    rewrite st_word_eqb. reflexivity.
  - cbn [split_blocks]. destruct (Nat.leb_spec (pos + 64) (length data)) as [H|H]; [|rewrite st_word_eqb; reflexivity].
    destruct (block_valid lanes clmul data pos HL H) as (sm & qm & em & E1 & E2 & E3 & Hm & Hs).
    cbv zeta in Hm, Hs. rewrite E1, E2, E3.
    destruct (find_quote_mask clmul qm (st_word (inside_at false q data pos))) as [ins st'] eqn:EF.
    cbn [fst snd] in Hm, Hs.
    pose proof (emit_block_spec data pos Ho H 64 0 (N.land (N.lor sm em) (not64 ins)) fs fields) as He.
    rewrite !Nat.add_0_r in He. specialize (He ltac:(lia) ltac:(lia) Hfs Hm Hno).
    destruct (emit_block 64 q data pos fs (N.land (N.lor sm em) (not64 ins)) fields) as [[done|[fs' fields']]|]; [| |contradiction].
    + f_equal. symmetry. exact He.
    + destruct He as (He1 & He2 & He3). rewrite He3, Hs. apply IH; [lia|lia|assumption|assumption].
Qed.

Lemma simd_spec lanes clmul data : lanes_ok lanes -> one_line q data -> data <> [] ->
  split_blocks (length data) lanes clmul sep q data 0 0 0%N [] = Some (line_fields sep q data).
Proof.
  intros HL Ho Hd. rewrite <- scalar_spec by assumption.
  change 0%N with (st_word (inside_at false q data 0)).
  rewrite split_blocks_spec; try assumption; try lia. reflexivity.
Qed.

Lemma splitters_agree lanes clmul data old : lanes_ok lanes -> one_line q data -> data <> [] ->
  split_fields_scalar data sep q = line_fields sep q data /\
  split_fields_scalar_into data sep q old = line_fields sep q data /\
  split_fields_simd lanes clmul data sep q = Some (line_fields sep q data) /\
  split_fields_simd_into lanes clmul data sep q old = Some (line_fields sep q data) /\
  split_fields lanes clmul data sep q = Some (line_fields sep q data) /\
  split_fields_into lanes clmul data sep q old = Some (line_fields sep q data).
Proof.
  intros HL Ho Hd.
  assert (H1 : split_fields_scalar data sep q = line_fields sep q data).
  { unfold split_fields_scalar. destruct data as [|c r]; [congruence|]. apply scalar_spec; assumption. }
  assert (H2 : split_fields_simd lanes clmul data sep q = Some (line_fields sep q data)).
  { unfold split_fields_simd. destruct data as [|c r]; [congruence|]. apply simd_spec; assumption. }
  assert (H1' : split_fields_scalar_into data sep q old = line_fields sep q data).
  { rewrite <- H1. reflexivity. }
  assert (H2' : split_fields_simd_into lanes clmul data sep q old = Some (line_fields sep q data)).
  { rewrite <- H2. reflexivity. }
  repeat split; try assumption.
  - unfold split_fields. destruct (64 <=? length data); [assumption|]. rewrite H1. reflexivity.
  - unfold split_fields_into. destruct (64 <=? length data); [assumption|]. rewrite H1'. reflexivity.
Qed.
End Line.
