(** Proofs about ChunkModel.v against ChunkSpec.v. *)
From Verif Require Import Base WordsModel WordsProof ChunkSpec ChunkModel.

Definition is_eol (c : byte) (nx : option byte) : bool :=
  N.eqb c LF || (N.eqb c CR && negb (match nx with Some d => N.eqb d LF | None => false end)).
Definition nx_of (r : bytes) (nxt : option byte) : option byte :=
  match r with d :: _ => Some d | [] => nxt end.

Fixpoint ends (st : bool) (q : byte) (l : bytes) (off : nat) (nxt : option byte) : list nat :=
  match l with
  | [] => []
  | c :: r =>
      if N.eqb c q then ends (negb st) q r (S off) nxt
      else (if negb st && is_eol c (nx_of r nxt) then [off] else []) ++ ends st q r (S off) nxt
  end.

Fixpoint endst (st : bool) (q : byte) (l : bytes) : bool :=
  match l with
  | [] => st
  | c :: r => endst (if N.eqb c q then negb st else st) q r
  end.

Lemma nx_of_app a b nxt : nx_of (a ++ b) nxt = nx_of a (nx_of b nxt).
Proof. destruct a; reflexivity. Qed.

Lemma endst_app st q a b : endst st q (a ++ b) = endst (endst st q a) q b.
Proof. revert st; induction a as [|c a IH]; intros st; [reflexivity|]. cbn. apply IH. Qed.

Lemma endst_negb st q l : endst (negb st) q l = negb (endst st q l).
Proof.
  revert st; induction l as [|c l IH]; intros st; [reflexivity|]. cbn.
  destruct (N.eqb c q); apply IH.
Qed.

Lemma endst_xor st q l : endst st q l = xorb st (endst false q l).
Proof.
  destruct st.
  - change true with (negb false) at 1. rewrite endst_negb. destruct (endst false q l); reflexivity.
  - rewrite xorb_false_l. reflexivity.
Qed.

Lemma ends_app st q a b off nxt :
  ends st q (a ++ b) off nxt =
  ends st q a off (nx_of b nxt) ++ ends (endst st q a) q b (off + length a) nxt.
Proof.
  revert st off; induction a as [|c a IH]; intros st off.
  - cbn. rewrite Nat.add_0_r. reflexivity.
  - cbn [app ends endst length]. rewrite nx_of_app.
    destruct (N.eqb c q).
    + rewrite IH. do 2 f_equal. lia.
    + rewrite IH, app_assoc. do 2 f_equal. lia.
Qed.

Lemma ends_shift st q l off nxt : ends st q l off nxt = map (Nat.add off) (ends st q l 0 nxt).
Proof.
  assert (H : forall l st off k, ends st q l (k + off) nxt = map (Nat.add k) (ends st q l off nxt)).
  { clear. intros l; induction l as [|c l IH]; intros st off k; [reflexivity|].
    cbn [ends]. destruct (N.eqb c q).
    - rewrite <- IH. f_equal. lia.
    - rewrite map_app, <- IH. f_equal; [|f_equal; lia].
      destruct (negb st && _); reflexivity. }
  rewrite <- (Nat.add_0_r off) at 1. apply H.
Qed.

(** pointwise form *)
Definition eol_at (l : bytes) (nxt : option byte) (i : nat) : bool :=
  match nth_error l i with Some c => is_eol c (nx_of (skipn (S i) l) nxt) | None => false end.

Lemma odd_count_cons q c l :
  Nat.odd (count_occ N.eq_dec (c :: l) q) = xorb (N.eqb c q) (Nat.odd (count_occ N.eq_dec l q)).
Proof.
  cbn [count_occ]. destruct (N.eq_dec c q) as [->|H].
  - rewrite N.eqb_refl. rewrite Nat.odd_succ, <- Nat.negb_odd. destruct (Nat.odd _); reflexivity.
  - apply N.eqb_neq in H. rewrite H, xorb_false_l. reflexivity.
Qed.

Lemma filter_seq_S (f : nat -> bool) n :
  filter f (seq 0 (S n)) = (if f 0 then [0] else []) ++ map S (filter (fun i => f (S i)) (seq 0 n)).
Proof.
  assert (H : forall a, filter f (seq (S a) n) = map S (filter (fun i => f (S i)) (seq a n))).
  { induction n as [|n IH]; intros a; [reflexivity|]. cbn [seq filter].
    rewrite IH. destruct (f (S a)); reflexivity. }
  cbn [seq filter]. rewrite H. destruct (f 0); reflexivity.
Qed.

Lemma filter_ext_seq (f g : nat -> bool) a n :
  (forall i, a <= i < a + n -> f i = g i) -> filter f (seq a n) = filter g (seq a n).
Proof.
  revert a; induction n as [|n IH]; intros a H; [reflexivity|].
  cbn [seq filter]. rewrite H by lia. rewrite (IH (S a)) by (intros; apply H; lia). reflexivity.
Qed.

Lemma ends_filter q l : q <> LF -> q <> CR -> forall st nxt,
  ends st q l 0 nxt =
  filter (fun i => eol_at l nxt i && negb (inside_at st q l i)) (seq 0 (length l)).
Proof.
  intros Hlf Hcr. induction l as [|c l IH]; intros st nxt; [reflexivity|].
  cbn [length]. rewrite filter_seq_S.
  assert (E : forall i, inside_at st q (c :: l) (S i) = inside_at (xorb st (N.eqb c q)) q l i).
  { intros i. unfold inside_at, quotes_before. cbn [firstn]. rewrite odd_count_cons, xorb_assoc. reflexivity. }
  assert (E0 : inside_at st q (c :: l) 0 = st).
  { unfold inside_at, quotes_before. cbn. apply xorb_false_r. }
  rewrite E0. cbn [ends].
  assert (Ea : eol_at (c :: l) nxt 0 = is_eol c (nx_of l nxt)) by reflexivity.
  rewrite Ea.
  rewrite (ends_shift st _ _ 1), (ends_shift (negb st) _ _ 1), !IH.
  destruct (N.eqb_spec c q) as [->|Hq].
  - replace (is_eol q (nx_of l nxt)) with false.
    2:{ unfold is_eol. apply N.eqb_neq in Hlf, Hcr. rewrite Hlf, Hcr. reflexivity. }
    cbn [andb app]. f_equal. apply filter_ext. intros i. rewrite E, xorb_true_r. reflexivity.
  - f_equal.
    + destruct st, (is_eol c (nx_of l nxt)); reflexivity.
    + f_equal. apply filter_ext. intros i. rewrite E. rewrite xorb_false_r. reflexivity.
Qed.

Lemma eol_at_line_end data i : eol_at data None i = line_end_at data i.
Proof.
  unfold eol_at, line_end_at, byte_is.
  destruct (nth_error data i) as [c|] eqn:E; [|reflexivity].
  unfold is_eol. do 3 f_equal.
  assert (H : forall n (l : bytes), nx_of (skipn n l) None = nth_error l n).
  { induction n as [|n IHn]; intros [|x l]; try reflexivity. cbn [skipn nth_error]. apply IHn. }
  rewrite H. reflexivity.
Qed.

Lemma row_ends_ends st q data : q <> LF -> q <> CR -> row_ends st q data = ends st q data 0 None.
Proof.
  intros H1 H2. rewrite ends_filter by assumption. unfold row_ends.
  apply filter_ext. intros i. rewrite eol_at_line_end. reflexivity.
Qed.

Lemma endst_spec st q l : endst st q l = xorb st (Nat.odd (count_occ N.eq_dec l q)).
Proof.
  revert st; induction l as [|c l IH]; intros st.
  - cbn. rewrite xorb_false_r. reflexivity.
  - cbn [endst]. rewrite odd_count_cons, IH, <- xorb_assoc. f_equal.
    destruct (N.eqb c q), st; reflexivity.
Qed.

Lemma spec_ends_inside_endst st q data : spec_ends_inside st q data = endst st q data.
Proof. unfold spec_ends_inside, inside_at, quotes_before. rewrite firstn_all, endst_spec. reflexivity. Qed.

(** ** accumulators *)
Definition last_end (init : nat) (E : list nat) : nat := fold_left (fun _ p => S p) E init.

Lemma last_end_app i a b : last_end i (a ++ b) = last_end (last_end i a) b.
Proof. apply fold_left_app. Qed.

Lemma last_end_rev i E : last_end i E = match rev E with [] => i | p :: _ => S p end.
Proof.
  induction E as [|p E IH] using rev_ind; [reflexivity|].
  rewrite last_end_app, rev_app_distr. reflexivity.
Qed.

(** ** scalar tail *)
Lemma list_two_ind {A} (P : list A -> Prop) :
  P [] -> (forall x, P [x]) -> (forall x y l, P l -> P (y :: l) -> P (x :: y :: l)) -> forall l, P l.
Proof.
  intros H0 H1 H2 l. assert (H : P l /\ forall x, P (x :: l)); [|apply H].
  induction l as [|y l [IHa IHb]]; split; auto.
Qed.

Lemma is_eol_cons c rest : is_eol c (nx_of rest None) = N.eqb c LF || (N.eqb c CR && negb (next_is LF rest)).
Proof. destruct rest; reflexivity. Qed.

Lemma next_is_single c : next_is c [] = false.
Proof. reflexivity. Qed.

Lemma analyze_tail_q q c rest off inq rows last : N.eqb c q = true ->
  analyze_tail q (c :: rest) off inq rows last =
  if inq && next_is q rest then analyze_tail q (tl rest) (off + 2) inq rows last
  else analyze_tail q rest (off + 1) (negb inq) rows last.
Proof.
  intros H. destruct rest as [|c' rest]; cbn; rewrite H; destruct inq; reflexivity.
Qed.

Lemma analyze_tail_spec q : forall l off inq rows last,
  analyze_tail q l off inq rows last =
  (rows + length (ends inq q l off None), last_end last (ends inq q l off None), endst inq q l).
Proof.
  assert (Step : forall c rest off inq rows last,
    (N.eqb c q = true -> forall o r l, analyze_tail q (c :: rest) o inq r l = 
      (r + length (ends inq q (c :: rest) o None), last_end l (ends inq q (c :: rest) o None), endst inq q (c :: rest))) ->
    (forall o i r l, analyze_tail q rest o i r l =
      (r + length (ends i q rest o None), last_end l (ends i q rest o None), endst i q rest)) ->
    analyze_tail q (c :: rest) off inq rows last =
    (rows + length (ends inq q (c :: rest) off None), last_end last (ends inq q (c :: rest) off None), endst inq q (c :: rest))).
  { intros c rest off inq rows last Hq IH. destruct (N.eqb c q) eqn:Ec; [apply Hq; reflexivity|].
    cbn [analyze_tail ends endst]. rewrite Ec, is_eol_cons.
    destruct inq; cbn [negb andb app].
    - rewrite IH, Nat.add_1_r. reflexivity.
    - destruct (N.eqb c LF); cbn [orb app].
      + rewrite IH, !Nat.add_1_r. cbn [length last_end fold_left]. rewrite Nat.add_succ_r. reflexivity.
      + destruct (N.eqb c CR); cbn [andb app].
        * destruct (next_is LF rest); cbn [negb app]; rewrite IH, !Nat.add_1_r; [reflexivity|].
          cbn [length last_end fold_left]. rewrite Nat.add_succ_r. reflexivity.
        * rewrite IH, Nat.add_1_r. reflexivity. }
  induction l as [|c|c c' l IH1 IH2] using list_two_ind; intros off inq rows last.
  - cbn. rewrite Nat.add_0_r. reflexivity.
  - apply Step.
    + intros Ec o r la. cbn. rewrite Ec. destruct inq; cbn; rewrite Nat.add_0_r; reflexivity.
    + intros. cbn. rewrite Nat.add_0_r. reflexivity.
  - apply Step; [|exact IH2].
    intros Ec o r la. rewrite analyze_tail_q by assumption. cbn [next_is tl].
    assert (Ee : ends inq q (c :: c' :: l) o None = ends (negb inq) q (c' :: l) (S o) None).
    { change (ends inq q (c :: c' :: l) o None) with
        (if N.eqb c q then ends (negb inq) q (c' :: l) (S o) None
         else (if negb inq && is_eol c (nx_of (c' :: l) None) then [o] else [])
              ++ ends inq q (c' :: l) (S o) None). rewrite Ec. reflexivity. }
    assert (Es : endst inq q (c :: c' :: l) = endst (negb inq) q (c' :: l)).
    { change (endst inq q (c :: c' :: l)) with (endst (if N.eqb c q then negb inq else inq) q (c' :: l)).
      rewrite Ec. reflexivity. }
    rewrite Ee, Es. destruct (inq && N.eqb c' q) eqn:Ex.
    + apply andb_true_iff in Ex as [-> Ec']. rewrite IH1. cbn [ends endst]. rewrite Ec'. cbn [negb].
      replace (S (S o)) with (o + 2) by lia. reflexivity.
    + rewrite IH2, Nat.add_1_r. reflexivity.
Qed.

Lemma analyze_tail_step q c rest off inq rows last :
  analyze_tail q (c :: rest) off inq rows last =
  if N.eqb c q then
    if inq && next_is q rest then analyze_tail q (tl rest) (off + 2) inq rows last
    else analyze_tail q rest (off + 1) (negb inq) rows last
  else if inq then analyze_tail q rest (off + 1) inq rows last
  else if N.eqb c LF then analyze_tail q rest (off + 1) inq (rows + 1) (off + 1)
  else if N.eqb c CR then
    if next_is LF rest then analyze_tail q rest (off + 1) inq rows last
    else analyze_tail q rest (off + 1) inq (rows + 1) (off + 1)
  else analyze_tail q rest (off + 1) inq rows last.
Proof. destruct rest as [|c' rest], inq; reflexivity. Qed.

Lemma count_rows_scalar_step q c rest off inq rows last :
  count_rows_scalar_loop q (c :: rest) off inq rows last =
  if N.eqb c q then
    if inq && next_is q rest then count_rows_scalar_loop q (tl rest) (off + 2) inq rows last
    else count_rows_scalar_loop q rest (off + 1) (negb inq) rows last
  else if inq then count_rows_scalar_loop q rest (off + 1) inq rows last
  else if N.eqb c LF then count_rows_scalar_loop q rest (off + 1) inq (rows + 1) (off + 1)
  else if N.eqb c CR then
    if next_is LF rest then count_rows_scalar_loop q rest (off + 1) inq rows last
    else count_rows_scalar_loop q rest (off + 1) inq (rows + 1) (off + 1)
  else count_rows_scalar_loop q rest (off + 1) inq rows last.
Proof. destruct rest as [|c' rest], inq; reflexivity. Qed.

Lemma count_rows_scalar_loop_tail q : forall l off inq rows last,
  count_rows_scalar_loop q l off inq rows last = fst (analyze_tail q l off inq rows last).
Proof.
  induction l as [|c|c c' l IH1 IH2] using list_two_ind; intros off inq rows last.
  - reflexivity.
  - cbn. destruct (N.eqb c q), inq, (N.eqb c LF), (N.eqb c CR); reflexivity.
  - rewrite count_rows_scalar_step, analyze_tail_step. cbn [tl].
    destruct (N.eqb c q); [destruct (inq && next_is q (c' :: l)); auto|].
    destruct inq; [auto|]. destruct (N.eqb c LF); [auto|].
    destruct (N.eqb c CR); [|auto]. destruct (next_is LF (c' :: l)); auto.
Qed.

(** ** blocks *)
Lemma prexor_count q l i : prexor (block_mask q l) i = Nat.odd (quotes_before q l i).
Proof.
  unfold quotes_before. induction i as [|i IH]; [reflexivity|].
  cbn [prexor]. rewrite IH, tb_block_mask. unfold nthb.
  destruct (nth_error l i) as [c|] eqn:E.
  - assert (H : firstn (S i) l = firstn i l ++ [c]).
    { clear IH. revert i E; induction l as [|x l IHl]; intros [|i] E; cbn in *; try discriminate.
      - injection E as ->. reflexivity.
      - f_equal. apply IHl. exact E. }
    rewrite H, count_occ_app. cbn [count_occ].
    destruct (N.eq_dec c q) as [->|Hn].
    + rewrite N.eqb_refl, Nat.add_1_r, Nat.odd_succ, <- Nat.negb_odd. apply xorb_true_r.
    + apply N.eqb_neq in Hn. rewrite Hn, Nat.add_0_r. apply xorb_false_r.
  - rewrite xorb_false_r. apply nth_error_None in E. rewrite !firstn_all2 by lia. reflexivity.
Qed.

Lemma tb_bit63 i : tb bit63 i = (i =? 63).
Proof.
  unfold tb, bit63. rewrite N.pow2_bits_eqb. destruct (Nat.eqb_spec i 63).
  - subst. reflexivity.
  - apply N.eqb_neq. lia.
Qed.

Lemma land_bit63 x : N.eqb (N.land x bit63) 0 = negb (tb x 63).
Proof.
  destruct (tb x 63) eqn:E; cbn [negb].
  - apply N.eqb_neq. intros H. assert (H' : tb (N.land x bit63) 63 = false) by (rewrite H; apply tb_0).
    rewrite tb_land, tb_bit63, E in H'. discriminate.
  - apply N.eqb_eq. apply tb_inj. intros i. rewrite tb_land, tb_bit63, tb_0.
    destruct (Nat.eqb_spec i 63); [subst; rewrite E; reflexivity|apply andb_false_r].
Qed.

Lemma nthb_nth_error {A} (f : A -> bool) l i :
  nthb f l i = match nth_error l i with Some x => f x | None => false end.
Proof. reflexivity. Qed.

Lemma block_masks_ok lanes q l :
  1 <= lanes -> Nat.divide lanes 64 -> 64 <= length l ->
  block_masks lanes q l =
  Some (block_mask q (firstn 64 l), block_mask LF (firstn 64 l), block_mask CR (firstn 64 l)).
Proof. intros H1 H2 H3. unfold block_masks. rewrite !assemble_mask_correct by assumption. reflexivity. Qed.

(** all lanes the vectorised loops are correct for *)
Definition lanes_ok (lanes : nat) : Prop := 1 <= lanes /\ Nat.divide lanes 64.

Lemma nx_of_skipn (l : bytes) i : 64 <= length l ->
  nx_of (skipn (S i) (firstn 64 l)) (nx_of (skipn 64 l) None)
  = if i <? 63 then nth_error l (S i) else if i =? 63 then nth_error l 64 else nx_of (skipn 64 l) None.
Proof.
  intros Hlen.
  assert (H : forall n (l : bytes), nx_of (skipn n l) None = nth_error l n).
  { induction n as [|n IHn]; intros [|x l']; try reflexivity. cbn [skipn nth_error]. apply IHn. }
  rewrite H.
  assert (H2 : forall n m (l : bytes) d, n < m -> (n < length l \/ m <= length l) -> 
     nx_of (skipn n (firstn m l)) d = nth_error l n).
  { induction n as [|n IHn]; intros m l' d Hm Hl; destruct m as [|m]; try lia; destruct l' as [|x l'']; cbn in *; try lia; [reflexivity|].
    apply IHn; lia. }
  destruct (Nat.ltb_spec i 63).
  - apply H2; lia.
  - rewrite skipn_all2 by (rewrite firstn_length; lia). cbn [nx_of].
    destruct (Nat.eqb_spec i 63); reflexivity.
Qed.

Lemma nth_error_firstn_lt {A} n (l : list A) i : i < n -> nth_error (firstn n l) i = nth_error l i.
Proof.
  revert l i; induction n as [|n IH]; intros [|x l] [|i] H; try reflexivity; try lia.
  cbn. apply IH. lia.
Qed.

Lemma eol_bits_generic l i m (outside : bool) :
  64 <= length l ->
  i < 64 -> nth_error l i = Some m ->
  (N.eqb m LF && outside) || (N.eqb m CR && outside && negb (byte_is l (S i) LF)) =
  eol_at (firstn 64 l) (nx_of (skipn 64 l) None) i && outside.
Proof.
  intros Hlen Hi Hm. unfold eol_at.
  assert (E : nth_error (firstn 64 l) i = Some m).
  { rewrite nth_error_firstn_lt by assumption. exact Hm. }
  rewrite E, nx_of_skipn by assumption.
  assert (E2 : (if i <? 63 then nth_error l (S i) else if i =? 63 then nth_error l 64
                else nx_of (skipn 64 l) None) = nth_error l (S i)).
  { destruct (Nat.ltb_spec i 63); [reflexivity|]. replace i with 63 by lia. reflexivity. }
  rewrite E2. unfold is_eol, byte_is.
  destruct (N.eqb m LF), (N.eqb m CR), outside, (match nth_error l (S i) with Some x => N.eqb x LF | None => false end); reflexivity.
Qed.

Lemma next_is_nth l n c : next_is c (skipn n l) = byte_is l n c.
Proof.
  unfold byte_is. revert l; induction n as [|n IH]; intros [|x l]; try reflexivity. cbn [skipn nth_error]. apply IH.
Qed.

Section Block.
  Variables (clmul : bool) (q : byte) (l : bytes) (st : bool).
  Hypothesis Hlf : q <> LF.
  Hypothesis Hcr : q <> CR.
  Hypothesis Hlen : 64 <= length l.
  Let blk := firstn 64 l.
  Let nxt := nx_of (skipn 64 l) None.
  Let qb := block_mask q blk.
  Let nb := block_mask LF blk.
  Let cb := block_mask CR blk.

  Lemma blk_len : length blk = 64.
  Proof using q l Hlen. clear Hlf Hcr. unfold blk. rewrite firstn_length. lia. Qed.

  Lemma qb_lt : (qb < 2 ^ 64)%N.
  Proof using q l Hlen. clear Hlf Hcr. apply block_mask_lt64. rewrite blk_len. lia. Qed.

  Lemma nth_blk i : i < 64 -> exists m, nth_error l i = Some m.
  Proof using q l Hlen. clear Hlf Hcr. intros H. destruct (nth_error l i) eqn:E; [eauto|]. apply nth_error_None in E. lia. Qed.

  Lemma tb_blk c i m : i < 64 -> nth_error l i = Some m -> tb (block_mask c blk) i = N.eqb m c.
  Proof using q l. clear Hlf Hcr Hlen.
    intros Hi Hm. rewrite tb_block_mask. unfold blk. rewrite nthb_firstn, nthb_nth_error, Hm.
    replace (i <? 64) with true by lia. reflexivity.
  Qed.

  (** parity inclusive of position i equals parity before i at a non-quote *)
  Lemma parity_incl i m : i < 64 -> nth_error l i = Some m -> m <> q ->
    prexor qb (S i) = Nat.odd (quotes_before q blk i).
  Proof using q l. clear Hlf Hcr Hlen.
    intros Hi Hm Hq. cbn [prexor]. unfold qb at 1. rewrite prexor_count.
    unfold qb. rewrite (tb_blk q i m Hi Hm). apply N.eqb_neq in Hq. rewrite Hq. apply xorb_false_r.
  Qed.

  Lemma tb_nb_shift i : i < 63 -> tb (shr64 nb 1) i = byte_is l (S i) LF.
  Proof using q l. clear Hlf Hcr Hlen.
    intros Hi. change 1%N with (N.of_nat 1). rewrite tb_shr64. unfold nb. rewrite tb_block_mask.
    unfold blk. rewrite nthb_firstn. replace (i + 1 <? 64) with true by lia.
    rewrite Nat.add_1_r. reflexivity.
  Qed.

  Lemma tb_nb_shift63 : tb (shr64 nb 1) 63 = false.
  Proof using q l. clear Hlf Hcr Hlen.
    change 1%N with (N.of_nat 1). rewrite tb_shr64. unfold nb. rewrite tb_block_mask.
    unfold blk. rewrite nthb_firstn. reflexivity.
  Qed.

  Lemma eol_word_bits x (out : nat -> bool) :
    (forall i, i < 64 -> tb x i =
       (tb nb i && out i) || (tb cb i && out i && negb (byte_is l (S i) LF))) ->
    (forall i m, i < 64 -> nth_error l i = Some m -> m <> q ->
       out i = negb (inside_at st q blk i)) ->
    filter (tb x) (seq 0 64) = ends st q blk 0 nxt.
  Proof using Hlf Hcr Hlen.
    intros Hx Hout. rewrite ends_filter by assumption. rewrite blk_len.
    apply filter_ext_seq. intros i Hi. rewrite Hx by lia.
    destruct (nth_blk i) as [m Hm]; [lia|].
    unfold nb, cb. rewrite !(tb_blk _ i m) by (lia || assumption).
    destruct (N.eqb_spec m q) as [->|Hq].
    - apply N.eqb_neq in Hlf as H1. apply N.eqb_neq in Hcr as H2. rewrite H1, H2. cbn [andb orb].
      unfold eol_at. assert (E : nth_error blk i = Some q).
      { unfold blk. rewrite nth_error_firstn_lt by lia. exact Hm. }
      rewrite E. unfold is_eol. rewrite H1, H2. reflexivity.
    - rewrite (Hout i m) by (lia || assumption). unfold nxt, blk. apply eol_bits_generic; [assumption|lia|assumption].
  Qed.

  Lemma block_valid_eol_spec :
    let '(eol, state') := block_valid_eol clmul qb nb cb (st_word st) l in
    filter (tb eol) (seq 0 64) = ends st q blk 0 nxt /\
    (eol < 2 ^ 64)%N /\ state' = st_word (endst st q blk).
  Proof using Hlf Hcr Hlen.
    unfold block_valid_eol.
    destruct (find_quote_mask clmul qb (st_word st)) as [inside state'] eqn:E.
    pose proof (find_quote_mask_bits clmul qb st qb_lt) as [B S']. rewrite E in B, S'. cbn [fst snd] in B, S'.
    set (valid_cr := N.land cb (not64 inside)).
    set (crlf := N.land valid_cr (shr64 nb 1)).
    set (sa := N.land valid_cr (not64 crlf)).
    rewrite land_bit63, negb_involutive, next_is_nth.
    set (sa' := if tb sa 63 && byte_is l 64 LF then N.land sa (not64 bit63) else sa).
    assert (Hin : forall i, i < 64 -> tb (not64 inside) i = negb (xorb st (prexor qb (S i)))).
    { intros i Hi. rewrite tb_not64, B. replace (i <? 64) with true by lia. reflexivity. }
    assert (Hsa : forall i, i < 64 -> tb sa' i =
       tb cb i && negb (xorb st (prexor qb (S i))) && negb (byte_is l (S i) LF)).
    { assert (Hsa0 : forall i, i < 64 -> tb sa i =
         tb cb i && negb (xorb st (prexor qb (S i))) && negb (tb (shr64 nb 1) i)).
      { intros i Hi. unfold sa, crlf, valid_cr. rewrite !tb_land, Hin, tb_not64, !tb_land, Hin by assumption.
        replace (i <? 64) with true by lia.
        destruct (tb cb i), (negb (xorb st (prexor qb (S i)))), (tb (shr64 nb 1) i); reflexivity. }
      intros i Hi. unfold sa'. destruct (Nat.eq_dec i 63) as [->|Hne].
      - specialize (Hsa0 63 Hi). rewrite tb_nb_shift63 in Hsa0. cbn [negb] in Hsa0. rewrite andb_true_r in Hsa0.
        destruct (tb sa 63) eqn:E63.
        + rewrite <- Hsa0. cbn [andb]. destruct (byte_is l 64 LF); cbn [negb].
          * rewrite tb_land, tb_not64, tb_bit63. rewrite andb_false_r. reflexivity.
          * exact E63.
        + rewrite <- Hsa0. cbn [andb]. exact E63.
      - replace (tb (if tb sa 63 && byte_is l 64 LF then N.land sa (not64 bit63) else sa) i) with (tb sa i).
        2:{ destruct (tb sa 63 && byte_is l 64 LF); [|reflexivity].
            rewrite tb_land, tb_not64, tb_bit63. replace (i <? 64) with true by lia.
            replace (i =? 63) with false by lia. cbn. rewrite andb_true_r. reflexivity. }
        rewrite Hsa0, tb_nb_shift by lia. reflexivity. }
    split; [|split].
    - apply (eol_word_bits _ (fun i => negb (xorb st (prexor qb (S i))))).
      + intros i Hi. rewrite tb_lor, tb_land, Hin, Hsa by assumption. reflexivity.
      + intros i m Hi Hm Hq. rewrite (parity_incl i m) by assumption. reflexivity.
    - apply (lt_pow2_of_bits _ 64). intros i Hi. rewrite tb_lor, tb_land.
      assert (Hn : forall c, tb (block_mask c blk) i = false).
      { intros c. rewrite tb_block_mask. unfold nthb. destruct (nth_error blk i) eqn:En; [|reflexivity].
        exfalso. assert (nth_error blk i <> None) as Hs by congruence. apply nth_error_Some in Hs.
        rewrite blk_len in Hs. lia. }
      unfold nb at 1. rewrite Hn. cbn [andb orb]. unfold sa'.
      assert (Hs : tb sa i = false).
      { unfold sa, valid_cr. rewrite !tb_land. unfold cb. rewrite Hn. reflexivity. }
      destruct (tb sa 63 && byte_is l 64 LF); [rewrite tb_land|]; rewrite Hs; reflexivity.
    - rewrite S'. f_equal. unfold qb. rewrite prexor_count, endst_spec. unfold quotes_before.
      rewrite firstn_all2 by (rewrite blk_len; lia). reflexivity.
  Qed.

End Block.

Lemma dual_block_eol_spec clmul q l st : q <> LF -> q <> CR -> 64 <= length l ->
  let blk := firstn 64 l in
  let nxt := nx_of (skipn 64 l) None in
  let '(eo, ei, state') := dual_block_eol clmul (block_mask q blk) (block_mask LF blk)
                             (block_mask CR blk) (st_word st) l in
  filter (tb eo) (seq 0 64) = ends st q blk 0 nxt /\
  filter (tb ei) (seq 0 64) = ends (negb st) q blk 0 nxt /\
  (eo < 2 ^ 64)%N /\ (ei < 2 ^ 64)%N /\ state' = st_word (endst st q blk).
Proof.
  intros Hlf Hcr Hlen blk nxt.
  set (qb := block_mask q blk). set (nb := block_mask LF blk). set (cb := block_mask CR blk).
  unfold dual_block_eol.
  pose proof (find_quote_mask_bits clmul qb st (qb_lt q l Hlen)) as [B S'].
  unfold find_quote_mask in B, S'. cbn [fst snd] in B, S'.
  set (par := N.lxor (prefix_xorsum clmul qb) (st_word st)) in *.
  set (crlf := N.land cb (shr64 nb 1)).
  rewrite land_bit63, negb_involutive, next_is_nth.
  set (eo0 := N.lor (N.land nb (not64 par)) (N.land (N.land cb (not64 par)) (not64 crlf))).
  set (ei0 := N.lor (N.land nb par) (N.land (N.land cb par) (not64 crlf))).
  assert (Hin : forall i, i < 64 -> tb (not64 par) i = negb (xorb st (prexor qb (S i)))).
  { intros i Hi. rewrite tb_not64, B. replace (i <? 64) with true by lia. reflexivity. }
  assert (Hin2 : forall i, i < 64 -> tb par i = xorb st (prexor qb (S i))).
  { intros i Hi. rewrite B. replace (i <? 64) with true by lia. reflexivity. }
  assert (Hn : forall c i, 64 <= i -> tb (block_mask c blk) i = false).
  { intros c i Hi. rewrite tb_block_mask. unfold nthb. destruct (nth_error blk i) eqn:En; [|reflexivity].
    exfalso. assert (nth_error blk i <> None) as Hs by congruence. apply nth_error_Some in Hs.
    unfold blk in Hs. rewrite (blk_len q l Hlen) in Hs. lia. }
  assert (Hnl63 : forall m, nth_error l 63 = Some m -> N.eqb m CR = true -> N.eqb m LF = false).
  { intros m _ Hm. apply N.eqb_eq in Hm. subst. reflexivity. }
  destruct (nth_blk q l Hlen 63) as [m63 Hm63]; [lia|].
  assert (Hs63 : tb (shr64 nb 1) 63 = false) by exact (tb_nb_shift63 q l).
  assert (Hs : forall i, i < 63 -> tb (shr64 nb 1) i = byte_is l (S i) LF) by exact (tb_nb_shift q l).
  assert (Htb : forall c i m, i < 64 -> nth_error l i = Some m -> tb (block_mask c blk) i = N.eqb m c)
    by exact (tb_blk q l).
  assert (Hpi : forall i m, i < 64 -> nth_error l i = Some m -> m <> q ->
    prexor qb (S i) = Nat.odd (quotes_before q blk i)) by exact (parity_incl q l).
  assert (Gen : forall (e : N) (out : nat -> bool) (w : N),
     (forall i, i < 64 -> tb w i = out i) ->
     e = N.lor (N.land nb w) (N.land (N.land cb w) (not64 crlf)) ->
     forall i, i < 64 ->
       tb (if tb cb 63 && byte_is l 64 LF then N.land e (not64 bit63) else e) i =
       (tb nb i && out i) || (tb cb i && out i && negb (byte_is l (S i) LF))).
  { intros e out w Hw He i Hi.
    assert (He0 : tb e i = (tb nb i && out i) || (tb cb i && out i && negb (tb (shr64 nb 1) i))).
    { rewrite He. rewrite tb_lor, !tb_land, tb_not64. unfold crlf. rewrite tb_land, Hw by assumption.
      replace (i <? 64) with true by lia.
      destruct (tb nb i), (tb cb i), (out i), (tb (shr64 nb 1) i); reflexivity. }
    destruct (Nat.eq_dec i 63) as [->|Hne].
    - rewrite Hs63 in He0. cbn [negb] in He0. rewrite andb_true_r in He0.
      destruct (tb cb 63) eqn:E63; cbn [andb] in *.
      + assert (En : tb nb 63 = false).
        { unfold nb. rewrite (Htb LF 63 m63) by (lia || assumption).
          apply (Hnl63 m63 Hm63). unfold cb in E63. rewrite (Htb CR 63 m63) in E63 by (lia || assumption). assumption. }
        rewrite En in *. cbn [andb orb] in *. destruct (byte_is l 64 LF); cbn [negb].
        * rewrite tb_land, tb_not64, tb_bit63. cbn. rewrite !andb_false_r. reflexivity.
        * rewrite He0, andb_true_r. reflexivity.
      + rewrite He0. reflexivity.
    - transitivity (tb e i).
      + destruct (tb cb 63 && byte_is l 64 LF); [|reflexivity].
        rewrite tb_land, tb_not64, tb_bit63. replace (i <? 64) with true by lia.
        replace (i =? 63) with false by lia. cbn. rewrite andb_true_r. reflexivity.
      + rewrite He0, Hs by lia. reflexivity. }
  assert (Hi : forall (e w : N), e = N.lor (N.land nb w) (N.land (N.land cb w) (not64 crlf)) ->
     ((if tb cb 63 && byte_is l 64 LF then N.land e (not64 bit63) else e) < 2 ^ 64)%N).
  { intros e w He. apply (lt_pow2_of_bits _ 64). intros i Hi.
    assert (tb e i = false).
    { rewrite He, tb_lor, !tb_land. unfold nb, cb. rewrite !Hn by assumption. reflexivity. }
    destruct (tb cb 63 && byte_is l 64 LF); [rewrite tb_land|]; rewrite H; reflexivity. }
  pose proof (Gen eo0 _ _ Hin eq_refl) as Go.
  pose proof (Gen ei0 _ _ Hin2 eq_refl) as Gi.
  pose proof (Hi eo0 _ eq_refl) as Lo. pose proof (Hi ei0 _ eq_refl) as Li.
  set (eo := if tb cb 63 && byte_is l 64 LF then N.land eo0 (not64 bit63) else eo0) in *.
  set (ei := if tb cb 63 && byte_is l 64 LF then N.land ei0 (not64 bit63) else ei0) in *.
  replace (if tb cb 63 && byte_is l 64 LF then _ else _) with (eo, ei, sign_extend63 par)
    by (unfold eo, ei; destruct (tb cb 63 && byte_is l 64 LF); reflexivity).
  split; [|split; [|split; [exact Lo|split; [exact Li|]]]].
  - apply (eol_word_bits q l st Hlf Hcr Hlen eo _ Go).
    intros i m Hi' Hm Hq. rewrite (Hpi i m) by assumption. reflexivity.
  - apply (eol_word_bits q l (negb st) Hlf Hcr Hlen ei _ Gi).
    intros i m Hi' Hm Hq. rewrite (Hpi i m) by assumption. unfold inside_at.
    fold blk. destruct st, (Nat.odd (quotes_before q blk i)); reflexivity.
  - rewrite S'. f_equal. unfold qb. rewrite prexor_count, endst_spec. unfold quotes_before.
    rewrite firstn_all2 by (unfold blk; rewrite (blk_len q l Hlen); lia). reflexivity.
Qed.

(** ** from block words to counts *)
Lemma filter_seq_high (f : nat -> bool) k n : k < n -> f k = true ->
  (forall i, k < i < n -> f i = false) ->
  exists p, filter f (seq 0 n) = p ++ [k].
Proof.
  intros Hk Hf Hh. exists (filter f (seq 0 k)).
  replace n with (k + S (n - S k)) by lia. rewrite seq_app, filter_app. f_equal.
  cbn [seq filter Nat.add]. rewrite Hf. f_equal.
  assert (H : forall a m, (forall i, a <= i < a + m -> f i = false) -> filter f (seq a m) = []).
  { clear. intros a m; revert a; induction m as [|m IH]; intros a H; [reflexivity|].
    cbn. rewrite H by lia. apply IH. intros; apply H; lia. }
  apply H. intros i Hi. apply Hh. lia.
Qed.

Lemma filter_seq_low (f : nat -> bool) k n : k < n -> f k = true ->
  (forall i, i < k -> f i = false) ->
  exists p, filter f (seq 0 n) = k :: p.
Proof.
  intros Hk Hf Hh. exists (filter f (seq (S k) (n - S k))).
  replace n with (k + S (n - S k)) at 1 by lia. rewrite seq_app, filter_app.
  assert (H : forall a m, (forall i, a <= i < a + m -> f i = false) -> filter f (seq a m) = []).
  { clear. intros a m; revert a; induction m as [|m IH]; intros a H; [reflexivity|].
    cbn. rewrite H by lia. apply IH. intros; apply H; lia. }
  rewrite H by (intros; apply Hh; lia). cbn [app Nat.add seq filter]. rewrite Hf. reflexivity.
Qed.

Lemma eol_counts x E off last : (x < 2 ^ 64)%N -> filter (tb x) (seq 0 64) = E ->
  popcount x = length E /\
  (if N.eqb x 0 then last else off + high_bit x + 1) = last_end last (map (Nat.add off) E).
Proof.
  intros Hx <-. split; [apply (popcount_filter 64); exact Hx|].
  destruct (N.eqb_spec x 0) as [->|Hz].
  - rewrite (filter_ext_seq _ (fun _ => false)) by (intros; apply tb_0).
    reflexivity.
  - destruct (high_bit_spec x Hz) as [H1 H2].
    destruct (filter_seq_high (tb x) (high_bit x) 64) as [p Hp].
    + apply (high_bit_lt x 64); assumption.
    + assumption.
    + intros i Hi. apply H2. lia.
    + rewrite Hp, map_app, last_end_app. cbn. lia.
Qed.

Lemma st_word_eqb b : negb (N.eqb (st_word b) 0) = b.
Proof. destruct b; reflexivity. Qed.

Lemma ends_block_split st q l off :
  64 <= length l ->
  ends st q l off None = map (Nat.add off) (ends st q (firstn 64 l) 0 (nx_of (skipn 64 l) None))
     ++ ends (endst st q (firstn 64 l)) q (skipn 64 l) (off + 64) None.
Proof.
  intros H. rewrite <- (firstn_skipn 64 l) at 1. rewrite ends_app, <- ends_shift.
  do 2 f_equal. rewrite firstn_length. lia.
Qed.

Lemma endst_block_split st q l : endst st q l = endst (endst st q (firstn 64 l)) q (skipn 64 l).
Proof. rewrite <- endst_app, firstn_skipn. reflexivity. Qed.

Lemma analyze_blocks_step fuel lanes clmul q l off state rows last : 64 <= length l ->
  analyze_blocks (S fuel) lanes clmul q l off state rows last =
  match block_masks lanes q l with
  | None => None
  | Some (qb, nb, cb) =>
      let '(eol, state') := block_valid_eol clmul qb nb cb state l in
      analyze_blocks fuel lanes clmul q (skipn 64 l) (off + 64) state'
        (rows + popcount eol) (if N.eqb eol 0 then last else off + high_bit eol + 1)
  end.
Proof. intros H. apply Nat.leb_le in H. cbn [analyze_blocks]. rewrite H. reflexivity. Qed.

Lemma analyze_blocks_spec lanes clmul q : lanes_ok lanes -> q <> LF -> q <> CR ->
  forall fuel l off st rows last, length l <= fuel ->
  analyze_blocks fuel lanes clmul q l off (st_word st) rows last =
  Some (rows + length (ends st q l off None), last_end last (ends st q l off None), endst st q l).
Proof.
  intros [Hl1 Hl2] Hlf Hcr. induction fuel as [|fuel IH]; intros l off st rows last Hf.
  - destruct l; [|cbn in Hf; lia]. cbn. rewrite st_word_eqb, Nat.add_0_r. reflexivity.
  - destruct (Nat.le_gt_cases 64 (length l)) as [Hlen|Hlen].
    + rewrite analyze_blocks_step by assumption. rewrite block_masks_ok by assumption.
      pose proof (block_valid_eol_spec clmul q l st Hlf Hcr Hlen) as H.
      destruct (block_valid_eol _ _ _ _ _ _) as [eol state'].
      destruct H as (H1 & H2 & ->).
      rewrite IH by (rewrite skipn_length; lia).
      rewrite (ends_block_split st q l off Hlen), app_length, last_end_app, map_length.
      destruct (eol_counts eol _ off last H2 H1) as [-> ->].
      rewrite <- endst_block_split, Nat.add_assoc. reflexivity.
    + cbn [analyze_blocks]. replace (64 <=? length l) with false by lia.
      rewrite st_word_eqb, analyze_tail_spec. reflexivity.
Qed.

Lemma analyze_chunk_simd_spec lanes clmul data q st : lanes_ok lanes -> q <> LF -> q <> CR ->
  analyze_chunk_simd lanes clmul data q st =
  Some (spec_row_count st q data, spec_last_row_end st q data, spec_ends_inside st q data).
Proof.
  intros Hl Hlf Hcr. unfold spec_row_count, spec_last_row_end.
  rewrite row_ends_ends, spec_ends_inside_endst, <- last_end_rev by assumption.
  unfold analyze_chunk_simd. fold (st_word st).
  destruct data as [|c data].
  - cbn. rewrite st_word_eqb. reflexivity.
  - rewrite analyze_blocks_spec by (assumption || lia). reflexivity.
Qed.

Lemma count_rows_scalar_spec data q : q <> LF -> q <> CR ->
  count_rows_scalar data q = (spec_row_count false q data, spec_last_row_end false q data).
Proof.
  intros Hlf Hcr. unfold count_rows_scalar. rewrite count_rows_scalar_loop_tail, analyze_tail_spec.
  unfold spec_row_count, spec_last_row_end. rewrite row_ends_ends, <- last_end_rev by assumption. reflexivity.
Qed.

Lemma count_rows_simd_spec lanes clmul data q : lanes_ok lanes -> q <> LF -> q <> CR ->
  count_rows_simd lanes clmul data q = Some (spec_row_count false q data, spec_last_row_end false q data).
Proof. intros. unfold count_rows_simd. rewrite analyze_chunk_simd_spec by assumption. reflexivity. Qed.

Lemma count_rows_spec lanes clmul data q : lanes_ok lanes -> q <> LF -> q <> CR ->
  count_rows lanes clmul data q = Some (spec_row_count false q data, spec_last_row_end false q data).
Proof.
  intros. unfold count_rows. destruct (length data <? 64).
  - rewrite count_rows_scalar_spec by assumption. reflexivity.
  - apply count_rows_simd_spec; assumption.
Qed.

(** ** dual-state analysis *)
Lemma dual_tail_step q c rest off par ro lo ri li :
  dual_tail q (c :: rest) off par ro lo ri li =
  if N.eqb c q then dual_tail q rest (off + 1) (negb par) ro lo ri li
  else if is_eol c (nx_of rest None) then
    if par then dual_tail q rest (off + 1) par ro lo (ri + 1) (off + 1)
    else dual_tail q rest (off + 1) par (ro + 1) (off + 1) ri li
  else dual_tail q rest (off + 1) par ro lo ri li.
Proof.
  rewrite is_eol_cons. cbn [dual_tail].
  destruct (N.eqb c q); [reflexivity|]. destruct (N.eqb c LF); [destruct par; reflexivity|].
  destruct (N.eqb c CR); [|reflexivity]. destruct (next_is LF rest); [reflexivity|]. destruct par; reflexivity.
Qed.

Lemma dual_tail_spec q : forall l off par ro lo ri li,
  dual_tail q l off par ro lo ri li =
  mkDual (ro + length (ends par q l off None)) (last_end lo (ends par q l off None))
         (ri + length (ends (negb par) q l off None)) (last_end li (ends (negb par) q l off None))
         (endst par q l).
Proof.
  induction l as [|c l IH]; intros off par ro lo ri li.
  - cbn. rewrite !Nat.add_0_r. reflexivity.
  - rewrite dual_tail_step. cbn [ends endst].
    destruct (N.eqb c q); [rewrite IH, Nat.add_1_r; reflexivity|].
    destruct (is_eol c (nx_of l None)).
    + destruct par; cbn [negb andb app length last_end fold_left]; rewrite IH, !Nat.add_1_r;
        cbn [negb]; rewrite Nat.add_succ_r; reflexivity.
    + rewrite !andb_false_r, IH, Nat.add_1_r. reflexivity.
Qed.

Lemma dual_blocks_step fuel lanes clmul q l off state ro lo ri li : 64 <= length l ->
  dual_blocks (S fuel) lanes clmul q l off state ro lo ri li =
  match block_masks lanes q l with
  | None => None
  | Some (qb, nb, cb) =>
      let '(eo, ei, state') := dual_block_eol clmul qb nb cb state l in
      dual_blocks fuel lanes clmul q (skipn 64 l) (off + 64) state'
        (ro + popcount eo) (if N.eqb eo 0 then lo else off + high_bit eo + 1)
        (ri + popcount ei) (if N.eqb ei 0 then li else off + high_bit ei + 1)
  end.
Proof. intros H. apply Nat.leb_le in H. cbn [dual_blocks]. rewrite H. reflexivity. Qed.

Lemma dual_blocks_spec lanes clmul q : lanes_ok lanes -> q <> LF -> q <> CR ->
  forall fuel l off st ro lo ri li, length l <= fuel ->
  dual_blocks fuel lanes clmul q l off (st_word st) ro lo ri li =
  Some (mkDual (ro + length (ends st q l off None)) (last_end lo (ends st q l off None))
         (ri + length (ends (negb st) q l off None)) (last_end li (ends (negb st) q l off None))
         (endst st q l)).
Proof.
  intros [Hl1 Hl2] Hlf Hcr. induction fuel as [|fuel IH]; intros l off st ro lo ri li Hf.
  - destruct l; [|cbn in Hf; lia]. cbn. rewrite st_word_eqb, !Nat.add_0_r. reflexivity.
  - destruct (Nat.le_gt_cases 64 (length l)) as [Hlen|Hlen].
    + rewrite dual_blocks_step by assumption. rewrite block_masks_ok by assumption.
      pose proof (dual_block_eol_spec clmul q l st Hlf Hcr Hlen) as H. cbv zeta in H.
      destruct (dual_block_eol _ _ _ _ _ _) as [[eo ei] state'].
      destruct H as (H1 & H2 & H3 & H4 & ->).
      rewrite IH by (rewrite skipn_length; lia).
      rewrite (ends_block_split st q l off Hlen), (ends_block_split (negb st) q l off Hlen).
      rewrite !app_length, !last_end_app, !map_length.
      destruct (eol_counts eo _ off lo H3 H1) as [-> ->].
      destruct (eol_counts ei _ off li H4 H2) as [-> ->].
      rewrite <- endst_block_split, !Nat.add_assoc, endst_negb. reflexivity.
    + cbn [dual_blocks]. replace (64 <=? length l) with false by lia.
      rewrite st_word_eqb, dual_tail_spec. reflexivity.
Qed.

Lemma dual_spec lanes clmul data q : lanes_ok lanes -> q <> LF -> q <> CR ->
  analyze_chunk_dual_state_simd lanes clmul data q =
  Some (mkDual (spec_row_count false q data) (spec_last_row_end false q data)
               (spec_row_count true q data) (spec_last_row_end true q data)
               (spec_ends_inside false q data)).
Proof.
  intros Hl Hlf Hcr. unfold spec_row_count, spec_last_row_end.
  rewrite !row_ends_ends, spec_ends_inside_endst, <- !last_end_rev by assumption.
  unfold analyze_chunk_dual_state_simd.
  destruct data as [|c data]; [reflexivity|].
  change 0%N with (st_word false). rewrite dual_blocks_spec by (assumption || lia). reflexivity.
Qed.
