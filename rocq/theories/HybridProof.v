From Verif Require Import Base WordsModel VarintSpec VarintModel VarintProof ThriftSpec ThriftProof BuffersSpec BuffersModel RleSpec RleModel RleProof RleProof2 RleProof3 HybridSpec.

Lemma lead_repeat v n l : lead v (repeat v n ++ l) = n + lead v l.
Proof. induction n as [|n IH]; [reflexivity|]. cbn [repeat app lead]. rewrite N.eqb_refl, IH. reflexivity. Qed.
Lemma lead_split : forall l v, l = repeat v (lead v l) ++ skipn (lead v l) l.
Proof.
  induction l as [|x r IH]; intros v; [reflexivity|]. cbn [lead]. destruct (N.eqb_spec x v) as [->|H]; [|reflexivity].
  cbn [repeat skipn app]. f_equal. apply IH.
Qed.
Lemma lead_le : forall l v, lead v l <= length l.
Proof. induction l as [|x r IH]; intros v; [cbn; lia|]. cbn [lead length]. destruct (x =? v)%N; [specialize (IH v); lia|lia]. Qed.

Lemma firstn_lead : forall l v k, k <= lead v l -> firstn k l = repeat v k.
Proof.
  induction l as [|x r IH]; intros v k H; [cbn [lead] in H; assert (k = 0) by lia; subst; reflexivity|].
  cbn [lead] in H. destruct k as [|k]; [reflexivity|]. destruct (N.eqb_spec x v) as [->|]; [|lia]. cbn [firstn repeat]. f_equal. apply IH. lia.
Qed.

Lemma starts_eight_spec l : starts_eight l = true <-> exists v r, l = repeat v 8 ++ r.
Proof.
  split.
  - destruct l as [|v l]; [discriminate|]. cbn [starts_eight]. intros H. apply Nat.leb_le in H. exists v.
    exists (skipn 8 (v :: l)). rewrite <- (firstn_lead (v :: l) v 8 H). symmetry. apply firstn_skipn.
  - intros (v & r & ->). change (repeat v 8 ++ r) with (v :: repeat v 7 ++ r). cbn [starts_eight].
    change (v :: repeat v 7 ++ r) with (repeat v 8 ++ r). rewrite lead_repeat. reflexivity.
Qed.

(** Literals in front of something. *)
Lemma literals_app : forall x y room, length x <= room ->
  (forall i, i < length x -> i + 8 <= room -> starts_eight (skipn i (x ++ y)) = false) ->
  literals room (x ++ y) = length x + literals (room - length x) y.
Proof.
  induction x as [|a x IH]; intros y room Hl H.
  - cbn [app length Nat.add]. rewrite Nat.sub_0_r. reflexivity.
  - destruct room as [|m]; [cbn [length] in Hl; lia|]. cbn [app literals].
    assert (E : starts_eight (a :: x ++ y) && (8 <=? S m) = false).
    { destruct (Nat.leb_spec 8 (S m)); [|apply andb_false_r]. rewrite andb_true_r. apply (H 0); cbn [length] in *; lia. }
    rewrite E. cbn [length Nat.add Nat.sub]. f_equal. apply IH; [cbn [length] in Hl; lia|].
    intros i Hi H8. apply (H (S i)); cbn [length]; lia.
Qed.
Lemma literals_stop room y : starts_eight y = true -> 8 <= room -> literals room y = 0.
Proof.
  intros H Hr. destruct y as [|v y]; [discriminate H|]. destruct room as [|m]; [lia|]. cbn [literals]. rewrite H.
  destruct (Nat.leb_spec 8 (S m)); [reflexivity|lia].
Qed.
Lemma literals_0 y : literals 0 y = 0.
Proof. destruct y; reflexivity. Qed.
Lemma literals_le : forall l room, literals room l <= length l.
Proof.
  induction l as [|v l IH]; intros [|m]; try (cbn; lia). cbn [literals length]. destruct (starts_eight (v :: l) && (8 <=? S m)); [lia|].
  specialize (IH m). lia.
Qed.
Lemma literals_pos l : l <> [] -> starts_eight l = false -> 0 < literals 64 l.
Proof. destruct l as [|v l]; [congruence|]. intros _ H. cbn [literals]. rewrite H. cbn [andb]. lia. Qed.
Lemma lead_pos v l : 0 < lead v (v :: l).
Proof. cbn [lead]. rewrite N.eqb_refl. lia. Qed.

(** ** More fuel changes nothing *)
Lemma pieces_fuel : forall f g l, length l <= f -> length l <= g -> pieces_from f l = pieces_from g l.
Proof.
  induction f as [|f IH]; intros g l Hf Hg.
  - destruct l; [destruct g; reflexivity|cbn [length] in Hf; lia].
  - destruct l as [|v l]; [destruct g; reflexivity|]. destruct g as [|g]; [cbn [length] in Hg; lia|].
    cbn [pieces_from]. destruct (starts_eight (v :: l)) eqn:E.
    + f_equal. pose proof (lead_pos v l). apply IH; rewrite skipn_length; cbn [length] in *; lia.
    + f_equal. pose proof (literals_pos (v :: l) ltac:(discriminate) E). apply IH; rewrite skipn_length; cbn [length] in *; lia.
Qed.
Lemma pieces_run v l : starts_eight (v :: l) = true ->
  pieces (v :: l) = Run v (Nat.min 64 (lead v (v :: l))) :: pieces (skipn (Nat.min 64 (lead v (v :: l))) (v :: l)).
Proof.
  intros H. unfold pieces. cbn [length pieces_from]. rewrite H. f_equal. pose proof (lead_pos v l).
  apply pieces_fuel; rewrite ?skipn_length; cbn [length]; lia.
Qed.
Lemma pieces_lit l : l <> [] -> starts_eight l = false ->
  pieces l = Lit (firstn (literals 64 l) l) :: pieces (skipn (literals 64 l) l).
Proof.
  intros Hn H. destruct l as [|v l]; [congruence|]. unfold pieces. cbn [length pieces_from]. rewrite H. f_equal.
  pose proof (literals_pos (v :: l) Hn H). apply pieces_fuel; rewrite ?skipn_length; cbn [length]; lia.
Qed.

Lemma pieces_content : forall l, concat (map content (pieces l)) = l.
Proof.
  intros l. remember (length l) as n eqn:En. assert (Hn : length l <= n) by lia. clear En. revert l Hn. induction n as [|n IH]; intros l Hn.
  - destruct l; [reflexivity|cbn [length] in Hn; lia].
  - destruct l as [|v l]; [reflexivity|]. destruct (starts_eight (v :: l)) eqn:E.
    + rewrite pieces_run by exact E. cbn [map concat content]. pose proof (lead_pos v l).
      rewrite IH by (rewrite skipn_length; cbn [length] in *; lia).
      rewrite <- (firstn_lead (v :: l) v (Nat.min 64 (lead v (v :: l)))) by lia. apply firstn_skipn.
    + rewrite pieces_lit by (exact E || discriminate). cbn [map concat content].
      pose proof (literals_pos (v :: l) ltac:(discriminate) E).
      rewrite IH by (rewrite skipn_length; cbn [length] in *; lia). apply firstn_skipn.
Qed.

(** ** The encoder *)
Section Encoder.
Variable bw : nat.
Definition emit (p : piece) : bytes :=
  match p with Run v c => rle_run bw v (N.of_nat c) | Lit l => bit_packed_run bw l end.
Definition emit_all (ps : list piece) : bytes := concat (map emit ps).

Definition no_eight (l : list N) : Prop := forall i, starts_eight (skipn i l) = false.

(** Collecting literals, or in a run. *)
Definition collecting (buf : list N) (cur : N) (rep : nat) : Prop :=
  length buf < 64 /\ no_eight buf /\ exists x, buf = x ++ repeat cur rep /\ 1 <= rep < 8 /\ (forall y, x <> y ++ [cur]).
Definition running (buf : list N) (cur : N) (rep : nat) : Prop := buf = repeat cur rep /\ 8 <= rep < 64.
Definition state_ok (h : hybrid) : Prop :=
  h_buf h = [] \/ collecting (h_buf h) (h_cur h) (h_rep h) \/ running (h_buf h) (h_cur h) (h_rep h).

Lemma starts_eight_len l : starts_eight l = true -> 8 <= length l.
Proof. intros H. apply starts_eight_spec in H. destruct H as (v & r & ->). rewrite app_length, repeat_length. lia. Qed.
Lemma starts_eight_app l m : starts_eight l = true -> starts_eight (l ++ m) = true.
Proof. intros H. apply starts_eight_spec in H. destruct H as (v & r & ->). apply starts_eight_spec. exists v, (r ++ m). apply app_assoc_reverse. Qed.
Lemma starts_eight_cut l m : starts_eight (l ++ m) = true -> 8 <= length l -> starts_eight l = true.
Proof.
  intros H Hl. apply starts_eight_spec in H. destruct H as (v & r & E). apply starts_eight_spec. exists v, (skipn 8 l).
  rewrite <- (firstn_skipn 8 l) at 1. f_equal.
  assert (E1 : firstn 8 (l ++ m) = repeat v 8) by (rewrite E, firstn_app, repeat_length, Nat.sub_diag; reflexivity).
  rewrite firstn_app in E1. replace (8 - length l) with 0 in E1 by lia. rewrite firstn_O, app_nil_r in E1. exact E1.
Qed.

Lemma app_snoc_inj {A} (x y : list A) a b : x ++ [a] = y ++ [b] -> x = y /\ a = b.
Proof. apply app_inj_tail. Qed.

(** A new value after the pending ones makes no eight. *)
Lemma repeat_snoc {A} (a : A) n : repeat a (S n) = repeat a n ++ [a].
Proof. rewrite <- repeat_cons. reflexivity. Qed.

Lemma no_eight_snoc buf x v n : no_eight buf -> buf ++ [v] = x ++ repeat v n -> n < 8 -> (forall y, x <> y ++ [v]) -> no_eight (buf ++ [v]).
Proof.
  intros Hn E Hr Hx i. destruct (starts_eight (skipn i (buf ++ [v]))) eqn:Es; [|reflexivity]. exfalso.
  destruct (le_lt_dec (i + 8) (length buf)) as [Hi|Hi].
  - rewrite skipn_app in Es. replace (i - length buf) with 0 in Es by lia. cbn [skipn] in Es.
    apply starts_eight_cut in Es; [|rewrite skipn_length; lia]. rewrite Hn in Es. discriminate Es.
  - pose proof (starts_eight_len _ Es) as L. rewrite skipn_length, app_length in L. cbn [length] in L.
    apply starts_eight_spec in Es. destruct Es as (w & r & Ew).
    assert (Er : r = []). { apply length_zero_iff_nil. assert (length (skipn i (buf ++ [v])) = 8 + length r) by (rewrite Ew, app_length, repeat_length; reflexivity).
      rewrite skipn_length, app_length in H. cbn [length] in H. lia. }
    subst r. rewrite app_nil_r in Ew.
    assert (Eb : buf ++ [v] = (firstn i (buf ++ [v]) ++ repeat w 7) ++ [w]).
    { rewrite <- app_assoc, <- repeat_snoc, <- Ew. symmetry. apply firstn_skipn. }
    apply app_inj_tail in Eb as [_ Ewv]. subst w.
    (* the last eight are v, so x ends with v *)
    pose proof (firstn_skipn i (buf ++ [v])) as F. rewrite Ew in F. rewrite E in F at 2.
    replace 8 with ((8 - n) + n) in F by lia. rewrite repeat_app, app_assoc in F.
    apply app_inv_tail in F. rewrite E in F.
    replace (8 - n) with (S (7 - n)) in F by lia. rewrite repeat_snoc, app_assoc in F. apply (Hx _ (eq_sym F)).
Qed.

(** The pending literals are exactly the first piece when the buffer is full or eight
    equal ones come. *)
Lemma full_literals buf ws : no_eight buf -> length buf = 64 -> pieces (buf ++ ws) = Lit buf :: pieces ws.
Proof.
  intros Hn Hl.
  assert (Hs : starts_eight (buf ++ ws) = false).
  { destruct (starts_eight (buf ++ ws)) eqn:E; [|reflexivity]. apply starts_eight_cut in E; [|lia]. specialize (Hn 0). cbn [skipn] in Hn. congruence. }
  assert (Hlit : literals 64 (buf ++ ws) = 64).
  { rewrite literals_app; [rewrite Hl, Nat.sub_diag, literals_0; reflexivity|lia|].
    intros i Hi H8. destruct (starts_eight (skipn i (buf ++ ws))) eqn:E; [|reflexivity]. rewrite skipn_app in E.
    apply starts_eight_cut in E; [|rewrite skipn_length; lia]. rewrite Hn in E. discriminate E. }
  rewrite pieces_lit; [|destruct buf; [discriminate Hl|discriminate]|exact Hs].
  rewrite Hlit, <- Hl, firstn_app, skipn_app, Nat.sub_diag, firstn_all, skipn_all. cbn [firstn skipn app]. rewrite app_nil_r. reflexivity.
Qed.

Lemma before_eight x cur ws : x <> [] -> no_eight (x ++ repeat cur 7) -> length x + 7 < 64 ->
  pieces (x ++ repeat cur 8 ++ ws) = Lit x :: pieces (repeat cur 8 ++ ws).
Proof.
  intros Hx Hn Hl.
  assert (Hi : forall i, i < length x -> starts_eight (skipn i (x ++ repeat cur 8 ++ ws)) = false).
  { intros i Hi. destruct (starts_eight (skipn i (x ++ repeat cur 8 ++ ws))) eqn:E; [|reflexivity].
    assert (Ee : x ++ repeat cur 8 ++ ws = (x ++ repeat cur 7) ++ cur :: ws) by (rewrite <- app_assoc; reflexivity).
    rewrite Ee, skipn_app in E. apply starts_eight_cut in E; [rewrite Hn in E; discriminate E|].
    rewrite skipn_length, app_length, repeat_length. lia. }
  assert (H8 : starts_eight (repeat cur 8 ++ ws) = true) by (apply starts_eight_spec; eauto).
  assert (Hlit : literals 64 (x ++ repeat cur 8 ++ ws) = length x).
  { rewrite literals_app; [rewrite (literals_stop _ _ H8) by lia; lia|lia|]. intros i H1 _. apply Hi, H1. }
  rewrite pieces_lit; [|destruct x; [congruence|discriminate]|].
  - rewrite Hlit, firstn_app, skipn_app, Nat.sub_diag, firstn_all, skipn_all. cbn [firstn skipn]. rewrite app_nil_r. reflexivity.
  - apply (Hi 0). destruct x; [congruence|cbn [length]; lia].
Qed.

Lemma run_ends cur rep w ws : 8 <= rep < 64 -> w <> cur -> pieces (repeat cur rep ++ w :: ws) = Run cur rep :: pieces (w :: ws).
Proof.
  intros Hr Hw. assert (L : lead cur (repeat cur rep ++ w :: ws) = rep).
  { rewrite lead_repeat. cbn [lead]. destruct (N.eqb_spec w cur); [congruence|]. lia. }
  assert (H8 : starts_eight (repeat cur rep ++ w :: ws) = true).
  { apply starts_eight_spec. exists cur, (repeat cur (rep - 8) ++ w :: ws). rewrite app_assoc, <- repeat_app. do 2 f_equal. lia. }
  destruct rep as [|r]; [lia|]. change (repeat cur (S r) ++ w :: ws) with (cur :: repeat cur r ++ w :: ws) in *.
  rewrite pieces_run by exact H8. rewrite L. rewrite Nat.min_r by lia. f_equal.
  change (cur :: repeat cur r ++ w :: ws) with (repeat cur (S r) ++ w :: ws).
  rewrite skipn_app, repeat_length, Nat.sub_diag, skipn_all2 by (rewrite repeat_length; lia). reflexivity.
Qed.
Lemma run_full cur ws : pieces (repeat cur 64 ++ ws) = Run cur 64 :: pieces ws.
Proof.
  assert (L : 64 <= lead cur (repeat cur 64 ++ ws)) by (rewrite lead_repeat; lia).
  assert (H8 : starts_eight (repeat cur 64 ++ ws) = true).
  { apply starts_eight_spec. exists cur, (repeat cur 56 ++ ws). rewrite app_assoc, <- repeat_app. reflexivity. }
  change (repeat cur 64 ++ ws) with (cur :: repeat cur 63 ++ ws) in *.
  rewrite pieces_run by exact H8. rewrite Nat.min_l by lia. f_equal.
Qed.
Lemma run_last cur rep : 8 <= rep < 64 -> pieces (repeat cur rep) = [Run cur rep].
Proof.
  intros Hr. assert (L : lead cur (repeat cur rep) = rep) by (rewrite <- (app_nil_r (repeat cur rep)), lead_repeat; cbn [lead]; lia).
  assert (H8 : starts_eight (repeat cur rep) = true).
  { apply starts_eight_spec. exists cur, (repeat cur (rep - 8)). rewrite <- repeat_app. f_equal. lia. }
  destruct rep as [|r]; [lia|]. change (repeat cur (S r)) with (cur :: repeat cur r) in *.
  rewrite pieces_run by exact H8. rewrite L, Nat.min_r by lia.
  change (cur :: repeat cur r) with (repeat cur (S r)). rewrite skipn_all2 by (rewrite repeat_length; lia). reflexivity.
Qed.
Lemma lit_last buf : buf <> [] -> no_eight buf -> length buf < 64 -> pieces buf = [Lit buf].
Proof.
  intros Hb Hn Hl. assert (Hlit : literals 64 buf = length buf).
  { rewrite <- (app_nil_r buf) at 1. rewrite literals_app; [replace (literals (64 - length buf) []) with 0 by (destruct (64 - length buf); reflexivity); lia|lia|]. intros i _ _. rewrite app_nil_r. apply Hn. }
  rewrite pieces_lit by (exact Hb || apply (Hn 0)). rewrite Hlit, firstn_all, skipn_all. reflexivity.
Qed.

(** One value in a run. *)
Lemma put_run_more out cur rep : 8 <= rep -> S rep < 64 ->
  hybrid_put bw (Hybrid out (repeat cur rep) cur rep) cur = Hybrid out (repeat cur (S rep)) cur (S rep).
Proof.
  intros H1 H2. unfold hybrid_put. cbn [h_out h_buf h_cur h_rep]. destruct (repeat cur rep) as [|b0 br] eqn:E; [destruct rep; [lia|discriminate E]|]. rewrite <- E.
  rewrite N.eqb_refl, <- repeat_snoc, repeat_length, Nat.sub_diag. cbv zeta. destruct (Nat.leb_spec 8 (S rep)); [|lia]. change (0 <? 0) with false. cbv iota.
  cbn [h_buf]. rewrite repeat_length. destruct (Nat.leb_spec 64 (S rep)); [lia|]. reflexivity.
Qed.
Lemma put_run_full out cur :
  hybrid_put bw (Hybrid out (repeat cur 63) cur 63) cur = Hybrid (out ++ rle_run bw cur (N.of_nat 64)) [] cur 0.
Proof.
  unfold hybrid_put. cbn [h_out h_buf h_cur h_rep]. destruct (repeat cur 63) as [|b0 br] eqn:E; [discriminate E|]. rewrite <- E.
  rewrite N.eqb_refl, <- repeat_snoc, repeat_length, Nat.sub_diag. cbv zeta. change (8 <=? 64) with true. change (0 <? 0) with false. cbv iota.
  cbn [h_buf]. rewrite repeat_length. change (64 <=? 64) with true. cbv iota. unfold flush_buffered. cbn [h_buf h_rep].
  destruct (repeat cur 64) as [|c0 cr] eqn:E2; [discriminate E2|]. rewrite <- E2, repeat_length. reflexivity.
Qed.
Lemma put_run_end out cur rep v : 8 <= rep -> v <> cur ->
  hybrid_put bw (Hybrid out (repeat cur rep) cur rep) v = Hybrid (out ++ rle_run bw cur (N.of_nat rep)) [v] v 1.
Proof.
  intros H1 H2. unfold hybrid_put. cbn [h_out h_buf h_cur h_rep]. destruct (repeat cur rep) as [|b0 br] eqn:E; [destruct rep; [lia|discriminate E]|].
  destruct (N.eqb_spec v cur); [congruence|]. destruct (Nat.leb_spec 8 rep); [|lia]. unfold flush_rle_run. cbn [h_out h_buf h_cur h_rep].
  destruct (Nat.eqb_spec rep 0); [lia|]. reflexivity.
Qed.

(** One value. *)
Lemma put_pieces h v ws : state_ok h ->
  state_ok (hybrid_put bw h v) /\
  h_out (hybrid_put bw h v) ++ emit_all (pieces (h_buf (hybrid_put bw h v) ++ ws)) = h_out h ++ emit_all (pieces (h_buf h ++ v :: ws)).
Proof.
  destruct h as [out buf cur rep]. unfold state_ok. cbn [h_out h_buf h_cur h_rep].
  assert (C1 : forall w, collecting [w] w 1).
  { intros w. split; [cbn; lia|]. split.
    - intros i. destruct (starts_eight (skipn i [w])) eqn:E; [|reflexivity]. apply starts_eight_len in E. rewrite skipn_length in E. cbn [length] in E. lia.
    - exists []. split; [reflexivity|]. split; [lia|]. intros y E. destruct y; discriminate E. }
  intros [->|[(Hl & Hn & x & Hx & Hr & Hmax)|(Hb & Hr)]].
  - unfold hybrid_put. cbn [h_out h_buf h_cur h_rep app]. split; [right; left; apply C1|reflexivity].
  - unfold hybrid_put. cbn [h_out h_buf h_cur h_rep].
    assert (Hne : buf <> []) by (intros ->; destruct x; [cbn [app] in Hx; destruct rep; [lia|discriminate Hx]|discriminate Hx]).
    destruct buf as [|b0 br] eqn:EB; [congruence|]. rewrite <- EB in *. clear EB b0 br.
    destruct (N.eqb_spec v cur) as [->|Hv]; cbv zeta.
    + destruct (Nat.leb_spec 8 (S rep)) as [H8|H8].
      * assert (rep = 7) by lia. subst rep.
        assert (EL : length (buf ++ [cur]) - 8 = length x) by (rewrite Hx, !app_length, repeat_length; cbn [length]; lia).
        assert (EX : buf ++ [cur] = x ++ repeat cur 8) by (rewrite Hx, <- app_assoc; reflexivity).
        rewrite EL. destruct (Nat.ltb_spec 0 (length x)) as [H0|H0].
        -- unfold flush_bit_packed. cbn [h_out h_buf h_cur h_rep]. destruct (Nat.eqb_spec (length x) 0); [lia|]. cbn [h_out h_buf h_cur h_rep].
           rewrite EL, EX, firstn_app, skipn_app, Nat.sub_diag, firstn_all, skipn_all.
           cbn [firstn skipn app]. rewrite app_nil_r. change (64 <=? length (repeat cur 8)) with false. cbv iota. cbn [h_out h_buf h_cur h_rep].
           split; [right; right; split; [reflexivity|lia]|].
           assert (EW : buf ++ cur :: ws = x ++ repeat cur 8 ++ ws) by (rewrite app_assoc, <- EX, <- app_assoc; reflexivity).
           rewrite EW, before_eight; [|destruct x; [cbn in H0; lia|discriminate]|rewrite <- Hx; exact Hn|rewrite Hx, app_length, repeat_length in Hl; exact Hl].
           unfold emit_all. cbn [map concat emit]. rewrite <- app_assoc. reflexivity.
        -- assert (x = []) by (destruct x; [reflexivity|cbn [length] in H0; lia]). subst x. cbn [app] in EX. rewrite EX.
           cbn [h_out h_buf h_cur h_rep]. change (64 <=? length (repeat cur 8)) with false. cbv iota. cbn [h_out h_buf h_cur h_rep].
           split; [right; right; split; [reflexivity|lia]|]. rewrite <- EX, <- app_assoc. reflexivity.
      * assert (Ec : buf ++ [cur] = x ++ repeat cur (S rep)) by (rewrite repeat_snoc, app_assoc, <- Hx; reflexivity).
        assert (Hn' : no_eight (buf ++ [cur])) by (apply (no_eight_snoc buf x cur (S rep)); assumption).
        cbn [h_out h_buf h_cur h_rep].
        destruct (Nat.leb_spec 64 (length (buf ++ [cur]))) as [H64|H64].
        -- assert (L64 : length (buf ++ [cur]) = 64) by (rewrite app_length in *; cbn [length] in *; lia).
           unfold flush_buffered. cbn [h_out h_buf h_cur h_rep]. destruct (buf ++ [cur]) as [|b0 br] eqn:EB; [discriminate L64|]. rewrite <- EB in *.
           destruct (Nat.leb_spec 8 (S rep)); [lia|]. cbn [andb]. unfold flush_bit_packed. cbn [h_out h_buf h_cur h_rep].
           destruct (Nat.eqb_spec (length (buf ++ [cur])) 0); [lia|]. cbn [h_out h_buf h_cur h_rep]. rewrite firstn_all.
           split; [left; reflexivity|]. cbn [app].
           replace (buf ++ cur :: ws) with ((buf ++ [cur]) ++ ws) by (rewrite <- app_assoc; reflexivity).
           rewrite full_literals by assumption. unfold emit_all. cbn [map concat emit]. rewrite <- app_assoc. reflexivity.
        -- cbn [h_out h_buf h_cur h_rep]. split; [|rewrite <- app_assoc; reflexivity]. right. left. split; [exact H64|]. split; [exact Hn'|].
           exists x. split; [exact Ec|]. split; [lia|exact Hmax].
    + destruct (Nat.leb_spec 8 rep) as [H8|H8]; [lia|]. cbn [h_out h_buf h_cur h_rep].
      assert (Hmax' : forall y, buf <> y ++ [v]).
      { intros y E. rewrite Hx in E. destruct rep as [|r]; [lia|]. rewrite repeat_snoc, app_assoc in E. apply app_inj_tail in E as [_ E]. congruence. }
      assert (Hn' : no_eight (buf ++ [v])) by (apply (no_eight_snoc buf buf v 1); [assumption|reflexivity|lia|assumption]).
      destruct (Nat.leb_spec 64 (length (buf ++ [v]))) as [H64|H64].
      * assert (L64 : length (buf ++ [v]) = 64) by (rewrite app_length in *; cbn [length] in *; lia).
        unfold flush_buffered. cbn [h_out h_buf h_cur h_rep]. destruct (buf ++ [v]) as [|b0 br] eqn:EB; [discriminate L64|]. rewrite <- EB in *.
        change (8 <=? 1) with false. cbn [andb]. cbv iota. unfold flush_bit_packed. cbn [h_out h_buf h_cur h_rep].
        destruct (Nat.eqb_spec (length (buf ++ [v])) 0); [lia|]. cbn [h_out h_buf h_cur h_rep]. rewrite firstn_all.
        split; [left; reflexivity|]. cbn [app].
        replace (buf ++ v :: ws) with ((buf ++ [v]) ++ ws) by (rewrite <- app_assoc; reflexivity).
        rewrite full_literals by assumption. unfold emit_all. cbn [map concat emit]. rewrite <- app_assoc. reflexivity.
      * cbn [h_out h_buf h_cur h_rep]. split; [|rewrite <- app_assoc; reflexivity]. right. left. split; [exact H64|]. split; [exact Hn'|].
        exists buf. split; [reflexivity|]. split; [lia|exact Hmax'].
  - subst buf. destruct (N.eq_dec v cur) as [->|Hv].
    + replace (repeat cur rep ++ cur :: ws) with (repeat cur (S rep) ++ ws) by (rewrite (repeat_snoc cur rep), <- app_assoc; reflexivity).
      destruct (le_lt_dec 64 (S rep)) as [H64|H64].
      * assert (rep = 63) by lia. subst rep. rewrite put_run_full. cbn [h_out h_buf h_cur h_rep app].
        split; [left; reflexivity|]. rewrite run_full. unfold emit_all. cbn [map concat emit]. rewrite <- app_assoc. reflexivity.
      * rewrite put_run_more by lia. cbn [h_out h_buf h_cur h_rep app]. split; [|reflexivity]. right. right. split; [reflexivity|lia].
    + rewrite put_run_end by (lia || exact Hv). cbn [h_out h_buf h_cur h_rep app].
      split; [right; left; apply C1|]. rewrite run_ends by (lia || exact Hv).
      unfold emit_all. cbn [map concat emit]. rewrite <- app_assoc. reflexivity.
Qed.

Lemma fold_pieces : forall vs h, state_ok h ->
  state_ok (fold_left (hybrid_put bw) vs h) /\
  h_out (fold_left (hybrid_put bw) vs h) ++ emit_all (pieces (h_buf (fold_left (hybrid_put bw) vs h))) = h_out h ++ emit_all (pieces (h_buf h ++ vs)).
Proof.
  induction vs as [|v vs IH]; intros h Hh; cbn [fold_left]; [rewrite app_nil_r; auto|].
  destruct (put_pieces h v vs Hh) as [H1 H2]. destruct (IH _ H1) as [H3 H4]. split; [exact H3|]. rewrite H4. exact H2.
Qed.

Lemma flush_pieces h : state_ok h -> h_out (flush_buffered bw h) = h_out h ++ emit_all (pieces (h_buf h)).
Proof.
  destruct h as [out buf cur rep]. unfold state_ok, flush_buffered. cbn [h_out h_buf h_cur h_rep].
  intros [->|[(Hl & Hn & x & Hx & Hr & Hmax)|(Hb & Hr)]].
  - cbn [h_out]. unfold emit_all. cbn [pieces pieces_from length map concat]. rewrite app_nil_r. reflexivity.
  - assert (Hne : buf <> []) by (intros ->; destruct x; [cbn [app] in Hx; destruct rep; [lia|discriminate Hx]|discriminate Hx]).
    rewrite lit_last by assumption. destruct buf as [|b0 br] eqn:EB; [congruence|]. rewrite <- EB in *.
    destruct (Nat.leb_spec 8 rep); [lia|]. cbn [andb]. unfold flush_bit_packed. cbn [h_out h_buf h_cur h_rep].
    destruct (Nat.eqb_spec (length buf) 0) as [E0|E0]; [rewrite EB in E0; discriminate E0|]. cbn [h_out]. rewrite firstn_all.
    unfold emit_all. cbn [map concat emit]. rewrite app_nil_r. reflexivity.
  - subst buf. rewrite run_last by exact Hr. destruct rep as [|r]; [lia|]. change (repeat cur (S r)) with (cur :: repeat cur r) at 1. cbv iota.
    rewrite repeat_length, Nat.eqb_refl. destruct (Nat.leb_spec 8 (S r)); [|lia]. cbn [andb]. unfold flush_rle_run. cbn [h_out h_buf h_cur h_rep Nat.eqb].
    unfold emit_all. cbn [map concat emit]. rewrite app_nil_r. reflexivity.
Qed.

Theorem encoder_pieces vs : encode_hybrid_rle bw vs = emit_all (pieces vs).
Proof.
  unfold encode_hybrid_rle. destruct vs as [|v0 vr] eqn:E; [reflexivity|]. rewrite <- E. clear E v0 vr.
  destruct (fold_pieces vs hybrid_new (or_introl eq_refl)) as [H1 H2]. rewrite flush_pieces by exact H1. rewrite H2. reflexivity.
Qed.
End Encoder.
