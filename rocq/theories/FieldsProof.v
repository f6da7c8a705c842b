(** Correctness of the SplitFields iterator. *)
From Verif Require Import Base WordsModel WordsProof ChunkSpec ChunkModel ChunkProof ChunkProof2 ChunkProof3
  FieldsSpec FieldsModel.

Definition is_delim (sep eol : byte) (c : byte) : bool := N.eqb c sep || N.eqb c eol.
Definition sepat (sep eol : byte) (v : bytes) (i : nat) : bool := nthb (is_delim sep eol) v i.
Definition endp (sep eol q : byte) (st : bool) (v : bytes) (i : nat) : bool :=
  sepat sep eol v i && negb (inside_at st q v i).

Lemma inside_at_0 st q v : inside_at st q v 0 = st.
Proof. unfold inside_at, quotes_before. cbn. destruct st; reflexivity. Qed.

Lemma inside_at_S st q c r i : inside_at st q (c :: r) (S i) = inside_at (xorb st (N.eqb c q)) q r i.
Proof.
  unfold inside_at, quotes_before. cbn [firstn]. rewrite odd_count_cons.
  destruct st, (N.eqb c q), (Nat.odd _); reflexivity.
Qed.

Lemma inside_at_app st q a b i : inside_at st q (a ++ b) (length a + i) = inside_at (endst st q a) q b i.
Proof.
  revert st. induction a as [|c a IH]; intros st; cbn [app length Nat.add endst]; [reflexivity|].
  rewrite inside_at_S, IH. f_equal. f_equal. destruct st, (N.eqb c q); reflexivity.
Qed.

Lemma inside_at_prefix st q a b i : i <= length a -> inside_at st q (a ++ b) i = inside_at st q a i.
Proof.
  revert st i. induction a as [|c a IH]; intros st i Hi; cbn [app length] in *.
  - replace i with 0 by lia. rewrite !inside_at_0. reflexivity.
  - destruct i as [|i]; [rewrite !inside_at_0; reflexivity|]. rewrite !inside_at_S. apply IH. lia.
Qed.

Lemma endp_S sep eol q st c r i :
  endp sep eol q st (c :: r) (S i) = endp sep eol q (xorb st (N.eqb c q)) r i.
Proof. unfold endp. rewrite inside_at_S. reflexivity. Qed.

Lemma endp_0 sep eol q st c r : endp sep eol q st (c :: r) 0 = is_delim sep eol c && negb st.
Proof. unfold endp. rewrite inside_at_0. reflexivity. Qed.

Lemma endp_skipn sep eol q st v n i : n <= length v ->
  endp sep eol q st v (n + i) = endp sep eol q (endst st q (firstn n v)) (skipn n v) i.
Proof.
  intros Hn. unfold endp, sepat. rewrite nthb_skipn. f_equal. f_equal.
  rewrite <- (firstn_skipn n v) at 1.
  replace (n + i) with (length (firstn n v) + i) by (rewrite firstn_length; lia).
  apply inside_at_app.
Qed.

Lemma endp_bound sep eol q st v i : endp sep eol q st v i = true -> i < length v.
Proof.
  unfold endp, sepat, nthb. destruct (nth_error v i) eqn:E; [|discriminate].
  intros _. apply nth_error_Some. congruence.
Qed.
Lemma sepat_bound sep eol v i : sepat sep eol v i = true -> i < length v.
Proof.
  unfold sepat, nthb. destruct (nth_error v i) eqn:E; [|discriminate].
  intros _. apply nth_error_Some. congruence.
Qed.

Section Row.
Variables sep eol q : byte.
Hypothesis Hqs : q <> sep.
Hypothesis Hqe : q <> eol.
Let eolp := N.eqb eol.

Lemma eolp_eq c : eolp c = N.eqb c eol.
Proof. clear Hqs Hqe. apply N.eqb_sym. Qed.

Lemma raw_row_none : forall v st, (forall i, i < length v -> endp sep eol q st v i = false) ->
  raw_row eolp sep q st v = ([v], []).
Proof. clear Hqs Hqe.
  induction v as [|c r IH]; intros st H; [reflexivity|].
  pose proof (H 0 ltac:(cbn; lia)) as H0. rewrite endp_0 in H0.
  assert (Hr : forall st', st' = xorb st (N.eqb c q) -> raw_row eolp sep q st' r = ([r], [])).
  { intros st' ->. apply IH. intros i Hi. rewrite <- endp_S. apply H. cbn. lia. }
  cbn [raw_row]. destruct (N.eqb c q) eqn:Ec.
  - rewrite (Hr (negb st)) by (destruct st; reflexivity). reflexivity.
  - destruct st.
    + rewrite (Hr true) by reflexivity. reflexivity.
    + unfold is_delim in H0. rewrite andb_true_r in H0. apply orb_false_iff in H0. destruct H0 as [H1 H2].
      rewrite eolp_eq, H2, H1. rewrite (Hr false) by reflexivity. reflexivity.
Qed.

Lemma raw_row_first : forall v st p, endp sep eol q st v p = true ->
  (forall i, i < p -> endp sep eol q st v i = false) ->
  raw_row eolp sep q st v =
  if byte_is v p eol then ([firstn p v], skipn (S p) v)
  else (firstn p v :: fst (raw_row eolp sep q false (skipn (S p) v)),
        snd (raw_row eolp sep q false (skipn (S p) v))).
Proof.
  induction v as [|c r IH]; intros st p Hp Hlt.
  - apply endp_bound in Hp. cbn in Hp. lia.
  - destruct p as [|p].
    + rewrite endp_0 in Hp. apply andb_true_iff in Hp. destruct Hp as [Hd Hs].
      destruct st; [discriminate|]. cbn [raw_row].
      assert (Hcq : N.eqb c q = false).
      { apply N.eqb_neq. intros ->. unfold is_delim in Hd. apply orb_true_iff in Hd.
        destruct Hd as [Hd|Hd]; apply N.eqb_eq in Hd; congruence. }
      rewrite Hcq. change (byte_is (c :: r) 0 eol) with (N.eqb c eol). rewrite eolp_eq.
      unfold is_delim in Hd. destruct (N.eqb c eol); [reflexivity|].
      rewrite orb_false_r in Hd. rewrite Hd. reflexivity.
    + rewrite endp_S in Hp.
      pose proof (Hlt 0 ltac:(lia)) as H0. rewrite endp_0 in H0.
      assert (Hr : forall st', st' = xorb st (N.eqb c q) -> raw_row eolp sep q st' r =
        if byte_is r p eol then ([firstn p r], skipn (S p) r)
        else (firstn p r :: fst (raw_row eolp sep q false (skipn (S p) r)),
        snd (raw_row eolp sep q false (skipn (S p) r)))).
      { intros st' ->. apply IH; [assumption|]. intros i Hi. rewrite <- endp_S. apply Hlt. lia. }
      change (byte_is (c :: r) (S p) eol) with (byte_is r p eol).
      assert (Hgoal : forall st', st' = xorb st (N.eqb c q) ->
        cons_first c (raw_row eolp sep q st' r) =
        if byte_is r p eol then ([firstn (S p) (c :: r)], skipn (S (S p)) (c :: r))
        else (firstn (S p) (c :: r) :: fst (raw_row eolp sep q false (skipn (S (S p)) (c :: r))),
              snd (raw_row eolp sep q false (skipn (S (S p)) (c :: r))))).
      { intros st' E. rewrite (Hr st' E). destruct (byte_is r p eol); reflexivity. }
      cbn [raw_row]. destruct (N.eqb c q) eqn:Ec.
      * apply Hgoal. destruct st; reflexivity.
      * destruct st; [apply Hgoal; reflexivity|].
        unfold is_delim in H0. rewrite andb_true_r in H0. apply orb_false_iff in H0. destruct H0 as [H1 H2].
        rewrite eolp_eq, H2, H1. apply Hgoal. reflexivity.
Qed.

(** Position of a delimiter: quotes before it and before its successor agree. *)
Lemma prexor_delim blk i : sepat sep eol blk i = true ->
  prexor (block_mask q blk) (S i) = Nat.odd (quotes_before q blk i).
Proof.
  intros H. cbn [prexor]. rewrite prexor_count, tb_block_mask.
  unfold sepat in H. rewrite nthb_nth_error in *. destruct (nth_error blk i) as [c|]; [|discriminate].
  replace (N.eqb c q) with false; [apply xorb_false_r|].
  symmetry. apply N.eqb_neq. intros ->. unfold is_delim in H. apply orb_true_iff in H.
  destruct H as [H|H]; apply N.eqb_eq in H; congruence.
Qed.

Lemma sepat_firstn n v i : sepat sep eol (firstn n v) i = (i <? n) && sepat sep eol v i.
Proof. clear Hqs Hqe. apply nthb_firstn. Qed.

Lemma inside_at_firstn st n v i : i <= n -> inside_at st q (firstn n v) i = inside_at st q v i.
Proof. clear Hqs Hqe. intros H. unfold inside_at, quotes_before. rewrite firstn_firstn, Nat.min_l by lia. reflexivity. Qed.

Lemma endp_firstn st n v i : endp sep eol q st (firstn n v) i = (i <? n) && endp sep eol q st v i.
Proof. clear Hqs Hqe.
  unfold endp. rewrite sepat_firstn. destruct (Nat.ltb_spec i n); [|reflexivity].
  rewrite inside_at_firstn by lia. reflexivity.
Qed.

(** What a scan returns, relative to a boolean function of positions. *)
Definition scan_ok (g : nat -> bool) (len total : nat) (res : scan_result) : Prop :=
  match res with
  | (None, np) => np = None /\ forall i, g i = false
  | (Some x, np) =>
      exists k, x = total + k /\ g k = true /\ (forall i, i < k -> g i = false) /\
      (np = None \/
       exists m w, np = Some m /\ k < w /\ w <= len /\ w < k + 65 /\
                   forall i, tb m i = (S k + i <? w) && g (S k + i))
  end.

Lemma take_mask_ok g len total m : m <> 0%N -> 64 <= len ->
  (forall i, tb m i = (i <? 64) && g i) ->
  scan_ok g len total (take_mask total m).
Proof. clear Hqs Hqe.
  intros Hm Hl Hb. unfold take_mask, scan_ok. destruct (ctz_spec m Hm) as [Hc Hlow].
  pose proof Hc as Hc'. rewrite Hb in Hc'. apply andb_true_iff in Hc'. destruct Hc' as [Hlt Hg].
  exists (ctz m). split; [reflexivity|]. split; [assumption|]. split.
  - intros i Hi. specialize (Hlow i Hi). rewrite Hb in Hlow.
    replace (i <? 64) with true in Hlow by lia. assumption.
  - right. exists (if ctz m =? 63 then 0%N else shr64 m (N.of_nat (ctz m + 1))), 64.
    repeat split; try lia. intros i. destruct (Nat.eqb_spec (ctz m) 63) as [E|E].
    + rewrite tb_0. replace (S (ctz m) + i <? 64) with false by lia. reflexivity.
    + rewrite tb_shr64, Hb. replace (i + (ctz m + 1)) with (S (ctz m) + i) by lia. reflexivity.
Qed.

Lemma scan_ok_shift g len total res :
  64 <= len -> (forall i, i < 64 -> g i = false) ->
  scan_ok (fun i => g (64 + i)) (len - 64) (total + 64) res -> scan_ok g len total res.
Proof. clear Hqs Hqe.
  intros Hl H0. destruct res as [[x|] np]; cbn [scan_ok].
  - intros (k & -> & Hk & Hlow & Hnp). exists (64 + k). split; [lia|]. split; [assumption|]. split.
    + intros i Hi. destruct (Nat.lt_ge_cases i 64) as [H|H]; [apply H0; assumption|].
      replace i with (64 + (i - 64)) by lia. apply Hlow. lia.
    + destruct Hnp as [->|(m & w & -> & Hkw & Hw & Hw2 & Hm)]; [left; reflexivity|right].
      exists m, (64 + w). repeat split; try lia. intros i. rewrite Hm.
      replace (S (64 + k) + i) with (64 + (S k + i)) by lia. reflexivity.
  - intros [-> H]. split; [reflexivity|]. intros i.
    destruct (Nat.lt_ge_cases i 64) as [Hi|Hi]; [apply H0; assumption|].
    replace i with (64 + (i - 64)) by lia. apply H.
Qed.

Lemma quoted_tail_ok : forall l inq,
  match quoted_tail sep q eol l inq with
  | None => forall i, endp sep eol q inq l i = false
  | Some k => endp sep eol q inq l k = true /\ forall i, i < k -> endp sep eol q inq l i = false
  end.
Proof.
  induction l as [|c r IH]; intros inq; cbn [quoted_tail].
  - intros i. unfold endp, sepat, nthb. destruct i; reflexivity.
  - set (inq' := if N.eqb c q then negb inq else inq).
    assert (Hx : inq' = xorb inq (N.eqb c q)) by (unfold inq'; destruct inq, (N.eqb c q); reflexivity).
    assert (Hz : negb inq' && (N.eqb c sep || N.eqb c eol) = endp sep eol q inq (c :: r) 0).
    { rewrite endp_0. unfold is_delim. rewrite Hx. destruct (N.eqb_spec c q) as [->|Hn].
      - replace (N.eqb q sep) with false by lia. replace (N.eqb q eol) with false by lia.
        cbn. rewrite andb_false_r. reflexivity.
      - rewrite xorb_false_r. apply andb_comm. }
    rewrite Hz. destruct (endp sep eol q inq (c :: r) 0) eqn:E0.
    + split; [assumption|lia].
    + specialize (IH inq'). destruct (quoted_tail sep q eol r inq') as [k|]; cbn [option_map].
      * destruct IH as [H1 H2]. rewrite endp_S, <- Hx. split; [assumption|].
        intros [|i] Hi; [assumption|]. rewrite endp_S, <- Hx. apply H2. lia.
      * intros [|i]; [assumption|]. rewrite endp_S, <- Hx. apply IH.
Qed.

Lemma unquoted_tail_ok : forall l,
  match unquoted_tail sep eol l with
  | None => forall i, sepat sep eol l i = false
  | Some k => sepat sep eol l k = true /\ forall i, i < k -> sepat sep eol l i = false
  end.
Proof. clear Hqs Hqe.
  induction l as [|c r IH]; cbn [unquoted_tail].
  - intros i. destruct i; reflexivity.
  - change (N.eqb c sep || N.eqb c eol) with (sepat sep eol (c :: r) 0).
    destruct (sepat sep eol (c :: r) 0) eqn:E0.
    + split; [assumption|lia].
    + destruct (unquoted_tail sep eol r) as [k|]; cbn [option_map].
      * destruct IH as [H1 H2]. split; [exact H1|]. intros [|i] Hi; [assumption|]. apply H2. lia.
      * intros [|i]; [assumption|]. apply IH.
Qed.

Lemma block_sepat v i : tb (block_mask sep (firstn 64 v)) i || tb (block_mask eol (firstn 64 v)) i
  = (i <? 64) && sepat sep eol v i.
Proof. clear Hqs Hqe.
  rewrite !tb_block_mask, !nthb_firstn. unfold sepat. rewrite !nthb_nth_error. unfold is_delim.
  destruct (i <? 64), (nth_error v i); reflexivity.
Qed.

Lemma scan_quoted_step fuel lanes clmul l total notin : 64 < length l ->
  scan_quoted (S fuel) lanes clmul sep q eol l total notin =
  match scan_for_char lanes sep l, scan_for_char lanes eol l, scan_for_char lanes q l with
  | Some sep_mask, Some eol_mask, Some quote_mask =>
      let niq := if notin then not64 (prefix_xorsum clmul quote_mask)
                 else prefix_xorsum clmul quote_mask in
      let end_mask := N.land (N.lor sep_mask eol_mask) niq in
      if negb (N.eqb end_mask 0) then Some (take_mask total end_mask)
      else scan_quoted fuel lanes clmul sep q eol (skipn 64 l) (total + 64)
             (negb (N.eqb (N.land niq bit63) 0))
  | _, _, _ => None
  end.
Proof. clear Hqs Hqe.
  intros H. cbn [scan_quoted]. replace (64 <? length l) with true by lia. reflexivity.
Qed.

Lemma scan_quoted_ok lanes clmul : lanes_ok lanes ->
  forall fuel l total notin, length l <= fuel ->
  exists res, scan_quoted fuel lanes clmul sep q eol l total notin = Some res /\
    scan_ok (endp sep eol q (negb notin) l) (length l) total res.
Proof.
  intros [Hl1 Hl2]. induction fuel as [|fuel IH]; intros l total notin Hf.
  - assert (l = []) by (destruct l; cbn in *; [reflexivity|lia]). subst. cbn.
    eexists. split; [reflexivity|]. cbn. split; [reflexivity|]. intros i.
    unfold endp, sepat, nthb. destruct i; reflexivity.
  - destruct (Nat.ltb_spec 64 (length l)) as [H|H].
    + rewrite scan_quoted_step by assumption. unfold scan_for_char.
      rewrite !assemble_mask_correct by (assumption || lia).
      set (qm := block_mask q (firstn 64 l)).
      set (niq := if notin then not64 (prefix_xorsum clmul qm) else prefix_xorsum clmul qm).
      assert (Hq64 : (qm < 2 ^ 64)%N) by (apply block_mask_lt64; rewrite firstn_length; lia).
      assert (Hniq : forall i, tb niq i = (i <? 64) && negb (xorb (negb notin) (prexor qm (S i)))).
      { intros i. unfold niq. destruct notin.
        - rewrite tb_not64, prefix_xorsum_bits by assumption.
          destruct (i <? 64), (prexor qm (S i)); reflexivity.
        - rewrite prefix_xorsum_bits by assumption. destruct (i <? 64), (prexor qm (S i)); reflexivity. }
      set (em := N.land _ niq).
      assert (Hem : forall i, tb em i = (i <? 64) && endp sep eol q (negb notin) l i).
      { intros i. unfold em. rewrite tb_land, tb_lor, block_sepat, Hniq.
        destruct (Nat.ltb_spec i 64) as [Hi|Hi]; [|reflexivity]. cbn [andb].
        unfold endp. destruct (sepat sep eol l i) eqn:Es; [|reflexivity]. cbn [andb].
        unfold qm. rewrite prexor_delim by (rewrite sepat_firstn, Es; lia).
        f_equal. unfold inside_at, quotes_before. rewrite firstn_firstn, Nat.min_l by lia. reflexivity. }
      clearbody em. cbv zeta. destruct (N.eqb_spec em 0) as [E0|E0]; cbn [negb].
      * rewrite land_bit63, negb_involutive, Hniq.
        destruct (IH (skipn 64 l) (total + 64) ((63 <? 64) && negb (xorb (negb notin) (prexor qm 64))))
          as (res & Hr & Hok); [rewrite skipn_length; lia|].
        exists res. split; [exact Hr|]. apply scan_ok_shift; [lia| |].
        -- intros i Hi. specialize (Hem i). rewrite E0, tb_0 in Hem.
           replace (i <? 64) with true in Hem by lia. cbn [andb] in Hem. congruence.
        -- rewrite skipn_length in Hok.
           assert (Hx : negb ((63 <? 64) && negb (xorb (negb notin) (prexor qm 64)))
                        = endst (negb notin) q (firstn 64 l)).
           { rewrite endst_spec. replace (63 <? 64) with true by reflexivity. cbn [andb].
             rewrite negb_involutive. f_equal. unfold qm. rewrite prexor_count.
             unfold quotes_before. rewrite firstn_firstn, Nat.min_id. reflexivity. }
           rewrite Hx in Hok. revert Hok. clear - H. intros Hok.
           destruct res as [[x|] np]; cbn [scan_ok] in *.
           ++ destruct Hok as (k & -> & H1 & H2 & H3). exists k. split; [reflexivity|].
              split; [rewrite (endp_skipn sep eol q _ l 64) by lia; assumption|]. split.
              { intros i Hi. rewrite (endp_skipn sep eol q _ l 64) by lia. apply H2. assumption. }
              destruct H3 as [->|(m & w & -> & Ha & Hb & Hc & Hd)]; [left; reflexivity|right].
              exists m, w. repeat split; try assumption. intros i. rewrite Hd.
              rewrite (endp_skipn sep eol q _ l 64) by lia. reflexivity.
           ++ destruct Hok as [-> Hok]. split; [reflexivity|]. intros i. rewrite (endp_skipn sep eol q _ l 64) by lia. apply Hok.
      * eexists. split; [reflexivity|]. apply take_mask_ok; [assumption|lia|assumption].
    + cbn [scan_quoted]. replace (64 <? length l) with false by lia.
      eexists. split; [reflexivity|]. pose proof (quoted_tail_ok l (negb notin)) as Ht.
      destruct (quoted_tail sep q eol l (negb notin)) as [k|]; cbn [option_map scan_ok].
      * destruct Ht as [H1 H2]. exists k. repeat split; auto.
      * split; [reflexivity|assumption].
Qed.

Lemma scan_unquoted_step fuel lanes l total : 64 < length l ->
  scan_unquoted (S fuel) lanes sep eol l total =
  match scan_for_two_chars lanes sep eol l with
  | Some end_mask =>
      if negb (N.eqb end_mask 0) then Some (take_mask total end_mask)
      else scan_unquoted fuel lanes sep eol (skipn 64 l) (total + 64)
  | None => None
  end.
Proof. clear Hqs Hqe. intros H. cbn [scan_unquoted]. replace (64 <? length l) with true by lia. reflexivity. Qed.

Lemma scan_ok_ext g g' len total res : (forall i, g i = g' i) ->
  scan_ok g len total res -> scan_ok g' len total res.
Proof. clear Hqs Hqe.
  intros E. destruct res as [[x|] np]; cbn [scan_ok].
  - intros (k & -> & H1 & H2 & H3). exists k. split; [reflexivity|]. rewrite <- E.
    split; [assumption|]. split; [intros i Hi; rewrite <- E; auto|].
    destruct H3 as [->|(m & w & -> & Ha & Hb & Hc & Hd)]; [left; reflexivity|right].
    exists m, w. repeat split; try assumption. intros i. rewrite Hd, E. reflexivity.
  - intros [-> H]. split; [reflexivity|]. intros i. rewrite <- E. apply H.
Qed.

Lemma scan_unquoted_ok lanes : lanes_ok lanes ->
  forall fuel l total, length l <= fuel ->
  exists res, scan_unquoted fuel lanes sep eol l total = Some res /\
    scan_ok (sepat sep eol l) (length l) total res.
Proof. clear Hqs Hqe.
  intros [Hl1 Hl2]. induction fuel as [|fuel IH]; intros l total Hf.
  - assert (l = []) by (destruct l; cbn in *; [reflexivity|lia]). subst. cbn.
    eexists. split; [reflexivity|]. cbn. split; [reflexivity|]. intros i. destruct i; reflexivity.
  - destruct (Nat.ltb_spec 64 (length l)) as [H|H].
    + rewrite scan_unquoted_step by assumption. unfold scan_for_two_chars.
      rewrite !assemble_mask_correct by (assumption || lia).
      set (em := N.lor _ _).
      assert (Hem : forall i, tb em i = (i <? 64) && sepat sep eol l i).
      { intros i. unfold em. rewrite tb_lor. apply block_sepat. }
      clearbody em. destruct (N.eqb_spec em 0) as [E0|E0]; cbn [negb].
      * destruct (IH (skipn 64 l) (total + 64)) as (res & Hr & Hok); [rewrite skipn_length; lia|].
        exists res. split; [exact Hr|]. apply scan_ok_shift; [lia| |].
        -- intros i Hi. specialize (Hem i). rewrite E0, tb_0 in Hem.
           replace (i <? 64) with true in Hem by lia. cbn [andb] in Hem. congruence.
        -- rewrite skipn_length in Hok. eapply scan_ok_ext; [|exact Hok].
           intros i. unfold sepat. apply nthb_skipn.
      * eexists. split; [reflexivity|]. apply take_mask_ok; [assumption|lia|assumption].
    + cbn [scan_unquoted]. replace (64 <? length l) with false by lia.
      eexists. split; [reflexivity|]. pose proof (unquoted_tail_ok l) as Ht.
      destruct (unquoted_tail sep eol l) as [k|]; cbn [option_map scan_ok].
      * destruct Ht as [H1 H2]. exists k. repeat split; auto.
      * split; [reflexivity|assumption].
Qed.
End Row.
