From Verif Require Import Base WordsModel WordsProof ChunkSpec ChunkModel ChunkProof ChunkProof2 ChunkProof3 FieldsSpec FieldsModel FieldsProof FieldsProof2 SplitSpec.

Section Split.
Variables sep eol q : byte.
Hypothesis Hqs : q <> sep.
Hypothesis Hqe : q <> eol.
Hypothesis Hq0 : q <> 0%N.

Definition stop (heed : bool) (v : bytes) (i : nat) : bool :=
  if heed then FieldsProof.endp sep eol q false v i else sepat sep eol v i.

Lemma stop_spec heed v i : stop_at sep eol q heed v i = stop heed v i.
Proof.
  clear. unfold stop_at, stop, FieldsProof.endp, sepat, byte_is. rewrite nthb_nth_error. unfold is_delim.
  destruct (nth_error v i); destruct heed; cbn [orb andb negb]; rewrite ?andb_true_r; reflexivity.
Qed.
Lemma stop_firstn heed n v i : stop heed (firstn n v) i = (i <? n) && stop heed v i.
Proof. clear. destruct heed; cbn [stop]; [apply (endp_firstn sep eol q)|apply (sepat_firstn sep eol)]. Qed.
Lemma stop_bound heed v i : stop heed v i = true -> i < length v.
Proof. clear. destruct heed; cbn [stop]; [apply endp_bound|apply sepat_bound]. Qed.
Lemma stop_sepat heed v i : stop heed v i = true -> sepat sep eol v i = true.
Proof. clear. destruct heed; cbn [stop]; [unfold FieldsProof.endp; intros H; apply andb_true_iff in H; tauto|auto]. Qed.

Lemma find_first (g : nat -> bool) : forall n s,
  match find g (seq s n) with
  | Some p => s <= p < s + n /\ g p = true /\ forall i, s <= i < p -> g i = false
  | None => forall i, s <= i < s + n -> g i = false
  end.
Proof.
  clear. induction n as [|n IH]; intros s; cbn [seq find]; [intros; lia|].
  destruct (g s) eqn:E; [repeat split; try lia; try assumption; intros; lia|]. specialize (IH (S s)).
  destruct (find g (seq (S s) n)) as [p|].
  - destruct IH as (H1 & H2 & H3). repeat split; try lia; try assumption. intros i Hi.
    destruct (Nat.eq_dec i s) as [->|]; [exact E|apply H3; lia].
  - intros i Hi. destruct (Nat.eq_dec i s) as [->|]; [exact E|apply IH; lia].
Qed.

Lemma next_some heed v p : stop heed v p = true -> (forall i, i < p -> stop heed v i = false) -> next_stop sep eol q heed v = Some p.
Proof.
  clear. intros Hp Hl. unfold next_stop. pose proof (find_first (stop_at sep eol q heed v) (length v) 0) as F.
  destruct (find _ _) as [p'|].
  - destruct F as (F1 & F2 & F3). rewrite stop_spec in F2. f_equal.
    destruct (Nat.lt_trichotomy p p') as [L|[L|L]]; [|auto|].
    + specialize (F3 p ltac:(lia)). rewrite stop_spec, Hp in F3. discriminate.
    + rewrite Hl in F2 by exact L. discriminate.
  - pose proof (stop_bound _ _ _ Hp). specialize (F p ltac:(lia)). rewrite stop_spec, Hp in F. discriminate.
Qed.
Lemma next_none heed v : (forall i, stop heed v i = false) -> next_stop sep eol q heed v = None.
Proof.
  clear. intros H. unfold next_stop. pose proof (find_first (stop_at sep eol q heed v) (length v) 0) as F.
  destruct (find _ _) as [p|]; [|reflexivity]. destruct F as (_ & F & _). rewrite stop_spec, H in F. discriminate.
Qed.
Lemma next_inv heed v : match next_stop sep eol q heed v with
  | Some p => stop heed v p = true /\ forall i, i < p -> stop heed v i = false
  | None => forall i, stop heed v i = false
  end.
Proof.
  clear. unfold next_stop. pose proof (find_first (stop_at sep eol q heed v) (length v) 0) as F. destruct (find _ _) as [p|].
  - destruct F as (F1 & F2 & F3). rewrite stop_spec in F2. split; [exact F2|]. intros i Hi. rewrite <- stop_spec. apply F3. lia.
  - intros i. destruct (stop heed v i) eqn:E; [|reflexivity]. pose proof (stop_bound _ _ _ E). rewrite <- stop_spec in E. rewrite F in E by lia. discriminate.
Qed.

(** After a stop the count of quotes restarts. *)
Lemma stop_after heed v p i : stop heed v p = true -> stop heed v (S p + i) = stop heed (skipn (S p) v) i.
Proof.
  intros Hp. destruct heed; cbn [stop] in *.
  - apply (endp_after sep eol q Hqs Hqe). exact Hp.
  - unfold sepat. rewrite nthb_skipn. reflexivity.
Qed.

(** ** Scans, with the exact part of the block that is remembered *)
Definition scan_exact (g : nat -> bool) (len total : nat) (res : scan_result) : Prop :=
  match res with
  | (None, np) => np = None /\ forall i, g i = false
  | (Some x, np) =>
      exists k, x = total + k /\ g k = true /\ (forall i, i < k -> g i = false) /\
      let e := 64 * (k / 64) + 64 in
      ((np = None /\ len <= e) \/
       exists m, np = Some m /\ e < len /\ forall i, tb m i = (S k + i <? e) && g (S k + i))
  end.

Lemma take_mask_exact g len total m : m <> 0%N -> 64 < len ->
  (forall i, tb m i = (i <? 64) && g i) -> scan_exact g len total (take_mask total m).
Proof.
  clear. intros Hm Hl Hb. unfold take_mask, scan_exact. destruct (ctz_spec m Hm) as [Hc Hlow].
  pose proof Hc as Hc'. rewrite Hb in Hc'. apply andb_true_iff in Hc'. destruct Hc' as [Hlt Hg]. apply Nat.ltb_lt in Hlt.
  exists (ctz m). split; [reflexivity|]. split; [assumption|]. split.
  - intros i Hi. specialize (Hlow i Hi). rewrite Hb in Hlow. replace (i <? 64) with true in Hlow by (symmetry; apply Nat.ltb_lt; lia). assumption.
  - cbv zeta. rewrite (Nat.div_small (ctz m)) by lia. right.
    exists (if ctz m =? 63 then 0%N else shr64 m (N.of_nat (ctz m + 1))). split; [reflexivity|]. split; [lia|].
    intros i. change (64 * 0 + 64) with 64. destruct (Nat.eqb_spec (ctz m) 63) as [E|E].
    + rewrite tb_0. replace (S (ctz m) + i <? 64) with false by (symmetry; apply Nat.ltb_ge; lia). reflexivity.
    + rewrite tb_shr64, Hb. replace (i + (ctz m + 1)) with (S (ctz m) + i) by lia. reflexivity.
Qed.

Lemma scan_exact_shift g len total res :
  64 < len -> (forall i, i < 64 -> g i = false) ->
  scan_exact (fun i => g (64 + i)) (len - 64) (total + 64) res -> scan_exact g len total res.
Proof.
  clear. intros Hl H0. destruct res as [[x|] np]; cbn [scan_exact].
  - intros (k & -> & Hk & Hlow & Hnp). exists (64 + k). split; [lia|]. split; [assumption|]. split.
    + intros i Hi. destruct (Nat.lt_ge_cases i 64) as [H|H]; [apply H0; assumption|].
      replace i with (64 + (i - 64)) by lia. apply Hlow. lia.
    + cbv zeta in *. replace ((64 + k) / 64) with (S (k / 64)).
      2:{ replace (64 + k) with (k + 1 * 64) by lia. rewrite Nat.div_add by lia. lia. }
      destruct Hnp as [[-> He]|(m & -> & He & Hm)]; [left; split; [reflexivity|lia]|right].
      exists m. split; [reflexivity|]. split; [lia|]. intros i. rewrite Hm.
      replace (S (64 + k) + i) with (64 + (S k + i)) by lia. f_equal.
      destruct (Nat.ltb_spec (S k + i) (64 * (k / 64) + 64)), (Nat.ltb_spec (64 + (S k + i)) (64 * S (k / 64) + 64)); lia || reflexivity.
  - intros [-> H]. split; [reflexivity|]. intros i.
    destruct (Nat.lt_ge_cases i 64) as [Hi|Hi]; [apply H0; assumption|].
    replace i with (64 + (i - 64)) by lia. apply H.
Qed.
Lemma scan_exact_ext g g' len total res : (forall i, g i = g' i) -> scan_exact g len total res -> scan_exact g' len total res.
Proof.
  clear. intros E. destruct res as [[x|] np]; cbn [scan_exact].
  - intros (k & -> & H1 & H2 & H3). exists k. split; [reflexivity|]. rewrite <- E.
    split; [assumption|]. split; [intros i Hi; rewrite <- E; auto|]. cbv zeta in *.
    destruct H3 as [H3|(m & -> & Hb & Hd)]; [left; exact H3|right].
    exists m. split; [reflexivity|]. split; [assumption|]. intros i. rewrite Hd, E. reflexivity.
  - intros [-> H]. split; [reflexivity|]. intros i. rewrite <- E. apply H.
Qed.

Lemma scan_quoted_exact lanes clmul : lanes_ok lanes ->
  forall fuel l total notin, length l <= fuel ->
  exists res, scan_quoted fuel lanes clmul sep q eol l total notin = Some res /\
    scan_exact (FieldsProof.endp sep eol q (negb notin) l) (length l) total res.
Proof.
  clear Hq0. intros [Hl1 Hl2]. induction fuel as [|fuel IH]; intros l total notin Hf.
  - assert (l = []) by (destruct l; cbn in *; [reflexivity|lia]). subst. cbn.
    eexists. split; [reflexivity|]. cbn. split; [reflexivity|]. intros i.
    unfold FieldsProof.endp, sepat, nthb. destruct i; reflexivity.
  - destruct (Nat.ltb_spec 64 (length l)) as [H|H].
    + rewrite (scan_quoted_step sep eol q) by assumption. unfold scan_for_char.
      rewrite !assemble_mask_correct by (assumption || lia).
      set (qm := block_mask q (firstn 64 l)).
      set (niq := if notin then not64 (prefix_xorsum clmul qm) else prefix_xorsum clmul qm).
      assert (Hq64 : (qm < 2 ^ 64)%N) by (apply block_mask_lt64; rewrite firstn_length; lia).
      assert (Hniq : forall i, tb niq i = (i <? 64) && negb (xorb (negb notin) (prexor qm (S i)))).
      { intros i. unfold niq. destruct notin.
        - rewrite tb_not64, prefix_xorsum_bits by assumption.
          destruct (i <? 64), (prexor qm (S i)); reflexivity.
        - rewrite prefix_xorsum_bits by assumption. destruct (i <? 64), (prexor qm (S i)); reflexivity. }
      set (em := N.land _ niq).
      assert (Hem : forall i, tb em i = (i <? 64) && FieldsProof.endp sep eol q (negb notin) l i).
      { intros i. unfold em. rewrite tb_land, tb_lor, (block_sepat sep eol), Hniq.
        destruct (Nat.ltb_spec i 64) as [Hi|Hi]; [|reflexivity]. cbn [andb].
        unfold FieldsProof.endp. destruct (sepat sep eol l i) eqn:Es; [|reflexivity]. cbn [andb].
        unfold qm. rewrite (prexor_delim sep eol q Hqs Hqe) by (rewrite (sepat_firstn sep eol), Es; rewrite andb_true_r; apply Nat.ltb_lt; lia).
        f_equal. unfold inside_at, quotes_before. rewrite firstn_firstn, Nat.min_l by lia. reflexivity. }
      clearbody em. cbv zeta. destruct (N.eqb_spec em 0) as [E0|E0]; cbn [negb].
      * rewrite land_bit63, negb_involutive, Hniq.
        destruct (IH (skipn 64 l) (total + 64) ((63 <? 64) && negb (xorb (negb notin) (prexor qm 64))))
          as (res & Hr & Hok); [rewrite skipn_length; lia|].
        exists res. split; [exact Hr|]. apply scan_exact_shift; [lia| |].
        -- intros i Hi. specialize (Hem i). rewrite E0, tb_0 in Hem.
           replace (i <? 64) with true in Hem by (symmetry; apply Nat.ltb_lt; lia). cbn [andb] in Hem. congruence.
        -- rewrite skipn_length in Hok.
           assert (Hx : negb ((63 <? 64) && negb (xorb (negb notin) (prexor qm 64)))
                        = endst (negb notin) q (firstn 64 l)).
           { rewrite endst_spec. replace (63 <? 64) with true by reflexivity. cbn [andb].
             rewrite negb_involutive. f_equal. unfold qm. rewrite prexor_count.
             unfold quotes_before. rewrite firstn_firstn, Nat.min_id. reflexivity. }
           rewrite Hx in Hok. eapply scan_exact_ext; [|exact Hok]. intros i. symmetry. apply endp_skipn. lia.
      * eexists. split; [reflexivity|]. apply take_mask_exact; [assumption|lia|assumption].
    + cbn [scan_quoted]. replace (64 <? length l) with false by (symmetry; apply Nat.ltb_ge; lia).
      eexists. split; [reflexivity|]. pose proof (quoted_tail_ok sep eol q Hqs Hqe l (negb notin)) as Ht.
      destruct (quoted_tail sep q eol l (negb notin)) as [k|]; cbn [option_map scan_exact].
      * destruct Ht as [H1 H2]. exists k. repeat split; auto. left. split; [reflexivity|lia].
      * split; [reflexivity|assumption].
Qed.

Lemma scan_unquoted_exact lanes : lanes_ok lanes ->
  forall fuel l total, length l <= fuel ->
  exists res, scan_unquoted fuel lanes sep eol l total = Some res /\
    scan_exact (sepat sep eol l) (length l) total res.
Proof.
  clear Hqs Hqe Hq0. intros [Hl1 Hl2]. induction fuel as [|fuel IH]; intros l total Hf.
  - assert (l = []) by (destruct l; cbn in *; [reflexivity|lia]). subst. cbn.
    eexists. split; [reflexivity|]. cbn. split; [reflexivity|]. intros i. destruct i; reflexivity.
  - destruct (Nat.ltb_spec 64 (length l)) as [H|H].
    + rewrite scan_unquoted_step by assumption. unfold scan_for_two_chars.
      rewrite !assemble_mask_correct by (assumption || lia).
      set (em := N.lor _ _).
      assert (Hem : forall i, tb em i = (i <? 64) && sepat sep eol l i).
      { intros i. unfold em. rewrite tb_lor. apply block_sepat. }
      clearbody em. destruct (N.eqb_spec em 0) as [E0|E0]; cbn [negb].
      * destruct (IH (skipn 64 l) (total + 64)) as (res & Hr & Hok); [rewrite skipn_length; lia|].
        exists res. split; [exact Hr|]. apply scan_exact_shift; [lia| |].
        -- intros i Hi. specialize (Hem i). rewrite E0, tb_0 in Hem.
           replace (i <? 64) with true in Hem by (symmetry; apply Nat.ltb_lt; lia). cbn [andb] in Hem. congruence.
        -- rewrite skipn_length in Hok. eapply scan_exact_ext; [|exact Hok].
           intros i. unfold sepat. apply nthb_skipn.
      * eexists. split; [reflexivity|]. apply take_mask_exact; [assumption|lia|assumption].
    + cbn [scan_unquoted]. replace (64 <? length l) with false by (symmetry; apply Nat.ltb_ge; lia).
      eexists. split; [reflexivity|]. pose proof (unquoted_tail_ok sep eol l) as Ht.
      destruct (unquoted_tail sep eol l) as [k|]; cbn [option_map scan_exact].
      * destruct Ht as [H1 H2]. exists k. repeat split; auto. left. split; [reflexivity|lia].
      * split; [reflexivity|assumption].
Qed.

(** ** The loop *)
Definition remembers (prev : N) (w : nat) (heed : bool) (v : bytes) : Prop :=
  w <= 63 /\ forall i, tb prev i = (i <? w) && stop heed v i.

Lemma block_row_step f w heed l : block_row sep eol q (S f) w heed l =
      let cut w' h p :=
        if byte_is l p eol then ([firstn p l], skipn (S p) l)
        else (firstn p l :: fst (block_row sep eol q f w' h (skipn (S p) l)), snd (block_row sep eol q f w' h (skipn (S p) l))) in
      match next_stop sep eol q heed (firstn w l) with
      | Some p => cut (w - S p) heed p
      | None =>
          let h := starts_with q l in
          match next_stop sep eol q h l with
          | Some p => let e := 64 * (p / 64) + 64 in cut (if e <? length l then e - S p else 0) h p
          | None => ([l], [])
          end
      end.
Proof. reflexivity. Qed.

Lemma sf_all_step fuel lanes clmul st ne : sf_all (S fuel) lanes clmul sep q eol st ne =
  match sf_next lanes clmul sep q eol st ne with
  | None => None
  | Some (None, st') => Some ([], sf_v st')
  | Some (Some (f, ne'), st') =>
      match sf_all fuel lanes clmul sep q eol st' ne' with
      | None => None
      | Some (fs, rest) => Some ((f, ne') :: fs, rest)
      end
  end.
Proof. reflexivity. Qed.

(** What follows one cut. *)
Lemma after_cut lanes clmul f fuel v p prev0 prev w heed ne :
  stop heed v p = true -> remembers prev w heed (skipn (S p) v) \/ byte_is v p eol = true ->
  (forall l prev w heed ne fuel, length l < f -> length l < fuel -> remembers prev w heed l ->
    option_map (fun r => (map fst (fst r), snd r)) (sf_all (S fuel) lanes clmul sep q eol (mkSf l false prev) ne) = Some (block_row sep eol q f w heed l)) ->
  length v < S f -> length v < S fuel ->
  option_map (fun r => (map fst (fst r), snd r))
    match nth_error v p with
    | None => None
    | Some c => match sf_all (S fuel) lanes clmul sep q eol (snd (sf_cut (mkSf v false prev0) prev p (N.eqb c eol) ne)) ne with
                | None => None | Some (fs, rest) => Some ((firstn p v, ne) :: fs, rest) end
    end =
  Some (if byte_is v p eol then ([firstn p v], skipn (S p) v)
        else (firstn p v :: fst (block_row sep eol q f w heed (skipn (S p) v)), snd (block_row sep eol q f w heed (skipn (S p) v)))).
Proof.
  intros Hp Hr IH Hf Hfu. pose proof (stop_bound _ _ _ Hp) as Hb.
  destruct (nth_error v p) as [c|] eqn:Ec; [|apply nth_error_None in Ec; lia].
  assert (Hbe : byte_is v p eol = N.eqb c eol) by (unfold byte_is; rewrite Ec; reflexivity).
  rewrite Hbe in *. cbn [sf_cut snd sf_v]. destruct (N.eqb c eol) eqn:E.
  - rewrite sf_all_step. reflexivity.
  - destruct Hr as [Hr|Hr]; [|discriminate]. specialize (IH (skipn (S p) v) prev w heed ne fuel).
    rewrite skipn_length in IH. specialize (IH ltac:(lia) ltac:(lia) Hr).
    destruct (sf_all _ _ _ _ _ _ _ _) as [[fs rest]|]; [|discriminate IH]. cbn [option_map map fst snd] in IH |- *.
    apply (f_equal (fun o => match o with Some x => x | None => ([], []) end)) in IH. rewrite <- IH. reflexivity.
Qed.

Lemma sf_next_cached lanes clmul v prev ne : prev <> 0%N -> ctz prev < 63 -> ctz prev < length v ->
  exists ne', forall c, nth_error v (ctz prev) = Some c ->
  sf_next lanes clmul sep q eol (mkSf v false prev) ne =
  Some (sf_cut (mkSf v false prev) (shr64 prev (N.of_nat (ctz prev + 1))) (ctz prev) (N.eqb c eol) ne').
Proof.
  clear. intros H0 H1 H2. eexists. intros c Ec. unfold sf_next. cbn [sf_finished sf_prev sf_v]. destruct (N.eqb_spec prev 0); [contradiction|]. cbn [negb].
  cbv zeta. destruct (Nat.leb_spec 64 (ctz prev + 1)); [lia|]. rewrite Ec. reflexivity.
Qed.

Lemma tb_zero m : (forall i, tb m i = false) -> m = 0%N.
Proof.
  clear. intros H. destruct (N.eq_dec m 0) as [|E]; [assumption|]. destruct (ctz_spec m E) as [C _]. rewrite H in C. discriminate.
Qed.

Lemma iterate_blocks lanes clmul : lanes_ok lanes -> forall f l prev w heed ne fuel, length l < f -> length l < fuel ->
  remembers prev w heed l ->
  option_map (fun r => (map fst (fst r), snd r)) (sf_all (S fuel) lanes clmul sep q eol (mkSf l false prev) ne) = Some (block_row sep eol q f w heed l).
Proof.
  intros HL. induction f as [|f IH]; intros l prev w heed ne fuel Hf Hfu HR; [lia|].
  destruct fuel as [|fuel]; [lia|]. rewrite sf_all_step, block_row_step. cbv zeta. destruct HR as [Hw HR].
  destruct (N.eq_dec prev 0) as [P0|P0].
  - (* nothing remembered: a fresh scan *)
    subst prev. rewrite (next_none heed (firstn w l)) by (intros i; rewrite stop_firstn, <- HR; apply tb_0).
    destruct l as [|c0 r] eqn:El.
    { cbn [sf_next sf_finished sf_prev sf_v N.eqb negb]. rewrite (next_none _ []) by (intros [|i]; unfold stop; destruct (starts_with q []); reflexivity).
      unfold sf_next, sf_finish. cbn [sf_finished sf_prev sf_v N.eqb negb]. rewrite sf_all_step. reflexivity. }
    rewrite <- El in *.
    assert (Hst : starts_with q l = negb (N.eqb q 0) && N.eqb c0 q) by (rewrite El; cbn [starts_with]; destruct (N.eqb_spec q 0); [contradiction|reflexivity]).
    assert (NX : forall p np, (exists res, (if starts_with q l then scan_quoted (length l) lanes clmul sep q eol l 0 true
                                  else scan_unquoted (length l) lanes sep eol l 0) = Some res /\ res = (p, np)) ->
      sf_next lanes clmul sep q eol (mkSf l false 0) ne =
      match p with
      | None => Some (sf_finish (mkSf l false 0) (match np with Some x => x | None => 0%N end) (starts_with q l))
      | Some pos => if length l <=? pos then Some (sf_finish (mkSf l false 0) (match np with Some x => x | None => 0%N end) (starts_with q l))
                    else match nth_error l pos with None => None
                         | Some c => Some (sf_cut (mkSf l false 0) (match np with Some x => x | None => 0%N end) pos (N.eqb c eol) (starts_with q l)) end
      end).
    { intros p np (res & E1 & E2). subst res. unfold sf_next. cbn [sf_finished sf_prev sf_v N.eqb negb]. rewrite El. rewrite <- El. cbv zeta.
      rewrite <- Hst. rewrite E1. reflexivity. }
    assert (SC : exists p np, (if starts_with q l then scan_quoted (length l) lanes clmul sep q eol l 0 true
                                  else scan_unquoted (length l) lanes sep eol l 0) = Some (p, np) /\ scan_exact (stop (starts_with q l) l) (length l) 0 (p, np)).
    { destruct (starts_with q l).
      - destruct (scan_quoted_exact lanes clmul HL (length l) l 0 true ltac:(lia)) as ([p np] & E1 & E2). exists p, np. split; [exact E1|exact E2].
      - destruct (scan_unquoted_exact lanes HL (length l) l 0 ltac:(lia)) as ([p np] & E1 & E2). exists p, np. split; [exact E1|exact E2]. }
    destruct SC as (p & np & E1 & E2). specialize (NX p np ltac:(eexists; split; [exact E1|reflexivity])). rewrite NX. clear NX.
    destruct p as [x|]; cbn [scan_exact] in E2.
    + destruct E2 as (k & -> & Hk & Hlow & E2). cbn [Nat.add]. pose proof (stop_bound _ _ _ Hk) as Hkb.
      destruct (Nat.leb_spec (length l) k); [lia|]. rewrite (next_some _ _ k Hk Hlow). cbv zeta in E2.
      pose proof (Nat.div_mod k 64 ltac:(discriminate)) as DM. pose proof (Nat.mod_upper_bound k 64 ltac:(discriminate)) as MB.
      set (w' := if 64 * (k / 64) + 64 <? length l then 64 * (k / 64) + 64 - S k else 0).
      set (prev' := match np with Some x => x | None => 0%N end).
      assert (RM : remembers prev' w' (starts_with q l) (skipn (S k) l)).
      { unfold remembers, w', prev'. destruct E2 as [[-> He]|(m & -> & He & Hm)].
        - destruct (Nat.ltb_spec (64 * (k / 64) + 64) (length l)); [lia|]. split; [lia|]. intros i. apply tb_0.
        - destruct (Nat.ltb_spec (64 * (k / 64) + 64) (length l)); [|lia]. split; [lia|]. intros i. rewrite Hm, (stop_after _ _ _ _ Hk). f_equal.
          destruct (Nat.ltb_spec (S k + i) (64 * (k / 64) + 64)), (Nat.ltb_spec i (64 * (k / 64) + 64 - S k)); lia || reflexivity. }
      etransitivity; [|exact (after_cut lanes clmul f fuel l k 0%N prev' w' (starts_with q l) (starts_with q l) Hk (or_introl RM) IH Hf Hfu)].
      destruct (nth_error l k) as [c|]; [|reflexivity]. reflexivity.
    + destruct E2 as [-> Hn]. rewrite (next_none _ _ Hn). unfold sf_finish. rewrite sf_all_step. reflexivity.
  - (* the next remembered end *)
    destruct (ctz_spec prev P0) as [Hc Hlow]. rewrite HR in Hc. apply andb_true_iff in Hc. destruct Hc as [Hcw Hcs]. apply Nat.ltb_lt in Hcw.
    pose proof (stop_bound _ _ _ Hcs) as Hb. set (p := ctz prev) in *.
    rewrite (next_some heed (firstn w l) p).
    2:{ rewrite stop_firstn, Hcs, andb_true_r. apply Nat.ltb_lt. exact Hcw. }
    2:{ intros i Hi. rewrite stop_firstn, <- HR. apply Hlow. exact Hi. }
    destruct (sf_next_cached lanes clmul l prev ne P0 ltac:(fold p; lia) Hb) as (ne' & NX). fold p in NX.
    set (prev' := shr64 prev (N.of_nat (p + 1))) in *.
    assert (RM : remembers prev' (w - S p) heed (skipn (S p) l)).
    { split; [lia|]. intros i. unfold prev'. rewrite tb_shr64, HR. replace (i + (p + 1)) with (S p + i) by lia.
      rewrite (stop_after _ _ _ _ Hcs). f_equal. destruct (Nat.ltb_spec (S p + i) w), (Nat.ltb_spec i (w - S p)); lia || reflexivity. }
    etransitivity; [|exact (after_cut lanes clmul f fuel l p prev prev' (w - S p) heed ne' Hcs (or_introl RM) IH Hf Hfu)].
    destruct (nth_error l p) as [c|] eqn:Ec; [|apply nth_error_None in Ec; lia]. rewrite (NX c eq_refl). reflexivity.
Qed.

Theorem iterator_blocks lanes clmul data ne : 1 <= lanes -> Nat.divide lanes 64 ->
  option_map (fun r => (map fst (fst r), snd r)) (row_fields lanes clmul sep q eol data ne) = Some (split_in_blocks sep eol q data).
Proof.
  intros H1 H2. unfold row_fields, split_in_blocks, sf_init. apply iterate_blocks; [split; assumption|lia|lia|].
  split; [lia|]. intros i. rewrite tb_0. reflexivity.
Qed.

(** ** When that is the row *)
Lemma inside_odd v p : inside_at false q v p = Nat.odd (count_occ N.eq_dec (firstn p v) q).
Proof. clear. unfold inside_at, quotes_before. destruct (Nat.odd _); reflexivity. Qed.

Lemma raw_first_longer v p : sepat sep eol v p = true -> (forall i, i < p -> sepat sep eol v i = false) ->
  inside_at false q v p = true -> p < length (hd [] (fst (raw_row (N.eqb eol) sep q false v))).
Proof.
  clear Hq0. intros Hp Hlow Hin. pose proof (sepat_bound _ _ _ _ Hp) as Hb.
  destruct (endp_split sep eol q Hqs Hqe v 0) as [(p' & E' & L')|N'].
  - assert (p < p').
    { destruct (Nat.lt_trichotomy p p') as [L|[L|L]]; [exact L| |].
      - subst p'. unfold FieldsProof.endp in E'. rewrite Hin, andb_false_r in E'. discriminate.
      - unfold FieldsProof.endp in E'. rewrite Hlow in E' by exact L. discriminate. }
    pose proof (endp_bound _ _ _ _ _ _ E'). rewrite (raw_row_first sep eol q Hqs Hqe v false p' E' L').
    destruct (byte_is v p' eol); cbn [fst hd]; rewrite firstn_length; lia.
  - rewrite (raw_row_none sep eol q v false) by (intros; apply N'). cbn [fst hd]. exact Hb.
Qed.

Lemma join_cons_length f fs : fs <> [] -> length (join sep (f :: fs)) = length f + S (length (join sep fs)).
Proof. clear. destruct fs; [congruence|]. intros _. cbn [join]. rewrite app_length. reflexivity. Qed.
Lemma block_row_nonempty f w heed l : fst (block_row sep eol q f w heed l) <> [].
Proof.
  clear. destruct f as [|f]; [discriminate|]. rewrite block_row_step. cbv zeta. destruct (next_stop sep eol q heed (firstn w l)).
  - destruct (byte_is l n eol); discriminate.
  - destruct (next_stop sep eol q (starts_with q l) l); [|discriminate]. destruct (byte_is l n eol); discriminate.
Qed.

Lemma delimited_cons v p fs : p < length v -> fs <> [] ->
  delimited sep v (firstn p v :: fs) = firstn p v :: delimited sep (skipn (S p) v) fs.
Proof.
  clear. intros Hp Hn. unfold delimited. rewrite join_cons_length by exact Hn. rewrite firstn_length, skipn_length, Nat.min_l by lia.
  replace (p + S (length (join sep fs)) <? length v) with (length (join sep fs) <? length v - S p).
  - destruct (_ <? _); [reflexivity|]. destruct fs; [congruence|reflexivity].
  - destruct (Nat.ltb_spec (length (join sep fs)) (length v - S p)), (Nat.ltb_spec (p + S (length (join sep fs))) (length v)); lia || reflexivity.
Qed.

Lemma cut_iff v p rest r :
  sepat sep eol v p = true -> (forall i, i < p -> sepat sep eol v i = false \/ inside_at false q v i = true) ->
  (inside_at false q v p = false \/ (forall i, i < p -> sepat sep eol v i = false)) ->
  rest = skipn (S p) v -> fst r <> [] ->
  (r = raw_row (N.eqb eol) sep q false rest <-> Forall (balanced q) (delimited sep rest (fst r))) ->
  ((if byte_is v p eol then ([firstn p v], rest) else (firstn p v :: fst r, snd r)) = raw_row (N.eqb eol) sep q false v <->
   Forall (balanced q) (delimited sep v (fst (if byte_is v p eol then ([firstn p v], rest) else (firstn p v :: fst r, snd r))))).
Proof.
  intros Hp Hlow Hor -> Hne IH. pose proof (sepat_bound _ _ _ _ Hp) as Hb.
  assert (D : delimited sep v [firstn p v] = [firstn p v]).
  { unfold delimited. cbn [join]. rewrite firstn_length, Nat.min_l by lia. destruct (Nat.ltb_spec p (length v)); [reflexivity|lia]. }
  destruct (inside_at false q v p) eqn:Hin.
  - (* cut inside quotes *)
    destruct Hor as [Hor|Hor]; [discriminate|]. pose proof (raw_first_longer v p Hp Hor Hin) as HL.
    assert (NB : ~ balanced q (firstn p v)).
    { unfold balanced. rewrite inside_odd in Hin. rewrite <- Nat.negb_odd, Hin. discriminate. }
    split; intros H; exfalso.
    + rewrite <- H in HL. destruct (byte_is v p eol); cbn [fst hd] in HL; rewrite firstn_length in HL; lia.
    + destruct (byte_is v p eol); cbn [fst] in H.
      * rewrite D in H. inversion H; contradiction.
      * rewrite delimited_cons in H by assumption. inversion H; contradiction.
  - assert (HE : FieldsProof.endp sep eol q false v p = true) by (unfold FieldsProof.endp; rewrite Hp, Hin; reflexivity).
    assert (HB : balanced q (firstn p v)).
    { unfold balanced. rewrite inside_odd in Hin. rewrite <- Nat.negb_odd, Hin. reflexivity. }
    rewrite (raw_row_first sep eol q Hqs Hqe v false p HE).
    2:{ intros i Hi. unfold FieldsProof.endp. destruct (Hlow i Hi) as [->| ->]; [reflexivity|apply andb_false_r]. }
    destruct (byte_is v p eol); cbn [fst].
    + rewrite D. split; intros _; [repeat constructor; exact HB|reflexivity].
    + rewrite delimited_cons by assumption. split.
      * intros H. constructor; [exact HB|]. apply IH. pose proof (f_equal (fun x => tl (fst x)) H) as H1. pose proof (f_equal snd H) as H2. cbn [fst snd tl] in H1, H2.
        rewrite (surjective_pairing r), H1, H2. symmetry. apply surjective_pairing.
      * intros H. inversion H as [|? ? _ H2]; subst. rewrite (proj2 IH H2) at 1 2. reflexivity.
Qed.

Lemma blocks_iff : forall f w heed l, length l < f ->
  (block_row sep eol q f w heed l = raw_row (N.eqb eol) sep q false l <-> Forall (balanced q) (delimited sep l (fst (block_row sep eol q f w heed l)))).
Proof.
  induction f as [|f IH]; intros w heed l Hf; [lia|]. rewrite block_row_step. cbv zeta.
  assert (C : forall w' h p, stop h l p = true -> (forall i, i < p -> stop h l i = false) ->
     ((if byte_is l p eol then ([firstn p l], skipn (S p) l)
        else (firstn p l :: fst (block_row sep eol q f w' h (skipn (S p) l)), snd (block_row sep eol q f w' h (skipn (S p) l)))) = raw_row (N.eqb eol) sep q false l <->
      Forall (balanced q) (delimited sep l (fst (if byte_is l p eol then ([firstn p l], skipn (S p) l)
        else (firstn p l :: fst (block_row sep eol q f w' h (skipn (S p) l)), snd (block_row sep eol q f w' h (skipn (S p) l)))))))).
  { intros w' h p Hp Hlow. pose proof (stop_bound _ _ _ Hp). apply cut_iff.
    - exact (stop_sepat _ _ _ Hp).
    - intros i Hi. specialize (Hlow i Hi). destruct h; cbn [stop] in Hlow; [|left; exact Hlow].
      unfold FieldsProof.endp in Hlow. destruct (sepat sep eol l i); [right|left; reflexivity]. destruct (inside_at false q l i); [reflexivity|discriminate].
    - destruct h; cbn [stop] in Hp, Hlow; [left|right; exact Hlow]. unfold FieldsProof.endp in Hp. apply andb_true_iff in Hp.
      destruct (inside_at false q l p); [destruct Hp; discriminate|reflexivity].
    - reflexivity.
    - apply block_row_nonempty.
    - apply IH. rewrite skipn_length. lia. }
  pose proof (next_inv heed (firstn w l)) as N1. destruct (next_stop sep eol q heed (firstn w l)) as [p|].
  - destruct N1 as [N1 N2]. rewrite stop_firstn in N1. apply andb_true_iff in N1. destruct N1 as [N0 N1]. apply Nat.ltb_lt in N0. apply C; [exact N1|].
    intros i Hi. specialize (N2 i Hi). rewrite stop_firstn in N2. destruct (Nat.ltb_spec i w); [exact N2|lia].
  - pose proof (next_inv (starts_with q l) l) as N2. destruct (next_stop sep eol q (starts_with q l) l) as [p|]; [apply C; tauto|].
    rewrite (raw_row_none sep eol q l false).
    + cbn [fst]. unfold delimited. cbn [join]. rewrite Nat.ltb_irrefl. split; [constructor|reflexivity].
    + intros i _. specialize (N2 i). destruct (starts_with q l); cbn [stop] in N2; [exact N2|]. unfold FieldsProof.endp. rewrite N2. reflexivity.
Qed.

Theorem iterator_right_iff lanes clmul data ne fs rest : 1 <= lanes -> Nat.divide lanes 64 ->
  option_map (fun r => (map fst (fst r), snd r)) (row_fields lanes clmul sep q eol data ne) = Some (fs, rest) ->
  ((fs, rest) = raw_row (N.eqb eol) sep q false data <-> Forall (balanced q) (delimited sep data fs)).
Proof.
  intros H1 H2. rewrite iterator_blocks by assumption. unfold split_in_blocks. intros H.
  pose proof (blocks_iff (S (length data)) 0 false data ltac:(lia)) as B.
  assert (E : block_row sep eol q (S (length data)) 0 false data = (fs, rest)) by congruence. rewrite E in B. exact B.
Qed.
End Split.
