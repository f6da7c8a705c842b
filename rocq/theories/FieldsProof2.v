(** The SplitFields iterator: losslessness for every input, exactness for rows in
    which no quoted delimiter lies close behind an unquoted field. *)
From Verif Require Import Base WordsModel WordsProof ChunkSpec ChunkModel ChunkProof ChunkProof2 ChunkProof3
  FieldsSpec FieldsModel FieldsProof.

(** ** Losslessness *)
Section Lossless.
Variables sep eol q : byte.

Definition bits_sep (m : N) (v : bytes) : Prop :=
  forall i, tb m i = true -> i < 63 /\ sepat sep eol v i = true.

Definition scan_weak (v : bytes) (res : scan_result) : Prop :=
  match res with
  | (None, np) => np = None
  | (Some x, np) => sepat sep eol v x = true /\
      (np = None \/ exists m, np = Some m /\ bits_sep m (skipn (S x) v))
  end.

Lemma take_mask_weak v n m : m <> 0%N ->
  (forall i, tb m i = true -> i < 64 /\ sepat sep eol v (n + i) = true) ->
  scan_weak v (take_mask n m).
Proof.
  intros Hm Hb. unfold take_mask. cbn [scan_weak]. destruct (ctz_spec m Hm) as [Hc _].
  destruct (Hb _ Hc) as [Hlt Hs]. split; [assumption|]. right.
  eexists. split; [reflexivity|]. intros i. destruct (Nat.eqb_spec (ctz m) 63).
  - rewrite tb_0. discriminate.
  - rewrite tb_shr64. intros Hi. destruct (Hb _ Hi) as [H1 H2]. split; [lia|].
    unfold sepat. rewrite nthb_skipn. unfold sepat in H2. rewrite <- H2. f_equal. lia.
Qed.

Lemma quoted_tail_weak : forall l inq k, quoted_tail sep q eol l inq = Some k -> sepat sep eol l k = true.
Proof.
  induction l as [|c r IH]; intros inq k; cbn [quoted_tail]; [discriminate|].
  set (inq' := if N.eqb c q then negb inq else inq).
  destruct (negb inq' && (N.eqb c sep || N.eqb c eol)) eqn:E.
  - intros H. injection H as <-. apply andb_true_iff in E. apply E.
  - destruct (quoted_tail sep q eol r inq') as [k'|] eqn:Ek; [|discriminate].
    cbn [option_map]. intros H. injection H as <-. apply (IH _ _ Ek).
Qed.

Lemma unquoted_tail_weak : forall l k, unquoted_tail sep eol l = Some k -> sepat sep eol l k = true.
Proof.
  intros l k H. pose proof (unquoted_tail_ok sep eol l) as Hu. rewrite H in Hu. apply Hu.
Qed.

Lemma scan_quoted_weak lanes clmul v : lanes_ok lanes ->
  forall fuel n notin, length v - n <= fuel -> n <= length v ->
  exists res, scan_quoted fuel lanes clmul sep q eol (skipn n v) n notin = Some res /\ scan_weak v res.
Proof.
  intros [Hl1 Hl2]. induction fuel as [|fuel IH]; intros n notin Hf Hn.
  - rewrite skipn_all2 by lia. cbn. eexists. split; [reflexivity|]. reflexivity.
  - destruct (Nat.ltb_spec 64 (length (skipn n v))) as [H|H].
    + rewrite scan_quoted_step by assumption. unfold scan_for_char.
      rewrite !assemble_mask_correct by (assumption || lia). cbv zeta.
      set (niq := if notin then _ else _). set (em := N.land _ niq).
      assert (Hem : forall i, tb em i = true -> i < 64 /\ sepat sep eol v (n + i) = true).
      { intros i. unfold em. rewrite tb_land, tb_lor, block_sepat. intros Hi.
        apply andb_true_iff in Hi. destruct Hi as [Hi _]. apply andb_true_iff in Hi. destruct Hi as [Hi1 Hi2].
        split; [lia|]. unfold sepat in *. rewrite nthb_skipn in Hi2. assumption. }
      clearbody em. destruct (N.eqb_spec em 0) as [E0|E0]; cbn [negb].
      * rewrite skipn_skipn. rewrite (Nat.add_comm 64 n). rewrite skipn_length in H. apply IH; lia.
      * eexists. split; [reflexivity|]. apply take_mask_weak; assumption.
    + cbn [scan_quoted]. replace (64 <? length (skipn n v)) with false by lia.
      eexists. split; [reflexivity|].
      destruct (quoted_tail sep q eol (skipn n v) (negb notin)) as [k|] eqn:Ek; cbn [option_map scan_weak]; [|reflexivity].
      apply quoted_tail_weak in Ek. unfold sepat in *. rewrite nthb_skipn in Ek. split; [assumption|left; reflexivity].
Qed.

Lemma scan_unquoted_weak lanes v : lanes_ok lanes ->
  exists res, scan_unquoted (length v) lanes sep eol v 0 = Some res /\ scan_weak v res.
Proof.
  intros Hl. destruct (scan_unquoted_ok sep eol q lanes Hl (length v) v 0) as (res & Hr & Hok); [lia|].
  exists res. split; [assumption|]. destruct res as [[x|] np]; cbn [scan_weak scan_ok] in *; [|apply Hok].
  destruct Hok as (k & -> & H1 & _ & H3). split; [assumption|].
  destruct H3 as [->|(m & w & -> & Ha & Hb & Hc & Hd)]; [left; reflexivity|right].
  exists m. split; [reflexivity|]. intros i Hi. rewrite Hd in Hi. apply andb_true_iff in Hi.
  destruct Hi as [Hi1 Hi2]. split; [lia|]. unfold sepat in *. rewrite nthb_skipn. exact Hi2.
Qed.

(** One call of next() on an unfinished iterator. *)
Lemma sf_next_weak lanes clmul v prev ne : lanes_ok lanes -> bits_sep prev v ->
  exists f ne' st', sf_next lanes clmul sep q eol (mkSf v false prev) ne = Some (Some (f, ne'), st') /\
   ( (f = v /\ sf_v st' = [] /\ sf_finished st' = true) \/
     (exists c r, v = f ++ c :: r /\ is_delim sep eol c = true /\ sf_v st' = r /\
        sf_finished st' = N.eqb c eol /\ bits_sep (sf_prev st') r)).
Proof.
  intros Hl Hb. unfold sf_next. cbn [sf_finished sf_prev sf_v].
  assert (Hcut : forall pos m ne', sepat sep eol v pos = true -> bits_sep m (skipn (S pos) v) ->
    exists f ne'' st', match nth_error v pos with
       | None => None
       | Some c => Some (sf_cut (mkSf v false prev) m pos (N.eqb c eol) ne') end = Some (Some (f, ne''), st') /\
      ( (f = v /\ sf_v st' = [] /\ sf_finished st' = true) \/
     (exists c r, v = f ++ c :: r /\ is_delim sep eol c = true /\ sf_v st' = r /\
        sf_finished st' = N.eqb c eol /\ bits_sep (sf_prev st') r))).
  { intros pos m ne' Hs Hm. unfold sepat in Hs. rewrite nthb_nth_error in Hs.
    destruct (nth_error v pos) as [c|] eqn:Ec; [|discriminate].
    do 3 eexists. split; [reflexivity|]. right. exists c, (skipn (S pos) v).
    cbn [sf_v sf_finished sf_prev]. repeat split; try assumption.
    - rewrite <- (firstn_skipn pos v) at 1. f_equal. apply skipn_nth_cons. assumption.
    - apply Hm. assumption.
    - apply Hm. assumption. }
  destruct (N.eqb_spec prev 0) as [E0|E0]; cbn [negb].
  - destruct v as [|c0 r0] eqn:Ev.
    + do 3 eexists. split; [reflexivity|]. left. repeat split.
    + rewrite <- Ev in *.
      assert (Hscan : exists res, (if negb (N.eqb q 0) && N.eqb c0 q
         then scan_quoted (length v) lanes clmul sep q eol v 0 true
         else scan_unquoted (length v) lanes sep eol v 0) = Some res /\ scan_weak v res).
      { destruct (negb (N.eqb q 0) && N.eqb c0 q).
        - apply (scan_quoted_weak lanes clmul v Hl (length v) 0 true); lia.
        - apply scan_unquoted_weak. assumption. }
      destruct Hscan as ([[x|] np] & -> & Hw); cbn [scan_weak] in Hw.
      * destruct Hw as [Hs Hnp]. pose proof (sepat_bound _ _ _ _ Hs) as Hx.
        replace (length v <=? x) with false by lia. apply Hcut; [assumption|].
        destruct Hnp as [->|(m & -> & Hm)]; [|assumption].
        rewrite E0. intros i. rewrite tb_0. discriminate.
      * do 3 eexists. split; [reflexivity|]. left. repeat split.
  - destruct (ctz_spec prev E0) as [Hc _]. destruct (Hb _ Hc) as [H1 H2].
    replace (64 <=? ctz prev + 1) with false by lia. apply Hcut; [assumption|].
    intros i. rewrite tb_shr64. intros Hi. destruct (Hb _ Hi) as [H3 H4].
    split; [lia|]. unfold sepat. rewrite nthb_skipn. unfold sepat in H4. rewrite <- H4. f_equal. lia.
Qed.

Lemma sf_all_lossless lanes clmul : lanes_ok lanes ->
  forall fuel v prev ne, length v + 2 <= fuel -> bits_sep prev v ->
  exists rs rest, sf_all fuel lanes clmul sep q eol (mkSf v false prev) ne = Some (rs, rest) /\
    1 <= length rs <= S (length v) /\
    (v = join sep (map fst rs) /\ rest = [] \/ v = join sep (map fst rs) ++ eol :: rest).
Proof.
  intros Hl. induction fuel as [|fuel IH]; intros v prev ne Hf Hb; [lia|].
  cbn [sf_all]. destruct (sf_next_weak lanes clmul v prev ne Hl Hb) as (f & ne' & st' & -> & Hcase).
  destruct Hcase as [(-> & H2 & H3)|(c & r & Hv & Hd & H3 & H4 & H5)].
  - destruct fuel as [|fuel]; [lia|]. cbn [sf_all]. unfold sf_next. rewrite H3.
    do 2 eexists. split; [reflexivity|]. cbn [length map fst join]. split; [lia|]. left. split; [reflexivity|assumption].
  - destruct st' as [v' fin' prev']. cbn [sf_v sf_finished sf_prev] in *. subst v'.
    destruct fin'.
    + destruct fuel as [|fuel]; [lia|]. cbn [sf_all]. unfold sf_next. cbn [sf_finished sf_v].
      do 2 eexists. split; [reflexivity|]. cbn [length map fst join]. split; [rewrite Hv, app_length; lia|].
      right. symmetry in H4. apply N.eqb_eq in H4. subst c. assumption.
    + destruct (IH r prev' ne') as (rs & rest & -> & Hlen & Hj).
      { rewrite Hv, app_length in Hf. cbn in Hf. lia. }
      { assumption. }
      do 2 eexists. split; [reflexivity|]. split.
      { cbn [length]. rewrite Hv, app_length. cbn [length]. lia. }
      assert (Hc : c = sep).
      { unfold is_delim in Hd. rewrite <- H4, orb_false_r in Hd. apply N.eqb_eq. assumption. }
      subst c. cbn [map fst join]. destruct (map fst rs) as [|f1 fs1] eqn:Em.
      { destruct rs; cbn in *; [lia|discriminate]. }
      rewrite Hv. rewrite <- app_assoc. cbn [app].
      destruct Hj as [[-> ->]| ->]; [left|right]; [split; reflexivity|reflexivity].
Qed.
End Lossless.

(** ** Exactness *)

Section Exact.
Variables sep eol q : byte.
Hypothesis Hqs : q <> sep.
Hypothesis Hqe : q <> eol.
Notation endp := (endp sep eol q false).
Notation rr := (raw_row (N.eqb eol) sep q false).

Definition cache_ok (prev : N) (v : bytes) : Prop :=
  exists w, w <= length v /\ w <= 63 /\
   (forall i, tb prev i = true -> i < w /\ sepat sep eol v i = true) /\
   (forall i, (forall j, j < i -> endp v j = true -> byte_is v j eol = false) ->
      tb prev i = (i <? w) && endp v i).

Lemma cache_ok_0 v : cache_ok 0 v.
Proof.
  exists 0. repeat split; try lia.
  - rewrite tb_0 in H. discriminate.
  - rewrite tb_0 in H. discriminate.
Qed.

Lemma least (g : nat -> bool) n : g n = true -> exists k, k <= n /\ g k = true /\ forall i, i < k -> g i = false.
Proof.
  induction n as [n IH] using lt_wf_ind. intros Hn.
  destruct (existsb g (seq 0 n)) eqn:E.
  - apply existsb_exists in E. destruct E as (m & Hm & Hg). apply in_seq in Hm.
    destruct (IH m) as (k & Hk & H1 & H2); [lia|assumption|]. exists k. repeat split; [lia|assumption|assumption].
  - exists n. repeat split; [lia|assumption|]. intros i Hi.
    destruct (g i) eqn:Eg; [|reflexivity]. exfalso.
    assert (existsb g (seq 0 n) = true) by (apply existsb_exists; exists i; split; [apply in_seq; lia|assumption]).
    congruence.
Qed.

Lemma cache_first prev v : cache_ok prev v -> prev <> 0%N ->
  endp v (ctz prev) = true /\ (forall i, i < ctz prev -> endp v i = false) /\ ctz prev < 63.
Proof.
  intros (w & Hw & Hw2 & Hs & Hb) H0. destruct (ctz_spec prev H0) as [Hc Hlow].
  destruct (Hs _ Hc) as [Hcw _].
  assert (Hnone : forall i, i < ctz prev -> endp v i = false).
  { intros i Hi. destruct (endp v i) eqn:E; [|reflexivity]. exfalso.
    destruct (least (FieldsProof.endp sep eol q false v) i E) as (k & Hk & Hg & Hl).
    assert (Ht : tb prev k = (k <? w) && endp v k).
    { apply Hb. intros j Hj Hej. rewrite Hl in Hej by assumption. discriminate. }
    rewrite Hlow, Hg in Ht by lia. replace (k <? w) with true in Ht by lia. discriminate. }
  split; [|split; [assumption|lia]].
  assert (Ht : tb prev (ctz prev) = (ctz prev <? w) && endp v (ctz prev)).
  { apply Hb. intros j Hj Hej. rewrite Hnone in Hej by assumption. discriminate. }
  rewrite Hc in Ht. symmetry in Ht. apply andb_true_iff in Ht. apply Ht.
Qed.

(** After a separator outside quotes the parity restarts. *)
Lemma endp_after v p i : endp v p = true -> endp v (S p + i) = endp (skipn (S p) v) i.
Proof.
  intros Hp. pose proof (endp_bound _ _ _ _ _ _ Hp) as Hlt.
  rewrite endp_skipn by lia. f_equal. rewrite endst_spec.
  unfold FieldsProof.endp, inside_at, quotes_before in Hp. apply andb_true_iff in Hp. destruct Hp as [Hs Hi].
  unfold sepat in Hs. rewrite nthb_nth_error in Hs. destruct (nth_error v p) as [c|] eqn:Ec; [|discriminate].
  assert (E : firstn (S p) v = firstn p v ++ [c]).
  { rewrite <- (firstn_skipn p v) at 1. rewrite firstn_app.
    rewrite firstn_firstn, Nat.min_r by lia. f_equal.
    rewrite firstn_length, Nat.min_l by lia. replace (S p - p) with 1 by lia.
    rewrite (skipn_nth_cons _ _ _ Ec). reflexivity. }
  rewrite E, count_occ_app. cbn [count_occ]. destruct (N.eq_dec c q) as [->|Hn].
  - unfold is_delim in Hs. apply orb_true_iff in Hs. destruct Hs as [Hs|Hs]; apply N.eqb_eq in Hs; congruence.
  - rewrite Nat.add_0_r. cbn [xorb] in *. destruct (Nat.odd _); [discriminate|reflexivity].
Qed.

Lemma byte_is_skipn v n i c : byte_is (skipn n v) i c = byte_is v (n + i) c.
Proof.
  unfold byte_is. pose proof (nthb_skipn (fun x => N.eqb x c) n v i) as H. rewrite !nthb_nth_error in H. exact H.
Qed.

Lemma cache_shift prev v p w :
  endp v p = true -> (forall i, i < p -> endp v i = false) -> byte_is v p eol = false ->
  p < w -> w <= length v -> w <= p + 64 ->
  (forall i, tb prev i = true -> S p + i < w /\ sepat sep eol v (S p + i) = true) ->
  (forall i, (forall j, j < S p + i -> endp v j = true -> byte_is v j eol = false) ->
      tb prev i = (S p + i <? w) && endp v (S p + i)) ->
  cache_ok prev (skipn (S p) v).
Proof.
  intros Hp Hlow Hneol Hpw Hwl Hw Hs Hb. exists (w - S p). rewrite skipn_length.
  split; [lia|]. split; [lia|]. split.
  - intros i Hi. destruct (Hs _ Hi) as [H1 H2]. split; [lia|].
    unfold sepat in *. rewrite nthb_skipn. exact H2.
  - intros i Hi. rewrite Hb.
    + rewrite endp_after by assumption. f_equal. lia.
    + intros j Hj Hej. destruct (Nat.lt_trichotomy j p) as [H|[H|H]].
      * rewrite Hlow in Hej by assumption. discriminate.
      * subst j. assumption.
      * replace j with (S p + (j - S p)) in * by lia. rewrite endp_after in Hej by assumption.
        rewrite <- byte_is_skipn. apply Hi; [lia|assumption].
Qed.

Lemma raw_row_nonempty st v : fst (raw_row (N.eqb eol) sep q st v) <> [].
Proof.
  destruct v as [|c r]; cbn [raw_row]; [discriminate|].
  assert (H : forall x, fst (cons_first c x) <> []) by (intros [[|f fs] t]; discriminate).
  destruct (N.eqb c q); [apply H|]. destruct st; [apply H|].
  destruct (N.eqb eol c); [discriminate|]. destruct (N.eqb c sep); [discriminate|apply H].
Qed.

(** One call of next(), exactly. *)
Lemma sf_next_cut lanes clmul v prev ne p prev' ne' :
  endp v p = true -> (forall i, i < p -> endp v i = false) ->
  (byte_is v p eol = false -> cache_ok prev' (skipn (S p) v)) ->
  sf_next lanes clmul sep q eol (mkSf v false prev) ne =
    match nth_error v p with
    | None => None
    | Some c => Some (sf_cut (mkSf v false prev) prev' p (N.eqb c eol) ne') end ->
  exists st', sf_next lanes clmul sep q eol (mkSf v false prev) ne
     = Some (Some (hd [] (fst (rr v)), ne'), st') /\
   match tl (fst (rr v)) with
   | [] => sf_finished st' = true /\ sf_v st' = snd (rr v)
   | fs' => sf_finished st' = false /\ cache_ok (sf_prev st') (sf_v st') /\ rr (sf_v st') = (fs', snd (rr v)) /\
            length (sf_v st') < length v
   end.
Proof.
  intros Hp Hlow Hcache ->. pose proof (endp_bound _ _ _ _ _ _ Hp) as Hlt.
  rewrite (raw_row_first sep eol q Hqs Hqe v false p Hp Hlow).
  destruct (nth_error v p) as [c|] eqn:Ec; [|apply nth_error_None in Ec; lia].
  assert (Hbe : byte_is v p eol = N.eqb c eol) by (unfold byte_is; rewrite Ec; reflexivity).
  rewrite Hbe in *. exists (mkSf (skipn (S p) v) (N.eqb c eol) prev'). split.
  { destruct (N.eqb c eol); reflexivity. }
  cbn [sf_finished sf_v sf_prev]. destruct (N.eqb c eol).
  - cbn. split; reflexivity.
  - cbn [fst tl snd]. destruct (fst (rr (skipn (S p) v))) as [|f1 fs1] eqn:Ef.
    + exfalso. exact (raw_row_nonempty _ _ Ef).
    + split; [reflexivity|]. split; [apply Hcache; reflexivity|]. split.
      * rewrite <- Ef. destruct (rr (skipn (S p) v)); reflexivity.
      * rewrite skipn_length. lia.
Qed.

(** Shape of the input relative to its raw fields. *)
Lemma raw_row_join : forall v st, exists tail,
  v = join sep (fst (raw_row (N.eqb eol) sep q st v)) ++ tail /\
  (tail = [] /\ snd (raw_row (N.eqb eol) sep q st v) = [] \/
   tail = eol :: snd (raw_row (N.eqb eol) sep q st v)).
Proof.
  induction v as [|c r IH]; intros st.
  - exists []. split; [reflexivity|]. left. split; reflexivity.
  - assert (Hcf : forall st', exists tail,
      c :: r = join sep (fst (cons_first c (raw_row (N.eqb eol) sep q st' r))) ++ tail /\
      (tail = [] /\ snd (cons_first c (raw_row (N.eqb eol) sep q st' r)) = [] \/
       tail = eol :: snd (cons_first c (raw_row (N.eqb eol) sep q st' r)))).
    { intros st'. destruct (IH st') as (tail & Hv & Ht). exists tail.
      pose proof (raw_row_nonempty st' r) as Hne. unfold cons_first.
      destruct (raw_row (N.eqb eol) sep q st' r) as [fs rest]. cbn [fst snd] in *.
      destruct fs as [|f fs]; [congruence|]. cbn [fst snd]. split; [|assumption].
      rewrite Hv. destruct fs; reflexivity. }
    cbn [raw_row]. destruct (N.eqb c q); [apply Hcf|]. destruct st; [apply Hcf|].
    destruct (N.eqb eol c) eqn:Ee.
    + apply N.eqb_eq in Ee. subst c. exists (eol :: r). split; [reflexivity|right; reflexivity].
    + destruct (N.eqb c sep) eqn:Es; [|apply Hcf].
      apply N.eqb_eq in Es. subst c. destruct (IH false) as (tail & Hv & Ht).
      pose proof (raw_row_nonempty false r) as Hne.
      destruct (raw_row (N.eqb eol) sep q false r) as [fs rest]. cbn [fst snd] in *.
      exists tail. split; [|assumption]. destruct fs as [|f fs]; [congruence|]. rewrite Hv. reflexivity.
Qed.

Lemma endp_sepat v i : endp v i = true -> sepat sep eol v i = true.
Proof. unfold FieldsProof.endp. intros H. apply andb_true_iff in H. apply H. Qed.

Lemma inside_no_quote v i : ~ In q (firstn i v) -> inside_at false q v i = false.
Proof.
  intros H. unfold inside_at, quotes_before. apply (count_occ_not_In N.eq_dec) in H. rewrite H. reflexivity.
Qed.

Lemma endp_split (v : bytes) (p0 : nat) : (exists p, endp v p = true /\ forall i, i < p -> endp v i = false) \/
  (forall i, endp v i = false).
Proof.
  destruct (existsb (FieldsProof.endp sep eol q false v) (seq 0 (length v))) eqn:E.
  - left. apply existsb_exists in E. destruct E as (m & _ & Hm).
    destruct (least _ _ Hm) as (k & _ & H1 & H2). exists k. split; assumption.
  - right. intros i. destruct (endp v i) eqn:Ei; [|reflexivity]. exfalso.
    pose proof (endp_bound _ _ _ _ _ _ Ei).
    assert (existsb (FieldsProof.endp sep eol q false v) (seq 0 (length v)) = true)
      by (apply existsb_exists; exists i; split; [apply in_seq; lia|assumption]). congruence.
Qed.

(** Unquoted field: the first delimiter of any kind is the first unquoted one. *)
Lemma safe_unquoted v : v <> [] -> starts_with q v = false -> safe_row sep eol q (fst (rr v)) ->
  forall k, sepat sep eol v k = true -> (forall i, i < k -> sepat sep eol v i = false) ->
  endp v k = true /\
  (byte_is v k eol = false -> forall i, i < 63 ->
    (forall j, j < S k + i -> endp v j = true -> byte_is v j eol = false) ->
    sepat sep eol v (S k + i) = endp v (S k + i)).
Proof.
  intros Hne Hst Hsafe k Hk Hlow.
  (* the first raw field *)
  destruct (fst (rr v)) as [|f post] eqn:Ef; [exfalso; exact (raw_row_nonempty _ _ Ef)|].
  assert (Hsf : starts_with q f = false).
  { destruct (endp_split v 0) as [(p & Hp & Hpl)|Hn].
    - rewrite (raw_row_first sep eol q Hqs Hqe v false p Hp Hpl) in Ef.
      assert (f = firstn p v) by (destruct (byte_is v p eol); cbn in Ef; congruence). subst f.
      destruct v as [|c r]; [congruence|]. destruct p; [reflexivity|]. exact Hst.
    - rewrite (raw_row_none sep eol q v false) in Ef by (intros; apply Hn).
      cbn in Ef. injection Ef as <- _. assumption. }
  destruct (Hsafe [] f post eq_refl Hsf) as [Hnq Hnd].
  assert (Hke : endp v k = true).
  { unfold FieldsProof.endp. rewrite Hk. cbn [andb].
    destruct (endp_split v 0) as [(p & Hp & Hpl)|Hn].
    - rewrite (raw_row_first sep eol q Hqs Hqe v false p Hp Hpl) in Ef.
      assert (f = firstn p v) by (destruct (byte_is v p eol); cbn in Ef; congruence). subst f.
      pose proof (endp_sepat _ _ Hp) as Hps.
      assert (k <= p) by (destruct (Nat.le_gt_cases k p); [assumption|]; rewrite Hlow in Hps by assumption; discriminate).
      rewrite inside_no_quote; [reflexivity|]. intros Hin. apply Hnq.
      replace (firstn k v) with (firstn k (firstn p v)) in Hin by (rewrite firstn_firstn; f_equal; lia).
      rewrite <- (firstn_skipn k (firstn p v)). apply in_or_app. left. assumption.
    - rewrite (raw_row_none sep eol q v false) in Ef by (intros; apply Hn).
      cbn in Ef. injection Ef as <- _. rewrite inside_no_quote; [reflexivity|].
      intros Hin. apply Hnq. rewrite <- (firstn_skipn k v). apply in_or_app. left. assumption. }
  split; [assumption|]. intros Hneol i Hi Hrow.
  assert (Hkl : forall j, j < k -> endp v j = false).
  { intros j Hj. unfold FieldsProof.endp. rewrite Hlow by assumption. reflexivity. }
  rewrite (raw_row_first sep eol q Hqs Hqe v false k Hke Hkl), Hneol in Ef. cbn [fst] in Ef.
  apply (f_equal (@tl _)) in Ef. cbn [tl] in Ef. rename Ef into Epost. rewrite endp_after by assumption.
  set (v' := skipn (S k) v) in *.
  assert (Hs' : sepat sep eol v (S k + i) = sepat sep eol v' i)
    by (unfold sepat, v'; rewrite nthb_skipn; reflexivity).
  rewrite Hs'. unfold FieldsProof.endp. destruct (sepat sep eol v' i) eqn:Es; [|reflexivity]. cbn [andb].
  destruct (inside_at false q v' i) eqn:Ein; [|reflexivity]. exfalso. apply Hnd.
  destruct (raw_row_join v' false) as (tail & Hv' & Ht). rewrite Epost in Hv'.
  assert (Hjl : i < length (join sep post)).
  { destruct (Nat.lt_ge_cases i (length (join sep post))) as [H|H]; [assumption|exfalso].
    destruct Ht as [[-> Hr]|Ht].
    - pose proof (sepat_bound _ _ _ _ Es). rewrite Hv', app_length in H0. cbn in H0. lia.
    - (* the row ended before i, at an unquoted eol *)
      set (e := length (join sep post)) in *.
      assert (Hnth : nth_error v' e = Some eol).
      { rewrite Hv', Ht. rewrite nth_error_app2 by (unfold e; lia). unfold e. rewrite Nat.sub_diag. reflexivity. }
      assert (Hend : endp v' e = true).
      { unfold FieldsProof.endp. assert (sepat sep eol v' e = true).
        { unfold sepat. rewrite nthb_nth_error, Hnth. unfold is_delim. rewrite N.eqb_refl, orb_true_r. reflexivity. }
        rewrite H0. cbn [andb]. destruct (inside_at false q v' e) eqn:Eie; [exfalso|reflexivity].
        (* raw_row stopped at e although e is inside quotes: contradiction *)
        assert (Hst2 : forall u s, inside_at s q u (length (join sep (fst (raw_row (N.eqb eol) sep q s u)))) = true ->
           length (join sep (fst (raw_row (N.eqb eol) sep q s u))) < length u -> False).
        { clear - Hqs. induction u as [|c r IHu]; intros s Hin Hlen; [cbn in Hlen; lia|].
          pose proof (raw_row_nonempty) as Hne.
          assert (Hcf : forall s', s' = xorb s (N.eqb c q) ->
            inside_at s q (c :: r) (length (join sep (fst (cons_first c (raw_row (N.eqb eol) sep q s' r))))) = true ->
            length (join sep (fst (cons_first c (raw_row (N.eqb eol) sep q s' r)))) < length (c :: r) -> False).
          { intros s' Es' H1 H2. specialize (Hne s' r). unfold cons_first in H1, H2.
            destruct (raw_row (N.eqb eol) sep q s' r) as [fs rest] eqn:Er. cbn [fst snd] in *.
            destruct fs as [|f fs]; [congruence|]. cbn [fst] in *.
            assert (Hlj : length (join sep ((c :: f) :: fs)) = S (length (join sep (f :: fs)))) by (destruct fs; reflexivity).
            rewrite Hlj in *. rewrite inside_at_S, <- Es' in H1.
            apply (IHu s'); rewrite Er; cbn [fst]; [assumption|cbn [length] in H2; lia]. }
          cbn [raw_row] in Hin, Hlen. destruct (N.eqb c q) eqn:Ec.
          - apply (Hcf (negb s)) in Hin; [assumption|destruct s; reflexivity|assumption].
          - destruct s.
            + apply (Hcf true) in Hin; [assumption|reflexivity|assumption].
            + destruct (N.eqb eol c).
              * cbn in Hin. discriminate.
              * destruct (N.eqb c sep).
                -- cbn [fst] in Hin, Hlen. specialize (Hne false r).
                   destruct (raw_row (N.eqb eol) sep q false r) as [fs rest] eqn:Er. cbn [fst] in *.
                   destruct fs as [|f fs]; [congruence|].
                   change (join sep ([] :: f :: fs)) with (sep :: join sep (f :: fs)) in *.
                   cbn [length] in *. rewrite inside_at_S, Ec in Hin. cbn [xorb] in Hin.
                   apply (IHu false); rewrite Er; cbn [fst]; [assumption|lia].
                -- apply (Hcf false) in Hin; [assumption|reflexivity|assumption]. }
        apply (Hst2 v' false); rewrite Epost; fold e; [assumption|].
        apply nth_error_Some. rewrite Hnth. discriminate. }
      destruct (Nat.eq_dec i e) as [->|Hne2].
      + unfold FieldsProof.endp in Hend. rewrite Ein, andb_false_r in Hend. discriminate.
      + assert (Hb : byte_is v (S k + e) eol = false).
        { apply Hrow; [lia|]. rewrite endp_after by assumption. exact Hend. }
        rewrite <- byte_is_skipn in Hb. fold v' in Hb. unfold byte_is in Hb. rewrite Hnth, N.eqb_refl in Hb. discriminate. }
  exists i. split.
  - assert (Hn : nth_error (firstn 63 (join sep post)) i = nth_error v' i).
    { rewrite nth_error_firstn_lt by assumption. rewrite Hv' at 1. rewrite nth_error_app1 by assumption. reflexivity. }
    unfold byte_is. rewrite Hn. unfold sepat in Es. rewrite nthb_nth_error in Es.
    destruct (nth_error v' i); [|discriminate]. apply orb_true_iff in Es. exact Es.
  - rewrite (inside_at_firstn sep q) by lia. rewrite Hv' in Ein at 1.
    rewrite inside_at_prefix in Ein by lia. assumption.
Qed.
End Exact.
