(** Row-end search, chunking, linking. *)
From Verif Require Import Base WordsModel WordsProof ChunkSpec ChunkModel ChunkProof.

Lemma row_end_scan_step limit q c rest off inq :
  row_end_scan limit q (c :: rest) off inq =
  if match limit with Some a => off <? a | None => true end then
    if N.eqb c q then
      if inq && next_is q rest then row_end_scan limit q (tl rest) (off + 2) inq
      else row_end_scan limit q rest (off + 1) (negb inq)
    else if negb inq then
      if N.eqb c LF then Found (off + 1)
      else if N.eqb c CR then
        if next_is LF rest then Found (off + 2) else Found (off + 1)
      else row_end_scan limit q rest (off + 1) inq
    else row_end_scan limit q rest (off + 1) inq
  else Cont (c :: rest) off inq.
Proof. destruct rest as [|c' rest], inq; reflexivity. Qed.

Definition first_end (E : list nat) (dflt : nat) : nat :=
  match E with [] => dflt | e :: _ => S e end.

Lemma ends_step st q c r off nxt :
  ends st q (c :: r) off nxt =
  if N.eqb c q then ends (negb st) q r (S off) nxt
  else (if negb st && is_eol c (nx_of r nxt) then [off] else []) ++ ends st q r (S off) nxt.
Proof. reflexivity. Qed.

Lemma row_end_scan_spec limit q : q <> LF -> q <> CR -> forall l off inq,
  match row_end_scan limit q l off inq with
  | Found p => exists e r, ends inq q l off None = e :: r /\ p = S e
  | Cont l' off' inq' =>
      (exists pre, l = pre ++ l' /\ off' = off + length pre) /\
      ends inq q l off None = ends inq' q l' off' None /\
      (limit = None -> l' = [])
  end.
Proof.
  intros Hlf Hcr.
  induction l as [|c|c c' l IH1 IH2] using list_two_ind; intros off inq.
  - assert (Hnil : row_end_scan limit q [] off inq = Cont [] off inq).
    { cbn [row_end_scan]. destruct (match limit with Some a => off <? a | None => true end); reflexivity. }
    rewrite Hnil. (split; [exists []; split; [reflexivity|cbn; lia]|split; auto]).
  - rewrite row_end_scan_step.
    destruct (match limit with Some a => off <? a | None => true end) eqn:El.
    2:{ split; [exists []; split; [reflexivity|cbn; lia]|split; [reflexivity|]].
        intros ->. discriminate. }
    cbn [next_is tl]. rewrite andb_false_r.
    assert (Hnil : forall o i, row_end_scan limit q [] o i = Cont [] o i).
    { intros; cbn [row_end_scan]. destruct (match limit with Some a => o <? a | None => true end); reflexivity. }
    rewrite !Hnil. cbn [ends nx_of].
    unfold is_eol. cbn [negb]. rewrite andb_true_r.
    destruct (N.eqb c q).
    + split; [exists [c]; split; [reflexivity|cbn; lia]|split; auto].
    + destruct (negb inq); cbn [andb app].
      * destruct (N.eqb c LF); cbn [orb].
        { exists off, []. split; [reflexivity|lia]. }
        destruct (N.eqb c CR).
        { exists off, []. split; [reflexivity|lia]. }
        split; [exists [c]; split; [reflexivity|cbn; lia]|split; auto].
      * split; [exists [c]; split; [reflexivity|cbn; lia]|split; auto].
  - rewrite row_end_scan_step.
    destruct (match limit with Some a => off <? a | None => true end) eqn:El.
    2:{ split; [exists []; split; [reflexivity|cbn; lia]|split; [reflexivity|]].
        intros ->. discriminate. }
    cbn [next_is tl].
    assert (K1 : forall o i, o = off + 1 -> ends inq q (c :: c' :: l) off None = ends i q (c' :: l) o None ->
      match row_end_scan limit q (c' :: l) o i with
      | Found p => exists e r, ends inq q (c :: c' :: l) off None = e :: r /\ p = S e
      | Cont l' off' inq' =>
          (exists pre, c :: c' :: l = pre ++ l' /\ off' = off + length pre) /\
          ends inq q (c :: c' :: l) off None = ends inq' q l' off' None /\
          (limit = None -> l' = [])
      end).
    { intros o i -> He. specialize (IH2 (off + 1) i). destruct (row_end_scan limit q (c' :: l) (off + 1) i).
      - rewrite He. exact IH2.
      - destruct IH2 as [(pre & Hp & Ho) [Hx Hy]]. split; [|split; [rewrite He; exact Hx|exact Hy]].
        exists (c :: pre). split; [cbn; rewrite <- Hp; reflexivity|cbn; lia]. }
    destruct (N.eqb c q) eqn:Ec.
    + destruct (inq && N.eqb c' q) eqn:Ex.
      * apply andb_true_iff in Ex as [-> Ec'].
        assert (He : ends true q (c :: c' :: l) off None = ends true q l (off + 2) None).
        { rewrite ends_step, Ec, ends_step, Ec'. cbn [negb]. f_equal. lia. }
        specialize (IH1 (off + 2) true). destruct (row_end_scan limit q l (off + 2) true).
        -- rewrite He. exact IH1.
        -- destruct IH1 as [(pre & Hp & Ho) [Hx Hy]]. split; [|split; [rewrite He; exact Hx|exact Hy]].
           exists (c :: c' :: pre). split; [cbn; rewrite <- Hp; reflexivity|cbn; lia].
      * apply K1; [reflexivity|]. rewrite ends_step, Ec. f_equal. lia.
    + destruct inq; cbn [negb].
      * apply K1; [reflexivity|]. rewrite ends_step, Ec. cbn [negb andb app]. f_equal. lia.
      * rewrite ends_step, Ec, is_eol_cons. cbn [negb andb next_is].
        destruct (N.eqb c LF) eqn:Elf; cbn [orb app].
        { exists off. eexists. split; [reflexivity|lia]. }
        destruct (N.eqb c CR) eqn:Ecr; cbn [andb].
        { destruct (N.eqb c' LF) eqn:Elf'; cbn [negb app].
          - apply N.eqb_eq in Elf'. subst c'. rewrite ends_step.
            assert (Hq : N.eqb LF q = false) by (apply N.eqb_neq; congruence).
            rewrite Hq. unfold is_eol. rewrite N.eqb_refl. cbn [negb orb andb app].
            exists (S off). eexists. split; [reflexivity|lia].
          - exists off. eexists. split; [reflexivity|lia]. }
        cbn [app]. replace (S off) with (off + 1) by lia.
        assert (He : ends false q (c :: c' :: l) off None = ends false q (c' :: l) (off + 1) None).
        { rewrite ends_step, Ec, is_eol_cons, Elf, Ecr. cbn [negb andb orb app]. f_equal. lia. }
        rewrite <- He. apply K1; [reflexivity|exact He].
Qed.

Lemma find_row_end_scalar_ends data start q : q <> LF -> q <> CR ->
  find_row_end_scalar data start q =
  first_end (ends false q (skipn start data) start None) (length data).
Proof.
  intros H1 H2. unfold find_row_end_scalar.
  pose proof (row_end_scan_spec None q H1 H2 (skipn start data) start false) as H.
  destruct (row_end_scan None q (skipn start data) start false).
  - destruct H as (e & r & He & ->). rewrite He. reflexivity.
  - destruct H as [_ [He Hn]]. rewrite He, (Hn eq_refl). reflexivity.
Qed.

Lemma row_end_blocks_step fuel lanes clmul q size l off state : 64 <= length l ->
  row_end_blocks (S fuel) lanes clmul q size l off state =
  match block_masks lanes q l with
  | None => None
  | Some (qb, nb, cb) =>
      let '(eol, state') := block_valid_eol clmul qb nb cb state l in
      if N.eqb eol 0 then
        row_end_blocks fuel lanes clmul q size (skipn 64 l) (off + 64) state'
      else
        let k := ctz eol in
        match skipn k l with
        | c :: rest =>
            if N.eqb c LF then Some (off + k + 1)
            else if next_is LF rest then Some (off + k + 2)
            else Some (off + k + 1)
        | [] => None
        end
  end.
Proof. intros H. apply Nat.leb_le in H. cbn [row_end_blocks]. rewrite H. reflexivity. Qed.

Lemma skipn_nth_cons {A} (l : list A) k c : nth_error l k = Some c -> skipn k l = c :: skipn (S k) l.
Proof.
  revert l; induction k as [|k IH]; intros [|x l] H; try discriminate.
  - cbn in H. injection H as ->. reflexivity.
  - cbn [skipn]. apply IH. exact H.
Qed.

Lemma row_end_blocks_spec lanes clmul q size : lanes_ok lanes -> q <> LF -> q <> CR ->
  forall fuel l off st, length l <= fuel ->
  row_end_blocks fuel lanes clmul q size l off (st_word st) =
  Some (first_end (ends st q l off None) size).
Proof.
  intros [Hl1 Hl2] Hlf Hcr. induction fuel as [|fuel IH]; intros l off st Hf.
  - destruct l; [|cbn in Hf; lia]. reflexivity.
  - destruct (Nat.le_gt_cases 64 (length l)) as [Hlen|Hlen].
    + rewrite row_end_blocks_step by assumption. rewrite block_masks_ok by assumption.
      pose proof (block_valid_eol_spec clmul q l st Hlf Hcr Hlen) as H.
      destruct (block_valid_eol _ _ _ _ _ _) as [eol state'].
      destruct H as (H1 & H2 & ->).
      rewrite (ends_block_split st q l off Hlen), <- H1.
      destruct (N.eqb_spec eol 0) as [->|Hz].
      * rewrite IH by (rewrite skipn_length; lia).
        rewrite (filter_ext_seq _ (fun _ => false)) by (intros; apply tb_0). reflexivity.
      * destruct (ctz_spec eol Hz) as [Hc1 Hc2].
        assert (Hk : ctz eol < 64) by (apply (ctz_lt eol 64); assumption).
        destruct (filter_seq_low (tb eol) (ctz eol) 64 Hk Hc1) as [p Hp]; [exact Hc2|].
        rewrite Hp in *. cbn [map app first_end].
        destruct (nth_blk q l Hlen (ctz eol) Hk) as [m Hm].
        cbv zeta. rewrite (skipn_nth_cons _ _ _ Hm), next_is_nth.
        assert (Hin : eol_at (firstn 64 l) (nx_of (skipn 64 l) None) (ctz eol) = true).
        { rewrite ends_filter in H1 by assumption.
          assert (Hin : In (ctz eol) (ctz eol :: p)) by (left; reflexivity).
          rewrite H1 in Hin. apply filter_In in Hin as [_ Hin].
          apply andb_true_iff in Hin as [Hin _]. exact Hin. }
        pose proof (eol_bits_generic l (ctz eol) m true Hlen Hk Hm) as Hg.
        rewrite Hin in Hg. rewrite !andb_true_r in Hg.
        destruct (N.eqb m LF); [f_equal; lia|]. cbn [orb] in Hg.
        apply andb_true_iff in Hg as [_ Hg]. apply negb_true_iff in Hg. rewrite Hg. f_equal. lia.
    + cbn [row_end_blocks]. replace (64 <=? length l) with false by lia.
      rewrite st_word_eqb.
      pose proof (row_end_scan_spec None q Hlf Hcr l off st) as H.
      destruct (row_end_scan None q l off st).
      * destruct H as (e & r & He & ->). rewrite He. reflexivity.
      * destruct H as [_ [He Hn]]. rewrite He, (Hn eq_refl). reflexivity.
Qed.

Lemma find_row_end_simd_ends lanes clmul data start q : lanes_ok lanes -> q <> LF -> q <> CR ->
  find_row_end_simd lanes clmul data start q =
  Some (first_end (ends false q (skipn start data) start None) (length data)).
Proof.
  intros Hl Hlf Hcr. unfold find_row_end_simd.
  destruct (Nat.leb_spec (length data) start).
  - rewrite skipn_all2 by assumption. reflexivity.
  - cbv zeta. set (al := if _ <? _ then _ else _).
    pose proof (row_end_scan_spec (Some al) q Hlf Hcr (skipn start data) start false) as H'.
    destruct (row_end_scan (Some al) q (skipn start data) start false) as [p|l off inq].
    + destruct H' as (e & r & He & ->). rewrite He. reflexivity.
    + destruct H' as [(pre & Hp & Ho) [He _]]. fold (st_word inq).
      rewrite row_end_blocks_spec, He; try assumption; [reflexivity|].
      assert (Hll : length (skipn start data) = length pre + length l) by (rewrite Hp, app_length; reflexivity).
      rewrite skipn_length in Hll. lia.
Qed.

Lemma spec_find_row_end_ends data start q : q <> LF -> q <> CR ->
  spec_find_row_end q data start =
  first_end (ends false q (skipn start data) start None) (length data).
Proof.
  intros H1 H2. unfold spec_find_row_end. rewrite row_ends_ends by assumption.
  rewrite (ends_shift false q _ start).
  destruct (ends false q (skipn start data) 0 None); cbn; [reflexivity|lia].
Qed.

Lemma find_row_end_spec lanes clmul q data start : lanes_ok lanes -> q <> LF -> q <> CR ->
  find_row_end lanes clmul q data start = Some (spec_find_row_end q data start).
Proof.
  intros Hl H1 H2. unfold find_row_end. rewrite spec_find_row_end_ends by assumption.
  destruct (64 <=? length data - start).
  - apply find_row_end_simd_ends; assumption.
  - rewrite find_row_end_scalar_ends by assumption. reflexivity.
Qed.

Lemma row_ends_bound st q data i : In i (row_ends st q data) -> i < length data.
Proof. intros H. apply filter_In in H as [H _]. apply in_seq in H. lia. Qed.

Lemma spec_find_row_end_bounds q data start : start < length data ->
  start < spec_find_row_end q data start <= length data.
Proof.
  intros H. unfold spec_find_row_end.
  destruct (row_ends false q (skipn start data)) as [|i r] eqn:E; [lia|].
  assert (Hi : i < length (skipn start data)) by (apply (row_ends_bound false q); rewrite E; left; reflexivity).
  rewrite skipn_length in Hi. lia.
Qed.

Lemma spec_find_row_end_out q data start : length data <= start ->
  spec_find_row_end q data start = length data.
Proof. intros H. unfold spec_find_row_end. rewrite skipn_all2 by assumption. reflexivity. Qed.

(** ** chunking *)
Definition fre_ok (fre : nat -> option nat) (size : nat) : Prop :=
  forall s, s < size -> exists e, fre s = Some e /\ s < e <= size.

Lemma fre_ok_find_row_end lanes clmul q data : lanes_ok lanes -> q <> LF -> q <> CR ->
  fre_ok (find_row_end lanes clmul q data) (length data).
Proof.
  intros Hl H1 H2 s Hs. exists (spec_find_row_end q data s).
  rewrite find_row_end_spec by assumption. split; [reflexivity|]. apply spec_find_row_end_bounds. exact Hs.
Qed.

(** The end chosen for a chunk, in closed form: the "stuck" loop never runs. *)
Lemma chunk_end_ok fre chunk size off : fre_ok fre size -> off < size ->
  chunk_end fre chunk size off = (if off + chunk <? size then fre (off + chunk) else Some size) /\
  exists e, chunk_end fre chunk size off = Some e /\ off < e <= size.
Proof.
  intros H Ho. unfold chunk_end. cbv zeta.
  destruct (Nat.ltb_spec (off + chunk) size) as [Hlt|Hge].
  - rewrite Nat.min_l by lia. replace (off + chunk <? size) with true by lia.
    destruct (H (off + chunk) Hlt) as (e & He & Hb). rewrite He.
    assert (Hx : extend_target (S size) fre chunk size (off + chunk) e = Some e).
    { cbn [extend_target]. replace (e =? off + chunk) with false by lia. reflexivity. }
    rewrite Hx. split; [reflexivity|]. exists e. split; [reflexivity|lia].
  - rewrite Nat.min_r by lia. rewrite Nat.ltb_irrefl. split; [reflexivity|]. exists size. split; [reflexivity|lia].
Qed.

Lemma chunk_ranges_loop_tiles fre chunk size : fre_ok fre size ->
  forall fuel off, off <= size -> size - off <= fuel ->
  exists rs, chunk_ranges_loop fuel fre chunk size off = Some rs /\ tiles off size rs.
Proof.
  intros H. induction fuel as [|fuel IH]; intros off Ho Hf; cbn [chunk_ranges_loop].
  - replace (off <? size) with false by lia. exists []. split; [reflexivity|]. cbn. lia.
  - destruct (Nat.ltb_spec off size) as [Hlt|Hge].
    + destruct (chunk_end_ok fre chunk size off H Hlt) as [_ (e & He & Hb)].
      rewrite He. destruct (IH e) as (rs & Hr & Ht); [lia|lia|].
      rewrite Hr. exists ((off, e) :: rs). split; [reflexivity|]. cbn. repeat split; lia || assumption.
    + exists []. split; [reflexivity|]. cbn. lia.
Qed.

Lemma chunk_ranges_tiles lanes clmul q data start chunk : lanes_ok lanes -> q <> LF -> q <> CR ->
  start <= length data ->
  exists rs, chunk_ranges lanes clmul q data start chunk = Some rs /\ tiles start (length data) rs.
Proof.
  intros Hl H1 H2 Hs. apply chunk_ranges_loop_tiles; [|assumption|lia].
  apply fre_ok_find_row_end; assumption.
Qed.

(** Every interior boundary is the end returned by a row-end search. *)
Lemma chunk_ranges_loop_ends fre chunk size : fre_ok fre size ->
  forall fuel off rs, chunk_ranges_loop fuel fre chunk size off = Some rs ->
  forall s e, In (s, e) rs -> e = size \/ (s + chunk < size /\ fre (s + chunk) = Some e).
Proof.
  intros H. induction fuel as [|fuel IH]; intros off rs Hr s e Hin; cbn [chunk_ranges_loop] in Hr.
  - destruct (off <? size); [discriminate|]. injection Hr as <-. destruct Hin.
  - destruct (Nat.ltb_spec off size) as [Hlt|Hge].
    + destruct (chunk_end_ok fre chunk size off H Hlt) as [Hc (e' & He & Hb)].
      rewrite He in Hr. destruct (chunk_ranges_loop fuel fre chunk size e') as [r|] eqn:Er; [|discriminate].
      injection Hr as <-. destruct Hin as [Hin|Hin].
      * injection Hin as <- <-. rewrite He in Hc.
        destruct (Nat.ltb_spec (off + chunk) size); [right; split; [lia|symmetry; exact Hc]|left; congruence].
      * eapply IH; eassumption.
    + injection Hr as <-. destruct Hin.
Qed.

(** ** row counts stored in the boundaries *)
Lemma chunk_row_count_ok fre stop : fre_ok fre stop ->
  forall fuel pos rows, pos <= stop -> stop - pos <= fuel ->
  exists n, chunk_row_count fuel fre stop pos rows = Some n.
Proof.
  intros H. induction fuel as [|fuel IH]; intros pos rows Hp Hf; cbn [chunk_row_count].
  - replace (pos <? stop) with false by lia. eauto.
  - destruct (Nat.ltb_spec pos stop); [|eauto].
    destruct (H pos) as (e & He & Hb); [assumption|]. rewrite He.
    replace (pos <? e) with true by lia. apply IH; lia.
Qed.

Lemma tiles_in a b rs : tiles a b rs -> forall s e, In (s, e) rs -> a <= s /\ s < e /\ e <= b.
Proof.
  revert a; induction rs as [|[s' e'] rs IH]; intros a Ht s e Hin; [destruct Hin|].
  cbn in Ht. destruct Ht as (-> & H1 & H2 & H3). destruct Hin as [Hin|Hin].
  - injection Hin as <- <-. lia.
  - specialize (IH _ H3 _ _ Hin). lia.
Qed.

Lemma map_option_total {A B} (f : A -> option B) (P : A -> B -> Prop) l :
  (forall x, In x l -> exists y, f x = Some y /\ P x y) ->
  exists ys, map_option f l = Some ys /\ Forall2 P l ys.
Proof.
  induction l as [|x l IH]; intros H.
  - exists []. split; [reflexivity|constructor].
  - destruct (H x (or_introl eq_refl)) as (y & Hy & Py).
    destruct IH as (ys & Hys & Pys); [intros; apply H; right; assumption|].
    exists (y :: ys). cbn. rewrite Hy, Hys. split; [reflexivity|constructor; assumption].
Qed.

Lemma find_chunks_ok lanes clmul q data target : lanes_ok lanes -> q <> LF -> q <> CR ->
  exists bs, find_chunks lanes clmul q data target = Some bs /\
    tiles 0 (length data) (map (fun b => (b_start b, b_end b)) bs).
Proof.
  intros Hl H1 H2. unfold find_chunks.
  destruct (chunk_ranges_tiles lanes clmul q data 0 target Hl H1 H2) as (rs & Hr & Ht); [lia|].
  rewrite Hr.
  match goal with |- context [map_option ?f rs] => set (g := f) end.
  destruct (map_option_total g (fun r b => r = (b_start b, b_end b)) rs) as (bs & Hb & HF).
  - intros [s e] Hin. destruct (tiles_in _ _ _ Ht _ _ Hin) as (Ha & Hb & Hc).
    assert (He : length (firstn e data) = e) by (rewrite firstn_length; lia).
    destruct (chunk_row_count_ok (find_row_end lanes clmul q (firstn e data)) e) with
        (fuel := S (length data)) (pos := s) (rows := 0) as [n Hn].
    + rewrite <- He at 2. apply fre_ok_find_row_end; assumption.
    + lia.
    + lia.
    + exists (mkBoundary s e n). unfold g. rewrite Hn. split; reflexivity.
  - exists bs. split; [exact Hb|].
    replace (map (fun b => (b_start b, b_end b)) bs) with rs; [exact Ht|].
    clear -HF. induction HF; cbn; congruence.
Qed.
