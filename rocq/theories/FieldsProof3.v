(** Exactness of the SplitFields iterator (continued), unquoting round trip. *)
From Verif Require Import Base WordsModel WordsProof ChunkSpec ChunkModel ChunkProof ChunkProof2 ChunkProof3
  FieldsSpec FieldsModel FieldsProof FieldsProof2.

Section Exact.
Variables sep eol q : byte.
Hypothesis Hqs : q <> sep.
Hypothesis Hqe : q <> eol.
Hypothesis Hq0 : q <> 0%N.
Notation endp := (endp sep eol q false).
Notation rr := (raw_row (N.eqb eol) sep q false).

Definition flag_ok (f : bytes) (ne : bool) : Prop := f <> [] -> ne = starts_with q f.

Definition next_exact (v : bytes) (r : option (sf_out * sf)) : Prop :=
  exists ne' st', r = Some (Some (hd [] (fst (rr v)), ne'), st') /\
   flag_ok (hd [] (fst (rr v))) ne' /\
   match tl (fst (rr v)) with
   | [] => sf_finished st' = true /\ sf_v st' = snd (rr v)
   | fs' => sf_finished st' = false /\ cache_ok sep eol q (sf_prev st') (sf_v st') /\
            rr (sf_v st') = (fs', snd (rr v)) /\ length (sf_v st') < length v
   end.

Lemma first_field v p : endp v p = true -> (forall i, i < p -> endp v i = false) ->
  hd [] (fst (rr v)) = firstn p v.
Proof.
  intros Hp Hl. rewrite (raw_row_first sep eol q Hqs Hqe v false p Hp Hl).
  destruct (byte_is v p eol); reflexivity.
Qed.

Lemma starts_with_firstn p v : firstn p v <> [] -> starts_with q v = starts_with q (firstn p v).
Proof. destruct p, v; cbn; congruence. Qed.

Lemma next_exact_cut lanes clmul v prev ne p prev' ne' :
  endp v p = true -> (forall i, i < p -> endp v i = false) ->
  (byte_is v p eol = false -> cache_ok sep eol q prev' (skipn (S p) v)) ->
  ne' = starts_with q v ->
  sf_next lanes clmul sep q eol (mkSf v false prev) ne =
    match nth_error v p with
    | None => None
    | Some c => Some (sf_cut (mkSf v false prev) prev' p (N.eqb c eol) ne') end ->
  next_exact v (sf_next lanes clmul sep q eol (mkSf v false prev) ne).
Proof.
  intros Hp Hl Hc Hne Hn.
  destruct (sf_next_cut sep eol q Hqs Hqe lanes clmul v prev ne p prev' ne' Hp Hl Hc Hn) as (st' & Hr & Hm).
  exists ne', st'. split; [assumption|]. split; [|assumption].
  unfold flag_ok. rewrite (first_field v p Hp Hl). intros Hf. rewrite Hne. apply starts_with_firstn. assumption.
Qed.

Lemma next_exact_finish v prev ne' st : (forall i, endp v i = false) ->
  sf_v st = v -> flag_ok v ne' ->
  next_exact v (Some (sf_finish st prev ne')).
Proof.
  intros Hn Hv Hf. unfold next_exact. rewrite (raw_row_none sep eol q v false) by (intros; apply Hn).
  cbn [fst hd tl snd]. exists ne', (mkSf [] true prev). unfold sf_finish. rewrite Hv.
  repeat split. assumption.
Qed.

Lemma sf_next_exact lanes clmul v prev ne : lanes_ok lanes -> cache_ok sep eol q prev v ->
  safe_row sep eol q (fst (rr v)) ->
  next_exact v (sf_next lanes clmul sep q eol (mkSf v false prev) ne).
Proof.
  intros Hl Hc Hsafe. destruct (N.eq_dec prev 0) as [E0|E0].
  - subst prev. destruct v as [|c0 r0] eqn:Ev.
    + apply next_exact_finish; [|reflexivity|].
      * intros i. unfold FieldsProof.endp, sepat, nthb. destruct i; reflexivity.
      * intros H. congruence.
    + rewrite <- Ev in *. assert (Hv : v <> []) by (rewrite Ev; discriminate).
      assert (Hsw : starts_with q v = N.eqb c0 q) by (rewrite Ev; reflexivity).
      assert (Hnext : sf_next lanes clmul sep q eol (mkSf v false 0) ne =
        match (if starts_with q v then scan_quoted (length v) lanes clmul sep q eol v 0 true
               else scan_unquoted (length v) lanes sep eol v 0) with
        | None => None
        | Some (p, np) =>
            let prev := match np with Some x => x | None => 0%N end in
            match p with
            | None => Some (sf_finish (mkSf v false 0) prev (starts_with q v))
            | Some pos =>
                if length v <=? pos then Some (sf_finish (mkSf v false 0) prev (starts_with q v))
                else match nth_error v pos with
                     | None => None
                     | Some c => Some (sf_cut (mkSf v false 0) prev pos (N.eqb c eol) (starts_with q v))
                     end
            end
        end).
      { rewrite Hsw. clear Hv Hsafe Hc Hsw. subst v. unfold sf_next. cbn [sf_finished sf_prev sf_v].
        replace (N.eqb q 0) with false by (symmetry; apply N.eqb_neq; assumption).
        reflexivity. }
      destruct (starts_with q v) eqn:Esw.
      * destruct (scan_quoted_ok sep eol q Hqs Hqe lanes clmul Hl (length v) v 0 true) as (res & Hr & Hok); [lia|].
        rewrite Hr in Hnext. destruct res as [[x|] np]; cbn [scan_ok negb] in Hok.
        -- destruct Hok as (k & -> & Hk & Hlow & Hnp). cbn [Nat.add] in *.
           pose proof (endp_bound _ _ _ _ _ _ Hk) as Hkl.
           replace (length v <=? k) with false in Hnext by lia. cbv zeta in Hnext.
           eapply next_exact_cut with (prev' := match np with Some x => x | None => 0%N end); [exact Hk|exact Hlow| |symmetry; exact Esw|exact Hnext].
           intros Hneol. destruct Hnp as [Enp|(m & w & Enp & H1 & H2 & H3 & H4)]; rewrite Enp; [apply cache_ok_0; assumption|].
           apply (cache_shift sep eol q Hqs Hqe m v k w); try assumption; [lia| |intros i _; apply H4].
           intros i Hi. rewrite H4 in Hi. apply andb_true_iff in Hi. destruct Hi as [Hi1 Hi2].
           split; [lia|]. apply (endp_sepat sep eol q). assumption.
        -- destruct Hok as [-> Hok]. cbv zeta in Hnext. rewrite Hnext.
           apply next_exact_finish; [assumption|reflexivity|]. intros _. symmetry. assumption.
      * destruct (scan_unquoted_ok sep eol q lanes Hl (length v) v 0) as (res & Hr & Hok); [lia|].
        rewrite Hr in Hnext. destruct res as [[x|] np]; cbn [scan_ok negb] in Hok.
        -- destruct Hok as (k & -> & Hk & Hlow & Hnp). cbn [Nat.add] in *.
           pose proof (sepat_bound _ _ _ _ Hk) as Hkl.
           replace (length v <=? k) with false in Hnext by lia. cbv zeta in Hnext.
           destruct (safe_unquoted sep eol q Hqs Hqe v Hv Esw Hsafe k Hk Hlow) as [Hke Hsame].
           assert (Hlow' : forall i, i < k -> endp v i = false).
           { intros i Hi. unfold FieldsProof.endp. rewrite Hlow by assumption. reflexivity. }
           eapply next_exact_cut with (prev' := match np with Some x => x | None => 0%N end); [exact Hke|exact Hlow'| |symmetry; exact Esw|exact Hnext].
           intros Hneol. destruct Hnp as [Enp|(m & w & Enp & H1 & H2 & H3 & H4)]; rewrite Enp; [apply cache_ok_0; assumption|].
           apply (cache_shift sep eol q Hqs Hqe m v k w); try assumption; [lia| |].
           { intros i Hi. rewrite H4 in Hi. apply andb_true_iff in Hi. destruct Hi as [Hi1 Hi2].
             split; [lia|assumption]. }
           intros i Hi. rewrite H4. change (S (k + i)) with (S k + i). destruct (Nat.ltb_spec (S k + i) w); [|reflexivity]. cbn [andb].
           apply Hsame; [assumption|lia|assumption].
        -- destruct Hok as [-> Hok]. cbv zeta in Hnext. rewrite Hnext.
           apply next_exact_finish; [|reflexivity|].
           ++ intros i. unfold FieldsProof.endp. rewrite Hok. reflexivity.
           ++ intros _. symmetry. assumption.
  - destruct (cache_first sep eol q Hqs Hqe prev v Hc E0) as (Hp & Hlow & Hlt).
    eapply (next_exact_cut lanes clmul v prev ne (ctz prev) (shr64 prev (N.of_nat (ctz prev + 1)))
              (starts_with q v) Hp Hlow).
    + intros Hneol. destruct Hc as (w & Hw & Hw2 & Hs & Hb).
      destruct (ctz_spec prev E0) as [Hcb _]. destruct (Hs _ Hcb) as [Hcw _].
      apply (cache_shift sep eol q Hqs Hqe _ v (ctz prev) w); try assumption; [lia| |].
      * intros i. rewrite tb_shr64. intros Hi. destruct (Hs _ Hi) as [H1 H2].
        replace (S (ctz prev) + i) with (i + (ctz prev + 1)) by lia. split; [lia|assumption].
      * intros i Hi. rewrite tb_shr64. replace (i + (ctz prev + 1)) with (S (ctz prev) + i) by lia.
        apply Hb. exact Hi.
    + reflexivity.
    + unfold sf_next. cbn [sf_finished sf_prev sf_v].
      replace (N.eqb prev 0) with false by (symmetry; apply N.eqb_neq; assumption). cbn [negb].
      replace (64 <=? ctz prev + 1) with false by lia.
      replace (N.eqb q 0) with false by (symmetry; apply N.eqb_neq; assumption). reflexivity.
Qed.

Lemma safe_row_tl f fs : safe_row sep eol q (f :: fs) -> safe_row sep eol q fs.
Proof. intros H pre g post E. apply (H (f :: pre) g post). rewrite E. reflexivity. Qed.

Lemma sf_all_exact lanes clmul : lanes_ok lanes ->
  forall fuel v prev ne, length v + 2 <= fuel -> cache_ok sep eol q prev v ->
  safe_row sep eol q (fst (rr v)) ->
  exists rs, sf_all fuel lanes clmul sep q eol (mkSf v false prev) ne = Some (rs, snd (rr v)) /\
    Forall2 (fun f r => fst r = f /\ flag_ok f (snd r)) (fst (rr v)) rs.
Proof.
  intros Hl. induction fuel as [|fuel IH]; intros v prev ne Hf Hc Hs; [lia|].
  cbn [sf_all]. destruct (sf_next_exact lanes clmul v prev ne Hl Hc Hs) as (ne' & st' & -> & Hflag & Hm).
  pose proof (raw_row_nonempty sep eol q false v) as Hne.
  destruct (rr v) as [fs rest] eqn:Er. cbn [fst snd] in *.
  destruct fs as [|f fs]; [congruence|]. cbn [hd tl] in *.
  destruct st' as [v' fin' prev']. cbn [sf_v sf_finished sf_prev] in *.
  destruct fs as [|f2 fs].
  - destruct Hm as [-> ->]. destruct fuel as [|fuel]; [lia|]. cbn [sf_all]. unfold sf_next. cbn [sf_finished sf_v].
    eexists. split; [reflexivity|]. constructor; [split; [reflexivity|assumption]|constructor].
  - destruct Hm as (-> & Hc' & Hr' & Hlen).
    destruct (IH v' prev' ne') as (rs & -> & HF); [lia|assumption| |].
    { rewrite Hr'. cbn [fst]. apply safe_row_tl with f. assumption. }
    rewrite Hr' in *. cbn [fst snd] in *.
    eexists. split; [reflexivity|]. constructor; [split; [reflexivity|assumption]|assumption].
Qed.

Lemma row_fields_exact lanes clmul v ne : lanes_ok lanes ->
  safe_row sep eol q (fst (rr v)) ->
  exists rs, row_fields lanes clmul sep q eol v ne = Some (rs, snd (rr v)) /\
    Forall2 (fun f r => fst r = f /\ flag_ok f (snd r)) (fst (rr v)) rs.
Proof.
  intros Hl Hs. apply sf_all_exact; [assumption|lia|apply cache_ok_0; assumption|assumption].
Qed.
End Exact.

Lemma row_fields_lossless lanes clmul sep q eol v ne : lanes_ok lanes ->
  exists rs rest, row_fields lanes clmul sep q eol v ne = Some (rs, rest) /\
    1 <= length rs <= S (length v) /\
    (v = join sep (map fst rs) /\ rest = [] \/ v = join sep (map fst rs) ++ eol :: rest).
Proof.
  intros Hl. apply sf_all_lossless; [assumption|lia|]. intros i. rewrite tb_0. discriminate.
Qed.

Lemma safe_all_quoted sep eol q fs : Forall (fun f => starts_with q f = true) fs -> safe_row sep eol q fs.
Proof.
  intros H pre f post -> Hf. apply Forall_app in H. destruct H as [_ H]. inversion H. congruence.
Qed.

Lemma in_join sep c : forall fs f, In f fs -> In c f -> In c (join sep fs).
Proof.
  induction fs as [|g fs IH]; intros f Hf Hc; [contradiction|].
  destruct Hf as [->|Hf].
  - destruct fs; cbn [join]; [assumption|apply in_or_app; left; assumption].
  - specialize (IH f Hf Hc). destruct fs as [|b fs]; [contradiction|].
    change (join sep (g :: b :: fs)) with (g ++ sep :: join sep (b :: fs)).
    apply in_or_app. right. right. assumption.
Qed.

Lemma join_app_in sep c pre f post : In c (join sep post) -> In c (join sep (pre ++ f :: post)).
Proof.
  induction pre as [|g pre IH]; intros H; cbn [app].
  - destruct post as [|b post]; [contradiction|]. change (join sep (f :: b :: post)) with (f ++ sep :: join sep (b :: post)).
    apply in_or_app. right. right. assumption.
  - specialize (IH H). destruct (pre ++ f :: post) as [|b l]; [contradiction|].
    change (join sep (g :: b :: l)) with (g ++ sep :: join sep (b :: l)).
    apply in_or_app. right. right. assumption.
Qed.

Lemma safe_no_quotes sep eol q v st : ~ In q v ->
  safe_row sep eol q (fst (raw_row (N.eqb eol) sep q st v)).
Proof.
  intros Hq pre f post E _. destruct (raw_row_join sep eol q v st) as (tail & Hv & _).
  assert (Hj : forall c, In c (join sep (fst (raw_row (N.eqb eol) sep q st v))) -> In c v).
  { intros c Hc. rewrite Hv. apply in_or_app. left. assumption. }
  rewrite E in Hj. split.
  - intros Hin. apply Hq, Hj. eapply in_join; [|exact Hin]. apply in_or_app. right. left. reflexivity.
  - intros (i & _ & Hi). unfold inside_at, quotes_before in Hi.
    assert (Hn : ~ In q (firstn i (firstn 63 (join sep post)))).
    { intros Hin. apply Hq, Hj. apply join_app_in.
      rewrite <- (firstn_skipn 63 (join sep post)). apply in_or_app. left.
      rewrite <- (firstn_skipn i (firstn 63 _)). apply in_or_app. left. assumption. }
    apply (count_occ_not_In N.eq_dec) in Hn. rewrite Hn in Hi. discriminate.
Qed.

(** ** Unquoting *)
Lemma unescape_loop_step q c r :
  unescape_loop q (c :: r) =
  if N.eqb c q && next_is q r then q :: unescape_loop q (tl r) else c :: unescape_loop q r.
Proof. destruct r as [|c' r']; cbn [unescape_loop next_is tl]; [rewrite andb_false_r; reflexivity|reflexivity]. Qed.

Lemma unescape_double q : forall v, unescape_loop q (double_quotes q v) = v.
Proof.
  induction v as [|c r IH]; [reflexivity|]. cbn [double_quotes]. destruct (N.eqb_spec c q) as [->|Hn].
  - rewrite unescape_loop_step. cbn [next_is tl]. rewrite N.eqb_refl. cbn [andb]. rewrite IH. reflexivity.
  - rewrite unescape_loop_step. replace (N.eqb c q) with false by (symmetry; apply N.eqb_neq; assumption).
    cbn [andb]. rewrite IH. reflexivity.
Qed.

Lemma double_no_quote q v : ~ In q v -> double_quotes q v = v.
Proof.
  induction v as [|c r IH]; intros H; [reflexivity|]. cbn [double_quotes].
  destruct (N.eqb_spec c q) as [->|_]; [exfalso; apply H; left; reflexivity|].
  rewrite IH; [reflexivity|]. intros Hr. apply H. right. assumption.
Qed.

Lemma double_in q v : In q (double_quotes q v) -> In q v.
Proof.
  induction v as [|c r IH]; intros H; [contradiction|]. cbn [double_quotes] in H.
  destruct (N.eqb_spec c q) as [->|_]; [left; reflexivity|].
  destruct H as [->|H]; [left; reflexivity|right; apply IH; assumption].
Qed.

Lemma unescape_quotes_double q v : unescape_quotes (double_quotes q v) q = v.
Proof.
  unfold unescape_quotes. destruct (existsb (N.eqb q) (double_quotes q v)) eqn:E; [apply unescape_double|].
  apply double_no_quote. intros Hin.
  assert (Hin2 : In q (double_quotes q v)).
  { clear E. induction v as [|c r IH]; [contradiction|]. cbn [double_quotes].
    destruct (N.eqb_spec c q) as [->|Hn]; [left; reflexivity|]. destruct Hin as [->|Hin]; [congruence|].
    right. apply IH. assumption. }
  assert (existsb (N.eqb q) (double_quotes q v) = true)
    by (apply existsb_exists; exists q; split; [assumption|apply N.eqb_refl]). congruence.
Qed.

Lemma unquote_quote q v : unquote_field q (quote_value q v) = v.
Proof.
  unfold unquote_field, quote_value.
  assert (E : (2 <=? length (q :: double_quotes q v ++ [q])) = true) by (apply Nat.leb_le; cbn [length]; rewrite app_length; cbn [length]; lia).
  rewrite E. cbn [hd]. rewrite N.eqb_refl. cbn [andb].
  replace (last (q :: double_quotes q v ++ [q]) 0%N) with q
    by (rewrite app_comm_cons, last_last; reflexivity).
  rewrite N.eqb_refl. cbn [tl].
  replace (length (q :: double_quotes q v ++ [q]) - 2) with (length (double_quotes q v) + 0)
    by (cbn [length]; rewrite app_length; cbn [length]; lia).
  rewrite firstn_app_2. cbn [firstn]. rewrite app_nil_r. apply unescape_quotes_double.
Qed.

(** Quote parity of an encoded value. *)
Lemma raw_row_double eolp sep q v l : q <> sep ->
  (exists f fs, fst (raw_row eolp sep q true l) = f :: fs) ->
  raw_row eolp sep q true (double_quotes q v ++ l) =
  (match fst (raw_row eolp sep q true l) with f :: fs => (double_quotes q v ++ f) :: fs | [] => [] end,
   snd (raw_row eolp sep q true l)).
Proof.
  intros Hqs (f & fs & Hl). induction v as [|c r IH].
  - cbn [double_quotes app]. rewrite Hl. destruct (raw_row eolp sep q true l) as [a b]. cbn in *. subst. reflexivity.
  - rewrite Hl in *. cbn [double_quotes]. destruct (N.eqb_spec c q) as [->|Hn].
    + cbn [app raw_row]. rewrite N.eqb_refl. cbn [negb]. rewrite IH. reflexivity.
    + cbn [app raw_row]. replace (N.eqb c q) with false by (symmetry; apply N.eqb_neq; assumption).
      rewrite IH. reflexivity.
Qed.

Lemma raw_row_quoted_cons eolp sep q v c l : q <> sep -> c <> q ->
  raw_row eolp sep q false (quote_value q v ++ c :: l) =
  if eolp c then ([quote_value q v], l)
  else if N.eqb c sep then
    (quote_value q v :: fst (raw_row eolp sep q false l), snd (raw_row eolp sep q false l))
  else raw_row eolp sep q false (quote_value q v ++ c :: l).
Proof.
  intros Hqs Hcq. destruct (eolp c) eqn:Ee; [|destruct (N.eqb c sep) eqn:Es; [|reflexivity]];
  unfold quote_value; cbn [app raw_row]; rewrite N.eqb_refl; cbn [negb];
  rewrite <- app_assoc; cbn [app].
  - rewrite raw_row_double; [|assumption|]; cbn [raw_row]; rewrite N.eqb_refl; cbn [negb];
      replace (N.eqb c q) with false by (symmetry; apply N.eqb_neq; assumption); rewrite Ee; cbn; eauto.
  - rewrite raw_row_double; [|assumption|]; cbn [raw_row]; rewrite N.eqb_refl; cbn [negb];
      replace (N.eqb c q) with false by (symmetry; apply N.eqb_neq; assumption); rewrite Ee, Es; cbn; eauto.
Qed.

(** A whole row of encoded values. *)
Lemma raw_row_encoded sep q eol rest : q <> sep -> q <> eol -> sep <> eol -> forall vs, vs <> [] ->
  raw_row (N.eqb eol) sep q false (join sep (map (quote_value q) vs) ++ eol :: rest)
  = (map (quote_value q) vs, rest).
Proof.
  intros Hqs Hqe Hse. induction vs as [|v vs IH]; intros Hne; [congruence|].
  destruct vs as [|v2 vs].
  - cbn [map join]. rewrite raw_row_quoted_cons by congruence. rewrite N.eqb_refl. reflexivity.
  - change (join sep (map (quote_value q) (v :: v2 :: vs)))
      with (quote_value q v ++ sep :: join sep (map (quote_value q) (v2 :: vs))).
    rewrite <- app_assoc. cbn [app]. rewrite raw_row_quoted_cons by congruence.
    replace (N.eqb eol sep) with false by (symmetry; apply N.eqb_neq; congruence).
    rewrite N.eqb_refl, IH by discriminate. reflexivity.
Qed.

Lemma encoded_row_roundtrip lanes clmul sep q eol rest vs ne : lanes_ok lanes ->
  q <> sep -> q <> eol -> sep <> eol -> q <> 0%N -> vs <> [] ->
  exists rs, row_fields lanes clmul sep q eol (join sep (map (quote_value q) vs) ++ eol :: rest) ne = Some (rs, rest) /\
    map (fun r => unquote_field q (fst r)) rs = vs /\ Forall (fun r => snd r = true) rs.
Proof.
  intros Hl H1 H2 H3 H4 Hne.
  pose proof (raw_row_encoded sep q eol rest H1 H2 H3 vs Hne) as Hr.
  destruct (row_fields_exact sep eol q H1 H2 H4 lanes clmul
              (join sep (map (quote_value q) vs) ++ eol :: rest) ne Hl) as (rs & Hrs & HF).
  { rewrite Hr. cbn [fst]. apply safe_all_quoted. apply Forall_map. apply Forall_forall.
    intros v _. unfold quote_value. cbn. apply N.eqb_refl. }
  rewrite Hr in *. cbn [fst snd] in *. exists rs. split; [assumption|].
  clear - HF. revert rs HF. induction vs as [|v vs IH]; intros rs HF; inversion HF as [|? [f n] ? rs' [Hf Hn] HF']; subst.
  - split; constructor.
  - destruct (IH _ HF') as [E1 E2]. cbn [map fst snd] in *. subst f. rewrite unquote_quote, E1.
    split; [reflexivity|]. constructor; [|assumption]. cbn. rewrite Hn by discriminate. cbn. apply N.eqb_refl.
Qed.

(** The cached-mask defect: a separator inside a quoted field splits it. *)
Definition cache_bug_row : bytes := s2b "a," ++ [DQ] ++ s2b "b,c" ++ [DQ] ++ [LF] ++ repeat 120%N 70.
Lemma cache_bug :
  fst (raw_row (N.eqb LF) COMMA DQ false cache_bug_row) = [s2b "a"; [DQ] ++ s2b "b,c" ++ [DQ]] /\
  option_map (fun p => map fst (fst p)) (row_fields 16 true COMMA DQ LF cache_bug_row false)
  = Some [s2b "a"; [DQ] ++ s2b "b"; s2b "c" ++ [DQ]].
Proof. vm_compute. split; reflexivity. Qed.
