(** Linking of chunks, boundaries, chunk size. *)
From Verif Require Import Base WordsModel WordsProof ChunkSpec ChunkModel ChunkProof ChunkProof2.

Lemma ends_nxt_irrel q nxt : forall l st off,
  ~ (last l 0%N = CR /\ nxt = Some LF) -> ends st q l off nxt = ends st q l off None.
Proof.
  induction l as [|c l IH]; intros st off H; [reflexivity|].
  rewrite !ends_step. destruct l as [|d l].
  - cbn [nx_of]. unfold is_eol.
    destruct nxt as [d|]; [|reflexivity].
    destruct (N.eqb_spec d LF) as [->|Hd]; [|reflexivity].
    destruct (N.eqb_spec c CR) as [->|Hc]; [|reflexivity].
    exfalso. apply H. split; reflexivity.
  - cbn [nx_of]. rewrite !IH by exact H. reflexivity.
Qed.

Lemma nx_of_hd b : nx_of b None = Some LF -> hd 0%N b = LF.
Proof. destruct b; cbn; congruence. Qed.

Lemma last_concat_single c : last (concat [c]) 0%N = last c 0%N.
Proof. cbn. rewrite app_nil_r. reflexivity. Qed.

Lemma crlf_safe_tail c cs : crlf_safe (c :: cs) -> c <> [] \/ True -> 
  ~ (last c 0%N = CR /\ nx_of (concat cs) None = Some LF).
Proof.
  intros H _ [H1 H2]. apply (H [c] cs eq_refl). rewrite last_concat_single. split; [exact H1|].
  apply nx_of_hd. exact H2.
Qed.

(** Per-boundary condition, without reference to earlier chunks. *)
Fixpoint safe_from (cs : list bytes) : Prop :=
  match cs with
  | [] => True
  | c :: r => ~ (last c 0%N = CR /\ nx_of (concat r) None = Some LF) /\ safe_from r
  end.

Lemma crlf_safe_from cs : crlf_safe cs -> safe_from cs.
Proof.
  intros H.
  assert (G : forall a b, cs = a ++ b -> safe_from b).
  { intros a b; revert a; induction b as [|c b IH]; intros a Hab; cbn; [exact I|]. split.
    - intros [H1 H2]. apply (H (a ++ [c]) b); [rewrite <- app_assoc; exact Hab|].
      split; [|apply nx_of_hd; exact H2].
      rewrite concat_app. cbn. rewrite app_nil_r.
      destruct c as [|x c]; [cbn in H1; discriminate|].
      clear -H1. induction (concat a) as [|y l IHl]; [exact H1|].
      cbn [app]. destruct (l ++ x :: c) eqn:E; [destruct l; discriminate|]. exact IHl.
    - apply (IH (a ++ [c])). rewrite <- app_assoc. exact Hab. }
  apply (G [] cs). reflexivity.
Qed.

Definition dual_of (q : byte) (c : bytes) : dual :=
  mkDual (spec_row_count false q c) (spec_last_row_end false q c)
         (spec_row_count true q c) (spec_last_row_end true q c) (spec_ends_inside false q c).

Lemma map_option_dual lanes clmul q cs : lanes_ok lanes -> q <> LF -> q <> CR ->
  map_option (fun c => analyze_chunk_dual_state_simd lanes clmul c q) cs = Some (map (dual_of q) cs).
Proof.
  intros. induction cs as [|c cs IH]; [reflexivity|]. cbn. rewrite dual_spec, IH by assumption. reflexivity.
Qed.

Lemma link_states_spec q : forall cs st,
  link_states st (map (dual_of q) cs) =
  map (fun k => inside_at st q (concat cs) (length (concat (firstn k cs)))) (seq 0 (length cs)).
Proof.
  induction cs as [|c cs IH]; intros st; [reflexivity|].
  cbn [map link_states length seq]. f_equal.
  - unfold inside_at, quotes_before. cbn. rewrite xorb_false_r. reflexivity.
  - cbn [dual_of ends_inside_quote].
    replace (if st then negb (spec_ends_inside false q c) else spec_ends_inside false q c)
      with (endst st q c).
    2:{ rewrite spec_ends_inside_endst, (endst_xor st). destruct st, (endst false q c); reflexivity. }
    rewrite IH, <- seq_shift, map_map. apply map_ext. intros k.
    cbn [firstn concat]. rewrite app_length. unfold inside_at, quotes_before.
    rewrite firstn_app_2, count_occ_app, Nat.odd_add, endst_spec, xorb_assoc. reflexivity.
Qed.

Lemma fold_add_sum l a : fold_left Nat.add l a = a + fold_left Nat.add l 0.
Proof.
  revert a; induction l as [|x l IH]; intros a; cbn; [lia|].
  rewrite IH, (IH x). lia.
Qed.

Lemma total_from q : q <> LF -> q <> CR -> forall cs st, safe_from cs ->
  fold_left Nat.add
    (map (fun '(st, d) => if st : bool then row_count_inside d else row_count_outside d)
         (combine (link_states st (map (dual_of q) cs)) (map (dual_of q) cs))) 0
  = spec_row_count st q (concat cs).
Proof.
  intros Hlf Hcr. induction cs as [|c cs IH]; intros st Hs; [reflexivity|].
  destruct Hs as [H1 H2]. cbn [map link_states combine fold_left concat].
  cbn [dual_of ends_inside_quote].
  replace (if st then negb (spec_ends_inside false q c) else spec_ends_inside false q c)
    with (endst st q c).
  2:{ rewrite spec_ends_inside_endst, (endst_xor st). destruct st, (endst false q c); reflexivity. }
  rewrite fold_add_sum, IH by assumption.
  unfold spec_row_count. rewrite !row_ends_ends by assumption.
  rewrite ends_app, app_length. rewrite (ends_nxt_irrel q (nx_of (concat cs) None) c st 0 H1).
  rewrite (ends_shift _ q (concat cs) (0 + length c)), map_length.
  destruct st; cbn [row_count_inside row_count_outside dual_of];
    unfold spec_row_count; rewrite row_ends_ends by assumption; lia.
Qed.

Lemma total_row_count_spec q cs : q <> LF -> q <> CR -> crlf_safe cs ->
  total_row_count (map (dual_of q) cs) = spec_row_count false q (concat cs).
Proof. intros H1 H2 H. apply total_from; try assumption. apply crlf_safe_from. exact H. Qed.

(** ** pieces of a tiling *)
Lemma skipn_skipn {A} n m (l : list A) : skipn n (skipn m l) = skipn (n + m) l.
Proof.
  revert l; induction m as [|m IH]; intros l; [rewrite Nat.add_0_r; reflexivity|].
  rewrite Nat.add_succ_r. destruct l; [rewrite skipn_nil; reflexivity|]. cbn. apply IH.
Qed.

Lemma slice_app {A} (l : list A) a b c : a <= b -> b <= c -> slice a b l ++ slice b c l = slice a c l.
Proof.
  intros H1 H2. unfold slice. replace (c - a) with ((b - a) + (c - b)) by lia.
  rewrite <- (firstn_skipn (b - a) (firstn (b - a + (c - b)) (skipn a l))) at 1.
  rewrite firstn_firstn, Nat.min_l by lia. f_equal.
  rewrite skipn_firstn_comm, skipn_skipn.
  replace (b - a + (c - b) - (b - a)) with (c - b) by lia.
  replace (b - a + a) with b by lia. reflexivity.
Qed.

Lemma slice_len {A} (l : list A) a b : b <= length l -> length (slice a b l) = b - a.
Proof. intros H. unfold slice. rewrite firstn_length, skipn_length. lia. Qed.

Lemma slice_to_end {A} (l : list A) a : slice a (length l) l = skipn a l.
Proof. unfold slice. apply firstn_all2. rewrite skipn_length. lia. Qed.

Lemma slice_nil {A} (l : list A) a : slice a a l = [].
Proof. unfold slice. rewrite Nat.sub_diag. reflexivity. Qed.

Lemma tiles_le a b rs : tiles a b rs -> a <= b.
Proof.
  revert a; induction rs as [|[s e] rs IH]; intros a H; cbn in H; [lia|].
  destruct H as (-> & ? & ? & H). apply IH in H. lia.
Qed.

Lemma concat_pieces data rs : forall a b, tiles a b rs -> b <= length data ->
  concat (pieces data rs) = slice a b data.
Proof.
  induction rs as [|[s e] rs IH]; intros a b Ht Hb; cbn in Ht.
  - subst. cbn. symmetry. apply slice_nil.
  - destruct Ht as (-> & H1 & H2 & H3). cbn [pieces map concat]. fold (pieces data rs). rewrite (IH e b H3 Hb).
    apply slice_app; lia.
Qed.

Lemma tiles_app a b r1 r2 : tiles a b (r1 ++ r2) -> exists m, tiles a m r1 /\ tiles m b r2.
Proof.
  revert a; induction r1 as [|[s e] r1 IH]; intros a H.
  - exists a. split; [reflexivity|exact H].
  - cbn in H. destruct H as (-> & H1 & H2 & H3). destruct (IH e H3) as (m & Hm1 & Hm2).
    exists m. split; [|exact Hm2]. cbn. repeat split; try assumption.
    apply tiles_le in Hm1. apply tiles_le in Hm2. lia.
Qed.

(** A boundary is "clean" in the whole buffer if it is the end or just after a
    line end. *)
Definition clean (data : bytes) (e : nat) : Prop :=
  e = length data \/ (0 < e /\ line_end_at data (e - 1) = true).

Lemma last_slice (data : bytes) a e : a < e -> e <= length data ->
  last (slice a e data) 0%N = nth (e - 1) data 0%N.
Proof.
  intros H1 H2. rewrite <- (slice_app data a (e - 1) e) by lia.
  assert (E : slice (e - 1) e data = [nth (e - 1) data 0%N]).
  { unfold slice. replace (e - (e - 1)) with 1 by lia.
    destruct (nth_error data (e - 1)) as [c|] eqn:E; [|apply nth_error_None in E; lia].
    rewrite (skipn_nth_cons _ _ _ E). cbn. f_equal. symmetry. apply nth_error_nth. exact E. }
  rewrite E. apply last_last.
Qed.

Lemma clean_no_crlf data a b e : a <= e -> e <= b -> b <= length data -> clean data e ->
  ~ (last (slice a e data) 0%N = CR /\ hd 0%N (slice e b data) = LF).
Proof.
  intros Ha Hb Hl Hc [H1 H2].
  destruct (Nat.eq_dec a e) as [->|Hne].
  { rewrite slice_nil in H1. discriminate. }
  destruct (Nat.eq_dec e b) as [->|Hne2].
  { rewrite slice_nil in H2. discriminate. }
  rewrite last_slice in H1 by lia.
  destruct Hc as [->|[He Hc]]; [lia|].
  unfold line_end_at, byte_is in Hc.
  destruct (nth_error data (e - 1)) as [c|] eqn:E; [|discriminate].
  rewrite (nth_error_nth _ _ _ E) in H1. subst c. replace (S (e - 1)) with e in Hc by lia.
  change (N.eqb CR LF) with false in Hc. rewrite N.eqb_refl in Hc. cbn [orb andb] in Hc.
  unfold slice in H2. destruct (nth_error data e) as [d|] eqn:E2.
  - rewrite (skipn_nth_cons _ _ _ E2) in H2. destruct (b - e) as [|n] eqn:Hbe; [lia|].
    cbn in H2. subst d. rewrite N.eqb_refl in Hc. discriminate.
  - apply nth_error_None in E2. lia.
Qed.

Lemma pieces_crlf_safe data a b rs : tiles a b rs -> b <= length data ->
  (forall s e, In (s, e) rs -> clean data e) -> crlf_safe (pieces data rs).
Proof.
  intros Ht Hb Hc x y Hxy.
  assert (exists r1 r2, rs = r1 ++ r2 /\ x = pieces data r1 /\ y = pieces data r2) as (r1 & r2 & -> & -> & ->).
  { unfold pieces in Hxy. apply map_eq_app in Hxy as (r1 & r2 & -> & <- & <-).
    exists r1, r2. repeat split. }
  destruct (tiles_app _ _ _ _ Ht) as (m & T1 & T2).
  pose proof (tiles_le _ _ _ T1). pose proof (tiles_le _ _ _ T2).
  rewrite (concat_pieces data r1 a m T1), (concat_pieces data r2 m b T2) by lia.
  destruct (Nat.eq_dec a m) as [->|Hne].
  { rewrite slice_nil. intros [H1 _]. discriminate. }
  apply clean_no_crlf; try lia.
  assert (exists s, In (s, m) r1) as [s Hs].
  { clear -T1 Hne. revert a T1 Hne. induction r1 as [|[s e] r1 IH]; intros a T1 Hne.
    - cbn in T1. lia.
    - cbn in T1. destruct T1 as (-> & ? & ? & T). destruct (Nat.eq_dec e m) as [->|He].
      + exists a. left. reflexivity.
      + destruct (IH e T He) as [s Hs]. exists s. right. exact Hs. }
  apply (Hc s m). apply in_or_app. left. exact Hs.
Qed.

Lemma line_end_at_skipn data s i : line_end_at (skipn s data) i = line_end_at data (s + i).
Proof.
  unfold line_end_at, byte_is.
  assert (H : forall k, nth_error (skipn s data) k = nth_error data (s + k)).
  { intros k. clear. revert data; induction s as [|s IH]; intros data; [reflexivity|].
    destruct data; [destruct k; reflexivity|]. cbn. apply IH. }
  rewrite !H. rewrite Nat.add_succ_r. reflexivity.
Qed.

Lemma spec_find_row_end_clean q data s : clean data (spec_find_row_end q data s).
Proof.
  unfold spec_find_row_end, clean.
  destruct (row_ends false q (skipn s data)) as [|i r] eqn:E; [left; reflexivity|right].
  assert (Hin : In i (row_ends false q (skipn s data))) by (rewrite E; left; reflexivity).
  apply filter_In in Hin as [_ Hin]. apply andb_true_iff in Hin as [Hin _].
  rewrite line_end_at_skipn in Hin. split; [lia|].
  replace (s + S i - 1) with (s + i) by lia. exact Hin.
Qed.

Lemma chunk_ranges_clean lanes clmul q data start chunk rs : lanes_ok lanes -> q <> LF -> q <> CR ->
  chunk_ranges lanes clmul q data start chunk = Some rs ->
  forall s e, In (s, e) rs -> clean data e.
Proof.
  intros Hl H1 H2 Hr s e Hin.
  destruct (chunk_ranges_loop_ends _ chunk _ (fre_ok_find_row_end lanes clmul q data Hl H1 H2) _ _ _ Hr _ _ Hin)
    as [->|[_ He]]; [left; reflexivity|].
  rewrite find_row_end_spec in He by assumption. injection He as <-. apply spec_find_row_end_clean.
Qed.

Lemma parallel_row_count lanes clmul q data start chunk rs ds : lanes_ok lanes -> q <> LF -> q <> CR ->
  start <= length data ->
  chunk_ranges lanes clmul q data start chunk = Some rs ->
  map_option (fun c => analyze_chunk_dual_state_simd lanes clmul c q) (pieces data rs) = Some ds ->
  total_row_count ds = spec_row_count false q (skipn start data) /\
  link_states false ds =
    map (fun '(s, _) => inside_at false q (skipn start data) (s - start)) rs.
Proof.
  intros Hl H1 H2 Hs Hr Hd.
  destruct (chunk_ranges_tiles lanes clmul q data start chunk Hl H1 H2 Hs) as (rs' & Hr' & Ht).
  rewrite Hr in Hr'. injection Hr' as <-.
  rewrite map_option_dual in Hd by assumption. injection Hd as <-.
  assert (Hc : concat (pieces data rs) = skipn start data).
  { rewrite (concat_pieces data rs start (length data) Ht) by lia. apply slice_to_end. }
  split.
  - rewrite total_row_count_spec, Hc; try assumption; [reflexivity|].
    eapply pieces_crlf_safe; [exact Ht|lia|]. eapply chunk_ranges_clean; eassumption.
  - rewrite link_states_spec, Hc. unfold pieces. rewrite map_length.
    clear Hr Hc. set (b := length data) in *.
    assert (Hb : b <= length data) by (unfold b; lia). clearbody b.
    assert (Hlen : forall k, k <= length rs -> forall d, nth_error rs k = Some d ->
              length (concat (firstn k (map (fun '(s, e) => slice s e data) rs))) = fst d - start).
    { revert start Hs Ht. induction rs as [|[s e] rs IH]; intros start Hs Ht k Hk d Hd.
      - destruct k; discriminate.
      - cbn in Ht. destruct Ht as (-> & Ha & Hbb & Ht). destruct k as [|k].
        + cbn in Hd. injection Hd as <-. cbn. lia.
        + cbn [map firstn concat]. rewrite app_length. cbn in Hk, Hd.
          rewrite (IH e) with (d := d); [| lia | exact Ht | lia | exact Hd].
          rewrite slice_len by lia.
          assert (Hin : In d rs) by (eapply nth_error_In; exact Hd).
          destruct d as [s' e']. destruct (tiles_in _ _ _ Ht _ _ Hin). cbn. lia. }
    clear -Hlen.
    assert (G : forall pre suf, rs = pre ++ suf ->
      map (fun k => inside_at false q (skipn start data)
                      (length (concat (firstn k (map (fun '(s, e) => slice s e data) rs)))))
          (seq (length pre) (length suf))
      = map (fun '(s, _) => inside_at false q (skipn start data) (s - start)) suf).
    { intros pre suf; revert pre; induction suf as [|[s e] suf IH]; intros pre E; [reflexivity|].
      cbn [length seq map]. f_equal.
      - rewrite (Hlen (length pre)) with (d := (s, e)); [reflexivity| |].
        + rewrite E, app_length. lia.
        + rewrite E, nth_error_app2, Nat.sub_diag by lia. reflexivity.
      - specialize (IH (pre ++ [(s, e)])). rewrite app_length, Nat.add_1_r in IH.
        apply IH. rewrite <- app_assoc. exact E. }
    apply (G [] rs). reflexivity.
Qed.

(** ** are boundaries row ends of the whole data? *)
Lemma inside_at_skipn q data s i : inside_at false q data s = false ->
  inside_at false q data (s + i) = inside_at false q (skipn s data) i.
Proof.
  unfold inside_at, quotes_before. rewrite !xorb_false_l. intros H.
  assert (E : firstn (s + i) data = firstn s data ++ firstn i (skipn s data)).
  { clear. revert data; induction s as [|s IH]; intros data; [reflexivity|].
    destruct data; [destruct i; reflexivity|]. cbn. f_equal. apply IH. }
  rewrite E, count_occ_app, Nat.odd_add, H, xorb_false_l. reflexivity.
Qed.

Lemma find_row_end_true_row q data s : inside_at false q data s = false ->
  spec_find_row_end q data s < length data ->
  In (spec_find_row_end q data s - 1) (row_ends false q data).
Proof.
  intros Hs. unfold spec_find_row_end.
  destruct (row_ends false q (skipn s data)) as [|i r] eqn:E; [lia|]. intros Hlt.
  assert (Hin : In i (row_ends false q (skipn s data))) by (rewrite E; left; reflexivity).
  apply filter_In in Hin as [Hi Hin]. apply andb_true_iff in Hin as [Ha Hb].
  rewrite line_end_at_skipn in Ha. rewrite <- inside_at_skipn in Hb by assumption.
  replace (s + S i - 1) with (s + i) by lia.
  apply filter_In. split; [apply in_seq; lia|]. rewrite Ha, Hb. reflexivity.
Qed.

Lemma chunk_boundaries_rows lanes clmul q data start chunk rs : lanes_ok lanes -> q <> LF -> q <> CR ->
  chunk_ranges lanes clmul q data start chunk = Some rs ->
  forall s e, In (s, e) rs -> e < length data ->
  inside_at false q data (s + chunk) = false ->
  In (e - 1) (row_ends false q data).
Proof.
  intros Hl H1 H2 Hr s e Hin He Hout.
  destruct (chunk_ranges_loop_ends _ chunk _ (fre_ok_find_row_end lanes clmul q data Hl H1 H2) _ _ _ Hr _ _ Hin)
    as [->|[_ Hf]]; [lia|].
  rewrite find_row_end_spec in Hf by assumption. injection Hf as <-.
  apply find_row_end_true_row; assumption.
Qed.

Lemma no_quotes_outside q data i : ~ In q data -> inside_at false q data i = false.
Proof.
  intros H. unfold inside_at, quotes_before.
  rewrite (proj1 (count_occ_not_In N.eq_dec (firstn i data) q)); [reflexivity|].
  intros Hin. apply H. rewrite <- (firstn_skipn i data). apply in_or_app. left. exact Hin.
Qed.

(** For every chunk size there is a buffer whose first chunk ends inside a
    quoted field. *)
Definition bad_buffer (chunk : nat) : bytes :=
  DQ :: repeat 120%N chunk ++ [LF; 120%N; DQ; LF].

Lemma skipn_repeat {A} (x : A) n r k : k <= n -> skipn k (repeat x n ++ r) = repeat x (n - k) ++ r.
Proof.
  revert k; induction n as [|n IH]; intros [|k] H; try reflexivity; try lia.
  cbn. rewrite IH by lia. reflexivity.
Qed.

Lemma bad_buffer_boundary lanes clmul chunk : lanes_ok lanes -> 1 <= chunk ->
  exists rs, chunk_ranges lanes clmul DQ (bad_buffer chunk) 0 chunk = Some rs /\
    In (0, chunk + 2) rs /\ chunk + 2 < length (bad_buffer chunk) /\
    inside_at false DQ (bad_buffer chunk) (chunk + 2) = true.
Proof.
  intros Hl Hc.
  assert (Hlen : length (bad_buffer chunk) = chunk + 5).
  { unfold bad_buffer. cbn [length]. rewrite app_length, repeat_length. cbn. lia. }
  destruct (chunk_ranges_tiles lanes clmul DQ (bad_buffer chunk) 0 chunk Hl) as (rs & Hr & Ht);
    [discriminate|discriminate|lia|].
  exists rs. split; [exact Hr|].
  assert (Hf : spec_find_row_end DQ (bad_buffer chunk) chunk = chunk + 2).
  { rewrite spec_find_row_end_ends by discriminate.
    assert (Es : skipn chunk (bad_buffer chunk) = [120%N; LF; 120%N; DQ; LF]).
    { unfold bad_buffer. destruct chunk as [|c]; [lia|]. cbn [skipn].
      rewrite skipn_repeat by lia. replace (S c - c) with 1 by lia. reflexivity. }
    rewrite Es. cbn. lia. }
  split.
  - unfold chunk_ranges in Hr. rewrite Hlen in Hr.
    replace (chunk + 5) with (S (chunk + 4)) in Hr at 1 by lia. cbn [chunk_ranges_loop] in Hr.
    replace (0 <? chunk + 5) with true in Hr by lia.
    assert (Hok : fre_ok (find_row_end lanes clmul DQ (bad_buffer chunk)) (chunk + 5)).
    { rewrite <- Hlen. apply fre_ok_find_row_end; [assumption|discriminate|discriminate]. }
    destruct (chunk_end_ok _ chunk (chunk + 5) 0 Hok) as [Hce _]; [lia|].
    rewrite Hce in Hr. replace (0 + chunk <? chunk + 5) with true in Hr by lia.
    rewrite find_row_end_spec in Hr by (assumption || discriminate).
    rewrite Nat.add_0_l, Hf in Hr.
    match type of Hr with match ?x with _ => _ end = _ => destruct x; [|discriminate] end.
    injection Hr as <-. left. reflexivity.
  - split; [lia|]. unfold inside_at, quotes_before, bad_buffer.
    replace (chunk + 2) with (S (chunk + 1)) by lia. cbn [firstn].
    assert (Ef : firstn (chunk + 1) (repeat 120%N chunk ++ [LF; 120%N; DQ; LF]) = repeat 120%N chunk ++ [LF]).
    { rewrite <- (repeat_length 120%N chunk) at 1. rewrite firstn_app_2. reflexivity. }
    rewrite Ef. rewrite odd_count_cons, count_occ_app.
    assert (Er : forall n, count_occ N.eq_dec (repeat 120%N n) DQ = 0).
    { induction n; [reflexivity|]. cbn. exact IHn. }
    rewrite Er. reflexivity.
Qed.

(** ** chunk size *)
Local Open Scope N_scope.
Lemma calculate_chunk_size_bounds fs nc nt :
  MIN_CHUNK_SIZE <= calculate_chunk_size fs nc nt <= MAX_CHUNK_SIZE.
Proof.
  unfold calculate_chunk_size. cbv zeta.
  set (x := fs / _). clearbody x.
  assert (MIN_CHUNK_SIZE <= MAX_CHUNK_SIZE) by (vm_compute; discriminate).
  destruct (N.ltb_spec x MIN_CHUNK_SIZE).
  - destruct (N.ltb_spec MAX_CHUNK_SIZE MIN_CHUNK_SIZE); split; assumption || reflexivity.
  - destruct (N.ltb_spec MAX_CHUNK_SIZE x); split; assumption || reflexivity.
Qed.
