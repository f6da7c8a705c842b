(** Dialect detection with explicit reads: fields and line endings. *)
From Coq Require Import SpecFloat.
From Verif Require Import Base RawModel RawProof RawModel4 DialectModel RawProof8 RawProof9.

Lemma last_nth (l : bytes) : l <> [] -> nth (length l - 1) l 0%N = last l 0%N.
Proof.
  induction l as [|a l IH]; intros H; [congruence|]. destruct l as [|b l]; [reflexivity|]. specialize (IH ltac:(discriminate)).
  cbn [length last] in *. replace (S (S (length l)) - 1) with (S (S (length l) - 1)) by lia. cbn [nth]. exact IH.
Qed.
Lemma cell_ok dia (row : bytes) s e : s <= e -> e <= length row -> raw_cell dia row s e = Some (strip_quotes dia (slice s e row)).
Proof.
  intros A B. unfold raw_cell. rewrite (proj2 (Nat.leb_le _ _) A), load_some, slice_cut by lia. set (f := slice s e row). clearbody f. unfold strip_quotes.
  destruct (2 <=? length f) eqn:L; [|reflexivity]. apply Nat.leb_le in L. destruct (quote_char dia =? 0)%N eqn:Q; [reflexivity|]. cbn [andb negb also].
  rewrite nth_rd by lia. destruct f as [|a f']; [cbn in L; lia|]. cbn [nth hd]. destruct (a =? quote_char dia)%N; [|reflexivity]. cbn [also andb].
  rewrite nth_rd by lia. rewrite last_nth by discriminate. destruct (last (a :: f') 0 =? quote_char dia)%N; [|reflexivity].
  rewrite load_some by lia. reflexivity.
Qed.
Lemma slice_grow (d : bytes) s i c : s <= i -> rd d i = Some c -> slice s (i + 1) d = slice s i d ++ [c].
Proof.
  intros H R. unfold slice. replace (i + 1 - s) with (S (i - s)) by lia. apply firstn_snoc_nth. rewrite nth_skip. replace (s + (i - s)) with i by lia. exact R.
Qed.
Lemma slice_none (d : bytes) i : slice i i d = [].
Proof. unfold slice. rewrite Nat.sub_diag. reflexivity. Qed.
Lemma fields_loop_ok dia (d : bytes) : forall f i s inq fields, s <= i -> i <= length d -> length d - i <= f ->
  raw_fields_loop f dia d (length d) i s inq (map (strip_quotes dia) fields) = Some (map (strip_quotes dia) (fields_loop dia (skipn i d) inq (slice s i d) fields)).
Proof.
  assert (D : forall i s fields, s <= i -> i = length d ->
    (let? v := raw_cell dia d s (length d) in Some (map (strip_quotes dia) fields ++ [v])) = Some (map (strip_quotes dia) (fields ++ [slice s i d]))).
  { intros i s fields H ->. rewrite cell_ok by lia. rewrite map_app. reflexivity. }
  induction f as [|f IH]; intros i s inq fields Hs L Hf; cbn [raw_fields_loop].
  - replace (i <? length d) with false by lia. rewrite skipn_all2 by lia. cbn [fields_loop]. apply D; lia.
  - destruct (pos d i) as [G E|c G R E]; [rewrite G, E; cbn [fields_loop]; apply D; lia|]. rewrite G, R, E. apply Nat.ltb_lt in G. cbn [fields_loop].
    rewrite also_peek_is. pose proof (slice_grow d s i c Hs R) as S1.
    assert (PL : (if is_quote dia c then
                    raw_fields_loop f dia d (length d) (i + 1) s (negb inq) (map (strip_quotes dia) fields)
                  else if negb inq && (c =? delimiter dia)%N then
                    let? v := raw_cell dia d s i in raw_fields_loop f dia d (length d) (i + 1) (i + 1) inq (map (strip_quotes dia) fields ++ [v])
                  else raw_fields_loop f dia d (length d) (i + 1) s inq (map (strip_quotes dia) fields)) =
           Some (map (strip_quotes dia) (if is_quote dia c then fields_loop dia (skipn (i + 1) d) (negb inq) (slice s i d ++ [c]) fields
                  else if negb inq && (c =? delimiter dia)%N then fields_loop dia (skipn (i + 1) d) inq [] (fields ++ [slice s i d])
                  else fields_loop dia (skipn (i + 1) d) inq (slice s i d ++ [c]) fields))).
    { rewrite <- S1. destruct (is_quote dia c); [apply IH; lia|]. destruct (negb inq && _); [|apply IH; lia].
      rewrite cell_ok by lia. rewrite <- (slice_none d (i + 1)). change [strip_quotes dia (slice s i d)] with (map (strip_quotes dia) [slice s i d]). rewrite <- map_app. apply IH; lia. }
    destruct (pos d (i + 1)) as [G2 E2|c2 G2 R2 E2]; rewrite G2.
    + rewrite andb_false_r. rewrite E2 in PL |- *. cbn [next_is]. rewrite !andb_false_r. destruct (is_escape dia c); exact PL.
    + apply Nat.ltb_lt in G2. rewrite andb_true_r, E2. cbn [next_is].
      assert (S2 : slice s i d ++ [c; c2] = slice s (i + 1 + 1) d) by (rewrite (slice_grow d s (i + 1) c2) by (lia || exact R2); rewrite S1, <- app_assoc; reflexivity).
      rewrite S2. destruct (is_escape dia c); [apply IH; lia|]. rewrite <- E2.
      destruct (is_quote dia c); [|exact PL]. destruct (double_quote dia && (c2 =? quote_char dia)%N); [apply IH; lia|exact PL].
Qed.
Lemma extract_fields_raw dia (row : bytes) : raw_extract_fields dia row (length row) = Some (extract_fields dia row).
Proof.
  unfold raw_extract_fields, extract_fields. destruct row as [|x r]; [reflexivity|]. set (row := x :: r) in *. change (length row =? 0) with false. cbv iota.
  change (@nil bytes) with (map (strip_quotes dia) []) at 1. rewrite fields_loop_ok by lia. reflexivity.
Qed.

Lemma ending_loop_ok (d : bytes) : forall f i a b c, length d - i <= f -> i <= length d ->
  raw_ending_loop f d (length d) i a b c = Some (ending_loop (skipn i d) a b c).
Proof.
  induction f as [|f IH]; intros i a b c Hf L; cbn [raw_ending_loop].
  - replace (i <? length d) with false by lia. rewrite skipn_all2 by lia. reflexivity.
  - destruct (pos d i) as [G E|x G R E]; [rewrite G, E; reflexivity|]. rewrite G, R, E, peek_is. apply Nat.ltb_lt in G. cbn [ending_loop].
    destruct (x =? 13)%N; [|destruct (x =? 10)%N; apply IH; lia].
    destruct (pos d (i + 1)) as [G2 E2|c2 G2 R2 E2]; rewrite E2; cbn [next_is]; [rewrite <- E2; apply IH; lia|].
    apply Nat.ltb_lt in G2. destruct (c2 =? 10)%N; [|rewrite <- E2]; apply IH; lia.
Qed.
Lemma line_ending_raw (d : bytes) : raw_line_ending d (length d) = Some (detect_line_ending d).
Proof. unfold raw_line_ending, detect_line_ending. rewrite ending_loop_ok by lia. change (skipn 0 d) with d. destruct (ending_loop d false false false) as [[? ?] ?]. reflexivity. Qed.

Lemma escape_loop_ok (d : bytes) q e : forall f i ne nd, length d - i <= f ->
  raw_escape_loop f d (length d) i q e ne nd = Some (ne + fst (escape_counts (skipn i d) q e), nd + snd (escape_counts (skipn i d) q e)).
Proof.
  assert (D : forall i ne nd, (i + 1 <? length d) = false -> Some (ne, nd) = Some (ne + fst (escape_counts (skipn i d) q e), nd + snd (escape_counts (skipn i d) q e))).
  { intros i ne nd H. destruct (pos d i) as [_ ->|c _ _ ->]; [cbn [escape_counts fst snd]; rewrite !Nat.add_0_r; reflexivity|].
    destruct (pos d (i + 1)) as [_ ->|c2 G2 _ _]; [cbn [escape_counts fst snd]; rewrite !Nat.add_0_r; reflexivity|congruence]. }
  induction f as [|f IH]; intros i ne nd Hf; cbn [raw_escape_loop].
  - destruct (i + 1 <? length d) eqn:G; [apply Nat.ltb_lt in G; lia|]. apply D. exact G.
  - destruct (i + 1 <? length d) eqn:G; [|apply D; exact G]. destruct (pos d i) as [G1 _|a G1 R1 E1]; [lia|]. destruct (pos d (i + 1)) as [G2 _|b _ R2 E2]; [congruence|].
    rewrite R1, R2.
    assert (X : also (negb (e =? q)%N) (also (a =? e)%N (Some (b =? q)%N)) = Some (negb (e =? q)%N && (a =? e)%N && (b =? q)%N)) by (destruct (negb _), (a =? e)%N; reflexivity).
    assert (Y : also (a =? q)%N (Some (b =? q)%N) = Some ((a =? q)%N && (b =? q)%N)) by (destruct (a =? q)%N; reflexivity).
    rewrite X, Y, IH by lia. 
    assert (Z : escape_counts (skipn i d) q e = let (p, r) := escape_counts (skipn (i + 1) d) q e in
      (Nat.b2n (negb (e =? q)%N && (a =? e)%N && (b =? q)%N) + p, Nat.b2n ((a =? q)%N && (b =? q)%N) + r)) by (rewrite E1, E2; reflexivity).
    rewrite Z. destruct (escape_counts (skipn (i + 1) d) q e) as [p r]. cbn [fst snd]. f_equal. f_equal; lia.
Qed.
Lemma find_char_drop x : forall l : bytes, match find_char l x with
  | Some i => i < length l /\ i = length l - length (dropw (fun c => negb (c =? x)%N) l) | None => dropw (fun c => negb (c =? x)%N) l = [] end.
Proof.
  induction l as [|c l IH]; [reflexivity|]. cbn [find_char dropw]. destruct (c =? x)%N; cbn [negb]; [cbn [length]; lia|].
  destruct (find_char l x) as [i|]; cbn [option_map]; [|exact IH]. cbn [length]. pose proof (dropw_le (fun c => negb (c =? x)%N) l). lia.
Qed.
Lemma first_newline_raw o (d : bytes) : raw_first_newline o d (length d) = Some (first_newline o d).
Proof.
  unfold raw_first_newline, first_newline. set (limit := Nat.min (length d) (sample_size o)).
  destruct (while_ok (fun c => negb (c =? 10)%N) d limit ltac:(lia) (S limit) 0) as (j & -> & _ & J2 & J3); [lia|].
  assert (U : upto d limit 0 = firstn (sample_size o) d).
  { unfold upto. rewrite Nat.sub_0_r. change (skipn 0 d) with d. unfold limit. rewrite Nat.min_comm. rewrite <- firstn_firstn. rewrite firstn_all. reflexivity. }
  rewrite U in J3. pose proof (find_char_drop 10%N (firstn (sample_size o) d)) as F. pose proof (upto_length d limit j ltac:(lia)) as LU.
  assert (LF : length (firstn (sample_size o) d) = limit) by (rewrite firstn_length; lia).
  destruct (find_char _ _) as [i|].
  - destruct F as [F1 F2]. rewrite <- J3, LU in F2. replace (j <? limit) with true by (symmetry; apply Nat.ltb_lt; lia). f_equal. lia.
  - rewrite <- J3 in F. rewrite F in LU. cbn [length] in LU. replace (j <? limit) with false by (symmetry; apply Nat.ltb_ge; lia). reflexivity.
Qed.
