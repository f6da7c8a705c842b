(** Dialect detection with explicit reads: the line scanners. *)
From Coq Require Import SpecFloat.
From Verif Require Import Base RawModel RawProof RawModel4 DialectModel RawProof8.

Definition not_eol (c : byte) : bool := negb ((c =? 10) || (c =? 13))%N.
Lemma skip_loop_ok o (d : bytes) : forall f g off ch n, off <= length d -> length d - off <= f -> length d - off <= g ->
  raw_skip_loop f o d (length d) off ch n = Some (skip_loop g o (skipn off d) off ch n).
Proof.
  induction f as [|f IH]; intros g off ch n L Hf Hg.
  - cbn [raw_skip_loop]. replace (off <? length d) with false by lia. destruct g; cbn [skip_loop]; [reflexivity|]. rewrite skipn_all2 by lia. reflexivity.
  - cbn [raw_skip_loop]. destruct (pos d off) as [G E|c0 G _ E].
    { rewrite G. destruct g; cbn [skip_loop]; [reflexivity|]. rewrite E. reflexivity. }
    rewrite G. apply Nat.ltb_lt in G. destruct g as [|g]; [lia|]. cbn [skip_loop].
    destruct (while_all blank d off L) as (j & -> & B & C). rewrite (past_blanks_at d _ off eq_refl), <- C.
    replace (off + (length (skipn off d) - length (skipn j d))) with j by (rewrite !skipn_length; lia).
    rewrite E at 1. destruct (pos d j) as [G2 E2|c G2 R2 E2].
    { apply Nat.ltb_ge in G2. rewrite (proj2 (Nat.leb_le _ _) G2), E2. reflexivity. }
    apply Nat.ltb_lt in G2. rewrite (proj2 (Nat.leb_gt _ _) G2), R2, E2. destruct (negb (is_comment_char o c)); [reflexivity|].
    rewrite <- E2. destruct (while_all not_eol d j ltac:(lia)) as (k & K1 & K2 & K3). unfold not_eol in K1. rewrite K1.
    rewrite (to_eol_at (skipn j d) j). fold not_eol. rewrite <- K3. replace (j + (length (skipn j d) - length (skipn k d))) with k by (rewrite !skipn_length; lia).
    destruct (past_eol_ok d k ltac:(lia)) as (m & M1 & M2 & M3). rewrite M1, M2.
    assert (off < m); [|apply IH; lia].
    destruct (Nat.eq_dec j m) as [<-|]; [|lia]. assert (k = j) by lia. subst k. rewrite E2 in K3, M2. cbn [dropw] in K3. unfold not_eol at 1 in K3.
    destruct ((c =? 10) || (c =? 13))%N eqn:EC.
    + cbn [past_eol] in M2. destruct (c =? 13)%N; [destruct (skipn (j + 1) d) as [|c2 r2]; [injection M2; lia|destruct (c2 =? 10)%N; injection M2; lia]|].
      destruct (c =? 10)%N; [injection M2; lia|discriminate EC].
    + cbn [negb] in K3. apply (f_equal (@length _)) in K3. cbn [length] in K3. pose proof (dropw_le not_eol (skipn (j + 1) d)). lia.
Qed.
Lemma skip_comments_ok o (d : bytes) : raw_skip_comments o d (length d) = Some (skip_comment_lines o d).
Proof.
  unfold raw_skip_comments, skip_comment_lines. destruct d as [|x d']; [reflexivity|]. set (d := x :: d') in *. change (length d =? 0) with false. cbn [orb].
  destruct (comment_chars o); [reflexivity|]. change d with (skipn 0 d) at 5. apply skip_loop_ok; lia.
Qed.

Lemma slice_cut (s e : nat) (d : bytes) : firstn (e - s) (skipn s d) = slice s e d.
Proof. reflexivity. Qed.
Lemma add_row_ok o (d : bytes) s e rows : e <= length d -> raw_add_row o d s e rows = Some (add_row o d s e rows).
Proof.
  intros H. unfold raw_add_row, add_row. destruct (Nat.ltb_spec s e); [|reflexivity]. rewrite load_some by lia.
  assert (L : length (firstn (e - s) (skipn s d)) = e - s) by (apply firstn_length_le; rewrite skipn_length; lia).
  rewrite <- L at 2. rewrite comment_ok. cbn [andb]. rewrite slice_cut. reflexivity.
Qed.
Lemma nth_rd (d : bytes) i : i < length d -> rd d i = Some (nth i d 0%N).
Proof. intros H. apply nth_error_nth'. exact H. Qed.
Lemma rows_loop_ok o dia (d : bytes) : forall f i start inq rows, i <= length d -> length d - i <= f ->
  raw_rows_loop f o dia d (length d) i start inq rows = Some (rows_loop o dia d (skipn i d) i start inq rows).
Proof.
  induction f as [|f IH]; intros i start inq rows L Hf; cbn [raw_rows_loop].
  - replace (i <? length d) with false by lia. rewrite skipn_all2 by lia. reflexivity.
  - destruct (pos d i) as [G E|c G R E]; [rewrite G, E; reflexivity|]. rewrite G, R, E. apply Nat.ltb_lt in G. cbn [rows_loop].
    assert (P1 : S i = i + 1) by lia. assert (P2 : S (S i) = i + 1 + 1) by lia. rewrite P2, P1.
    rewrite also_peek_is, peek_is.
    destruct (pos d (i + 1)) as [G2 E2|c2 G2 R2 E2]; rewrite G2.
    + rewrite andb_false_r. apply Nat.ltb_ge in G2.
      rewrite E2. cbn [next_is]. rewrite !andb_false_r. cbn [negb]. rewrite !andb_true_r.
      match goal with |- ?a = Some (if _ then ?b else ?b) => assert (X : a = Some b); [|rewrite X; destruct (is_escape dia c); reflexivity] end.
      rewrite <- E2. destruct (is_quote dia c); [apply IH; lia|]. destruct inq; cbn [negb]; [apply IH; lia|]. destruct (c =? 10)%N eqn:C10.
      * assert (X : also (start <? i) (let? x := rd d (i - 1) in Some (x =? 13)%N) = Some ((start <? i) && (nth (i - 1) d 0 =? 13)%N)).
        { destruct (start <? i) eqn:S1; [|reflexivity]. cbn [also]. rewrite nth_rd by lia. reflexivity. }
        rewrite X, add_row_ok by (destruct (_ && _); lia). destruct (max_rows o <=? _); [reflexivity|]. apply IH; lia.
      * destruct (c =? 13)%N; cbn [also]; [|apply IH; lia]. rewrite add_row_ok by lia. destruct (max_rows o <=? _); [reflexivity|]. apply IH; lia.
    + apply Nat.ltb_lt in G2. rewrite andb_true_r. rewrite E2. cbn [next_is]. destruct (is_escape dia c); [apply IH; lia|].
      destruct (is_quote dia c); [destruct (double_quote dia && (c2 =? quote_char dia)%N); [|rewrite <- E2]; apply IH; lia|]. rewrite <- E2.
      destruct inq; cbn [negb]; [apply IH; lia|]. destruct (c =? 10)%N eqn:C10.
      * assert (X : also (start <? i) (let? x := rd d (i - 1) in Some (x =? 13)%N) = Some ((start <? i) && (nth (i - 1) d 0 =? 13)%N)).
        { destruct (start <? i) eqn:S1; [|reflexivity]. cbn [also]. rewrite nth_rd by lia. reflexivity. }
        rewrite X, add_row_ok by (destruct (_ && _); lia). destruct (max_rows o <=? _); [reflexivity|]. apply IH; lia.
      * destruct (c =? 13)%N; cbn [also andb]; [|apply IH; lia]. destruct (c2 =? 10)%N; cbn [negb]; [apply IH; lia|].
        rewrite add_row_ok by lia. destruct (max_rows o <=? _); [reflexivity|]. apply IH; lia.
Qed.
Lemma find_rows_raw o dia (d : bytes) : raw_find_rows o dia d (length d) = Some (find_rows o dia d).
Proof.
  unfold raw_find_rows, find_rows. destruct d as [|x d']; [reflexivity|]. set (d := x :: d') in *. change (length d =? 0) with false. cbv iota.
  rewrite rows_loop_ok by lia. change (skipn 0 d) with d. destruct (rows_loop o dia d d 0 0 false []) as [rows start].
  destruct ((start <? length d) && (length rows <? max_rows o)) eqn:E; [|reflexivity]. apply andb_prop in E as [E _]. apply Nat.ltb_lt in E.
  rewrite load_some by lia. assert (L : length (firstn (length d - start) (skipn start d)) = length d - start) by (apply firstn_length_le; rewrite skipn_length; lia).
  rewrite <- L at 2. rewrite comment_ok, slice_cut. destruct (negb _); reflexivity.
Qed.
