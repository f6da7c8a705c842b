(** Dialect detection with explicit reads computes what the list model computes. *)
From Coq Require Import SpecFloat.
From Verif Require Import Base RawModel RawProof RawModel4 DialectModel.
From Verif Require ChunkModel ChunkProof2 ChunkProof3.

Lemma rd_some (d : bytes) i : i < length d -> exists c, rd d i = Some c /\ skipn i d = c :: skipn (i + 1) d.
Proof. intros H. destruct (pos d i) as [E _|c _ E1 E2]; [apply Nat.ltb_ge in E; lia|eauto]. Qed.
Lemma load_some (d : bytes) i n : i + n <= length d -> load d i n = Some (firstn n (skipn i d)).
Proof. intros H. unfold load. apply Nat.leb_le in H. rewrite H. reflexivity. Qed.
Lemma peek_is (d : bytes) i c : peek d (length d) i c = Some (next_is (skipn i d) c).
Proof. unfold peek. destruct (pos d i) as [-> ->|x -> -> ->]; reflexivity. Qed.
Lemma also_peek_is b (d : bytes) i c : also b (peek d (length d) i c) = Some (b && next_is (skipn i d) c).
Proof. rewrite peek_is. destruct b; reflexivity. Qed.
Lemma more (d : bytes) i : (i <? length d) = match skipn i d with [] => false | _ => true end.
Proof. destruct (pos d i) as [-> ->|c -> _ ->]; reflexivity. Qed.

(** The bytes from [i] to [n]. *)
Definition upto (d : bytes) (n i : nat) : bytes := firstn (n - i) (skipn i d).
Lemma upto_end (d : bytes) n i : n <= i -> upto d n i = [].
Proof. intros H. unfold upto. replace (n - i) with 0 by lia. reflexivity. Qed.
Lemma upto_cons (d : bytes) n i : n <= length d -> i < n -> exists c, rd d i = Some c /\ upto d n i = c :: upto d n (i + 1).
Proof.
  intros L H. destruct (rd_some d i) as (c & A & B); [lia|]. exists c. split; [exact A|]. unfold upto. rewrite B.
  replace (n - i) with (S (n - (i + 1))) by lia. reflexivity.
Qed.
Lemma upto_all (d : bytes) i : upto d (length d) i = skipn i d.
Proof. unfold upto. apply firstn_all2. rewrite skipn_length. lia. Qed.
Lemma upto_length (d : bytes) n i : n <= length d -> length (upto d n i) = n - i.
Proof. intros H. unfold upto. destruct (Nat.leb_spec n i); [replace (n - i) with 0 by lia; reflexivity|]. apply firstn_length_le. rewrite skipn_length. lia. Qed.
Fixpoint dropw (p : byte -> bool) (l : bytes) : bytes := match l with [] => [] | c :: r => if p c then dropw p r else l end.
Lemma while_ok p (d : bytes) n : n <= length d -> forall f i, n - i < f -> exists j,
  raw_while f p d n i = Some j /\ i <= j /\ (i <= n -> j <= n) /\ upto d n j = dropw p (upto d n i).
Proof.
  intros L. induction f as [|f IH]; intros i Hf; [lia|]. cbn [raw_while]. destruct (Nat.ltb_spec i n) as [G|G].
  - destruct (upto_cons d n i L G) as (c & A & B). rewrite A, B. cbn [dropw]. destruct (p c).
    + destruct (IH (i + 1)) as (j & J1 & J2 & J3 & J4); [lia|]. exists j. repeat split; [exact J1|lia|intros; apply J3; lia|exact J4].
    + exists i. repeat split; [lia|lia|exact B].
  - exists i. rewrite (upto_end d n i G). repeat split; [lia|lia].
Qed.
Lemma while_all p (d : bytes) i : i <= length d -> exists j, raw_while (S (length d)) p d (length d) i = Some j /\ i <= j <= length d /\ skipn j d = dropw p (skipn i d).
Proof. intros H. destruct (while_ok p d (length d) (le_n _) (S (length d)) i) as (j & A & B & C & D); [lia|]. exists j. rewrite !upto_all in D. repeat split; auto. Qed.
Lemma dropw_le p l : length (dropw p l) <= length l.
Proof. induction l as [|c l IH]; [apply le_n|]. cbn [dropw]. destruct (p c); cbn [length]; lia. Qed.
Lemma drop_blanks_w l : drop_blanks l = dropw blank l. Proof. induction l as [|c l IH]; [reflexivity|]. cbn. rewrite IH. reflexivity. Qed.
Lemma drop_spaces_w l : drop_spaces l = dropw space l. Proof. induction l as [|c l IH]; [reflexivity|]. cbn. rewrite IH. reflexivity. Qed.
Lemma drop_digits_w l : drop_digits l = dropw digit l. Proof. induction l as [|c l IH]; [reflexivity|]. cbn. rewrite IH. reflexivity. Qed.

Lemma firstn_snoc_nth {A} (l : list A) n x : nth_error l n = Some x -> firstn (S n) l = firstn n l ++ [x].
Proof. revert n; induction l as [|y l IH]; intros [|n] H; try discriminate H; [injection H as ->; reflexivity|]. cbn [firstn app]. rewrite <- (IH n H). reflexivity. Qed.
Lemma nth_skip {A} (l : list A) i k : nth_error (skipn i l) k = nth_error l (i + k).
Proof. revert l; induction i as [|i IH]; intros l; [reflexivity|]. destruct l; [destruct k; reflexivity|apply IH]. Qed.
Lemma back_ok p (d : bytes) start : forall f stop, stop < f -> start <= stop -> stop <= length d -> exists e,
  raw_while_back f p d start stop = Some e /\ start <= e <= stop /\ upto d e start = rev (dropw p (rev (upto d stop start))).
Proof.
  induction f as [|f IH]; intros stop Hf H1 H2; [lia|]. cbn [raw_while_back]. destruct (Nat.ltb_spec start stop) as [G|G].
  - destruct (rd_some d (stop - 1)) as (c & A & _); [lia|]. rewrite A.
    assert (U : upto d stop start = upto d (stop - 1) start ++ [c]).
    { unfold upto. replace (stop - start) with (S (stop - 1 - start)) by lia. apply firstn_snoc_nth. rewrite nth_skip. replace (start + (stop - 1 - start)) with (stop - 1) by lia. exact A. }
    rewrite U, rev_app_distr. cbn [rev app dropw]. destruct (p c).
    + destruct (IH (stop - 1)) as (e & E1 & E2 & E3); [lia|lia|lia|]. exists e. repeat split; [exact E1|lia|lia|exact E3].
    + exists stop. repeat split; try lia. cbn [rev]. rewrite rev_involutive. exact U.
  - exists stop. replace stop with start by lia. rewrite upto_end by lia. repeat split; try lia; reflexivity.
Qed.
(** Trimming at both ends. *)
Lemma trim_ok p (d : bytes) : exists start stop, raw_while (S (length d)) p d (length d) 0 = Some start /\
  raw_while_back (S (length d)) p d start (length d) = Some stop /\ start <= stop <= length d /\
  upto d stop start = rev (dropw p (rev (dropw p d))).
Proof.
  destruct (while_all p d 0) as (s & A & B & C); [lia|]. change (skipn 0 d) with d in C.
  destruct (back_ok p d s (S (length d)) (length d)) as (e & E1 & E2 & E3); [lia|lia|lia|].
  exists s, e. repeat split; [exact A|exact E1|lia|lia|]. rewrite E3, upto_all, C. reflexivity.
Qed.

Lemma comment_ok o row : raw_is_comment_line o row (length row) = Some (is_comment_line o row).
Proof.
  unfold raw_is_comment_line, is_comment_line. destruct row as [|x row']; [rewrite !orb_true_r; reflexivity|]. set (row := x :: row').
  change (length row =? 0) with false. rewrite !orb_false_r. destruct (comment_chars o) as [|cc ccs] eqn:E; [reflexivity|].
  destruct (while_all blank row 0) as (j & -> & B & C); [lia|]. change (skipn 0 row) with row in C. rewrite drop_blanks_w, <- C.
  destruct (pos row j) as [G ->|c G R ->].
  - apply Nat.ltb_ge in G. rewrite (proj2 (Nat.leb_le _ _) G). reflexivity.
  - apply Nat.ltb_lt in G. rewrite (proj2 (Nat.leb_gt _ _) G), R. reflexivity.
Qed.

Lemma past_blanks_at (d : bytes) : forall l i, skipn i d = l -> past_blanks l i = (dropw blank l, i + (length l - length (dropw blank l))).
Proof.
  intros l. revert l d. induction l as [|c l IH]; intros d i H; [cbn; rewrite Nat.add_0_r; reflexivity|]. cbn [past_blanks dropw].
  pose proof (dropw_le blank l). destruct (blank c).
  - rewrite (IH d (S i)); [f_equal; cbn [length]; lia|]. destruct (pos d i) as [_ E|x _ _ E]; rewrite H in E; [discriminate E|]. injection E as _ E. rewrite E. f_equal. lia.
  - f_equal. cbn [length]. lia.
Qed.
Lemma to_eol_at : forall l i, to_eol l i = (dropw (fun c => negb ((c =? 10) || (c =? 13))%N) l, i + (length l - length (dropw (fun c => negb ((c =? 10) || (c =? 13))%N) l))).
Proof.
  induction l as [|c l IH]; intros i; [cbn; rewrite Nat.add_0_r; reflexivity|]. cbn [to_eol dropw]. set (P := fun c => negb ((c =? 10) || (c =? 13))%N) in *.
  pose proof (dropw_le P l). change (negb ((c =? 10) || (c =? 13))%N) with (P c). destruct ((c =? 10) || (c =? 13))%N eqn:E; unfold P at 1 3; rewrite E; cbn [negb].
  - f_equal. lia.
  - rewrite IH. f_equal. cbn [length]. lia.
Qed.
Lemma skip_pos (d : bytes) i j : i <= length d -> j <= length d -> skipn j d = skipn i d -> i = j.
Proof. intros A B H. apply (f_equal (@length _)) in H. rewrite !skipn_length in H. lia. Qed.
Lemma drop_pos p (d : bytes) i j : i <= j -> j <= length d -> skipn j d = dropw p (skipn i d) -> j = i + (length (skipn i d) - length (dropw p (skipn i d))).
Proof. intros A B H. rewrite <- H, !skipn_length. lia. Qed.
Lemma past_eol_ok (d : bytes) i : i <= length d -> exists j, raw_past_eol d (length d) i = Some j /\ past_eol (skipn i d) i = (skipn j d, j) /\ i <= j <= length d.
Proof.
  intros H. unfold raw_past_eol. destruct (pos d i) as [G E|c G R E].
  - rewrite G. exists i. rewrite E. repeat split; lia.
  - rewrite G, R, peek_is. apply Nat.ltb_lt in G. destruct (c =? 13)%N eqn:C13.
    + destruct (pos d (i + 1)) as [G2 E2|c2 G2 _ E2].
      * exists (i + 1). rewrite E, E2. cbn [next_is past_eol]. rewrite C13. repeat split; try lia. f_equal. lia.
      * apply Nat.ltb_lt in G2. rewrite E, E2. cbn [next_is past_eol]. rewrite C13. destruct (c2 =? 10)%N.
        -- exists (i + 1 + 1). repeat split; try lia. f_equal. lia.
        -- exists (i + 1). rewrite E2. repeat split; try lia. f_equal. lia.
    + destruct (c =? 10)%N eqn:C10.
      * exists (i + 1). rewrite E. cbn [past_eol]. rewrite C13, C10. repeat split; try lia. f_equal. lia.
      * exists i. rewrite E. cbn [past_eol]. rewrite C13, C10. repeat split; lia.
Qed.
