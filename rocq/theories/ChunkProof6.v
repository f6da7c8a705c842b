(** C08 in both directions. *)
From Verif Require Import Base WordsModel ChunkSpec ChunkModel ChunkProof ChunkProof2 ChunkProof3 ChunkProof4.

Lemma inside_at_skipn_any q data s i :
  inside_at false q data (s + i) = xorb (inside_at false q data s) (inside_at false q (skipn s data) i).
Proof.
  unfold inside_at, quotes_before. rewrite !xorb_false_l.
  assert (E : firstn (s + i) data = firstn s data ++ firstn i (skipn s data)).
  { clear. revert data; induction s as [|s IH]; intros data; [reflexivity|].
    destruct data; [destruct i; reflexivity|]. cbn. f_equal. apply IH. }
  rewrite E, count_occ_app, Nat.odd_add. reflexivity.
Qed.

(** Where the search from [s] stops, the buffer is inside quotes exactly when it is so at [s]. *)
Lemma found_row_end_state q data s : spec_find_row_end q data s < length data ->
  let e := spec_find_row_end q data s in
  line_end_at data (e - 1) = true /\ inside_at false q data (e - 1) = inside_at false q data s.
Proof.
  unfold spec_find_row_end. destruct (row_ends false q (skipn s data)) as [|i r] eqn:E; [lia|]. intros Hlt.
  assert (Hin : In i (row_ends false q (skipn s data))) by (rewrite E; left; reflexivity).
  apply filter_In in Hin as [Hi Hin]. apply andb_true_iff in Hin as [Ha Hb]. apply negb_true_iff in Hb.
  rewrite line_end_at_skipn in Ha. replace (s + S i - 1) with (s + i) by lia. split; [exact Ha|].
  rewrite inside_at_skipn_any, Hb, xorb_false_r. reflexivity.
Qed.

Lemma boundary_exactly (lanes : nat) (clmul : bool) (q : byte) (data : bytes) (data_start chunk_size : nat)
         (ranges : list (nat * nat)) (s e : nat) :
    1 <= lanes -> Nat.divide lanes 64 -> q <> LF -> q <> CR ->
    chunk_ranges lanes clmul q data data_start chunk_size = Some ranges ->
    In (s, e) ranges -> e < length data ->
    line_end_at data (e - 1) = true /\
    (In (e - 1) (row_ends false q data) <-> inside_at false q data (s + chunk_size) = false).
Proof.
  intros H1 H2 H3 H4 Hr Hin He.
  destruct (chunk_ranges_loop_ends _ chunk_size _ (fre_ok_find_row_end lanes clmul q data (conj H1 H2) H3 H4) _ _ _ Hr _ _ Hin)
    as [->|[_ Hf]]; [lia|].
  rewrite find_row_end_spec in Hf; [|split; assumption|assumption|assumption]. injection Hf as <-.
  destruct (found_row_end_state q data (s + chunk_size) He) as (A & B). split; [exact A|].
  unfold row_ends. rewrite filter_In, in_seq. cbv zeta in A, B. rewrite A, B. cbn [andb]. rewrite negb_true_iff. split; [tauto|].
  intros K. split; [lia|exact K].
Qed.
