(** The allocation budget of chunk sizing, exactly. *)
From Verif Require Import Base ChunkModel ChunkProof ChunkProof2 ChunkProof3 ChunkProof4 ChunkProof5.
From Coq Require Import ZifyN.
Local Open Scope N_scope.

Lemma budget_exactly f c t : 1 <= c -> 1 <= t -> t * 16 < 2 ^ 64 ->
  (f / calculate_chunk_size f c t * c <= 500000 <->
   if c <=? 500000 then f / 4194304 * c <= 500000 else f < 1048576).
Proof.
  intros Hc Ht Hw. destruct (calculate_chunk_size_value f c t Hc Ht Hw) as (n & Hn & En & ->).
  assert (D : forall a b, b <> 0 -> b * (a / b) <= a < b * (a / b) + b).
  { intros a b Hb. pose proof (N.div_mod a b Hb). pose proof (N.mod_lt a b Hb). lia. }
  pose proof (D f n ltac:(lia)) as (D1 & D2).
  destruct (N.leb_spec c 500000) as [G|G].
  - assert (NC : n * c <= 500000).
    { pose proof (D 500000 c ltac:(lia)) as (E1 & _).
      assert (1 <= 500000 / c) by (apply N.div_le_lower_bound; lia).
      assert (n <= 500000 / c) by lia. nia. }
    assert (Ln : n <= 500000) by nia.
    destruct (N.le_gt_cases 4194304 (f / n)) as [B|B].
    + replace (N.min 4194304 (N.max 1048576 (f / n))) with 4194304 by lia. reflexivity.
    + assert (LE : f / N.min 4194304 (N.max 1048576 (f / n)) <= n).
      { destruct (N.le_gt_cases (f / n) 1048576) as [S|S].
        - replace (N.min 4194304 (N.max 1048576 (f / n))) with 1048576 by lia.
          apply N.lt_succ_r. apply N.div_lt_upper_bound; [lia|]. assert (n * (f / n) <= n * 1048576) by (apply N.mul_le_mono_l; exact S). lia.
        - replace (N.min 4194304 (N.max 1048576 (f / n))) with (f / n) by lia.
          apply N.lt_succ_r. apply N.div_lt_upper_bound; nia. }
      split; intros _.
      * assert (f / 4194304 <= n) by (apply N.lt_succ_r, N.div_lt_upper_bound; nia). nia.
      * nia.
  - assert (N1 : n = 1).
    { rewrite (N.div_small 500000 c) in En by lia. lia. }
    rewrite N1, N.div_1_r.
    destruct (N.lt_ge_cases f 1048576) as [S|S].
    + rewrite N.div_small by lia. split; intros; lia.
    + split; [|lia]. intros H. exfalso.
      assert (1 <= f / N.min 4194304 (N.max 1048576 f)) by (apply N.div_le_lower_bound; lia). nia.
Qed.
