(** C51: for which files the documented budget is kept. *)
From Verif Require Import Base ChunkModel ChunkProof7.
Local Open Scope N_scope.

(** options.h:60 promises n_chunks * n_cols <= 500000.  With at most 500000
    columns that holds exactly when it holds for chunks of the largest size;
    with more columns exactly when there is no whole chunk. *)
Theorem C51_budget_exactly : forall file_size n_cols n_threads : N,
  1 <= n_cols -> 1 <= n_threads -> n_threads * 16 < 2 ^ 64 ->
  (file_size / calculate_chunk_size file_size n_cols n_threads * n_cols <= 500000 <->
   if n_cols <=? 500000 then file_size / 4194304 * n_cols <= 500000 else file_size < 1048576).
Proof. exact budget_exactly. Qed.
Print Assumptions C51_budget_exactly.
(** A gigabyte of 1000 columns, read by 8 threads, stays within the budget;
    ten gigabytes do not. *)
Example C51_budget_meets :
  2 ^ 30 / calculate_chunk_size (2 ^ 30) 1000 8 * 1000 = 256000 /\
  10 * 2 ^ 30 / calculate_chunk_size (10 * 2 ^ 30) 1000 8 * 1000 = 2560000.
Proof. vm_compute. auto. Qed.
