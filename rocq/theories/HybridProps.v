(** C32, C64: exactly what a reader sees of the hybrid encoder's output. *)
From Verif Require Import Base BuffersModel RleSpec RleModel RleProof RleProof2 RleProof3 HybridSpec HybridProof HybridProof2.

(** The encoder's output is always readable; the reader sees the sequence with each
    group of literals filled up with zeros, cut off at the number of values. *)
Theorem C32_what_is_read : forall bw vs rest, bw <= 57 -> Forall (fun v => (v < 2 ^ N.of_nat bw)%N) vs ->
  concat (map HybridSpec.content (pieces vs)) = vs /\
  exists left, decode_hybrid (N.of_nat bw) (length vs) (encode_hybrid_rle bw vs ++ rest)
               = Some (firstn (length vs) (concat (map shown (pieces vs))), left).
Proof.
  intros bw vs rest H1 H2. split; [apply pieces_content|]. destruct (hybrid_read bw vs rest H1 H2) as (r & E & _). exists r. exact E.
Qed.
Print Assumptions C32_what_is_read.

(** Exactly when the values come back: each group of literals whose length is not a
    multiple of eight is the last thing, or only zeros follow it. *)
Theorem C32_round_trip_exactly : forall bw vs rest, bw <= 57 -> Forall (fun v => (v < 2 ^ N.of_nat bw)%N) vs ->
  ((exists left, decode_hybrid (N.of_nat bw) (length vs) (encode_hybrid_rle bw vs ++ rest) = Some (vs, left)) <->
   harmless (pieces vs)).
Proof. exact hybrid_round_trip_iff. Qed.
Print Assumptions C32_round_trip_exactly.

(** ... and when also what follows is read from the right place. *)
Theorem C32_aligned_partial : forall bw vs rest, bw <= 57 -> Forall (fun v => (v < 2 ^ N.of_nat bw)%N) vs ->
  aligned (pieces vs) ->
  decode_hybrid (N.of_nat bw) (length vs) (encode_hybrid_rle bw vs ++ rest) = Some (vs, rest).
Proof. exact hybrid_aligned. Qed.
Print Assumptions C32_aligned_partial.

(** The definition levels of the plain-vector writers: complete when there is no null
    or when literals are aligned; the values come back exactly when they are harmless. *)
Theorem C64_aligned_levels_partial : forall nulls max rest bs,
  nulls <> [] -> (N.of_nat (length nulls) < 2 ^ 31)%N -> (1 <= max < 256)%N ->
  count_nulls nulls = 0 \/ aligned (pieces (levels max (map negb nulls))) ->
  encode_def_levels_hybrid nulls max (count_nulls nulls) = bs -> (N.of_nat (length bs) < 2 ^ 32)%N ->
  decode_levels max (length nulls) (bs ++ rest) = Some (levels max (map negb nulls), rest).
Proof. exact levels_aligned. Qed.
Print Assumptions C64_aligned_levels_partial.

Theorem C64_levels_exactly : forall nulls max data,
  nulls <> [] -> count_nulls nulls <> 0 -> (1 <= max < 256)%N ->
  encode_def_levels_hybrid nulls max (count_nulls nulls) = u32_bytes (N.of_nat (length data)) ++ data ->
  (N.of_nat (4 + length data) < 2 ^ 32)%N ->
  ((exists left, decode_hybrid (level_width max) (length nulls) data = Some (levels max (map negb nulls), left)) <->
   harmless (pieces (levels max (map negb nulls)))).
Proof. exact levels_iff. Qed.
Print Assumptions C64_levels_exactly.

(** A run after eight literals is fine, after one it is not, and zeros after one are. *)
Example C32_hybrid_meets :
  pieces ([1; 2; 3; 1; 2; 3; 1; 2] ++ repeat 3 9)%N = [Lit [1; 2; 3; 1; 2; 3; 1; 2]%N; Run 3%N 9] /\
  pieces (1 :: repeat 3 9)%N = [Lit [1]%N; Run 3%N 9] /\
  decode_hybrid 2 17 (encode_hybrid_rle 2 ([1; 2; 3; 1; 2; 3; 1; 2] ++ repeat 3 9)%N) = Some (([1; 2; 3; 1; 2; 3; 1; 2] ++ repeat 3 9)%N, []) /\
  decode_hybrid 2 10 (encode_hybrid_rle 2 (1 :: repeat 3 9)%N) <> Some ((1 :: repeat 3 9)%N, []) /\
  pieces (1 :: repeat 0 9)%N = [Lit [1]%N; Run 0%N 9] /\
  (exists r, decode_hybrid 2 10 (encode_hybrid_rle 2 (1 :: repeat 0 9)%N) = Some ((1 :: repeat 0 9)%N, r)).
Proof. vm_compute. repeat split; try discriminate. eexists. reflexivity. Qed.
Print Assumptions C32_hybrid_meets.
Example C64_hybrid_meets : let nulls := [true; false; true; false; true; false; true; false] ++ repeat false 9 in
  pieces (levels 1 (map negb nulls)) = [Lit [0; 1; 0; 1; 0; 1; 0]%N; Run 1%N 10] /\
  pieces (levels 1 (map negb (true :: nulls))) = [Lit [0; 0; 1; 0; 1; 0; 1; 0]%N; Run 1%N 10] /\
  decode_levels 1 18 (encode_def_levels_hybrid (true :: nulls) 1 5) = Some (levels 1 (map negb (true :: nulls)), []).
Proof. vm_compute. repeat split. Qed.
Print Assumptions C64_hybrid_meets.
