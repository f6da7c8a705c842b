(** C30 - C33, C64: run-length and bit-packed encodings. *)
From Verif Require Import Base WordsModel ThriftSpec BuffersSpec BuffersModel BuffersObs BuffersReach BuffersReachProof
  RleSpec RleModel RleProof RleProof2 RleProof3.

(** C30.  The definition levels of any validity bitmap, however it was built, followed by anything. *)
Theorem C30_definition_levels_round_trip : forall nulls flags max rest,
  flags_built nulls flags -> flags <> [] -> (N.of_nat (length flags) < 2 ^ 31)%N -> (1 <= max < 256)%N ->
  exists bs, encode_def_levels_hybrid_arrow nulls max (null_count_fast nulls) = Some bs /\
             decode_levels max (length flags) (bs ++ rest) = Some (levels max flags, rest).
Proof.
  intros nulls flags max rest Hb. pose proof (flags_built_shows _ _ Hb) as Hs. intros Hne Hl Hm.
  apply (def_levels_round_trip nulls flags max _ rest); try assumption. apply Hs.
Qed.
Print Assumptions C30_definition_levels_round_trip.

(** Nothing is written for an empty column. *)
Theorem C30_empty : forall nulls max null_count, flags_built nulls [] ->
  encode_def_levels_hybrid_arrow nulls max null_count = Some [].
Proof.
  intros nulls max null_count Hb. pose proof (flags_built_shows _ _ Hb) as [Hs _].
  unfold encode_def_levels_hybrid_arrow. rewrite Hs. reflexivity.
Qed.
Print Assumptions C30_empty.

Definition C30_flags := [true; false; true; true; true; true; true; true; true; true; true; true; true; true; true; true; true].
Example C30_meets :
  let m := Bitmap [253; 255; 1]%N 17 1 true in
  flags_built m C30_flags /\
  encode_def_levels_hybrid_arrow m 1 (null_count_fast m) = Some [4; 0; 0; 0; 3; 253; 18; 1]%N /\
  decode_levels 1 17 [4; 0; 0; 0; 3; 253; 18; 1; 99]%N = Some (levels 1 C30_flags, [99%N]).
Proof.
  repeat split.
  exists (New :: map (Push 0) C30_flags), [C30_flags], [Bitmap [253; 255; 1]%N 17 1 true], 0. repeat split.
Qed.
Print Assumptions C30_meets.

(** C31.  Dictionary index pages: the width byte, then the indices of the rows that are not null. *)
Theorem C31_dictionary_indices_round_trip : forall indices nulls flags bw rest,
  flags_built nulls flags -> length flags = length indices -> bw <= 32 ->
  Forall (fun z => (0 <= z < 2 ^ Z.of_nat bw)%Z) (select flags indices) ->
  exists bs, encode_dictionary_indices indices nulls bw = Some bs /\
    (select flags indices = [] -> bs = []) /\
    (select flags indices <> [] ->
       exists data, bs = N.of_nat bw :: data /\
         decode_hybrid (N.of_nat bw) (length (select flags indices)) (data ++ rest)
         = Some (map Z.to_N (select flags indices), rest)).
Proof. intros indices nulls flags bw rest Hb. apply dict_indices_round_trip, flags_built_shows, Hb. Qed.
Print Assumptions C31_dictionary_indices_round_trip.

(** C33. *)
Theorem C33_rle_round_trip : forall bw vs rest,
  1 <= bw <= 32 -> Forall (fun v => (v < 2 ^ N.of_nat bw)%N) vs ->
  decode_hybrid (N.of_nat bw) (length vs) (rle_encode bw vs ++ rest) = Some (vs, rest).
Proof. exact rle_encode_round_trip. Qed.
Print Assumptions C33_rle_round_trip.

Example C31_meets :
  let m := Bitmap [253]%N 4 1 true in
  flags_built m [true; false; true; true] /\
  encode_dictionary_indices [2; -1; 0; 3]%Z m 2 = Some [2; 3; 50; 0]%N /\
  select [true; false; true; true] [2; -1; 0; 3]%Z = [2; 0; 3]%Z /\
  decode_hybrid 2 3 [3; 50; 0]%N = Some ([2; 0; 3]%N, []).
Proof.
  repeat split.
  exists (New :: map (Push 0) [true; false; true; true]), [[true; false; true; true]], [Bitmap [253]%N 4 1 true], 0. repeat split.
Qed.
Print Assumptions C31_meets.

Theorem C33_levels_round_trip : forall nulls max rest, (1 <= max < 256)%N ->
  decode_hybrid (level_width max) (length nulls) (encode_definition_levels_rle nulls max ++ rest)
  = Some (levels max (map negb nulls), rest).
Proof. exact rle_levels_round_trip. Qed.
Print Assumptions C33_levels_round_trip.

Example C33_meets : decode_hybrid 3 12 (rle_encode 3 [1; 5; 5; 5; 5; 5; 5; 5; 5; 5; 7; 0]%N) = Some ([1; 5; 5; 5; 5; 5; 5; 5; 5; 5; 7; 0]%N, []).
Proof. vm_compute. reflexivity. Qed.
Print Assumptions C33_meets.

(** C32, full claim: like C33 for the hybrid encoder.  It is false: a long run that does not
    start on a multiple of eight is preceded by padding the reader takes for values. *)
Theorem C32_hybrid_encoder_refuted : exists bw vs,
  Forall (fun v => (v < 2 ^ N.of_nat bw)%N) vs /\
  decode_hybrid (N.of_nat bw) (length vs) (encode_hybrid_rle bw vs) <> Some (vs, []).
Proof.
  exists 1, (0%N :: repeat 1%N 8). split; [repeat constructor|]. vm_compute. discriminate.
Qed.
Print Assumptions C32_hybrid_encoder_refuted.

(** Proved: sequences without eight equal values in a row ... *)
Theorem C32_hybrid_encoder_partial : forall bw vs rest, bw <= 32 ->
  Forall (fun v => (v < 2 ^ N.of_nat bw)%N) vs -> no_eight_equal vs ->
  decode_hybrid (N.of_nat bw) (length vs) (encode_hybrid_rle bw vs ++ rest) = Some (vs, rest).
Proof. exact hybrid_short_round_trip. Qed.
Print Assumptions C32_hybrid_encoder_partial.

(** ... and constant sequences. *)
Theorem C32_hybrid_encoder_constant_partial : forall bw v n rest, bw <= 32 -> (v < 2 ^ N.of_nat bw)%N ->
  decode_hybrid (N.of_nat bw) n (encode_hybrid_rle bw (repeat v n) ++ rest) = Some (repeat v n, rest).
Proof. exact hybrid_const_round_trip. Qed.
Print Assumptions C32_hybrid_encoder_constant_partial.

Example C32_meets :
  decode_hybrid 2 4 (encode_hybrid_rle 2 [3; 0; 1; 1]%N) = Some ([3; 0; 1; 1]%N, []) /\
  decode_hybrid 2 70 (encode_hybrid_rle 2 (repeat 3%N 70)) = Some (repeat 3%N 70, []).
Proof. vm_compute. auto. Qed.
Print Assumptions C32_meets.

(** C64, full claim: the definition levels the plain-vector page writers put into a page give back
    the null pattern.  False: one null and eight values come back as eight nulls and one value. *)
Theorem C64_writer_levels_refuted : exists nulls bs,
  bs = encode_def_levels_hybrid nulls 1 (count_nulls nulls) /\
  nulls = true :: repeat false 8 /\
  decode_levels 1 (length nulls) bs = Some (levels 1 (repeat false 8 ++ [true]), []).
Proof. exists (true :: repeat false 8). eexists. repeat split. Qed.
Print Assumptions C64_writer_levels_refuted.

(** Proved: no nulls, only nulls, or never eight cells of the same kind in a row. *)
Theorem C64_writer_levels_partial : forall nulls max rest bs,
  nulls <> [] -> (N.of_nat (length nulls) < 2 ^ 31)%N -> (1 <= max < 256)%N ->
  count_nulls nulls = 0 \/ count_nulls nulls = length nulls \/ no_eight_equal (levels max (map negb nulls)) ->
  encode_def_levels_hybrid nulls max (count_nulls nulls) = bs -> (N.of_nat (length bs) < 2 ^ 32)%N ->
  decode_levels max (length nulls) (bs ++ rest) = Some (levels max (map negb nulls), rest).
Proof. exact legacy_round_trip. Qed.
Print Assumptions C64_writer_levels_partial.

Example C64_meets :
  decode_levels 1 3 (encode_def_levels_hybrid_legacy [true; false; true] 1) = Some (levels 1 [false; true; false], []).
Proof. vm_compute. reflexivity. Qed.
Print Assumptions C64_meets.
