(** C34, C54: delta encodings, read back by an independent reader of the format. *)
From Verif Require Import Base VarintSpec VarintModel ThriftSpec RleSpec RleProof DeltaSpec DeltaModel DeltaProof DeltaProof2.

(** C34 for int32 columns.  Missing from the full claim: sequences whose last block is neither full
    nor exactly 96 long, and deltas 2^32 or more apart in one block (false for those, below). *)
Theorem C34_int32_partial : forall values,
  values <> [] -> (N.of_nat (length values) < 2 ^ 64)%N -> Forall int32 values ->
  spread_below (2 ^ 32) values -> in_last_block values = 0 \/ in_last_block values = 96 ->
  exists b, encode_delta values = Encoded b /\ forall rest, read_delta 32 (b ++ rest) = Some (values, rest).
Proof.
  intros values NE HN HI HS HT. apply (round_trip 32 32); try assumption; try lia.
  - eapply Forall_impl; [|exact HI]. apply wrap_32.
  - eapply Forall_impl; [|exact HI]. intros z [A B]. unfold int64. lia.
  - eapply Forall_impl; [|apply (differences_range (- 2 ^ 31) (2 ^ 31)); exact HI]. intros z Hz. cbv beta in Hz. unfold int64. lia.
Qed.
Print Assumptions C34_int32_partial.

(** C34 for int64 columns: also no overflow in the deltas, and less than 2^58 between the deltas of
    one block. *)
Theorem C34_int64_partial : forall values,
  values <> [] -> (N.of_nat (length values) < 2 ^ 64)%N -> Forall int64 values -> Forall int64 (differences values) ->
  spread_below (2 ^ 58) values -> in_last_block values = 0 \/ in_last_block values = 96 ->
  exists b, encode_delta values = Encoded b /\ forall rest, read_delta 64 (b ++ rest) = Some (values, rest).
Proof.
  intros values NE HN HI HD HS HT. apply (round_trip 64 58); try assumption; try lia.
  eapply Forall_impl; [|exact HI]. apply wrap_64.
Qed.
Print Assumptions C34_int64_partial.

Definition bumpy : list Z := map (fun i => Z.of_nat (i * i mod 17) * 1000 - 5000)%Z (seq 0 225).
Example C34_meets : bumpy <> [] /\ Forall int32 bumpy /\ in_last_block bumpy = 96 /\ spread_below (2 ^ 32) bumpy /\ spread_below (2 ^ 58) bumpy /\
  Forall int64 bumpy /\ Forall int64 (differences bumpy).
Proof.
  assert (R : Forall (fun z => -5000 <= z < 12000)%Z bumpy).
  { apply Forall_forall. intros z Hz. unfold bumpy in Hz. apply in_map_iff in Hz. destruct Hz as (i & <- & _).
    pose proof (Nat.mod_upper_bound (i * i) 17 ltac:(discriminate)). lia. }
  assert (D : forall k, (-17000 <= nth k (differences bumpy) 0 <= 17000)%Z).
  { intros k. destruct (Nat.lt_ge_cases k (length (differences bumpy))) as [L|L]; [|rewrite nth_overflow by exact L; lia].
    pose proof (differences_range _ _ _ R) as F. rewrite Forall_forall in F. specialize (F _ (nth_In _ 0%Z L)). lia. }
  split; [discriminate|]. split; [eapply Forall_impl; [|exact R]; intros z Hz; cbv beta in Hz; unfold int32; lia|]. split; [reflexivity|].
  split; [intros i j _ _ _; pose proof (D i); pose proof (D j); lia|]. split; [intros i j _ _ _; pose proof (D i); pose proof (D j); lia|].
  split; [eapply Forall_impl; [|exact R]; intros z Hz; cbv beta in Hz; unfold int64; lia|].
  eapply Forall_impl; [|exact (differences_range _ _ _ R)]. intros z Hz; cbv beta in Hz; unfold int64; lia.
Qed.
Print Assumptions C34_meets.

(** C34, full claim, false.  Every int32 sequence whose last block has 1 to 95 deltas - in
    particular every sequence of 2 to 96 values - makes the encoder throw std::length_error. *)
Theorem C34_short_block_refuted : forall values, Forall int32 values -> 1 <= in_last_block values < 96 -> encode_delta values = Throws.
Proof.
  intros values HI HT. pose proof (differences_range _ _ _ HI) as D. rewrite Forall_forall in D. apply encode_throws; [exact HT| |].
  - intros d m H1 H2. pose proof (D d H1). pose proof (D m H2). unfold int64. lia.
  - apply Forall_forall. intros d Hd. specialize (D d Hd). unfold int64. lia.
Qed.
Print Assumptions C34_short_block_refuted.
Example C34_short_block_meets : Forall int32 [7; 8]%Z /\ 1 <= in_last_block [7; 8]%Z < 96.
Proof. split; [repeat constructor; unfold int32; lia|unfold in_last_block; cbn; lia]. Qed.
Print Assumptions C34_short_block_meets.

(** The other ways it fails: the last mini-block is not padded (100 values); more than 32 bits for
    an int32 column (129 values); a 64-bit difference overflows; 59-bit deltas lose their top bits. *)
Theorem C34_refuted :
  (exists b, encode_delta (repeat 0 98 ++ [255; 0])%Z = Encoded b /\ read_delta 32 b = None) /\
  (exists b, encode_delta (repeat 0 127 ++ [2147483647; -2147483648])%Z = Encoded b /\ read_delta 32 b = None) /\
  encode_delta [-9223372036854775808; 9223372036854775807]%Z = Undefined /\
  (exists b l r, let values := map (fun i => Z.of_nat i mod 2 * 288230376151711743)%Z (seq 0 129) in
     encode_delta values = Encoded b /\ read_delta 64 b = Some (l, r) /\ l <> values).
Proof.
  split; [eexists; split; [vm_compute; reflexivity|vm_compute; reflexivity]|].
  split; [eexists; split; [vm_compute; reflexivity|vm_compute; reflexivity]|].
  split; [vm_compute; reflexivity|]. eexists _, _, _. cbv zeta. split; [vm_compute; reflexivity|]. split; [vm_compute; reflexivity|]. vm_compute. discriminate.
Qed.
Print Assumptions C34_refuted.

(** C34, int32, both directions: which sequences survive.  No two deltas of a block 2^32 or more
    apart, and at most seven bits missing from the last mini-block.  Otherwise the encoder throws
    or the reader fails; it never sees other values. *)
Theorem C34_int32_right_exactly_when : forall values,
  values <> [] -> (N.of_nat (length values) < 2 ^ 64)%N -> Forall int32 values ->
  ((exists b, encode_delta values = Encoded b /\ read_delta 32 b = Some (values, [])) <->
   spread_below (2 ^ 32) values /\ ends_in_full_byte (differences values)) /\
  (forall b l, encode_delta values = Encoded b -> read_delta 32 b = Some (l, []) -> l = values).
Proof.
  intros values NE HN HI. pose proof (differences_range _ _ _ HI) as D. rewrite Forall_forall in D.
  apply (delta_exactly 32 values NE HN).
  - eapply Forall_impl; [|exact HI]. apply wrap_32.
  - eapply Forall_impl; [|exact HI]. intros z [A B]. unfold int64. lia.
  - apply Forall_forall. intros d Hd. specialize (D d Hd). unfold int64. lia.
  - intros i j Hi Hj _. pose proof (D _ (nth_In _ 0%Z Hi)). pose proof (D _ (nth_In _ 0%Z Hj)). lia.
Qed.
Print Assumptions C34_int32_right_exactly_when.
(** int64, as long as nothing overflows and deltas of a block are less than 2^58 apart. *)
Theorem C34_int64_right_exactly_when_partial : forall values,
  values <> [] -> (N.of_nat (length values) < 2 ^ 64)%N -> Forall int64 values -> Forall int64 (differences values) -> spread_below (2 ^ 58) values ->
  ((exists b, encode_delta values = Encoded b /\ read_delta 64 b = Some (values, [])) <-> ends_in_full_byte (differences values)) /\
  (forall b l, encode_delta values = Encoded b -> read_delta 64 b = Some (l, []) -> l = values).
Proof.
  intros values NE HN HI HD HS. destruct (delta_exactly 64 values NE HN) as [E1 E2]; [eapply Forall_impl; [|exact HI]; apply wrap_64|exact HI|exact HD|exact HS|].
  split; [|exact E2]. rewrite E1. split; [tauto|]. intros H. split; [|exact H]. apply (spread_mono (2 ^ 58)); [discriminate|exact HS].
Qed.
Print Assumptions C34_int64_right_exactly_when_partial.
(** 124 values survive if the last 27 deltas are 0 or 1 above the least, but not if one is 3 above. *)
Example C34_right_exactly_meets :
  let good := (repeat 0 123 ++ [1])%Z in let bad := (repeat 0 123 ++ [3])%Z in
  ends_in_full_byte (differences good) /\ ~ ends_in_full_byte (differences bad) /\ spread_below (2 ^ 32) bad /\ Forall int32 bad /\ Forall int32 good.
Proof.
  cbv zeta. split; [|split; [|split; [|split]]].
  - right. assert (E : last_block (differences (repeat 0 123 ++ [1])%Z) = (repeat 0 122 ++ [1])%Z) by (vm_compute; reflexivity). rewrite E. split; [vm_compute; lia|].
    exists 1. split; [vm_compute; lia|]. intros d least Hd Hl.
    assert (F1 : forallb (fun z => z <=? 1)%Z (skipn 96 (repeat 0 122 ++ [1])%Z) = true) by (vm_compute; reflexivity).
    assert (F2 : forallb (fun z => 0 <=? z)%Z (repeat 0 122 ++ [1])%Z = true) by (vm_compute; reflexivity).
    rewrite forallb_forall in F1, F2. specialize (F1 d Hd). specialize (F2 least Hl). apply Z.leb_le in F1, F2. change (2 ^ Z.of_nat 1)%Z with 2%Z. lia.
  - intros [E|[_ (k & K1 & K2)]]; [discriminate E|].
    assert (E : last_block (differences (repeat 0 123 ++ [3])%Z) = (repeat 0 122 ++ [3])%Z) by (vm_compute; reflexivity). rewrite E in K1, K2.
    change (length (repeat 0%Z 122 ++ [3%Z])) with 123 in K1. change (128 - 123) with 5 in K1. assert (K : k = 0 \/ k = 1) by lia.
    assert (I1 : In 3%Z (skipn 96 (repeat 0 122 ++ [3])%Z)) by (vm_compute; tauto). assert (I2 : In 0%Z (repeat 0 122 ++ [3])%Z) by (vm_compute; tauto).
    specialize (K2 3%Z 0%Z I1 I2). destruct K as [-> | ->]; vm_compute in K2; discriminate.
  - intros i j Hi Hj _. assert (E : differences (repeat 0 123 ++ [3])%Z = (repeat 0 122 ++ [3])%Z) by (vm_compute; reflexivity). rewrite E in *.
    assert (F : forallb (fun z => (0 <=? z) && (z <=? 3))%Z (repeat 0 122 ++ [3])%Z = true) by (vm_compute; reflexivity). rewrite forallb_forall in F.
    pose proof (F _ (nth_In _ 0%Z Hi)) as A. pose proof (F _ (nth_In _ 0%Z Hj)) as B. apply andb_prop in A, B. destruct A as [A1 A2], B as [B1 B2]. apply Z.leb_le in A1, A2, B1, B2. lia.
  - apply Forall_app. split; [|repeat constructor; lia]. apply Forall_forall. intros z Hz. apply repeat_spec in Hz. subst z. split; lia.
  - apply Forall_app. split; [|repeat constructor; lia]. apply Forall_forall. intros z Hz. apply repeat_spec in Hz. subst z. split; lia.
Qed.
Print Assumptions C34_right_exactly_meets.

(** C54: the values that are not null, from the second argument or (if that is empty) all.
    Missing: the same lengths as in C34, and columns without any value. *)
Theorem C54_round_trip_partial : forall values nulls,
  nulls = [] \/ length nulls = length values -> present values nulls <> [] -> (N.of_nat (length values) < 2 ^ 64)%N ->
  Forall (fun s => Z.of_nat (length s) < 2 ^ 31)%Z values ->
  in_last_block (present values nulls) = 0 \/ in_last_block (present values nulls) = 96 ->
  exists b, encode_delta_length_byte_array values nulls = Encoded b /\ forall rest, read_delta_length (b ++ rest) = Some (present values nulls, rest).
Proof. exact strings_round_trip. Qed.
Print Assumptions C54_round_trip_partial.
Example C54_meets : present [s2b "ab"; s2b "x"; s2b "c"] [true; false; true] = [s2b "x"] /\ in_last_block [s2b "x"] = 0 /\
  encode_delta_length_byte_array [s2b "ab"; s2b "x"; s2b "c"] [true; false; true] = Encoded [128; 1; 4; 1; 2; 120]%N.
Proof. repeat split; vm_compute; reflexivity. Qed.
Print Assumptions C54_meets.
Theorem C54_short_block_refuted : forall values nulls,
  nulls = [] \/ length nulls = length values -> Forall (fun s => Z.of_nat (length s) < 2 ^ 31)%Z values ->
  1 <= in_last_block (present values nulls) < 96 -> encode_delta_length_byte_array values nulls = Throws.
Proof. exact strings_throw. Qed.
Print Assumptions C54_short_block_refuted.
Example C54_short_block_meets : 1 <= in_last_block (present [s2b "ab"; s2b "c"] []) < 96.
Proof. unfold in_last_block. cbn. lia. Qed.
Print Assumptions C54_short_block_meets.

(** C54, both directions: which columns survive. *)
Theorem C54_right_exactly_when : forall values nulls,
  nulls = [] \/ length nulls = length values -> present values nulls <> [] -> (N.of_nat (length values) < 2 ^ 64)%N ->
  Forall (fun s => Z.of_nat (length s) < 2 ^ 31)%Z values ->
  ((exists b, encode_delta_length_byte_array values nulls = Encoded b /\ read_delta_length b = Some (present values nulls, [])) <->
   ends_in_full_byte (differences (map (fun s => Z.of_nat (length s)) (present values nulls)))) /\
  (forall b l r, encode_delta_length_byte_array values nulls = Encoded b -> read_delta_length b = Some (l, r) -> l = present values nulls).
Proof. exact strings_exactly. Qed.
Print Assumptions C54_right_exactly_when.
(** 97 to 128 strings of the same length survive, also those whose number C54_round_trip_partial leaves out. *)
Example C54_right_exactly_meets : ends_in_full_byte (differences (map (fun s => Z.of_nat (length s)) (present (repeat (s2b "ab") 100) []))).
Proof.
  right. assert (E : last_block (differences (map (fun s => Z.of_nat (length s)) (present (repeat (s2b "ab") 100) []))) = repeat 0%Z 99) by (vm_compute; reflexivity).
  rewrite E. split; [vm_compute; lia|]. exists 0. split; [vm_compute; lia|]. intros d least Hd Hl. apply repeat_spec in Hl.
  assert (F : forallb (Z.eqb 0) (skipn 96 (repeat 0%Z 99)) = true) by (vm_compute; reflexivity). rewrite forallb_forall in F. specialize (F d Hd). apply Z.eqb_eq in F. subst. vm_compute. reflexivity.
Qed.
Print Assumptions C54_right_exactly_meets.
