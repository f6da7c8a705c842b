(** C28: variable-length and zig-zag integers. *)
From Verif Require Import Base WordsModel VarintSpec VarintModel VarintProof.

Theorem C28_uint64_round_trip : forall v rest, (v < 2 ^ 64)%N ->
  read_uleb (write_varint64 v ++ rest) = Some (v, rest) /\
  1 <= length (write_varint64 v) <= 10 /\ Forall (fun b => (b < 256)%N) (write_varint64 v).
Proof.
  intros v rest H. split; [apply varint64_read; exact H|]. split; [|apply varint_loop_bytes].
  split; [apply varint_loop_nonempty; discriminate|apply varint_loop_length].
Qed.
Print Assumptions C28_uint64_round_trip.

Theorem C28_uint32_round_trip : forall v rest, (v < 2 ^ 32)%N ->
  read_uleb (write_varint32 v ++ rest) = Some (v, rest) /\
  1 <= length (write_varint32 v) <= 5 /\ Forall (fun b => (b < 256)%N) (write_varint32 v).
Proof.
  intros v rest H. split; [apply varint32_read; exact H|]. split; [|apply varint_loop_bytes].
  split; [apply varint_loop_nonempty; discriminate|apply varint_loop_length].
Qed.
Print Assumptions C28_uint32_round_trip.

Theorem C28_signed_round_trip : forall z rest, int64 z ->
  read_zigzag (write_signed_varint z ++ rest) = Some (z, rest).
Proof. exact signed_varint_read. Qed.
Print Assumptions C28_signed_round_trip.

Example C28_meets :
  write_varint64 300 = [172; 2]%N /\ (300 < 2 ^ 64)%N /\
  int64 (- 2 ^ 63) /\ write_signed_varint (- 2 ^ 63) = [255; 255; 255; 255; 255; 255; 255; 255; 255; 1]%N /\
  read_zigzag ([3; 9]%N) = Some ((-2)%Z, [9%N]).
Proof. unfold int64. repeat split; try lia; vm_compute; reflexivity. Qed.
