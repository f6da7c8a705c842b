(** Property theorems C06 and C50. *)
From Verif Require Import Base WordsModel WordsSpec WordsProof WordsProof2.

(** C06: bit i of the mask stream is the starting state xor the parity of the
    quote bits 0..i of the whole stream, across any number of 64-bit blocks and
    for both compiled variants. *)
Theorem C06_quote_masks_exact :
  forall (clmul start_inside : bool) (blocks : list N) (i : nat),
    Forall (fun w => (w < 2 ^ 64)%N) blocks ->
    i < 64 * length blocks ->
    nth i (concat (map bits64
        (mask_stream clmul blocks (if start_inside then ones64 else 0%N)))) false
    = xorb start_inside (Nat.odd (set_bits (concat (map bits64 blocks)) (S i))).
Proof. exact (fun clmul st ws i => mask_stream_spec clmul ws st i). Qed.
Print Assumptions C06_quote_masks_exact.

Example C06_nonvacuous :
  Forall (fun w => (w < 2 ^ 64)%N) [(2 ^ 63)%N; 1%N] /\ 70 < 64 * length [(2 ^ 63)%N; 1%N] /\
  nth 63 (concat (map bits64 (mask_stream true [(2 ^ 63)%N; 1%N] 0%N))) false = true /\
  nth 64 (concat (map bits64 (mask_stream true [(2 ^ 63)%N; 1%N] 0%N))) false = false.
Proof. repeat split; try (repeat constructor); vm_compute; lia. Qed.

(** C06: the three implementations agree on every word. *)
Theorem C06_implementations_agree :
  forall (x : N) (start_inside clmul : bool), (x < 2 ^ 64)%N ->
    clmul_lower x ones64 = portable_prefix_xorsum x /\
    fst (find_quote_mask clmul x (if start_inside then ones64 else 0%N))
    = scalar_find_quote_mask x (if start_inside then ones64 else 0%N).
Proof. exact (fun x st clmul H => conj (prefix_impls_agree x H) (scalar_mask_agrees clmul x st H)). Qed.
Print Assumptions C06_implementations_agree.

(** C50: with any lane count dividing 64, and with only the 64 bytes of the
    block guaranteed readable, the vector loop reads nothing else and produces
    the mask of the block: bit i is set iff byte i equals the character. *)
Theorem C50_lane_independent :
  forall (lanes : nat) (c : byte) (mem : bytes),
    1 <= lanes -> Nat.divide lanes 64 -> 64 <= length mem ->
    exists w, assemble_mask 64 lanes c mem 0 0 = Some w /\ (w < 2 ^ 64)%N /\
      forall i, N.testbit w (N.of_nat i) = (i <? 64) && N.eqb (nth i mem (c + 1)%N) c.
Proof. exact lane_independent. Qed.
Print Assumptions C50_lane_independent.

Example C50_nonvacuous : Nat.divide 16 64 /\
  assemble_mask 64 16 7%N (repeat 7%N 3 ++ repeat 0%N 61) 0 0 = Some 7%N.
Proof. split; [exists 4; reflexivity|vm_compute; reflexivity]. Qed.

(** C50 (limit): a target with 128-byte vectors would read past a block that is
    the end of the buffer. *)
Theorem C50_wide_lanes_overread_refuted :
  exists (lanes : nat) (mem : bytes), length mem = 64 /\ 64 < lanes /\
    assemble_mask 64 lanes DQ mem 0 0 = None.
Proof. exact (ex_intro _ 128 (ex_intro _ (repeat 0%N 64) (conj eq_refl (conj wide_lt eq_refl)))). Qed.
Print Assumptions C50_wide_lanes_overread_refuted.
