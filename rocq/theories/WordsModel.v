(** 64-bit words, bit masks and quote parity.
    Models src/parser/quote_parity.cpp, src/parser/quote_parity-inl.h and the
    mask-assembly loop shared by all routines of src/parser/simd_chunk_finder.cpp. *)
From Verif Require Import Base.
Local Open Scope N_scope.

(** [uint64_t] values are [N] below 2^64. *)
Definition w64 (x : N) : N := x mod 2 ^ 64.
Definition ones64 : N := N.ones 64.                      (* ~0ULL *)
Definition not64 (x : N) : N := N.ldiff ones64 x.          (* ~x *)
Definition shl64 (x k : N) : N := w64 (N.shiftl x k).      (* x << k *)
Definition shr64 (x k : N) : N := N.shiftr x k.            (* x >> k *)

(** src/parser/quote_parity.cpp:37-47 portable_prefix_xorsum_inclusive and
    src/parser/quote_parity-inl.h:18-23 PortablePrefixXorsum:
    for i in 0..5: x ^= x << (1 << i). *)
Definition portable_prefix_xorsum (x : N) : N :=
  fold_left (fun x i => N.lxor x (shl64 x (2 ^ i))) [0; 1; 2; 3; 4; 5] x.

(** hn::CLMulLower on 64-bit lanes: the low 64 bits of the carry-less product
    (semantics taken from Highway's documentation). *)
Definition clmul_lower (a b : N) : N :=
  fold_left (fun acc i => if N.testbit a (N.of_nat i)
                          then N.lxor acc (shl64 b (N.of_nat i)) else acc)
            (seq 0 64) 0.

(** src/parser/quote_parity-inl.h:27-40 PrefixXorsumInclusiveImpl.
    [clmul] selects the compile-time branch (true: CLMUL targets, false:
    EMU128/SCALAR targets). *)
Definition prefix_xorsum (clmul : bool) (x : N) : N :=
  if clmul then clmul_lower x ones64 else portable_prefix_xorsum x.

(** static_cast<uint64_t>(static_cast<int64_t>(m) >> 63): sign extension of bit
    63 (src/parser/quote_parity-inl.h:52, src/parser/simd_chunk_finder.cpp:254). *)
Definition sign_extend63 (m : N) : N := if N.testbit m 63 then ones64 else 0.

(** src/parser/quote_parity-inl.h:43-55 FindQuoteMaskImpl: returns the mask and
    the updated prev_iter_inside_quote. *)
Definition find_quote_mask (clmul : bool) (quote_bits prev : N) : N * N :=
  let mask := N.lxor (prefix_xorsum clmul quote_bits) prev in
  (mask, sign_extend63 mask).

(** src/parser/quote_parity.cpp:51-63 scalar_find_quote_mask. *)
Definition scalar_find_quote_mask (quote_bits prev : N) : N :=
  snd (fold_left
         (fun '(state, mask) i =>
            let state := if N.testbit quote_bits (N.of_nat i) then N.lxor state 1 else state in
            (state, N.lor mask (shl64 state (N.of_nat i))))
         (seq 0 64) (N.land prev 1, 0)).

(** One byte of hn::StoreMaskBits(hn::Eq(block, Set(c))): bit k says whether
    byte k of the (up to 8) lanes equals [c]; lanes past the end are 0. *)
Fixpoint mask_byte (c : byte) (l : list byte) : N :=
  match l with
  | [] => 0
  | x :: r => (if N.eqb x c then 1 else 0) + 2 * mask_byte c r
  end.

(** The mask bytes written by hn::StoreMaskBits for an N-lane block
    ((N + 7) / 8 of them). *)
Fixpoint mask_bytes (n : nat) (c : byte) (l : list byte) : list N :=
  match n with
  | O => []
  | S n' => mask_byte c (firstn 8 l) :: mask_bytes n' c (skipn 8 l)
  end.

(** The inner loop "for b < num_mask_bytes && chunk_offset + b*8 < 64:
    bits |= bytes[b] << (chunk_offset + b*8)"
    (src/parser/simd_chunk_finder.cpp:91-100, 239-247, 419-427). *)
Fixpoint or_mask_bytes (acc : N) (bit_offset : nat) (bs : list N) : N :=
  match bs with
  | [] => acc
  | m :: r => if (bit_offset <? 64)%nat
              then or_mask_bytes (N.lor acc (shl64 m (N.of_nat bit_offset))) (bit_offset + 8) r
              else acc
  end.

(** The loop "for chunk_offset = 0; chunk_offset < 64; chunk_offset += N":
    load N lanes at data + offset + chunk_offset, compare, or into the word
    (src/parser/simd_chunk_finder.cpp:73-101, 222-248, 402-428).
    [mem] is the readable memory starting at data + offset; a load that is not
    entirely inside it is undefined behaviour: [None].  [fuel] bounds the number
    of iterations (64 suffice for lanes >= 1). *)
Fixpoint assemble_mask (fuel lanes : nat) (c : byte) (mem : list byte)
         (chunk_offset : nat) (acc : N) : option N :=
  if (chunk_offset <? 64)%nat then
    match fuel with
    | O => None
    | S fuel' =>
        if (lanes <=? length (skipn chunk_offset mem))%nat then
          let block := firstn lanes (skipn chunk_offset mem) in
          assemble_mask fuel' lanes c mem (chunk_offset + lanes)
                        (or_mask_bytes acc chunk_offset
                           (mask_bytes ((lanes + 7) / 8) c block))
        else None
    end
  else Some acc.

(** The word the code intends: bit i says whether byte i of the 64-byte block
    equals [c].  The routines of ChunkModel.v use this word; WordsProps.v proves
    that the lane loop above computes it for every lane count in
    {1,2,4,8,16,32,64} that the code can be compiled for (multiples of 8 here;
    see the theorem for the exact condition). *)
Fixpoint block_mask (c : byte) (l : list byte) : N :=
  match l with
  | [] => 0
  | x :: r => (if N.eqb x c then 1 else 0) + 2 * block_mask c r
  end.

(** __builtin_popcountll. *)
Fixpoint pos_popcount (p : positive) : nat :=
  match p with
  | xH => 1
  | xO q => pos_popcount q
  | xI q => S (pos_popcount q)
  end.
Definition popcount (x : N) : nat := match x with 0 => O | Npos p => pos_popcount p end.

(** 63 - __builtin_clzll(x) for x <> 0: index of the highest set bit. *)
Definition high_bit (x : N) : nat := N.to_nat (N.log2 x).

(** __builtin_ctzll(x) for x <> 0: index of the lowest set bit. *)
Fixpoint pos_ctz (p : positive) : nat :=
  match p with
  | xO q => S (pos_ctz q)
  | _ => O
  end.
Definition ctz (x : N) : nat := match x with 0 => 64%nat | Npos p => pos_ctz p end.
