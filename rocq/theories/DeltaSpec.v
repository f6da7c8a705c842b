(** DELTA_BINARY_PACKED and DELTA_LENGTH_BYTE_ARRAY of the Parquet format, as a standard reader
    decodes them.  [bits] is 32 or 64, the width of the physical type. *)
From Verif Require Import Base VarintSpec ThriftSpec RleSpec.

(** Two's complement of [bits] bits: the format prescribes wrapping arithmetic. *)
Definition wrap (bits : N) (z : Z) : Z :=
  ((z + 2 ^ Z.of_N (bits - 1)) mod 2 ^ Z.of_N bits - 2 ^ Z.of_N (bits - 1))%Z.

(** Mini-blocks of [size] values, always stored in full; those after the last value are absent. *)
Fixpoint read_mini (bits : N) (size : N) (widths : bytes) (n : nat) (bs : bytes) : option (list N * bytes) :=
  match widths, n with
  | _, O => Some ([], bs)
  | [], _ => Some ([], bs)
  | w :: ws, _ =>
      if (w <=? bits)%N then
        match take (size * w / 8) bs with
        | None => None
        | Some (data, r) =>
            let k := Nat.min (N.to_nat size) n in
            match read_mini bits size ws (n - k) r with
            | None => None
            | Some (l, r') => Some (unpack w k data ++ l, r')
            end
        end
      else None
  end.
(** [n] more deltas.  A block: the smallest delta, one width per mini-block, the mini-blocks. *)
Fixpoint read_blocks (fuel : nat) (bits : N) (block mini : N) (n : nat) (bs : bytes) : option (list Z * bytes) :=
  match n with
  | O => Some ([], bs)
  | _ =>
    match fuel with
    | O => None
    | S f =>
        match read_zigzag bs with
        | None => None
        | Some (least, r1) =>
            match take mini r1 with
            | None => None
            | Some (widths, r2) =>
                match read_mini bits (block / mini) widths n r2 with
                | None => None
                | Some (l, r3) =>
                    match read_blocks f bits block mini (n - length l) r3 with
                    | None => None
                    | Some (rest, r4) => Some (map (fun d => least + Z.of_N d)%Z l ++ rest, r4)
                    end
                end
            end
        end
    end
  end.
Fixpoint sums (bits : N) (v : Z) (ds : list Z) : list Z :=
  match ds with [] => [v] | d :: r => v :: sums bits (wrap bits (v + d)) r end.
(** The header: block size, mini-blocks per block, number of values, first value. *)
Definition read_delta (bits : N) (bs : bytes) : option (list Z * bytes) :=
  match read_uleb bs with
  | None => None
  | Some (block, r1) =>
  match read_uleb r1 with
  | None => None
  | Some (mini, r2) =>
  match read_uleb r2 with
  | None => None
  | Some (total, r3) =>
  match read_zigzag r3 with
  | None => None
  | Some (first, r4) =>
      if ((0 <? block) && (block mod 128 =? 0) && (0 <? mini) && (block mod mini =? 0) && (block / mini mod 32 =? 0))%N then
        if (total =? 0)%N then Some ([], r4)
        else match read_blocks (N.to_nat total) bits block mini (N.to_nat total - 1) r4 with
             | None => None
             | Some (ds, r5) => Some (sums bits (wrap bits first) ds, r5)
             end
      else None
  end end end end.

(** Strings: their lengths as 32-bit deltas, then all the bytes. *)
Fixpoint split_lengths (lengths : list Z) (bs : bytes) : option (list bytes * bytes) :=
  match lengths with
  | [] => Some ([], bs)
  | n :: r => if (n <? 0)%Z then None
              else match take (Z.to_N n) bs with
                   | None => None
                   | Some (s, bs') => match split_lengths r bs' with
                                      | None => None
                                      | Some (l, rest) => Some (s :: l, rest)
                                      end
                   end
  end.
Definition read_delta_length (bs : bytes) : option (list bytes * bytes) :=
  match read_delta 32 bs with None => None | Some (lengths, r) => split_lengths lengths r end.

(** Differences of neighbours, and: no two differences of one block of 128 are [b] or more apart. *)
Fixpoint differences (l : list Z) : list Z :=
  match l with a :: (b :: _) as r => (b - a)%Z :: differences r | _ => [] end.
Definition spread_below (b : Z) (l : list Z) : Prop :=
  forall i j, i < length (differences l) -> j < length (differences l) -> i / 128 = j / 128 ->
    (nth i (differences l) 0 - nth j (differences l) 0 < b)%Z.
(** How many differences the last block has (0: the last block, if any, is full). *)
Definition in_last_block {A} (l : list A) : nat := (length l - 1) mod 128.
(** The values that are not null: those whose flag in [nulls] is not set, or all if [nulls] is empty. *)
Definition present (values : list bytes) (nulls : list bool) : list bytes :=
  match nulls with [] => values | _ => select (map negb nulls) values end.
(** The differences of the last block, at most 128 of them. *)
Definition last_block (ds : list Z) : list Z := skipn ((length ds - 1) / 128 * 128) ds.
(** The last mini-block of 32 is (nearly) full: so many differences, or of so few bits each, that
    less than eight bits are missing from it. *)
Definition ends_in_full_byte (ds : list Z) : Prop :=
  ds = [] \/
  96 <= length (last_block ds) /\
  exists bits, (128 - length (last_block ds)) * bits < 8 /\
    forall d least, In d (skipn 96 (last_block ds)) -> In least (last_block ds) -> (d - least < 2 ^ Z.of_nat bits)%Z.
