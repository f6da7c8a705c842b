(** The RLE / bit-packed hybrid of the Parquet format, as a standard reader decodes it. *)
From Verif Require Import Base VarintSpec ThriftSpec.

(** [n] values of [bw] bits each, packed from the least significant bit of the first byte on. *)
Definition unpack (bw : N) (n : nat) (bs : bytes) : list N :=
  map (fun i => (le_value bs / 2 ^ (bw * N.of_nat i)) mod 2 ^ bw)%N (seq 0 n).

Definition byte_width (bw : N) : N := ((bw + 7) / 8)%N.

(** Read runs until [n] values have been produced.
    Header h even: the next byte_width bytes, little endian, repeated h/2 times.
    Header h odd: h/2 groups of eight bit-packed values. *)
Fixpoint read_runs (fuel : nat) (bw : N) (n : nat) (bs : bytes) : option (list N * bytes) :=
  match n with
  | O => Some ([], bs)
  | _ =>
    match fuel with
    | O => None
    | S f =>
        match read_uleb bs with
        | None => None
        | Some (h, r) =>
            let avail := N.to_nat (N.min (if N.even h then h / 2 else 8 * (h / 2)) (N.of_nat n)) in
            match take (if N.even h then byte_width bw else h / 2 * bw) r with
            | None => None
            | Some (data, r') =>
                let vs := if N.even h then repeat (le_value data) avail else unpack bw avail data in
                match read_runs f bw (n - avail) r' with
                | None => None
                | Some (rest, r'') => Some (vs ++ rest, r'')
                end
            end
        end
    end
  end.
(** Every run takes at least one byte. *)
Definition decode_hybrid (bw : N) (n : nat) (bs : bytes) : option (list N * bytes) :=
  read_runs (length bs) bw n bs.

(** Bits needed for levels 0 .. max. *)
Definition level_width (max : N) : N := if (max =? 0)%N then 0%N else (N.log2 max + 1)%N.

(** Definition levels in a version 1 data page: a 4-byte little-endian length, then that many
    bytes of hybrid data for [n] values. *)
Definition decode_levels (max : N) (n : nat) (bs : bytes) : option (list N * bytes) :=
  match take 4 bs with
  | None => None
  | Some (len, r) =>
      match take (le_value len) r with
      | None => None
      | Some (data, rest) => match decode_hybrid (level_width max) n data with
                             | Some (l, []) => Some (l, rest)
                             | _ => None
                             end
      end
  end.

(** The level of a cell: [max] if present, 0 if null. *)
Definition levels (max : N) (valid : list bool) : list N := map (fun v : bool => if v then max else 0%N) valid.

(** Keep the elements whose flag is set. *)
Fixpoint select {A} (valid : list bool) (l : list A) : list A :=
  match valid, l with
  | v :: vs, a :: r => if v then a :: select vs r else select vs r
  | _, _ => []
  end.

(** Nowhere eight equal values in a row. *)
Definition no_eight_equal (vs : list N) : Prop := forall a v b, vs <> a ++ repeat v 8 ++ b.
