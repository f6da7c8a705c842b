(** The standard readers of variable-length and zig-zag integers (Thrift compact protocol,
    Parquet). *)
From Verif Require Import Base.

(** ULEB128: seven bits per byte, least significant first; a byte below 128 ends the number. *)
Fixpoint read_uleb (bs : bytes) : option (N * bytes) :=
  match bs with
  | [] => None
  | b :: r => if (b <? 128)%N then Some (b, r)
              else match read_uleb r with
                   | None => None
                   | Some (v, r') => Some ((b - 128) + 128 * v, r')%N
                   end
  end.

(** Zig-zag: 0, -1, 1, -2, 2, ... *)
Definition unzigzag (n : N) : Z :=
  if N.even n then Z.of_N (n / 2) else (- Z.of_N (n / 2) - 1)%Z.

Definition read_zigzag (bs : bytes) : option (Z * bytes) :=
  match read_uleb bs with None => None | Some (n, r) => Some (unzigzag n, r) end.

Definition int64 (z : Z) : Prop := (- 2 ^ 63 <= z < 2 ^ 63)%Z.
Definition int32 (z : Z) : Prop := (- 2 ^ 31 <= z < 2 ^ 31)%Z.
Definition int16 (z : Z) : Prop := (- 2 ^ 15 <= z < 2 ^ 15)%Z.
