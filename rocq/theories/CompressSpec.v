(** What is relied on of the compression libraries, and how data is got back.
    Independent of libvroom. *)
From Verif Require Import Base.
Local Open Scope N_scope.

Inductive codec : Type := C_NONE | C_ZSTD | C_GZIP | C_SNAPPY | C_LZ4.

(** The functions of zstd, zlib, snappy and lz4 that are called.  Sizes are numbers;
    [None] is a reported error.  The last argument is the input. *)
Record libraries : Type := Libraries {
  zstd_bound : N -> N;                           (* ZSTD_compressBound *)
  zstd_compress : Z -> N -> bytes -> option bytes;   (* level, capacity of the destination *)
  zlib_init : Z -> bool;                         (* deflateInit2 is Z_OK for this level *)
  deflate_bound : Z -> N -> N;
  deflate_finish : Z -> N -> bytes -> option bytes;  (* level, avail_out; Some: Z_STREAM_END *)
  snappy_max : N -> N;
  snappy_compress : bytes -> bytes;
  lz4_bound : N -> N;
  lz4_compress : N -> bytes -> option bytes }.

Definition len (l : bytes) : N := N.of_nat (length l).

(** The documented contracts: an output fits the space given and decompresses to the
    input; no output is empty.  (Snappy is given the space it asks for.) *)
Definition contracts (L : libraries) (decode : codec -> bytes -> option bytes) : Prop :=
  (forall level cap d c, zstd_compress L level cap d = Some c -> len c <= cap /\ c <> [] /\ decode C_ZSTD c = Some d) /\
  (forall level cap d c, deflate_finish L level cap d = Some c -> len c <= cap /\ c <> [] /\ decode C_GZIP c = Some d) /\
  (forall d, len (snappy_compress L d) <= snappy_max L (len d) /\ snappy_compress L d <> [] /\ decode C_SNAPPY (snappy_compress L d) = Some d) /\
  (forall cap d c, lz4_compress L cap d = Some c -> len c <= cap /\ c <> [] /\ decode C_LZ4 c = Some d).

(** With the space the bound asks for, a library does not fail for lack of space. *)
Definition bounds_suffice (L : libraries) : Prop :=
  (forall level cap d, zstd_bound L (len d) <= cap -> zstd_compress L level cap d <> None) /\
  (forall cap d, lz4_bound L (len d) <= cap -> 0 < lz4_bound L (len d) -> lz4_compress L cap d <> None).

(** What the estimate for gzip (compression.cpp:357-361) assumes of zlib: it never needs more than
    18 bytes around the data and 5 for each block of 16384 bytes begun. *)
Definition gzip_overhead (L : libraries) : Prop :=
  forall level cap d, zlib_init L level = true -> d <> [] -> len d + 5 * ((len d + 16383) / 16384) + 18 <= cap -> deflate_finish L level cap d <> None.

(** Reading back what was stored under a codec. *)
Definition read_back (decode : codec -> bytes -> option bytes) (k : codec) (stored : bytes) : option bytes :=
  match k with C_NONE => Some stored | _ => decode k stored end.
