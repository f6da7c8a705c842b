(** src/writer/compression.cpp: compress, compress_into with its thread-local buffer,
    compress_into_buffer, max_compressed_size.  Memory is modelled: an access outside
    a buffer is [None] (undefined behaviour).  Simplifications: the libraries write
    only their output, at the start of the space given; allocations succeed; sizes
    are below 2^64. *)
From Verif Require Import Base CompressSpec.
Local Open Scope N_scope.

Section Compression.
Variable L : libraries.
(** VROOM_HAVE_SNAPPY, VROOM_HAVE_LZ4 *)
Variables (have_snappy have_lz4 : bool).

(** static_cast<uInt>, zlib's 32-bit sizes *)
Definition uint (n : N) : N := n mod 2 ^ 32.
Definition int32_max : N := 2 ^ 31 - 1.

(** Writing at the start of a buffer; None beyond its end. *)
Definition write_at_start (buffer c : bytes) : option bytes :=
  if len c <=? len buffer then Some (c ++ skipn (length c) buffer) else None.
(** vector::resize *)
Definition resize (n : N) (v : bytes) : bytes := firstn (N.to_nat n) v ++ repeat 0 (N.to_nat n - length v).

(** The calls of the libraries, given the space there is: None = not available or failed.
    compression.cpp:65, 80-99, 112-115, 131-136 (with the input cut to zlib's uInt). *)
Definition call (k : codec) (level : Z) (cap : N) (data : bytes) : option bytes :=
  match k with
  | C_NONE => None
  | C_ZSTD => zstd_compress L level cap data
  | C_GZIP => if zlib_init L level then deflate_finish L level (uint cap) (firstn (N.to_nat (uint (len data))) data) else None
  | C_SNAPPY => if have_snappy then Some (snappy_compress L data) else None
  | C_LZ4 => if have_lz4 then (if int32_max <? len data then None else lz4_compress L cap data) else None
  end.
(** The space asked for: 63, 94, 109, 130 *)
Definition space (k : codec) (level : Z) (n : N) : N :=
  match k with
  | C_NONE => 0
  | C_ZSTD => zstd_bound L n
  | C_GZIP => deflate_bound L level n
  | C_SNAPPY => snappy_max L n
  | C_LZ4 => lz4_bound L n
  end.

(** compression.cpp:51-155.  The output vector is resized, written, and cut. *)
Definition compress (k : codec) (level : Z) (data : bytes) : option bytes :=
  match data with
  | [] => Some []
  | _ =>
      let max_size := space k level (len data) in
      match call k level max_size data with
      | None => Some data
      | Some c =>
          match write_at_start (resize max_size []) c with
          | None => None
          | Some buffer => Some (resize (len c) buffer)
          end
      end
  end.

(** CompressionBufferPool, 25-48: contents and capacity of the thread's buffer. *)
Record pool : Type := Pool { p_buffer : bytes; p_capacity : N }.
Definition new_pool : pool := Pool [] 0.
(** 34-41 *)
Definition get_buffer (p : pool) (min_size : N) : pool :=
  Pool (resize min_size (p_buffer p))
       (if p_capacity p <? min_size then min_size + min_size / 4 else p_capacity p).

(** 159-256: the output vector and the pool afterwards.  A failed deflateInit2 (178-181),
    an oversized LZ4 input (226-229) and codecs that are not compiled in leave the pool alone. *)
Definition uses_pool (k : codec) (level : Z) (n : N) : bool :=
  match k with
  | C_NONE => false
  | C_ZSTD => true
  | C_GZIP => zlib_init L level
  | C_SNAPPY => have_snappy
  | C_LZ4 => have_lz4 && (n <=? int32_max)
  end.
Definition compress_into (k : codec) (level : Z) (data : bytes) (p : pool) : option (bytes * pool) :=
  match data with
  | [] => Some ([], p)
  | _ =>
      if uses_pool k level (len data) then
        let max_size := space k level (len data) in
        let p1 := get_buffer p max_size in
        let room := match k with C_GZIP => len (p_buffer p1) | _ => max_size end in
        match call k level room data with
        | None => Some (data, p1)
        | Some c =>
            match write_at_start (p_buffer p1) c with
            | None => None
            | Some buffer => Some (firstn (length c) buffer, Pool buffer (p_capacity p1))
            end
        end
      else Some (data, p)
  end.
(** Calls one after the other on one thread: the outputs. *)
Fixpoint outputs (calls : list (codec * Z * bytes)) (p : pool) : option (list bytes) :=
  match calls with
  | [] => Some []
  | (k, level, data) :: r =>
      match compress_into k level data p with
      | None => None
      | Some (out, p') => match outputs r p' with Some os => Some (out :: os) | None => None end
      end
  end.

(** 260-345: into the caller's memory of [len memory] bytes; the number returned and the
    memory afterwards. *)
Definition compress_into_buffer (k : codec) (level : Z) (data memory : bytes) : option (N * bytes) :=
  match data with
  | [] => Some (0, memory)
  | _ =>
      let cap := len memory in
      let stored c := match write_at_start memory c with Some m => Some (len c, m) | None => None end in
      match k with
      | C_NONE => if len data <=? cap then stored data else Some (0, memory)
      | C_SNAPPY =>
          if have_snappy then (if cap <? snappy_max L (len data) then Some (0, memory) else stored (snappy_compress L data))
          else Some (0, memory)
      | C_LZ4 =>
          if int32_max <? cap then Some (0, memory)
          else match call C_LZ4 level cap data with Some c => stored c | None => Some (0, memory) end
      | _ => match call k level cap data with Some c => stored c | None => Some (0, memory) end
      end
  end.

(** 348-383 *)
Definition max_compressed_size (k : codec) (n : N) : N :=
  match k with
  | C_NONE => n
  | C_ZSTD => zstd_bound L n
  | C_GZIP => n + (n / 16384 + 1) * 5 + 18
  | C_SNAPPY => if have_snappy then snappy_max L n else n
  | C_LZ4 => if have_lz4 then (if int32_max <? n then n else lz4_bound L n) else n
  end.
End Compression.
