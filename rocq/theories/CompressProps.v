(** C93: compression entry points.  [L] stands for the libraries, [decode] for their
    decompressors; the assumption is the documented contract of the libraries. *)
From Verif Require Import Base CompressSpec CompressModel CompressProof CompressProof2 MetaSpec TypesSpec ParquetSpec ParquetModel ParquetObs ParquetProps.
Local Open Scope N_scope.

(** compress always returns, and what it returns is the input or decompresses to it;
    if it is shorter than the input it decompresses to it.  gzip: inputs below 4 GiB. *)
Theorem C93_compress_lossless_partial :
  forall L decode have_snappy have_lz4 (k : codec) (level : Z) (data : bytes),
    contracts L decode -> (k = C_GZIP -> len data < 2 ^ 32) ->
    exists out, CompressModel.compress L have_snappy have_lz4 k level data = Some out /\
      (out = data \/ read_back decode k out = Some data) /\
      ((length out < length data)%nat -> out <> [] /\ read_back decode k out = Some data).
Proof.
  intros L decode hs hl k level data HL HG. destruct (compress_spec L hs hl decode HL k level data) as (out & E & D & _).
  exists out. split; [exact E|]. rewrite seen_small in D by exact HG.
  assert (R : out <> [] /\ k <> C_NONE /\ decode k out = Some data -> read_back decode k out = Some data) by (intros (_ & N1 & N2); destruct k; [congruence|exact N2..]).
  destruct D as [D|D]; [split; [left; exact D|intros H; subst; lia]|split; [right; exact (R D)|intros _; split; [apply D|exact (R D)]]].
Qed.
Print Assumptions C93_compress_lossless_partial.

(** compress_into gives what compress gives, whatever the thread compressed before:
    for every state of the pool, and for every sequence of calls. *)
Theorem C93_pool_unobservable :
  forall L decode have_snappy have_lz4 (calls : list (codec * Z * bytes)) (p : pool),
    contracts L decode ->
    option_map (map Some) (outputs L have_snappy have_lz4 calls p) =
    Some (map (fun c => CompressModel.compress L have_snappy have_lz4 (fst (fst c)) (snd (fst c)) (snd c)) calls).
Proof. intros L decode hs hl calls p HL. exact (outputs_spec L hs hl decode HL calls p). Qed.
Print Assumptions C93_pool_unobservable.

(** compress_into_buffer stays within the memory given, changes nothing if it returns
    0, and otherwise leaves the compressed data at the start and the rest alone. *)
Theorem C93_into_buffer_partial :
  forall L decode have_snappy have_lz4 (k : codec) (level : Z) (data memory : bytes),
    contracts L decode -> (k = C_GZIP -> len data < 2 ^ 32) ->
    exists n memory', compress_into_buffer L have_snappy have_lz4 k level data memory = Some (n, memory') /\
      length memory' = length memory /\ n <= len memory /\ (n = 0 -> memory' = memory) /\
      (n <> 0 -> read_back decode k (firstn (N.to_nat n) memory') = Some data /\ skipn (N.to_nat n) memory' = skipn (N.to_nat n) memory).
Proof.
  intros L decode hs hl k level data memory HL HG. destruct (buffer_spec L hs hl decode HL k level data memory) as (n & m' & E & A & B & C & D).
  exists n, m'. split; [exact E|]. split; [exact A|]. split; [exact B|]. split; [exact C|]. intros H. destruct (D H) as (R & rest & E1 & E2).
  rewrite seen_small in R by exact HG. split; [exact R|]. rewrite <- E2.
  apply (app_inv_head (firstn (N.to_nat n) m')). rewrite firstn_skipn. exact E1.
Qed.
Print Assumptions C93_into_buffer_partial.

(** With the room max_compressed_size asks for it succeeds: no compression and zstd
    always, snappy and lz4 if compiled in, lz4 below its limits. *)
Theorem C93_room_suffices_partial :
  forall L decode have_snappy have_lz4 (k : codec) (level : Z) (data memory : bytes) n memory',
    contracts L decode -> bounds_suffice L -> data <> [] ->
    compress_into_buffer L have_snappy have_lz4 k level data memory = Some (n, memory') ->
    max_compressed_size L have_snappy have_lz4 k (len data) <= len memory ->
    match k with
    | C_NONE | C_ZSTD => True | C_GZIP => False | C_SNAPPY => have_snappy = true
    | C_LZ4 => have_lz4 = true /\ len memory < 2 ^ 31 /\ len data < 2 ^ 31 /\ 0 < lz4_bound L (len data)
    end -> n <> 0.
Proof.
  intros L decode hs hl k level data memory n memory' HL HB Hd E M K. apply (buffer_room L hs hl decode HL k level data memory n memory' HB Hd E M); try (destruct k; congruence || tauto).
  intros ->. destruct K as (K1 & K2 & K3 & K4). unfold int32_max. repeat split; try assumption; lia.
Qed.
Print Assumptions C93_room_suffices_partial.

(** gzip, below 4 GiB and for the levels zlib accepts: the estimate is enough if zlib keeps to
    its overhead. *)
Theorem C93_gzip_room_suffices_partial :
  forall L decode have_snappy have_lz4 (level : Z) (data memory : bytes) n memory',
    contracts L decode -> gzip_overhead L -> data <> [] -> zlib_init L level = true -> len data < 2 ^ 32 -> len memory < 2 ^ 32 ->
    compress_into_buffer L have_snappy have_lz4 C_GZIP level data memory = Some (n, memory') ->
    max_compressed_size L have_snappy have_lz4 C_GZIP (len data) <= len memory -> n <> 0.
Proof. intros L decode hs hl level data memory n memory' HL. apply (gzip_room L hs hl decode HL). Qed.
Print Assumptions C93_gzip_room_suffices_partial.

(** With more room than that it can fail: the room is cut to 32 bits, so 4 GiB are none. *)
Theorem C93_gzip_large_room_refuted :
  forall L decode have_snappy have_lz4 (level : Z) (data memory : bytes),
    contracts L decode -> len memory mod 2 ^ 32 = 0 ->
    compress_into_buffer L have_snappy have_lz4 C_GZIP level data memory = Some (0, memory).
Proof. intros L decode hs hl level data memory HL. apply (gzip_wrap L hs hl decode HL). Qed.
Print Assumptions C93_gzip_large_room_refuted.

(** gzip, every input of 4 GiB or more: if zlib finishes, the result is that of the
    first (size mod 2^32) bytes, and nothing tells. *)
Theorem C93_gzip_drops_data_refuted :
  (forall L decode have_snappy have_lz4 (level : Z) (data out : bytes), contracts L decode -> 2 ^ 32 <= len data ->
     CompressModel.compress L have_snappy have_lz4 C_GZIP level data = Some out -> out <> data ->
     decode C_GZIP out = Some (firstn (N.to_nat (len data mod 2 ^ 32)) data) /\ decode C_GZIP out <> Some data) /\
  (exists data, len data = 2 ^ 32 + 1 /\ CompressModel.compress small_libraries true true C_GZIP 3 data = Some [1; 0; 0] /\
     small_decode C_GZIP [1; 0; 0] = Some [0]).
Proof.
  split.
  - intros L decode hs hl level data out HL HG E NE. destruct (compress_spec L hs hl decode HL C_GZIP level data) as (o & E' & D & _).
    rewrite E in E'. injection E' as <-. destruct D as [D|(_ & _ & D)]; [congruence|]. cbn [seen] in D. unfold uint in D. split; [exact D|].
    rewrite D. intros F. injection F as F. apply (f_equal (@length _)) in F. rewrite firstn_length in F. unfold len in *.
    pose proof (N.mod_lt (N.of_nat (length data)) (2 ^ 32) ltac:(discriminate)). lia.
  - destruct four_gib as (data & E1 & E2). exists data. split; [exact E1|]. split; [exact E2|]. reflexivity.
Qed.
Print Assumptions C93_gzip_drops_data_refuted.

(** The comment that after a 0 the output holds the uncompressed data is false for
    every codec; 0 is also what empty input gives; a codec that is not compiled in
    always gives 0, and so does lz4 whenever more than 2 GiB of room are offered. *)
Theorem C93_into_buffer_zero_refuted :
  (forall L have_snappy have_lz4 k level memory, compress_into_buffer L have_snappy have_lz4 k level [] memory = Some (0, memory)) /\
  (forall L have_snappy have_lz4 level data memory, len memory < len data ->
     compress_into_buffer L have_snappy have_lz4 C_NONE level data memory = Some (0, memory)) /\
  (forall L have_lz4 level data memory, compress_into_buffer L false have_lz4 C_SNAPPY level data memory = Some (0, memory)) /\
  (forall L have_snappy level data memory, compress_into_buffer L have_snappy false C_LZ4 level data memory = Some (0, memory)) /\
  (forall L have_snappy have_lz4 level data memory, 2 ^ 31 <= len memory ->
     compress_into_buffer L have_snappy have_lz4 C_LZ4 level data memory = Some (0, memory)).
Proof.
  repeat split; try reflexivity.
  - intros. unfold compress_into_buffer. destruct data; [reflexivity|]. destruct (N.leb_spec (len (n :: data)) (len memory)); [lia|reflexivity].
  - intros. destruct data; reflexivity.
  - intros. unfold compress_into_buffer. destruct data; [reflexivity|]. destruct (int32_max <? len memory); reflexivity.
  - intros. unfold compress_into_buffer. destruct data; [reflexivity|]. destruct (N.ltb_spec int32_max (len memory)); [reflexivity|]. unfold int32_max in *. lia.
Qed.
Print Assumptions C93_into_buffer_zero_refuted.

(** The Parquet writer compresses its pages by compress: what C65 assumes of
    compression is a consequence of the contracts of the libraries. *)
Theorem C93_parquet_pages :
  forall L decode have_snappy have_lz4 level below options schema groups pre post,
    contracts L decode ->
    (forall page, CompressModel.compress L have_snappy have_lz4 (codec_named (o_compression options)) level page =
                  Some (ParquetModel.compress (behind L have_snappy have_lz4 level) options page)) /\
    (o_compression options <> LZ4 -> o_compression options = NONE \/ o_enable_dictionary options = false ->
     schema <> [] -> Forall no_open pre -> Forall no_open post ->
     Forall (fun g => group_fits schema (fst g) (snd g)) groups -> footer_fits schema (length groups) ->
     exists p oks1 oks2 file,
       prun (behind L have_snappy have_lz4 level) below options writer_new (pre ++ session schema (map fst groups) ++ post)
         = Some (p, oks1 ++ map (fun _ => true) (session schema (map fst groups)) ++ oks2) /\ length oks1 = length pre /\
       ps_closed p = [file] /\ read_file (decoder decode) file = Some (Table (map leaf_of schema) (map snd groups))).
Proof.
  intros L decode hs hl level below options schema groups pre post HL. split; [intros page; exact (behind_compress L hs hl level decode options page HL)|].
  intros. apply C65_written_file_reads_back_partial; try assumption. apply behind_lossless. exact HL.
Qed.
Print Assumptions C93_parquet_pages.

(** Concrete libraries, memory and calls. *)
Example C93_meets :
  contracts small_libraries small_decode /\ bounds_suffice small_libraries /\ gzip_overhead small_libraries /\
  CompressModel.compress small_libraries true true C_ZSTD 3 (repeat 7 20) = Some [1; 7; 19] /\
  CompressModel.compress small_libraries true true C_GZIP 10 (repeat 7 20) = Some (repeat 7 20) /\
  outputs small_libraries true true [(C_ZSTD, 3%Z, repeat 7 20); (C_LZ4, 3%Z, [1; 2]); (C_SNAPPY, 3%Z, repeat 5 9)] new_pool =
    Some [[1; 7; 19]; [0; 1; 2]; [1; 5; 8]] /\
  compress_into_buffer small_libraries true true C_LZ4 3 (repeat 7 20) (repeat 9 30) = Some (3, [1; 7; 19] ++ repeat 9 27) /\
  compress_into_buffer small_libraries true true C_LZ4 3 (repeat 7 20) [9; 9] = Some (0, [9; 9]).
Proof.
  split; [apply small_contracts|]. split; [apply small_contracts|].
  split. { intros level cap d _ _ H. apply (proj1 (proj2 small_contracts) level). cbn [zstd_bound small_libraries]. lia. }
  vm_compute. repeat split.
Qed.
Print Assumptions C93_meets.
