(** C93, continued: when compression does take place, and how much room gzip gets. *)
From Verif Require Import Base CompressSpec CompressModel CompressProof.
Local Open Scope N_scope.

(** If the libraries succeed with the room their own bound asks for, compress returns
    what the library made of the input, never the input itself by default. *)
Theorem C93_compresses :
  forall L decode have_snappy have_lz4 (level : Z) (data : bytes),
    contracts L decode -> bounds_suffice L -> data <> [] ->
    (exists c, CompressModel.compress L have_snappy have_lz4 C_ZSTD level data = Some c /\
       zstd_compress L level (zstd_bound L (len data)) data = Some c /\ decode C_ZSTD c = Some data) /\
    (have_snappy = true -> CompressModel.compress L have_snappy have_lz4 C_SNAPPY level data = Some (snappy_compress L data)) /\
    (have_lz4 = true -> len data < 2 ^ 31 -> 0 < lz4_bound L (len data) ->
     exists c, CompressModel.compress L have_snappy have_lz4 C_LZ4 level data = Some c /\
       lz4_compress L (lz4_bound L (len data)) data = Some c /\ decode C_LZ4 c = Some data).
Proof.
  intros L decode hs hl level data HC (S1 & S2) Hd.
  assert (W : forall cap c, len c <= cap ->
    match write_at_start (resize cap []) c with None => None | Some buffer => Some (resize (len c) buffer) end = Some c).
  { intros cap c H. rewrite write_fits by (unfold len; rewrite resize_length; unfold len in H |- *; lia). rewrite resize_prefix. reflexivity. }
  destruct HC as (Z1 & _ & Z3 & Z4).
  split; [|split].
  - destruct (zstd_compress L level (zstd_bound L (len data)) data) as [c|] eqn:E; [|exfalso; exact (S1 level _ data (N.le_refl _) E)].
    exists c. split; [|split; [reflexivity|apply (Z1 _ _ _ _ E)]]. unfold CompressModel.compress. destruct data as [|b r] eqn:D; [congruence|]. rewrite <- D in *.
    cbn [CompressModel.call space]. rewrite E. apply W. apply (Z1 _ _ _ _ E).
  - intros ->. unfold CompressModel.compress. destruct data as [|b r] eqn:D; [congruence|]. rewrite <- D in *.
    cbn [CompressModel.call space]. apply W. apply Z3.
  - intros -> H1 H2. destruct (lz4_compress L (lz4_bound L (len data)) data) as [c|] eqn:E; [|exfalso; exact (S2 _ data (N.le_refl _) H2 E)].
    exists c. split; [|split; [reflexivity|apply (Z4 _ _ _ E)]]. unfold CompressModel.compress. destruct data as [|b r] eqn:D; [congruence|]. rewrite <- D in *.
    cbn [CompressModel.call space]. destruct (N.ltb_spec int32_max (len data)); [unfold int32_max in *; lia|]. rewrite E. apply W. apply (Z4 _ _ _ E).
Qed.
Print Assumptions C93_compresses.

(** Room for gzip: enough for the data stored as it is, in blocks of up to 16384 bytes
    with five bytes each, header and trailer (18 bytes) included, and at most 5 more. *)
Definition stored_blocks (n : N) : N := N.max 1 ((n + 16383) / 16384).
Theorem C93_gzip_room :
  forall L have_snappy have_lz4 (n : N),
    n + 5 * stored_blocks n + 18 <= max_compressed_size L have_snappy have_lz4 C_GZIP n <= n + 5 * stored_blocks n + 18 + 5.
Proof.
  intros L hs hl n. cbn [max_compressed_size]. unfold stored_blocks.
  pose proof (N.div_mod n 16384 ltac:(lia)) as A. pose proof (N.mod_lt n 16384 ltac:(lia)) as B.
  pose proof (N.div_mod (n + 16383) 16384 ltac:(lia)) as C. pose proof (N.mod_lt (n + 16383) 16384 ltac:(lia)) as D. lia.
Qed.
Print Assumptions C93_gzip_room.

Example C93_gzip_room_nonvacuous : forall L hs hl, max_compressed_size L hs hl C_GZIP 100000 = 100053 /\ stored_blocks 100000 = 7.
Proof. split; vm_compute; reflexivity. Qed.
