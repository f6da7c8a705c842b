(** The compression entry points behind the Parquet writer, and a small library. *)
From Verif Require Import Base CompressSpec CompressModel CompressProof TypesSpec ParquetModel ParquetObs.
Local Open Scope N_scope.

(** The writer's codecs (types.h), and the codec ids of the format. *)
Definition codec_named (c : compression) : codec :=
  match c with NONE => C_NONE | ZSTD => C_ZSTD | SNAPPY => C_SNAPPY | LZ4 => C_LZ4 | GZIP => C_GZIP end.
Definition decoder (decode : codec -> bytes -> option bytes) (id : Z) (d : bytes) : option bytes :=
  if (id =? 1)%Z then decode C_SNAPPY d else if (id =? 2)%Z then decode C_GZIP d
  else if (id =? 6)%Z then decode C_ZSTD d else if (id =? 7)%Z then decode C_LZ4 d else None.
(** The library as the Parquet model sees it: the calls made by compress. *)
Definition behind (L : libraries) (hs hl : bool) (level : Z) (c : compression) (d : bytes) : option bytes :=
  call L hs hl (codec_named c) level (space L (codec_named c) level (len d)) d.

Lemma behind_lossless L hs hl level decode c : contracts L decode -> lossless (behind L hs hl level) (decoder decode) c.
Proof.
  intros HL data out Hb E _. unfold behind in E. destruct (call_spec L hs hl decode HL _ _ _ _ _ E) as (_ & A & B & _ & C).
  split; [exact A|]. rewrite seen_small in B.
  - destruct c; cbn [codec_named format_codec] in *; try congruence; exact B.
  - intros _. unfold len. eapply N.lt_trans; [exact Hb|reflexivity].
Qed.
Lemma behind_compress L hs hl level decode o data : contracts L decode ->
  CompressModel.compress L hs hl (codec_named (o_compression o)) level data = Some (ParquetModel.compress (behind L hs hl level) o data).
Proof.
  intros HL. destruct data as [|b r] eqn:Ed; [reflexivity|]. rewrite <- Ed.
  destruct (compress_spec L hs hl decode HL (codec_named (o_compression o)) level data) as (out & -> & _ & E). f_equal.
  rewrite (E ltac:(rewrite Ed; discriminate)). unfold ParquetModel.compress. rewrite Ed. rewrite <- Ed. unfold behind.
  destruct (o_compression o); reflexivity.
Qed.

(** A small library: runs of one byte become three bytes, other data is kept behind a marker. *)
Definition same (b : N) (r : bytes) : bool := forallb (N.eqb b) r && (length r <? 255)%nat.
Definition small_out (d : bytes) : bytes :=
  match d with b :: r => if same b r then [1; b; len r] else 0 :: d | [] => [0] end.
Definition small_in (c : bytes) : option bytes :=
  match c with
  | m :: r => if m =? 0 then Some r else match r with [b; n] => Some (b :: repeat b (N.to_nat n)) | _ => None end
  | [] => None
  end.
Definition within (cap : N) (d : bytes) : option bytes := if len (small_out d) <=? cap then Some (small_out d) else None.
Definition small_libraries : libraries :=
  Libraries (fun n => n + 3) (fun _ => within) (fun level => (level <=? 9)%Z) (fun _ n => n + 3) (fun _ => within)
            (fun n => n + 3) small_out (fun n => n + 3) within.
Definition small_decode (k : codec) : bytes -> option bytes := small_in.
Lemma small_round d : small_in (small_out d) = Some d.
Proof.
  destruct d as [|b r]; [reflexivity|]. unfold small_out. destruct (same b r) eqn:E; [|reflexivity].
  cbn [small_in]. change (1 =? 0) with false. cbv iota. do 2 f_equal. unfold len. rewrite Nat2N.id. unfold same in E. apply andb_prop in E. destruct E as [E _].
  induction r as [|x r IH]; [reflexivity|]. cbn [forallb] in E. apply andb_prop in E. destruct E as [E1 E2]. apply N.eqb_eq in E1. subst x. cbn [length repeat]. f_equal. apply IH, E2.
Qed.
Lemma small_len d : len (small_out d) <= len d + 3 /\ small_out d <> [].
Proof. destruct d as [|b r]; [split; [vm_compute|]; discriminate|]. unfold small_out. destruct (same b r); split; try discriminate; unfold len; cbn [length]; lia. Qed.
Lemma within_spec cap d c : within cap d = Some c -> len c <= cap /\ c <> [] /\ small_in c = Some d.
Proof.
  unfold within. destruct (N.leb_spec (len (small_out d)) cap); [|discriminate]. intros E. injection E as <-.
  split; [assumption|]. split; [apply small_len|apply small_round].
Qed.
Lemma small_contracts : contracts small_libraries small_decode /\ bounds_suffice small_libraries.
Proof.
  assert (R : forall cap d, len d + 3 <= cap -> within cap d <> None).
  { intros cap d H. unfold within. pose proof (small_len d) as [B _]. rewrite (proj2 (N.leb_le _ _)); [discriminate|lia]. }
  split; [split; [|split; [|split]]|split].
  - intros level cap d c E. exact (within_spec _ _ _ E).
  - intros level cap d c E. exact (within_spec _ _ _ E).
  - intros d. cbn [snappy_compress snappy_max small_libraries]. split; [apply small_len|]. split; [apply small_len|apply small_round].
  - intros cap d c E. exact (within_spec _ _ _ E).
  - intros level cap d H. exact (R _ _ H).
  - intros cap d H _. exact (R _ _ H).
Qed.

(** 4 GiB and one byte. *)
Lemma four_gib : exists data, len data = 2 ^ 32 + 1 /\ CompressModel.compress small_libraries true true C_GZIP 3 data = Some [1; 0; 0].
Proof.
  exists (repeat 0 (N.to_nat (2 ^ 32 + 1))).
  assert (E : len (repeat 0 (N.to_nat (2 ^ 32 + 1))) = 2 ^ 32 + 1) by (unfold len; rewrite repeat_length; apply N2Nat.id).
  split; [exact E|]. set (data := repeat 0 (N.to_nat (2 ^ 32 + 1))) in *.
  assert (NE : data <> []) by (intros Z; rewrite Z in E; vm_compute in E; discriminate).
  destruct (compress_spec small_libraries true true small_decode (proj1 small_contracts) C_GZIP 3 data) as (out & -> & _ & EO).
  rewrite (EO NE). unfold space, CompressModel.call, small_libraries. cbn [deflate_bound zlib_init deflate_finish].
  rewrite E. change (3 <=? 9)%Z with true. cbv iota.
  change (uint (2 ^ 32 + 1)) with 1. change (uint (2 ^ 32 + 1 + 3)) with 4. change (N.to_nat 1) with 1%nat.
  assert (F : firstn 1 data = [0]).
  { unfold data. replace (N.to_nat (2 ^ 32 + 1)) with (S (N.to_nat (2 ^ 32))) by lia. reflexivity. }
  rewrite F. reflexivity.
Qed.
