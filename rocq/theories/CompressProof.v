From Verif Require Import Base CompressSpec CompressModel.
Local Open Scope N_scope.

Section Proofs.
Variables (L : libraries) (have_snappy have_lz4 : bool) (decode : codec -> bytes -> option bytes).
Hypothesis HL : contracts L decode.
Notation call := (call L have_snappy have_lz4).
Notation compress := (compress L have_snappy have_lz4).
Notation compress_into := (compress_into L have_snappy have_lz4).
Notation compress_into_buffer := (compress_into_buffer L have_snappy have_lz4).

(** The part of the input zlib sees. *)
Definition seen (k : codec) (data : bytes) : bytes :=
  match k with C_GZIP => firstn (N.to_nat (uint (len data))) data | _ => data end.
Definition small_enough (k : codec) (data : bytes) : Prop := k = C_GZIP -> len data < 2 ^ 32.
Lemma seen_small k data : small_enough k data -> seen k data = data.
Proof.
  intros H. destruct k; try reflexivity. specialize (H eq_refl). cbn [seen]. unfold uint. rewrite N.mod_small by exact H.
  unfold len. rewrite Nat2N.id. apply firstn_all.
Qed.

Lemma call_spec k level cap data c : call k level cap data = Some c ->
  (k = C_SNAPPY \/ len c <= cap) /\ c <> [] /\ decode k c = Some (seen k data) /\ (k = C_SNAPPY -> len c <= snappy_max L (len data)) /\ k <> C_NONE.
Proof.
  destruct HL as (Z1 & Z2 & Z3 & Z4). destruct k; cbn [CompressModel.call seen]; intros H.
  - discriminate H.
  - destruct (Z1 _ _ _ _ H) as (A & B & C). repeat split; try assumption; try discriminate. right. exact A.
  - destruct (zlib_init L level); [|discriminate H]. destruct (Z2 _ _ _ _ H) as (A & B & C). repeat split; try assumption; try discriminate. right.
    eapply N.le_trans; [exact A|]. unfold uint. apply N.mod_le. discriminate.
  - destruct have_snappy; [|discriminate H]. injection H as <-. destruct (Z3 data) as (A & B & C). repeat split; try assumption; try discriminate.
    + left. reflexivity.
    + intros _. exact A.
  - destruct have_lz4; [|discriminate H]. destruct (int32_max <? len data); [discriminate H|]. destruct (Z4 _ _ _ H) as (A & B & C). repeat split; try assumption; try discriminate. right. exact A.
Qed.

Lemma resize_length n v : length (resize n v) = N.to_nat n.
Proof. unfold resize. rewrite app_length, firstn_length, repeat_length. lia. Qed.
Lemma resize_prefix c r : resize (len c) (c ++ r) = c.
Proof.
  unfold resize, len. rewrite Nat2N.id, firstn_app, Nat.sub_diag, firstn_O, app_nil_r, firstn_all, app_length.
  replace (length c - (length c + length r))%nat with 0%nat by lia. apply app_nil_r.
Qed.
Lemma write_fits buffer c : len c <= len buffer -> write_at_start buffer c = Some (c ++ skipn (length c) buffer).
Proof. intros H. unfold write_at_start. rewrite (proj2 (N.leb_le _ _) H). reflexivity. Qed.
Lemma write_length buffer c : len c <= len buffer -> length (c ++ skipn (length c) buffer) = length buffer.
Proof. intros H. rewrite app_length, skipn_length. unfold len in H. lia. Qed.

Lemma call_space k level data c : call k level (space L k level (len data)) data = Some c -> len c <= space L k level (len data).
Proof. intros H. apply call_spec in H. destruct H as ([->|A] & _ & _ & B & _); [apply B; reflexivity|exact A]. Qed.

Lemma compress_spec k level data : exists out, compress k level data = Some out /\
  (out = data \/ (out <> [] /\ k <> C_NONE /\ decode k out = Some (seen k data))) /\
  (data <> [] -> out = match call k level (space L k level (len data)) data with Some c => c | None => data end).
Proof.
  unfold CompressModel.compress. destruct data as [|b r] eqn:Ed.
  { exists []. split; [reflexivity|]. split; [left; reflexivity|]. intros H. congruence. }
  rewrite <- Ed. destruct (call k level (space L k level (len data)) data) as [c|] eqn:E.
  - pose proof (call_space _ _ _ _ E) as Hs. apply call_spec in E. destruct E as (_ & A & B & _ & C).
    rewrite write_fits by (unfold len; rewrite resize_length; unfold len in Hs |- *; lia). exists c. rewrite resize_prefix.
    split; [reflexivity|]. split; [right; repeat split; assumption|reflexivity].
  - exists data. split; [reflexivity|]. split; [left; reflexivity|reflexivity].
Qed.

Lemma compress_shorter k level data out : compress k level data = Some out -> (length out < length data)%nat ->
  out <> [] /\ k <> C_NONE /\ decode k out = Some (seen k data).
Proof.
  intros E H. destruct (compress_spec k level data) as (o & E' & D & _). rewrite E in E'. injection E' as <-.
  destruct D as [->|D]; [lia|exact D].
Qed.

Lemma into_spec k level data p : exists out p', compress k level data = Some out /\ compress_into k level data p = Some (out, p').
Proof.
  destruct (compress_spec k level data) as (out & E & _ & Eo). exists out. unfold CompressModel.compress_into.
  destruct data as [|b r] eqn:Ed.
  { exists p. cbn in E. split; [exact E|]. injection E as <-. reflexivity. }
  rewrite <- Ed in *. specialize (Eo ltac:(rewrite Ed; discriminate)).
  set (n := len data) in *. set (m := space L k level n) in *.
  destruct (uses_pool L have_snappy have_lz4 k level n) eqn:EU.
  - assert (LB : len (p_buffer (get_buffer p m)) = m) by (unfold len, get_buffer; cbn [p_buffer]; rewrite resize_length; apply N2Nat.id).
    cbv zeta. assert (RM : (match k with C_GZIP => len (p_buffer (get_buffer p m)) | _ => m end) = m) by (destruct k; try reflexivity; exact LB).
    rewrite RM. destruct (call k level m data) as [c|] eqn:EC.
    + rewrite write_fits.
      * eexists. split; [exact E|]. rewrite firstn_app, Nat.sub_diag, firstn_O, app_nil_r, firstn_all, Eo. reflexivity.
      * rewrite LB. exact (call_space k level data c EC).
    + eexists. split; [exact E|]. rewrite Eo. reflexivity.
  - exists p. split; [exact E|]. rewrite Eo. clear - EU. replace (call k level m data) with (@None bytes); [reflexivity|].
    destruct k; cbn [CompressModel.call uses_pool] in *.
    + reflexivity.
    + discriminate.
    + rewrite EU. reflexivity.
    + rewrite EU. reflexivity.
    + destruct have_lz4; [|reflexivity]. cbn [andb] in EU. fold n. rewrite N.ltb_antisym. rewrite EU. reflexivity.
Qed.

Lemma outputs_spec calls p : option_map (map Some) (outputs L have_snappy have_lz4 calls p) = Some (map (fun c => compress (fst (fst c)) (snd (fst c)) (snd c)) calls).
Proof.
  revert p. induction calls as [|((k, level), data) r IH]; intros p; [reflexivity|]. cbn [outputs map fst snd].
  destruct (into_spec k level data p) as (out & p' & E1 & ->). specialize (IH p'). rewrite E1.
  destruct (outputs L have_snappy have_lz4 r p') as [os|]; [|discriminate IH]. cbn [option_map map] in *. injection IH as ->. reflexivity.
Qed.

(** Into the caller's memory. *)
Lemma buffer_spec k level data memory : exists n memory', compress_into_buffer k level data memory = Some (n, memory') /\
  length memory' = length memory /\ n <= len memory /\
  (n = 0 -> memory' = memory) /\
  (n <> 0 -> read_back decode k (firstn (N.to_nat n) memory') = Some (seen k data) /\
     exists rest, memory' = firstn (N.to_nat n) memory' ++ rest /\ rest = skipn (N.to_nat n) memory).
Proof.
  assert (P : forall c, len c <= len memory -> c <> [] -> read_back decode k c = Some (seen k data) ->
    exists n memory', match write_at_start memory c with Some m => Some (len c, m) | None => None end = Some (n, memory') /\
      length memory' = length memory /\ n <= len memory /\ (n = 0 -> memory' = memory) /\
      (n <> 0 -> read_back decode k (firstn (N.to_nat n) memory') = Some (seen k data) /\
         exists rest, memory' = firstn (N.to_nat n) memory' ++ rest /\ rest = skipn (N.to_nat n) memory)).
  { intros c A B C. rewrite write_fits by exact A. do 2 eexists. split; [reflexivity|]. split; [apply write_length, A|]. split; [exact A|].
    assert (F : firstn (N.to_nat (len c)) (c ++ skipn (length c) memory) = c).
    { unfold len. rewrite Nat2N.id, firstn_app, Nat.sub_diag, firstn_O, app_nil_r, firstn_all. reflexivity. }
    split.
    - intros Z. exfalso. apply B. destruct c; [reflexivity|]. unfold len in Z. cbn in Z. lia.
    - intros _. rewrite F. split; [exact C|]. eexists. split; [reflexivity|]. unfold len. rewrite Nat2N.id. reflexivity. }
  assert (Q : exists n memory', Some (0, memory) = Some (n, memory') /\
      length memory' = length memory /\ n <= len memory /\ (n = 0 -> memory' = memory) /\
      (n <> 0 -> read_back decode k (firstn (N.to_nat n) memory') = Some (seen k data) /\
         exists rest, memory' = firstn (N.to_nat n) memory' ++ rest /\ rest = skipn (N.to_nat n) memory)).
  { exists 0, memory. split; [reflexivity|]. split; [reflexivity|]. split; [lia|]. split; [reflexivity|]. congruence. }
  assert (R : forall cap, cap <= len memory -> k <> C_NONE -> k <> C_SNAPPY ->
     exists n memory', match call k level cap data with Some c => match write_at_start memory c with Some m => Some (len c, m) | None => None end | None => Some (0, memory) end = Some (n, memory') /\
      length memory' = length memory /\ n <= len memory /\ (n = 0 -> memory' = memory) /\
      (n <> 0 -> read_back decode k (firstn (N.to_nat n) memory') = Some (seen k data) /\
         exists rest, memory' = firstn (N.to_nat n) memory' ++ rest /\ rest = skipn (N.to_nat n) memory)).
  { intros cap Hc K1 K2. destruct (call k level cap data) as [c|] eqn:E; [|exact Q]. apply call_spec in E. destruct E as ([->|A] & B & C & _); [congruence|].
    apply P; [lia|exact B|]. destruct k; try exact C. congruence. }
  unfold CompressModel.compress_into_buffer. destruct data as [|b r] eqn:Ed; [exact Q|]. rewrite <- Ed in *.
  destruct k eqn:Ek.
  - destruct (N.leb_spec (len data) (len memory)); [|exact Q]. apply P; [assumption|rewrite Ed; discriminate|reflexivity].
  - apply R; [lia|discriminate|discriminate].
  - apply R; [lia|discriminate|discriminate].
  - destruct have_snappy eqn:Es; [|exact Q]. destruct (N.ltb_spec (len memory) (snappy_max L (len data))); [exact Q|].
    destruct HL as (_ & _ & Z3 & _). destruct (Z3 data) as (A & B & C). apply P; [lia|exact B|exact C].
  - destruct (N.ltb_spec int32_max (len memory)); [exact Q|]. apply R; [lia|discriminate|discriminate].
Qed.

(** Enough room: it succeeds. *)
Lemma buffer_room k level data memory n memory' : bounds_suffice L -> data <> [] ->
  compress_into_buffer k level data memory = Some (n, memory') -> max_compressed_size L have_snappy have_lz4 k (len data) <= len memory ->
  (k = C_SNAPPY -> have_snappy = true) -> (k = C_LZ4 -> have_lz4 = true /\ len memory <= int32_max /\ len data <= int32_max /\ 0 < lz4_bound L (len data)) -> k <> C_GZIP ->
  n <> 0.
Proof.
  intros (S1 & S2) Hd E M K1 K2 K3. destruct (buffer_spec k level data memory) as (n1 & m1 & E1 & _). rewrite E in E1. injection E1 as <- <-.
  unfold CompressModel.compress_into_buffer in E. destruct data as [|b r] eqn:Ed; [congruence|]. rewrite <- Ed in *.
  assert (W : forall c, c <> [] -> match write_at_start memory c with Some m => Some (len c, m) | None => None end = Some (n, memory') -> n <> 0).
  { intros c Hc Hw. destruct (write_at_start memory c); [|discriminate]. injection Hw as <- _. destruct c; [congruence|]. unfold len. cbn. lia. }
  destruct k; cbn [max_compressed_size] in M.
  - rewrite (proj2 (N.leb_le _ _) M) in E. apply (W data); [rewrite Ed; discriminate|exact E].
  - cbn [CompressModel.call] in E. destruct (zstd_compress L level (len memory) data) as [c|] eqn:EC; [|exfalso; exact (S1 _ _ _ M EC)].
    apply (W c); [|exact E]. destruct HL as (Z1 & _). apply (Z1 _ _ _ _ EC).
  - congruence.
  - rewrite (K1 eq_refl) in *. destruct (N.ltb_spec (len memory) (snappy_max L (len data))); [lia|].
    apply (W (snappy_compress L data)); [|exact E]. destruct HL as (_ & _ & Z3 & _). apply Z3.
  - destruct (K2 eq_refl) as (-> & B & C & D). destruct (N.ltb_spec int32_max (len memory)); [lia|]. destruct (N.ltb_spec int32_max (len data)); [lia|].
    cbn [CompressModel.call] in E. destruct (N.ltb_spec int32_max (len data)); [lia|].
    destruct (lz4_compress L (len memory) data) as [c|] eqn:EC; [|exfalso; exact (S2 _ _ M D EC)].
    apply (W c); [|exact E]. destruct HL as (_ & _ & _ & Z4). apply (Z4 _ _ _ EC).
Qed.

Lemma gzip_room level data memory n memory' : gzip_overhead L -> data <> [] -> zlib_init L level = true ->
  len data < 2 ^ 32 -> len memory < 2 ^ 32 ->
  compress_into_buffer C_GZIP level data memory = Some (n, memory') -> max_compressed_size L have_snappy have_lz4 C_GZIP (len data) <= len memory -> n <> 0.
Proof.
  intros HG Hd HI S1 S2 E M. unfold CompressModel.compress_into_buffer in E. destruct data as [|b r] eqn:Ed; [congruence|]. rewrite <- Ed in *.
  cbn [CompressModel.call max_compressed_size] in E, M. rewrite HI in E. unfold uint in E. rewrite !N.mod_small in E by assumption.
  rewrite firstn_all2 in E by (unfold len; lia).
  destruct (deflate_finish L level (len memory) data) as [c|] eqn:EC.
  - destruct (write_at_start memory c); [|discriminate E]. injection E as <- _.
    destruct HL as (_ & Z2 & _). destruct (Z2 _ _ _ _ EC) as (_ & NE & _). destruct c; [congruence|]. unfold len. cbn. lia.
  - exfalso. refine (HG level (len memory) data HI _ _ EC); [rewrite Ed; discriminate|]. clear - M. 
    assert ((len data + 16383) / 16384 <= len data / 16384 + 1); [|lia].
    transitivity ((len data + 1 * 16384) / 16384); [apply N.div_le_mono; lia|]. rewrite N.div_add by lia. lia.
Qed.

Lemma gzip_wrap level data memory : len memory mod 2 ^ 32 = 0 -> compress_into_buffer C_GZIP level data memory = Some (0, memory).
Proof.
  intros HM. unfold CompressModel.compress_into_buffer. destruct data as [|b r]; [reflexivity|]. cbn [CompressModel.call]. unfold uint at 1. rewrite HM.
  destruct (zlib_init L level); [|reflexivity]. destruct (deflate_finish L level 0 _) as [c|] eqn:EC; [|reflexivity].
  exfalso. destruct HL as (_ & Z2 & _). destruct (Z2 _ _ _ _ EC) as (B & NE & _). destruct c; [congruence|]. unfold len in B. cbn in B. lia.
Qed.
End Proofs.

