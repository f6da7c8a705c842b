From Verif Require Import Base WordsModel VarintSpec VarintModel VarintProof ThriftSpec ThriftModel ThriftProof MetaSpec MetaModel MetaProof MetaProps
  BuffersSpec BuffersModel BuffersObs BuffersProof BuffersReach BuffersReachProof TypesSpec
  RleSpec RleModel RleProof RleProof2 PlainSpec PlainModel PlainProof PlainProof2 ParquetSpec ParquetModel ParquetObs.

(** Lossless under the codec id the writer records. *)
Definition undone (library : compression -> bytes -> option bytes) (decompress : Z -> bytes -> option bytes) (c : compression) : Prop :=
  forall data out, (N.of_nat (length data) < 2 ^ 31)%N -> library c data = Some out -> length out < length data ->
    out <> [] /\ decompress (to_parquet_codec c) out = Some data.
Lemma lossless_undone : forall library decompress c, c <> LZ4 -> lossless library decompress c -> undone library decompress c.
Proof. intros library decompress [] H HL; try exact HL. contradiction. Qed.

(** ** Sizes *)
Ltac conjs := repeat match goal with |- _ /\ _ => split end.
Lemma some_inj : forall A (a b : A), Some a = Some b -> a = b. Proof. congruence. Qed.
Lemma encode_runs_bound32 : forall m bw vs, bw <= 32 -> Forall (fun v => (v < 2 ^ N.of_nat bw)%N) vs ->
  8 * length (encode_runs m bw vs) <= 33 * (length vs + 7).
Proof.
  induction m as [|m IH]; intros bw vs Hbw HF; cbn [encode_runs length]; [lia|].
  destruct vs as [|v r]; [cbn; lia|]. 
  change (8 * length (encode_runs (S m) bw (v :: r)) <= 33 * (length (v :: r) + 7)). rewrite encode_runs_step. cbv zeta.
  destruct (run_length_spec v r 1) as (k & A & B & C & D). inversion HF; subst.
  destruct (N.leb_spec 8 (run_length v r 1)) as [H8|H8]; rewrite app_length.
  - pose proof (rle_run_len bw v (run_length v r 1)).
    assert ((bw + 7) / 8 <= 4) by (assert ((bw + 7) / 8 < 5) by (apply Nat.div_lt_upper_bound; lia); lia).
    pose proof (IH bw (skipn (N.to_nat (run_length v r 1)) (v :: r)) Hbw (Forall_skipn _ _ _ HF)) as I.
    rewrite skipn_length in I. cbn [length] in *. lia.
  - pose proof (IH bw (skipn 8 (v :: r)) Hbw (Forall_skipn _ _ _ HF)) as I. rewrite skipn_length in I.
    unfold bit_packed_run. cbv zeta. fold (padded (firstn 8 (v :: r))).
    set (vs := v :: r) in *. assert (Hn : 1 <= length vs) by (cbn; lia). clearbody vs.
    assert (HL : (length (firstn 8 vs) + 7) / 8 = 1).
    { rewrite firstn_length. destruct (Nat.min_spec 8 (length vs)) as [[_ ->]|[HQ ->]]; [reflexivity|].
      symmetry. apply (Nat.div_unique _ _ _ (length vs - 1)); lia. }
    rewrite app_length. destruct (bit_pack_spec bw (padded (firstn 8 vs)) ltac:(lia) (padded_bound _ _ (Forall_firstn _ _ _ HF))) as [_ ->].
    rewrite padded_length, HL. replace (bw * (8 * 1) + 7) with (7 + bw * 8) by lia. rewrite Nat.div_add by discriminate. change (7 / 8) with 0.
    change (length (write_varint32 (N.lor (shl1_u32 (N.of_nat 1)) 1))) with 1.
    destruct (Nat.le_gt_cases 8 (length vs)); [lia|].
    assert (ES : skipn 8 vs = []) by (apply skipn_all2; lia). rewrite ES, encode_runs_nil. cbn [length]. lia.
Qed.
Lemma levels_size : forall nulls flags nc bs, shows_flags nulls flags -> encode_def_levels_hybrid_arrow nulls 1 nc = Some bs ->
  length bs <= 2 * length flags + 20.
Proof.
  intros nulls flags nc bs Hs. pose proof (flags_read _ _ Hs) as HR. destruct Hs as (A & _). unfold encode_def_levels_hybrid_arrow.
  destruct (bm_size nulls =? 0); [intros E; apply some_inj in E; subst bs; cbn; lia|]. cbv zeta. 
  change (1 =? 1)%N with true. rewrite andb_true_r. destruct ((nc =? 0) || negb (bm_has_nulls nulls)).
  - set (w := VarintModel.varint_loop 5 _). pose proof (VarintProof.varint_loop_length 5 (shl1_u32 (N.of_nat (bm_size nulls)))) as V. fold w in V.
    match goal with |- (if ?b then _ else _) = _ -> _ => destruct b end; [|discriminate].
    intros E; apply some_inj in E; subst bs. unfold u32_bytes. rewrite !app_length. cbn [length]. lia.
  - rewrite HR. intros E; apply some_inj in E; subst bs. change (map _ flags) with (levels 1 flags). rewrite app_length.
    pose proof (encode_runs_bound (length flags) 1 (levels 1 flags) ltac:(lia) (levels_fit 1 flags 1 ltac:(reflexivity))) as B.
    assert (HLen : length (levels 1 flags) = length flags) by (unfold levels; apply map_length). rewrite HLen in B.
    change (N.to_nat (bits_required 1)) with 1. unfold u32_bytes. cbn [length]. lia.
Qed.
Lemma indices_size : forall indices nulls flags bw bs, shows_flags nulls flags -> length flags = length indices -> bw <= 32 ->
  Forall (fun z => (0 <= z < 2 ^ Z.of_nat bw)%Z) (select flags indices) ->
  encode_dictionary_indices indices nulls bw = Some bs -> length bs <= 5 * length flags + 40.
Proof.
  intros indices nulls flags bw bs Hs HL Hbw HF. unfold encode_dictionary_indices. destruct indices as [|i0 ir]; [intros E; apply some_inj in E; subst bs; cbn; lia|].
  cbv zeta. destruct (_ =? 0); [intros E; apply some_inj in E; subst bs; cbn; lia|].
  pose proof (flags_read _ _ Hs) as HR. destruct Hs as (A & _). rewrite A in HR. rewrite <- HL, HR. intros E; apply some_inj in E; subst bs.
  assert (P1 : forall z, (0 <= z < 2 ^ Z.of_nat bw)%Z -> (0 <= z < 2 ^ 32)%Z).
  { intros z Hz. assert (2 ^ Z.of_nat bw <= 2 ^ 32)%Z by (apply Z.pow_le_mono_r; lia). lia. }
  rewrite select_valid_spec by (eapply Forall_impl; [exact P1|exact HF]).
  assert (HF' : Forall (fun v => (v < 2 ^ N.of_nat bw)%N) (map Z.to_N (select flags (i0 :: ir)))).
  { apply Forall_map. eapply Forall_impl; [|exact HF]. intros z Hz. cbn beta in Hz.
    assert (Z.of_N (2 ^ N.of_nat bw) = 2 ^ Z.of_nat bw)%Z by (rewrite N2Z.inj_pow, nat_N_Z; reflexivity). lia. }
  pose proof (encode_runs_bound32 (length (map Z.to_N (select flags (i0 :: ir)))) bw _ Hbw HF') as B.
  rewrite map_length in B |- *. cbn [length].
  assert (HLE : forall l (is : list Z), length (select l is) <= length l).
  { clear. induction l as [|[] l IH]; intros [|i is]; cbn [select length]; try lia; specialize (IH is); lia. }
  specialize (HLE flags (i0 :: ir)). lia.
Qed.

(** ** Values *)
Lemma text_bytes_strings : forall l, text_bytes (map (option_map CBytes) l) + 4 * length (present l) = length (concat (map string_piece (present l))).
Proof. induction l as [|[s|] l IH]; cbn [map option_map text_bytes present concat length]; [reflexivity| |exact IH]. rewrite app_length, piece_length. lia. Qed.
Lemma text_bytes_other : forall V (mk : V -> cell) l, text_bytes (map (option_map mk) l) >= 0. Proof. lia. Qed.
Lemma concat_pieces_incl : forall d, NoDup d -> forall l, incl d l -> length (concat (map string_piece d)) <= length (concat (map string_piece l)).
Proof.
  induction d as [|s d IH]; intros ND l HI; [cbn; lia|]. inversion ND; subst.
  destruct (in_split s l (HI s (or_introl eq_refl))) as (l1 & l2 & ->).
  cbn [map concat]. rewrite app_length, map_app, concat_app. cbn [map concat]. rewrite !app_length.
  assert (incl d (l1 ++ l2)).
  { intros x Hx. specialize (HI x (or_intror Hx)). apply in_app_or in HI. apply in_or_app. destruct HI as [HI|[->|HI]]; [auto|contradiction|auto]. }
  specialize (IH ltac:(assumption) (l1 ++ l2) ltac:(assumption)). rewrite map_app, concat_app, app_length in IH. lia.
Qed.
Lemma concat_fixed_length : forall V (repr : V -> bytes) size l, (forall v, length (repr v) = size) -> length (concat (map repr l)) = size * length l.
Proof. intros V repr size l H. induction l as [|v l IH]; cbn [map concat length]; [lia|]. rewrite app_length, H, IH. lia. Qed.
Lemma index_width_ok : forall k, (N.of_nat k <= 2 ^ 31)%N ->
  index_width k <= 32 /\ (Z.of_nat k <= 2 ^ Z.of_nat (index_width k))%Z.
Proof.
  intros k Hk. unfold index_width.
  set (m := if k =? 0 then 0%N else (N.of_nat (k - 1) mod 2 ^ 32)%N).
  assert (Hm : (m < 2 ^ 32 /\ N.of_nat k <= m + 1)%N).
  { subst m. destruct (Nat.eqb_spec k 0); [subst; split; [reflexivity|lia]|].
    change (2 ^ 31)%N with 2147483648%N in Hk. change (2 ^ 32)%N with 4294967296%N. rewrite N.mod_small by lia. lia. }
  destruct Hm as [M1 M2]. rewrite bits_required_spec by exact M1.
  pose proof (level_width_le m 32 M1) as W. pose proof (level_width_fits m) as F.
  assert (E : (Z.of_N (2 ^ level_width m) = 2 ^ Z.of_nat (N.to_nat (level_width m)))%Z) by (rewrite N2Z.inj_pow, N_nat_Z; reflexivity).
  destruct (Nat.eqb_spec (N.to_nat (level_width m)) 0) as [H0|H0]; cbv zeta; split; try lia.
  rewrite H0 in E. cbn in E. cbn. lia.
Qed.
Lemma to_int32_N : forall n, (N.of_nat n < 2 ^ 31)%N -> to_int32 n = Z.of_nat n.
Proof. intros n H. apply to_int32_small. lia. Qed.
Lemma to_int32_int32 : forall n, (N.of_nat n < 2 ^ 31)%N -> int32 (to_int32 n).
Proof. intros n H. rewrite to_int32_N by exact H. change (2 ^ 31)%N with 2147483648%N in H. unfold int32. change (2 ^ 31)%Z with 2147483648%Z. lia. Qed.
Lemma to_int32_range : forall n, int32 (to_int32 n).
Proof. intros n. unfold to_int32, int32. pose proof (Z.mod_pos_bound (Z.of_nat n + 2 ^ 31) (2 ^ 32) ltac:(reflexivity)) as H. change (2 ^ 32)%Z with 4294967296%Z in *. change (2 ^ 31)%Z with 2147483648%Z in *. lia. Qed.
Section Encode.
Variable library : compression -> bytes -> option bytes.
Variable below : nat -> nat -> bool.
Variable options : parquet_options.
Definition dict_header (raw : bytes) (k : nat) : page_header :=
  Page 2 (to_int32 (length raw)) (stored_size library options raw) None None (Some (DictPage (to_int32 k) PLAIN None)).
Definition values_read (a : arrow_column) (cells : list (option cell)) (values : bytes) (dict : option (bytes * bytes * Z)) : Prop :=
  match dict with
  | None => read_plain (physical (ac_type a)) (length (present cells)) values = Some (present cells, [])
  | Some (h, content, size) =>
      exists entries raw, o_enable_dictionary options = true /\ ac_type a = STRING /\ (N.of_nat (length raw) <= 4 * N.of_nat (length cells) + N.of_nat (text_bytes cells))%N /\
        length entries <= length cells /\ h = header_bytes (dict_header raw (length entries)) /\ content = stored library options raw /\
        size = to_int32 (length raw) /\ read_plain P_BYTE_ARRAY (length entries) raw = Some (map CBytes entries, []) /\
        read_dictionary_values (map CBytes entries) (length (present cells)) values = Some (present cells, [])
  end.
Lemma fixed_values : forall V (c : column (list V)) l size repr (mk : V -> cell) t, size <= 8 -> (forall v, length (repr v) = size) -> t <> P_BOOLEAN ->
  shows_fixed c l -> (forall v, In (Some v) l -> reads_back t repr mk v) ->
  exists values, encode_fixed_plain_arrow size repr (c_values c) (c_nulls c) = Some values /\
    length values <= 8 * length (map (option_map mk) l) + 41 /\
    read_plain t (length (present (map (option_map mk) l))) values = Some (present (map (option_map mk) l), []).
Proof.
  intros V c l size repr mk t H8 Hr Ht Hs HV. eexists. split; [apply (fixed_arrow_bytes V size repr c l Hr Hs)|]. split.
  - rewrite (concat_fixed_length _ _ size), map_length by exact Hr. pose proof (present_nulls _ l). nia.
  - rewrite present_map, map_length. rewrite <- (app_nil_r (concat (map repr (present l)))).
    assert (F : Forall (reads_back t repr mk) (present l)) by (apply Forall_forall; intros v Hv; apply HV, in_present, Hv).
    destruct t; try contradiction; apply read_values; exact F.
Qed.
Lemma encode_values_ok : forall a cells, column_holds a cells -> (N.of_nat (length cells) <= 2 ^ 31)%N ->
  exists values dict, encode_values library below options a = Some (values, dict) /\
    length values <= 8 * length cells + text_bytes cells + 41 /\ values_read a cells values dict.
Proof.
  intros a cells H Hn. destruct a as [c|c|c|c|c|c|c]; cbn [column_holds] in H.
  - destruct H as (dflt & l & Hb & ->). destruct (bool_arrow_bytes c l (fixed_built_shows _ dflt _ _ Hb)) as (bs & E & L & R).
    exists bs, None. split; [cbn [encode_values]; rewrite E; reflexivity|]. rewrite map_length. split.
    + assert ((length (present l) + 7) / 8 <= length (present l) + 7) by (apply Nat.div_le_upper_bound; lia).
      pose proof (present_nulls _ l). lia.
    + cbn [values_read ac_type physical]. rewrite present_map, map_length. specialize (R []). rewrite app_nil_r in R. exact R.
  - destruct H as (dflt & l & Hb & HV & ->).
    destruct (fixed_values Z c l 4 int32_bytes CInt P_INT32 ltac:(lia) ltac:(intros; apply int_bytes_length) ltac:(discriminate) (fixed_built_shows _ dflt _ _ Hb)) as (bs & E & L & R);
      [intros z Hz; apply read_int32, HV, Hz|].
    exists bs, None. split; [cbn [encode_values]; unfold encode_int32_plain_arrow; rewrite E; reflexivity|]. split; [lia|exact R].
  - destruct H as (dflt & l & Hb & HV & ->).
    destruct (fixed_values Z c l 8 int64_bytes CInt P_INT64 ltac:(lia) ltac:(intros; apply int_bytes_length) ltac:(discriminate) (fixed_built_shows _ dflt _ _ Hb)) as (bs & E & L & R);
      [intros z Hz; apply read_int64, HV, Hz|].
    exists bs, None. split; [cbn [encode_values]; unfold encode_int64_plain_arrow; rewrite E; reflexivity|]. split; [lia|exact R].
  - destruct H as (dflt & l & Hb & HV & ->).
    destruct (fixed_values N c l 8 double_bytes CDouble P_DOUBLE ltac:(lia) ltac:(intros; apply int_bytes_length) ltac:(discriminate) (fixed_built_shows _ dflt _ _ Hb)) as (bs & E & L & R);
      [intros z Hz; apply read_double, HV, Hz|].
    exists bs, None. split; [cbn [encode_values]; unfold encode_float64_plain_arrow; rewrite E; reflexivity|]. split; [lia|exact R].
  - destruct H as (l & Hb & ->). pose proof (strings_built_shows _ _ Hb) as Hs. rewrite map_length in *.
    pose proof (text_bytes_strings l) as HT. pose proof (present_nulls _ l) as HP.
    assert (HSmall : Forall (reads_back P_BYTE_ARRAY string_piece CBytes) (present l)).
    { apply Forall_forall. intros s Hs'. apply read_string. eapply N.le_lt_trans; [apply texts_size_each; exact Hs'|]. apply (strings_built_small _ _ Hb). }
    assert (Plain : exists values dict, option_map (fun bs => (bs, None)) (encode_byte_array_plain_arrow (c_values c) (c_nulls c)) = Some (values, dict) /\
       length values <= 8 * length l + text_bytes (map (option_map CBytes) l) + 41 /\ values_read (AString c) (map (option_map CBytes) l) values dict).
    { eexists _, None. split; [rewrite (string_arrow_bytes c l Hs); reflexivity|]. split; [lia|].
      cbn [values_read ac_type physical]. rewrite present_map, map_length. rewrite <- (app_nil_r (concat (map string_piece (present l)))). apply read_values, HSmall. }
    cbn [encode_values]. destruct (o_enable_dictionary options) eqn:EO; [|exact Plain].
    assert (SU : exists b, should_use_dictionary below (c_values c) (c_nulls c) = Some b).
    { unfold should_use_dictionary. destruct (sb_size (c_values c) =? 0); [eexists; reflexivity|].
      pose proof (rows_at_shows _ _ Hs) as HR. destruct Hs as ((HA & _) & _). rewrite HA, map_length, string_rows_spec by exact HR. eexists; reflexivity. }
    destruct SU as ([|] & ->); [|exact Plain].
    unfold encode_with_dictionary. rewrite (create_arrow_rows c l Hs). destruct (dict_rows_faithful bytes_equal bytes_equal_ok l Hn) as (HF & HK).
    destruct (dict_rows bytes_equal l) as [entries indices]. cbn [fst snd] in HF, HK. rewrite string_page_bytes.
    pose proof HF as (ND & HL & HSome & _ & _ & HEx). destruct (select_lookup _ entries l indices HSome HL) as (SB & SM & SLen).
    assert (HK' : (N.of_nat (length entries) <= 2 ^ 31)%N) by lia.
    destruct (index_width_ok (length entries) HK') as (W32 & WF).
    assert (SB' : Forall (fun z => (0 <= z < 2 ^ Z.of_nat (index_width (length entries)))%Z) (select (valid_flags l) indices))
      by (eapply Forall_impl; [|exact SB]; cbn beta; intros; lia).
    pose proof Hs as (_ & Hfl & _).
    destruct (dict_indices_round_trip indices (c_nulls c) (valid_flags l) (index_width (length entries)) [] Hfl) as (bs & E & B1 & B2);
      [rewrite valid_flags_length; symmetry; exact HL|exact W32|exact SB'|].
    rewrite E. eexists _, (Some (_, _, _)). split; [reflexivity|].
    assert (HI : incl entries (present l)).
    { intros s Hin. apply In_nth_error in Hin. destruct Hin as [k Hk]. destruct (HEx _ _ Hk) as (i & Hi & _). apply in_present. apply nth_error_In in Hi. exact Hi. }
    split.
    + pose proof (indices_size indices (c_nulls c) (valid_flags l) (index_width (length entries)) bs Hfl) as IS. rewrite valid_flags_length in IS.
      specialize (IS (eq_sym HL) W32 SB' E). lia.
    + cbn [values_read ac_type]. exists entries, (concat (map string_piece entries)). split; [exact EO|]. split; [reflexivity|].
      pose proof (concat_pieces_incl entries ND (present l) HI) as CI. rewrite map_length. split; [lia|]. split; [exact HK|].
      split; [reflexivity|]. split; [reflexivity|]. split; [reflexivity|]. split.
      * rewrite <- (app_nil_r (concat (map string_piece entries))). apply read_values. apply Forall_forall. intros s Hin. rewrite Forall_forall in HSmall. apply HSmall, HI, Hin.
      * rewrite present_map, map_length. rewrite <- (app_nil_r bs). apply (dictionary_values_read entries l indices (index_width (length entries))); [exact HF|lia|exact B1|exact B2].
  - destruct H as (dflt & l & Hb & HV & ->).
    destruct (fixed_values Z c l 4 int32_bytes CInt P_INT32 ltac:(lia) ltac:(intros; apply int_bytes_length) ltac:(discriminate) (fixed_built_shows _ dflt _ _ Hb)) as (bs & E & L & R);
      [intros z Hz; apply read_int32, HV, Hz|].
    exists bs, None. split; [cbn [encode_values]; unfold encode_int32_plain_arrow; rewrite E; reflexivity|]. split; [lia|exact R].
  - destruct H as (dflt & l & Hb & HV & ->).
    destruct (fixed_values Z c l 8 int64_bytes CInt P_INT64 ltac:(lia) ltac:(intros; apply int_bytes_length) ltac:(discriminate) (fixed_built_shows _ dflt _ _ Hb)) as (bs & E & L & R);
      [intros z Hz; apply read_int64, HV, Hz|].
    exists bs, None. split; [cbn [encode_values]; unfold encode_int64_plain_arrow; rewrite E; reflexivity|]. split; [lia|exact R].
Qed.

(** ** Pages *)
Definition codec_of (content : bytes) : Z := if shrinks library options content then to_parquet_codec (o_compression options) else 0%Z.
Lemma stored_int32 : forall content, int32 (stored_size library options content) /\ int32 (to_int32 (length content)).
Proof. intros content. split; [|apply to_int32_range]. unfold stored_size. destruct (shrinks library options content); apply to_int32_range. Qed.
Lemma stored_length : forall content, length (stored library options content) <= length content.
Proof.
  intros content. unfold stored, compressed_or_empty. destruct (is_none (o_compression options)); [lia|]. cbv zeta.
  destruct (Nat.ltb_spec (length (compress library options content)) (length content)); [|lia].
  destruct (compress library options content); [lia|]. lia.
Qed.
Section Lossless.
Variable decompress : Z -> bytes -> option bytes.
Hypothesis HL : undone library decompress (o_compression options).
Lemma compress_shrinks : forall content, (N.of_nat (length content) < 2 ^ 31)%N -> shrinks library options content = true ->
  compress library options content <> [] /\ (to_parquet_codec (o_compression options) =? 0)%Z = false /\
  decompress (to_parquet_codec (o_compression options)) (compress library options content) = Some content /\
  length (compress library options content) < length content.
Proof.
  intros content HB H. unfold shrinks in H. apply andb_prop in H. destruct H as [H1 H2]. apply Nat.ltb_lt in H2.
  unfold compress in *. destruct content as [|b r]; [cbn in H2; lia|].
  destruct (o_compression options) eqn:EC; [discriminate H1| | | |];
    (match type of H2 with context[library ?c ?d] => destruct (library c d) as [out|] eqn:EL; [|lia] end;
     destruct (HL _ _ HB EL H2) as [A B]; repeat split; try assumption; reflexivity).
Qed.
Lemma stored_spec : forall content, (N.of_nat (length content) < 2 ^ 31)%N -> stored library options content = if shrinks library options content then compress library options content else content.
Proof.
  intros content HB. unfold stored, compressed_or_empty. destruct (shrinks library options content) eqn:E.
  - destruct (compress_shrinks _ HB E) as (A & _). unfold shrinks in E. apply andb_prop in E. destruct E as [E1 E2].
    destruct (is_none (o_compression options)); [discriminate E1|]. cbv zeta. rewrite E2. destruct (compress library options content); [contradiction|reflexivity].
  - unfold shrinks in E. destruct (is_none (o_compression options)); [reflexivity|]. cbn [negb andb] in E. cbv zeta. rewrite E. reflexivity.
Qed.
Lemma stored_size_spec : forall content, (N.of_nat (length content) < 2 ^ 31)%N ->
  stored_size library options content = Z.of_nat (length (stored library options content)) /\ length (stored library options content) <= length content.
Proof.
  intros content H. rewrite (stored_spec _ H). unfold stored_size. destruct (shrinks library options content) eqn:E.
  - destruct (compress_shrinks _ H E) as (_ & _ & _ & B). rewrite to_int32_N by lia. split; [reflexivity|lia].
  - rewrite to_int32_N by lia. split; [reflexivity|lia].
Qed.
Lemma page_content_stored : forall content h rest codec, (N.of_nat (length content) < 2 ^ 31)%N -> codec = codec_of content ->
  ph_uncompressed h = to_int32 (length content) -> ph_compressed h = stored_size library options content ->
  page_content decompress codec h (stored library options content ++ rest) = Some (content, rest).
Proof.
  intros content h rest codec Hc -> HU HC. unfold page_content. rewrite HU, HC. destruct (stored_size_spec content Hc) as [-> _].
  destruct (Z.leb_spec 0 (Z.of_nat (length (stored library options content)))); [|lia].
  rewrite take_exact by (rewrite <- nat_N_Z, N2Z.id; reflexivity).
  rewrite (stored_spec _ Hc). unfold codec_of. destruct (shrinks library options content) eqn:E.
  - destruct (compress_shrinks _ Hc E) as (_ & -> & -> & _). cbn [bind]. rewrite to_int32_N by exact Hc. rewrite Z.eqb_refl. reflexivity.
  - change (0 =? 0)%Z with true. cbn [bind]. rewrite to_int32_N by exact Hc. rewrite Z.eqb_refl. reflexivity.
Qed.
Lemma header_read : forall h, ok_page_header h -> header_bytes h <> [] /\ forall rest, read_as parse_page_header (header_bytes h ++ rest) = Some (h, rest).
Proof.
  intros h H. destruct (C63_page_header h H) as (bs & W & R). destruct (W (new_writer [])) as (E & _). unfold header_bytes. rewrite E. cbn [new_writer w_buffer app].
  split; [|exact R]. intros ->. specialize (R []). cbn [app] in R. discriminate R.
Qed.
Lemma data_pages_step : forall f t optional codec dict data, data <> [] ->
  read_data_pages decompress (S f) t optional codec dict data =
     match read_as parse_page_header data with
      | Some (h, r) =>
          match ph_data h with
          | Some d =>
              if ((ph_type h =? 0) && (dp_def_encoding d =? 3) && (0 <=? dp_num_values d))%Z then
                match page_content decompress codec h r with
                | Some (content, rest) =>
                    match read_page t optional dict (dp_encoding d) (Z.to_nat (dp_num_values d)) content,
                          read_data_pages decompress f t optional codec dict rest with
                    | Some cells, Some more => Some (cells ++ more)
                    | _, _ => None
                    end
                | None => None
                end
              else None
          | None => None
          end
      | None => None
      end.
Proof. intros f t optional codec dict [|b r] H; [contradiction|reflexivity]. Qed.
Lemma data_page_read : forall t optional dict content n encoding codec cells, (N.of_nat (length content) < 2 ^ 31)%N -> (N.of_nat n < 2 ^ 31)%N ->
  int32 encoding -> codec = codec_of content ->
  read_page t optional dict encoding n content = Some cells ->
  let h := Page 0 (to_int32 (length content)) (stored_size library options content) None (Some (DataPage (to_int32 n) encoding 3 3 None)) None in
  let data := header_bytes h ++ stored library options content in
  data <> [] /\ read_data_pages decompress (length data) t optional codec dict data = Some cells.
Proof.
  intros t optional dict content n encoding codec cells Hc Hn He HQ HR h data. destruct (stored_int32 content) as [S1 S2].
  assert (Hh : ok_page_header h).
  { subst h. unfold ok_page_header, ok_data_page. cbn [ph_type ph_uncompressed ph_compressed ph_crc ph_data ph_dict all_opt dp_num_values dp_encoding dp_def_encoding dp_rep_encoding dp_statistics].
    pose proof (to_int32_int32 n Hn). conjs; try assumption; try exact I; unfold int32; lia. }
  destruct (header_read h Hh) as [NE RD].
  assert (ND : data <> []) by (subst data; destruct (header_bytes h); [contradiction|discriminate]).
  split; [exact ND|]. assert (LD : exists m, length data = S m) by (destruct data; [contradiction|eexists; reflexivity]). destruct LD as [m ->].
  rewrite data_pages_step by exact ND. unfold data. rewrite RD. cbn [h ph_data ph_type dp_def_encoding dp_num_values dp_encoding].
  rewrite to_int32_N by exact Hn. destruct (Z.leb_spec 0 (Z.of_nat n)); [|lia]. change ((0 =? 0)%Z && (3 =? 3)%Z && true) with true. cbv iota.
  rewrite <- (app_nil_r (stored library options content)). rewrite (page_content_stored content _ [] codec Hc HQ) by reflexivity.
  rewrite Nat2Z.id, HR. destruct m; cbn [read_data_pages]; rewrite app_nil_r; reflexivity.
Qed.
Lemma dict_page_read : forall raw entries codec data, (N.of_nat (length raw) < 2 ^ 31)%N -> (N.of_nat (length entries) < 2 ^ 31)%N ->
  codec = codec_of raw -> read_plain P_BYTE_ARRAY (length entries) raw = Some (map CBytes entries, []) ->
  read_dictionary_page decompress P_BYTE_ARRAY codec (header_bytes (dict_header raw (length entries)) ++ stored library options raw ++ data) = Some (map CBytes entries, data).
Proof.
  intros raw entries codec data Hr He HQ HR. destruct (stored_int32 raw) as [S1 S2].
  assert (Hh : ok_page_header (dict_header raw (length entries))).
  { unfold ok_page_header, dict_header, ok_dict_page. cbn [ph_type ph_uncompressed ph_compressed ph_crc ph_data ph_dict all_opt di_num_values di_encoding di_is_sorted].
    pose proof (to_int32_int32 _ He). conjs; try assumption; try exact I; unfold int32, PLAIN; lia. }
  destruct (header_read _ Hh) as [NE RD]. unfold read_dictionary_page. rewrite RD. cbn [dict_header ph_dict ph_type di_encoding di_num_values].
  rewrite to_int32_N by exact He. destruct (Z.leb_spec 0 (Z.of_nat (length entries))); [|lia]. change ((2 =? 2)%Z && (PLAIN =? PLAIN)%Z && true) with true. cbv iota.
  fold (dict_header raw (length entries)). rewrite (page_content_stored raw _ data codec Hr HQ); [|cbn [dict_header ph_uncompressed]; reflexivity|reflexivity].
  rewrite Nat2Z.id, HR. reflexivity.
Qed.
End Lossless.

(** ** A column *)
Lemma holds_shows : forall a cells, column_holds a cells -> shows_flags (ac_nulls a) (valid_flags cells) /\ ac_size a = length cells.
Proof.
  assert (F : forall V (dflt : V) c l mk, fixed_built dflt c l -> shows_flags (c_nulls c) (valid_flags (map (option_map (B:=cell) mk) l)) /\ fx_size c = length (map (option_map mk) l)).
  { intros V dflt c l mk Hb. destruct (fixed_built_shows _ dflt _ _ Hb) as (A & B & _). rewrite valid_flags_map, map_length. split; assumption. }
  intros [c|c|c|c|c|c|c] cells; cbn [column_holds ac_nulls ac_size].
  - intros (dflt & l & Hb & ->). apply (F _ dflt); exact Hb.
  - intros (dflt & l & Hb & _ & ->). apply (F _ dflt); exact Hb.
  - intros (dflt & l & Hb & _ & ->). apply (F _ dflt); exact Hb.
  - intros (dflt & l & Hb & _ & ->). apply (F _ dflt); exact Hb.
  - intros (l & Hb & ->). destruct (strings_built_shows _ _ Hb) as ((A & _) & B & _). rewrite valid_flags_map, map_length. rewrite map_length in A. split; assumption.
  - intros (dflt & l & Hb & _ & ->). apply (F _ dflt); exact Hb.
  - intros (dflt & l & Hb & _ & ->). apply (F _ dflt); exact Hb.
Qed.
Lemma no_nulls_flags : forall (cells : list (option cell)), ~ In None cells -> valid_flags cells = repeat true (length cells).
Proof. induction cells as [|[c|] cells IH]; intros H; [reflexivity| |exfalso; apply H; left; reflexivity]. cbn [valid_flags map length repeat]. f_equal. apply IH. intros HI. apply H. right. exact HI. Qed.
Lemma levels_flags : forall flags, map (fun l => (l =? 1)%N) (levels 1 flags) = flags.
Proof. induction flags as [|[|] l IH]; cbn; [reflexivity|f_equal; exact IH|f_equal; exact IH]. Qed.
Lemma page_read : forall t optional dict encoding cells levels_bytes values,
  (optional = true -> cells <> [] -> forall rest, decode_levels 1 (length cells) (levels_bytes ++ rest) = Some (levels 1 (valid_flags cells), rest)) ->
  (optional = false \/ cells = [] -> levels_bytes = [] /\ valid_flags cells = repeat true (length cells)) ->
  (encoding = PLAIN /\ read_plain t (length (present cells)) values = Some (present cells, []) \/
   encoding = RLE_DICTIONARY /\ read_dictionary_values dict (length (present cells)) values = Some (present cells, [])) ->
  read_page t optional dict encoding (length cells) (levels_bytes ++ values) = Some cells.
Proof.
  intros t optional dict encoding cells lb values H1 H2 H3. unfold read_page.
  assert (E : (if optional && negb (length cells =? 0)
         then match decode_levels 1 (length cells) (lb ++ values) with
              | None => None
              | Some (ls, r) => Some (map (fun l => (l =? 1)%N) ls, r)
              end
         else Some (repeat true (length cells), lb ++ values)) = Some (valid_flags cells, values)).
  { destruct (optional && negb (length cells =? 0)) eqn:EO.
    - apply andb_prop in EO. destruct EO as [EO1 EO2]. rewrite H1; [rewrite levels_flags; reflexivity|exact EO1|]. intros ->. discriminate EO2.
    - destruct H2 as [-> ->]; [|reflexivity]. destruct optional; [|left; reflexivity]. right. cbn [andb] in EO. destruct cells; [reflexivity|discriminate EO]. }
  rewrite E, <- present_length. destruct H3 as [[-> HV]|[-> HV]].
  - change (PLAIN =? PLAIN)%Z with true. cbv iota. rewrite HV. apply place_present.
  - change (RLE_DICTIONARY =? PLAIN)%Z with false. change (RLE_DICTIONARY =? RLE_DICTIONARY)%Z with true. cbv iota. rewrite HV. apply place_present.
Qed.

Lemma physical_stored : forall t, physical (stored_type t) = physical t.
Proof. intros []; reflexivity. Qed.
Definition column_shape (s : column_schema) (cells : list (option cell)) (e : encoded_column) (page : bytes) (dict : option (bytes * list bytes)) : Prop :=
  e_num_values e = Z.of_nat (length cells) /\ e_type e = stored_type (cs_type s) /\ e_name e = cs_name s /\ e_codec e = codec_of page /\
  (N.of_nat (length page) < 2 ^ 31)%N /\ e_uncompressed e = Z.of_nat (length page) /\ e_content e = stored library options page /\
  (exists h, e_header e = header_bytes h /\ ok_page_header h /\ (match ph_data h with Some d => dp_statistics d = None | None => True end)) /\
  match dict with
  | None => e_uses_dict e = false
  | Some (raw, entries) => o_enable_dictionary options = true /\ e_uses_dict e = true /\ stored_type (cs_type s) = STRING /\
      e_dict_header e = Some (header_bytes (dict_header raw (length entries))) /\ ok_page_header (dict_header raw (length entries)) /\ e_dict_content e = Some (stored library options raw) /\
      e_dict_uncompressed e = Z.of_nat (length raw) /\ (N.of_nat (length raw) < 2 ^ 31)%N
  end.
Definition column_reads (decompress : Z -> bytes -> option bytes) (s : column_schema) (cells : list (option cell)) (e : encoded_column) (page : bytes) (dict : option (bytes * list bytes)) : Prop :=
  let data := e_header e ++ e_content e in
  data <> [] /\
  match dict with
  | None => read_data_pages decompress (length data) (physical (cs_type s)) (cs_nullable s) (e_codec e) [] data = Some cells
  | Some (raw, entries) => 
      (codec_of raw = codec_of page -> forall data, read_dictionary_page decompress P_BYTE_ARRAY (e_codec e) (header_bytes (dict_header raw (length entries)) ++ stored library options raw ++ data) = Some (map CBytes entries, data)) /\
      read_data_pages decompress (length data) (physical (cs_type s)) (cs_nullable s) (e_codec e) (map CBytes entries) data = Some cells
  end.
Lemma encode_column_ok : forall n s a cells, column_fits n s a cells ->
  exists e page dict, encode_column_arrow library below options a s = Some e /\ column_shape s cells e page dict /\
    forall decompress, undone library decompress (o_compression options) -> column_reads decompress s cells e page dict.
Proof.
  intros n s a cells (HT & HH & HN & HNull & HP). unfold page_fits in HP. change (2 ^ 31)%N with 2147483648%N in HP.
  destruct (holds_shows a cells HH) as [Hfl Hsz].
  destruct (encode_values_ok a cells HH) as (values & dict & EV & LV & RV); [change (2 ^ 31)%N with 2147483648%N; lia|].
  unfold encode_column_arrow. cbv zeta. rewrite EV, Hsz.
  assert (LEV : exists lb, (if cs_nullable s then encode_def_levels_hybrid_arrow (ac_nulls a) 1 (null_count_fast (ac_nulls a)) else Some []) = Some lb /\
    length lb <= 2 * length cells + 20 /\
    (cs_nullable s = true -> cells <> [] -> forall rest, decode_levels 1 (length cells) (lb ++ rest) = Some (levels 1 (valid_flags cells), rest)) /\
    (cs_nullable s = false \/ cells = [] -> lb = [] /\ valid_flags cells = repeat true (length cells))).
  { destruct (cs_nullable s) eqn:EN.
    - destruct cells as [|c0 cells'].
      + destruct Hfl as (A & _). exists []. unfold encode_def_levels_hybrid_arrow. rewrite A. split; [reflexivity|]. split; [cbn; lia|]. split; [intros _ []; reflexivity|]. intros _. split; reflexivity.
      + set (cells := c0 :: cells') in *.
        assert (HNC : null_count_fast (ac_nulls a) = nulls_in (valid_flags cells)) by (destruct Hfl as (_ & _ & _ & A & _); exact A).
        destruct (def_levels_round_trip (ac_nulls a) (valid_flags cells) 1 (null_count_fast (ac_nulls a)) [] Hfl) as (lb & EL & _);
          [discriminate|rewrite valid_flags_length; change (2 ^ 31)%N with 2147483648%N; lia|lia|exact HNC|].
        exists lb. split; [exact EL|]. split; [pose proof (levels_size _ _ _ _ Hfl EL) as LS; rewrite valid_flags_length in LS; exact LS|]. split.
        * intros _ _ rest. destruct (def_levels_round_trip (ac_nulls a) (valid_flags cells) 1 (null_count_fast (ac_nulls a)) rest Hfl) as (lb' & EL' & R);
            [discriminate|rewrite valid_flags_length; change (2 ^ 31)%N with 2147483648%N; lia|lia|exact HNC|].
          rewrite EL in EL'. apply some_inj in EL'. subst lb'. rewrite valid_flags_length in R. exact R.
        * intros [X|X]; discriminate X.
    - exists []. split; [reflexivity|]. split; [cbn; lia|]. split; [discriminate|]. intros _. split; [reflexivity|]. apply no_nulls_flags, HNull. reflexivity. }
  destruct LEV as (lb & -> & LL & L1 & L2).
  assert (HPage : (N.of_nat (length (lb ++ values)) < 2 ^ 31)%N) by (rewrite app_length; change (2 ^ 31)%N with 2147483648%N; lia).
  assert (HCells : (N.of_nat (length cells) < 2 ^ 31)%N) by (change (2 ^ 31)%N with 2147483648%N; lia).
  set (page := lb ++ values) in *. destruct (stored_int32 page) as [S1 S2].
  assert (OK : forall enc, int32 enc -> ok_page_header (Page 0 (to_int32 (length page)) (stored_size library options page) None (Some (DataPage (to_int32 (length cells)) enc 3 3 None)) None)).
  { intros enc He. unfold ok_page_header, ok_data_page. cbn [ph_type ph_uncompressed ph_compressed ph_crc ph_data ph_dict all_opt dp_num_values dp_encoding dp_def_encoding dp_rep_encoding dp_statistics].
    pose proof (to_int32_int32 _ HCells). conjs; try assumption; try exact I; unfold int32; lia. }
  destruct dict as [[[h content] size]|]; cbn [values_read] in RV.
  - destruct RV as (entries & raw & EO & AS & LR & LE & -> & -> & -> & RP & RD).
    assert (HRaw : (N.of_nat (length raw) < 2 ^ 31)%N) by (change (2 ^ 31)%N with 2147483648%N; lia).
    assert (HEnt : (N.of_nat (length entries) < 2 ^ 31)%N) by (change (2 ^ 31)%N with 2147483648%N; lia).
    eexists _, page, (Some (raw, entries)). split; [reflexivity|]. split.
    + unfold column_shape. cbn [e_num_values e_type e_name e_codec e_uncompressed e_compressed e_content e_header e_uses_dict e_dict_header e_dict_content e_dict_uncompressed option_map fst snd].
      conjs; try reflexivity; try assumption; try (apply to_int32_N; assumption).
      * eexists. split; [reflexivity|]. split; [apply OK; unfold int32, RLE_DICTIONARY; lia|reflexivity].
      * congruence.
      * destruct (stored_int32 raw). unfold ok_page_header, dict_header, ok_dict_page. cbn [ph_type ph_uncompressed ph_compressed ph_crc ph_data ph_dict all_opt di_num_values di_encoding di_is_sorted].
        pose proof (to_int32_int32 _ HEnt). conjs; try assumption; try exact I; unfold int32, PLAIN; lia.
    + intros decompress HLs. unfold column_reads. cbn [e_header e_content e_codec].
      destruct (data_page_read decompress HLs (physical (cs_type s)) (cs_nullable s) (map CBytes entries) page (length cells) RLE_DICTIONARY (codec_of page) cells HPage HCells) as [DN DR];
        [unfold int32, RLE_DICTIONARY; lia|reflexivity|apply page_read; [exact L1|exact L2|right; split; [reflexivity|exact RD]]|].
      conjs; try assumption.
      intros HQ data. apply dict_page_read; try assumption. symmetry. exact HQ.
  - eexists _, page, None. split; [reflexivity|]. split.
    + unfold column_shape. cbn [e_num_values e_type e_name e_codec e_uncompressed e_compressed e_content e_header e_uses_dict e_dict_header e_dict_content e_dict_uncompressed option_map fst snd].
      conjs; try reflexivity; try assumption; try (apply to_int32_N; assumption).
      eexists. split; [reflexivity|]. split; [apply OK; unfold int32, PLAIN; lia|reflexivity].
    + intros decompress HLs. unfold column_reads. cbn [e_header e_content e_codec].
      destruct (data_page_read decompress HLs (physical (cs_type s)) (cs_nullable s) [] page (length cells) PLAIN (codec_of page) cells HPage HCells) as [DN DR];
        [unfold int32, PLAIN; lia|reflexivity|apply page_read; [exact L1|exact L2|left; split; [reflexivity|rewrite <- physical_stored, <- HT; exact RV]]|].
      conjs; assumption.
Qed.
End Encode.
