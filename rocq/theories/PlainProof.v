From Verif Require Import Base VarintSpec ThriftSpec ThriftProof BuffersSpec BuffersModel BuffersObs BuffersProof
  RleSpec RleModel RleProof RleProof2 PlainSpec PlainModel.

Fixpoint present {A} (l : list (option A)) : list A :=
  match l with [] => [] | Some a :: r => a :: present r | None :: r => present r end.
Lemma present_length : forall A (l : list (option A)), length (present l) = count_valid (valid_flags l).
Proof. induction l as [|[a|] l IH]; cbn; [reflexivity|f_equal; exact IH|exact IH]. Qed.
Lemma present_nulls : forall A (l : list (option A)), length (present l) + nulls_in (valid_flags l) = length l.
Proof. unfold nulls_in. induction l as [|[a|] l IH]; cbn; [reflexivity| |]; unfold valid_flags in IH; lia. Qed.
Lemma present_map : forall A B (f : A -> B) l, present (map (option_map f) l) = map f (present l).
Proof. induction l as [|[a|] l IH]; cbn; [reflexivity|f_equal; exact IH|exact IH]. Qed.
Lemma place_present : forall A (l : list (option A)), place (valid_flags l) (present l) = Some l.
Proof.
  induction l as [|[a|] l IH]; cbn [valid_flags map present place]; [reflexivity| |];
    change (map (fun c : option A => match c with Some _ => true | None => false end) l) with (valid_flags l); rewrite IH; reflexivity.
Qed.
Lemma valid_flags_map : forall A B (f : A -> B) l, valid_flags (map (option_map f) l) = valid_flags l.
Proof. intros. unfold valid_flags. rewrite map_map. apply map_ext. intros [a|]; reflexivity. Qed.
Lemma valid_flags_length : forall A (l : list (option A)), length (valid_flags l) = length l.
Proof. intros. apply map_length. Qed.
Lemma nth_valid : forall A (l : list (option A)) i c, nth_error l i = Some c ->
  nth_error (valid_flags l) i = Some (match c with Some _ => true | None => false end).
Proof. intros A l i c H. unfold valid_flags. rewrite nth_error_map, H. reflexivity. Qed.

(** ** Fixed-size values *)
Lemma int_bytes_le : forall w z, int_bytes w z = le_bytes w (Z.to_N (z mod 2 ^ (8 * Z.of_nat w))).
Proof.
  intros w z. unfold int_bytes.
  assert (G : forall w k, map (fun k => Z.to_N (Z.shiftr z (8 * Z.of_nat k) mod 256)) (seq k w)
     = le_bytes w (Z.to_N (Z.shiftr z (8 * Z.of_nat k) mod 2 ^ (8 * Z.of_nat w)))).
  { clear w. induction w as [|w IH]; intros k; cbn [seq map le_bytes]; [reflexivity|]. f_equal.
    - set (s := Z.shiftr z (8 * Z.of_nat k)). replace (8 * Z.of_nat (S w))%Z with (8 + 8 * Z.of_nat w)%Z by lia.
      rewrite Z.pow_add_r by lia. change (2 ^ 8)%Z with 256%Z.
      assert (P : (0 < 2 ^ (8 * Z.of_nat w))%Z) by (apply Z.pow_pos_nonneg; lia).
      rewrite <- (Z.mod_mod s 256) by lia.
      apply N2Z.inj. rewrite N2Z.inj_mod. 
      rewrite !Z2N.id; try (apply Z.mod_pos_bound; lia). change (Z.of_N 256) with 256%Z.
      rewrite Z.mod_mod by lia. rewrite (Z.rem_mul_r s 256) by lia.
      rewrite (Z.mul_comm 256), Z_mod_plus_full, Z.mod_mod by lia. reflexivity.
    - rewrite IH. f_equal. apply N2Z.inj.
      assert (P : (0 < 2 ^ (8 * Z.of_nat w))%Z) by (apply Z.pow_pos_nonneg; lia).
      assert (P2 : (0 < 2 ^ (8 * Z.of_nat (S w)))%Z) by (apply Z.pow_pos_nonneg; lia).
      rewrite N2Z.inj_div, !Z2N.id by (apply Z.mod_pos_bound; lia). change (Z.of_N 256) with (2 ^ 8)%Z.
      replace (8 * Z.of_nat (S k))%Z with (8 * Z.of_nat k + 8)%Z by lia. rewrite <- Z.shiftr_shiftr by lia.
      set (s := Z.shiftr z (8 * Z.of_nat k)). rewrite Z.shiftr_div_pow2 by lia.
      replace (8 * Z.of_nat (S w))%Z with (8 + 8 * Z.of_nat w)%Z by lia. rewrite Z.pow_add_r by lia.
      rewrite (Z.rem_mul_r s) by lia. rewrite (Z.mul_comm (2 ^ 8) (_ mod _)), Z.div_add by lia.
      rewrite (Z.div_small (s mod 2 ^ 8)) by (apply Z.mod_pos_bound; lia). lia. }
  specialize (G w 0). rewrite Z.mul_0_r, Z.shiftr_0_r in G. exact G.
Qed.
Lemma int_bytes_length : forall w z, length (int_bytes w z) = w.
Proof. intros. unfold int_bytes. rewrite map_length. apply seq_length. Qed.
Lemma le_value_int : forall w z, le_value (int_bytes w z) = Z.to_N (z mod 2 ^ (8 * Z.of_nat w)).
Proof.
  intros w z. rewrite int_bytes_le. apply le_value_bytes.
  assert (P : (0 < 2 ^ (8 * Z.of_nat w))%Z) by (apply Z.pow_pos_nonneg; lia).
  pose proof (Z.mod_pos_bound z _ P). apply N2Z.inj_lt. rewrite Z2N.id by lia.
  rewrite N2Z.inj_pow, nat_N_Z. change (Z.of_N 256) with (2 ^ 8)%Z. rewrite <- Z.pow_mul_r by lia. lia.
Qed.
Lemma signed_int32 : forall z, int32 z -> signed 32 (le_value (int32_bytes z)) = z.
Proof.
  intros z [H1 H2]. unfold int32_bytes. rewrite le_value_int. change (8 * Z.of_nat 4)%Z with 32%Z. unfold signed.
  change (2 ^ 31)%Z with 2147483648%Z in *. change (2 ^ (32 - 1))%N with 2147483648%N. change (Z.of_N 32) with 32%Z.
  change (2 ^ 32)%Z with 4294967296%Z.
  pose proof (Z.mod_pos_bound z 4294967296 ltac:(lia)). pose proof (Z.div_mod z 4294967296 ltac:(lia)).
  assert (z / 4294967296 = 0 \/ z / 4294967296 = -1)%Z by lia.
  destruct (N.ltb_spec (Z.to_N (z mod 4294967296)) 2147483648); rewrite Z2N.id by lia; lia.
Qed.
Lemma signed_int64 : forall z, int64 z -> signed 64 (le_value (int64_bytes z)) = z.
Proof.
  intros z [H1 H2]. unfold int64_bytes. rewrite le_value_int. change (8 * Z.of_nat 8)%Z with 64%Z. unfold signed.
  change (2 ^ 63)%Z with 9223372036854775808%Z in *. change (2 ^ (64 - 1))%N with 9223372036854775808%N. change (Z.of_N 64) with 64%Z.
  change (2 ^ 64)%Z with 18446744073709551616%Z.
  pose proof (Z.mod_pos_bound z 18446744073709551616 ltac:(lia)). pose proof (Z.div_mod z 18446744073709551616 ltac:(lia)).
  assert (z / 18446744073709551616 = 0 \/ z / 18446744073709551616 = -1)%Z by lia.
  destruct (N.ltb_spec (Z.to_N (z mod 18446744073709551616)) 9223372036854775808); rewrite Z2N.id by lia; lia.
Qed.
Lemma double_read : forall n, (n < 2 ^ 64)%N -> le_value (double_bytes n) = n.
Proof.
  intros n H. unfold double_bytes. rewrite le_value_int. change (8 * Z.of_nat 8)%Z with 64%Z.
  rewrite Z.mod_small; [apply N2Z.id|]. split; [lia|]. change (2 ^ 64)%Z with (Z.of_N (2 ^ 64)). lia.
Qed.

(** What reading a value back means. *)
Definition reads_back {V} (t : ptype) (repr : V -> bytes) (mk : V -> cell) (v : V) : Prop :=
  forall rest, read_plain_value t (repr v ++ rest) = Some (mk v, rest).
Lemma read_int32 : forall z, int32 z -> reads_back P_INT32 int32_bytes CInt z.
Proof.
  intros z H rest. cbn [read_plain_value]. rewrite take_exact by (unfold int32_bytes; rewrite int_bytes_length; reflexivity).
  rewrite signed_int32 by exact H. reflexivity.
Qed.
Lemma read_int64 : forall z, int64 z -> reads_back P_INT64 int64_bytes CInt z.
Proof.
  intros z H rest. cbn [read_plain_value]. rewrite take_exact by (unfold int64_bytes; rewrite int_bytes_length; reflexivity).
  rewrite signed_int64 by exact H. reflexivity.
Qed.
Lemma read_double : forall n, (n < 2 ^ 64)%N -> reads_back P_DOUBLE double_bytes CDouble n.
Proof.
  intros z H rest. cbn [read_plain_value]. rewrite take_exact by (unfold double_bytes; rewrite int_bytes_length; reflexivity).
  rewrite double_read by exact H. reflexivity.
Qed.
Lemma read_string : forall s, (N.of_nat (length s) < 2 ^ 32)%N -> reads_back P_BYTE_ARRAY string_piece CBytes s.
Proof.
  intros s H rest. cbn [read_plain_value]. unfold string_piece. rewrite N.mod_small by exact H.
  rewrite u32_bytes_le, <- app_assoc. rewrite take_exact by (rewrite le_bytes_length; reflexivity).
  rewrite le_value_bytes by exact H. rewrite take_app. reflexivity.
Qed.
Lemma read_values : forall V t repr mk (vs : list V) rest, Forall (reads_back t repr mk) vs ->
  read_plain_values t (length vs) (concat (map repr vs) ++ rest) = Some (map mk vs, rest).
Proof.
  intros V t repr mk vs rest H. induction H as [|v vs Hv _ IH]; [reflexivity|].
  cbn [length map concat read_plain_values]. rewrite <- app_assoc, Hv, IH. reflexivity.
Qed.

Lemma keep_valid_spec : forall V nulls (l : list (option V)) values i,
  length values = length l ->
  (forall j v, nth_error l j = Some (Some v) -> nth_error values j = Some v) ->
  (forall j b, nth_error (valid_flags l) j = Some b -> is_valid nulls (i + j) = Some b) ->
  keep_valid nulls values i = Some (present l).
Proof.
  intros V nulls l. induction l as [|c l IH]; intros values i HL HV HB; destruct values as [|v values]; try discriminate HL; [reflexivity|].
  cbn [keep_valid present]. cbn [length] in HL.
  rewrite (IH values (S i)).
  - pose proof (HB 0 _ eq_refl) as H0. rewrite Nat.add_0_r in H0. rewrite H0.
    destruct c as [a|]; [|reflexivity]. specialize (HV 0 a eq_refl). cbn in HV. injection HV as ->. reflexivity.
  - lia.
  - intros j a Hj. apply (HV (S j) a Hj).
  - intros j b Hj. replace (S i + j) with (i + S j) by lia. apply HB. exact Hj.
Qed.
Lemma keep_valid_shows : forall V (c : column (list V)) l, shows_fixed c l -> keep_valid (c_nulls c) (c_values c) 0 = Some (present l).
Proof.
  intros V c l (HA & HB & _ & HC). apply keep_valid_spec; [exact HA|exact HC|]. intros j b. apply (proj1 (proj2 HB)).
Qed.
Lemma all_present : forall V (l : list (option V)) values, length values = length l ->
  (forall j v, nth_error l j = Some (Some v) -> nth_error values j = Some v) -> nulls_in (valid_flags l) = 0 -> values = present l.
Proof.
  intros V l. induction l as [|c l IH]; intros values HL HV HN; destruct values as [|v values]; try discriminate HL; [reflexivity|].
  destruct c as [a|]; [|discriminate HN]. cbn [present]. f_equal.
  - specialize (HV 0 a eq_refl). cbn in HV. congruence.
  - apply IH; [cbn in HL; lia| |exact HN]. intros j w Hj. apply (HV (S j) w Hj).
Qed.
Lemma fill_exact : forall total pieces, length (concat pieces) = total -> fill_region total pieces = Some (concat pieces).
Proof.
  intros total pieces <-. unfold fill_region. rewrite Nat.leb_refl, Nat.sub_diag, app_nil_r. reflexivity.
Qed.
Lemma concat_fixed : forall V size (repr : V -> bytes) vs, (forall v, length (repr v) = size) -> length (concat (map repr vs)) = length vs * size.
Proof. intros V size repr vs H. induction vs as [|v vs IH]; [reflexivity|]. cbn [map concat length]. rewrite app_length, IH, H. lia. Qed.

Lemma fixed_arrow_bytes : forall V size (repr : V -> bytes) c l, (forall v, length (repr v) = size) -> shows_fixed c l ->
  encode_fixed_plain_arrow size repr (c_values c) (c_nulls c) = Some (concat (map repr (present l))).
Proof.
  intros V size repr c l Hs H. pose proof H as (HA & HB & HN & HC). unfold col_null_count in HN.
  unfold encode_fixed_plain_arrow. rewrite HN. unfold fx_size in HA. pose proof (present_nulls _ l) as HP.
  destruct (Nat.eqb_spec (nulls_in (valid_flags l)) 0) as [E|E].
  - rewrite (all_present _ l (c_values c) HA HC E) at 1. reflexivity.
  - destruct (Nat.ltb_spec (length (c_values c)) (nulls_in (valid_flags l))); [lia|].
    rewrite (keep_valid_shows _ _ _ H). apply fill_exact. rewrite (concat_fixed _ size) by exact Hs. f_equal. lia.
Qed.

Lemma present_some : forall V (l : list V), present (map Some l) = l.
Proof. induction l as [|v l IH]; cbn; [reflexivity|f_equal; exact IH]. Qed.
Lemma keep_flagged_spec : forall V (values : list V) nb, length values <= length nb ->
  keep_flagged values nb = Some (present (map (fun p : V * bool => if snd p then None else Some (fst p)) (combine values nb))).
Proof.
  induction values as [|v values IH]; intros [|b nb] H; cbn [length] in H; try lia; try reflexivity.
  cbn [keep_flagged combine map snd fst present]. rewrite IH by lia. destruct b; reflexivity.
Qed.
Lemma count_not_null_spec : forall V (values : list V) nb c, length values <= length nb ->
  count_not_null values nb c = Some (c + length (present (map (fun p : V * bool => if snd p then None else Some (fst p)) (combine values nb)))).
Proof.
  induction values as [|v values IH]; intros [|b nb] c H; cbn [length] in H; try lia; try (cbn; f_equal; lia).
  cbn [count_not_null combine map snd fst present]. rewrite IH by lia. destruct b; cbn [present length]; f_equal; lia.
Qed.
Lemma not_all_dropped : forall V (values : list V) nb, length values <= length nb ->
  length (present (map (fun p : V * bool => if snd p then None else Some (fst p)) (combine values nb))) = length values ->
  present (map (fun p : V * bool => if snd p then None else Some (fst p)) (combine values nb)) = values.
Proof.
  assert (B : forall V (values : list V) nb, length (present (map (fun p : V * bool => if snd p then None else Some (fst p)) (combine values nb))) <= length values).
  { induction values as [|v values IH]; intros [|b nb]; cbn [combine map snd fst present length]; try lia.
    specialize (IH nb). destruct b; cbn [present length]; lia. }
  induction values as [|v values IH]; intros [|b nb] H; cbn [length] in H; try lia; try reflexivity.
  cbn [combine map snd fst present length]. destruct b; cbn [present length].
  - intros E. specialize (B V values nb). lia.
  - intros E. f_equal. apply IH; lia.
Qed.
Lemma fixed_legacy_bytes : forall V size (repr : V -> bytes) values nb, (forall v, length (repr v) = size) ->
  nb = [] \/ length nb = length values ->
  encode_fixed_plain size repr values nb = Some (concat (map repr (present (legacy_rows values nb)))).
Proof.
  intros V size repr values nb Hs H. unfold encode_fixed_plain, legacy_rows. destruct nb as [|b nb].
  - rewrite present_some. reflexivity.
  - destruct H as [H|H]; [discriminate H|].
    rewrite count_not_null_spec, keep_flagged_spec by lia. cbn [Nat.add].
    set (kept := present _).
    destruct (Nat.eqb_spec (length kept) (length values)) as [E|E].
    + unfold kept in *. rewrite not_all_dropped by (try exact E; lia). reflexivity.
    + apply fill_exact. rewrite (concat_fixed _ size) by exact Hs. reflexivity.
Qed.

(** ** Booleans *)
Definition b2n (b : bool) : N := if b then 1%N else 0%N.
Lemma le_value_update : forall d i b m, nth_error d i = Some b -> le_value (update d i (b + m)%N) = (le_value d + 256 ^ N.of_nat i * m)%N.
Proof.
  induction d as [|x d IH]; intros i b m H; [destruct i; discriminate H|]. destruct i as [|i].
  - cbn [nth_error] in H. injection H as ->. cbn [update le_value]. change (256 ^ N.of_nat 0)%N with 1%N. lia.
  - cbn [nth_error] in H. cbn [update le_value]. rewrite (IH _ _ _ H), Nat2N.inj_succ, N.pow_succ_r'. lia.
Qed.
Lemma le_value_at : forall d i b, nth_error d i = Some b -> (256 ^ N.of_nat i * b <= le_value d)%N.
Proof.
  induction d as [|x d IH]; intros i b H; [destruct i; discriminate H|]. destruct i as [|i].
  - cbn [nth_error] in H. injection H as ->. cbn [le_value]. change (256 ^ N.of_nat 0)%N with 1%N. lia.
  - cbn [nth_error] in H. cbn [le_value]. rewrite Nat2N.inj_succ, N.pow_succ_r'. specialize (IH _ _ H). lia.
Qed.
Lemma lor_low : forall b k, (b < 2 ^ N.of_nat k)%N -> N.lor b (bit_mask k) = (b + 2 ^ N.of_nat k)%N.
Proof.
  intros b k H. unfold bit_mask. rewrite N.shiftl_mul_pow2, N.mul_1_l.
  assert (D : N.land b (2 ^ N.of_nat k) = 0%N).
  { apply N.bits_inj. intros n. rewrite N.land_spec, N.bits_0, N.pow2_bits_eqb. destruct (N.eqb_spec (N.of_nat k) n) as [<-|]; [|apply andb_false_r].
    rewrite N.testbit_eqb, N.div_small by exact H. reflexivity. }
  rewrite <- N.lxor_lor by exact D. symmetry. apply N.add_nocarry_lxor. exact D.
Qed.
Lemma pow_256 : forall i, (256 ^ N.of_nat i = 2 ^ N.of_nat (8 * i))%N.
Proof. intros. change 256%N with (2 ^ 8)%N. rewrite <- N.pow_mul_r. f_equal. lia. Qed.
Lemma set_bits_spec : forall vs out idx, (le_value out < 2 ^ N.of_nat idx)%N -> idx + length vs <= 8 * length out ->
  exists out', set_bits out idx vs = Some out' /\ length out' = length out /\
    le_value out' = (le_value out + 2 ^ N.of_nat idx * horner 1 (map b2n vs))%N.
Proof.
  induction vs as [|v vs IH]; intros out idx Hv Hl; cbn [length] in Hl.
  - exists out. cbn [set_bits map horner]. repeat split. lia.
  - cbn [set_bits map horner]. 
    assert (P : (2 ^ N.of_nat (S idx) = 2 * 2 ^ N.of_nat idx)%N) by (rewrite Nat2N.inj_succ, N.pow_succ_r'; reflexivity).
    change (2 ^ 1)%N with 2%N. destruct v; cbn [b2n].
    + unfold or_at. destruct (nth_error out (idx / 8)) as [b|] eqn:E.
      2:{ apply nth_error_None in E. pose proof (Nat.div_mod idx 8 ltac:(lia)). pose proof (Nat.mod_upper_bound idx 8 ltac:(lia)). lia. }
      assert (Hb : (b < 2 ^ N.of_nat (idx mod 8))%N).
      { pose proof (le_value_at _ _ _ E) as HA. rewrite pow_256 in HA.
        assert (HS : (2 ^ N.of_nat idx = 2 ^ N.of_nat (8 * (idx / 8)) * 2 ^ N.of_nat (idx mod 8))%N).
        { rewrite <- N.pow_add_r. f_equal. pose proof (Nat.div_mod idx 8 ltac:(lia)). lia. }
        rewrite HS in Hv. apply (N.mul_lt_mono_pos_l (2 ^ N.of_nat (8 * (idx / 8)))); [|lia].
        apply N.neq_0_lt_0, N.pow_nonzero. discriminate. }
      rewrite lor_low by exact Hb. pose proof (le_value_update _ _ _ (2 ^ N.of_nat (idx mod 8))%N E) as HU.
      assert (HS : (256 ^ N.of_nat (idx / 8) * 2 ^ N.of_nat (idx mod 8) = 2 ^ N.of_nat idx)%N).
      { rewrite pow_256, <- N.pow_add_r. f_equal. pose proof (Nat.div_mod idx 8 ltac:(lia)). lia. }
      rewrite HS in HU.
      destruct (IH (update out (idx / 8) (b + 2 ^ N.of_nat (idx mod 8))%N) (S idx)) as (out' & E1 & E2 & E3).
      * rewrite HU, P. lia.
      * rewrite update_length. lia.
      * exists out'. rewrite update_length in E2. rewrite HU, P in E3. repeat split; [exact E1|exact E2|]. lia.
    + destruct (IH out (S idx)) as (out' & E1 & E2 & E3); [rewrite P; lia|lia|].
      exists out'. rewrite P in E3. repeat split; [exact E1|exact E2|]. lia.
Qed.
Lemma le_value_zeros : forall n, le_value (repeat 0%N n) = 0%N.
Proof. induction n as [|n IH]; cbn [repeat le_value]; [reflexivity|]. rewrite IH. reflexivity. Qed.
Lemma bools_read : forall vs n, n = (length vs + 7) / 8 ->
  exists bs, set_bits (repeat 0%N n) 0 vs = Some bs /\ length bs = n /\
    forall rest, read_plain P_BOOLEAN (length vs) (bs ++ rest) = Some (map CBool vs, rest).
Proof.
  intros vs n Hn. destruct (set_bits_spec vs (repeat 0%N n) 0) as (bs & E1 & E2 & E3).
  - rewrite le_value_zeros. vm_compute. reflexivity.
  - rewrite repeat_length. pose proof (Nat.div_mod (length vs + 7) 8 ltac:(lia)). pose proof (Nat.mod_upper_bound (length vs + 7) 8 ltac:(lia)). lia.
  - rewrite repeat_length in E2. exists bs. repeat split; [exact E1|exact E2|]. intros rest. unfold read_plain, bytes_for.
    rewrite take_exact by lia. rewrite le_value_zeros in E3. change (2 ^ N.of_nat 0)%N with 1%N in E3.
    rewrite (unpack_horner 1 (map b2n vs)).
    + rewrite firstn_all2 by (rewrite map_length; lia). rewrite map_map. f_equal. f_equal. apply map_ext. intros []; reflexivity.
    + apply Forall_map, Forall_forall. intros []; cbn; intros; lia.
    + rewrite map_length. lia.
    + lia.
Qed.
