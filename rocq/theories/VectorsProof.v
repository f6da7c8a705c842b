From Verif Require Import Base VarintModel RleSpec RleModel RleProof RleProof2 RleProof3 HybridSpec HybridProof HybridProof2 BuffersSpec BuffersModel PlainSpec PlainModel PlainProof PlainProof2
  TypesSpec ThriftSpec MetaSpec ParquetModel ParquetProof StatsSpec StatsModel VectorsSpec VectorsModel.

(** ** Sizes *)
Lemma piece_size p : fair p -> Forall (fun v => (v < 2 ^ N.of_nat 1)%N) (HybridSpec.content p) -> length (emit 1 p) <= 6 * length (HybridSpec.content p).
Proof.
  destruct p as [v c|l]; cbn [emit HybridSpec.content fair]; intros H F.
  - unfold rle_run. rewrite app_length, map_length, seq_length, repeat_length. pose proof (write_varint32_len (shl1_u32 (N.of_nat c))). change ((1 + 7) / 8) with 1. lia.
  - unfold bit_packed_run. cbv zeta. fold (padded l). rewrite app_length. pose proof (write_varint32_len (N.lor (shl1_u32 (N.of_nat ((length l + 7) / 8))) 1)) as W.
    assert (L1 : 1 <= length l) by (destruct l; [tauto|cbn [length]; lia]).
    destruct (bit_pack_spec 1 (padded l) ltac:(lia) (padded_bound _ _ F)) as [_ ->]. rewrite padded_length.
    set (g := (length l + 7) / 8) in *. assert (g <= length l) by (unfold g; apply Nat.div_le_upper_bound; lia). clearbody g.
    assert (E : 1 * (8 * g) + 7 = 7 + g * 8) by lia. rewrite E, Nat.div_add by discriminate. change (7 / 8) with 0. lia.
Qed.
Lemma hybrid_size vs : Forall (fun v => (v < 2 ^ N.of_nat 1)%N) vs -> length (encode_hybrid_rle 1 vs) <= 6 * length vs.
Proof.
  intros F. rewrite encoder_pieces. rewrite <- (pieces_content vs) in F. rewrite <- (pieces_content vs) at 2. pose proof (pieces_fair vs) as G.
  induction (pieces vs) as [|p ps IH]; [cbn; lia|]. cbn [map concat] in F. apply Forall_app in F. destruct F as [F1 F2].
  inversion G as [|? ? G1 G2]; subst. specialize (IH F2 G2). unfold emit_all in *. cbn [map concat]. rewrite !app_length. pose proof (piece_size p G1 F1). lia.
Qed.
Lemma count_nulls_exists nulls : existsb (fun b => b) nulls = false <-> count_nulls nulls = 0.
Proof. unfold count_nulls. induction nulls as [|[] l IH]; cbn; [tauto|split; discriminate|exact IH]. Qed.
Lemma legacy_size nulls : count_nulls nulls <> 0 -> length (encode_def_levels_hybrid_legacy nulls 1) <= 4 + 6 * length nulls.
Proof.
  intros C. unfold encode_def_levels_hybrid_legacy, encode_def_levels_hybrid. destruct nulls as [|n0 nr] eqn:E; [cbn; lia|]. rewrite <- E in *. clear E.
  cbv zeta. destruct (Nat.eqb_spec (count_nulls nulls) 0); [contradiction|]. rewrite app_length. change (N.to_nat (bits_required 1)) with 1.
  assert (F : Forall (fun v => (v < 2 ^ N.of_nat 1)%N) (map (fun b : bool => if b then 0%N else 1%N) nulls))
    by (apply Forall_map, Forall_forall; intros [] _; reflexivity).
  pose proof (hybrid_size _ F) as HS. rewrite map_length in HS. unfold u32_bytes. cbn [length]. lia.
Qed.

(** ** Rows *)
Lemma rows_flags {V} (values : list V) nulls : shape values nulls ->
  valid_flags (legacy_rows values nulls) = match nulls with [] => repeat true (length values) | _ => map negb nulls end.
Proof.
  intros H. unfold legacy_rows. destruct nulls as [|b nb].
  - clear H. induction values as [|v l IH]; [reflexivity|]. cbn [map valid_flags length repeat]. f_equal. exact IH.
  - destruct H as [H|H]; [discriminate H|]. revert values H. generalize (b :: nb). clear. induction l as [|b l IH]; intros [|v vs] H; try discriminate H; [reflexivity|].
    cbn [combine map valid_flags snd fst]. f_equal; [destruct b; reflexivity|]. apply IH. cbn in H. lia.
Qed.
Lemma rows_length {V} (values : list V) nulls : shape values nulls -> length (legacy_rows values nulls) = length values.
Proof. apply legacy_rows_length. Qed.
Lemma some_null_flags {V} (rows : list (option V)) : some_null rows = existsb negb (valid_flags rows).
Proof. unfold some_null, valid_flags. induction rows as [|[v|] l IH]; cbn; [reflexivity|exact IH|reflexivity]. Qed.
Lemma rows_nulls {V} (values : list V) nulls : shape values nulls -> some_null (legacy_rows values nulls) = existsb (fun b => b) nulls.
Proof.
  intros H. rewrite some_null_flags, rows_flags by exact H. destruct nulls as [|b nb].
  - cbn [existsb]. clear H. induction values as [|v l IH]; [reflexivity|exact IH].
  - generalize (b :: nb). clear. induction l as [|b l IH]; [reflexivity|]. cbn [map existsb]. rewrite negb_involutive, IH. reflexivity.
Qed.
Lemma flags_all {V} (rows : list (option V)) : some_null rows = false -> valid_flags rows = repeat true (length rows).
Proof. unfold some_null. induction rows as [|[v|] l IH]; cbn; intros H; [reflexivity|f_equal; exact (IH H)|discriminate H]. Qed.
Lemma some_null_map {V W} (f : V -> W) rows : some_null (map (option_map f) rows) = some_null rows.
Proof. rewrite !some_null_flags, valid_flags_map. reflexivity. Qed.

(** ** Levels *)
Lemma levels_part {V} (values : list V) nulls bs : shape values nulls -> (N.of_nat (length values) < 2 ^ 29)%N ->
  let rows := legacy_rows values nulls in
  (some_null rows = true -> aligned (pieces (levels 1 (valid_flags rows)))) ->
  (if some_null rows && negb (length rows =? 0)
   then match decode_levels 1 (length rows) (page_levels nulls ++ bs) with
        | None => None
        | Some (ls, r) => Some (map (fun l => (l =? 1)%N) ls, r)
        end
   else Some (repeat true (length rows), page_levels nulls ++ bs)) = Some (valid_flags rows, bs).
Proof.
  intros H HN rows A. unfold page_levels. rewrite <- (rows_nulls values nulls H). fold rows. destruct (some_null rows) eqn:E.
  - specialize (A eq_refl). assert (EN : existsb (fun b => b) nulls = true) by (rewrite <- (rows_nulls values nulls H); exact E).
    assert (NN : nulls <> []) by (intros ->; discriminate EN).
    assert (FL : valid_flags rows = map negb nulls) by (unfold rows; rewrite rows_flags by exact H; destruct nulls; [contradiction|reflexivity]).
    assert (LR : length rows = length nulls) by (rewrite <- (valid_flags_length _ rows), FL, map_length; reflexivity).
    assert (LV : length rows = length values) by (apply rows_length; exact H).
    assert (CN : count_nulls nulls <> 0) by (intros C; apply count_nulls_exists in C; congruence).
    rewrite LR. destruct (Nat.eqb_spec (length nulls) 0) as [Z|Z]; [destruct nulls; [contradiction|discriminate Z]|]. cbn [negb andb].
    rewrite FL in A. change (2 ^ 29)%N with 536870912%N in HN.
    rewrite (levels_aligned nulls 1 bs (encode_def_levels_hybrid_legacy nulls 1)); [| exact NN | | lia | right; exact A | reflexivity |].
    + rewrite FL. f_equal. f_equal. unfold levels. rewrite !map_map. apply map_ext. intros []; reflexivity.
    + change (2 ^ 31)%N with 2147483648%N. lia.
    + pose proof (legacy_size nulls CN). change (2 ^ 32)%N with 4294967296%N. lia.
  - cbn [andb app]. rewrite flags_all by exact E. reflexivity.
Qed.

Lemma plain_page {V} (values : list V) nulls t (mk : V -> cell) bs : shape values nulls -> (N.of_nat (length values) < 2 ^ 29)%N ->
  let rows := legacy_rows values nulls in
  (some_null rows = true -> aligned (pieces (levels 1 (valid_flags rows)))) ->
  (forall rest, read_plain_column t (valid_flags rows) (bs ++ rest) = Some (map (option_map mk) rows, rest)) ->
  read_page t (some_null rows) [] PLAIN (length rows) (page_levels nulls ++ bs) = Some (map (option_map mk) rows).
Proof.
  intros H HN rows A R. unfold read_page. pose proof (levels_part values nulls bs H HN A) as L. fold rows in L. rewrite L. clear L.
  change (PLAIN =? PLAIN)%Z with true. cbn match. specialize (R []). rewrite app_nil_r in R. unfold read_plain_column in R.
  destruct (read_plain t (count_valid (valid_flags rows)) bs) as [(vs, r)|]; [|discriminate R].
  destruct (place (valid_flags rows) vs) as [l|] eqn:P; [|discriminate R]. apply some_inj in R.
  assert (R1 : l = map (option_map mk) rows) by congruence. assert (R2 : r = []) by congruence. subst r l. reflexivity.
Qed.

(** ** Pages as they are stored *)
Lemma finished library decompress codec page : lossless library decompress -> stored_as decompress codec (finish_page library codec page) page.
Proof.
  intros L. unfold finish_page, stored_as. destruct codec; [left; reflexivity| | | |];
  (cbv zeta; unfold compress; cbn [o_compression]; destruct page as [|b page]; [left; reflexivity|];
   match goal with |- context [library ?c ?d] => destruct (library c d) as [out|] eqn:E end;
   [destruct (Nat.ltb_spec (length out) (length (b :: page))) as [G|G]; [right; split; [discriminate|split; [exact G|exact (L _ _ _ E)]]|left; reflexivity]
   |rewrite Nat.ltb_irrefl; left; reflexivity]).
Qed.

(** ** Indices *)
Lemma kept_rows {V} (values : list V) nulls : shape values nulls -> kept values nulls = Some (present (legacy_rows values nulls)).
Proof.
  intros H. unfold kept, legacy_rows. destruct nulls as [|b nb]; [rewrite present_some; reflexivity|].
  destruct H as [H|H]; [discriminate H|]. apply keep_flagged_spec. lia.
Qed.
Lemma select_all {A} : forall (l : list A), select (repeat true (length l)) l = l.
Proof. induction l as [|a l IH]; [reflexivity|]. cbn [length repeat select]. f_equal. exact IH. Qed.
Lemma keep_select {A} : forall nulls (l : list A), length nulls = length l -> keep_flagged l nulls = Some (select (map negb nulls) l).
Proof.
  induction nulls as [|b nulls IH]; intros [|a l] H; try discriminate H; [reflexivity|]. cbn [keep_flagged map select]. rewrite IH by (cbn in H; lia). destruct b; reflexivity.
Qed.
Lemma kept_select {V} (values : list V) nulls (indices : list Z) : shape values nulls -> length indices = length values ->
  kept indices nulls = Some (select (valid_flags (legacy_rows values nulls)) indices).
Proof.
  intros H HL. rewrite rows_flags by exact H. unfold kept. destruct nulls as [|b nb].
  - rewrite <- HL, select_all. reflexivity.
  - destruct H as [H|H]; [discriminate H|]. apply keep_select. lia.
Qed.
Lemma select_positive {V} (rows : list (option V)) : forall indices, length indices = length rows ->
  (forall i v, nth_error rows i = Some (Some v) -> exists k, nth_error indices i = Some (Z.of_nat k)) ->
  (forall i, nth_error rows i = Some None -> nth_error indices i = Some (-1)%Z) ->
  select (valid_flags rows) indices = filter (fun i => (0 <=? i)%Z) indices.
Proof.
  induction rows as [|r rows IH]; intros indices HL HS HN; destruct indices as [|z is]; try discriminate HL; [reflexivity|].
  assert (I : select (valid_flags rows) is = filter (fun i => (0 <=? i)%Z) is).
  { apply IH; [cbn in HL; lia|intros i v E; exact (HS (S i) v E)|intros i E; exact (HN (S i) E)]. }
  cbn [valid_flags map select filter]. change (map (fun c : option V => match c with Some _ => true | None => false end) rows) with (valid_flags rows). rewrite I.
  destruct r as [v|].
  - destruct (HS 0 v eq_refl) as (k & E). cbn in E. injection E as ->. destruct (Z.leb_spec 0 (Z.of_nat k)); [reflexivity|lia].
  - pose proof (HN 0 eq_refl) as E. cbn in E. injection E as ->. reflexivity.
Qed.
Lemma bits_loop_grows : forall f m b, (b <= bits_loop f m b)%N.
Proof. induction f as [|f IH]; intros m b; cbn [bits_loop]; [lia|]. destruct (0 <? m)%N; [|lia]. specialize (IH (N.shiftr m 1) (b + 1)%N). lia. Qed.
Lemma width_same k : indices_width k = index_width k.
Proof.
  unfold indices_width, index_width, bits_required_internal, bits_required. destruct (Nat.ltb_spec 0 k) as [H|H].
  - destruct (Nat.eqb_spec k 0); [lia|]. set (m := (N.of_nat (k - 1) mod 2 ^ 32)%N). cbv zeta. destruct (N.eqb_spec m 0) as [E|E]; [reflexivity|].
    assert (P : (1 <= bits_loop 32 m 0)%N).
    { change (bits_loop 32 m 0) with (if (0 <? m)%N then bits_loop 31 (N.shiftr m 1) 1%N else 0%N). destruct (N.ltb_spec 0 m); [apply bits_loop_grows|lia]. }
    destruct (Nat.eqb_spec (N.to_nat (bits_loop 32 m 0)) 0); lia.
  - assert (k = 0) by lia. subst k. reflexivity.
Qed.

Lemma indices_page {V} (values : list V) nulls t (mk : V -> cell) (dict : list V) indices : shape values nulls -> (N.of_nat (length values) < 2 ^ 29)%N ->
  let rows := legacy_rows values nulls in
  (some_null rows = true -> aligned (pieces (levels 1 (valid_flags rows)))) ->
  faithful_dictionary rows dict indices -> (N.of_nat (length dict) <= 2 ^ 31)%N -> present rows <> [] ->
  aligned (pieces (map Z.to_N (filter (fun i => (0 <=? i)%Z) indices))) ->
  exists is, kept indices nulls = Some is /\
    read_page t (some_null rows) (map mk dict) RLE_DICTIONARY (length rows)
      (page_levels nulls ++ [N.of_nat (indices_width (length dict))] ++ encode_hybrid_rle (indices_width (length dict)) (map (fun i => Z.to_N (i mod 2 ^ 32)%Z) is))
    = Some (map (option_map mk) rows).
Proof.
  intros H HN rows A HF HD HP AI. pose proof HF as (_ & HL & HS & HZ & _).
  assert (LV : length rows = length values) by (apply rows_length; exact H).
  exists (select (valid_flags rows) indices). split; [apply kept_select; [exact H|lia]|].
  destruct (select_lookup _ dict rows indices HS HL) as (SB & SM & SL).
  rewrite <- (select_positive rows indices HL) in AI; [|intros i v E; destruct (HS i v E) as (k & E1 & _); exists k; exact E1|exact HZ].
  set (is := select (valid_flags rows) indices) in *. destruct (index_width_ok (length dict) HD) as (W1 & W2). rewrite width_same. set (bw := index_width (length dict)) in *.
  assert (EI : map (fun i => Z.to_N (i mod 2 ^ 32)%Z) is = map Z.to_N is).
  { apply map_ext_in. intros z Hz. rewrite Forall_forall in SB. specialize (SB z Hz). rewrite Z.mod_small; [reflexivity|].
    change (2 ^ 31)%N with 2147483648%N in HD. change (2 ^ 32)%Z with 4294967296%Z. lia. }
  rewrite EI.
  assert (FI : Forall (fun v => (v < 2 ^ N.of_nat bw)%N) (map Z.to_N is)).
  { apply Forall_map. eapply Forall_impl; [|exact SB]. intros z Hz. cbn beta in Hz.
    assert (Z.of_N (2 ^ N.of_nat bw) = 2 ^ Z.of_nat bw)%Z by (rewrite N2Z.inj_pow, nat_N_Z; reflexivity). lia. }
  pose proof (hybrid_aligned bw (map Z.to_N is) [] ltac:(lia) FI AI) as HA. rewrite app_nil_r, map_length in HA.
  unfold read_page. pose proof (levels_part values nulls ([N.of_nat bw] ++ encode_hybrid_rle bw (map Z.to_N is)) H HN A) as L. fold rows in L. rewrite L. clear L.
  change (RLE_DICTIONARY =? PLAIN)%Z with false. change (RLE_DICTIONARY =? RLE_DICTIONARY)%Z with true. cbn match.
  rewrite <- present_length. unfold read_dictionary_values. rewrite SL in HA.
  destruct (length (present rows)) as [|n] eqn:En; [destruct (present rows); [contradiction|discriminate En]|]. cbn [app]. rewrite HA.
  assert (G : map (fun i => nth_error (map mk dict) (N.to_nat i)) (map Z.to_N is) = map Some (map mk (present rows))).
  { transitivity (map (option_map mk) (map (fun i => nth_error dict (N.to_nat i)) (map Z.to_N is))).
    - rewrite (map_map (fun i => nth_error dict (N.to_nat i))). apply map_ext. intros i. apply nth_error_map.
    - rewrite SM, !map_map. apply map_ext. reflexivity. }
  cbv zeta. rewrite G.
  assert (F : forall cs : list cell, forallb (fun o => match o with Some _ => true | None => false end) (map Some cs) = true /\
              concat (map (fun o => match o with Some c => [c] | None => [] end) (map Some cs)) = cs).
  { induction cs as [|c cs [I1 I2]]; [split; reflexivity|]. cbn. split; [exact I1|f_equal; exact I2]. }
  destruct (F (map mk (present rows))) as [-> ->]. rewrite <- present_map, <- (valid_flags_map _ _ mk). apply place_present.
Qed.

(** ** When a dictionary is used *)
Section Unique.
Context {V : Type}.
Variable eqb : V -> V -> bool.
Hypothesis eqb_ok : forall a b, eqb a b = true <-> a = b.
Lemma unique_spec : forall vs set, NoDup set -> NoDup (insert_unique eqb vs set) /\ (forall v, In v (insert_unique eqb vs set) <-> In v vs \/ In v set).
Proof.
  induction vs as [|v vs IH]; intros set ND; cbn [insert_unique]; [split; [exact ND|intros v; cbn; tauto]|].
  destruct (existsb (eqb v) set) eqn:E.
  - destruct (IH set ND) as [I1 I2]. split; [exact I1|]. intros x. rewrite I2. cbn [In]. apply existsb_exists in E. destruct E as (y & Y1 & Y2). apply eqb_ok in Y2. subst y.
    split; [tauto|]. intros [[->|?]|?]; auto.
  - assert (NI : ~ In v set) by (intros I; assert (X : existsb (eqb v) set = true) by (apply existsb_exists; exists v; split; [exact I|apply eqb_ok; reflexivity]); congruence).
    destruct (IH (v :: set) (NoDup_cons _ NI ND)) as [I1 I2]. split; [exact I1|]. intros x. rewrite I2. cbn [In]. tauto.
Qed.
Lemma unique_count rows dict indices : faithful_dictionary rows dict indices -> length (insert_unique eqb (present rows) []) = length dict.
Proof.
  intros (ND & HL & HS & _ & _ & HU). destruct (unique_spec (present rows) [] (NoDup_nil _)) as [U1 U2].
  assert (I : forall v, In v (insert_unique eqb (present rows) []) <-> In v dict).
  { intros v. rewrite U2. split.
    - intros [Hv|[]]. apply in_present in Hv. apply In_nth_error in Hv. destruct Hv as (i & Hi). destruct (HS i v Hi) as (k & _ & E). exact (nth_error_In _ _ E).
    - intros Hv. left. apply In_nth_error in Hv. destruct Hv as (k & Hk). destruct (HU k v Hk) as (i & Hi & _). apply in_present. exact (nth_error_In _ _ Hi). }
  apply Nat.le_antisymm; apply NoDup_incl_length; try assumption; intros v Hv; apply I; exact Hv.
Qed.
Lemma analysis_spec most below values nulls dict indices : shape values nulls -> faithful_dictionary (legacy_rows values nulls) dict indices ->
  exists b, analyze_dictionary eqb most below values nulls = Some b /\
    (b = true <-> values <> [] /\ (length dict <= 16 \/ length dict <= most /\ below (length dict) (length values) = true)).
Proof.
  intros H HF. unfold analyze_dictionary. destruct values as [|v0 vr] eqn:E.
  - exists false. split; [reflexivity|]. split; [discriminate|intros [X _]; contradiction].
  - rewrite <- E in *. rewrite kept_rows by exact H. cbv zeta. rewrite (unique_count _ _ _ HF). eexists. split; [reflexivity|].
    rewrite orb_true_iff, andb_true_iff, !Nat.leb_le. split; [intros X; split; [subst; discriminate|tauto]|tauto].
Qed.
End Unique.
