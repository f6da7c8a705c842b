From Verif Require Import Base VarintSpec ThriftSpec ThriftProof BuffersSpec BuffersModel BuffersObs BuffersProof BuffersProof2 BuffersReach BuffersReachProof
  RleSpec RleModel RleProof RleProof2 PlainSpec PlainModel PlainProof.

(** ** Strings *)
Definition row_at (values : strbuf) (nulls : bitmap) (i : nat) (c : option bytes) : Prop :=
  match c with
  | None => is_valid nulls i = Some false
  | Some s => is_valid nulls i = Some true /\ sb_get values i = Some s /\ sb_length values i = Some (N.of_nat (length s))
  end.
Lemma rows_at_shows : forall c l, shows_strings c l -> forall j x, nth_error l j = Some x -> row_at (c_values c) (c_nulls c) j x.
Proof.
  intros c l ((_ & _ & HT) & (_ & HF & _) & _) j x Hj. pose proof (HF j _ (nth_valid _ _ _ _ Hj)) as HV. unfold row_at.
  destruct x as [s|]; [|exact HV]. split; [exact HV|]. apply HT. rewrite nth_error_map, Hj. reflexivity.
Qed.
Lemma string_rows_spec : forall values nulls l i, (forall j x, nth_error l j = Some x -> row_at values nulls (i + j) x) ->
  string_rows values nulls (length l) i = Some l.
Proof.
  induction l as [|c l IH]; intros i H; [reflexivity|]. cbn [length string_rows]. rewrite IH.
  - specialize (H 0 c eq_refl). rewrite Nat.add_0_r in H. unfold row_at in H. destruct c as [s|].
    + destruct H as (-> & -> & _). reflexivity.
    + rewrite H. reflexivity.
  - intros j x Hj. replace (S i + j) with (i + S j) by lia. apply H. exact Hj.
Qed.
Lemma string_pieces_spec : forall values nulls l i, (forall j x, nth_error l j = Some x -> row_at values nulls (i + j) x) ->
  string_pieces values nulls (length l) i = Some (map string_piece (present l)).
Proof.
  induction l as [|c l IH]; intros i H; [reflexivity|]. cbn [length string_pieces]. rewrite IH.
  - specialize (H 0 c eq_refl). rewrite Nat.add_0_r in H. unfold row_at in H. destruct c as [s|].
    + destruct H as (-> & -> & _). reflexivity.
    + rewrite H. reflexivity.
  - intros j x Hj. replace (S i + j) with (i + S j) by lia. apply H. exact Hj.
Qed.
Lemma piece_length : forall s, length (string_piece s) = 4 + length s.
Proof. intros. unfold string_piece. rewrite app_length. reflexivity. Qed.
Lemma string_total_spec : forall values nulls l i t, (forall j x, nth_error l j = Some x -> row_at values nulls (i + j) x) ->
  string_total values nulls (length l) i t = Some (t + length (concat (map string_piece (present l)))).
Proof.
  induction l as [|c l IH]; intros i t H; [cbn; f_equal; lia|]. cbn [length string_total].
  assert (H' : forall j x, nth_error l j = Some x -> row_at values nulls (S i + j) x).
  { intros j x Hj. replace (S i + j) with (i + S j) by lia. apply H. exact Hj. }
  specialize (H 0 c eq_refl). rewrite Nat.add_0_r in H. unfold row_at in H. destruct c as [s|].
  - destruct H as (-> & _ & ->). rewrite IH by exact H'. cbn [present map concat]. rewrite app_length, piece_length, Nat2N.id. f_equal. lia.
  - rewrite H, IH by exact H'. reflexivity.
Qed.
Lemma string_arrow_bytes : forall c l, shows_strings c l ->
  encode_byte_array_plain_arrow (c_values c) (c_nulls c) = Some (concat (map string_piece (present l))).
Proof.
  intros c l H. pose proof (rows_at_shows _ _ H) as HR. destruct H as ((HA & _) & _). unfold encode_byte_array_plain_arrow. rewrite HA, map_length.
  rewrite string_total_spec by exact HR. rewrite string_pieces_spec by exact HR. apply fill_exact. reflexivity.
Qed.
Lemma strings_size_spec : forall l, strings_size l = length (concat (map string_piece l)).
Proof.
  intros l. unfold strings_size. assert (G : forall l t, fold_left (fun total s => total + (4 + length s)) l t = t + length (concat (map string_piece l))).
  { clear l. induction l as [|s l IH]; intros t; cbn [fold_left map concat]; [cbn; lia|]. rewrite IH, app_length, piece_length. lia. }
  apply G.
Qed.
Lemma string_page_bytes : forall l, encode_dictionary_page_strings l = Some (concat (map string_piece l)).
Proof. intros. unfold encode_dictionary_page_strings. apply fill_exact. symmetry. apply strings_size_spec. Qed.
Lemma string_plain_bytes : forall l, encode_string_plain l = Some (concat (map string_piece l)).
Proof. exact string_page_bytes. Qed.
Lemma string_legacy_bytes : forall values nb, nb = [] \/ length nb = length values ->
  encode_byte_array_plain values nb = Some (concat (map string_piece (present (legacy_rows values nb)))).
Proof.
  intros values nb H. unfold encode_byte_array_plain, legacy_rows. destruct nb as [|b nb].
  - rewrite present_some. apply string_plain_bytes.
  - destruct H as [H|H]; [discriminate H|]. rewrite keep_flagged_spec by lia. apply fill_exact. symmetry. apply strings_size_spec.
Qed.
Lemma bool_arrow_bytes : forall c l, shows_fixed c l ->
  exists bs, encode_bool_plain_arrow (c_values c) (c_nulls c) = Some bs /\ length bs = (length (present l) + 7) / 8 /\
    forall rest, read_plain P_BOOLEAN (length (present l)) (bs ++ rest) = Some (map (fun v => CBool (negb (v =? 0)%N)) (present l), rest).
Proof.
  intros c l H. pose proof H as (HA & HB & HN & HC). unfold col_null_count in HN. unfold encode_bool_plain_arrow. rewrite HN. unfold fx_size in HA.
  pose proof (present_nulls _ l) as HP. destruct (Nat.ltb_spec (length (c_values c)) (nulls_in (valid_flags l))); [lia|].
  rewrite (keep_valid_shows _ _ _ H).
  destruct (bools_read (map (fun v => negb (v =? 0)%N) (present l)) ((length (c_values c) - nulls_in (valid_flags l) + 7) / 8)) as (bs & E1 & E2 & E3).
  - rewrite map_length. f_equal. lia.
  - exists bs. split; [exact E1|]. split; [rewrite E2; f_equal; lia|]. intros rest. specialize (E3 rest). rewrite map_length, map_map in E3. exact E3.
Qed.
Lemma bool_legacy_bytes : forall values nb, nb = [] \/ length nb = length values ->
  exists bs, encode_bool_plain values nb = Some bs /\
    forall rest, read_plain P_BOOLEAN (length (present (legacy_rows values nb))) (bs ++ rest) = Some (map CBool (present (legacy_rows values nb)), rest).
Proof.
  intros values nb H. unfold encode_bool_plain, legacy_rows. destruct nb as [|b nb].
  - rewrite present_some. destruct (bools_read values _ eq_refl) as (bs & E1 & _ & E3). exists bs. split; assumption.
  - destruct H as [H|H]; [discriminate H|]. rewrite keep_flagged_spec, count_not_null_spec by lia.
    destruct (bools_read (present (map (fun p : bool * bool => if snd p then None else Some (fst p)) (combine values (b :: nb)))) _ eq_refl) as (bs & E1 & _ & E3).
    exists bs. split; assumption.
Qed.

Lemma fixed_column_read : forall V t repr mk (l : list (option V)) rest, t <> P_BOOLEAN -> Forall (reads_back t repr mk) (present l) ->
  read_plain_column t (valid_flags l) (concat (map repr (present l)) ++ rest) = Some (map (option_map mk) l, rest).
Proof.
  intros V t repr mk l rest Ht H. unfold read_plain_column. rewrite <- present_length.
  assert (E : read_plain t (length (present l)) (concat (map repr (present l)) ++ rest) = Some (map mk (present l), rest)).
  { destruct t; try contradiction; apply read_values; exact H. }
  rewrite E, <- present_map, <- (valid_flags_map _ _ mk l), place_present. reflexivity.
Qed.
Lemma bool_column_read : forall V mk (l : list (option V)) bs rest,
  read_plain P_BOOLEAN (length (present l)) (bs ++ rest) = Some (map mk (present l), rest) ->
  read_plain_column P_BOOLEAN (valid_flags l) (bs ++ rest) = Some (map (option_map mk) l, rest).
Proof.
  intros V mk l bs rest E. unfold read_plain_column. rewrite <- present_length.
  rewrite E, <- present_map, <- (valid_flags_map _ _ mk l), place_present. reflexivity.
Qed.

(** ** Dictionaries *)
Section Dictionary.
Context {V : Type}.
Variable eqb : V -> V -> bool.
Hypothesis eqb_ok : forall a b, eqb a b = true <-> a = b.

Definition dict_inv (d : @dict_state V) (rows : list (option V)) : Prop :=
  faithful_dictionary rows (d_entries d) (d_indices d) /\ length (d_entries d) <= length rows /\
  (forall v i, map_find eqb (d_map d) v = Some i -> exists k, i = Z.of_nat k /\ nth_error (d_entries d) k = Some v) /\
  (forall k v, nth_error (d_entries d) k = Some v -> map_find eqb (d_map d) v = Some (Z.of_nat k)).

Lemma nth_snoc : forall A (l : list A) a i x, nth_error (l ++ [a]) i = Some x ->
  nth_error l i = Some x \/ i = length l /\ x = a.
Proof.
  intros A l a i x H. destruct (Nat.lt_ge_cases i (length l)).
  - rewrite nth_error_app1 in H by assumption. left. exact H.
  - rewrite nth_error_app2 in H by assumption. right. destruct (i - length l) as [|[|]] eqn:E; cbn in H; try discriminate H.
    injection H as <-. split; [lia|reflexivity].
Qed.
Lemma nth_snoc_old : forall A (l : list A) a i x, nth_error l i = Some x -> nth_error (l ++ [a]) i = Some x.
Proof. intros A l a i x H. rewrite nth_error_app1; [exact H|]. apply nth_error_lt in H. exact H. Qed.
Lemma nth_snoc_new : forall A (l : list A) a n, n = length l -> nth_error (l ++ [a]) n = Some a.
Proof. intros A l a n ->. rewrite nth_error_app2, Nat.sub_diag by lia. reflexivity. Qed.

Lemma to_int32_small : forall n, n < N.to_nat (2 ^ 31)%N -> to_int32 n = Z.of_nat n.
Proof.
  intros n H. unfold to_int32. change (2 ^ 32)%Z with 4294967296%Z. change (2 ^ 31)%Z with 2147483648%Z.
  assert (Z.of_nat n < 2147483648)%Z.
  { apply (f_equal Z.of_nat) in H || idtac. assert (N.of_nat n < 2 ^ 31)%N by lia. change (2 ^ 31)%N with 2147483648%N in *. lia. }
  rewrite Z.mod_small by lia. lia.
Qed.

Lemma dict_step_ok : forall d rows c, dict_inv d rows -> (N.of_nat (length rows) < 2 ^ 31)%N ->
  dict_inv (dict_step eqb d c) (rows ++ [c]).
Proof.
  intros d rows c ((HND & HL & HS & HN & HO & HU) & HB & HM1 & HM2) Hlen. unfold dict_step. destruct c as [v|].
  - destruct (map_find eqb (d_map d) v) as [i|] eqn:E.
    + destruct (HM1 _ _ E) as (k & -> & Hk). unfold dict_inv, faithful_dictionary. cbn [d_map d_entries d_indices].
      split; [|split; [rewrite app_length; lia|split; assumption]].
      split; [exact HND|]. split; [rewrite !app_length; cbn; lia|]. split; [|split; [|split]].
      * intros j w Hj. destruct (nth_snoc _ _ _ _ _ Hj) as [Hj'|[-> Hw]].
        -- destruct (HS _ _ Hj') as (k' & A & B). exists k'. split; [apply nth_snoc_old; exact A|exact B].
        -- injection Hw as ->. exists k. split; [apply nth_snoc_new; lia|exact Hk].
      * intros j Hj. destruct (nth_snoc _ _ _ _ _ Hj) as [Hj'|[-> Hw]]; [|discriminate Hw]. apply nth_snoc_old, HN, Hj'.
      * intros j k' Hj k'' Hk''. destruct (nth_snoc _ _ _ _ _ Hj) as [Hj'|[-> Hw]].
        -- destruct (HO _ _ Hj' _ Hk'') as (i' & A & B). exists i'. split; [exact A|apply nth_snoc_old; exact B].
        -- assert (k' = k) by lia. subst k'. destruct (HU _ _ Hk) as (i0 & _ & Hi0). destruct (HO _ _ Hi0 _ Hk'') as (i' & A & B).
           exists i'. split; [|apply nth_snoc_old; exact B]. apply nth_error_lt in Hi0. lia.
      * intros k' w Hw. destruct (HU _ _ Hw) as (i & A & B). exists i. split; apply nth_snoc_old; assumption.
    + cbn zeta. rewrite to_int32_small by lia. unfold dict_inv, faithful_dictionary. cbn [d_map d_entries d_indices].
      assert (HNI : ~ In v (d_entries d)).
      { intros Hin. destruct (In_nth_error _ _ Hin) as (k & Hk). rewrite (HM2 _ _ Hk) in E. discriminate E. }
      split; [|split; [rewrite !app_length; cbn; lia|split]].
      * split; [|split; [rewrite !app_length; cbn; lia|split; [|split; [|split]]]].
        -- apply NoDup_rev in HND. rewrite <- (rev_involutive (d_entries d ++ [v])). apply NoDup_rev. rewrite rev_app_distr. cbn [rev app].
           constructor; [|exact HND]. intros Hin. apply HNI, in_rev, Hin.
        -- intros j w Hj. destruct (nth_snoc _ _ _ _ _ Hj) as [Hj'|[-> Hw]].
           ++ destruct (HS _ _ Hj') as (k' & A & B). exists k'. split; apply nth_snoc_old; assumption.
           ++ injection Hw as ->. exists (length (d_entries d)). split; apply nth_snoc_new; lia.
        -- intros j Hj. destruct (nth_snoc _ _ _ _ _ Hj) as [Hj'|[-> Hw]]; [|discriminate Hw]. apply nth_snoc_old, HN, Hj'.
        -- intros j k' Hj k'' Hk''. destruct (nth_snoc _ _ _ _ _ Hj) as [Hj'|[-> Hw]].
           ++ destruct (HO _ _ Hj' _ Hk'') as (i' & A & B). exists i'. split; [exact A|apply nth_snoc_old; exact B].
           ++ assert (k' = length (d_entries d)) by lia. subst k'.
              destruct (nth_error (d_entries d) k'') as [w|] eqn:Ew; [|apply nth_error_None in Ew; lia].
              destruct (HU _ _ Ew) as (i' & A & B). exists i'. split; [|apply nth_snoc_old; exact B]. apply nth_error_lt in B. lia.
        -- intros k' w Hw. destruct (nth_snoc _ _ _ _ _ Hw) as [Hw'|[-> ->]].
           ++ destruct (HU _ _ Hw') as (i & A & B). exists i. split; apply nth_snoc_old; assumption.
           ++ exists (length rows). split; apply nth_snoc_new; lia.
      * intros w i. cbn [map_find]. destruct (eqb v w) eqn:Ee.
        -- intros H. injection H as <-. apply eqb_ok in Ee. subst w. exists (length (d_entries d)). split; [reflexivity|apply nth_snoc_new; reflexivity].
        -- intros H. destruct (HM1 _ _ H) as (k & A & B). exists k. split; [exact A|apply nth_snoc_old; exact B].
      * intros k w Hw. cbn [map_find]. destruct (nth_snoc _ _ _ _ _ Hw) as [Hw'|[-> ->]].
        -- destruct (eqb v w) eqn:Ee; [|apply HM2; exact Hw']. apply eqb_ok in Ee. subst w. exfalso. apply HNI. eapply nth_error_In. exact Hw'.
        -- rewrite (proj2 (eqb_ok v v) eq_refl). reflexivity.
  - unfold dict_inv, faithful_dictionary. cbn [d_map d_entries d_indices]. split; [|split; [rewrite app_length; lia|split; assumption]].
    split; [exact HND|]. split; [rewrite !app_length; cbn; lia|]. split; [|split; [|split]].
    + intros j w Hj. destruct (nth_snoc _ _ _ _ _ Hj) as [Hj'|[-> Hw]]; [|discriminate Hw].
      destruct (HS _ _ Hj') as (k' & A & B). exists k'. split; [apply nth_snoc_old; exact A|exact B].
    + intros j Hj. destruct (nth_snoc _ _ _ _ _ Hj) as [Hj'|[-> Hw]]; [apply nth_snoc_old, HN, Hj'|]. apply nth_snoc_new. lia.
    + intros j k' Hj k'' Hk''. destruct (nth_snoc _ _ _ _ _ Hj) as [Hj'|[-> Hw]]; [|lia].
      destruct (HO _ _ Hj' _ Hk'') as (i' & A & B). exists i'. split; [exact A|apply nth_snoc_old; exact B].
    + intros k' w Hw. destruct (HU _ _ Hw) as (i & A & B). exists i. split; apply nth_snoc_old; assumption.
Qed.
Lemma dict_rows_faithful : forall rows, (N.of_nat (length rows) <= 2 ^ 31)%N ->
  faithful_dictionary rows (fst (dict_rows eqb rows)) (snd (dict_rows eqb rows)) /\ length (fst (dict_rows eqb rows)) <= length rows.
Proof.
  intros rows H.
  assert (G : dict_inv (fold_left (dict_step eqb) rows (Dict [] [] [])) rows).
  { revert H. induction rows as [|c rows IH] using rev_ind; intros H.
    - cbn [fold_left]. unfold dict_inv, faithful_dictionary. cbn [d_map d_entries d_indices length map_find].
      assert (NE : forall A i (x : A), nth_error [] i = Some x -> False) by (intros A [|]; discriminate).
      split; [|split; [lia|split; [discriminate|intros; exfalso; eapply NE; eassumption]]].
      repeat apply conj; try constructor; intros; exfalso; eapply NE; eassumption.
    - rewrite fold_left_app. cbn [fold_left]. rewrite app_length in H. cbn [length] in H. apply dict_step_ok; [apply IH; lia|lia]. }
  destruct G as (G1 & G2 & _). unfold dict_rows. split; assumption.
Qed.
End Dictionary.

Lemma bytes_equal_ok : forall a b, bytes_equal a b = true <-> a = b.
Proof.
  induction a as [|x a IH]; intros [|y b]; cbn [bytes_equal]; split; try discriminate; try reflexivity.
  - intros H. apply andb_prop in H. destruct H as [H1 H2]. apply N.eqb_eq in H1. apply IH in H2. congruence.
  - intros H. injection H as -> ->. rewrite N.eqb_refl. apply IH. reflexivity.
Qed.
Lemma flagged_rows_spec : forall V (values : list V) nb, length values <= length nb ->
  flagged_rows values nb = Some (map (fun p : V * bool => if snd p then None else Some (fst p)) (combine values nb)).
Proof.
  induction values as [|v values IH]; intros [|b nb] H; cbn [length] in H; try lia; try reflexivity.
  cbn [flagged_rows combine map snd fst]. rewrite IH by lia. reflexivity.
Qed.
Lemma legacy_rows_length : forall V (values : list V) nb, nb = [] \/ length nb = length values -> length (legacy_rows values nb) = length values.
Proof. intros V values nb H. unfold legacy_rows. destruct nb as [|b nb]; [apply map_length|]. destruct H as [H|H]; [discriminate|]. rewrite map_length, combine_length. lia. Qed.
Lemma create_dictionary_rows : forall V eqb (values : list V) nb, nb = [] \/ length nb = length values ->
  create_dictionary eqb values nb = Some (dict_rows eqb (legacy_rows values nb)).
Proof.
  intros V eqb values nb H. unfold create_dictionary, legacy_rows. destruct nb as [|b nb]; [reflexivity|].
  destruct H as [H|H]; [discriminate H|]. rewrite flagged_rows_spec by lia. reflexivity.
Qed.
Lemma create_arrow_rows : forall c l, shows_strings c l ->
  create_string_dictionary_arrow (c_values c) (c_nulls c) = Some (dict_rows bytes_equal l).
Proof.
  intros c l H. pose proof (rows_at_shows _ _ H) as HR. destruct H as ((HA & _) & _). unfold create_string_dictionary_arrow. rewrite HA, map_length.
  rewrite string_rows_spec by exact HR. reflexivity.
Qed.

(** Looking the indices up gives the column back. *)
Lemma select_lookup : forall V (dict : list V) l indices,
  (forall i v, nth_error l i = Some (Some v) -> exists k, nth_error indices i = Some (Z.of_nat k) /\ nth_error dict k = Some v) ->
  length indices = length l ->
  Forall (fun z => (0 <= z < Z.of_nat (length dict))%Z) (select (valid_flags l) indices) /\
  map (fun i => nth_error dict (N.to_nat i)) (map Z.to_N (select (valid_flags l) indices)) = map Some (present l) /\
  length (select (valid_flags l) indices) = length (present l).
Proof.
  induction l as [|c l IH]; intros indices H HL; destruct indices as [|z indices]; try discriminate HL; [repeat split; constructor|].
  destruct (IH indices) as (A & B & D); [intros i v Hi; apply (H (S i) v Hi)|cbn in HL; lia|].
  cbn [valid_flags map select present]. change (map (fun c : option V => match c with Some _ => true | None => false end) l) with (valid_flags l).
  destruct c as [v|]; [|repeat split; assumption]. destruct (H 0 v eq_refl) as (k & E1 & E2). cbn in E1. injection E1 as ->.
  repeat split.
  - constructor; [|exact A]. apply nth_error_lt in E2. lia.
  - cbn [map]. rewrite B. f_equal. replace (N.to_nat (Z.to_N (Z.of_nat k))) with k by lia. exact E2.
  - cbn [length]. f_equal. exact D.
Qed.
Lemma dictionary_values_read : forall (dict : list bytes) l indices bw bs rest,
  faithful_dictionary l dict indices -> (N.of_nat bw <= 32)%N ->
  (select (valid_flags l) indices = [] -> bs = []) ->
  (select (valid_flags l) indices <> [] -> exists data, bs = N.of_nat bw :: data /\
     decode_hybrid (N.of_nat bw) (length (select (valid_flags l) indices)) (data ++ rest) = Some (map Z.to_N (select (valid_flags l) indices), rest)) ->
  read_dictionary_values (map CBytes dict) (length (present l)) (bs ++ rest) = Some (map CBytes (present l), rest).
Proof.
  intros dict l indices bw bs rest (_ & HL & HS & _) Hbw He Hd.
  destruct (select_lookup _ dict l indices HS HL) as (_ & HM & HC).
  destruct (select (valid_flags l) indices) as [|z zs] eqn:E.
  - rewrite (He eq_refl). destruct (present l); [reflexivity|discriminate HC].
  - destruct (Hd ltac:(discriminate)) as (data & -> & HD). rewrite HC in HD. unfold read_dictionary_values.
    destruct (length (present l)) as [|n] eqn:En; [discriminate HC|]. cbn [app]. rewrite HD.
    assert (G : map (fun i => nth_error (map CBytes dict) (N.to_nat i)) (map Z.to_N (z :: zs)) = map Some (map CBytes (present l))).
    { transitivity (map (option_map CBytes) (map (fun i => nth_error dict (N.to_nat i)) (map Z.to_N (z :: zs)))).
      - rewrite (map_map (fun i => nth_error dict (N.to_nat i))). apply map_ext. intros i. apply nth_error_map.
      - rewrite HM, !map_map. apply map_ext. reflexivity. }
    rewrite G.
    assert (F : forall cs : list cell, forallb (fun o => match o with Some _ => true | None => false end) (map Some cs) = true /\
                concat (map (fun o => match o with Some c => [c] | None => [] end) (map Some cs)) = cs).
    { induction cs as [|c cs [I1 I2]]; [split; reflexivity|]. cbn. split; [exact I1|f_equal; exact I2]. }
    destruct (F (map CBytes (present l))) as [-> ->]. reflexivity.
Qed.

Lemma strings_built_small : forall c l, strings_built c l -> (texts_size l < two32)%N.
Proof.
  intros c l H. assert (HR : tinv c l).
  { revert H. apply built_shows. intros ops lists E. 
    destruct (run_sim _ _ _ tinv string_impl (as_small_lists texts_size two32) ops [] [] lists (string_simulates_at two32 (N.le_refl _)) (Forall2_nil _) E) as (st & A & B).
    exists st. split; assumption. }
  apply HR.
Qed.
Lemma texts_size_each : forall l s, In s (present l) -> (N.of_nat (length s) <= texts_size l)%N.
Proof.
  unfold texts_size. induction l as [|[a|] l IH]; intros s H; cbn [present] in H; [destruct H| |]; cbn [map concat text].
  - rewrite app_length. destruct H as [<-|H]; [lia|]. specialize (IH _ H). lia.
  - cbn [app]. apply IH. exact H.
Qed.
Lemma in_present : forall A (l : list (option A)) a, In a (present l) <-> In (Some a) l.
Proof.
  induction l as [|[b|] l IH]; intros a; cbn [present In]; [tauto| |].
  - rewrite IH. split; intros [H|H]; auto; left; congruence.
  - rewrite IH. split; intros H; auto. destruct H as [H|H]; [discriminate H|exact H].
Qed.
Lemma legacy_present : forall V (P : V -> Prop) values nb, Forall P values -> Forall P (present (legacy_rows values nb)).
Proof.
  intros V P values nb H. apply Forall_forall. intros v Hv. apply in_present in Hv. unfold legacy_rows in Hv.
  rewrite Forall_forall in H. destruct nb as [|b nb].
  - apply in_map_iff in Hv. destruct Hv as (x & E & Hx). injection E as ->. apply H, Hx.
  - apply in_map_iff in Hv. destruct Hv as ((x, f) & E & Hx). cbn [fst snd] in E. destruct f; [discriminate E|]. injection E as ->.
    apply in_combine_l in Hx. apply H, Hx.
Qed.
Lemma land_255 : forall z, Z.land z 255 = (z mod 256)%Z.
Proof. intros z. change 255%Z with (Z.ones 8). rewrite Z.land_ones by lia. reflexivity. Qed.
Lemma int32_page : forall l, write_int32_dictionary_page l = concat (map int32_bytes l).
Proof. intros l. unfold write_int32_dictionary_page. f_equal. apply map_ext. intros v. cbn [map]. rewrite !land_255. reflexivity. Qed.
Lemma int64_page : forall l, write_int64_dictionary_page l = concat (map int64_bytes l).
Proof.
  intros l. unfold write_int64_dictionary_page. f_equal. apply map_ext. intros v. unfold int64_bytes, int_bytes.
  apply map_ext. intros i. rewrite land_255. do 3 f_equal. lia.
Qed.
Lemma dictionary_pages_read : forall (strings : list bytes) (ints : list Z),
  (Forall (fun s => (N.of_nat (length s) < 2 ^ 32)%N) strings ->
     exists bs, encode_dictionary_page_strings strings = Some bs /\
       forall rest, read_plain P_BYTE_ARRAY (length strings) (bs ++ rest) = Some (map CBytes strings, rest)) /\
  (Forall int32 ints ->
     forall rest, read_plain P_INT32 (length ints) (write_int32_dictionary_page ints ++ rest) = Some (map CInt ints, rest)) /\
  (Forall int64 ints ->
     forall rest, read_plain P_INT64 (length ints) (write_int64_dictionary_page ints ++ rest) = Some (map CInt ints, rest)).
Proof.
  intros strings ints. split; [|split].
  - intros H. eexists. split; [apply string_page_bytes|]. intros rest. cbn [read_plain]. apply read_values. eapply Forall_impl; [exact read_string|exact H].
  - intros H rest. rewrite int32_page. cbn [read_plain]. apply read_values. eapply Forall_impl; [exact read_int32|exact H].
  - intros H rest. rewrite int64_page. cbn [read_plain]. apply read_values. eapply Forall_impl; [exact read_int64|exact H].
Qed.
