(** What the reader puts into its columns. *)
From Verif Require Import Base WordsModel ChunkModel FieldsModel VarintSpec TypesSpec NumModel DateModel DateSpec DateProof DateProof2 ReaderModel TypesModel PlainSpec ParquetObs ConvertModel ConvertObs ConvertProof.

Section From.
Context {V : Type}.
Variable conv : nat -> bytes -> option V.
Variables (lanes : nat) (clmul : bool) (sep q : byte) (nc : null_checker).
Local Notation columns := (list (list (option V))) (only parsing).

(** Every value in column k came out of [conv k]. *)
Definition converted (cols : columns) : Prop := forall k x, In (Some x) (nth k cols []) -> exists v, conv k v = Some x.
Lemma append_at_nth : forall (cols : columns) i c k x, In x (nth k (append_at i c cols) []) -> In x (nth k cols []) \/ (k = i /\ x = c).
Proof.
  induction cols as [|col cols IH]; intros i c k x H; [destruct i; cbn [append_at] in H; left; exact H|].
  destruct i as [|i]; cbn [append_at] in H; destruct k as [|k]; cbn [nth] in *; try (left; exact H).
  - apply in_app_or in H. destruct H as [H|[<-|[]]]; [left; exact H|right; auto].
  - destruct (IH _ _ _ _ H) as [H'|[-> ->]]; [left; exact H'|right; auto].
Qed.
Lemma append_converted : forall cols i c, converted cols -> (forall x, c = Some x -> exists v, conv i v = Some x) -> converted (append_at i c cols).
Proof. intros cols i c H Hc k x HI. apply append_at_nth in HI. destruct HI as [HI|[-> E]]; [exact (H _ _ HI)|apply Hc; symmetry; exact E]. Qed.
Lemma fields_converted : forall fields i cols, converted cols -> converted (snd (fields_into conv q nc fields i cols)).
Proof.
  induction fields as [|[f ne] fields IH]; intros i cols H; cbn [fields_into snd]; [exact H|].
  destruct (length cols <=? i); [apply IH, H|]. set (f' := if _ && _ then removelast f else f).
  destruct (is_null nc f'); [apply IH, append_converted; [exact H|discriminate]|].
  destruct ne; apply IH, append_converted; try exact H; intros x Hx; eexists; exact Hx.
Qed.
Lemma fill_converted : forall n i cols, converted cols -> converted (fill_nulls n i cols).
Proof. induction n as [|n IH]; intros i cols H; cbn [fill_nulls]; [exact H|]. apply IH, append_converted; [exact H|discriminate]. Qed.
Lemma rows_converted : forall fuel ne l cols rows r, converted cols -> read_rows conv lanes clmul sep q nc fuel ne l cols rows = Some r -> converted (fst r).
Proof.
  induction fuel as [|fuel IH]; intros ne l cols rows r H E; cbn [read_rows] in E; (destruct l as [|c l]; [injection E as <-; exact H|]); [discriminate|].
  destruct (skip_empty (c :: l)) as [|c' l'] eqn:ES; [injection E as <-; exact H|].
  destruct (row_fields lanes clmul sep q LF (c' :: l') ne) as [[fields rest]|]; [|discriminate].
  pose proof (fields_converted fields 0 cols H) as HF. destruct (fields_into conv q nc fields 0 cols) as [i cols']. cbn [snd] in HF.
  eapply IH; [|exact E]. apply fill_converted, HF.
Qed.
Lemma empty_converted : forall n, converted (empty_columns n).
Proof. intros n k x H. unfold empty_columns in H. rewrite nth_repeat in H. destruct H. Qed.
Lemma chunk_converted : forall ne data n st r, parse_chunk conv lanes clmul sep q nc ne data (empty_columns n) st = Some r -> converted (fst r).
Proof.
  intros ne data n st r E. unfold parse_chunk in E. destruct (_ || _); [injection E as <-; apply empty_converted|]. eapply rows_converted; [|exact E]. apply empty_converted.
Qed.
Lemma serial_converted : forall ne n data he r, read_all_serial conv lanes clmul sep q nc ne n data he = Some r -> Forall converted (chunks r).
Proof.
  intros ne n data he r E. unfold read_all_serial in E. destruct (n =? 0); [injection E as <-; constructor|]. destruct (read_rows _ _ _ _ _ _ _ _ _ _ _) as [[cols k]|] eqn:ER; [|discriminate].
  injection E as <-. cbn [chunks]. constructor; [|constructor]. exact (rows_converted _ _ _ _ _ _ (empty_converted n) ER).
Qed.
Lemma map_option_forall : forall A B (P : B -> Prop) (f : A -> option B) l r, (forall a b, f a = Some b -> P b) -> map_option f l = Some r -> Forall P r.
Proof.
  intros A B P f l. induction l as [|a l IH]; intros r Hf E; cbn [map_option] in E; [injection E as <-; constructor|].
  destruct (f a) as [b|] eqn:Ea; [|discriminate]. destruct (map_option f l) as [bs|] eqn:El; [|discriminate]. injection E as <-. constructor; [exact (Hf _ _ Ea)|exact (IH _ Hf eq_refl)].
Qed.
Lemma read_converted : forall threshold size ne n data he r, read_all_with conv lanes clmul sep q nc threshold size ne n data he = Some r -> Forall converted (chunks r).
Proof.
  intros threshold size ne n data he r E. unfold read_all_with in E. destruct (n =? 0); [injection E as <-; constructor|]. destruct (_ <? threshold); [eapply serial_converted; exact E|].
  destruct (chunk_ranges _ _ _ _ _ _) as [ranges|]; [|discriminate]. destruct (_ <=? 1); [eapply serial_converted; exact E|].
  unfold read_chunks in E. destruct (map_option _ (map _ ranges)) as [ds|]; [|discriminate]. destruct (map_option _ (combine _ _)) as [rs|] eqn:ER; [|discriminate]. injection E as <-. cbn [chunks].
  eapply map_option_forall in ER; [|intros [rg st] b Hb; exact (chunk_converted _ _ _ _ _ Hb)]. apply Forall_map. exact ER.
Qed.
End From.

(** ** What the typed append functions return *)
Lemma finish_range : forall bits neg r z, (1 <= bits)%N -> finish false bits neg r = Value z -> (- 2 ^ (Z.of_N bits - 1) <= z < 2 ^ (Z.of_N bits - 1))%Z.
Proof.
  intros bits neg r z Hb H. unfold finish in H.
  assert (P : Z.of_N (2 ^ (bits - 1)) = (2 ^ (Z.of_N bits - 1))%Z) by (rewrite N2Z.inj_pow, N2Z.inj_sub by lia; reflexivity).
  assert (P1 : (0 < 2 ^ (Z.of_N bits - 1))%Z) by (apply Z.pow_pos_nonneg; lia).
  assert (P2 : (2 ^ Z.of_N bits = 2 * 2 ^ (Z.of_N bits - 1))%Z) by (rewrite <- Z.pow_succ_r by lia; f_equal; lia).
  destruct neg; cbn [negb andb] in H.
  - destruct (N.ltb_spec (2 ^ (bits - 1)) r); [discriminate|]. unfold negate_signed, to_signed in H. destruct (N.ltb_spec r (2 ^ (bits - 1))).
    + destruct (Z.eqb_spec (Z.of_N r) (- 2 ^ (Z.of_N bits - 1))); injection H as <-; lia.
    + destruct (Z.eqb_spec (Z.of_N r - 2 ^ Z.of_N bits) (- 2 ^ (Z.of_N bits - 1))); injection H as <-; lia.
  - destruct (N.ltb_spec (2 ^ (bits - 1) - 1) r); [discriminate|]. unfold to_signed in H. destruct (N.ltb_spec r (2 ^ (bits - 1))); injection H as <-; lia.
Qed.
Lemma int32_range : forall lanes v z, parse_int32_simd false lanes v = Value z -> int32 z.
Proof.
  intros lanes v z H. unfold parse_int32_simd in H. destruct (_ || _); [discriminate|]. destruct (take_sign v) as [[neg d]|]; [|discriminate]. destruct (parse_uint64_simd lanes d); try discriminate.
  apply finish_range in H; [|lia]. exact H.
Qed.
Lemma int64_range : forall lanes v z, parse_int64_simd false lanes v = Value z -> int64 z.
Proof.
  intros lanes v z H. unfold parse_int64_simd in H. destruct (_ || _); [discriminate|]. destruct (take_sign v) as [[neg d]|]; [|discriminate].
  destruct (16 <? length d); [destruct (checked_loop 0 d)|destruct (parse_uint64_simd lanes d)]; try discriminate; apply finish_range in H; (exact H || lia).
Qed.
Lemma date_range : forall v n, parse_date v = Some n -> (- 800000 <= n < 3000000)%Z.
Proof.
  intros v n H. destruct (parse_date_sound _ _ H) as (y & m & d & D & ->). destruct D as (_ & yt & _ & _ & _ & _ & Hy & _ & _ & HV). apply digits4_bound in Hy.
  pose proof (day_number_bound y m d HV ltac:(lia)). unfold date_value, year0. destruct (y =? 0)%Z; lia.
Qed.
Lemma append_value_fits : forall ff lanes t v x, (forall w f, ff w = Some f -> (f < 2 ^ 64)%N) -> append_value ff lanes t v = Some x -> value_fits t x.
Proof.
  intros ff lanes t v x HF H. unfold value_fits. destruct t; cbn [append_value stored_type] in *; try (injection H as <-; exact I).
  - unfold append_bool in H. destruct (existsb _ true_words); [injection H as <-; exact I|]. destruct (existsb _ false_words); [injection H as <-; exact I|discriminate].
  - destruct (parse_int32_simd false lanes v) as [z| |] eqn:E; try discriminate. injection H as <-. exact (int32_range _ _ _ E).
  - destruct (parse_int64_simd false lanes v) as [z| |] eqn:E; try discriminate. injection H as <-. exact (int64_range _ _ _ E).
  - destruct (ff v) as [f|] eqn:E; [|discriminate]. injection H as <-. exact (HF _ _ E).
  - destruct v as [|c v]; [discriminate|]. destruct (parse_date (c :: v)) as [n|] eqn:E; [|discriminate]. injection H as <-. apply date_range in E. split; lia.
  - destruct v as [|c v]; [discriminate|]. destruct (parse_timestamp (c :: v)) as [n|] eqn:E; [|discriminate]. injection H as <-. apply timestamp_range in E. split; lia.
Qed.
