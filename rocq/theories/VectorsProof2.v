From Verif Require Import Base RleSpec RleModel HybridSpec BuffersSpec BuffersModel PlainSpec PlainModel PlainProof PlainProof2 PlainProps
  TypesSpec ThriftSpec ThriftModel MetaSpec ParquetModel ParquetProof StatsSpec StatsModel StatsProof StatsProof2 StatsProof3 StatsProps VectorsSpec VectorsModel VectorsProof.

(** ** Statistics *)
Lemma masked_rows {T} (vs : list T) bm : shape vs bm -> masked vs bm = legacy_rows vs bm.
Proof.
  intros H. unfold legacy_rows. destruct bm as [|b bm].
  - clear H. induction vs as [|v l IH]; [reflexivity|]. cbn [masked map]. f_equal. exact IH.
  - destruct H as [H|H]; [discriminate H|]. revert vs H. generalize (b :: bm). clear. induction l as [|b l IH]; intros [|v vs] H; try discriminate H; [reflexivity|].
    cbn [masked combine map snd fst]. f_equal. apply IH. cbn in H. lia.
Qed.
Lemma class_describes {T} lt (wrap : T -> stat_value) r cells : describes lt r cells ->
  column_describes lt wrap (from_class wrap r) cells /\ r_nulls r = Z.of_nat (StatsSpec.nulls cells).
Proof.
  intros ((A1 & A2) & B & C & D & E). split; [|exact B]. unfold from_class. split; [|split; [exact B|exact E]].
  unfold column_describes_range. cbn [cs_min cs_max]. destruct (StatsSpec.values cells) as [|v l].
  - destruct (r_has_value r); [exfalso; apply (proj1 A1 eq_refl); reflexivity|split; reflexivity].
  - destruct (A2 ltac:(discriminate)) as [M1 M2]. assert (V : r_has_value r = true) by (apply A1; discriminate). rewrite V.
    exists (r_min r), (r_max r). auto.
Qed.
Lemma nulls_le {T} (cells : list (option T)) : StatsSpec.nulls cells <= length cells.
Proof. unfold StatsSpec.nulls. induction cells as [|[c|] l IH]; cbn; lia. Qed.

Definition common (ch : column_chunk) (t : data_type) (n : nat) : Prop :=
  cc_type ch = t /\ cc_num_values ch = Z.of_nat n /\ cc_total_compressed ch = Z.of_nat (length (cc_data ch)).

Section Chunks.
Variables (library decompress : compression -> bytes -> option bytes) (codec : compression).
Hypothesis L : lossless library decompress.

Lemma plain_chunk_ok {V} (values : list V) nulls t pt (mk : V -> cell) sn bs : shape values nulls -> (N.of_nat (length values) < 2 ^ 29)%N ->
  let rows := legacy_rows values nulls in
  (forall rest, read_plain_column pt (valid_flags rows) (bs ++ rest) = Some (map (option_map mk) rows, rest)) ->
  exists ch, plain_chunk library codec t sn (length values) (Some bs) nulls = Some ch /\ common ch t (length values) /\ cc_uses_dictionary ch = false /\
    cc_statistics ch = fst sn /\ cc_null_count ch = snd sn /\
    ((some_null rows = true -> aligned (pieces (levels 1 (valid_flags rows)))) ->
     plain_chunk_reads decompress codec pt (some_null rows) (cc_data ch) (map (option_map mk) rows)).
Proof.
  intros H HN rows R. eexists. split; [reflexivity|]. split; [repeat split|]. do 3 (split; [reflexivity|]). intros A. cbn [cc_data].
  exists (page_levels nulls ++ bs). split; [apply finished; exact L|]. rewrite map_length. apply plain_page; assumption.
Qed.

Lemma dictionary_chunk_ok {V} (eqb : V -> V -> bool) (EO : forall a b, eqb a b = true <-> a = b) (values : list V) nulls t pt (mk : V -> cell) page_of sn :
  shape values nulls -> (N.of_nat (length values) < 2 ^ 29)%N ->
  let rows := legacy_rows values nulls in
  exists dict indices, faithful_dictionary rows dict indices /\
    ((exists bs, page_of dict = Some bs /\ read_plain pt (length dict) bs = Some (map mk dict, [])) ->
     exists ch, dictionary_chunk library codec eqb page_of t sn values nulls = Some ch /\ common ch t (length values) /\ cc_uses_dictionary ch = true /\
       cc_statistics ch = fst sn /\ cc_null_count ch = snd sn /\
       ((some_null rows = true -> aligned (pieces (levels 1 (valid_flags rows)))) -> present rows <> [] ->
        aligned (pieces (map Z.to_N (filter (fun i => (0 <=? i)%Z) indices))) ->
        dictionary_chunk_reads decompress codec pt (some_null rows) (map mk dict) (cc_data ch) (map (option_map mk) rows))).
Proof.
  intros H HN rows. assert (LV : length rows = length values) by (apply rows_length; exact H).
  change (2 ^ 29)%N with 536870912%N in HN.
  destruct (dict_rows_faithful eqb EO rows) as [HF HLE]; [rewrite LV; change (2 ^ 31)%N with 2147483648%N; lia|].
  pose proof (create_dictionary_rows V eqb values nulls H) as EC. fold rows in EC.
  destruct (dict_rows eqb rows) as (dict, indices). cbn [fst snd] in HF, HLE. exists dict, indices. split; [exact HF|]. intros (bs & E1 & E2).
  unfold dictionary_chunk. rewrite EC, E1. unfold write_dictionary_data_page.
  assert (LI : length indices = length values) by (destruct HF as (_ & X & _); lia).
  rewrite (kept_select values nulls indices H LI). fold rows. cbv zeta. eexists. split; [reflexivity|]. split; [repeat split|]. do 3 (split; [reflexivity|]).
  intros A P AI. cbn [cc_data].
  assert (HD : (N.of_nat (length dict) <= 2 ^ 31)%N) by (change (2 ^ 31)%N with 2147483648%N; lia).
  assert (HN' : (N.of_nat (length values) < 2 ^ 29)%N) by (change (2 ^ 29)%N with 536870912%N; exact HN).
  destruct (indices_page values nulls pt mk dict indices H HN' A HF HD P AI) as (is & K & R).
  rewrite (kept_select values nulls indices H LI) in K. apply some_inj in K. subst is.
  do 4 eexists. split; [reflexivity|]. split; [apply finished; exact L|]. split; [apply finished; exact L|]. split; [rewrite map_length; exact E2|]. rewrite map_length. exact R.
Qed.

(** ** Integers *)
Lemma int_column {S} t pt (c : class Z S) wrap encode dict_page repr enable below pre values nulls (ok : Z -> Prop) :
  (forall vs, encode vs [] = Some (concat (map repr vs))) -> (forall vs, dict_page vs = concat (map repr vs)) -> pt <> P_BOOLEAN ->
  (forall z, ok z -> reads_back pt repr CInt z) ->
  (forall h, describes int_lt (report_of c h) (cells h)) ->
  shape values nulls -> (N.of_nat (length values) < 2 ^ 29)%N -> Forall ok values -> sensible pre values ->
  let rows := legacy_rows values nulls in
  exists ch dict indices, write_int_column library codec t c wrap encode dict_page enable below pre values nulls = Some ch /\
    common ch t (length values) /\ faithful_dictionary rows dict indices /\
    statistics_are (fun s => column_describes int_lt wrap s rows) (StatsSpec.nulls rows) pre (cc_statistics ch, cc_null_count ch) /\
    (cc_uses_dictionary ch = true <-> enable = true /\ values <> [] /\ (length dict <= 16 \/ length dict <= 256 /\ below (length dict) (length values) = true)) /\
    ((some_null rows = true -> aligned (pieces (levels 1 (valid_flags rows)))) ->
     (cc_uses_dictionary ch = false -> plain_chunk_reads decompress codec pt (some_null rows) (cc_data ch) (map (option_map CInt) rows)) /\
     (cc_uses_dictionary ch = true -> (exists v, In (Some v) rows) -> aligned (pieces (map Z.to_N (filter (fun i => (0 <=? i)%Z) indices))) ->
      dictionary_chunk_reads decompress codec pt (some_null rows) (map CInt dict) (cc_data ch) (map (option_map CInt) rows))).
Proof.
  intros E1 E2 NB RB ST H HN OK SE rows. unfold write_int_column. cbv zeta.
  set (sn := class_statistics c wrap pre values nulls).
  assert (SN : statistics_are (fun s => column_describes int_lt wrap s rows) (StatsSpec.nulls rows) pre sn /\ (snd sn <= Z.of_nat (length values))%Z).
  { unfold sn, class_statistics, statistics_are. destruct pre as [s|]; [split; [split; reflexivity|exact SE]|]. cbn [fst snd].
    pose proof (ST (BatchedNulls Fresh values nulls)) as D. unfold report_of in D. cbn [run_history cells app] in D. rewrite masked_rows in D by exact H. fold rows in D.
    destruct (class_describes int_lt wrap _ _ D) as [D1 D2]. split; [split; assumption|]. rewrite D2. pose proof (nulls_le rows) as NL.
    unfold rows in NL at 2. rewrite rows_length in NL by exact H. lia. }
  destruct SN as [SN SLE]. clearbody sn.
  destruct (dictionary_chunk_ok Z.eqb Z.eqb_eq values nulls t pt CInt (fun d => Some (dict_page d)) sn H HN) as (dict & indices & HF & HC). fold rows in HF, HC.
  destruct (analysis_spec Z.eqb Z.eqb_eq 256 below values nulls dict indices H HF) as (b & EB & HB).
  assert (RD : read_plain pt (length dict) (dict_page dict) = Some (map CInt dict, [])).
  { rewrite E2. rewrite <- (app_nil_r (concat _)). assert (F : Forall (reads_back pt repr CInt) dict).
    { apply Forall_forall. intros v Hv. apply RB. destruct HF as (_ & _ & _ & _ & _ & HU). apply In_nth_error in Hv. destruct Hv as (k & Hk).
      destruct (HU k v Hk) as (i & Hi & _). apply nth_error_In in Hi. apply in_present in Hi.
      pose proof (legacy_present _ _ values nulls OK) as P. rewrite Forall_forall in P. apply P. exact Hi. }
    pose proof (read_values _ pt repr CInt dict [] F) as R. destruct pt; try exact R. contradiction. }
  assert (RP : forall rest, read_plain_column pt (valid_flags rows) (concat (map repr (present rows)) ++ rest) = Some (map (option_map CInt) rows, rest)).
  { intros rest. apply fixed_column_read; [exact NB|]. eapply Forall_impl; [exact RB|]. apply legacy_present. exact OK. }
  assert (PL : exists ch, plain_chunk library codec t sn (length values) (no_nulls_then encode (reserved_kept (snd sn) values nulls)) nulls = Some ch /\ common ch t (length values) /\
    cc_uses_dictionary ch = false /\ cc_statistics ch = fst sn /\ cc_null_count ch = snd sn /\
    ((some_null rows = true -> aligned (pieces (levels 1 (valid_flags rows)))) -> plain_chunk_reads decompress codec pt (some_null rows) (cc_data ch) (map (option_map CInt) rows))).
  { unfold reserved_kept. destruct (Z.ltb_spec (Z.of_nat (length values)) (snd sn)); [lia|]. rewrite kept_rows by exact H. cbn [no_nulls_then]. rewrite E1.
    apply plain_chunk_ok; assumption. }
  assert (PAIR : forall ch, cc_statistics ch = fst sn -> cc_null_count ch = snd sn -> (cc_statistics ch, cc_null_count ch) = sn) by (intros ch -> ->; symmetry; apply surjective_pairing).
  destruct enable; [rewrite EB; destruct b|].
  - destruct (HC (ex_intro _ (dict_page dict) (conj eq_refl RD))) as (ch & C1 & C2 & C3 & C4 & C5 & C6).
    exists ch, dict, indices. split; [exact C1|]. split; [exact C2|]. split; [exact HF|]. split; [rewrite (PAIR ch C4 C5); exact SN|].
    split; [rewrite C3; split; [intros _; split; [reflexivity|apply HB; reflexivity]|reflexivity]|].
    intros A. split; [rewrite C3; discriminate|]. intros _ (v & Hv) AI. apply C6; [exact A| |exact AI]. intros X. apply in_present in Hv. rewrite X in Hv. exact Hv.
  - destruct PL as (ch & C1 & C2 & C3 & C4 & C5 & C6). exists ch, dict, indices. split; [exact C1|]. split; [exact C2|]. split; [exact HF|]. split; [rewrite (PAIR ch C4 C5); exact SN|].
    split; [rewrite C3; split; [discriminate|intros (_ & X); apply HB in X; discriminate X]|].
    intros A. split; [intros _; exact (C6 A)|rewrite C3; discriminate].
  - destruct PL as (ch & C1 & C2 & C3 & C4 & C5 & C6). exists ch, dict, indices. split; [exact C1|]. split; [exact C2|]. split; [exact HF|]. split; [rewrite (PAIR ch C4 C5); exact SN|].
    split; [rewrite C3; split; [discriminate|intros (X & _); discriminate X]|].
    intros A. split; [intros _; exact (C6 A)|rewrite C3; discriminate].
Qed.

(** ** Strings *)
Lemma count_rows {V} (values : list V) nulls : shape values nulls -> length (filter (fun b => b) nulls) = StatsSpec.nulls (legacy_rows values nulls).
Proof.
  intros H. unfold legacy_rows, StatsSpec.nulls. destruct nulls as [|b nb].
  - cbn [filter length]. clear H. induction values as [|v l IH]; [reflexivity|exact IH].
  - destruct H as [H|H]; [discriminate H|]. revert values H. generalize (b :: nb). clear. induction l as [|b l IH]; intros [|v vs] H; try discriminate H; [reflexivity|].
    cbn [combine map filter snd fst]. specialize (IH vs ltac:(cbn in H; lia)). destruct b; cbn [length]; [f_equal|]; exact IH.
Qed.
Lemma string_column enable below pre values nulls :
  shape values nulls -> (N.of_nat (length values) < 2 ^ 29)%N -> Forall (fun s => (N.of_nat (length s) < 2 ^ 32)%N) values ->
  let rows := legacy_rows values nulls in
  exists ch dict indices, write_string_column library codec enable below pre values nulls = Some ch /\
    common ch STRING (length values) /\ faithful_dictionary rows dict indices /\
    statistics_are (fun s => s = new_column_statistics) (StatsSpec.nulls rows) pre (cc_statistics ch, cc_null_count ch) /\
    (cc_uses_dictionary ch = true <-> enable = true /\ values <> [] /\ (length dict <= 16 \/ length dict <= 2048 /\ below (length dict) (length values) = true)) /\
    ((some_null rows = true -> aligned (pieces (levels 1 (valid_flags rows)))) ->
     (cc_uses_dictionary ch = false -> plain_chunk_reads decompress codec P_BYTE_ARRAY (some_null rows) (cc_data ch) (map (option_map CBytes) rows)) /\
     (cc_uses_dictionary ch = true -> (exists v, In (Some v) rows) -> aligned (pieces (map Z.to_N (filter (fun i => (0 <=? i)%Z) indices))) ->
      dictionary_chunk_reads decompress codec P_BYTE_ARRAY (some_null rows) (map CBytes dict) (cc_data ch) (map (option_map CBytes) rows))).
Proof.
  intros H HN OK rows. unfold write_string_column. cbv zeta.
  set (sn := string_statistics pre nulls).
  assert (SN : statistics_are (fun s => s = new_column_statistics) (StatsSpec.nulls rows) pre sn).
  { unfold sn, string_statistics, statistics_are. destruct pre as [s|]; split; try reflexivity. cbn [snd]. f_equal. apply count_rows. exact H. }
  clearbody sn.
  destruct (dictionary_chunk_ok bytes_equal bytes_equal_ok values nulls STRING P_BYTE_ARRAY CBytes encode_dictionary_page_strings sn H HN) as (dict & indices & HF & HC). fold rows in HF, HC.
  destruct (analysis_spec bytes_equal bytes_equal_ok 2048 below values nulls dict indices H HF) as (b & EB & HB).
  assert (RD : exists bs, encode_dictionary_page_strings dict = Some bs /\ read_plain P_BYTE_ARRAY (length dict) bs = Some (map CBytes dict, [])).
  { destruct (proj1 (C35_dictionary_pages dict [])) as (bs & B1 & B2).
    - apply Forall_forall. intros v Hv. destruct HF as (_ & _ & _ & _ & _ & HU). apply In_nth_error in Hv. destruct Hv as (k & Hk).
      destruct (HU k v Hk) as (i & Hi & _). apply nth_error_In in Hi. apply in_present in Hi.
      pose proof (legacy_present _ _ values nulls OK) as P. rewrite Forall_forall in P. apply P. exact Hi.
    - exists bs. split; [exact B1|]. specialize (B2 []). rewrite app_nil_r in B2. exact B2. }
  assert (PL : exists ch, plain_chunk library codec STRING sn (length values) (encode_byte_array_plain values nulls) nulls = Some ch /\ common ch STRING (length values) /\
    cc_uses_dictionary ch = false /\ cc_statistics ch = fst sn /\ cc_null_count ch = snd sn /\
    ((some_null rows = true -> aligned (pieces (levels 1 (valid_flags rows)))) -> plain_chunk_reads decompress codec P_BYTE_ARRAY (some_null rows) (cc_data ch) (map (option_map CBytes) rows))).
  { destruct (C35_vectors_string values nulls H OK) as (bs & B1 & B2). rewrite B1. apply plain_chunk_ok; assumption. }
  assert (PAIR : forall ch, cc_statistics ch = fst sn -> cc_null_count ch = snd sn -> (cc_statistics ch, cc_null_count ch) = sn) by (intros ch -> ->; symmetry; apply surjective_pairing).
  destruct enable; [rewrite EB; destruct b|].
  - destruct (HC RD) as (ch & C1 & C2 & C3 & C4 & C5 & C6).
    exists ch, dict, indices. split; [exact C1|]. split; [exact C2|]. split; [exact HF|]. split; [rewrite (PAIR ch C4 C5); exact SN|].
    split; [rewrite C3; split; [intros _; split; [reflexivity|apply HB; reflexivity]|reflexivity]|].
    intros A. split; [rewrite C3; discriminate|]. intros _ (v & Hv) AI. apply C6; [exact A| |exact AI]. intros X. apply in_present in Hv. rewrite X in Hv. exact Hv.
  - destruct PL as (ch & C1 & C2 & C3 & C4 & C5 & C6). exists ch, dict, indices. split; [exact C1|]. split; [exact C2|]. split; [exact HF|]. split; [rewrite (PAIR ch C4 C5); exact SN|].
    split; [rewrite C3; split; [discriminate|intros (_ & X); apply HB in X; discriminate X]|].
    intros A. split; [intros _; exact (C6 A)|rewrite C3; discriminate].
  - destruct PL as (ch & C1 & C2 & C3 & C4 & C5 & C6). exists ch, dict, indices. split; [exact C1|]. split; [exact C2|]. split; [exact HF|]. split; [rewrite (PAIR ch C4 C5); exact SN|].
    split; [rewrite C3; split; [discriminate|intros (X & _); discriminate X]|].
    intros A. split; [intros _; exact (C6 A)|rewrite C3; discriminate].
Qed.

(** ** Booleans and doubles *)
Lemma plain_column {V} (values : list V) nulls t pt (mk : V -> cell) sn (encode : list V -> list bool -> option bytes) describe count pre :
  shape values nulls -> (N.of_nat (length values) < 2 ^ 29)%N ->
  statistics_are describe count pre sn -> (snd sn <= Z.of_nat (length values))%Z ->
  let rows := legacy_rows values nulls in
  (exists bs, encode (present rows) [] = Some bs /\
     forall rest, read_plain_column pt (valid_flags rows) (bs ++ rest) = Some (map (option_map mk) rows, rest)) ->
  exists ch, plain_chunk library codec t sn (length values) (no_nulls_then encode (reserved_kept (snd sn) values nulls)) nulls = Some ch /\ common ch t (length values) /\
    cc_uses_dictionary ch = false /\ statistics_are describe count pre (cc_statistics ch, cc_null_count ch) /\
    ((some_null rows = true -> aligned (pieces (levels 1 (valid_flags rows)))) ->
     plain_chunk_reads decompress codec pt (some_null rows) (cc_data ch) (map (option_map mk) rows)).
Proof.
  intros H HN SN SLE rows (bs & E & R). unfold reserved_kept. destruct (Z.ltb_spec (Z.of_nat (length values)) (snd sn)); [lia|]. rewrite kept_rows by exact H. cbn [no_nulls_then].
  fold rows. rewrite E. destruct (plain_chunk_ok values nulls t pt mk sn bs H HN R) as (ch & C1 & C2 & C3 & C4 & C5 & C6). exists ch.
  split; [exact C1|]. split; [exact C2|]. split; [exact C3|]. split; [rewrite C4, C5, <- surjective_pairing; exact SN|exact C6].
Qed.
Lemma bool_column pre values nulls : shape values nulls -> (N.of_nat (length values) < 2 ^ 29)%N -> sensible pre values ->
  let rows := legacy_rows values nulls in
  exists ch, write_bool_column library codec pre values nulls = Some ch /\ common ch BOOL (length values) /\ cc_uses_dictionary ch = false /\
    statistics_are (fun s => column_describes bool_lt BoolValue s rows) (StatsSpec.nulls rows) pre (cc_statistics ch, cc_null_count ch) /\
    ((some_null rows = true -> aligned (pieces (levels 1 (valid_flags rows)))) ->
     plain_chunk_reads decompress codec P_BOOLEAN (some_null rows) (cc_data ch) (map (option_map CBool) rows)).
Proof.
  intros H HN SE rows. unfold write_bool_column. cbv zeta. apply plain_column; [exact H|exact HN| | |].
  - unfold class_statistics, statistics_are. destruct pre as [s|]; [split; reflexivity|]. cbn [fst snd].
    pose proof (C42_bool_statistics (BatchedNulls Fresh values nulls)) as D. unfold report_of in D. cbn [run_history cells app] in D. rewrite masked_rows in D by exact H.
    exact (class_describes bool_lt BoolValue _ _ D).
  - unfold class_statistics. destruct pre as [s|]; [exact SE|]. cbn [snd].
    pose proof (C42_bool_statistics (BatchedNulls Fresh values nulls)) as D. unfold report_of in D. cbn [run_history cells app] in D. rewrite masked_rows in D by exact H.
    destruct (class_describes bool_lt BoolValue _ _ D) as [_ ->]. pose proof (nulls_le (legacy_rows values nulls)) as NL. rewrite rows_length in NL at 1 by exact H. lia.
  - destruct (bools_read (present rows) _ eq_refl) as (bs & B1 & B2 & B3). exists bs. split; [exact B1|]. intros rest. apply bool_column_read. exact (B3 rest).
Qed.
Lemma double_column hw pre values nulls : right_on_numbers hw ->
  shape values nulls -> (N.of_nat (length values) < 2 ^ 29)%N -> Forall (fun b => (b < 2 ^ 64)%N) values -> sensible pre values ->
  let rows := legacy_rows values nulls in
  exists ch, write_float64_column library codec hw pre values nulls = Some ch /\ common ch FLOAT64 (length values) /\ cc_uses_dictionary ch = false /\
    statistics_are (fun s => column_describes dbl_lt DoubleValue s (nan_null rows)) (StatsSpec.nulls (nan_null rows)) pre (cc_statistics ch, cc_null_count ch) /\
    ((some_null rows = true -> aligned (pieces (levels 1 (valid_flags rows)))) ->
     plain_chunk_reads decompress codec P_DOUBLE (some_null rows) (cc_data ch) (map (option_map CDouble) rows)).
Proof.
  intros HW H HN OK SE rows. unfold write_float64_column. cbv zeta.
  assert (D : column_describes dbl_lt DoubleValue (from_class DoubleValue (c_get (double_class hw) (c_batch_nulls (double_class hw) (c_new (double_class hw)) values nulls))) (nan_null rows) /\
     r_nulls (c_get (double_class hw) (c_batch_nulls (double_class hw) (c_new (double_class hw)) values nulls)) = Z.of_nat (StatsSpec.nulls (nan_null rows))).
  { pose proof (C42_double_statistics_partial hw (BatchedNulls Fresh values nulls) HW I) as D. unfold report_of in D. cbn [run_history cells app] in D. rewrite masked_rows in D by exact H.
    exact (class_describes dbl_lt DoubleValue _ _ D). }
  apply plain_column; [exact H|exact HN| | |].
  - unfold class_statistics, statistics_are. destruct pre as [s|]; [split; reflexivity|exact D].
  - unfold class_statistics. destruct pre as [s|]; [exact SE|]. cbn [snd]. rewrite (proj2 D). pose proof (nulls_le (nan_null rows)) as NL.
    unfold nan_null in NL at 2. rewrite map_length in NL. unfold rows in NL at 2. rewrite rows_length in NL by exact H. lia.
  - exists (concat (map double_bytes (present rows))). split; [reflexivity|]. intros rest. apply fixed_column_read; [discriminate|].
    eapply Forall_impl; [exact read_double|]. apply legacy_present. exact OK.
Qed.
End Chunks.

Lemma row_group_empty : forall c columns output, rg_total_byte_size (build_row_group (c :: columns) output) = 0%Z /\
  rg_sizes (build_row_group (c :: columns) output) = repeat 0%Z (S (length columns)) /\
  rg_offsets (build_row_group (c :: columns) output) = repeat (Z.of_nat output) (S (length columns)) /\
  rg_num_rows (build_row_group (c :: columns) output) = Z.of_nat c.
Proof.
  intros c columns output. unfold build_row_group. change (S (length columns)) with (length (c :: columns)). set (n0 := Z.of_nat c). clearbody n0.
  assert (G : forall cs m, rg_total_byte_size m = 0%Z -> 
     let m' := fold_left (fun m (_ : nat) => let column_start := Z.of_nat output in let column_size := (Z.of_nat output - column_start)%Z in
        RowGroupMetadata (rg_total_byte_size m + column_size) (rg_num_rows m) (rg_offsets m ++ [column_start]) (rg_sizes m ++ [column_size])) cs m in
     rg_total_byte_size m' = 0%Z /\ rg_sizes m' = rg_sizes m ++ repeat 0%Z (length cs) /\
     rg_offsets m' = rg_offsets m ++ repeat (Z.of_nat output) (length cs) /\ rg_num_rows m' = rg_num_rows m).
  { induction cs as [|x cs IH]; intros m Hm; cbv zeta; [split; [exact Hm|cbn; rewrite !app_nil_r; repeat split; reflexivity]|]. cbn [fold_left].
    match goal with |- context [fold_left _ cs ?m0] => destruct (IH m0) as (I1 & I2 & I3 & I4) end; [cbn; lia|].
    split; [exact I1|]. split; [|split].
    - etransitivity; [exact I2|]. cbn [rg_sizes length repeat]. rewrite Z.sub_diag, <- app_assoc. reflexivity.
    - etransitivity; [exact I3|]. cbn [rg_offsets length repeat]. rewrite <- app_assoc. reflexivity.
    - exact I4. }
  exact (G (c :: columns) (RowGroupMetadata 0 n0 [] []) eq_refl).
Qed.
