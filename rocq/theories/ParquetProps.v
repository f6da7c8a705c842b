(** C37, C38, C65 - C67: written Parquet files.
    [library] is the compression library, [below] the floating-point test of the dictionary
    decision, [options] the writer's options. *)
From Verif Require Import Base VarintSpec ThriftSpec MetaSpec MetaModel TypesSpec BuffersSpec BuffersModel BuffersReach RleModel PlainSpec PlainModel
  ParquetSpec ParquetModel ParquetObs ParquetProof ParquetProof3 ParquetProof4 ParquetProof5.

(** C65: a file written by one session - whatever was tried on the writer before, short of opening
    a file, and whatever is done with it afterwards - reads back as exactly the table written: the
    columns of the schema, and in each row group the cells of each column in order.
    Missing from the full claim: compression together with dictionaries (C38_codec_refuted) and
    LZ4 (C38_lz4_refuted). *)
Theorem C65_written_file_reads_back_partial : forall library below options decompress schema groups pre post,
  lossless library decompress (o_compression options) -> o_compression options <> LZ4 ->
  o_compression options = NONE \/ o_enable_dictionary options = false ->
  schema <> [] -> Forall no_open pre -> Forall no_open post ->
  Forall (fun g => group_fits schema (fst g) (snd g)) groups -> footer_fits schema (length groups) ->
  exists p oks1 oks2 file,
    prun library below options writer_new (pre ++ session schema (map fst groups) ++ post)
      = Some (p, oks1 ++ map (fun _ => true) (session schema (map fst groups)) ++ oks2) /\ length oks1 = length pre /\
    ps_closed p = [file] /\ read_file decompress file = Some (Table (map leaf_of schema) (map snd groups)).
Proof. intros; apply file_round_trip; try assumption. apply lossless_undone; assumption. Qed.
Print Assumptions C65_written_file_reads_back_partial.

(** C37: for all options.  The footer is found, and the chunks fill the space between the first
    magic and the footer without gap or overlap; each is exactly the pages encoded for its column;
    row counts and group sizes are the sums they should be. *)
Theorem C37_layout : forall library below options schema groups pre post,
  schema <> [] -> Forall no_open pre -> Forall no_open post ->
  Forall (fun g => group_fits schema (fst g) (snd g)) groups -> footer_fits schema (length groups) ->
  exists p oks1 oks2 file foot fm,
    prun library below options writer_new (pre ++ session schema (map fst groups) ++ post)
      = Some (p, oks1 ++ map (fun _ => true) (session schema (map fst groups)) ++ oks2) /\ length oks1 = length pre /\
    ps_closed p = [file] /\ footer file = Some foot /\ read_as parse_file_meta foot = Some (fm, []) /\
    consecutive 4 (Z.of_nat (length file) - 8 - Z.of_nat (length foot)) (concat (map rg_columns (fm_row_groups fm))) /\
    Forall2 (fun g rg =>
      (exists n, columns_fit n schema (fst g) (snd g) /\ rg_num_rows rg = Z.of_nat n /\
         Forall2 (fun x ch => exists m e, cc_meta ch = Some m /\ encode_column_arrow library below options (fst x) (snd x) = Some e /\
             bytes_at file (chunk_start m) (cm_compressed m) = Some (chunk_bytes e) /\ cm_num_values m = Z.of_nat n)
           (combine (fst g) schema) (rg_columns rg)) /\
      rg_total_byte_size rg = total cm_uncompressed (rg_columns rg) /\ rg_total_compressed rg = Some (total cm_compressed (rg_columns rg)) /\
      rg_file_offset rg = first_page (rg_columns rg)) groups (fm_row_groups fm) /\
    fm_num_rows fm = fold_right Z.add 0%Z (map rg_num_rows (fm_row_groups fm)).
Proof. exact file_layout. Qed.
Print Assumptions C37_layout.

(** Concrete columns: 5, -7, 9; ab, null, empty; 1; zz. *)
Definition ids : arrow_column := AInt32 (Column [5; -7; 9]%Z (Bitmap [] 3 0 false)).
Definition names : arrow_column := AString (Column (StrBuf [97; 98]%N [0; 2; 2; 2]%N) (Bitmap [253]%N 3 1 true)).
Definition id1 : arrow_column := AInt32 (Column [1]%Z (Bitmap [] 1 0 false)).
Definition name1 : arrow_column := AString (Column (StrBuf [122; 122]%N [0; 2]%N) (Bitmap [] 1 0 false)).
Definition two_columns : list column_schema := [ColumnSchema (s2b "id") INT32 false; ColumnSchema (s2b "name") STRING true].
Definition two_groups : list (list arrow_column * list (list (option cell))) :=
  [([ids; names], [[Some (CInt 5); Some (CInt (-7)); Some (CInt 9)]; [Some (CBytes (s2b "ab")); None; Some (CBytes [])]]);
   ([id1; name1], [[Some (CInt 1)]; [Some (CBytes (s2b "zz"))]])].
Definition no_library : compression -> bytes -> option bytes := fun _ _ => None.
Definition no_decompress : Z -> bytes -> option bytes := fun _ _ => None.

Example C65_meets :
  two_columns <> [] /\ Forall (fun g => group_fits two_columns (fst g) (snd g)) two_groups /\ footer_fits two_columns 2 /\
  lossless no_library no_decompress NONE /\ Forall no_open [PClose; PWrite [ids]; POpen false None] /\
  (exists p file,
     prun no_library (fun _ _ => true) (Options NONE true) writer_new
       ([PClose; PWrite [ids]; POpen false None] ++ session two_columns (map fst two_groups) ++ [PClose])
       = Some (p, [true; false; false; true; true; true; true; true; true]) /\
     ps_closed p = [file] /\ read_file no_decompress file = Some (Table (map leaf_of two_columns) (map snd two_groups))).
Proof.
  assert (F : forall l c, run (fixed_impl 0%Z) [] (New :: map (Push 0) l) = Some [c] -> run (as_lists (option Z)) [] (New :: map (Push 0) l) = Some [l] -> fixed_built 0%Z c l).
  { intros l c H1 H2. exists (New :: map (Push 0) l), [l], [c], 0. repeat split; assumption. }
  assert (T : forall l c, run string_impl [] (New :: map (Push 0) l) = Some [c] -> run (as_small_lists texts_size two32) [] (New :: map (Push 0) l) = Some [l] -> strings_built c l).
  { intros l c H1 H2. exists (New :: map (Push 0) l), [l], [c], 0. repeat split; assumption. }
  split; [discriminate|]. split.
  - constructor; [|constructor; [|constructor]].
    + exists 3. constructor; [|constructor; [|constructor]].
      * split; [reflexivity|]. split; [|split; [reflexivity|split; [intros _ [X|[X|[X|[]]]]; discriminate X|vm_compute; reflexivity]]].
        exists 0%Z, [Some 5; Some (-7); Some 9]%Z. split; [apply F; vm_compute; reflexivity|]. split; [|reflexivity].
        intros z [X|[X|[X|[]]]]; injection X as <-; unfold int32; lia.
      * split; [reflexivity|]. split; [|split; [reflexivity|split; [discriminate|vm_compute; reflexivity]]].
        exists [Some (s2b "ab"); None; Some []]. split; [apply T; vm_compute; reflexivity|reflexivity].
    + exists 1. constructor; [|constructor; [|constructor]].
      * split; [reflexivity|]. split; [|split; [reflexivity|split; [intros _ [X|[]]; discriminate X|vm_compute; reflexivity]]].
        exists 0%Z, [Some 1]%Z. split; [apply F; vm_compute; reflexivity|]. split; [|reflexivity].
        intros z [X|[]]; injection X as <-; unfold int32; lia.
      * split; [reflexivity|]. split; [|split; [reflexivity|split; [discriminate|vm_compute; reflexivity]]].
        exists [Some (s2b "zz")]. split; [apply T; vm_compute; reflexivity|reflexivity].
  - split; [vm_compute; reflexivity|]. split; [intros d o _ X; discriminate X|]. split; [repeat constructor|].
    eexists _, _. split; [vm_compute; reflexivity|]. split; [reflexivity|vm_compute; reflexivity].
Qed.
Print Assumptions C65_meets.

(** C37, a second file from the same writer object: it lists the row groups of the first file too,
    at offsets beyond its end, and cannot be read.  All calls report success. *)
Theorem C37_second_file_refuted : exists p f1 f2,
  prun no_library (fun _ _ => true) (Options NONE false) writer_new
    (session two_columns (map fst two_groups) ++ session two_columns (map fst two_groups)) = Some (p, repeat true 10) /\
  ps_closed p = [f1; f2] /\
  read_file no_decompress f1 = Some (Table (map leaf_of two_columns) (map snd two_groups)) /\
  read_file no_decompress f2 = None.
Proof. eexists _, _, _. split; [vm_compute; reflexivity|]. split; [reflexivity|]. split; vm_compute; reflexivity. Qed.
Print Assumptions C37_second_file_refuted.

(** C38, full claim: the recorded codec is the one each page is stored with.
    A codec that stores a run of equal bytes as byte and count: the dictionary page of a column
    with one empty string shrinks, its index page does not; the chunk says uncompressed. *)
Definition toy (c : compression) (d : bytes) : option bytes :=
  match d with
  | b :: r => if forallb (N.eqb b) r && (2 <? length d) && (length d <? 256) then Some [b; N.of_nat (length d)] else None
  | [] => None
  end.
Definition untoy (z : Z) (d : bytes) : option bytes := match d with [b; n] => Some (repeat b (N.to_nat n)) | _ => None end.
Definition one_column : list column_schema := [ColumnSchema (s2b "s") STRING true].
Definition empty_text : arrow_column := AString (Column (StrBuf [] [0; 0]%N) (Bitmap [] 1 0 false)).
(** For LZ4: a first byte and a number of zero bytes after it. *)
Definition block_library (c : compression) (d : bytes) : option bytes :=
  match d with b :: r => if forallb (N.eqb 0) r && (length r <? 256) then Some [b; N.of_nat (length r)] else None | [] => None end.
Definition read_block (d : bytes) : option bytes := match d with [b; n] => Some (b :: repeat 0%N (N.to_nat n)) | _ => None end.
Definition required_column : list column_schema := [ColumnSchema (s2b "s") STRING false].
Definition many_empty : arrow_column := AString (Column (StrBuf [] [0; 0; 0; 0; 0]%N) (Bitmap [] 4 0 false)).
Theorem C38_codec_refuted :
  lossless toy untoy ZSTD /\ group_fits one_column [empty_text] [[Some (CBytes [])]] /\
  exists p file,
    prun toy (fun _ _ => true) (Options ZSTD true) writer_new (session one_column [[empty_text]]) = Some (p, repeat true 4) /\
    ps_closed p = [file] /\ read_file untoy file = None.
Proof.
  split; [|split].
  - intros d out _ H L. destruct d as [|b r]; [discriminate H|]. cbn [toy] in H.
    destruct (forallb (N.eqb b) r && (2 <? length (b :: r)) && (length (b :: r) <? 256)) eqn:E; [|discriminate H]. injection H as <-. split; [discriminate|].
    unfold untoy. assert (EL : N.to_nat (N.pos (Pos.of_succ_nat (length r))) = S (length r)) by lia. rewrite EL. clear EL. apply andb_prop in E. destruct E as [E _]. apply andb_prop in E. destruct E as [E _]. cbn [length repeat]. do 2 f_equal.
    clear L. induction r as [|x r IH]; [reflexivity|]. cbn [forallb] in E. apply andb_prop in E. destruct E as [E1 E2]. apply N.eqb_eq in E1. subst x. cbn [length repeat]. f_equal. apply IH, E2.
  - exists 1. constructor; [|constructor]. split; [reflexivity|]. split; [|split; [reflexivity|split; [discriminate|vm_compute; reflexivity]]].
    exists [Some []]. split; [|reflexivity]. exists (New :: map (Push 0) [Some []]), [[Some []]], [Column (StrBuf [] [0; 0]%N) (Bitmap [] 1 0 false)], 0. repeat split; vm_compute; reflexivity.
  - eexists _, _. split; [vm_compute; reflexivity|]. split; [reflexivity|vm_compute; reflexivity].
Qed.
Print Assumptions C38_codec_refuted.
(** C38, LZ4: the page holds a raw LZ4 block, the chunk records codec 5, which in the format is the
    Hadoop framing; a reader that implements both 5 and 7 properly cannot decompress it. *)
Theorem C38_lz4_refuted :
  exists (library : compression -> bytes -> option bytes) (decompress : Z -> bytes -> option bytes),
  lossless library decompress LZ4 /\ group_fits required_column [many_empty] [repeat (Some (CBytes [])) 4] /\
  exists p file,
    prun library (fun _ _ => true) (Options LZ4 false) writer_new (session required_column [[many_empty]]) = Some (p, repeat true 4) /\
    ps_closed p = [file] /\ read_file decompress file = None.
Proof.
  exists block_library, (fun id d => if (id =? 7)%Z then read_block d else None). split; [|split].
  - intros d out _ H L. destruct d as [|b r]; [discriminate H|]. cbn [block_library] in H. destruct (forallb (N.eqb 0) r && (length r <? 256)) eqn:E; [|discriminate H].
    injection H as <-. split; [discriminate|]. change (format_codec LZ4 =? 7)%Z with true. cbv iota. unfold read_block. rewrite Nat2N.id. do 2 f_equal.
    apply andb_prop in E. destruct E as [E _]. clear L. induction r as [|x r IH]; [reflexivity|]. cbn [forallb] in E. apply andb_prop in E. destruct E as [E1 E2].
    apply N.eqb_eq in E1. subst x. cbn [length repeat]. f_equal. apply IH, E2.
  - exists 4. constructor; [|constructor]. split; [reflexivity|]. split; [|split; [reflexivity|split; [intros _ [X|[X|[X|[X|[]]]]]; discriminate X|vm_compute; reflexivity]]].
    exists (repeat (Some []) 4). split; [|reflexivity]. exists (New :: map (Push 0) (repeat (Some []) 4)), [repeat (Some []) 4], [Column (StrBuf [] [0; 0; 0; 0; 0]%N) (Bitmap [] 4 0 false)], 0. repeat split; vm_compute; reflexivity.
  - eexists _, _. split; [vm_compute; reflexivity|]. split; [reflexivity|vm_compute; reflexivity].
Qed.
Print Assumptions C38_lz4_refuted.
(** Proved: for the other codecs the data page is always stored with the recorded codec ... *)
Theorem C38_data_pages : forall library below options decompress n s a cells,
  lossless library decompress (o_compression options) -> o_compression options <> LZ4 -> column_fits n s a cells ->
  exists e dict, encode_column_arrow library below options a s = Some e /\ (e_uses_dict e = false -> dict = []) /\
    read_data_pages decompress (length (e_header e ++ e_content e)) (physical (cs_type s)) (cs_nullable s) (e_codec e) dict (e_header e ++ e_content e) = Some cells.
Proof.
  intros library below options decompress n s a cells HL0 H4 HF. pose proof (lossless_undone _ _ _ H4 HL0) as HL. destruct (encode_column_ok library below options n s a cells HF) as (e & page & dict & E & Sh & Rd).
  destruct (Rd decompress HL) as [_ R]. exists e. destruct dict as [[raw entries]|].
  - destruct R as [_ R]. exists (map CBytes entries). split; [exact E|]. split; [|exact R].
    destruct Sh as (_ & _ & _ & _ & _ & _ & _ & _ & _ & U & _). congruence.
  - exists []. split; [exact E|]. split; [reflexivity|exact R].
Qed.
Print Assumptions C38_data_pages.
(** ... and the dictionary page unless compression and dictionaries are combined. *)
Theorem C38_dictionary_pages_partial : forall library below options decompress n s a cells,
  lossless library decompress (o_compression options) -> o_compression options <> LZ4 -> column_fits n s a cells ->
  o_compression options = NONE \/ o_enable_dictionary options = false ->
  exists e, encode_column_arrow library below options a s = Some e /\
    (e_uses_dict e = true -> exists dict, forall rest, read_dictionary_page decompress P_BYTE_ARRAY (e_codec e) (dict_bytes e ++ rest) = Some (dict, rest)).
Proof.
  intros library below options decompress n s a cells HL0 H4 HF HS. pose proof (lossless_undone _ _ _ H4 HL0) as HL. destruct (encode_column_ok library below options n s a cells HF) as (e & page & dict & E & Sh & Rd).
  destruct (Rd decompress HL) as [_ R]. exists e. split; [exact E|]. intros U. destruct Sh as (_ & _ & _ & _ & _ & _ & _ & _ & I).
  destruct dict as [[raw entries]|]; [|congruence]. destruct I as (I1 & I2 & I3 & I4 & I5 & I6 & _). destruct R as [R _]. exists (map CBytes entries). intros rest.
  unfold dict_bytes. rewrite I2, I4, I6, <- app_assoc. apply R. apply (codec_agrees library options HS). exact I1.
Qed.
Print Assumptions C38_dictionary_pages_partial.
Example C38_meets : column_fits 1 (ColumnSchema (s2b "s") STRING true) empty_text [Some (CBytes [])].
Proof.
  split; [reflexivity|]. split; [|split; [reflexivity|split; [discriminate|vm_compute; reflexivity]]].
  exists [Some []]. split; [|reflexivity]. exists (New :: map (Push 0) [Some []]), [[Some []]], [Column (StrBuf [] [0; 0]%N) (Bitmap [] 1 0 false)], 0. repeat split; vm_compute; reflexivity.
Qed.
Print Assumptions C38_meets.

(** C66, full claim: if all calls report success the file is complete.  False when the device is
    full (here after 40 bytes), and when open is called twice: the file is then just the magic. *)
Theorem C66_success_means_written_refuted :
  (exists p file, prun no_library (fun _ _ => true) (Options NONE false) writer_new
     ([POpen true (Some 40); PSetSchema two_columns] ++ map PWrite (map fst two_groups) ++ [PClose]) = Some (p, repeat true 5) /\
     ps_closed p = [file] /\ length file = 40 /\ read_file no_decompress file = None) /\
  (exists p, prun no_library (fun _ _ => true) (Options NONE false) writer_new (POpen true None :: session two_columns (map fst two_groups)) = Some (p, repeat true 6) /\
     ps_closed p = [MAGIC]).
Proof.
  split; [eexists _, _; split; [vm_compute; reflexivity|]; split; [reflexivity|]; split; vm_compute; reflexivity|].
  eexists. split; vm_compute; reflexivity.
Qed.
Print Assumptions C66_success_means_written_refuted.

(** C67, full claim: the column types can be recovered from the file.  False: a DATE column and an
    INT32 column with the same numbers give the same bytes, and so do TIMESTAMP and INT64. *)
Theorem C67_types_lost_refuted :
  (exists p q f, prun no_library (fun _ _ => true) (Options NONE false) writer_new (session [ColumnSchema (s2b "d") DATE true] [[ADate (Column [19000]%Z (Bitmap [] 1 0 false))]]) = Some (p, repeat true 4) /\
     prun no_library (fun _ _ => true) (Options NONE false) writer_new (session [ColumnSchema (s2b "d") INT32 true] [[AInt32 (Column [19000]%Z (Bitmap [] 1 0 false))]]) = Some (q, repeat true 4) /\
     ps_closed p = [f] /\ ps_closed q = [f]) /\
  (exists p q f, prun no_library (fun _ _ => true) (Options NONE false) writer_new (session [ColumnSchema (s2b "t") TIMESTAMP true] [[ATimestamp (Column [1600000000000000]%Z (Bitmap [] 1 0 false))]]) = Some (p, repeat true 4) /\
     prun no_library (fun _ _ => true) (Options NONE false) writer_new (session [ColumnSchema (s2b "t") INT64 true] [[AInt64 (Column [1600000000000000]%Z (Bitmap [] 1 0 false))]]) = Some (q, repeat true 4) /\
     ps_closed p = [f] /\ ps_closed q = [f]).
Proof. split; eexists _, _, _; (split; [vm_compute; reflexivity|]; split; [vm_compute; reflexivity|]; split; reflexivity). Qed.
Print Assumptions C67_types_lost_refuted.
(** Proved: what a reader sees of the schema (C65) determines each column's name, nullability and,
    up to those two confusions, its type. *)
Theorem C67_types_partial : forall s s', leaf_of s = leaf_of s' ->
  cs_type s <> UNKNOWN -> cs_type s <> NA -> cs_type s' <> UNKNOWN -> cs_type s' <> NA ->
  cs_name s = cs_name s' /\ cs_nullable s = cs_nullable s' /\
  (cs_type s = cs_type s' \/ (In (cs_type s) [INT32; DATE] /\ In (cs_type s') [INT32; DATE]) \/ (In (cs_type s) [INT64; TIMESTAMP] /\ In (cs_type s') [INT64; TIMESTAMP])).
Proof.
  intros [n t b] [n' t' b'] H A B C D. unfold leaf_of in H. cbn [cs_name cs_type cs_nullable] in *. injection H as E1 E2 E3 E4. split; [exact E1|]. split; [exact E3|].
  destruct t, t'; try discriminate E2; try discriminate E4; try contradiction; cbn [In]; auto 6.
Qed.
Print Assumptions C67_types_partial.
