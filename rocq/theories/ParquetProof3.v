(** Layout of the file. *)
From Verif Require Import Base VarintSpec ThriftSpec ThriftModel ThriftProof MetaSpec MetaModel MetaProof MetaProps
  TypesSpec BuffersModel RleModel RleProof RleProof2 PlainSpec PlainModel PlainProof ParquetSpec ParquetModel ParquetObs ParquetProof ParquetProof2.

Definition len_z (bs : bytes) : Z := Z.of_nat (length bs).
Definition unc (e : encoded_column) : Z :=
  ((match e_uses_dict e, e_dict_header e, e_dict_content e with true, Some h, Some _ => Z.of_nat (length h) + e_dict_uncompressed e | _, _, _ => 0 end)
   + (Z.of_nat (length (e_header e)) + e_uncompressed e))%Z.
Definition meta_of (off : Z) (e : encoded_column) : column_meta :=
  column_metadata e (match e_uses_dict e, e_dict_header e, e_dict_content e with true, Some _, Some _ => Some off | _, _, _ => None end)
    (off + len_z (dict_bytes e)) (len_z (chunk_bytes e)) (unc e).
Fixpoint place_chunks (off : Z) (es : list encoded_column) : list column_chunk :=
  match es with [] => [] | e :: r => ColumnChunk None 0 (Some (meta_of off e)) :: place_chunks (off + len_z (chunk_bytes e)) r end.
Definition sum (l : list Z) : Z := fold_right Z.add 0%Z l.
Definition body (es : list encoded_column) : bytes := concat (map chunk_bytes es).
Lemma len_app : forall a b, len_z (a ++ b) = (len_z a + len_z b)%Z.
Proof. intros. unfold len_z. rewrite app_length. lia. Qed.

Definition clean (p : pstate) : Prop :=
  ps_open p = true /\ ps_failed p = false /\ ps_capacity p = None /\ ps_offset p = len_z (ps_file p).
Definition grown (p : pstate) (bs : bytes) (groups : list row_group) (rows : Z) : pstate :=
  PState true false (ps_file p ++ bs) None (ps_closed p) (ps_schema p) (len_z (ps_file p ++ bs)) (ps_groups p ++ groups) (ps_rows p + rows).
Lemma clean_grown : forall p bs g r, clean (grown p bs g r).
Proof. intros. unfold clean, grown. cbn. auto. Qed.
Lemma clean_self : forall p, clean p -> p = grown p [] [] 0.
Proof.
  intros [a b c d e f g h i] (A & B & C & D). cbn in *. subst. unfold grown. cbn [ps_file ps_closed ps_schema ps_groups ps_rows]. rewrite !app_nil_r, Z.add_0_r. reflexivity.
Qed.
Lemma grown_grown : forall p a g r b h q, grown (grown p a g r) b h q = grown p (a ++ b) (g ++ h) (r + q).
Proof. intros. unfold grown. cbn [ps_file ps_closed ps_schema ps_groups ps_rows]. rewrite !app_assoc, Z.add_assoc. reflexivity. Qed.
Lemma write_bytes_clean : forall p bs, clean p -> write_bytes p bs = grown p bs [] 0.
Proof.
  intros [a b c d e f g h i] bs (A & B & C & D). cbn in *. subst. unfold write_bytes, grown. cbn [ps_file ps_closed ps_schema ps_groups ps_rows ps_open ps_failed ps_capacity ps_offset].
  rewrite app_nil_r, Z.add_0_r, len_app. reflexivity.
Qed.
Lemma write_column_clean : forall p chunks tu tc e, clean p ->
  write_column (p, chunks, tu, tc) e =
  (grown p (chunk_bytes e) [] 0, chunks ++ [ColumnChunk None 0 (Some (meta_of (ps_offset p) e))], (tu + unc e)%Z, (tc + len_z (chunk_bytes e))%Z).
Proof.
  intros p chunks tu tc e HC. pose proof HC as (_ & _ & _ & HO). unfold write_column, meta_of, unc, chunk_bytes, dict_bytes.
  assert (G : forall bs, write_bytes (write_bytes (grown p bs [] 0) (e_header e)) (e_content e) = grown p (bs ++ e_header e ++ e_content e) [] 0).
  { intros bs. rewrite (write_bytes_clean (grown p bs [] 0)) by apply clean_grown. rewrite write_bytes_clean by apply clean_grown. rewrite !grown_grown. rewrite !app_nil_r, app_assoc. reflexivity. }
  assert (N : e_uses_dict e = false \/ e_dict_header e = None \/ e_dict_content e = None \/ exists h c, e_uses_dict e = true /\ e_dict_header e = Some h /\ e_dict_content e = Some c).
  { destruct (e_uses_dict e); [|auto]. destruct (e_dict_header e); [|auto]. destruct (e_dict_content e); [|auto]. right; right; right. eauto. }
  assert (P0 : e_uses_dict e = false \/ e_dict_header e = None \/ e_dict_content e = None ->
     write_bytes (write_bytes p (e_header e)) (e_content e) = grown p (e_header e ++ e_content e) [] 0).
  { intros _. rewrite (clean_self p HC) at 1. rewrite G. reflexivity. }
  assert (L : forall b : bytes, len_z (e_header e ++ e_content e) = Z.of_nat (length (e_header e) + length (e_content e))) by (intros; unfold len_z; rewrite app_length; reflexivity).
  destruct (e_uses_dict e) eqn:E1; [destruct (e_dict_header e) as [h|] eqn:E2; [destruct (e_dict_content e) as [c|] eqn:E3|]|].
  2-4: rewrite P0 by auto; cbn [app]; rewrite (L []); change (len_z []) with 0%Z; rewrite ?Z.add_0_l, ?Z.add_0_r; reflexivity.
  assert (P1 : write_bytes (write_bytes p h) c = grown p (h ++ c) [] 0).
  { rewrite (write_bytes_clean p) by exact HC. rewrite write_bytes_clean by apply clean_grown. rewrite grown_grown. reflexivity. }
  rewrite P1, G. unfold len_z. rewrite !app_length.
  assert (EO : ps_offset (grown p (h ++ c) [] 0) = (ps_offset p + Z.of_nat (length h + length c))%Z).
  { cbn [grown ps_offset]. rewrite len_app, HO. unfold len_z. rewrite app_length. reflexivity. }
  rewrite EO. unfold column_metadata. rewrite E1.
  replace (Z.of_nat (length h + length c + (length (e_header e) + length (e_content e))))
    with (Z.of_nat (length h + length c) + Z.of_nat (length (e_header e) + length (e_content e)))%Z by lia.
  reflexivity.
Qed.
Lemma fold_write_column : forall es p chunks tu tc, clean p ->
  fold_left write_column es (p, chunks, tu, tc) =
  (grown p (body es) [] 0, chunks ++ place_chunks (ps_offset p) es, (tu + sum (map unc es))%Z, (tc + len_z (body es))%Z).
Proof.
  induction es as [|e es IH]; intros p chunks tu tc HC; cbn [fold_left].
  - unfold body. cbn [map concat place_chunks sum fold_right]. rewrite <- clean_self by exact HC. rewrite app_nil_r, !Z.add_0_r. reflexivity.
  - rewrite write_column_clean by exact HC. rewrite IH by apply clean_grown. rewrite grown_grown. unfold body. cbn [map concat place_chunks sum fold_right]. fold (body es) (sum (map unc es)).
    pose proof HC as (_ & _ & _ & HO). cbn [grown ps_offset]. rewrite len_app, HO, <- app_assoc. cbn [app]. rewrite len_app, !Z.add_assoc. reflexivity.
Qed.
Definition group_at (off : Z) (n : nat) (es : list encoded_column) : row_group :=
  RowGroup (place_chunks off es) (sum (map unc es)) (Z.of_nat n) (Some off) (Some (len_z (body es))).
Lemma write_group_clean : forall p n es, clean p ->
  write_encoded_row_group p (Z.of_nat n) es = grown p (body es) [group_at (ps_offset p) n es] (Z.of_nat n).
Proof.
  intros p n es HC. unfold write_encoded_row_group. rewrite fold_write_column by exact HC. unfold grown. cbn [ps_open ps_failed ps_file ps_capacity ps_closed ps_schema ps_offset ps_groups ps_rows app].
  rewrite app_nil_r, Z.add_0_r, !Z.add_0_l. reflexivity.
Qed.
Fixpoint place_groups (off : Z) (gs : list (nat * list encoded_column)) : list row_group :=
  match gs with [] => [] | (n, es) :: r => group_at off n es :: place_groups (off + len_z (body es)) r end.
Definition bodies (gs : list (nat * list encoded_column)) : bytes := concat (map (fun g => body (snd g)) gs).
Definition rows_of (gs : list (nat * list encoded_column)) : Z := sum (map (fun g => Z.of_nat (fst g)) gs).

Section File.
Variable library : compression -> bytes -> option bytes.
Variable below : nat -> nat -> bool.
Variable options : parquet_options.
Notation run := (prun library below options).

Definition encodes (schema : list column_schema) (cols : list arrow_column) (g : nat * list encoded_column) : Prop :=
  exists a r, cols = a :: r /\ ac_size a = fst g /\ encode_columns library below options cols schema = Some (snd g).
Lemma writes_clean : forall schema colss gs, Forall2 (encodes schema) colss gs -> forall p, clean p -> ps_schema p = schema ->
  run p (map PWrite colss) = Some (grown p (bodies gs) (place_groups (ps_offset p) gs) (rows_of gs), map (fun _ => true) colss).
Proof.
  intros schema colss gs H. induction H as [|cols [n es] colss gs (a & r & -> & Hn & He) HF IH]; intros p HC HS; cbn [map prun].
  - unfold bodies, rows_of. cbn [map concat place_groups sum fold_right]. rewrite <- clean_self by exact HC. reflexivity.
  - cbn [pstep do_write]. unfold do_write. pose proof HC as (HO & _ & _ & HL). rewrite HO. cbn [negb]. rewrite HS, He. cbn [fst snd] in Hn. rewrite Hn, write_group_clean by exact HC.
    rewrite IH; [|apply clean_grown|exact HS]. cbn [grown ps_offset].
    rewrite len_app, <- HL.
    unfold grown. cbn [ps_file ps_closed ps_schema ps_groups ps_rows]. unfold bodies, rows_of. cbn [map concat place_groups sum fold_right fst snd].
    rewrite <- !app_assoc, Z.add_assoc. reflexivity.
Qed.

(** Before a file is opened and after it is closed. *)
Definition idle (p : pstate) (closed : list bytes) (off : Z) (groups : list row_group) (rows : Z) : Prop :=
  ps_open p = false /\ ps_closed p = closed /\ ps_offset p = off /\ ps_groups p = groups /\ ps_rows p = rows.
Lemma idle_run : forall ops p closed off groups rows, Forall no_open ops -> idle p closed off groups rows ->
  exists p' oks, run p ops = Some (p', oks) /\ idle p' closed off groups rows.
Proof.
  induction ops as [|o ops IH]; intros p closed off groups rows HF HI; [exists p, []; split; [reflexivity|exact HI]|].
  inversion HF as [|? ? H1 H2]; subst. pose proof HI as (A & B & C & D & E).
  assert (ST : exists p' ok, pstep library below options p o = Some (p', ok) /\ idle p' closed off groups rows).
  { destruct o as [[|] cap|sch|cols|]; cbn [no_open] in H1; [contradiction| | | |]; cbn [pstep].
    - unfold do_open. rewrite A. exists p, false. split; [reflexivity|exact HI].
    - exists (do_set_schema p sch), true. split; [reflexivity|]. exact HI.
    - unfold do_write. rewrite A. exists p, false. split; [reflexivity|exact HI].
    - unfold do_close. rewrite A. exists p, true. split; [reflexivity|exact HI]. }
  destruct ST as (p' & ok & E1 & HI'). destruct (IH p' closed off groups rows H2 HI') as (p'' & oks & E2 & HI'').
  exists p'', (ok :: oks). cbn [prun]. rewrite E1, E2. split; [reflexivity|exact HI''].
Qed.
Lemma run_app : forall a b p, run p (a ++ b) = match run p a with None => None | Some (p', oks) => match run p' b with None => None | Some (p'', oks') => Some (p'', oks ++ oks') end end.
Proof.
  induction a as [|o a IH]; intros b p; cbn [app prun].
  - destruct (run p b) as [[p'' oks']|]; reflexivity.
  - destruct (pstep library below options p o) as [[p' ok]|]; [|reflexivity]. rewrite IH.
    destruct (run p' a) as [[p1 oks]|]; [|reflexivity]. destruct (run p1 b) as [[p2 oks']|]; reflexivity.
Qed.
Definition meta_bytes (m : file_meta) : bytes := w_buffer (write_file_meta (new_writer []) m).
Definition whole_file (schema : list column_schema) (gs : list (nat * list encoded_column)) : bytes :=
  let m := file_metadata (PState true false [] None [] schema 0 (place_groups 4 gs) (rows_of gs)) in
  file_magic ++ bodies gs ++ meta_bytes m ++ int32_bytes (to_int32 (length (meta_bytes m))) ++ file_magic.
Lemma session_run : forall pre post schema colss gs, Forall no_open pre -> Forall no_open post -> Forall2 (encodes schema) colss gs ->
  exists p oks1 oks2, run writer_new (pre ++ session schema colss ++ post) = Some (p, oks1 ++ map (fun _ => true) (session schema colss) ++ oks2) /\
    length oks1 = length pre /\ ps_closed p = [whole_file schema gs].
Proof.
  intros pre post schema colss gs Hpre Hpost HE.
  destruct (idle_run pre writer_new [] 0 [] 0 Hpre) as (p0 & oks1 & E0 & (A & B & C & D & E)); [repeat split|].
  assert (LEN : forall ops p p' oks, run p ops = Some (p', oks) -> length oks = length ops).
  { induction ops as [|o ops IH]; intros p p' oks; cbn [prun]; [intros X; injection X as _ <-; reflexivity|].
    destruct (pstep library below options p o) as [[p1 ok]|]; [|discriminate]. destruct (run p1 ops) as [[p2 oks2]|] eqn:ER; [|discriminate].
    intros X; injection X as _ <-. cbn [length]. f_equal. eapply IH, ER. }
  set (p1 := do_set_schema (fst (do_open p0 true None)) schema).
  assert (HO : do_open p0 true None = (fst (do_open p0 true None), true)) by (unfold do_open; rewrite A; reflexivity).
  assert (C1 : clean p1).
  { unfold p1, do_open. rewrite A. unfold clean, do_set_schema, write_bytes. cbn [fst ps_open ps_failed ps_file ps_capacity ps_offset]. rewrite C. repeat split. }
  assert (F1 : ps_file p1 = file_magic /\ ps_closed p1 = [] /\ ps_groups p1 = [] /\ ps_rows p1 = 0%Z /\ ps_schema p1 = schema).
  { unfold p1, do_open. rewrite A. unfold do_set_schema, write_bytes. cbn [fst ps_open ps_failed ps_file ps_capacity ps_offset ps_closed ps_groups ps_rows ps_schema]. rewrite B, D, E. repeat split. }
  destruct F1 as (F1 & F2 & F3 & F4 & F5).
  pose proof (writes_clean schema colss gs HE p1 C1 F5) as W.
  set (p2 := grown p1 (bodies gs) (place_groups (ps_offset p1) gs) (rows_of gs)) in *.
  assert (C2 : clean p2) by apply clean_grown.
  assert (O1 : ps_offset p1 = 4%Z) by (destruct C1 as (_ & _ & _ & ->); rewrite F1; reflexivity).
  assert (CL : exists p3, do_close p2 = (p3, true) /\ idle p3 [whole_file schema gs] (ps_offset p3) (ps_groups p3) (ps_rows p3)).
  { unfold do_close. pose proof C2 as (Z1 & _). rewrite Z1. cbn [negb]. cbv zeta.
    assert (MD : file_metadata p2 = file_metadata (PState true false [] None [] schema 0 (place_groups 4 gs) (rows_of gs))).
    { unfold file_metadata, p2, grown. cbn [ps_schema ps_groups ps_rows]. rewrite F3, F4, F5, O1, Z.add_0_l. reflexivity. }
    rewrite MD. fold (meta_bytes (file_metadata (PState true false [] None [] schema 0 (place_groups 4 gs) (rows_of gs)))).
    rewrite (write_bytes_clean p2) by exact C2. rewrite (write_bytes_clean (grown _ _ _ _)) by apply clean_grown. rewrite grown_grown, write_bytes_clean by apply clean_grown. rewrite grown_grown.
    eexists. split; [reflexivity|]. unfold idle. cbn [ps_open ps_closed ps_offset ps_groups ps_rows]. repeat split.
    unfold p2. rewrite grown_grown. cbn [grown ps_closed ps_file]. rewrite F1, F2. cbn [app]. unfold whole_file. cbv zeta. rewrite <- !app_assoc. reflexivity. }
  destruct CL as (p3 & EC & HI). destruct (idle_run post p3 _ _ _ _ Hpost HI) as (p4 & oks2 & E4 & (_ & K & _)).
  exists p4, oks1, oks2. split; [|split; [eapply LEN, E0|exact K]].
  rewrite run_app, E0. unfold session. rewrite <- !app_assoc. cbn [app prun pstep]. rewrite HO. cbn [prun pstep]. fold p1.
  rewrite run_app, W. cbn [app prun pstep]. rewrite EC, E4. do 3 f_equal. cbn [map app]. do 2 f_equal. rewrite map_app, map_map, <- app_assoc. reflexivity.
Qed.
End File.
