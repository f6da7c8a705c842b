(** Proofs about interrupted conversions. *)
From Verif Require Import Base ReaderModel TypesSpec TypesModel MetaSpec ThriftModel MetaModel BuffersModel PlainSpec PlainModel ParquetSpec ParquetModel QueueSpec QueueModel QueueProof PipelineModel PipelineProof ConvertModel CrashSpec CrashModel.

(** ** Only additions *)
Definition clear (p : pstate) : Prop := ps_failed p = false /\ ps_capacity p = None.
Definition adds (p q : pstate) : Prop := (clear p -> clear q /\ beginning_of (ps_file p) (ps_file q)) /\ ps_open q = ps_open p /\ ps_closed q = ps_closed p.

Lemma beginning_refl f : beginning_of f f. Proof. exists []. symmetry. apply app_nil_r. Qed.
Lemma beginning_trans a b c : beginning_of a b -> beginning_of b c -> beginning_of a c.
Proof. intros (x & ->) (y & ->). exists (x ++ y). symmetry. apply app_assoc. Qed.
Lemma adds_refl p : adds p p. Proof. split; [intros H; split; [exact H|apply beginning_refl]|auto]. Qed.
Lemma adds_trans p q r : adds p q -> adds q r -> adds p r.
Proof.
  intros (A & A1 & A2) (B & B1 & B2). split; [|split; congruence]. intros H. destruct (A H) as (C & D). destruct (B C) as (E & F).
  split; [exact E|exact (beginning_trans _ _ _ D F)].
Qed.
Lemma adds_bytes p bs : adds p (write_bytes p bs).
Proof.
  split; [|auto]. intros (F & C). unfold write_bytes. rewrite F, C. split; [split; reflexivity|]. exists bs. reflexivity.
Qed.
Lemma adds_column e p ch a b : adds p (fst (fst (fst (write_column (p, ch, a, b) e)))).
Proof.
  unfold write_column. 
  destruct (e_uses_dict e), (e_dict_header e) as [h|], (e_dict_content e) as [c|]; cbn [fst];
    repeat (eapply adds_trans; [|apply adds_bytes]); apply adds_refl.
Qed.
Lemma adds_columns es : forall p ch a b, adds p (fst (fst (fst (fold_left write_column es (p, ch, a, b))))).
Proof.
  induction es as [|e es IH]; intros p ch a b; [apply adds_refl|]. cbn [fold_left].
  pose proof (adds_column e p ch a b) as H. destruct (write_column (p, ch, a, b) e) as [[[p' ch'] a'] b']. cbn [fst] in H.
  exact (adds_trans _ _ _ H (IH p' ch' a' b')).
Qed.
Lemma adds_group p n es : adds p (write_encoded_row_group p n es).
Proof.
  unfold write_encoded_row_group. pose proof (adds_columns es p [] 0%Z 0%Z) as H. destruct (fold_left write_column es (p, [], 0%Z, 0%Z)) as [[[p' ch'] a'] b'].
  cbn [fst] in H. exact H.
Qed.
Lemma adds_groups gs : forall p, adds p (written p gs).
Proof.
  unfold written. induction gs as [|g gs IH]; intros p; [apply adds_refl|]. cbn [fold_left]. exact (adds_trans _ _ _ (adds_group p _ _) (IH _)).
Qed.
Lemma written_app p a b : written p (a ++ b) = written (written p a) b.
Proof. apply fold_left_app. Qed.

Lemma bytes_clear p bs : clear p -> clear (write_bytes p bs) /\ ps_file (write_bytes p bs) = ps_file p ++ bs.
Proof. intros (F & C). unfold write_bytes, clear. cbn [ps_failed ps_capacity ps_file]. rewrite F, C. auto. Qed.
Lemma closed_file p : ps_open p = true -> clear p -> exists rest, ps_closed (fst (do_close p)) = ps_closed p ++ [ps_file p ++ rest] /\ rest <> [].
Proof.
  intros O C. unfold do_close. rewrite O. cbn [negb fst]. cbv zeta. set (m := w_buffer _). set (l := int32_bytes _).
  destruct (bytes_clear p m C) as (C1 & E1). destruct (bytes_clear _ l C1) as (C2 & E2). destruct (bytes_clear _ file_magic C2) as (C3 & E3).
  cbn [ps_closed]. rewrite E3, E2, E1, <- !app_assoc. exists (m ++ l ++ file_magic). split; [reflexivity|].
  intros E. apply app_eq_nil in E as (_ & E). apply app_eq_nil in E as (_ & E). discriminate E.
Qed.

(** ** Runs that are not finished *)
Lemma pipeline_so_far : forall A cap (groups : list A) tr s, run cap (pipeline groups) tr s -> exists rest, groups = delivered (events_of 1 tr) ++ rest.
Proof.
  intros A cap groups tr s H. destruct (prun_inv cap groups _ _ H) as [[(bm & bw & k & d & e & T & K & C & D & F)] _].
  pose proof (run_programs cap _ _ _ H) as RP. rewrite T in RP. cbn [map length seq combine fst snd t_next t_past] in RP. injection RP as R0 R1.
  rewrite <- R1. rewrite delivered_app, delivered_took.
  replace (delivered (if e then [(Pop, Popped None)] else [])) with (@nil A) by (destruct e; reflexivity). rewrite app_nil_r.
  exists (q_items s ++ skipn k groups). rewrite app_assoc. rewrite D. symmetry. apply firstn_skipn.
Qed.

(** ** A shorter file is not a file *)
Lemma cut_unreadable decompress file c : beginning_of c file -> c <> file -> ~ mark_inside file -> read_file decompress c = None.
Proof.
  intros (rest & E) NE NM. unfold read_file. destruct (footer c) as [foot|] eqn:F; [|reflexivity]. exfalso. apply NM.
  unfold footer in F. destruct (bytes_at c 0 4) as [head|]; [|discriminate F].
  destruct (bytes_at c (Z.of_nat (length c) - 8) 8) as [tail|] eqn:B; [|discriminate F]. cbv beta iota zeta delta [bind] in F.
  destruct (list_eq_dec N.eq_dec head MAGIC) as [HM|HM]; [|discriminate F]. destruct (list_eq_dec N.eq_dec (skipn 4 tail) MAGIC) as [T|T]; [|discriminate F].
  clear F. unfold bytes_at in B.
  destruct ((0 <=? Z.of_nat (length c) - 8) && (0 <=? 8) && (Z.of_nat (length c) - 8 + 8 <=? Z.of_nat (length c)))%Z eqn:B'; [|discriminate B].
  assert (TE : tail = firstn (Z.to_nat 8) (skipn (Z.to_nat (Z.of_nat (length c) - 8)) c)) by congruence. clear B.
  apply andb_prop in B' as (B & _). apply andb_prop in B as (B & _). apply Z.leb_le in B.
  assert (L : length (skipn (Z.to_nat (Z.of_nat (length c) - 8)) c) = 8) by (rewrite skipn_length; lia).
  assert (T' : skipn (length c - 4) c = mark).
  { change mark with MAGIC. rewrite <- T, TE. rewrite firstn_all2 by (rewrite L; lia). rewrite <- (firstn_skipn (Z.to_nat (Z.of_nat (length c) - 8)) c) at 2.
    rewrite skipn_app. rewrite skipn_all2 by (rewrite firstn_length; lia). cbn [app]. f_equal. rewrite firstn_length. lia. }
  exists (firstn (length c - 4) c), rest. split; [|split].
  - rewrite E, app_assoc. f_equal. rewrite <- T'. symmetry. apply firstn_skipn.
  - intros X. apply (f_equal (@length _)) in X. rewrite firstn_length in X. cbn in X. lia.
  - intros ->. apply NE. rewrite E, app_nil_r. reflexivity.
Qed.

(** ** Little room *)
Definition cut (k : nat) (p q : pstate) : Prop :=
  clear p /\ ps_capacity q = Some k /\ ps_file q = firstn k (ps_file p) /\ ps_failed q = (k <? length (ps_file p)) /\
  ps_open q = ps_open p /\ ps_closed p = [] /\ ps_closed q = [] /\ ps_schema q = ps_schema p /\ ps_offset q = ps_offset p /\ ps_groups q = ps_groups p /\ ps_rows q = ps_rows p.

Lemma cut_bytes k p q bs : cut k p q -> cut k (write_bytes p bs) (write_bytes q bs).
Proof.
  intros ((F & C) & C2 & E & F2 & O & X1 & X2 & S & O2 & G & R). unfold write_bytes, cut, clear. cbn [ps_failed ps_capacity ps_file ps_open ps_closed ps_schema ps_offset ps_groups ps_rows].
  rewrite F, C, C2, F2, E, S, O2, G, R. split; [split; reflexivity|]. split; [reflexivity|]. destruct (Nat.ltb_spec k (length (ps_file p))) as [H|H].
  - split; [rewrite firstn_app; replace (k - length (ps_file p)) with 0 by lia; cbn [firstn]; rewrite app_nil_r; reflexivity|].
    split; [rewrite app_length; symmetry; cbn [orb]; apply Nat.ltb_lt; lia|]. auto 10.
  - rewrite !(firstn_all2 (ps_file p)) by lia. split; [reflexivity|]. split; [|auto 10].
    rewrite app_length. cbn [orb]. destruct (Nat.leb_spec (length (ps_file p) + length bs) k); cbn; symmetry; [apply Nat.ltb_ge|apply Nat.ltb_lt]; lia.
Qed.
Lemma cut_column k e p q ch a b : cut k p q ->
  cut k (fst (fst (fst (write_column (p, ch, a, b) e)))) (fst (fst (fst (write_column (q, ch, a, b) e)))) /\
  snd (fst (fst (write_column (p, ch, a, b) e))) = snd (fst (fst (write_column (q, ch, a, b) e))) /\
  snd (fst (write_column (p, ch, a, b) e)) = snd (fst (write_column (q, ch, a, b) e)) /\
  snd (write_column (p, ch, a, b) e) = snd (write_column (q, ch, a, b) e).
Proof.
  intros H. assert (O : ps_offset q = ps_offset p) by (unfold cut in H; tauto). unfold write_column.
  destruct (e_uses_dict e), (e_dict_header e) as [h|], (e_dict_content e) as [c|]; cbn [fst snd]; cbn [ps_offset write_bytes]; rewrite ?O;
    (split; [repeat apply cut_bytes; exact H|auto]).
Qed.
Lemma cut_columns k es : forall p q ch a b, cut k p q ->
  cut k (fst (fst (fst (fold_left write_column es (p, ch, a, b))))) (fst (fst (fst (fold_left write_column es (q, ch, a, b))))) /\
  snd (fst (fst (fold_left write_column es (p, ch, a, b)))) = snd (fst (fst (fold_left write_column es (q, ch, a, b)))) /\
  snd (fst (fold_left write_column es (p, ch, a, b))) = snd (fst (fold_left write_column es (q, ch, a, b))) /\
  snd (fold_left write_column es (p, ch, a, b)) = snd (fold_left write_column es (q, ch, a, b)).
Proof.
  induction es as [|e es IH]; intros p q ch a b H; [auto|]. cbn [fold_left].
  destruct (cut_column k e p q ch a b H) as (H1 & H2 & H3 & H4).
  destruct (write_column (p, ch, a, b) e) as [[[p' ch'] a'] b']. destruct (write_column (q, ch, a, b) e) as [[[q' ch''] a''] b'']. cbn [fst snd] in *. subst.
  apply IH, H1.
Qed.
Lemma cut_group k p q n es : cut k p q -> cut k (write_encoded_row_group p n es) (write_encoded_row_group q n es).
Proof.
  intros H. unfold write_encoded_row_group. destruct (cut_columns k es p q [] 0%Z 0%Z H) as (H1 & H2 & H3 & H4).
  assert (O : ps_offset q = ps_offset p) by (unfold cut in H; tauto).
  destruct (fold_left write_column es (p, [], 0%Z, 0%Z)) as [[[p' ch'] a'] b']. destruct (fold_left write_column es (q, [], 0%Z, 0%Z)) as [[[q' ch''] a''] b'']. cbn [fst snd] in *. subst.
  unfold cut, clear in *. cbn [ps_failed ps_capacity ps_file ps_open ps_closed ps_schema ps_offset ps_groups ps_rows].
  destruct H1 as ((F & C) & C2 & E & F2 & O1 & X1 & X2 & S & O2 & G & R). rewrite O, G, R. auto 15.
Qed.
Lemma cut_groups k gs : forall p q, cut k p q -> cut k (written p gs) (written q gs).
Proof. unfold written. induction gs as [|g gs IH]; intros p q H; [exact H|]. cbn [fold_left]. apply IH, cut_group, H. Qed.

Lemma cut_close k p q file : cut k p q -> ps_open p = true -> ps_closed (fst (do_close p)) = [file] -> ps_closed (fst (do_close q)) = [firstn k file].
Proof.
  intros H O E. unfold do_close in *. assert (OQ : ps_open q = true) by (unfold cut in H; destruct H as (_ & _ & _ & _ & H & _); congruence). rewrite O in E. rewrite OQ. cbn [negb fst] in *. cbv zeta in *.
  assert (M : file_metadata q = file_metadata p). { unfold cut in H. unfold file_metadata. destruct H as (_ & _ & _ & _ & _ & _ & _ & -> & _ & -> & ->). reflexivity. }
  rewrite M. set (m := w_buffer _) in *.
  pose proof (cut_bytes k _ _ file_magic (cut_bytes k _ _ (int32_bytes (to_int32 (length m))) (cut_bytes k _ _ m H))) as J.
  set (p3 := write_bytes (write_bytes (write_bytes p m) _) _) in *. set (q3 := write_bytes (write_bytes (write_bytes q m) _) _) in *. clearbody p3 q3.
  cbn [ps_closed] in E |- *.
  destruct J as (_ & _ & JF & _ & _ & J1 & J2 & _).
  rewrite J1 in E. rewrite J2. cbn [app] in *. rewrite JF. congruence.
Qed.

Section Whole.
Variable library : compression -> bytes -> option bytes.
Variable below : nat -> nat -> bool.
Variable options : parquet_options.

Lemma write_chunks_adds trace p schema cs p' : write_chunks library below options trace p schema cs = Some p' -> adds p p'.
Proof.
  unfold write_chunks. destruct cs as [|c [|c2 cs]]; intros H.
  - injection H as <-. apply adds_refl.
  - unfold do_write in H. destruct (negb (ps_open p)); [injection H as <-; apply adds_refl|]. destruct c as [|a c]; [injection H as <-; apply adds_refl|].
    destruct (encode_columns _ _ _ _ _) as [e|]; [|discriminate]. injection H as <-. apply adds_group.
  - destruct (row_groups schema _) as [gs|]; [|discriminate]. destruct (encode_groups _ _ _ _ _); [|discriminate]. injection H as <-. apply adds_groups.
Qed.
Lemma write_chunks_cut k trace p q schema cs p' : cut k p q -> write_chunks library below options trace p schema cs = Some p' ->
  exists q', write_chunks library below options trace q schema cs = Some q' /\ cut k p' q'.
Proof.
  intros H. assert (O : ps_open q = ps_open p /\ ps_schema q = ps_schema p) by (unfold cut in H; tauto). destruct O as (O & S).
  unfold write_chunks. destruct cs as [|c [|c2 cs]]; intros E.
  - injection E as <-. eauto.
  - unfold do_write in *. rewrite O. destruct (negb (ps_open p)); [injection E as <-; eexists; split; [reflexivity|exact H]|]. destruct c as [|a c]; [injection E as <-; eexists; split; [reflexivity|exact H]|].
    rewrite S. destruct (encode_columns _ _ _ _ _) as [e|]; [|discriminate]. injection E as <-. eexists. split; [reflexivity|]. apply cut_group, H.
  - destruct (row_groups schema _) as [gs|]; [|discriminate]. destruct (encode_groups _ _ _ _ _); [|discriminate]. injection E as <-. eexists. split; [reflexivity|]. apply cut_groups, H.
Qed.

Variables (ff : bytes -> option N) (lanes : nat) (clmul : bool) (nt : N) (ne : bool) (o : csv_options) (data : bytes).
Notation convert trace := (convert library below options trace ff lanes clmul nt ne o data true true).
Notation possible trace := (forall encoded, queue_input library below options ff lanes clmul nt ne o data = Some encoded -> exists s, run pipeline_capacity (pipeline encoded) trace s).
Notation complete trace := (forall encoded, queue_input library below options ff lanes clmul nt ne o data = Some encoded -> exists s, run pipeline_capacity (pipeline encoded) trace s /\ finished s).

Definition steps_of (m : moment) : list (label (Z * list encoded_column)) := match m with AtOpen => [] | Writing s | AtClose s => s end.

Lemma left_is_beginning trace r file m left :
  convert trace None = Some r -> cv_error r = None -> ps_closed (cv_writer r) = [file] -> complete trace ->
  match m with AtOpen => True | Writing s => possible s | AtClose s => complete s end ->
  at_death library below options ff lanes clmul nt ne o data m = Some left -> beginning_of left file.
Proof.
  intros HC HE HF HT HM HL. unfold ConvertModel.convert in HC. unfold at_death in HL.
  assert (QI : queue_input library below options ff lanes clmul nt ne o data = queue_input library below options ff lanes clmul nt ne o data) by reflexivity.
  unfold queue_input at 2 in QI.
  destruct (open_file ff lanes clmul o data) as [[[names types] he]|]; [|discriminate HL].
  destruct (read_all _ _ _ _ _ _ _ _ _ _ _) as [t|]; [|discriminate HL].
  cbn [negb] in HC. change (do_open writer_new true None) with (fst (do_open writer_new true None), true) in HC. cbv zeta in HC. cbn [negb] in HC.
  destruct (all_or_none _) as [cs|]; [|discriminate HL]. rewrite QI in HT. set (schema := schema_of names types) in *.
  unfold handed_over in HL. set (p := do_set_schema (fst (do_open writer_new true None)) schema) in *. cbv zeta in HL.
  assert (CP : clear p /\ ps_open p = true /\ ps_closed p = []) by (repeat split). destruct CP as (CP & OP & XP).
  destruct (write_chunks library below options trace p schema cs) as [p'|] eqn:W; [|discriminate HC]. injection HC as <-. cbn [cv_error cv_writer] in HF.
  destruct (write_chunks_adds _ _ _ _ _ W) as (A & A1 & A2). destruct (A CP) as (A3 & A4).
  destruct (closed_file p' ltac:(congruence) A3) as (rest & CF & _). rewrite A2, XP in CF. cbn [app] in CF. rewrite CF in HF. injection HF as <-.
  assert (B : forall f, beginning_of f (ps_file p') -> beginning_of f (ps_file p' ++ rest)).
  { intros f H. apply (beginning_trans _ _ _ H). exists rest. reflexivity. }
  (* the same for another schedule *)
  assert (D : forall s, possible s -> forall q, write_chunks library below options s p schema cs = Some q -> beginning_of (ps_file q) (ps_file p')).
  { intros s HS q Q. rewrite QI in HS. clear HM QI. destruct cs as [|c1 [|c2 cs]].
    - cbn in Q, W. injection Q as <-. injection W as <-. apply beginning_refl.
    - cbn [write_chunks] in Q, W. rewrite Q in W. injection W as <-. apply beginning_refl.
    - unfold write_chunks, pipeline_input in *. destruct (row_groups schema (c1 :: c2 :: cs)) as [groups|]; [|discriminate W].
      destruct (encode_groups library below options schema groups) as [encoded|]; [|discriminate W]. injection W as <-. injection Q as <-.
      destruct (HT encoded eq_refl) as (s1 & R1 & F1). destruct (pipeline_result _ _ _ _ R1 F1) as [_ D1]. rewrite D1.
      destruct (HS encoded eq_refl) as (s2 & R2). destruct (pipeline_so_far _ _ _ _ _ R2) as (more & D2).
      rewrite D2, written_app. destruct (adds_groups (delivered (events_of 1 s)) p) as (Y & _ & _). destruct (Y CP) as (Y1 & _).
      destruct (adds_groups more (written p (delivered (events_of 1 s)))) as (Z & _ & _). destruct (Z Y1) as (_ & Z2). exact Z2. }
  destruct m as [|s|s].
  - injection HL as <-. apply B, A4.
  - destruct (write_chunks library below options s p schema cs) as [q|] eqn:Q; [|discriminate HL]. injection HL as <-. apply B. apply (D s); [exact HM|exact Q].
  - assert (Q : write_chunks library below options s p schema cs = Some p').
    { rewrite QI in HM. rewrite <- W. clear - HT HM. destruct cs as [|c1 [|c2 cs]]; [reflexivity|reflexivity|]. unfold write_chunks, pipeline_input in *.
      destruct (row_groups schema (c1 :: c2 :: cs)) as [groups|]; [|reflexivity]. destruct (encode_groups library below options schema groups) as [encoded|]; [|reflexivity].
      destruct (HT encoded eq_refl) as (s1 & R1 & F1). destruct (HM encoded eq_refl) as (s2 & R2 & F2).
      destruct (pipeline_result _ _ _ _ R1 F1) as [_ D1]. destruct (pipeline_result _ _ _ _ R2 F2) as [_ D2]. rewrite D1, D2. reflexivity. }
    rewrite Q in HL. cbn [option_map] in HL. injection HL as <-. rewrite CF. cbn [last]. apply beginning_refl.
Qed.

(** A disk with little room. *)
Lemma little_room trace r file k : convert trace None = Some r -> cv_error r = None -> ps_closed (cv_writer r) = [file] ->
  exists r', convert trace (Some k) = Some r' /\ cv_error r' = None /\ cv_rows r' = cv_rows r /\ ps_closed (cv_writer r') = [firstn k file].
Proof.
  intros HC HE HF. unfold ConvertModel.convert in *.
  destruct (open_file ff lanes clmul o data) as [[[names types] he]|]; [|injection HC as <-; discriminate HE].
  destruct (read_all _ _ _ _ _ _ _ _ _ _ _) as [t|]; [|discriminate HC].
  cbn [negb] in *. change (do_open writer_new true None) with (fst (do_open writer_new true None), true) in HC.
  change (do_open writer_new true (Some k)) with (fst (do_open writer_new true (Some k)), true). cbv zeta in *. cbn [negb] in *.
  destruct (all_or_none _) as [cs|]; [|discriminate HC]. set (schema := schema_of names types) in *.
  set (p := do_set_schema (fst (do_open writer_new true None)) schema) in *. set (q := do_set_schema (fst (do_open writer_new true (Some k))) schema).
  assert (C : cut k p q).
  { assert (C0 : cut k (PState true false [] None [] [] 0 [] 0) (PState true false [] (Some k) [] [] 0 [] 0)).
    { unfold cut, clear. cbn. rewrite firstn_nil. split; [auto|]. split; [reflexivity|]. split; [reflexivity|]. auto 10. }
    pose proof (cut_bytes k _ _ file_magic C0) as C1. unfold p, q.
    change (fst (do_open writer_new true None)) with (write_bytes (PState true false [] None [] [] 0 [] 0) file_magic).
    change (fst (do_open writer_new true (Some k))) with (write_bytes (PState true false [] (Some k) [] [] 0 [] 0) file_magic).
    unfold cut, clear in *. cbn [do_set_schema ps_failed ps_capacity ps_file ps_open ps_closed ps_schema ps_offset ps_groups ps_rows] in *. tauto. }
  destruct (write_chunks library below options trace p schema cs) as [p'|] eqn:W; [|discriminate HC]. injection HC as <-. cbn [cv_error cv_writer cv_rows] in *.
  destruct (write_chunks_cut k trace p q schema cs p' C W) as (q' & -> & C'). eexists. split; [reflexivity|]. cbn [cv_error cv_writer cv_rows].
  split; [reflexivity|]. split; [reflexivity|]. destruct (write_chunks_adds _ _ _ _ _ W) as (_ & A1 & _). exact (cut_close k p' q' file C' A1 HF).
Qed.
End Whole.
