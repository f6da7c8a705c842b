(** Proofs about the life of a reader. *)
From Verif Require Import Base TypesSpec WordsModel WordsProof ChunkSpec ChunkModel ChunkProof ChunkProof2 ChunkProof3 ChunkProps FieldsSpec FieldsModel
  FieldsProof FieldsProof2 FieldsProof3 NumModel DateModel ReaderSpec ReaderModel ReaderProof ReaderProof2 ReaderProof3 ReaderProof4 TypesModel TypesProof3
  MmapSpec MmapModel MmapProof LifeSpec LifeModel.

(** ** Histories *)
Lemma ends_snoc us u : EndsMapped (us ++ [u]) <-> exists d a c, u = Path (Works d a c) /\ c <> [].
Proof.
  split.
  - intros (us1 & d & a & c & E & H). apply app_inj_tail in E. destruct E as (_ & ->). eauto.
  - intros (d & a & c & -> & H). exists us, d, a, c. auto.
Qed.

Lemma dangling_snoc us u : Dangling (us ++ [u]) <-> cannot_open u /\ (EndsMapped us \/ Dangling us).
Proof.
  split.
  - intros (us1 & us2 & E & M & N & C). destruct us2 as [|x us2] using rev_ind; [congruence|]. clear IHus2.
    rewrite app_assoc in E. apply app_inj_tail in E. destruct E as (-> & ->).
    apply Forall_app in C. destruct C as (C1 & C2). inversion_clear C2. split; [assumption|].
    destruct us2 as [|y r]; [left; rewrite app_nil_r; exact M|right].
    exists us1, (y :: r). repeat split; auto. discriminate.
  - intros (C & [M|(us1 & us2 & -> & M & N & F)]).
    + exists us, [u]. repeat split; auto. discriminate.
    + exists us1, (us2 ++ [u]). rewrite app_assoc. repeat split; auto.
      * destruct us2; discriminate.
      * apply Forall_app; auto.
Qed.

Lemma not_ends_nil : ~ EndsMapped [].
Proof. intros (us1 & d & a & c & E & _). destruct us1; discriminate. Qed.
Lemma not_dangling_nil : ~ Dangling [].
Proof. intros (us1 & us2 & E & M & N & _). symmetry in E. apply app_eq_nil in E. destruct E. congruence. Qed.

(** ** The ledger of mappings *)
Lemma mapped_now_app evs evs' :
  mapped_now (evs ++ evs') = fold_left (fun m e => match e with
                        | Mapped a c => (a, c) :: m
                        | Unmapped a _ => filter (fun x => negb (fst x =? a)) m
                        | _ => m
                        end) evs' (mapped_now evs).
Proof. unfold mapped_now. apply fold_left_app. Qed.

Lemma look_up_gone a : forall m, look_up (filter (fun x => negb (fst x =? a)) m) a = None.
Proof.
  induction m as [|(x, c) m IH]; [reflexivity|]. cbn [filter fst]. destruct (Nat.eqb_spec x a); cbn [negb]; [exact IH|].
  cbn [look_up]. destruct (Nat.eqb_spec x a); [contradiction|exact IH].
Qed.

Lemma some_inj {A} (x y : A) : Some x = Some y -> x = y.
Proof. congruence. Qed.

Section Life.
Context {F : Type}.
Variable ff : bytes -> option F.
Variables (lanes : nat) (clmul : bool) (num_threads : N) (ne_in : bool) (o : csv_options).
Hypothesis H1 : 1 <= lanes.
Hypothesis H2 : Nat.divide lanes 64.
Hypothesis HqL : quote o <> LF.
Hypothesis HqC : quote o <> CR.
Notation extend := (extend_schema ff lanes clmul o).
Notation open_f := (open_file ff lanes clmul o).
Notation life := (live ff lanes clmul o).
Notation rd := (read ff lanes clmul num_threads ne_in o).

Definition columns_of (content : bytes) : list bytes :=
  match open_f content with Some (ns, _, _) => ns | None => [] end.

Lemma columns_nonempty c : c <> [] -> columns_of c <> [].
Proof.
  intros H. unfold columns_of. destruct (open_types ff lanes clmul o c H1 H2 HqL HqC H) as (ns & -> & N). exact N.
Qed.

Lemma infer_total content n m : exists ts, infer_from_sample ff lanes clmul o content n m = Some ts /\ length ts = n.
Proof.
  destruct content as [|x l]; [eexists; split; [reflexivity|apply repeat_length]|].
  destruct n as [|n]. { exists []. unfold infer_from_sample. cbn [Nat.eqb]. rewrite orb_true_r. auto. }
  rewrite infer_types by (auto; discriminate). eexists. split; [reflexivity|].
  rewrite map_length, seq_length. reflexivity.
Qed.

Lemma extend_fresh c : c <> [] -> extend [] c = open_f c.
Proof. destruct c; [congruence|]. reflexivity. Qed.

Lemma extend_total old c : c <> [] ->
  exists ts he, extend old c = Some (old ++ columns_of c, ts, he) /\ length ts = length (old ++ columns_of c).
Proof.
  intros H. pose proof (extend_fresh c H) as E.
  destruct (open_types ff lanes clmul o c H1 H2 HqL HqC H) as (ns & EO & N).
  unfold columns_of. rewrite EO. rewrite EO in E. unfold extend_schema in *.
  destruct (find_row_end lanes clmul (quote o) c 0) as [e|]; [|discriminate]. cbv zeta in *.
  cbn [app] in E.
  match type of E with context [infer_from_sample _ _ _ _ ?d ?n ?m] =>
    destruct (infer_total d n m) as (t0 & Et & _); rewrite Et in E end.
  apply some_inj, (f_equal (fun x : list bytes * list data_type * nat => fst (fst x))) in E.
  cbn [fst] in E. rewrite E.
  match goal with |- context [infer_from_sample _ _ _ _ ?d ?n ?m] =>
    destruct (infer_total d n m) as (t1 & Et1 & L1); rewrite Et1 end.
  eexists. eexists. split; [reflexivity|exact L1].
Qed.

(** ** What is behind the pointer *)
Definition settled (evs : list event) (r : reader) : Prop :=
  exists c, behind evs r = Some c /\ data_size r = length c.

Definition on_map (evs : list event) (r : reader) : Prop :=
  exists d a c, ptr r = InMap a /\ c <> [] /\ data_size r = length c /\ look_up (mapped_now evs) a = Some c /\
                source_of r = mkSource (Some d) (Some a) (length c).

Definition hanging (evs : list event) (r : reader) : Prop :=
  exists a, ptr r = InMap a /\ look_up (mapped_now evs) a = None /\ fd (source_of r) = None /\ names r <> [].

Lemma names_step c r : c = [] \/ data_size r = length c ->
  (data_size r = 0 <-> c = []) ->
  exists ts he, look_at ff lanes clmul o c r =
    (mkReader (source_of r) (owned r) (generation r) (ptr r) (data_size r) (names r ++ columns_of c) ts he,
     if length c =? 0 then Fails else Succeeds).
Proof.
  intros Hc Hz. unfold look_at. destruct (Nat.eqb_spec (data_size r) 0) as [E|E].
  - apply Hz in E. subst c. cbn [columns_of length Nat.eqb].
    exists (types r), (header_end r). destruct r as [so ow ge pt ds na ty he0]. cbn [source_of owned generation ptr data_size names types header_end].
    unfold columns_of. cbn [open_file]. rewrite app_nil_r. reflexivity.
  - assert (c <> []) by (intros Z; apply Hz in Z; contradiction).
    destruct (extend_total (names r) c H) as (ts & he & -> & _). exists ts, he.
    destruct c; [congruence|]. reflexivity.
Qed.

Definition Inv (us : list use) (evs : list event) (r : reader) : Prop :=
  shaped (source_of r) /\
  names r = concat (map (fun u => match handed u with Some c => columns_of c | None => [] end) us) /\
  (EndsMapped us -> on_map evs r) /\
  (Dangling us -> hanging evs r) /\
  (~ EndsMapped us -> ~ Dangling us -> settled evs r /\ forall a, ptr r <> InMap a).

Definition verdict_of (u : use) : verdict :=
  match handed u with Some (_ :: _) => Succeeds | _ => Fails end.

(** Decidability, from the last call. *)
Lemma ends_dec us : EndsMapped us \/ ~ EndsMapped us.
Proof.
  destruct us as [|u us _] using rev_ind; [right; apply not_ends_nil|].
  destruct u as [[| | |d a [|x c]]|b].
  5:{ left. apply ends_snoc. exists d, a, (x :: c). split; [reflexivity|discriminate]. }
  all: right; rewrite ends_snoc; intros (d' & a' & c' & E & N); try discriminate; injection E as _ _ <-; congruence.
Qed.
Lemma cannot_dec u : cannot_open u \/ ~ cannot_open u.
Proof. unfold cannot_open. destruct (handed u); [right; discriminate|left; reflexivity]. Qed.
Lemma dangling_dec us : Dangling us \/ ~ Dangling us.
Proof.
  induction us as [|u us IH] using rev_ind; [right; apply not_dangling_nil|].
  rewrite dangling_snoc. destruct (cannot_dec u), (ends_dec us), IH; tauto.
Qed.

Lemma flat_snoc {A} (f : use -> list A) us u : concat (map f (us ++ [u])) = concat (map f us) ++ f u.
Proof. rewrite map_app, concat_app. cbn [map concat]. rewrite app_nil_r. reflexivity. Qed.

Lemma ends_names us evs r : Inv us evs r -> EndsMapped us -> names r <> [].
Proof.
  intros (_ & N & _) (us1 & d & a & c & -> & H). rewrite N, flat_snoc. cbn [handed].
  intros E. apply app_eq_nil in E. destruct E as (_ & E). exact (columns_nonempty c H E).
Qed.

Lemma step_ok us vs evs r u : Inv us evs r -> vs = map verdict_of us ->
  let '(vs', evs', r') := use_step ff lanes clmul o (vs, evs, r) u in
  Inv (us ++ [u]) evs' r' /\ vs' = map verdict_of (us ++ [u]).
Proof.
  intros HI HV. pose proof HI as (Sh & N & A & B & C).
  destruct u as [an|b].
  - (* Path *)
    cbn [use_step]. unfold open_path, open. fold (ready (source_of r)).
    destruct (ready_shape (source_of r) Sh) as (n & Er).
    destruct (ready (source_of r)) as (ev0, s0) eqn:ER. cbn [snd] in Er. subst s0. cbn [empty_source data size].
    (* the calls that cannot open their file *)
    assert (Fail : forall ev1 s1, handed (Path an) = None -> fd s1 = None -> data s1 = None ->
      (forall m, fold_left (fun m e => match e with
                        | Mapped a c => (a, c) :: m
                        | Unmapped a _ => filter (fun x => negb (fst x =? a)) m
                        | _ => m
                        end) ev1 m = m) ->
      Inv (us ++ [Path an]) (evs ++ ev0 ++ ev1)
        (mkReader s1 (owned r) (generation r) (ptr r) (data_size r) (names r) (types r) (header_end r))).
    { intros ev1 s1 Hd Hf Hda Hev. split; [unfold shaped; cbn [source_of]; rewrite Hda; exact I|].
      split; [rewrite flat_snoc, Hd, app_nil_r; exact N|]. rewrite ends_snoc, dangling_snoc.
      split; [intros (d & a & c & E & _); injection E as ->; discriminate Hd|]. split.
      - intros (_ & HM). cbn [source_of names ptr]. unfold hanging. cbn [source_of names ptr].
        assert (NN : names r <> []).
        { destruct HM as [M|D]; [exact (ends_names _ _ _ HI M)|]. destruct (B D) as (a & _ & _ & _ & X). exact X. }
        destruct HM as [M|D].
        + destruct (A M) as (d & a & c & P & Nc & Sz & Lk & So). exists a. split; [exact P|].
          split; [|split; assumption].
          rewrite So in ER. unfold ready in ER. cbn [fd] in ER. unfold close in ER. cbn [data fd size] in ER.
          destruct (Nat.ltb_spec 0 (length c)) as [_|L]; [|destruct c; cbn in L; [congruence|lia]].
          injection ER as <- _. rewrite mapped_now_app, fold_left_app, Hev.
          cbn [app fold_left]. apply look_up_gone.
        + destruct (B D) as (a & P & Lk & Fd & _). exists a. split; [exact P|]. split; [|split; assumption].
          unfold ready in ER. rewrite Fd in ER. injection ER as <- _. cbn [app].
          rewrite mapped_now_app, Hev. exact Lk.
      - intros NE ND. assert (NM : ~ EndsMapped us /\ ~ Dangling us) by (unfold cannot_open in ND; tauto).
        destruct (C (proj1 NM) (proj2 NM)) as ((c & Bh & Sz) & Np). split; [|exact Np].
        exists c. split; [|exact Sz]. unfold behind in *. cbn [ptr generation owned]. destruct (ptr r) as [|a|g]; auto.
        exfalso. exact (Np a eq_refl). }
    (* the calls that find an empty file *)
    assert (Empty : forall ev1 d, handed (Path an) = Some [] ->
      Inv (us ++ [Path an]) (evs ++ ev0 ++ ev1)
        (mkReader (mkSource (Some d) None 0) (owned r) (generation r) NullPtr 0 (names r) (types r) (header_end r))).
    { intros ev1 d Hd. split; [exact I|]. cbn [names].
      split; [rewrite flat_snoc, Hd; unfold columns_of; cbn [open_file]; rewrite app_nil_r; exact N|].
      rewrite ends_snoc, dangling_snoc. unfold cannot_open. rewrite Hd.
      split; [intros (d' & a & c & E & Hc); injection E as ->; cbn [handed] in Hd; congruence|].
      split; [intros (E & _); discriminate|]. intros _ _. split; [|discriminate].
      exists []. auto. }
    destruct an as [|d|d len|d ad c]; cbn [negb].
    + rewrite <- (app_nil_r ev0). split; [apply Fail; auto|]. rewrite map_app, HV. reflexivity.
    + split; [apply Fail; auto|]. rewrite map_app, HV. reflexivity.
    + destruct (Nat.eqb_spec len 0) as [->|L].
      * cbn [negb data size]. unfold look_at. cbn [data_size Nat.eqb]. split; [apply Empty; reflexivity|].
        rewrite map_app, HV. reflexivity.
      * cbn [negb]. destruct len; [congruence|]. split; [apply Fail; auto|]. rewrite map_app, HV. reflexivity.
    + destruct (Nat.eqb_spec (length c) 0) as [L|L].
      * destruct c; [|discriminate]. cbn [negb data size]. unfold look_at. cbn [data_size Nat.eqb].
        split; [apply Empty; reflexivity|]. rewrite map_app, HV. reflexivity.
      * cbn [negb data size content_of].
        assert (Nc : c <> []) by (intros ->; cbn in L; lia).
        destruct (names_step c (mkReader (mkSource (Some d) (Some ad) (length c)) (owned r) (generation r) (InMap ad)
            (length c) (names r) (types r) (header_end r))) as (ts & he & ->);
          [right; reflexivity|cbn [data_size]; split; [lia|intros ->; reflexivity]|].
        cbn [source_of owned generation ptr data_size names].
        destruct (Nat.eqb_spec (length c) 0); [contradiction|].
        split. 2:{ rewrite map_app, HV. cbn [map verdict_of handed]. destruct c; [congruence|reflexivity]. }
        split; [unfold shaped; cbn [source_of data size fd]; split; [lia|discriminate]|].
        split; [cbn [names]; rewrite flat_snoc, N; reflexivity|].
        split.
        { intros _. exists d, ad, c. cbn [ptr data_size source_of]. split; [reflexivity|]. split; [exact Nc|]. split; [reflexivity|].
          split; [|reflexivity]. rewrite app_assoc, mapped_now_app. cbn [fold_left look_up]. now rewrite Nat.eqb_refl. }
        rewrite dangling_snoc. split; [intros (E & _); discriminate E|].
        intros NE. exfalso. apply NE. apply ends_snoc. exists d, ad, c. auto.
  - (* Buffer *)
    cbn [use_step]. unfold open_buffer.
    destruct (names_step b (mkReader (source_of r) b (S (generation r)) (InBuffer (S (generation r))) (length b)
                      (names r) (types r) (header_end r))) as (ts & he & ->);
      [right; reflexivity|cbn [data_size]; split; [destruct b; [auto|discriminate]|intros ->; reflexivity]|].
    cbn [source_of owned generation ptr data_size names].
    split. 2:{ rewrite map_app, HV. cbn [map verdict_of handed]. destruct b; reflexivity. }
    split; [exact Sh|]. split; [cbn [names]; rewrite flat_snoc, N; reflexivity|].
    rewrite ends_snoc, dangling_snoc.
    split; [intros (d & a & c & E & _); discriminate E|]. split; [intros (E & _); discriminate E|].
    intros _ _. split; [|discriminate]. exists b. unfold behind. cbn [ptr generation owned data_size].
    rewrite Nat.eqb_refl. auto.
Qed.

Lemma live_ok us : let '(vs, evs, r) := life us in Inv us evs r /\ vs = map verdict_of us.
Proof.
  induction us as [|u us IH] using rev_ind.
  - cbn [live fold_left]. split; [|reflexivity]. split; [exact I|]. split; [reflexivity|].
    split; [intros H; destruct (not_ends_nil H)|]. split; [intros H; destruct (not_dangling_nil H)|].
    intros _ _. split; [|discriminate]. exists []. auto.
  - unfold live in *. rewrite fold_left_app. cbn [fold_left].
    destruct (fold_left (use_step ff lanes clmul o) us ([], [], new_reader)) as ((vs, evs), r).
    destruct IH as (HI & HV). apply step_ok; assumption.
Qed.

Lemma read_settled evs r : settled evs r -> exists x, rd evs r = Reads x.
Proof.
  intros (c & Bh & Sz). unfold read. destruct (names r) as [|nm ns] eqn:EN; [eexists; reflexivity|].
  rewrite Bh. rewrite (proj2 (Nat.ltb_ge _ _)) by lia. rewrite Sz, firstn_all. unfold read_all.
  assert (K : exists x, read_all_with (fun k => append_value ff lanes (nth k (types r) STRING)) lanes clmul (separator o) (quote o)
     (make_null_checker (null_values o)) (N.to_nat PARALLEL_THRESHOLD)
     (N.to_nat (calculate_chunk_size (N.of_nat (length c - header_end r)) (N.of_nat (length (nm :: ns))) num_threads)) ne_in (length (nm :: ns)) c (header_end r) = Some x).
  { destruct (Nat.le_gt_cases (header_end r) (length c)) as [L|L].
    - edestruct (read_all_with_rect (fun k => append_value ff lanes (nth k (types r) STRING)) lanes clmul (separator o) (quote o) (null_values o)
        (conj H1 H2) HqL HqC) as (x & E & _); [| |exists x; exact E]; [cbn [length]; lia|exact L].
    - unfold read_all_with. cbn [length Nat.eqb].
      destruct (length c - header_end r <? N.to_nat PARALLEL_THRESHOLD) eqn:Q.
      + edestruct (read_serial_rect (fun k => append_value ff lanes (nth k (types r) STRING)) lanes clmul (separator o) (quote o) (null_values o) (conj H1 H2))
          as (cols & n & E & _); [|eexists; exact E]. lia.
      + apply Nat.ltb_ge in Q. assert (0 < N.to_nat PARALLEL_THRESHOLD) by (unfold PARALLEL_THRESHOLD; lia). lia. }
  destruct K as (x & ->). eexists; reflexivity.
Qed.

Lemma read_bad us : let '(vs, evs, r) := life us in rd evs r = Bad <-> Dangling us.
Proof.
  pose proof (live_ok us) as L. destruct (life us) as ((vs, evs), r). destruct L as ((Sh & N & A & B & C) & _).
  destruct (dangling_dec us) as [D|D].
  - split; [auto|]. intros _. destruct (B D) as (a & P & Lk & _ & NN). unfold read. destruct (names r); [congruence|].
    unfold behind. rewrite P, Lk. reflexivity.
  - assert (SS : settled evs r).
    { destruct (ends_dec us) as [E|E]; [|apply C; assumption]. destruct (A E) as (d & a & c & P & _ & Sz & Lk & _).
      exists c. unfold behind. rewrite P. auto. }
    destruct (read_settled evs r SS) as (x & ->). split; [discriminate|contradiction].
Qed.

Lemma live_names us : let '(vs, evs, r) := life us in
  names r = concat (map (fun u => match handed u with Some c => columns_of c | None => [] end) us) /\
  vs = map verdict_of us.
Proof.
  pose proof (live_ok us) as L. destruct (life us) as ((vs, evs), r). destruct L as ((Sh & N & _) & HV). auto.
Qed.

(** After calls that all failed, a call that succeeds makes the reader read
    exactly what was handed over. *)
Lemma live_fresh us u c : Forall (fun v => verdict_of v = Fails) us -> handed u = Some c -> c <> [] ->
  let '(vs, evs, r) := life (us ++ [u]) in
  exists x, rd evs r = Reads x /\
    read_file ff lanes clmul num_threads ne_in o c = Some (names r, types r, x).
Proof.
  intros HF Hu Hc.
  pose proof (live_ok us) as L0. pose proof (live_ok (us ++ [u])) as L1. pose proof (read_bad (us ++ [u])) as RB.
  unfold live in *. rewrite fold_left_app in *. cbn [fold_left] in *.
  destruct (fold_left (use_step ff lanes clmul o) us ([], [], new_reader)) as ((vs, evs), r) eqn:EL.
  destruct L0 as ((Sh & N & _) & _).
  assert (N0 : names r = []).
  { rewrite N. clear -HF. induction HF as [|v l H HF IH]; [reflexivity|]. cbn [map concat]. rewrite IH, app_nil_r.
    unfold verdict_of in H. destruct (handed v) as [[|]|]; [reflexivity|discriminate|reflexivity]. }
  assert (ND : ~ Dangling (us ++ [u])).
  { rewrite dangling_snoc. unfold cannot_open. rewrite Hu. intros (E & _). discriminate. }
  assert (LA : forall r0, names r0 = [] -> data_size r0 = length c -> exists ns ts he,
     look_at ff lanes clmul o c r0 = (mkReader (source_of r0) (owned r0) (generation r0) (ptr r0) (data_size r0) ns ts he, Succeeds)
     /\ open_f c = Some (ns, ts, he)).
  { intros r0 En Es. unfold look_at. rewrite Es. destruct (Nat.eqb_spec (length c) 0) as [Z|_]; [destruct c; [congruence|discriminate]|].
    rewrite En, extend_fresh by exact Hc.
    destruct (open_types ff lanes clmul o c H1 H2 HqL HqC Hc) as (ns & -> & _). do 3 eexists. split; reflexivity. }
  assert (Fin : forall evs' r' ns ts he, open_f c = Some (ns, ts, he) -> names r' = ns -> types r' = ts -> header_end r' = he ->
     behind evs' r' = Some c -> data_size r' = length c ->
     exists x, rd evs' r' = Reads x /\ read_file ff lanes clmul num_threads ne_in o c = Some (names r', types r', x)).
  { intros evs' r' ns ts he EO En Et Eh Bh Sz.
    destruct (read_settled evs' r') as (x & Ex); [exists c; auto|]. exists x. split; [exact Ex|].
    unfold read_file. rewrite EO, En, Et. unfold read in Ex. rewrite En in Ex.
    assert (NN : ns <> []).
    { pose proof (columns_nonempty c Hc) as Q. unfold columns_of in Q. rewrite EO in Q. exact Q. }
    destruct ns as [|nm ns']; [congruence|]. rewrite Bh, Sz, (proj2 (Nat.ltb_ge _ _)), firstn_all, Et, Eh in Ex by lia.
    match type of Ex with context [read_all ?a ?b ?c ?d ?e ?f ?g ?h ?i ?j ?k] =>
      destruct (read_all a b c d e f g h i j k) as [y|] end; [|discriminate].
    injection Ex as ->. reflexivity. }
  destruct u as [an|b].
  - cbn [use_step] in *. unfold open_path, open in *. fold (ready (source_of r)) in *.
    destruct (ready_shape (source_of r) Sh) as (n & Er).
    destruct (ready (source_of r)) as (ev0, s0) eqn:ER. cbn [snd] in Er. subst s0. cbn [empty_source data size] in *.
    destruct an as [|d|d len|d ad c0]; try discriminate Hu.
    { destruct len; [|discriminate]. cbn [handed] in Hu. congruence. }
    cbn [handed] in Hu. apply some_inj in Hu. subst c0.
    destruct (Nat.eqb_spec (length c) 0) as [Z|Z]; [destruct c; [congruence|discriminate]|].
    cbn [negb data size content_of] in *.
    destruct (LA (mkReader (mkSource (Some d) (Some ad) (length c)) (owned r) (generation r) (InMap ad)
            (length c) (names r) (types r) (header_end r)) N0 eq_refl) as (ns & ts & he & E & EO).
    rewrite E in *. cbn [source_of owned generation ptr data_size] in *.
    apply (Fin _ _ ns ts he EO); try reflexivity.
    unfold behind. cbn [ptr]. rewrite app_assoc, mapped_now_app. cbn [fold_left look_up]. now rewrite Nat.eqb_refl.
  - cbn [use_step] in *. unfold open_buffer in *. cbn [handed] in Hu. apply some_inj in Hu. subst b.
    destruct (LA (mkReader (source_of r) c (S (generation r)) (InBuffer (S (generation r))) (length c)
                      (names r) (types r) (header_end r)) N0 eq_refl) as (ns & ts & he & E & EO).
    rewrite E in *. cbn [source_of owned generation ptr data_size] in *.
    apply (Fin _ _ ns ts he EO); try reflexivity.
    unfold behind. cbn [ptr generation owned]. now rewrite Nat.eqb_refl.
Qed.
End Life.
