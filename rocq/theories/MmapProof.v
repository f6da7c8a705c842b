(** Proofs about MmapSource. *)
From Verif Require Import Base MmapSpec MmapModel.

Definition Core (src : nat -> option source) (evs : list event) (fds : list nat) (maps : list (nat * bytes)) : Prop :=
  Replay evs (fds, maps) /\ NoDup fds /\ NoDup (map fst maps) /\
  (forall d, In d fds -> exists k s, src k = Some s /\ fd s = Some d) /\
  (forall k s d, src k = Some s -> fd s = Some d -> In d fds) /\
  (forall k k' s s' d, src k = Some s -> src k' = Some s' -> fd s = Some d -> fd s' = Some d -> k = k') /\
  (forall a c, In (a, c) maps -> exists k s, src k = Some s /\ data s = Some a /\ size s = length c) /\
  (forall k s a, src k = Some s -> data s = Some a -> exists c, In (a, c) maps /\ size s = length c) /\
  (forall k k' s s' a, src k = Some s -> src k' = Some s' -> data s = Some a -> data s' = Some a -> k = k').

Lemma put_same k s f : put k s f k = s.
Proof. unfold put. rewrite Nat.eqb_refl. reflexivity. Qed.
Lemma put_other k s f j : j <> k -> put k s f j = f j.
Proof. intros H. unfold put. destruct (Nat.eqb_spec j k); [contradiction|reflexivity]. Qed.

Ltac at_key j k := destruct (Nat.eq_dec j k) as [->|?];
  [rewrite ?put_same in *|rewrite ?put_other in * by assumption].

Lemma Core_ext f g evs fds maps : (forall k, f k = g k) -> Core f evs fds maps -> Core g evs fds maps.
Proof.
  intros E (R & N1 & N2 & A & B & C & D & F & G).
  assert (E' : forall k, g k = f k) by (intros; symmetry; apply E).
  refine (conj R (conj N1 (conj N2 (conj _ (conj _ (conj _ (conj _ (conj _ _)))))))).
  - intros d I. destruct (A d I) as (k & s & X & Y). exists k, s. rewrite E'. auto.
  - intros k s d X. rewrite E' in X. apply (B k s d X).
  - intros k k' s s' d X Y. rewrite E' in X, Y. apply (C k k' s s' d X Y).
  - intros a c I. destruct (D a c I) as (k & s & X & Y). exists k, s. rewrite E'. auto.
  - intros k s a X. rewrite E' in X. apply (F k s a X).
  - intros k k' s s' a X Y. rewrite E' in X, Y. apply (G k k' s s' a X Y).
Qed.

Lemma put_put k x y f j : put k x (put k y f) j = put k x f j.
Proof. unfold put. destruct (j =? k); reflexivity. Qed.

(** a descriptor is handed out to source k *)
Lemma core_acquire src evs fds maps k s d :
  Core src evs fds maps -> src k = Some s -> fd s = None -> ~ In d fds ->
  Core (put k (Some (mkSource (Some d) (data s) (size s))) src) (evs ++ [Opened d]) (d :: fds) maps.
Proof.
  intros (R & N1 & N2 & A & B & C & D & F & G) S0 FN Fr.
  refine (conj _ (conj _ (conj N2 (conj _ (conj _ (conj _ (conj _ (conj _ _)))))))).
  - constructor; assumption.
  - constructor; assumption.
  - intros x [<-|I].
    + exists k. eexists. rewrite put_same. split; reflexivity.
    + destruct (A x I) as (j & t & X & Y). exists j, t. at_key j k; [congruence|auto].
  - intros j t x X Y. at_key j k.
    + injection X as <-. cbn [fd] in Y. injection Y as <-. left; reflexivity.
    + right. apply (B j t x X Y).
  - intros j j' t t' x X X' Y Y'. at_key j k; at_key j' k; auto.
    + injection X as <-. cbn [fd] in Y. injection Y as <-. exfalso. apply Fr, (B j' t' _ X' Y').
    + injection X' as <-. cbn [fd] in Y'. injection Y' as <-. exfalso. apply Fr, (B j t _ X Y).
    + apply (C j j' t t' x); assumption.
  - intros a c I. destruct (D a c I) as (j & t & X & Y & Z). destruct (Nat.eq_dec j k) as [->|Nj].
    + exists k. eexists. rewrite put_same. split; [reflexivity|]. cbn [data size]. replace s with t by congruence. auto.
    + exists j, t. rewrite put_other by assumption. auto.
  - intros j t a X Y. at_key j k.
    + injection X as <-. cbn [data size] in *. apply (F k s a S0 Y).
    + apply (F j t a X Y).
  - intros j j' t t' a X X' Y Y'. at_key j k; at_key j' k; auto.
    + injection X as <-. apply (G k j' s t' a); auto.
    + injection X' as <-. apply (G j k t s a); auto.
    + apply (G j j' t t' a); auto.
Qed.

Lemma core_release src evs fds maps k s d :
  Core src evs fds maps -> src k = Some s -> fd s = Some d ->
  exists fds', Core (put k (Some (mkSource None (data s) (size s))) src) (evs ++ [Closed d]) fds' maps.
Proof.
  intros (R & N1 & N2 & A & B & C & D & F & G) S0 FS.
  pose proof (B k s d S0 FS) as I0. apply in_split in I0. destruct I0 as (l & r & ->).
  exists (l ++ r).
  assert (NI : ~ In d (l ++ r)) by (apply NoDup_remove_2; exact N1).
  refine (conj _ (conj _ (conj N2 (conj _ (conj _ (conj _ (conj _ (conj _ _)))))))).
  - constructor; assumption.
  - eapply NoDup_remove_1; exact N1.
  - intros x I. destruct (A x) as (j & t & X & Y).
    { apply in_app_or in I. apply in_or_app. destruct I; [left|right; right]; assumption. }
    exists j, t. at_key j k; [|auto].
    exfalso. apply NI. replace d with x by congruence. exact I.
  - intros j t x X Y. at_key j k; [injection X as <-; discriminate|].
    pose proof (B j t x X Y) as I. apply in_app_or in I. apply in_or_app.
    destruct I as [I|[<-|I]]; auto. exfalso. apply n. apply (C j k t s d); auto.
  - intros j j' t t' x X X' Y Y'. at_key j k; at_key j' k; auto.
    + injection X as <-; discriminate.
    + injection X' as <-; discriminate.
    + apply (C j j' t t' x); assumption.
  - intros a c I. destruct (D a c I) as (j & t & X & Y & Z). destruct (Nat.eq_dec j k) as [->|Nj].
    + exists k. eexists. rewrite put_same. split; [reflexivity|]. cbn [data size]. replace s with t by congruence. auto.
    + exists j, t. rewrite put_other by assumption. auto.
  - intros j t a X Y. at_key j k.
    + injection X as <-. cbn [data size] in *. apply (F k s a S0 Y).
    + apply (F j t a X Y).
  - intros j j' t t' a X X' Y Y'. at_key j k; at_key j' k; auto.
    + injection X as <-. apply (G k j' s t' a); auto.
    + injection X' as <-. apply (G j k t s a); auto.
    + apply (G j j' t t' a); auto.
Qed.

Lemma core_map src evs fds maps k s a c :
  Core src evs fds maps -> src k = Some s -> data s = None -> ~ In a (map fst maps) ->
  Core (put k (Some (mkSource (fd s) (Some a) (length c))) src) (evs ++ [Mapped a c]) fds ((a, c) :: maps).
Proof.
  intros (R & N1 & N2 & A & B & C & D & F & G) S0 DN Fr.
  assert (FrI : forall x, ~ In (a, x) maps) by (intros x I; apply Fr; apply (in_map fst) in I; exact I).
  refine (conj _ (conj N1 (conj _ (conj _ (conj _ (conj _ (conj _ (conj _ _)))))))).
  - constructor; assumption.
  - cbn [map fst]. constructor; assumption.
  - intros x I. destruct (A x I) as (j & t & X & Y). destruct (Nat.eq_dec j k) as [->|Nj].
    + exists k. eexists. rewrite put_same. split; [reflexivity|]. cbn [fd]. congruence.
    + exists j, t. rewrite put_other by assumption. auto.
  - intros j t x X Y. at_key j k.
    + injection X as <-. cbn [fd] in Y. apply (B k s x S0 Y).
    + apply (B j t x X Y).
  - intros j j' t t' x X X' Y Y'. at_key j k; at_key j' k; auto.
    + injection X as <-. apply (C k j' s t' x); auto.
    + injection X' as <-. apply (C j k t s x); auto.
    + apply (C j j' t t' x); auto.
  - intros x y [E|I].
    + injection E as <- <-. exists k. eexists. rewrite put_same. split; [reflexivity|]. auto.
    + destruct (D x y I) as (j & t & X & Y & Z). exists j, t. at_key j k; [congruence|auto].
  - intros j t x X Y. at_key j k.
    + injection X as <-. cbn [data size] in *. injection Y as <-. exists c. split; [left; reflexivity|reflexivity].
    + destruct (F j t x X Y) as (y & I & E). exists y. split; [right; exact I|exact E].
  - intros j j' t t' x X X' Y Y'. at_key j k; at_key j' k; auto.
    + injection X as <-. cbn [data] in Y. injection Y as <-. destruct (F j' t' a X' Y') as (y & I & _). exfalso. eapply FrI; exact I.
    + injection X' as <-. cbn [data] in Y'. injection Y' as <-. destruct (F j t a X Y) as (y & I & _). exfalso. eapply FrI; exact I.
    + apply (G j j' t t' x); auto.
Qed.

Lemma core_unmap src evs fds maps k s a n :
  Core src evs fds maps -> src k = Some s -> data s = Some a ->
  exists maps', Core (put k (Some (mkSource (fd s) None n)) src) (evs ++ [Unmapped a (size s)]) fds maps'.
Proof.
  intros (R & N1 & N2 & A & B & C & D & F & G) S0 DS.
  destruct (F k s a S0 DS) as (c & I0 & EL). apply in_split in I0. destruct I0 as (l & r & ->).
  exists (l ++ r). rewrite map_app in N2. cbn [map fst] in N2.
  assert (NI : ~ In a (map fst (l ++ r))) by (rewrite map_app; apply NoDup_remove_2; exact N2).
  refine (conj _ (conj N1 (conj _ (conj _ (conj _ (conj _ (conj _ (conj _ _)))))))).
  - rewrite EL. constructor; assumption.
  - rewrite map_app. eapply NoDup_remove_1; exact N2.
  - intros x I. destruct (A x I) as (j & t & X & Y). destruct (Nat.eq_dec j k) as [->|Nj].
    + exists k. eexists. rewrite put_same. split; [reflexivity|]. cbn [fd]. congruence.
    + exists j, t. rewrite put_other by assumption. auto.
  - intros j t x X Y. at_key j k.
    + injection X as <-. cbn [fd] in Y. apply (B k s x S0 Y).
    + apply (B j t x X Y).
  - intros j j' t t' x X X' Y Y'. at_key j k; at_key j' k; auto.
    + injection X as <-. apply (C k j' s t' x); auto.
    + injection X' as <-. apply (C j k t s x); auto.
    + apply (C j j' t t' x); auto.
  - intros x y I.
    destruct (D x y) as (j & t & X & Y & Z).
    { apply in_app_or in I. apply in_or_app. destruct I; [left|right; right]; assumption. }
    exists j, t. at_key j k; [|auto]. exfalso. apply NI.
    replace a with x by congruence. apply (in_map fst) in I. exact I.
  - intros j t x X Y. at_key j k; [injection X as <-; discriminate|].
    destruct (F j t x X Y) as (y & I & E). exists y. split; [|exact E].
    apply in_app_or in I. apply in_or_app. destruct I as [I|[I|I]]; auto.
    injection I as <- <-. exfalso. apply n0. apply (G j k t s a); auto.
  - intros j j' t t' x X X' Y Y'. at_key j k; at_key j' k; auto.
    + injection X as <-; discriminate.
    + injection X' as <-; discriminate.
    + apply (G j j' t t' x); auto.
Qed.

Lemma core_resize src evs fds maps k s n :
  Core src evs fds maps -> src k = Some s -> data s = None ->
  Core (put k (Some (mkSource (fd s) None n)) src) evs fds maps.
Proof.
  intros (R & N1 & N2 & A & B & C & D & F & G) S0 DN.
  refine (conj R (conj N1 (conj N2 (conj _ (conj _ (conj _ (conj _ (conj _ _)))))))).
  - intros x I. destruct (A x I) as (j & t & X & Y). destruct (Nat.eq_dec j k) as [->|Nj].
    + exists k. eexists. rewrite put_same. split; [reflexivity|]. cbn [fd]. congruence.
    + exists j, t. rewrite put_other by assumption. auto.
  - intros j t x X Y. at_key j k.
    + injection X as <-. cbn [fd] in Y. apply (B k s x S0 Y).
    + apply (B j t x X Y).
  - intros j j' t t' x X X' Y Y'. at_key j k; at_key j' k; auto.
    + injection X as <-. apply (C k j' s t' x); auto.
    + injection X' as <-. apply (C j k t s x); auto.
    + apply (C j j' t t' x); auto.
  - intros x y I. destruct (D x y I) as (j & t & X & Y & Z). exists j, t. at_key j k; [congruence|auto].
  - intros j t x X Y. at_key j k; [injection X as <-; discriminate|]. apply (F j t x X Y).
  - intros j j' t t' x X X' Y Y'. at_key j k; at_key j' k; auto.
    + injection X as <-; discriminate.
    + injection X' as <-; discriminate.
    + apply (G j j' t t' x); auto.
Qed.

Lemma core_idle src evs fds maps k (x : option source) :
  Core src evs fds maps ->
  (src k = None \/ exists s, src k = Some s /\ fd s = None /\ data s = None) ->
  (x = None \/ exists s, x = Some s /\ fd s = None /\ data s = None) ->
  Core (put k x src) evs fds maps.
Proof.
  intros (R & N1 & N2 & A & B & C & D & F & G) H0 H1.
  assert (W : forall s, x = Some s -> fd s = None /\ data s = None).
  { intros s ->. destruct H1 as [H1|(t & E & Q)]; [discriminate|]. injection E as <-. exact Q. }
  assert (V : forall s, src k = Some s -> fd s = None /\ data s = None).
  { intros s E. destruct H0 as [H0|(t & E' & Q)]; [congruence|]. replace s with t by congruence. exact Q. }
  refine (conj R (conj N1 (conj N2 (conj _ (conj _ (conj _ (conj _ (conj _ _)))))))).
  - intros d I. destruct (A d I) as (j & t & X & Y). exists j, t. at_key j k; [|auto].
    destruct (V t X). congruence.
  - intros j t d X Y. at_key j k; [destruct (W t X); congruence|apply (B j t d X Y)].
  - intros j j' t t' d X X' Y Y'. at_key j k; at_key j' k; auto.
    + destruct (W t X); congruence.
    + destruct (W t' X'); congruence.
    + apply (C j j' t t' d); auto.
  - intros a c I. destruct (D a c I) as (j & t & X & Y & Z). exists j, t. at_key j k; [|auto].
    destruct (V t X). congruence.
  - intros j t a X Y. at_key j k; [destruct (W t X); congruence|apply (F j t a X Y)].
  - intros j j' t t' a X X' Y Y'. at_key j k; at_key j' k; auto.
    + destruct (W t X); congruence.
    + destruct (W t' X'); congruence.
    + apply (G j j' t t' a); auto.
Qed.

(** ---- the operations ---- *)
(** Shape of a source between calls. *)
Definition shaped (s : source) : Prop :=
  match data s with
  | Some _ => 0 < size s /\ fd s <> None
  | None => True
  end.

Definition empty_source (n : nat) := mkSource None None n.

Lemma close_shape s : shaped s -> snd (close s) = empty_source 0.
Proof.
  unfold shaped, close, empty_source. destruct (data s) as [a|]; [|reflexivity].
  intros (H & _). destruct (Nat.ltb_spec 0 (size s)); [reflexivity|lia].
Qed.

Lemma core_close src evs fds maps k s : Core src evs fds maps -> src k = Some s -> shaped s ->
  exists fds' maps', Core (put k (Some (snd (close s))) src) (evs ++ fst (close s)) fds' maps'.
Proof.
  intros HC S0 Sh. rewrite close_shape by exact Sh. unfold close.
  destruct (data s) as [a|] eqn:ED.
  - unfold shaped in Sh. rewrite ED in Sh. destruct Sh as (Pos & NF).
    destruct (Nat.ltb_spec 0 (size s)); [|lia].
    destruct (fd s) as [d|] eqn:EF; [|congruence]. cbn [fst].
    destruct (core_unmap _ _ _ _ k s a 0 HC S0 ED) as (maps' & H1).
    destruct (core_release _ _ _ _ k _ d H1 (put_same _ _ _) EF) as (fds' & H2).
    exists fds', maps'. rewrite <- app_assoc in H2. eapply Core_ext; [|exact H2]. apply put_put.
  - destruct (fd s) as [d|] eqn:EF; cbn [fst app].
    + destruct (core_release _ _ _ _ k s d HC S0 EF) as (fds' & H1).
      pose proof (core_resize _ _ _ _ k _ 0 H1 (put_same _ _ _) ED) as H2.
      exists fds', maps. eapply Core_ext; [|exact H2]. apply put_put.
    + exists fds, maps. rewrite app_nil_r.
      pose proof (core_resize _ _ _ _ k s 0 HC S0 ED) as H2. rewrite EF in H2. exact H2.
Qed.

(** before open asks the system for anything *)
Definition ready (s : source) : list event * source :=
  match fd s with Some _ => close s | None => ([], s) end.

Lemma ready_shape s : shaped s -> exists n, snd (ready s) = empty_source n.
Proof.
  intros H. unfold ready. destruct (fd s) as [d|] eqn:E.
  - rewrite close_shape by exact H. eexists; reflexivity.
  - unfold shaped in H. destruct s as [f da n]. cbn [fd data size snd] in *. subst f.
    destruct da; [destruct H; congruence|]. exists n. reflexivity.
Qed.

Lemma core_ready src evs fds maps k s : Core src evs fds maps -> src k = Some s -> shaped s ->
  exists fds' maps', Core (put k (Some (snd (ready s))) src) (evs ++ fst (ready s)) fds' maps'.
Proof.
  intros HC S0 Sh. unfold ready. destruct (fd s) as [d|] eqn:E.
  - apply (core_close src evs fds maps k s); assumption.
  - exists fds, maps. cbn [fst snd]. rewrite app_nil_r. eapply Core_ext; [|exact HC].
    intros j. unfold put. destruct (Nat.eqb_spec j k); [subst; exact S0|reflexivity].
Qed.

Definition holds_ok (src : nat -> option source) (evs : list event) : Prop :=
  (exists fds maps, Core src evs fds maps) /\ (forall k s, src k = Some s -> shaped s).

Lemma shaped_put k x src : (forall j s, src j = Some s -> shaped s) ->
  (forall s, x = Some s -> shaped s) -> forall j s, put k x src j = Some s -> shaped s.
Proof. intros H Hx j s E. at_key j k; auto. exact (H j s E). Qed.

Definition Honest1 (evs : list event) : Prop := HonestSystem evs.

Lemma honest_prefix evs more : HonestSystem (evs ++ more) -> HonestSystem evs.
Proof.
  intros (A & B). split.
  - intros p d rest E. apply (A p d (rest ++ more)). rewrite E, <- app_assoc. reflexivity.
  - intros p a c rest E. apply (B p a c (rest ++ more)). rewrite E, <- app_assoc. reflexivity.
Qed.

Lemma open_ok src evs k s a : holds_ok src evs -> src k = Some s ->
  HonestSystem (evs ++ fst (fst (open a s))) ->
  holds_ok (put k (Some (snd (fst (open a s)))) src) (evs ++ fst (fst (open a s))).
Proof.
  intros ((fds & maps & HC) & Sh) S0 HS. pose proof (Sh k s S0) as Sk.
  destruct (core_ready _ _ _ _ k s HC S0 Sk) as (fds1 & maps1 & H1).
  destruct (ready_shape s Sk) as (n & EN). rewrite EN in H1.
  assert (EO : fst (fst (open a s)) = fst (ready s) ++
     match a with NoFile => [] | NoStat d => [Opened d; Closed d]
     | NoMap d len => if len =? 0 then [Opened d] else [Opened d; Closed d]
     | Works d ad c => if length c =? 0 then [Opened d] else [Opened d; Mapped ad c] end /\
     snd (fst (open a s)) =
     match a with NoFile => empty_source n | NoStat d => empty_source n
     | NoMap d len => if len =? 0 then mkSource (Some d) None 0 else empty_source len
     | Works d ad c => if length c =? 0 then mkSource (Some d) None 0 else mkSource (Some d) (Some ad) (length c) end).
  { assert (E0 : ready s = (fst (ready s), empty_source n)) by (rewrite <- EN; destruct (ready s); reflexivity).
    unfold open. fold (ready s). rewrite E0. cbn [empty_source data size].
    destruct a as [|d|d len|d ad c]; cbn [fst snd]; rewrite ?app_nil_r; auto.
    - destruct (len =? 0); auto.
    - destruct (length c =? 0); auto. }
  destruct EO as (E1 & E2). rewrite E1, E2 in *. clear E1 E2.
  set (src1 := put k (Some (empty_source n)) src) in *. set (evs1 := evs ++ fst (ready s)) in *.
  assert (P : src1 k = Some (empty_source n)) by apply put_same.
  assert (Shp : forall x, shaped x -> forall j s, put k (Some x) src j = Some s -> shaped s).
  { intros x Hx. apply shaped_put; [exact Sh|]. intros t E. injection E as <-. exact Hx. }
  assert (Fd : forall d rest, (evs ++ fst (ready s) ++ Opened d :: rest) = evs1 ++ Opened d :: rest)
    by (intros; unfold evs1; rewrite <- app_assoc; reflexivity).
  assert (FrD : forall d rest, HonestSystem (evs ++ fst (ready s) ++ Opened d :: rest) -> ~ In d fds1).
  { intros d rest (HD & _). apply (HD evs1 d rest (Fd d rest) fds1 maps1). apply H1. }
  (* open and close again *)
  assert (Both : forall d m, ~ In d fds1 ->
     exists f' m', Core (put k (Some (empty_source m)) src) (evs ++ fst (ready s) ++ [Opened d; Closed d]) f' m').
  { intros d m Fr. pose proof (core_acquire _ _ _ _ k _ d H1 P eq_refl Fr) as A1.
    destruct (core_release _ _ _ _ k _ d A1 (put_same _ _ _) eq_refl) as (f2 & A2).
    pose proof (core_resize _ _ _ _ k _ m A2 (put_same _ _ _) eq_refl) as A3.
    exists f2, maps1. rewrite <- app_assoc in A3. cbn [app] in A3.
    assert (EV : evs ++ fst (ready s) ++ [Opened d; Closed d] = evs1 ++ [Opened d; Closed d])
      by (unfold evs1; rewrite <- app_assoc; reflexivity).
    rewrite EV. eapply Core_ext; [|exact A3].
    intros j. unfold src1. rewrite !put_put. reflexivity. }
  assert (Just : forall d, ~ In d fds1 ->
     Core (put k (Some (mkSource (Some d) None 0)) src) (evs ++ fst (ready s) ++ [Opened d]) (d :: fds1) maps1).
  { intros d Fr. pose proof (core_acquire _ _ _ _ k _ d H1 P eq_refl Fr) as A1.
    pose proof (core_resize _ _ _ _ k _ 0 A1 (put_same _ _ _) eq_refl) as A3.
    assert (EV : evs ++ fst (ready s) ++ [Opened d] = evs1 ++ [Opened d])
      by (unfold evs1; rewrite <- app_assoc; reflexivity).
    rewrite EV. eapply Core_ext; [|exact A3]. intros j. unfold src1. rewrite !put_put. reflexivity. }
  destruct a as [|d|d len|d ad c].
  - split; [|apply Shp; exact I]. rewrite app_nil_r. exists fds1, maps1. exact H1.
  - split; [apply Both, (FrD d [Closed d] HS)|apply Shp; exact I].
  - destruct (len =? 0).
    + split; [|apply Shp; exact I]. eexists; eexists. apply Just, (FrD d [] HS).
    + split; [apply Both, (FrD d [Closed d] HS)|apply Shp; exact I].
  - destruct (Nat.eqb_spec (length c) 0) as [L0|L0].
    + split; [|apply Shp; exact I]. eexists; eexists. apply Just, (FrD d [] HS).
    + split.
      2:{ apply Shp. cbn [shaped data size fd]. split; [lia|discriminate]. }
      pose proof (FrD d [Mapped ad c] HS) as Fr.
      pose proof (core_acquire _ _ _ _ k _ d H1 P eq_refl Fr) as A1.
      assert (FrA : ~ In ad (map fst maps1)).
      { destruct HS as (_ & HM). apply (HM (evs1 ++ [Opened d]) ad c []) with (fds := d :: fds1); [|apply A1].
        unfold evs1. rewrite <- !app_assoc. reflexivity. }
      pose proof (core_map _ _ _ _ k _ ad c A1 (put_same _ _ _) eq_refl FrA) as A2.
      exists (d :: fds1), ((ad, c) :: maps1).
      assert (EV : evs ++ fst (ready s) ++ [Opened d; Mapped ad c] = (evs1 ++ [Opened d]) ++ [Mapped ad c])
        by (unfold evs1; rewrite <- !app_assoc; reflexivity).
      rewrite EV. eapply Core_ext; [|exact A2]. intros j. unfold src1. rewrite !put_put. reflexivity.
Qed.

Lemma step_calls w c : exists more, calls (step w c) = calls w ++ more.
Proof.
  destruct c as [k|k a|k|k]; cbn [step]; destruct (sources w k) as [s|]; cbn [calls];
    try (exists []; rewrite app_nil_r; reflexivity).
  - destruct (open a s) as ((ev, s'), b). eexists; reflexivity.
  - destruct (close s) as (ev, s'). eexists; reflexivity.
  - destruct (close s) as (ev, s'). eexists; reflexivity.
Qed.

Lemma step_ok w c : holds_ok (sources w) (calls w) -> HonestSystem (calls (step w c)) ->
  holds_ok (sources (step w c)) (calls (step w c)).
Proof.
  intros H HS. pose proof H as ((fds & maps & HC) & Sh).
  destruct c as [k|k a|k|k]; cbn [step] in *; destruct (sources w k) as [s|] eqn:S0; auto; cbn [sources calls].
  - split.
    + exists fds, maps. apply core_idle; [exact HC|left; exact S0|right]. eexists; repeat split.
    + apply shaped_put; [exact Sh|]. intros t E. injection E as <-. exact I.
  - destruct (open a s) as ((ev, s'), b) eqn:EO. cbn [sources calls] in *.
    assert (E1 : fst (fst (open a s)) = ev) by (rewrite EO; reflexivity).
    assert (E2 : snd (fst (open a s)) = s') by (rewrite EO; reflexivity).
    rewrite <- E1, <- E2. rewrite <- E1 in HS. apply open_ok; auto.
  - destruct (close s) as (ev, s') eqn:EC. cbn [sources calls] in *.
    destruct (core_close _ _ _ _ k s HC S0 (Sh k s S0)) as (f' & m' & A). rewrite EC in A. cbn [fst snd] in A.
    split; [exists f', m'; exact A|]. apply shaped_put; [exact Sh|]. intros t E. injection E as <-.
    assert (ES : snd (close s) = s') by (rewrite EC; reflexivity). rewrite <- ES, (close_shape s (Sh k s S0)). exact I.
  - destruct (close s) as (ev, s') eqn:EC. cbn [sources calls] in *.
    destruct (core_close _ _ _ _ k s HC S0 (Sh k s S0)) as (f' & m' & A).
    rewrite (close_shape s (Sh k s S0)) in A. rewrite EC in A. cbn [fst snd] in A.
    split.
    + exists f', m'. eapply Core_ext; [apply (put_put k None (Some (empty_source 0)))|].
      apply core_idle; [exact A| |left; reflexivity]. right. eexists. rewrite put_same. repeat split.
    + apply shaped_put; [exact Sh|]. intros t E. discriminate.
Qed.

Lemma run_ok cs : HonestSystem (calls (run cs)) -> holds_ok (sources (run cs)) (calls (run cs)).
Proof.
  induction cs as [|c cs IH] using rev_ind.
  - intros _. split; [|intros k s E; discriminate]. exists [], [].
    refine (conj Replay_nil (conj (NoDup_nil _) (conj (NoDup_nil _) _))).
    cbn [run fold_left start sources].
    repeat split; try (intros; discriminate); try (intros; contradiction).
  - unfold run. rewrite fold_left_app. cbn [fold_left]. fold (run cs). intros HS.
    apply step_ok; [|exact HS]. apply IH. destruct (step_calls (run cs) c) as (more & E).
    rewrite E in HS. eapply honest_prefix; exact HS.
Qed.

(** ---- what the ledger says ---- *)
Lemma filter_snoc {A} (f : A -> bool) l x : length (filter f (l ++ [x])) = length (filter f l) + (if f x then 1 else 0).
Proof. rewrite filter_app, app_length. cbn [filter]. destruct (f x); reflexivity. Qed.

Lemma replay_counts evs h : Replay evs h -> NoDup (fst h) /\ NoDup (map fst (snd h)) /\
  (forall d, opened d evs = closed d evs + count_occ Nat.eq_dec (fst h) d) /\
  (forall a, mapped a evs = unmapped a evs + count_occ Nat.eq_dec (map fst (snd h)) a).
Proof.
  unfold opened, closed, mapped, unmapped.
  induction 1 as [|evs x fds maps R IH N|evs x l r maps R IH|evs x c fds maps R IH N|evs x c l r fds R IH];
    cbn [fst snd] in *.
  - repeat split; constructor.
  - destruct IH as (N1 & N2 & A & B). split; [constructor; assumption|]. split; [exact N2|]. split.
    + intros d. rewrite !filter_snoc, A. cbn [count_occ].
      destruct (Nat.eq_dec x d), (Nat.eqb_spec x d); try contradiction; lia.
    + intros a. rewrite !filter_snoc, B. lia.
  - destruct IH as (N1 & N2 & A & B). split; [eapply NoDup_remove_1; exact N1|]. split; [exact N2|]. split.
    + intros d. rewrite !filter_snoc, A. rewrite !count_occ_app. cbn [count_occ].
      destruct (Nat.eq_dec x d), (Nat.eqb_spec x d); try contradiction; lia.
    + intros a. rewrite !filter_snoc, B. lia.
  - destruct IH as (N1 & N2 & A & B). split; [exact N1|]. split; [cbn [map fst]; constructor; assumption|]. split.
    + intros d. rewrite !filter_snoc, A. lia.
    + intros a. rewrite !filter_snoc, B. cbn [map fst count_occ].
      destruct (Nat.eq_dec x a), (Nat.eqb_spec x a); try contradiction; lia.
  - destruct IH as (N1 & N2 & A & B). split; [exact N1|].
    split. { rewrite map_app in *. cbn [map fst] in N2. eapply NoDup_remove_1; exact N2. } split.
    + intros d. rewrite !filter_snoc, A. lia.
    + intros a. rewrite !filter_snoc, B. rewrite !map_app, !count_occ_app. cbn [map fst count_occ].
      destruct (Nat.eq_dec x a), (Nat.eqb_spec x a); try contradiction; lia.
Qed.
