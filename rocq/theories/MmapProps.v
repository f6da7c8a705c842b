(** C48: memory-mapped sources. *)
From Verif Require Import Base MmapSpec MmapModel MmapProof.

(** For every history of constructions, opens, closes and destructions of any
    number of sources, and every behaviour of the system: all system calls are
    legal (so nothing is released twice or while not held), and what the
    process then holds is exactly one descriptor for each source that is open
    and one mapping for each source whose data pointer is not null; the mapping
    behind the pointer has size() bytes. *)
Theorem C48_ledger : forall cs, let w := run cs in HonestSystem (calls w) ->
  exists fds maps, Replay (calls w) (fds, maps) /\ NoDup fds /\ NoDup (map fst maps) /\
    (forall d, In d fds <-> exists k s, sources w k = Some s /\ fd s = Some d) /\
    (forall k k' s s', sources w k = Some s -> sources w k' = Some s' ->
       is_open s = true -> fd s = fd s' -> k = k') /\
    (forall a c, In (a, c) maps -> exists k s, sources w k = Some s /\ data s = Some a /\ size s = length c) /\
    (forall k s a, sources w k = Some s -> data s = Some a ->
       is_open s = true /\ 0 < size s /\ exists c, In (a, c) maps /\ size s = length c) /\
    (forall k k' s s', sources w k = Some s -> sources w k' = Some s' ->
       data s <> None -> data s = data s' -> k = k').
Proof.
  intros cs w HS. destruct (run_ok cs HS) as ((fds & maps & R & N1 & N2 & A & B & C & D & F & G) & Sh).
  exists fds, maps. split; [exact R|]. split; [exact N1|]. split; [exact N2|].
  split. { intros d. split; [apply A|]. intros (k & s & X & Y). exact (B k s d X Y). }
  split. { intros k k' s s' X X' O E. unfold is_open in O. destruct (fd s) as [d|] eqn:Q; [|discriminate].
    apply (C k k' s s' d); auto. }
  split; [exact D|]. split.
  - intros k s a X Y. pose proof (Sh k s X) as P. unfold shaped in P. rewrite Y in P. destruct P as (P1 & P2).
    split; [unfold is_open; destruct (fd s); congruence|]. split; [exact P1|]. exact (F k s a X Y).
  - intros k k' s s' X X' O E. destruct (data s) as [a|] eqn:Q; [|congruence]. apply (G k k' s s' a); auto.
Qed.
Print Assumptions C48_ledger.

(** When every source has been destroyed, everything was released exactly as
    often as it was acquired. *)
Theorem C48_everything_released_once : forall cs, let w := run cs in HonestSystem (calls w) ->
  (forall k s, sources w k = Some s -> is_open s = false) ->
  forall x, opened x (calls w) = closed x (calls w) /\ mapped x (calls w) = unmapped x (calls w).
Proof.
  intros cs w HS HN x. destruct (C48_ledger cs HS) as (fds & maps & R & _ & _ & A & _ & D & F & _).
  fold w in R, A, D, F. destruct (replay_counts _ _ R) as (_ & _ & O & M). cbn [fst snd] in O, M.
  assert (E1 : fds = []).
  { destruct fds as [|d l]; [reflexivity|]. destruct (proj1 (A d) (or_introl eq_refl)) as (k & s & X & Y).
    pose proof (HN k s X) as Z. unfold is_open in Z. rewrite Y in Z. discriminate. }
  assert (E2 : maps = []).
  { destruct maps as [|(a, c) l]; [reflexivity|]. destruct (D a c (or_introl eq_refl)) as (k & s & X & Y & _).
    destruct (F k s a X Y) as (Z & _). rewrite (HN k s X) in Z. discriminate. }
  subst. split; [rewrite O|rewrite M]; cbn [map count_occ]; lia.
Qed.
Print Assumptions C48_everything_released_once.

(** Two sources; the first is reopened on another file and gets back the
    descriptor number it had, the second meets a file that cannot be mapped. *)
Definition history : list call :=
  [New 0; New 1; Open 0 (Works 3 100 [97]%N); Open 1 (NoMap 4 4096);
   Open 0 (Works 3 100 [98; 99]%N); Close 1; Destroy 0; Destroy 1].
Example C48_meets : HonestSystem (calls (run history)) /\
  calls (run history) = [Opened 3; Mapped 100 [97]%N; Opened 4; Closed 4; Unmapped 100 1; Closed 3;
                         Opened 3; Mapped 100 [98; 99]%N; Unmapped 100 2; Closed 3] /\
  (forall k s, sources (run history) k = Some s -> is_open s = false).
Proof.
  split; [|split; [reflexivity|]].
  2:{ intros k s. cbn. unfold put. destruct (k =? 1), (k =? 0); discriminate. }
  assert (Inv : forall p h, Replay p h -> NoDup (fst h) /\ NoDup (map fst (snd h)) /\
     (forall d, opened d p = closed d p + count_occ Nat.eq_dec (fst h) d) /\
     (forall a, mapped a p = unmapped a p + count_occ Nat.eq_dec (map fst (snd h)) a)) by exact replay_counts.
  change (calls (run history)) with [Opened 3; Mapped 100 [97]%N; Opened 4; Closed 4; Unmapped 100 1; Closed 3;
                         Opened 3; Mapped 100 [98; 99]%N; Unmapped 100 2; Closed 3].
  split.
  - intros p d rest E fds maps R I. destruct (Inv p _ R) as (_ & _ & O & _). cbn [fst] in O.
    apply (count_occ_In Nat.eq_dec) in I. specialize (O d).
    do 10 (destruct p as [|e p]; cbn [app] in E;
           [try discriminate; injection E as <- _; vm_compute in O; vm_compute in I; lia|
            injection E as <- E]).
    destruct p; discriminate.
  - intros p a c rest E fds maps R I. destruct (Inv p _ R) as (_ & _ & _ & O). cbn [snd] in O.
    apply (count_occ_In Nat.eq_dec) in I. specialize (O a).
    do 10 (destruct p as [|e p]; cbn [app] in E;
           [try discriminate; injection E as <- _ _; vm_compute in O; vm_compute in I; lia|
            injection E as <- E]).
    destruct p; discriminate.
Qed.

(** What the accessors say after each call: after close() nothing is left;
    after a successful open() they describe the file; after a failed open()
    the source is not open and its data pointer is null.  Missing from the
    full property: size() after a failed open, see the refutation. *)
Theorem C48_accessors_partial : forall cs k s, HonestSystem (calls (run cs)) ->
  sources (run cs) k = Some s ->
  (let s' := snd (close s) in is_open s' = false /\ data s' = None /\ size s' = 0) /\
  (forall a, let '(_, s', ok) := open a s in
     is_open s' = ok /\
     (ok = false -> data s' = None) /\
     match a with
     | Works d ad content => ok = true /\ size s' = length content /\
         data s' = if length content =? 0 then None else Some ad
     | NoFile | NoStat _ => ok = false
     | NoMap _ len => ok = (len =? 0)
     end).
Proof.
  intros cs k s HS E. destruct (run_ok cs HS) as (_ & Sh). specialize (Sh k s E).
  split; [rewrite close_shape by exact Sh; repeat split|].
  intros a. unfold open. fold (ready s). destruct (ready_shape s Sh) as (n & EN).
  destruct (ready s) as (ev0, s0). cbn [snd] in EN. subst s0. cbn [empty_source data size].
  destruct a as [|d|d len|d ad c]; cbn [is_open fd data size]; auto.
  - destruct (Nat.eqb_spec len 0); cbn [is_open fd data size]; auto.
  - destruct (Nat.eqb_spec (length c) 0) as [L|L]; cbn [is_open fd data size]; rewrite ?L; auto.
    split; [reflexivity|]. split; [discriminate|auto].
Qed.
Print Assumptions C48_accessors_partial.

(** Opening something that has a length but cannot be mapped (a directory, for
    instance) fails and leaves a source that is closed, with a null pointer,
    and a size of 4096. *)
Theorem C48_size_zero_when_closed_refuted : exists cs s, HonestSystem (calls (run cs)) /\
  sources (run cs) 0 = Some s /\ is_open s = false /\ data s = None /\ size s = 4096.
Proof.
  exists [New 0; Open 0 (NoMap 3 4096)]. eexists. split; [|repeat split].
  change (calls (run [New 0; Open 0 (NoMap 3 4096)])) with [Opened 3; Closed 3]. split.
  - intros p d rest E fds maps R I. destruct p as [|e [|e2 [|]]]; cbn [app] in E; try discriminate.
    inversion R as [H1 H2|? ? ? ? H1 H2 H3|? ? ? ? ? H1 H2 H3|? ? ? ? ? H1 H2 H3|? ? ? ? ? ? H1 H2 H3]; subst;
      try (destruct evs; discriminate). destruct I.
  - intros p a c rest E. destruct p as [|e [|e2 [|]]]; discriminate.
Qed.
Print Assumptions C48_size_zero_when_closed_refuted.
