(** C77, C78: one reader used for several inputs. *)
From Verif Require Import Base TypesSpec WordsModel ChunkModel FieldsModel NumModel DateModel ReaderModel TypesModel
  MmapSpec MmapModel LifeSpec LifeModel LifeProof.

(** ** C77 *)

(** A reader on which every call so far has failed (a missing file, an empty
    one, ...) behaves like a new one: the next call that is handed bytes
    succeeds, and reading then gives what opening and reading those bytes with
    a new reader gives.  Missing from the full property: earlier calls that
    succeeded, see the refutation. *)
Theorem C77_reuse_after_failures_partial :
  forall (F : Type) (ff : bytes -> option F) (lanes : nat) (clmul : bool) (num_threads : N) (ne_in : bool)
         (o : csv_options) (us : list use) (u : use) (c : bytes),
    1 <= lanes -> Nat.divide lanes 64 -> quote o <> LF -> quote o <> CR ->
    (forall v, In v us -> handed v = None \/ handed v = Some []) -> handed u = Some c -> c <> [] ->
    let '(vs, evs, r) := live ff lanes clmul o (us ++ [u]) in
    vs = map (fun _ => Fails) us ++ [Succeeds] /\
    exists x, read ff lanes clmul num_threads ne_in o evs r = Reads x /\
      read_file ff lanes clmul num_threads ne_in o c = Some (names r, types r, x).
Proof.
  intros F ff lanes clmul num_threads ne_in o us u c H1 H2 H3 H4 HF Hu Hc.
  assert (HV : Forall (fun v => verdict_of v = Fails) us).
  { apply Forall_forall. intros v I. unfold verdict_of. destruct (HF v I) as [->| ->]; reflexivity. }
  pose proof (live_names ff lanes clmul o H1 H2 H3 H4 (us ++ [u])) as LN.
  pose proof (live_fresh ff lanes clmul num_threads ne_in o H1 H2 H3 H4 us u c HV Hu Hc) as LF0.
  destruct (live ff lanes clmul o (us ++ [u])) as ((vs, evs), r). split; [|exact LF0].
  destruct LN as (_ & ->). rewrite map_app. f_equal.
  - apply map_ext_in. intros v I. exact (proj1 (Forall_forall _ _) HV v I).
  - cbn [map]. unfold verdict_of. rewrite Hu. destruct c; [congruence|reflexivity].
Qed.
Print Assumptions C77_reuse_after_failures_partial.

(** The schema is never cleared: after any history it is the concatenation of
    the columns of all the inputs opened so far. *)
Theorem C77_schema_accumulates_refuted :
  forall (F : Type) (ff : bytes -> option F) (lanes : nat) (clmul : bool) (o : csv_options) (us : list use),
    1 <= lanes -> Nat.divide lanes 64 -> quote o <> LF -> quote o <> CR ->
    let '(vs, evs, r) := live ff lanes clmul o us in
    names r = concat (map (fun u => match handed u with
                                    | Some c => match open_file ff lanes clmul o c with
                                                | Some (ns, _, _) => ns
                                                | None => []
                                                end
                                    | None => []
                                    end) us) /\
    vs = map (fun u => match handed u with Some (_ :: _) => Succeeds | _ => Fails end) us.
Proof. intros. apply live_names; assumption. Qed.
Print Assumptions C77_schema_accumulates_refuted.

Definition two_columns : bytes := s2b "a,b" ++ [LF] ++ s2b "1,2" ++ [LF] ++ s2b "3,4" ++ [LF].

(** Opening the same file twice doubles its columns, and the second copy reads
    as nulls. *)
Theorem C77_same_file_twice_refuted : forall (F : Type) (ff : bytes -> option F),
  let '(vs, evs, r) := live ff 16 true default_options
                         [Path (Works 3 100 two_columns); Path (Works 3 200 two_columns)] in
  vs = [Succeeds; Succeeds] /\ names r = [s2b "a"; s2b "b"; s2b "a"; s2b "b"] /\
  read ff 16 true 4 false default_options evs r =
    Reads (mkRead [[[Some (VInt 1); Some (VInt 3)]; [Some (VInt 2); Some (VInt 4)]; [None; None]; [None; None]]] 2 2).
Proof. intros. vm_compute. repeat split; reflexivity. Qed.
Print Assumptions C77_same_file_twice_refuted.

Example C77_meets : forall (F : Type) (ff : bytes -> option F),
  let us := [Path NoFile; Buffer []; Path (NoMap 3 4096)] in
  (forall v, In v us -> handed v = None \/ handed v = Some []) /\
  let '(vs, evs, r) := live ff 16 true default_options (us ++ [Path (Works 3 100 two_columns)]) in
  vs = [Fails; Fails; Fails; Succeeds] /\ names r = [s2b "a"; s2b "b"] /\
  read ff 16 true 4 false default_options evs r =
    Reads (mkRead [[[Some (VInt 1); Some (VInt 3)]; [Some (VInt 2); Some (VInt 4)]]] 2 2).
Proof.
  intros F ff us. split; [intros v [<-|[<-|[<-|[]]]]; auto|]. vm_compute. repeat split; reflexivity.
Qed.

(** ** C78 *)

(** Exactly when reading touches memory that is no longer there: when the last
    calls failed to open their file and the call before them had opened a file
    that was not empty.  Reading is safe after every other history. *)
Theorem C78_reads_live_memory_partial :
  forall (F : Type) (ff : bytes -> option F) (lanes : nat) (clmul : bool) (num_threads : N) (ne_in : bool)
         (o : csv_options) (us : list use),
    1 <= lanes -> Nat.divide lanes 64 -> quote o <> LF -> quote o <> CR ->
    let '(vs, evs, r) := live ff lanes clmul o us in
    read ff lanes clmul num_threads ne_in o evs r = Bad <-> Dangling us.
Proof. intros. apply read_bad; assumption. Qed.
Print Assumptions C78_reads_live_memory_partial.

(** A file is read; opening another fails, as the returned error says; reading
    again reads the mapping that was released. *)
Theorem C78_read_after_failed_open_refuted : forall (F : Type) (ff : bytes -> option F),
  let us := [Path (Works 3 100 two_columns); Path NoFile] in
  let '(vs, evs, r) := live ff 16 true default_options us in
  vs = [Succeeds; Fails] /\
  evs = [Opened 3; Mapped 100 two_columns; Unmapped 100 (length two_columns); Closed 3] /\
  ptr r = InMap 100 /\ data_size r = length two_columns /\
  read ff 16 true 4 false default_options evs r = Bad.
Proof. intros. vm_compute. repeat split; reflexivity. Qed.
Print Assumptions C78_read_after_failed_open_refuted.

Example C78_meets : forall (F : Type) (ff : bytes -> option F),
  let us := [Path (Works 3 100 two_columns); Path NoFile; Buffer two_columns; Path NoFile; Buffer []] in
  ~ Dangling us /\
  let '(vs, evs, r) := live ff 16 true default_options us in
  vs = [Succeeds; Fails; Succeeds; Fails; Fails] /\
  read ff 16 true 4 false default_options evs r = Reads (mkRead [[[]; []; []; []]] 0 0).
Proof.
  intros F ff us. split.
  - unfold us. change [Path (Works 3 100 two_columns); Path NoFile; Buffer two_columns; Path NoFile; Buffer []]
      with ([Path (Works 3 100 two_columns); Path NoFile; Buffer two_columns; Path NoFile] ++ [Buffer []]).
    rewrite dangling_snoc. intros (E & _). discriminate E.
  - vm_compute. repeat split; reflexivity.
Qed.
