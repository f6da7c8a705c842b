(** Proofs about texts inside texts, numbers, and the items of convert. *)
From Verif Require Import Base NumSpec WordsModel WordsProof ParquetProof ReaderModel ReaderProof TypesModel CliSpec CliModel CliProof CliProof2 CliProof3 CliProof4 CliProof5.

Lemma has_prefix_spec : forall p l, has_prefix p l = true <-> exists b, l = p ++ b.
Proof.
  induction p as [|c p IH]; intros l.
  - split; [intros _; exists l; reflexivity|reflexivity].
  - destruct l as [|d l]; cbn [has_prefix].
    + split; [discriminate|intros (b & E); discriminate].
    + rewrite andb_true_iff, IH, N.eqb_eq. split.
      * intros (-> & b & ->). exists b. reflexivity.
      * intros (b & E). injection E as -> ->. split; [reflexivity|]. exists b. reflexivity.
Qed.

Lemma contains_spec : forall p l, contains p l = true <-> occurs p l.
Proof.
  intros p. induction l as [|c l IH]; cbn [contains].
  - rewrite orb_false_r, has_prefix_spec. split.
    + intros (b & E). exists [], b. exact E.
    + intros (a & b & E). destruct a; [|discriminate]. exists b. exact E.
  - rewrite orb_true_iff, has_prefix_spec, IH. split.
    + intros [(b & E)|(a & b & E)]; [exists [], b; exact E|]. exists (c :: a), b. rewrite E. reflexivity.
    + intros (a & b & E). destruct a as [|x a]; [left; exists b; exact E|]. right. injection E as _ ->. exists a, b. reflexivity.
Qed.

(** ** Numbers *)
Lemma is_space_spec c : is_space c = true <-> (c = 32 \/ 9 <= c <= 13)%N.
Proof. unfold is_space. rewrite orb_true_iff, andb_true_iff, N.eqb_eq, !N.leb_le. tauto. Qed.

Lemma skip_split : forall l, exists sp, l = sp ++ skip_space l /\ spaces sp /\ (forall c r, skip_space l = c :: r -> is_space c = false).
Proof.
  induction l as [|c l (sp & E & S1 & S2)]; [exists []; repeat split; [constructor|discriminate]|]. cbn [skip_space].
  destruct (is_space c) eqn:EC.
  - exists (c :: sp). split; [cbn; congruence|]. split; [constructor; [apply is_space_spec; exact EC|exact S1]|exact S2].
  - exists []. split; [reflexivity|]. split; [constructor|]. intros d r Q. injection Q as <- <-. exact EC.
Qed.
Lemma skip_spaces sp l : spaces sp -> (forall c r, l = c :: r -> is_space c = false) -> skip_space (sp ++ l) = l.
Proof.
  intros A B. induction A as [|c sp H _ IH]; cbn [app].
  - destruct l as [|c l]; [reflexivity|]. cbn [skip_space]. rewrite (B c l eq_refl). reflexivity.
  - cbn [skip_space]. rewrite (proj2 (is_space_spec c) H). exact IH.
Qed.

Lemma digits_split : forall l acc, exists ds rest, l = ds ++ rest /\ digits_only ds = true /\
  (forall c r, rest = c :: r -> digits_only [c] = false) /\ read_digits l acc = number_of ds acc.
Proof.
  induction l as [|c l IH]; intros acc; [exists [], []; repeat split; discriminate|]. cbn [read_digits].
  destruct (digitb c) eqn:E.
  - destruct (IH (10 * acc + (c - 48))%N) as (ds & rest & -> & A & B & C). exists (c :: ds), rest.
    split; [reflexivity|]. split; [cbn [digits_only forallb]; unfold digitb in E; rewrite E; exact A|]. split; [exact B|exact C].
  - exists [], (c :: l). split; [reflexivity|]. split; [reflexivity|]. split; [|reflexivity].
    intros d r Q. injection Q as <- _. cbn [digits_only forallb]. unfold digitb in E. rewrite E. reflexivity.
Qed.
Lemma read_digits_app : forall ds rest acc, digits_only ds = true -> (forall c r, rest = c :: r -> digits_only [c] = false) ->
  read_digits (ds ++ rest) acc = number_of ds acc.
Proof.
  induction ds as [|c ds IH]; intros rest acc A B; cbn [app].
  - destruct rest as [|c r]; [reflexivity|]. specialize (B c r eq_refl). cbn [digits_only forallb] in B. rewrite andb_true_r in B.
    cbn [read_digits number_of]. unfold digitb. rewrite B. reflexivity.
  - cbn [digits_only forallb] in A. apply andb_true_iff in A. destruct A as (A1 & A2). cbn [read_digits number_of]. unfold digitb. rewrite A1.
    apply IH; assumption.
Qed.

Lemma digit_range c : digitb c = true -> (48 <= c <= 57)%N.
Proof. unfold digitb. rewrite andb_true_iff, !N.leb_le. tauto. Qed.

Lemma stoul_spec v n : stoul v = Some n <-> number_text v n.
Proof.
  split.
  - unfold stoul. destruct (skip_split v) as (sp & E & S1 & S2). intros H.
    set (l1 := skip_space v) in *. clearbody l1. subst v.
    set (sign := match l1 with c :: _ => if N.eqb c 45 || N.eqb c 43 then [c] else [] | [] => [] end).
    set (l2 := match l1 with c :: r => if N.eqb c 45 || N.eqb c 43 then r else l1 | [] => [] end) in *.
    assert (E1 : l1 = sign ++ l2).
    { unfold sign, l2. destruct l1 as [|c r]; [reflexivity|]. destruct (N.eqb c 45 || N.eqb c 43); reflexivity. }
    assert (Sg : (sign = [] \/ sign = s2b "+" \/ sign = s2b "-")).
    { unfold sign. destruct l1 as [|c r]; [auto|]. destruct (N.eqb_spec c 45) as [->|]; [auto|]. destruct (N.eqb_spec c 43) as [->|]; auto. }
    assert (Ng : match l1 with c :: _ => N.eqb c 45 | [] => false end = if list_eq_dec N.eq_dec sign (s2b "-") then true else false).
    { unfold sign. destruct l1 as [|c r]; [reflexivity|]. destruct (N.eqb_spec c 45) as [->|]; [reflexivity|].
      destruct (N.eqb_spec c 43) as [->|]; reflexivity. }
    rewrite Ng in H. clear Ng. clearbody sign l2. subst l1.
    destruct l2 as [|c r] eqn:E2; [discriminate|]. rewrite <- E2 in *. destruct (digitb c) eqn:ED; [|discriminate].
    destruct (digits_split l2 0) as (ds & rest & E3 & A & B & C). rewrite C in H.
    destruct (N.ltb_spec (number_of ds 0) (2 ^ 64)) as [L|]; [|discriminate]. injection H as <-.
    exists sp, sign, ds, rest. rewrite E3. split; [reflexivity|]. split; [exact S1|]. split; [exact Sg|]. split.
    + intros ->. cbn [app] in E3. rewrite <- E3, E2 in B. specialize (B c r eq_refl). cbn [digits_only forallb] in B. rewrite andb_true_r in B.
      unfold digitb in ED. congruence.
    + split; [exact A|]. split; [exact B|]. split; [exact L|].
      destruct Sg as [->|[->| ->]]; reflexivity.
  - intros (sp & sign & ds & rest & -> & S1 & Sg & Nd & A & B & L & En).
    destruct ds as [|d ds]; [congruence|].
    assert (ED : digitb d = true) by (cbn [digits_only forallb] in A; apply andb_true_iff in A; apply A).
    pose proof (digit_range d ED) as RD.
    assert (SD : is_space d = false) by (apply not_true_iff_false; rewrite is_space_spec; lia).
    unfold stoul.
    rewrite (skip_spaces sp (sign ++ (d :: ds) ++ rest) S1)
      by (intros c r Q; destruct Sg as [->|[->| ->]]; cbn [s2b app String.list_ascii_of_string map] in Q; injection Q as <- _; first [exact SD|reflexivity]).
    pose proof (read_digits_app (d :: ds) rest 0 A B) as R. apply N.ltb_lt in L.
    destruct Sg as [->|[->| ->]]; cbn [app] in *.
    + rewrite (proj2 (N.eqb_neq d 45)) by lia. rewrite (proj2 (N.eqb_neq d 43)) by lia. cbn [orb]. rewrite ED, R, L, En. reflexivity.
    + change (s2b "+") with [43%N] in *. cbn [app]. change (N.eqb 43 45) with false. change (N.eqb 43 43) with true. cbn [orb]. rewrite ED, R, L, En. reflexivity.
    + change (s2b "-") with [45%N] in *. cbn [app]. change (N.eqb 45 45) with true. cbn [orb]. rewrite ED, R, L, En. reflexivity.
Qed.

Lemma numbers_exactly (v : bytes) (n : N) (c : conversion) :
    (parse_args [s2b "-n"; v] defaults = Parsed (set_rows n defaults) <-> number_text v n) /\
    (parse_args [s2b "-t"; v] defaults = Parsed (set_threads n defaults) <-> number_text v n) /\
    (parse_args [s2b "--max-errors"; v] defaults = Parsed (set_max n defaults) <-> number_text v n) /\
    (convert_args [s2b "-r"; v] c = CParsed (mkConversion (common c) (out_path c) (compression c) n) <-> number_text v n) /\
    (parse_args [s2b "-n"; v] defaults = ParseThrows <-> forall m, ~ number_text v m).
Proof.
  assert (E1 : parse_args [s2b "-n"; v] defaults = match stoul v with Some m => Parsed (set_rows m defaults) | None => ParseThrows end) by reflexivity.
  assert (E2 : parse_args [s2b "-t"; v] defaults = match stoul v with Some m => Parsed (set_threads m defaults) | None => ParseThrows end) by reflexivity.
  assert (E3 : parse_args [s2b "--max-errors"; v] defaults = match stoul v with Some m => Parsed (set_max m defaults) | None => ParseThrows end) by reflexivity.
  assert (E4 : convert_args [s2b "-r"; v] c = match stoul v with Some m => CParsed (mkConversion (common c) (out_path c) (compression c) m) | None => CThrows end) by reflexivity.
  rewrite E1, E2, E3, E4. clear E1 E2 E3 E4. rewrite <- !stoul_spec.
  destruct (stoul v) as [m|] eqn:E.
  - split; [split; [intros H; injection H as ->; reflexivity|intros H; injection H as ->; reflexivity]|].
    split; [split; [intros H; injection H as ->; reflexivity|intros H; injection H as ->; reflexivity]|].
    split; [split; [intros H; injection H as ->; reflexivity|intros H; injection H as ->; reflexivity]|].
    split; [split; [intros H; injection H as ->; reflexivity|intros H; injection H as ->; reflexivity]|].
    split; [discriminate|]. intros H. exfalso. apply (H m). apply stoul_spec. exact E.
  - repeat (split; [split; discriminate|]). split; [|reflexivity]. intros _ m H. apply stoul_spec in H. congruence.
Qed.

(** ** The items of convert *)
Definition apply_citem (i : citem) (c : conversion) : conversion :=
  match i with
  | COutput v => mkConversion (common c) v (compression c) (row_group c)
  | CCompression v => mkConversion (common c) (out_path c) v (row_group c)
  | CRowGroup n => mkConversion (common c) (out_path c) (compression c) n
  | CThreads n => with_common (set_threads n) c
  | CDelimiter d => with_common (set_delimiter d) c
  | CQuote d => with_common (set_quoting d) c
  | CNoHeader => with_common (set_header false) c
  | CStrict => with_common (set_mode FailFast) c
  | CPermissive => with_common (set_mode Collecting) c
  | CMaxErrors n => with_common (set_max n) c
  | CProgress => with_common set_progress c
  | CVerbose => with_common set_verbose c
  | CInput p => with_common (set_path p) c
  end.
Definition is_input (i : citem) : bool := match i with CInput _ => true | _ => false end.

Lemma hd_first v : hd 0%N v = first_char v.
Proof. destruct v; reflexivity. Qed.

Lemma is_neq p s : p <> s2b s -> is p s = false.
Proof. intros N. unfold is. destruct (bytes_eqb p (s2b s)) eqn:E; [|reflexivity]. apply bytes_eqb_spec in E. contradiction. Qed.

Lemma input_step p r c : hd 0%N p <> 45%N -> p <> s2b "convert" ->
  convert_args (p :: r) c = if length (in_path (common c)) =? 0 then convert_args r (with_common (set_path p) c) else CRefused.
Proof.
  intros A B. cbn [convert_args]. rewrite !(is_other p) by (first [reflexivity|assumption]). rewrite (is_neq p "convert") by exact B. cbn [orb].
  rewrite <- hd_first, (proj2 (N.eqb_neq _ _) A). reflexivity.
Qed.

Lemma convert_item i w r c : cwritten i w -> (is_input i = true -> in_path (common c) = []) ->
  convert_args (w ++ r) c = convert_args r (apply_citem i c).
Proof.
  intros W HI. destruct W; cbn [app apply_citem].
  - destruct H as [<-|[<-|[]]]; reflexivity.
  - destruct H as [<-|[<-|[]]]; reflexivity.
  - destruct H as [<-|[<-|[]]]; cbn [convert_args]; rewrite (numeral_stoul _ _ H0); reflexivity.
  - destruct H as [<-|[<-|[]]]; cbn [convert_args]; rewrite (numeral_stoul _ _ H0); reflexivity.
  - rewrite hd_first. destruct H as [<-|[<-|[]]]; reflexivity.
  - rewrite hd_first. destruct H as [<-|[<-|[]]]; reflexivity.
  - reflexivity.
  - reflexivity.
  - reflexivity.
  - cbn [convert_args]. rewrite (numeral_stoul _ _ H). reflexivity.
  - destruct H as [<-|[<-|[]]]; reflexivity.
  - destruct H as [<-|[<-|[]]]; reflexivity.
  - rewrite input_step by assumption. rewrite (HI eq_refl). reflexivity.
Qed.

Lemma path_other i c : is_input i = false -> in_path (common (apply_citem i c)) = in_path (common c).
Proof. destruct i; intros H; try reflexivity. discriminate. Qed.

Lemma convert_all : forall items ws c, Forall2 cwritten items ws ->
  length (filter is_input items) <= (if length (in_path (common c)) =? 0 then 1 else 0) ->
  convert_args (concat ws) c = CParsed (fold_left (fun c i => apply_citem i c) items c).
Proof.
  induction items as [|i items IH]; intros ws c H HC; inversion H as [|? w ? ws' W H']; subst; [reflexivity|].
  cbn [concat fold_left]. rewrite (convert_item i w (concat ws') c W).
  - apply IH; [exact H'|]. cbn [filter] in HC. destruct (is_input i) eqn:EI.
    + cbn [length] in HC. destruct (length (in_path (common c)) =? 0); [|lia]. replace (length (filter is_input items)) with 0 by lia. lia.
    + rewrite path_other by exact EI. exact HC.
  - intros EI. cbn [filter] in HC. rewrite EI in HC. cbn [length] in HC. destruct (in_path (common c)); [reflexivity|cbn [length Nat.eqb] in HC; lia].
Qed.

Definition g_mode i := match i with CStrict => Some (Some FailFast) | CPermissive => Some (Some Collecting) | _ => None end.
Definition g_has_max i := match i with CMaxErrors _ => true | _ => false end.

Lemma fields_spec : forall items c, let c' := fold_left (fun c i => apply_citem i c) items c in
  in_path (common c') = last_citem (fun i => match i with CInput x => Some x | _ => None end) items (in_path (common c)) /\
  out_path c' = last_citem (fun i => match i with COutput x => Some x | _ => None end) items (out_path c) /\
  compression c' = last_citem (fun i => match i with CCompression x => Some x | _ => None end) items (compression c) /\
  row_group c' = last_citem (fun i => match i with CRowGroup x => Some x | _ => None end) items (row_group c) /\
  threads (common c') = last_citem (fun i => match i with CThreads x => Some x | _ => None end) items (threads (common c)) /\
  delimiter (common c') = last_citem (fun i => match i with CDelimiter x => Some x | _ => None end) items (delimiter (common c)) /\
  quoting (common c') = last_citem (fun i => match i with CQuote x => Some x | _ => None end) items (quoting (common c)) /\
  header (common c') = header (common c) && negb (cgiven (fun i => match i with CNoHeader => true | _ => false end) items) /\
  progress (common c') = progress (common c) || cgiven (fun i => match i with CProgress => true | _ => false end) items /\
  verbose (common c') = verbose (common c) || cgiven (fun i => match i with CVerbose => true | _ => false end) items /\
  max_errors (common c') = last_citem (fun i => match i with CMaxErrors x => Some x | _ => None end) items (max_errors (common c)).
Proof.
  induction items as [|i items IH]; intros c; cbv zeta.
  - cbn [fold_left last_citem cgiven existsb]. rewrite ?andb_true_r, ?orb_false_r. repeat split.
  - cbn [fold_left]. specialize (IH (apply_citem i c)). cbv zeta in IH. set (c' := fold_left _ _ _) in *. clearbody c'.
    destruct IH as (A1 & A2 & A3 & A4 & A5 & A6 & A7 & A8 & A9 & A10 & A11).
    rewrite A1, A2, A3, A4, A5, A6, A7, A8, A9, A10, A11. clear A1 A2 A3 A4 A5 A6 A7 A8 A9 A10 A11.
    unfold last_citem, cgiven. cbn [fold_left existsb].
    destruct i; cbn [apply_citem with_common common out_path compression row_group set_path
           set_threads set_delimiter set_quoting set_header set_progress set_verbose set_mode set_max
           in_path threads delimiter quoting header progress verbose max_errors negb orb];
      rewrite ?andb_false_r, ?orb_true_r; repeat split; reflexivity.
Qed.

Lemma cmode_spec : forall items c, error_mode (common (fold_left (fun c i => apply_citem i c) items c)) =
  match last_citem g_mode items None with
  | Some m => m
  | None => match error_mode (common c) with Disabled => if cgiven g_has_max items then Collecting else Disabled | m => m end
  end.
Proof.
  assert (L : forall items d, last_citem g_mode items d = match last_citem g_mode items None with Some m => Some m | None => d end).
  { induction items as [|i items IH]; intros d; [destruct d; reflexivity|]. unfold last_citem in *. cbn [fold_left].
    rewrite IH. symmetry. rewrite IH. destruct (fold_left _ items None); [reflexivity|]. destruct i; reflexivity. }
  induction items as [|i items IH]; intros c.
  - cbn. destruct (error_mode (common c)); reflexivity.
  - cbn [fold_left]. rewrite IH. unfold last_citem at 2. cbn [fold_left].
    match goal with |- _ = match fold_left ?g items ?d with _ => _ end => change (fold_left g items d) with (last_citem g_mode items d) end.
    rewrite (L items (match g_mode i with Some x => x | None => None end)).
    destruct (last_citem g_mode items None); [reflexivity|].
    unfold cgiven. cbn [existsb].
    destruct i; cbn [apply_citem g_mode g_has_max orb]; try reflexivity.
    cbn [with_common common set_max error_mode]. destruct (error_mode (common c)); reflexivity.
Qed.

Lemma last_citem_app {A} (f : citem -> option A) a b d : last_citem f (a ++ b) d = last_citem f b (last_citem f a d).
Proof. unfold last_citem. apply fold_left_app. Qed.
Lemma last_input_none : forall items d, Forall (fun i => match i with CInput _ => False | _ => True end) items ->
  last_citem (fun i => match i with CInput x => Some x | _ => None end) items d = d.
Proof.
  intros items d H. revert d. induction H as [|i items Hi _ IH]; intros d; [reflexivity|]. unfold last_citem in *. cbn [fold_left]. rewrite IH.
  destruct i; try reflexivity. destruct Hi.
Qed.
Lemma filter_input_none items : Forall (fun i => match i with CInput _ => False | _ => True end) items -> filter is_input items = [].
Proof. induction 1 as [|i items Hi _ IH]; [reflexivity|]. cbn [filter]. rewrite IH. destruct i; try reflexivity. destruct Hi. Qed.

Lemma convert_spec (items : list citem) (ws : list (list bytes)) (p : bytes) (before after : list citem) :
    items = before ++ CInput p :: after -> Forall (fun i => match i with CInput _ => False | _ => True end) (before ++ after) ->
    Forall2 cwritten items ws ->
    exists c, convert_args (concat ws) convert_defaults = CParsed c /\
      in_path (common c) = p /\
      out_path c = last_citem (fun i => match i with COutput x => Some x | _ => None end) items [] /\
      compression c = last_citem (fun i => match i with CCompression x => Some x | _ => None end) items (s2b "zstd") /\
      row_group c = last_citem (fun i => match i with CRowGroup x => Some x | _ => None end) items 1000000%N /\
      threads (common c) = last_citem (fun i => match i with CThreads x => Some x | _ => None end) items 0%N /\
      delimiter (common c) = last_citem (fun i => match i with CDelimiter x => Some x | _ => None end) items COMMA /\
      quoting (common c) = last_citem (fun i => match i with CQuote x => Some x | _ => None end) items DQ /\
      header (common c) = negb (cgiven (fun i => match i with CNoHeader => true | _ => false end) items) /\
      progress (common c) = cgiven (fun i => match i with CProgress => true | _ => false end) items /\
      verbose (common c) = cgiven (fun i => match i with CVerbose => true | _ => false end) items /\
      max_errors (common c) = last_citem (fun i => match i with CMaxErrors x => Some x | _ => None end) items 10000%N /\
      error_mode (common c) =
        match last_citem (fun i => match i with CStrict => Some (Some FailFast) | CPermissive => Some (Some Collecting) | _ => None end) items None with
        | Some m => m
        | None => if cgiven (fun i => match i with CMaxErrors _ => true | _ => false end) items then Collecting else Disabled
        end.
Proof.
  intros E N W. exists (fold_left (fun c i => apply_citem i c) items convert_defaults).
  apply Forall_app in N. destruct N as (N1 & N2). split.
  - apply convert_all; [exact W|]. subst items. rewrite filter_app. cbn [filter is_input]. rewrite !filter_input_none by assumption.
    cbn [app length convert_defaults common defaults in_path Nat.eqb]. lia.
  - destruct (fields_spec items convert_defaults) as (A1 & A2 & A3 & A4 & A5 & A6 & A7 & A8 & A9 & A10 & A11). cbv zeta in *.
    rewrite cmode_spec. split; [rewrite A1; subst items; rewrite last_citem_app; unfold last_citem at 1; cbn [fold_left]; apply last_input_none; exact N2|].
    repeat (split; [assumption|]). reflexivity.
Qed.

Lemma convert_inputs (p q : bytes) (rest : list bytes) (c : conversion) :
    (hd 0%N p <> 45%N -> p <> s2b "convert" -> in_path (common c) <> [] -> convert_args (p :: rest) c = CRefused) /\
    convert_args (s2b "convert" :: rest) c = convert_args rest c.
Proof.
  split; [|reflexivity]. intros A B C. rewrite input_step by assumption. destruct (in_path (common c)); [congruence|reflexivity].
Qed.
