(** The field iterator, the row loops and the reader with explicit reads. *)
From Verif Require Import Base WordsModel WordsProof ChunkSpec ChunkModel ChunkProof ChunkProof2 FieldsModel ReaderModel RawModel RawProof.

Lemma raw_quoted_tail_eq sep q eol d p len : p + len = length d -> forall f i b, len - i <= f -> i <= len ->
  raw_quoted_tail f sep q eol d p len i b = Some (option_map (Nat.add i) (quoted_tail sep q eol (skipn (p + i) d) b)).
Proof.
  intros Hp. induction f as [|f IH]; intros i b Hf Hi; cbn [raw_quoted_tail].
  - replace (i <? len) with false by lia. rewrite skipn_all2 by lia. reflexivity.
  - destruct (Nat.ltb_spec i len) as [H|H]; [|rewrite skipn_all2 by lia; reflexivity].
    destruct (pos d (p + i)) as [E1 _|c _ E2 E3]; [apply Nat.ltb_ge in E1; lia|]. rewrite E2, E3. cbn [quoted_tail].
    destruct (negb _ && _); [cbn [option_map]; f_equal; f_equal; lia|]. rewrite IH by lia.
    replace (p + (i + 1)) with (p + i + 1) by lia. destruct (quoted_tail _ _ _ _ _); cbn [option_map]; [|reflexivity]. do 2 f_equal. lia.
Qed.
Lemma raw_unquoted_tail_eq sep eol d p len : p + len = length d -> forall f i, len - i <= f -> i <= len ->
  raw_unquoted_tail f sep eol d p len i = Some (option_map (Nat.add i) (unquoted_tail sep eol (skipn (p + i) d))).
Proof.
  intros Hp. induction f as [|f IH]; intros i Hf Hi; cbn [raw_unquoted_tail].
  - replace (i <? len) with false by lia. rewrite skipn_all2 by lia. reflexivity.
  - destruct (Nat.ltb_spec i len) as [H|H]; [|rewrite skipn_all2 by lia; reflexivity].
    destruct (pos d (p + i)) as [E1 _|c _ E2 E3]; [apply Nat.ltb_ge in E1; lia|]. rewrite E2, E3. cbn [unquoted_tail].
    destruct (N.eqb c sep || N.eqb c eol); [cbn [option_map]; f_equal; f_equal; lia|]. rewrite IH by lia.
    replace (p + (i + 1)) with (p + i + 1) by lia. destruct (unquoted_tail _ _ _); cbn [option_map]; [|reflexivity]. do 2 f_equal. lia.
Qed.
Lemma option_map_id (o : option nat) : option_map (Nat.add 0) o = o.
Proof. destruct o; reflexivity. Qed.

Section Iter.
Variables (lanes : nat) (clmul : bool) (sep q : byte).
Hypothesis Hl : 1 <= lanes.

Lemma raw_scan_quoted_eq eol d v rem : v + rem = length d -> forall f total b, total <= rem ->
  raw_scan_quoted f lanes clmul sep q eol d v rem total b = scan_quoted f lanes clmul sep q eol (skipn (v + total) d) total b.
Proof.
  intros Hv.
  assert (T : forall total b, total <= rem ->
    (let? r := raw_quoted_tail (S rem) sep q eol d (v + total) (rem - total) 0 b in Some (option_map (Nat.add total) r, @None N)) =
    Some (option_map (Nat.add total) (quoted_tail sep q eol (skipn (v + total) d) b), None)).
  { intros total b Ht. rewrite raw_quoted_tail_eq by lia. rewrite option_map_id, Nat.add_0_r. reflexivity. }
  induction f as [|f IH]; intros total b Ht; cbn [raw_scan_quoted scan_quoted]; rewrite skipn_length;
    replace (length d - (v + total)) with (rem - total) by lia.
  - destruct (64 <? rem - total); [reflexivity|]. apply T. exact Ht.
  - destruct (Nat.ltb_spec 64 (rem - total)); [|apply T; exact Ht]. unfold scan_for_char. rewrite !raw_assemble_eq by lia.
    destruct (assemble_mask 64 lanes sep _ 0 0) as [a|]; [|reflexivity].
    destruct (assemble_mask 64 lanes eol _ 0 0) as [e|]; [|reflexivity].
    destruct (assemble_mask 64 lanes q _ 0 0) as [m|]; [|reflexivity]. cbv zeta.
    destruct (negb (N.eqb (N.land (N.lor a e) _) 0)); [reflexivity|]. rewrite IH by lia. rewrite skipn_add.
    replace (v + (total + 64)) with (v + total + 64) by lia. reflexivity.
Qed.
Lemma raw_scan_unquoted_eq eol d v rem : v + rem = length d -> forall f total, total <= rem ->
  raw_scan_unquoted f lanes sep eol d v rem total = scan_unquoted f lanes sep eol (skipn (v + total) d) total.
Proof.
  intros Hv.
  assert (T : forall total, total <= rem ->
    (let? r := raw_unquoted_tail (S rem) sep eol d (v + total) (rem - total) 0 in Some (option_map (Nat.add total) r, @None N)) =
    Some (option_map (Nat.add total) (unquoted_tail sep eol (skipn (v + total) d)), None)).
  { intros total Ht. rewrite raw_unquoted_tail_eq by lia. rewrite option_map_id, Nat.add_0_r. reflexivity. }
  induction f as [|f IH]; intros total Ht; cbn [raw_scan_unquoted scan_unquoted]; rewrite skipn_length;
    replace (length d - (v + total)) with (rem - total) by lia.
  - destruct (64 <? rem - total); [reflexivity|]. apply T. exact Ht.
  - destruct (Nat.ltb_spec 64 (rem - total)); [|apply T; exact Ht]. unfold scan_for_two_chars. rewrite !raw_assemble_eq by lia.
    destruct (assemble_mask 64 lanes sep _ 0 0) as [a|]; [|reflexivity].
    destruct (assemble_mask 64 lanes eol _ 0 0) as [e|]; [|reflexivity]. cbv zeta.
    destruct (negb (N.eqb (N.lor a e) 0)); [reflexivity|]. rewrite IH by lia. rewrite skipn_add.
    replace (v + (total + 64)) with (v + total + 64) by lia. reflexivity.
Qed.

(** The two iterators stand at the same place. *)
Definition same (d : bytes) (it : rsf) (st : sf) : Prop :=
  r_v it + r_remaining it = length d /\ sf_v st = skipn (r_v it) d /\ r_finished it = sf_finished st /\ r_prev it = sf_prev st.
Definition same_out (d : bytes) (o : option (nat * nat * bool)) (o' : sf_out) : Prop :=
  match o, o' with
  | None, None => True
  | Some (fd, len, ne), Some (f, ne') => f = firstn len (skipn fd d) /\ fd + len <= length d /\ ne = ne'
  | _, _ => False
  end.
Lemma same_finish d it st prev ne : same d it st -> 
  same_out d (fst (raw_finish it prev ne)) (fst (sf_finish st prev ne)) /\
  same d (snd (raw_finish it prev ne)) (snd (sf_finish st prev ne)) /\ r_v it <= r_v (snd (raw_finish it prev ne)).
Proof.
  intros (H1 & H2 & H3 & H4). unfold raw_finish, sf_finish, same_out, same. cbn [fst snd r_v r_remaining r_finished r_prev sf_v sf_finished sf_prev].
  split; [|split].
  - split; [|split; [lia|reflexivity]]. rewrite H2, firstn_all2; [reflexivity|rewrite skipn_length; lia].
  - split; [lia|]. split; [symmetry; apply skipn_all2; lia|]. split; reflexivity.
  - lia.
Qed.
Lemma same_cut d it st prev p b ne : same d it st -> p < r_remaining it ->
  same_out d (fst (raw_cut it prev p b ne)) (fst (sf_cut st prev p b ne)) /\
  same d (snd (raw_cut it prev p b ne)) (snd (sf_cut st prev p b ne)) /\ r_v it <= r_v (snd (raw_cut it prev p b ne)).
Proof.
  intros (H1 & H2 & H3 & H4) Hp. unfold raw_cut, sf_cut, same_out, same. cbn [fst snd r_v r_remaining r_finished r_prev sf_v sf_finished sf_prev].
  split; [|split].
  - split; [|split; [lia|reflexivity]]. rewrite H2. reflexivity.
  - split; [lia|]. split; [rewrite H2, skipn_add; f_equal; lia|]. split; reflexivity.
  - lia.
Qed.
Lemma nth_skipn (d : bytes) v p : nth_error (skipn v d) p = rd d (v + p).
Proof. unfold rd. revert d; induction v as [|v IH]; intros [|x d]; try reflexivity; [destruct p; reflexivity|]. cbn [skipn Nat.add nth_error]. apply IH. Qed.

Lemma raw_next_same eol d it st ne o st' : same d it st -> sf_next lanes clmul sep q eol st ne = Some (o, st') ->
  exists o' it', raw_next lanes clmul sep q eol d it ne = Some (o', it') /\ same_out d o' o /\ same d it' st' /\ r_v it <= r_v it'.
Proof.
  intros HS HN. pose proof HS as (H1 & H2 & H3 & H4). unfold sf_next in HN. unfold raw_next. rewrite H3, H4. cbv zeta in HN |- *.
  destruct (sf_finished st) eqn:EF.
  { injection HN as <- <-. eexists. eexists. split; [reflexivity|]. split; [exact I|]. split; [exact HS|lia]. }
  destruct (N.eqb_spec (sf_prev st) 0) as [EP|EP]; cbn [negb] in HN |- *.
  - destruct (pos d (r_v it)) as [E1 E2|c E1 E2 E3].
    + rewrite H2, E2 in HN. injection HN as <- <-.
      apply Nat.ltb_ge in E1. replace (r_remaining it =? 0) with true by lia.
      destruct (same_finish d it st 0 ne HS) as (A & B & C). rewrite EP. eexists. eexists. split; [reflexivity|]. split; [exact A|]. split; [exact B|exact C].
    + apply Nat.ltb_lt in E1. replace (r_remaining it =? 0) with false by lia. rewrite E2.
      rewrite H2, E3 in HN.
      assert (EN : also (negb (N.eqb q 0)) (Some (N.eqb c q)) = Some (negb (N.eqb q 0) && N.eqb c q)) by (destruct (negb (N.eqb q 0)); reflexivity).
      rewrite EN. rewrite <- E3 in HN. rewrite skipn_length in HN. replace (length d - r_v it) with (r_remaining it) in HN by lia.
      rewrite raw_scan_quoted_eq, raw_scan_unquoted_eq by lia. rewrite Nat.add_0_r.
      destruct (if negb (N.eqb q 0) && N.eqb c q then _ else _) as [[p np]|]; [|discriminate HN].
      set (prev := match np with Some x => x | None => sf_prev st end) in *. clearbody prev.
      destruct p as [p|].
      * destruct (Nat.leb_spec (r_remaining it) p) as [Hp|Hp].
        -- injection HN as <- <-. destruct (same_finish d it st prev (negb (N.eqb q 0) && N.eqb c q) HS) as (A & B & C).
           eexists. eexists. split; [reflexivity|]. split; [exact A|]. split; [exact B|exact C].
        -- rewrite nth_skipn in HN. destruct (rd d (r_v it + p)) as [x|]; [|discriminate HN]. injection HN as <- <-.
           destruct (same_cut d it st prev p (N.eqb x eol) (negb (N.eqb q 0) && N.eqb c q) HS Hp) as (A & B & C).
           eexists. eexists. split; [reflexivity|]. split; [exact A|]. split; [exact B|exact C].
      * rewrite Nat.leb_refl. injection HN as <- <-. destruct (same_finish d it st prev (negb (N.eqb q 0) && N.eqb c q) HS) as (A & B & C).
        eexists. eexists. split; [reflexivity|]. split; [exact A|]. split; [exact B|exact C].
  - destruct (64 <=? ctz (sf_prev st) + 1); [discriminate HN|].
    assert (EN : also (negb (N.eqb q 0) && (0 <? r_remaining it)) (let? c := rd d (r_v it) in Some (N.eqb c q)) =
                 Some (negb (N.eqb q 0) && next_is q (sf_v st))).
    { rewrite H2. destruct (pos d (r_v it)) as [E1 E2|c E1 E2 E3].
      - rewrite E2. apply Nat.ltb_ge in E1. replace (0 <? r_remaining it) with false by lia. rewrite andb_false_r. cbn [next_is]. rewrite andb_false_r. reflexivity.
      - apply Nat.ltb_lt in E1. replace (0 <? r_remaining it) with true by lia. rewrite E2, E3, andb_true_r. cbn [next_is].
        destruct (negb (N.eqb q 0)); reflexivity. }
    rewrite EN. rewrite H2 in HN. rewrite nth_skipn in HN.
    destruct (rd d (r_v it + ctz (sf_prev st))) as [x|] eqn:ER; [|discriminate HN]. injection HN as <- <-. rewrite <- H2.
    assert (Hp : ctz (sf_prev st) < r_remaining it).
    { unfold rd in ER. assert (X : nth_error d (r_v it + ctz (sf_prev st)) <> None) by congruence. apply nth_error_Some in X. lia. }
    match goal with |- context [raw_cut it ?p ?a ?b ?n] => destruct (same_cut d it st p a b n HS Hp) as (A & B & C) end.
    eexists. eexists. split; [reflexivity|]. split; [exact A|]. split; [exact B|exact C].
Qed.
End Iter.

(** *** Texts *)
Lemma unescape_step q c r : unescape_loop q (c :: r) = if N.eqb c q && next_is q r then q :: unescape_loop q (tl r) else c :: unescape_loop q r.
Proof. destruct r as [|c' r]; cbn [unescape_loop next_is tl]; [rewrite andb_false_r; reflexivity|reflexivity]. Qed.
Lemma rd_view (d : bytes) p len i : p + len <= length d -> i < len -> rd d (p + i) = rd (firstn len (skipn p d)) i.
Proof. intros H Hi. unfold rd at 2. rewrite nth_error_firstn_lt by exact Hi. symmetry. apply nth_skipn. Qed.
Lemma view_len (d : bytes) p len : p + len <= length d -> length (firstn len (skipn p d)) = len.
Proof. intros H. rewrite firstn_length, skipn_length. lia. Qed.
Lemma raw_find_eq q d p len : p + len <= length d -> forall f i, len - i <= f ->
  raw_find f q d p len i = Some (existsb (N.eqb q) (skipn i (firstn len (skipn p d)))).
Proof.
  intros Hp. pose proof (view_len d p len Hp) as HL. induction f as [|f IH]; intros i Hf; cbn [raw_find].
  - replace (i <? len) with false by lia. rewrite skipn_all2 by lia. reflexivity.
  - destruct (Nat.ltb_spec i len) as [H|H]; [|rewrite skipn_all2 by lia; reflexivity].
    rewrite (rd_view d p len) by assumption. destruct (pos (firstn len (skipn p d)) i) as [E1 _|c _ E2 E3]; [apply Nat.ltb_ge in E1; lia|].
    rewrite E2, E3. cbn [existsb]. destruct (N.eqb q c); [reflexivity|]. apply IH. lia.
Qed.
Lemma raw_unescape_loop_eq q d p len : p + len <= length d -> forall f i, len - i <= f ->
  raw_unescape_loop f q d p len i = Some (unescape_loop q (skipn i (firstn len (skipn p d)))).
Proof.
  intros Hp. pose proof (view_len d p len Hp) as HL. induction f as [|f IH]; intros i Hf; cbn [raw_unescape_loop].
  - replace (i <? len) with false by lia. rewrite skipn_all2 by lia. reflexivity.
  - destruct (Nat.ltb_spec i len) as [H|H]; [|rewrite skipn_all2 by lia; reflexivity].
    rewrite (rd_view d p len) by assumption. destruct (pos (firstn len (skipn p d)) i) as [E1 _|c _ E2 E3]; [apply Nat.ltb_ge in E1; lia|].
    rewrite E2, E3, unescape_step.
    assert (EA : also (N.eqb c q && (i + 1 <? len)) (let? c' := rd d (p + (i + 1)) in Some (N.eqb c' q)) =
                 Some (N.eqb c q && next_is q (skipn (i + 1) (firstn len (skipn p d))))).
    { destruct (Nat.ltb_spec (i + 1) len) as [H1|H1].
      - rewrite (rd_view d p len) by assumption. destruct (pos (firstn len (skipn p d)) (i + 1)) as [F1 _|x _ F2 F3]; [apply Nat.ltb_ge in F1; lia|].
        rewrite F2, F3, andb_true_r. cbn [next_is]. destruct (N.eqb c q); reflexivity.
      - rewrite skipn_all2 by lia. cbn [next_is]. rewrite !andb_false_r. reflexivity. }
    rewrite EA. destruct (N.eqb c q && next_is q _); rewrite IH by lia; [rewrite skipn_2|]; reflexivity.
Qed.
Lemma raw_unescape_eq q d p len : p + len <= length d -> raw_unescape q d p len = Some (unescape_quotes (firstn len (skipn p d)) q).
Proof.
  intros Hp. unfold raw_unescape, unescape_quotes. rewrite raw_find_eq by lia. cbn [skipn]. destruct (existsb _ _).
  - rewrite raw_unescape_loop_eq by lia. reflexivity.
  - unfold view, load. replace (p + len <=? length d) with true by lia. reflexivity.
Qed.
Lemma rd_last d fd len : 0 < len -> fd + len <= length d -> rd d (fd + (len - 1)) = Some (last (firstn len (skipn fd d)) 0%N).
Proof.
  intros H0 H. pose proof (view_len d fd len H) as HL. rewrite (rd_view d fd len) by lia.
  set (w := firstn len (skipn fd d)) in *. clearbody w. unfold rd.
  destruct w as [|x w] using rev_ind; [cbn in HL; lia|]. rewrite last_last, app_length in *. cbn [length] in HL.
  rewrite nth_error_app2 by lia. replace (len - 1 - length w) with 0 by lia. reflexivity.
Qed.
Lemma removelast_view (d : bytes) fd len : 0 < len -> fd + len <= length d -> removelast (firstn len (skipn fd d)) = firstn (len - 1) (skipn fd d).
Proof. intros H0 H. rewrite removelast_firstn_len, (view_len d fd len H), firstn_firstn. f_equal. lia. Qed.

Section Rows.
Context {V : Type}.
Variable conv : nat -> bytes -> option V.
Variables (lanes : nat) (clmul : bool) (sep q : byte) (nc : null_checker).
Hypothesis Hl : 1 <= lanes.
Notation raw_row := (RawModel.raw_row conv lanes clmul sep q nc).

Lemma raw_row_same d : forall f it st ne col cols fs rest, same d it st ->
  sf_all f lanes clmul sep q LF st ne = Some (fs, rest) ->
  exists it', raw_row f d it ne col cols = Some (it', fst (fields_into conv q nc fs col cols), snd (fields_into conv q nc fs col cols)) /\
    r_v it' + r_remaining it' = length d /\ rest = skipn (r_v it') d /\ r_v it <= r_v it'.
Proof.
  induction f as [|f IH]; intros it st ne col cols fs rest HS HA; cbn [sf_all RawModel.raw_row] in HA |- *; [discriminate HA|].
  destruct (sf_next lanes clmul sep q LF st ne) as [[o st']|] eqn:EN; [|discriminate HA].
  destruct (raw_next_same lanes clmul sep q Hl LF d it st ne o st' HS EN) as (o' & it' & -> & HO & HS' & HV).
  destruct o' as [[[fd len] ne1]|], o as [[fl ne2]|]; cbn [same_out] in HO; try contradiction HO.
  - destruct HO as (-> & Hb & ->). destruct (sf_all f lanes clmul sep q LF st' ne2) as [[fs' rest']|] eqn:EA; [|discriminate HA].
    injection HA as <- <-. cbn [fields_into]. rewrite (view_len d fd len Hb).
    assert (EC : also (0 <? len) (let? c := rd d (fd + (len - 1)) in Some (N.eqb c CR)) =
                 Some ((0 <? len) && N.eqb (last (firstn len (skipn fd d)) 0%N) CR)).
    { destruct (Nat.ltb_spec 0 len); [rewrite rd_last by assumption|]; reflexivity. }
    rewrite EC. cbv iota.
    set (cr := (0 <? len) && N.eqb (last (firstn len (skipn fd d)) 0%N) CR).
    assert (EF : (if cr then removelast (firstn len (skipn fd d)) else firstn len (skipn fd d)) = firstn (if cr then len - 1 else len) (skipn fd d)).
    { unfold cr. destruct (Nat.ltb_spec 0 len); cbn [andb]; [|reflexivity]. destruct (N.eqb _ CR); [apply removelast_view; assumption|reflexivity]. }
    rewrite EF. set (n := if cr then len - 1 else len). assert (Hn : fd + n <= length d) by (unfold n; destruct cr; lia). clearbody n cr. clear EC EF.
    assert (NEXT : forall cols1, exists it2, raw_row f d it' ne2 (col + 1) cols1 = Some (it2, fst (fields_into conv q nc fs' (col + 1) cols1), snd (fields_into conv q nc fs' (col + 1) cols1)) /\
      r_v it2 + r_remaining it2 = length d /\ rest' = skipn (r_v it2) d /\ r_v it <= r_v it2).
    { intros cols1. destruct (IH it' st' ne2 (col + 1) cols1 fs' rest' HS' EA) as (it2 & A & B & C & D). exists it2. repeat split; try assumption. lia. }
    destruct (length cols <=? col); [apply NEXT|]. unfold view at 1, load at 1. replace (fd + n <=? length d) with true by lia. cbv iota.
    destruct (is_null nc _); [apply NEXT|]. destruct ne2; [|apply NEXT].
    assert (EO : (let? outer := also (2 <=? n) (let? a := rd d fd in
                              also (N.eqb a q) (let? b := rd d (fd + (n - 1)) in Some (N.eqb b q))) in
              if outer then raw_unescape q d (fd + 1) (n - 2) else raw_unescape q d fd n) = Some (unquote_field q (firstn n (skipn fd d)))).
    { unfold unquote_field. rewrite (view_len d fd n Hn). destruct (Nat.leb_spec 2 n) as [H2|H2]; cbn [also andb]; [|apply raw_unescape_eq; exact Hn].
      destruct (pos d fd) as [E1 _|x _ E2 E3]; [apply Nat.ltb_ge in E1; lia|]. rewrite E2, rd_last by lia.
      assert (EH : hd 0%N (firstn n (skipn fd d)) = x) by (destruct n; [lia|]; rewrite E3; reflexivity).
      assert (ET : firstn (n - 2) (tl (firstn n (skipn fd d))) = firstn (n - 2) (skipn (fd + 1) d)).
      { destruct n as [|n]; [lia|]. rewrite E3. cbn [firstn tl]. rewrite firstn_firstn. f_equal. lia. }
      rewrite EH, ET. destruct (N.eqb x q); cbn [also andb]; [|apply raw_unescape_eq; exact Hn].
      destruct (N.eqb _ q); apply raw_unescape_eq; lia. }
    destruct (also (2 <=? n) _) as [outer|]; [|discriminate EO]. rewrite EO. apply NEXT.
  - injection HA as <- <-. exists it'. cbn [fields_into fst snd]. destruct HS' as (A & B & _ & _). repeat split; try assumption; lia.
Qed.

Lemma skip_empty_step c r : skip_empty (c :: r) = if N.eqb c LF then skip_empty r
  else if N.eqb c CR then if next_is LF r then skip_empty (tl r) else skip_empty r else c :: r.
Proof. cbn [skip_empty]. destruct (N.eqb c LF); [reflexivity|]. destruct (N.eqb c CR); [|reflexivity]. destruct r; reflexivity. Qed.
Lemma raw_skip_empty_eq d : forall f off, length d - off <= f -> off <= length d ->
  exists o, raw_skip_empty f d (length d) off = Some o /\ skipn o d = skip_empty (skipn off d) /\ off <= o <= length d.
Proof.
  induction f as [|f IH]; intros off Hf Ho; cbn [raw_skip_empty].
  - destruct (pos d off) as [-> ->|c E1 _ _]; [|apply Nat.ltb_lt in E1; lia]. exists off. rewrite skipn_all2 by lia. split; [reflexivity|split; [reflexivity|lia]].
  - destruct (pos d off) as [-> E|c E1 E2 E3].
    + exists off. rewrite E. split; [reflexivity|split; [reflexivity|lia]].
    + rewrite E1, E2, E3, skip_empty_step. apply Nat.ltb_lt in E1. destruct (N.eqb c LF).
      { destruct (IH (off + 1)) as (o & A & B & C); [lia|lia|]. exists o. split; [exact A|]. split; [exact B|lia]. }
      destruct (N.eqb c CR).
      * rewrite peek_next. destruct (next_is LF (skipn (off + 1) d)) eqn:EL.
        -- assert (off + 1 < length d) by (destruct (pos d (off + 1)) as [_ X|x X _ _]; [rewrite X in EL; discriminate EL|apply Nat.ltb_lt in X; lia]).
           destruct (IH (off + 1 + 1)) as (o & A & B & C); [lia|lia|]. exists o. split; [exact A|]. split; [rewrite B, skipn_1; reflexivity|lia].
        -- destruct (IH (off + 1)) as (o & A & B & C); [lia|lia|]. exists o. split; [exact A|]. split; [exact B|lia].
      * exists off. split; [reflexivity|]. split; [exact E3|lia].
Qed.

Lemma raw_rows_same d ne : forall F f off cols rows r, F <= f -> off <= length d ->
  read_rows conv lanes clmul sep q nc F ne (skipn off d) cols rows = Some r ->
  raw_rows conv lanes clmul sep q nc f ne d (length d) off cols rows = Some r.
Proof.
  induction F as [|F IH]; intros f off cols rows r Hf Ho HR.
  - destruct (pos d off) as [E1 E2|c E1 E2 E3].
    + rewrite E2 in HR. cbn in HR. destruct f; cbn [raw_rows]; rewrite E1; exact HR.
    + rewrite E3 in HR. cbn in HR. discriminate HR.
  - destruct f as [|f]; [lia|]. cbn [raw_rows]. destruct (pos d off) as [E1 E2|c E1 E2 E3].
    + rewrite E2 in HR. cbn in HR. rewrite E1. exact HR.
    + rewrite E1. destruct (raw_skip_empty_eq d (S (length d)) off ltac:(lia) Ho) as (o & -> & ES & Hb).
      rewrite E3 in HR. cbn [read_rows] in HR. rewrite <- E3, <- ES in HR.
      destruct (pos d o) as [F1 F2|x F1 F2 F3].
      * rewrite F2 in HR. apply Nat.ltb_ge in F1. replace (length d <=? o) with true by lia. exact HR.
      * rewrite F3 in HR. cbv iota in HR. rewrite <- F3 in HR. apply Nat.ltb_lt in F1. replace (length d <=? o) with false by lia. cbv zeta.
        unfold row_fields in HR. rewrite skipn_length in HR.
        destruct (sf_all (S (S (length d - o))) lanes clmul sep q LF (sf_init (skipn o d)) ne) as [[fs rest]|] eqn:EA; [|discriminate HR].
        assert (HS : same d (mkRsf o (length d - o) false 0) (sf_init (skipn o d))).
        { unfold same, sf_init. cbn [r_v r_remaining r_finished r_prev sf_v sf_finished sf_prev]. repeat split. lia. }
        destruct (raw_row_same d _ _ _ ne 0 cols fs rest HS EA) as (it' & -> & A & B & C). cbn [r_v] in C.
        destruct (fields_into conv q nc fs 0 cols) as [ci cols']. cbn [fst snd] in *.
        replace (o + (length d - o - r_remaining it')) with (r_v it') by lia. apply IH; [lia|lia|]. rewrite <- B. exact HR.
Qed.

Lemma skip_quoted_step c r : skip_quoted q (c :: r) = if N.eqb c q then if next_is q r then skip_quoted q (tl r) else (false, r) else skip_quoted q r.
Proof. cbn [skip_quoted]. destruct (N.eqb c q); [|reflexivity]. destruct r; reflexivity. Qed.
Lemma skip_row_step b c r : skip_row q b (c :: r) =
  if N.eqb c q then if b && next_is q r then skip_row q b (tl r) else skip_row q (negb b) r
  else if negb b && (N.eqb c LF || N.eqb c CR) then if N.eqb c CR && next_is LF r then tl r else r else skip_row q b r.
Proof. cbn [skip_row]. destruct (N.eqb c q); [|reflexivity]. destruct b, r; reflexivity. Qed.
Lemma next_lt c d i : next_is c (skipn i d) = true -> i < length d.
Proof. intros E. destruct (pos d i) as [_ X|x X _ _]; [rewrite X in E; discriminate E|apply Nat.ltb_lt in X; exact X]. Qed.

Lemma raw_skip_quoted_eq d : forall f off, length d - off <= f -> off <= length d ->
  exists o, raw_skip_quoted q f d (length d) off = Some (fst (skip_quoted q (skipn off d)), o) /\ skipn o d = snd (skip_quoted q (skipn off d)) /\ off <= o <= length d.
Proof.
  induction f as [|f IH]; intros off Hf Ho; cbn [raw_skip_quoted].
  - destruct (pos d off) as [-> ->|c E1 _ _]; [|apply Nat.ltb_lt in E1; lia]. exists off. rewrite skipn_all2 by lia. split; [reflexivity|split; [reflexivity|lia]].
  - destruct (pos d off) as [-> E|c E1 E2 E3].
    + exists off. rewrite E. split; [reflexivity|split; [reflexivity|lia]].
    + rewrite E1, E2, E3, skip_quoted_step, peek_next. apply Nat.ltb_lt in E1. destruct (N.eqb c q).
      * destruct (next_is q (skipn (off + 1) d)) eqn:EL.
        -- apply next_lt in EL. destruct (IH (off + 2)) as (o & A & B & C); [lia|lia|]. rewrite <- skipn_2. exists o. split; [exact A|]. split; [exact B|lia].
        -- exists (off + 1). split; [reflexivity|]. split; [reflexivity|lia].
      * destruct (IH (off + 1)) as (o & A & B & C); [lia|lia|]. exists o. split; [exact A|]. split; [exact B|lia].
Qed.
Lemma raw_skip_row_eq d : forall f b off, length d - off <= f -> off <= length d ->
  exists o, raw_skip_row q f b d (length d) off = Some o /\ skipn o d = skip_row q b (skipn off d) /\ off <= o <= length d.
Proof.
  induction f as [|f IH]; intros b off Hf Ho; cbn [raw_skip_row].
  - destruct (pos d off) as [-> ->|c E1 _ _]; [|apply Nat.ltb_lt in E1; lia]. exists off. rewrite skipn_all2 by lia. split; [reflexivity|split; [destruct b; reflexivity|lia]].
  - destruct (pos d off) as [-> E|c E1 E2 E3].
    + exists off. rewrite E. split; [reflexivity|split; [destruct b; reflexivity|lia]].
    + rewrite E1, E2, E3, skip_row_step, !also_peek. apply Nat.ltb_lt in E1. destruct (N.eqb c q).
      * destruct (b && next_is q (skipn (off + 1) d)) eqn:EL.
        -- apply andb_true_iff in EL. destruct EL as [_ EL]. apply next_lt in EL. destruct (IH b (off + 2)) as (o & A & B & C); [lia|lia|]. rewrite <- skipn_2. exists o. split; [exact A|]. split; [exact B|lia].
        -- destruct (IH (negb b) (off + 1)) as (o & A & B & C); [lia|lia|]. exists o. split; [exact A|]. split; [exact B|lia].
      * destruct (negb b && _).
        -- destruct (N.eqb c CR && next_is LF (skipn (off + 1) d)) eqn:EL.
           ++ apply andb_true_iff in EL. destruct EL as [_ EL]. apply next_lt in EL. exists (off + 1 + 1). rewrite <- skipn_1. split; [reflexivity|]. split; [reflexivity|lia].
           ++ exists (off + 1). split; [reflexivity|]. split; [reflexivity|lia].
        -- destruct (IH b (off + 1)) as (o & A & B & C); [lia|lia|]. exists o. split; [exact A|]. split; [exact B|lia].
Qed.

Lemma raw_parse_chunk_same ne d cols st r : parse_chunk conv lanes clmul sep q nc ne d cols st = Some r ->
  raw_parse_chunk conv lanes clmul sep q nc ne d (length d) cols st = Some r.
Proof.
  unfold parse_chunk, raw_parse_chunk. destruct (_ || _); [auto|]. cbv zeta. intros HR.
  assert (E : exists o, (if st then let? (in_quote, o) := raw_skip_quoted q (S (length d)) d (length d) 0 in raw_skip_row q (S (length d)) in_quote d (length d) o
                    else Some 0) = Some o /\ o <= length d /\
              skipn o d = (if st then let '(in_quote, r) := skip_quoted q d in skip_row q in_quote r else d)).
  { destruct st; [|exists 0; split; [reflexivity|]; split; [lia|reflexivity]].
    destruct (raw_skip_quoted_eq d (S (length d)) 0) as (o & -> & B & C); [lia|lia|]. cbn [skipn] in *.
    destruct (skip_quoted q d) as [b rest]. cbn [fst snd] in *.
    destruct (raw_skip_row_eq d (S (length d)) b o) as (o2 & A2 & B2 & C2); [lia|lia|]. exists o2. split; [exact A2|]. split; [lia|]. rewrite B2, B. reflexivity. }
  destruct E as (o & -> & Ho & ES). rewrite <- ES in HR. rewrite skipn_length in HR.
  apply (raw_rows_same d ne (S (length d - o))); [lia|exact Ho|exact HR].
Qed.

Lemma raw_read_serial_same ne ncols d he r : he <= length d -> read_all_serial conv lanes clmul sep q nc ne ncols d he = Some r ->
  raw_read_serial conv lanes clmul sep q nc ne ncols d (length d) he = Some r.
Proof.
  intros Hh. unfold read_all_serial, raw_read_serial. destruct (ncols =? 0); [auto|]. cbv zeta.
  destruct (read_rows _ _ _ _ _ _ _ _ _ _ _) as [[cols n]|] eqn:E; [|discriminate]. intros HR.
  rewrite skipn_length in E. rewrite (raw_rows_same d ne (S (length d - he)) (S (length d)) he _ _ _ ltac:(lia) Hh E). exact HR.
Qed.

Lemma on_chunk_in {A} d s e (x : A) f : s < e -> e <= length d -> on_chunk d (length d) (s, e) x f = f (slice s e d) (length (slice s e d)).
Proof.
  intros H1 H2. unfold on_chunk, load. replace (length d <=? s) with false by lia. replace (length d <? e) with false by lia.
  replace (e <=? s) with false by lia. cbn [orb]. replace (s + (e - s) <=? length d) with true by lia. cbv iota.
  unfold slice. rewrite (view_len d s (e - s)) by lia. reflexivity.
Qed.
Lemma map_option_in {A B} (f g : A -> option B) l : (forall x, In x l -> f x = g x) -> map_option f l = map_option g l.
Proof. intros H. induction l as [|x l IH]; [reflexivity|]. cbn [map_option]. rewrite H by (left; reflexivity). rewrite IH; [reflexivity|]. intros y Hy. apply H. right. exact Hy. Qed.
Lemma map_option_some {A B} (f g : A -> option B) l r : (forall x y, In x l -> f x = Some y -> g x = Some y) -> map_option f l = Some r -> map_option g l = Some r.
Proof.
  revert r. induction l as [|x l IH]; intros r H E; cbn [map_option] in E |- *; [exact E|].
  destruct (f x) as [y|] eqn:Ex; [|discriminate E]. destruct (map_option f l) as [ys|] eqn:El; [|discriminate E].
  rewrite (H x y (or_introl eq_refl) Ex). rewrite (IH ys); [exact E| |reflexivity]. intros x' y' Hx. apply H. right. exact Hx.
Qed.
Lemma map_option_map2 {A B C} (f : B -> option C) (g : A -> B) l : map_option f (map g l) = map_option (fun x => f (g x)) l.
Proof. induction l as [|x l IH]; [reflexivity|]. cbn [map map_option]. rewrite IH. reflexivity. Qed.
Lemma chunk_ranges_ext fre fre' ch size : (forall s, fre s = fre' s) -> forall f off, chunk_ranges_loop f fre ch size off = chunk_ranges_loop f fre' ch size off.
Proof.
  intros H.
  assert (X : forall f t e, extend_target f fre ch size t e = extend_target f fre' ch size t e).
  { induction f as [|f IH]; intros t e; cbn [extend_target]; [reflexivity|]. destruct (_ && _); [|reflexivity]. cbv zeta. rewrite H. destruct (fre' _); [apply IH|reflexivity]. }
  induction f as [|f IH]; intros off; cbn [chunk_ranges_loop]; [reflexivity|]. destruct (off <? size); [|reflexivity].
  unfold chunk_end. cbv zeta. rewrite H.
  destruct (_ <? size); [destruct (fre' _) as [e|]; [rewrite X; destruct (extend_target _ _ _ _ _ _); [rewrite IH; reflexivity|reflexivity]|reflexivity]|rewrite IH; reflexivity].
Qed.

Lemma raw_read_all_same thr ch ne ncols d he r : he <= length d ->
  (forall rs, chunk_ranges lanes clmul q d he ch = Some rs -> tiles he (length d) rs) ->
  read_all_with conv lanes clmul sep q nc thr ch ne ncols d he = Some r ->
  raw_read_all_with conv lanes clmul sep q nc thr ch ne ncols d (length d) he = Some r.
Proof.
  intros Hh HT. unfold read_all_with, raw_read_all_with. destruct (ncols =? 0); [auto|].
  destruct (length d - he <? thr); [apply raw_read_serial_same; exact Hh|].
  rewrite (chunk_ranges_ext _ (find_row_end lanes clmul q d)) by (intros s; apply raw_row_end_eq; exact Hl).
  fold (chunk_ranges lanes clmul q d he ch). destruct (chunk_ranges lanes clmul q d he ch) as [rs|]; [|discriminate].
  specialize (HT rs eq_refl). destruct (length rs <=? 1); [apply raw_read_serial_same; exact Hh|].
  unfold read_chunks. rewrite map_option_map2. intros HR.
  rewrite (map_option_in _ (fun x => analyze_chunk_dual_state_simd lanes clmul (let '(s, e) := x in slice s e d) q)).
  2:{ intros [s e] Hx. apply (tiles_in _ _ _ HT) in Hx. rewrite on_chunk_in by lia. apply raw_dual_eq. exact Hl. }
  destruct (map_option _ rs) as [ds|]; [|discriminate HR]. cbv zeta in HR.
  destruct (map_option (fun '(r, st) => parse_chunk _ _ _ _ _ _ _ _ _ _) _) as [xs|] eqn:EX; [|discriminate HR].
  match goal with |- (let? rs := map_option ?g ?l in _) = _ => assert (EG : map_option g l = Some xs) end.
  { revert EX. apply map_option_some. intros [[s e] st] y Hin E. apply in_combine_l in Hin. apply (tiles_in _ _ _ HT) in Hin. cbn [fst snd] in E.
    rewrite on_chunk_in by lia. apply raw_parse_chunk_same. exact E. }
  rewrite EG. exact HR.
Qed.
End Rows.
