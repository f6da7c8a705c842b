(** Every read lands inside the buffer, whatever the quote and the separator are. *)
From Verif Require Import Base WordsModel WordsProof ChunkSpec ChunkModel ChunkProof ChunkProof2 ChunkProof3 FieldsModel FieldsProof ReaderSpec ReaderModel
  ReaderProof ReaderProof2 ReaderProof3 RawModel RawProof RawProof2.

Section Safe.
Variables (lanes : nat) (clmul : bool) (q : byte).
Hypothesis HL : lanes_ok lanes.

Lemma eol_small qb nb cb st l eol st' : (nb < 2 ^ 64)%N -> (cb < 2 ^ 64)%N -> block_valid_eol clmul qb nb cb st l = (eol, st') ->
  eol <> 0%N -> ctz eol < 64.
Proof.
  intros Hn Hc E H0. unfold block_valid_eol in E. destruct (find_quote_mask clmul qb st) as [iq s']. cbv zeta in E. injection E as <- _.
  destruct (ctz_spec _ H0) as [T _]. match type of T with tb ?e _ = true => set (x := e) in * end. set (k := ctz x) in *. clearbody k.
  destruct (Nat.lt_ge_cases k 64) as [|Hk]; [assumption|]. exfalso. unfold x in T. rewrite tb_lor, tb_land, (tb_high nb 64) in T by assumption. cbn [andb orb] in T.
  destruct (negb _ && _); rewrite !tb_land, (tb_high cb 64) in T by assumption; discriminate T.
Qed.
Lemma masks_ok l : 64 <= length l -> exists qb nb cb, block_masks lanes q l = Some (qb, nb, cb) /\ (nb < 2 ^ 64)%N /\ (cb < 2 ^ 64)%N.
Proof.
  intros H. destruct HL as [H1 H2]. rewrite block_masks_ok by assumption. eexists _, _, _. split; [reflexivity|].
  split; apply block_mask_lt64; rewrite firstn_length; lia.
Qed.

Lemma analyze_blocks_total : forall f l off st rows last, length l <= f -> analyze_blocks f lanes clmul q l off st rows last <> None.
Proof.
  induction f as [|f IH]; intros l off st rows last Hf; cbn [analyze_blocks]; destruct (Nat.leb_spec 64 (length l)) as [H|H]; try discriminate; [lia|].
  destruct (masks_ok l H) as (qb & nb & cb & -> & _ & _). destruct (block_valid_eol _ _ _ _ _ _) as [e s]. apply IH. rewrite skipn_length. lia.
Qed.
Lemma dual_blocks_total : forall f l off st ro lo ri li, length l <= f -> dual_blocks f lanes clmul q l off st ro lo ri li <> None.
Proof.
  induction f as [|f IH]; intros l off st ro lo ri li Hf; cbn [dual_blocks]; destruct (Nat.leb_spec 64 (length l)) as [H|H]; try discriminate; [lia|].
  destruct (masks_ok l H) as (qb & nb & cb & -> & _ & _). destruct (dual_block_eol _ _ _ _ _ _) as [[e s] t]. apply IH. rewrite skipn_length. lia.
Qed.
Lemma analyze_total d st : analyze_chunk_simd lanes clmul d q st <> None.
Proof. unfold analyze_chunk_simd. destruct d; [discriminate|]. apply analyze_blocks_total. lia. Qed.
Lemma dual_total d : analyze_chunk_dual_state_simd lanes clmul d q <> None.
Proof. unfold analyze_chunk_dual_state_simd. destruct d; [discriminate|]. apply dual_blocks_total. lia. Qed.
Lemma count_total d : count_rows lanes clmul d q <> None.
Proof.
  unfold count_rows, count_rows_simd. destruct (_ <? _); [discriminate|]. pose proof (analyze_total d false).
  destruct (analyze_chunk_simd _ _ _ _ _) as [[[a b] c]|]; [discriminate|contradiction].
Qed.

Lemma scan_bounds L : forall n l off inq, length l <= n ->
  match row_end_scan L q l off inq with
  | Found p => off < p <= off + length l
  | Cont l' o _ => off <= o /\ o + length l' = off + length l
  end.
Proof.
  induction n as [|n IH]; intros l off inq Hn; destruct l as [|c l]; try (cbn [length] in Hn; lia).
  - cbn [row_end_scan]. destruct (match L with Some a => off <? a | None => true end); cbn [length]; lia.
  - cbn [row_end_scan]. destruct (match L with Some a => off <? a | None => true end); cbn [length]; lia.
  - rewrite row_end_scan_step. cbn [length] in *. destruct (match L with Some a => off <? a | None => true end); [|cbn [length]; lia].
    destruct (N.eqb c q).
    + destruct (inq && next_is q l) eqn:E.
      * destruct l as [|c' l]; [destruct inq; discriminate E|]. cbn [tl length] in *. specialize (IH l (off + 2) inq ltac:(lia)).
        destruct (row_end_scan _ _ _ _ _); lia.
      * specialize (IH l (off + 1) (negb inq) ltac:(lia)). destruct (row_end_scan _ _ _ _ _); lia.
    + destruct (negb inq).
      * destruct (N.eqb c LF); [lia|]. destruct (N.eqb c CR).
        -- destruct l as [|c' l]; cbn [next_is length]; [lia|]. destruct (N.eqb c' LF); lia.
        -- specialize (IH l (off + 1) inq ltac:(lia)). destruct (row_end_scan _ _ _ _ _); lia.
      * specialize (IH l (off + 1) inq ltac:(lia)). destruct (row_end_scan _ _ _ _ _); lia.
Qed.
Lemma blocks_bounds size : forall f l off st, length l <= f -> off + length l = size ->
  exists e, row_end_blocks f lanes clmul q size l off st = Some e /\ (off < e \/ off = size /\ e = size) /\ e <= size.
Proof.
  assert (T : forall l off b, off + length l = size -> exists e,
    match row_end_scan None q l off b with Found p => Some p | Cont _ _ _ => Some size end = Some e /\ (off < e \/ off = size /\ e = size) /\ e <= size).
  { intros l off b Ho. pose proof (scan_bounds None (length l) l off b ltac:(lia)) as S0. destruct (row_end_scan None q l off b) as [p|l' o i].
    - exists p. split; [reflexivity|]. lia.
    - exists size. split; [reflexivity|]. lia. }
  induction f as [|f IH]; intros l off st Hf Ho; cbn [row_end_blocks]; destruct (Nat.leb_spec 64 (length l)) as [H|H]; try lia; try (apply T; exact Ho).
  destruct (masks_ok l H) as (qb & nb & cb & -> & Hn & Hc). destruct (block_valid_eol clmul qb nb cb st l) as [e s] eqn:EV.
  destruct (N.eqb_spec e 0) as [E0|E0].
  - destruct (IH (skipn 64 l) (off + 64) s) as (x & A & B & C); [rewrite skipn_length; lia|rewrite skipn_length; lia|].
    exists x. split; [exact A|]. split; [left|]; lia.
  - pose proof (eol_small _ _ _ _ _ _ _ Hn Hc EV E0) as Hk. cbv zeta. set (k := ctz e) in *. clearbody k.
    destruct (skipn k l) as [|c r] eqn:EK.
    + apply (f_equal (@length _)) in EK. rewrite skipn_length in EK. cbn in EK. lia.
    + apply (f_equal (@length _)) in EK. rewrite skipn_length in EK. cbn [length] in EK.
      destruct (N.eqb c LF); [exists (off + k + 1); split; [reflexivity|]; lia|].
      destruct r as [|c' r]; cbn [next_is]; [exists (off + k + 1); split; [reflexivity|]; lia|]. cbn [length] in EK.
      destruct (N.eqb c' LF); eexists; (split; [reflexivity|]); lia.
Qed.
Lemma row_end_bounds d s : s < length d -> exists e, find_row_end lanes clmul q d s = Some e /\ s < e <= length d.
Proof.
  intros Hs. unfold find_row_end. destruct (64 <=? length d - s).
  - unfold find_row_end_simd. replace (length d <=? s) with false by lia. cbv zeta.
    set (al := (s + 63) / 64 * 64). clearbody al. set (a := if length d <? al then length d else al). clearbody a.
    pose proof (scan_bounds (Some a) (length (skipn s d)) (skipn s d) s false ltac:(lia)) as S0. rewrite skipn_length in S0.
    destruct (row_end_scan (Some a) q (skipn s d) s false) as [p|l o i]; [exists p; split; [reflexivity|lia]|].
    destruct (blocks_bounds (length d) (length d) l o (if i then ones64 else 0%N)) as (e & A & B & C); [lia|lia|].
    exists e. split; [exact A|]. lia.
  - unfold find_row_end_scalar. pose proof (scan_bounds None (length (skipn s d)) (skipn s d) s false ltac:(lia)) as S0. rewrite skipn_length in S0.
    destruct (row_end_scan None q (skipn s d) s false) as [p|l o i]; eexists; (split; [reflexivity|]); lia.
Qed.
Lemma row_end_total d s : exists e, find_row_end lanes clmul q d s = Some e /\ e <= length d.
Proof.
  destruct (Nat.lt_ge_cases s (length d)) as [H|H]; [destruct (row_end_bounds d s H) as (e & A & B); exists e; split; [exact A|lia]|].
  unfold find_row_end, find_row_end_scalar. replace (64 <=? length d - s) with false by lia. rewrite skipn_all2 by lia.
  exists (length d). split; [reflexivity|lia].
Qed.
Lemma ranges_total d start ch : start <= length d ->
  exists rs, chunk_ranges lanes clmul q d start ch = Some rs /\ tiles start (length d) rs.
Proof. intros H. apply chunk_ranges_loop_tiles; [|exact H|lia]. intros s Hs. apply row_end_bounds. exact Hs. Qed.

Context {V : Type}.
Variable conv : nat -> bytes -> option V.
Variables (sep : byte) (sp : bytes).
Notation nc := (make_null_checker sp).

Lemma read_total thr ch ne ncols d he : he <= length d ->
  exists r, read_all_with conv lanes clmul sep q nc thr ch ne ncols d he = Some r.
Proof.
  intros Hhe. unfold read_all_with. destruct (Nat.eqb_spec ncols 0) as [->|Hn]; [eexists; reflexivity|].
  assert (Hser : exists r, read_all_serial conv lanes clmul sep q nc ne ncols d he = Some r).
  { destruct (read_serial_rect conv lanes clmul sep q sp HL ne ncols d he ltac:(lia)) as (cols & n0 & H1 & H2). eexists; exact H1. }
  destruct (_ <? _); [exact Hser|]. destruct (ranges_total d he ch Hhe) as (rs & -> & _). destruct (_ <=? _); [exact Hser|].
  unfold read_chunks.
  destruct (map_option_total (fun c => analyze_chunk_dual_state_simd lanes clmul c q) (fun _ _ => True) (map (fun '(s, e) => slice s e d) rs)) as (ds & -> & _).
  { intros x _. pose proof (dual_total x) as D. destruct (analyze_chunk_dual_state_simd lanes clmul x q) as [y|]; [exists y; auto|contradiction]. }
  cbv zeta.
  destruct (map_option_total (fun '(r, st) => parse_chunk conv lanes clmul sep q nc ne (slice (fst r) (snd r) d) (empty_columns ncols) st)
              (fun _ _ => True) (combine rs (link_states false ds))) as (ys & -> & _).
  { intros [r st] _. destruct (parse_chunk_rect conv lanes clmul sep q sp HL ne (slice (fst r) (snd r) d) ncols st ltac:(lia)) as (cols & n & H1 & H2).
    exists (cols, n). auto. }
  eexists. reflexivity.
Qed.
End Safe.

(** *** The header and the number of columns *)
Lemma header_step sep q c r inq cur names : header_loop sep q (c :: r) inq cur names =
  if negb inq && is_nl c then (names ++ [drop_while_end is_blank cur], [])
  else if N.eqb c q then
    if inq && next_is q r then header_loop sep q (tl r) inq (cur ++ [q]) names else header_loop sep q r (negb inq) cur names
  else if N.eqb c sep && negb inq then header_loop sep q r inq [] (names ++ [drop_while_end is_blank cur])
  else if (length cur =? 0) && negb inq && is_blank c then header_loop sep q r inq cur names
  else header_loop sep q r inq (cur ++ [c]) names.
Proof. cbn [header_loop]. destruct (negb inq && is_nl c); [reflexivity|]. destruct (N.eqb c q); [|reflexivity]. destruct inq, r; reflexivity. Qed.
Lemma raw_header_loop_eq sep q d : forall f i inq cur names, length d - i <= f ->
  raw_header_loop f sep q d (length d) i inq cur names = Some (header_loop sep q (skipn i d) inq cur names).
Proof.
  induction f as [|f IH]; intros i inq cur names Hf; cbn [raw_header_loop].
  - destruct (pos d i) as [-> ->|c E1 _ _]; [reflexivity|]. apply Nat.ltb_lt in E1. lia.
  - destruct (pos d i) as [-> ->|c E1 E2 E3]; [reflexivity|]. rewrite E1, E2, E3, header_step, also_peek. replace (i + 1 + 1) with (i + 2) by lia.
    destruct (negb inq && is_nl c); [reflexivity|]. destruct (N.eqb c q).
    + destruct (inq && next_is q (skipn (i + 1) d)); [rewrite <- skipn_2|]; apply IH; lia.
    + destruct (N.eqb c sep && negb inq); [apply IH; lia|]. destruct (_ && is_blank c); apply IH; lia.
Qed.
Lemma raw_parse_header_eq sep q d : raw_parse_header sep q d (length d) = Some (parse_header sep q d).
Proof.
  unfold raw_parse_header, parse_header. destruct d as [|x d]; [reflexivity|]. change (length (x :: d) =? 0) with false. cbv iota.
  rewrite raw_header_loop_eq by lia. cbn [skipn]. destruct (header_loop _ _ _ _ _ _) as [names cur]. destruct (_ || _); reflexivity.
Qed.
Lemma columns_step sep q c r inq n : count_columns sep q (c :: r) inq n =
  if N.eqb c q then if inq && next_is q r then count_columns sep q (tl r) inq n else count_columns sep q r (negb inq) n
  else if N.eqb c sep && negb inq then count_columns sep q r inq (n + 1) else count_columns sep q r inq n.
Proof. cbn [count_columns]. destruct (N.eqb c q); [|reflexivity]. destruct inq, r; reflexivity. Qed.
Lemma raw_count_columns_eq sep q d e : e <= length d -> forall f i inq n, e - i <= f ->
  raw_count_columns f sep q d e i inq n = Some (count_columns sep q (skipn i (firstn e d)) inq n).
Proof.
  intros He. assert (HW : length (firstn e d) = e) by (rewrite firstn_length; lia).
  assert (HR : forall i, i < e -> rd d i = rd (firstn e d) i) by (intros i Hi; unfold rd; rewrite nth_error_firstn_lt by exact Hi; reflexivity).
  assert (HP : forall b i c, also b (peek d e i c) = Some (b && next_is c (skipn i (firstn e d)))).
  { intros b i c. rewrite <- also_peek, HW. unfold peek. destruct (Nat.ltb_spec i e) as [H|H]; [rewrite HR by exact H|]; reflexivity. }
  induction f as [|f IH]; intros i inq n Hf; cbn [raw_count_columns].
  - replace (i <? e) with false by lia. rewrite skipn_all2 by lia. reflexivity.
  - destruct (Nat.ltb_spec i e) as [H|H]; [|rewrite skipn_all2 by lia; reflexivity]. rewrite HR by exact H.
    destruct (pos (firstn e d) i) as [E1 _|c _ E2 E3]; [apply Nat.ltb_ge in E1; lia|]. rewrite E2, E3, columns_step, HP. replace (i + 1 + 1) with (i + 2) by lia.
    destruct (N.eqb c q).
    + destruct (inq && next_is q _); [rewrite <- skipn_2|]; apply IH; lia.
    + destruct (N.eqb c sep && negb inq); apply IH; lia.
Qed.
