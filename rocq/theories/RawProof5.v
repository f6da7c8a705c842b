(** Summary lemmas for RawProps. *)
From Verif Require Import Base TypesSpec WordsModel WordsProof ChunkSpec ChunkModel ChunkProof ChunkProof2 FieldsModel NumModel DateModel ReaderModel TypesModel
  RawModel RawProof RawProof2 RawProof3 RawModel2 RawProof4.

Lemma reading_inside {V} (conv : nat -> bytes -> option V) lanes clmul sep q nulls thr ch ne ncols data he :
  lanes_ok lanes -> he <= length data ->
  exists r, raw_read_all_with conv lanes clmul sep q (make_null_checker nulls) thr ch ne ncols data (length data) he = Some r /\
    read_all_with conv lanes clmul sep q (make_null_checker nulls) thr ch ne ncols data he = Some r.
Proof.
  intros HL Hhe. destruct (read_total lanes clmul q HL conv sep nulls thr ch ne ncols data he Hhe) as (r & HR). exists r. split; [|exact HR].
  apply raw_read_all_same; [exact (proj1 HL)|exact Hhe| |exact HR].
  intros rs E. destruct (ranges_total lanes clmul q HL data he ch Hhe) as (rs' & E' & T). rewrite E in E'. injection E' as ->. exact T.
Qed.
Lemma scanning_inside lanes clmul q data start : lanes_ok lanes ->
  (exists n e, raw_count_rows lanes clmul data (length data) q = Some (n, e) /\ count_rows lanes clmul data q = Some (n, e)) /\
  (exists e, raw_row_end lanes clmul q data (length data) start = Some e /\ find_row_end lanes clmul q data start = Some e /\
     e <= length data /\ (start < length data -> start < e)) /\
  (exists d, raw_dual lanes clmul data (length data) q = Some d /\ analyze_chunk_dual_state_simd lanes clmul data q = Some d).
Proof.
  intros HL. pose proof (proj1 HL) as L1. split; [|split].
  - rewrite (raw_count_rows_eq lanes L1). pose proof (count_total lanes clmul q HL data) as T. destruct (count_rows lanes clmul data q) as [[n e]|]; [|contradiction].
    exists n, e. split; reflexivity.
  - rewrite (raw_row_end_eq lanes L1). destruct (row_end_total lanes clmul q HL data start) as (e & E & B). exists e. rewrite E. split; [reflexivity|].
    split; [reflexivity|]. split; [exact B|]. intros Hs. destruct (row_end_bounds lanes clmul q HL data start Hs) as (e' & E' & B'). rewrite E in E'. injection E' as ->. lia.
  - rewrite (raw_dual_eq lanes L1). pose proof (dual_total lanes clmul q HL data) as T. destruct (analyze_chunk_dual_state_simd lanes clmul data q) as [d|]; [|contradiction].
    exists d. split; reflexivity.
Qed.

(** Sixty-five bytes. *)
Definition sixty_five : bytes := repeat 97%N 65.
Lemma wide_masks lanes c p f co acc : 65 < lanes + p + co -> co < 64 -> raw_assemble f lanes c sixty_five p co acc = None.
Proof.
  intros H Hc. destruct f as [|f]; cbn [raw_assemble]; apply Nat.ltb_lt in Hc; rewrite Hc; [reflexivity|].
  unfold load. change (length sixty_five) with 65. replace (p + co + lanes <=? 65) with false by lia. reflexivity.
Qed.
Lemma wide_vectors : forall lanes, 128 <= lanes -> exists data : bytes, forall clmul,
    length data = 65 /\
    raw_count_rows lanes clmul data (length data) DQ = None /\ raw_row_end lanes clmul DQ data (length data) 0 = None /\
    raw_read_all_with (fun _ v => Some v) lanes clmul COMMA DQ (make_null_checker []) 100 100 false 1 data (length data) 0 = None.
Proof.
  intros lanes H. exists sixty_five. intros clmul. split; [reflexivity|]. change (length sixty_five) with 65.
  assert (M : forall c, raw_assemble 64 lanes c sixty_five 0 0 0 = None) by (intros c; apply wide_masks; lia).
  assert (MM : raw_masks lanes DQ sixty_five 0 = None) by (unfold raw_masks; rewrite M; reflexivity).
  assert (B1 : forall f, raw_analyze_blocks (S f) lanes clmul DQ sixty_five 65 0 0%N 0 0 = None).
  { intros f. cbn [raw_analyze_blocks]. change (0 + 64 <=? 65) with true. cbv iota. rewrite MM. reflexivity. }
  assert (B2 : forall f, raw_row_end_blocks (S f) lanes clmul DQ sixty_five 65 0 0%N = None).
  { intros f. cbn [raw_row_end_blocks]. change (0 + 64 <=? 65) with true. cbv iota. rewrite MM. reflexivity. }
  assert (B3 : forall f, raw_scan_row (S f) 0 DQ sixty_five 65 0 false = Some (inr (0, false))) by reflexivity.
  assert (B4 : forall f, raw_scan_unquoted (S f) lanes COMMA LF sixty_five 0 65 0 = None).
  { intros f. cbn [raw_scan_unquoted]. change (64 <? 65 - 0) with true. cbv iota. change (0 + 0) with 0. rewrite M. reflexivity. }
  split; [|split].
  - unfold raw_count_rows. change (65 <? 64) with false. cbv iota. unfold raw_analyze. change (65 =? 0) with false. cbv iota zeta. rewrite (B1 64). reflexivity.
  - unfold raw_row_end. change (64 <=? 65 - 0) with true. cbv iota. unfold raw_row_end_simd. change (65 <=? 0) with false. cbv iota zeta.
    change ((0 + 63) / 64 * 64) with 0. change (65 <? 0) with false. cbv iota. rewrite (B3 65). exact (B2 64).
  - assert (N1 : raw_next lanes clmul COMMA DQ LF sixty_five (mkRsf 0 65 false 0) false = None).
    { unfold raw_next. cbn [r_finished r_prev r_remaining r_v]. change (negb (N.eqb 0 0)) with false. cbv iota zeta. change (65 =? 0) with false. cbv iota.
      change (also (negb (N.eqb DQ 0)) (let? c := rd sixty_five 0 in Some (N.eqb c DQ))) with (Some false). cbv iota. rewrite (B4 64). reflexivity. }
    assert (B5 : forall (V : Type) (conv : nat -> bytes -> option V) nc f k cols,
      RawModel.raw_row conv lanes clmul COMMA DQ nc (S f) sixty_five (mkRsf 0 65 false 0) false k cols = None)
      by (intros; cbn [RawModel.raw_row]; rewrite N1; reflexivity).
    assert (B6 : forall (V : Type) (conv : nat -> bytes -> option V) nc f cols n,
      raw_rows conv lanes clmul COMMA DQ nc (S f) false sixty_five 65 0 cols n = None).
    { intros. cbn [raw_rows]. change (0 <? 65) with true. cbv iota. change (raw_skip_empty 66 sixty_five 65 0) with (Some 0). cbv iota zeta.
      change (65 <=? 0) with false. cbv iota. change (65 - 0) with 65. rewrite B5. reflexivity. }
    unfold raw_read_all_with. change (1 =? 0) with false. change (65 - 0 <? 100) with true. cbv iota. unfold raw_read_serial. change (1 =? 0) with false. cbv iota.
    rewrite B6. reflexivity.
Qed.
