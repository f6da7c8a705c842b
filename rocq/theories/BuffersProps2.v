(** C60, exactly. *)
From Verif Require Import Base BuffersSpec BuffersSpec2 BuffersModel BuffersObs BuffersProof4.

(** Every history over any number of bitmaps, every index and flag: the write
    is out of bounds exactly when the byte is not stored; otherwise it changes
    what is read exactly when there is a null; the stored count stays. *)
Theorem C60_set_exactly : forall ops states h flags f i v,
  run flags_and_finalized [] ops = Some states ->
  nth_error states h = Some (flags, f) -> i < length flags ->
  exists bitmaps m, run bitmap_impl [] ops = Some bitmaps /\ nth_error bitmaps h = Some m /\
  match bm_set m i v with
  | None => ~ stored flags f i
  | Some m' =>
      stored flags f i /\ bm_size m' = length flags /\
      (forall j w, nth_error (if some_null flags then update flags i v else flags) j = Some w -> is_valid m' j = Some w) /\
      null_count m' = Some (nulls_in (if some_null flags then update flags i v else flags)) /\
      null_count_fast m' = nulls_in flags
  end.
Proof. exact set_exactly. Qed.
Print Assumptions C60_set_exactly.

(** So the full claim holds exactly when the call changes nothing. *)
Theorem C60_right_exactly_when : forall ops states h flags f i v,
  run flags_and_finalized [] ops = Some states ->
  nth_error states h = Some (flags, f) -> i < length flags ->
  exists bitmaps m, run bitmap_impl [] ops = Some bitmaps /\ nth_error bitmaps h = Some m /\
  ((exists m', bm_set m i v = Some m' /\
      (forall j w, nth_error (update flags i v) j = Some w -> is_valid m' j = Some w) /\
      null_count m' = Some (nulls_in (update flags i v)) /\ null_count_fast m' = nulls_in (update flags i v)) <->
   stored flags f i /\ nth_error flags i = Some v).
Proof. exact set_right. Qed.
Print Assumptions C60_right_exactly_when.

Example C60_exactly_meets :
  run flags_and_finalized [] [New; Push 0 true; Finalize 0; Push 0 true; New; AppendFrom 1 0; Push 1 false]
  = Some [([true; true], 1); ([true; true; false], 0)] /\ stored [true; true] 1 1 /\ ~ stored [true; true] 0 1.
Proof.
  split; [reflexivity|]. split; [right; vm_compute; lia|]. intros [H|H]; [discriminate|]. vm_compute in H. lia.
Qed.
