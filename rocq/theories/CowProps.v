(** C25: copy-on-write isolation. *)
From Verif Require Import Base ChunkedSpec CowSpec CowModel CowProof.

(** Every history of copies, moves, swaps, writes and drops: each handle reads exactly as an
    independent vector would ([live] = its value, None when destroyed). *)
Theorem C25_handles_are_isolated : forall T (ops : list (wop T)) values,
  spec_wrun [] ops = Some values ->
  exists st, wrun wstart ops = Some st /\
    (forall h, as_vec st h = live values h) /\
    (forall h l i v, live values h = Some l -> nth_error l i = Some v -> const_index st h i = Some v).
Proof.
  intros T ops values E. destruct (wrun_ok ops wstart [] values (Forall2_nil _) E) as (st & Er & H).
  exists st. split; [assumption|]. split.
  - intros h. apply winv_as_vec. assumption.
  - intros h l i v El Ei. exact (winv_index _ _ _ _ _ _ H El Ei).
Qed.
Print Assumptions C25_handles_are_isolated.

Example C25_meets :
  let ops := [WMake [1; 2]; WCopy 0; WPush 1 3; WCopy 1; WSet 1 0 9; WMove 0; WPush 0 7; WAssign 0 2; WClear 2; WDrop 1] in
  spec_wrun [] ops = Some [Some [1; 2; 3]; None; Some []; Some [1; 2]] /\
  option_map (fun st => map (as_vec st) [0; 1; 2; 3]) (wrun wstart ops)
  = Some [Some [1; 2; 3]; None; Some []; Some [1; 2]].
Proof. vm_compute. auto. Qed.
Print Assumptions C25_meets.

(** A reference kept from to_mut() is not protected: copying the buffer and then writing
    through the old reference changes the copy too. *)
Theorem C25_kept_reference_refuted :
  exists (st0 st1 st2 st3 : state nat) a,
    wrun wstart [WMake [1]] = Some st0 /\ to_mut st0 0 = Some (st1, a) /\
    wstep st1 (WCopy 0) = Some st2 /\ as_vec st2 1 = Some [1] /\
    write_through st2 a 5 = Some st3 /\ as_vec st3 1 = Some [1; 5].
Proof. do 5 eexists. repeat split. Qed.
Print Assumptions C25_kept_reference_refuted.

(** A write copies the vector exactly when another handle shares it (C25): the address is kept
    if and only if the handle is its only owner. *)
Theorem C25_copies_only_when_shared :
  forall T (ops : list (wop T)) (st st' : state T) h a b,
    wrun wstart ops = Some st -> nth_error (handles st) h = Some (At a) -> to_mut st h = Some (st', b) ->
    (b = a <-> forall k, k <> h -> nth_error (handles st) k <> Some (At a)).
Proof. intros T ops st st' h a b _. exact (copies_only_when_shared st st' h a b). Qed.
Print Assumptions C25_copies_only_when_shared.
Example C25_copies_meets :
  option_map (fun st => (option_map snd (to_mut st 0), option_map snd (to_mut st 2))) (wrun wstart [WMake [1]; WCopy 0; WMake [2]])
  = Some (Some 2, Some 1).
Proof. reflexivity. Qed.
