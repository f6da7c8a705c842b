(** Error collection.
    Models include/libvroom/error.h:211-452 (ErrorCollector), the first line of
    ErrorCollector::summary (src/error.cpp:93-130), and the header validation of
    CsvReader::open / open_from_buffer (src/reader/csv_reader.cpp:310-332, 418-440).
    The context string of an error is left out, and so is the fixed text around the name in a message; error codes are their enumerator values. *)
From Verif Require Import Base ErrorsSpec ReaderModel TypesModel.

(** error.h:447-451. *)
Record collector : Type := Collector {
  c_mode : mode; c_max : nat; c_errors : list error; c_fatal : bool; c_suppressed : nat }.

(** 225-227. *)
Definition new_collector (m : mode) (max_errors : nat) : collector := Collector m max_errors [] false 0.

(** 233. *)
Definition is_enabled (c : collector) : bool := match c_mode c with DISABLED => false | _ => true end.

(** 247-257. *)
Definition add_error (c : collector) (e : error) : collector :=
  let fatal := match e_severity e with FATAL => true | _ => c_fatal c end in
  if c_max c <=? length (c_errors c)
  then Collector (c_mode c) (c_max c) (c_errors c) fatal (S (c_suppressed c))
  else Collector (c_mode c) (c_max c) (c_errors c ++ [e]) fatal (c_suppressed c).

(** 264, 305, 317. *)
Definition at_error_limit (c : collector) : bool := c_max c <=? length (c_errors c).
Definition has_errors (c : collector) : bool := negb (length (c_errors c) =? 0).
Definition error_count (c : collector) : nat := length (c_errors c).

(** 291-299. *)
Definition should_stop (c : collector) : bool :=
  match c_mode c with
  | DISABLED => false
  | FAIL_FAST => if has_errors c then true else c_fatal c
  | PERMISSIVE => c_fatal c
  | BEST_EFFORT => false
  end.

(** 334-338, 350, 361. *)
Definition clear (c : collector) : collector := Collector (c_mode c) (c_max c) [] false 0.
Definition set_mode (c : collector) (m : mode) : collector :=
  Collector m (c_max c) (c_errors c) (c_fatal c) (c_suppressed c).
Definition set_max_errors (c : collector) (n : nat) : collector :=
  Collector (c_mode c) n (c_errors c) (c_fatal c) (c_suppressed c).

(** 373-400. *)
Definition merge_from (c other : collector) : collector :=
  let suppressed := c_suppressed c + c_suppressed other in
  match c_errors other with
  | [] => Collector (c_mode c) (c_max c) (c_errors c) (if c_fatal other then true else c_fatal c) suppressed
  | _ =>
      let available := if length (c_errors c) <? c_max c then c_max c - length (c_errors c) else 0 in
      let to_copy := Nat.min available (length (c_errors other)) in
      let suppressed := if to_copy <? length (c_errors other)
                        then suppressed + (length (c_errors other) - to_copy) else suppressed in
      Collector (c_mode c) (c_max c) (c_errors c ++ firstn to_copy (c_errors other))
        (if c_fatal other then true else c_fatal c) suppressed
  end.

Section Sorting.
(** std::sort, any function meeting its contract. *)
Variable sort : list error -> list error.

(** 408-412. *)
Definition sort_by_offset (c : collector) : collector :=
  Collector (c_mode c) (c_max c) (sort (c_errors c)) (c_fatal c) (c_suppressed c).

(** 422-427. *)
Definition merge_sorted (c : collector) (collectors : list collector) : collector :=
  sort_by_offset (fold_left merge_from collectors c).

Definition estep (st : list collector) (o : eop) : option (list collector) :=
  match o with
  | ENew m n => Some (st ++ [new_collector m n])
  | EAdd h e => option_map (fun c => put st h (add_error c e)) (nth_error st h)
  | EClear h => option_map (fun c => put st h (clear c)) (nth_error st h)
  | ESetMode h m => option_map (fun c => put st h (set_mode c m)) (nth_error st h)
  | ESetMax h n => option_map (fun c => put st h (set_max_errors c n)) (nth_error st h)
  | EMerge h k => match nth_error st h, nth_error st k with
                  | Some a, Some b => Some (put st h (merge_from a b)) | _, _ => None end
  | EMergeSorted h ks => if existsb (Nat.eqb h) ks then None
                         else match nth_error st h, lookup st ks with
                              | Some a, Some bs => Some (put st h (merge_sorted a bs)) | _, _ => None end
  | ESort h => option_map (fun c => put st h (sort_by_offset c)) (nth_error st h)
  end.
Fixpoint erun (st : list collector) (ops : list eop) : option (list collector) :=
  match ops with
  | [] => Some st
  | o :: r => match estep st o with None => None | Some st' => erun st' r end
  end.
End Sorting.

(** ** Header validation, csv_reader.cpp:310-332 (identical at 418-440). *)
Definition EMPTY_HEADER : nat := 9.           (* error.h:57, position in the enumeration *)
Definition DUPLICATE_COLUMN_NAMES : nat := 10.

(** 321-331; [seen] = seen_names. *)
Fixpoint duplicates_loop (c : collector) (names : list bytes) (i : nat) (seen : list bytes) : collector :=
  match names with
  | [] => c
  | n :: rest =>
      match n with
      | [] => duplicates_loop c rest (S i) seen
      | _ => if existsb (bytes_eqb n) seen
             then duplicates_loop (add_error c (Error DUPLICATE_COLUMN_NAMES WARNING 1 (i + 1) 0 n)) rest (S i) seen
             else duplicates_loop c rest (S i) (n :: seen)
      end
  end.

(** 311-332: the collector afterwards, and false when open() returns failure. *)
Definition validate_header (c : collector) (names : list bytes) : collector * bool :=
  if is_enabled c then
    let empty := match names with [] => true | [n] => match n with [] => true | _ => false end | _ => false end in
    if empty then
      let c1 := add_error c (Error EMPTY_HEADER FATAL 1 1 0 []) in
      if should_stop c1 then (c1, false) else (duplicates_loop c1 names 0 [], true)
    else (duplicates_loop c names 0 [], true)
  else (c, true).

(** ** summary(), error.cpp:93-130, first line and suppression notice. *)
Definition number (n : nat) : bytes := decimal_digits (S n) n.
Definition count_severity (s : severity) (l : list error) : nat :=
  length (filter (fun e => match e_severity e, s with
                           | WARNING, WARNING | RECOVERABLE, RECOVERABLE | FATAL, FATAL => true
                           | _, _ => false end) l).
Definition summary_first_line (c : collector) : bytes :=
  let w := count_severity WARNING (c_errors c) in
  let e := count_severity RECOVERABLE (c_errors c) in
  let f := count_severity FATAL (c_errors c) in
  match c_errors c, c_suppressed c with
  | [], O => s2b "No errors"
  | _, _ =>
      s2b "Total errors: " ++ number (length (c_errors c)) ++
      (if 0 <? w then s2b " (Warnings: " ++ number w else []) ++
      (if 0 <? e then s2b ", Errors: " ++ number e else []) ++
      (if 0 <? f then s2b ", Fatal: " ++ number f else []) ++
      (if (0 <? w) || (0 <? e) || (0 <? f) then s2b ")" else [])
  end.
