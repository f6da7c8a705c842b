(** Dialect detection as a whole, written with explicit reads (see RawModel4).
    Models src/dialect.cpp:258-376, 422-639, 673-720 at a lower level than DialectModel; the arithmetic on scores is the same. *)
From Coq Require Import SpecFloat.
From Verif Require Import Base RawModel ChunkModel ReaderModel DialectModel RawModel4.

(** 531, 587, 682: the ranges find_rows returns, as the texts handed to extract_fields (buf + start, end - start); a wrapped length is [None] *)
Definition raw_row_text (d : bytes) (r : nat * nat) : option bytes :=
  let (s, e) := r in if s <=? e then load d s (e - s) else None.
Definition raw_row_texts (o : options) (dia : dialect) (d : bytes) (len : nat) : option (list bytes) :=
  let? rows := raw_find_rows o dia d len in map_option (raw_row_text d) rows.
Definition raw_fields (dia : dialect) (row : bytes) : option (list bytes) := raw_extract_fields dia row (length row).
(** 514-551 *)
Definition raw_pattern_score (o : options) (dia : dialect) (d : bytes) (len : nat) : option (spec_float * list nat) :=
  let? rows := raw_row_texts o dia d len in
  if length rows <? min_rows o then Some (lit_0, [])
  else
    let? fields := map_option (raw_fields dia) rows in
    let counts := map (@length bytes) fields in
    Some (match counts with
          | [] => (lit_0, [])
          | _ => (fdiv (of_size (fold_left (fun m e => Nat.max m (snd e)) (count_freq counts) 0)) (of_size (length counts)), counts)
          end).
(** 606-634 *)
Definition raw_typed_cell (f : bytes) : option bool :=
  let? a := raw_could_be_integer f (length f) in
  if a then Some true
  else
    let? b := raw_could_be_float f (length f) in
    if b then Some true
    else let? t := raw_infer_with (length f) f in Some (match t with STRING => false | _ => true end).
Definition count_true (l : list bool) : nat := length (filter (fun b => b) l).
(** 553-639 *)
Definition raw_type_score (o : options) (dia : dialect) (d : bytes) (len : nat) : option spec_float :=
  let? rows := raw_row_texts o dia d len in
  match rows with
  | [] => Some lit_0
  | _ =>
      let? fields := map_option (raw_fields dia) (if 1 <? length rows then skipn 1 rows else rows) in
      match concat fields with
      | [] => Some lit_0
      | cells =>
          let? typed := map_option raw_typed_cell cells in
          Some (fmax lit_1e_10 (fdiv (of_size (count_true typed)) (of_size (length cells))))
      end
  end.
(** 422-448 *)
Definition raw_escape_pattern (d : bytes) (len : nat) (q e : byte) : option Z :=
  let? (ne, nd) := raw_escape_loop len d len 0 q e 0 0 in
  Some (if (0 <? ne) && (nd =? 0) then Z.of_nat ne
        else if (0 <? nd) && (ne =? 0) then (- Z.of_nat nd)%Z
        else 0%Z).
(** 450-512 *)
Definition raw_score (order : list (nat * nat) -> list (nat * nat)) (o : options) (dia : dialect) (d : bytes) (len : nat) : option candidate :=
  let? (pat, counts) := raw_pattern_score o dia d len in
  match counts with
  | [] => Some (mkCandidate dia pat lit_0 lit_0 0)
  | _ =>
      let cols := fst (modal (order (count_freq counts))) in
      let? typ := raw_type_score o dia d len in
      let base :=
        if flt lit_0_9 pat && (1 <? cols) then fmul pat (fmax lit_0_6 (fsqrt (fmax lit_0_1 typ)))
        else if flt lit_0_8 pat && (1 <? cols) then fmul pat (fsqrt (fmax lit_0_1 typ))
        else fmul pat typ in
      let? score :=
        (if negb (quote_char dia =? 0)%N then
          let esc := if double_quote dia then 0%N else escape_char dia in
          if negb (esc =? 0)%N then
            let? s := raw_escape_pattern d len (quote_char dia) esc in
            Some (if (0 <? s)%Z && negb (double_quote dia) then fmul base lit_1_2
                  else if (s <? 0)%Z && double_quote dia then fmul base lit_1_2
                  else base)
          else if double_quote dia then
            let? s := raw_escape_pattern d len (quote_char dia) (quote_char dia) in
            Some (if (s <? 0)%Z then fmul base lit_1_1 else base)
          else Some base
        else Some base) in
      Some (mkCandidate dia pat typ score cols)
  end.
(** 673-720 *)
Definition raw_header (o : options) (dia : dialect) (d : bytes) (len : nat) : option bool :=
  let? rows := raw_row_texts o dia d len in
  match rows with
  | h :: r :: _ =>
      let? hf := raw_fields dia h in
      let? df := raw_fields dia r in
      if (length hf =? 0) || (length df =? 0) then Some false
      else
        let? ht := map_option (fun f => let? t := raw_infer_with (length f) f in Some (f, t)) hf in
        let? dt := map_option (fun f => raw_infer_with (length f) f) df in
        let strings := length (filter (fun ft : bytes * cell_type => (match snd ft with STRING => true | _ => false end) && negb (length (fst ft) =? 0)) ht) in
        let non_empty := length (filter (fun f => negb (length f =? 0)) hf) in
        let typed := length (filter (fun t => match t with STRING => false | EMPTY => false | _ => true end) dt) in
        let ratio := if 0 <? non_empty then fdiv (of_size strings) (of_size non_empty) else lit_0 in
        Some (flt lit_0_5 ratio && ((0 <? typed) || (strings =? length hf)))
  | _ => Some false
  end.
(** 285-319 *)
Definition raw_sample_len (o : options) (data : bytes) (data_len : nat) : option nat :=
  let? fn := raw_first_newline o data data_len in
  let eff :=
    if 0 <? fn then
      let needed := fn * (min_rows o + 1) in
      if sample_size o <? needed then Nat.min needed MAX_ADAPTIVE_SAMPLE else sample_size o
    else if sample_size o <? data_len then Nat.min (sample_size o * 4) MAX_ADAPTIVE_SAMPLE
    else sample_size o in
  Some (Nat.min data_len eff).
(** 258-376; data_buf = buf + comment_offset and data_len = len - comment_offset (wrapped: [None]); the functions called with
    (data_buf, sample_len) may read no more than the sample, which lies in the buffer *)
Definition raw_detect (sort : list candidate -> list candidate) (order : list (nat * nat) -> list (nat * nat)) (o : options) (buf : bytes) (len : nat)
    : option result :=
  if len =? 0 then Some (mkResult default_dialect lit_0 false 0 0 EmptyInput 0 0 [])
  else
    let? (offset, ch, n) := raw_skip_comments o buf len in
    if offset <=? len then
      let data_len := len - offset in
      let? data := load buf offset data_len in
      if data_len =? 0 then Some (mkResult default_dialect lit_0 false 0 0 OnlyComments ch n [])
      else
        let? sample_len := raw_sample_len o data data_len in
        let? sample := load data 0 sample_len in
        let? ending := raw_line_ending sample sample_len in
        let? scored := map_option (fun dia => raw_score order o dia sample sample_len) (generate_candidates o) in
        let cands := sort scored in
        match cands with
        | best :: others =>
            if flt lit_0 (cand_score best) then
              let dia := set_line_ending (cand_dialect best) ending ch in
              let? header := raw_header o dia sample sample_len in
              let? rows := raw_find_rows o dia sample sample_len in
              let warn := match others with
                          | second :: _ => if flt (fmul lit_0_9 (cand_score best)) (cand_score second) then Ambiguous else NoWarning
                          | [] => NoWarning
                          end in
              Some (mkResult dia (cand_score best) header (cand_columns best) (length rows) warn ch n cands)
            else Some (mkResult (set_line_ending default_dialect ending 0) lit_0 false 0 0 NotDetected ch n cands)
        | [] => Some (mkResult (set_line_ending default_dialect ending 0) lit_0 false 0 0 NotDetected ch n cands)
        end
    else None.
