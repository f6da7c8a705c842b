(** C112: dialect detection never touches a byte outside its input.
    In RawModel4 and RawModel5 every access to the data is an explicit indexed read, and an access outside it is [None]. *)
From Coq Require Import SpecFloat.
From Verif Require Import Base RawModel DialectModel RawModel4 RawModel5 RawProof9 RawProof10 RawProof11 RawProof12.

(** DialectDetector::detect: whatever the bytes and the options are (candidate characters may be newlines, NUL or equal to each other,
    the row limits zero), no read leaves the buffer, and the result is the one the theorems on detection are about; and so for
    every sorting routine and every iteration order of the hash table. *)
Theorem C112_detection_inside :
  forall (sort : list candidate -> list candidate) (order : list (nat * nat) -> list (nat * nat)) (o : options) (buf : bytes),
    raw_detect sort order o buf (length buf) = Some (detect sort order o buf).
Proof. exact detect_raw. Qed.
Print Assumptions C112_detection_inside.

(** The parts, for every dialect and every text. *)
Theorem C112_detection_parts_inside :
  forall (o : options) (dia : dialect) (d : bytes),
    raw_skip_comments o d (length d) = Some (skip_comment_lines o d) /\
    raw_find_rows o dia d (length d) = Some (find_rows o dia d) /\
    Forall (fun r => fst r <= snd r /\ snd r <= length d) (find_rows o dia d) /\
    raw_extract_fields dia d (length d) = Some (extract_fields dia d) /\
    raw_line_ending d (length d) = Some (detect_line_ending d) /\
    raw_could_be_integer d (length d) = Some (could_be_integer d) /\
    raw_could_be_float d (length d) = Some (could_be_float d) /\
    raw_infer_with (length d) d = Some (infer_cell_type d).
Proof.
  intros o dia d. repeat split; [apply skip_comments_ok|apply find_rows_raw|apply find_rows_in|apply extract_fields_raw|apply line_ending_raw
    |apply could_be_integer_raw|apply could_be_float_raw|apply infer_raw; apply le_n].
Qed.
Print Assumptions C112_detection_parts_inside.

(** The model notices a read outside: told a size one too large, each part fails. *)
Example C112_detection_outside_noticed :
  raw_detect (fun l => l) (fun l => l) default_options (s2b "a,b") 4 = None /\
  raw_skip_comments default_options (s2b "#x") 3 = None /\ raw_skip_comments default_options (s2b "#x" ++ [13%N]) 4 = None /\
  raw_skip_comments default_options (s2b "  ") 3 = None /\
  raw_find_rows default_options default_dialect (s2b "a,b") 4 = None /\
  raw_find_rows default_options default_dialect (s2b "a" ++ [34%N]) 3 = None /\
  raw_extract_fields default_dialect (s2b "a,b") 4 = None /\ raw_cell default_dialect (s2b "ab") 2 1 = None /\
  raw_line_ending (s2b "a" ++ [13%N]) 3 = None /\
  raw_could_be_integer (s2b "12") 3 = None /\ raw_could_be_float (s2b "1.") 3 = None /\ raw_special (s2b "na") 3 = None /\
  raw_float_shape true (s2b "1.5e") 5 = None /\ raw_float_shape false (s2b "1.5e+") 6 = None /\
  raw_date_shape (s2b "2024-01-0") 10 = None /\ raw_time_shape (s2b "10:3") 5 = None /\ raw_integer_shape [] 0 = None /\
  raw_escape_pattern [34%N; 34%N] 3 34 34 = None /\ raw_first_newline default_options (s2b "ab") 3 = None.
Proof. vm_compute. repeat split. Qed.
Example C112_detection_nonvacuous :
  option_map (fun r => (delimiter (res_dialect r), res_header r, res_columns r, res_rows r))
    (raw_detect (fun l => l) (fun l => l) default_options (s2b "#c" ++ [10%N] ++ s2b "name,when" ++ [10%N] ++ s2b "x,2024-01-05" ++ [13%N; 10%N] ++ s2b "y,2024-01-06T10:00:00Z" ++ [10%N]) 50) =
  Some (44%N, true, 2, 3).
Proof. vm_compute. reflexivity. Qed.
