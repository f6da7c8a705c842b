(** What a printed cell is expected to be when it is read again, without reference to the
    code. *)
From Verif Require Import Base NumSpec DateSpec FieldsSpec ReaderSpec RoundSpec TypesSpec TypesModel SeenSpec.
Local Open Scope Z_scope.

(** The first year that is printed with four digits: 1000 if the C library does not fill %Y
    with zeros; else 1 (the dates of year 0 are stored one day late, see C17). *)
Definition first_year (pad : bool) : Z := if pad then 1 else 1000.

(** Dates, and instants, of years that are printed with four digits. *)
Definition four_digit_day (pad : bool) (n : Z) : Prop := day_number (first_year pad) 1 1 <= n <= day_number 9999 12 31.
Definition four_digit_instant (pad : bool) (us : Z) : Prop :=
  instant (first_year pad) 1 1 0 0 0 0 0 <= us < instant 9999 12 31 24 0 0 0 0.

(** The instant without its fraction of a second, towards 1970. *)
Definition whole_second (us : Z) : Z := if us <? 0 then - (- us / 1000000 * 1000000) else us / 1000000 * 1000000.

Section R.
Context {F : Type}.
(** The values of a column of type [T] that are printed as texts of that type. *)
Definition printable (pad : bool) (T : data_type) (x : @value F) : Prop :=
  match T, x with
  | FLOAT64, _ => False
  | DATE, VInt n => four_digit_day pad n
  | TIMESTAMP, VInt us => four_digit_instant pad us
  | _, _ => True
  end.
(** What such a value is after it has been printed and read. *)
Definition after_printing (T : data_type) (x : @value F) : @value F :=
  match T, x with
  | TIMESTAMP, VInt us => VInt (whole_second us)
  | _, _ => x
  end.

(** ** Tables *)

(** The values of a column of type [T] (truth values, integers, dates, instants). *)
Definition storable (pad : bool) (T : data_type) (x : @value F) : Prop :=
  match T with
  | BOOL => exists b, x = VBool b
  | INT32 => exists z, x = VInt z /\ in_signed 32 z
  | INT64 => exists z, x = VInt z /\ in_signed 64 z
  | DATE => exists n, x = VInt n /\ four_digit_day pad n
  | TIMESTAMP => exists us, x = VInt us /\ four_digit_instant pad us
  | _ => False
  end.

(** The sampled cells of a column tell enough about it: one is not null; and if the column
    holds an integer of more than 32 bits, there is one (of more than 31 bits besides the
    sign) among them. *)
Definition well_seen (T : data_type) (column sampled : list (option (@value F))) : Prop :=
  (exists x, In (Some x) sampled) /\
  (T = INT32 \/ T = INT64 ->
   (forall z, In (Some (VInt z)) column -> in_signed 32 z) \/ exists z, In (Some (VInt z)) sampled /\ 2147483647 < Z.abs z).
(** Sampled are the 1000 rows behind the first one. *)
Definition well_sampled (T : data_type) (column : list (option (@value F))) : Prop :=
  well_seen T column (firstn 1000 (skipn 1 column)).

(** The type found again. *)
Definition type_again (T T' : data_type) : Prop :=
  match T with
  | INT32 | INT64 => T' = INT32 \/ T' = INT64
  | _ => T' = T
  end.
End R.

(** A name is put between quotes if it holds a separator, a quote or a line break. *)
Definition written_name (sep q : byte) (n : bytes) : written :=
  if existsb (fun c => N.eqb c sep || N.eqb c q || N.eqb c LF || N.eqb c CR) n then Quoted n else Plain n.

(** ** The exact texts *)

(** The decimal numeral without leading zeros and without plus sign. *)
Definition shortest_numeral (t : bytes) (z : Z) : Prop :=
  integer_text t = Some z /\
  (t = [48%N] \/ exists sign d ds, t = sign ++ d :: ds /\ (sign = [] \/ sign = [45%N]) /\ is_digit d = true /\ d <> 48%N).

(** YYYY-MM-DD; years below 1000 have four digits only if the C library fills them with zeros,
    years above 9999 have more. *)
Definition printed_date (pad : bool) (t : bytes) (y m d : Z) : Prop :=
  exists fill yt mt dt, t = fill ++ yt ++ [45%N] ++ mt ++ [45%N] ++ dt /\
    shortest_numeral yt y /\ digits 2 m mt /\ digits 2 d dt /\
    fill = (if pad then repeat 48%N (4 - length yt)%nat else []).

(** HH:MM:SS of a second of the day. *)
Definition printed_time (t : bytes) (s : Z) : Prop :=
  exists hh mi ss ht mt st, t = ht ++ [58%N] ++ mt ++ [58%N] ++ st /\ digits 2 hh ht /\ digits 2 mi mt /\ digits 2 ss st /\
    hh <= 23 /\ mi <= 59 /\ ss <= 59 /\ s = hh * 3600 + mi * 60 + ss.
Local Close Scope Z_scope.

(** ** Tables with texts and floating-point numbers *)
Section S.
Context {F : Type}.
Variable ff : bytes -> option F.
Variable show_float : F -> bytes.
(** What a number is after its printed digits have been read. *)
Variable again : F -> F.
Variable pad : bool.

(** Texts that do not denote null; numbers that are printed as numbers. *)
Definition keepable (T : data_type) (x : @value F) : Prop :=
  match T with
  | STRING => exists s, x = VString s /\ denotes_null (null_values default_options) s = false
  | FLOAT64 => exists f, x = VFloat f /\ ff (show_float f) = Some (again f) /\
                 (forall c, In c (show_float f) -> (33 <= c < 128)%N /\ c <> DQ /\ c <> COMMA) /\
                 In (infer_field ff default_options (show_float f)) [INT32; INT64; FLOAT64]
  | _ => storable pad T x
  end.
Definition after_reading (T : data_type) (x : @value F) : @value F :=
  match T, x with
  | FLOAT64, VFloat f => VFloat (again f)
  | _, _ => after_printing T x
  end.
(** The sampled cells of column [k]: those of the 1000 rows behind the first one, but for rows
    in which an earlier column holds a text with a line break, behind which nothing is seen. *)
Definition has_break (c : option (@value F)) : bool :=
  match c with Some (VString s) => existsb newline s | _ => false end.
Definition in_sample (columns : list (list (option (@value F)))) (k : nat) : list (option (@value F)) :=
  map (fun i => nth i (nth k columns []) None)
    (filter (fun i => forallb (fun j => negb (has_break (nth i (nth j columns []) None))) (seq 0 k))
            (firstn 1000 (seq 1 (length (nth k columns []) - 1)))).
(** What is seen of a text: nothing from its first line break on. *)
Definition glimpse (t : bytes) : bytes :=
  match seen [written_name COMMA DQ t] with c :: _ => column_name c | [] => [] end.

(** The sampled cells show, besides, that a column of texts is one, and that a column of
    floating-point numbers is one. *)
Definition seen_enough (T : data_type) (column sampled : list (option (@value F))) : Prop :=
  match T with
  | STRING => exists s, In (Some (VString s)) sampled /\ infer_field ff default_options (glimpse s) = STRING
  | FLOAT64 => exists f, In (Some (VFloat f)) sampled /\ infer_field ff default_options (show_float f) = FLOAT64
  | _ => well_seen T column sampled
  end.
End S.
