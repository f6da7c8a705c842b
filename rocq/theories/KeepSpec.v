(** What a text means in a column of a given type, and which sampled cells cannot be kept. *)
From Verif Require Import Base NumSpec DateSpec StampSpec TypesSpec TypesModel.

(** The whole text is an optionally signed decimal numeral of at most [n] characters with a
    value of [w] signed bits. *)
Definition integer_in (w : Z) (n : nat) (v : bytes) (z : Z) : Prop :=
  integer_text v = Some z /\ length v <= n /\ in_signed w z.

Definition truth_words : list bytes := map s2b ["true"; "TRUE"; "True"; "1"; "yes"; "YES"]%string.
Definition falsehood_words : list bytes := map s2b ["false"; "FALSE"; "False"; "0"; "no"; "NO"]%string.

(** The day number of a date; dates of year 0 come out one day late (see C17). *)
Definition date_value (v : bytes) (n : Z) : Prop :=
  exists y m d, denotes_date v y m d /\ n = (day_number y m d + if y =? 0 then 1 else 0)%Z.

(** The instant of a timestamp, with its date, separator, time of day and tail. *)
Definition timestamp_value (v : bytes) (n : Z) : Prop :=
  exists date sep time rest y m d hh mi ss micros o,
    v = date ++ [sep] ++ time ++ rest /\ (sep = 84 \/ sep = 32)%N /\ denotes_date date y m d /\ denotes_time time hh mi ss /\
    tail_of_timestamp rest micros o /\
    n = (instant y m d hh mi ss micros o + if y =? 0 then 86400 * 1000000 else 0)%Z.

Section Keep.
Context {F : Type}.
Variable ff : bytes -> option F.

(** [v] is, in a column of type [T], the value [x]. *)
Definition means (T : data_type) (v : bytes) (x : @value F) : Prop :=
  match T with
  | BOOL => In v truth_words /\ x = VBool true \/ In v falsehood_words /\ x = VBool false
  | INT32 => exists z, integer_in 32 11 v z /\ x = VInt z
  | INT64 => exists z, integer_in 64 20 v z /\ x = VInt z
  | FLOAT64 => exists f, ff v = Some f /\ x = VFloat f
  | DATE => exists n, date_value v n /\ x = VInt n
  | TIMESTAMP => exists n, timestamp_value v n /\ x = VInt n
  | STRING | NA | UNKNOWN => x = VString v
  end.

(** A cell [v], inferred to be of type [t], that cannot be kept in a column of type [T]. *)
Definition lost (t T : data_type) (v : bytes) : Prop :=
  match T with
  | BOOL => ~ In v truth_words /\ ~ In v falsehood_words
  | INT32 => t = BOOL /\ ~ (exists z, integer_in 32 11 v z)
  | INT64 => (t = BOOL \/ t = INT64) /\ ~ (exists z, integer_in 64 20 v z)
  | FLOAT64 => (t = BOOL \/ t = INT32 \/ t = INT64) /\ ff v = None
  | DATE => ~ (exists n, date_value v n)
  | TIMESTAMP => t = DATE \/ ~ (exists n, timestamp_value v n)
  | STRING | NA | UNKNOWN => False
  end.
End Keep.
