(** The progress bar of the command line, src/cli.cpp 37-88, and the calls a conversion makes
    to it (src/reader/csv_reader.cpp 914-920, 1129-1131; src/cli.cpp 492-510).
    size_t is taken modulo 2^64, int is 32 bits in two's complement. *)
From Verif Require Import Base TypesModel CliModel ConvertModel.

(** 84-87; [p_last] is last_percent_. *)
Record bar : Type := Bar { p_enabled : bool; p_width : nat; p_last : Z }.
(** 39; the default width is 40. *)
Definition new_bar (enabled : bool) (width : nat) : bar := Bar enabled width (-1).

(** static_cast of a size_t to int. *)
Definition as_int (n : N) : Z :=
  let r := (Z.of_N n mod 2 ^ 32)%Z in if (r <? 2 ^ 31)%Z then r else (r - 2 ^ 32)%Z.
(** An int in an expression of type size_t. *)
Definition as_size (z : Z) : N := Z.to_N (z mod 2 ^ 64)%Z.

(** 45. *)
Definition percent_of (processed total : N) : Z := as_int ((processed * 100) mod 2 ^ 64 / total)%N.
(** 51. *)
Definition filled_of (percent : Z) (width : nat) : N :=
  ((as_size percent * N.of_nat width) mod 2 ^ 64 / 100)%N.

(** std::string::operator[] used to write; None: outside of the string. *)
Fixpoint store (s : bytes) (i : nat) (b : N) : option bytes :=
  match s, i with
  | [], _ => None
  | _ :: r, O => Some (b :: r)
  | x :: r, S j => option_map (cons x) (store r j b)
  end.
(** 54-56, from [i] on; [fuel] at least width. *)
Fixpoint fill_loop (fuel : nat) (s : bytes) (i : nat) (filled : N) (width : nat) : option bytes :=
  match fuel with
  | O => Some s
  | S f => if (N.of_nat i <? filled)%N && (i <? width)
           then match store s i 61 with None => None | Some s => fill_loop f s (S i) filled width end
           else Some s
  end.
(** 53-59. *)
Definition drawing (filled : N) (width : nat) : option bytes :=
  match fill_loop (S width) (repeat 32%N width) 0 filled width with
  | None => None
  | Some s => if (filled <? N.of_nat width)%N then store s (N.to_nat filled) 62 else Some s
  end.
(** std::setw(3) of an int. *)
Definition setw3 (z : Z) : bytes := let t := to_string z in repeat 32%N (3 - length t) ++ t.

(** 41-64: the bar afterwards, what goes to standard error, the answer. *)
Definition update (b : bar) (processed total : N) : option (bar * bytes * bool) :=
  if negb (p_enabled b) || (total =? 0)%N then Some (b, [], true)
  else
    let percent := percent_of processed total in
    if (percent =? p_last b)%Z then Some (b, [], true)
    else match drawing (filled_of percent (p_width b)) (p_width b) with
         | None => None
         | Some s => Some (Bar (p_enabled b) (p_width b) percent,
                           [13; 91]%N ++ s ++ [93; 32]%N ++ setw3 percent ++ [37%N], true)
         end.
(** 66-71. *)
Definition finish (b : bar) : bytes :=
  if p_enabled b then [13; 91]%N ++ repeat 61%N (p_width b) ++ s2b "] 100%" ++ [10%N] else [].
(** 73-77. *)
Definition clear_bar (b : bar) : bytes :=
  if p_enabled b then 13%N :: repeat 32%N (p_width b + 7) ++ [13%N] else [].

(** Any number of reports; false when one of them is answered with false. *)
Fixpoint updates (b : bar) (rs : list (N * N)) : option (bar * bytes * bool) :=
  match rs with
  | [] => Some (b, [], true)
  | (p, t) :: r =>
      match update b p t with
      | None => None
      | Some (b, out, go_on) =>
          match updates b r with None => None | Some (b, more, rest) => Some (b, out ++ more, go_on && rest) end
      end
  end.

(** The calls of one conversion: csv_reader.cpp 914-920 once the data is read, 1129-1131 at the
    end of a conversion without error. *)
Definition calls (c : ConvertModel.conversion) : list (N * N) :=
  match cv_error c with
  | Some InputFailed => []
  | Some CancelledByUser | Some OutputFailed => [(50, 100)%N]
  | None => [(50, 100)%N; (100, 100)%N]
  end.
(** cli.cpp 492-510: what a conversion asked for with -p draws; [tty]: isatty(STDERR_FILENO). *)
Definition drawn (tty : bool) (c : ConvertModel.conversion) : option bytes :=
  let b := new_bar tty 40 in
  match updates b (calls c) with
  | None => None
  | Some (b, out, _) => Some (out ++ finish b)
  end.
