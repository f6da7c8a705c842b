(** What dialect detection is expected to do, without reference to the code.
    Nothing here comes from the model. *)
From Verif Require Import Base.

(** How a dialect protects characters: a quote character, an escape character
    (the byte after it is taken literally), and whether a doubled quote
    stands for a quote. *)
Record quoting := mkQuoting { q_quote : option byte; q_escape : option byte; q_doubled : bool }.

Definition is (o : option byte) (c : byte) : bool :=
  match o with Some x => (c =? x)%N | None => false end.

(** For every byte: is it free, i.e. neither a quote character, nor escaped or
    escaping, nor between quotes? *)
Fixpoint free (g : quoting) (inside : bool) (l : bytes) : list bool :=
  match l with
  | [] => []
  | [c] => [negb (is (q_quote g) c) && negb inside]
  | c :: (c2 :: r2) as r =>
      if is (q_escape g) c then false :: false :: free g inside r2
      else if is (q_quote g) c then
        if q_doubled g && is (q_quote g) c2 then false :: false :: free g inside r2
        else false :: free g (negb inside) r
      else negb inside :: free g inside r
  end.

Definition FreeAt (g : quoting) (l : bytes) (i : nat) : Prop :=
  nth_error (free g false l) i = Some true.

(** A line ends at a free LF, or a free CR that is not the first half of a
    CR LF pair. *)
Definition LineEnd (g : quoting) (l : bytes) (i : nat) : Prop :=
  FreeAt g l i /\
  (nth_error l i = Some LF \/ (nth_error l i = Some CR /\ nth_error l (S i) <> Some LF)).

(** The text of a line that starts at s and whose line end is at i stops at
    the CR of a CR LF pair, otherwise at the line end itself. *)
Definition TextEnd (l : bytes) (s i e : nat) : Prop :=
  (s < i /\ nth_error l i = Some LF /\ nth_error l (i - 1) = Some CR /\ e = i - 1) \/
  (~ (s < i /\ nth_error l i = Some LF /\ nth_error l (i - 1) = Some CR) /\ e = i).

(** The lines from offset s on, as half-open intervals of offsets. *)
Inductive Lines (g : quoting) (l : bytes) : nat -> list (nat * nat) -> Prop :=
| Lines_none s : length l <= s -> Lines g l s []
| Lines_last s : s < length l -> (forall i, s <= i -> ~ LineEnd g l i) ->
    Lines g l s [(s, length l)]
| Lines_cons s i e rest :
    s <= i -> LineEnd g l i -> (forall j, s <= j < i -> ~ LineEnd g l j) ->
    TextEnd l s i e -> Lines g l (S i) rest -> Lines g l s ((s, e) :: rest).

(** Spaces and tabs. *)
Definition Blank (c : byte) : Prop := c = SPACE \/ c = TAB.

(** A comment line: its first byte that is not a blank is a comment
    character. *)
Definition CommentLine (cs : list byte) (l : bytes) : Prop :=
  exists bl c r, l = bl ++ c :: r /\ Forall Blank bl /\ ~ Blank c /\ In c cs.

(** ---- comment blocks ---- *)

(** The first physical line of a buffer (comment lines know no quoting). *)
Inductive FirstLine : bytes -> bytes -> bytes -> Prop :=
| FL_end l : Forall (fun c => c <> LF /\ c <> CR) l -> FirstLine l l []
| FL_lf l r : Forall (fun c => c <> LF /\ c <> CR) l -> FirstLine (l ++ LF :: r) l r
| FL_crlf l r : Forall (fun c => c <> LF /\ c <> CR) l -> FirstLine (l ++ CR :: LF :: r) l r
| FL_cr l r : Forall (fun c => c <> LF /\ c <> CR) l -> hd_error r <> Some LF ->
    FirstLine (l ++ CR :: r) l r.

(** [Leading cs buf ls rest]: [ls] are the leading comment lines of the
    buffer, [rest] is what follows them, and it does not start with a comment
    line. *)
Inductive Leading (cs : list byte) : bytes -> list bytes -> bytes -> Prop :=
| Leading_stop buf :
    (forall l r, FirstLine buf l r -> ~ CommentLine cs l) -> Leading cs buf [] buf
| Leading_line buf l r ls rest :
    FirstLine buf l r -> CommentLine cs l -> Leading cs r ls rest ->
    Leading cs buf (l :: ls) rest.

(** The comment character of a comment line. *)
Definition Marks (c : byte) (l : bytes) : Prop :=
  exists bl r, l = bl ++ c :: r /\ Forall Blank bl /\ ~ Blank c.

(** ---- fields ---- *)
Fixpoint join (sep : byte) (fs : list bytes) : bytes :=
  match fs with
  | [] => []
  | [f] => f
  | f :: r => f ++ sep :: join sep r
  end.

(** Offsets of the separators in [join sep fs]. *)
Fixpoint separators (at_ : nat) (fs : list bytes) : list nat :=
  match fs with
  | [] => []
  | f :: r => match r with
              | [] => []
              | _ => (at_ + length f) :: separators (S (at_ + length f)) r
              end
  end.

(** [n] is listed exactly when it satisfies P, in increasing order. *)
Definition Lists (P : nat -> Prop) (l : list nat) : Prop :=
  (forall n, In n l <-> P n) /\ (forall i j x y, i < j -> nth_error l i = Some x ->
                                   nth_error l j = Some y -> x < y).

(** A field's value: its text, or what is between the quotes when it starts
    and ends with one. *)
Definition Unquoted (q : option byte) (raw value : bytes) : Prop :=
  (exists c, q = Some c /\ raw = c :: value ++ [c]) \/
  ((forall c v, q = Some c -> raw <> c :: v ++ [c]) /\ value = raw).

(** ---- line endings ---- *)
(** The kinds of line break of a text, quotes ignored. *)
Definition HasCRLF (l : bytes) : Prop :=
  exists i, nth_error l i = Some CR /\ nth_error l (S i) = Some LF.
Definition HasLF (l : bytes) : Prop :=
  exists i, nth_error l i = Some LF /\ (i = 0 \/ nth_error l (i - 1) <> Some CR).
Definition HasCR (l : bytes) : Prop :=
  exists i, nth_error l i = Some CR /\ nth_error l (S i) <> Some LF.

(** ---- cell texts ---- *)
Definition Digit (c : byte) : Prop := (48 <= c <= 57)%N.
Definition Digits (l : bytes) : Prop := Forall Digit l.
Definition OptSign (l : bytes) : Prop := l = [] \/ l = [43%N] \/ l = [45%N].

(** [+-]?[0-9]+ *)
Definition IntegerText (l : bytes) : Prop :=
  exists s d, l = s ++ d /\ OptSign s /\ Digits d /\ d <> [].

(** [+-]? digits (. digits)? ([eE] [+-]? digits)?, with a digit in front of
    the exponent, and a point or an exponent. *)
Definition FloatText (l : bytes) : Prop :=
  exists s i p e,
    l = s ++ i ++ p ++ e /\ OptSign s /\ Digits i /\
    (p = [] \/ exists f, p = 46%N :: f /\ Digits f) /\
    (e = [] \/ exists m t x, e = m :: t ++ x /\ (m = 101%N \/ m = 69%N) /\
               OptSign t /\ Digits x /\ x <> []) /\
    (p <> [] \/ e <> []) /\
    (exists c, In c (i ++ p) /\ Digit c).

(** dddd-dd-dd, dddd/dd/dd, dd-dd-dddd or dd/dd/dddd *)
Definition DateText (l : bytes) : Prop :=
  exists sep a b c, (sep = 45%N \/ sep = 47%N) /\ l = a ++ [sep] ++ b ++ [sep] ++ c /\
    Digits a /\ Digits b /\ Digits c /\
    ((length a = 4 /\ length b = 2 /\ length c = 2) \/
     (length a = 2 /\ length b = 2 /\ length c = 4)).

(** dd:dd or dd:dd:dd *)
Definition TimeText (l : bytes) : Prop :=
  exists a b, Digits a /\ Digits b /\ length a = 2 /\ length b = 2 /\
    (l = a ++ [58%N] ++ b \/
     exists c, Digits c /\ length c = 2 /\ l = a ++ [58%N] ++ b ++ [58%N] ++ c).

(** White space of the C locale. *)
Definition White (c : byte) : Prop := c = 32%N \/ (9 <= c <= 13)%N.

(** [Trimmed P l t]: t is l without the bytes satisfying P at either end. *)
Definition Trimmed (P : byte -> Prop) (l t : bytes) : Prop :=
  exists a b, l = a ++ t ++ b /\ Forall P a /\ Forall P b /\
    (forall c r, t = c :: r -> ~ P c) /\ (forall c r, t = r ++ [c] -> ~ P c).

(** ---- orders ---- *)
(** Strict weak ordering, as std::sort requires ([lt a b] is true or false). *)
Definition incomparable {A} (lt : A -> A -> bool) (a b : A) : Prop :=
  lt a b = false /\ lt b a = false.

Definition strict_weak_order {A} (lt : A -> A -> bool) (P : A -> Prop) : Prop :=
  (forall a, P a -> lt a a = false) /\
  (forall a b c, P a -> P b -> P c -> lt a b = true -> lt b c = true -> lt a c = true) /\
  (forall a b c, P a -> P b -> P c -> incomparable lt a b -> incomparable lt b c ->
                 incomparable lt a c).

(** ---- counting ---- *)
(** [m] occurs in [l] at least as often as anything else. *)
Definition Mode (m : nat) (l : list nat) : Prop :=
  In m l /\ forall k, count_occ Nat.eq_dec l k <= count_occ Nat.eq_dec l m.

(** ---- more on fields and cells ---- *)
(** The number of fields of a row: one more than its free separators. *)
Definition FieldCount (g : quoting) (sep : byte) (row : bytes) (n : nat) : Prop :=
  exists raw, join sep raw = row /\ length raw = n /\
    Lists (fun i => FreeAt g row i /\ nth_error row i = Some sep) (separators 0 raw).

(** The same letters as a lower-case word, in either case. *)
Definition SameLetters (w lower : bytes) : Prop :=
  Forall2 (fun c x => c = x \/ (c + 32)%N = x) w lower.

(** nan, or inf or infinity with an optional sign. *)
Definition SpecialFloat (t : bytes) : Prop :=
  SameLetters t [110; 97; 110]%N \/
  exists s w, t = s ++ w /\ OptSign s /\
    (SameLetters w [105; 110; 102]%N \/
     SameLetters w [105; 110; 102; 105; 110; 105; 116; 121]%N).

(** A dialect value a caller can hand on: delimiter and quote differ and
    neither is a line break. *)
Definition Separable (delim quote : byte) : Prop :=
  delim <> quote /\ delim <> LF /\ delim <> CR /\ quote <> LF /\ quote <> CR.

(** ---- rows ---- *)
(** [Keeps P l k]: k is what is left of l without the members that do not
    satisfy P. *)
Inductive Keeps {A} (P : A -> Prop) : list A -> list A -> Prop :=
| Keeps_nil : Keeps P [] []
| Keeps_yes x l k : P x -> Keeps P l k -> Keeps P (x :: l) (x :: k)
| Keeps_no x l k : ~ P x -> Keeps P l k -> Keeps P (x :: l) k.

(** The lines that count as rows: not empty and not a comment. *)
Definition RowLine (cs : list byte) (l : bytes) (p : nat * nat) : Prop :=
  fst p < snd p /\ ~ CommentLine cs (slice (fst p) (snd p) l).

(** The first max rows of a text. *)
Definition Rows (g : quoting) (cs : list byte) (max : nat) (l : bytes) (rows : list (nat * nat)) : Prop :=
  exists ls kept, Lines g l 0 ls /\ Keeps (RowLine cs l) ls kept /\ rows = firstn max kept.

(** A time zone suffix: nothing, Z, or a sign with hours and minutes. *)
Definition ZoneText (z : bytes) : Prop :=
  z = [] \/ z = [90%N] \/
  exists sg h m, (sg = 43%N \/ sg = 45%N) /\ Digits h /\ length h = 2 /\ Digits m /\ length m = 2 /\
    (z = sg :: h ++ m \/ z = sg :: h ++ 58%N :: m).

(** [sort] puts nothing in front of which another member should stand: the
    least that is expected of a sorted list. *)
Definition Winner {A} (lt : A -> A -> bool) (l sorted : list A) : Prop :=
  forall h t, sorted = h :: t -> forall x, In x l -> lt x h = false.
