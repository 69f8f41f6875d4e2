(** The grammar of JSON documents (RFC 8259) and the values they denote, written independently of the scanner of Wire.v. *)
From Verif Require Import GoBase Json Wire.
Open Scope char_scope.
Open Scope Z_scope.
Open Scope list_scope.

(** white space: spaces, tabs, line feeds and carriage returns *)
Definition Ws (t : text) : Prop := forall c, In c t -> In c [" "; "009"; "010"; "013"].

(** ** Numbers *)
Definition Digit (c : ascii) (v : Z) : Prop := 0 <= v <= 9 /\ code c = 48 + v.
(** one or more decimal digits and their value *)
Inductive Digits : text -> Z -> Prop :=
| dg_one : forall c v, Digit c v -> Digits [c] v
| dg_more : forall l x c v, Digits l x -> Digit c v -> Digits (l ++ [c]) (10 * x + v).
(** no superfluous zero in front *)
Definition IntPart (l : text) (x : Z) : Prop := Digits l x /\ (l = ["0"] \/ forall r, l <> "0" :: r).
Inductive Integer : text -> Z -> Prop :=
| in_plain : forall l x, IntPart l x -> Integer l x
| in_minus : forall l x, IntPart l x -> Integer ("-" :: l) (- x).
Definition Fraction (t : text) : Prop := exists l x, t = "." :: l /\ Digits l x.
Definition Exponent (t : text) : Prop :=
  exists e sg l x, t = e :: sg ++ l /\ In e ["e"; "E"] /\ In sg [[]; ["+"]; ["-"]] /\ Digits l x.
(** an integer literal (-0 is kept apart from 0), or one followed by a fraction, an exponent or both *)
Inductive Number : json -> text -> Prop :=
| nm_int : forall t z, Integer t z -> t <> ["-"; "0"] -> Number (JInt z) t
| nm_neg0 : Number JNegZero ["-"; "0"]
| nm_frac : forall t z f e, Integer t z -> Fraction f -> e = [] \/ Exponent e -> Number (JFrac z) (t ++ f ++ e)
| nm_exp : forall t z e, Integer t z -> Exponent e -> Number (JFrac z) (t ++ e).

(** ** Strings *)
Definition HexDigit (c : ascii) (v : Z) : Prop :=
  (0 <= v <= 9 /\ code c = 48 + v) \/ (10 <= v <= 15 /\ (code c = 65 + (v - 10) \/ code c = 97 + (v - 10))).
Definition Hex4 (t : text) (n : Z) : Prop :=
  exists a b c d x y z w, t = [a; b; c; d] /\ HexDigit a x /\ HexDigit b y /\ HexDigit c z /\ HexDigit d w /\
    n = x * 4096 + y * 256 + z * 16 + w.
Definition High (n : Z) : Prop := 0xD800 <= n <= 0xDBFF.
Definition Low (n : Z) : Prop := 0xDC00 <= n <= 0xDFFF.
(** the UTF-8 bytes of a code point *)
Definition Utf8 (n : Z) (t : text) : Prop :=
  (0 <= n < 0x80 /\ map code t = [n]) \/
  (0x80 <= n < 0x800 /\ exists a b, 0 <= b < 64 /\ n = a * 64 + b /\ map code t = [0xC0 + a; 0x80 + b]) \/
  (0x800 <= n < 0x10000 /\ exists a b c, 0 <= b < 64 /\ 0 <= c < 64 /\ n = (a * 64 + b) * 64 + c /\ map code t = [0xE0 + a; 0x80 + b; 0x80 + c]) \/
  (0x10000 <= n < 0x110000 /\ exists a b c d, 0 <= b < 64 /\ 0 <= c < 64 /\ 0 <= d < 64 /\ n = ((a * 64 + b) * 64 + c) * 64 + d /\
     map code t = [0xF0 + a; 0x80 + b; 0x80 + c; 0x80 + d]).
(** two-character escapes: quote, backslash, slash, backspace, form feed, line feed, carriage return, tab *)
Definition Escapes : list (ascii * ascii) :=
  [("""", """"); ("\", "\"); ("/", "/"); ("b", "008"); ("f", "012"); ("n", "010"); ("r", "013"); ("t", "009")].
(** the bytes of a character beyond ASCII *)
Definition Rune (t : text) : Prop := exists n, 128 <= n /\ ~ High n /\ ~ Low n /\ Utf8 n t.
(** [Chars t s]: between quotes, t stands for the bytes s. A byte that does not start a UTF-8 character and a surrogate that is not part of a pair stand for U+FFFD. *)
Inductive Chars : text -> text -> Prop :=
| ch_nil : Chars [] []
| ch_plain : forall c t s, c <> """" -> c <> "\" -> 32 <= code c < 128 -> Chars t s -> Chars (c :: t) (c :: s)
| ch_rune : forall u t s, Rune u -> Chars t s -> Chars (u ++ t) (u ++ s)
| ch_bad : forall c u t s, 128 <= code c -> ~ (exists v t', c :: t = v ++ t' /\ Rune v) -> Utf8 0xFFFD u -> Chars t s -> Chars (c :: t) (u ++ s)
| ch_esc : forall c x t s, In (c, x) Escapes -> Chars t s -> Chars ("\" :: c :: t) (x :: s)
| ch_u : forall h n u t s, Hex4 h n -> ~ High n -> ~ Low n -> Utf8 n u -> Chars t s -> Chars ("\" :: "u" :: h ++ t) (u ++ s)
| ch_pair : forall h n h' n' u t s, Hex4 h n -> High n -> Hex4 h' n' -> Low n' -> Utf8 (0x10000 + (n - 0xD800) * 0x400 + (n' - 0xDC00)) u ->
    Chars t s -> Chars ("\" :: "u" :: h ++ "\" :: "u" :: h' ++ t) (u ++ s)
| ch_lone : forall h n u t s, Hex4 h n -> High n \/ Low n ->
    ~ (High n /\ exists h' n' t', t = "\" :: "u" :: h' ++ t' /\ Hex4 h' n' /\ Low n') ->
    Utf8 0xFFFD u -> Chars t s -> Chars ("\" :: "u" :: h ++ t) (u ++ s).
Definition Quoted (s : string) (t : text) : Prop := exists b, t = """" :: b ++ [""""] /\ Chars b (list_ascii_of_string s).

(** ** Values *)
Inductive Val : json -> text -> Prop :=
| v_null : Val JNull ["n"; "u"; "l"; "l"]
| v_true : Val (JBool true) ["t"; "r"; "u"; "e"]
| v_false : Val (JBool false) ["f"; "a"; "l"; "s"; "e"]
| v_num : forall j t, Number j t -> Val j t
| v_str : forall s t, Quoted s t -> Val (JStr s) t
| v_arr0 : forall w, Ws w -> Val (JArr []) ("[" :: w ++ ["]"])
| v_arr : forall l t, Elems l t -> Val (JArr l) ("[" :: t ++ ["]"])
| v_obj0 : forall w, Ws w -> Val (JObj []) ("{" :: w ++ ["}"])
| v_obj : forall l t, Members l t -> Val (JObj l) ("{" :: t ++ ["}"])
with Elems : list json -> text -> Prop :=
| e_one : forall w v t w', Ws w -> Val v t -> Ws w' -> Elems [v] (w ++ t ++ w')
| e_more : forall w v t w' l t', Ws w -> Val v t -> Ws w' -> Elems l t' -> Elems (v :: l) (w ++ t ++ w' ++ "," :: t')
with Members : list (string * json) -> text -> Prop :=
| m_one : forall w1 k q w2 w3 v t w4, Ws w1 -> Quoted k q -> Ws w2 -> Ws w3 -> Val v t -> Ws w4 ->
    Members [(k, v)] (w1 ++ q ++ w2 ++ ":" :: w3 ++ t ++ w4)
| m_more : forall w1 k q w2 w3 v t w4 l t', Ws w1 -> Quoted k q -> Ws w2 -> Ws w3 -> Val v t -> Ws w4 -> Members l t' ->
    Members ((k, v) :: l) (w1 ++ q ++ w2 ++ ":" :: w3 ++ t ++ w4 ++ "," :: t').

(** arrays and objects inside each other *)
Fixpoint depth (j : json) : Z :=
  match j with
  | JArr l => 1 + fold_right (fun v m => Z.max (depth v) m) 0 l
  | JObj l => 1 + fold_right (fun kv m => Z.max (depth (snd kv)) m) 0 l
  | _ => 0
  end.
(** a document: a value between white space, nested at most 10000 deep *)
Definition Doc (j : json) (t : text) : Prop := exists w v w', t = w ++ v ++ w' /\ Ws w /\ Val j v /\ Ws w' /\ depth j <= 10000.

(** all strings in the tree are 7-bit *)
Definition Ascii7 (s : string) : Prop := forall c, In c (list_ascii_of_string s) -> code c < 128.
Fixpoint Plain (j : json) : Prop :=
  match j with
  | JStr s => Ascii7 s
  | JArr l => fold_right (fun v P => Plain v /\ P) True l
  | JObj l => fold_right (fun kv P => (Ascii7 (fst kv) /\ Plain (snd kv)) /\ P) True l
  | _ => True
  end.

Scheme Val_min := Minimality for Val Sort Prop
  with Elems_min := Minimality for Elems Sort Prop
  with Members_min := Minimality for Members Sort Prop.
Combined Scheme Val_mut from Val_min, Elems_min, Members_min.
