(** The bytes of a JSON document: what json.Unmarshal (encoding/json scanner.go, decode.go) reads and json.Marshal
    (encode.go) writes, as used by marshal.go 22-71, bulletproofs/marshal.go 80-107, voteproof/marshal.go 46-97 and
    main_test.go 25-40. Bytes are [ascii] (eight bits). json.Unmarshal checks the syntax of the whole input first; a nested
    json.RawMessage holds the bytes of a value of the checked input, so it is represented by that value. *)
From Verif Require Import GoBase Json GroupIface VoteProof App Marshal.
From Coq Require Import DecimalString.
Open Scope char_scope.
Open Scope Z_scope.
Open Scope list_scope.

Definition text := list ascii.
Definition code (c : ascii) : Z := Z.of_N (N_of_ascii c).

(** scanner.go isSpace *)
Definition isSpace (c : ascii) : bool := Ascii.eqb c " " || Ascii.eqb c "009" || Ascii.eqb c "010" || Ascii.eqb c "013".
Fixpoint skipWs (t : text) : text := match t with c :: r => if isSpace c then skipWs r else t | [] => [] end.

(** ** Numbers (scanner.go stateNeg, state1, state0, stateDot, stateE): an optional minus sign, 0 or digits not starting with 0,
    then optionally a fraction and an exponent. The value kept is what Json.v says: the integer, or the leading integer of a
    number with a fraction or an exponent. *)
Definition isDigit (c : ascii) : bool := (48 <=? code c) && (code c <=? 57).
Fixpoint span (t : text) : text * text :=
  match t with
  | c :: r => if isDigit c then let '(ds, r') := span r in (c :: ds, r') else ([], t)
  | [] => ([], [])
  end.
Definition decVal (ds : text) : Z := fold_left (fun v c => 10 * v + (code c - 48)) ds 0.
(** the digits of the integer part and what follows *)
Definition pInt (t : text) : option (text * text) :=
  match t with
  | c :: r => if Ascii.eqb c "0" then Some (["0"], r) else match span t with ([], _) => None | (ds, r') => Some (ds, r') end
  | [] => None
  end.
(** at least one digit *)
Definition pDigits (t : text) : option text := match span t with ([], _) => None | (_, r) => Some r end.
(** [Some None]: no fraction; [Some (Some r)]: a fraction and what follows *)
Definition pFrac (t : text) : option (option text) :=
  match t with
  | c :: r => if Ascii.eqb c "." then match pDigits r with Some r' => Some (Some r') | None => None end else Some None
  | [] => Some None
  end.
Definition pExp (t : text) : option (option text) :=
  match t with
  | c :: r =>
      if Ascii.eqb c "e" || Ascii.eqb c "E" then
        let r1 := match r with s :: r1 => if Ascii.eqb s "+" || Ascii.eqb s "-" then r1 else r | [] => r end in
        match pDigits r1 with Some r' => Some (Some r') | None => None end
      else Some None
  | [] => Some None
  end.
Definition pSign (t : text) : bool * text := match t with c :: r => if Ascii.eqb c "-" then (true, r) else (false, t) | [] => (false, t) end.
Definition isZero (ds : text) : bool := match ds with [c] => Ascii.eqb c "0" | _ => false end.
Definition pNum (t : text) : option (json * text) :=
  let '(neg, t1) := pSign t in
  match pInt t1 with
  | None => None
  | Some (ds, t2) =>
      let z := if neg : bool then - decVal ds else decVal ds in
      match pFrac t2 with
      | None => None
      | Some f =>
          match pExp (match f with Some r => r | None => t2 end) with
          | None => None
          | Some (Some r) => Some (JFrac z, r)
          | Some None => match f with Some r => Some (JFrac z, r) | None => Some (if neg && isZero ds then JNegZero else JInt z, t2) end
          end
      end
  end.

(** ** Strings (scanner.go stateInString, stateInStringEsc, stateInStringEscU; decode.go unquoteBytes, getu4) *)
Definition hexVal (c : ascii) : option Z :=
  let n := code c in
  if (48 <=? n) && (n <=? 57) then Some (n - 48)
  else if (97 <=? n) && (n <=? 102) then Some (n - 87)
  else if (65 <=? n) && (n <=? 70) then Some (n - 55)
  else None.
(** four hexadecimal digits *)
Definition hex4 (t : text) : option (Z * text) :=
  match t with
  | a :: b :: c :: d :: r =>
      match hexVal a, hexVal b, hexVal c, hexVal d with
      | Some x, Some y, Some z, Some w => Some (((x * 16 + y) * 16 + z) * 16 + w, r)
      | _, _, _, _ => None
      end
  | _ => None
  end.
Definition chr (n : Z) : ascii := ascii_of_N (Z.to_N n).
(** utf8.EncodeRune *)
Definition utf8 (n : Z) : text :=
  if n <? 128 then [chr n]
  else if n <? 2048 then [chr (192 + n / 64); chr (128 + n mod 64)]
  else if n <? 65536 then [chr (224 + n / 4096); chr (128 + n / 64 mod 64); chr (128 + n mod 64)]
  else [chr (240 + n / 262144); chr (128 + n / 4096 mod 64); chr (128 + n / 64 mod 64); chr (128 + n mod 64)].
Definition isSurrogate (n : Z) : bool := (55296 <=? n) && (n <? 57344).
(** utf16.DecodeRune: a high and a low surrogate *)
Definition pairRune (hi lo : Z) : option Z :=
  if (55296 <=? hi) && (hi <? 56320) && (56320 <=? lo) && (lo <? 57344) then Some ((hi - 55296) * 1024 + (lo - 56320) + 65536) else None.
(** what follows a backslash, other than u *)
Definition simpleEsc (c : ascii) : option ascii :=
  if Ascii.eqb c """" then Some """" else if Ascii.eqb c "\" then Some "\" else if Ascii.eqb c "/" then Some "/"
  else if Ascii.eqb c "b" then Some "008" else if Ascii.eqb c "f" then Some "012" else if Ascii.eqb c "n" then Some "010"
  else if Ascii.eqb c "r" then Some "013" else if Ascii.eqb c "t" then Some "009" else None.
Definition isCtl (c : ascii) : bool := code c <? 32.
(** utf8.DecodeRune on a first byte of at least 0x80: the bytes of a well-formed character and the rest *)
Definition inR (lo hi : Z) (c : ascii) : bool := (lo <=? code c) && (code c <=? hi).
Definition pRune (t : text) : option (text * text) :=
  match t with
  | a :: b :: r1 =>
      if inR 0xC2 0xDF a then if inR 0x80 0xBF b then Some ([a; b], r1) else None
      else if inR 0xE0 0xEF a then
        match r1 with
        | c :: r2 =>
            if inR (if code a =? 0xE0 then 0xA0 else 0x80) (if code a =? 0xED then 0x9F else 0xBF) b && inR 0x80 0xBF c
            then Some ([a; b; c], r2) else None
        | [] => None
        end
      else if inR 0xF0 0xF4 a then
        match r1 with
        | c :: d :: r3 =>
            if inR (if code a =? 0xF0 then 0x90 else 0x80) (if code a =? 0xF4 then 0x8F else 0xBF) b && inR 0x80 0xBF c && inR 0x80 0xBF d
            then Some ([a; b; c; d], r3) else None
        | _ => None
        end
      else None
  | _ => None
  end.
(** the rest of a string after the opening quote, up to and including the closing one, unquoted: bytes that are not UTF-8 become U+FFFD *)
Fixpoint pStr (fuel : nat) (t : text) : option (text * text) :=
  match fuel with
  | O => None
  | S f =>
      match t with
      | [] => None
      | c :: r =>
          if Ascii.eqb c """" then Some ([], r)
          else if Ascii.eqb c "\" then
            match r with
            | [] => None
            | e :: r1 =>
                if Ascii.eqb e "u" then
                  match hex4 r1 with
                  | None => None
                  | Some (n, r2) =>
                      let lone := match pStr f r2 with Some (s, r') => Some (utf8 (if isSurrogate n then 65533 else n) ++ s, r') | None => None end in
                      if isSurrogate n then
                        match r2 with
                        | b1 :: u1 :: r3 =>
                            if Ascii.eqb b1 "\" && Ascii.eqb u1 "u" then
                              match hex4 r3 with
                              | Some (n2, r4) =>
                                  match pairRune n n2 with
                                  | Some p => match pStr f r4 with Some (s, r') => Some (utf8 p ++ s, r') | None => None end
                                  | None => lone
                                  end
                              | None => None
                              end
                            else lone
                        | _ => lone
                        end
                      else lone
                  end
                else
                  match simpleEsc e with
                  | Some x => match pStr f r1 with Some (s, r') => Some (x :: s, r') | None => None end
                  | None => None
                  end
            end
          else if isCtl c then None
          else if 128 <=? code c then
            match pRune t with
            | Some (u, r1) => match pStr f r1 with Some (s, r') => Some (u ++ s, r') | None => None end
            | None => match pStr f r with Some (s, r') => Some (utf8 65533 ++ s, r') | None => None end
            end
          else match pStr f r with Some (s, r') => Some (c :: s, r') | None => None end
      end
  end.
Definition pString (t : text) : option (string * text) :=
  match pStr (S (length t)) t with Some (s, r) => Some (string_of_list_ascii s, r) | None => None end.

(** ** Values (scanner.go stateBeginValue, stateBeginStringOrEmpty, stateEndValue). [d] is the number of arrays and objects that may
    still be opened (maxNestingDepth). Leading white space is skipped here, trailing white space by the caller. *)
Fixpoint litRest (w t : text) : option text :=
  match w, t with
  | [], _ => Some t
  | a :: w', b :: t' => if Ascii.eqb a b then litRest w' t' else None
  | _ :: _, [] => None
  end.
Definition lit (s : string) (v : json) (t : text) : option (json * text) :=
  match litRest (list_ascii_of_string s) t with Some r => Some (v, r) | None => None end.
Fixpoint pVal (fuel : nat) (d : Z) (t : text) : option (json * text) :=
  match fuel with
  | O => None
  | S f =>
      match skipWs t with
      | [] => None
      | c :: r =>
          if Ascii.eqb c "{" then
            if d <=? 0 then None else
            match skipWs r with
            | e :: r' => if Ascii.eqb e "}" then Some (JObj [], r')
                         else match pMembers f (d - 1) r with Some (l, r1) => Some (JObj l, r1) | None => None end
            | [] => None
            end
          else if Ascii.eqb c "[" then
            if d <=? 0 then None else
            match skipWs r with
            | e :: r' => if Ascii.eqb e "]" then Some (JArr [], r')
                         else match pElems f (d - 1) r with Some (l, r1) => Some (JArr l, r1) | None => None end
            | [] => None
            end
          else if Ascii.eqb c """" then match pString r with Some (s, r') => Some (JStr s, r') | None => None end
          else if Ascii.eqb c "t" then lit "rue" (JBool true) r
          else if Ascii.eqb c "f" then lit "alse" (JBool false) r
          else if Ascii.eqb c "n" then lit "ull" JNull r
          else pNum (c :: r)
      end
  end
with pElems (fuel : nat) (d : Z) (t : text) : option (list json * text) :=
  match fuel with
  | O => None
  | S f =>
      match pVal f d t with
      | None => None
      | Some (v, r) =>
          match skipWs r with
          | c :: r1 =>
              if Ascii.eqb c "," then match pElems f d r1 with Some (l, r2) => Some (v :: l, r2) | None => None end
              else if Ascii.eqb c "]" then Some ([v], r1) else None
          | [] => None
          end
      end
  end
with pMembers (fuel : nat) (d : Z) (t : text) : option (list (string * json) * text) :=
  match fuel with
  | O => None
  | S f =>
      match skipWs t with
      | q :: r =>
          if Ascii.eqb q """" then
            match pString r with
            | None => None
            | Some (k, r1) =>
                match skipWs r1 with
                | col :: r2 =>
                    if Ascii.eqb col ":" then
                      match pVal f d r2 with
                      | None => None
                      | Some (v, r3) =>
                          match skipWs r3 with
                          | c :: r4 =>
                              if Ascii.eqb c "," then match pMembers f d r4 with Some (l, r5) => Some ((k, v) :: l, r5) | None => None end
                              else if Ascii.eqb c "}" then Some ([(k, v)], r4) else None
                          | [] => None
                          end
                      end
                    else None
                | [] => None
                end
            end
          else None
      | [] => None
      end
  end.
(** scanner.go maxNestingDepth *)
Definition maxNesting : Z := 10000.
(** json.Unmarshal's view of its input (decode.go checkValid, then value): one value between white space, or a syntax error. Each call
    of the three functions above consumes a byte or is the first of a list, so twice the length is enough fuel. *)
Definition parse (t : text) : raw :=
  match pVal (2 * length t + 2) maxNesting t with
  | Some (j, r) => match skipWs r with [] => Some j | _ => None end
  | None => None
  end.

(** ** json.Marshal (encode.go): no white space; strings with HTML escaping, here for 7-bit strings only *)
Definition hexChar (n : Z) : ascii := if n <? 10 then chr (48 + n) else chr (87 + n).
(** encode.go appendString (Go 1.21 of go.mod; later versions write \b and \f for bytes 8 and 12) *)
Definition quoteChar (c : ascii) : text :=
  let n := code c in
  if Ascii.eqb c """" then ["\"; """"] else if Ascii.eqb c "\" then ["\"; "\"]
  else if n =? 10 then ["\"; "n"]
  else if n =? 13 then ["\"; "r"] else if n =? 9 then ["\"; "t"]
  else if (n <? 32) || Ascii.eqb c "<" || Ascii.eqb c ">" || Ascii.eqb c "&" then ["\"; "u"; "0"; "0"; hexChar (n / 16); hexChar (n mod 16)]
  else [c].
Definition quote (s : string) : text := """" :: flat_map quoteChar (list_ascii_of_string s) ++ [""""].
Definition printInt (z : Z) : text := list_ascii_of_string (NilZero.string_of_int (Z.to_int z)).
Definition commas (l : list text) : text := match l with [] => [] | a :: r => a ++ flat_map (fun b => "," :: b) r end.
(** the encoder never writes -0 or a fraction *)
Fixpoint print (j : json) : text :=
  match j with
  | JNull => list_ascii_of_string "null"
  | JBool b => list_ascii_of_string (if b then "true" else "false")
  | JInt z => printInt z
  | JNegZero => ["-"; "0"]
  | JFrac z => printInt z ++ ["."; "0"]
  | JStr s => quote s
  | JArr l => "[" :: commas (map print l) ++ ["]"]
  | JObj l => "{" :: commas (map (fun kv => quote (fst kv) ++ ":" :: print (snd kv)) l) ++ ["}"]
  end.

(** ** The program's entry points on bytes *)
Section Wire.
Context (GF GE : Grp).
(** main_test.go: json.Marshal(ballot) *)
Definition MarshalBallot (b : BallotData GF GE) : res text := j <- encBallotData GF GE b ;; Ok (print j).
(** marshal.go 39-71 *)
Definition UnmarshalBallot (t : text) (pp : PublicParameters GF GE) : res (BallotData GF GE) := BallotDataUnmarshalJSON GF GE (parse t) pp.
End Wire.
