(** JSON documents and the encoding/json contract the decoders rely on.
    Documents are syntax trees here; reading and printing their bytes is in Wire.v. A number is an integer literal
    [JInt], the literal -0 [JNegZero], or any other numeric literal [JFrac lead] (with fraction or exponent;
    [lead] is the integer before it, e.g. 12 for 12.5). *)
From Verif Require Import GoBase.

Inductive json : Type :=
| JNull
| JBool (b : bool)
| JInt (z : Z)
| JNegZero
| JFrac (lead : Z)
| JStr (s : string)
| JArr (l : list json)
| JObj (l : list (string * json)).

(** json.RawMessage: [None] is the nil message of an absent field. *)
Definition raw := option json.

(** encoding/json foldName: object keys and field names are compared after case folding. Keys are the UTF-8 bytes
    after unquoting. The field names of /repo are ASCII, and the only non-ASCII runes folding to an ASCII letter are
    U+212A (Kelvin sign, bytes E2 84 AA) to K and U+017F (long s, bytes C5 BF) to S; other runes are kept, as folding
    them never yields an ASCII character. *)
Definition upper (c : ascii) : ascii :=
  let n := nat_of_ascii c in
  if Nat.leb 97 n && Nat.leb n 122 then ascii_of_nat (n - 32) else c.
Fixpoint foldName (s : string) : string :=
  match s with
  | EmptyString => EmptyString
  | String c t =>
      match t with
      | EmptyString => String (upper c) EmptyString
      | String d t1 =>
          if Ascii.eqb c "197" && Ascii.eqb d "191" then String "S" (foldName t1)
          else match t1 with
               | EmptyString => String (upper c) (foldName t)
               | String e t2 =>
                   if Ascii.eqb c "226" && Ascii.eqb d "132" && Ascii.eqb e "170" then String "K" (foldName t2)
                   else String (upper c) (foldName t)
               end
      end
  end.
Definition fold_eqb (k name : string) : bool := String.eqb (foldName k) (foldName name).

(** Decoding an object into a struct: keys in document order, each key stored by [step];
    null leaves the struct unchanged; any other value is a type error ([None]). *)
Fixpoint dec_fields {S} (step : string -> json -> S -> option S) (cur : S)
    (l : list (string * json)) : option S :=
  match l with
  | [] => Some cur
  | (k, v) :: t =>
      match step k v cur with
      | Some cur' => dec_fields step cur' t
      | None => None
      end
  end.
Definition dec_struct {S} (step : string -> json -> S -> option S) (cur : S) (j : json)
  : option S :=
  match j with
  | JNull => Some cur
  | JObj l => dec_fields step cur l
  | _ => None
  end.

(** Field types. [None] = an error is returned by json.Unmarshal. *)
Definition dec_bigint (j : json) : option (option Z) :=      (* *big.Int *)
  match j with
  | JNull => Some None
  | JInt z => Some (Some z)
  | JNegZero => Some (Some 0)
  | _ => None
  end.
Definition dec_num (lo hi : Z) (cur : Z) (j : json) : option Z := (* uint8, uint16, int *)
  match j with
  | JNull => Some cur
  | JInt z => if (lo <=? z) && (z <=? hi) then Some z else None
  | JNegZero => if (lo <? 0) && (0 <=? hi) then Some 0 else None (* strconv.ParseUint takes no sign *)
  | _ => None
  end.
Definition dec_uint8 := dec_num 0 255.
Definition dec_uint16 := dec_num 0 65535.
Definition dec_int := dec_num min_int64 max_int64.
Definition dec_raw (j : json) : option raw := Some (Some j).     (* json.RawMessage *)
Definition dec_rawlist (j : json) : option (list json) :=        (* []json.RawMessage *)
  match j with
  | JNull => Some []
  | JArr l => Some l
  | _ => None
  end.

(** json.Marshal of a *big.Int *)
Definition enc_bigint (x : option Z) : json :=
  match x with Some z => JInt z | None => JNull end.
