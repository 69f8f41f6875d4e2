(** group/modsafeprime.go: the subgroup of order (p-1)/2 of Z_p^*, p a safe prime.
    Elements are represented by their val. A fresh receiver Element() has val 0, an Identity() receiver 1;
    big.Int.ModInverse and big.Int.Exp leave the receiver unchanged when they fail. check() (77-86) always
    succeeds inside one group and is not modelled. *)
From Verif Require Import GoBase Json GroupIface.
From Coq Require Import Zpow_facts.

(** modsafeprime.go 15-20 *)
Record ModPDesc : Type := mkModPDesc {
  mpGen : Z;
  mpField : Z;
  mpOrder : Z;
  mpName : string
}.

(** val after a call that may fail, given the receiver's val *)
Definition or_old (o : option Z) (old : Z) : Z := match o with Some v => v | None => old end.

Section ModP.
Context (d : ModPDesc).
Local Notation p := (mpField d).

(** modsafeprime.go 88-94 *)
Definition mpAdd (x y : Z) : Z := (x * y) mod p.
(** modsafeprime.go 103-107; [old] is the receiver's val before the call *)
Definition mpNegate (old x : Z) : Z := or_old (modInverse x p) old.
(** modsafeprime.go 96-101: tmp starts as Identity() *)
Definition mpSub (x y : Z) : Z := mpAdd x (mpNegate 1 y).
(** modsafeprime.go 125-129 *)
Definition mpScale (old x s : Z) : Z := or_old (bigExp x s p) old.
(** modsafeprime.go 131-134 *)
Definition mpBaseScale (old s : Z) : Z := or_old (bigExp (mpGen d) s p) old.

(** big.Int.UnmarshalJSON (called at 169-172): null is a no-op; otherwise UnmarshalText. On a literal that is
    not an integer the error comes with the value of the leading digits (0 if there are none); the bool is
    "no error". An absent (empty) message fails before the receiver is touched. *)
Definition mpOfJson (old : Z) (j : raw) : res (Z * bool) :=
  match j with
  | Some JNull => Ok (old, true)
  | Some (JInt z) => Ok (z, true)
  | Some JNegZero => Ok (0, true)
  | Some (JFrac l) => Ok (l, false)
  | None => Ok (old, false)
  | _ => Ok (0, false)
  end.

(** modsafeprime.go: the group.Group implementation; MapToGroup (152-154) panics *)
Definition ModPGrp : Grp := {|
  E := Z;
  gName := mpName d;
  gN := mpOrder d;
  gP := p;
  gNew := 0;                                    (* 70-75 *)
  gGen := mpGen d;                              (* 49-54 *)
  gId := 1;                                     (* 56-61 *)
  gAdd := mpAdd;
  gSub := mpSub;
  gNeg := mpNegate 0;
  gScale := mpScale 0;
  gBase := mpBaseScale 0;
  gEq := Z.eqb;                                 (* 109-112 *)
  gIsId := fun x => x =? 1;                     (* 148-150 *)
  gStr := dec_str;                              (* 144-146 *)
  gMap := fun _ => Panic;                       (* 152-154 *)
  gToJson := fun x => Ok (JInt x);              (* 165-167 *)
  gOfJson := mpOfJson                           (* 169-172 *)
|}.
End ModP.

(** strings.Join(strings.Fields(s), ""): removal of white space. Simplification: ASCII strings. *)
Definition is_space (c : ascii) : bool :=
  let n := nat_of_ascii c in (Nat.leb 9 n && Nat.leb n 13) || Nat.eqb n 32.
Fixpoint stripSpaces (s : string) : string :=
  match s with
  | EmptyString => EmptyString
  | String c t => if is_space c then stripSpaces t else String c (stripSpaces t)
  end.

(** big.Int.SetString(s, 16): optional sign, at least one digit *)
Definition hexDigit (c : ascii) : option Z :=
  let n := Z.of_nat (nat_of_ascii c) in
  if (48 <=? n) && (n <=? 57) then Some (n - 48)
  else if (65 <=? n) && (n <=? 70) then Some (n - 55)
  else if (97 <=? n) && (n <=? 102) then Some (n - 87)
  else None.
Fixpoint hexDigits (s : string) (acc : Z) : option Z :=
  match s with
  | EmptyString => Some acc
  | String c t => match hexDigit c with Some v => hexDigits t (acc * 16 + v) | None => None end
  end.
Definition setString16 (s : string) : option Z :=
  match s with
  | EmptyString => None
  | String c t =>
      if Ascii.eqb c "-"%char then
        match t with EmptyString => None | _ => option_map Z.opp (hexDigits t 0) end
      else if Ascii.eqb c "+"%char then
        match t with EmptyString => None | _ => hexDigits t 0 end
      else hexDigits s 0
  end.

(** modsafeprime.go 174-197 NewModPGroup *)
Definition NewModPGroup (name fieldOrder generator : string) : res ModPDesc :=
  ff <- deref (setString16 (stripSpaces fieldOrder)) ;;
  gen <- deref (setString16 generator) ;;
  Ok (mkModPDesc gen ff ((ff - 1) / 2) name).
