(** group/ristretto255.go and group/p256k1.go as instances of the group interface. The arithmetic of circl's
    Ristretto255 and of ING's crypto/p256 package (neither is in /repo) is a record of operations; what the code
    relies on for Ristretto255 is the separate predicate [RistrettoOk]. *)
From Verif Require Import GoBase Json GroupIface ModP App ECJson P256k1.

(** ** ristretto255.go *)
(** circl group.Ristretto255 over the codec [c]: Identity, Add, Neg, Mul by a reduced scalar, MulGen, Generator,
    IsEqual, IsIdentity, HashToElement *)
Record Ristretto (c : R255Codec) : Type := mkRistretto {
  riId : rPt c;
  riAdd : rPt c -> rPt c -> rPt c;
  riNeg : rPt c -> rPt c;
  riMul : rPt c -> Z -> rPt c;
  riMulGen : Z -> rPt c;
  riGen : rPt c;
  riEq : rPt c -> rPt c -> bool;
  riIsId : rPt c -> bool;
  riHash : bytes -> rPt c
}.
Arguments riId {c}. Arguments riAdd {c}. Arguments riNeg {c}. Arguments riMul {c}. Arguments riMulGen {c}.
Arguments riGen {c}. Arguments riEq {c}. Arguments riIsId {c}. Arguments riHash {c}.

(** circl's contract: an abelian group of exponent n; Mul and MulGen add n-1 times at most *)
Record RistrettoOk (c : R255Codec) (n : Z) (ri : Ristretto c) : Prop := {
  ro_order : 1 < n;
  ro_comm : forall P Q, riAdd ri P Q = riAdd ri Q P;
  ro_assoc : forall P Q R, riAdd ri P (riAdd ri Q R) = riAdd ri (riAdd ri P Q) R;
  ro_id : forall P, riAdd ri (riId ri) P = P;
  ro_neg : forall P, riAdd ri P (riNeg ri P) = riId ri;
  ro_mul0 : forall P, riMul ri P 0 = riId ri;
  ro_mulS : forall P s, 0 <= s -> s + 1 < n -> riMul ri P (s + 1) = riAdd ri (riMul ri P s) P;
  ro_exp : forall P, riAdd ri (riMul ri P (n - 1)) P = riId ri;
  ro_gen : forall s, 0 <= s < n -> riMulGen ri s = riMul ri (riGen ri) s;
  ro_eq : forall P Q, riEq ri P Q = true <-> P = Q;
  ro_isid : forall P, riIsId ri P = true <-> P = riId ri
}.

Section R255.
Context (c : R255Codec) (n : Z) (ri : Ristretto c).
Implicit Types a b x : rPt c.
(** ristretto255.go 75-80 *)
Definition rgAdd a b : rPt c := riAdd ri a b.
(** ristretto255.go 89-93 *)
Definition rgNegate a : rPt c := riNeg ri a.
(** ristretto255.go 82-87: tmp.Negate(b); e.Add(a, tmp) *)
Definition rgSubtract a b : rPt c := rgAdd a (rgNegate b).
(** ristretto255.go 112-117: SetBigInt reduces modulo the order *)
Definition rgScale x (s : Z) : rPt c := riMul ri x (s mod n).
(** ristretto255.go 119-123 *)
Definition rgBaseScale (s : Z) : rPt c := riMulGen ri (s mod n).
(** ristretto255.go 106-110: the error of UnmarshalBinary is dropped, the fresh element stays the identity *)
Definition rgSetBytes (b : bytes) : rPt c :=
  match rUnmarshalBinary c b with Some P => P | None => riId ri end.
(** ristretto255.go 23-65, 95-98, 125-147, 158-207 (the JSON code is [r255MarshalJSON], [r255UnmarshalJSON]);
    Element() is circl's NewElement, the identity *)
Definition RistGrp : Grp :=
  mkGrp (rPt c) "ristretto255" n r255Field (riId ri) (riGen ri) (riId ri)
    rgAdd rgSubtract rgNegate rgScale rgBaseScale (riEq ri) (riIsId ri) (rMarshalBinary c)
    (fun s => Ok (riHash ri s)) (r255MarshalJSON c) (r255UnmarshalJSON c).
End R255.
(** ristretto255.go 209-218 *)
Definition R255Grp (c : R255Codec) (ri : Ristretto c) : Grp := RistGrp c r255Order ri.

(** ** p256k1.go *)
(** An ING point is a pair of pointers. Every method of p256k1.go leaves both nil or both non-nil (SetInfinity,
    SetBytes, and ING's operations), so the elements are [None] (both nil) or the two coordinates. *)
Definition ingPt : Type := option (Z * Z).
Definition ingPtrs (P : ingPt) : k1pt := match P with None => (None, None) | Some (x, y) => (Some x, Some y) end.
Definition ingOfPtrs (P : k1pt) : ingPt := match P with (Some x, Some y) => Some (x, y) | _ => None end.

(** ING crypto/p256: Multiply (the group operation), ScalarMult, ScalarBaseMult, MapToGroup and String; arbitrary *)
Record Ing : Type := mkIng {
  inMultiply : ingPt -> ingPt -> ingPt;
  inScalarMult : ingPt -> Z -> ingPt;
  inScalarBaseMult : Z -> ingPt;
  inMapToGroup : bytes -> Z * Z;
  inString : ingPt -> bytes
}.

Section K1.
Context (ing : Ing).
(** p256k1.go 73-78 *)
Definition kgAdd (a b : ingPt) : ingPt := inMultiply ing a b.
(** p256k1.go 87-91 *)
Definition kgNegate (a : ingPt) : ingPt := inScalarMult ing a (-1).
(** p256k1.go 80-85: tmp.Negate(b); e.Add(a, tmp) *)
Definition kgSubtract (a b : ingPt) : ingPt := kgAdd a (kgNegate b).
(** p256k1.go 93-117, 165-170 *)
Definition kgIsEqual (a b : ingPt) : bool := k1IsEqual (ingPtrs a) (ingPtrs b).
Definition kgIsIdentity (a : ingPt) : bool := match k1IsIdentity (ingPtrs a) with Ok b => b | _ => false end.
(** p256k1.go 153-159 *)
Definition kgMapToGroup (b : bytes) : res ingPt :=
  let '(x, y) := inMapToGroup ing b in P <- k1MapToGroup x y ;; Ok (ingOfPtrs P).
(** p256k1.go 191-197 *)
Definition kgMarshalJSON (a : ingPt) : res json := k1MarshalJSON (ingPtrs a).
Definition kgUnmarshalJSON (old : ingPt) (j : raw) : res (ingPt * bool) :=
  '(P, ok) <- k1UnmarshalJSON (ingPtrs old) j ;; Ok (ingOfPtrs P, ok).
(** p256k1.go 22-65, 199-208: Element() has two nil coordinates *)
Definition K1Grp : Grp :=
  mkGrp ingPt "secp256k1" k1Order k1Field None (inScalarBaseMult ing 1) None
    kgAdd kgSubtract kgNegate (inScalarMult ing) (inScalarBaseMult ing) kgIsEqual kgIsIdentity (inString ing)
    kgMapToGroup kgMarshalJSON kgUnmarshalJSON.
End K1.

(** ** Random *)
(** modsafeprime.go 63-68: Identity, then BaseScale with the draw [r] of rand.Int(rand.Reader, groupOrder) *)
Definition mpRandom (d : ModPDesc) (r : Z) : res Z := r' <- randInt (mpOrder d) r ;; Ok (mpBaseScale d 1 r').
(** p256k1.go 51-56 *)
Definition kgRandom (ing : Ing) (r : Z) : res ingPt := r' <- randInt k1Order r ;; Ok (inScalarBaseMult ing r').
