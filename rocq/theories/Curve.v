(** group/p256.go and group/p384.go: the methods of p256Group/p256Point over circl's group.P256 (group.P384).
    circl's arithmetic is a record of operations [Circl]; what the code relies on is the separate predicate
    [CirclOk]. A point value is the pair of affine coordinates with the evidence that it is (0,0) or on the curve:
    circl's constructors and UnmarshalBinary admit nothing else. *)
From Verif Require Import GoBase Json GroupIface ECJson.
From Coq Require Import Eqdep_dec.

Definition isPointb (cv : Curve) (P : Z * Z) : bool := ecIsIdentity P || onCurve cv (fst P) (snd P).
Record Pt (cv : Curve) : Type := mkPt { pv : Z * Z; pok : isPointb cv pv = true }.
Arguments mkPt {cv}. Arguments pv {cv}. Arguments pok {cv}.

Definition ptOf (cv : Curve) (P : Z * Z) : option (Pt cv) :=
  match bool_dec (isPointb cv P) true with left H => Some (mkPt P H) | right _ => None end.
Definition ptId (cv : Curve) : Pt cv := mkPt (0, 0) eq_refl.

(** circl group.P256: Add, Neg, Mul by a reduced scalar, MulGen of a reduced scalar, Generator, HashToElement *)
Record Circl (cv : Curve) : Type := mkCircl {
  ciAdd : Pt cv -> Pt cv -> Pt cv;
  ciNeg : Pt cv -> Pt cv;
  ciMul : Pt cv -> Z -> Pt cv;
  ciMulGen : Z -> Pt cv;
  ciGen : Pt cv;
  ciHash : bytes -> Pt cv
}.
Arguments ciAdd {cv}. Arguments ciNeg {cv}. Arguments ciMul {cv}. Arguments ciMulGen {cv}.
Arguments ciGen {cv}. Arguments ciHash {cv}.

(** circl's contract: the points form an abelian group of exponent n with identity (0,0); Mul and MulGen add
    n-1 times at most. *)
Record CirclOk (cv : Curve) (n : Z) (ci : Circl cv) : Prop := {
  co_order : 1 < n;
  co_comm : forall P Q, ciAdd ci P Q = ciAdd ci Q P;
  co_assoc : forall P Q R, ciAdd ci P (ciAdd ci Q R) = ciAdd ci (ciAdd ci P Q) R;
  co_id : forall P, ciAdd ci (ptId cv) P = P;
  co_neg : forall P, ciAdd ci P (ciNeg ci P) = ptId cv;
  co_mul0 : forall P, ciMul ci P 0 = ptId cv;
  co_mulS : forall P s, 0 <= s -> s + 1 < n -> ciMul ci P (s + 1) = ciAdd ci (ciMul ci P s) P;
  co_exp : forall P, ciAdd ci (ciMul ci P (n - 1)) P = ptId cv;
  co_gen : forall s, 0 <= s < n -> ciMulGen ci s = ciMul ci (ciGen ci) s
}.

Section Wrap.
Context (cv : Curve) (name : string) (n : Z) (ci : Circl cv).
Implicit Types a b x e : Pt cv.

(** p256.go 75-80. The receiver's previous value is overwritten, not read. *)
Definition cgAdd a b : Pt cv := ciAdd ci a b.
(** p256.go 89-93 *)
Definition cgNegate a : Pt cv := ciNeg ci a.
(** p256.go 82-87: tmp.Negate(b); e.Add(a, tmp) *)
Definition cgSubtract a b : Pt cv := cgAdd a (cgNegate b).
(** p256.go 95-98; circl compares the coordinates *)
Definition cgIsEqual a b : bool := (fst (pv a) =? fst (pv b)) && (snd (pv a) =? snd (pv b)).
(** p256.go 100-104 *)
Definition cgSet x : Pt cv := x.
(** p256.go 106-110: the error of UnmarshalBinary is dropped, the fresh element stays the identity *)
Definition cgSetBytes (b : bytes) : Pt cv :=
  match ecUnmarshalBinary cv b with
  | Some P => match ptOf cv P with Some p => p | None => ptId cv end
  | None => ptId cv
  end.
(** p256.go 112-117: SetBigInt reduces modulo the order *)
Definition cgScale x (s : Z) : Pt cv := ciMul ci x (s mod n).
(** p256.go 119-123 *)
Definition cgBaseScale (s : Z) : Pt cv := ciMulGen ci (s mod n).
(** p256.go 133-138: never fails *)
Definition cgMapToGroup (b : bytes) : res (Pt cv) := Ok (ciHash ci b).
(** p256.go 140-143 *)
Definition cgString e : bytes := ecString cv (pv e).
(** p256.go 145-147 *)
Definition cgIsIdentity e : bool := ecIsIdentity (pv e).
(** p256.go 153-156: receiver after the call, nil error? *)
Definition cgUnmarshalBinary (old : Pt cv) (b : bytes) : Pt cv * bool :=
  match ecUnmarshalBinary cv b with
  | Some P => match ptOf cv P with Some p => (p, true) | None => (old, false) end
  | None => (old, false)
  end.
(** p256.go 158-180 *)
Definition cgMarshalJSON e : res json := ecMarshalJSON cv (pv e).
(** p256.go 182-207. [ptOf] never fails here (lemma [cg_json_point] of PropCurve). *)
Definition cgUnmarshalJSON (old : Pt cv) (j : raw) : res (Pt cv * bool) :=
  '(P, ok) <- ecUnmarshalJSON cv (pv old) j ;;
  if ok : bool then match ptOf cv P with Some p => Ok (p, true) | None => Ok (old, false) end else Ok (old, false).

(** p256.go 23-65, 125-131: Element() is circl's NewElement, the identity *)
Definition CurveGrp : Grp :=
  mkGrp (Pt cv) name n (cvP cv) (ptId cv) (ciGen ci) (ptId cv)
    cgAdd cgSubtract cgNegate cgScale cgBaseScale cgIsEqual cgIsIdentity cgString cgMapToGroup
    cgMarshalJSON cgUnmarshalJSON.
End Wrap.

(** p256.go 209-218, p384.go 209-218 *)
Definition P256Grp (decomp : bytes -> option (Z * Z)) (ci : Circl (P256 decomp)) : Grp := CurveGrp (P256 decomp) "P-256" p256Order ci.
Definition P384Grp (decomp : bytes -> option (Z * Z)) (ci : Circl (P384 decomp)) : Grp := CurveGrp (P384 decomp) "P-384" p384Order ci.
