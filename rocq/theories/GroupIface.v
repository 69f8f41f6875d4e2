(** The interface group.Group / group.Element (group/group.go 9-79) as a record of
    operations, without laws; the laws are the separate predicates [GrpLaws] and [GrpPrime].
    An Element method call [SP.Element().Op(args)] (fresh receiver) is the pure
    function [gOp args]; receiver aliasing is modelled in Heap.v. *)
From Verif Require Import GoBase Json.
From Coq Require Import Znumtheory.

Record Grp : Type := mkGrp {
  E : Type;
  gName : string;                (* Name() *)
  gN : Z;                        (* N(): order of the group *)
  gP : Z;                        (* P(): order of the field *)
  gNew : E;                      (* Element() *)
  gGen : E;                      (* Generator() *)
  gId : E;                       (* Identity() *)
  gAdd : E -> E -> E;
  gSub : E -> E -> E;
  gNeg : E -> E;
  gScale : E -> Z -> E;
  gBase : Z -> E;                (* BaseScale *)
  gEq : E -> E -> bool;          (* IsEqual *)
  gIsId : E -> bool;             (* IsIdentity *)
  gStr : E -> bytes;             (* String() *)
  gMap : bytes -> res E;         (* MapToGroup *)
  gToJson : E -> res json;       (* MarshalJSON *)
  gOfJson : E -> raw -> res (E * bool)  (* UnmarshalJSON: receiver before; receiver after, nil error? *)
}.

(** Documented contract of Element (group/group.go 9-53): an abelian group in which Scale is the
    s-fold group operation and whose order divides N. *)
Record GrpLaws (G : Grp) : Prop := {
  l_order : 1 < gN G;
  l_comm : forall X Y, gAdd G X Y = gAdd G Y X;
  l_assoc : forall X Y Z, gAdd G X (gAdd G Y Z) = gAdd G (gAdd G X Y) Z;
  l_id : forall X, gAdd G (gId G) X = X;
  l_neg : forall X, gAdd G X (gNeg G X) = gId G;
  l_sub : forall X Y, gSub G X Y = gAdd G X (gNeg G Y);
  l_scale0 : forall X, gScale G X 0 = gId G;
  l_scaleS : forall X s, gScale G X (s + 1) = gAdd G (gScale G X s) X;
  l_scaleN : forall X, gScale G X (gN G) = gId G;
  l_base : forall s, gBase G s = gScale G (gGen G) s;
  l_eq : forall X Y, gEq G X Y = true <-> X = Y;
  l_isid : forall X, gIsId G X = true <-> X = gId G
}.

(** "Element represents an element of a prime-order group" (group/group.go 9): prime order, and the
    generator generates. *)
Record GrpPrime (G : Grp) : Prop := {
  lp_laws : GrpLaws G;
  lp_prime : prime (gN G);
  lp_gen : gGen G <> gId G;
  lp_cyclic : forall X, exists k, X = gScale G (gGen G) k
}.
