(** Verification with a library that may ignore a missing (nil) scalar.

    In BIP.v, BP.v and VoteProof.v a nil *big.Int given to Scale panics, whatever the element. group/p256k1.go 134-138 passes the pointer on to
    ING's ScalarMult, which looks at the point first: for the point at infinity it answers without touching the scalar. This file has the
    verification functions once more, with [nilScale X] for what Scale(X, nil) does: any function. All else is as in the files named, of which
    only the lines that pass a possibly nil integer to Scale differ. A nil integer given to BaseScale, Mul, Cmp or Bytes panics as before. *)
From Verif Require Import GoBase Json GroupIface Vector BIP BP MultiBP VoteProof App.

Section NilScale.
Context (G : Grp) (HO : Oracles) (nilScale : E G -> res (E G)).
Local Notation E := (E G).

(** group.go 19 Scale, with a possibly nil scalar *)
Definition scaleN (X : E) (s : option Z) : res E :=
  match s with Some z => Ok (gScale G X z) | None => nilScale X end.

(** bip.go 300-307 vectorScalarExp *)
Definition vectorScalarExpN (a : list (option E)) (b : option Z) : res (list E) :=
  mapM (fun X => X' <- deref X ;; scaleN X' b) a.

(** bip.go 236-243: one folding step of the verifier *)
Definition foldGensN (v : list (option E)) (np : nat) (e1 e2 : option Z) : res (list (option E)) :=
  lo <- slice_to v np ;;
  lo' <- vectorScalarExpN lo e1 ;;
  hi <- slice_from v np ;;
  hi' <- vectorScalarExpN hi e2 ;;
  Ok (match VectorECAdd G lo' hi' with Some l => map Some l | None => [] end).

(** bip.go 92-97 computePP *)
Definition computePPN (P : E) (c : option Z) (x : Z) (u : E) : res (E * E) :=
  let ux := gScale G u x in
  uxc <- scaleN ux c ;;
  Ok (gAdd G P uxc, ux).

(** bip.go 232-249: the verification loop; the two inverses may be nil *)
Fixpoint ipVerifyLoopN (Ls : list E) (Rs : list (option E)) (g h : list (option E)) (np : nat) (Pp : E)
  : res (list (option E) * list (option E) * E) :=
  match Ls with
  | [] => Ok (g, h, Pp)
  | L :: Ls' =>
      match Rs with
      | Some R :: Rs' =>
        let np' := Nat.div np 2 in
        let x := fst (HashBP G HO L R) in
        let xinv := modInverse x (gN G) in
        g' <- foldGensN g np' xinv (Some x) ;;
        h' <- foldGensN h np' (Some x) xinv ;;
        let x2 := (x * x) mod gN G in
        Rx <- scaleN R (modInverse x2 (gN G)) ;;
        let Pp' := gAdd G (gAdd G Pp (gScale G L x2)) Rx in
        ipVerifyLoopN Ls' Rs' g' h' np' Pp'
      | _ => Panic
      end
  end.

(** bip.go 215-266 InnerProductProof.Verify; nil A or B panics in Multiply (252) *)
Definition ipVerifyN (pf : IPProof G) : res bool :=
  let params := ipParams pf in
  x <- hashIP G HO (ipGg params) (ipHh params) (ipP pf) (ipCc pf) ;;
  '(PP, ux) <- computePPN (ipP pf) (ipCc pf) x (ipUu params) ;;
  '(gp, hp, Pp) <- ipVerifyLoopN (ipL pf) (ipR pf) (map Some (ipGg params)) (ipHh params)
                                (length (ipGg params)) PP ;;
  pa <- deref (ipA pf) ;; pb <- deref (ipB pf) ;;
  let ab := (pa * pb) mod gN G in
  g0 <- idx gp 0 ;; g0' <- deref g0 ;;
  h0 <- idx hp 0 ;; h0' <- deref h0 ;;
  let rhs := gAdd G (gAdd G (gScale G g0' pa) (gScale G h0' pb)) (gScale G ux ab) in
  let nP := gAdd G (gNeg G Pp) rhs in
  Ok (gIsId G nP).

(** bp.go 248-331 BulletProof.Verify; a nil Tprime panics in BaseScale, a nil y^-1 in the multiplication of updateGenerators (363) *)
Definition VerifyN (proof : BulletProof G) : res bool :=
  let params := pParams proof in
  let m := gN G in
  let N := bpN params in
  let x := fst (HashBP G HO (pT1 proof) (pT2 proof)) in
  let '(y, z) := HashBP G HO (pA proof) (pS proof) in
  let zSquared := (z * z) mod m in
  let xSquared := (x * x) mod m in
  hp <- updateGenerators G (bpHh params) y N ;;
  tp <- deref (pTprime proof) ;;
  htx <- scaleN (bpH params) (pTaux proof) ;;
  let lhs := gAdd G (gBase G tp) htx in
  let rhs0 := gScale G (pV proof) zSquared in
  d <- delta G N y z ;;
  let rhs1 := gAdd G rhs0 (gBase G d) in
  let T1x := gScale G (pT1 proof) x in
  let T2x2 := gScale G (pT2 proof) xSquared in
  let rhs := gAdd G (gAdd G rhs1 T1x) T2x2 in
  let c65 := gEq G rhs lhs in
  let Sx := gScale G (pS proof) x in
  let ASx := gAdd G (pA proof) Sx in
  let mz := m - z in
  vmz <- VectorCopy mz N ;;
  let gpmz := VectorExp G (bpGg params) vmz in
  vz <- VectorCopy z N ;;
  vy <- powerOf G y N ;;
  let zyn := nil_slice (VectorMul vy vz m) in
  p2n <- powerOf G 2 N ;;
  z22n <- VectorScalarMul p2n (Some zSquared) m ;;
  let zynz22n := nil_slice (VectorAdd zyn z22n m) in
  gpmz' <- deref gpmz ;;
  let lP0 := gAdd G ASx gpmz' in
  hpExp <- deref (VectorExp G hp zynz22n) ;;
  let lP := gAdd G lP0 hpExp in
  rP0 <- scaleN (bpH params) (pMu proof) ;;
  let rP := gAdd G rP0 (ipP (pIPP proof)) in
  let c67 := gIsId G (gSub G rP lP) in
  ok <- ipVerifyN (pIPP proof) ;;
  Ok (c65 && c67 && ok).

(** multibp.go 227-327 MultiBulletProof.Verify; nil integers as in [VerifyN] *)
Definition MultiVerifyN (proof : MultiBulletProof G) : res bool :=
  let params := mParams proof in
  let md := gN G in
  let N := bpN params in
  let m := length (mVs proof) in
  bits <- goDiv N (Z.of_nat m) ;;
  let x := fst (HashBP G HO (mT1 proof) (mT2 proof)) in
  let '(y, z) := HashBP G HO (mA proof) (mS proof) in
  let zSquared := (z * z) mod md in
  let xSquared := (x * x) mod md in
  hp <- updateGenerators G (bpHh params) y N ;;
  tp <- deref (mTprime proof) ;;
  htx <- scaleN (bpH params) (mTaux proof) ;;
  let lhs := gAdd G (gBase G tp) htx in
  powersOfz <- powerOf G z (Z.of_nat m) ;;
  let rhs0 := fold_left (fun r vp => gAdd G r (gScale G (fst vp) (zSquared * snd vp)))
                        (combine (mVs proof) powersOfz) (gId G) in
  d <- deltaMul G N y z (Z.of_nat m) ;;
  let rhs1 := gAdd G rhs0 (gBase G d) in
  let T1x := gScale G (mT1 proof) x in
  let T2x2 := gScale G (mT2 proof) xSquared in
  let rhs := gAdd G (gAdd G rhs1 T1x) T2x2 in
  let c65 := gEq G rhs lhs in
  let Sx := gScale G (mS proof) x in
  let ASx := gAdd G (mA proof) Sx in
  let mz := md - z in
  vmz <- VectorCopy mz N ;;
  let gpmz := VectorExp G (bpGg params) vmz in
  vz <- VectorCopy z N ;;
  vy <- powerOf G y N ;;
  let zyn := nil_slice (VectorMul vy vz md) in
  hpExp <- deref (VectorExp G hp zyn) ;;
  powersOfTwo <- powerOf G 2 bits ;;
  prod <- multiProd_loop G hp (Z.to_nat bits) powersOfTwo z (seq 0 m) (gId G) ;;
  let tail := gAdd G hpExp prod in
  gpmz' <- deref gpmz ;;
  let lP := gAdd G (gAdd G ASx gpmz') tail in
  rP0 <- scaleN (bpH params) (mMu proof) ;;
  let rP := gAdd G rP0 (ipP (mIPP proof)) in
  let c67 := gIsId G (gSub G rP lP) in
  ok <- ipVerifyN (mIPP proof) ;;
  Ok (c65 && c67 && ok).

(** voteproof.go 99-110 pedersenCommit and sigmaPedersenCheck *)
Definition sigmaPedersenCheckN (z : Z) (s : option Z) (c : Z) (k x : E) (gp : GroupParams G) : res bool :=
  blind <- scaleN (gpH gp) s ;;
  let left := gAdd G (gBase G z) blind in
  let right := gAdd G (gScale G x c) k in
  Ok (gEq G left right).
End NilScale.

Section NilVote.
Context (GF GE : Grp) (HO : Oracles) (nilScale : E GE -> res (E GE)).

(** voteproof.go 182-226 Verify. The group modulo p is as before: BaseScale(nil) (l. 203) panics there before Sp reaches Scale. *)
Definition vpVerifyN (proof : SigmaProof GF GE) (comm : VerCommitments GF GE) : res bool :=
  let params := sParams proof in
  z <- deref (sZ proof) ;;
  if (z <? zLowerBound GF GE params) || (zUpperBound GF GE params <=? z) then Ok false else
  challenge <- getFSChallenge GF GE HO (sW proof) (sKp proof) (sKq1 proof) (sKq2 proof) (vBc params) ;;
  c <- deref (sChal proof) ;;
  if negb (challenge =? c) then Ok false else
  sp <- deref (sSp proof) ;;
  let l := gBase GF sp in
  let r := gAdd GF (gScale GF (cY comm) c) (sW proof) in
  if negb (gEq GF l r) then Ok false else
  if negb (sigmaPedersenCheck GF z sp c (sKp proof) (cXp comm) (vGFF params)) then Ok false else
  q1 <- sigmaPedersenCheckN GE nilScale z (sSq1 proof) c (sKq1 proof) (cXq1 comm) (vGEC params) ;;
  if negb q1 then Ok false else
  q2 <- sigmaPedersenCheckN GE nilScale z (sSq2 proof) c (sKq2 proof) (cXq2 comm) (vGEC params) ;;
  if negb q2 then Ok false else
  Ok true.

(** server.go 9-56 verifyVote *)
Definition verifyVoteN (proofs : BallotData GF GE) (rp : ProofParams GF GE) : res (bool * nat) :=
  ok1 <- VerifyN GE HO nilScale (bdLower proofs) ;;
  if negb ok1 then Ok (false, 0%nat) else
  ok2 <- VerifyN GE HO nilScale (bdUpper proofs) ;;
  if negb ok2 then Ok (false, 0%nat) else
  let loShift := gBase GE (vLo rp) in
  let Xq1 := gAdd GE loShift (pV (bdLower proofs)) in
  let upShift := gBase GE (vHi rp) in
  let inv := gScale GE (pV (bdUpper proofs)) (-1) in
  let Xq2 := gAdd GE upShift inv in
  let comm := mkVerCommitments (ctU (bdBallot proofs)) (ctV (bdBallot proofs)) Xq1 Xq2 in
  result <- vpVerifyN (bdVote proofs) comm ;;
  Ok (result, 2%nat).
End NilVote.

(** ING's ScalarMult, reached from p256k1.go 134-138: `if a.IsZero() { return p.SetInfinity() }` comes before the scalar is read. The library
    is not in the repository; this is its published code, and the theorems on [verifyVoteN] hold for other choices too. *)
Definition ingNil (G : Grp) (X : E G) : res (E G) := if gIsId G X then Ok (gId G) else Panic.
