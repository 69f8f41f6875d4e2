(** bulletproofs/multibp.go at the level of Go pointers (see Imp.v); MultiBP.v models it on values. *)
From Verif Require Import GoBase Json GroupIface Vector BIP BP MultiBP Imp.

(** multibp.go 33-44 MultiBulletProof *)
Record MultiBulletProofP : Type := mkMultiBulletProofP {
  sVs : list ptr; sA : ptr; sS : ptr; sT1 : ptr; sT2 : ptr; sTaux : ptr; sMu : ptr; sTprime : ptr;
  sIPP : IPProofP; sParams : BPParamsP
}.

Section ImpMulti.
Context (G : Grp) (HO : Oracles).
Local Notation M := (M G).
Local Notation "x <~ m ;; k" := (mbind G m (fun x => k)) (at level 61, m at next level, right associativity).
Local Notation "m ;;; k" := (mbind G m (fun _ => k)) (at level 61, right associativity).
Local Notation ret := (ret G). Local Notation lift := (lift G). Local Notation mmap := (mmap G).
Local Notation newZ := (newZ G). Local Notation newE := (newE G). Local Notation rdZ := (rdZ G). Local Notation rdE := (rdE G).
Local Notation element := (element G). Local Notation bigInt := (bigInt G).
Local Notation eAdd := (eAdd G). Local Notation eSub := (eSub G). Local Notation eScale := (eScale G).
Local Notation eBase := (eBase G).
Local Notation zAdd := (zAdd G). Local Notation zSub := (zSub G). Local Notation zMul := (zMul G).
Local Notation zMod := (zMod G). Local Notation zNeg := (zNeg G).

(** e.Exp(a, k, m) of math/big for k >= 0 *)
Definition zExp (e a k m : ptr) : M unit := x <~ rdZ a ;; y <~ rdZ k ;; n <~ rdZ m ;; wrZ G e (Z.pow x y mod n).

(** multibp.go 68-82: the commitments, the blinding factors and the concatenated bits (int64 values, copied) *)
Fixpoint imultiCommit (gam : nat -> Z) (j : nat) (secrets : list ptr) (bits : Z) (H : ptr)
  : M (list ptr * list ptr * (list Z * list Z)) :=
  match secrets with
  | [] => ret ([], [], ([], []))
  | s :: t =>
      gamma <~ newZ (gam j) ;;
      C <~ iPedersenCommit G s gamma H ;;
      aL <~ iDecompose G s 2 bits ;;
      let '(aL', aR') := match computeAR aL with
                         | Some aR => (aL, aR)
                         | None => (repeat 0 (length aL), repeat 0 (length aL))
                         end in
      r <~ imultiCommit gam (S j) t bits H ;;
      let '(Cs, gs, (l, rr)) := r in
      ret (C :: Cs, gamma :: gs, (aL' ++ l, aR' ++ rr))
  end.

(** multibp.go 123-129: the filled part of zPowersTimesTwoVec; the rest stays nil *)
Fixpoint izPow2 (z : ptr) (pow2 : list ptr) (js : list nat) (mod_ : ptr) : M (list ptr) :=
  match js with
  | [] => ret []
  | j :: t =>
      k <~ newZ (2 + Z.of_nat j) ;; zp <~ bigInt (fun e => zExp e z k mod_) ;;
      b <~ mmap (fun p => u <~ bigInt (fun e => zMul e p zp) ;; bigInt (fun e => zMod e u mod_)) pow2 ;;
      r <~ izPow2 z pow2 t mod_ ;; ret (b ++ r)
  end.
Definition izPow2Vec (z : ptr) (pow2 : list ptr) (m n : nat) (mod_ : ptr) : M (list ptr) :=
  v <~ izPow2 z pow2 (seq 0 m) mod_ ;; ret (v ++ repeat None (n - length v)).

(** multibp.go 184-189 *)
Fixpoint irandTotal (z : ptr) (jgs : list (nat * ptr)) (mod_ acc : ptr) : M ptr :=
  match jgs with
  | [] => ret acc
  | (j, g) :: t =>
      k <~ newZ (2 + Z.of_nat j) ;; zp <~ bigInt (fun e => zExp e z k mod_) ;;
      tmp1 <~ bigInt (fun e => zMul e g zp) ;;
      s <~ bigInt (fun e => zAdd e acc tmp1) ;; acc' <~ bigInt (fun e => zMod e s mod_) ;;
      irandTotal z t mod_ acc'
  end.

(** multibp.go 51-222 MultiProve: tauX and mu are overwritten in place *)
Definition iMultiProve (secrets : list ptr) (params : BPParamsP) (gam : nat -> Z) (rnd : BPRand) (mod_ : ptr)
  : M (MultiBulletProofP * list ptr) :=
  let N := rN params in
  let H := rH params in
  let m := length secrets in
  bits <~ lift (goDiv N (Z.of_nat m)) ;;
  n <~ lift (make_len N) ;;
  md <~ rdZ mod_ ;; valpha <~ lift (randInt md (r_alpha rnd)) ;;
  cg <~ imultiCommit gam 0 secrets bits H ;;
  let '(commitments, gammas, (aLc, aRc)) := cg in
  let aLConcat := padTo n aLc in
  let aRConcat := padTo n aRc in
  alpha <~ newZ valpha ;;
  A <~ icommitVector G aRConcat aRConcat alpha H (rGg params) (rHh params) N ;;
  sL <~ isampleRandomVector G N (r_sL rnd) ;;
  sR <~ isampleRandomVector G N (r_sR rnd) ;;
  rho <~ newZ (r_rho rnd) ;;
  S <~ icommitVectorBig G sL sR rho H (rGg params) (rHh params) N ;;
  yz <~ iHashBP G HO A S ;; let '(y, z) := yz in
  tau1 <~ newZ (r_tau1 rnd) ;; tau2 <~ newZ (r_tau2 rnd) ;;
  yPow <~ ipowerOf G y N mod_ ;;
  two <~ newZ 2 ;; powersOf2 <~ ipowerOf G two bits mod_ ;;
  zPowersTimesTwoVec <~ izPow2Vec z powersOf2 m n mod_ ;;
  aLb <~ iVectorConvertToBig G aLConcat N ;; aRb <~ iVectorConvertToBig G aRConcat N ;;
  mz <~ bigInt (fun e => zNeg e z) ;; l0 <~ iVectorAddConst G aLb mz mod_ ;;
  vecZ <~ iVectorCopy G z N ;; aRzn <~ iVectorAdd G vecZ aRb mod_ ;;
  r0' <~ iVectorMul G yPow aRzn mod_ ;; r0 <~ iVectorAdd G r0' zPowersTimesTwoVec mod_ ;;
  r1 <~ iVectorMul G yPow sR mod_ ;;
  t1left <~ iVectorInnerProduct G sL r0 mod_ ;;
  t1right <~ iVectorInnerProduct G l0 r1 mod_ ;;
  t1s <~ bigInt (fun e => zAdd e t1left t1right) ;; t1 <~ bigInt (fun e => zMod e t1s mod_) ;;
  t2 <~ iVectorInnerProduct G sL r1 mod_ ;;
  T1 <~ iPedersenCommit G t1 tau1 H ;; T2 <~ iPedersenCommit G t2 tau2 H ;;
  xx <~ iHashBP G HO T1 T2 ;; let x := fst xx in
  sLx <~ iVectorScalarMul G sL x mod_ ;; bl <~ iVectorAdd G l0 sLx mod_ ;;
  sRx <~ iVectorScalarMul G sR x mod_ ;; tmp <~ iVectorAdd G aRzn sRx mod_ ;;
  tmp' <~ iVectorMul G yPow tmp mod_ ;; br <~ iVectorAdd G tmp' zPowersTimesTwoVec mod_ ;;
  th <~ iScalarProduct G bl br mod_ ;;
  xsq <~ bigInt (fun e => zMul e x x) ;; tauX <~ bigInt (fun e => zMul e tau2 xsq) ;;
  t1x <~ bigInt (fun e => zMul e tau1 x) ;; zAdd tauX tauX t1x ;;;
  zero <~ newZ 0 ;; total <~ irandTotal z (combine (seq 0 (length gammas)) gammas) mod_ zero ;;
  zAdd tauX tauX total ;;; zMod tauX tauX mod_ ;;;
  mu <~ bigInt (fun e => zMul e rho x) ;; zAdd mu mu alpha ;;; zMod mu mu mod_ ;;;
  hp <~ iupdateGenerators G (rHh params) y N mod_ ;;
  ipp <~ isetupInnerProduct G (rGg params) hp N ;;
  commit <~ icommitInnerProduct G (rGg params) hp bl br ;;
  ipProof <~ iproveInnerProduct G HO (length bl) bl br commit th ipp mod_ ;;
  ret (mkMultiBulletProofP commitments A S T1 T2 tauX mu th ipProof params, gammas).

(** multibp.go 330-367 deltaMul: t3, t2 and result are overwritten in place *)
Fixpoint it3_loop (js : list nat) (z sp12 t3 mod_ : ptr) : M unit :=
  match js with
  | [] => ret tt
  | j :: t =>
      k <~ newZ (Z.of_nat j + 3) ;; zp <~ bigInt (fun e => zExp e z k mod_) ;;
      u <~ bigInt (fun e => zMul e zp sp12) ;; tmp <~ bigInt (fun e => zMod e u mod_) ;;
      s <~ bigInt (fun e => zAdd e t3 tmp) ;; zMod t3 s mod_ ;;;
      it3_loop t z sp12 t3 mod_
  end.
Definition ideltaMul (N : Z) (y z : ptr) (m : Z) (mod_ : ptr) : M ptr :=
  result <~ newZ 0 ;;
  nm <~ lift (goDiv N m) ;;
  one <~ newZ 1 ;; onePow <~ iVectorCopy G one nm ;;
  two <~ newZ 2 ;; twoPow <~ ipowerOf G two nm mod_ ;;
  zz <~ bigInt (fun e => zMul e z z) ;; zSquared <~ bigInt (fun e => zMod e zz mod_) ;;
  d <~ bigInt (fun e => zSub e z zSquared) ;; t1 <~ bigInt (fun e => zMod e d mod_) ;;
  one' <~ newZ 1 ;; onePowNM <~ iVectorCopy G one' N ;; yPowNM <~ ipowerOf G y N mod_ ;;
  t2 <~ iScalarProduct G onePowNM yPowNM mod_ ;;
  sp12 <~ iScalarProduct G onePow twoPow mod_ ;;
  t3 <~ newZ 0 ;; it3_loop (seq 0 (Z.to_nat m)) z sp12 t3 mod_ ;;;
  zMul t2 t2 t1 ;;; zMod result t2 mod_ ;;;
  zSub result result t3 ;;; zMod result result mod_ ;;;
  ret result.

(** multibp.go 252-255: rhs is accumulated in place *)
Fixpoint irhs_loop (vps : list (ptr * ptr)) (zSquared rhs : ptr) : M unit :=
  match vps with
  | [] => ret tt
  | (V, p) :: t =>
      s <~ bigInt (fun e => zMul e zSquared p) ;;
      tmp <~ element (fun e => eScale e V s) ;; eAdd rhs rhs tmp ;;;
      irhs_loop t zSquared rhs
  end.
(** multibp.go 297-303: prod is accumulated in place *)
Fixpoint imultiProd_loop (hp : list ptr) (bits : nat) (pow2 : list ptr) (z : ptr) (js : list nat) (prod mod_ : ptr) : M unit :=
  match js with
  | [] => ret tt
  | j :: js' =>
      up <~ lift (slice_to hp ((j + 1) * bits)) ;;
      k <~ newZ (2 + Z.of_nat j) ;; zp <~ bigInt (fun e => zExp e z k mod_) ;;
      exp <~ iVectorAddConst G pow2 zp mod_ ;;
      val <~ iVectorExp G (skipn (j * bits) up) exp ;;
      eAdd prod prod val ;;;
      imultiProd_loop hp bits pow2 z js' prod mod_
  end.

(** multibp.go 227-327 Verify *)
Definition iMultiVerify (proof : MultiBulletProofP) (mod_ : ptr) : M bool :=
  let params := sParams proof in
  let N := rN params in
  let m := length (sVs proof) in
  bits <~ lift (goDiv N (Z.of_nat m)) ;;
  xx <~ iHashBP G HO (sT1 proof) (sT2 proof) ;; let x := fst xx in
  yz <~ iHashBP G HO (sA proof) (sS proof) ;; let '(y, z) := yz in
  zz <~ bigInt (fun e => zMul e z z) ;; zSquared <~ bigInt (fun e => zMod e zz mod_) ;;
  xsq <~ bigInt (fun e => zMul e x x) ;; xSquared <~ bigInt (fun e => zMod e xsq mod_) ;;
  hp <~ iupdateGenerators G (rHh params) y N mod_ ;;
  lhs <~ iPedersenCommit G (sTprime proof) (sTaux proof) (rH params) ;;
  powersOfz <~ ipowerOf G z (Z.of_nat m) mod_ ;;
  rhs <~ newE (gId G) ;;
  irhs_loop (combine (sVs proof) powersOfz) zSquared rhs ;;;
  d <~ ideltaMul N y z (Z.of_nat m) mod_ ;;
  gDelta <~ element (fun e => eBase e d) ;;
  eAdd rhs rhs gDelta ;;;
  T1x <~ element (fun e => eScale e (sT1 proof) x) ;;
  T2x2 <~ element (fun e => eScale e (sT2 proof) xSquared) ;;
  eAdd rhs rhs T1x ;;; eAdd rhs rhs T2x2 ;;;
  vr <~ rdE rhs ;; vl <~ rdE lhs ;; let c65 := gEq G vr vl in
  Sx <~ element (fun e => eScale e (sS proof) x) ;;
  ASx <~ element (fun e => eAdd e (sA proof) Sx) ;;
  mz <~ bigInt (fun e => zSub e mod_ z) ;;
  vmz <~ iVectorCopy G mz N ;; gpmz <~ iVectorExp G (rGg params) vmz ;;
  vz <~ iVectorCopy G z N ;; vy <~ ipowerOf G y N mod_ ;; zyn <~ iVectorMul G vy vz mod_ ;;
  hpExp <~ iVectorExp G hp zyn ;;
  two <~ newZ 2 ;; powersOfTwo <~ ipowerOf G two bits mod_ ;;
  prod <~ newE (gId G) ;;
  imultiProd_loop hp (Z.to_nat bits) powersOfTwo z (seq 0 m) prod mod_ ;;;
  tail <~ element (fun e => eAdd e hpExp prod) ;;
  lP <~ element (fun e => eAdd e ASx gpmz) ;;
  eAdd lP lP tail ;;;
  rP <~ element (fun e => eScale e (rH params) (sMu proof)) ;;
  eAdd rP rP (qP (sIPP proof)) ;;;
  eSub rP rP lP ;;;
  v <~ rdE rP ;; let c67 := gIsId G v in
  ok <~ iipVerify G HO (sIPP proof) mod_ ;;
  ret (c65 && c67 && ok).
End ImpMulti.
