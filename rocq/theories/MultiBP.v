(** bulletproofs/multibp.go: aggregated range proofs. The fmt.Println calls of Verify (271, 318, 322) are not modelled. *)
From Verif Require Import GoBase Json GroupIface Vector BIP BP.

(** multibp.go 33-44 MultiBulletProof *)
Record MultiBulletProof (G : Grp) : Type := mkMultiBulletProof {
  mVs : list (E G);
  mA : E G;
  mS : E G;
  mT1 : E G;
  mT2 : E G;
  mTaux : option Z;
  mMu : option Z;
  mTprime : option Z;
  mIPP : IPProof G;
  mParams : BPParams G
}.
Arguments mkMultiBulletProof {G}.
Arguments mVs {G}. Arguments mA {G}. Arguments mS {G}. Arguments mT1 {G}. Arguments mT2 {G}.
Arguments mTaux {G}. Arguments mMu {G}. Arguments mTprime {G}. Arguments mIPP {G}. Arguments mParams {G}.

Section MultiBP.
Context (G : Grp) (HO : Oracles).
Local Notation E := (E G).

(** int(params.N) / m in Go: panics for m = 0, truncates towards zero *)
Definition goDiv (a b : Z) : res Z := if b =? 0 then Panic else Ok (Z.quot a b).

(** multibp.go 68-82: the first len(secrets)*bitsPerValue entries of aLConcat and aRConcat; a nil aR
    (impossible: Decompose base 2) would leave the zeros of make *)
Fixpoint concatBits (secrets : list Z) (bits : Z) : res (list Z * list Z) :=
  match secrets with
  | [] => Ok ([], [])
  | s :: t =>
      aL <- Decompose s 2 bits ;;
      let '(aL', aR') := match computeAR aL with
                         | Some aR => (aL, aR)
                         | None => (repeat 0 (length aL), repeat 0 (length aL))
                         end in
      '(l, r) <- concatBits t bits ;;
      Ok (aL' ++ l, aR' ++ r)
  end.
Definition padTo (n : nat) (l : list Z) : list Z := l ++ repeat 0 (n - length l).

(** multibp.go 123-129: zPowersTimesTwoVec; entries past m*bitsPerValue stay nil *)
Definition zPow2Block (z : Z) (pow2 : list Z) (j : nat) : list (option Z) :=
  let zp := Z.pow z (2 + Z.of_nat j) mod gN G in
  map (fun p => Some ((p * zp) mod gN G)) pow2.
Definition zPow2Vec (z : Z) (pow2 : list Z) (m : nat) (n : nat) : list (option Z) :=
  let v := concat (map (zPow2Block z pow2) (seq 0 m)) in
  v ++ repeat None (n - length v).

(** multibp.go 184-189 *)
Definition randTotal (z : Z) (gammas : list Z) : Z :=
  fold_left (fun acc jg => (acc + snd jg * (Z.pow z (2 + Z.of_nat (fst jg)) mod gN G)) mod gN G)
            (combine (seq 0 (length gammas)) gammas) 0.

(** multibp.go 51-222 MultiProve. [gam j] is the draw of gamma for secret j (line 70); the remaining draws
    are those of BPRand (r_gamma unused). Every draw is from [0, GP.N()) and panics when the order is not positive; what can go wrong before
    the first draw (lines 57-62) panics too. *)
Definition MultiProve (secrets : list Z) (params : BPParams G) (gam : nat -> Z) (rnd : BPRand)
  : res (MultiBulletProof G * list Z) :=
  let md := gN G in
  let N := bpN params in
  let H := bpH params in
  let m := length secrets in
  bits <- goDiv N (Z.of_nat m) ;;
  n <- make_len N ;;
  alpha <- randInt md (r_alpha rnd) ;;
  let gammas := map gam (seq 0 m) in
  let commitments := map (fun sg => PedersenCommit G (fst sg) (snd sg) H) (combine secrets gammas) in
  '(aLc, aRc) <- concatBits secrets bits ;;
  let aLConcat := padTo n aLc in
  let aRConcat := padTo n aRc in
  A <- commitVector G aRConcat aRConcat alpha H (bpGg params) (bpHh params) N ;;   (* line 86: aRConcat twice *)
  sL <- sampleRandomVector N (r_sL rnd) ;;
  sR <- sampleRandomVector N (r_sR rnd) ;;
  S <- commitVector G sL sR (r_rho rnd) H (bpGg params) (bpHh params) N ;;
  let '(y, z) := HashBP G HO A S in
  yPow <- powerOf G y N ;;
  powersOf2 <- powerOf G 2 bits ;;
  let zPowersTimesTwoVec := zPow2Vec z powersOf2 m n in
  aLb <- VectorConvertToBig aLConcat N ;;
  aRb <- VectorConvertToBig aRConcat N ;;
  let l0 := VectorAddConst aLb (- z) md in
  vecZ <- VectorCopy z N ;;
  let aRzn := nil_slice (VectorAdd vecZ aRb md) in
  let r0' := nil_slice (VectorMul yPow aRzn md) in
  zp2 <- mapM deref zPowersTimesTwoVec ;;           (* 145: VectorAdd reads every component (equal lengths) *)
  let r0 := nil_slice (VectorAdd r0' zp2 md) in
  let r1 := nil_slice (VectorMul yPow sR md) in
  t1left <- VectorInnerProduct sL r0 md ;;
  t1right <- VectorInnerProduct l0 r1 md ;;
  let t1 := (t1left + t1right) mod md in
  t2 <- VectorInnerProduct sL r1 md ;;
  let T1 := PedersenCommit G t1 (r_tau1 rnd) H in
  let T2 := PedersenCommit G t2 (r_tau2 rnd) H in
  let x := fst (HashBP G HO T1 T2) in
  sLx <- VectorScalarMul sL (Some x) md ;;
  let bl := nil_slice (VectorAdd l0 sLx md) in
  sRx <- VectorScalarMul sR (Some x) md ;;
  let tmp := nil_slice (VectorAdd aRzn sRx md) in
  let tmp' := nil_slice (VectorMul yPow tmp md) in
  let br := nil_slice (VectorAdd tmp' zp2 md) in
  let th := ScalarProduct G bl br in
  let tauX := (r_tau2 rnd * (x * x) + r_tau1 rnd * x + randTotal z gammas) mod md in
  let mu := (r_rho rnd * x + alpha) mod md in
  hp <- updateGenerators G (bpHh params) y N ;;
  ipp <- setupInnerProduct G (Some (bpGg params)) (Some hp) N ;;
  commit <- commitInnerProduct G (bpGg params) hp bl br ;;
  ipProof <- proveInnerProduct G HO (length bl) bl br commit th ipp ;;
  Ok (mkMultiBulletProof commitments A S T1 T2 (Some tauX) (Some mu) th ipProof params, gammas).

(** multibp.go 330-367 deltaMul *)
Definition deltaMul (N y z : Z) (m : Z) : res Z :=
  let md := gN G in
  nm <- goDiv N m ;;
  onePow <- VectorCopy 1 nm ;;
  twoPow <- powerOf G 2 nm ;;
  let zSquared := (z * z) mod md in
  let t1 := (z - zSquared) mod md in
  onePowNM <- VectorCopy 1 N ;;
  yPowNM <- powerOf G y N ;;
  t2 <- deref (ScalarProduct G onePowNM yPowNM) ;;
  sp12 <- deref (ScalarProduct G onePow twoPow) ;;
  let t3 := fold_left (fun acc j => (acc + ((Z.pow z (Z.of_nat j + 3) mod md) * sp12) mod md) mod md)
                      (seq 0 (Z.to_nat m)) 0 in
  Ok ((((t2 * t1) mod md) - t3) mod md).

(** multibp.go 297-303; hp[j*bits:(j+1)*bits] *)
Fixpoint multiProd_loop (hp : list E) (bits : nat) (pow2 : list Z) (z : Z) (js : list nat) (prod : E) : res E :=
  match js with
  | [] => Ok prod
  | j :: js' =>
      up <- slice_to hp ((j + 1) * bits) ;;
      let hpSlide := skipn (j * bits) up in
      let zp := Z.pow z (2 + Z.of_nat j) mod gN G in
      let exp := VectorAddConst pow2 zp (gN G) in               (* line 300: adds where the protocol multiplies *)
      val <- deref (VectorExp G hpSlide exp) ;;
      multiProd_loop hp bits pow2 z js' (gAdd G prod val)
  end.

(** multibp.go 227-327 Verify *)
Definition MultiVerify (proof : MultiBulletProof G) : res bool :=
  let params := mParams proof in
  let md := gN G in
  let N := bpN params in
  let m := length (mVs proof) in
  bits <- goDiv N (Z.of_nat m) ;;
  let x := fst (HashBP G HO (mT1 proof) (mT2 proof)) in
  let '(y, z) := HashBP G HO (mA proof) (mS proof) in
  let zSquared := (z * z) mod md in
  let xSquared := (x * x) mod md in
  hp <- updateGenerators G (bpHh params) y N ;;
  tp <- deref (mTprime proof) ;; tx <- deref (mTaux proof) ;;
  let lhs := PedersenCommit G tp tx (bpH params) in
  powersOfz <- powerOf G z (Z.of_nat m) ;;
  let rhs0 := fold_left (fun r vp => gAdd G r (gScale G (fst vp) (zSquared * snd vp)))
                        (combine (mVs proof) powersOfz) (gId G) in
  d <- deltaMul N y z (Z.of_nat m) ;;
  let rhs1 := gAdd G rhs0 (gBase G d) in
  let T1x := gScale G (mT1 proof) x in
  let T2x2 := gScale G (mT2 proof) xSquared in
  let rhs := gAdd G (gAdd G rhs1 T1x) T2x2 in
  let c65 := gEq G rhs lhs in
  let Sx := gScale G (mS proof) x in
  let ASx := gAdd G (mA proof) Sx in
  let mz := md - z in
  vmz <- VectorCopy mz N ;;
  let gpmz := VectorExp G (bpGg params) vmz in
  vz <- VectorCopy z N ;;
  vy <- powerOf G y N ;;
  let zyn := nil_slice (VectorMul vy vz md) in
  hpExp <- deref (VectorExp G hp zyn) ;;
  powersOfTwo <- powerOf G 2 bits ;;
  prod <- multiProd_loop hp (Z.to_nat bits) powersOfTwo z (seq 0 m) (gId G) ;;
  let tail := gAdd G hpExp prod in
  gpmz' <- deref gpmz ;;
  let lP := gAdd G (gAdd G ASx gpmz') tail in
  mu <- deref (mMu proof) ;;
  let rP0 := gScale G (bpH params) mu in
  let rP := gAdd G rP0 (ipP (mIPP proof)) in
  let c67 := gIsId G (gSub G rP lP) in
  ok <- ipVerify G HO (mIPP proof) ;;
  Ok (c65 && c67 && ok).
End MultiBP.
