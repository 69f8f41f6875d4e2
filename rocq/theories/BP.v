(** bulletproofs/bp.go: range proofs. *)
From Verif Require Import GoBase Json GroupIface Vector BIP.

(** bp.go 35-50 BulletProofSetupParams (GP is the ambient group) *)
Record BPParams (G : Grp) : Type := mkBPParams {
  bpN : Z;
  bpG : E G;
  bpH : E G;
  bpGg : list (E G);
  bpHh : list (E G)
}.
Arguments mkBPParams {G}.
Arguments bpN {G}. Arguments bpG {G}. Arguments bpH {G}. Arguments bpGg {G}. Arguments bpHh {G}.

(** bp.go 56-67 BulletProof; integer fields are nil when absent from decoded JSON *)
Record BulletProof (G : Grp) : Type := mkBulletProof {
  pV : E G;
  pA : E G;
  pS : E G;
  pT1 : E G;
  pT2 : E G;
  pTaux : option Z;
  pMu : option Z;
  pTprime : option Z;
  pIPP : IPProof G;
  pParams : BPParams G
}.
Arguments mkBulletProof {G}.
Arguments pV {G}. Arguments pA {G}. Arguments pS {G}. Arguments pT1 {G}. Arguments pT2 {G}.
Arguments pTaux {G}. Arguments pMu {G}. Arguments pTprime {G}. Arguments pIPP {G}. Arguments pParams {G}.

(** The random draws of Prove, in the order of bp.go 114, 120, 124-126, 139-140; each is in [0, N()). *)
Record BPRand : Type := mkBPRand {
  r_gamma : Z;
  r_alpha : Z;
  r_sL : nat -> Z;
  r_sR : nat -> Z;
  r_rho : Z;
  r_tau1 : Z;
  r_tau2 : Z
}.

(** An ignored error leaves a nil slice, which behaves as an empty one. *)
Definition nil_slice {A} (o : option (list A)) : list A :=
  match o with Some l => l | None => [] end.

Section BP.
Context (G : Grp) (HO : Oracles).
Local Notation E := (E G).

(** int64(math.Log2(float64(b))) for b passing IsPowerOfTwo. Go's Log2 is exact on powers of two. For
    b = -2^63, Log2 is NaN and the conversion is platform-defined: [nan64] (amd64: -2^63, arm64: 0). *)
Definition goLog2 (nan64 : Z) (b : Z) : Z := if b <=? 0 then nan64 else Z.log2 b.

(** bp.go 74-97 Setup. MapToGroup's error is ignored by the code; a panic is not. *)
Definition Setup (nan64 : Z) (b : Z) : res (BPParams G) :=
  if negb (IsPowerOfTwo b) then Err else
  let g := gBase G 1 in
  h <- gMap G (str_bytes SEEDH) ;;
  let N := goLog2 nan64 b in
  if negb (IsPowerOfTwo N) then Err else
  if 32 <? N then Err else
  n <- make_len N ;;
  gh <- mapM (fun i => Gi <- gMap G (seed_bytes "g" i) ;;
                       Hi <- gMap G (seed_bytes "h" i) ;; Ok (Gi, Hi)) (seq 0 n) ;;
  Ok (mkBPParams N g h (map fst gh) (map snd gh)).

(** bp.go 337-343 sampleRandomVector: the i-th draw is [f i] *)
Definition sampleRandomVector (N : Z) (f : nat -> Z) : res (list Z) :=
  n <- make_len N ;; Ok (map f (seq 0 n)).

(** bp.go 352-367 updateGenerators. A nil yInv is only dereferenced for N > 1. *)
Fixpoint updGen_loop (cnt : nat) (hs : list E) (yExp yInv : option Z) : res (list E) :=
  match cnt with
  | O => Ok []
  | S c =>
      match hs with
      | [] => Panic
      | h :: t =>
          e <- deref yExp ;;
          i <- deref yInv ;;
          r <- updGen_loop c t (Some (e * i)) yInv ;;
          Ok (gScale G h e :: r)
      end
  end.
Definition updateGenerators (Hh : list E) (y N : Z) : res (list E) :=
  n <- make_len N ;;
  let yInv := modInverse y (gN G) in
  match n, Hh with
  | S n', h0 :: Ht => r <- updGen_loop n' Ht yInv yInv ;; Ok (h0 :: r)
  | _, _ => Panic                               (* hp[0] = Hh[0] out of range *)
  end.

(** bp.go 372-384 computeAR; [None]: nil slice and an error *)
Fixpoint computeAR (x : list Z) : option (list Z) :=
  match x with
  | [] => Some []
  | b :: t =>
      match computeAR t with
      | None => None
      | Some r => if b =? 0 then Some (-1 :: r) else if b =? 1 then Some (0 :: r) else None
      end
  end.

(** bp.go 386-411 commitVectorBig / commitVector (the same loop; commitVector converts int64 to big.Int) *)
Fixpoint commitVector_loop (n : nat) (aL aR : list Z) (g h : list E) (R : E) : res E :=
  match n with
  | O => Ok R
  | S n' =>
      match aL, aR, g, h with
      | l :: aL', r :: aR', gi :: g', hi :: h' =>
          commitVector_loop n' aL' aR' g' h' (gAdd G (gAdd G R (gScale G gi l)) (gScale G hi r))
      | _, _, _, _ => Panic
      end
  end.
Definition commitVector (aL aR : list Z) (alpha : Z) (H : E) (g h : list E) (n : Z) : res E :=
  commitVector_loop (Z.to_nat n) aL aR g h (gScale G H alpha).

(** bp.go 414-441 delta *)
Definition delta (N y z : Z) : res Z :=
  let m := gN G in
  onePow <- VectorCopy 1 N ;;
  twoPow <- powerOf G 2 N ;;
  yPow <- powerOf G y N ;;
  let zSquared := (z * z) mod m in
  let zCubed := (zSquared * z) mod m in
  let t1 := (z - zSquared) mod m in
  t2 <- deref (ScalarProduct G onePow yPow) ;;
  sp12 <- deref (ScalarProduct G onePow twoPow) ;;
  let t3 := (zCubed * sp12) mod m in
  Ok ((((t2 * t1) mod m) - t3) mod m).

(** bp.go 104-243 Prove. Returns the proof and gamma. Every draw is from [0, GP.N()): the first one (line 114) panics when the order is
    not positive. *)
Definition Prove (secret : Z) (params : BPParams G) (rnd : BPRand) : res (BulletProof G * Z) :=
  let m := gN G in
  let N := bpN params in
  let H := bpH params in
  (* First phase *)
  gamma <- randInt m (r_gamma rnd) ;;
  let V := PedersenCommit G secret gamma H in
  aL <- Decompose secret 2 N ;;
  let aR := nil_slice (computeAR aL) in
  A <- commitVector aL aR (r_alpha rnd) H (bpGg params) (bpHh params) N ;;
  sL <- sampleRandomVector N (r_sL rnd) ;;
  sR <- sampleRandomVector N (r_sR rnd) ;;
  S <- commitVector sL sR (r_rho rnd) H (bpGg params) (bpHh params) N ;;
  let '(y, z) := HashBP G HO A S in
  (* Second phase *)
  yPow <- powerOf G y N ;;
  powersOf2 <- powerOf G 2 N ;;
  let zSquared := z * z in
  powersOf2TimesZSquared <- VectorScalarMul powersOf2 (Some zSquared) m ;;
  aLb <- VectorConvertToBig aL N ;;
  aRb <- VectorConvertToBig aR N ;;
  let l0 := VectorAddConst aLb (- z) m in
  vecZ <- VectorCopy z N ;;
  let aRzn := nil_slice (VectorAdd vecZ aRb m) in
  let r0' := nil_slice (VectorMul yPow aRzn m) in
  let r0 := nil_slice (VectorAdd r0' powersOf2TimesZSquared m) in
  let r1 := nil_slice (VectorMul yPow sR m) in
  t1left <- VectorInnerProduct sL r0 m ;;
  t1right <- VectorInnerProduct l0 r1 m ;;
  let t1 := (t1left + t1right) mod m in
  t2 <- VectorInnerProduct sL r1 m ;;
  let T1 := PedersenCommit G t1 (r_tau1 rnd) H in
  let T2 := PedersenCommit G t2 (r_tau2 rnd) H in
  let x := fst (HashBP G HO T1 T2) in
  (* Third phase *)
  sLx <- VectorScalarMul sL (Some x) m ;;
  let bl := nil_slice (VectorAdd l0 sLx m) in
  sRx <- VectorScalarMul sR (Some x) m ;;
  let tmp := nil_slice (VectorAdd aRzn sRx m) in
  let tmp' := nil_slice (VectorMul yPow tmp m) in
  let br := nil_slice (VectorAdd tmp' powersOf2TimesZSquared m) in
  let th := ScalarProduct G bl br in
  let tauX := (r_tau2 rnd * (x * x) + r_tau1 rnd * x + zSquared * gamma) mod m in
  let mu := (r_rho rnd * x + r_alpha rnd) mod m in
  (* Logarithmic phase *)
  hp <- updateGenerators (bpHh params) y N ;;
  ipp <- setupInnerProduct G (Some (bpGg params)) (Some hp) N ;;
  commit <- commitInnerProduct G (bpGg params) hp bl br ;;
  ipProof <- proveInnerProduct G HO (length bl) bl br commit th ipp ;;   (* its error cannot occur: |bl| = |br| *)
  Ok (mkBulletProof V A S T1 T2 (Some tauX) (Some mu) th ipProof params, gamma).

(** bp.go 248-332 Verify *)
Definition Verify (proof : BulletProof G) : res bool :=
  let params := pParams proof in
  let m := gN G in
  let N := bpN params in
  let x := fst (HashBP G HO (pT1 proof) (pT2 proof)) in
  let '(y, z) := HashBP G HO (pA proof) (pS proof) in
  let zSquared := (z * z) mod m in
  let xSquared := (x * x) mod m in
  hp <- updateGenerators (bpHh params) y N ;;
  (* Condition (65) *)
  tp <- deref (pTprime proof) ;; tx <- deref (pTaux proof) ;;
  let lhs := PedersenCommit G tp tx (bpH params) in
  let rhs0 := gScale G (pV proof) zSquared in
  d <- delta N y z ;;
  let rhs1 := gAdd G rhs0 (gBase G d) in
  let T1x := gScale G (pT1 proof) x in
  let T2x2 := gScale G (pT2 proof) xSquared in
  let rhs := gAdd G (gAdd G rhs1 T1x) T2x2 in
  let c65 := gEq G rhs lhs in
  (* Condition (66) *)
  let Sx := gScale G (pS proof) x in
  let ASx := gAdd G (pA proof) Sx in
  let mz := m - z in
  vmz <- VectorCopy mz N ;;
  let gpmz := VectorExp G (bpGg params) vmz in
  vz <- VectorCopy z N ;;
  vy <- powerOf G y N ;;
  let zyn := nil_slice (VectorMul vy vz m) in
  p2n <- powerOf G 2 N ;;
  z22n <- VectorScalarMul p2n (Some zSquared) m ;;
  let zynz22n := nil_slice (VectorAdd zyn z22n m) in
  gpmz' <- deref gpmz ;;
  let lP0 := gAdd G ASx gpmz' in
  hpExp <- deref (VectorExp G hp zynz22n) ;;
  let lP := gAdd G lP0 hpExp in
  (* Condition (67) *)
  mu <- deref (pMu proof) ;;
  let rP0 := gScale G (bpH params) mu in
  let rP := gAdd G rP0 (ipP (pIPP proof)) in
  let c67 := gIsId G (gSub G rP lP) in
  ok <- ipVerify G HO (pIPP proof) ;;
  Ok (c65 && c67 && ok).
End BP.
