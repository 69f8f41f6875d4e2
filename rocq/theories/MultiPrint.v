(** What MultiBulletProof.Verify prints. *)
From Verif Require Import GoBase Out Json GroupIface Vector BIP BP MultiBP.

(** multibp.go 271, 318, 322: "Check 65:", "Check 67:", "Check 68:" *)
Inductive CheckLine : Type := Check65 (b : bool) | Check67 (b : bool) | Check68 (b : bool).

Section MultiPrint.
Context (G : Grp) (HO : Oracles).

(** multibp.go 227-327: MultiVerify again (MultiBP.v), with the prints *)
Definition MultiVerifyOut (proof : MultiBulletProof G) : Out CheckLine bool :=
  let params := mParams proof in
  let md := gN G in
  let N := bpN params in
  let m := length (mVs proof) in
  bits <~ quiet (goDiv N (Z.of_nat m)) ;;
  let x := fst (HashBP G HO (mT1 proof) (mT2 proof)) in
  let '(y, z) := HashBP G HO (mA proof) (mS proof) in
  let zSquared := (z * z) mod md in
  let xSquared := (x * x) mod md in
  hp <~ quiet (updateGenerators G (bpHh params) y N) ;;
  tp <~ quiet (deref (mTprime proof)) ;; tx <~ quiet (deref (mTaux proof)) ;;
  let lhs := PedersenCommit G tp tx (bpH params) in
  powersOfz <~ quiet (powerOf G z (Z.of_nat m)) ;;
  let rhs0 := fold_left (fun r vp => gAdd G r (gScale G (fst vp) (zSquared * snd vp)))
                        (combine (mVs proof) powersOfz) (gId G) in
  d <~ quiet (deltaMul G N y z (Z.of_nat m)) ;;
  let rhs1 := gAdd G rhs0 (gBase G d) in
  let T1x := gScale G (mT1 proof) x in
  let T2x2 := gScale G (mT2 proof) xSquared in
  let rhs := gAdd G (gAdd G rhs1 T1x) T2x2 in
  let c65 := gEq G rhs lhs in
  _ <~ say [Check65 c65] ;;
  let Sx := gScale G (mS proof) x in
  let ASx := gAdd G (mA proof) Sx in
  let mz := md - z in
  vmz <~ quiet (VectorCopy mz N) ;;
  let gpmz := VectorExp G (bpGg params) vmz in
  vz <~ quiet (VectorCopy z N) ;;
  vy <~ quiet (powerOf G y N) ;;
  let zyn := nil_slice (VectorMul vy vz md) in
  hpExp <~ quiet (deref (VectorExp G hp zyn)) ;;
  powersOfTwo <~ quiet (powerOf G 2 bits) ;;
  prod <~ quiet (multiProd_loop G hp (Z.to_nat bits) powersOfTwo z (seq 0 m) (gId G)) ;;
  let tail := gAdd G hpExp prod in
  gpmz' <~ quiet (deref gpmz) ;;
  let lP := gAdd G (gAdd G ASx gpmz') tail in
  mu <~ quiet (deref (mMu proof)) ;;
  let rP0 := gScale G (bpH params) mu in
  let rP := gAdd G rP0 (ipP (mIPP proof)) in
  let c67 := gIsId G (gSub G rP lP) in
  _ <~ say [Check67 c67] ;;
  ok <~ quiet (ipVerify G HO (mIPP proof)) ;;
  _ <~ say [Check68 ok] ;;
  quiet (Ok (c65 && c67 && ok)).
End MultiPrint.
