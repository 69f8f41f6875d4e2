(** voteproof/voteproof.go, elgamal.go, voter.go and server.go once more, at the level of Go pointers: elements of the two
    groups and big integers are objects, structures hold pointers, and methods write their receivers in place. VoteProof.v
    and App.v model the same functions on values; the bulletproofs package is Imp.v. Same conventions as there. *)
From Verif Require Import GoBase Json GroupIface Vector BIP BP VoteProof ModP App Imp.

Section ImpVote.
Context (GF GE : Grp) (HO : Oracles).

(** The heap: objects of the ElGamal group and the write accesses to them; objects of the curve group and big.Int objects
    ([sub], Imp.v). *)
Record heap2 : Type := mkH2 { fe : list (E GF); fw : list nat; sub : heap GE }.

(** A Go statement: from the heap to a result and the heap after. *)
Definition M2 (A : Type) : Type := heap2 -> res (A * heap2).
Definition ret2 {A} (a : A) : M2 A := fun h => Ok (a, h).
Definition mbind2 {A B} (m : M2 A) (f : A -> M2 B) : M2 B :=
  fun h => match m h with
           | Ok (a, h') => f a h'
           | Err => Err | Panic => Panic | OutOfFuel => OutOfFuel
           end.
Definition lift2 {A} (r : res A) : M2 A :=
  fun h => match r with Ok a => Ok (a, h) | Err => Err | Panic => Panic | OutOfFuel => OutOfFuel end.
(** A statement on integers and elements of the curve group *)
Definition onE {A} (m : M GE A) : M2 A :=
  fun h => match m (sub h) with
           | Ok (a, s) => Ok (a, mkH2 (fe h) (fw h) s)
           | Err => Err | Panic => Panic | OutOfFuel => OutOfFuel
           end.
Local Notation "x <~ m ;; k" := (mbind2 m (fun x => k)) (at level 61, m at next level, right associativity).
Local Notation "m ;;; k" := (mbind2 m (fun _ => k)) (at level 61, right associativity).

(** Elements of the ElGamal group; nil pointers panic *)
Definition rdF (p : ptr) : M2 (E GF) := fun h =>
  match p with
  | Some r => match nth_error (fe h) r with Some v => Ok (v, h) | None => Panic end
  | None => Panic
  end.
Definition wrF (p : ptr) (v : E GF) : M2 unit := fun h =>
  match p with
  | Some r => if Nat.ltb r (length (fe h)) then Ok (tt, mkH2 (setNth (fe h) r v) (r :: fw h) (sub h)) else Panic
  | None => Panic
  end.
Definition newF (v : E GF) : M2 ptr := fun h => Ok (Some (length (fe h)), mkH2 (fe h ++ [v]) (fw h) (sub h)).
(** Element methods e.Op(args): the receiver e is written *)
Definition fAdd (e a b : ptr) : M2 unit := x <~ rdF a ;; y <~ rdF b ;; wrF e (gAdd GF x y).
Definition fScale (e a s : ptr) : M2 unit := x <~ rdF a ;; k <~ onE (rdZ GE s) ;; wrF e (gScale GF x k).
Definition fBase (e s : ptr) : M2 unit := k <~ onE (rdZ GE s) ;; wrF e (gBase GF k).
(** I.Element().Op(args) *)
Definition elementF (op : ptr -> M2 unit) : M2 ptr := e <~ newF (gNew GF) ;; op e ;;; ret2 e.
(** math/big: new(big.Int).Op(args), big.NewInt, and Exp(x, y, nil), which is 1 for y <= 0 *)
Definition int_ (op : ptr -> M GE unit) : M2 ptr := onE (bigInt GE op).
Definition newInt (v : Z) : M2 ptr := onE (newZ GE v).
Definition rdInt (p : ptr) : M2 Z := onE (rdZ GE p).
Definition goExp (x y : Z) : Z := if y <=? 0 then 1 else x ^ y.
Definition zExp (e a b : ptr) : M GE unit :=
  mbind GE (rdZ GE a) (fun x => mbind GE (rdZ GE b) (fun y => wrZ GE e (goExp x y))).

(** ** voteproof.go *)
(** voteproof.go 16-77. I is the ambient group. *)
Record GroupParamsP : Type := mkGroupParamsP { kG : ptr; kH : ptr; kN : ptr; kF : ptr }.
Record ProofParamsP : Type := mkProofParamsP {
  wBx : Z; wBc : Z; wBg : Z; wBb : Z; wLo : Z; wHi : Z; wGFF : GroupParamsP; wGEC : GroupParamsP
}.
Record VerCommitmentsP : Type := mkVerCommitmentsP { uY : ptr; uXp : ptr; uXq1 : ptr; uXq2 : ptr }.
Record SigmaProofP : Type := mkSigmaProofP {
  uW : ptr; uKp : ptr; uKq1 : ptr; uKq2 : ptr; uChal : ptr; uZ : ptr; uSp : ptr; uSq1 : ptr; uSq2 : ptr; uParams : ProofParamsP
}.

(** voteproof.go 99-103 pedersenCommit, over either group; over the curve group the three calls are those of util.PedersenCommit *)
Definition iCommitF (m r : ptr) (gp : GroupParamsP) : M2 ptr :=
  bind_ <~ elementF (fun e => fBase e m) ;;
  blind <~ elementF (fun e => fScale e (kH gp) r) ;;
  elementF (fun e => fAdd e bind_ blind).
Definition iCommitE (m r : ptr) (gp : GroupParamsP) : M2 ptr := onE (iPedersenCommit GE m r (kH gp)).

(** voteproof.go 105-110 sigmaPedersenCheck *)
Definition iCheckF (z s c k x : ptr) (gp : GroupParamsP) : M2 bool :=
  left <~ iCommitF z s gp ;;
  right0 <~ elementF (fun e => fScale e x c) ;;
  right <~ elementF (fun e => fAdd e right0 k) ;;
  l <~ rdF left ;; r <~ rdF right ;; ret2 (gEq GF l r).
Definition iCheckE (z s c k x : ptr) (gp : GroupParamsP) : M2 bool :=
  left <~ iCommitE z s gp ;;
  right0 <~ onE (element GE (fun e => eScale GE e x c)) ;;
  right <~ onE (element GE (fun e => eAdd GE e right0 k)) ;;
  l <~ onE (rdE GE left) ;; r <~ onE (rdE GE right) ;; ret2 (gEq GE l r).

(** voteproof.go 112-124 getFSChallenge *)
Definition iFSChallenge (w Kp Kq1 Kq2 : ptr) (pow2bound : Z) : M2 ptr :=
  vw <~ rdF w ;; vp <~ rdF Kp ;; v1 <~ onE (rdE GE Kq1) ;; v2 <~ onE (rdE GE Kq2) ;;
  c <~ lift2 (getFSChallenge GF GE HO vw vp v1 v2 pow2bound) ;; newInt c.

(** voteproof.go 127-131, 183-187: both bounds; [two] is the package variable BigTwo *)
Definition iBounds (two : ptr) (pr : ProofParamsP) : M2 (ptr * ptr) :=
  bxbc <~ newInt (wrap16 (wBx pr + wBc pr)) ;;
  lo <~ int_ (fun e => zExp e two bxbc) ;;
  bb <~ newInt (wBb pr) ;; s <~ int_ (fun e => zAdd GE e bxbc bb) ;; up <~ int_ (fun e => zExp e two s) ;;
  ret2 (lo, up).

(** voteproof.go 134-177: the abort loop. rand.Int reads its bound and panics when it is not positive. *)
Fixpoint iVpLoop (secret rp rq1 rq2 : ptr) (params : ProofParamsP) (lo up : ptr) (draws : list Draw) : M2 SigmaProofP :=
  match draws with
  | [] => lift2 OutOfFuel
  | dr :: t =>
      let NF := kN (wGFF params) in
      let NE := kN (wGEC params) in
      k <~ newInt (dk dr) ;;
      kp <~ int_ (fun e => zMod GE e k NF) ;; kq <~ int_ (fun e => zMod GE e k NF) ;;
      nf <~ rdInt NF ;; vtp <~ lift2 (randInt nf (dtp dr)) ;; tp <~ newInt vtp ;;
      ne <~ rdInt NE ;; vtq1 <~ lift2 (randInt ne (dtq1 dr)) ;; tq1 <~ newInt vtq1 ;; vtq2 <~ lift2 (randInt ne (dtq2 dr)) ;; tq2 <~ newInt vtq2 ;;
      w <~ elementF (fun e => fBase e tp) ;;
      Kp <~ iCommitF kp tp (wGFF params) ;;
      Kq1 <~ iCommitE kq tq1 (wGEC params) ;; Kq2 <~ iCommitE kq tq2 (wGEC params) ;;
      challenge <~ iFSChallenge w Kp Kq1 Kq2 (wBc params) ;;
      cs <~ int_ (fun e => zMul GE e challenge secret) ;; z <~ int_ (fun e => zAdd GE e k cs) ;;
      vz <~ rdInt z ;; vlo <~ rdInt lo ;; vup <~ rdInt up ;;
      if (vz <? vlo) || (vup <=? vz) then iVpLoop secret rp rq1 rq2 params lo up t else
      c0 <~ int_ (fun e => zMul GE e challenge rp) ;; a0 <~ int_ (fun e => zAdd GE e tp c0) ;; sp <~ int_ (fun e => zMod GE e a0 NF) ;;
      c1 <~ int_ (fun e => zMul GE e challenge rq1) ;; a1 <~ int_ (fun e => zAdd GE e tq1 c1) ;; sq1 <~ int_ (fun e => zMod GE e a1 NE) ;;
      c2 <~ int_ (fun e => zMul GE e challenge rq2) ;; a2 <~ int_ (fun e => zAdd GE e tq2 c2) ;; sq2 <~ int_ (fun e => zMod GE e a2 NE) ;;
      ret2 (mkSigmaProofP w Kp Kq1 Kq2 challenge z sp sq1 sq2 params)
  end.
(** voteproof.go 126-177 Prove *)
Definition iVpProve (secret rp rq1 rq2 : ptr) (params : ProofParamsP) (draws : list Draw) (two : ptr) : M2 SigmaProofP :=
  b <~ iBounds two params ;; iVpLoop secret rp rq1 rq2 params (fst b) (snd b) draws.

(** voteproof.go 182-226 Verify *)
Definition iVpVerify (proof : SigmaProofP) (comm : VerCommitmentsP) (two : ptr) : M2 bool :=
  let params := uParams proof in
  b <~ iBounds two params ;;
  vz <~ rdInt (uZ proof) ;; vlo <~ rdInt (fst b) ;; vup <~ rdInt (snd b) ;;
  if (vz <? vlo) || (vup <=? vz) then ret2 false else
  challenge <~ iFSChallenge (uW proof) (uKp proof) (uKq1 proof) (uKq2 proof) (wBc params) ;;
  v <~ rdInt challenge ;; c <~ rdInt (uChal proof) ;;
  if negb (v =? c) then ret2 false else
  l <~ elementF (fun e => fBase e (uSp proof)) ;;
  r0 <~ elementF (fun e => fScale e (uY comm) (uChal proof)) ;;
  r <~ elementF (fun e => fAdd e r0 (uW proof)) ;;
  vl <~ rdF l ;; vr <~ rdF r ;;
  if negb (gEq GF vl vr) then ret2 false else
  ok <~ iCheckF (uZ proof) (uSp proof) (uChal proof) (uKp proof) (uXp comm) (wGFF params) ;;
  if negb ok then ret2 false else
  ok1 <~ iCheckE (uZ proof) (uSq1 proof) (uChal proof) (uKq1 proof) (uXq1 comm) (wGEC params) ;;
  if negb ok1 then ret2 false else
  ok2 <~ iCheckE (uZ proof) (uSq2 proof) (uChal proof) (uKq2 proof) (uXq2 comm) (wGEC params) ;;
  if negb ok2 then ret2 false else
  ret2 true.

(** ** package main *)
(** main.go 13-28, elgamal.go 9-12, voter.go 12-17 *)
Record PublicParametersP : Type := mkPublicParametersP {
  yFF : GroupParamsP; yEC : GroupParamsP; yEGPK : ptr; yMin : Z; yMax : Z; yBP : BPParamsP; yRP : ProofParamsP
}.
Record CiphertextP : Type := mkCiphertextP { yU : ptr; yV : ptr }.
Record BallotDataP : Type := mkBallotDataP { yBallot : CiphertextP; yLower : BulletProofP; yUpper : BulletProofP; yVote : SigmaProofP }.

(** elgamal.go 14-28 encryptVote; [NF] is the pointer GroupOrder() returns; rnd is incremented in place *)
Definition iEncryptVote (choice : Z) (egPK : ptr) (r : Z) (NF : ptr) : M2 (CiphertextP * ptr) :=
  one <~ newInt 1 ;; tmp <~ int_ (fun e => zSub GE e NF one) ;; vt <~ rdInt tmp ;;
  r' <~ lift2 (randInt vt r) ;; rnd <~ newInt r' ;;
  one' <~ newInt 1 ;; onE (zAdd GE rnd rnd one') ;;;
  cBig <~ newInt choice ;;
  lifted <~ elementF (fun e => fBase e cBig) ;;
  mask <~ elementF (fun e => fScale e egPK rnd) ;;
  U <~ elementF (fun e => fBase e rnd) ;;
  V <~ elementF (fun e => fAdd e lifted mask) ;;
  ret2 (mkCiphertextP U V, rnd).

(** voter.go 19-45 castVote; [NF] and [NE] are the orders stored in the two groups *)
Definition iCastVote (pp : PublicParametersP) (cr : CastRand) (NF NE two : ptr) : M2 BallotDataP :=
  rBig <~ lift2 (randInt (wrap16 (yMax pp - yMin pp)) (cr_choice cr)) ;;
  let choice := wrap16 (wrap16 rBig + yMin pp) in
  ct <~ iEncryptVote choice (yEGPK pp) (cr_eg cr) NF ;;
  s1 <~ newInt (wrap16 (choice - yMin pp)) ;; bp1 <~ onE (iProve GE HO s1 (yBP pp) (cr_bp1 cr) NE) ;;
  s2 <~ newInt (wrap16 (yMax pp - choice)) ;; bp2 <~ onE (iProve GE HO s2 (yBP pp) (cr_bp2 cr) NE) ;;
  rq2inv <~ int_ (fun e => zSub GE e (kN (yEC pp)) (snd bp2)) ;;
  s <~ newInt choice ;;
  rangeProof <~ iVpProve s (snd ct) (snd bp1) rq2inv (yRP pp) (cr_vp cr) two ;;
  ret2 (mkBallotDataP (fst ct) (fst bp1) (fst bp2) rangeProof).

(** server.go 9-56 verifyVote *)
Definition iVerifyVote (proofs : BallotDataP) (rp : ProofParamsP) (NE two : ptr) : M2 (bool * nat) :=
  ok1 <~ onE (iVerify GE HO (yLower proofs) NE) ;;
  if negb ok1 then ret2 (false, 0%nat) else
  ok2 <~ onE (iVerify GE HO (yUpper proofs) NE) ;;
  if negb ok2 then ret2 (false, 0%nat) else
  lo <~ newInt (wLo rp) ;; loShift <~ onE (element GE (fun e => eBase GE e lo)) ;;
  Xq1 <~ onE (element GE (fun e => eAdd GE e loShift (rV (yLower proofs)))) ;;
  hi <~ newInt (wHi rp) ;; upShift <~ onE (element GE (fun e => eBase GE e hi)) ;;
  m1 <~ newInt (-1) ;; inv <~ onE (element GE (fun e => eScale GE e (rV (yUpper proofs)) m1)) ;;
  Xq2 <~ onE (element GE (fun e => eAdd GE e upShift inv)) ;;
  result <~ iVpVerify (yVote proofs) (mkVerCommitmentsP (yU (yBallot proofs)) (yV (yBallot proofs)) Xq1 Xq2) two ;;
  ret2 (result, 2%nat).

(** bp.go 74-97 Setup on pointers. SP.Element().MapToGroup(s) returns its receiver, written, or another new element
    (group/p256.go 133-138, group/p256k1.go 153-159); either way nothing else refers to it. *)
Definition iMapTo (s : bytes) : M GE ptr := mbind GE (lift GE (gMap GE s)) (fun v => newE GE v).
Definition iSetup (nan64 b : Z) : M GE BPParamsP :=
  if negb (IsPowerOfTwo b) then lift GE Err else
  mbind GE (newZ GE 1) (fun one => mbind GE (element GE (fun e => eBase GE e one)) (fun g =>
  mbind GE (iMapTo (str_bytes SEEDH)) (fun h =>
  let N := goLog2 nan64 b in
  if negb (IsPowerOfTwo N) then lift GE Err else
  if 32 <? N then lift GE Err else
  mbind GE (lift GE (make_len N)) (fun n =>
  mbind GE (mmap GE (fun i => mbind GE (iMapTo (seed_bytes "g" i)) (fun Gi =>
                              mbind GE (iMapTo (seed_bytes "h" i)) (fun Hi => ret GE (Gi, Hi)))) (seq 0 n)) (fun gh =>
  ret GE (mkBPParamsP N g h (map fst gh) (map snd gh))))))).

(** main.go 30-112 setup. [NF], [PF], [NE] are the integers N() and P() return; Generator() is a new element. The key H of
    the ElGamal group is also EGPK, the H of the curve group is that of the range proofs, both groups' F is the same
    integer. *)
Definition iMainSetup (nan64 : Z) (NF PF NE : ptr) : M2 PublicParametersP :=
  key <~ newInt 13 ;;
  bp <~ onE (iSetup nan64 65536) ;;
  gF <~ newF (gGen GF) ;; H <~ elementF (fun e => fBase e key) ;;
  gE <~ onE (newE GE (gGen GE)) ;;
  let ff := mkGroupParamsP gF H NF PF in
  let ec := mkGroupParamsP gE (rH bp) NE PF in
  n <~ rdInt NE ;;
  let Bg := wrap16 (bitLen n) in
  let Bb := Bg - 1 - 16 - 224 in
  if Bb <? 1 then lift2 Err else
  ret2 (mkPublicParametersP ff ec H 101 2000 bp (mkProofParamsP 16 224 Bg Bb 101 2000 ff ec)).

(** main.go 142-152: one group's driver loop *)
Fixpoint iDriverLoop (pp : PublicParametersP) (crs : list CastRand) (success : bool) (NF NE two : ptr) : M2 bool :=
  match crs with
  | [] => ret2 success
  | cr :: t =>
      vote <~ iCastVote pp cr NF NE two ;;
      vt <~ iVerifyVote vote (yRP pp) NE two ;;
      if Nat.ltb (snd vt) 2 then lift2 Panic else
      iDriverLoop pp t (success && fst vt) NF NE two
  end.

(** One after the other: casting many ballots, verifying many ballots *)
Fixpoint iCastAll (pp : PublicParametersP) (crs : list CastRand) (NF NE two : ptr) : M2 (list BallotDataP) :=
  match crs with
  | [] => ret2 []
  | cr :: t => b <~ iCastVote pp cr NF NE two ;; l <~ iCastAll pp t NF NE two ;; ret2 (b :: l)
  end.
Fixpoint iVerifyAll (bs : list BallotDataP) (rp : ProofParamsP) (NE two : ptr) : M2 (list (bool * nat)) :=
  match bs with
  | [] => ret2 []
  | b :: t => a <~ iVerifyVote b rp NE two ;; l <~ iVerifyAll t rp NE two ;; ret2 (a :: l)
  end.
End ImpVote.
