(** voteproof/voteproof.go: the sigma protocol linking the ElGamal ciphertext to the Bulletproof commitments. *)
From Verif Require Import GoBase Json GroupIface Vector.

(** voteproof.go 16-22 GroupParameters; the implementation I is the ambient group. N and F can be nil after decoding. *)
Record GroupParams (G : Grp) : Type := mkGroupParams {
  gpG : E G;
  gpH : E G;
  gpN : option Z;
  gpF : option Z
}.
Arguments mkGroupParams {G}.
Arguments gpG {G}. Arguments gpH {G}. Arguments gpN {G}. Arguments gpF {G}.

(** voteproof.go 25-39 AlgebraicParameters and ProofParams *)
Record ProofParams (GF GE : Grp) : Type := mkProofParams {
  vBx : Z;       (* uint8 *)
  vBc : Z;       (* uint16 *)
  vBg : Z;       (* uint16 *)
  vBb : Z;       (* int *)
  vLo : Z;       (* uint16 *)
  vHi : Z;       (* uint16 *)
  vGFF : GroupParams GF;
  vGEC : GroupParams GE
}.
Arguments mkProofParams {GF GE}.
Arguments vBx {GF GE}. Arguments vBc {GF GE}. Arguments vBg {GF GE}. Arguments vBb {GF GE}.
Arguments vLo {GF GE}. Arguments vHi {GF GE}. Arguments vGFF {GF GE}. Arguments vGEC {GF GE}.

(** voteproof.go 42-47 VerCommitments *)
Record VerCommitments (GF GE : Grp) : Type := mkVerCommitments {
  cY : E GF;
  cXp : E GF;
  cXq1 : E GE;
  cXq2 : E GE
}.
Arguments mkVerCommitments {GF GE}.
Arguments cY {GF GE}. Arguments cXp {GF GE}. Arguments cXq1 {GF GE}. Arguments cXq2 {GF GE}.

(** voteproof.go 50-77 SigmaCommit, SigmaChallenge, SigmaResponse, SigmaProof *)
Record SigmaProof (GF GE : Grp) : Type := mkSigmaProof {
  sW : E GF;
  sKp : E GF;
  sKq1 : E GE;
  sKq2 : E GE;
  sChal : option Z;
  sZ : option Z;
  sSp : option Z;
  sSq1 : option Z;
  sSq2 : option Z;
  sParams : ProofParams GF GE
}.
Arguments mkSigmaProof {GF GE}.
Arguments sW {GF GE}. Arguments sKp {GF GE}. Arguments sKq1 {GF GE}. Arguments sKq2 {GF GE}.
Arguments sChal {GF GE}. Arguments sZ {GF GE}. Arguments sSp {GF GE}. Arguments sSq1 {GF GE}.
Arguments sSq2 {GF GE}. Arguments sParams {GF GE}.

(** One iteration's random draws (voteproof.go 136, 140-142): k in [0, zUpperBound), tp in [0, GFF.N),
    tq1, tq2 in [0, GEC.N). *)
Record Draw : Type := mkDraw { dk : Z; dtp : Z; dtq1 : Z; dtq2 : Z }.

Section VoteProof.
Context (GF GE : Grp) (HO : Oracles).

(** voteproof.go 80-97 Setup: arguments are machine integers (uint8, uint16); Bb is computed in int *)
Definition vpSetup (lenSecret lenChallenge groupOrderLog rangeLo rangeHi : Z)
    (gff : GroupParams GF) (gec : GroupParams GE) : res (ProofParams GF GE) :=
  let Bb := groupOrderLog - 1 - lenSecret - lenChallenge in
  if Bb <? 1 then Err
  else Ok (mkProofParams lenSecret lenChallenge groupOrderLog Bb rangeLo rangeHi gff gec).

(** voteproof.go 99-103 pedersenCommit *)
Definition vpCommit (G : Grp) (m r : Z) (gp : GroupParams G) : E G :=
  gAdd G (gBase G m) (gScale G (gpH gp) r).

(** voteproof.go 105-110 sigmaPedersenCheck *)
Definition sigmaPedersenCheck (G : Grp) (z s c : Z) (k x : E G) (gp : GroupParams G) : bool :=
  let left := vpCommit G z s gp in
  let right := gAdd G (gScale G x c) k in
  gEq G left right.

(** voteproof.go 112-124 getFSChallenge: the digest is cut to pow2bound/8 bytes *)
Definition fsInput (w Kp : E GF) (Kq1 Kq2 : E GE) : bytes :=
  gStr GF w ++ gStr GF Kp ++ gStr GE Kq1 ++ gStr GE Kq2.
Definition getFSChallenge (w Kp : E GF) (Kq1 Kq2 : E GE) (pow2bound : Z) : res Z :=
  challenge <- slice_to (sha256 HO (fsInput w Kp Kq1 Kq2)) (Z.to_nat (pow2bound / 8)) ;;
  Ok (os2ip challenge).

(** voteproof.go 127-131, 183-187: uint16(Bx) + Bc wraps at 16 bits *)
Definition zLowerBound (pr : ProofParams GF GE) : Z := bigExp2 (wrap16 (vBx pr + vBc pr)).
Definition zUpperBound (pr : ProofParams GF GE) : Z := bigExp2 (wrap16 (vBx pr + vBc pr) + vBb pr).

(** rand.Int panics when its bound (here a group order, lines 140-142) is not positive; so does a nil bound. Mod (lines 137-138), which
    comes first, panics as well for a nil or zero modulus. *)
Definition posN (o : option Z) : res Z := n <- deref o ;; if n <=? 0 then Panic else Ok n.

(** voteproof.go 135-161: one iteration; [None] = abort *)
Definition vpIter (secret rp rq1 rq2 : Z) (params : ProofParams GF GE) (dr : Draw)
  : res (option (SigmaProof GF GE)) :=
  nf <- posN (gpN (vGFF params)) ;;
  ne <- posN (gpN (vGEC params)) ;;
  let kp := dk dr mod nf in
  let kq := dk dr mod nf in                        (* line 138: GFF.N again *)
  let w := gBase GF (dtp dr) in
  let Kp := vpCommit GF kp (dtp dr) (vGFF params) in
  let Kq1 := vpCommit GE kq (dtq1 dr) (vGEC params) in
  let Kq2 := vpCommit GE kq (dtq2 dr) (vGEC params) in
  challenge <- getFSChallenge w Kp Kq1 Kq2 (vBc params) ;;
  let z := dk dr + challenge * secret in
  if (z <? zLowerBound params) || (zUpperBound params <=? z) then Ok None
  else
    let sp := (dtp dr + challenge * rp) mod nf in
    let sq1 := (dtq1 dr + challenge * rq1) mod ne in
    let sq2 := (dtq2 dr + challenge * rq2) mod ne in
    Ok (Some (mkSigmaProof w Kp Kq1 Kq2 (Some challenge) (Some z) (Some sp) (Some sq1) (Some sq2) params)).

(** voteproof.go 126-177 Prove: the unbounded abort loop, consuming a stream of draws *)
Fixpoint vpProve (secret rp rq1 rq2 : Z) (params : ProofParams GF GE) (draws : list Draw)
  : res (SigmaProof GF GE) :=
  match draws with
  | [] => OutOfFuel
  | dr :: t =>
      o <- vpIter secret rp rq1 rq2 params dr ;;
      match o with
      | Some pf => Ok pf
      | None => vpProve secret rp rq1 rq2 params t
      end
  end.

(** voteproof.go 182-226 Verify. challenge.Cmp(proof.Challenge) on a nil Challenge panics. *)
Definition vpVerify (proof : SigmaProof GF GE) (comm : VerCommitments GF GE) : res bool :=
  let params := sParams proof in
  z <- deref (sZ proof) ;;
  if (z <? zLowerBound params) || (zUpperBound params <=? z) then Ok false else
  challenge <- getFSChallenge (sW proof) (sKp proof) (sKq1 proof) (sKq2 proof) (vBc params) ;;
  c <- deref (sChal proof) ;;
  if negb (challenge =? c) then Ok false else
  sp <- deref (sSp proof) ;;
  let l := gBase GF sp in
  let r := gAdd GF (gScale GF (cY comm) c) (sW proof) in
  if negb (gEq GF l r) then Ok false else
  if negb (sigmaPedersenCheck GF z sp c (sKp proof) (cXp comm) (vGFF params)) then Ok false else
  sq1 <- deref (sSq1 proof) ;;
  if negb (sigmaPedersenCheck GE z sq1 c (sKq1 proof) (cXq1 comm) (vGEC params)) then Ok false else
  sq2 <- deref (sSq2 proof) ;;
  if negb (sigmaPedersenCheck GE z sq2 c (sKq2 proof) (cXq2 comm) (vGEC params)) then Ok false else
  Ok true.
End VoteProof.
