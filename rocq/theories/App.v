(** Package main: elgamal.go, voter.go, server.go, main.go. *)
From Verif Require Import GoBase Json GroupIface Vector BIP BP VoteProof ModP.

(** main.go 13-28 PublicParameters *)
Record PublicParameters (GF GE : Grp) : Type := mkPublicParameters {
  ppFF : GroupParams GF;
  ppEC : GroupParams GE;
  ppEGPK : E GF;
  ppMin : Z;
  ppMax : Z;
  ppBP : BPParams GE;
  ppRP : ProofParams GF GE
}.
Arguments mkPublicParameters {GF GE}.
Arguments ppFF {GF GE}. Arguments ppEC {GF GE}. Arguments ppEGPK {GF GE}. Arguments ppMin {GF GE}.
Arguments ppMax {GF GE}. Arguments ppBP {GF GE}. Arguments ppRP {GF GE}.

(** elgamal.go 9-12 *)
Record Ciphertext (G : Grp) : Type := mkCiphertext { ctU : E G; ctV : E G }.
Arguments mkCiphertext {G}. Arguments ctU {G}. Arguments ctV {G}.

(** voter.go 12-17 *)
Record BallotData (GF GE : Grp) : Type := mkBallotData {
  bdBallot : Ciphertext GF;
  bdLower : BulletProof GE;
  bdUpper : BulletProof GE;
  bdVote : SigmaProof GF GE
}.
Arguments mkBallotData {GF GE}.
Arguments bdBallot {GF GE}. Arguments bdLower {GF GE}. Arguments bdUpper {GF GE}. Arguments bdVote {GF GE}.

(** elgamal.go 14-28 encryptVote; [r] is the draw from [0, N-1) *)
Definition encryptVote (GF : Grp) (choice : Z) (egPK : E GF) (r : Z) : res (Ciphertext GF * Z) :=
  r' <- randInt (gN GF - 1) r ;;
  let rnd := r' + 1 in
  let lifted := gBase GF choice in
  let mask := gScale GF egPK rnd in
  Ok (mkCiphertext (gBase GF rnd) (gAdd GF lifted mask), rnd).

(** The draws of castVote *)
Record CastRand : Type := mkCastRand {
  cr_choice : Z;         (* voter.go 20 *)
  cr_eg : Z;             (* elgamal.go 17 *)
  cr_bp1 : BPRand;
  cr_bp2 : BPRand;
  cr_vp : list Draw
}.

Section App.
Context (GF GE : Grp) (HO : Oracles).

(** voter.go 19-45 castVote. candidateMax-candidateMin etc. are uint16 operations. The errors of the two
    Prove calls are ignored by the code; Prove's only error (N <= 0) is preceded by a panic. *)
Definition castVote (pp : PublicParameters GF GE) (cr : CastRand) : res (BallotData GF GE) :=
  rBig <- randInt (wrap16 (ppMax pp - ppMin pp)) (cr_choice cr) ;;
  let choice := wrap16 (wrap16 rBig + ppMin pp) in
  '(ciphertext, rp) <- encryptVote GF choice (ppEGPK pp) (cr_eg cr) ;;
  '(bp1, rq1) <- Prove GE HO (wrap16 (choice - ppMin pp)) (ppBP pp) (cr_bp1 cr) ;;
  '(bp2, rq2) <- Prove GE HO (wrap16 (ppMax pp - choice)) (ppBP pp) (cr_bp2 cr) ;;
  ne <- deref (gpN (ppEC pp)) ;;
  let rq2inv := ne - rq2 in
  rangeProof <- vpProve GF GE HO choice rp rq1 rq2inv (ppRP pp) (cr_vp cr) ;;
  Ok (mkBallotData ciphertext bp1 bp2 rangeProof).

(** server.go 9-56 verifyVote: the answer and the length of the returned timing slice (0: nil) *)
Definition verifyVote (proofs : BallotData GF GE) (rp : ProofParams GF GE) : res (bool * nat) :=
  ok1 <- Verify GE HO (bdLower proofs) ;;
  if negb ok1 then Ok (false, 0%nat) else
  ok2 <- Verify GE HO (bdUpper proofs) ;;
  if negb ok2 then Ok (false, 0%nat) else
  let loShift := gBase GE (vLo rp) in
  let Xq1 := gAdd GE loShift (pV (bdLower proofs)) in
  let upShift := gBase GE (vHi rp) in
  let inv := gScale GE (pV (bdUpper proofs)) (-1) in
  let Xq2 := gAdd GE upShift inv in
  let comm := mkVerCommitments (ctU (bdBallot proofs)) (ctV (bdBallot proofs)) Xq1 Xq2 in
  result <- vpVerify GF GE HO (bdVote proofs) comm ;;
  Ok (result, 2%nat).

(** main.go 142-152: one group's driver loop; indexing times[0], times[1] panics on a nil slice. Returns [success]. *)
Fixpoint driverLoop (pp : PublicParameters GF GE) (rs : list CastRand) (success : bool) : res bool :=
  match rs with
  | [] => Ok success
  | cr :: t =>
      vote <- castVote pp cr ;;
      '(verify, times) <- verifyVote vote (ppRP pp) ;;
      if Nat.ltb times 2 then Panic else
      driverLoop pp t (success && verify)
  end.
End App.

(** main.go 30-112 setup. [d] is RFC3526ModPGroup3072 as returned by NewModPGroup ([rfc3526] below);
    the constants are those of main.go 35-48, 71, 73. uint16(BitLen) wraps. *)
Definition setup (d : ModPDesc) (GE : Grp) (nan64 : Z) : res (PublicParameters (ModPGrp d) GE) :=
  let GF := ModPGrp d in
  bpParams <- Setup GE nan64 65536 ;;
  let fieldGroupParams := mkGroupParams (G:=GF) (gGen GF) (gBase GF 13) (Some (gN GF)) (Some (gP GF)) in
  let curveGroupParams := mkGroupParams (G:=GE) (gGen GE) (bpH bpParams) (Some (gN GE)) (Some (gP GF)) in
  rpParams <- vpSetup GF GE 16 224 (wrap16 (bitLen (gN GE))) 101 2000 fieldGroupParams curveGroupParams ;;
  Ok (mkPublicParameters fieldGroupParams curveGroupParams (gpH fieldGroupParams) 101 2000 bpParams rpParams).

(** main.go 50-68 *)
Definition rfc3526_text : string :=
"FFFFFFFF FFFFFFFF C90FDAA2 2168C234 C4C6628B 80DC1CD1
		29024E08 8A67CC74 020BBEA6 3B139B22 514A0879 8E3404DD
		EF9519B3 CD3A431B 302B0A6D F25F1437 4FE1356D 6D51C245
		E485B576 625E7EC6 F44C42E9 A637ED6B 0BFF5CB6 F406B7ED
		EE386BFB 5A899FA5 AE9F2411 7C4B1FE6 49286651 ECE45B3D
		C2007CB8 A163BF05 98DA4836 1C55D39A 69163FA8 FD24CF5F
		83655D23 DCA3AD96 1C62F356 208552BB 9ED52907 7096966D
		670C354E 4ABC9804 F1746C08 CA18217C 32905E46 2E36CE3B
		E39E772C 180E8603 9B2783A2 EC07A28F B5C55DF0 6F4C52C9
		DE2BCBF6 95581718 3995497C EA956AE5 15D22618 98FA0510
		15728E5A 8AAAC42D AD33170D 04507A33 A85521AB DF1CBA64
		ECFB8504 58DBEF0A 8AEA7157 5D060C7D B3970F85 A6E1E4C7
		ABF5AE8C DB0933D7 1E8C94E0 4A25619D CEE3D226 1AD2EE6B
		F12FFA06 D98A0864 D8760273 3EC86A64 521F2B18 177B200C
		BBE11757 7A615D6C 770988C0 BAD946E2 08E24FA0 74E5AB31
		43DB5BFC E0FD108E 4B82D120 A93AD2CA FFFFFFFF FFFFFFFF
		".
Definition rfc3526 : res ModPDesc := NewModPGroup "RFC3526ModPGroup3072" rfc3526_text "2".
