(** Verification on a machine with finite memory.

    Elsewhere in the model integers are as large as they come out. Here [M] is the size the program can afford: building a number 2^e with
    e > M ends the program (Go: makeslice panics or the runtime is out of memory; either way no answer is given), written [Panic]. This is
    asked of the two numbers of voteproof.go 183-187 only. All other integers of verification are read from the document, are products of
    two such, or are reduced modulo an order, and so are no longer than a fixed multiple of the document and the orders; they are as before. *)
From Verif Require Import GoBase Json GroupIface Vector BIP BP VoteProof App.

(** (Int).Exp(2, e, nil) *)
Definition bigExp2M (M e : Z) : res Z := if M <? e then Panic else Ok (bigExp2 e).

Section Limit.
Context (GF GE : Grp) (HO : Oracles) (M : Z).

(** voteproof.go 182-226 Verify: both bounds are built before Z is looked at *)
Definition vpVerifyM (proof : SigmaProof GF GE) (comm : VerCommitments GF GE) : res bool :=
  let params := sParams proof in
  let bxbc := wrap16 (vBx params + vBc params) in
  lower <- bigExp2M M bxbc ;;
  upper <- bigExp2M M (bxbc + vBb params) ;;
  z <- deref (sZ proof) ;;
  if (z <? lower) || (upper <=? z) then Ok false else
  challenge <- getFSChallenge GF GE HO (sW proof) (sKp proof) (sKq1 proof) (sKq2 proof) (vBc params) ;;
  c <- deref (sChal proof) ;;
  if negb (challenge =? c) then Ok false else
  sp <- deref (sSp proof) ;;
  let l := gBase GF sp in
  let r := gAdd GF (gScale GF (cY comm) c) (sW proof) in
  if negb (gEq GF l r) then Ok false else
  if negb (sigmaPedersenCheck GF z sp c (sKp proof) (cXp comm) (vGFF params)) then Ok false else
  sq1 <- deref (sSq1 proof) ;;
  if negb (sigmaPedersenCheck GE z sq1 c (sKq1 proof) (cXq1 comm) (vGEC params)) then Ok false else
  sq2 <- deref (sSq2 proof) ;;
  if negb (sigmaPedersenCheck GE z sq2 c (sKq2 proof) (cXq2 comm) (vGEC params)) then Ok false else
  Ok true.

(** server.go 9-56 verifyVote *)
Definition verifyVoteM (proofs : BallotData GF GE) (rp : ProofParams GF GE) : res (bool * nat) :=
  ok1 <- Verify GE HO (bdLower proofs) ;;
  if negb ok1 then Ok (false, 0%nat) else
  ok2 <- Verify GE HO (bdUpper proofs) ;;
  if negb ok2 then Ok (false, 0%nat) else
  let loShift := gBase GE (vLo rp) in
  let Xq1 := gAdd GE loShift (pV (bdLower proofs)) in
  let upShift := gBase GE (vHi rp) in
  let inv := gScale GE (pV (bdUpper proofs)) (-1) in
  let Xq2 := gAdd GE upShift inv in
  let comm := mkVerCommitments (ctU (bdBallot proofs)) (ctV (bdBallot proofs)) Xq1 Xq2 in
  result <- vpVerifyM (bdVote proofs) comm ;;
  Ok (result, 2%nat).
End Limit.
