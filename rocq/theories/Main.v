(** main.go 114-173: func main, its loop over the groups, what it prints and where it stops. *)
From Verif Require Import GoBase Out Json GroupIface Vector BIP BP VoteProof ModP App ECJson P256k1 Curve Groups.

(** The clock readings of one iteration: time.Since in castVote (voter.go 37) and in verifyVote (server.go 24, 48), int64
    nanoseconds. *)
Record Timing : Type := mkTiming { tCast : Z; tBP : Z; tRP : Z }.

(** What is printed: one constructor per fmt.Print/Println call reached by main (MultiBulletProof.Verify, which also prints, is not).
    The rendering of durations is not modelled; the error of line 133 can only be that of vpSetup, voteproof.go 93 (C64_skip). *)
Inductive Line : Type :=
| LBlank                        (* 127 *)
| LEq                           (* 129, 171 *)
| LGen (name : string)          (* 130 *)
| LSkip (name : string)         (* 133 *)
| LAborted                      (* voteproof.go 154 *)
| LDash                         (* 154, 159, 169 *)
| LCasting                      (* 155 *)
| LProve (d : Z)                (* 157 *)
| LVerification                 (* 160 *)
| LTimeBP (d : Z)               (* 165 *)
| LTimeRP (d : Z)               (* 166 *)
| LTimeTotal (d : Z)            (* 167 *)
| LFormed (success : bool).     (* 170 *)

Section Printing.
Context (GF GE : Grp) (HO : Oracles).

(** voteproof.go 126-177: vpProve again, with the line 154 prints *)
Fixpoint vpProveOut (secret rp rq1 rq2 : Z) (params : ProofParams GF GE) (draws : list Draw) : Out Line (SigmaProof GF GE) :=
  match draws with
  | [] => quiet OutOfFuel
  | dr :: t =>
      o <~ quiet (vpIter GF GE HO secret rp rq1 rq2 params dr) ;;
      match o with
      | Some pf => quiet (Ok pf)
      | None => _ <~ say [LAborted] ;; vpProveOut secret rp rq1 rq2 params t
      end
  end.

(** voter.go 19-45: castVote again (App.v), printing what voteproof.Prove prints *)
Definition castVoteOut (pp : PublicParameters GF GE) (cr : CastRand) : Out Line (BallotData GF GE) :=
  rBig <~ quiet (randInt (wrap16 (ppMax pp - ppMin pp)) (cr_choice cr)) ;;
  let choice := wrap16 (wrap16 rBig + ppMin pp) in
  '(ciphertext, rp) <~ quiet (encryptVote GF choice (ppEGPK pp) (cr_eg cr)) ;;
  '(bp1, rq1) <~ quiet (Prove GE HO (wrap16 (choice - ppMin pp)) (ppBP pp) (cr_bp1 cr)) ;;
  '(bp2, rq2) <~ quiet (Prove GE HO (wrap16 (ppMax pp - choice)) (ppBP pp) (cr_bp2 cr)) ;;
  ne <~ quiet (deref (gpN (ppEC pp))) ;;
  let rq2inv := ne - rq2 in
  rangeProof <~ vpProveOut choice rp rq1 rq2inv (ppRP pp) (cr_vp cr) ;;
  quiet (Ok (mkBallotData ciphertext bp1 bp2 rangeProof)).
End Printing.

(** 137-140 *)
Record Totals : Type := mkTotals { tsSuccess : bool; tsCast : Z; tsBP : Z; tsRP : Z }.

(** 123 *)
Definition iterCount : Z := 1000.

Section Main.
Context (d : ModPDesc) (HO : Oracles) (nan64 : Z).

(** 142-152; times[0] and times[1] panic on the nil slice verifyVote returns with a rejected range proof *)
Fixpoint mainIters (GE : Grp) (pp : PublicParameters (ModPGrp d) GE) (its : list (CastRand * Timing)) (st : Totals) : Out Line Totals :=
  match its with
  | [] => quiet (Ok st)
  | (cr, tm) :: t =>
      vote <~ castVoteOut (ModPGrp d) GE HO pp cr ;;
      let castTotal := wrap64 (tsCast st + tCast tm) in
      '(verify, times) <~ quiet (verifyVote (ModPGrp d) GE HO vote (ppRP pp)) ;;
      if Nat.ltb times 2 then quiet Panic else
      mainIters GE pp t (mkTotals (tsSuccess st && verify) castTotal (wrap64 (tsBP st + tBP tm)) (wrap64 (tsRP st + tRP tm)))
  end.

(** 129-171, one group: the lines printed and how the body ends ([Ok tt]: falls through or continues; [Panic]: the program dies).
    [its j] are the draws and clock readings of iteration j. *)
Definition mainGroup (GE : Grp) (its : nat -> CastRand * Timing) : Out Line unit :=
  _ <~ say [LEq; LGen (gName GE)] ;;
  match setup d GE nan64 with
  | Err => say [LSkip (gName GE)]
  | r =>
      pp <~ quiet r ;;
      st <~ mainIters GE pp (map its (seq 0 (Z.to_nat iterCount))) (mkTotals true 0 0 0) ;;
      let bpAvg := Z.quot (tsBP st) iterCount in
      let rpAvg := Z.quot (tsRP st) iterCount in
      say [LDash; LCasting; LProve (Z.quot (tsCast st) iterCount); LDash; LVerification;
           LTimeBP bpAvg; LTimeRP rpAvg; LTimeTotal (wrap64 (bpAvg + rpAvg)); LDash; LFormed (tsSuccess st); LEq]
  end.

(** 125-172; [first]: i = 0 *)
Fixpoint mainLoop (first : bool) (gs : list (Grp * (nat -> CastRand * Timing))) : Out Line unit :=
  match gs with
  | [] => quiet (Ok tt)
  | (GE, its) :: t =>
      _ <~ say (if first then [] else [LBlank]) ;;
      _ <~ mainGroup GE its ;;
      mainLoop false t
  end.
End Main.

(** 115-120, with the modulus setup builds; the iterations of the four groups in order *)
Definition goMain (HO : Oracles) (nan64 : Z) (d : ModPDesc)
    (ing : Ing) (c : R255Codec) (ri : Ristretto c) (decomp256 : bytes -> option (Z * Z)) (ci256 : Circl (P256 decomp256))
    (decomp384 : bytes -> option (Z * Z)) (ci384 : Circl (P384 decomp384))
    (its1 its2 its3 its4 : nat -> CastRand * Timing) : Out Line unit :=
  mainLoop d HO nan64 true
    [(K1Grp ing, its1); (R255Grp c ri, its2); (P256Grp decomp256 ci256, its3); (P384Grp decomp384 ci384, its4)].
