(** Transfer of the ElGamal and vote-proof functions along a homomorphism of the ElGamal group (used to move results
    from the group of subgroup members to the raw mod-p group of the code). *)
From Verif Require Import GoBase Json GroupIface Vector BIP BP VoteProof ModP App NumTh ModPProofs.

Record GHom (G1 G2 : Grp) (f : E G1 -> E G2) : Prop := {
  hm_N : gN G2 = gN G1;
  hm_P : gP G2 = gP G1;
  hm_gen : f (gGen G1) = gGen G2;
  hm_add : forall X Y, f (gAdd G1 X Y) = gAdd G2 (f X) (f Y);
  hm_scale : forall X s, f (gScale G1 X s) = gScale G2 (f X) s;
  hm_base : forall s, f (gBase G1 s) = gBase G2 s;
  hm_eq : forall X Y, gEq G2 (f X) (f Y) = gEq G1 X Y;
  hm_str : forall X, gStr G2 (f X) = gStr G1 X
}.

Lemma SubHom : forall d (Hok : ModPOk d), GHom (SubGrp d Hok) (ModPGrp d) sv.
Proof.
  intros d Hok. constructor; reflexivity. Qed.

Definition res_map {A B} (f : A -> B) (x : res A) : res B :=
  match x with Ok a => Ok (f a) | Err => Err | Panic => Panic | OutOfFuel => OutOfFuel end.

Section Map.
Context {G1 G2 GE : Grp} (f : E G1 -> E G2).
Definition mapGP (g : GroupParams G1) : GroupParams G2 := mkGroupParams (f (gpG g)) (f (gpH g)) (gpN g) (gpF g).
Definition mapPP (p : ProofParams G1 GE) : ProofParams G2 GE :=
  mkProofParams (vBx p) (vBc p) (vBg p) (vBb p) (vLo p) (vHi p) (mapGP (vGFF p)) (vGEC p).
Definition mapPf (s : SigmaProof G1 GE) : SigmaProof G2 GE :=
  mkSigmaProof (f (sW s)) (f (sKp s)) (sKq1 s) (sKq2 s) (sChal s) (sZ s) (sSp s) (sSq1 s) (sSq2 s) (mapPP (sParams s)).
Definition mapComm (c : VerCommitments G1 GE) : VerCommitments G2 GE :=
  mkVerCommitments (f (cY c)) (f (cXp c)) (cXq1 c) (cXq2 c).
Definition mapCt (c : Ciphertext G1) : Ciphertext G2 := mkCiphertext (f (ctU c)) (f (ctV c)).
Definition mapBallot (b : BallotData G1 GE) : BallotData G2 GE :=
  mkBallotData (mapCt (bdBallot b)) (bdLower b) (bdUpper b) (mapPf (bdVote b)).
Definition mapPub (p : PublicParameters G1 GE) : PublicParameters G2 GE :=
  mkPublicParameters (mapGP (ppFF p)) (ppEC p) (f (ppEGPK p)) (ppMin p) (ppMax p) (ppBP p) (mapPP (ppRP p)).
End Map.

Section Hom.
Context (G1 G2 GE : Grp) (f : E G1 -> E G2) (HF : GHom G1 G2 f) (HO : Oracles).

Lemma vpCommit_hom : forall m r g, vpCommit G2 m r (mapGP f g) = f (vpCommit G1 m r g).
Proof. intros. unfold vpCommit. cbn [mapGP gpH]. rewrite (hm_add _ _ _ HF), (hm_base _ _ _ HF), (hm_scale _ _ _ HF). reflexivity. Qed.
Lemma fs_hom : forall w k k1 k2 b, getFSChallenge G2 GE HO (f w) (f k) k1 k2 b = getFSChallenge G1 GE HO w k k1 k2 b.
Proof. intros. unfold getFSChallenge, fsInput. rewrite !(hm_str _ _ _ HF). reflexivity. Qed.
Lemma check_hom : forall z s c k x g, sigmaPedersenCheck G2 z s c (f k) (f x) (mapGP f g) = sigmaPedersenCheck G1 z s c k x g.
Proof.
  intros. unfold sigmaPedersenCheck. rewrite vpCommit_hom, <- (hm_scale _ _ _ HF), <- (hm_add _ _ _ HF). apply (hm_eq _ _ _ HF).
Qed.
Lemma vpIter_hom : forall x rp r1 r2 pr dr,
  vpIter G2 GE HO x rp r1 r2 (mapPP f pr) dr = res_map (option_map (mapPf f)) (vpIter G1 GE HO x rp r1 r2 pr dr).
Proof.
  intros. unfold vpIter, zLowerBound, zUpperBound. cbn [mapPP vGFF vGEC vBc vBx vBb mapGP gpN].
  destruct (posN (gpN (vGFF pr))) as [nf| | |]; try reflexivity. destruct (posN (gpN (vGEC pr))) as [ne| | |]; try reflexivity. cbn [bind].
  rewrite <- (hm_base _ _ _ HF), vpCommit_hom, fs_hom.
  destruct (getFSChallenge _ _ _ _ _ _ _ _) as [c| | |]; try reflexivity. cbn [bind].
  destruct (_ || _); reflexivity.
Qed.
Lemma vpProve_hom : forall drs x rp r1 r2 pr,
  vpProve G2 GE HO x rp r1 r2 (mapPP f pr) drs = res_map (mapPf f) (vpProve G1 GE HO x rp r1 r2 pr drs).
Proof.
  induction drs as [|dr t IH]; intros; [reflexivity|]. cbn [vpProve]. rewrite vpIter_hom.
  destruct (vpIter G1 GE HO x rp r1 r2 pr dr) as [[pf|]| | |]; try reflexivity. cbn [res_map option_map bind]. apply IH.
Qed.
Lemma vpVerify_hom : forall pf comm, vpVerify G2 GE HO (mapPf f pf) (mapComm f comm) = vpVerify G1 GE HO pf comm.
Proof.
  intros. unfold vpVerify, zLowerBound, zUpperBound.
  cbn [mapPf sParams mapPP vBx vBc vBb sZ sW sKp sKq1 sKq2 sChal sSp sSq1 sSq2 vGFF vGEC mapComm cY cXp cXq1 cXq2].
  rewrite fs_hom. destruct (sZ pf) as [z|]; [|reflexivity]. cbn [deref bind]. destruct (_ || _); [reflexivity|].
  destruct (getFSChallenge _ _ _ _ _ _ _ _) as [c| | |]; try reflexivity. cbn [bind].
  destruct (sChal pf) as [c'|]; [|reflexivity]. cbn [deref bind]. destruct (negb (c =? c')); [reflexivity|].
  destruct (sSp pf) as [sp|]; [|reflexivity]. cbn [deref bind].
  rewrite <- (hm_base _ _ _ HF), <- (hm_scale _ _ _ HF), <- (hm_add _ _ _ HF), (hm_eq _ _ _ HF), check_hom. reflexivity.
Qed.
Lemma encryptVote_hom : forall choice pk r,
  encryptVote G2 choice (f pk) r = res_map (fun x => (mapCt f (fst x), snd x)) (encryptVote G1 choice pk r).
Proof.
  intros. unfold encryptVote. rewrite (hm_N _ _ _ HF). destruct (randInt (gN G1 - 1) r) as [r'| | |]; try reflexivity. cbn [bind res_map fst snd].
  unfold mapCt. cbn [ctU ctV]. rewrite (hm_add _ _ _ HF), !(hm_base _ _ _ HF), (hm_scale _ _ _ HF). reflexivity.
Qed.
Lemma castVote_hom : forall pp cr, castVote G2 GE HO (mapPub f pp) cr = res_map (mapBallot f) (castVote G1 GE HO pp cr).
Proof.
  intros. unfold castVote. cbn [mapPub ppMin ppMax ppEGPK ppBP ppEC ppRP].
  destruct (randInt _ _) as [rb| | |]; try reflexivity. cbn [bind].
  rewrite encryptVote_hom. destruct (encryptVote G1 _ _ _) as [[ct rp]| | |]; try reflexivity. cbn [bind res_map fst snd].
  destruct (Prove GE HO _ _ (cr_bp1 cr)) as [[b1 q1]| | |]; try reflexivity. cbn [bind].
  destruct (Prove GE HO _ _ (cr_bp2 cr)) as [[b2 q2]| | |]; try reflexivity. cbn [bind].
  destruct (gpN (ppEC pp)) as [ne|]; [|reflexivity]. cbn [deref bind].
  rewrite vpProve_hom. destruct (vpProve G1 _ _ _ _ _ _ _ _); reflexivity.
Qed.
Lemma verifyVote_hom : forall b rp, verifyVote G2 GE HO (mapBallot f b) (mapPP f rp) = verifyVote G1 GE HO b rp.
Proof.
  intros. unfold verifyVote. cbn [mapBallot bdLower bdUpper bdBallot bdVote mapPP vLo vHi].
  destruct (Verify GE HO (bdLower b)) as [[]| | |]; try reflexivity. cbn [bind negb].
  destruct (Verify GE HO (bdUpper b)) as [[]| | |]; try reflexivity. cbn [bind negb].
  pose proof (vpVerify_hom (bdVote b) (mkVerCommitments (ctU (bdBallot b)) (ctV (bdBallot b))
    (gAdd GE (gBase GE (vLo rp)) (pV (bdLower b))) (gAdd GE (gBase GE (vHi rp)) (gScale GE (pV (bdUpper b)) (-1))))) as Hv.
  unfold mapComm in Hv. cbn [cY cXp cXq1 cXq2] in Hv. cbn [mapCt ctU ctV]. rewrite Hv. reflexivity.
Qed.
End Hom.
