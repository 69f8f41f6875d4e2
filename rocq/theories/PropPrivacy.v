(** C72: a ballot reveals nothing about the vote beyond its ciphertext. *)
From Verif Require Import GoBase Json GroupIface Vector BIP BP VoteProof ModP App ECJson NumTh Alg BPProofs SetupProofs ModPProofs Hom Toy PropBP PropVote PropZK PropApp PropPrime PrimeCerts.

(** ** Specification: ballots made without knowing the vote *)
(** responses in the ranges the prover reduces them to *)
Definition ReducedVote {GF GE : Grp} (pr : ProofParams GF GE) (pf : SigmaProof GF GE) : Prop :=
  sParams pf = pr /\ exists sp sq1 sq2, sSp pf = Some sp /\ sSq1 pf = Some sq1 /\ sSq2 pf = Some sq2 /\
    0 <= sp < gN GF /\ 0 <= sq1 < gN GE /\ 0 <= sq2 < gN GE.
(** the ballot holds the given ciphertext, range proofs made with the draws s1, s2 for the fixed candidate v0, and any (reduced) vote proof with
    which the whole is accepted *)
Definition Simulated {GF GE : Grp} (HO : Oracles) (pp : PublicParameters GF GE) (v0 : Z) (ct : Ciphertext GF) (s1 s2 : BPRand) (b : BallotData GF GE) : Prop :=
  RndInRange (gN GE) (Z.to_nat (bpN (ppBP pp))) s1 /\ RndInRange (gN GE) (Z.to_nat (bpN (ppBP pp))) s2 /\
  bdBallot b = ct /\
  (exists g, Prove GE HO (v0 - ppMin pp) (ppBP pp) s1 = Ok (bdLower b, g)) /\
  (exists g, Prove GE HO (ppMax pp - v0) (ppBP pp) s2 = Ok (bdUpper b, g)) /\
  ReducedVote (ppRP pp) (bdVote b) /\ verifyVote GF GE HO b (ppRP pp) = Ok (true, 2%nat).
(** the challenges of the two range proofs are not zero *)
Definition BallotChallenges {GF GE : Grp} (HO : Oracles) (b : BallotData GF GE) : Prop :=
  ChallengeNonzero GE HO (bdLower b) /\ ChallengeNonzero GE HO (bdUpper b).

Section Privacy.
Context (GF GE : Grp) (HO : Oracles) (LF : GrpLaws GF) (PE : GrpPrime GE) (HD : Digest32 HO).
Let LE : GrpLaws GE := lp_laws GE PE.

Lemma cast_one : forall nan64 (pp : PublicParameters GF GE) v r r1 r2 dr ballot,
  Consistent nan64 pp -> ppMin pp <= v < ppMax pp -> 0 <= r < gN GF - 1 ->
  castVote GF GE HO pp (mkCastRand (v - ppMin pp) r r1 r2 [dr]) = Ok ballot <->
  exists b1 b2 g1 g2 pf,
    ballot = mkBallotData (mkCiphertext (gBase GF (r + 1)) (gAdd GF (gBase GF v) (gScale GF (ppEGPK pp) (r + 1)))) b1 b2 pf /\
    Prove GE HO (v - ppMin pp) (ppBP pp) r1 = Ok (b1, g1) /\ Prove GE HO (ppMax pp - v) (ppBP pp) r2 = Ok (b2, g2) /\
    vpIter GF GE HO v (r + 1) g1 (gN GE - g2) (ppRP pp) dr = Ok (Some pf).
Proof.
  intros nan64 pp v r r1 r2 dr ballot C Hv Hr. destruct (cs_range _ _ C) as (H1 & H2 & H3).
  unfold castVote. cbn [cr_choice cr_eg cr_bp1 cr_bp2 cr_vp].
  unfold randInt at 1. replace (wrap16 (ppMax pp - ppMin pp)) with (ppMax pp - ppMin pp) by (symmetry; apply Z.mod_small; lia).
  replace (ppMax pp - ppMin pp <=? 0) with false by (symmetry; apply Z.leb_gt; lia). cbn [bind].
  assert (Hch : wrap16 (wrap16 (v - ppMin pp) + ppMin pp) = v).
  { unfold wrap16. rewrite (Z.mod_small (v - ppMin pp)) by lia. rewrite Z.mod_small; lia. }
  rewrite Hch. replace (wrap16 (v - ppMin pp)) with (v - ppMin pp) by (symmetry; apply Z.mod_small; lia).
  replace (wrap16 (ppMax pp - v)) with (ppMax pp - v) by (symmetry; apply Z.mod_small; lia).
  unfold encryptVote, randInt. replace (gN GF - 1 <=? 0) with false by (symmetry; apply Z.leb_gt; lia). cbn [bind].
  destruct (Prove GE HO (v - _) _ _) as [[b1 g1]| | |] eqn:E1; cbn [bind]; [|split; [discriminate|intros (? & ? & ? & ? & ? & _ & ? & _); discriminate]..].
  destruct (Prove GE HO (_ - v) _ _) as [[b2 g2]| | |] eqn:E2; cbn [bind]; [|split; [discriminate|intros (? & ? & ? & ? & ? & _ & _ & ? & _); discriminate]..].
  rewrite (cs_n _ _ C). cbn [deref bind vpProve].
  destruct (vpIter _ _ _ _ _ _ _ _ _) as [[pf|]| | |] eqn:E3; cbn [bind].
  2,3,4,5: split; [discriminate|intros (c1 & c2 & e1 & e2 & pf' & _ & Ha & Hb & Hc); injection Ha as <- <-; injection Hb as <- <-; congruence].
  split.
  - intros H. injection H as <-. exists b1, b2, g1, g2, pf. auto.
  - intros (c1 & c2 & e1 & e2 & pf' & -> & Ha & Hb & Hc). injection Ha as <- <-. injection Hb as <- <-. rewrite E3 in Hc. injection Hc as <-. reflexivity.
Qed.

Lemma verify_iff : forall (b : BallotData GF GE) rp, Verify GE HO (bdLower b) = Ok true -> Verify GE HO (bdUpper b) = Ok true ->
  verifyVote GF GE HO b rp = Ok (true, 2%nat) <->
  vpVerify GF GE HO (bdVote b) (mkVerCommitments (ctU (bdBallot b)) (ctV (bdBallot b)) (gAdd GE (gBase GE (vLo rp)) (pV (bdLower b)))
    (gAdd GE (gBase GE (vHi rp)) (gScale GE (pV (bdUpper b)) (-1)))) = Ok true.
Proof.
  intros b rp H1 H2. unfold verifyVote. rewrite H1, H2. cbn [bind negb].
  destruct (vpVerify _ _ _ _ _) as [[]| | |]; cbn [bind]; split; congruence.
Qed.

(** the statement of an honest ballot, with the witness *)
Lemma true_statement : forall nan64 (pp : PublicParameters GF GE) v rr g1 g2 b1 b2, Consistent nan64 pp ->
  pV b1 = gAdd GE (gBase GE (v - ppMin pp)) (gScale GE (bpH (ppBP pp)) g1) -> pV b2 = gAdd GE (gBase GE (ppMax pp - v)) (gScale GE (bpH (ppBP pp)) g2) ->
  TrueStatement (ppRP pp) (mkVerCommitments (gBase GF rr) (gAdd GF (gBase GF v) (gScale GF (ppEGPK pp) rr)) (gAdd GE (gBase GE (vLo (ppRP pp))) (pV b1))
    (gAdd GE (gBase GE (vHi (ppRP pp))) (gScale GE (pV b2) (-1)))) v rr g1 (gN GE - g2).
Proof.
  intros nan64 pp v rr g1 g2 b1 b2 C HV1 HV2.
  unfold TrueStatement, Encrypts, Opens. cbn [cY cXp cXq1 cXq2]. rewrite (cs_pk _ _ C), (cs_h _ _ C), (cs_lo _ _ C), (cs_hi _ _ C), HV1, HV2.
  rewrite !(l_base GF LF). split; [split; reflexivity|]. split.
  - glin LE.
  - glin LE. apply eqm_iff; [apply (N_pos LE)|]. exists (-1). ring.
Qed.
End Privacy.

(** C72. For every candidate v, every encryption randomness r and any fixed candidate v0: the draws of castVote for v are in bijection with the
    ballots made without knowing v (range proofs for v0, any accepted vote proof for the ciphertext). So, given the ciphertext, each ballot is as
    likely as if it had been made by somebody who knows the ciphertext only; this includes the probability that an iteration aborts. *)
Theorem C72_ballot_hides_vote : forall GF GE HO nan64 (pp : PublicParameters GF GE) v v0 r,
  GrpLaws GF -> GrpPrime GE -> Digest32 HO -> nanConv nan64 -> Consistent nan64 pp ->
  ppMax pp <= 2 ^ vBx (ppRP pp) -> bpH (ppBP pp) <> gId GE ->
  ppMin pp <= v < ppMax pp -> ppMin pp <= v0 <= ppMax pp -> 0 <= r < gN GF - 1 ->
  let n := Z.to_nat (bpN (ppBP pp)) in
  let ct := mkCiphertext (gBase GF (r + 1)) (gAdd GF (gBase GF v) (gScale GF (ppEGPK pp) (r + 1))) in
  let honest r1 r2 dr := castVote GF GE HO pp (mkCastRand (v - ppMin pp) r r1 r2 [dr]) in
  exists f1 f1' f2 f2' : BPRand -> BPRand,
    (forall r1 r2 dr ballot, RndInRange (gN GE) n r1 -> RndInRange (gN GE) n r2 -> DrawOk (ppRP pp) dr ->
       honest r1 r2 dr = Ok ballot -> BallotChallenges HO ballot ->
       Simulated HO pp v0 ct (f1 r1) (f2 r2) ballot /\ RndEq n (f1' (f1 r1)) r1 /\ RndEq n (f2' (f2 r2)) r2) /\
    (forall s1 s2 ballot, Simulated HO pp v0 ct s1 s2 ballot -> BallotChallenges HO ballot ->
       RndInRange (gN GE) n (f1' s1) /\ RndInRange (gN GE) n (f2' s2) /\ RndEq n (f1 (f1' s1)) s1 /\ RndEq n (f2 (f2' s2)) s2 /\
       exists! dr, DrawOk (ppRP pp) dr /\ honest (f1' s1) (f2' s2) dr = Ok ballot).
Proof.
  intros GF GE HO nan64 pp v v0 r LF PE HD Hn C Hbx HH Hv Hv0 Hr n ct honest. pose proof (lp_laws GE PE) as LE.
  destruct (cs_range _ _ C) as (H1 & H2 & H3). destruct (cs_bp _ _ C) as (b & Hb & HS & Hl).
  destruct (C40_perfect_hiding GE HO nan64 b (ppBP pp) (v - ppMin pp) (v0 - ppMin pp) PE Hn Hb HS HH ltac:(lia) ltac:(lia)) as (f1 & f1' & F1 & F1').
  destruct (C40_perfect_hiding GE HO nan64 b (ppBP pp) (ppMax pp - v) (ppMax pp - v0) PE Hn Hb HS HH ltac:(lia) ltac:(lia)) as (f2 & f2' & F2 & F2').
  fold n in F1, F1', F2, F2'. exists f1, f1', f2, f2'. split.
  - intros r1 r2 dr ballot R1 R2 RD Hc [HC1 HC2]. unfold honest in Hc.
    pose proof Hc as Hc0. apply (cast_one GF GE HO nan64) in Hc; [|assumption|assumption|assumption].
    destruct Hc as (b1 & b2 & g1 & g2 & pf & -> & E1 & E2 & E3). cbn [bdLower bdUpper] in HC1, HC2.
    destruct (F1 r1 b1 g1 R1 E1 HC1) as (S1 & P1 & Q1). destruct (F2 r2 b2 g2 R2 E2 HC2) as (S2 & P2 & Q2).
    split; [|split; assumption]. unfold Simulated. cbn [bdLower bdUpper bdBallot bdVote]. fold n.
    split; [exact S1|]. split; [exact S2|]. split; [reflexivity|]. split; [eexists; exact P1|]. split; [eexists; exact P2|].
    assert (HT := true_statement GF GE LF PE nan64 pp v (r + 1) g1 g2 b1 b2 C (proj2 (C03_commitment_opens _ _ _ _ _ _ _ E1)) (proj2 (C03_commitment_opens _ _ _ _ _ _ _ E2))).
    destruct (proj1 (C20_perfect_zero_knowledge GF GE HO (ppRP pp) v (r + 1) g1 (gN GE - g2) _ pf LF LE HD (cs_rp _ _ C) (cs_q _ _ C) ltac:(lia) HT)
      (ex_intro _ dr (conj RD E3))) as (HV & Hpr & Hred).
    split; [split; assumption|]. apply verify_iff; cbn [bdLower bdUpper bdBallot bdVote ctU ctV].
    + apply (C01_completeness GE HO nan64 b (ppBP pp) (v - ppMin pp) r1 b1 g1 LE Hn Hb HS ltac:(lia) E1).
    + apply (C01_completeness GE HO nan64 b (ppBP pp) (ppMax pp - v) r2 b2 g2 LE Hn Hb HS ltac:(lia) E2).
    + exact HV.
  - intros s1 s2 ballot (S1 & S2 & Hct & [g1 P1] & [g2 P2] & [Hpr Hred] & HV) [HC1 HC2]. fold n in S1, S2.
    destruct (F1' s1 _ g1 S1 P1 HC1) as (R1 & E1 & Q1). destruct (F2' s2 _ g2 S2 P2 HC2) as (R2 & E2 & Q2).
    split; [exact R1|]. split; [exact R2|]. split; [exact Q1|]. split; [exact Q2|].
    destruct ballot as [ct' b1 b2 pf]. cbn [bdLower bdUpper bdBallot bdVote] in *. subst ct'.
    apply verify_iff in HV; cbn [bdLower bdUpper].
    2:{ apply (C01_completeness GE HO nan64 b (ppBP pp) _ _ _ _ LE Hn Hb HS) in P1; [exact P1|lia]. }
    2:{ apply (C01_completeness GE HO nan64 b (ppBP pp) _ _ _ _ LE Hn Hb HS) in P2; [exact P2|lia]. }
    cbn [bdLower bdUpper bdBallot bdVote ct ctU ctV] in HV.
    assert (HT := true_statement GF GE LF PE nan64 pp v (r + 1) _ _ b1 b2 C (proj2 (C03_commitment_opens _ _ _ _ _ _ _ E1)) (proj2 (C03_commitment_opens _ _ _ _ _ _ _ E2))).
    destruct (proj2 (C20_perfect_zero_knowledge GF GE HO (ppRP pp) v (r + 1) (r_gamma (f1' s1)) (gN GE - r_gamma (f2' s2)) _ pf LF LE HD (cs_rp _ _ C) (cs_q _ _ C) ltac:(lia) HT)
      (conj HV (conj Hpr Hred))) as (dr & [RD HI] & Huniq).
    exists dr. split.
    + split; [exact RD|]. unfold honest. apply (cast_one GF GE HO nan64); try assumption. exists b1, b2, (r_gamma (f1' s1)), (r_gamma (f2' s2)), pf. auto.
    + intros dr' [RD' Hc]. apply Huniq. split; [exact RD'|]. unfold honest in Hc. apply (cast_one GF GE HO nan64) in Hc; try assumption.
      destruct Hc as (c1 & c2 & e1 & e2 & pf' & He & Ha & Hb' & Hi). rewrite E1 in Ha. injection Ha as <- <-. rewrite E2 in Hb'. injection Hb' as <- <-.
      injection He as <-. exact Hi.
Qed.

Section Inj.
Context (d : ModPDesc) (GE : Grp) (Hok : ModPOk d).
Lemma mapCt_inj : forall a b, mapCt (emb d Hok) a = mapCt (emb d Hok) b -> a = b.
Proof.
  intros [u w] [u' w'] H. f_equal; apply sub_eq; [exact (f_equal (@ctU (ModPGrp d)) H)|exact (f_equal (@ctV (ModPGrp d)) H)]. Qed.
Lemma mapPP_inj : forall a b, mapPP (GE:=GE) (emb d Hok) a = mapPP (emb d Hok) b -> a = b.
Proof.
  intros [a1 a2 a3 a4 a5 a6 [g h nn ff] ec] [c1 c2 c3 c4 c5 c6 [g' h' nn' ff'] ec'] H. unfold mapPP, mapGP in H.
  cbn [vBx vBc vBg vBb vLo vHi vGFF vGEC gpG gpH gpN gpF] in H. injection H as -> -> -> -> -> -> Eg Eh -> -> ->.
  apply sub_eq in Eg. apply sub_eq in Eh. subst. reflexivity. Qed.
Lemma mapBallot_inj : forall a b, mapBallot (GE:=GE) (emb d Hok) a = mapBallot (emb d Hok) b -> a = b.
Proof.
  intros [c x1 x2 [w k k1 k2 ch z sp sq1 sq2 pr]] [c' y1 y2 [w' k' k1' k2' ch' z' sp' sq1' sq2' pr']] H.
  pose proof (f_equal (@bdBallot _ _) H) as Hc. apply mapCt_inj in Hc.
  pose proof (f_equal (@bdLower _ _) H) as H1. pose proof (f_equal (@bdUpper _ _) H) as H2. pose proof (f_equal (@bdVote _ _) H) as H3.
  unfold mapBallot, mapPf in H1, H2, H3. cbn [bdBallot bdLower bdUpper bdVote sW sKp sKq1 sKq2 sChal sZ sSp sSq1 sSq2 sParams] in Hc, H1, H2, H3.
  subst. injection H3 as Hw Hk -> -> -> -> -> -> -> Hp. apply sub_eq in Hw. apply sub_eq in Hk. subst.
  f_equal. f_equal. apply mapPP_inj. unfold mapPP, mapGP. congruence. Qed.
End Inj.

(** The program: parameters from setup, mod-p ElGamal group. There the two mod-p elements of a made-up vote proof must be subgroup members
    (those of castVote are). *)
Theorem C72_program : forall d GE HO nan64 pp v v0 r,
  ModPOk d -> GrpPrime GE -> Digest32 HO -> nanConv nan64 -> bitLen (gN GE) < 65536 -> gN GE <= mpOrder d ->
  setup d GE nan64 = Ok pp -> bpH (ppBP pp) <> gId GE ->
  101 <= v < 2000 -> 101 <= v0 <= 2000 -> 0 <= r < mpOrder d - 1 ->
  let n := Z.to_nat (bpN (ppBP pp)) in
  let ct := mkCiphertext (G:=ModPGrp d) (gBase (ModPGrp d) (r + 1)) (gAdd (ModPGrp d) (gBase (ModPGrp d) v) (gScale (ModPGrp d) (ppEGPK pp) (r + 1))) in
  let honest r1 r2 dr := castVote (ModPGrp d) GE HO pp (mkCastRand (v - 101) r r1 r2 [dr]) in
  let simulated s1 s2 (b : BallotData (ModPGrp d) GE) := Simulated HO pp v0 ct s1 s2 b /\ Member d (sW (bdVote b)) /\ Member d (sKp (bdVote b)) in
  exists f1 f1' f2 f2' : BPRand -> BPRand,
    (forall r1 r2 dr ballot, RndInRange (gN GE) n r1 -> RndInRange (gN GE) n r2 -> DrawOk (ppRP pp) dr ->
       honest r1 r2 dr = Ok ballot -> BallotChallenges HO ballot ->
       simulated (f1 r1) (f2 r2) ballot /\ RndEq n (f1' (f1 r1)) r1 /\ RndEq n (f2' (f2 r2)) r2) /\
    (forall s1 s2 ballot, simulated s1 s2 ballot -> BallotChallenges HO ballot ->
       RndInRange (gN GE) n (f1' s1) /\ RndInRange (gN GE) n (f2' s2) /\ RndEq n (f1 (f1' s1)) s1 /\ RndEq n (f2 (f2' s2)) s2 /\
       exists! dr, DrawOk (ppRP pp) dr /\ honest (f1' s1) (f2' s2) dr = Ok ballot).
Proof.
  intros d GE HO nan64 pp v v0 r Hok PE HD Hn HB HQ HS HH Hv Hv0 Hr n ct honest simulated.
  pose proof (l_order GE (lp_laws GE PE)) as HN.
  assert (HQ2 : 2 ^ (bitLen (gN GE) - 1) <= mpOrder d).
  { unfold bitLen. replace (gN GE =? 0) with false by (symmetry; apply Z.eqb_neq; lia). rewrite Z.abs_eq by lia.
    replace (Z.log2 (gN GE) + 1 - 1) with (Z.log2 (gN GE)) by lia. pose proof (Z.log2_spec (gN GE) ltac:(lia)). lia. }
  destruct (setup_consistent d GE nan64 pp Hok Hn ltac:(lia) HB HQ2 HS) as (pp0 & -> & C & HR & HBx & HBc & Hmin & Hmax).
  change (vBx (ppRP pp0) = 16) in HBx. change (ppMin pp0 = 101) in Hmin. change (ppMax pp0 = 2000) in Hmax.
  change (bpH (ppBP pp0) <> gId GE) in HH. pose proof (emb_hom d Hok) as HF.
  assert (Hct : ct = mapCt (emb d Hok) (mkCiphertext (G:=SubGrp d Hok) (gBase (SubGrp d Hok) (r + 1))
    (gAdd (SubGrp d Hok) (gBase (SubGrp d Hok) v) (gScale (SubGrp d Hok) (ppEGPK pp0) (r + 1))))) by reflexivity.
  assert (Hh : forall r1 r2 dr, honest r1 r2 dr =
    res_map (mapBallot (emb d Hok)) (castVote (SubGrp d Hok) GE HO pp0 (mkCastRand (v - ppMin pp0) r r1 r2 [dr]))).
  { intros. unfold honest. rewrite Hmin. apply (castVote_hom _ _ GE (emb d Hok) HF). }
  assert (Hs : forall s1 s2 b0, Simulated HO (mapPub (emb d Hok) pp0) v0 ct s1 s2 (mapBallot (emb d Hok) b0) <->
    Simulated HO pp0 v0 (mkCiphertext (G:=SubGrp d Hok) (gBase (SubGrp d Hok) (r + 1))
      (gAdd (SubGrp d Hok) (gBase (SubGrp d Hok) v) (gScale (SubGrp d Hok) (ppEGPK pp0) (r + 1)))) s1 s2 b0).
  { intros s1 s2 b0. unfold Simulated. change (ppRP (mapPub (emb d Hok) pp0)) with (mapPP (GE:=GE) (emb d Hok) (ppRP pp0)).
    rewrite (verifyVote_hom _ _ GE (emb d Hok) HF). rewrite Hct.
    assert (E1 : forall c1 c2, bdBallot (mapBallot (emb d Hok) b0) = mapCt (emb d Hok) (mkCiphertext (G:=SubGrp d Hok) c1 c2) <->
      bdBallot b0 = mkCiphertext (G:=SubGrp d Hok) c1 c2).
    { intros c1 c2. cbn [mapBallot bdBallot]. split; [apply mapCt_inj|intros ->; reflexivity]. }
    rewrite E1.
    assert (E2 : ReducedVote (mapPP (GE:=GE) (emb d Hok) (ppRP pp0)) (bdVote (mapBallot (emb d Hok) b0)) <-> ReducedVote (ppRP pp0) (bdVote b0)).
    { unfold ReducedVote. cbn [mapBallot bdVote mapPf sParams sSp sSq1 sSq2]. change (gN (ModPGrp d)) with (gN (SubGrp d Hok)).
      enough (E : mapPP (GE:=GE) (emb d Hok) (sParams (bdVote b0)) = mapPP (emb d Hok) (ppRP pp0) <-> sParams (bdVote b0) = ppRP pp0) by (rewrite E; reflexivity).
      split; [apply mapPP_inj|intros ->; reflexivity]. }
    rewrite E2. reflexivity. }
  destruct (C72_ballot_hides_vote (SubGrp d Hok) GE HO nan64 pp0 v v0 r (SubLaws d Hok) PE HD Hn C) as (f1 & f1' & f2 & f2' & F & F'); try assumption; try lia.
  { rewrite Hmax, HBx. lia. }
  exists f1, f1', f2, f2'. split.
  - intros r1 r2 dr ballot R1 R2 RD Hc HC. rewrite Hh in Hc.
    destruct (castVote (SubGrp d Hok) GE HO pp0 _) as [b0| | |] eqn:E0; try discriminate. cbn [res_map] in Hc. injection Hc as <-.
    destruct (F r1 r2 dr b0 R1 R2 RD E0 HC) as (HSm & Q1 & Q2). split; [|split; assumption]. unfold simulated.
    split; [apply Hs; exact HSm|]. split; apply sub_memb.
  - intros s1 s2 ballot (HSm & MW & MK) HC.
    assert (Hb : exists b0, ballot = mapBallot (emb d Hok) b0).
    { destruct HSm as (_ & _ & Hb & _ & _ & [Hp _] & _). destruct ballot as [c b1 b2 pf]. cbn [bdBallot bdVote] in *. rewrite Hct in Hb. subst c.
      destruct pf as [w k k1 k2 ch z sp sq1 sq2 pr]. cbn [sW sKp sParams] in *. subst pr.
      exists (mkBallotData (mkCiphertext (G:=SubGrp d Hok) (gBase (SubGrp d Hok) (r + 1))
        (gAdd (SubGrp d Hok) (gBase (SubGrp d Hok) v) (gScale (SubGrp d Hok) (ppEGPK pp0) (r + 1)))) b1 b2
        (mkSigmaProof (GF:=SubGrp d Hok) (mks d w MW) (mks d k MK) k1 k2 ch z sp sq1 sq2 (ppRP pp0))). reflexivity. }
    destruct Hb as (b0 & ->). apply Hs in HSm. destruct (F' s1 s2 b0 HSm HC) as (R1 & R2 & Q1 & Q2 & dr & [RD Hc] & Hu).
    split; [exact R1|]. split; [exact R2|]. split; [exact Q1|]. split; [exact Q2|]. exists dr. split.
    + split; [exact RD|]. rewrite Hh, Hc. reflexivity.
    + intros dr' [RD' Hc']. apply Hu. split; [exact RD'|]. rewrite Hh in Hc'.
      match type of Hc' with res_map _ ?e = _ => destruct e as [b'| | |]; cbn [res_map] in Hc' end; [|discriminate..].
      f_equal. apply (mapBallot_inj d GE Hok). exact (f_equal (fun x => match x with Ok b => b | _ => mapBallot (emb d Hok) b' end) Hc').
Qed.

(** the hypotheses hold, and castVote does return such ballots: the setting of C25_case (p = 2^253 - 1, curve group of the order of ristretto255),
    the voter choosing candidate 1335 *)
Example C72_case : exists pp ballot, GrpPrime gR /\ ModPOk dBig /\ Digest32 oneHO /\ gN gR <= mpOrder dBig /\ setup dBig gR 0 = Ok pp /\ bpH (ppBP pp) <> gId gR /\
  castVote (ModPGrp dBig) gR oneHO pp (mkCastRand (1335 - 101) 77 (aRnd 5) (aRnd 6) [mkDraw (2 ^ 241) 11 22 33]) = Ok ballot /\ BallotChallenges oneHO ballot.
Proof.
  assert (HB : bitLen (gN gR) = 253) by reflexivity.
  assert (HQ : gN gR <= mpOrder dBig) by discriminate.
  destruct (C43_setup_outcome dBig gR 0) as [_ HS]; [intros s; eexists; reflexivity|rewrite HB; lia|rewrite HB; lia|].
  destruct (HS ltac:(rewrite HB; lia)) as (pp & HSe & Hmin & Hmax & _ & _ & _ & _ & HBg & _). rewrite HB in HBg.
  assert (Hdig : Digest32 oneHO).
  { intros b. split; [reflexivity|]. apply Forall_forall. intros x Hx. cbn in Hx. unfold is_byte.
    repeat (destruct Hx as [<-|Hx]; [lia|]). destruct Hx. }
  assert (HI : forall A B, HashBP gR oneHO A B = (1, 1)) by reflexivity.
  destruct (C25_cast_returns dBig gR oneHO 0 pp (mkCastRand (1335 - 101) 77 (aRnd 5) (aRnd 6) [mkDraw (2 ^ 241) 11 22 33]) dBig_ok (toyLaws r255Order hR)) as (b & Hb); try assumption.
  - right. reflexivity.
  - rewrite HB. reflexivity.
  - reflexivity.
  - split; [rewrite Hmin, Hmax; cbn [cr_choice]; lia|]. intros dr Hin. unfold DrawOk. rewrite HBg. cbn [cr_vp In] in Hin.
    destruct Hin as [<-|[]]; cbn [dk dtp dtq1 dtq2]; repeat split; try discriminate; reflexivity.
  - intros A B. rewrite HI. cbn [fst]. apply Z.gcd_1_l.
  - eexists. reflexivity.
  - exists (mkDraw (2 ^ 241) 11 22 33). split; [left; reflexivity|]. rewrite HBg. cbn [dk]. split; discriminate.
  - exists pp, b. split; [apply toyPrime, prime_r255Order|]. split; [exact dBig_ok|]. split; [exact Hdig|]. split; [exact HQ|]. split; [exact HSe|].
    split; [|split; [exact Hb|]].
    + pose proof HSe as Hx. unfold setup in Hx. destruct (Setup gR 0 65536) as [bp| | |] eqn:HSb; try discriminate. cbn [bind] in Hx.
      destruct (vpSetup _ _ _ _ _ _ _ _ _) as [vp| | |]; try discriminate. cbn [bind] in Hx. injection Hx as <-. cbn [ppBP].
      destruct (Setup_ok gR 0 65536 bp eq_refl HSb) as [Hm|[_ (_ & _ & Hm & _)]]; [discriminate|].
      intros He. rewrite He in Hm. apply (f_equal (fun x => match x with Ok e => zv _ e | _ => 1 end)) in Hm. vm_compute in Hm. discriminate.
    + split; unfold ChallengeNonzero; rewrite HI; cbn [fst]; discriminate.
Qed.

Print Assumptions C72_ballot_hides_vote.
Print Assumptions C72_program.
