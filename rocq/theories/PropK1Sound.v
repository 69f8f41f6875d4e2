(** C77: what an accepted ballot means over secp256k1, where an element has several representations and the methods are lawful only up
    to IsEqual. *)
From Verif Require Import GoBase Json GroupIface Vector BIP BP VoteProof ModP App ECJson P256k1 Groups Marshal NumTh Alg
  VectorProofs BIPProofs BPProofs SetupProofs ModPProofs BytesProofs Toy Hom Pres PropBP PropVote PropModP PropApp PropEC PropCurve PropJson PropTransport PropGen
  PropModSound PropAbort Fork PropFork PropK1 Curve Primes PrimeCerts PropPrime ECPoints ECStd ECCert OrderCerts PropECLaw.
From Coq Require Import Znumtheory.

(** ** Specification: opening and relation of PropVote.v, with IsEqual for equality *)
Definition OpensUpTo (G : Grp) (H C : E G) (x r : Z) : Prop := gEq G C (gAdd G (gScale G (gGen G) x) (gScale G H r)) = true.
Definition Relation2UpTo (G : Grp) (X Y : E G) (ab : Z * Z) : Prop :=
  (fst ab mod gN G <> 0 \/ snd ab mod gN G <> 0) /\ gEq G (gAdd G (gScale G X (fst ab)) (gScale G Y (snd ab))) (gId G) = true.

(** ** An accepting transcript over secp256k1 is one over the abstract group *)
Section Transcript.
Context (ing : Ing) (A : Grp) (on : ingPt -> Prop) (abs : ingPt -> E A) (IO : IngOk ing A on abs) (GF : Grp).
Local Notation GE := (K1Grp ing).
Local Notation R := (k1Rel on abs).
Let P : Pres GE A R := k1_pres ing A on abs IO.

Definition absGp (gp : GroupParams GE) : GroupParams A := mkGroupParams (G:=A) (abs (gpG gp)) (abs (gpH gp)) (gpN gp) (gpF gp).
Definition absPr (pr : ProofParams GF GE) : ProofParams GF A :=
  mkProofParams (vBx pr) (vBc pr) (vBg pr) (vBb pr) (vLo pr) (vHi pr) (vGFF pr) (absGp (vGEC pr)).
Definition absPf (pf : SigmaProof GF GE) : SigmaProof GF A :=
  mkSigmaProof (GE:=A) (sW pf) (sKp pf) (abs (sKq1 pf)) (abs (sKq2 pf)) (sChal pf) (sZ pf) (sSp pf) (sSq1 pf) (sSq2 pf) (absPr (sParams pf)).
Definition absComm (c : VerCommitments GF GE) : VerCommitments GF A := mkVerCommitments (GE:=A) (cY c) (cXp c) (abs (cXq1 c)) (abs (cXq2 c)).
(** the hash function that answers everything like [HO] answers the first message of [pf] *)
Definition sameAnswer (HO : Oracles) (pf : SigmaProof GF GE) : Oracles :=
  mkOracles (fun _ => sha256 HO (fsInput GF GE (sW pf) (sKp pf) (sKq1 pf) (sKq2 pf))) (fromByteArray HO).

Lemma on_rel : forall X, on X -> R X (abs X). Proof. intros X H. split; [exact H|reflexivity]. Qed.
Lemma abs_check : forall z s c k x (gp : GroupParams GE), on k -> on x -> on (gpH gp) ->
  sigmaPedersenCheck GE z s c k x gp = true -> sigmaPedersenCheck A z s c (abs k) (abs x) (absGp gp) = true.
Proof.
  intros z s c k x gp Hk Hx Hh H. unfold sigmaPedersenCheck, vpCommit in *. cbv zeta in *. apply (l_eq A (pr_laws _ _ _ P)).
  refine (proj1 (pr_eq _ _ _ P _ _ _ _ _ _) H).
  - apply (pr_add _ _ _ P); [apply (pr_base _ _ _ P)|apply (pr_scale _ _ _ P), on_rel, Hh].
  - apply (pr_add _ _ _ P); [apply (pr_scale _ _ _ P), on_rel, Hx|apply on_rel, Hk].
Qed.
Lemma abs_verify : forall HO (pf : SigmaProof GF GE) (comm : VerCommitments GF GE), on (sKq1 pf) -> on (sKq2 pf) -> on (cXq1 comm) -> on (cXq2 comm) ->
  on (gpH (vGEC (sParams pf))) -> vpVerify GF GE HO pf comm = Ok true ->
  vpVerify GF A (sameAnswer HO pf) (absPf pf) (absComm comm) = Ok true.
Proof.
  intros HO pf comm O1 O2 O3 O4 O5 H. unfold vpVerify in *. cbv zeta in *.
  cbn [absPf absComm absPr sZ sChal sSp sSq1 sSq2 sW sKp sKq1 sKq2 sParams vBc vGEC vGFF cY cXp cXq1 cXq2].
  change (zLowerBound GF A (absPr (sParams pf))) with (zLowerBound GF GE (sParams pf)).
  change (zUpperBound GF A (absPr (sParams pf))) with (zUpperBound GF GE (sParams pf)).
  destruct (sZ pf) as [z|]; [|discriminate]. cbn [deref bind] in *. destruct (_ || _); [discriminate|].
  change (getFSChallenge GF A (sameAnswer HO pf) (sW pf) (sKp pf) (abs (sKq1 pf)) (abs (sKq2 pf)) (vBc (sParams pf)))
    with (getFSChallenge GF GE HO (sW pf) (sKp pf) (sKq1 pf) (sKq2 pf) (vBc (sParams pf))).
  destruct (getFSChallenge GF GE HO _ _ _ _ _) as [c| | |]; try discriminate. cbn [bind] in *.
  destruct (sChal pf) as [c'|]; [|discriminate]. cbn [deref bind] in *. destruct (negb (c =? c')); [discriminate|].
  destruct (sSp pf) as [sp|]; [|discriminate]. cbn [deref bind] in *.
  destruct (negb (gEq GF _ _)); [discriminate|]. destruct (negb (sigmaPedersenCheck GF _ _ _ _ _ _)); [discriminate|].
  destruct (sSq1 pf) as [sq1|]; [|discriminate]. cbn [deref bind] in *.
  destruct (sigmaPedersenCheck GE z sq1 _ _ _ _) eqn:E1; [|discriminate]. cbn [negb] in H. rewrite abs_check by assumption. cbn [negb].
  destruct (sSq2 pf) as [sq2|]; [|discriminate]. cbn [deref bind] in *.
  destruct (sigmaPedersenCheck GE z sq2 _ _ _ _) eqn:E2; [|discriminate]. rewrite abs_check by assumption. reflexivity.
Qed.
Lemma abs_opens : forall (H C : E GE) x r, on H -> on C -> OpensUpTo GE H C x r -> Opens A (abs H) (abs C) x r.
Proof.
  intros H C x r OH OC HE. unfold OpensUpTo in HE. unfold Opens. refine (proj1 (pr_eq _ _ _ P _ _ _ _ (on_rel _ OC) _) HE).
  apply (pr_add _ _ _ P); apply (pr_scale _ _ _ P); [apply (pr_gen _ _ _ P)|apply on_rel, OH].
Qed.
Lemma abs_relation : forall (H : E GE) ab, on H -> Relation2 A (gGen A) (abs H) ab -> Relation2UpTo GE (gGen GE) H ab.
Proof.
  intros H ab OH [Hn He]. split; [rewrite (pr_N _ _ _ P); exact Hn|]. refine (proj2 (pr_eq _ _ _ P _ _ _ _ _ (pr_id _ _ _ P)) He).
  apply (pr_add _ _ _ P); apply (pr_scale _ _ _ P); [apply (pr_gen _ _ _ P)|apply on_rel, OH].
Qed.
Lemma abs_setup : forall pr, SetupParams pr -> SetupParams (absPr pr).
Proof.
  intros pr (l1 & l2 & l3 & lo & hi & G1 & G2 & G3 & G4 & G5 & G6). exists l1, l2, l3, lo, hi.
  split; [exact G1|]. split; [exact G2|]. split; [exact G3|]. split; [|split; [exact G5|]].
  - unfold vpSetup in *. cbv zeta in *. destruct (_ <? 1); [discriminate|]. injection G4 as G4. rewrite <- G4. reflexivity.
  - rewrite <- (pr_N _ _ _ P). exact G6.
Qed.
End Transcript.

(** ** C77 *)
(** The curve points a ballot's vote proof is about: the two range commitments and the two points of the first message *)
Definition BallotOn {GF : Grp} {ing : Ing} (on : ingPt -> Prop) (b : BallotData GF (K1Grp ing)) : Prop :=
  on (pV (bdLower b)) /\ on (pV (bdUpper b)) /\ on (sKq1 (bdVote b)) /\ on (sKq2 (bdVote b)).

Section Server.
Context (ing : Ing) (A : Grp) (on : ingPt -> Prop) (abs : ingPt -> E A) (IO : IngOk ing A on abs) (PA : GrpPrime A).
Local Notation GE := (K1Grp ing).
Let P : Pres GE A (k1Rel on abs) := k1_pres ing A on abs IO.
Lemma k1_server : forall d HO1 HO2 nan64 pp (b1 b2 : BallotData (ModPGrp d) GE) t1 t2 x rx y ry,
  SafePrime2 d -> Digest32 HO1 -> Digest32 HO2 -> k1Order <= mpOrder d -> setup d GE nan64 = Ok pp -> on (bpH (ppBP pp)) ->
  verifyVote (ModPGrp d) GE HO1 b1 (ppRP pp) = Ok (true, t1) -> verifyVote (ModPGrp d) GE HO2 b2 (ppRP pp) = Ok (true, t2) ->
  BallotOn on b1 -> BallotOn on b2 ->
  bdBallot b1 = bdBallot b2 -> pV (bdLower b1) = pV (bdLower b2) -> pV (bdUpper b1) = pV (bdUpper b2) ->
  OpensUpTo GE (bpH (ppBP pp)) (pV (bdLower b1)) x rx -> 0 <= x < 2 ^ 16 ->
  OpensUpTo GE (bpH (ppBP pp)) (pV (bdUpper b1)) y ry -> 0 <= y < 2 ^ 16 ->
  let s1 := bdVote b1 in let s2 := bdVote b2 in
  sParams s1 = ppRP pp -> sParams s2 = ppRP pp ->
  sW s1 = sW s2 -> sKp s1 = sKp s2 -> gEq GE (sKq1 s1) (sKq1 s2) = true -> gEq GE (sKq2 s1) (sKq2 s2) = true -> sChal s1 <> sChal s2 ->
  Relation2UpTo GE (gGen GE) (bpH (ppBP pp)) (relLow s1 s2 (101 + x) rx) \/
  Relation2UpTo GE (gGen GE) (bpH (ppBP pp)) (relHigh s1 s2 (2000 - y) (- ry)) \/
  exists v r U V, Encrypts (ModPGrp d) (ppEGPK pp) U V v r /\ Extracted s1 s2 r /\ v = 101 + x /\ 101 <= v <= 2000 /\
    UpToSign d (ctU (bdBallot b1)) U /\ UpToSign d (ctV (bdBallot b1)) V.
Proof.
  intros d HO1 HO2 nan64 pp b1 b2 t1 t2 x rx y ry HS D1 D2 HQ HSet Hh V1 V2 (N1 & N2 & N3 & N4) (_ & _ & M3 & M4) Hb Hl Hu O1 B1 O2 B2 s1 s2 P1 P2 Hw Hk H1 H2 Hc.
  pose proof (safe_ok d HS) as Hok.
  assert (HP : SetupParams (ppRP pp) /\ vBg (ppRP pp) = 256 /\ vLo (ppRP pp) = 101 /\ vHi (ppRP pp) = 2000 /\ vBx (ppRP pp) = 16 /\
    gpH (vGEC (ppRP pp)) = bpH (ppBP pp) /\ gpH (vGFF (ppRP pp)) = ppEGPK pp /\ ppEGPK pp = gBase (ModPGrp d) 13).
  { clear - HSet. unfold setup in HSet. destruct (Setup GE nan64 65536) as [bp| | |]; try discriminate. cbn [bind] in HSet.
    change (wrap16 (bitLen (gN GE))) with 256 in HSet. unfold vpSetup in HSet. change (_ <? 1) with false in HSet. cbn [bind] in HSet. injection HSet as <-.
    split; [|repeat split; reflexivity].
    exists 16, 224, 256, 101, 2000. split; [lia|]. split; [lia|]. split; [lia|]. split; [reflexivity|]. split; reflexivity. }
  destruct HP as (HSP & Hbg & Hlo & Hhi & Hbx & HhE & HhF & Hpk).
  apply C28_all_proofs_checked in V1, V2. destruct V1 as [[V1 _] _], V2 as [[V2 _] _].
  destruct (V1 eq_refl) as (_ & _ & A1). destruct (V2 eq_refl) as (_ & _ & A2). rewrite <- Hb, <- Hl, <- Hu in A2.
  set (comm := mkVerCommitments _ _ _ _) in A1, A2.
  assert (Hq1 : k1Rel on abs (cXq1 comm) (gAdd A (gBase A 101) (abs (pV (bdLower b1))))).
  { unfold comm. cbn [cXq1]. rewrite Hlo. apply (pr_add _ _ _ P); [apply (pr_base _ _ _ P)|apply on_rel, N1]. }
  assert (Hq2 : k1Rel on abs (cXq2 comm) (gAdd A (gBase A 2000) (gScale A (abs (pV (bdUpper b1))) (-1)))).
  { unfold comm. cbn [cXq2]. rewrite Hhi. apply (pr_add _ _ _ P); [apply (pr_base _ _ _ P)|apply (pr_scale _ _ _ P), on_rel, N2]. }
  destruct Hq1 as [Oq1 Aq1]. destruct Hq2 as [Oq2 Aq2].
  fold s1 in A1, N3, N4. fold s2 in A2, M3, M4.
  assert (Hh1 : on (gpH (vGEC (sParams s1)))) by (rewrite P1, HhE; exact Hh). assert (Hh2 : on (gpH (vGEC (sParams s2)))) by (rewrite P2, HhE; exact Hh).
  apply (abs_verify ing A on abs IO) in A1; try assumption. apply (abs_verify ing A on abs IO) in A2; try assumption.
  assert (HNA : gN A = k1Order) by apply (ig_order _ _ _ _ IO).
  assert (HK : 2 ^ 255 <= k1Order) by discriminate.
  destruct (C60_sound_up_to_sign d A (sameAnswer ing (ModPGrp d) HO1 s1) (sameAnswer ing (ModPGrp d) HO2 s2) (absPr ing A abs (ModPGrp d) (ppRP pp)) (absPf ing A abs (ModPGrp d) s1) (absPf ing A abs (ModPGrp d) s2)
    (absComm ing A abs (ModPGrp d) comm) (abs (pV (bdLower b1))) (abs (pV (bdUpper b1))) x rx y ry 16 HS PA) as [H|[H|(v & r & U & V & H)]];
    cbn [absPr absPf absComm absGp vBg vLo vHi vBx vGFF vGEC gpH cXq1 cXq2 sParams sW sKp sKq1 sKq2 sChal]; rewrite ?Hbg, ?Hlo, ?Hhi, ?Hbx, ?HNA, ?P1, ?P2; try assumption; try reflexivity; try lia.
  - intros q. apply D1.
  - intros q. apply D2.
  - apply (abs_setup ing A on abs IO). exact HSP.
  - rewrite HhF, Hpk. destruct (C29_group_contract d Hok) as (_ & _ & H & _). exact (proj2 (H 1 13 (proj1 (proj1 (C29_group_contract d Hok))))).
  - rewrite HhE. apply (abs_opens ing A on abs IO); assumption.
  - rewrite HhE. apply (abs_opens ing A on abs IO); assumption.
  - apply (k1_eq ing A on abs IO); assumption.
  - apply (k1_eq ing A on abs IO); assumption.
  - left. apply (abs_relation ing A on abs IO); [exact Hh|]. cbn [absPr vGEC absGp gpH vLo] in H. rewrite HhE, Hlo in H. exact H.
  - right. left. apply (abs_relation ing A on abs IO); [exact Hh|]. cbn [absPr vGEC absGp gpH vHi] in H. rewrite HhE, Hhi in H. exact H.
  - right. right. exists v, r, U, V. cbn [absPr vGFF vLo vHi absComm cY cXp] in H. rewrite HhF, Hlo, Hhi in H. exact H.
Qed.
End Server.

(** Two ballots with the same first message and different challenges, accepted over secp256k1, hold an in-range vote up to the signs of the
    ciphertext, or give away a relation between the generator and the commitment key. *)
Theorem C77_server_sound : forall ing A on abs d HO1 HO2 nan64 pp (b1 b2 : BallotData (ModPGrp d) (K1Grp ing)) t1 t2 x rx y ry,
  IngOk ing A on abs -> GrpPrime A ->
  SafePrime2 d -> Digest32 HO1 -> Digest32 HO2 -> k1Order <= mpOrder d -> setup d (K1Grp ing) nan64 = Ok pp -> on (bpH (ppBP pp)) ->
  verifyVote (ModPGrp d) (K1Grp ing) HO1 b1 (ppRP pp) = Ok (true, t1) -> verifyVote (ModPGrp d) (K1Grp ing) HO2 b2 (ppRP pp) = Ok (true, t2) ->
  BallotOn on b1 -> BallotOn on b2 ->
  bdBallot b1 = bdBallot b2 -> pV (bdLower b1) = pV (bdLower b2) -> pV (bdUpper b1) = pV (bdUpper b2) ->
  OpensUpTo (K1Grp ing) (bpH (ppBP pp)) (pV (bdLower b1)) x rx -> 0 <= x < 2 ^ 16 ->
  OpensUpTo (K1Grp ing) (bpH (ppBP pp)) (pV (bdUpper b1)) y ry -> 0 <= y < 2 ^ 16 ->
  let s1 := bdVote b1 in let s2 := bdVote b2 in
  sParams s1 = ppRP pp -> sParams s2 = ppRP pp ->
  sW s1 = sW s2 -> sKp s1 = sKp s2 -> gEq (K1Grp ing) (sKq1 s1) (sKq1 s2) = true -> gEq (K1Grp ing) (sKq2 s1) (sKq2 s2) = true -> sChal s1 <> sChal s2 ->
  Relation2UpTo (K1Grp ing) (gGen (K1Grp ing)) (bpH (ppBP pp)) (relLow s1 s2 (101 + x) rx) \/
  Relation2UpTo (K1Grp ing) (gGen (K1Grp ing)) (bpH (ppBP pp)) (relHigh s1 s2 (2000 - y) (- ry)) \/
  exists v r U V, Encrypts (ModPGrp d) (ppEGPK pp) U V v r /\ Extracted s1 s2 r /\ v = 101 + x /\ 101 <= v <= 2000 /\
    UpToSign d (ctU (bdBallot b1)) U /\ UpToSign d (ctV (bdBallot b1)) V.
Proof. intros ing A on abs d HO1 HO2 nan64 pp b1 b2 t1 t2 x rx y ry IO PA. apply (k1_server ing A on abs IO PA). Qed.

(** A prover who only asks the hash. Of ING's String it is assumed that it starts with no digit or minus sign, and that where it ends and
    which point it stands for can be read off. *)
Record IngStringReads (ing : Ing) : Prop := {
  ir_start : forall P, exists c t, inString ing P = c :: t /\ ~ 45 <= c <= 57;
  ir_reads : forall P Q a b, inString ing P ++ a = inString ing Q ++ b -> kgIsEqual P Q = true /\ a = b
}.
Lemma fs_reads_k1 : forall d ing, IngStringReads ing -> FSReadsUpTo (ModPGrp d) (K1Grp ing) (fun X Y => gEq (K1Grp ing) X Y = true).
Proof.
  intros d ing S w Kp K1 K2 w' Kp' K1' K2' Hl H. unfold fsInput in H. cbn [ModPGrp K1Grp gStr gEq] in *.
  apply app_len_inj in H; [|exact Hl]. destruct H as [Hw H].
  destruct (ir_start _ S K1) as (c & t & E1 & N1). destruct (ir_start _ S K1') as (c' & t' & E1' & N1').
  pose proof H as HC. rewrite E1, E1' in HC. cbn [app] in HC.
  apply (run_inj (fun b => 45 <= b <= 57)) in HC; try (apply dec_chars); try assumption. destruct HC as [Hk HC].
  rewrite Hk in H. apply app_inv_head in H. apply (ir_reads _ S) in H. destruct H as [Q1 H].
  rewrite <- (app_nil_r (inString ing K2)), <- (app_nil_r (inString ing K2')) in H. apply (ir_reads _ S) in H. destruct H as [Q2 _].
  split; [apply dec_str_inj; exact Hw|]. split; [apply dec_str_inj; exact Hk|]. split; assumption.
Qed.
Definition ServerAcceptsOn {GF : Grp} {ing : Ing} (on : ingPt -> Prop) (pr : ProofParams GF (K1Grp ing)) (ct : Ciphertext GF) (V1 V2 : ingPt)
    (HO : Oracles) (b : BallotData GF (K1Grp ing)) : Prop := ServerAccepts (GE:=K1Grp ing) pr ct V1 V2 HO b /\ BallotOn on b.
Theorem C77_forking : forall ing A on abs d bg fb nan64 pp (adv : Prog (BallotData (ModPGrp d) (K1Grp ing))) ct V1 V2 x rx y ry n L runs,
  IngOk ing A on abs -> GrpPrime A -> IngStringReads ing -> SafePrime2 d ->
  (forall b, is_digest (bg b)) -> k1Order <= mpOrder d -> setup d (K1Grp ing) nan64 = Ok pp -> on (bpH (ppBP pp)) ->
  OpensUpTo (K1Grp ing) (bpH (ppBP pp)) V1 x rx -> 0 <= x < 2 ^ 16 -> OpensUpTo (K1Grp ing) (bpH (ppBP pp)) V2 y ry -> 0 <= y < 2 ^ 16 ->
  WinningRuns bdVote (ServerAcceptsOn on (ppRP pp) ct V1 V2) bg fb adv n L runs ->
  Few n L 28 runs \/
  exists hs1 hs2 b1 b2, In hs1 runs /\ In hs2 runs /\
    Wins bdVote (ServerAcceptsOn on (ppRP pp) ct V1 V2) bg fb adv hs1 b1 /\ Wins bdVote (ServerAcceptsOn on (ppRP pp) ct V1 V2) bg fb adv hs2 b2 /\
    (Relation2UpTo (K1Grp ing) (gGen (K1Grp ing)) (bpH (ppBP pp)) (relLow (bdVote b1) (bdVote b2) (101 + x) rx) \/
     Relation2UpTo (K1Grp ing) (gGen (K1Grp ing)) (bpH (ppBP pp)) (relHigh (bdVote b1) (bdVote b2) (2000 - y) (- ry)) \/
     exists v r U V, Encrypts (ModPGrp d) (ppEGPK pp) U V v r /\ Extracted (bdVote b1) (bdVote b2) r /\ v = 101 + x /\ 101 <= v <= 2000 /\
       UpToSign d (ctU ct) U /\ UpToSign d (ctV ct) V).
Proof.
  intros ing A on abs d bg fb nan64 pp adv ct V1 V2 x rx y ry n L runs IO PA SR HSP Hbg HQ HSet Hh O1 B1 O2 B2 HW.
  assert (HBc : vBc (ppRP pp) = 224).
  { clear - HSet. unfold setup in HSet. destruct (Setup (K1Grp ing) nan64 65536) as [bp| | |]; try discriminate. cbn [bind] in HSet.
    destruct (vpSetup _ _ _ _ _ _ _ _ _) as [rp| | |] eqn:E; try discriminate. cbn [bind] in HSet. injection HSet as <-. cbn [ppRP].
    unfold vpSetup in E. destruct (_ <? 1); [discriminate|]. injection E as <-. reflexivity. }
  destruct (two_transcripts_upto _ (K1Grp ing) _ (fs_reads_k1 d ing SR) _ bdVote (ServerAcceptsOn on (ppRP pp) ct V1 V2) bg fb adv (ppRP pp) n L runs) as [H|H]; try assumption.
  { intros HO b [(Hp & _ & _ & _ & t & Hv) _]. split; [exact Hp|]. unfold verifyVote in Hv.
    destruct (Verify (K1Grp ing) HO (bdLower b)) as [[|]| | |]; try discriminate. cbn [bind negb] in Hv.
    destruct (Verify (K1Grp ing) HO (bdUpper b)) as [[|]| | |]; try discriminate. cbn [bind negb] in Hv. cbv zeta in Hv.
    destruct (vpVerify _ _ _ _ _) as [r| | |] eqn:E; try discriminate. cbn [bind] in Hv. injection Hv as -> _. eexists. exact E. }
  { left. rewrite HBc in H. exact H. }
  right. destruct H as (hs1 & hs2 & b1 & b2 & HO1 & HO2 & I1 & I2 & W1 & W2 & D1 & D2 & [(P1 & T1 & L1 & U1 & t1 & A1) N1] & [(P2 & T2 & L2 & U2 & t2 & A2) N2] & Q1 & Q2 & Q3 & Q4 & Hne).
  exists hs1, hs2, b1, b2. split; [exact I1|]. split; [exact I2|]. split; [exact W1|]. split; [exact W2|]. rewrite <- T1.
  apply (k1_server ing A on abs IO PA d HO1 HO2 nan64 pp b1 b2 t1 t2 x rx y ry); try assumption; try congruence.
Qed.

(** With the textbook formulas in ING's place, [on] is: nil, (0,0) or a point of the curve; nothing is left to assume of the group. *)
Theorem C77_textbook : forall ing d HO1 HO2 nan64 pp (b1 b2 : BallotData (ModPGrp d) (K1Grp ing)) t1 t2 x rx y ry,
  IngStd ing -> SafePrime2 d -> Digest32 HO1 -> Digest32 HO2 -> k1Order <= mpOrder d -> setup d (K1Grp ing) nan64 = Ok pp -> k1On (bpH (ppBP pp)) ->
  verifyVote (ModPGrp d) (K1Grp ing) HO1 b1 (ppRP pp) = Ok (true, t1) -> verifyVote (ModPGrp d) (K1Grp ing) HO2 b2 (ppRP pp) = Ok (true, t2) ->
  BallotOn k1On b1 -> BallotOn k1On b2 ->
  bdBallot b1 = bdBallot b2 -> pV (bdLower b1) = pV (bdLower b2) -> pV (bdUpper b1) = pV (bdUpper b2) ->
  OpensUpTo (K1Grp ing) (bpH (ppBP pp)) (pV (bdLower b1)) x rx -> 0 <= x < 2 ^ 16 ->
  OpensUpTo (K1Grp ing) (bpH (ppBP pp)) (pV (bdUpper b1)) y ry -> 0 <= y < 2 ^ 16 ->
  let s1 := bdVote b1 in let s2 := bdVote b2 in
  sParams s1 = ppRP pp -> sParams s2 = ppRP pp ->
  sW s1 = sW s2 -> sKp s1 = sKp s2 -> gEq (K1Grp ing) (sKq1 s1) (sKq1 s2) = true -> gEq (K1Grp ing) (sKq2 s1) (sKq2 s2) = true -> sChal s1 <> sChal s2 ->
  Relation2UpTo (K1Grp ing) (gGen (K1Grp ing)) (bpH (ppBP pp)) (relLow s1 s2 (101 + x) rx) \/
  Relation2UpTo (K1Grp ing) (gGen (K1Grp ing)) (bpH (ppBP pp)) (relHigh s1 s2 (2000 - y) (- ry)) \/
  exists v r U V, Encrypts (ModPGrp d) (ppEGPK pp) U V v r /\ Extracted s1 s2 r /\ v = 101 + x /\ 101 <= v <= 2000 /\
    UpToSign d (ctU (bdBallot b1)) U /\ UpToSign d (ctV (bdBallot b1)) V.
Proof.
  intros ing d HO1 HO2 nan64 pp b1 b2 t1 t2 x rx y ry S. destruct (C76_secp256k1 ing S) as [IO PA]. apply (k1_server ing k1Std k1On k1Abs IO PA).
Qed.
(** the commitment key is a point whenever MapToGroup does not destroy it (C34) *)
Theorem C77_key_on : forall ing A on abs d nan64 pp, IngOk ing A on abs -> SeedsFull ing 16 -> nanConv nan64 ->
  setup d (K1Grp ing) nan64 = Ok pp -> on (bpH (ppBP pp)).
Proof.
  intros ing A on abs d nan64 pp IO HF Hn HS. unfold setup in HS. destruct (Setup (K1Grp ing) nan64 65536) as [bp| | |] eqn:HB; try discriminate. cbn [bind] in HS.
  destruct (Setup_ok _ nan64 65536 bp eq_refl HB) as [Hx|[_ Hs]]; [discriminate|]. destruct Hs as (HN & _).
  destruct (vpSetup _ _ _ _ _ _ _ _ _); try discriminate. cbn [bind] in HS. injection HS as <-. cbn [ppBP].
  destruct (Setup_rel (K1Grp ing) A (k1Rel on abs) (k1_pres ing A on abs IO) nan64 65536 bp Hn eq_refl HB) as (k & g & h & H' & g' & h' & _ & _ & _ & RH & _).
  - intros s X Hi HX. apply (k1_seed_rel ing A on abs IO 16 s X HF); [|exact HX]. rewrite HN in Hi. exact Hi.
  - apply RH.
Qed.
(** the points of a ballot read from JSON are all nil (C53), so [BallotOn] holds of every ballot the server is sent *)
Theorem C77_received_on : forall ing A on abs GF doc (pp : PublicParameters GF (K1Grp ing)) b, IngOk ing A on abs ->
  BallotDataUnmarshalJSON GF (K1Grp ing) doc pp = Ok b -> BallotOn on b.
Proof.
  intros ing A on abs GF doc pp b IO H. apply (C53_curve_elements_lost _ _ _ _ _ (C53_secp256k1_deaf ing)) in H.
  destruct (ig_nil _ _ _ _ IO) as [HN _]. destruct H as ((V1 & _) & (V2 & _) & K1 & K2 & _).
  unfold BallotOn. rewrite V1, V2, K1, K2. cbn [K1Grp gNew]. auto.
Qed.

(** ** Concrete cases: the group ing2 of PropK1.v with a readable String, the safe prime of PropPrime.v *)
Definition ing3 : Ing := mkIng (inMultiply ing2) (inScalarMult ing2) (inScalarBaseMult ing2) (inMapToGroup ing2)
  (fun a => match a with None => [110] | Some (x, y) => [111; x; y] end).
Lemma ing3_ok : IngOk ing3 gK on2 abs2.
Proof. destruct ing2_ok. constructor; assumption. Qed.
Lemma ing3_seeds : forall n, SeedsFull ing3 n. Proof. exact ing2_seeds. Qed.
Lemma gK_prime : GrpPrime gK. Proof. apply toyPrime. exact prime_k1Order. Qed.
Lemma ing3_reads : IngStringReads ing3.
Proof.
  constructor.
  - intros [[x y]|]; cbn [ing3 inString]; eexists; eexists; (split; [reflexivity|lia]).
  - intros P Q a b H. assert (E : P = Q /\ a = b).
    { destruct P as [[x y]|]; destruct Q as [[x' y']|]; cbn [ing3 inString app] in H; try discriminate; injection H; intros; subst; split; reflexivity. }
    destruct E as [-> ->]. split; [|reflexivity]. unfold kgIsEqual. rewrite C34_is_equal_exact. split; reflexivity.
Qed.

(** what the points of an honest ballot are *)
Lemma cast_points : forall GF GE HO (pp : PublicParameters GF GE) cr dr b, cr_vp cr = [dr] -> gpN (vGFF (ppRP pp)) = Some (gN GF) ->
  castVote GF GE HO pp cr = Ok b ->
  let k := dk dr mod gN GF in
  sW (bdVote b) = gBase GF (dtp dr) /\ sKp (bdVote b) = vpCommit GF k (dtp dr) (vGFF (ppRP pp)) /\
  sKq1 (bdVote b) = vpCommit GE k (dtq1 dr) (vGEC (ppRP pp)) /\ sKq2 (bdVote b) = vpCommit GE k (dtq2 dr) (vGEC (ppRP pp)).
Proof.
  intros GF GE HO pp cr dr b Hd HN H. unfold castVote in H. rewrite Hd in H.
  destruct (randInt _ _) as [rb| | |] in H; try discriminate. cbn [bind] in H.
  destruct (encryptVote _ _ _ _) as [[ct rp]| | |] in H; try discriminate. cbn [bind] in H.
  match type of H with bind ?e _ = _ => destruct e as [[l1 g1]| | |] end; try discriminate. cbn [bind] in H.
  match type of H with bind ?e _ = _ => destruct e as [[l2 g2]| | |] end; try discriminate. cbn [bind] in H.
  destruct (gpN (ppEC pp)) as [ne|]; try discriminate. cbn [deref bind] in H.
  destruct (vpProve GF GE HO _ _ _ _ _ _) as [p1| | |] eqn:P1; try discriminate. cbn [bind] in H.
  injection H as <-. cbn [bdVote]. cbn [vpProve] in P1. unfold vpIter in P1. rewrite HN in P1. unfold posN at 1 in P1. cbn [deref bind] in P1.
  destruct (_ <=? 0) in P1; try discriminate. cbn [bind] in P1.
  destruct (posN (gpN (vGEC (ppRP pp)))) as [ng| | |]; try discriminate. cbn [bind] in P1.
  destruct (getFSChallenge GF GE HO _ _ _ _ _) as [c1| | |] eqn:F1; try discriminate. cbn [bind] in P1.
  destruct (_ || _) in P1; try discriminate. injection P1 as <-. cbn [sW sKp sKq1 sKq2]. auto.
Qed.
Lemma commit_on : forall ing A on abs, IngOk ing A on abs -> forall h x r, on h -> on (gAdd (K1Grp ing) (gBase (K1Grp ing) x) (gScale (K1Grp ing) h r)).
Proof.
  intros ing A on abs IO h x r Hh. pose proof (k1_pres ing A on abs IO) as P.
  apply (proj1 (pr_add _ _ _ P _ _ _ _ (pr_base _ _ _ P x) (pr_scale _ _ _ P _ _ r (on_rel A on abs h Hh)))).
Qed.
Lemma case_setup : exists pp, setup dSafe (K1Grp ing3) 0 = Ok pp /\ CastDrawsOk pp sCR /\ on2 (bpH (ppBP pp)) /\
  gpN (vGFF (ppRP pp)) = Some (gN (ModPGrp dSafe)) /\ gpH (vGEC (ppRP pp)) = bpH (ppBP pp) /\ vBc (ppRP pp) = 224.
Proof.
  destruct (C63_setup_returns ing3 gK on2 abs2 dSafe 0 ing3_ok (ing3_seeds 16)) as (pp & HS & Hmin & Hmax & HBg & _).
  exists pp. split; [exact HS|]. split.
  { split; [rewrite Hmin, Hmax; cbn [sCR cr_choice]; lia|]. intros dr Hin. unfold DrawOk. rewrite HBg. cbn [sCR cr_vp In] in Hin.
    destruct Hin as [<-|[]]; cbn [dk dtp dtq1 dtq2]; repeat split; try discriminate; reflexivity. }
  split; [apply (C77_key_on ing3 gK on2 abs2 dSafe 0 pp ing3_ok (ing3_seeds 16)); [right; reflexivity|exact HS]|].
  unfold setup in HS. destruct (Setup (K1Grp ing3) 0 65536) as [bp| | |]; try discriminate. cbn [bind] in HS.
  unfold vpSetup in HS. destruct (_ <? 1); [discriminate|]. cbn [bind] in HS. injection HS as <-. split; [|split]; reflexivity.
Qed.
Lemma case_cast : forall pp f, setup dSafe (K1Grp ing3) 0 = Ok pp -> CastDrawsOk pp sCR -> (forall b, is_digest (f b)) ->
  ChallengesInvertible (K1Grp ing3) (mkOracles f (fun _ => 1)) ->
  exists b, castVote (ModPGrp dSafe) (K1Grp ing3) (mkOracles f (fun _ => 1)) pp sCR = Ok b /\
    verifyVote (ModPGrp dSafe) (K1Grp ing3) (mkOracles f (fun _ => 1)) b (ppRP pp) = Ok (true, 2%nat).
Proof.
  intros pp f HS HD Hf HI. pose proof (safe_ok _ dSafe_safe) as Hok.
  assert (HQ : k1Order <= mpOrder dSafe) by (vm_compute; discriminate).
  destruct (C63_cast_returns ing3 gK on2 abs2 dSafe (mkOracles f (fun _ => 1)) 0 pp sCR ing3_ok (ing3_seeds 16) Hok (or_intror eq_refl) HQ HS HD) as (b & Hb).
  - exact Hf.
  - exact HI.
  - exists (mkDraw (2 ^ 241) 11 22 33). split; [left; reflexivity|]. cbn [dk]. split; discriminate.
  - exists b. split; [exact Hb|]. apply (C63_end_to_end ing3 gK on2 abs2 dSafe _ 0 pp sCR b ing3_ok (ing3_seeds 16) Hok (or_intror eq_refl) HQ HS HD Hb).
Qed.
Lemma hoC_digest : forall c, 0 <= c < 256 -> Digest32 (hoC c).
Proof.
  intros c Hc b. split; [reflexivity|]. apply Forall_forall. intros x Hx. cbn in Hx. unfold is_byte.
  repeat (destruct Hx as [<-|Hx]; [lia|]). destruct Hx.
Qed.
Lemma hoC_inv : forall c, c = 5 \/ c = 7 -> ChallengesInvertible (K1Grp ing3) (hoC c).
Proof. intros c [->| ->] A B; vm_compute; reflexivity. Qed.
Lemma opens_refl : forall ing A on abs, IngOk ing A on abs -> forall h x r, on h -> OpensUpTo (K1Grp ing) h (gAdd (K1Grp ing) (gBase (K1Grp ing) x) (gScale (K1Grp ing) h r)) x r.
Proof.
  intros ing A on abs IO h x r Hh. pose proof (k1_pres ing A on abs IO) as P. pose proof (pr_laws _ _ _ P) as L. unfold OpensUpTo.
  apply (pr_eq _ _ _ P _ _ _ _ (pr_add _ _ _ P _ _ _ _ (pr_base _ _ _ P x) (pr_scale _ _ _ P _ _ r (on_rel A on abs h Hh)))
    (pr_add _ _ _ P _ _ _ _ (pr_scale _ _ _ P _ _ x (pr_gen _ _ _ P)) (pr_scale _ _ _ P _ _ r (on_rel A on abs h Hh)))).
  rewrite (l_base A L). reflexivity.
Qed.

Example C77_case : exists pp (b1 b2 : BallotData (ModPGrp dSafe) (K1Grp ing3)) x rx y ry,
  IngOk ing3 gK on2 abs2 /\ GrpPrime gK /\ SafePrime2 dSafe /\ Digest32 (hoC 5) /\ Digest32 (hoC 7) /\ k1Order <= mpOrder dSafe /\
  setup dSafe (K1Grp ing3) 0 = Ok pp /\ on2 (bpH (ppBP pp)) /\
  verifyVote (ModPGrp dSafe) (K1Grp ing3) (hoC 5) b1 (ppRP pp) = Ok (true, 2%nat) /\ verifyVote (ModPGrp dSafe) (K1Grp ing3) (hoC 7) b2 (ppRP pp) = Ok (true, 2%nat) /\
  BallotOn on2 b1 /\ BallotOn on2 b2 /\
  bdBallot b1 = bdBallot b2 /\ pV (bdLower b1) = pV (bdLower b2) /\ pV (bdUpper b1) = pV (bdUpper b2) /\
  OpensUpTo (K1Grp ing3) (bpH (ppBP pp)) (pV (bdLower b1)) x rx /\ 0 <= x < 2 ^ 16 /\
  OpensUpTo (K1Grp ing3) (bpH (ppBP pp)) (pV (bdUpper b1)) y ry /\ 0 <= y < 2 ^ 16 /\
  sParams (bdVote b1) = ppRP pp /\ sParams (bdVote b2) = ppRP pp /\ sW (bdVote b1) = sW (bdVote b2) /\ sKp (bdVote b1) = sKp (bdVote b2) /\
  sKq1 (bdVote b1) = sKq1 (bdVote b2) /\ sKq2 (bdVote b1) = sKq2 (bdVote b2) /\ sChal (bdVote b1) = Some 5 /\ sChal (bdVote b2) = Some 7.
Proof.
  destruct case_setup as (pp & HS & HD & Hh & HNF & HH & HBc).
  destruct (case_cast pp (sha256 (hoC 5)) HS HD (hoC_digest 5 ltac:(lia)) (hoC_inv 5 ltac:(lia))) as (b1 & H1 & V1).
  destruct (case_cast pp (sha256 (hoC 7)) HS HD (hoC_digest 7 ltac:(lia)) (hoC_inv 7 ltac:(lia))) as (b2 & H2 & V2).
  change (mkOracles (sha256 (hoC 5)) (fun _ => 1)) with (hoC 5) in *. change (mkOracles (sha256 (hoC 7)) (fun _ => 1)) with (hoC 7) in *.
  destruct (cast_same _ _ (hoC 5) (hoC 7) pp sCR (mkDraw (2 ^ 241) 11 22 33) b1 b2 eq_refl H1 H2)
    as (C1 & C2 & C3 & (x & rx & O1 & Bx) & (y & ry & O2 & By) & C4 & C5 & C6 & C7 & C8 & C9 & (c1 & F1 & S1) & (c2 & F2 & S2)).
  rewrite HBc in F1, F2.
  assert (E1 : c1 = 5) by (vm_compute in F1; injection F1 as <-; reflexivity). assert (E2 : c2 = 7) by (vm_compute in F2; injection F2 as <-; reflexivity).
  rewrite E1 in S1. rewrite E2 in S2. clear F1 F2 E1 E2 c1 c2.
  destruct (cast_points _ _ _ pp sCR (mkDraw (2 ^ 241) 11 22 33) b1 eq_refl HNF H1) as (_ & _ & Q1 & Q2).
  assert (N : BallotOn on2 b1).
  { unfold BallotOn. rewrite O1, O2, Q1, Q2. unfold vpCommit. rewrite HH. repeat split; apply (commit_on ing3 gK on2 abs2 ing3_ok); exact Hh. }
  exists pp, b1, b2, x, rx, y, ry.
  split; [exact ing3_ok|]. split; [exact gK_prime|]. split; [exact dSafe_safe|]. split; [apply hoC_digest; lia|]. split; [apply hoC_digest; lia|].
  split; [vm_compute; discriminate|]. split; [exact HS|]. split; [exact Hh|]. split; [exact V1|]. split; [exact V2|]. split; [exact N|].
  split. { destruct N as (N1 & N2 & N3 & N4). unfold BallotOn. rewrite <- C2, <- C3, <- C8, <- C9. auto. }
  split; [exact C1|]. split; [exact C2|]. split; [exact C3|]. split; [rewrite O1; apply (opens_refl ing3 gK on2 abs2 ing3_ok); exact Hh|]. split; [exact Bx|]. split; [rewrite O2; apply (opens_refl ing3 gK on2 abs2 ing3_ok); exact Hh|]. split; [exact By|].
  auto 12.
Qed.

(** The voter as a program of one question: all its 256^32 runs win, which are not few *)
Example C77_forking_case : let bg := sha256 oneHO in (forall b, is_digest (bg b)) /\
  exists pp (adv : Prog (BallotData (ModPGrp dSafe) (K1Grp ing3))) ct V1 V2 x rx y ry,
  IngOk ing3 gK on2 abs2 /\ GrpPrime gK /\ IngStringReads ing3 /\ SafePrime2 dSafe /\ k1Order <= mpOrder dSafe /\
  setup dSafe (K1Grp ing3) 0 = Ok pp /\ on2 (bpH (ppBP pp)) /\
  OpensUpTo (K1Grp ing3) (bpH (ppBP pp)) V1 x rx /\ 0 <= x < 2 ^ 16 /\ OpensUpTo (K1Grp ing3) (bpH (ppBP pp)) V2 y ry /\ 0 <= y < 2 ^ 16 /\
  WinningRuns bdVote (ServerAcceptsOn on2 (ppRP pp) ct V1 V2) bg (fun _ => 1) adv 1 100 c75Runs /\ ~ Few 1 100 28 c75Runs.
Proof.
  intros bg. assert (Hbg : forall b, is_digest (bg b)).
  { intros b. split; [reflexivity|]. apply Forall_forall. intros x Hx. cbn in Hx. unfold is_byte. repeat (destruct Hx as [<-|Hx]; [lia|]). destruct Hx. }
  split; [exact Hbg|]. destruct case_setup as (pp & HS & HD & Hh & HNF & HH & HBc).
  
  set (q := fsInput (ModPGrp dSafe) (K1Grp ing3) (gBase (ModPGrp dSafe) 11) (vpCommit (ModPGrp dSafe) (2 ^ 241 mod gN (ModPGrp dSafe)) 11 (vGFF (ppRP pp))) (vpCommit (K1Grp ing3) (2 ^ 241 mod gN (ModPGrp dSafe)) 22 (vGEC (ppRP pp))) (vpCommit (K1Grp ing3) (2 ^ 241 mod gN (ModPGrp dSafe)) 33 (vGEC (ppRP pp)))).
  set (f := fun h => oracle bg [(q, h)]).
  assert (Hf : forall h, is_digest h -> forall b, is_digest (f h b)).
  { intros h Hd b. unfold f, oracle. cbn [lookup]. destruct (list_eq_dec Z.eq_dec q b); [exact Hd|apply Hbg]. }
  assert (Hs : forall P b, inString ing3 P ++ b <> q).
  { intros P b E. assert (E0 : exists t, gStr (ModPGrp dSafe) (gBase (ModPGrp dSafe) 11) = 50 :: t) by (exists [48; 52; 56]; vm_compute; reflexivity).
    destruct E0 as [t0 E0]. assert (E' : exists t, q = 50 :: t) by (unfold q, fsInput; rewrite E0; eexists; reflexivity). destruct E' as [t E']. rewrite E' in E.
    destruct P as [[u w]|]; cbn [ing3 inString app] in E; discriminate. }
  assert (Hi : forall h, ChallengesInvertible (K1Grp ing3) (mkOracles (f h) (fun _ => 1))).
  { intros h X Y. unfold HashBP. cbn [fst sha256]. unfold f, oracle. cbn [lookup K1Grp gStr].
    destruct (list_eq_dec Z.eq_dec q _) as [E|_]; [symmetry in E; contradiction (Hs _ _ E)|]. reflexivity. }
  destruct (case_cast pp bg HS HD Hbg) as (b0 & H0 & _); [intros X Y; reflexivity|].
  destruct (cast_same _ _ _ _ pp sCR (mkDraw (2 ^ 241) 11 22 33) b0 b0 eq_refl H0 H0) as (_ & _ & _ & (x & rx & O1 & Bx) & (y & ry & O2 & By) & _).
  exists pp, (Ask q (fun h => match castVote (ModPGrp dSafe) (K1Grp ing3) (mkOracles (f h) (fun _ => 1)) pp sCR with Ok b => Ret b | _ => Ret b0 end)),
    (bdBallot b0), (pV (bdLower b0)), (pV (bdUpper b0)), x, rx, y, ry.
  split; [exact ing3_ok|]. split; [exact gK_prime|]. split; [exact ing3_reads|]. split; [exact dSafe_safe|]. split; [vm_compute; discriminate|].
  split; [exact HS|]. split; [exact Hh|]. split; [rewrite O1; apply (opens_refl ing3 gK on2 abs2 ing3_ok); exact Hh|]. split; [exact Bx|]. split; [rewrite O2; apply (opens_refl ing3 gK on2 abs2 ing3_ok); exact Hh|]. split; [exact By|]. split.
  - split.
    { unfold c75Runs. apply FinFun.Injective_map_NoDup; [intros u w E; injection E as ->; reflexivity|]. apply tuples_nodup. unfold allBytes, zrange.
      apply FinFun.Injective_map_NoDup; [intros i j E; lia|apply seq_NoDup]. }
    intros hs Hhs. apply in_map_iff in Hhs. destruct Hhs as (h & <- & Hih). destruct (tuples_elem _ _ _ _ Hih) as [Hl Hin].
    assert (Hd : is_digest h).
    { split; [exact Hl|]. apply Forall_forall. intros i Hk. specialize (Hin i Hk). unfold allBytes in Hin. apply in_map_iff in Hin. destruct Hin as (j & <- & Hj). apply in_seq in Hj. unfold is_byte. change (Z.to_nat 256) with 256%nat in Hj. lia. }
    split; [reflexivity|]. split; [constructor; [exact Hd|constructor]|].
    destruct (case_cast pp (f h) HS HD (Hf h Hd) (Hi h)) as (b & H1 & V). exists b.
    destruct (cast_points _ _ _ pp sCR (mkDraw (2 ^ 241) 11 22 33) b eq_refl HNF H1) as (Q1 & Q2 & Q3 & Q4). cbn [dk dtp dtq1 dtq2] in Q1, Q2, Q3, Q4.
    destruct (cast_same _ _ _ _ pp sCR (mkDraw (2 ^ 241) 11 22 33) b b0 eq_refl H1 H0) as (C1 & C2 & C3 & (x' & rx' & O1' & _) & (y' & ry' & O2' & _) & C4 & _).
    split.
    + exists [(q, h)]. split.
      * cbn [thenAsk exec lookup]. rewrite H1. cbn [thenAsk exec lookup].
        assert (Hq : fsq (ModPGrp dSafe) (K1Grp ing3) (bdVote b) = q) by (unfold fsq, q; rewrite Q1, Q2, Q3, Q4; reflexivity). rewrite Hq.
        destruct (list_eq_dec Z.eq_dec q q); [reflexivity|contradiction].
      * split; [|unfold BallotOn; rewrite O1', O2', Q3, Q4; unfold vpCommit; rewrite HH; repeat split; apply (commit_on ing3 gK on2 abs2 ing3_ok); exact Hh].
        split; [exact C4|]. split; [exact C1|]. split; [exact C2|]. split; [exact C3|]. exists 2%nat. exact V.
    + refine (eq_ind_r (fun w => (length (gStr (ModPGrp dSafe) w) < 100)%nat) _ Q1). vm_compute. lia.
  - unfold Few, c75Runs. rewrite map_length, bytesOf_len. change (32 * Z.of_nat 1) with 32. change (Z.of_nat 32) with 32.
    change (Z.of_nat 1 * Z.of_nat 100) with 100. assert (0 < 256 ^ 32) by (apply Z.pow_pos_nonneg; lia). assert (100 < 256 ^ 28) by reflexivity. nia.
Qed.
(** with the textbook formulas the group of the theorem is the curve itself, of which the key and the nil points of a received ballot are elements *)
Example C77_textbook_case : forall ing, IngStd ing -> k1On (inScalarBaseMult ing 13) /\ k1On None /\ GrpPrime k1Std.
Proof. intros ing S. destruct (C76_secp256k1 ing S) as [IO PA]. split; [apply (ig_base _ _ _ _ IO)|]. split; [apply (ig_nil _ _ _ _ IO)|exact PA]. Qed.

Print Assumptions C77_server_sound.
Print Assumptions C77_forking.
Print Assumptions C77_textbook.
Print Assumptions C77_key_on.
Print Assumptions C77_received_on.
