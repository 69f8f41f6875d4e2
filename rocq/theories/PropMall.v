(** C54: the integer fields of proofs count only modulo the group orders (bulletproofs/bp.go, bip.go, voteproof.go, server.go). *)
From Verif Require Import GoBase Json GroupIface Vector BIP BP VoteProof ModP App NumTh Alg ModPProofs Toy Hom PropModP PropApp Marshal PropJson.

(** both absent, or both present and congruent *)
Definition Cong (N : Z) (o o' : option Z) : Prop :=
  match o, o' with Some a, Some b => a mod N = b mod N | None, None => True | _, _ => False end.

(** the same Bulletproof up to multiples of the order in Taux, Mu, Tprime, a and b *)
Definition BPCong {G : Grp} (p q : BulletProof G) : Prop :=
  pV p = pV q /\ pA p = pA q /\ pS p = pS q /\ pT1 p = pT1 q /\ pT2 p = pT2 q /\ pParams p = pParams q /\
  Cong (gN G) (pTaux p) (pTaux q) /\ Cong (gN G) (pMu p) (pMu q) /\ Cong (gN G) (pTprime p) (pTprime q) /\
  ipP (pIPP p) = ipP (pIPP q) /\ ipCc (pIPP p) = ipCc (pIPP q) /\ ipL (pIPP p) = ipL (pIPP q) /\ ipR (pIPP p) = ipR (pIPP q) /\
  ipParams (pIPP p) = ipParams (pIPP q) /\
  Cong (gN G) (ipA (pIPP p)) (ipA (pIPP q)) /\ Cong (gN G) (ipB (pIPP p)) (ipB (pIPP q)).
(** the same vote proof up to multiples of the orders in Sp, Sq1 and Sq2 *)
Definition VPCong {GF GE : Grp} (p q : SigmaProof GF GE) : Prop :=
  sW p = sW q /\ sKp p = sKp q /\ sKq1 p = sKq1 q /\ sKq2 p = sKq2 q /\ sChal p = sChal q /\ sZ p = sZ q /\ sParams p = sParams q /\
  Cong (gN GF) (sSp p) (sSp q) /\ Cong (gN GE) (sSq1 p) (sSq1 q) /\ Cong (gN GE) (sSq2 p) (sSq2 q).

Lemma ipVerify_cong : forall G HO (p q : IPProof G), GrpLaws G ->
  ipP p = ipP q -> ipCc p = ipCc q -> ipL p = ipL q -> ipR p = ipR q -> ipParams p = ipParams q ->
  Cong (gN G) (ipA p) (ipA q) -> Cong (gN G) (ipB p) (ipB q) -> ipVerify G HO p = ipVerify G HO q.
Proof.
  intros G HO [P c a b L R pr] [P' c' a' b' L' R' pr'] HL; cbn [ipP ipCc ipL ipR ipParams ipA ipB]. intros <- <- <- <- <- Ha Hb.
  unfold ipVerify. cbn [ipP ipCc ipL ipR ipParams ipA ipB].
  destruct (hashIP G HO (ipGg pr) (ipHh pr) P c) as [x| | |]; try reflexivity. cbn [bind].
  destruct (computePP G P c x (ipUu pr)) as [[PP ux]| | |]; try reflexivity. cbn [bind].
  destruct (ipVerifyLoop _ _ _ _ _ _ _ _) as [[[gp hp] Pp]| | |]; try reflexivity. cbn [bind].
  destruct a as [a|], a' as [a'|]; cbn in Ha; try contradiction; [|reflexivity].
  destruct b as [b|], b' as [b'|]; cbn in Hb; try contradiction; [|reflexivity]. cbn [deref bind].
  replace ((a * b) mod gN G) with ((a' * b') mod gN G).
  2:{ rewrite (Z.mul_mod a b), (Z.mul_mod a' b') by (pose proof (l_order G HL); lia). rewrite Ha, Hb. reflexivity. }
  destruct (idx gp 0) as [g0| | |]; try reflexivity. cbn [bind]. destruct (deref g0) as [g0'| | |]; try reflexivity. cbn [bind].
  destruct (idx hp 0) as [h0| | |]; try reflexivity. cbn [bind]. destruct (deref h0) as [h0'| | |]; try reflexivity. cbn [bind].
  rewrite (scale_eqm HL g0' a a' (eqm_intro _ _ _ Ha)), (scale_eqm HL h0' b b' (eqm_intro _ _ _ Hb)). reflexivity.
Qed.

(** same answer, same error, same panic *)
Theorem C54_bulletproof : forall G HO (p q : BulletProof G), GrpLaws G -> BPCong p q -> Verify G HO p = Verify G HO q.
Proof.
  intros G HO [V A S T1 T2 tx mu tp ip pr] [V' A' S' T1' T2' tx' mu' tp' ip' pr'] HL. unfold BPCong.
  cbn [pV pA pS pT1 pT2 pParams pTaux pMu pTprime pIPP]. intros (<- & <- & <- & <- & <- & <- & Htx & Hmu & Htp & HP & Hc & HL1 & HR & Hpr & Ha & Hb).
  unfold Verify. cbn [pV pA pS pT1 pT2 pParams pTaux pMu pTprime pIPP].
  rewrite (ipVerify_cong G HO ip ip') by assumption. rewrite HP.
  destruct (HashBP G HO A S) as [y z]. destruct (updateGenerators G (bpHh pr) y (bpN pr)) as [hp| | |]; try reflexivity. cbn [bind].
  destruct tp as [tp|], tp' as [tp'|]; cbn in Htp; try contradiction; [|reflexivity].
  destruct tx as [tx|], tx' as [tx'|]; cbn in Htx; try contradiction; [|reflexivity]. cbn [deref bind].
  replace (PedersenCommit G tp' tx' (bpH pr)) with (PedersenCommit G tp tx (bpH pr)).
  2:{ unfold PedersenCommit. rewrite !(l_base G HL). f_equal; apply (scale_eqm HL); apply eqm_intro; assumption. }
  destruct mu as [mu|], mu' as [mu'|]; cbn in Hmu; try contradiction; [|reflexivity]. cbn [deref bind].
  rewrite (scale_eqm HL (bpH pr) mu mu' (eqm_intro _ _ _ Hmu)). reflexivity.
Qed.

Lemma vpVerify_cong : forall GF GE HO (p q : SigmaProof GF GE) comm, GrpLaws GE -> VPCong p q ->
  (forall a b, a mod gN GF = b mod gN GF -> gBase GF a = gBase GF b /\ gScale GF (gpH (vGFF (sParams p))) a = gScale GF (gpH (vGFF (sParams p))) b) ->
  vpVerify GF GE HO p comm = vpVerify GF GE HO q comm.
Proof.
  intros GF GE HO [w kp k1 k2 ch z sp s1 s2 pr] [w' kp' k1' k2' ch' z' sp' s1' s2' pr'] comm LE. unfold VPCong.
  cbn [sW sKp sKq1 sKq2 sChal sZ sParams sSp sSq1 sSq2]. intros (<- & <- & <- & <- & <- & <- & <- & Hsp & H1 & H2) HGF.
  unfold vpVerify. cbn [sW sKp sKq1 sKq2 sChal sZ sParams sSp sSq1 sSq2].
  destruct z as [z|]; [|reflexivity]. cbn [deref bind]. destruct (_ || _); [reflexivity|].
  destruct (getFSChallenge _ _ _ _ _ _ _ _) as [c| | |]; try reflexivity. cbn [bind].
  destruct ch as [ch|]; [|reflexivity]. cbn [deref bind]. destruct (negb (c =? ch)); [reflexivity|].
  assert (HE : forall s s' k x g, s mod gN GE = s' mod gN GE -> sigmaPedersenCheck GE z s ch k x g = sigmaPedersenCheck GE z s' ch k x g).
  { intros s s' k x g Hs. unfold sigmaPedersenCheck, vpCommit. rewrite (scale_eqm LE (gpH g) s s' (eqm_intro _ _ _ Hs)). reflexivity. }
  destruct sp as [sp|], sp' as [sp'|]; cbn in Hsp; try contradiction; [|reflexivity]. cbn [deref bind].
  destruct (HGF _ _ Hsp) as [Hb Hh].
  replace (sigmaPedersenCheck GF z sp' ch kp (cXp comm) (vGFF pr)) with (sigmaPedersenCheck GF z sp ch kp (cXp comm) (vGFF pr)) by (unfold sigmaPedersenCheck, vpCommit; rewrite Hh; reflexivity).
  rewrite Hb. destruct (negb (gEq GF _ _)); [reflexivity|]. destruct (negb (sigmaPedersenCheck GF _ _ _ _ _ _)); [reflexivity|].
  destruct s1 as [s1|], s1' as [s1'|]; cbn in H1; try contradiction; [|reflexivity]. cbn [deref bind]. rewrite (HE s1 s1' k1 _ _ H1).
  destruct (negb (sigmaPedersenCheck GE _ _ _ _ _ _)); [reflexivity|].
  destruct s2 as [s2|], s2' as [s2'|]; cbn in H2; try contradiction; [|reflexivity]. cbn [deref bind]. rewrite (HE s2 s2' k2 _ _ H2). reflexivity.
Qed.
Theorem C54_voteproof : forall GF GE HO (p q : SigmaProof GF GE) comm, GrpLaws GF -> GrpLaws GE -> VPCong p q ->
  vpVerify GF GE HO p comm = vpVerify GF GE HO q comm.
Proof.
  intros GF GE HO p q comm LF LE H. apply vpVerify_cong; try assumption.
  intros a b Hab. apply eqm_intro in Hab. rewrite !(l_base GF LF). split; apply (scale_eqm LF); exact Hab.
Qed.

(** the same ballot up to multiples of the orders in the integer fields of its proofs *)
Definition BallotCong {GF GE : Grp} (p q : BallotData GF GE) : Prop :=
  bdBallot p = bdBallot q /\ BPCong (bdLower p) (bdLower q) /\ BPCong (bdUpper p) (bdUpper q) /\ VPCong (bdVote p) (bdVote q).
Theorem C54_ballot : forall d GE HO (p q : BallotData (ModPGrp d) GE) rp, ModPOk d -> GrpLaws GE ->
  Member d (gpH (vGFF (sParams (bdVote p)))) -> BallotCong p q ->
  verifyVote (ModPGrp d) GE HO p rp = verifyVote (ModPGrp d) GE HO q rp.
Proof.
  intros d GE HO [cp lp up vp] [cq lq uq vq] rp Hok LE HM (H1 & H2 & H3 & H4). cbn [bdBallot bdLower bdUpper bdVote] in *. subst cq.
  unfold verifyVote. cbn [bdBallot bdLower bdUpper bdVote].
  rewrite (C54_bulletproof GE HO lp lq LE H2), (C54_bulletproof GE HO up uq LE H3).
  assert (Hl : pV lp = pV lq) by apply H2. assert (Hu : pV up = pV uq) by apply H3. rewrite Hl, Hu.
  destruct (Verify GE HO lq) as [[]| | |]; try reflexivity. cbn [bind negb]. destruct (Verify GE HO uq) as [[]| | |]; try reflexivity. cbn [bind negb].
  rewrite (vpVerify_cong _ _ HO vp vq _ LE H4); [reflexivity|].
  destruct (C29_group_contract d Hok) as ((_ & Hgen) & _ & _ & _ & _ & _ & _ & _ & _ & Hsc & Hbs & _).
  intros a b Hab. rewrite !Hbs, !(Hsc _ _ Hgen), !(Hsc _ _ HM). change (gN (ModPGrp d)) with (mpOrder d) in Hab. rewrite Hab. split; reflexivity.
Qed.
(** an accepted ballot is never the only accepted ballot with its ciphertext and group elements *)
Definition shiftTaux {GF GE : Grp} (k : Z) (b : BallotData GF GE) : BallotData GF GE :=
  let p := bdLower b in
  mkBallotData (bdBallot b) (mkBulletProof (pV p) (pA p) (pS p) (pT1 p) (pT2 p) (option_map (fun t => t + k * gN GE) (pTaux p)) (pMu p) (pTprime p) (pIPP p) (pParams p))
    (bdUpper b) (bdVote b).
Lemma cong_refl : forall N o, Cong N o o. Proof. intros N [z|]; cbn; auto. Qed.
Theorem C54_refuted : forall GF GE HO (b : BallotData GF GE) rp n, GrpLaws GE -> verifyVote GF GE HO b rp = Ok (true, n) ->
  forall k, verifyVote GF GE HO (shiftTaux k b) rp = Ok (true, n) /\ (k <> 0 -> shiftTaux k b <> b) /\
    bdBallot (shiftTaux k b) = bdBallot b /\ bdUpper (shiftTaux k b) = bdUpper b /\ bdVote (shiftTaux k b) = bdVote b /\
    BPCong (bdLower (shiftTaux k b)) (bdLower b).
Proof.
  intros GF GE HO b rp n LE H k. pose proof (l_order GE LE) as HN.
  assert (HC : BPCong (bdLower (shiftTaux k b)) (bdLower b)).
  { unfold BPCong, shiftTaux. cbn [bdLower pV pA pS pT1 pT2 pParams pTaux pMu pTprime pIPP].
    do 6 (split; [reflexivity|]). split; [destruct (pTaux (bdLower b)); cbn; [apply Z_mod_plus_full|exact I]|].
    do 2 (split; [apply cong_refl|]). do 5 (split; [reflexivity|]). split; apply cong_refl. }
  split; [|split; [|split; [reflexivity|split; [reflexivity|split; [reflexivity|exact HC]]]]].
  - rewrite <- H. unfold verifyVote. rewrite (C54_bulletproof GE HO _ _ LE HC). reflexivity.
  - intros Hk He. unfold verifyVote in H. destruct (Verify GE HO (bdLower b)) as [[]| | |] eqn:EV; cbn [bind negb] in H; try discriminate.
    apply (f_equal (fun x => pTaux (bdLower x))) in He. unfold shiftTaux in He. cbn [bdLower pTaux] in He.
    destruct (pTaux (bdLower b)) as [t|] eqn:Et; [cbn in He; injection He as He; nia|].
    unfold Verify in EV. rewrite Et in EV. destruct (HashBP GE HO _ _) as [y z]. destruct (updateGenerators _ _ _ _); try discriminate. cbn [bind] in EV.
    destruct (pTprime _); try discriminate.
Qed.

(** the other accepted ballots also differ as JSON documents, and each is read back and accepted *)
Theorem C54_json : forall GF GE HO (b : BallotData GF GE) pp rp n k, GrpLaws GE -> JsonRoundtrip GF -> JsonRoundtrip GE ->
  pParams (bdLower b) = ppBP pp -> pParams (bdUpper b) = ppBP pp ->
  WFLists (bdLower b) -> WFLists (bdUpper b) -> WFInts (sParams (bdVote b)) ->
  verifyVote GF GE HO b rp = Ok (true, n) -> k <> 0 ->
  exists j j', encBallotData GF GE b = Ok j /\ encBallotData GF GE (shiftTaux k b) = Ok j' /\ j <> j' /\
    exists b', BallotDataUnmarshalJSON GF GE (Some j') pp = Ok b' /\ verifyVote GF GE HO b' rp = Ok (true, n).
Proof.
  intros GF GE HO b pp rp n k LE JF JE Hl Hu Wl Wu Wi HV Hk.
  destruct (C54_refuted GF GE HO b rp n LE HV k) as (HV' & Hne & _). specialize (Hne Hk).
  destruct (C35_ballot_roundtrip GF GE JF JE b pp Hl Hu Wl Wu Wi) as (j & E & D).
  destruct (C35_ballot_roundtrip GF GE JF JE (shiftTaux k b) pp Hl Hu Wl Wu Wi) as (j' & E' & D').
  exists j, j'. split; [exact E|]. split; [exact E'|]. split; [|exists (shiftTaux k b); split; assumption].
  intros <-. apply Hne. congruence.
Qed.

(** ** Concrete case: the accepted run of PropApp, spoilt by adding 101 (accepted) or 1 (rejected) to Taux *)
Definition mRun (t : Z) : res (bool * nat) :=
  b <- castVote (ModPGrp dToy) toy aHO aPP aCR ;;
  let p := bdLower b in
  verifyVote (ModPGrp dToy) toy aHO (mkBallotData (bdBallot b)
    (mkBulletProof (pV p) (pA p) (pS p) (pT1 p) (pT2 p) (option_map (Z.add t) (pTaux p)) (pMu p) (pTprime p) (pIPP p) (pParams p)) (bdUpper b) (bdVote b)) aRP.
Example C54_case : mRun 0 = Ok (true, 2%nat) /\ mRun 101 = Ok (true, 2%nat) /\ mRun 1 = Ok (false, 0%nat).
Proof. repeat split; vm_compute; reflexivity. Qed.

Print Assumptions C54_bulletproof.
Print Assumptions C54_voteproof.
Print Assumptions C54_ballot.
Print Assumptions C54_refuted.
Print Assumptions C54_json.
