(** C88: anyone can change the blinding of the commitments in a ballot. *)
From Verif Require Import GoBase Json GroupIface Vector BIP BP VoteProof ModP App ECJson NumTh Alg BPProofs ModPProofs Hom Toy PropBP PropVote PropModP PropApp PropGen PropCopy.
From Coq Require Import Znumtheory.

(** ** Specification: changing the blinding, from the ballot alone *)
(** a range proof for the same value, whose commitment has its blinding increased by delta *)
Definition reblindRange {GE : Grp} (HO : Oracles) (delta : Z) (pf : BulletProof GE) : BulletProof GE :=
  let z := snd (HashBP GE HO (pA pf) (pS pf)) in
  mkBulletProof (gAdd GE (pV pf) (gScale GE (bpH (pParams pf)) delta)) (pA pf) (pS pf) (pT1 pf) (pT2 pf)
    (option_map (fun t => (t + z * z * delta) mod gN GE) (pTaux pf)) (pMu pf) (pTprime pf) (pIPP pf) (pParams pf).
(** the vote proof: the responses that belong to the two commitments (the second commitment enters it negated) *)
Definition reblindVote {GF GE : Grp} (d1 d2 : Z) (p : SigmaProof GF GE) : SigmaProof GF GE :=
  let c := match sChal p with Some c => c | None => 0 end in
  mkSigmaProof (sW p) (sKp p) (sKq1 p) (sKq2 p) (sChal p) (sZ p) (sSp p)
    (option_map (fun s => (s + c * d1) mod gN GE) (sSq1 p)) (option_map (fun s => (s - c * d2) mod gN GE) (sSq2 p)) (sParams p).
Definition reblindBallot {GF GE : Grp} (HO : Oracles) (d1 d2 : Z) (b : BallotData GF GE) : BallotData GF GE :=
  mkBallotData (bdBallot b) (reblindRange HO d1 (bdLower b)) (reblindRange HO d2 (bdUpper b)) (reblindVote d1 d2 (bdVote b)).
(** the second generator is the same in the three proofs, as in all ballots of castVote *)
Definition SameH {GF GE : Grp} (b : BallotData GF GE) : Prop :=
  bpH (pParams (bdLower b)) = gpH (vGEC (sParams (bdVote b))) /\ bpH (pParams (bdUpper b)) = gpH (vGEC (sParams (bdVote b))).

Lemma eq_both : forall G, GrpLaws G -> forall a b a' b' x, a' = gAdd G a x -> b' = gAdd G b x -> gEq G a' b' = gEq G a b.
Proof. intros G L a b a' b' x -> ->. apply eq_true_iff_eq. rewrite !(l_eq G L). split; [apply (add_cancel_r L)|intros ->; reflexivity]. Qed.

(** ** C88 *)
(** A range proof: the answer of Verify stays the same, whatever the proof. *)
Theorem C88_range : forall GE HO delta (pf : BulletProof GE), GrpLaws GE -> Verify GE HO (reblindRange HO delta pf) = Verify GE HO pf.
Proof.
  intros GE HO dlt pf L. unfold Verify, reblindRange. cbn [pV pA pS pT1 pT2 pTaux pMu pTprime pIPP pParams].
  destruct (HashBP GE HO (pA pf) (pS pf)) as [y z] eqn:EH. cbn [snd]. cbv zeta.
  destruct (updateGenerators _ _ _ _) as [hp| | |]; try reflexivity. cbn [bind].
  destruct (pTprime pf) as [tp|]; [|reflexivity]. cbn [deref bind].
  destruct (pTaux pf) as [tx|]; [|reflexivity]. cbn [option_map deref bind].
  destruct (delta _ _ _ _) as [dl| | |]; try reflexivity. cbn [bind].
  assert (HE : forall a b, gEq GE (gAdd GE (gAdd GE (gAdd GE (gScale GE (gAdd GE (pV pf) (gScale GE (bpH (pParams pf)) dlt)) ((z * z) mod gN GE)) (gBase GE dl)) a) b)
      (PedersenCommit GE tp ((tx + z * z * dlt) mod gN GE) (bpH (pParams pf))) =
    gEq GE (gAdd GE (gAdd GE (gAdd GE (gScale GE (pV pf) ((z * z) mod gN GE)) (gBase GE dl)) a) b) (PedersenCommit GE tp tx (bpH (pParams pf)))).
  { intros a b. unfold PedersenCommit. apply (eq_both GE L _ _ _ _ (gScale GE (bpH (pParams pf)) (z * z * dlt))); rewrite ?(l_base GE L); glin L.
    all: try (modn; apply eqm_of_eq; ring). }
  rewrite HE. reflexivity.
Qed.

(** the commitment opens to the same value with the new blinding, and is a new element unless delta is a multiple of the order *)
Theorem C88_opens : forall GE HO delta (pf : BulletProof GE) v g, GrpLaws GE ->
  pV pf = PedersenCommit GE v g (bpH (pParams pf)) ->
  pV (reblindRange HO delta pf) = PedersenCommit GE v (g + delta) (bpH (pParams (reblindRange HO delta pf))).
Proof. intros GE HO dlt pf v g L H. unfold reblindRange. cbn [pV pParams]. rewrite H. unfold PedersenCommit. glin L. Qed.
Lemma scale_zero_pt : forall G, GrpPrime G -> forall X e, e mod gN G <> 0 -> gScale G X e = gId G -> X = gId G.
Proof.
  intros G P X e He H. pose proof (lp_laws G P) as L. pose proof (l_order G L) as HN.
  destruct (modInverse_ex _ _ HN (prime_gcd1 _ _ (lp_prime G P) He)) as (i & _ & _ & Hi). apply eqm_inv1 in Hi; [|exact HN].
  transitivity (gScale G (gScale G X e) i); [|rewrite H; apply (scale_id L)].
  symmetry. rewrite (scale_mul L), (scale_eqm L X _ _ Hi). apply (scale_1 L).
Qed.
Theorem C88_new_commitment : forall GE HO delta (pf : BulletProof GE), GrpPrime GE -> bpH (pParams pf) <> gId GE ->
  (pV (reblindRange HO delta pf) = pV pf <-> delta mod gN GE = 0).
Proof.
  intros GE HO dlt pf P HH. pose proof (lp_laws GE P) as L. unfold reblindRange. cbn [pV]. split.
  - intros H. destruct (Z.eq_dec (dlt mod gN GE) 0) as [E|E]; [exact E|exfalso]. apply HH. apply (scale_zero_pt GE P _ dlt E).
    apply (add_cancel_l L (pV pf)). rewrite H. glin L.
  - intros H. rewrite <- (scale_mod L), H. glin L.
Qed.

(** the whole ballot: the answer and the timings of verifyVote stay the same, whatever the ballot *)
Theorem C88_ballot : forall GF GE HO d1 d2 (b : BallotData GF GE) rp, GrpLaws GE -> SameH b ->
  verifyVote GF GE HO (reblindBallot HO d1 d2 b) rp = verifyVote GF GE HO b rp.
Proof.
  intros GF GE HO d1 d2 b rp L [H1 H2]. unfold verifyVote, reblindBallot. cbn [bdBallot bdLower bdUpper bdVote]. rewrite !(C88_range _ _ _ _ L).
  destruct (Verify GE HO (bdLower b)) as [[]| | |]; try reflexivity. cbn [bind negb].
  destruct (Verify GE HO (bdUpper b)) as [[]| | |]; try reflexivity. cbn [bind negb]. cbv zeta.
  match goal with |- bind ?x _ = bind ?y _ => enough (Hxy : x = y) by (rewrite Hxy; reflexivity) end.
  unfold reblindRange at 1 2. cbn [pV]. rewrite H1, H2. set (h := gpH (vGEC (sParams (bdVote b)))).
  unfold vpVerify, reblindVote. cbn [sW sKp sKq1 sKq2 sChal sZ sSp sSq1 sSq2 sParams cY cXp cXq1 cXq2].
  destruct (sZ (bdVote b)) as [z|]; [|reflexivity]. cbn [deref bind]. destruct (_ || _); [reflexivity|].
  destruct (getFSChallenge _ _ _ _ _ _ _ _) as [c| | |] eqn:Ec; try reflexivity. cbn [bind].
  destruct (sChal (bdVote b)) as [c'|]; [|reflexivity]. cbn [deref bind]. destruct (c =? c'); [|reflexivity]. cbn [negb].
  destruct (sSp (bdVote b)) as [sp|]; [|reflexivity]. cbn [deref bind]. destruct (gEq GF _ _); [|reflexivity]. cbn [negb].
  destruct (sigmaPedersenCheck GF _ _ _ _ _ _); [|reflexivity]. cbn [negb].
  assert (HC : forall s K X e, sigmaPedersenCheck GE z ((s + c' * e) mod gN GE) c' K (gAdd GE X (gScale GE h e)) (vGEC (sParams (bdVote b))) =
    sigmaPedersenCheck GE z s c' K X (vGEC (sParams (bdVote b)))).
  { intros s K X e. unfold sigmaPedersenCheck, vpCommit. fold h. apply (eq_both GE L _ _ _ _ (gScale GE h (c' * e))); rewrite ?(l_base GE L); glin L.
    all: try (modn; apply eqm_of_eq; ring). }
  replace (gAdd GE (gBase GE (vLo rp)) (gAdd GE (pV (bdLower b)) (gScale GE h d1))) with (gAdd GE (gAdd GE (gBase GE (vLo rp)) (pV (bdLower b))) (gScale GE h d1))
    by (rewrite !(l_base GE L); glin L).
  replace (gAdd GE (gBase GE (vHi rp)) (gScale GE (gAdd GE (pV (bdUpper b)) (gScale GE h d2)) (-1)))
    with (gAdd GE (gAdd GE (gBase GE (vHi rp)) (gScale GE (pV (bdUpper b)) (-1))) (gScale GE h (- d2))) by (rewrite !(l_base GE L); glin L).
  destruct (sSq1 (bdVote b)) as [s1|]; [|reflexivity]. cbn [option_map deref bind]. rewrite HC. destruct (sigmaPedersenCheck GE _ _ _ _ _ _); [|reflexivity]. cbn [negb].
  destruct (sSq2 (bdVote b)) as [s2|]; [|reflexivity]. cbn [option_map deref bind]. replace (s2 - c' * d2) with (s2 + c' * - d2) by ring. rewrite HC. reflexivity.
Qed.

(** ** Nobody can tell: the new ballot is what castVote returns for other blinding draws *)
Definition withGamma (g : Z) (rnd : BPRand) : BPRand := mkBPRand g (r_alpha rnd) (r_sL rnd) (r_sR rnd) (r_rho rnd) (r_tau1 rnd) (r_tau2 rnd).
Theorem C88_prove : forall GE HO delta v params rnd pf gamma, GrpLaws GE -> Prove GE HO v params rnd = Ok (pf, gamma) ->
  gamma = r_gamma rnd /\
  Prove GE HO v params (withGamma ((gamma + delta) mod gN GE) rnd) = Ok (reblindRange HO delta pf, (gamma + delta) mod gN GE).
Proof.
  intros GE HO dlt v params [g al sL0 sR0 rho t1 t2] pf gamma L H. unfold Prove, withGamma in *. cbn [r_gamma r_alpha r_sL r_sR r_rho r_tau1 r_tau2] in *. cbv zeta in *.
  unfold randInt in *. destruct (gN GE <=? 0); [discriminate|]. cbn [bind] in *.
  repeat match type of H with
    | (let '(_, _) := HashBP ?G ?O ?a ?s in _) = _ => destruct (HashBP G O a s) as [y z] eqn:EH
    | bind ?x _ = _ => destruct x; try discriminate H; cbn [bind] in *
    end.
  assert (Hpf : forall (a b : BulletProof GE) (x y : Z), Ok (a, x) = Ok (b, y) -> a = b /\ x = y) by (intros ? ? ? ? Q; injection Q; auto).
  apply Hpf in H. destruct H as [<- <-]. split; [reflexivity|]. f_equal. f_equal. unfold reblindRange. cbn [pV pA pS pT1 pT2 pTaux pMu pTprime pIPP pParams option_map].
  rewrite EH. cbn [snd]. f_equal.
  - unfold PedersenCommit. glin L. modn. apply eqm_of_eq; ring.
  - f_equal. rewrite Zplus_mod_idemp_l. apply (proj1 (eqm_mod _ _ _)). modn. apply eqm_of_eq. ring.
Qed.

Lemma prove_params : forall GE HO v params rnd pf gamma, Prove GE HO v params rnd = Ok (pf, gamma) -> pParams pf = params.
Proof.
  intros GE HO v params rnd pf gamma H. unfold Prove in H. cbv zeta in H.
  repeat match type of H with
    | (let '(_, _) := HashBP ?G ?O ?a ?s in _) = _ => destruct (HashBP G O a s) as [y z] eqn:EH
    | bind ?x _ = _ => destruct x; try discriminate H; cbn [bind] in H
    end.
  assert (Hpf : forall (a b : BulletProof GE) (x y : Z), Ok (a, x) = Ok (b, y) -> a = b /\ x = y) by (intros ? ? ? ? Q; injection Q; auto).
  apply Hpf in H. destruct H as [<- _]. reflexivity.
Qed.
Lemma vpProve_reblind : forall GF GE HO (pr : ProofParams GF GE) v r g1 g2 g1' g2' d1 d2 drs pf, gpN (vGEC pr) = Some (gN GE) ->
  g1' mod gN GE = (g1 + d1) mod gN GE -> g2' mod gN GE = (g2 - d2) mod gN GE ->
  vpProve GF GE HO v r g1 g2 pr drs = Ok pf -> vpProve GF GE HO v r g1' g2' pr drs = Ok (reblindVote d1 d2 pf).
Proof.
  intros GF GE HO pr v r g1 g2 g1' g2' d1 d2 drs pf HN E1 E2. induction drs as [|dr t IH]; [discriminate|]. intros Hp. cbn [vpProve] in *. unfold vpIter in *.
  destruct (posN (gpN (vGFF pr))) as [nf| | |]; try discriminate. cbn [bind] in *.
  rewrite HN in *. unfold posN at 1 in Hp. unfold posN at 1. cbn [deref bind] in *. destruct (gN GE <=? 0); try discriminate. cbn [bind] in *.
  destruct (getFSChallenge _ _ _ _ _ _ _ _) as [c| | |]; try discriminate. cbn [bind] in *. destruct (_ || _).
  - cbn [bind] in *. apply IH. exact Hp.
  - cbn [bind] in *. injection Hp as <-. unfold reblindVote. cbn [sW sKp sKq1 sKq2 sChal sZ sSp sSq1 sSq2 sParams option_map].
    apply eqm_intro in E1. apply eqm_intro in E2. do 2 f_equal; f_equal; apply (proj1 (eqm_mod _ _ _)); modn; [rewrite E1|rewrite E2]; apply eqm_of_eq; ring.
Qed.
Theorem C88_honest : forall GF GE HO (pp : PublicParameters GF GE) ch r r1 r2 drs b d1 d2, GrpLaws GE ->
  gpN (vGEC (ppRP pp)) = Some (gN GE) -> gpN (ppEC pp) = Some (gN GE) ->
  castVote GF GE HO pp (mkCastRand ch r r1 r2 drs) = Ok b ->
  castVote GF GE HO pp (mkCastRand ch r (withGamma ((r_gamma r1 + d1) mod gN GE) r1) (withGamma ((r_gamma r2 + d2) mod gN GE) r2) drs) = Ok (reblindBallot HO d1 d2 b).
Proof.
  intros GF GE HO pp ch r r1 r2 drs b d1 d2 L HN HM H. unfold castVote in *. cbn [cr_choice cr_eg cr_bp1 cr_bp2 cr_vp] in *.
  destruct (randInt _ ch) as [rb| | |]; try discriminate. cbn [bind] in *. cbv zeta in *.
  destruct (encryptVote _ _ _ _) as [[ct rp]| | |]; try discriminate. cbn [bind] in *.
  destruct (Prove GE HO _ _ r1) as [[b1 g1]| | |] eqn:P1; try discriminate. cbn [bind] in *.
  destruct (Prove GE HO _ _ r2) as [[b2 g2]| | |] eqn:P2; try discriminate. cbn [bind] in *.
  destruct (C88_prove _ _ d1 _ _ _ _ _ L P1) as [-> Q1]. destruct (C88_prove _ _ d2 _ _ _ _ _ L P2) as [-> Q2]. rewrite Q1, Q2. cbn [bind].
  rewrite HM in *. cbn [deref bind] in *.
  destruct (vpProve _ _ _ _ _ _ _ _ _) as [pf| | |] eqn:Ep; try discriminate. cbn [bind] in *.
  assert (HZ : (r_gamma r1 + d1) mod gN GE mod gN GE = (r_gamma r1 + d1) mod gN GE) by (apply Z.mod_mod; pose proof (l_order GE L); lia).
  assert (HW : (gN GE - (r_gamma r2 + d2) mod gN GE) mod gN GE = (gN GE - r_gamma r2 - d2) mod gN GE)
    by (rewrite Zminus_mod_idemp_r; f_equal; ring).
  rewrite (vpProve_reblind _ _ _ _ _ _ _ _ _ _ d1 d2 _ _ HN HZ HW Ep). cbn [bind]. injection H as <-. reflexivity.
Qed.

(** the program: any parameters from setup. With C73 a ballot for the same vote follows in which the ciphertext and both commitments are those of fresh draws. *)
Theorem C88_program : forall d GE HO nan64 pp ch r r1 r2 drs b delta d1 d2,
  ModPOk d -> GrpLaws GE -> (forall m, Forall is_byte (sha256 HO m)) -> setup d GE nan64 = Ok pp ->
  castVote (ModPGrp d) GE HO pp (mkCastRand ch r r1 r2 drs) = Ok b ->
  let b' := reblindBallot HO d1 d2 (rerandomise (GF:=ModPGrp d) (ppEGPK pp) delta b) in
  castVote (ModPGrp d) GE HO pp (mkCastRand ch (freshDraw (mpOrder d) r delta) (withGamma ((r_gamma r1 + d1) mod gN GE) r1) (withGamma ((r_gamma r2 + d2) mod gN GE) r2) drs) = Ok b' /\
  verifyVote (ModPGrp d) GE HO b' (ppRP pp) = verifyVote (ModPGrp d) GE HO b (ppRP pp) /\
  (GrpPrime GE -> bpH (ppBP pp) <> gId GE -> (pV (bdLower b') = pV (bdLower b) <-> d1 mod gN GE = 0) /\ (pV (bdUpper b') = pV (bdUpper b) <-> d2 mod gN GE = 0)).
Proof.
  intros d GE HO nan64 pp ch r r1 r2 drs b dl d1 d2 Hok L Hby HS H b'.
  assert (HP : gpN (vGEC (ppRP pp)) = Some (gN GE) /\ gpN (ppEC pp) = Some (gN GE) /\ gpH (vGEC (ppRP pp)) = bpH (ppBP pp)).
  { unfold setup in HS. destruct (Setup GE nan64 65536) as [bp| | |]; try discriminate. cbn [bind] in HS. unfold vpSetup in HS.
    destruct (_ <? 1); [discriminate|]. cbn [bind] in HS. injection HS as <-. cbn [ppEC ppBP ppRP vGEC gpN gpH]. repeat split. }
  destruct HP as (HN & HM & HH). destruct (C73_program d GE HO nan64 pp ch r dl r1 r2 drs b Hok Hby HS H) as (C1 & C2 & _).
  pose proof (C88_honest _ _ _ _ _ _ _ _ _ _ d1 d2 L HN HM C1) as C3. fold b' in C3.
  assert (HB : pParams (bdLower b) = ppBP pp /\ pParams (bdUpper b) = ppBP pp).
  { clear - H. unfold castVote in H. cbn [cr_choice cr_eg cr_bp1 cr_bp2 cr_vp] in H.
    destruct (randInt _ ch) as [rb| | |]; try discriminate. cbn [bind] in *. cbv zeta in *.
    destruct (encryptVote _ _ _ _) as [[ct rp]| | |]; try discriminate. cbn [bind] in *.
    destruct (Prove GE HO _ _ r1) as [[b1 g1]| | |] eqn:P1; try discriminate. cbn [bind] in *.
    destruct (Prove GE HO _ _ r2) as [[b2 g2]| | |] eqn:P2; try discriminate. cbn [bind] in *.
    destruct (deref _) as [ne| | |]; try discriminate. cbn [bind] in H. destruct (vpProve _ _ _ _ _ _ _ _ _); try discriminate. cbn [bind] in H. injection H as <-. cbn [bdLower bdUpper].
    split; eapply prove_params; eassumption. }
  destruct HB as [HB1 HB2]. destruct (cast_facts _ _ _ _ _ _ _ _ _ _ H) as [_ HSP].
  split; [exact C3|split].
  - rewrite <- C2. apply C88_ballot; [exact L|]. unfold SameH, rerandomise, shiftVote. cbn [bdLower bdUpper bdVote sParams]. rewrite HB1, HB2, HSP, HH. split; reflexivity.
  - intros P Hh. unfold b', reblindBallot, rerandomise. cbn [bdLower bdUpper]. split; apply C88_new_commitment; try exact P; [rewrite HB1|rewrite HB2]; exact Hh.
Qed.

(** ** A concrete case *)
(** the ballot of C25_run with both blindings changed (by 7 and 50), re-encrypted with 1000 more: accepted, other commitments, and the one castVote returns for other draws *)
Definition bRun (delta d1 d2 : Z) : res (bool * nat * Z * bytes * bytes) :=
  b <- castVote (ModPGrp dToy) toy aHO aPP aCR ;;
  let b' := reblindBallot aHO d1 d2 (rerandomise (GF:=ModPGrp dToy) (ppEGPK aPP) delta b) in
  '(ok, n) <- verifyVote (ModPGrp dToy) toy aHO b' aRP ;;
  Ok (ok, n, ctU (bdBallot b'), gStr toy (pV (bdLower b')), gStr toy (pV (bdUpper b'))).
(** the same draws as above given to castVote *)
Definition bFresh : res (bool * nat * Z * bytes * bytes) :=
  b <- castVote (ModPGrp dToy) toy aHO aPP (mkCastRand 2 1077 (withGamma 12 (aRnd 5)) (withGamma 56 (aRnd 6)) (cr_vp aCR)) ;;
  '(ok, n) <- verifyVote (ModPGrp dToy) toy aHO b aRP ;;
  Ok (ok, n, ctU (bdBallot b), gStr toy (pV (bdLower b)), gStr toy (pV (bdUpper b))).
(** changing a commitment and its range proof but not the vote proof is noticed *)
Definition bHalf : res (bool * nat) :=
  b <- castVote (ModPGrp dToy) toy aHO aPP aCR ;;
  verifyVote (ModPGrp dToy) toy aHO (mkBallotData (bdBallot b) (reblindRange aHO 7 (bdLower b)) (bdUpper b) (bdVote b)) aRP.
Example C88_case : bRun 0 0 0 = Ok (true, 2%nat, 3917, [59], [29]) /\ bRun 1000 7 50 = Ok (true, 2%nat, 1369, [58], [94]) /\ bFresh = Ok (true, 2%nat, 1369, [58], [94]) /\
  bHalf = Ok (false, 2%nat).
Proof. repeat split; vm_compute; reflexivity. Qed.

Print Assumptions C88_range.
Print Assumptions C88_opens.
Print Assumptions C88_new_commitment.
Print Assumptions C88_ballot.
Print Assumptions C88_prove.
Print Assumptions C88_honest.
Print Assumptions C88_program.
