(** C88, continued: secp256k1, whose points have several representations. *)
From Verif Require Import GoBase Json GroupIface Vector BIP BP VoteProof ModP App ECJson P256k1 Groups Marshal NumTh Alg
  VectorProofs BIPProofs BPProofs SetupProofs ModPProofs BytesProofs Toy Hom Pres PropBP PropVote PropModP PropApp PropEC PropCurve PropJson PropRead PropTransport PropGen
  PropCopy PropK1 Curve Primes PrimeCerts PropPrime PropDeaf PropK1Sound PropReplay PropTally PropShift PropShiftK1 PropBlind.
From Coq Require Import Znumtheory.

Section Rel.
Context (GF GE A : Grp) (R : E GE -> E A -> Prop) (P : Pres GE A R) (HO : Oracles).
Let L : GrpLaws A := pr_laws _ _ _ P.
Ltac rel := repeat (first [ eassumption | apply (pr_base _ _ _ P) | apply (pr_add _ _ _ P) | apply (pr_scale _ _ _ P) ]).
Lemma reblind_rel : forall k pf, RangeStands GE A R pf -> Verify GE HO (reblindRange HO k pf) = Verify GE HO pf.
Proof using P.
  intros k pf ((v0 & HV) & (t10 & HT1) & (t20 & HT2) & (h0 & HH)). unfold Verify, reblindRange. cbn [pV pA pS pT1 pT2 pTaux pMu pTprime pIPP pParams].
  destruct (HashBP GE HO (pA pf) (pS pf)) as [y z] eqn:EH. cbn [snd]. cbv zeta.
  destruct (updateGenerators _ _ _ _) as [hp| | |]; try reflexivity. cbn [bind].
  destruct (pTprime pf) as [tp|]; [|reflexivity]. cbn [deref bind].
  destruct (pTaux pf) as [tx|]; [|reflexivity]. cbn [option_map deref bind].
  destruct (delta _ _ _ _) as [dl| | |]; try reflexivity. cbn [bind].
  assert (HE : forall a b, gEq GE (gAdd GE (gAdd GE (gAdd GE (gScale GE (gAdd GE (pV pf) (gScale GE (bpH (pParams pf)) k)) ((z * z) mod gN GE)) (gBase GE dl)) (gScale GE (pT1 pf) a)) (gScale GE (pT2 pf) b))
      (PedersenCommit GE tp ((tx + z * z * k) mod gN GE) (bpH (pParams pf))) =
    gEq GE (gAdd GE (gAdd GE (gAdd GE (gScale GE (pV pf) ((z * z) mod gN GE)) (gBase GE dl)) (gScale GE (pT1 pf) a)) (gScale GE (pT2 pf) b)) (PedersenCommit GE tp tx (bpH (pParams pf)))).
  { intros a b. unfold PedersenCommit. rewrite (pr_N _ _ _ P). eapply (eq_rel GE A R P) with (e := gScale A h0 (z * z * k)); [rel|rel|rel|rel| |]; rewrite ?(l_base A L); glin L.
    all: try (modn; apply eqm_of_eq; ring). }
  rewrite HE. reflexivity.
Qed.
Lemma recheck_rel : forall gp z s c e K X X' K0 X0 h0, R K K0 -> R X X0 -> R X' (gAdd A X0 (gScale A h0 e)) -> R (gpH gp) h0 ->
  sigmaPedersenCheck GE z ((s + c * e) mod gN GE) c K X' gp = sigmaPedersenCheck GE z s c K X gp.
Proof using P.
  intros gp z s c e K X X' K0 X0 h0 HK HX HX' Hh. unfold sigmaPedersenCheck, vpCommit. rewrite (pr_N _ _ _ P).
  eapply (eq_rel GE A R P) with (e := gScale A h0 (c * e)); [rel|rel|rel|rel| |]; rewrite ?(l_base A L); glin L.
  all: try (modn; apply eqm_of_eq; ring).
Qed.
Lemma reblind_ballot_rel : forall d1 d2 (b : BallotData GF GE) rp, Stands GF GE A R b -> RangeStands GE A R (bdLower b) -> RangeStands GE A R (bdUpper b) -> SameH b ->
  verifyVote GF GE HO (reblindBallot HO d1 d2 b) rp = verifyVote GF GE HO b rp.
Proof using P.
  intros d1 d2 b rp [[lo0 Hlo] [up0 Hup] [k10 Hk1] [k20 Hk2] [h0 Hh]] S1 S2 [H1 H2].
  unfold verifyVote, reblindBallot. cbn [bdBallot bdLower bdUpper bdVote]. rewrite (reblind_rel _ _ S1), (reblind_rel _ _ S2).
  destruct (Verify GE HO (bdLower b)) as [[]| | |]; try reflexivity. cbn [bind negb].
  destruct (Verify GE HO (bdUpper b)) as [[]| | |]; try reflexivity. cbn [bind negb]. cbv zeta.
  match goal with |- bind ?x _ = bind ?y _ => enough (Hxy : x = y) by (rewrite Hxy; reflexivity) end.
  unfold reblindRange at 1 2. cbn [pV]. rewrite H1, H2.
  unfold vpVerify, reblindVote. cbn [sW sKp sKq1 sKq2 sChal sZ sSp sSq1 sSq2 sParams cY cXp cXq1 cXq2].
  destruct (sZ (bdVote b)) as [z|]; [|reflexivity]. cbn [deref bind]. destruct (_ || _); [reflexivity|].
  destruct (getFSChallenge _ _ _ _ _ _ _ _) as [c0| | |] eqn:Ec; try reflexivity. cbn [bind].
  destruct (sChal (bdVote b)) as [c|]; [|reflexivity]. cbn [deref bind]. destruct (c0 =? c); [|reflexivity]. cbn [negb].
  destruct (sSp (bdVote b)) as [sp|]; [|reflexivity]. cbn [deref bind]. destruct (gEq GF _ _); [|reflexivity]. cbn [negb].
  destruct (sigmaPedersenCheck GF _ _ _ _ _ _); [|reflexivity]. cbn [negb].
  set (h := gpH (vGEC (sParams (bdVote b)))) in *.
  assert (K1 : forall s, sigmaPedersenCheck GE z ((s + c * d1) mod gN GE) c (sKq1 (bdVote b)) (gAdd GE (gBase GE (vLo rp)) (gAdd GE (pV (bdLower b)) (gScale GE h d1))) (vGEC (sParams (bdVote b))) =
    sigmaPedersenCheck GE z s c (sKq1 (bdVote b)) (gAdd GE (gBase GE (vLo rp)) (pV (bdLower b))) (vGEC (sParams (bdVote b)))).
  { intros s. apply (recheck_rel _ _ _ _ _ _ _ _ k10 (gAdd A (gBase A (vLo rp)) lo0) h0); [rel|rel| |rel].
    replace (gAdd A (gAdd A (gBase A (vLo rp)) lo0) (gScale A h0 d1)) with (gAdd A (gBase A (vLo rp)) (gAdd A lo0 (gScale A h0 d1))) by (rewrite !(l_base A L); glin L). rel. }
  assert (K2 : forall s, sigmaPedersenCheck GE z ((s + c * - d2) mod gN GE) c (sKq2 (bdVote b)) (gAdd GE (gBase GE (vHi rp)) (gScale GE (gAdd GE (pV (bdUpper b)) (gScale GE h d2)) (-1))) (vGEC (sParams (bdVote b))) =
    sigmaPedersenCheck GE z s c (sKq2 (bdVote b)) (gAdd GE (gBase GE (vHi rp)) (gScale GE (pV (bdUpper b)) (-1))) (vGEC (sParams (bdVote b)))).
  { intros s. apply (recheck_rel _ _ _ _ _ _ _ _ k20 (gAdd A (gBase A (vHi rp)) (gScale A up0 (-1))) h0); [rel|rel| |rel].
    replace (gAdd A (gAdd A (gBase A (vHi rp)) (gScale A up0 (-1))) (gScale A h0 (- d2))) with (gAdd A (gBase A (vHi rp)) (gScale A (gAdd A up0 (gScale A h0 d2)) (-1))) by (rewrite !(l_base A L); glin L). rel. }
  destruct (sSq1 (bdVote b)) as [s1|]; [|reflexivity]. cbn [option_map deref bind]. rewrite K1. destruct (sigmaPedersenCheck GE _ _ _ _ _ _); [|reflexivity]. cbn [negb].
  destruct (sSq2 (bdVote b)) as [s2|]; [|reflexivity]. cbn [option_map deref bind]. replace (s2 - c * d2) with (s2 + c * - d2) by ring. rewrite K2. reflexivity.
Qed.
End Rel.

(** C88 over secp256k1, for ballots of points on the curve. *)
Theorem C88_secp256k1 : forall ing A on abs d HO d1 d2 (b : BallotData (ModPGrp d) (K1Grp ing)) rp, IngOk ing A on abs ->
  BallotOn on b -> on (gpH (vGEC (sParams (bdVote b)))) -> RangeOn on (bdLower b) -> RangeOn on (bdUpper b) -> SameH b ->
  verifyVote (ModPGrp d) (K1Grp ing) HO (reblindBallot HO d1 d2 b) rp = verifyVote (ModPGrp d) (K1Grp ing) HO b rp.
Proof.
  intros ing A on abs d HO d1 d2 b rp IO (O1 & O2 & O3 & O4) O5 (L1 & L2 & L3 & L4) (U1 & U2 & U3 & U4) HH.
  apply (reblind_ballot_rel (ModPGrp d) (K1Grp ing) A (k1Rel on abs) (k1_pres ing A on abs IO)); [| | |exact HH].
  - constructor; eexists; (split; [eassumption|reflexivity]).
  - repeat split; eexists; (split; [eassumption|reflexivity]).
  - repeat split; eexists; (split; [eassumption|reflexivity]).
Qed.
(** the ballots castVote makes over secp256k1 under setup's parameters are such ballots *)
Theorem C88_secp256k1_program : forall ing A on abs d HO nan64 pp cr b d1 d2, IngOk ing A on abs -> SeedsFull ing 16 -> ModPOk d -> nanConv nan64 -> Digest32 HO ->
  k1Order <= mpOrder d -> setup d (K1Grp ing) nan64 = Ok pp -> CastDrawsOk pp cr ->
  castVote (ModPGrp d) (K1Grp ing) HO pp cr = Ok b ->
  verifyVote (ModPGrp d) (K1Grp ing) HO (reblindBallot HO d1 d2 b) (ppRP pp) = Ok (true, 2%nat).
Proof.
  intros ing A on abs d HO nan64 pp cr b d1 d2 IO HF Hok Hn HD HQ HSet HC H.
  pose proof (C77_key_on ing A on abs d nan64 pp IO HF Hn HSet) as Hh.
  pose proof (C63_end_to_end ing A on abs d HO nan64 pp cr b IO HF Hok Hn HQ HSet HC H) as HV.
  assert (HP : sParams (bdVote b) = ppRP pp) by (destruct cr; apply (cast_facts _ _ _ _ _ _ _ _ _ _ H)).
  assert (HG : gpH (vGEC (ppRP pp)) = bpH (ppBP pp)).
  { clear - HSet. unfold setup in HSet. destruct (Setup (K1Grp ing) nan64 65536) as [bp| | |]; try discriminate. cbn [bind] in HSet. unfold vpSetup in HSet.
    destruct (_ <? 1); [discriminate|]. cbn [bind] in HSet. injection HSet as <-. reflexivity. }
  assert (Hco : forall a r, on (PedersenCommit (K1Grp ing) a r (bpH (ppBP pp)))) by (intros; apply (commit_on ing A on abs IO); exact Hh).
  assert (HB : pParams (bdLower b) = ppBP pp /\ pParams (bdUpper b) = ppBP pp).
  { clear - H. unfold castVote in H.
    repeat match type of H with
      | bind ?e _ = Ok _ => destruct e as [?| | |] eqn:?; cbn [bind] in H; try discriminate
      | (let '(_, _) := ?e in _) = Ok _ => destruct e as [? ?]
      end.
    injection H as <-. cbn [bdLower bdUpper]. split; eapply prove_params; eassumption. }
  assert (HO' : BallotOn on b /\ RangeOn on (bdLower b) /\ RangeOn on (bdUpper b)).
    { clear - H Hh HG Hco. unfold castVote in H.
      repeat match type of H with
        | bind ?e _ = Ok _ => destruct e as [?| | |] eqn:?; cbn [bind] in H; try discriminate
        | (let '(_, _) := ?e in _) = Ok _ => destruct e as [? ?]
        end.
      injection H as <-. unfold BallotOn, RangeOn. cbn [bdLower bdUpper bdVote].
      repeat match goal with Hq : Prove _ HO _ _ _ = Ok _ |- _ => apply prove_T in Hq; destruct Hq as ((? & ? & ?) & (? & ? & ?) & (? & ? & ?) & ?) end.
      match goal with Hq : vpProve _ _ _ _ _ _ _ _ _ = Ok ?q |- _ => rename Hq into Ep; rename q into pf0 end.
      assert (HKq : on (sKq1 pf0) /\ on (sKq2 pf0)).
      { clear - Ep HG Hco. revert Ep. generalize (cr_vp cr). induction l as [|dr t IH]; [discriminate|]. intros Ep. cbn [vpProve] in Ep. unfold vpIter in Ep.
        destruct (posN (gpN (vGFF (ppRP pp)))); try discriminate. destruct (posN (gpN (vGEC (ppRP pp)))); try discriminate. cbn [bind] in Ep.
        destruct (getFSChallenge _ _ _ _ _ _ _ _) as [c| | |]; try discriminate. cbn [bind] in Ep. destruct (_ || _); cbn [bind] in Ep; [apply IH; exact Ep|].
        injection Ep as <-. cbn [sKq1 sKq2]. unfold vpCommit. rewrite HG. split; apply Hco. }
      destruct HKq as [HK1 HK2].
      repeat match goal with Hq : pV _ = _ |- _ => rewrite Hq; clear Hq | Hq : pT1 _ = _ |- _ => rewrite Hq; clear Hq | Hq : pT2 _ = _ |- _ => rewrite Hq; clear Hq
        | Hq : pParams _ = _ |- _ => rewrite Hq; clear Hq end.
      repeat split; first [assumption|apply Hco]. }
  destruct HO' as (B1 & B2 & B3). destruct HB as [E1 E2]. rewrite <- HV.
  apply (C88_secp256k1 ing A on abs d HO d1 d2 b (ppRP pp) IO B1); [rewrite HP, HG; exact Hh|exact B2|exact B3|].
  unfold SameH. rewrite E1, E2, HP, HG. split; reflexivity.
Qed.
(** ** Concrete case: the ballot of C77_case over a group of the order of secp256k1 *)
Example C88_secp256k1_case : exists pp b, IngOk ing3 gK on2 abs2 /\ SeedsFull ing3 16 /\ ModPOk dSafe /\ nanConv 0 /\ Digest32 (hoC 5) /\ k1Order <= mpOrder dSafe /\
  setup dSafe (K1Grp ing3) 0 = Ok pp /\ CastDrawsOk pp sCR /\ castVote (ModPGrp dSafe) (K1Grp ing3) (hoC 5) pp sCR = Ok b.
Proof. destruct C87_secp256k1_case as (pp & b & z & H1 & H2 & H3 & H4 & H5 & H6 & H7 & H8 & H9 & _). exists pp, b. pose proof (safe_ok _ H3). tauto. Qed.

(** and of C88_program: a ballot under setup's parameters over a curve group of 256-bit order *)
Example C88_program_case : exists pp b, let cr := mkCastRand (1335 - 101) 77 (aRnd 5) (aRnd 6) [mkDraw (2 ^ 241) 11 22 33] in
  ModPOk dSafe /\ GrpLaws gR /\ (forall m, Forall is_byte (sha256 (hoC 6) m)) /\ setup dSafe gR 0 = Ok pp /\ castVote (ModPGrp dSafe) gR (hoC 6) pp cr = Ok b.
Proof.
  destruct C87_program_case as (pp & b & z & H). cbv zeta in *. destruct H as (H1 & _ & H3 & _ & _ & H6 & _ & _ & H9 & _ & H11 & _). exists pp, b.
  split; [exact (safe_ok _ H1)|]. split; [exact H3|]. split; [intros m; exact (proj2 (H6 m))|]. split; assumption.
Qed.

Print Assumptions C88_secp256k1.
Print Assumptions C88_secp256k1_program.
