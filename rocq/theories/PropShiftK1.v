(** C87, continued: secp256k1, whose points have several representations. *)
From Verif Require Import GoBase Json GroupIface Vector BIP BP VoteProof ModP App ECJson P256k1 Groups Marshal NumTh Alg
  VectorProofs BIPProofs BPProofs SetupProofs ModPProofs BytesProofs Toy Hom Pres PropBP PropVote PropModP PropApp PropEC PropCurve PropJson PropRead PropTransport PropGen
  PropCopy PropK1 Curve Primes PrimeCerts PropPrime PropDeaf PropK1Sound PropReplay PropTally PropShift.
From Coq Require Import Znumtheory.

Section Rel.
Context (GF GE A : Grp) (R : E GE -> E A -> Prop) (P : Pres GE A R) (HO : Oracles).
Let L : GrpLaws A := pr_laws _ _ _ P.
Ltac rel := repeat (first [ eassumption | apply (pr_base _ _ _ P) | apply (pr_add _ _ _ P) | apply (pr_scale _ _ _ P) ]).

(** the elements of a range proof that meet the commitment stand for elements of A *)
Definition RangeStands (pf : BulletProof GE) : Prop :=
  (exists a, R (pV pf) a) /\ (exists a, R (pT1 pf) a) /\ (exists a, R (pT2 pf) a) /\ (exists a, R (bpH (pParams pf)) a).
Lemma eq_rel : forall X Y X' Y' x y x' y' e, R X x -> R Y y -> R X' x' -> R Y' y' -> x' = gAdd A x e -> y' = gAdd A y e -> gEq GE X' Y' = gEq GE X Y.
Proof using P.
  intros X Y X' Y' x y x' y' e H1 H2 H3 H4 -> ->. apply eq_true_iff_eq. rewrite (pr_eq _ _ _ P _ _ _ _ H3 H4), (pr_eq _ _ _ P _ _ _ _ H1 H2).
  split; [apply (add_cancel_r L)|intros ->; reflexivity].
Qed.
Lemma range_rel : forall k pf, RangeStands pf -> Verify GE HO (shiftRange HO k pf) = Verify GE HO pf.
Proof using P.
  intros k pf ((v0 & HV) & (t10 & HT1) & (t20 & HT2) & (h0 & HH)). unfold Verify, shiftRange. cbn [pV pA pS pT1 pT2 pTaux pMu pTprime pIPP pParams].
  destruct (HashBP GE HO (pA pf) (pS pf)) as [y z] eqn:EH. cbn [snd]. cbv zeta.
  destruct (updateGenerators _ _ _ _) as [hp| | |]; try reflexivity. cbn [bind].
  destruct (pTprime pf) as [tp|]; [|reflexivity]. cbn [option_map deref bind].
  destruct (pTaux pf) as [tx|]; [|reflexivity]. cbn [deref bind].
  destruct (delta _ _ _ _) as [dl| | |]; try reflexivity. cbn [bind].
  assert (HE : forall a b, gEq GE (gAdd GE (gAdd GE (gAdd GE (gScale GE (gAdd GE (pV pf) (gBase GE k)) ((z * z) mod gN GE)) (gBase GE dl)) (gScale GE (pT1 pf) a)) (gScale GE (pT2 pf) b))
      (PedersenCommit GE ((tp + z * z * k) mod gN GE) tx (bpH (pParams pf))) =
    gEq GE (gAdd GE (gAdd GE (gAdd GE (gScale GE (pV pf) ((z * z) mod gN GE)) (gBase GE dl)) (gScale GE (pT1 pf) a)) (gScale GE (pT2 pf) b)) (PedersenCommit GE tp tx (bpH (pParams pf)))).
  { intros a b. unfold PedersenCommit. rewrite (pr_N _ _ _ P). eapply eq_rel with (e := gScale A (gGen A) (z * z * k)); [rel|rel|rel|rel| |]; rewrite !(l_base A L); glin L.
    all: try (modn; apply eqm_of_eq; ring). }
  rewrite HE. reflexivity.
Qed.
Lemma check_rel : forall gp z s c k K X X' K0 X0 h0, R K K0 -> R X X0 -> R X' (gAdd A X0 (gBase A k)) -> R (gpH gp) h0 ->
  sigmaPedersenCheck GE (z + c * k) s c K X' gp = sigmaPedersenCheck GE z s c K X gp.
Proof using P.
  intros gp z s c k K X X' K0 X0 h0 HK HX HX' Hh. unfold sigmaPedersenCheck, vpCommit. eapply eq_rel with (e := gScale A (gGen A) (c * k)); [rel|rel|rel|rel| |];
    rewrite ?(l_base A L); glin L.
Qed.

Lemma move_rel : forall k (b : BallotData GF GE) rp n z c, Stands GF GE A R b -> RangeStands (bdLower b) -> RangeStands (bdUpper b) ->
  (forall c, getFSChallenge GF GE HO (sW (bdVote b)) (sKp (bdVote b)) (sKq1 (bdVote b)) (sKq2 (bdVote b)) (vBc (sParams (bdVote b))) = Ok c -> Movable GF c k) ->
  verifyVote GF GE HO b rp = Ok (true, n) -> sZ (bdVote b) = Some z -> sChal (bdVote b) = Some c ->
  verifyVote GF GE HO (shiftBallot HO k b) rp = Ok (inZoneb (sParams (bdVote b)) (z + c * k), n).
Proof using P.
  intros k b rp n z c [[lo0 Hlo] [up0 Hup] [k10 Hk1] [k20 Hk2] [h0 Hh]] S1 S2 HM H Hz Hc.
  unfold verifyVote, shiftBallot in *. cbn [bdBallot bdLower bdUpper bdVote ctU ctV]. rewrite (range_rel _ _ S1), (range_rel _ _ S2).
  destruct (Verify GE HO (bdLower b)) as [[]| | |]; try discriminate; cbn [bind negb] in *; try discriminate.
  destruct (Verify GE HO (bdUpper b)) as [[]| | |]; try discriminate; cbn [bind negb] in *; try discriminate. cbv zeta in *.
  unfold shiftRange at 1 2. cbn [pV]. unfold vpVerify, shiftZ in *. cbn [sW sKp sKq1 sKq2 sChal sZ sSp sSq1 sSq2 sParams cY cXp cXq1 cXq2].
  cbn [cY cXp cXq1 cXq2] in H. rewrite Hz, Hc in *. cbn [option_map deref bind] in *. destruct (_ || _); [discriminate|].
  assert (HZ : inZoneb (sParams (bdVote b)) (z + c * k) = negb ((z + c * k <? zLowerBound GF GE (sParams (bdVote b))) || (zUpperBound GF GE (sParams (bdVote b)) <=? z + c * k)))
    by (unfold inZoneb; rewrite negb_orb, <- Z.leb_antisym, <- Z.ltb_antisym; reflexivity).
  rewrite HZ. destruct ((z + c * k <? _) || _); cbn [negb].
  { destruct (getFSChallenge _ _ _ _ _ _ _ _) as [c0| | |] eqn:Ef; try discriminate. cbn [bind] in *.
    repeat match type of H with
      | bind (if negb ?q then _ else _) _ = _ => destruct q; cbn [bind negb] in H; try discriminate
      | bind (bind (deref ?o) _) _ = _ => destruct o; cbn [deref bind] in H; try discriminate
      end. injection H as <-. reflexivity. }
  destruct (getFSChallenge _ _ _ _ _ _ _ _) as [c0| | |] eqn:Ef; try discriminate. cbn [bind] in *.
  destruct (c0 =? c) eqn:Ec; cbn [negb bind] in *; [|discriminate]. apply Z.eqb_eq in Ec. subst c0. pose proof (HM c eq_refl) as HF.
  destruct (sSp (bdVote b)) as [sp|]; [|discriminate]. cbn [deref bind] in *.
  destruct (gEq GF _ _); cbn [negb bind] in *; [|discriminate]. rewrite HF.
  assert (K1 : forall s, sigmaPedersenCheck GE (z + c * k) s c (sKq1 (bdVote b)) (gAdd GE (gBase GE (vLo rp)) (gAdd GE (pV (bdLower b)) (gBase GE k))) (vGEC (sParams (bdVote b))) =
    sigmaPedersenCheck GE z s c (sKq1 (bdVote b)) (gAdd GE (gBase GE (vLo rp)) (pV (bdLower b))) (vGEC (sParams (bdVote b)))).
  { intros s. apply (check_rel _ _ _ _ _ _ _ _ k10 (gAdd A (gBase A (vLo rp)) lo0) h0); [rel|rel| |rel].
    replace (gAdd A (gAdd A (gBase A (vLo rp)) lo0) (gBase A k)) with (gAdd A (gBase A (vLo rp)) (gAdd A lo0 (gBase A k))) by (rewrite !(l_base A L); glin L). rel. }
  assert (K2 : forall s, sigmaPedersenCheck GE (z + c * k) s c (sKq2 (bdVote b)) (gAdd GE (gBase GE (vHi rp)) (gScale GE (gAdd GE (pV (bdUpper b)) (gBase GE (- k))) (-1))) (vGEC (sParams (bdVote b))) =
    sigmaPedersenCheck GE z s c (sKq2 (bdVote b)) (gAdd GE (gBase GE (vHi rp)) (gScale GE (pV (bdUpper b)) (-1))) (vGEC (sParams (bdVote b)))).
  { intros s. apply (check_rel _ _ _ _ _ _ _ _ k20 (gAdd A (gBase A (vHi rp)) (gScale A up0 (-1))) h0); [rel|rel| |rel].
    replace (gAdd A (gAdd A (gBase A (vHi rp)) (gScale A up0 (-1))) (gBase A k)) with (gAdd A (gBase A (vHi rp)) (gScale A (gAdd A up0 (gBase A (- k))) (-1))) by (rewrite !(l_base A L); glin L). rel. }
  destruct (sigmaPedersenCheck GF z sp c _ _ _); cbn [negb bind] in *; [|discriminate].
  destruct (sSq1 (bdVote b)) as [s1|]; [|discriminate]. cbn [deref bind] in *. rewrite K1. destruct (sigmaPedersenCheck GE z s1 c _ _ _); cbn [negb bind] in *; [|discriminate].
  destruct (sSq2 (bdVote b)) as [s2|]; [|discriminate]. cbn [deref bind] in *. rewrite K2. destruct (sigmaPedersenCheck GE z s2 c _ _ _); cbn [negb bind] in *; [|discriminate].
  exact H.
Qed.
End Rel.

(** the points of a ballot that the shift touches, and those they are added to, are on the curve *)
Definition RangeOn {ing : Ing} (on : ingPt -> Prop) (pf : BulletProof (K1Grp ing)) : Prop := on (pV pf) /\ on (pT1 pf) /\ on (pT2 pf) /\ on (bpH (pParams pf)).
(** C87 over secp256k1, for ballots of points on the curve. *)
Theorem C87_secp256k1 : forall ing A on abs d HO k (b : BallotData (ModPGrp d) (K1Grp ing)) rp n z c, IngOk ing A on abs -> ModPOk d ->
  (forall m, Forall is_byte (sha256 HO m)) -> BallotOn on b -> on (gpH (vGEC (sParams (bdVote b)))) -> RangeOn on (bdLower b) -> RangeOn on (bdUpper b) ->
  verifyVote (ModPGrp d) (K1Grp ing) HO b rp = Ok (true, n) -> sZ (bdVote b) = Some z -> sChal (bdVote b) = Some c ->
  (verifyVote (ModPGrp d) (K1Grp ing) HO (shiftBallot HO k b) rp = Ok (true, n) <-> InZone (sParams (bdVote b)) (z + c * k)) /\
  (exists a, verifyVote (ModPGrp d) (K1Grp ing) HO (shiftBallot HO k b) rp = Ok (a, n)).
Proof.
  intros ing A on abs d HO k b rp n z c IO Hok Hby (O1 & O2 & O3 & O4) O5 (L1 & L2 & L3 & L4) (U1 & U2 & U3 & U4) H Hz Hc.
  assert (HS : Stands (ModPGrp d) (K1Grp ing) A (k1Rel on abs) b) by (constructor; eexists; (split; [eassumption|reflexivity])).
  assert (S1 : RangeStands (K1Grp ing) A (k1Rel on abs) (bdLower b)) by (repeat split; eexists; (split; [eassumption|reflexivity])).
  assert (S2 : RangeStands (K1Grp ing) A (k1Rel on abs) (bdUpper b)) by (repeat split; eexists; (split; [eassumption|reflexivity])).
  assert (HM : forall c, getFSChallenge (ModPGrp d) (K1Grp ing) HO (sW (bdVote b)) (sKp (bdVote b)) (sKq1 (bdVote b)) (sKq2 (bdVote b)) (vBc (sParams (bdVote b))) = Ok c -> Movable (ModPGrp d) c k).
  { intros c0 Hc0. apply movable_modp; [exact Hok|]. exact (fs_nonneg _ _ _ _ _ _ _ _ _ (Hby _) Hc0). }
  rewrite (move_rel (ModPGrp d) (K1Grp ing) A (k1Rel on abs) (k1_pres ing A on abs IO) HO k b rp n z c HS S1 S2 HM H Hz Hc).
  split; [|eexists; reflexivity]. rewrite <- inZone_iff. split; [intros E; injection E as E; exact E|intros ->; reflexivity].
Qed.

(** The ballots castVote makes over secp256k1 are such ballots, and a ballot with Z away from the ends of its interval is turned into one for any vote at
    distance at most 2^16. *)
Lemma prove_T : forall GE HO v params rnd pf g, Prove GE HO v params rnd = Ok (pf, g) ->
  (exists a r, pV pf = PedersenCommit GE a r (bpH params)) /\ (exists a r, pT1 pf = PedersenCommit GE a r (bpH params)) /\
  (exists a r, pT2 pf = PedersenCommit GE a r (bpH params)) /\ pParams pf = params.
Proof.
  intros GE HO v params rnd pf g H. unfold Prove in H. cbv zeta in H.
  repeat match type of H with
    | bind ?e _ = Ok _ => destruct e as [?| | |] eqn:?; cbn [bind] in H; try discriminate
    | (let '(_, _) := ?e in _) = Ok _ => destruct e as [? ?]
    end.
  injection H as <- <-. cbn [pV pT1 pT2 pParams]. repeat split; eexists; eexists; reflexivity.
Qed.
Lemma accepted_chal : forall GF GE HO (b : BallotData GF GE) rp n z, verifyVote GF GE HO b rp = Ok (true, n) -> sZ (bdVote b) = Some z ->
  exists c, sChal (bdVote b) = Some c /\
    getFSChallenge GF GE HO (sW (bdVote b)) (sKp (bdVote b)) (sKq1 (bdVote b)) (sKq2 (bdVote b)) (vBc (sParams (bdVote b))) = Ok c.
Proof.
  intros GF GE HO b rp n z HV Hz. unfold verifyVote in HV. destruct (Verify GE HO (bdLower b)) as [[]| | |]; try discriminate; cbn [bind negb] in HV; try discriminate.
  destruct (Verify GE HO (bdUpper b)) as [[]| | |]; try discriminate; cbn [bind negb] in HV; try discriminate. cbv zeta in HV.
  unfold vpVerify in HV. rewrite Hz in HV. cbn [deref bind] in HV. destruct (_ || _); [discriminate|].
  destruct (getFSChallenge _ GE HO _ _ _ _ _) as [c0| | |]; try discriminate. cbn [bind] in HV. destruct (sChal (bdVote b)) as [c|]; [|discriminate].
  cbn [deref bind] in HV. destruct (c0 =? c) eqn:E; cbn [negb bind] in HV; [|discriminate]. apply Z.eqb_eq in E. subst c0. exists c. split; reflexivity.
Qed.
Theorem C87_secp256k1_program : forall ing A on abs d HO nan64 pp cr b z k, IngOk ing A on abs -> SeedsFull ing 16 -> SafePrime2 d -> nanConv nan64 -> Digest32 HO ->
  k1Order <= mpOrder d -> setup d (K1Grp ing) nan64 = Ok pp -> CastDrawsOk pp cr ->
  castVote (ModPGrp d) (K1Grp ing) HO pp cr = Ok b -> sZ (bdVote b) = Some z -> 2 * 2 ^ 240 <= z < 2 ^ 255 - 2 ^ 240 ->
  Z.abs k <= 2 ^ 16 -> 0 <= 101 + cr_choice cr + k ->
  let b' := shiftBallot HO k b in
  verifyVote (ModPGrp d) (K1Grp ing) HO b' (ppRP pp) = Ok (true, 2%nat) /\
  ReadsAs (mpField d) 2 13 (ctU (bdBallot b')) (ctV (bdBallot b')) (101 + cr_choice cr + k).
Proof.
  intros ing A on abs d HO nan64 pp cr b z k IO HF HS Hn HD HQ HSet HC H Hz Hzr Hk Hv b'. pose proof (safe_ok d HS) as Hok.
  pose proof (C77_key_on ing A on abs d nan64 pp IO HF Hn HSet) as Hh.
  pose proof (C63_end_to_end ing A on abs d HO nan64 pp cr b IO HF Hok Hn HQ HSet HC H) as HV.
  destruct (setup_key d (K1Grp ing) nan64 pp HSet) as (HK & Hmin & Hmax).
  destruct (setup_zone d (K1Grp ing) nan64 pp ltac:(reflexivity) ltac:(reflexivity) HSet) as (Hbx & Hbc & Hup & HWI). change (bitLen (gN (K1Grp ing)) - 1) with 255 in Hup.
  assert (HP : sParams (bdVote b) = ppRP pp) by (destruct cr; apply (cast_facts _ _ _ _ _ _ _ _ _ _ H)).
  assert (Hch : 0 <= cr_choice cr < 1899) by (destruct HC as [Hch _]; rewrite Hmin, Hmax in Hch; lia).
  destruct (cast_ct d (K1Grp ing) HO pp cr b HK Hmin Hmax Hch H) as [HU HVe]. assert (Hg : mpGen d = 2) by apply HS.
  split.
  - assert (HG : gpH (vGEC (ppRP pp)) = bpH (ppBP pp)).
    { clear - HSet. unfold setup in HSet. destruct (Setup (K1Grp ing) nan64 65536) as [bp| | |]; try discriminate. cbn [bind] in HSet. unfold vpSetup in HSet.
      destruct (_ <? 1); [discriminate|]. cbn [bind] in HSet. injection HSet as <-. reflexivity. }
    assert (Hco : forall a r, on (PedersenCommit (K1Grp ing) a r (bpH (ppBP pp)))) by (intros; apply (commit_on ing A on abs IO); exact Hh).
    assert (HO' : BallotOn on b /\ RangeOn on (bdLower b) /\ RangeOn on (bdUpper b)).
    { clear - H Hh HG Hco. unfold castVote in H.
      repeat match type of H with
        | bind ?e _ = Ok _ => destruct e as [?| | |] eqn:?; cbn [bind] in H; try discriminate
        | (let '(_, _) := ?e in _) = Ok _ => destruct e as [? ?]
        end.
      injection H as <-. unfold BallotOn, RangeOn. cbn [bdLower bdUpper bdVote].
      repeat match goal with Hq : Prove _ HO _ _ _ = Ok _ |- _ => apply prove_T in Hq; destruct Hq as ((? & ? & ?) & (? & ? & ?) & (? & ? & ?) & ?) end.
      match goal with Hq : vpProve _ _ _ _ _ _ _ _ _ = Ok ?q |- _ => rename Hq into Ep; rename q into pf0 end.
      assert (HKq : on (sKq1 pf0) /\ on (sKq2 pf0)).
      { clear - Ep HG Hco. revert Ep. generalize (cr_vp cr). induction l as [|dr t IH]; [discriminate|]. intros Ep. cbn [vpProve] in Ep. unfold vpIter in Ep.
        destruct (posN (gpN (vGFF (ppRP pp)))); try discriminate. destruct (posN (gpN (vGEC (ppRP pp)))); try discriminate. cbn [bind] in Ep.
        destruct (getFSChallenge _ _ _ _ _ _ _ _) as [c| | |]; try discriminate. cbn [bind] in Ep. destruct (_ || _); cbn [bind] in Ep; [apply IH; exact Ep|].
        injection Ep as <-. cbn [sKq1 sKq2]. unfold vpCommit. rewrite HG. split; apply Hco. }
      destruct HKq as [HK1 HK2].
      repeat match goal with Hq : pV _ = _ |- _ => rewrite Hq; clear Hq | Hq : pT1 _ = _ |- _ => rewrite Hq; clear Hq | Hq : pT2 _ = _ |- _ => rewrite Hq; clear Hq
        | Hq : pParams _ = _ |- _ => rewrite Hq; clear Hq end.
      repeat split; first [assumption|apply Hco]. }
    destruct HO' as (B1 & B2 & B3). destruct (accepted_chal _ _ _ _ _ _ _ HV Hz) as (c & Hc & Hf).
    apply (proj1 (C87_secp256k1 ing A on abs d HO k b (ppRP pp) 2%nat z c IO Hok (fun m => proj2 (HD m)) B1 ltac:(rewrite HP, HG; exact Hh) B2 B3 HV Hz Hc)).
    rewrite HP in Hf |- *. rewrite Hbc in Hf. rewrite <- HP.
    apply (C87_zone (ModPGrp d) (K1Grp ing) HO (bdVote b) z c k HD); rewrite ?HP, ?Hbx, ?Hbc, ?Hup; [discriminate|discriminate|reflexivity|exact Hf|exact Hk|exact Hzr].
  - apply (C87_reads d (K1Grp ing) HO 13 k b (101 + cr_choice cr) HS); try lia.
    pose proof (reads_cast d HS (101 + cr_choice cr) (cr_eg cr + 1) ltac:(lia)) as HR. rewrite <- HU, <- HVe in HR. rewrite Hg in HR. exact HR.
Qed.

(** ** Concrete case: the ballot of C77_case (sCR, challenge 5) over a group of the order of secp256k1 *)
Example C87_secp256k1_case : exists pp b z, IngOk ing3 gK on2 abs2 /\ SeedsFull ing3 16 /\ SafePrime2 dSafe /\ nanConv 0 /\ Digest32 (hoC 5) /\ k1Order <= mpOrder dSafe /\
  setup dSafe (K1Grp ing3) 0 = Ok pp /\ CastDrawsOk pp sCR /\ castVote (ModPGrp dSafe) (K1Grp ing3) (hoC 5) pp sCR = Ok b /\
  sZ (bdVote b) = Some z /\ 2 * 2 ^ 240 <= z < 2 ^ 255 - 2 ^ 240.
Proof.
  destruct case_setup as (pp & HS & HD & Hh & _ & _ & HBc).
  destruct (case_cast pp (sha256 (hoC 5)) HS HD (hoC_digest 5 ltac:(lia)) (hoC_inv 5 ltac:(lia))) as (b & H1 & V1).
  change (mkOracles (sha256 (hoC 5)) (fun _ => 1)) with (hoC 5) in *. unfold sCR in *.
  destruct (cast_z _ _ _ _ _ _ _ _ _ _ H1) as (c & Hc & Hz). destruct (setup_key dSafe (K1Grp ing3) 0 pp HS) as (_ & Hmin & _). rewrite Hmin in Hz. cbn [dk] in Hz.
  destruct (accepted_chal _ _ _ _ _ _ _ V1 Hz) as (c' & Hc' & Hf). assert (HP : sParams (bdVote b) = ppRP pp) by (apply (cast_facts _ _ _ _ _ _ _ _ _ _ H1)).
  rewrite HP, HBc in Hf. vm_compute in Hf. injection Hf as <-. rewrite Hc in Hc'. injection Hc' as ->.
  exists pp, b. eexists. split; [exact ing3_ok|]. split; [exact (ing3_seeds 16)|]. split; [exact dSafe_safe|]. split; [right; reflexivity|]. split; [apply hoC_digest; lia|].
  split; [vm_compute; discriminate|]. split; [exact HS|]. split; [exact HD|]. split; [exact H1|]. split; [exact Hz|]. split; [discriminate|reflexivity].
Qed.

Print Assumptions C87_secp256k1.
Print Assumptions C87_secp256k1_program.
