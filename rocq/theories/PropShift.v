(** C87: a ballot can be turned into an accepted ballot for another vote by someone who does not know the vote. *)
From Verif Require Import GoBase Json GroupIface Vector BIP BP VoteProof ModP App ECJson Marshal NumTh Alg VectorProofs BIPProofs BPProofs SetupProofs ModPProofs
  BytesProofs Toy Hom PropBP PropVote PropModP PropApp PropJson PropRead PropCopy Primes PrimeCerts PropPrime PropDeaf PropK1Sound PropReplay PropTally.
From Coq Require Import Znumtheory.

(** ** Specification: adding k to the vote, from the ballot alone *)
(** a range proof for the committed value plus k: the commitment, and the number t' the proof carries *)
Definition shiftRange {GE : Grp} (HO : Oracles) (k : Z) (pf : BulletProof GE) : BulletProof GE :=
  let z := snd (HashBP GE HO (pA pf) (pS pf)) in
  mkBulletProof (gAdd GE (pV pf) (gBase GE k)) (pA pf) (pS pf) (pT1 pf) (pT2 pf) (pTaux pf) (pMu pf)
    (option_map (fun t => (t + z * z * k) mod gN GE) (pTprime pf)) (pIPP pf) (pParams pf).
(** the vote proof: only the number z *)
Definition shiftZ {GF GE : Grp} (k : Z) (p : SigmaProof GF GE) : SigmaProof GF GE :=
  let c := match sChal p with Some c => c | None => 0 end in
  mkSigmaProof (sW p) (sKp p) (sKq1 p) (sKq2 p) (sChal p) (option_map (fun z => z + c * k) (sZ p)) (sSp p) (sSq1 p) (sSq2 p) (sParams p).
Definition shiftBallot {GF GE : Grp} (HO : Oracles) (k : Z) (b : BallotData GF GE) : BallotData GF GE :=
  mkBallotData (mkCiphertext (ctU (bdBallot b)) (gAdd GF (ctV (bdBallot b)) (gBase GF k)))
    (shiftRange HO k (bdLower b)) (shiftRange HO (- k) (bdUpper b)) (shiftZ k (bdVote b)).
(** the interval the verifier wants the number z in *)
Definition InZone {GF GE : Grp} (pr : ProofParams GF GE) (z : Z) : Prop := zLowerBound GF GE pr <= z < zUpperBound GF GE pr.
Definition inZoneb {GF GE : Grp} (pr : ProofParams GF GE) (z : Z) : bool := (zLowerBound GF GE pr <=? z) && (z <? zUpperBound GF GE pr).

Lemma eq_plus : forall G, GrpLaws G -> forall a b a' b' x, a' = gAdd G a x -> b' = gAdd G b x -> gEq G a' b' = gEq G a b.
Proof. intros G L a b a' b' x -> ->. apply eq_true_iff_eq. rewrite !(l_eq G L). split; [apply (add_cancel_r L)|intros ->; reflexivity]. Qed.

(** ** C87 *)
(** A range proof can be moved: the verifier's answer on the commitment V + kG is its answer on V, whatever the proof and k. So the proof says
    nothing about the range of the committed value to someone who may pick k. *)
Theorem C87_range : forall GE HO k (pf : BulletProof GE), GrpLaws GE -> Verify GE HO (shiftRange HO k pf) = Verify GE HO pf.
Proof.
  intros GE HO k pf L. unfold Verify, shiftRange. cbn [pV pA pS pT1 pT2 pTaux pMu pTprime pIPP pParams].
  destruct (HashBP GE HO (pA pf) (pS pf)) as [y z] eqn:EH. cbn [snd]. cbv zeta.
  destruct (updateGenerators _ _ _ _) as [hp| | |]; try reflexivity. cbn [bind].
  destruct (pTprime pf) as [tp|]; [|reflexivity]. cbn [option_map deref bind].
  destruct (pTaux pf) as [tx|]; [|reflexivity]. cbn [deref bind].
  destruct (delta _ _ _ _) as [dl| | |]; try reflexivity. cbn [bind].
  assert (HE : forall a b, gEq GE (gAdd GE (gAdd GE (gAdd GE (gScale GE (gAdd GE (pV pf) (gBase GE k)) ((z * z) mod gN GE)) (gBase GE dl)) a) b)
      (PedersenCommit GE ((tp + z * z * k) mod gN GE) tx (bpH (pParams pf))) =
    gEq GE (gAdd GE (gAdd GE (gAdd GE (gScale GE (pV pf) ((z * z) mod gN GE)) (gBase GE dl)) a) b) (PedersenCommit GE tp tx (bpH (pParams pf)))).
  { intros a b. unfold PedersenCommit. apply (eq_plus GE L _ _ _ _ (gScale GE (gGen GE) (z * z * k))); rewrite !(l_base GE L); glin L.
    all: try (modn; apply eqm_of_eq; ring). }
  rewrite HE. reflexivity.
Qed.

(** what the shift does to the two groups' checks of the vote proof *)
Definition Movable (G : Grp) (c k : Z) : Prop := forall gp z s K X,
  sigmaPedersenCheck G (z + c * k) s c K (gAdd G X (gBase G k)) gp = sigmaPedersenCheck G z s c K X gp.
Lemma movable_laws : forall G c k, GrpLaws G -> Movable G c k.
Proof.
  intros G c k L gp z s K X. unfold sigmaPedersenCheck, vpCommit. apply (eq_plus G L _ _ _ _ (gScale G (gGen G) (c * k))); rewrite ?(l_base G L); glin L.
Qed.
Lemma movable_modp : forall d c k, ModPOk d -> 0 <= c -> Movable (ModPGrp d) c k.
Proof.
  intros d c k Hok Hc gp z s K X. pose proof (okp d Hok) as Hp. pose proof (memb_gen d Hok) as Hg. unfold sigmaPedersenCheck, vpCommit.
  cbn [ModPGrp gEq gBase gAdd gScale gN]. change (mpBaseScale d 0) with (mpScale d 0 (mpGen d)).
  rewrite (scale_plus' d Hok) by exact Hg. rewrite (scale_add_raw d Hok) by exact Hc. rewrite (scale_scale_raw d Hok) by exact Hg.
  set (D := mpScale d 0 (mpGen d) (c * k)).
  replace (mpAdd d (mpAdd d (mpScale d 0 (mpGen d) z) D) (mpScale d 0 (gpH gp) s)) with (mpAdd d (mpAdd d (mpScale d 0 (mpGen d) z) (mpScale d 0 (gpH gp) s)) D)
    by (rewrite <- !add_assoc'; f_equal; apply add_comm').
  replace (mpAdd d (mpAdd d (mpScale d 0 X c) D) K) with (mpAdd d (mpAdd d (mpScale d 0 X c) K) D) by (rewrite <- !add_assoc'; f_equal; apply add_comm').
  rewrite (eq_shift_raw d Hok) by (apply (memb_scale d Hok); exact Hg). unfold mpAdd. rewrite !Z.mod_mod by lia. reflexivity.
Qed.

Lemma verify_move : forall GF GE HO k (b : BallotData GF GE) rp n z c, GrpLaws GE ->
  (forall c, getFSChallenge GF GE HO (sW (bdVote b)) (sKp (bdVote b)) (sKq1 (bdVote b)) (sKq2 (bdVote b)) (vBc (sParams (bdVote b))) = Ok c -> Movable GF c k) ->
  verifyVote GF GE HO b rp = Ok (true, n) -> sZ (bdVote b) = Some z -> sChal (bdVote b) = Some c ->
  verifyVote GF GE HO (shiftBallot HO k b) rp = Ok (inZoneb (sParams (bdVote b)) (z + c * k), n).
Proof.
  intros GF GE HO k b rp n z c L HM H Hz Hc. unfold verifyVote, shiftBallot in *. cbn [bdBallot bdLower bdUpper bdVote ctU ctV]. rewrite !(C87_range _ _ _ _ L).
  destruct (Verify GE HO (bdLower b)) as [[]| | |]; try discriminate; cbn [bind negb] in *; try discriminate.
  destruct (Verify GE HO (bdUpper b)) as [[]| | |]; try discriminate; cbn [bind negb] in *; try discriminate. cbv zeta in *.
  unfold shiftRange at 1 2. cbn [pV]. unfold vpVerify, shiftZ in *. cbn [sW sKp sKq1 sKq2 sChal sZ sSp sSq1 sSq2 sParams cY cXp cXq1 cXq2].
  cbn [cY cXp cXq1 cXq2] in H. rewrite Hz, Hc in *. cbn [option_map deref bind] in *. destruct (_ || _); [discriminate|].
  assert (HZ : inZoneb (sParams (bdVote b)) (z + c * k) = negb ((z + c * k <? zLowerBound GF GE (sParams (bdVote b))) || (zUpperBound GF GE (sParams (bdVote b)) <=? z + c * k)))
    by (unfold inZoneb; rewrite negb_orb, <- Z.leb_antisym, <- Z.ltb_antisym; reflexivity).
  rewrite HZ. destruct ((z + c * k <? _) || _); cbn [negb].
  { destruct (getFSChallenge _ _ _ _ _ _ _ _) as [c0| | |] eqn:Ef; try discriminate. cbn [bind] in *.
    repeat match type of H with
      | bind (if negb ?q then _ else _) _ = _ => destruct q; cbn [bind negb] in H; try discriminate
      | bind (bind (deref ?o) _) _ = _ => destruct o; cbn [deref bind] in H; try discriminate
      end. injection H as <-. reflexivity. }
  destruct (getFSChallenge _ _ _ _ _ _ _ _) as [c0| | |] eqn:Ef; try discriminate. cbn [bind] in *.
  destruct (c0 =? c) eqn:Ec; cbn [negb bind] in *; [|discriminate]. apply Z.eqb_eq in Ec. subst c0. pose proof (HM c eq_refl) as HF. pose proof (movable_laws GE c k L) as HE.
  destruct (sSp (bdVote b)) as [sp|]; [|discriminate]. cbn [deref bind] in *.
  destruct (gEq GF _ _); cbn [negb bind] in *; [|discriminate]. rewrite HF.
  replace (gAdd GE (gBase GE (vLo rp)) (gAdd GE (pV (bdLower b)) (gBase GE k))) with (gAdd GE (gAdd GE (gBase GE (vLo rp)) (pV (bdLower b))) (gBase GE k))
    by (rewrite !(l_base GE L); glin L).
  replace (gAdd GE (gBase GE (vHi rp)) (gScale GE (gAdd GE (pV (bdUpper b)) (gBase GE (- k))) (-1)))
    with (gAdd GE (gAdd GE (gBase GE (vHi rp)) (gScale GE (pV (bdUpper b)) (-1))) (gBase GE k)) by (rewrite !(l_base GE L); glin L).
  destruct (sigmaPedersenCheck GF z sp c _ _ _); cbn [negb bind] in *; [|discriminate].
  destruct (sSq1 (bdVote b)) as [s1|]; [|discriminate]. cbn [deref bind] in *. rewrite HE. destruct (sigmaPedersenCheck GE z s1 c _ _ _); cbn [negb bind] in *; [|discriminate].
  destruct (sSq2 (bdVote b)) as [s2|]; [|discriminate]. cbn [deref bind] in *. rewrite HE. destruct (sigmaPedersenCheck GE z s2 c _ _ _); cbn [negb bind] in *; [|discriminate].
  exact H.
Qed.
Lemma inZone_iff : forall GF GE (pr : ProofParams GF GE) z, inZoneb pr z = true <-> InZone pr z.
Proof. intros. unfold inZoneb, InZone. rewrite andb_true_iff, Z.leb_le, Z.ltb_lt. reflexivity. Qed.

(** Any accepted ballot, any k: the moved ballot is accepted exactly if the number z + ck is in the interval z has to be in. Also when the ballot
    holds integers that are no members of the ElGamal group. *)
Theorem C87_ballot : forall d GE HO k (b : BallotData (ModPGrp d) GE) rp n z c, ModPOk d -> GrpLaws GE -> (forall m, Forall is_byte (sha256 HO m)) ->
  verifyVote (ModPGrp d) GE HO b rp = Ok (true, n) -> sZ (bdVote b) = Some z -> sChal (bdVote b) = Some c ->
  (verifyVote (ModPGrp d) GE HO (shiftBallot HO k b) rp = Ok (true, n) <-> InZone (sParams (bdVote b)) (z + c * k)) /\
  (exists a, verifyVote (ModPGrp d) GE HO (shiftBallot HO k b) rp = Ok (a, n)).
Proof.
  intros d GE HO k b rp n z c Hok L Hby H Hz Hc.
  assert (HM : forall c, getFSChallenge (ModPGrp d) GE HO (sW (bdVote b)) (sKp (bdVote b)) (sKq1 (bdVote b)) (sKq2 (bdVote b)) (vBc (sParams (bdVote b))) = Ok c -> Movable (ModPGrp d) c k).
  { intros c0 Hc0. apply movable_modp; [exact Hok|]. exact (fs_nonneg _ _ _ _ _ _ _ _ _ (Hby _) Hc0). }
  rewrite (verify_move (ModPGrp d) GE HO k b rp n z c L HM H Hz Hc).
  split; [|eexists; reflexivity]. rewrite <- inZone_iff. split; [intros E; injection E as E; exact E|intros ->; reflexivity].
Qed.
(** Almost always it is: the interval is [lower, upper) with upper at least twice lower; challenges are below 2^Bc, and for |k| up to 2^Bx the sum is
    inside whenever z is at least lower away from both ends. *)
Theorem C87_zone : forall GF GE HO (p : SigmaProof GF GE) z c k, Digest32 HO -> 0 <= vBx (sParams p) -> 0 <= vBc (sParams p) -> vBx (sParams p) + vBc (sParams p) < 65536 ->
  getFSChallenge GF GE HO (sW p) (sKp p) (sKq1 p) (sKq2 p) (vBc (sParams p)) = Ok c -> Z.abs k <= 2 ^ vBx (sParams p) ->
  2 * 2 ^ (vBx (sParams p) + vBc (sParams p)) <= z < zUpperBound GF GE (sParams p) - 2 ^ (vBx (sParams p) + vBc (sParams p)) ->
  InZone (sParams p) (z + c * k).
Proof.
  intros GF GE HO p z c k HD Hx Hc Hw Hf Hk Hz. pose proof (fs_bound HD _ _ _ _ _ _ Hc Hf) as Hb.
  assert (HL : zLowerBound GF GE (sParams p) = 2 ^ (vBx (sParams p) + vBc (sParams p))).
  { unfold zLowerBound, wrap16, bigExp2. rewrite Z.mod_small by lia. destruct (_ <=? 0) eqn:E; [|reflexivity]. apply Z.leb_le in E.
    replace (vBx (sParams p) + vBc (sParams p)) with 0 by lia. reflexivity. }
  assert (HM : Z.abs (c * k) <= 2 ^ (vBx (sParams p) + vBc (sParams p))).
  { rewrite Z.abs_mul, Z.pow_add_r, (Z.abs_eq c) by lia. nia. }
  unfold InZone. rewrite HL. lia.
Qed.
(** The vote is the old one plus k, whoever holds the key. *)
Theorem C87_vote : forall GF GE HO pk k (b : BallotData GF GE) v r, GrpLaws GF -> Encrypts GF pk (ctU (bdBallot b)) (ctV (bdBallot b)) v r ->
  let b' := shiftBallot HO k b in Encrypts GF pk (ctU (bdBallot b')) (ctV (bdBallot b')) (v + k) r.
Proof.
  intros GF GE HO pk k b v r L [HU HV] b'. unfold b', shiftBallot, Encrypts. cbn [bdBallot ctU ctV]. rewrite HU, HV, ?(l_base GF L). split; [reflexivity|]. glin L.
Qed.
Theorem C87_reads : forall d GE HO sk k (b : BallotData (ModPGrp d) GE) v, SafePrime2 d -> 0 <= v -> 0 <= v + k ->
  ReadsAs (mpField d) 2 sk (ctU (bdBallot b)) (ctV (bdBallot b)) v ->
  let b' := shiftBallot HO k b in ReadsAs (mpField d) 2 sk (ctU (bdBallot b')) (ctV (bdBallot b')) (v + k).
Proof.
  intros d GE HO sk k b v HS Hv Hk H b'. unfold b', shiftBallot. cbn [bdBallot ctU ctV]. pose proof (safe_ok d HS) as Hok. pose proof (okp d Hok) as Hp. pose proof (okq d Hok) as Hq.
  assert (Hg : mpGen d = 2) by apply HS. pose proof (memb_gen d Hok) as Hm. unfold ReadsAs in *. cbn [ModPGrp gAdd]. unfold mpAdd. rewrite (base_pow d HS), Hg, Z.mod_mod by lia.
  apply eqm_intro in H. apply (proj1 (eqm_mod _ _ _)). modn. rewrite H. rewrite Hg in Hm. pose proof (Z.mod_pos_bound k (mpOrder d) ltac:(lia)) as Hb.
  transitivity ((2 ^ v * 2 ^ (k mod mpOrder d)) * ctU (bdBallot b) ^ sk); [apply eqm_of_eq; ring|]. apply Zmult_eqm; [|reflexivity].
  rewrite <- Z.pow_add_r by lia. rewrite (pow_mod_q d Hok 2 (v + k mod mpOrder d) Hm) by lia. rewrite (pow_mod_q d Hok 2 (v + k) Hm) by lia.
  rewrite Z.add_mod_idemp_r by lia. reflexivity.
Qed.

(** ** The program *)
Lemma setup_zone : forall d GE nan64 pp, 0 < gN GE -> bitLen (gN GE) < 65536 -> setup d GE nan64 = Ok pp ->
  vBx (ppRP pp) = 16 /\ vBc (ppRP pp) = 224 /\ zUpperBound _ _ (ppRP pp) = 2 ^ (bitLen (gN GE) - 1) /\ WFInts (ppRP pp).
Proof.
  intros d GE nan64 pp HN HB HS. unfold setup in HS. destruct (Setup GE nan64 65536) as [bp| | |] eqn:Hbp; try discriminate. cbn [bind] in HS.
  assert (Hb0 : 0 <= bitLen (gN GE)) by (unfold bitLen; destruct (_ =? 0); [lia|pose proof (Z.log2_nonneg (Z.abs (gN GE))); lia]).
  assert (Hw : wrap16 (bitLen (gN GE)) = bitLen (gN GE)) by (unfold wrap16; apply Z.mod_small; lia). rewrite Hw in HS.
  unfold vpSetup in HS. destruct (_ <? 1) eqn:H1; [discriminate|]. cbn [bind] in HS. apply Z.ltb_ge in H1.
  remember (mkPublicParameters (GF:=ModPGrp d) (GE:=GE)) as mk eqn:Hmk. injection HS as HS. subst mk. rewrite <- HS.
  unfold WFInts, zUpperBound. cbn [ppRP vBx vBc vBg vBb vLo vHi]. repeat split; try lia.
  change (wrap16 (16 + 224)) with 240. unfold bigExp2. replace (240 + (bitLen (gN GE) - 1 - 16 - 224)) with (bitLen (gN GE) - 1) by lia.
  replace (bitLen (gN GE) - 1 <=? 0) with false by (symmetry; apply Z.leb_gt; lia). reflexivity.
Qed.
Lemma cast_lists : forall d GE HO nan64 pp cr b, GrpLaws GE -> nanConv nan64 -> setup d GE nan64 = Ok pp -> castVote (ModPGrp d) GE HO pp cr = Ok b ->
  pParams (bdLower b) = ppBP pp /\ pParams (bdUpper b) = ppBP pp /\ WFLists (bdLower b) /\ WFLists (bdUpper b).
Proof.
  intros d GE HO nan64 pp cr b LE Hn HSet H.
  unfold setup in HSet. destruct (Setup GE nan64 65536) as [bp| | |] eqn:Hbp; try discriminate. cbn [bind] in HSet.
  destruct (vpSetup _ _ _ _ _ _ _ _ _) as [rp| | |]; try discriminate. cbn [bind] in HSet.
  remember (mkPublicParameters (GF:=ModPGrp d) (GE:=GE)) as mk eqn:Hmk. injection HSet as HSet. subst mk.
  unfold castVote in H.
  repeat match type of H with
    | bind ?e _ = Ok _ => destruct e as [?| | |] eqn:?; cbn [bind] in H; try discriminate
    | (let '(_, _) := ?e in _) = Ok _ => destruct e as [? ?]
    end.
  injection H as <-.
  repeat match goal with Hq : Prove GE HO _ _ _ = Ok _ |- _ =>
    apply (prove_shape GE HO nan64 65536) in Hq; [destruct Hq|exact LE|exact Hn|reflexivity|rewrite <- HSet; exact Hbp] end.
  cbn [bdLower bdUpper]. auto.
Qed.

(** Every ballot castVote makes under setup's parameters whose number z is not within 2^240 of the ends of its interval [2^240, 2^(bits - 1)), and
    every k of at most 2^16 in size: the server accepts the moved ballot, all parameters in it are the election's, it can be sent, and it is counted for
    the voter's choice plus k -- be that a candidate or not. *)
Theorem C87_program : forall d GE HO nan64 pp cr b z k, SafePrime2 d -> GrpLaws GE -> JsonRoundtrip GE -> nanConv nan64 -> Digest32 HO ->
  bitLen (gN GE) < 65536 -> gN GE <= mpOrder d -> 2000 < mpOrder d -> setup d GE nan64 = Ok pp -> CastDrawsOk pp cr ->
  castVote (ModPGrp d) GE HO pp cr = Ok b -> sZ (bdVote b) = Some z -> 2 * 2 ^ 240 <= z < 2 ^ (bitLen (gN GE) - 1) - 2 ^ 240 ->
  Z.abs k <= 2 ^ 16 -> 0 <= 101 + cr_choice cr + k ->
  let b' := shiftBallot HO k b in
  verifyVote (ModPGrp d) GE HO b' (ppRP pp) = Ok (true, 2%nat) /\
  ReadsAs (mpField d) 2 13 (ctU (bdBallot b')) (ctV (bdBallot b')) (101 + cr_choice cr + k) /\
  (101 <= 101 + cr_choice cr + k <= 2000 -> readVote (mpField d) 2 13 (ctU (bdBallot b')) (ctV (bdBallot b')) candidates = Some (101 + cr_choice cr + k)) /\
  pParams (bdLower b') = ppBP pp /\ pParams (bdUpper b') = ppBP pp /\ sParams (bdVote b') = ppRP pp /\
  exists j, encBallotData (ModPGrp d) GE b' = Ok j /\ BallotDataUnmarshalJSON (ModPGrp d) GE (Some j) pp = Ok b'.
Proof.
  intros d GE HO nan64 pp cr b z k HS LE JE Hn HD HB HQ HQ2 HSet HC H Hz Hzr Hk Hv b'. pose proof (safe_ok d HS) as Hok. pose proof (l_order GE LE) as HN.
  pose proof (C25_end_to_end d GE HO nan64 pp cr b Hok LE Hn HB HQ HSet HC H) as HV.
  destruct (setup_key d GE nan64 pp HSet) as (HK & Hmin & Hmax). destruct (setup_zone d GE nan64 pp ltac:(lia) HB HSet) as (Hbx & Hbc & Hup & HWI).
  destruct (cast_lists d GE HO nan64 pp cr b LE Hn HSet H) as (P1 & P2 & W1 & W2).
  assert (HP : sParams (bdVote b) = ppRP pp) by (destruct cr; apply (cast_facts _ _ _ _ _ _ _ _ _ _ H)).
  assert (Hch : 0 <= cr_choice cr < 1899) by (destruct HC as [Hch _]; rewrite Hmin, Hmax in Hch; lia).
  destruct (cast_ct d GE HO pp cr b HK Hmin Hmax Hch H) as [HU HVe]. assert (Hg : mpGen d = 2) by apply HS.
  assert (HR : ReadsAs (mpField d) 2 13 (ctU (bdBallot b')) (ctV (bdBallot b')) (101 + cr_choice cr + k)).
  { apply (C87_reads d GE HO 13 k b (101 + cr_choice cr) HS); try lia.
    pose proof (reads_cast d HS (101 + cr_choice cr) (cr_eg cr + 1) ltac:(lia)) as HR. rewrite <- HU, <- HVe in HR. rewrite Hg in HR. exact HR. }
  assert (HM : ctV (bdBallot b') mod mpField d <> 0).
  { apply (memb_nz d HS). unfold b', shiftBallot. cbn [bdBallot ctV]. rewrite HVe. pose proof (memb_gen d Hok) as Hm.
    apply (memb_add d Hok); [apply (memb_add d Hok)|]; try (apply (memb_scale d Hok 0 (mpGen d)); exact Hm).
    apply (memb_scale d Hok 0). apply (memb_scale d Hok 0 (mpGen d)). exact Hm. }
  split; [|split; [exact HR|split; [|split; [exact P1|split; [exact P2|split; [exact HP|]]]]]].
  - assert (HF : exists c, sChal (bdVote b) = Some c /\
      getFSChallenge (ModPGrp d) GE HO (sW (bdVote b)) (sKp (bdVote b)) (sKq1 (bdVote b)) (sKq2 (bdVote b)) (vBc (sParams (bdVote b))) = Ok c).
    { clear - HV Hz. unfold verifyVote in HV. destruct (Verify GE HO (bdLower b)) as [[]| | |]; try discriminate; cbn [bind negb] in HV; try discriminate.
      destruct (Verify GE HO (bdUpper b)) as [[]| | |]; try discriminate; cbn [bind negb] in HV; try discriminate. cbv zeta in HV.
      unfold vpVerify in HV. rewrite Hz in HV. cbn [deref bind] in HV. destruct (_ || _); [discriminate|].
      destruct (getFSChallenge _ GE HO _ _ _ _ _) as [c0| | |]; try discriminate. cbn [bind] in HV. destruct (sChal (bdVote b)) as [c|]; [|discriminate].
      cbn [deref bind] in HV. destruct (c0 =? c) eqn:E; cbn [negb bind] in HV; [|discriminate]. apply Z.eqb_eq in E. subst c0. exists c. split; reflexivity. }
    destruct HF as (c & Hc & Hf). apply (proj1 (C87_ballot d GE HO k b (ppRP pp) 2%nat z c Hok LE (fun m => proj2 (HD m)) HV Hz Hc)).
    rewrite HP in Hf |- *. rewrite Hbc in Hf. rewrite <- HP.
    apply (C87_zone (ModPGrp d) GE HO (bdVote b) z c k HD); rewrite ?HP, ?Hbx, ?Hbc, ?Hup; [discriminate|discriminate|reflexivity|exact Hf|exact Hk|exact Hzr].
  - intros Hr. apply find_unique; [apply in_candidates; lia|apply Z.eqb_eq; exact HR|]. intros y Hy Hf. apply in_candidates in Hy. apply Z.eqb_eq in Hf.
    pose proof (reads_unique d HS 13 (ctU (bdBallot b')) (ctV (bdBallot b')) y (101 + cr_choice cr + k) ltac:(lia) ltac:(lia) ltac:(lia) HM) as Hu. rewrite Hg in Hu.
    specialize (Hu Hf HR). rewrite !Z.mod_small in Hu by lia. exact Hu.
  - apply (C35_ballot_roundtrip (ModPGrp d) GE (C35_modp_elements d) JE); try assumption. unfold b', shiftBallot, shiftZ. cbn [bdVote sParams]. rewrite HP. exact HWI.
Qed.

(** ** Concrete cases *)
(** by computation, in the election of C25_run (p = 8423, candidates 3 to 6): the ballot for 5 moved by -1, -2, 1 and by 20 is accepted and read as 4, 3, 6
    and as none of the candidates; moved by 200 it is refused, the number z being too large *)
Definition sRun (k : Z) : res (option Z * (bool * nat)) :=
  b <- castVote (ModPGrp dToy) toy aHO aPP aCR ;; v <- verifyVote (ModPGrp dToy) toy aHO (shiftBallot (GF:=ModPGrp dToy) (GE:=toy) aHO k b) aRP ;;
  let ct := bdBallot (shiftBallot (GF:=ModPGrp dToy) (GE:=toy) aHO k b) in Ok (readVote 8423 2 13 (ctU ct) (ctV ct) [3; 4; 5; 6], v).
Example C87_case : map sRun [0; -1; -2; 1; 20; 200] =
  [Ok (Some 5, (true, 2%nat)); Ok (Some 4, (true, 2%nat)); Ok (Some 3, (true, 2%nat)); Ok (Some 6, (true, 2%nat)); Ok (None, (true, 2%nat)); Ok (None, (false, 2%nat))].
Proof. vm_compute. reflexivity. Qed.
Lemma cast_z : forall GF GE HO (pp : PublicParameters GF GE) ch r r1 r2 dr b, castVote GF GE HO pp (mkCastRand ch r r1 r2 [dr]) = Ok b ->
  exists c, sChal (bdVote b) = Some c /\ sZ (bdVote b) = Some (dk dr + c * wrap16 (wrap16 ch + ppMin pp)).
Proof.
  intros GF GE HO pp ch r r1 r2 dr b H. unfold castVote in H. cbn [cr_choice cr_eg cr_bp1 cr_bp2 cr_vp] in H.
  unfold randInt at 1 in H. destruct (_ <=? 0); try discriminate. cbn [bind] in H. cbv zeta in H.
  unfold encryptVote, randInt in H. destruct (gN GF - 1 <=? 0); [discriminate|]. cbn [bind] in H.
  destruct (Prove GE HO _ _ r1) as [[b1 g1]| | |]; try discriminate. cbn [bind] in H.
  destruct (Prove GE HO _ _ r2) as [[b2 g2]| | |]; try discriminate. cbn [bind] in H.
  destruct (deref _) as [ne| | |]; try discriminate. cbn [bind] in H.
  destruct (vpProve _ _ _ _ _ _ _ _ _) as [pf| | |] eqn:Ep; try discriminate. cbn [bind] in H. injection H as <-. cbn [bdVote].
  cbn [vpProve] in Ep. unfold vpIter in Ep.
  destruct (posN (gpN (vGFF (ppRP pp)))); try discriminate. destruct (posN (gpN (vGEC (ppRP pp)))); try discriminate. cbn [bind] in Ep.
  destruct (getFSChallenge _ _ _ _ _ _ _ _) as [c| | |]; try discriminate. cbn [bind] in Ep. destruct (_ || _); cbn [bind] in Ep; [discriminate|].
  injection Ep as <-. exists c. split; reflexivity.
Qed.
(** the hypotheses of C87_program, with the constants of setup: the election and ballot of C81_program_case (candidate 1335, challenge 6); any k of at most
    2^16 from -1335 on will do, so 1999 or 101 or 0 or 50000 can be made of it *)
Example C87_program_case : exists pp b z, let cr := mkCastRand (1335 - 101) 77 (aRnd 5) (aRnd 6) [mkDraw (2 ^ 241) 11 22 33] in
  SafePrime2 dSafe /\ 2000 < mpOrder dSafe /\ GrpLaws gR /\ JsonRoundtrip gR /\ nanConv 0 /\ Digest32 (hoC 6) /\ bitLen (gN gR) < 65536 /\ gN gR <= mpOrder dSafe /\
  setup dSafe gR 0 = Ok pp /\ CastDrawsOk pp cr /\ castVote (ModPGrp dSafe) gR (hoC 6) pp cr = Ok b /\
  sZ (bdVote b) = Some z /\ 2 * 2 ^ 240 <= z < 2 ^ (bitLen (gN gR) - 1) - 2 ^ 240.
Proof.
  destruct C81_program_case as (pp & b & H). cbv zeta in *. destruct H as (H1 & H2 & H3 & H4 & H5 & H6 & H7 & H8 & H9 & H10 & H11 & H12).
  destruct (cast_z _ _ _ _ _ _ _ _ _ _ H11) as (c & Hc & Hz). rewrite H12 in Hc. injection Hc as <-.
  destruct (setup_key dSafe gR 0 pp H9) as (_ & Hmin & _). rewrite Hmin in Hz. cbn [dk] in Hz.
  exists pp, b, (2 ^ 241 + 6 * wrap16 (wrap16 (1335 - 101) + 101)).
  do 11 (split; [assumption|]). split; [exact Hz|]. split; [discriminate|reflexivity].
Qed.

Print Assumptions C87_range.
Print Assumptions C87_ballot.
Print Assumptions C87_zone.
Print Assumptions C87_vote.
Print Assumptions C87_reads.
Print Assumptions C87_program.
