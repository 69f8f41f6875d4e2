(** C24-C28, C43: ElGamal encryption, castVote, verifyVote, setup and the driver loop (elgamal.go, voter.go, server.go, main.go). *)
From Verif Require Import GoBase Json GroupIface Vector BIP BP VoteProof ModP App ECJson NumTh Alg BPProofs SetupProofs ModPProofs Hom Toy PropBP PropVote PropModP.
From Coq Require Import Znumtheory.

(** ** C24 *)
(** decryption of a lifted ElGamal ciphertext with secret key sk *)
Definition decrypt (G : Grp) (sk : Z) (c : Ciphertext G) : E G := gSub G (ctV c) (gScale G (ctU c) sk).

Theorem C24_decrypts : forall GF choice sk r ct rnd, GrpLaws GF -> 0 <= r < gN GF - 1 ->
  encryptVote GF choice (gBase GF sk) r = Ok (ct, rnd) ->
  decrypt GF sk ct = gBase GF choice /\ rnd = r + 1 /\ 1 <= rnd <= gN GF - 1 /\
  Encrypts GF (gBase GF sk) (ctU ct) (ctV ct) choice rnd.
Proof.
  intros GF choice sk r ct rnd L Hr H. unfold encryptVote, randInt in H.
  destruct (gN GF - 1 <=? 0) eqn:E0; [apply Z.leb_le in E0; lia|]. cbn [bind] in H. injection H as <- <-.
  unfold decrypt, Encrypts. cbn [ctU ctV]. repeat split; try lia; try (glin L); rewrite ?(l_base GF L); reflexivity.
Qed.
(** equal ciphertexts come from choices congruent modulo the order (equal, for choices below the order) *)
Theorem C24_binding : forall GF pk c1 c2 r1 r2 ct rnd1 rnd2, GrpPrime GF ->
  encryptVote GF c1 pk r1 = Ok (ct, rnd1) -> encryptVote GF c2 pk r2 = Ok (ct, rnd2) ->
  c1 mod gN GF = c2 mod gN GF.
Proof.
  intros GF pk c1 c2 r1 r2 ct rnd1 rnd2 P H1 H2. pose proof (lp_laws GF P) as L.
  unfold encryptVote in H1, H2. destruct (randInt (gN GF - 1) r1); try discriminate. destruct (randInt (gN GF - 1) r2); try discriminate.
  cbn [bind] in H1, H2. injection H1 as <- <-. injection H2 as HU HV.
  rewrite !(l_base GF L) in HU, HV. apply (gen_inj GF P) in HU. apply (eqm_intro (gN GF)) in HU. apply (gen_inj GF P).
  apply (add_cancel_r L (gScale GF pk (a + 1))). rewrite <- HV. f_equal. apply (scale_eqm L). exact HU.
Qed.
Theorem C24_small_order_panics : forall GF choice pk r, gN GF <= 1 -> encryptVote GF choice pk r = Panic.
Proof. intros GF choice pk r H. unfold encryptVote, randInt. replace (_ <=? 0) with true by (symmetry; apply Z.leb_le; lia). reflexivity. Qed.
(** instance: the mod-p group of the program, for a safe prime *)
Theorem C24_modp : forall d choice sk r ct rnd, ModPOk d -> 0 <= r < mpOrder d - 1 ->
  encryptVote (ModPGrp d) choice (gBase (ModPGrp d) sk) r = Ok (ct, rnd) ->
  gSub (ModPGrp d) (ctV ct) (gScale (ModPGrp d) (ctU ct) sk) = gBase (ModPGrp d) choice /\
  1 <= rnd <= mpOrder d - 1 /\ Member d (ctU ct) /\ Member d (ctV ct).
Proof.
  intros d choice sk r ct rnd Hok Hr H. pose proof (SubHom d Hok) as HF.
  rewrite <- (hm_base _ _ _ HF), encryptVote_hom with (1 := HF) in H.
  destruct (encryptVote (SubGrp d Hok) choice (gBase (SubGrp d Hok) sk) r) as [[c1 rn]| | |] eqn:E1; try discriminate.
  cbn [res_map fst snd] in H. injection H as <- <-.
  destruct (C24_decrypts _ _ _ _ _ _ (SubLaws d Hok) Hr E1) as (Hd & Hrn & Hb & _).
  split; [|split; [exact Hb|split; apply sub_memb]]. unfold decrypt in Hd. cbn [mapCt ctU ctV].
  apply (f_equal sv) in Hd. destruct (C29_group_contract d Hok) as (_ & Hcl & Hcs & _ & _ & _ & Hsub & _).
  rewrite Hsub; [exact Hd|]. apply Hcs. apply sub_memb.
Qed.

(** ** C26 *)
Theorem C26_choice_in_range : forall GF GE HO (pp : PublicParameters GF GE) cr ballot, GrpLaws GF ->
  0 <= ppMin pp <= ppMax pp -> ppMax pp < 65536 -> 0 <= cr_choice cr < ppMax pp - ppMin pp ->
  castVote GF GE HO pp cr = Ok ballot ->
  exists choice r, ppMin pp <= choice <= ppMax pp - 1 /\ choice = ppMin pp + cr_choice cr /\
    Encrypts GF (ppEGPK pp) (ctU (bdBallot ballot)) (ctV (bdBallot ballot)) choice r.
Proof.
  intros GF GE HO pp cr ballot L H1 H2 Hc H. unfold castVote in H.
  destruct (randInt _ _) as [rb| | |] eqn:Er; try discriminate. cbn [bind] in H.
  unfold randInt in Er. destruct (_ <=? 0); [discriminate|]. injection Er as <-.
  assert (Hch : wrap16 (wrap16 (cr_choice cr) + ppMin pp) = ppMin pp + cr_choice cr).
  { unfold wrap16. rewrite (Z.mod_small (cr_choice cr)) by lia. rewrite Z.mod_small; lia. }
  rewrite Hch in H. unfold encryptVote in H. destruct (randInt (gN GF - 1) (cr_eg cr)) as [r| | |]; try discriminate. cbn [bind] in H.
  repeat match type of H with
  | bind ?e _ = Ok _ => destruct e; cbn [bind] in H; try discriminate
  | (let '(_, _) := ?e in _) = Ok _ => destruct e
  end.
  injection H as <-. exists (ppMin pp + cr_choice cr), (r + 1). cbn [bdBallot ctU ctV]. split; [lia|]. split; [reflexivity|].
  unfold Encrypts. rewrite !(l_base GF L). split; reflexivity.
Qed.
(** the last candidate is never voted for: no draw produces a ballot that is an encryption of candidateMax *)
Theorem C26_last_candidate_never : forall GF GE HO (pp : PublicParameters GF GE) cr ballot r, GrpPrime GF ->
  0 <= ppMin pp <= ppMax pp -> ppMax pp < 65536 -> ppMax pp < gN GF -> 0 <= cr_choice cr < ppMax pp - ppMin pp ->
  castVote GF GE HO pp cr = Ok ballot ->
  ~ Encrypts GF (ppEGPK pp) (ctU (bdBallot ballot)) (ctV (bdBallot ballot)) (ppMax pp) r.
Proof.
  intros GF GE HO pp cr ballot r P H1 H2 H3 Hc H [HU HV]. pose proof (lp_laws GF P) as L.
  destruct (C26_choice_in_range GF GE HO pp cr ballot L H1 H2 Hc H) as (ch & r0 & Hr & _ & HU0 & HV0).
  rewrite HU0 in HU. rewrite HV0 in HV. apply (gen_inj GF P) in HU. apply (eqm_intro (gN GF)) in HU. rewrite (scale_eqm L _ _ _ HU) in HV.
  apply (add_cancel_r L) in HV. apply (gen_inj GF P) in HV. rewrite !Z.mod_small in HV by lia. lia.
Qed.
Theorem C26_single_candidate_panics : forall GF GE HO (pp : PublicParameters GF GE) cr, ppMin pp = ppMax pp -> castVote GF GE HO pp cr = Panic.
Proof. intros GF GE HO pp cr H. unfold castVote. rewrite H, Z.sub_diag. reflexivity. Qed.

(** ** C25 *)
(** the draws of castVote lie in the ranges passed to rand.Int *)
Definition CastDrawsOk {GF GE} (pp : PublicParameters GF GE) (cr : CastRand) : Prop :=
  0 <= cr_choice cr < ppMax pp - ppMin pp /\ forall dr, In dr (cr_vp cr) -> DrawOk (ppRP pp) dr.

(** parameters fitting together: the same groups, keys and range everywhere *)
Record Consistent {GF GE} (nan64 : Z) (pp : PublicParameters GF GE) : Prop := {
  cs_range : 0 <= ppMin pp /\ ppMin pp <= ppMax pp /\ ppMax pp < 65536;
  cs_bp : exists b, is_int64 b = true /\ Setup GE nan64 b = Ok (ppBP pp) /\ ppMax pp - ppMin pp < 2 ^ bpN (ppBP pp);
  cs_rp : SetupParams (ppRP pp);
  cs_lo : vLo (ppRP pp) = ppMin pp;
  cs_hi : vHi (ppRP pp) = ppMax pp;
  cs_pk : gpH (vGFF (ppRP pp)) = ppEGPK pp;
  cs_h : gpH (vGEC (ppRP pp)) = bpH (ppBP pp);
  cs_n : gpN (ppEC pp) = Some (gN GE);
  cs_q : 2 ^ (vBg (ppRP pp) - 1) <= gN GF
}.
Lemma cast_parts : forall GF GE HO (pp : PublicParameters GF GE) cr ballot nan64,
  GrpLaws GF -> Consistent nan64 pp -> 0 <= cr_choice cr < ppMax pp - ppMin pp ->
  castVote GF GE HO pp cr = Ok ballot ->
  exists rp r1 r2 b1 b2 pf, let choice := ppMin pp + cr_choice cr in
    ballot = mkBallotData (mkCiphertext (gBase GF rp) (gAdd GF (gBase GF choice) (gScale GF (ppEGPK pp) rp))) b1 b2 pf /\
    Prove GE HO (choice - ppMin pp) (ppBP pp) (cr_bp1 cr) = Ok (b1, r1) /\
    Prove GE HO (ppMax pp - choice) (ppBP pp) (cr_bp2 cr) = Ok (b2, r2) /\
    vpProve GF GE HO choice rp r1 (gN GE - r2) (ppRP pp) (cr_vp cr) = Ok pf.
Proof.
  intros GF GE HO pp cr ballot nan64 L C Hc H. destruct (cs_range _ _ C) as (H1 & H2 & H3). unfold castVote in H.
  destruct (randInt _ _) as [rb| | |] eqn:Er; try discriminate. cbn [bind] in H.
  unfold randInt in Er. destruct (_ <=? 0); [discriminate|]. injection Er as <-.
  assert (Hch : wrap16 (wrap16 (cr_choice cr) + ppMin pp) = ppMin pp + cr_choice cr).
  { unfold wrap16. rewrite (Z.mod_small (cr_choice cr)) by lia. rewrite Z.mod_small; lia. }
  rewrite Hch in H. set (ch := ppMin pp + cr_choice cr) in *.
  assert (Hw1 : wrap16 (ch - ppMin pp) = ch - ppMin pp) by (unfold wrap16, ch; apply Z.mod_small; lia).
  assert (Hw2 : wrap16 (ppMax pp - ch) = ppMax pp - ch) by (unfold wrap16, ch; apply Z.mod_small; lia).
  rewrite Hw1, Hw2 in H. unfold encryptVote in H. destruct (randInt (gN GF - 1) (cr_eg cr)) as [r| | |]; try discriminate. cbn [bind] in H.
  destruct (Prove GE HO (ch - _) _ _) as [[b1 r1]| | |] eqn:E1; try discriminate. cbn [bind] in H.
  destruct (Prove GE HO (_ - ch) _ _) as [[b2 r2]| | |] eqn:E2; try discriminate. cbn [bind] in H.
  rewrite (cs_n _ _ C) in H. cbn [deref bind] in H.
  destruct (vpProve _ _ _ _ _ _ _ _ _) as [pf| | |] eqn:E3; try discriminate. cbn [bind] in H. injection H as <-.
  exists (r + 1), r1, r2, b1, b2, pf. cbv zeta. split; [reflexivity|]. split; [exact E1|]. split; [exact E2|]. exact E3.
Qed.
Theorem C25_consistent_params : forall GF GE HO nan64 (pp : PublicParameters GF GE) cr ballot,
  GrpLaws GF -> GrpLaws GE -> nanConv nan64 -> Consistent nan64 pp -> CastDrawsOk pp cr ->
  castVote GF GE HO pp cr = Ok ballot -> verifyVote GF GE HO ballot (ppRP pp) = Ok (true, 2%nat).
Proof.
  intros GF GE HO nan64 pp cr ballot LF LE Hn C [Hc Hd] H.
  destruct (cast_parts GF GE HO pp cr ballot nan64 LF C Hc H) as (rp & r1 & r2 & b1 & b2 & pf & -> & E1 & E2 & E3).
  destruct (cs_range _ _ C) as (H1 & H2 & H3). destruct (cs_bp _ _ C) as (b & Hb & HS & Hl).
  set (ch := ppMin pp + cr_choice cr) in *.
  unfold verifyVote. cbn [bdLower bdUpper bdBallot bdVote ctU ctV].
  rewrite (C01_completeness GE HO nan64 b (ppBP pp) (ch - ppMin pp) (cr_bp1 cr) b1 r1 LE Hn Hb HS ltac:(unfold ch; lia) E1). cbn [bind negb].
  rewrite (C01_completeness GE HO nan64 b (ppBP pp) (ppMax pp - ch) (cr_bp2 cr) b2 r2 LE Hn Hb HS ltac:(unfold ch; lia) E2). cbn [bind negb].
  destruct (C03_commitment_opens _ _ _ _ _ _ _ E1) as [_ HV1]. destruct (C03_commitment_opens _ _ _ _ _ _ _ E2) as [_ HV2].
  rewrite (C18_completeness GF GE HO (ppRP pp) ch rp r1 (gN GE - r2) (cr_vp cr) pf _ LF LE (cs_rp _ _ C) (cs_q _ _ C) Hd); [reflexivity| |exact E3].
  unfold TrueStatement, Encrypts, Opens. cbn [cY cXp cXq1 cXq2]. rewrite (cs_pk _ _ C), (cs_h _ _ C), (cs_lo _ _ C), (cs_hi _ _ C), HV1, HV2.
  rewrite !(l_base GF LF). split; [split; reflexivity|]. split.
  - glin LE.
  - glin LE. apply eqm_iff; [apply (N_pos LE)|]. exists (-1). ring.
Qed.

Definition emb d Hok : E (SubGrp d Hok) -> E (ModPGrp d) := fun x => sv (d:=d) x.
Lemma emb_hom : forall d Hok, GHom (SubGrp d Hok) (ModPGrp d) (emb d Hok). Proof. exact SubHom. Qed.
(** what main.go's setup returns is consistent, over the group of subgroup members *)
Lemma setup_consistent : forall d GE nan64 pp (Hok : ModPOk d), nanConv nan64 ->
  0 <= gN GE -> bitLen (gN GE) < 65536 -> 2 ^ (bitLen (gN GE) - 1) <= mpOrder d ->
  setup d GE nan64 = Ok pp ->
  exists pp0 : PublicParameters (SubGrp d Hok) GE, pp = mapPub (emb d Hok) pp0 /\ Consistent nan64 pp0 /\
    ppRP pp = mapPP (emb d Hok) (ppRP pp0) /\ vBx (ppRP pp) = 16 /\ vBc (ppRP pp) = 224 /\ ppMin pp = 101 /\ ppMax pp = 2000.
Proof.
  intros d GE nan64 pp Hok Hn HN HB HQ H. unfold setup in H.
  destruct (Setup GE nan64 65536) as [bp| | |] eqn:HS; try discriminate. cbn [bind] in H.
  assert (HB0 : 0 <= bitLen (gN GE)) by (unfold bitLen; destruct (_ =? 0); [lia|pose proof (Z.log2_nonneg (Z.abs (gN GE))); lia]).
  assert (Hw : wrap16 (bitLen (gN GE)) = bitLen (gN GE)) by (unfold wrap16; apply Z.mod_small; lia).
  rewrite Hw in H. unfold vpSetup in H. destruct (_ <? 1) eqn:Hb1; [discriminate|]. cbn [bind] in H. injection H as <-.
  set (gff := mkGroupParams (G:=SubGrp d Hok) (gGen (SubGrp d Hok)) (gBase (SubGrp d Hok) 13) (Some (mpOrder d)) (Some (mpField d))).
  set (gec := mkGroupParams (G:=GE) (gGen GE) (bpH bp) (Some (gN GE)) (Some (mpField d))).
  set (rp := mkProofParams (GF:=SubGrp d Hok) 16 224 (bitLen (gN GE)) (bitLen (gN GE) - 1 - 16 - 224) 101 2000 gff gec).
  exists (mkPublicParameters (GF:=SubGrp d Hok) gff gec (gpH gff) 101 2000 bp rp).
  split; [reflexivity|]. split; [|repeat split; reflexivity].
  assert (HbN : bpN bp = 16).
  { destruct (Setup_ok GE nan64 65536 bp eq_refl HS) as [Hm|[_ Hs]]; [discriminate|]. destruct Hs as [Hs _]. exact Hs. }
  constructor; cbn [ppMin ppMax ppBP ppRP ppEGPK ppEC rp gff gec vLo vHi vGFF vGEC gpH gpN vBg]; try reflexivity; try lia.
  - exists 65536. split; [reflexivity|]. split; [exact HS|]. rewrite HbN. reflexivity.
  - exists 16, 224, (bitLen (gN GE)), 101, 2000. split; [lia|]. split; [lia|]. split; [lia|].
    split; [unfold vpSetup; rewrite Hb1; reflexivity|]. split; reflexivity.
  - exact HQ.
Qed.

(** [d] is the ElGamal group of setup, GE the curve. *)
Theorem C25_end_to_end : forall d GE HO nan64 pp cr ballot,
  ModPOk d -> GrpLaws GE -> nanConv nan64 -> bitLen (gN GE) < 65536 -> gN GE <= mpOrder d ->
  setup d GE nan64 = Ok pp -> CastDrawsOk pp cr ->
  castVote (ModPGrp d) GE HO pp cr = Ok ballot ->
  verifyVote (ModPGrp d) GE HO ballot (ppRP pp) = Ok (true, 2%nat).
Proof.
  intros d GE HO nan64 pp cr ballot Hok LE Hn HB HQ HS HD H. pose proof (l_order GE LE) as HN.
  assert (HQ2 : 2 ^ (bitLen (gN GE) - 1) <= mpOrder d).
  { unfold bitLen. replace (gN GE =? 0) with false by (symmetry; apply Z.eqb_neq; lia). rewrite Z.abs_eq by lia.
    replace (Z.log2 (gN GE) + 1 - 1) with (Z.log2 (gN GE)) by lia. pose proof (Z.log2_spec (gN GE) ltac:(lia)). lia. }
  destruct (setup_consistent d GE nan64 pp Hok Hn ltac:(lia) HB HQ2 HS) as (pp0 & -> & C & HR & _).
  rewrite (castVote_hom _ _ GE (emb d Hok) (emb_hom d Hok)) in H.
  destruct (castVote (SubGrp d Hok) GE HO pp0 cr) as [b0| | |] eqn:E0; try discriminate. cbn [res_map] in H. injection H as <-.
  change (ppRP (mapPub (emb d Hok) pp0)) with (mapPP (GE:=GE) (emb d Hok) (ppRP pp0)).
  rewrite (verifyVote_hom _ _ GE (emb d Hok) (emb_hom d Hok)).
  apply (C25_consistent_params _ GE HO nan64 pp0 cr b0 (SubLaws d Hok) LE Hn C); [|exact E0]. exact HD.
Qed.

(** ... and castVote does return, as soon as one of the vote-proof draws is not aborting *)
Theorem C25_cast_returns : forall d GE HO nan64 pp cr,
  ModPOk d -> GrpLaws GE -> nanConv nan64 -> bitLen (gN GE) < 65536 -> gN GE <= mpOrder d -> 2 < mpOrder d ->
  setup d GE nan64 = Ok pp -> CastDrawsOk pp cr ->
  Digest32 HO -> ChallengesInvertible GE HO -> (exists u, gMap GE (str_bytes SEEDU) = Ok u) ->
  (exists dr, In dr (cr_vp cr) /\ 2 ^ 240 <= dk dr <= 2 ^ (vBg (ppRP pp) - 1) - 2 ^ 240) ->
  exists ballot, castVote (ModPGrp d) GE HO pp cr = Ok ballot.
Proof.
  intros d GE HO nan64 pp cr Hok LE Hn HB HQ Hq2 HS HD HDig HI Hu (dr & Hin & Hk). pose proof (l_order GE LE) as HN.
  assert (HQ2 : 2 ^ (bitLen (gN GE) - 1) <= mpOrder d).
  { unfold bitLen. replace (gN GE =? 0) with false by (symmetry; apply Z.eqb_neq; lia). rewrite Z.abs_eq by lia.
    replace (Z.log2 (gN GE) + 1 - 1) with (Z.log2 (gN GE)) by lia. pose proof (Z.log2_spec (gN GE) ltac:(lia)). lia. }
  destruct (setup_consistent d GE nan64 pp Hok Hn ltac:(lia) HB HQ2 HS) as (pp0 & -> & C & HR & HBx & HBc & Hmin & Hmax).
  rewrite (castVote_hom _ _ GE (emb d Hok) (emb_hom d Hok)). change (vBg (ppRP (mapPub (emb d Hok) pp0))) with (vBg (ppRP pp0)) in Hk.
  change (vBx (ppRP pp0) = 16) in HBx. change (vBc (ppRP pp0) = 224) in HBc. change (ppMin pp0 = 101) in Hmin. change (ppMax pp0 = 2000) in Hmax.
  destruct HD as [Hc Hd]. change (0 <= cr_choice cr < ppMax pp0 - ppMin pp0) in Hc.
  destruct (cs_bp _ _ C) as (b & Hb & HSb & _).
  unfold castVote. unfold randInt at 1. rewrite Hmin, Hmax in *. change (wrap16 (2000 - 101) <=? 0) with false. cbn [bind].
  assert (Hch : wrap16 (wrap16 (cr_choice cr) + 101) = 101 + cr_choice cr).
  { unfold wrap16. rewrite (Z.mod_small (cr_choice cr)) by lia. rewrite Z.mod_small; lia. }
  rewrite Hch. unfold encryptVote, randInt. change (gN (SubGrp d Hok)) with (mpOrder d).
  replace (mpOrder d - 1 <=? 0) with false by (symmetry; apply Z.leb_gt; lia). cbn [bind].
  destruct (C01_prove_returns GE HO nan64 b (ppBP pp0) (wrap16 (101 + cr_choice cr - 101)) (cr_bp1 cr) LE Hn Hb HSb HI Hu) as (b1 & g1 & ->). cbn [bind].
  destruct (C01_prove_returns GE HO nan64 b (ppBP pp0) (wrap16 (2000 - (101 + cr_choice cr))) (cr_bp2 cr) LE Hn Hb HSb HI Hu) as (b2 & g2 & ->). cbn [bind].
  rewrite (cs_n _ _ C). cbn [deref bind].
  destruct (C46_progress (SubGrp d Hok) GE HO (ppRP pp0) (101 + cr_choice cr) (cr_eg cr + 1) g1 (gN GE - g2) (cr_vp cr) dr HDig ltac:(change (gN (SubGrp d Hok)) with (mpOrder d); lia) (N_pos LE) (cs_rp _ _ C)) as (pf & ->).
  - rewrite HBc. lia.
  - rewrite HBx. lia.
  - exact Hin.
  - rewrite HBx, HBc. exact Hk.
  - cbn [bind res_map]. eexists. reflexivity.
Qed.

(** the driver loop of main.go: every vote it casts is accepted, so it reports success *)
Theorem C25_driver_succeeds : forall d GE HO nan64 pp crs success,
  ModPOk d -> GrpLaws GE -> nanConv nan64 -> bitLen (gN GE) < 65536 -> gN GE <= mpOrder d ->
  setup d GE nan64 = Ok pp -> Forall (CastDrawsOk pp) crs ->
  Forall (fun cr => exists ballot, castVote (ModPGrp d) GE HO pp cr = Ok ballot) crs ->
  driverLoop (ModPGrp d) GE HO pp crs success = Ok success.
Proof.
  intros d GE HO nan64 pp crs success Hok LE Hn HB HQ HS HD HC. revert success.
  induction crs as [|cr t IH]; intros success; [reflexivity|]. inversion HD; subst. inversion HC as [|? ? [bl Hbl] HC']; subst.
  cbn [driverLoop]. rewrite Hbl. cbn [bind]. rewrite (C25_end_to_end d GE HO nan64 pp cr bl) by assumption. cbn [bind Nat.ltb Nat.leb].
  rewrite andb_true_r. apply IH; assumption.
Qed.

(** ** C27 *)
(** what the forger sends as a ballot with the ciphertext (U, V) *)
Definition forgeBallot (d : ModPDesc) (GE : Grp) (HO : Oracles) (pp : PublicParameters (ModPGrp d) GE) (U V : Z) (A S : E GE) : BallotData (ModPGrp d) GE :=
  let GF := ModPGrp d in
  let pf := forgeOneGen GE HO (ppBP pp) 0 0 A S in
  let rp := ppRP pp in
  mkBallotData (mkCiphertext (G:=GF) U V) pf pf
    (mkSigmaProof (GF:=GF) (GE:=GE) (gBase GF 0) (vpCommit GF 1 0 (vGFF rp)) (vpCommit GE 1 0 (vGEC rp)) (vpCommit GE 1 0 (vGEC rp))
      (Some 0) (Some 1) (Some 0) (Some 0) (Some 0) (mkProofParams 0 0 0 1 (vLo rp) (vHi rp) (vGFF rp) (vGEC rp))).
(** with the shape of its Bulletproofs *)
Lemma forged_ballot : forall d GE HO nan64 pp U V A S,
  ModPOk d -> GrpLaws GE -> nanConv nan64 -> setup d GE nan64 = Ok pp ->
  Z.gcd (fst (HashBP GE HO A S)) (gN GE) = 1 ->
  exists ballot : BallotData (ModPGrp d) GE, ballot = forgeBallot d GE HO pp U V A S /\
    bdBallot ballot = mkCiphertext (G:=ModPGrp d) U V /\
    pParams (bdLower ballot) = ppBP pp /\ pParams (bdUpper ballot) = ppBP pp /\
    vGFF (sParams (bdVote ballot)) = vGFF (ppRP pp) /\ vGEC (sParams (bdVote ballot)) = vGEC (ppRP pp) /\
    vLo (sParams (bdVote ballot)) = 101 /\ vHi (sParams (bdVote ballot)) = 2000 /\
    vBx (sParams (bdVote ballot)) = 0 /\ vBc (sParams (bdVote ballot)) = 0 /\ vBg (sParams (bdVote ballot)) = 0 /\ vBb (sParams (bdVote ballot)) = 1 /\
    bdUpper ballot = bdLower ballot /\ length (ipGg (ipParams (pIPP (bdLower ballot)))) = 1%nat /\
    (ipL (pIPP (bdLower ballot)) = [] /\ ipR (pIPP (bdLower ballot)) = [] /\ exists X, ipHh (ipParams (pIPP (bdLower ballot))) = [Some X]) /\
    verifyVote (ModPGrp d) GE HO ballot (ppRP pp) = Ok (true, 2%nat).
Proof.
  intros d GE HO nan64 pp U V A S Hok LE Hn HS Hy. unfold setup in HS.
  destruct (Setup GE nan64 65536) as [bp| | |] eqn:HSb; try discriminate. cbn [bind] in HS.
  unfold vpSetup in HS. destruct (_ <? 1) eqn:Hb1; [discriminate|]. cbn [bind] in HS. injection HS as <-.
  cbn [ppBP ppRP vGFF vGEC].
  destruct (Setup_ok GE nan64 65536 bp eq_refl HSb) as [Hm|[_ Hs]]; [discriminate|].
  destruct Hs as (HN & _ & _ & HlG & HlH & _). change (Z.log2 65536) with 16 in *.
  destruct (C09_refuted GE HO (Z.to_nat 16) (bpG bp) (bpH bp) (bpGg bp) (bpHh bp) 0 0 A S LE ltac:(cbn; lia) HlG HlH Hy)
    as (pf & HpfE & Hpar & _ & _ & _ & Hl1 & Hsh & Hver).
  assert (Hbp : mkBPParams (Z.of_nat (Z.to_nat 16)) (bpG bp) (bpH bp) (bpGg bp) (bpHh bp) = bp).
  { change (Z.of_nat (Z.to_nat 16)) with 16. rewrite <- HN. destruct bp; reflexivity. }
  rewrite Hbp in Hpar, HpfE.
  set (GF := ModPGrp d).
  set (gff := mkGroupParams (G:=GF) (gGen GF) (gBase GF 13) (Some (gN GF)) (Some (gP GF))).
  set (gec := mkGroupParams (G:=GE) (gGen GE) (bpH bp) (Some (gN GE)) (Some (gP GF))).
  set (vp := mkSigmaProof (GF:=GF) (GE:=GE) (gBase GF 0) (vpCommit GF 1 0 gff) (vpCommit GE 1 0 gec) (vpCommit GE 1 0 gec)
    (Some 0) (Some 1) (Some 0) (Some 0) (Some 0) (mkProofParams 0 0 0 1 101 2000 gff gec)).
  exists (mkBallotData (mkCiphertext (G:=GF) U V) pf pf vp). cbn [bdBallot bdLower bdUpper bdVote].
  split; [unfold forgeBallot; cbn [ppBP ppRP vLo vHi vGFF vGEC]; rewrite <- HpfE; reflexivity|].
  split; [reflexivity|]. split; [exact Hpar|]. split; [exact Hpar|]. do 9 (split; [reflexivity|]). split; [exact Hl1|]. split; [exact Hsh|].
  unfold verifyVote. cbn [bdBallot bdLower bdUpper bdVote ctU ctV]. rewrite Hver. cbn [bind negb].
  match goal with |- context [vpVerify _ _ _ vp ?c] => set (comm := c) end.
  enough (Hv : vpVerify GF GE HO vp comm = Ok true) by (rewrite Hv; reflexivity).
  pose proof (okp d Hok) as Hp.
  assert (Hsc : forall X, gScale GF X 0 = 1).
  { intros X. cbn [GF ModPGrp gScale]. unfold mpScale, bigExp. cbn [Z.ltb Z.compare]. rewrite Zpow_mod_pow by lia.
    rewrite Z.pow_0_r, Z.mod_1_l by assumption. reflexivity. }
  assert (Hm1 : forall X, gAdd GF 1 (X mod mpField d) = X mod mpField d).
  { intros X. cbn [GF ModPGrp gAdd]. unfold mpAdd. rewrite Z.mul_1_l. apply Z.mod_mod. lia. }
  assert (HeqF : forall X, gEq GF X X = true) by (intros X; apply Z.eqb_refl).
  unfold vpVerify. cbn [vp sParams sZ sChal sSp sSq1 sSq2 sW sKp sKq1 sKq2 vBc vGFF vGEC deref bind].
  unfold zLowerBound, zUpperBound. cbn [vBx vBc vBb]. cbn [Z.add wrap16].
  change (bigExp2 (wrap16 0)) with 1. change (bigExp2 (wrap16 0 + 1)) with 2. cbn [Z.ltb Z.leb Z.compare Pos.compare Pos.compare_cont orb].
  unfold getFSChallenge, slice_to. change (Z.to_nat (0 / 8)) with 0%nat. cbn [Nat.leb firstn bind os2ip fold_left Z.eqb negb].
  assert (E1 : gEq GF (gBase GF 0) (gAdd GF (gScale GF (cY comm) 0) (gBase GF 0)) = true).
  { rewrite Hsc. assert (Hb : gBase GF 0 = 1 mod mpField d).
    { cbn [GF ModPGrp gBase]. unfold mpBaseScale, bigExp. cbn [Z.ltb Z.compare]. rewrite Zpow_mod_pow by lia. reflexivity. }
    rewrite Hb, Hm1. apply HeqF. }
  rewrite E1. cbn [negb].
  assert (E2 : sigmaPedersenCheck GF 1 0 0 (vpCommit GF 1 0 gff) (cXp comm) gff = true).
  { unfold sigmaPedersenCheck. rewrite Hsc. assert (Hb : vpCommit GF 1 0 gff = (gBase GF 1 * gScale GF (gpH gff) 0) mod mpField d) by reflexivity.
    rewrite Hb, Hm1. apply HeqF. }
  rewrite E2. cbn [negb].
  assert (E3 : forall X, sigmaPedersenCheck GE 1 0 0 (vpCommit GE 1 0 gec) X gec = true).
  { intros X. unfold sigmaPedersenCheck. rewrite (l_scale0 GE LE), (l_id GE LE). apply (l_eq GE LE). reflexivity. }
  rewrite !E3. reflexivity.
Qed.

(** Every pair of integers, members of the ElGamal group or not, is accepted as a ballot's ciphertext; the forger needs one
    pair (A,S) whose Bulletproof challenge is invertible. The Bulletproofs carry the setup parameters, the vote proof carries
    the election's groups, keys and candidate range. *)
Theorem C27_refuted : forall d GE HO nan64 pp U V A S,
  ModPOk d -> GrpLaws GE -> nanConv nan64 -> setup d GE nan64 = Ok pp ->
  Z.gcd (fst (HashBP GE HO A S)) (gN GE) = 1 ->
  exists ballot : BallotData (ModPGrp d) GE, ballot = forgeBallot d GE HO pp U V A S /\
    bdBallot ballot = mkCiphertext (G:=ModPGrp d) U V /\
    pParams (bdLower ballot) = ppBP pp /\ pParams (bdUpper ballot) = ppBP pp /\
    vGFF (sParams (bdVote ballot)) = vGFF (ppRP pp) /\ vGEC (sParams (bdVote ballot)) = vGEC (ppRP pp) /\
    vLo (sParams (bdVote ballot)) = 101 /\ vHi (sParams (bdVote ballot)) = 2000 /\
    verifyVote (ModPGrp d) GE HO ballot (ppRP pp) = Ok (true, 2%nat).
Proof.
  intros d GE HO nan64 pp U V A S Hok LE Hn HS Hy.
  destruct (forged_ballot d GE HO nan64 pp U V A S Hok LE Hn HS Hy) as (b & HbE & H1 & H2 & H3 & H4 & H5 & H6 & H7 & _ & _ & _ & _ & _ & _ & _ & H).
  exists b. repeat split; assumption.
Qed.

(** ** C28 *)
Theorem C28_all_proofs_checked : forall GF GE HO (b : BallotData GF GE) rp ok n,
  verifyVote GF GE HO b rp = Ok (ok, n) ->
  (ok = true <-> Verify GE HO (bdLower b) = Ok true /\ Verify GE HO (bdUpper b) = Ok true /\
     vpVerify GF GE HO (bdVote b) (mkVerCommitments (ctU (bdBallot b)) (ctV (bdBallot b))
       (gAdd GE (gBase GE (vLo rp)) (pV (bdLower b))) (gAdd GE (gBase GE (vHi rp)) (gScale GE (pV (bdUpper b)) (-1)))) = Ok true) /\
  (n = 0%nat <-> Verify GE HO (bdLower b) = Ok false \/ Verify GE HO (bdLower b) = Ok true /\ Verify GE HO (bdUpper b) = Ok false) /\
  (n = 0%nat \/ n = 2%nat) /\ (n = 0%nat -> ok = false).
Proof.
  intros GF GE HO b rp ok n H. unfold verifyVote in H.
  destruct (Verify GE HO (bdLower b)) as [[]| | |] eqn:E1; try discriminate; cbn [bind negb] in H.
  2:{ injection H as <- <-. repeat split; intros; try discriminate; try tauto; try (destruct H as (H & _); discriminate). }
  destruct (Verify GE HO (bdUpper b)) as [[]| | |] eqn:E2; try discriminate; cbn [bind negb] in H.
  2:{ injection H as <- <-. repeat split; intros; try discriminate; try tauto; try (destruct H as (_ & H & _); discriminate). }
  destruct (vpVerify _ _ _ _ _) as [r| | |] eqn:E3; try discriminate. cbn [bind] in H. injection H as <- <-.
  repeat split; intros; try discriminate; try congruence; try tauto.
  - destruct H as (_ & _ & H). congruence.
  - destruct H as [H|[_ H]]; discriminate.
Qed.
(** C50 for the server: two ballots with the same ciphertext, range commitments and first message of the vote proof, but different
    challenges, both accepted by verifyVote, hold a candidate in range (if the range commitments open to n-bit values) *)
Theorem C50_verified_ballots : forall GF GE HO1 HO2 (b1 b2 : BallotData GF GE) rp t1 t2 x rx y ry n,
  GrpLaws GF -> prime (gN GF) -> GrpPrime GE -> Digest32 HO1 -> Digest32 HO2 ->
  SetupParams rp -> 2 ^ (vBg rp - 1) <= gN GE -> 2 ^ (vBg rp - 1) <= gN GF ->
  0 <= vLo rp -> 0 <= vHi rp < 2 ^ vBx rp -> vLo rp + 2 * 2 ^ n <= gN GE ->
  verifyVote GF GE HO1 b1 rp = Ok (true, t1) -> verifyVote GF GE HO2 b2 rp = Ok (true, t2) ->
  bdBallot b1 = bdBallot b2 -> pV (bdLower b1) = pV (bdLower b2) -> pV (bdUpper b1) = pV (bdUpper b2) ->
  Opens GE (gpH (vGEC rp)) (pV (bdLower b1)) x rx -> 0 <= x < 2 ^ n ->
  Opens GE (gpH (vGEC rp)) (pV (bdUpper b1)) y ry -> 0 <= y < 2 ^ n ->
  let s1 := bdVote b1 in let s2 := bdVote b2 in
  sParams s1 = rp -> sParams s2 = rp ->
  sW s1 = sW s2 -> sKp s1 = sKp s2 -> sKq1 s1 = sKq1 s2 -> sKq2 s1 = sKq2 s2 -> sChal s1 <> sChal s2 ->
  Relation2 GE (gGen GE) (gpH (vGEC rp)) (relLow s1 s2 (vLo rp + x) rx) \/
  Relation2 GE (gGen GE) (gpH (vGEC rp)) (relHigh s1 s2 (vHi rp - y) (- ry)) \/
  exists v r, Encrypts GF (gpH (vGFF rp)) (ctU (bdBallot b1)) (ctV (bdBallot b1)) v r /\ Extracted s1 s2 r /\ v = vLo rp + x /\ vLo rp <= v <= vHi rp.
Proof.
  intros GF GE HO1 HO2 b1 b2 rp t1 t2 x rx y ry n LF PF PE D1 D2 HS HE HF Hlo Hhi Hn V1 V2 Hb Hl Hu O1 B1 O2 B2 s1 s2 P1 P2 Hw Hk H1 H2 Hc.
  apply C28_all_proofs_checked in V1, V2. destruct V1 as [[V1 _] _], V2 as [[V2 _] _].
  destruct (V1 eq_refl) as (_ & _ & A1). destruct (V2 eq_refl) as (_ & _ & A2). rewrite <- Hb, <- Hl, <- Hu in A2.
  set (comm := mkVerCommitments _ _ _ _) in A1, A2.
  exact (C50_sound_ballot_in_range GF GE HO1 HO2 rp s1 s2 comm (pV (bdLower b1)) (pV (bdUpper b1)) x rx y ry n LF PF PE D1 D2 HS HE HF Hlo Hhi Hn
    eq_refl eq_refl O1 B1 O2 B2 P1 P2 Hw Hk H1 H2 Hc A1 A2).
Qed.
(** verifyVote uses only the range of its parameters; the driver panics on a rejected Bulletproof *)
Theorem C28_parameters_ignored : forall GF GE HO (b : BallotData GF GE) rp rp',
  vLo rp = vLo rp' -> vHi rp = vHi rp' -> verifyVote GF GE HO b rp = verifyVote GF GE HO b rp'.
Proof. intros GF GE HO b rp rp' H1 H2. unfold verifyVote. rewrite H1, H2. reflexivity. Qed.
Theorem C28_driver_panics : forall GF GE HO (pp : PublicParameters GF GE) cr t success ballot ok,
  castVote GF GE HO pp cr = Ok ballot -> verifyVote GF GE HO ballot (ppRP pp) = Ok (ok, 0%nat) ->
  driverLoop GF GE HO pp (cr :: t) success = Panic.
Proof. intros GF GE HO pp cr t success ballot ok H1 H2. cbn [driverLoop]. rewrite H1. cbn [bind]. rewrite H2. reflexivity. Qed.

(** ** C43 *)
(** the outcome of setup for any curve group whose MapToGroup succeeds *)
Theorem C43_setup_outcome : forall d GE nan64, (forall s, exists X, gMap GE s = Ok X) -> bitLen (gN GE) < 65536 -> 0 <= bitLen (gN GE) ->
  (bitLen (gN GE) < 242 -> setup d GE nan64 = Err) /\
  (242 <= bitLen (gN GE) -> exists pp, setup d GE nan64 = Ok pp /\
     ppMin pp = 101 /\ ppMax pp = 2000 /\ vLo (ppRP pp) = 101 /\ vHi (ppRP pp) = 2000 /\
     vBx (ppRP pp) = 16 /\ vBc (ppRP pp) = 224 /\ vBg (ppRP pp) = bitLen (gN GE) /\ vBb (ppRP pp) = bitLen (gN GE) - 241 /\
     zLowerBound _ _ (ppRP pp) = 2 ^ 240 /\ zUpperBound _ _ (ppRP pp) = 2 ^ (bitLen (gN GE) - 1) /\
     bpN (ppBP pp) = 16 /\ length (bpGg (ppBP pp)) = 16%nat /\ length (bpHh (ppBP pp)) = 16%nat /\
     gpH (vGEC (ppRP pp)) = bpH (ppBP pp) /\ gpH (vGFF (ppRP pp)) = ppEGPK pp /\ ppEGPK pp = gBase (ModPGrp d) 13 /\
     gpF (vGEC (ppRP pp)) = Some (mpField d)).
Proof.
  intros d GE nan64 Hm HB HB0.
  destruct (Setup_total GE Hm nan64 65536) as (bp & HSb); [cbn; auto 10|].
  destruct (Setup_ok GE nan64 65536 bp eq_refl HSb) as [Hx|[_ Hs]]; [discriminate|].
  destruct Hs as (HN & _ & _ & HlG & HlH & _). change (Z.log2 65536) with 16 in *. change (Z.to_nat 16) with 16%nat in *.
  assert (Hw : wrap16 (bitLen (gN GE)) = bitLen (gN GE)) by (unfold wrap16; apply Z.mod_small; lia).
  split; intros HL.
  - unfold setup. rewrite HSb. cbn [bind]. unfold vpSetup. rewrite Hw.
    replace (_ <? 1) with true by (symmetry; apply Z.ltb_lt; lia). reflexivity.
  - unfold setup. rewrite HSb. cbn [bind]. unfold vpSetup. rewrite Hw.
    replace (_ <? 1) with false by (symmetry; apply Z.ltb_ge; lia). cbn [bind]. eexists. split; [reflexivity|].
    unfold zLowerBound, zUpperBound. cbn [ppMin ppMax ppRP ppBP ppEGPK vLo vHi vBx vBc vBg vBb vGEC vGFF gpH gpF].
    change (wrap16 (16 + 224)) with 240. unfold bigExp2.
    replace (240 + _ <=? 0) with false by (symmetry; apply Z.leb_gt; lia).
    repeat split; try reflexivity; try assumption; try lia. f_equal; lia.
Qed.
(** the four curves of main.go *)
Theorem C43_shipped_curves : forall GE nan64, (forall s, exists X, gMap GE s = Ok X) ->
  In (gN GE) [k1Order; r255Order; p256Order; p384Order] ->
  exists pp, setup rfcDesc GE nan64 = Ok pp /\ vBb (ppRP pp) = bitLen (gN GE) - 241 /\
    zUpperBound _ _ (ppRP pp) = 2 ^ (bitLen (gN GE) - 1) /\ zUpperBound _ _ (ppRP pp) < gN GE /\ gN GE < mpOrder rfcDesc /\
    12 <= vBb (ppRP pp).
Proof.
  intros GE nan64 Hm Hin.
  assert (HB : 253 <= bitLen (gN GE) < 65536 /\ 2 ^ (bitLen (gN GE) - 1) < gN GE /\ gN GE < mpOrder rfcDesc).
  { cbn [In] in Hin. destruct Hin as [<-|[<-|[<-|[<-|[]]]]]; vm_compute; repeat split; try reflexivity; discriminate. }
  destruct (C43_setup_outcome rfcDesc GE nan64 Hm ltac:(lia) ltac:(lia)) as [_ H].
  destruct (H ltac:(lia)) as (pp & HS & _ & _ & _ & _ & _ & _ & _ & HBb & _ & Hup & _).
  exists pp. rewrite HBb, Hup. repeat split; try assumption; try lia.
Qed.

(** ** Concrete cases *)
(** C24, C25, C26, C28 by computation: ElGamal over p = 8423, a curve group Z/101 and an election [3,6] with 2-bit
    Bulletproofs and 8-bit challenges; candidate 3 + 2 is chosen and the first draw of the vote proof aborts. *)
Definition aGff : GroupParams (ModPGrp dToy) := mkGroupParams (G:=ModPGrp dToy) 2 (gBase (ModPGrp dToy) 13) (Some 4211) (Some 8423).
Definition aBP : BPParams toy := match Setup toy 0 4 with Ok p => p | _ => mkBPParams (G:=toy) 0 (gId toy) (gId toy) [] [] end.
Definition aGec : GroupParams toy := mkGroupParams (G:=toy) (gGen toy) (bpH aBP) (Some 101) (Some 8423).
Definition aRP : ProofParams (ModPGrp dToy) toy := mkProofParams 3 8 13 1 3 6 aGff aGec.
Definition aPP : PublicParameters (ModPGrp dToy) toy := mkPublicParameters aGff aGec (gpH aGff) 3 6 aBP aRP.
Definition aRnd (s : Z) : BPRand := mkBPRand s 8 (fun i => Z.of_nat i + s) (fun i => 2 * Z.of_nat i + 1) 9 10 11.
Definition aHO : Oracles := mkOracles (fun b => map (fun i => (1 + Z.of_nat i + fold_left (fun acc x => (5 * acc + x + 7) mod 256) b 0) mod 256) (seq 0 32))
   (fun b => 1 + os2ip b mod 100).
Definition aCR : CastRand := mkCastRand 2 77 (aRnd 5) (aRnd 6) [mkDraw 3 1 2 3; mkDraw 2050 11 22 33; mkDraw 2049 1 2 3].
Definition aRun (spoil : bool) : res (bool * nat * Z * Z) :=
  b <- castVote (ModPGrp dToy) toy aHO aPP aCR ;;
  let l := bdLower b in
  let l' := if spoil then mkBulletProof (pV l) (pA l) (pS l) (pT2 l) (pT1 l) (pTaux l) (pMu l) (pTprime l) (pIPP l) (pParams l) else l in
  '(ok, n) <- verifyVote (ModPGrp dToy) toy aHO (mkBallotData (bdBallot b) l' (bdUpper b) (bdVote b)) aRP ;;
  Ok (ok, n, ctU (bdBallot b), gSub (ModPGrp dToy) (ctV (bdBallot b)) (gScale (ModPGrp dToy) (ctU (bdBallot b)) 13)).
(** accepted, and decrypts to 2^5; with T1 and T2 of the first Bulletproof swapped it is rejected without timings *)
Example C25_run : aRun false = Ok (true, 2%nat, 3917, 32) /\ aRun true = Ok (false, 0%nat, 3917, 32).
Proof. split; vm_compute; reflexivity. Qed.

(** C25, C27, C43: the hypotheses about setup hold for the constants of main.go, here with p = 2^253 - 1, generator 2, and
    the additive group of the order of ristretto255 as curve group *)
Definition dBig : ModPDesc := mkModPDesc 2 (2 ^ 253 - 1) (253 * 2 ^ 250) "toy253".
Lemma dBig_ok : ModPOk dBig.
Proof.
  split; [reflexivity|]. split; [reflexivity|]. split; [split; [discriminate|reflexivity]|].
  cbn [dBig mpGen mpOrder mpField]. rewrite Z.pow_mul_r by discriminate.
  rewrite <- (Z.mod_small 1 (2 ^ 253 - 1)) by (split; [discriminate|reflexivity]).
  apply (proj1 (eqm_mod _ _ _)). transitivity (1 ^ (2 ^ 250)).
  - apply eqm_pow. apply eqm_iff; [reflexivity|]. exists 1. reflexivity.
  - apply eqm_of_eq. apply Z.pow_1_l. discriminate.
Qed.
Definition hR : 1 < r255Order. Proof. reflexivity. Qed.
Definition gR : Grp := ToyGrp r255Order hR.
Definition oneHO : Oracles := mkOracles (fun _ => repeat 0 31 ++ [1]) (fun _ => 1).
Definition bCR : CastRand := mkCastRand 1234 77 (aRnd 5) (aRnd 6) [mkDraw 3 1 2 3; mkDraw (2 ^ 241) 11 22 33].
Example C25_case : exists pp ballot, setup dBig gR 0 = Ok pp /\ CastDrawsOk pp bCR /\
  castVote (ModPGrp dBig) gR oneHO pp bCR = Ok ballot /\
  verifyVote (ModPGrp dBig) gR oneHO ballot (ppRP pp) = Ok (true, 2%nat).
Proof.
  assert (HB : bitLen (gN gR) = 253) by reflexivity.
  assert (HQ : gN gR <= mpOrder dBig) by discriminate.
  destruct (C43_setup_outcome dBig gR 0) as [_ HS]; [intros s; eexists; reflexivity|rewrite HB; lia|rewrite HB; lia|].
  destruct (HS ltac:(rewrite HB; lia)) as (pp & HSe & Hmin & Hmax & _ & _ & _ & _ & HBg & _). rewrite HB in HBg.
  assert (HD : CastDrawsOk pp bCR).
  { split; [rewrite Hmin, Hmax; cbn [bCR cr_choice]; lia|]. intros dr Hin. unfold DrawOk. rewrite HBg. cbn [bCR cr_vp In] in Hin.
    destruct Hin as [<-|[<-|[]]]; cbn [dk dtp dtq1 dtq2]; repeat split; try discriminate; reflexivity. }
  assert (Hdig : Digest32 oneHO).
  { intros b. split; [reflexivity|]. apply Forall_forall. intros x Hx. cbn in Hx. unfold is_byte.
    repeat (destruct Hx as [<-|Hx]; [lia|]). destruct Hx. }
  assert (HI : forall A B, HashBP gR oneHO A B = (1, 1)) by reflexivity.
  destruct (C25_cast_returns dBig gR oneHO 0 pp bCR dBig_ok (toyLaws r255Order hR)) as (b & Hb); try assumption.
  - right. reflexivity.
  - rewrite HB. reflexivity.
  - reflexivity.
  - intros A B. rewrite HI. cbn [fst]. apply Z.gcd_1_l.
  - eexists. reflexivity.
  - exists (mkDraw (2 ^ 241) 11 22 33). split; [right; left; reflexivity|]. rewrite HBg. cbn [dk]. split; discriminate.
  - exists pp, b. split; [exact HSe|]. split; [exact HD|]. split; [exact Hb|].
    apply (C25_end_to_end dBig gR oneHO 0 pp bCR b dBig_ok (toyLaws r255Order hR)); try assumption.
    + right. reflexivity.
    + rewrite HB. reflexivity.
Qed.
(** the two transcripts of C21_C50_case inside ballots whose Bulletproofs are honest proofs of the bits 1 and 0 *)
Definition cBP : BPParams toyE := mkBPParams (G:=toyE) 1 (gGen toyE) (gpH toyGec) [gBase toyE 77] [gBase toyE 88].
Definition cBallot (HO : Oracles) (s : SigmaProof toyF toyE) : res (BallotData toyF toyE) :=
  '(l, _) <- Prove toyE HO 1 cBP (mkBPRand 55 8 (fun _ => 5) (fun _ => 6) 9 10 11) ;;
  '(u, _) <- Prove toyE HO 0 cBP (mkBPRand (-66) 8 (fun _ => 5) (fun _ => 6) 9 10 11) ;;
  Ok (mkBallotData (mkCiphertext (G:=toyF) (cY toyComm) (cXp toyComm)) l u s).
Definition cCheck (seed : Z) (s : SigmaProof toyF toyE) : res (bool * nat * Z * Z) :=
  b <- cBallot (toyD seed) s ;; '(ok, n) <- verifyVote toyF toyE (toyD seed) b toyPr ;;
  Ok (ok, n, zv 4111 (pV (bdLower b)), zv 4111 (pV (bdUpper b))).
Example C50_case : cCheck 0 toyPf1 = Ok (true, 2%nat, zv 4111 toyV1, zv 4111 toyV2) /\
  cCheck 100 toyPf2 = Ok (true, 2%nat, zv 4111 toyV1, zv 4111 toyV2) /\ sChal toyPf1 <> sChal toyPf2.
Proof. split; [vm_compute; reflexivity|]. split; [vm_compute; reflexivity|]. vm_compute. discriminate. Qed.
Example C27_case : Z.gcd (fst (HashBP gR oneHO (gGen gR) (gId gR))) (gN gR) = 1. Proof. vm_compute. reflexivity. Qed.
Example C43_case : bitLen r255Order = 253 /\ bitLen p256Order = 256 /\ bitLen k1Order = 256 /\ bitLen p384Order = 384. Proof. repeat split. Qed.

Print Assumptions C24_decrypts.
Print Assumptions C24_binding.
Print Assumptions C24_small_order_panics.
Print Assumptions C24_modp.
Print Assumptions C25_consistent_params.
Print Assumptions C25_end_to_end.
Print Assumptions C25_cast_returns.
Print Assumptions C25_driver_succeeds.
Print Assumptions C26_choice_in_range.
Print Assumptions C26_last_candidate_never.
Print Assumptions C26_single_candidate_panics.
Print Assumptions C27_refuted.
Print Assumptions C28_all_proofs_checked.
Print Assumptions C50_verified_ballots.
Print Assumptions C28_parameters_ignored.
Print Assumptions C28_driver_panics.
Print Assumptions C43_setup_outcome.
Print Assumptions C43_shipped_curves.
