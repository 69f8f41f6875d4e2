(** C82: parameters compared or not, a ballot for any number is accepted. *)
From Verif Require Import GoBase Json GroupIface Vector BIP BP VoteProof ModP App ECJson Marshal NumTh Alg VectorProofs BIPProofs BPProofs SetupProofs ModPProofs
  BytesProofs Toy Hom PropBP PropVote PropModP PropApp PropJson PropRead PropCopy Primes PrimeCerts PropPrime PropDeaf PropK1Sound PropReplay PropTally.
From Coq Require Import Znumtheory.

(** ** Specification: every parameter a ballot carries is the one of the election. The inner-product generators are those an honest voter
    derives: g_i as they are, h_i scaled by the powers of 1/y, U from its fixed string; the inner product claimed is t'. *)
Definition StrictRange {GE : Grp} (HO : Oracles) (bp : BPParams GE) (B : BulletProof GE) : Prop :=
  pParams B = bp /\ length (ipL (pIPP B)) = 4%nat /\ length (ipR (pIPP B)) = 4%nat /\ ipCc (pIPP B) = pTprime B /\
  exists hp u, updateGenerators GE (bpHh bp) (fst (HashBP GE HO (pA B) (pS B))) (bpN bp) = Ok hp /\ gMap GE (str_bytes SEEDU) = Ok u /\
    ipParams (pIPP B) = mkIPParams (bpGg bp) (map Some hp) u.
Definition StrictBallot {GF GE : Grp} (HO : Oracles) (pp : PublicParameters GF GE) (b : BallotData GF GE) : Prop :=
  StrictRange HO (ppBP pp) (bdLower b) /\ StrictRange HO (ppBP pp) (bdUpper b) /\ sParams (bdVote b) = ppRP pp.

(** the voter: castVote with another range proof (forgeEqual of C47) and a number of one's own *)
Definition castAny (GF GE : Grp) (HO : Oracles) (pp : PublicParameters GF GE) (v r g1 g2 : Z) (drs : list Draw) : res (BallotData GF GE) :=
  '(ct, rp) <- encryptVote GF v (ppEGPK pp) r ;;
  b1 <- forgeEqual GE HO (ppBP pp) (v - ppMin pp) g1 ;;
  b2 <- forgeEqual GE HO (ppBP pp) (ppMax pp - v) g2 ;;
  pf <- vpProve GF GE HO v rp g1 (gN GE - g2) (ppRP pp) drs ;;
  Ok (mkBallotData ct b1 b2 pf).
Lemma castAny_hom : forall G1 G2 GE f, GHom G1 G2 f -> forall HO pp v r g1 g2 drs,
  castAny G2 GE HO (mapPub f pp) v r g1 g2 drs = res_map (mapBallot f) (castAny G1 GE HO pp v r g1 g2 drs).
Proof.
  intros G1 G2 GE f HF HO pp v r g1 g2 drs. unfold castAny. cbn [mapPub ppMin ppMax ppEGPK ppBP ppEC ppRP].
  rewrite (encryptVote_hom G1 G2 f HF). destruct (encryptVote G1 _ _ _) as [[ct rp]| | |]; try reflexivity. cbn [bind res_map fst snd].
  destruct (forgeEqual GE HO _ _ g1) as [b1| | |]; try reflexivity. cbn [bind].
  destruct (forgeEqual GE HO _ _ g2) as [b2| | |]; try reflexivity. cbn [bind].
  rewrite (vpProve_hom G1 G2 GE f HF). destruct (vpProve G1 _ _ _ _ _ _ _ _); reflexivity.
Qed.

Lemma vec_lists : forall G HO k Gt H g h v aL aR rnd pf gam, GrpLaws G ->
  ProveVec G HO v (tab (2 ^ k) aL) (tab (2 ^ k) aR) (mkBPParams (Z.of_nat (2 ^ k)) Gt H (tab (2 ^ k) g) (tab (2 ^ k) h)) rnd = Ok (pf, gam) ->
  WFLists pf /\ length (ipL (pIPP pf)) = k /\ length (ipR (pIPP pf)) = k.
Proof.
  intros G HO k Gt H g h v aL aR rnd pf gam HL HP. pose proof HP as HP0. apply (honest_vec G HO HL) in HP.
  destruct HP as (Hpar & _ & _ & _ & Hl & Hr & _ & _ & (hp & u & HG & HH & Hup & _) & _). split; [|split; assumption].
  exists hp. assert (Hn0 : exists n', (2 ^ k)%nat = Datatypes.S n') by (exists (pred (2 ^ k)); pose proof (Nat.pow_nonzero 2 k); lia). destruct Hn0 as [n' Hn0].
  rewrite Hn0 in Hup. destruct (updateGenerators_ok G HL n' _ _ _ Hup) as (i & -> & _).
  assert (HR : exists rs, ipR (pIPP pf) = map Some rs).
  { unfold ProveVec in HP0.
    repeat match type of HP0 with
    | bind ?e _ = Ok _ => destruct e eqn:?; cbn [bind] in HP0; try discriminate
    | (let '(_, _) := ?e in _) = Ok _ => destruct e
    end.
    injection HP0 as <- _. cbn [pIPP].
    match goal with Hq : proveInnerProduct _ _ _ _ _ _ _ _ = Ok _ |- _ => rename Hq into HQ end.
    unfold proveInnerProduct in HQ. destruct (negb _); [discriminate|]. destruct (hashIP _ _ _ _ _ _) as [x| | |]; try discriminate. cbn [bind] in HQ.
    destruct (computePP _ _ _ _ _) as [[PP ux]| | |]; try discriminate. cbn [bind] in HQ. destruct (mapM _ _) as [hh| | |]; try discriminate. cbn [bind] in HQ.
    destruct (computeBipRecursive _ _ _ _ _ _ _ _ _ _ _ _) as [[[[[? ?] ?] ?] ?]| | |]; try discriminate. cbn [bind] in HQ. injection HQ as <-. cbn [ipR]. eexists. reflexivity. }
  destruct HR as [rs HR]. exists rs. split; [exact HH|]. split; [rewrite HG, !tab_length; lia|]. split; [exact HR|].
  rewrite HR, map_length in Hr. congruence.
Qed.

Lemma bind_fst : forall {A B} (e : res (A * B)) x, bind e (fun '(a, _) => Ok a) = Ok x -> exists y, e = Ok (x, y).
Proof. intros A B [[a b]| | |] x H; try discriminate. injection H as ->. exists b. reflexivity. Qed.
(** what is needed of a range proof for v *)
Definition GoodRange {G : Grp} (HO : Oracles) (params : BPParams G) (v gamma : Z) (pf : BulletProof G) : Prop :=
  forgeEqual G HO params v gamma = Ok pf /\ StrictRange HO params pf /\ pV pf = gAdd G (gBase G v) (gScale G (bpH params) gamma) /\
  WFLists pf /\ Verify G HO pf = Ok true.
(** the range proof: any integer at all *)
Lemma forged_range : forall G HO nan64 params v gamma, GrpLaws G -> ChallengesInvertible G HO -> Z.odd (gN G) = true -> nanConv nan64 ->
  (exists u, gMap G (str_bytes SEEDU) = Ok u) -> Setup G nan64 65536 = Ok params ->
  exists pf, GoodRange HO params v gamma pf.
Proof.
  intros G HO nan64 params v gamma HL HI Hodd Hn Hu HS.
  destruct (Setup_ok G nan64 65536 params eq_refl HS) as [Hm|[_ Hs]]; [discriminate|].
  destruct Hs as (HN & _ & _ & HlG & HlH & _). change (Z.log2 65536) with 16 in *. change (Z.to_nat 16) with (2 ^ 4)%nat in *.
  assert (Hp : mkBPParams (Z.of_nat (2 ^ 4)) (bpG params) (bpH params) (bpGg params) (bpHh params) = params).
  { change (Z.of_nat (2 ^ 4)) with 16. rewrite <- HN. destruct params; reflexivity. }
  destruct (C47_equal_challenges_unsound G HO 4 (bpG params) (bpH params) (bpGg params) (bpHh params) v gamma HL HI Hodd Hu ltac:(cbn; lia) HlG HlH)
    as (pf & hp & u & HF & Hpar & HV & Hup & HU & HIP & Hcc & Hver).
  rewrite Hp in HF, Hpar. change (Z.of_nat (2 ^ 4)) with 16 in Hup.
  assert (HW : WFLists pf /\ length (ipL (pIPP pf)) = 4%nat /\ length (ipR (pIPP pf)) = 4%nat).
  { clear - HL HF HlG HlH Hp. unfold forgeEqual in HF. rewrite HlG in HF. rewrite <- Hp in HF.
    rewrite (tab_nth' (gId G) (bpGg params) _ HlG), (tab_nth' (gId G) (bpHh params) _ HlH) in HF.
    apply bind_fst in HF. destruct HF as (gam & E).
    apply (vec_lists G HO 4 _ _ _ _ _ _ _ _ _ _ HL) in E. exact E. }
  destruct HW as (HW & H4 & H5). exists pf. split; [exact HF|]. split.
  { split; [exact Hpar|]. split; [exact H4|]. split; [exact H5|]. split; [exact Hcc|]. exists hp, u. rewrite HN. auto. }
  split; [exact HV|]. split; [exact HW|exact Hver].
Qed.

Lemma vpProve_params : forall GF GE HO drs x rp r1 r2 (pr : ProofParams GF GE) pf, vpProve GF GE HO x rp r1 r2 pr drs = Ok pf -> sParams pf = pr.
Proof.
  intros GF GE HO. induction drs as [|dr t IH]; intros x rp r1 r2 pr pf Ep; [discriminate|]. cbn [vpProve] in Ep. unfold vpIter in Ep.
  destruct (posN (gpN (vGFF pr))); try discriminate. destruct (posN (gpN (vGEC pr))); try discriminate. cbn [bind] in Ep.
  destruct (getFSChallenge _ _ _ _ _ _ _ _) as [c| | |]; try discriminate. cbn [bind] in Ep. destruct (_ || _); cbn [bind] in Ep; [eapply IH; exact Ep|].
  injection Ep as <-. reflexivity.
Qed.

Lemma castAny_good : forall d GE HO nan64 pp v r g1 g2 drs dr b1 b2, SafePrime2 d -> GrpLaws GE -> JsonRoundtrip GE -> nanConv nan64 ->
  Digest32 HO -> bitLen (gN GE) < 65536 -> gN GE <= mpOrder d -> 2 < mpOrder d ->
  setup d GE nan64 = Ok pp -> 0 <= v < 2 ^ 16 -> (forall dr', In dr' drs -> DrawOk (ppRP pp) dr') ->
  In dr drs -> 2 ^ 240 <= dk dr <= 2 ^ (vBg (ppRP pp) - 1) - 2 ^ 240 ->
  GoodRange HO (ppBP pp) (v - ppMin pp) g1 b1 -> GoodRange HO (ppBP pp) (ppMax pp - v) g2 b2 ->
  exists b, castAny (ModPGrp d) GE HO pp v r g1 g2 drs = Ok b /\
    StrictBallot HO pp b /\ bdLower b = b1 /\ bdUpper b = b2 /\
    ReadsAs (mpField d) 2 13 (ctU (bdBallot b)) (ctV (bdBallot b)) v /\
    verifyVote (ModPGrp d) GE HO b (ppRP pp) = Ok (true, 2%nat) /\
    exists j, encBallotData (ModPGrp d) GE b = Ok j /\ BallotDataUnmarshalJSON (ModPGrp d) GE (Some j) pp = Ok b.
Proof.
  intros d GE HO nan64 pp v r g1 g2 drs dr b1 b2 HS0 LE JE Hn HDig HB HQ Hq2 HS Hv Hd Hin Hk (F1 & S1 & V1 & W1 & A1) (F2 & S2 & V2 & W2 & A2). pose proof (l_order GE LE) as HN. pose proof (safe_ok d HS0) as Hok.
  assert (HQ2 : 2 ^ (bitLen (gN GE) - 1) <= mpOrder d).
  { unfold bitLen. replace (gN GE =? 0) with false by (symmetry; apply Z.eqb_neq; lia). rewrite Z.abs_eq by lia.
    replace (Z.log2 (gN GE) + 1 - 1) with (Z.log2 (gN GE)) by lia. pose proof (Z.log2_spec (gN GE) ltac:(lia)). lia. }
  destruct (setup_key d GE nan64 pp HS) as (HK & _ & _).
  assert (HSb : Setup GE nan64 65536 = Ok (ppBP pp) /\ WFInts (ppRP pp)).
  { clear - HS HB HN. unfold setup in HS. destruct (Setup GE nan64 65536) as [bp| | |]; try discriminate. cbn [bind] in HS.
    assert (Hb0 : 0 <= bitLen (gN GE)) by (unfold bitLen; destruct (_ =? 0); [lia|pose proof (Z.log2_nonneg (Z.abs (gN GE))); lia]).
    assert (Hw : wrap16 (bitLen (gN GE)) = bitLen (gN GE)) by (unfold wrap16; apply Z.mod_small; lia). rewrite Hw in HS.
    unfold vpSetup in HS. destruct (_ <? 1) eqn:H1; [discriminate|]. cbn [bind] in HS. apply Z.ltb_ge in H1. injection HS as <-.
    split; [reflexivity|]. unfold WFInts. cbn [ppRP vBx vBc vBg vBb vLo vHi]. lia. }
  destruct HSb as [HSb HWI].
  destruct (setup_consistent d GE nan64 pp Hok Hn ltac:(lia) HB HQ2 HS) as (pp0 & Epp & C & HR & HBx & HBc & Hmin & Hmax).
  assert (Ebp : ppBP pp = ppBP pp0) by (rewrite Epp; reflexivity). assert (Emin : ppMin pp = ppMin pp0) by (rewrite Epp; reflexivity).
  assert (Emax : ppMax pp = ppMax pp0) by (rewrite Epp; reflexivity).
  assert (EBg : vBg (ppRP pp) = vBg (ppRP pp0)) by (rewrite HR; reflexivity). assert (EBx : vBx (ppRP pp) = vBx (ppRP pp0)) by (rewrite HR; reflexivity).
  assert (EBc : vBc (ppRP pp) = vBc (ppRP pp0)) by (rewrite HR; reflexivity).
  assert (Hd0 : forall dr', In dr' drs -> DrawOk (ppRP pp0) dr') by (intros x Hx; specialize (Hd x Hx); rewrite HR in Hd; exact Hd).
  destruct (C46_progress (SubGrp d Hok) GE HO (ppRP pp0) v (r + 1) g1 (gN GE - g2) drs dr HDig ltac:(change (gN (SubGrp d Hok)) with (mpOrder d); lia) (N_pos LE) (cs_rp _ _ C)) as (pf & Epf).
  { rewrite <- EBc, HBc. lia. } { rewrite <- EBx, HBx. exact Hv. } { exact Hin. } { rewrite <- EBx, <- EBc, <- EBg, HBx, HBc. exact Hk. }
  set (ct := mkCiphertext (G:=SubGrp d Hok) (gBase (SubGrp d Hok) (r + 1)) (gAdd (SubGrp d Hok) (gBase (SubGrp d Hok) v) (gScale (SubGrp d Hok) (ppEGPK pp0) (r + 1)))).
  assert (E0 : castAny (SubGrp d Hok) GE HO pp0 v r g1 g2 drs = Ok (mkBallotData ct b1 b2 pf)).
  { unfold castAny, encryptVote, randInt. change (gN (SubGrp d Hok)) with (mpOrder d). replace (mpOrder d - 1 <=? 0) with false by (symmetry; apply Z.leb_gt; lia).
    cbn [bind]. rewrite <- Ebp, <- Emin, <- Emax, F1. cbn [bind]. rewrite F2. cbn [bind]. rewrite Epf. reflexivity. }
  assert (E1 : castAny (ModPGrp d) GE HO pp v r g1 g2 drs = Ok (mapBallot (emb d Hok) (mkBallotData ct b1 b2 pf))).
  { rewrite Epp at 1. rewrite (castAny_hom _ _ GE (emb d Hok) (emb_hom d Hok)), E0. reflexivity. }
  exists (mapBallot (emb d Hok) (mkBallotData ct b1 b2 pf)). split; [exact E1|].
  assert (HP : sParams (bdVote (mapBallot (emb d Hok) (mkBallotData ct b1 b2 pf))) = ppRP pp).
  { rewrite HR. cbn [mapBallot bdVote mapPf sParams]. f_equal. eapply vpProve_params. exact Epf. }
  split; [split; [exact S1|split; [exact S2|exact HP]]|]. split; [reflexivity|]. split; [reflexivity|]. split.
  { assert (HU : ctU (bdBallot (mapBallot (emb d Hok) (mkBallotData ct b1 b2 pf))) = gBase (ModPGrp d) (r + 1) /\
      ctV (bdBallot (mapBallot (emb d Hok) (mkBallotData ct b1 b2 pf))) = gAdd (ModPGrp d) (gBase (ModPGrp d) v) (gScale (ModPGrp d) (gBase (ModPGrp d) 13) (r + 1))).
    { unfold castAny, encryptVote, randInt in E1. rewrite HK in E1. destruct (gN (ModPGrp d) - 1 <=? 0); [discriminate|]. cbn [bind] in E1. rewrite F1 in E1. cbn [bind] in E1.
      rewrite F2 in E1. cbn [bind] in E1. destruct (vpProve (ModPGrp d) GE HO v (r + 1) g1 (gN GE - g2) (ppRP pp) drs) as [pf'| | |]; try discriminate. cbn [bind] in E1.
      split; [apply (f_equal (fun o : res (BallotData (ModPGrp d) GE) => match o with Ok b => ctU (bdBallot b) | _ => (0 : E (ModPGrp d)) end)) in E1|apply (f_equal (fun o : res (BallotData (ModPGrp d) GE) => match o with Ok b => ctV (bdBallot b) | _ => (0 : E (ModPGrp d)) end)) in E1];
        cbn [bdBallot ctU ctV] in E1; symmetry; exact E1. }
    destruct HU as [-> ->]. pose proof (reads_cast d HS0 v (r + 1) ltac:(lia)) as HRd. replace (mpGen d) with 2 in HRd by (symmetry; apply HS0). exact HRd. }
  split.
  - rewrite HR, (verifyVote_hom _ _ GE (emb d Hok) (emb_hom d Hok)).
    unfold verifyVote. cbn [bdLower bdUpper bdBallot bdVote ctU ctV ct]. rewrite A1. cbn [bind negb]. rewrite A2. cbn [bind negb].
    pose proof (SubLaws d Hok) as LF.
    rewrite (C18_completeness (SubGrp d Hok) GE HO (ppRP pp0) v (r + 1) g1 (gN GE - g2) drs pf _ LF LE (cs_rp _ _ C) (cs_q _ _ C) Hd0); [reflexivity| |exact Epf].
    unfold TrueStatement, Encrypts, Opens. cbn [cY cXp cXq1 cXq2]. rewrite (cs_pk _ _ C), (cs_h _ _ C), (cs_lo _ _ C), (cs_hi _ _ C), V1, V2, Ebp, Emin, Emax.
    rewrite !(l_base _ LF). split; [split; reflexivity|]. split.
    + glin LE.
    + glin LE. apply eqm_iff; [apply (N_pos LE)|]. exists (-1). ring.
  - apply (C35_ballot_roundtrip (ModPGrp d) GE (C35_modp_elements d) JE); [apply S1|apply S2|exact W1|exact W2|]. rewrite HP. exact HWI.
Qed.

(** C82. Whatever number v of 16 bits the voter wants, candidate or not, castAny makes a ballot in which all parameters are those of the
    election, which is read as v, which the server accepts, and which survives JSON. *)
Theorem C82_any_number : forall d GE HO nan64 pp v r g1 g2 drs dr, SafePrime2 d -> GrpLaws GE -> Z.odd (gN GE) = true -> JsonRoundtrip GE -> nanConv nan64 ->
  Digest32 HO -> ChallengesInvertible GE HO -> (exists u, gMap GE (str_bytes SEEDU) = Ok u) -> bitLen (gN GE) < 65536 -> gN GE <= mpOrder d -> 2 < mpOrder d ->
  setup d GE nan64 = Ok pp -> 0 <= v < 2 ^ 16 -> (forall dr', In dr' drs -> DrawOk (ppRP pp) dr') ->
  In dr drs -> 2 ^ 240 <= dk dr <= 2 ^ (vBg (ppRP pp) - 1) - 2 ^ 240 ->
  exists b, castAny (ModPGrp d) GE HO pp v r g1 g2 drs = Ok b /\
    StrictBallot HO pp b /\
    ReadsAs (mpField d) 2 13 (ctU (bdBallot b)) (ctV (bdBallot b)) v /\
    verifyVote (ModPGrp d) GE HO b (ppRP pp) = Ok (true, 2%nat) /\
    exists j, encBallotData (ModPGrp d) GE b = Ok j /\ BallotDataUnmarshalJSON (ModPGrp d) GE (Some j) pp = Ok b.
Proof.
  intros d GE HO nan64 pp v r g1 g2 drs dr HS0 LE Hodd JE Hn HDig HI Hu HB HQ Hq2 HS Hv Hd Hin Hk.
  assert (HSb : Setup GE nan64 65536 = Ok (ppBP pp)).
  { clear - HS. unfold setup in HS. destruct (Setup GE nan64 65536) as [bp| | |]; try discriminate. cbn [bind] in HS.
    unfold vpSetup in HS. destruct (_ <? 1); [discriminate|]. cbn [bind] in HS. injection HS as <-. reflexivity. }
  destruct (forged_range GE HO nan64 (ppBP pp) (v - ppMin pp) g1 LE HI Hodd Hn Hu HSb) as (b1 & F1).
  destruct (forged_range GE HO nan64 (ppBP pp) (ppMax pp - v) g2 LE HI Hodd Hn Hu HSb) as (b2 & F2).
  destruct (castAny_good d GE HO nan64 pp v r g1 g2 drs dr b1 b2 HS0 LE JE Hn HDig HB HQ Hq2 HS Hv Hd Hin Hk F1 F2) as (b & E & S & _ & _ & R & A & J).
  exists b. repeat split; try assumption; apply S.
Qed.
(** ... so a number that is no candidate's is accepted and then found to be nobody's vote, though 65536 trials would show it *)
Theorem C82_not_a_candidate : forall d U V v, SafePrime2 d -> 2 ^ 16 <= mpOrder d -> V mod mpField d <> 0 -> 0 <= v < 2 ^ 16 -> ~ 101 <= v <= 2000 ->
  ReadsAs (mpField d) 2 13 U V v ->
  readVote (mpField d) 2 13 U V candidates = None /\ forall l, In v l -> (forall y, In y l -> 0 <= y < 2 ^ 16) -> readVote (mpField d) 2 13 U V l = Some v.
Proof.
  intros d U V v HS HQ HV Hv Hout H. assert (Hg : mpGen d = 2) by apply HS.
  assert (Hu : forall y, 0 <= y < 2 ^ 16 -> (V mod mpField d =? (2 ^ y * U ^ 13) mod mpField d) = true -> y = v).
  { intros y Hy Hf. apply Z.eqb_eq in Hf. pose proof (reads_unique d HS 13 U V y v ltac:(lia) ltac:(lia) ltac:(lia) HV) as HU. rewrite Hg in HU.
    specialize (HU Hf H). rewrite !Z.mod_small in HU by lia. exact HU. }
  split.
  - unfold readVote. destruct (find _ candidates) as [y|] eqn:E; [|reflexivity]. exfalso. apply find_some in E. destruct E as [Hin Hf]. apply in_candidates in Hin.
    apply Hu in Hf; [subst y; apply Hout; exact Hin|lia].
  - intros l Hin Hl. apply find_unique; [exact Hin|apply Z.eqb_eq; exact H|]. intros y Hy Hf. apply Hu; [apply Hl; exact Hy|exact Hf].
Qed.

(** ** Concrete cases *)
(** by computation: candidates 3 to 6, range proofs of 4 bits. The honest voter's way, range proofs of -3 and 6, is refused for the number 0; castAny's ballots
    for 0 and for 7 are accepted. They are read as 0 and 7, and as none of the candidates. *)
Definition sBP : BPParams toy := match Setup toy 0 16 with Ok p => p | _ => mkBPParams (G:=toy) 0 (gId toy) (gId toy) [] [] end.
Definition sGec : GroupParams toy := mkGroupParams (G:=toy) (gGen toy) (bpH sBP) (Some 101) (Some 8423).
Definition sRP : ProofParams (ModPGrp dToy) toy := mkProofParams 3 8 13 1 3 6 aGff sGec.
Definition sPP : PublicParameters (ModPGrp dToy) toy := mkPublicParameters aGff sGec (gpH aGff) 3 6 sBP sRP.
Definition sRun (v : Z) : res (option Z * option Z * (bool * nat)) :=
  b <- castAny (ModPGrp dToy) toy aHO sPP v 77 5 6 [mkDraw 3 1 2 3; mkDraw 2050 11 22 33; mkDraw 2049 1 2 3] ;; r <- verifyVote (ModPGrp dToy) toy aHO b sRP ;;
  let ct := bdBallot b in Ok (readVote 8423 2 13 (ctU ct) (ctV ct) [0; 1; 2; 3; 4; 5; 6; 7], readVote 8423 2 13 (ctU ct) (ctV ct) [3; 4; 5; 6], r).
Example C82_case : sRun 0 = Ok (Some 0, None, (true, 2%nat)) /\ sRun 7 = Ok (Some 7, None, (true, 2%nat)) /\
  (pf <- Prove toy aHO (-3) sBP (aRnd 5) ;; Verify toy aHO (fst pf)) = Ok false.
Proof. split; [|split]; vm_compute; reflexivity. Qed.
(** the hypotheses of C82_any_number, with the constants of setup: candidate 5000 *)
Example C82_program_case : exists pp, let drs := [mkDraw (2 ^ 241) 11 22 33] in
  SafePrime2 dSafe /\ GrpLaws gR /\ Z.odd (gN gR) = true /\ JsonRoundtrip gR /\ nanConv 0 /\ Digest32 (hoC 6) /\ ChallengesInvertible gR (hoC 6) /\
  (exists u, gMap gR (str_bytes SEEDU) = Ok u) /\ bitLen (gN gR) < 65536 /\ gN gR <= mpOrder dSafe /\ 2 ^ 16 <= mpOrder dSafe /\
  setup dSafe gR 0 = Ok pp /\ 0 <= 5000 < 2 ^ 16 /\ (forall dr', In dr' drs -> DrawOk (ppRP pp) dr') /\
  2 ^ 240 <= dk (mkDraw (2 ^ 241) 11 22 33) <= 2 ^ (vBg (ppRP pp) - 1) - 2 ^ 240.
Proof.
  cbv zeta. assert (HB : bitLen (gN gR) = 253) by reflexivity. assert (HB2 : bitLen (gN gR) < 65536) by (rewrite HB; lia).
  destruct (C43_setup_outcome dSafe gR 0) as [_ HS]; [intros s; eexists; reflexivity|rewrite HB; lia|rewrite HB; lia|].
  destruct (HS ltac:(rewrite HB; lia)) as (pp & HSe & Hmin & Hmax & Hlo & Hhi & _ & HBc & HBg & _). rewrite HB in HBg.
  exists pp. split; [exact dSafe_safe|]. split; [exact (toyLaws r255Order hR)|]. split; [reflexivity|]. split; [apply toy_json|]. split; [right; reflexivity|].
  split; [apply (hoC_digest 6); lia|]. split; [intros A B; vm_compute; reflexivity|]. split; [eexists; reflexivity|]. split; [exact HB2|].
  split; [vm_compute; discriminate|]. split; [vm_compute; discriminate|]. split; [exact HSe|]. split; [lia|]. split.
  - intros dr Hin. unfold DrawOk. rewrite HBg. cbn [In] in Hin. destruct Hin as [<-|[]]; cbn [dk dtp dtq1 dtq2]; repeat split; try discriminate; reflexivity.
  - rewrite HBg. cbn [dk]. split; discriminate.
Qed.

Print Assumptions C82_any_number.
Print Assumptions C82_not_a_candidate.
