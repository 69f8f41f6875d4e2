(** C83, continued: the other theorems that ask for invertible challenges (C05, C06, C44, C70, C71, C65, C68), with a condition on the digests of the run
    at hand in place of one on all pairs of elements. *)
From Verif Require Import GoBase Json GroupIface Vector BIP BP MultiBP VoteProof ModP App ECJson Marshal NumTh Alg VectorProofs BIPProofs BPProofs SetupProofs ModPProofs
  Toy Hom PropBP PropIP PropVote PropModP PropApp PropJson PropRead PropMulti PropZK PropMultiVerify PropMultiZK
  Imp ImpProofs ImpFuns ImpBP PropImp ImpVote ImpVoteProofs PropImpVote ImpJson ImpJsonProofs PropImpJson PropReplay PropChal.

(** ** Specification *)
(** the strings hashed for an aggregated proof *)
Definition mHashInputs {G : Grp} (pf : MultiBulletProof G) : list bytes :=
  (gStr G (mT1 pf) ++ gStr G (mT2 pf)) :: (gStr G (mA pf) ++ gStr G (mS pf)) :: ipInputs (mIPP pf).
Definition MDigestsInvertible {G : Grp} (HO : Oracles) (pf : MultiBulletProof G) : Prop := forall b, In b (mHashInputs pf) -> digestInv (gN G) HO b = true.
(** the digests of the two range proofs of one voter, given what that voter draws *)
Definition CastDigests {GF GE : Grp} (HO : Oracles) (pp : PublicParameters GF GE) (cr : CastRand) : Prop :=
  forall B g, Prove GE (guarded (gN GE) HO) (cr_choice cr) (ppBP pp) (cr_bp1 cr) = Ok (B, g) \/
              Prove GE (guarded (gN GE) HO) (1899 - cr_choice cr) (ppBP pp) (cr_bp2 cr) = Ok (B, g) -> DigestsInvertible HO B.

(** ** The inner-product prover and verifier *)
Theorem C83_inner_product : forall G HO k fuel a b Gg Hh u P c,
  GrpLaws G -> (k <= fuel)%nat ->
  length a = (2 ^ k)%nat -> length b = (2 ^ k)%nat -> length Gg = (2 ^ k)%nat -> length Hh = (2 ^ k)%nat ->
  exists pf, proveInnerProduct G (guarded (gN G) HO) fuel a b P (Some c) (mkIPParams Gg (map Some Hh) u) = Ok pf /\
    ((forall s, In s (ipInputs pf) -> digestInv (gN G) HO s = true) ->
     proveInnerProduct G HO fuel a b P (Some c) (mkIPParams Gg (map Some Hh) u) = Ok pf).
Proof.
  intros G HO k fuel a b Gg Hh u P c HL Hf Ha Hb Hg Hh'.
  destruct (C06_prover_returns G (guarded (gN G) HO) k fuel a b Gg Hh u P c HL (guarded_inv G HO) Hf Ha Hb Hg Hh') as (pf & E).
  exists pf. split; [exact E|]. intros HD. apply (ip_ext G HO _ _ _ _ _ _ _ _ (l_order G HL) E). apply guarded_agree. exact HD.
Qed.

(** On empty vectors the prover hashes one pair over and over: if that digest is invertible it never ends. *)
Theorem C83_empty_diverges : forall G HO fuel u P c,
  GrpLaws G -> digestInv (gN G) HO (gStr G (gId G) ++ gStr G (gId G)) = true ->
  proveInnerProduct G HO fuel [] [] P (Some c) (mkIPParams [] [] u) = OutOfFuel.
Proof.
  intros G HO fuel u P c HL Hd. unfold proveInnerProduct. cbn.
  set (x := fromByteArray HO _). generalize (gAdd G P (gScale G (gScale G u x) c)). generalize (gScale G u x).
  intros ux PP. enough (Hr : forall fuel PP Ls Rs, computeBipRecursive G HO fuel [] [] [] [] ux PP 0 Ls Rs = OutOfFuel)
    by (rewrite Hr; reflexivity).
  induction fuel0 as [|f IH]; intros; [reflexivity|].
  cbn [computeBipRecursive Nat.eqb]. cbn -[HashBP modInverse computeBipRecursive].
  rewrite !(l_scale0 G HL), !(add_0_l HL).
  assert (Hx : Z.gcd (fst (HashBP G HO (gId G) (gId G))) (gN G) = 1) by (unfold HashBP; cbn [fst]; apply Z.eqb_eq; exact Hd).
  destruct (modInverse_ex _ _ (l_order G HL) Hx) as (i & Hi & _).
  destruct (sq_inv G HL _ i Hi) as (i2 & Hi2 & _). rewrite Hi2. cbn [deref bind].
  unfold foldGens, slice_to, slice_from, vectorScalarExp. cbn -[HashBP modInverse computeBipRecursive]. apply IH.
Qed.

(** ** A proof for any value (C05), with honest generators and no condition but on its own digests *)
Theorem C83_false_value : forall G HO k Gt H Gg Hh u v gamma, GrpLaws G ->
  let n := (2 ^ k)%nat in
  length Gg = n -> length Hh = n ->
  exists (pf : BulletProof G), forgeAnyValue G (guarded (gN G) HO) k (mkBPParams (Z.of_nat n) Gt H Gg Hh) u v gamma = Ok pf /\
    (DigestsInvertible HO pf -> exists hp,
       forgeAnyValue G HO k (mkBPParams (Z.of_nat n) Gt H Gg Hh) u v gamma = Ok pf /\
       pParams pf = mkBPParams (Z.of_nat n) Gt H Gg Hh /\
       pV pf = gAdd G (gBase G v) (gScale G H gamma) /\
       updateGenerators G Hh (fst (HashBP G HO (pA pf) (pS pf))) (Z.of_nat n) = Ok hp /\
       ipParams (pIPP pf) = mkIPParams Gg (map Some hp) u /\
       Verify G HO pf = Ok true).
Proof.
  intros G HO k Gt H Gg Hh u v gamma HL n HlG HlH. subst n.
  destruct (C05_refuted G (guarded (gN G) HO) k Gt H Gg Hh u v gamma HL (guarded_inv G HO) HlG HlH) as (pf & hp & F & E1 & E2 & E3 & E4 & E5).
  exists pf. split; [exact F|]. intros HD. pose proof (guarded_agree (gN G) HO _ HD) as [HF Ha]. unfold hashInputs in Ha.
  assert (EAS : HashBP G HO (pA pf) (pS pf) = HashBP G (guarded (gN G) HO) (pA pf) (pS pf)) by (apply HashBP_ext; apply Ha; right; left; reflexivity).
  exists hp. rewrite EAS. split; [|split; [exact E1|split; [exact E2|split; [exact E3|split; [exact E4|]]]]].
  - unfold forgeAnyValue in F |- *. cbv beta zeta in F |- *.
    destruct (HashBP G (guarded (gN G) HO) (gId G) (gId G)) as [y z] eqn:Eyz.
    destruct (proveInnerProduct G (guarded (gN G) HO) _ _ _ _ _ _) as [ipf| | |] eqn:Eip; try discriminate. cbn [bind] in F. injection F as <-.
    cbn [pA pS pIPP] in EAS, Ha. rewrite EAS, Eyz. cbv beta zeta.
    rewrite (proj2 (ip_ext G HO _ _ _ _ _ _ _ _ (l_order G HL) Eip)); [reflexivity|]. split; [exact HF|]. intros s Hs. apply Ha. right. right. exact Hs.
  - rewrite <- E5. apply C83_verify_inputs. split; [exact HF|exact Ha].
Qed.

(** ** Aggregated proofs *)
Theorem C83_multi_verify_inputs : forall G H1 H2 (pf : MultiBulletProof G), AgreeOn H1 H2 (mHashInputs pf) -> MultiVerify G H1 pf = MultiVerify G H2 pf.
Proof.
  intros G H1 H2 pf [HF H]. unfold mHashInputs in H. unfold MultiVerify.
  rewrite (HashBP_ext G H1 H2 (mT1 pf) (mT2 pf)) by (apply H; left; reflexivity).
  rewrite (HashBP_ext G H1 H2 (mA pf) (mS pf)) by (apply H; right; left; reflexivity).
  rewrite (ipVerify_ext G H1 H2 (mIPP pf)) by (split; [exact HF|intros b Hb; apply H; right; right; exact Hb]). reflexivity.
Qed.
Theorem C83_multi_returns : forall G HO nan64 e params vs gam rnd,
  GrpLaws G -> nanConv nan64 -> is_int64 e = true -> Setup G nan64 e = Ok params -> (exists u, gMap G (str_bytes SEEDU) = Ok u) ->
  vs <> [] -> bpN params mod Z.of_nat (length vs) = 0 ->
  exists pf gammas, MultiProve G (guarded (gN G) HO) vs params gam rnd = Ok (pf, gammas) /\
    (MDigestsInvertible HO pf -> MultiProve G HO vs params gam rnd = Ok (pf, gammas)).
Proof.
  intros G HO nan64 e params vs gam rnd HL Hn He HS Hu Hvs Hd.
  destruct (C71_prove_returns G (guarded (gN G) HO) nan64 e params vs gam rnd HL Hn He HS (guarded_inv G HO) Hu Hvs Hd) as (pf & gs & E).
  exists pf, gs. split; [exact E|]. intros HD. pose proof (guarded_agree (gN G) HO _ HD) as [HF Ha]. unfold mHashInputs in Ha.
  destruct (Setup_tab G nan64 e params Hn He HS) as (k & g & h & _ & _ & Hp).
  assert (HbN : bpN params = Z.of_nat (2 ^ k)) by (rewrite Hp; reflexivity). rewrite HbN in Hd.
  set (m := length vs) in *. assert (Hm : m <> 0%nat) by (unfold m; destruct vs; [contradiction|discriminate]).
  rewrite <- Nat2Z.inj_mod in Hd. pose proof (Nat.div_mod (2 ^ k) m Hm) as Hdm. rewrite (Nat2Z.inj _ 0 Hd), Nat.add_0_r in Hdm.
  pose proof (Nat.pow_nonzero 2 k ltac:(lia)) as H2. set (b := (2 ^ k / m)%nat) in *. clearbody b.
  rewrite Hp in E |- *. rewrite (tab_nth 0 vs) in E |- *. fold m in E |- *. rewrite Hdm in E |- *.
  rewrite (MultiProve_explicit G (guarded (gN G) HO) HL) in E by (destruct b; lia).
  rewrite (MultiProve_explicit G HO HL) by (destruct b; lia). cbv zeta in E |- *.
  set (A := Com G _ _ _ _ (r_alpha rnd) _ _) in *. set (S := Com G _ _ _ _ (r_rho rnd) _ _) in *.
  assert (K : forall T1 T2 y tx mu bl br par Vs, finishM G (guarded (gN G) HO) par Vs A S T1 T2 y tx mu (tab m gam) bl br = Ok (pf, gs) ->
    mA pf = A /\ mS pf = S /\ mT1 pf = T1 /\ mT2 pf = T2 /\ finishM G HO par Vs A S T1 T2 y tx mu (tab m gam) bl br = Ok (pf, gs)).
  { intros T1 T2 y tx mu bl br par Vs F. unfold finishM in F |- *.
    destruct (updateGenerators _ _ _ _) as [hp| | |]; try discriminate. cbn [bind] in F |- *.
    destruct (setupInnerProduct _ _ _ _) as [ipp| | |]; try discriminate. cbn [bind] in F |- *.
    destruct (commitInnerProduct _ _ _ _ _) as [cm| | |]; try discriminate. cbn [bind] in F |- *.
    destruct (proveInnerProduct G (guarded (gN G) HO) _ _ _ _ _ _) as [ipf| | |] eqn:Eip; try discriminate. cbn [bind] in F.
    apply Ok_pair in F. destruct F as [-> ->]. cbn [mA mS mT1 mT2]. do 4 (split; [reflexivity|]). cbn [mIPP] in Ha.
    rewrite (proj2 (ip_ext G HO _ _ _ _ _ _ _ _ (l_order G HL) Eip)); [reflexivity|]. split; [exact HF|]. intros s Hs. apply Ha. right. right. exact Hs. }
  destruct (K _ _ _ _ _ _ _ _ _ E) as (EA & ES & _). 
  assert (EAS : HashBP G HO A S = HashBP G (guarded (gN G) HO) A S) by (rewrite <- EA, <- ES; apply HashBP_ext; apply Ha; right; left; reflexivity).
  rewrite EAS. set (T1 := PedersenCommit G _ (r_tau1 rnd) _) in *. set (T2 := PedersenCommit G _ (r_tau2 rnd) _) in *.
  destruct (K _ _ _ _ _ _ _ _ _ E) as (_ & _ & ET1 & ET2 & E').
  assert (ETT : HashBP G HO T1 T2 = HashBP G (guarded (gN G) HO) T1 T2) by (rewrite <- ET1, <- ET2; apply HashBP_ext; apply Ha; left; reflexivity).
  rewrite ETT. exact E'.
Qed.
(** a proof for any list of values (C70) *)
Theorem C83_false_values : forall G HO k Gt H Gg Hh u (vs : list (Z * Z)), GrpLaws G ->
  let n := (2 ^ k)%nat in
  length Gg = n -> length Hh = n -> vs <> [] ->
  exists (pf : MultiBulletProof G), forgeMany G (guarded (gN G) HO) k (mkBPParams (Z.of_nat n) Gt H Gg Hh) u vs = Ok pf /\
    (MDigestsInvertible HO pf -> exists hp,
       forgeMany G HO k (mkBPParams (Z.of_nat n) Gt H Gg Hh) u vs = Ok pf /\
       mParams pf = mkBPParams (Z.of_nat n) Gt H Gg Hh /\
       mVs pf = map (fun vg => gAdd G (gBase G (fst vg)) (gScale G H (snd vg))) vs /\
       updateGenerators G Hh (fst (HashBP G HO (mA pf) (mS pf))) (Z.of_nat n) = Ok hp /\
       ipParams (mIPP pf) = mkIPParams Gg (map Some hp) u /\
       MultiVerify G HO pf = Ok true).
Proof.
  intros G HO k Gt H Gg Hh u vs HL n HlG HlH Hvs. subst n.
  destruct (C70_forged G (guarded (gN G) HO) k Gt H Gg Hh u vs HL (guarded_inv G HO) HlG HlH Hvs) as (pf & hp & F & E1 & E2 & E3 & E4 & E5).
  exists pf. split; [exact F|]. intros HD. pose proof (guarded_agree (gN G) HO _ HD) as [HF Ha]. unfold mHashInputs in Ha.
  assert (EAS : HashBP G HO (mA pf) (mS pf) = HashBP G (guarded (gN G) HO) (mA pf) (mS pf)) by (apply HashBP_ext; apply Ha; right; left; reflexivity).
  exists hp. rewrite EAS. split; [|split; [exact E1|split; [exact E2|split; [exact E3|split; [exact E4|]]]]].
  - unfold forgeMany in F |- *. cbv beta zeta in F |- *.
    destruct (HashBP G (guarded (gN G) HO) (gId G) (gId G)) as [y z] eqn:Eyz.
    destruct (proveInnerProduct G (guarded (gN G) HO) _ _ _ _ _ _) as [ipf| | |] eqn:Eip; try discriminate. cbn [bind] in F. injection F as <-.
    cbn [mA mS mIPP] in EAS, Ha. rewrite EAS, Eyz. cbv beta zeta.
    rewrite (proj2 (ip_ext G HO _ _ _ _ _ _ _ _ (l_order G HL) Eip)); [reflexivity|]. split; [exact HF|]. intros s Hs. apply Ha. right. right. exact Hs.
  - rewrite <- E5. apply C83_multi_verify_inputs. split; [exact HF|exact Ha].
Qed.

(** ** Elections on shared objects *)
Lemma cast_digests : forall d GE HO nan64 pp cr,
  ModPOk d -> GrpLaws GE -> nanConv nan64 -> bitLen (gN GE) < 65536 -> gN GE <= mpOrder d -> 2 < mpOrder d ->
  setup d GE nan64 = Ok pp -> CastDrawsOk pp cr -> Digest32 HO -> (exists u, gMap GE (str_bytes SEEDU) = Ok u) ->
  (exists dr, In dr (cr_vp cr) /\ 2 ^ 240 <= dk dr <= 2 ^ (vBg (ppRP pp) - 1) - 2 ^ 240) -> CastDigests HO pp cr ->
  exists ballot, castVote (ModPGrp d) GE HO pp cr = Ok ballot.
Proof.
  intros d GE HO nan64 pp cr Hok LE Hn HB HQ Hq2 HS HD HDig Hu Hdr HI.
  destruct (C83_cast_returns d GE HO nan64 pp cr Hok LE Hn HB HQ Hq2 HS HD HDig Hu Hdr) as (B1 & g1 & B2 & g2 & E1 & E2 & K).
  destruct (K (HI _ _ (or_introl E1)) (HI _ _ (or_intror E2))) as (ballot & E & _). exists ballot. exact E.
Qed.

(** an election (C65): every voter's own digests are invertible *)
Theorem C83_election : forall d GE HO nan64 vpp crs h NF PF NE two,
  ModPOk d -> GrpLaws GE -> nanConv nan64 -> bitLen (gN GE) < 65536 -> gN GE <= mpOrder d -> 2 < mpOrder d ->
  setup d GE nan64 = Ok vpp -> Digest32 HO -> (exists u, gMap GE (str_bytes SEEDU) = Ok u) ->
  Forall (fun cr => CastDrawsOk vpp cr /\ (exists dr, In dr (cr_vp cr) /\ 2 ^ 240 <= dk dr <= 2 ^ (vBg (ppRP vpp) - 1) - 2 ^ 240) /\ CastDigests HO vpp cr) crs ->
  zAt GE (sub _ _ h) NF (Some (mpOrder d)) -> zAt GE (sub _ _ h) PF (Some (mpField d)) ->
  zAt GE (sub _ _ h) NE (Some (gN GE)) -> zAt GE (sub _ _ h) two (Some 2) ->
  exists pp h1 ballots h2,
    iMainSetup (ModPGrp d) GE nan64 NF PF NE h = Ok (pp, h1) /\ Unchanged2 (ModPGrp d) GE h h1 /\
    iCastAll (ModPGrp d) GE HO pp crs NF NE two h1 = Ok (ballots, h2) /\ Unchanged2 (ModPGrp d) GE h1 h2 /\
    length ballots = length crs /\
    forall bs, (forall b, In b bs -> In b ballots) ->
      exists h3, iVerifyAll (ModPGrp d) GE HO bs (yRP pp) NE two h2 = Ok (repeat (true, 2%nat) (length bs), h3) /\
        Unchanged2 (ModPGrp d) GE h2 h3.
Proof.
  intros d GE HO nan64 vpp crs h NF PF NE two Hok LE Hn HB HQ Hq2 HS HDig Hu HC HF HP HE HT.
  destruct h as [F W s]. cbn [sub] in *.
  pose proof (iMainSetup_ok d GE nan64 NF PF NE F W s HF HP HE) as K. unfold wp2 in K.
  destruct (iMainSetup (ModPGrp d) GE nan64 NF PF NE (mkH2 (ModPGrp d) GE F W s)) as [[pp h1]| | |]; try congruence.
  destruct K as (vpp' & HS' & P1 & R). rewrite HS in HS'. injection HS' as <-.
  pose proof (pre_z _ _ _ (proj2 P1) _ _ HF) as HF1. pose proof (pre_z _ _ _ (proj2 P1) _ _ HE) as HE1.
  pose proof (pre_z _ _ _ (proj2 P1) _ _ HT) as HT1. cbn [sub] in *.
  assert (HCast : Forall (fun cr => exists v, castVote (ModPGrp d) GE HO vpp cr = Ok v) crs).
  { eapply Forall_impl; [|exact HC]. intros cr (HD & Hdr & HI). exact (cast_digests d GE HO nan64 vpp cr Hok LE Hn HB HQ Hq2 HS HD HDig Hu Hdr HI). }
  destruct (castAll_ok (ModPGrp d) GE HO pp vpp crs NF NE two h1 R HF1 HE1 HT1 HCast) as (bs & h2 & E & P2 & A).
  exists pp, h1, bs, h2. split; [reflexivity|]. split; [exact (Pre2_Unchanged _ _ _ _ P1)|]. split; [exact E|].
  split; [exact (Pre2_Unchanged _ _ _ _ P2)|]. split; [clear - A; induction A; cbn; congruence|].
  intros l Hl.
  destruct (verifyAll_ok (ModPGrp d) GE HO (yRP pp) (ppRP vpp) l NE two h2) as (h3 & E3 & P3).
  - apply (repPP_pre (ModPGrp d) GE _ _ _ _ _ _ _ _ (proj1 P2) (proj2 P2)). apply R.
  - exact (pre_z _ _ _ (proj2 P2) _ _ HE1).
  - exact (pre_z _ _ _ (proj2 P2) _ _ HT1).
  - apply Forall_forall. intros b Hb. apply Hl in Hb. destruct (castAll_values _ _ _ _ _ _ _ A b Hb) as (cr & v & I & Ec & Rv).
    exists v. split; [exact Rv|]. rewrite Forall_forall in HC. destruct (HC cr I) as (HD & _).
    exact (C25_end_to_end d GE HO nan64 vpp cr v Hok LE Hn HB HQ HS HD Ec).
  - exists h3. split; [exact E3|exact (Pre2_Unchanged _ _ _ _ P3)].
Qed.

(** an election by mail (C68) *)
Theorem C83_election_by_mail : forall d GE HO nan64 vpp crs h NF PF NE two,
  ModPOk d -> GrpLaws GE -> JsonRoundtrip GE -> nanConv nan64 -> bitLen (gN GE) < 65536 -> gN GE <= mpOrder d -> 2 < mpOrder d ->
  setup d GE nan64 = Ok vpp -> Digest32 HO -> (exists u, gMap GE (str_bytes SEEDU) = Ok u) ->
  Forall (fun cr => CastDrawsOk vpp cr /\ (exists dr, In dr (cr_vp cr) /\ 2 ^ 240 <= dk dr <= 2 ^ (vBg (ppRP vpp) - 1) - 2 ^ 240) /\ CastDigests HO vpp cr) crs ->
  zAt GE (sub _ _ h) NF (Some (mpOrder d)) -> zAt GE (sub _ _ h) PF (Some (mpField d)) ->
  zAt GE (sub _ _ h) NE (Some (gN GE)) -> zAt GE (sub _ _ h) two (Some 2) ->
  exists pp h1 ballots h2,
    iMainSetup (ModPGrp d) GE nan64 NF PF NE h = Ok (pp, h1) /\ Unchanged2 (ModPGrp d) GE h h1 /\
    iCastAll (ModPGrp d) GE HO pp crs NF NE two h1 = Ok (ballots, h2) /\ Unchanged2 (ModPGrp d) GE h1 h2 /\
    length ballots = length crs /\
    forall bs, (forall b, In b bs -> In b ballots) ->
      exists cs h3, iSendAll (ModPGrp d) GE pp bs h2 = Ok (cs, h3) /\ Unchanged2 (ModPGrp d) GE h2 h3 /\ length cs = length bs /\
        forall l, (forall c, In c l -> In c cs) ->
        exists h4, iVerifyAll (ModPGrp d) GE HO l (yRP pp) NE two h3 = Ok (repeat (true, 2%nat) (length l), h4) /\
          Unchanged2 (ModPGrp d) GE h3 h4.
Proof.
  intros d GE HO nan64 vpp crs h NF PF NE two Hok LE JE Hn HB HQ Hq2 HS HDig Hu HC HF HP HE HT.
  destruct h as [F W s]. cbn [sub] in *.
  pose proof (iMainSetup_ok d GE nan64 NF PF NE F W s HF HP HE) as K. unfold wp2 in K.
  destruct (iMainSetup (ModPGrp d) GE nan64 NF PF NE (mkH2 (ModPGrp d) GE F W s)) as [[pp h1]| | |]; try congruence.
  destruct K as (vpp' & HS' & P1 & R). rewrite HS in HS'. injection HS' as <-.
  pose proof (pre_z _ _ _ (proj2 P1) _ _ HF) as HF1. pose proof (pre_z _ _ _ (proj2 P1) _ _ HE) as HE1.
  pose proof (pre_z _ _ _ (proj2 P1) _ _ HT) as HT1. cbn [sub] in *.
  assert (HCast : Forall (fun cr => exists v, castVote (ModPGrp d) GE HO vpp cr = Ok v) crs).
  { eapply Forall_impl; [|exact HC]. intros cr (HD & Hdr & HI). exact (cast_digests d GE HO nan64 vpp cr Hok LE Hn HB HQ Hq2 HS HD HDig Hu Hdr HI). }
  destruct (castAll_ok (ModPGrp d) GE HO pp vpp crs NF NE two h1 R HF1 HE1 HT1 HCast) as (ballots & h2 & E & P2 & A).
  exists pp, h1, ballots, h2. split; [reflexivity|]. split; [exact (Pre2_Unchanged _ _ _ _ P1)|]. split; [exact E|].
  split; [exact (Pre2_Unchanged _ _ _ _ P2)|]. split; [clear - A; induction A; cbn; congruence|].
  pose proof (repPub_pre (ModPGrp d) GE _ _ pp vpp P2 R) as R2.
  pose proof (pre_z _ _ _ (proj2 P2) _ _ HE1) as HE2. pose proof (pre_z _ _ _ (proj2 P2) _ _ HT1) as HT2.
  pose proof (castAll_values _ _ _ _ _ _ _ A) as AV.
  intros bs Hbs.
  assert (HV : exists vs, Forall2 (fun b v => repBallot (ModPGrp d) GE (fe _ _ h2) (sub _ _ h2) b v) bs vs /\
    Forall (fun v => exists cr, In cr crs /\ castVote (ModPGrp d) GE HO vpp cr = Ok v) vs).
  { clear - AV Hbs. induction bs as [|b bs IH]; [exists []; split; constructor|].
    destruct IH as (vs & I1 & I2); [intros b' I; apply Hbs; right; exact I|].
    destruct (AV b (Hbs b (or_introl eq_refl))) as (cr & v & I & Ec & Rv). exists (v :: vs). split; constructor; try assumption. exists cr. split; assumption. }
  destruct HV as (vs & RV & CV).
  destruct (sendAll_ok (ModPGrp d) GE pp vpp bs vs h2 R2 RV) as (cs & h3 & E3 & P3 & RC).
  { eapply Forall_impl; [|exact CV]. intros v (cr & _ & Hv). exact (C35_cast_roundtrip d GE HO nan64 vpp cr v JE LE Hn HB HS Hv). }
  exists cs, h3. split; [exact E3|]. split; [exact (Pre2_Unchanged _ _ _ _ P3)|].
  split; [clear - RC RV; transitivity (length vs); [clear RV; induction RC; cbn; congruence|clear RC; induction RV; cbn; congruence]|].
  intros l Hl.
  destruct (verifyAll_ok (ModPGrp d) GE HO (yRP pp) (ppRP vpp) l NE two h3) as (h4 & E4 & P4).
  - apply (repPP_pre (ModPGrp d) GE _ _ _ _ _ _ _ _ (proj1 P3) (proj2 P3)). apply R2.
  - exact (pre_z _ _ _ (proj2 P3) _ _ HE2).
  - exact (pre_z _ _ _ (proj2 P3) _ _ HT2).
  - apply Forall_forall. intros c Hc. apply Hl in Hc. revert Hc CV. clear - RC HC Hok LE Hn HB HQ HS.
    induction RC as [|c' v cs' vs' Rv A IH]; [intros []|intros [Hb|Hb] CV]; inversion CV as [|? ? (cr & Icr & Ecr) CV']; subst.
    + exists v. split; [exact Rv|]. rewrite Forall_forall in HC. destruct (HC cr Icr) as [HD _].
      exact (C25_end_to_end d GE HO nan64 vpp cr v Hok LE Hn HB HQ HS HD Ecr).
    + apply IH; assumption.
  - exists h4. split; [exact E4|exact (Pre2_Unchanged _ _ _ _ P4)].
Qed.

(** ** Concrete cases: a hash function with a bad digest on the unused string (0, 1), so that ChallengesInvertible fails *)
Definition mdInvb {G : Grp} (HO : Oracles) (pf : MultiBulletProof G) : bool := forallb (digestInv (gN G) HO) (mHashInputs pf).
Lemma mdInvb_ok : forall G HO (pf : MultiBulletProof G), mdInvb HO pf = true -> MDigestsInvertible HO pf.
Proof. intros G HO pf H b Hb. unfold mdInvb in H. rewrite forallb_forall in H. apply H, Hb. Qed.
Example C83_more_cases :
  (exists pf, forgeAnyValue toy (guarded 101 (hoBad badUnused)) 2 toyParams (gGen toy) 77 5 = Ok pf /\ DigestsInvertible (hoBad badUnused) pf) /\
  (exists pf gs, MultiProve toy (guarded 101 (hoBad badUnused)) [1; 3] toyParams (fun j => 40 + Z.of_nat j) toyRnd = Ok (pf, gs) /\ MDigestsInvertible (hoBad badUnused) pf) /\
  (exists pf, forgeMany toy (guarded 101 (hoBad badUnused)) 2 toyParams (gId toy) [(77, 5); (-3, 8); (50, 0)] = Ok pf /\ MDigestsInvertible (hoBad badUnused) pf) /\
  digestInv (gN toy) (hoBad badUnused) (gStr toy (gId toy) ++ gStr toy (gId toy)) = true.
Proof.
  split; [|split; [|split; [|vm_compute; reflexivity]]].
  - destruct (res_one (forgeAnyValue toy (guarded 101 (hoBad badUnused)) 2 toyParams (gGen toy) 77 5) (dInvb (hoBad badUnused))) as (pf & E & HD); [vm_compute; reflexivity|].
    exists pf. split; [exact E|apply dInvb_ok; exact HD].
  - destruct (res_pair (MultiProve toy (guarded 101 (hoBad badUnused)) [1; 3] toyParams (fun j => 40 + Z.of_nat j) toyRnd) (mdInvb (hoBad badUnused))) as (pf & gs & E & HD); [vm_compute; reflexivity|].
    exists pf, gs. split; [exact E|apply mdInvb_ok; exact HD].
  - destruct (res_one (forgeMany toy (guarded 101 (hoBad badUnused)) 2 toyParams (gId toy) [(77, 5); (-3, 8); (50, 0)]) (mdInvb (hoBad badUnused))) as (pf & E & HD); [vm_compute; reflexivity|].
    exists pf. split; [exact E|apply mdInvb_ok; exact HD].
Qed.
(** the condition on the voters of C83_election, for the hash function of C25_case *)
Example C83_voters_case : forall GF (pp : PublicParameters GF gR) cr, CastDigests oneHO pp cr.
Proof. intros GF pp cr B g _ b _. vm_compute. reflexivity. Qed.

Print Assumptions C83_inner_product.
Print Assumptions C83_empty_diverges.
Print Assumptions C83_false_value.
Print Assumptions C83_multi_verify_inputs.
Print Assumptions C83_multi_returns.
Print Assumptions C83_false_values.
Print Assumptions C83_election.
Print Assumptions C83_election_by_mail.
