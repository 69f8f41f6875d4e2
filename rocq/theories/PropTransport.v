(** C53: JSON transport of ballots over the two curve groups whose elements do not survive it, secp256k1 and
    ristretto255; C51 for ristretto255. *)
From Verif Require Import GoBase Json GroupIface Vector BIP BP VoteProof ModP App ECJson P256k1 Groups Marshal NumTh Alg
  VectorProofs BIPProofs BPProofs SetupProofs ModPProofs BytesProofs Toy Hom PropBP PropVote PropModP PropApp PropEC PropJson.

(** ** C51 for ristretto255 *)
Theorem C51_ristretto_contract : forall c n ri, RistrettoOk c n ri -> GrpLaws (RistGrp c n ri).
Proof.
  intros c n ri RO. pose proof (ro_order _ _ _ RO) as Hn.
  constructor; cbn [RistGrp gN gAdd gSub gNeg gScale gBase gEq gIsId gId gGen].
  - exact Hn.
  - intros. apply (ro_comm _ _ _ RO).
  - intros. apply (ro_assoc _ _ _ RO).
  - intros. apply (ro_id _ _ _ RO).
  - intros. apply (ro_neg _ _ _ RO).
  - reflexivity.
  - intros. unfold rgScale. rewrite Zmod_0_l. apply (ro_mul0 _ _ _ RO).
  - intros X s. unfold rgScale, rgAdd. pose proof (Z.mod_pos_bound s n ltac:(lia)).
    rewrite <- (Zplus_mod_idemp_l s 1 n). destruct (Z.eq_dec (s mod n + 1) n) as [e|e].
    + rewrite e, Z_mod_same_full, (ro_mul0 _ _ _ RO). replace (s mod n) with (n - 1) by lia. symmetry. apply (ro_exp _ _ _ RO).
    + rewrite (Z.mod_small (s mod n + 1)) by lia. apply (ro_mulS _ _ _ RO); lia.
  - intros. unfold rgScale. rewrite Z_mod_same_full. apply (ro_mul0 _ _ _ RO).
  - intros. apply (ro_gen _ _ _ RO). apply Z.mod_pos_bound. lia.
  - apply (ro_eq _ _ _ RO).
  - apply (ro_isid _ _ _ RO).
Qed.

(** ** C53 *)
(** UnmarshalJSON never changes its receiver, whatever the message *)
Definition Deaf (G : Grp) : Prop := forall old r X ok, gOfJson G old r = Ok (X, ok) -> X = old.
(** every curve element of the ballot is the freshly allocated Element() *)
Definition BlankIPP {G : Grp} (p : IPProof G) : Prop :=
  ipP p = gNew G /\ ipUu (ipParams p) = gNew G /\
  Forall (eq (gNew G)) (ipGg (ipParams p)) /\ Forall (eq (gNew G)) (ipL p) /\
  Forall (fun o => o = None \/ o = Some (gNew G)) (ipHh (ipParams p)) /\
  Forall (fun o => o = None \/ o = Some (gNew G)) (ipR p).
Definition BlankBP {G : Grp} (p : BulletProof G) : Prop :=
  pV p = gNew G /\ pA p = gNew G /\ pS p = gNew G /\ pT1 p = gNew G /\ pT2 p = gNew G /\ BlankIPP (pIPP p).
Definition BlankCurve {GF GE : Grp} (b : BallotData GF GE) : Prop :=
  BlankBP (bdLower b) /\ BlankBP (bdUpper b) /\ sKq1 (bdVote b) = gNew GE /\ sKq2 (bdVote b) = gNew GE /\
  gpG (vGEC (sParams (bdVote b))) = gNew GE /\ gpH (vGEC (sParams (bdVote b))) = gNew GE.

Section DeafDec.
Context (G : Grp) (D : Deaf G).
Lemma deaf_elt : forall j X, decElt G j = Ok X -> X = gNew G.
Proof.
  intros j X H. unfold decElt in H. destruct (gOfJson G (gNew G) j) as [[Y ok]| | |] eqn:E; try discriminate. cbn [bind] in H.
  injection H as <-. apply (D _ _ _ _ E).
Qed.
Lemma deaf_pairs : forall js ks l r, decPairs G js ks = Ok (l, r) ->
  Forall (eq (gNew G)) l /\ Forall (fun o => o = None \/ o = Some (gNew G)) r.
Proof.
  induction js as [|j js IH]; intros ks l r H; cbn [decPairs] in H.
  - injection H as <- <-. split; [constructor|]. induction ks; constructor; auto.
  - destruct ks as [|k ks]; [discriminate|].
    destruct (decElt G (Some j)) as [X| | |] eqn:EX; try discriminate. cbn [bind] in H.
    destruct (decElt G (Some k)) as [Y| | |] eqn:EY; try discriminate. cbn [bind] in H.
    destruct (decPairs G js ks) as [[l' r']| | |] eqn:EP; try discriminate. cbn [bind] in H. injection H as <- <-.
    destruct (IH ks l' r' EP) as [H1 H2]. apply deaf_elt in EX. apply deaf_elt in EY. subst X Y. split; constructor; auto.
Qed.
Lemma deaf_bp : forall r params pf, BulletProofUnmarshalJSON G r params = Ok pf -> BlankBP pf.
Proof.
  intros r params pf H. unfold BulletProofUnmarshalJSON in H. destruct (unmarshal _ _ _) as [t|]; [|discriminate].
  unfold ipProofFromRaw, ipParamsFromRaw in H.
  destruct (decElt G (jUu _)) as [U| | |] eqn:EU; try discriminate. cbn [bind] in H.
  destruct (decPairs G (jGg _) _) as [[gg hh]| | |] eqn:E1; try discriminate. cbn [bind] in H.
  destruct (decPairs G (jL _) _) as [[l rr]| | |] eqn:E2; try discriminate. cbn [bind] in H.
  destruct (decElt G (jP _)) as [P| | |] eqn:EP; try discriminate. cbn [bind] in H.
  destruct (decElt G (jV _)) as [V| | |] eqn:EV; try discriminate. cbn [bind] in H.
  destruct (decElt G (jA _)) as [A| | |] eqn:EA; try discriminate. cbn [bind] in H.
  destruct (decElt G (jS _)) as [S| | |] eqn:ES; try discriminate. cbn [bind] in H.
  destruct (decElt G (jT1 _)) as [T1| | |] eqn:ET1; try discriminate. cbn [bind] in H.
  destruct (decElt G (jT2 _)) as [T2| | |] eqn:ET2; try discriminate. cbn [bind] in H.
  injection H as <-. unfold BlankBP, BlankIPP. cbn [pV pA pS pT1 pT2 pIPP ipP ipParams ipUu ipGg ipL ipHh ipR].
  apply deaf_elt in EU, EP, EV, EA, ES, ET1, ET2. apply deaf_pairs in E1, E2. tauto.
Qed.
End DeafDec.

(** whatever the JSON document says, the curve elements of the ballot read from it are all Element() *)
Theorem C53_curve_elements_lost : forall GF GE doc (pp : PublicParameters GF GE) b, Deaf GE ->
  BallotDataUnmarshalJSON GF GE doc pp = Ok b -> BlankCurve b.
Proof.
  intros GF GE doc pp b D H. unfold BallotDataUnmarshalJSON in H. cbv zeta in H.
  destruct (BallotUnmarshalJSON GF _) as [ct| | |]; try discriminate. cbn [bind] in H.
  destruct (BulletProofUnmarshalJSON GE (jLower _) _) as [lo| | |] eqn:E1; try discriminate. cbn [bind] in H.
  destruct (BulletProofUnmarshalJSON GE (jUpper _) _) as [up| | |] eqn:E2; try discriminate. cbn [bind] in H.
  destruct (ProofUnmarshalJSON GF GE _) as [vp| | |] eqn:E3; try discriminate. cbn [bind] in H. injection H as <-.
  unfold BlankCurve. cbn [bdLower bdUpper bdVote].
  split; [apply (deaf_bp GE D _ _ _ E1)|]. split; [apply (deaf_bp GE D _ _ _ E2)|].
  unfold ProofUnmarshalJSON in E3. destruct (unmarshal stepSigmaProofJ _ _) as [t|]; [|discriminate]. cbv zeta in E3.
  destruct (decElt GF (jG _)); try discriminate. cbn [bind] in E3.
  destruct (decElt GF (jH _)); try discriminate. cbn [bind] in E3.
  destruct (decElt GE (jG _)) as [ge| | |] eqn:F1; try discriminate. cbn [bind] in E3.
  destruct (decElt GE (jH _)) as [he| | |] eqn:F2; try discriminate. cbn [bind] in E3.
  destruct (decElt GF (jW _)); try discriminate. cbn [bind] in E3.
  destruct (decElt GF (jKp _)); try discriminate. cbn [bind] in E3.
  destruct (decElt GE (jKq1 _)) as [k1| | |] eqn:F3; try discriminate. cbn [bind] in E3.
  destruct (decElt GE (jKq2 _)) as [k2| | |] eqn:F4; try discriminate. cbn [bind] in E3. injection E3 as <-.
  cbn [sKq1 sKq2 sParams vGEC gpG gpH]. apply (deaf_elt GE D) in F1, F2, F3, F4. tauto.
Qed.
Theorem C53_secp256k1_deaf : forall ing, Deaf (K1Grp ing).
Proof.
  intros ing old r X ok H. cbn in H. injection H as <- _. destruct old as [[x y]|]; reflexivity.
Qed.
Theorem C53_ristretto_deaf : forall c n ri, R255Contract c -> Deaf (RistGrp c n ri).
Proof.
  intros c n ri HC old r X ok H. cbn [RistGrp gOfJson] in H.
  destruct (C33_decode_fails c old r HC) as [E|E]; rewrite E in H; [injection H as <- _; reflexivity|discriminate].
Qed.

(** *** secp256k1: the ballot is sent and read without any error, with its curve elements erased *)
Section Erase.
Context (G : Grp) (f : E G -> E G).
Definition mapIPP (p : IPProof G) : IPProof G :=
  mkIPProof (f (ipP p)) (ipCc p) (ipA p) (ipB p) (map f (ipL p)) (map (option_map f) (ipR p))
    (mkIPParams (map f (ipGg (ipParams p))) (map (option_map f) (ipHh (ipParams p))) (f (ipUu (ipParams p)))).
(** the parameters of a decoded Bulletproof come from the reader *)
Definition mapBP (p : BulletProof G) : BulletProof G :=
  mkBulletProof (f (pV p)) (f (pA p)) (f (pS p)) (f (pT1 p)) (f (pT2 p)) (pTaux p) (pMu p) (pTprime p) (mapIPP (pIPP p)) (pParams p).
(** what is read back for X is f X *)
Definition JsonBecomes : Prop := forall X, exists j, gToJson G X = Ok j /\ decElt G (Some j) = Ok (f X).
Context (JR : JsonBecomes).
Definition Jm (j : json) (X : E G) : Prop := decElt G (Some j) = Ok (f X).
Lemma encElts_jm : forall l, exists js, mapM (gToJson G) l = Ok js /\ Forall2 Jm js l.
Proof.
  induction l as [|X l [js [IH1 IH2]]]; [exists []; split; [reflexivity|constructor]|].
  destruct (JR X) as [j [H1 H2]]. exists (j :: js). cbn [mapM]. rewrite H1. cbn [bind]. rewrite IH1. cbn [bind].
  split; [reflexivity|constructor; assumption].
Qed.
Lemma encOptElts_jm : forall l, exists js, mapM (encOpt G) (map Some l) = Ok js /\ Forall2 Jm js l.
Proof.
  induction l as [|X l [js [IH1 IH2]]]; [exists []; split; [reflexivity|constructor]|].
  destruct (JR X) as [j [H1 H2]]. exists (j :: js). cbn [mapM map encOpt]. rewrite H1. cbn [bind]. rewrite IH1. cbn [bind].
  split; [reflexivity|constructor; assumption].
Qed.
Lemma decPairs_jm : forall js xs, Forall2 Jm js xs -> forall ks ys, Forall2 Jm ks ys -> length ys = length xs ->
  decPairs G js ks = Ok (map f xs, map (option_map f) (map Some ys)).
Proof.
  induction 1 as [|j X js xs Hj Hjs IH]; intros ks ys Hk Hl.
  - destruct ys; [|discriminate]. inversion Hk; subst. reflexivity.
  - destruct ys as [|Y ys]; [discriminate|]. inversion Hk as [|k Y' ks' ys' Hk1 Hk2]; subst. cbn [decPairs].
    rewrite Hj, Hk1. cbn [bind]. rewrite (IH ks' ys Hk2) by (cbn in Hl; congruence). reflexivity.
Qed.
Lemma bp_becomes : forall pf, WFLists pf ->
  exists j, encBulletProof G pf = Ok j /\ forall params, pParams pf = params -> BulletProofUnmarshalJSON G (Some j) params = Ok (mapBP pf).
Proof.
  intros [V A S T1 T2 tx mu tp [P Cc a b L R [Gg Hh Uu]] [N g h Gg' Hh']] (hh & rs & HH & Hl & HR & HlR).
  cbn [pIPP ipParams ipHh ipGg ipR ipL] in HH, Hl, HR, HlR. subst Hh R.
  destruct (JR V) as (dV & EV & DV). destruct (JR A) as (dA & EA & DA). destruct (JR S) as (dS & ES & DS).
  destruct (JR T1) as (dT1 & ET1 & DT1). destruct (JR T2) as (dT2 & ET2 & DT2). destruct (JR P) as (dP & EP & DP).
  destruct (JR Uu) as (dU & EU & DU). destruct (JR g) as (dg & Eg & Dg). destruct (JR h) as (dh & Eh & Dh).
  destruct (encElts_jm Gg) as (dGg & EGg & DGg). destruct (encOptElts_jm hh) as (dHh & EHh & DHh).
  destruct (encElts_jm L) as (dL & EL & DL). destruct (encOptElts_jm rs) as (dR & ER & DR).
  destruct (encElts_jm Gg') as (dGg' & EGg' & _). destruct (encElts_jm Hh') as (dHh' & EHh' & _).
  unfold encBulletProof, encIPProof, encIPParams, encBPParams, encElts, encOptElts.
  cbn [pV pA pS pT1 pT2 pTaux pMu pTprime pIPP pParams ipP ipCc ipA ipB ipL ipR ipParams ipGg ipHh ipUu bpN bpG bpH bpGg bpHh].
  rewrite EV, EA, ES, ET1, ET2, EP, EL, ER, EGg, EHh, EU, Eg, Eh, EGg', EHh'. cbn [bind].
  eexists. split; [reflexivity|]. intros params Hp. unfold BulletProofUnmarshalJSON.
  match goal with |- match ?u with _ => _ end = _ => replace u with (Some (mkBulletProofJ (Some dV) (Some dA) (Some dS) (Some dT1) (Some dT2) tx mu tp
     (mkIPProofJ (Some dP) Cc a b dL dR (mkIPParamsJ (Some dU) dGg dHh (Some (encGroup G)))) (Some (JObj [("N", JInt N); ("G", dg); ("H", dh); ("Gg", JArr dGg'); ("Hh", JArr dHh'); ("GP", encGroup G)]%string)))) end.
  2:{ cbv - [encGroup dec_bigint enc_bigint]. rewrite !dec_big. cbv - [encGroup]. reflexivity. }
  cbv beta iota. unfold ipProofFromRaw, ipParamsFromRaw.
  cbn [jIPP jV jA jS jT1 jT2 jTaux jMu jTprime jIPParams jL jR jP jCc ja jb jUu jGg jHh].
  rewrite DU. cbn [bind]. rewrite (decPairs_jm _ _ DGg _ _ DHh Hl). cbn [bind]. rewrite (decPairs_jm _ _ DL _ _ DR HlR). cbn [bind].
  rewrite DP. cbn [bind]. rewrite DV, DA, DS, DT1, DT2. cbn [bind].
  rewrite <- Hp. reflexivity.
Qed.
End Erase.

Section Erase2.
Context (GF GE : Grp) (JF : JsonRoundtrip GF) (f : E GE -> E GE) (JE : JsonBecomes GE f).
Definition mapCurve (b : BallotData GF GE) : BallotData GF GE :=
  let v := bdVote b in let pr := sParams v in
  mkBallotData (bdBallot b) (mapBP GE f (bdLower b)) (mapBP GE f (bdUpper b))
    (mkSigmaProof (sW v) (sKp v) (f (sKq1 v)) (f (sKq2 v)) (sChal v) (sZ v) (sSp v) (sSq1 v) (sSq2 v)
      (mkProofParams (vBx pr) (vBc pr) (vBg pr) (vBb pr) (vLo pr) (vHi pr) (vGFF pr)
        (mkGroupParams (f (gpG (vGEC pr))) (f (gpH (vGEC pr))) (gpN (vGEC pr)) (gpF (vGEC pr))))).
Lemma ballot_becomes : forall (b : BallotData GF GE) pp,
  pParams (bdLower b) = ppBP pp -> pParams (bdUpper b) = ppBP pp ->
  WFLists (bdLower b) -> WFLists (bdUpper b) -> WFInts (sParams (bdVote b)) ->
  exists j, encBallotData GF GE b = Ok j /\ BallotDataUnmarshalJSON GF GE (Some j) pp = Ok (mapCurve b).
Proof.
  intros [[U V] lo up [w kp k1 k2 ch z sp s1 s2 [bx bc bg bb llo hi [gf hf nf ff] [ge he ne fe]]]] pp Hlo Hup Wlo Wup (Wbx & Wbc & Wbg & Wlo' & Whi & Wbb).
  cbn [bdLower bdUpper bdVote sParams vBx vBc vBg vBb vLo vHi] in *.
  destruct (enc_jel GF JF U) as (dU & EU & DU). destruct (enc_jel GF JF V) as (dV & EV & DV).
  destruct (enc_jel GF JF w) as (dw & Ew & Dw). destruct (enc_jel GF JF kp) as (dkp & Ekp & Dkp).
  destruct (enc_jel GF JF gf) as (dgf & Egf & Dgf). destruct (enc_jel GF JF hf) as (dhf & Ehf & Dhf).
  destruct (JE k1) as (dk1 & Ek1 & Dk1). destruct (JE k2) as (dk2 & Ek2 & Dk2).
  destruct (JE ge) as (dge & Ege & Dge). destruct (JE he) as (dhe & Ehe & Dhe).
  destruct (bp_becomes GE f JE lo Wlo) as (jlo & Elo & Dlo). destruct (bp_becomes GE f JE up Wup) as (jup & Eup & Dup).
  unfold encBallotData, encCiphertext, encSigmaProof, encProofParams, encGroupParams.
  cbn [bdBallot bdLower bdUpper bdVote ctU ctV sW sKp sKq1 sKq2 sChal sZ sSp sSq1 sSq2 sParams vBx vBc vBg vBb vLo vHi vGFF vGEC gpG gpH gpN gpF].
  rewrite EU, EV. cbn [bind]. rewrite Elo, Eup. cbn [bind]. rewrite Ew, Ekp, Ek1, Ek2, Egf, Ehf, Ege, Ehe. cbn [bind].
  eexists. split; [reflexivity|]. unfold BallotDataUnmarshalJSON. rewrite ballot_fields. cbv zeta. cbn [jBallot jLower jUpper jVote].
  unfold BallotUnmarshalJSON. change (unmarshal stepCiphertextJ (None, None) (Some (JObj [("u"%string, dU); ("v"%string, dV)]))) with (Some (Some dU, Some dV)).
  cbv beta iota. rewrite (dec_jel _ _ _ DU), (dec_jel _ _ _ DV). cbn [bind]. rewrite (Dlo _ Hlo), (Dup _ Hup). cbn [bind].
  unfold ProofUnmarshalJSON.
  match goal with |- context [unmarshal ?s ?z0 ?d] => replace (unmarshal s z0 d) with (Some (mkSigmaProofJ (Some dw) (Some dkp) (Some dk1) (Some dk2) ch z sp s1 s2
     (mkProofParamsJ bx bc bg bb llo hi (mkGroupParamsJ (Some dgf) (Some dhf) nf ff (Some (encGroup GF)))
        (mkGroupParamsJ (Some dge) (Some dhe) ne fe (Some (encGroup GE)))))) end.
  2:{ cbv - [encGroup dec_bigint enc_bigint dec_uint8 dec_uint16 dec_int]. unfold dec_uint8, dec_uint16, dec_int.
      rewrite !dec_big, !dec_num_in by assumption. cbv - [encGroup]. reflexivity. }
  cbv beta iota. cbn [jPP jGFF jGEC jG jH jN jF jBx jBc jBg jBb jLo jHi jW jKp jKq1 jKq2 jChal jZ jSp jSq1 jSq2].
  rewrite (dec_jel _ _ _ Dgf), (dec_jel _ _ _ Dhf), Dge, Dhe, (dec_jel _ _ _ Dw), (dec_jel _ _ _ Dkp), Dk1, Dk2.
  reflexivity.
Qed.
End Erase2.

(** the ballot with every curve element replaced by Element() *)
Definition eraseCurve {GF GE : Grp} (b : BallotData GF GE) : BallotData GF GE := mapCurve GF GE (fun _ => gNew GE) b.
Theorem C53_secp256k1_transport : forall d ing (b : BallotData (ModPGrp d) (K1Grp ing)) pp,
  pParams (bdLower b) = ppBP pp -> pParams (bdUpper b) = ppBP pp ->
  WFLists (bdLower b) -> WFLists (bdUpper b) -> WFInts (sParams (bdVote b)) ->
  exists j, encBallotData (ModPGrp d) (K1Grp ing) b = Ok j /\
    BallotDataUnmarshalJSON (ModPGrp d) (K1Grp ing) (Some j) pp = Ok (eraseCurve b).
Proof.
  intros d ing b pp. apply ballot_becomes; [apply C35_modp_elements|]. intros X. eexists. split; reflexivity.
Qed.
(** no ballot cast over secp256k1 is read back: the vote proof carries the commitment key *)
Theorem C53_secp256k1_refuted : forall d ing HO nan64 pp cr ballot j,
  setup d (K1Grp ing) nan64 = Ok pp -> castVote (ModPGrp d) (K1Grp ing) HO pp cr = Ok ballot ->
  encBallotData (ModPGrp d) (K1Grp ing) ballot = Ok j ->
  BallotDataUnmarshalJSON (ModPGrp d) (K1Grp ing) (Some j) pp <> Ok ballot.
Proof.
  intros d ing HO nan64 pp cr ballot j HS HC _ Hd.
  apply (C53_curve_elements_lost _ _ _ _ _ (C53_secp256k1_deaf ing)) in Hd. destruct Hd as (_ & _ & _ & _ & _ & Hh).
  unfold setup in HS. destruct (Setup (K1Grp ing) nan64 65536) as [bp| | |] eqn:Hbp; try discriminate. cbn [bind] in HS.
  unfold vpSetup in HS. destruct (_ <? 1); [discriminate|]. cbn [bind] in HS.
  assert (Hpp : gpH (vGEC (ppRP pp)) = bpH bp) by (injection HS as <-; reflexivity).
  assert (HsP : sParams (bdVote ballot) = ppRP pp).
  { unfold castVote in HC.
    repeat match type of HC with
      | bind ?e _ = Ok _ => destruct e as [?| | |] eqn:?; cbn [bind] in HC; try discriminate
      | (let '(_, _) := ?e in _) = Ok _ => destruct e as [? ?]
      end.
    injection HC as <-. cbn [bdVote].
    match goal with Hq : vpProve _ _ _ _ _ _ _ _ _ = Ok _ |- _ => apply vpProve_iter in Hq; destruct Hq as (dr & _ & HvP) end.
    unfold vpIter in HvP.
    repeat match type of HvP with
      | bind ?e _ = Ok _ => destruct e as [?| | |]; cbn [bind] in HvP; try discriminate
      | (if ?e then _ else _) = Ok _ => destruct e; try discriminate
      end.
    injection HvP as <-. reflexivity. }
  rewrite HsP, Hpp in Hh. unfold Setup in Hbp. cbn [negb] in Hbp.
  change (negb (IsPowerOfTwo 65536)) with false in Hbp. cbv iota in Hbp.
  destruct (gMap (K1Grp ing) (str_bytes SEEDH)) as [h| | |] eqn:Em; try discriminate. cbn [bind] in Hbp. cbv zeta in Hbp.
  destruct (negb (IsPowerOfTwo _)); [discriminate|]. destruct (32 <? _); [discriminate|].
  destruct (make_len _) as [n| | |]; try discriminate. cbn [bind] in Hbp. destruct (mapM _ _) as [gh| | |]; try discriminate.
  cbn [bind] in Hbp. injection Hbp as <-. cbn [bpH] in Hh. rewrite Hh in Em. cbn [K1Grp gMap gNew] in Em.
  unfold kgMapToGroup, k1MapToGroup, k1SetBytes in Em. destruct (inMapToGroup ing _) as [x y].
  destruct (slice_to _ _) as [xb| | |]; try discriminate. cbn [bind] in Em. destruct (slice_from _ _) as [yb| | |]; try discriminate.
Qed.

(** *** ristretto255: no ballot can even be sent *)
Definition OkPanic {A} (x : res A) : Prop := x = Panic \/ exists a, x = Ok a.
Lemma opBind : forall A B (x : res A) (f : A -> res B), OkPanic x -> (forall a, OkPanic (f a)) -> OkPanic (bind x f).
Proof. intros A B x f [->|[a ->]] H; [left; reflexivity|apply H]. Qed.
Lemma opPanic : forall A B (x : res A) (f : A -> res B), OkPanic x -> (forall a, x = Ok a -> f a = Panic) -> bind x f = Panic.
Proof. intros A B x f [->|[a ->]] H; [reflexivity|apply H; reflexivity]. Qed.
Lemma opMap : forall A B (f : A -> res B) l, (forall a, OkPanic (f a)) -> OkPanic (mapM f l).
Proof.
  intros A B f l H. induction l as [|a l IH]; [right; eexists; reflexivity|]. cbn [mapM]. apply opBind; [apply H|intros b].
  apply opBind; [exact IH|intros; right; eexists; reflexivity].
Qed.
Lemma rist_enc : forall c n ri X, R255Contract c -> OkPanic (gToJson (RistGrp c n ri) X).
Proof.
  intros c n ri X HC. destruct (C33_encode c X HC) as [H0 H1]. cbn [RistGrp gToJson].
  destruct (Z.eq_dec (hd 0 (rMarshalBinary c X)) 0) as [e|e]; [right; eexists; apply (H0 e)|left; apply (H1 e)].
Qed.
(** a ballot whose Bulletproof parameters are those of Setup cannot be encoded: the encoding of the generator is not
    a zero byte (RFC 9496 A.1: it starts with 0xe2) and MarshalJSON slices 33 bytes out of 32 *)
Theorem C53_ristretto_encode_panics : forall GF c n ri (b : BallotData GF (RistGrp c n ri)), R255Contract c ->
  JsonRoundtrip GF -> hd 0 (rMarshalBinary c (bpG (pParams (bdLower b)))) <> 0 ->
  encBallotData GF (RistGrp c n ri) b = Panic.
Proof.
  intros GF c n ri b HC JF Hg. unfold encBallotData, encCiphertext.
  destruct (enc_jel GF JF (ctU (bdBallot b))) as (dU & -> & _). destruct (enc_jel GF JF (ctV (bdBallot b))) as (dV & -> & _). cbn [bind].
  pose proof (fun X => rist_enc c n ri X HC) as HE.
  assert (HL : forall l, OkPanic (encElts (RistGrp c n ri) l)).
  { intros l. unfold encElts. apply opBind; [apply opMap; exact HE|intros; right; eexists; reflexivity]. }
  assert (HLo : forall l, OkPanic (encOptElts (RistGrp c n ri) l)).
  { intros l. unfold encOptElts. apply opBind; [apply opMap; intros [X|]; [apply HE|right; eexists; reflexivity]|intros; right; eexists; reflexivity]. }
  enough (Hb : encBulletProof (RistGrp c n ri) (bdLower b) = Panic) by (rewrite Hb; reflexivity).
  unfold encBulletProof. do 5 (apply opPanic; [apply HE|intros ? _]). apply opPanic; [|intros ? _].
  - unfold encIPProof, encIPParams. repeat (apply opBind; [first [apply HE|apply HL|apply HLo|idtac]|intros]); try (right; eexists; reflexivity).
  - unfold encBPParams. destruct (C33_encode c (bpG (pParams (bdLower b))) HC) as [_ H1].
    change (gToJson (RistGrp c n ri) (bpG (pParams (bdLower b)))) with (r255MarshalJSON c (bpG (pParams (bdLower b)))). rewrite (H1 Hg). reflexivity.
Qed.
Theorem C53_ristretto_refuted : forall d c n ri HO nan64 pp cr ballot, R255Contract c -> RistrettoOk c n ri -> nanConv nan64 ->
  hd 0 (rMarshalBinary c (riMulGen ri (1 mod n))) <> 0 ->
  setup d (RistGrp c n ri) nan64 = Ok pp -> castVote (ModPGrp d) (RistGrp c n ri) HO pp cr = Ok ballot ->
  encBallotData (ModPGrp d) (RistGrp c n ri) ballot = Panic.
Proof.
  intros d c n ri HO nan64 pp cr ballot HC RO Hn Hg HS HV. apply C53_ristretto_encode_panics; [exact HC|apply C35_modp_elements|].
  unfold setup in HS. destruct (Setup (RistGrp c n ri) nan64 65536) as [bp| | |] eqn:Hbp; try discriminate. cbn [bind] in HS.
  unfold vpSetup in HS. destruct (_ <? 1); [discriminate|]. cbn [bind] in HS. assert (Hpp : ppBP pp = bp) by (injection HS as <-; reflexivity).
  unfold castVote in HV.
  repeat match type of HV with
    | bind ?e _ = Ok _ => destruct e as [?| | |] eqn:?; cbn [bind] in HV; try discriminate
    | (let '(_, _) := ?e in _) = Ok _ => destruct e as [? ?]
    end.
  injection HV as <-. cbn [bdLower].
  repeat match goal with Hq : Prove _ HO _ _ _ = Ok _ |- _ => 
    apply (prove_shape _ HO nan64 65536) in Hq; [destruct Hq as [Hq _]|apply (C51_ristretto_contract c n ri RO)|exact Hn|reflexivity|rewrite Hpp; exact Hbp] end.
  match goal with Hq : pParams _ = _ |- hd 0 (rMarshalBinary c (bpG (pParams ?x))) <> 0 => replace (pParams x) with bp by (transitivity (ppBP pp); [symmetry; exact Hpp|symmetry; assumption]) end.
  destruct (Setup_ok _ nan64 65536 bp eq_refl Hbp) as [Hm|[_ Hs]]; [discriminate|]. destruct Hs as (_ & HG & _). rewrite HG. exact Hg.
Qed.

(** ** Concrete cases *)
(** secp256k1 with "points" (k,1) adding like k modulo the order: a ballot is cast, sent and read; the commitment of its first
    Bulletproof was a point, is nil after transport, and the Bulletproof is then rejected. *)
Definition ingV (P : ingPt) : Z := match P with None => 0 | Some (x, _) => x end.
Definition ingMk (k : Z) : ingPt := if k mod k1Order =? 0 then None else Some (k mod k1Order, 1).
Definition ingToy : Ing := mkIng (fun a b => ingMk (ingV a + ingV b)) (fun a s => ingMk (ingV a * s)) ingMk
  (fun s => (2 ^ 255 + 5 * fold_left Z.add s 0, 1)) (fun a => [ingV a]).
Definition isPoint (P : ingPt) : bool := match P with Some _ => true | None => false end.
Definition kRun : res (bool * bool * bool) :=
  pp <- setup dToy (K1Grp ingToy) 0 ;;
  b <- castVote (ModPGrp dToy) (K1Grp ingToy) oneHO pp bCR ;;
  j <- encBallotData (ModPGrp dToy) (K1Grp ingToy) b ;;
  b' <- BallotDataUnmarshalJSON (ModPGrp dToy) (K1Grp ingToy) (Some j) pp ;;
  v' <- Verify (K1Grp ingToy) oneHO (bdLower b') ;;
  Ok (isPoint (pV (bdLower b)), isPoint (pV (bdLower b')), v').
Example C53_secp256k1_case : kRun = Ok (true, false, false).
Proof. vm_compute. reflexivity. Qed.

(** ristretto255 with the additive group of its order, encoded in 32 little-endian bytes: the ballot is cast and accepted,
    and encoding it panics *)
Definition ristCodec : R255Codec := mkR255 (E gR) (fun X => rev (i2osp 32 (zv _ X)))
  (fun l => if Nat.eqb (length l) 32 then Some (gBase gR (os2ip (rev l))) else None).
Definition ristToy : Ristretto ristCodec := mkRistretto ristCodec (gId gR) (gAdd gR) (gNeg gR) (gScale gR) (gBase gR) (gGen gR) (gEq gR) (gIsId gR)
  (fun s => gBase gR (1 + fold_left Z.add s 0)).
Lemma ristCodec_ok : R255Contract ristCodec.
Proof.
  split; [intros P; cbn [ristCodec rMarshalBinary]; rewrite rev_length; apply i2osp_length|].
  intros b Hb. cbn [ristCodec rUnmarshalBinary]. destruct (Nat.eqb_spec (length b) 32); [contradiction|reflexivity].
Qed.
Lemma ristToy_ok : RistrettoOk ristCodec r255Order ristToy.
Proof.
  pose proof (toyLaws r255Order hR) as L. fold gR in L. constructor; cbn [ristToy riId riAdd riNeg riMul riMulGen riGen riEq riIsId].
  - exact hR.
  - apply (l_comm gR L).
  - apply (l_assoc gR L).
  - apply (l_id gR L).
  - apply (l_neg gR L).
  - apply (l_scale0 gR L).
  - intros P s _ _. apply (l_scaleS gR L).
  - intros P. rewrite <- (l_scaleS gR L). apply (l_scaleN gR L).
  - intros s _. apply (l_base gR L).
  - apply (l_eq gR L).
  - apply (l_isid gR L).
Qed.
Example C53_ristretto_case : let GE := R255Grp ristCodec ristToy in exists pp ballot, setup dBig GE 0 = Ok pp /\
  castVote (ModPGrp dBig) GE oneHO pp bCR = Ok ballot /\
  verifyVote (ModPGrp dBig) GE oneHO ballot (ppRP pp) = Ok (true, 2%nat) /\
  encBallotData (ModPGrp dBig) GE ballot = Panic.
Proof.
  cbv zeta. set (GE := R255Grp ristCodec ristToy).
  assert (LE : GrpLaws GE) by (apply C51_ristretto_contract; exact ristToy_ok).
  assert (HB : bitLen (gN GE) = 253) by reflexivity.
  assert (HQ : gN GE <= mpOrder dBig) by discriminate.
  destruct (C43_setup_outcome dBig GE 0) as [_ HS]; [intros s; eexists; reflexivity|rewrite HB; lia|rewrite HB; lia|].
  destruct (HS ltac:(rewrite HB; lia)) as (pp & HSe & Hmin & Hmax & _ & _ & _ & _ & HBg & _). rewrite HB in HBg.
  assert (HD : CastDrawsOk pp bCR).
  { split; [rewrite Hmin, Hmax; cbn [bCR cr_choice]; lia|]. intros dr Hin. unfold DrawOk. rewrite HBg. cbn [bCR cr_vp In] in Hin.
    destruct Hin as [<-|[<-|[]]]; cbn [dk dtp dtq1 dtq2]; repeat split; try discriminate; reflexivity. }
  assert (Hdig : Digest32 oneHO).
  { intros b. split; [reflexivity|]. apply Forall_forall. intros x Hx. cbn in Hx. unfold is_byte.
    repeat (destruct Hx as [<-|Hx]; [lia|]). destruct Hx. }
  assert (HI : forall A B, HashBP GE oneHO A B = (1, 1)) by reflexivity.
  destruct (C25_cast_returns dBig GE oneHO 0 pp bCR dBig_ok LE) as (b & Hb); try assumption.
  - right. reflexivity.
  - rewrite HB. reflexivity.
  - reflexivity.
  - intros A B. rewrite HI. cbn [fst]. apply Z.gcd_1_l.
  - eexists. reflexivity.
  - exists (mkDraw (2 ^ 241) 11 22 33). split; [right; left; reflexivity|]. rewrite HBg. cbn [dk]. split; discriminate.
  - exists pp, b. split; [exact HSe|]. split; [exact Hb|]. split.
    + apply (C25_end_to_end dBig GE oneHO 0 pp bCR b dBig_ok LE); try assumption; [right; reflexivity|rewrite HB; reflexivity].
    + apply (C53_ristretto_refuted dBig ristCodec r255Order ristToy oneHO 0 pp bCR b ristCodec_ok ristToy_ok); try assumption; [right; reflexivity|].
      cbn [ristCodec ristToy rMarshalBinary riMulGen]. vm_compute. discriminate.
Qed.

Print Assumptions C51_ristretto_contract.
Print Assumptions C53_curve_elements_lost.
Print Assumptions C53_secp256k1_deaf.
Print Assumptions C53_ristretto_deaf.
Print Assumptions C53_secp256k1_transport.
Print Assumptions C53_secp256k1_refuted.
Print Assumptions C53_ristretto_encode_panics.
Print Assumptions C53_ristretto_refuted.
