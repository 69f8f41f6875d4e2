(** C35-C37: JSON transport of ballots (marshal.go, bulletproofs/marshal.go, voteproof/marshal.go). *)
From Verif Require Import GoBase Json GroupIface Vector BIP BP VoteProof ModP App ECJson Curve Marshal NumTh Alg VectorProofs BIPProofs BPProofs
  SetupProofs ModPProofs BytesProofs Toy Hom PropBP PropVote PropApp PropEC PropCurve.

(** ** C35 *)
(** elements survive JSON: what MarshalJSON writes, UnmarshalJSON reads back into any receiver *)
Definition JsonRoundtrip (G : Grp) : Prop := forall X, exists j, gToJson G X = Ok j /\ forall old, gOfJson G old (Some j) = Ok (X, true).
(** the list fields are as the provers build them: no nil entries, pairwise equally long *)
Definition WFLists {G : Grp} (pf : BulletProof G) : Prop :=
  exists hh rs, ipHh (ipParams (pIPP pf)) = map Some hh /\ length hh = length (ipGg (ipParams (pIPP pf))) /\
    ipR (pIPP pf) = map Some rs /\ length rs = length (ipL (pIPP pf)).
(** the machine-integer fields hold values of their Go types *)
Definition WFInts {GF GE : Grp} (pr : ProofParams GF GE) : Prop :=
  0 <= vBx pr <= 255 /\ 0 <= vBc pr <= 65535 /\ 0 <= vBg pr <= 65535 /\ 0 <= vLo pr <= 65535 /\ 0 <= vHi pr <= 65535 /\
  - 2 ^ 63 <= vBb pr <= 2 ^ 63 - 1.

Theorem C35_modp_elements : forall d, JsonRoundtrip (ModPGrp d).
Proof. intros d X. exists (JInt X). split; reflexivity. Qed.
Theorem C35_curve_elements : forall cv name n ci, GoodCurve cv -> JsonRoundtrip (CurveGrp cv name n ci).
Proof.
  intros cv name n ci GC X. destruct (C31_element_json cv name n ci GC X X) as [j [H1 _]]. exists j. split; [exact H1|].
  intros old. destruct (C31_element_json cv name n ci GC X old) as [j' [H1' H2]]. rewrite H1 in H1'. injection H1' as <-. exact H2.
Qed.

Section One.
Context (G : Grp) (JR : JsonRoundtrip G).
(** [Jel j X]: the document j stands for X *)
Definition Jel (j : json) (X : E G) : Prop := forall old, gOfJson G old (Some j) = Ok (X, true).
Lemma dec_jel : forall j X, Jel j X -> decElt G (Some j) = Ok X.
Proof. intros j X H. unfold decElt. rewrite H. reflexivity. Qed.
Lemma enc_jel : forall X, exists j, gToJson G X = Ok j /\ Jel j X.
Proof. exact JR. Qed.
Lemma encElts_jel : forall l, exists js, mapM (gToJson G) l = Ok js /\ Forall2 Jel js l.
Proof.
  induction l as [|X l [js [IH1 IH2]]]; [exists []; split; [reflexivity|constructor]|].
  destruct (enc_jel X) as [j [H1 H2]]. exists (j :: js). cbn [mapM]. rewrite H1. cbn [bind]. rewrite IH1. cbn [bind].
  split; [reflexivity|constructor; assumption].
Qed.
Lemma encOptElts_jel : forall l, exists js, mapM (encOpt G) (map Some l) = Ok js /\ Forall2 Jel js l.
Proof.
  induction l as [|X l [js [IH1 IH2]]]; [exists []; split; [reflexivity|constructor]|].
  destruct (enc_jel X) as [j [H1 H2]]. exists (j :: js). cbn [mapM map encOpt]. rewrite H1. cbn [bind]. rewrite IH1. cbn [bind].
  split; [reflexivity|constructor; assumption].
Qed.
Lemma decPairs_jel : forall js xs, Forall2 Jel js xs -> forall ks ys, Forall2 Jel ks ys -> length ys = length xs -> decPairs G js ks = Ok (xs, map Some ys).
Proof.
  induction 1 as [|j X js xs Hj Hjs IH]; intros ks ys Hk Hl.
  - destruct ys; [|discriminate]. inversion Hk; subst. reflexivity.
  - destruct ys as [|Y ys]; [discriminate|]. inversion Hk as [|k Y' ks' ys' Hk1 Hk2]; subst. cbn [decPairs].
    rewrite (dec_jel j X Hj), (dec_jel k Y Hk1). cbn [bind]. rewrite (IH ks' ys Hk2) by (cbn in Hl; congruence). reflexivity.
Qed.

Lemma dec_big : forall o, dec_bigint (enc_bigint o) = Some o. Proof. intros [z|]; reflexivity. Qed.

Lemma bp_roundtrip : forall pf, WFLists pf ->
  exists j, encBulletProof G pf = Ok j /\ forall params, pParams pf = params -> BulletProofUnmarshalJSON G (Some j) params = Ok pf.
Proof.
  intros [V A S T1 T2 tx mu tp [P Cc a b L R [Gg Hh Uu]] [N g h Gg' Hh']] (hh & rs & HH & Hl & HR & HlR).
  cbn [pIPP ipParams ipHh ipGg ipR ipL] in HH, Hl, HR, HlR. subst Hh R.
  destruct (enc_jel V) as (dV & EV & DV). destruct (enc_jel A) as (dA & EA & DA). destruct (enc_jel S) as (dS & ES & DS).
  destruct (enc_jel T1) as (dT1 & ET1 & DT1). destruct (enc_jel T2) as (dT2 & ET2 & DT2). destruct (enc_jel P) as (dP & EP & DP).
  destruct (enc_jel Uu) as (dU & EU & DU). destruct (enc_jel g) as (dg & Eg & Dg). destruct (enc_jel h) as (dh & Eh & Dh).
  destruct (encElts_jel Gg) as (dGg & EGg & DGg). destruct (encOptElts_jel hh) as (dHh & EHh & DHh).
  destruct (encElts_jel L) as (dL & EL & DL). destruct (encOptElts_jel rs) as (dR & ER & DR).
  destruct (encElts_jel Gg') as (dGg' & EGg' & _). destruct (encElts_jel Hh') as (dHh' & EHh' & _).
  unfold encBulletProof, encIPProof, encIPParams, encBPParams, encElts, encOptElts.
  cbn [pV pA pS pT1 pT2 pTaux pMu pTprime pIPP pParams ipP ipCc ipA ipB ipL ipR ipParams ipGg ipHh ipUu bpN bpG bpH bpGg bpHh].
  rewrite EV, EA, ES, ET1, ET2, EP, EL, ER, EGg, EHh, EU, Eg, Eh, EGg', EHh'. cbn [bind].
  eexists. split; [reflexivity|]. intros params Hp. unfold BulletProofUnmarshalJSON.
  match goal with |- match ?u with _ => _ end = _ => replace u with (Some (mkBulletProofJ (Some dV) (Some dA) (Some dS) (Some dT1) (Some dT2) tx mu tp
     (mkIPProofJ (Some dP) Cc a b dL dR (mkIPParamsJ (Some dU) dGg dHh (Some (encGroup G)))) (Some (JObj [("N", JInt N); ("G", dg); ("H", dh); ("Gg", JArr dGg'); ("Hh", JArr dHh'); ("GP", encGroup G)]%string)))) end.
  2:{ cbv - [encGroup dec_bigint enc_bigint]. rewrite !dec_big. cbv - [encGroup]. reflexivity. }
  cbv beta iota. unfold ipProofFromRaw, ipParamsFromRaw.
  cbn [jIPP jV jA jS jT1 jT2 jTaux jMu jTprime jIPParams jL jR jP jCc ja jb jUu jGg jHh].
  rewrite (dec_jel _ _ DU). cbn [bind]. rewrite (decPairs_jel _ _ DGg _ _ DHh Hl). cbn [bind]. rewrite (decPairs_jel _ _ DL _ _ DR HlR). cbn [bind].
  rewrite (dec_jel _ _ DP). cbn [bind]. rewrite (dec_jel _ _ DV), (dec_jel _ _ DA), (dec_jel _ _ DS), (dec_jel _ _ DT1), (dec_jel _ _ DT2). cbn [bind].
  rewrite <- Hp. reflexivity.
Qed.
End One.

Section Two.
Context (GF GE : Grp) (JF : JsonRoundtrip GF) (JE : JsonRoundtrip GE).
Lemma dec_num_in : forall lo hi cur z, lo <= z <= hi -> dec_num lo hi cur (JInt z) = Some z.
Proof. intros lo hi cur z H. cbn. rewrite (proj2 (Z.leb_le _ _)), (proj2 (Z.leb_le _ _)) by lia. reflexivity. Qed.
Lemma sigma_roundtrip : forall pf : SigmaProof GF GE, WFInts (sParams pf) ->
  exists j, encSigmaProof GF GE pf = Ok j /\ ProofUnmarshalJSON GF GE (Some j) = Ok pf.
Proof.
  intros [w kp k1 k2 ch z sp s1 s2 [bx bc bg bb lo hi [gf hf nf ff] [ge he ne fe]]] (Wbx & Wbc & Wbg & Wlo & Whi & Wbb).
  cbn [sParams vBx vBc vBg vBb vLo vHi] in Wbx, Wbc, Wbg, Wlo, Whi, Wbb.
  destruct (enc_jel GF JF w) as (dw & Ew & Dw). destruct (enc_jel GF JF kp) as (dkp & Ekp & Dkp).
  destruct (enc_jel GE JE k1) as (dk1 & Ek1 & Dk1). destruct (enc_jel GE JE k2) as (dk2 & Ek2 & Dk2).
  destruct (enc_jel GF JF gf) as (dgf & Egf & Dgf). destruct (enc_jel GF JF hf) as (dhf & Ehf & Dhf).
  destruct (enc_jel GE JE ge) as (dge & Ege & Dge). destruct (enc_jel GE JE he) as (dhe & Ehe & Dhe).
  unfold encSigmaProof, encProofParams, encGroupParams.
  cbn [sW sKp sKq1 sKq2 sChal sZ sSp sSq1 sSq2 sParams vBx vBc vBg vBb vLo vHi vGFF vGEC gpG gpH gpN gpF].
  rewrite Ew, Ekp, Ek1, Ek2, Egf, Ehf, Ege, Ehe. cbn [bind]. eexists. split; [reflexivity|]. unfold ProofUnmarshalJSON.
  match goal with |- match ?u with _ => _ end = _ => replace u with (Some (mkSigmaProofJ (Some dw) (Some dkp) (Some dk1) (Some dk2) ch z sp s1 s2
     (mkProofParamsJ bx bc bg bb lo hi (mkGroupParamsJ (Some dgf) (Some dhf) nf ff (Some (encGroup GF)))
        (mkGroupParamsJ (Some dge) (Some dhe) ne fe (Some (encGroup GE)))))) end.
  2:{ cbv - [encGroup dec_bigint enc_bigint dec_uint8 dec_uint16 dec_int]. unfold dec_uint8, dec_uint16, dec_int.
      rewrite !dec_big, !dec_num_in by assumption. cbv - [encGroup]. reflexivity. }
  cbv beta iota. cbn [jPP jGFF jGEC jG jH jN jF jBx jBc jBg jBb jLo jHi jW jKp jKq1 jKq2 jChal jZ jSp jSq1 jSq2].
  rewrite (dec_jel _ _ _ Dgf), (dec_jel _ _ _ Dhf), (dec_jel _ _ _ Dge), (dec_jel _ _ _ Dhe), (dec_jel _ _ _ Dw), (dec_jel _ _ _ Dkp), (dec_jel _ _ _ Dk1), (dec_jel _ _ _ Dk2).
  reflexivity.
Qed.
Lemma ballot_fields : forall c l u v, unmarshal stepBallotDataJ zeroBallotDataJ (Some (JObj [("ballot", c); ("lbProof", l); ("ubProof", u); ("voteProof", v)]%string))
  = Some (mkBallotDataJ (Some c) (Some l) (Some u) (Some v)).
Proof. reflexivity. Qed.

Theorem C35_ballot_roundtrip : forall (b : BallotData GF GE) pp,
  pParams (bdLower b) = ppBP pp -> pParams (bdUpper b) = ppBP pp ->
  WFLists (bdLower b) -> WFLists (bdUpper b) -> WFInts (sParams (bdVote b)) ->
  exists j, encBallotData GF GE b = Ok j /\ BallotDataUnmarshalJSON GF GE (Some j) pp = Ok b.
Proof.
  intros [[U V] lo up vp] pp Hlo Hup Wlo Wup Wvp. cbn [bdLower bdUpper bdVote] in *.
  destruct (enc_jel GF JF U) as (dU & EU & DU). destruct (enc_jel GF JF V) as (dV & EV & DV).
  destruct (bp_roundtrip GE JE lo Wlo) as (jlo & Elo & Dlo). destruct (bp_roundtrip GE JE up Wup) as (jup & Eup & Dup).
  destruct (sigma_roundtrip vp Wvp) as (jvp & Evp & Dvp).
  unfold encBallotData, encCiphertext. cbn [bdBallot bdLower bdUpper bdVote ctU ctV]. rewrite EU, EV. cbn [bind]. rewrite Elo, Eup, Evp. cbn [bind].
  eexists. split; [reflexivity|]. unfold BallotDataUnmarshalJSON. rewrite ballot_fields. cbv zeta. cbn [jBallot jLower jUpper jVote].
  unfold BallotUnmarshalJSON. change (unmarshal stepCiphertextJ (None, None) (Some (JObj [("u"%string, dU); ("v"%string, dV)]))) with (Some (Some dU, Some dV)).
  cbv beta iota. rewrite (dec_jel _ _ _ DU), (dec_jel _ _ _ DV). cbn [bind]. rewrite (Dlo _ Hlo), (Dup _ Hup), Dvp. reflexivity.
Qed.
End Two.

(** what Prove returns has the shape the decoder needs *)
Lemma prove_shape : forall G HO nan64 b params v rnd pf gamma,
  GrpLaws G -> nanConv nan64 -> is_int64 b = true -> Setup G nan64 b = Ok params ->
  Prove G HO v params rnd = Ok (pf, gamma) -> pParams pf = params /\ WFLists pf.
Proof.
  intros G HO nan64 b params v rnd pf gamma HL Hn Hb HS HP.
  destruct (C07_proof_size G HO nan64 b params v rnd pf gamma HL Hn Hb HS HP) as [_ HlR].
  destruct (Setup_tab G nan64 b params Hn Hb HS) as (k & g & h & _ & _ & Hp). rewrite Hp in HP |- *.
  rewrite (Prove_vec G HO _ _ _ (tab (2 ^ k) (fun i => (v / 2 ^ Z.of_nat i) mod 2))) in HP by first [exact (N_pos HL)|apply Decompose_tab].
  rewrite computeAR_tab in HP by (intros; apply bit_01). cbn [nil_slice] in HP.
  pose proof HP as HP0. apply (honest_vec G HO HL) in HP. destruct HP as (Hpar & _ & _ & _ & _ & _ & _ & _ & (hp & u & HG & HH & Hup & _) & _).
  split; [exact Hpar|]. exists hp.
  assert (Hn0 : exists n', (2 ^ k)%nat = Datatypes.S n') by (exists (pred (2 ^ k)); pose proof (Nat.pow_nonzero 2 k); lia). destruct Hn0 as [n' Hn0].
  rewrite Hn0 in Hup. destruct (updateGenerators_ok G HL n' _ _ _ Hup) as (i & -> & _).
  assert (HR : exists rs, ipR (pIPP pf) = map Some rs).
  { unfold ProveVec in HP0.
    repeat match type of HP0 with
    | bind ?e _ = Ok _ => destruct e eqn:?; cbn [bind] in HP0; try discriminate
    | (let '(_, _) := ?e in _) = Ok _ => destruct e
    end.
    injection HP0 as <- _. cbn [pIPP].
    match goal with Hq : proveInnerProduct _ _ _ _ _ _ _ _ = Ok _ |- _ => rename Hq into HQ end.
    unfold proveInnerProduct in HQ. destruct (negb _); [discriminate|]. destruct (hashIP _ _ _ _ _ _) as [x| | |]; try discriminate. cbn [bind] in HQ.
    destruct (computePP _ _ _ _ _) as [[PP ux]| | |]; try discriminate. cbn [bind] in HQ. destruct (mapM _ _) as [hh| | |]; try discriminate. cbn [bind] in HQ.
    destruct (computeBipRecursive _ _ _ _ _ _ _ _ _ _ _ _) as [[[[[? ?] ?] ?] ?]| | |]; try discriminate. cbn [bind] in HQ. injection HQ as <-. cbn [ipR]. eexists. reflexivity. }
  destruct HR as [rs HR]. exists rs. split; [exact HH|]. split; [rewrite HG, !tab_length; lia|]. split; [exact HR|].
  rewrite HR, map_length in HlR. exact HlR.
Qed.

(** A ballot cast under what main.go's setup returns survives transport, whatever the draws, so verifyVote answers alike. *)
Theorem C35_cast_roundtrip : forall d GE HO nan64 pp cr ballot,
  JsonRoundtrip GE -> GrpLaws GE -> nanConv nan64 -> bitLen (gN GE) < 65536 ->
  setup d GE nan64 = Ok pp -> castVote (ModPGrp d) GE HO pp cr = Ok ballot ->
  exists j, encBallotData (ModPGrp d) GE ballot = Ok j /\ BallotDataUnmarshalJSON (ModPGrp d) GE (Some j) pp = Ok ballot.
Proof.
  intros d GE HO nan64 pp cr ballot JE HL Hn HB HS HC. pose proof (l_order GE HL) as HN.
  unfold setup in HS. destruct (Setup GE nan64 65536) as [bp| | |] eqn:Hbp; try discriminate. cbn [bind] in HS.
  assert (Hb0 : 0 <= bitLen (gN GE)) by (unfold bitLen; destruct (_ =? 0); [lia|pose proof (Z.log2_nonneg (Z.abs (gN GE))); lia]).
  assert (Hw : wrap16 (bitLen (gN GE)) = bitLen (gN GE)) by (unfold wrap16; apply Z.mod_small; lia). rewrite Hw in HS.
  unfold vpSetup in HS. destruct (_ <? 1) eqn:H1; [discriminate|]. cbn [bind] in HS. apply Z.ltb_ge in H1.
  remember (mkPublicParameters (GF:=ModPGrp d) (GE:=GE)) as mk eqn:Hmk. injection HS as HS. subst mk.
  unfold castVote in HC.
  repeat match type of HC with
    | bind ?e _ = Ok _ => destruct e as [?| | |] eqn:?; cbn [bind] in HC; try discriminate
    | (let '(_, _) := ?e in _) = Ok _ => destruct e as [? ?]
    end.
  injection HC as <-.
  repeat match goal with Hq : Prove GE HO _ _ _ = Ok _ |- _ => 
    apply (prove_shape GE HO nan64 65536) in Hq; [destruct Hq|exact HL|exact Hn|reflexivity|rewrite <- HS; exact Hbp] end.
  match goal with Hq : vpProve _ _ _ _ _ _ _ _ _ = Ok _ |- _ => apply vpProve_iter in Hq; destruct Hq as (dr & _ & Hq); 
    apply vpIter_iff in Hq; [destruct Hq as (_ & ch & _ & _ & ->)| |] end; try (rewrite <- HS; reflexivity).
  apply C35_ballot_roundtrip; cbn [bdLower bdUpper bdVote sParams]; try assumption; [apply C35_modp_elements|].
  rewrite <- HS. unfold WFInts. cbn [ppRP vBx vBc vBg vBb vLo vHi]. lia.
Qed.
Corollary C35_same_answer : forall d GE HO nan64 pp cr ballot j,
  JsonRoundtrip GE -> GrpLaws GE -> nanConv nan64 -> bitLen (gN GE) < 65536 ->
  setup d GE nan64 = Ok pp -> castVote (ModPGrp d) GE HO pp cr = Ok ballot -> encBallotData (ModPGrp d) GE ballot = Ok j ->
  (ballot' <- BallotDataUnmarshalJSON (ModPGrp d) GE (Some j) pp ;; verifyVote (ModPGrp d) GE HO ballot' (ppRP pp)) = verifyVote (ModPGrp d) GE HO ballot (ppRP pp).
Proof.
  intros d GE HO nan64 pp cr ballot j JE HL Hn HB HS HC Hj.
  destruct (C35_cast_roundtrip d GE HO nan64 pp cr ballot JE HL Hn HB HS HC) as (j' & H1 & H2). rewrite Hj in H1. injection H1 as <-.
  rewrite H2. reflexivity.
Qed.

(** ** C36 *)
(** an absent element field leaves the freshly allocated element in place *)
Definition NilKeepsDefault (G : Grp) : Prop := gOfJson G (gNew G) None = Ok (gNew G, false).
Theorem C36_modp_default : forall d, NilKeepsDefault (ModPGrp d). Proof. reflexivity. Qed.
Theorem C36_curve_default : forall cv name n ci, NilKeepsDefault (CurveGrp cv name n ci). Proof. reflexivity. Qed.

Definition blankIPP (G : Grp) : IPProof G := mkIPProof (gNew G) None None None [] [] (mkIPParams [] [] (gNew G)).
Definition blankBP {G : Grp} (params : BPParams G) : BulletProof G :=
  mkBulletProof (gNew G) (gNew G) (gNew G) (gNew G) (gNew G) None None None (blankIPP G) params.
Definition blankSigma (GF GE : Grp) : SigmaProof GF GE :=
  mkSigmaProof (gNew GF) (gNew GF) (gNew GE) (gNew GE) None None None None None
    (mkProofParams 0 0 0 0 0 0 (mkGroupParams (gNew GF) (gNew GF) None None) (mkGroupParams (gNew GE) (gNew GE) None None)).
Definition blankDoc : json := JObj [("ballot", JObj []); ("lbProof", JObj []); ("ubProof", JObj []); ("voteProof", JObj [])]%string.
Definition blankBallot {GF GE : Grp} (pp : PublicParameters GF GE) : BallotData GF GE :=
  mkBallotData (mkCiphertext (gNew GF) (gNew GF)) (blankBP (ppBP pp)) (blankBP (ppBP pp)) (blankSigma GF GE).
(** four empty objects decode without an error into a ballot of default elements and nil integers *)
Theorem C36_blank_accepted : forall GF GE (pp : PublicParameters GF GE), NilKeepsDefault GF -> NilKeepsDefault GE ->
  BallotDataUnmarshalJSON GF GE (Some blankDoc) pp = Ok (blankBallot pp).
Proof.
  intros GF GE pp HF HE. unfold BallotDataUnmarshalJSON, blankDoc. rewrite ballot_fields. cbv zeta. cbn [jBallot jLower jUpper jVote].
  unfold BallotUnmarshalJSON, BulletProofUnmarshalJSON, ProofUnmarshalJSON, ipProofFromRaw, ipParamsFromRaw, unmarshal, dec_struct, dec_fields, decElt.
  cbn. rewrite HF. cbn [bind]. rewrite HE. cbn [bind]. reflexivity.
Qed.
(** an element whose decoding fails is used all the same: the error is not looked at. [X] and [Y] are what the element decoder
    leaves behind; the flags [okX], [okY] tell whether it reported success. *)
Theorem C36_element_errors_dropped : forall GF a b X Y okX okY,
  gOfJson GF (gNew GF) (Some a) = Ok (X, okX) -> gOfJson GF (gNew GF) (Some b) = Ok (Y, okY) ->
  BallotUnmarshalJSON GF (Some (JObj [("u", a); ("v", b)]%string)) = Ok (mkCiphertext X Y).
Proof.
  intros GF a b X Y okX okY Ha Hb. unfold BallotUnmarshalJSON. change (unmarshal _ _ _) with (Some (Some a, Some b)). cbv beta iota.
  unfold decElt. rewrite Ha, Hb. reflexivity.
Qed.
(** so a ciphertext of two arbitrary strings is the pair (0,0), which is not in the group *)
Theorem C36_modp_garbage : forall d s t, BallotUnmarshalJSON (ModPGrp d) (Some (JObj [("u", JStr s); ("v", JStr t)]%string)) = Ok (mkCiphertext (G:=ModPGrp d) 0 0).
Proof. intros d s t. apply (C36_element_errors_dropped (ModPGrp d) _ _ 0 0 false false); reflexivity. Qed.
(** and a commitment off the curve becomes the point at infinity *)
Theorem C36_curve_garbage : forall cv name n ci x y params, GoodCurve cv ->
  0 <= x < 256 ^ Z.of_nat (cvL cv) -> 0 <= y < 256 ^ Z.of_nat (cvL cv) -> (x, y) <> (0, 0) -> onCurve cv x y = false ->
  exists pf, BulletProofUnmarshalJSON (CurveGrp cv name n ci) (Some (JObj [("V"%string, encECPoint x y)])) params = Ok pf /\ pV pf = gId (CurveGrp cv name n ci).
Proof.
  intros cv name n ci x y params GC Hx Hy H0 Hc. unfold BulletProofUnmarshalJSON.
  change (unmarshal _ _ _) with (Some (mkBulletProofJ (Some (encECPoint x y)) None None None None None None None zeroIPProofJ None)). cbv beta iota.
  eexists. split.
  - unfold ipProofFromRaw, ipParamsFromRaw. cbn [zeroIPProofJ jIPP jIPParams jUu jGg jHh jL jR jP jCc ja jb zeroIPParamsJ jV jA jS jT1 jT2 jTaux jMu jTprime decPairs].
    assert (Hz : (x =? 0) && (y =? 0) = false).
    { destruct (Z.eqb_spec x 0) as [->|]; [|reflexivity]. destruct (Z.eqb_spec y 0) as [->|]; [contradiction|reflexivity]. }
    assert (Hd : decElt (CurveGrp cv name n ci) (Some (encECPoint x y)) = Ok (ptId cv)).
    { unfold decElt. cbn [CurveGrp gOfJson gNew]. unfold cgUnmarshalJSON.
      destruct (ecUnmarshalJSON cv (pv (ptId cv)) (Some (encECPoint x y))) as [[P ok]| | |] eqn:HE.
      2,3,4: exfalso; unfold ecUnmarshalJSON, pointUnmarshalJSON in HE; rewrite pointBytes_small in HE; [|exact Hx|exact Hy|exact Hz];
        cbn [bind] in HE; destruct (ecUnmarshalBinary cv _); discriminate.
      destruct ok; [|reflexivity]. exfalso. pose proof (C32_injective_in_range cv _ x y P Hx Hy HE) as ->.
        apply C31_decoded_is_point in HE; [|apply (gc_L cv GC)]. destruct HE as [HE _]. specialize (HE eq_refl). destruct HE as [HE|HE]; [contradiction|]. cbn [fst snd] in HE. congruence. }
    rewrite Hd. cbn [bind map]. reflexivity.
  - reflexivity.
Qed.

(** the element message [r] does not crash the element decoder *)
Definition DecOk (G : Grp) (r : raw) : Prop := exists X ok, gOfJson G (gNew G) r = Ok (X, ok).
Lemma decElt_cases : forall G r, (DecOk G r /\ exists X, decElt G r = Ok X) \/ (~ DecOk G r /\ forall X, decElt G r <> Ok X).
Proof.
  intros G r. unfold decElt, DecOk. destruct (gOfJson G (gNew G) r) as [[X ok]| | |]; cbn [bind].
  - left. split; [exists X, ok; reflexivity|exists X; reflexivity].
  - right. split; [intros (? & ? & H); discriminate|discriminate].
  - right. split; [intros (? & ? & H); discriminate|discriminate].
  - right. split; [intros (? & ? & H); discriminate|discriminate].
Qed.
Lemma bind_ok : forall A B (e : res A) (f : A -> res B), (exists y, bind e f = Ok y) <-> exists x, e = Ok x /\ exists y, f x = Ok y.
Proof.
  intros A B e f. destruct e; cbn [bind]; split; try (intros [? H]; discriminate); try (intros (? & H & _); discriminate).
  - intros H. eexists. split; [reflexivity|exact H].
  - intros (x & H & H2). injection H as <-. exact H2.
Qed.
Lemma decElt_ok : forall G r, (exists X, decElt G r = Ok X) <-> DecOk G r.
Proof. intros G r. destruct (decElt_cases G r) as [[H1 H2]|[H1 H2]]; split; auto; try tauto. intros [X HX]. exfalso. apply (H2 X HX). Qed.
(** two parallel lists are decoded when the second is long enough and no element read crashes the decoder *)
Definition PairsOk (G : Grp) (js ks : list json) : Prop :=
  (length js <= length ks)%nat /\ Forall (fun j => DecOk G (Some j)) js /\ Forall (fun j => DecOk G (Some j)) (firstn (length js) ks).
Lemma decPairs_ok : forall G js ks, (exists r, decPairs G js ks = Ok r) <-> PairsOk G js ks.
Proof.
  intros G. induction js as [|j js IH]; intros ks.
  - split; [intros _|intros _; eexists; reflexivity]. split; [cbn; lia|]. split; constructor.
  - destruct ks as [|k ks]; cbn [decPairs].
    + split; [intros [? H]; discriminate|intros (H & _); cbn in H; lia].
    + rewrite bind_ok. unfold PairsOk. cbn [length firstn]. split.
      * intros (X & HX & H). rewrite bind_ok in H. destruct H as (Y & HY & H). rewrite bind_ok in H. destruct H as (r & Hr & _).
        assert (Hp : PairsOk G js ks) by (apply IH; exists r; exact Hr). destruct Hp as (H1 & H2 & H3). split; [lia|].
        split; constructor; try assumption; apply decElt_ok; eexists; eassumption.
      * intros (H1 & H2 & H3). inversion H2 as [|? ? Hj Hjs]; subst. inversion H3 as [|? ? Hk Hks]; subst.
        apply decElt_ok in Hj, Hk. destruct Hj as [X HX], Hk as [Y HY]. exists X. split; [exact HX|]. rewrite bind_ok. exists Y. split; [exact HY|]. rewrite bind_ok.
        destruct (proj2 (IH ks)) as [r Hr]; [split; [lia|]; split; assumption|]. exists r. split; [exact Hr|]. destruct r. eexists. reflexivity.
Qed.
(** a second list that is too short panics, whatever else is in the document *)
Lemma decPairs_short : forall G js ks, (forall j, In j (js ++ ks) -> DecOk G (Some j)) -> (length ks < length js)%nat -> decPairs G js ks = Panic.
Proof.
  intros G. induction js as [|j js IH]; intros ks HD Hl; [cbn in Hl; lia|]. destruct ks as [|k ks]; [reflexivity|]. cbn [decPairs].
  destruct (proj2 (decElt_ok G (Some j))) as [X ->]; [apply HD; left; reflexivity|]. cbn [bind].
  destruct (proj2 (decElt_ok G (Some k))) as [Y ->]; [apply HD; right; apply in_or_app; right; left; reflexivity|]. cbn [bind].
  rewrite IH; [reflexivity| |cbn in Hl; lia]. intros j' Hj. apply HD. right. apply in_app_or in Hj. apply in_or_app. destruct Hj; [left|right; right]; assumption.
Qed.

(** a Bulletproof message [t] after json.Unmarshal into the decoder's structs *)
Definition BPMessageOk (G : Grp) (t : BulletProofJ) : Prop :=
  DecOk G (jV t) /\ DecOk G (jA t) /\ DecOk G (jS t) /\ DecOk G (jT1 t) /\ DecOk G (jT2 t) /\ DecOk G (jP (jIPP t)) /\ DecOk G (jUu (jIPParams (jIPP t))) /\
  PairsOk G (jGg (jIPParams (jIPP t))) (jHh (jIPParams (jIPP t))) /\ PairsOk G (jL (jIPP t)) (jR (jIPP t)).
Lemma bp_decodes : forall G b params, (exists pf, BulletProofUnmarshalJSON G b params = Ok pf) <->
  exists t, unmarshal stepBulletProofJ zeroBulletProofJ b = Some t /\ BPMessageOk G t.
Proof.
  intros G b params. unfold BulletProofUnmarshalJSON. destruct (unmarshal _ _ b) as [t|].
  2:{ split; [intros [? H]; discriminate|intros (? & H & _); discriminate]. }
  assert (Hip : (exists ip, ipProofFromRaw G (jIPP t) = Ok ip) <-> DecOk G (jP (jIPP t)) /\ DecOk G (jUu (jIPParams (jIPP t))) /\
     PairsOk G (jGg (jIPParams (jIPP t))) (jHh (jIPParams (jIPP t))) /\ PairsOk G (jL (jIPP t)) (jR (jIPP t))).
  { unfold ipProofFromRaw, ipParamsFromRaw. split.
    - intros H. rewrite bind_ok in H. destruct H as (pr & Hpr & H). rewrite bind_ok in H. destruct H as ([l r] & Hlr & H). rewrite bind_ok in H. destruct H as (P & HP & _).
      assert (Hpr' := ex_intro (fun x => _ = Ok x) pr Hpr). rewrite bind_ok in Hpr'. destruct Hpr' as (u & Hu & Hpr'). rewrite bind_ok in Hpr'. destruct Hpr' as (gh & Hgh & _).
      split; [apply decElt_ok; eexists; exact HP|]. split; [apply decElt_ok; eexists; exact Hu|]. split; apply decPairs_ok; eexists; eassumption.
    - intros (H1 & H2 & H3 & H4). apply decElt_ok in H1, H2. apply decPairs_ok in H3, H4. destruct H1 as [P ->], H2 as [u ->], H3 as [[gg hh] ->], H4 as [[l r] ->].
      eexists. reflexivity. }
  unfold BPMessageOk. split.
  - intros H. exists t. split; [reflexivity|]. rewrite bind_ok in H. destruct H as (ip & Hi & H).
    destruct (proj1 Hip (ex_intro _ ip Hi)) as (K1 & K2 & K3 & K4).
    repeat (rewrite bind_ok in H; let HX := fresh "HX" in destruct H as (? & HX & H); apply (ex_intro (fun x => _ = Ok x)), decElt_ok in HX).
    auto 12.
  - intros (t' & Ht & HV & HA & HS & HT1 & HT2 & HR). injection Ht as <-. apply Hip in HR. destruct HR as [ip ->]. cbn [bind].
    apply decElt_ok in HV, HA, HS, HT1, HT2. destruct HV as [V ->], HA as [A ->], HS as [S ->], HT1 as [T1 ->], HT2 as [T2 ->]. eexists. reflexivity.
Qed.
(** a vote-proof message *)
Definition SigmaMessageOk (GF GE : Grp) (t : SigmaProofJ) : Prop :=
  DecOk GF (jW t) /\ DecOk GF (jKp t) /\ DecOk GE (jKq1 t) /\ DecOk GE (jKq2 t) /\
  DecOk GF (jG (jGFF (jPP t))) /\ DecOk GF (jH (jGFF (jPP t))) /\ DecOk GE (jG (jGEC (jPP t))) /\ DecOk GE (jH (jGEC (jPP t))).
Lemma sigma_decodes : forall GF GE b, (exists pf, ProofUnmarshalJSON GF GE b = Ok pf) <->
  exists t, unmarshal stepSigmaProofJ zeroSigmaProofJ b = Some t /\ SigmaMessageOk GF GE t.
Proof.
  intros GF GE b. unfold ProofUnmarshalJSON, SigmaMessageOk. destruct (unmarshal _ _ b) as [t|].
  2:{ split; [intros [? H]; discriminate|intros (? & H & _); discriminate]. }
  cbv zeta. split.
  - intros H. exists t. split; [reflexivity|].
    repeat (rewrite bind_ok in H; let HX := fresh "HX" in destruct H as (? & HX & H); apply (ex_intro (fun x => _ = Ok x)), decElt_ok in HX).
    auto 12.
  - intros (t' & Ht & H). injection Ht as <-. destruct H as (H1 & H2 & H3 & H4 & H5 & H6 & H7 & H8).
    apply decElt_ok in H1, H2, H3, H4, H5, H6, H7, H8. destruct H1 as [? ->], H2 as [? ->], H3 as [? ->], H4 as [? ->], H5 as [? ->], H6 as [? ->], H7 as [? ->], H8 as [? ->].
    eexists. reflexivity.
Qed.

(** Exactly which documents are decoded without an error or a panic: the four sub-documents are objects whose fields have the right
    JSON types, the lists are not ragged, and no element document crashes the element decoder. Whether the elements are valid,
    and whether the fields are there at all, does not matter. *)
Theorem C36_accepts_exactly : forall GF GE j (pp : PublicParameters GF GE),
  (exists b, BallotDataUnmarshalJSON GF GE j pp = Ok b) <->
  exists t u v l r s, unmarshal stepBallotDataJ zeroBallotDataJ j = Some t /\
    unmarshal stepCiphertextJ (None, None) (jBallot t) = Some (u, v) /\ DecOk GF u /\ DecOk GF v /\
    unmarshal stepBulletProofJ zeroBulletProofJ (jLower t) = Some l /\ BPMessageOk GE l /\
    unmarshal stepBulletProofJ zeroBulletProofJ (jUpper t) = Some r /\ BPMessageOk GE r /\
    unmarshal stepSigmaProofJ zeroSigmaProofJ (jVote t) = Some s /\ SigmaMessageOk GF GE s.
Proof.
  intros GF GE j pp. unfold BallotDataUnmarshalJSON. cbv zeta.
  assert (Hc : forall b, (exists c, BallotUnmarshalJSON GF b = Ok c) <-> exists u v, unmarshal stepCiphertextJ (None, None) b = Some (u, v) /\ DecOk GF u /\ DecOk GF v).
  { intros b. unfold BallotUnmarshalJSON. destruct (unmarshal _ _ b) as [[u v]|].
    2:{ split; [intros [? H]; discriminate|intros (? & ? & H & _); discriminate]. }
    split.
    - intros H. rewrite bind_ok in H. destruct H as (U & HU & H). rewrite bind_ok in H. destruct H as (V & HV & _). exists u, v. split; [reflexivity|].
      split; apply decElt_ok; eexists; eassumption.
    - intros (u' & v' & He & HU & HV). injection He as <- <-. apply decElt_ok in HU, HV. destruct HU as [U ->], HV as [V ->]. eexists. reflexivity. }
  split.
  - intros H. rewrite bind_ok in H. destruct H as (c & H1 & H). rewrite bind_ok in H. destruct H as (l & H2 & H). rewrite bind_ok in H. destruct H as (r & H3 & H).
    rewrite bind_ok in H. destruct H as (s & H4 & _). apply (ex_intro (fun x => _ = Ok x)) in H1, H2, H3, H4.
    apply Hc in H1. apply bp_decodes in H2, H3. apply sigma_decodes in H4.
    destruct (unmarshal _ _ j) as [t|]. 2:{ destruct H1 as (? & ? & H1 & _). discriminate. }
    destruct H1 as (u & v & H1 & Hu & Hv), H2 as (l' & H2 & Hl), H3 as (r' & H3 & Hr), H4 as (s' & H4 & Hs).
    exists t, u, v, l', r', s'. auto 12.
  - intros (t & u & v & l & r & s & -> & H1 & Hu & Hv & H2 & Hl & H3 & Hr & H4 & Hs).
    destruct (proj2 (Hc (jBallot t))) as [c ->]; [exists u, v; auto|]. cbn [bind].
    destruct (proj2 (bp_decodes GE (jLower t) (ppBP pp))) as [bl ->]; [exists l; auto|]. cbn [bind].
    destruct (proj2 (bp_decodes GE (jUpper t) (ppBP pp))) as [br ->]; [exists r; auto|]. cbn [bind].
    destruct (proj2 (sigma_decodes GF GE (jVote t))) as [vs ->]; [exists s; auto|]. eexists. reflexivity.
Qed.
(** the element decoder answers (with or without an error) or panics; true of the shipped groups, see below *)
Definition AnswersOrPanics (G : Grp) : Prop := forall r, DecOk G r \/ gOfJson G (gNew G) r = Panic.
Lemma decElt_ap : forall G r, AnswersOrPanics G -> (exists X, decElt G r = Ok X) \/ decElt G r = Panic.
Proof.
  intros G r HA. destruct (HA r) as [H|H]; [left; apply decElt_ok; exact H|right]. unfold decElt. rewrite H. reflexivity.
Qed.
Lemma decPairs_ap : forall G js ks, AnswersOrPanics G -> (exists r, decPairs G js ks = Ok r) \/ decPairs G js ks = Panic.
Proof.
  intros G js ks HA. revert ks. induction js as [|j js IH]; intros ks; [left; eexists; reflexivity|].
  destruct ks as [|k ks]; [right; reflexivity|]. cbn [decPairs].
  destruct (decElt_ap G (Some j) HA) as [[X ->]| ->]; cbn [bind]; [|right; reflexivity].
  destruct (decElt_ap G (Some k) HA) as [[Y ->]| ->]; cbn [bind]; [|right; reflexivity].
  destruct (IH ks) as [[[l r] ->]| ->]; cbn [bind]; [left; eexists; reflexivity|right; reflexivity].
Qed.
(** a Bulletproof message with fewer R than L, or fewer Hh than Gg, crashes the decoder, whatever its elements are *)
Theorem C36_ragged_panics : forall G b params t, unmarshal stepBulletProofJ zeroBulletProofJ b = Some t ->
  AnswersOrPanics G ->
  (length (jR (jIPP t)) < length (jL (jIPP t)))%nat \/ (length (jHh (jIPParams (jIPP t))) < length (jGg (jIPParams (jIPP t))))%nat ->
  BulletProofUnmarshalJSON G b params = Panic.
Proof.
  intros G b params t Ht HA Hl. unfold BulletProofUnmarshalJSON. rewrite Ht.
  enough (Hip : ipProofFromRaw G (jIPP t) = Panic) by (rewrite Hip; reflexivity).
  assert (HN : ~ exists ip, ipProofFromRaw G (jIPP t) = Ok ip).
  { intros [ip H]. unfold ipProofFromRaw, ipParamsFromRaw in H.
    destruct (decPairs_ap G (jGg (jIPParams (jIPP t))) (jHh (jIPParams (jIPP t))) HA) as [[[l r] Hp]|Hp];
    destruct (decPairs_ap G (jL (jIPP t)) (jR (jIPP t)) HA) as [[[l' r'] Hq]|Hq];
    try (assert (PairsOk G (jGg (jIPParams (jIPP t))) (jHh (jIPParams (jIPP t)))) as [? _] by (apply decPairs_ok; eexists; exact Hp));
    try (assert (PairsOk G (jL (jIPP t)) (jR (jIPP t))) as [? _] by (apply decPairs_ok; eexists; exact Hq));
    try lia; rewrite ?Hp, ?Hq in H;
    repeat match type of H with context [decElt G ?x] => destruct (decElt_ap G x HA) as [[? ->]| ->] in H; cbn [bind] in H end;
    rewrite ?Hp, ?Hq in H; cbn [bind] in H; discriminate. }
  unfold ipProofFromRaw, ipParamsFromRaw in *.
  repeat match goal with
  | |- context [decElt G ?x] => destruct (decElt_ap G x HA) as [[? Hd]|Hd]; rewrite Hd in *; clear Hd; cbn [bind] in *; try reflexivity
  | |- context [decPairs G ?x ?y] => destruct (decPairs_ap G x y HA) as [[[? ?] Hd]|Hd]; rewrite Hd in *; clear Hd; cbn [bind] in *; try reflexivity
  end.
  exfalso. apply HN. eexists. reflexivity.
Qed.
Theorem C36_shipped_decoders : (forall d, AnswersOrPanics (ModPGrp d)) /\
  forall cv name n ci, AnswersOrPanics (CurveGrp cv name n ci).
Proof.
  split.
  - intros d r. left. destruct r as [[]|]; do 2 eexists; reflexivity.
  - intros cv name n ci r. unfold DecOk. cbn [CurveGrp gOfJson gNew]. unfold cgUnmarshalJSON, ecUnmarshalJSON, pointUnmarshalJSON.
    assert (HP : (exists ob, pointJSONBytes (cvL cv) r = Ok ob) \/ pointJSONBytes (cvL cv) r = Panic).
    { unfold pointJSONBytes. destruct (decECPoint r) as [[[x|] [y|]]|]; cbn [deref bind]; try (right; reflexivity); [|left; eexists; reflexivity].
      destruct (_ && _); [left; eexists; reflexivity|]. cbv zeta. destruct (Nat.ltb _ _); [right; reflexivity|].
      destruct (Nat.ltb _ _); [right; reflexivity|left; eexists; reflexivity]. }
    destruct HP as [[[b|] ->]| ->]; cbn [bind]; [|left; do 2 eexists; reflexivity|right; reflexivity].
    left. destruct (ecUnmarshalBinary cv b) as [P|]; cbn [bind]; [|do 2 eexists; reflexivity].
    destruct (ptOf cv P); do 2 eexists; reflexivity.
Qed.
(** what is not an object at the top, or lacks one of the four sub-documents, is an error *)
Theorem C36_top_level : forall GF GE j (pp : PublicParameters GF GE),
  ((forall l, j <> Some (JObj l)) -> BallotDataUnmarshalJSON GF GE j pp = Err) /\
  (forall l, (forall k v, In (k, v) l -> fold_eqb k "ballot" = false) -> BallotDataUnmarshalJSON GF GE (Some (JObj l)) pp = Err).
Proof.
  intros GF GE j pp. split.
  - intros H. destruct j as [[]|]; try reflexivity. exfalso. eapply H. reflexivity.
  - intros l Hl. unfold BallotDataUnmarshalJSON. cbn [unmarshal dec_struct].
    assert (Hj : forall c, jBallot c = None -> match dec_fields stepBallotDataJ c l with Some t => jBallot t = None | None => True end).
    { induction l as [|[k v] l IH]; intros c Hc; [exact Hc|]. cbn [dec_fields]. destruct c as [cb cl cu cv]. cbn [jBallot] in Hc. subst cb. cbn [stepBallotDataJ].
      rewrite (Hl k v (or_introl eq_refl)). specialize (IH (fun k' v' H => Hl k' v' (or_intror H))).
      destruct (fold_eqb k "lbProof"); [apply IH; reflexivity|]. destruct (fold_eqb k "ubProof"); [apply IH; reflexivity|].
      destruct (fold_eqb k "voteProof"); apply IH; reflexivity. }
    specialize (Hj zeroBallotDataJ eq_refl). destruct (dec_fields _ _ l) as [t|]; cbv zeta; [rewrite Hj|]; reflexivity.
Qed.
