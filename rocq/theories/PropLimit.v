(** C85: how large the numbers of verification get is decided by the ballot. *)
From Verif Require Import GoBase Json GroupIface Vector BIP BP VoteProof ModP App ECJson P256k1 Curve Groups Marshal NumTh Alg BPProofs SetupProofs ModPProofs Hom Toy PropBP PropVote PropModP PropApp PropEC PropCurve PropJson PropTransport PropGen
  Primes PrimeCerts PropPrime ECStd ECCert OrderCerts OrderCerts384 PropECLaw Wire WireSpec WireProofs WirePrint PropWire Limit.
From Coq Require Import Znumtheory.
Open Scope char_scope.
Open Scope Z_scope.
Open Scope list_scope.

(** ** Specification *)
(** the exponent of the larger of the two bounds *)
Definition boundBits {GF GE : Grp} (pr : ProofParams GF GE) : Z := wrap16 (vBx pr + vBc pr) + Z.max 0 (vBb pr).
(** the ballot with another number Bb, and with nothing else changed *)
Definition withBb {GF GE : Grp} (n : Z) (b : BallotData GF GE) : BallotData GF GE :=
  let s := bdVote b in let pr := sParams s in
  mkBallotData (bdBallot b) (bdLower b) (bdUpper b)
    (mkSigmaProof (sW s) (sKp s) (sKq1 s) (sKq2 s) (sChal s) (sZ s) (sSp s) (sSq1 s) (sSq2 s)
       (mkProofParams (vBx pr) (vBc pr) (vBg pr) n (vLo pr) (vHi pr) (vGFF pr) (vGEC pr))).

(** ** C85 *)
Lemma exp2M_ok : forall M e, e <= M -> bigExp2M M e = Ok (bigExp2 e).
Proof. intros M e H. unfold bigExp2M. replace (M <? e) with false by (symmetry; apply Z.ltb_ge; lia). reflexivity. Qed.
Lemma exp2M_no : forall M e, M < e -> bigExp2M M e = Panic.
Proof. intros M e H. unfold bigExp2M. apply Z.ltb_lt in H. rewrite H. reflexivity. Qed.
Lemma vp_enough : forall GF GE HO M (pf : SigmaProof GF GE) comm, boundBits (sParams pf) <= M -> vpVerifyM GF GE HO M pf comm = vpVerify GF GE HO pf comm.
Proof.
  intros GF GE HO M pf comm H. unfold boundBits in H. unfold vpVerifyM, vpVerify. cbv zeta. rewrite !exp2M_ok by lia. cbn [bind]. reflexivity.
Qed.
Lemma vp_dies : forall GF GE HO M (pf : SigmaProof GF GE) comm, M < boundBits (sParams pf) -> vpVerifyM GF GE HO M pf comm = Panic.
Proof.
  intros GF GE HO M pf comm H. unfold boundBits in H. unfold vpVerifyM. cbv zeta. destruct (Z_lt_le_dec M (wrap16 (vBx (sParams pf) + vBc (sParams pf)))) as [H1|H1]; [rewrite (exp2M_no _ _ H1); reflexivity|].
  rewrite (exp2M_ok _ _ H1). cbn [bind]. rewrite exp2M_no by lia. reflexivity.
Qed.
(** If the machine can build the two bounds, finite memory makes no difference. *)
Theorem C85_enough : forall GF GE HO M (b : BallotData GF GE) rp, boundBits (sParams (bdVote b)) <= M -> verifyVoteM GF GE HO M b rp = verifyVote GF GE HO b rp.
Proof. intros GF GE HO M b rp H. unfold verifyVoteM, verifyVote. cbv zeta. rewrite vp_enough by exact H. reflexivity. Qed.
(** If it cannot, then it gives the answer "no" of a failed range proof, or none. *)
Theorem C85_dies : forall GF GE HO M (b : BallotData GF GE) rp, M < boundBits (sParams (bdVote b)) ->
  (Verify GE HO (bdLower b) = Ok true -> Verify GE HO (bdUpper b) = Ok true -> verifyVoteM GF GE HO M b rp = Panic) /\
  (forall a, verifyVoteM GF GE HO M b rp = Ok a -> a = (false, 0%nat) /\ (Verify GE HO (bdLower b) = Ok false \/ Verify GE HO (bdUpper b) = Ok false)).
Proof.
  intros GF GE HO M b rp H. unfold verifyVoteM. cbv zeta. rewrite vp_dies by exact H. split; [intros -> ->; reflexivity|]. intros a.
  destruct (Verify GE HO (bdLower b)) as [[]| | |]; try discriminate; cbn [bind negb]; [|intros E; injection E as <-; auto].
  destruct (Verify GE HO (bdUpper b)) as [[]| | |]; try discriminate; cbn [bind negb]. intros E; injection E as <-; auto.
Qed.
(** With the parameters of setup the bounds have no more bits than the order of the curve. *)
Theorem C85_setup : forall d GE nan64 (pp : PublicParameters (ModPGrp d) GE), bitLen (gN GE) < 65536 -> setup d GE nan64 = Ok pp -> 0 <= boundBits (ppRP pp) < bitLen (gN GE).
Proof.
  intros d GE nan64 pp HB HS. unfold setup in HS. destruct (Setup GE nan64 65536) as [bp| | |]; try discriminate. cbn [bind] in HS.
  assert (Hb0 : 0 <= bitLen (gN GE)) by (unfold bitLen; destruct (_ =? 0); [lia|pose proof (Z.log2_nonneg (Z.abs (gN GE))); lia]).
  assert (Hw : wrap16 (bitLen (gN GE)) = bitLen (gN GE)) by (unfold wrap16; apply Z.mod_small; lia). rewrite Hw in HS.
  unfold vpSetup in HS. destruct (_ <? 1) eqn:H1; [discriminate|]. cbn [bind] in HS. apply Z.ltb_ge in H1.
  remember (mkPublicParameters (GF:=ModPGrp d) (GE:=GE)) as mk eqn:Hmk. injection HS as HS. subst mk. rewrite <- HS. unfold boundBits. cbn [ppRP vBx vBc vBb].
  change (wrap16 (16 + 224)) with 240. lia.
Qed.

(** *** The text *)
Lemma digits_low : forall l x, Digits l x -> 0 <= x /\ ((forall r, l <> "0" :: r) -> 10 ^ (Z.of_nat (length l) - 1) <= x).
Proof.
  induction 1 as [c v [Hv Hc]|l x c v HD [IH0 IH] [Hv Hc]].
  - split; [lia|]. intros Hn. cbn [length]. change (10 ^ (Z.of_nat 1 - 1)) with 1. destruct (Z.eq_dec v 0) as [->|]; [|lia].
    exfalso. apply (Hn []). f_equal. unfold code in Hc. apply (f_equal Z.to_N) in Hc. rewrite N2Z.id in Hc. rewrite <- (ascii_N_embedding c), Hc. reflexivity.
  - split; [lia|]. intros Hn. assert (Hl : forall r, l <> "0" :: r) by (intros r ->; apply (Hn (r ++ [c])); reflexivity). specialize (IH Hl).
    rewrite app_length. cbn [length]. replace (Z.of_nat (length l + 1) - 1) with (Z.succ (Z.of_nat (length l) - 1)) by lia.
    assert (0 < length l)%nat by (inversion HD; [cbn; lia|rewrite app_length; cbn; lia]). rewrite Z.pow_succ_r by lia. lia.
Qed.
Lemma printInt_len : forall n, 0 <= n < 2 ^ 63 -> (length (printInt n) <= 19)%nat.
Proof.
  assert (HP : forall l x, IntPart l x -> 0 <= x /\ (x < 2 ^ 63 -> (length l <= 19)%nat) /\ (x = 0 -> (length l <= 1)%nat)).
  { intros l x [HD Hz]. destruct (digits_low l x HD) as [H0 H1]. split; [exact H0|]. destruct Hz as [->|Hz]; [cbn; lia|]. specialize (H1 Hz). split.
    - intros Hx. destruct (le_lt_dec (length l) 19) as [|Hl]; [assumption|]. exfalso. assert (10 ^ 19 <= 10 ^ (Z.of_nat (length l) - 1)) by (apply Z.pow_le_mono_r; lia).
      assert (2 ^ 63 < 10 ^ 19) by reflexivity. lia.
    - intros ->. pose proof (Z.pow_nonneg 10 (Z.of_nat (length l) - 1) ltac:(lia)). destruct (le_lt_dec (length l) 1) as [|Hl]; [assumption|]. pose proof (Z.pow_pos_nonneg 10 (Z.of_nat (length l) - 1)). lia. }
  intros n Hn. pose proof (printInt_spec n) as HI. inversion HI as [l x HX E1 E2|l x HX E1 E2].
  - destruct (HP _ _ HX) as (_ & H & _). apply H. lia.
  - destruct (HP _ _ HX) as (H0 & _ & H). cbn [length]. assert (x = 0) by lia. specialize (H H1). lia.
Qed.
Lemma printInt_ne : forall z, (1 <= length (printInt z))%nat.
Proof. intros z. destruct (printInt_spec z) as [l x [HD _]|l x _]; [inversion HD; [|rewrite app_length]; cbn; lia|cbn; lia]. Qed.
Lemma commas_mid : forall a c, exists p q, forall x, commas (a ++ x :: c) = p ++ x ++ q.
Proof.
  intros [|y a] c; [exists [], (flat_map (fun b => "," :: b) c); reflexivity|].
  exists (y ++ flat_map (fun b => "," :: b) a ++ [","]), (flat_map (fun b => "," :: b) c). intros x. cbn [app commas]. rewrite flat_map_app. cbn [flat_map app]. rewrite <- !app_assoc. reflexivity.
Qed.
Lemma print_field : forall a k c, exists p q, forall v, print (JObj (a ++ (k, v) :: c)) = p ++ print v ++ q.
Proof.
  intros a k c. set (f := fun kv : string * json => quote (fst kv) ++ ":" :: print (snd kv)).
  destruct (commas_mid (map f a) (map f c)) as (p & q & H). exists ("{" :: p ++ quote k ++ [":"]), (q ++ ["}"]). intros v.
  cbn [print]. fold f. rewrite map_app. cbn [map]. rewrite H. unfold f at 1. cbn [fst snd app]. rewrite <- !app_assoc. reflexivity.
Qed.
Lemma text_Bb : forall GF GE (b : BallotData GF GE) t, MarshalBallot GF GE b = Ok t ->
  exists p q, t = p ++ printInt (vBb (sParams (bdVote b))) ++ q /\ forall n, MarshalBallot GF GE (withBb n b) = Ok (p ++ printInt n ++ q).
Proof.
  intros GF GE b t H.
  assert (HH : exists p q, forall n, MarshalBallot GF GE (withBb n b) = Ok (p ++ printInt n ++ q)).
  { unfold MarshalBallot, encBallotData in H. destruct (encCiphertext GF (bdBallot b)) as [c| | |] eqn:E1; try discriminate. cbn [bind] in H.
    destruct (encBulletProof GE (bdLower b)) as [lo| | |] eqn:E2; try discriminate. cbn [bind] in H. destruct (encBulletProof GE (bdUpper b)) as [up| | |] eqn:E3; try discriminate. cbn [bind] in H.
    unfold encSigmaProof in H. destruct (gToJson GF (sW (bdVote b))) as [w| | |] eqn:E4; try discriminate. cbn [bind] in H. destruct (gToJson GF (sKp (bdVote b))) as [kp| | |] eqn:E5; try discriminate. cbn [bind] in H.
    destruct (gToJson GE (sKq1 (bdVote b))) as [k1| | |] eqn:E6; try discriminate. cbn [bind] in H. destruct (gToJson GE (sKq2 (bdVote b))) as [k2| | |] eqn:E7; try discriminate. cbn [bind] in H.
    unfold encProofParams in H. destruct (encGroupParams GF (vGFF (sParams (bdVote b)))) as [ff| | |] eqn:E8; try discriminate. cbn [bind] in H.
    destruct (encGroupParams GE (vGEC (sParams (bdVote b)))) as [ec| | |] eqn:E9; try discriminate. clear H.
    set (pr := sParams (bdVote b)) in *. set (s := bdVote b) in *.
    destruct (print_field [("Bx", JInt (vBx pr)); ("Bc", JInt (vBc pr)); ("Bg", JInt (vBg pr))]%string "Bb" [("RangeLo", JInt (vLo pr)); ("RangeHi", JInt (vHi pr)); ("GFF", ff); ("GEC", ec)]%string) as (p1 & q1 & H1).
    destruct (print_field [("W", w); ("Kp", kp); ("Kq1", k1); ("Kq2", k2); ("Challenge", enc_bigint (sChal s)); ("Z", enc_bigint (sZ s)); ("Sp", enc_bigint (sSp s)); ("Sq1", enc_bigint (sSq1 s));
            ("Sq2", enc_bigint (sSq2 s))]%string "Params" []) as (p2 & q2 & H2).
    destruct (print_field [("ballot", c); ("lbProof", lo); ("ubProof", up)]%string "voteProof" []) as (p3 & q3 & H3).
    exists (p3 ++ p2 ++ p1), (q1 ++ q2 ++ q3). intros n. unfold MarshalBallot, encBallotData, withBb. cbv zeta. fold s pr. cbn [bdBallot bdLower bdUpper bdVote]. rewrite E1, E2, E3. cbn [bind].
    unfold encSigmaProof. cbn [sW sKp sKq1 sKq2 sChal sZ sSp sSq1 sSq2 sParams]. rewrite E4, E5, E6, E7. cbn [bind]. unfold encProofParams. cbn [vBx vBc vBg vBb vLo vHi vGFF vGEC]. rewrite E8, E9. cbn [bind].
    f_equal. cbn [app] in H1, H2, H3. rewrite H3, H2, H1. cbn [print]. rewrite <- !app_assoc. reflexivity. }
  destruct HH as (p & q & HH). exists p, q. split; [|exact HH]. specialize (HH (vBb (sParams (bdVote b)))).
  assert (EB : withBb (vBb (sParams (bdVote b))) b = b) by (destruct b as [? ? ? [? ? ? ? ? ? ? ? ? []]]; reflexivity). rewrite EB in HH. rewrite H in HH. injection HH as ->. reflexivity.
Qed.

(** Every accepted ballot stays accepted, as far as unlimited memory goes, when its number Bb is replaced by a larger one; nothing else
    needs to be done. *)
Theorem C85_raise : forall GF GE HO (b : BallotData GF GE) rp t n, vBb (sParams (bdVote b)) <= n -> verifyVote GF GE HO b rp = Ok (true, t) ->
  verifyVote GF GE HO (withBb n b) rp = Ok (true, t) /\ forall M, M < boundBits (sParams (bdVote (withBb n b))) -> verifyVoteM GF GE HO M (withBb n b) rp = Panic.
Proof.
  intros GF GE HO b rp t n Hn HV. pose proof HV as HV0. apply C28_all_proofs_checked in HV0. destruct HV0 as [[HV0 _] _]. destruct (HV0 eq_refl) as (V1 & V2 & V3). clear HV0.
  split; [|intros M HM; apply (C85_dies GF GE HO M (withBb n b) rp HM); assumption].
  revert HV V3. unfold verifyVote, withBb. cbv zeta. cbn [bdBallot bdLower bdUpper bdVote]. rewrite V1, V2. cbn [bind negb]. set (comm := mkVerCommitments _ _ _ _). clearbody comm.
  intros HV V3. rewrite V3 in HV. cbn [bind] in HV. injection HV as <-.
  enough (EV : vpVerify GF GE HO (bdVote (withBb n b)) comm = Ok true) by (unfold withBb in EV; cbv zeta in EV; cbn [bdVote] in EV; rewrite EV; reflexivity).
  revert V3. unfold vpVerify, withBb. cbv zeta. cbn [bdVote sW sKp sKq1 sKq2 sChal sZ sSp sSq1 sSq2 sParams vBc vGFF vGEC].
  destruct (sZ (bdVote b)) as [z|]; [|discriminate]. cbn [deref bind].
  destruct ((z <? zLowerBound GF GE (sParams (bdVote b))) || (zUpperBound GF GE (sParams (bdVote b)) <=? z)) eqn:EZ; [discriminate|]. apply orb_false_iff in EZ. destruct EZ as [Z1 Z2].
  unfold zLowerBound, zUpperBound in *. cbn [vBx vBc vBb]. rewrite Z1. cbn [orb].
  replace (bigExp2 (wrap16 (vBx (sParams (bdVote b)) + vBc (sParams (bdVote b))) + n) <=? z) with false; [intros H; exact H|]. symmetry. apply Z.leb_gt. apply Z.leb_gt in Z2.
  assert (HW : 0 <= wrap16 (vBx (sParams (bdVote b)) + vBc (sParams (bdVote b)))) by (unfold wrap16; apply Z.mod_pos_bound; lia).
  set (w := wrap16 _) in *. clearbody w. unfold bigExp2 in *. destruct (w + vBb (sParams (bdVote b)) <=? 0) eqn:L1.
  - destruct (w + n <=? 0) eqn:L2; [exact Z2|]. apply Z.leb_gt in L2. assert (0 < 2 ^ (w + n)) by (apply Z.pow_pos_nonneg; lia). lia.
  - apply Z.leb_gt in L1. replace (w + n <=? 0) with false by (symmetry; apply Z.leb_gt; lia). eapply Z.lt_le_trans; [exact Z2|]. apply Z.pow_le_mono_r; lia.
Qed.
(** The same as text: exchange the digits of one number, at most 18 bytes more, and no machine that cannot hold 2^n answers. *)
Definition Sendable {GF GE : Grp} (pp : PublicParameters GF GE) (b : BallotData GF GE) : Prop :=
  pParams (bdLower b) = ppBP pp /\ pParams (bdUpper b) = ppBP pp /\ WFLists (bdLower b) /\ WFLists (bdUpper b) /\ WFInts (sParams (bdVote b)).
Theorem C85_text : forall GF GE HO (pp : PublicParameters GF GE) b n, PlainGrp GF -> PlainGrp GE -> JsonRoundtrip GF -> JsonRoundtrip GE ->
  Sendable pp b -> (exists t, verifyVote GF GE HO b (ppRP pp) = Ok (true, t)) -> vBb (sParams (bdVote b)) <= n -> 0 <= n < 2 ^ 63 ->
  exists p q b', MarshalBallot GF GE b = Ok (p ++ printInt (vBb (sParams (bdVote b))) ++ q) /\
    UnmarshalBallot GF GE (p ++ printInt n ++ q) pp = Ok b' /\
    (length (p ++ printInt n ++ q) <= length (p ++ printInt (vBb (sParams (bdVote b))) ++ q) + 18)%nat /\
    (exists t, verifyVote GF GE HO b' (ppRP pp) = Ok (true, t)) /\
    forall M, M < n -> verifyVoteM GF GE HO M b' (ppRP pp) = Panic.
Proof.
  intros GF GE HO pp b n PF PE JF JE (S1 & S2 & S3 & S4 & S5) (t & HV) Hn HN.
  destruct (C69_roundtrip GF GE PF PE JF JE b pp S1 S2 S3 S4 S5) as (tx & HM & _). destruct (text_Bb GF GE b tx HM) as (p & q & -> & HT).
  exists p, q, (withBb n b). split; [exact HM|]. split.
  - destruct (C69_roundtrip GF GE PF PE JF JE (withBb n b) pp S1 S2 S3 S4) as (tx' & HM' & HU).
    + unfold WFInts in *. unfold withBb. cbn [bdVote sParams vBx vBc vBg vBb vLo vHi]. lia.
    + rewrite HT in HM'. injection HM' as <-. specialize (HU [] [] Ws_nil Ws_nil). cbn [app] in HU. rewrite app_nil_r in HU. exact HU.
  - split; [rewrite !app_length; pose proof (printInt_len n HN); pose proof (printInt_ne (vBb (sParams (bdVote b)))); lia|].
    destruct (C85_raise GF GE HO b (ppRP pp) t n Hn HV) as [R1 R2]. split; [exists t; exact R1|]. intros M HM2. apply R2. unfold boundBits, withBb. cbn [bdVote sParams vBx vBc vBb].
    assert (0 <= wrap16 (vBx (sParams (bdVote b)) + vBc (sParams (bdVote b)))) by (unfold wrap16; apply Z.mod_pos_bound; lia). lia.
Qed.

(** *** Ballots of castVote *)
Lemma cast_sendable : forall d GE HO nan64 pp cr ballot, GrpLaws GE -> nanConv nan64 -> bitLen (gN GE) < 65536 ->
  setup d GE nan64 = Ok pp -> castVote (ModPGrp d) GE HO pp cr = Ok ballot -> Sendable pp ballot /\ sParams (bdVote ballot) = ppRP pp.
Proof.
  intros d GE HO nan64 pp cr ballot HL Hn HB HS HC. pose proof (l_order GE HL) as HN.
  unfold setup in HS. destruct (Setup GE nan64 65536) as [bp| | |] eqn:Hbp; try discriminate. cbn [bind] in HS.
  assert (Hb0 : 0 <= bitLen (gN GE)) by (unfold bitLen; destruct (_ =? 0); [lia|pose proof (Z.log2_nonneg (Z.abs (gN GE))); lia]).
  assert (Hw : wrap16 (bitLen (gN GE)) = bitLen (gN GE)) by (unfold wrap16; apply Z.mod_small; lia). rewrite Hw in HS.
  unfold vpSetup in HS. destruct (_ <? 1) eqn:H1; [discriminate|]. cbn [bind] in HS. apply Z.ltb_ge in H1.
  remember (mkPublicParameters (GF:=ModPGrp d) (GE:=GE)) as mk eqn:Hmk. injection HS as HS. subst mk.
  unfold castVote in HC.
  repeat match type of HC with
    | bind ?e _ = Ok _ => destruct e as [?| | |] eqn:?; cbn [bind] in HC; try discriminate
    | (let '(_, _) := ?e in _) = Ok _ => destruct e as [? ?]
    end.
  injection HC as <-.
  repeat match goal with Hq : Prove GE HO _ _ _ = Ok _ |- _ => 
    apply (prove_shape GE HO nan64 65536) in Hq; [destruct Hq|exact HL|exact Hn|reflexivity|rewrite <- HS; exact Hbp] end.
  match goal with Hq : vpProve _ _ _ _ _ _ _ _ _ = Ok _ |- _ => apply vpProve_iter in Hq; destruct Hq as (dr & _ & Hq); 
    apply vpIter_iff in Hq; [destruct Hq as (_ & ch & _ & _ & ->)| |] end; try (rewrite <- HS; reflexivity).
  unfold Sendable. cbn [bdLower bdUpper bdVote sParams]. split; [|reflexivity]. do 4 (split; [assumption|]).
  rewrite <- HS. unfold WFInts. cbn [ppRP vBx vBc vBg vBb vLo vHi]. lia.
Qed.
(** From every ballot castVote returns, by exchanging one number of its text: a text no longer than 18 bytes more, accepted in principle, which
    no machine that cannot hold a number of n bits answers; the ballot itself needs numbers no longer than the order of the curve. *)
Theorem C85_cast : forall d cv name N ci HO nan64 pp cr ballot n,
  ascii7b (mpName d) = true -> ascii7b name = true ->
  ModPOk d -> GoodCurve cv -> CirclOk cv N ci -> nanConv nan64 -> bitLen N < 65536 -> N <= mpOrder d ->
  setup d (CurveGrp cv name N ci) nan64 = Ok pp -> CastDrawsOk pp cr ->
  castVote (ModPGrp d) (CurveGrp cv name N ci) HO pp cr = Ok ballot -> bitLen N <= n < 2 ^ 63 ->
  exists p q b', MarshalBallot (ModPGrp d) (CurveGrp cv name N ci) ballot = Ok (p ++ printInt (vBb (ppRP pp)) ++ q) /\
    UnmarshalBallot (ModPGrp d) (CurveGrp cv name N ci) (p ++ printInt n ++ q) pp = Ok b' /\
    (length (p ++ printInt n ++ q) <= length (p ++ printInt (vBb (ppRP pp)) ++ q) + 18)%nat /\
    (exists t, verifyVote (ModPGrp d) (CurveGrp cv name N ci) HO b' (ppRP pp) = Ok (true, t)) /\
    (forall M, M < n -> verifyVoteM (ModPGrp d) (CurveGrp cv name N ci) HO M b' (ppRP pp) = Panic) /\
    (forall M, bitLen N <= M -> verifyVoteM (ModPGrp d) (CurveGrp cv name N ci) HO M ballot (ppRP pp) = Ok (true, 2%nat)).
Proof.
  intros d cv name N ci HO nan64 pp cr ballot n Nd Nc Hok GC CO Hn HB HQ HS HD HC Hn2.
  pose proof (C51_curve_group_contract cv name N ci CO) as LE.
  destruct (cast_sendable d (CurveGrp cv name N ci) HO nan64 pp cr ballot LE Hn HB HS HC) as [HSd HP].
  pose proof (C25_end_to_end d (CurveGrp cv name N ci) HO nan64 pp cr ballot Hok LE Hn HB HQ HS HD HC) as HV.
  pose proof (C85_setup d (CurveGrp cv name N ci) nan64 pp HB HS) as HBd. cbn [CurveGrp gN] in HBd.
  assert (HW : 0 <= wrap16 (vBx (ppRP pp) + vBc (ppRP pp))) by (unfold wrap16; apply Z.mod_pos_bound; lia).
  destruct (C85_text (ModPGrp d) (CurveGrp cv name N ci) HO pp ballot n (C69_modp_plain d Nd) (C69_curve_plain cv name N ci Nc) (C35_modp_elements d) (C35_curve_elements cv name N ci GC) HSd (ex_intro _ _ HV))
    as (p & q & b' & T1 & T2 & T3 & T4 & T5).
  - rewrite HP. unfold boundBits in HBd. lia.
  - lia.
  - rewrite HP in *. exists p, q, b'. do 5 (split; [assumption|]). intros M HM. rewrite C85_enough by (rewrite HP; lia). exact HV.
Qed.
(** With the constants of main.go over P-256 and P-384 *)
Theorem C85_shipped_curves : forall HO nan64, prime (mpField rfcDesc) -> prime (mpOrder rfcDesc) -> nanConv nan64 ->
  forall GE, Nist GE -> exists pp, setup rfcDesc GE nan64 = Ok pp /\
    forall cr ballot n, CastDrawsOk pp cr -> castVote (ModPGrp rfcDesc) GE HO pp cr = Ok ballot -> 384 <= n < 2 ^ 63 ->
    exists p q b', MarshalBallot (ModPGrp rfcDesc) GE ballot = Ok (p ++ printInt (vBb (ppRP pp)) ++ q) /\
      UnmarshalBallot (ModPGrp rfcDesc) GE (p ++ printInt n ++ q) pp = Ok b' /\
      (length (p ++ printInt n ++ q) <= length (p ++ printInt (vBb (ppRP pp)) ++ q) + 18)%nat /\
      (exists t, verifyVote (ModPGrp rfcDesc) GE HO b' (ppRP pp) = Ok (true, t)) /\
      (forall M, M < n -> verifyVoteM (ModPGrp rfcDesc) GE HO M b' (ppRP pp) = Panic) /\
      (forall M, 384 <= M -> verifyVoteM (ModPGrp rfcDesc) GE HO M ballot (ppRP pp) = Ok (true, 2%nat)).
Proof.
  intros HO nan64 Hp Hq Hn GE HG. pose proof C49_rfc3526 as (_ & _ & _ & _ & _ & _ & _ & HSP).
  pose proof (safe_ok _ (HSP Hp Hq)) as Hok. destruct rfc_facts as (F1 & F2 & F3 & F4 & _). destruct HG as [decomp ci SC|decomp ci SC].
  - destruct (std_contract _ _ _ _ (p256_cert decomp) SC) as (CO & _). destruct (C43_shipped_curves (P256Grp decomp ci) nan64) as (pp & HS & _); [intros s; eexists; reflexivity|right; right; left; reflexivity|].
    exists pp. split; [exact HS|]. intros cr b n HD HC HN. assert (HL : bitLen p256Order <= 384) by (vm_compute; discriminate).
    destruct (C85_cast rfcDesc (P256 decomp) "P-256" p256Order ci HO nan64 pp cr b n eq_refl eq_refl Hok (proj1 (C31_shipped_curves decomp)) CO Hn F1 F2 HS HD HC ltac:(lia)) as (p & q & b' & T1 & T2 & T3 & T4 & T5 & T6).
    exists p, q, b'. do 5 (split; [assumption|]). intros M HM. apply T6. lia.
  - destruct (std_contract _ _ _ _ (p384_cert decomp) SC) as (CO & _). destruct (C43_shipped_curves (P384Grp decomp ci) nan64) as (pp & HS & _); [intros s; eexists; reflexivity|right; right; right; left; reflexivity|].
    exists pp. split; [exact HS|]. intros cr b n HD HC HN. assert (HL : bitLen p384Order <= 384) by (vm_compute; discriminate).
    destruct (C85_cast rfcDesc (P384 decomp) "P-384" p384Order ci HO nan64 pp cr b n eq_refl eq_refl Hok (proj2 (C31_shipped_curves decomp)) CO Hn F3 F4 HS HD HC ltac:(lia)) as (p & q & b' & T1 & T2 & T3 & T4 & T5 & T6).
    exists p, q, b'. do 5 (split; [assumption|]). intros M HM. apply T6. lia.
Qed.

Lemma okEq {A} (x y : A) : Ok x = Ok y -> y = x.
Proof. congruence. Qed.
(** ** Concrete case: a text for 2^62 bits, made from a ballot of castVote over a small curve *)
Example C85_case : exists pp ballot p q b', setup dBig (CurveGrp cv7 "toy" n7 ci7) 0 = Ok pp /\
  castVote (ModPGrp dBig) (CurveGrp cv7 "toy" n7 ci7) oneHO pp bCR = Ok ballot /\ vBb (ppRP pp) = 12 /\
  MarshalBallot _ _ ballot = Ok (p ++ txt "12" ++ q) /\ UnmarshalBallot _ _ (p ++ txt "4611686018427387904" ++ q) pp = Ok b' /\
  (exists t, verifyVote (ModPGrp dBig) (CurveGrp cv7 "toy" n7 ci7) oneHO b' (ppRP pp) = Ok (true, t)) /\
  verifyVoteM (ModPGrp dBig) (CurveGrp cv7 "toy" n7 ci7) oneHO (2 ^ 50) b' (ppRP pp) = Panic.
Proof.
  assert (HB : bitLen n7 = 253) by (vm_compute; reflexivity). assert (HQ : n7 <= mpOrder dBig) by (vm_compute; discriminate).
  destruct C58_case as (pp & ballot & _ & _ & HS & HC & _).
  destruct (C43_setup_outcome dBig (CurveGrp cv7 "toy" n7 ci7) 0) as [_ HSe]; [intros s; eexists; reflexivity|cbn [CurveGrp gN]; rewrite HB; lia|cbn [CurveGrp gN]; rewrite HB; lia|].
  destruct (HSe ltac:(cbn [CurveGrp gN]; rewrite HB; lia)) as (pp' & HS' & Hmin & Hmax & _ & _ & _ & _ & HBg & HBb & _). cbn [CurveGrp gN] in HBg, HBb. rewrite HB in HBg, HBb.
  rewrite HS in HS'. apply okEq in HS'. subst pp'.
  assert (HD : CastDrawsOk pp bCR).
  { split; [rewrite Hmin, Hmax; cbn [bCR cr_choice]; lia|]. intros dr Hin. unfold DrawOk. rewrite HBg. cbn [bCR cr_vp In] in Hin.
    destruct Hin as [<-|[<-|[]]]; cbn [dk dtp dtq1 dtq2]; repeat split; try discriminate; reflexivity. }
  destruct (C85_cast dBig cv7 "toy" n7 ci7 oneHO 0 pp bCR ballot (2 ^ 62) eq_refl eq_refl dBig_ok (proj1 C51_case) ci7_ok_mult (or_intror eq_refl) ltac:(rewrite HB; lia) HQ HS HD HC ltac:(rewrite HB; lia))
    as (p & q & b' & T1 & T2 & _ & T4 & T5 & _).
  rewrite HBb in T1. exists pp, ballot, p, q, b'. split; [exact HS|]. split; [exact HC|]. split; [exact HBb|]. split; [exact T1|]. split; [exact T2|]. split; [exact T4|]. apply T5. reflexivity.
Qed.

Print Assumptions C85_enough.
Print Assumptions C85_dies.
Print Assumptions C85_setup.
Print Assumptions C85_raise.
Print Assumptions C85_text.
Print Assumptions C85_cast.
Print Assumptions C85_shipped_curves.
