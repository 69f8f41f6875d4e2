(** C73: anyone can turn a ballot into another ballot for the same vote. *)
From Verif Require Import GoBase Json GroupIface Vector BIP BP VoteProof ModP App ECJson NumTh Alg BPProofs ModPProofs Hom Toy PropBP PropVote PropModP PropApp PropGen.
From Coq Require Import Znumtheory.

(** ** Specification: re-randomising a ballot, from the ballot and the public key alone *)
Definition shiftVote {GF GE : Grp} (delta : Z) (p : SigmaProof GF GE) : SigmaProof GF GE :=
  let c := match sChal p with Some c => c | None => 0 end in
  mkSigmaProof (sW p) (sKp p) (sKq1 p) (sKq2 p) (sChal p) (sZ p) (option_map (fun s => (s + c * delta) mod gN GF) (sSp p)) (sSq1 p) (sSq2 p) (sParams p).
Definition rerandomise {GF GE : Grp} (pk : E GF) (delta : Z) (b : BallotData GF GE) : BallotData GF GE :=
  mkBallotData (mkCiphertext (gAdd GF (ctU (bdBallot b)) (gBase GF delta)) (gAdd GF (ctV (bdBallot b)) (gScale GF pk delta)))
    (bdLower b) (bdUpper b) (shiftVote delta (bdVote b)).
(** the two mod-p checks of the vote proof do not notice *)
Definition Shiftable (G : Grp) (pk : E G) (c delta : Z) : Prop :=
  (forall sp U W, gEq G (gBase G ((sp + c * delta) mod gN G)) (gAdd G (gScale G (gAdd G U (gBase G delta)) c) W) = gEq G (gBase G sp) (gAdd G (gScale G U c) W)) /\
  (forall gp z sp V K, gpH gp = pk -> sigmaPedersenCheck G z ((sp + c * delta) mod gN G) c K (gAdd G V (gScale G pk delta)) gp = sigmaPedersenCheck G z sp c K V gp).

Lemma verify_shift : forall GF GE HO pk delta (b : BallotData GF GE) rp,
  gpH (vGFF (sParams (bdVote b))) = pk ->
  (forall c, getFSChallenge GF GE HO (sW (bdVote b)) (sKp (bdVote b)) (sKq1 (bdVote b)) (sKq2 (bdVote b)) (vBc (sParams (bdVote b))) = Ok c -> Shiftable GF pk c delta) ->
  verifyVote GF GE HO (rerandomise pk delta b) rp = verifyVote GF GE HO b rp.
Proof.
  intros GF GE HO pk delta b rp Hpk HS. unfold verifyVote, rerandomise. cbn [bdBallot bdLower bdUpper bdVote ctU ctV].
  destruct (Verify GE HO (bdLower b)) as [[]| | |]; try reflexivity. cbn [bind negb].
  destruct (Verify GE HO (bdUpper b)) as [[]| | |]; try reflexivity. cbn [bind negb].
  match goal with |- bind ?x _ = bind ?y _ => enough (Hxy : x = y) by (rewrite Hxy; reflexivity) end.
  unfold vpVerify, shiftVote. cbn [sW sKp sKq1 sKq2 sChal sZ sSp sSq1 sSq2 sParams cY cXp cXq1 cXq2].
  destruct (sZ (bdVote b)) as [z|]; [|reflexivity]. cbn [deref bind]. destruct (_ || _); [reflexivity|].
  destruct (getFSChallenge _ _ _ _ _ _ _ _) as [c| | |] eqn:Ec; try reflexivity. cbn [bind]. destruct (HS c eq_refl) as [S1 S2].
  destruct (sChal (bdVote b)) as [c'|]; [|reflexivity]. cbn [deref bind].
  destruct (c =? c') eqn:Ecc; [|reflexivity]. apply Z.eqb_eq in Ecc. subst c'. cbn [negb].
  destruct (sSp (bdVote b)) as [sp|]; [|reflexivity]. cbn [option_map deref bind]. rewrite S1, (S2 _ _ _ _ _ Hpk). reflexivity.
Qed.

Lemma shift_laws : forall G pk c delta, GrpLaws G -> Shiftable G pk c delta.
Proof.
  intros G pk c delta L.
  assert (HQ : forall a b a' b' x, a' = gAdd G a x -> b' = gAdd G b x -> gEq G a' b' = gEq G a b).
  { intros a b a' b' x -> ->. apply eq_true_iff_eq. rewrite !(l_eq G L). split; [apply (add_cancel_r L)|intros ->; reflexivity]. }
  split.
  - intros sp U W. apply (HQ _ _ _ _ (gScale G (gGen G) (c * delta))); rewrite !(l_base G L); glin L.
    all: try (modn; apply eqm_of_eq; ring).
  - intros gp z sp V K Hg. unfold sigmaPedersenCheck, vpCommit. rewrite Hg. apply (HQ _ _ _ _ (gScale G pk (c * delta))); rewrite ?(l_base G L); glin L.
    all: try (modn; apply eqm_of_eq; ring).
Qed.

(** C73: the answer of verifyVote stays the same *)
Theorem C73_same_answer : forall GF GE HO pk delta (b : BallotData GF GE) rp, GrpLaws GF ->
  gpH (vGFF (sParams (bdVote b))) = pk -> verifyVote GF GE HO (rerandomise pk delta b) rp = verifyVote GF GE HO b rp.
Proof. intros GF GE HO pk delta b rp L H. apply verify_shift; [exact H|]. intros c _. apply shift_laws. exact L. Qed.

Section Raw.
Context (d : ModPDesc) (Hok : ModPOk d).
Local Notation p := (mpField d).
Lemma scale_add_raw : forall X Y c, 0 <= c -> mpScale d 0 (mpAdd d X Y) c = mpAdd d (mpScale d 0 X c) (mpScale d 0 Y c).
Proof.
  intros X Y c Hc. pose proof (okp d Hok) as Hp. unfold mpScale, bigExp. replace (c <? 0) with false by (symmetry; apply Z.ltb_ge; exact Hc). cbn [or_old].
  rewrite !Zpow_mod_pow by lia. unfold mpAdd. apply (proj1 (eqm_mod _ _ _)). transitivity ((X * Y) ^ c); [apply eqm_pow; modn; reflexivity|].
  rewrite Z.pow_mul_l. modn. reflexivity.
Qed.
Lemma scale_scale_raw : forall X a b, Member d X -> mpScale d 0 (mpScale d 0 X a) b = mpScale d 0 X (b * a).
Proof.
  intros X a b HX. pose (G := SubGrp d Hok). assert (H : gScale G (gScale G (mks d X HX) a) b = gScale G (mks d X HX) (b * a)).
  { pose proof (SubLaws d Hok) as L. unfold G. glin L. }
  exact (f_equal (@sv d) H).
Qed.
Lemma eq_shift_raw : forall a b x, Member d x -> (mpAdd d a x =? mpAdd d b x) = (a mod p =? b mod p).
Proof.
  intros a b x Hx. pose proof (okp d Hok) as Hp. apply eq_true_iff_eq. rewrite !Z.eqb_eq. unfold mpAdd. rewrite <- !(eqm_mod p). split.
  - intros H. apply (memb_cancel d Hok x); [apply (memb_gcd d Hok); exact Hx|]. rewrite !(Z.mul_comm x). exact H.
  - intros ->. reflexivity.
Qed.
Lemma shift_modp : forall pk c delta, Member d pk -> 0 <= c -> Shiftable (ModPGrp d) pk c delta.
Proof.
  intros pk c delta Hpk Hc. pose proof (okp d Hok) as Hp. pose proof (memb_gen d Hok) as Hg.
  assert (HM : forall X Y K, Member d Y -> mpAdd d (mpScale d 0 (mpAdd d X (mpScale d 0 Y delta)) c) K = mpAdd d (mpAdd d (mpScale d 0 X c) K) (mpScale d 0 Y (c * delta))).
  { intros X Y K HY. rewrite scale_add_raw, scale_scale_raw by assumption. rewrite <- !add_assoc'. f_equal. apply add_comm'. }
  assert (HS : forall Y s, Member d Y -> mpScale d 0 Y ((s + c * delta) mod mpOrder d) = mpAdd d (mpScale d 0 Y s) (mpScale d 0 Y (c * delta))).
  { intros Y s HY. rewrite (scale_mod' d Hok) by exact HY. apply (scale_plus' d Hok). exact HY. }
  assert (Hmm : forall a b, mpAdd d a b mod p = mpAdd d a b) by (intros; unfold mpAdd; apply Z.mod_mod; lia).
  split.
  - intros sp U W. cbn [ModPGrp gEq gBase gAdd gScale gN]. change (mpBaseScale d 0) with (mpScale d 0 (mpGen d)).
    rewrite HS, HM by exact Hg. rewrite eq_shift_raw by (apply (memb_scale d Hok); exact Hg). rewrite Hmm.
    rewrite Z.mod_small; [reflexivity|]. apply (memb_scale d Hok 0 _ sp Hg).
  - intros gp z sp V K Hgp. unfold sigmaPedersenCheck, vpCommit. rewrite Hgp. cbn [ModPGrp gEq gBase gAdd gScale gN].
    rewrite HS, HM by exact Hpk. rewrite add_assoc'. rewrite eq_shift_raw by (apply (memb_scale d Hok); exact Hpk). rewrite !Hmm. reflexivity.
Qed.
End Raw.

(** for the program's group also when the ballot holds integers that are no members of the group, or are not reduced *)
Theorem C73_same_answer_modp : forall d GE HO pk delta (b : BallotData (ModPGrp d) GE) rp, ModPOk d -> (forall m, Forall is_byte (sha256 HO m)) ->
  Member d pk -> gpH (vGFF (sParams (bdVote b))) = pk ->
  verifyVote (ModPGrp d) GE HO (rerandomise (GF:=ModPGrp d) pk delta b) rp = verifyVote (ModPGrp d) GE HO b rp.
Proof.
  intros d GE HO pk delta b rp Hok Hby HM Hpk. apply verify_shift; [exact Hpk|]. intros c Hc. apply shift_modp; [exact Hok|exact HM|].
  exact (fs_nonneg _ _ _ _ _ _ _ _ _ (Hby _) Hc).
Qed.

(** the same vote, encrypted afresh *)
Theorem C73_same_vote : forall GF GE pk delta (b : BallotData GF GE) v r, GrpLaws GF ->
  Encrypts GF pk (ctU (bdBallot b)) (ctV (bdBallot b)) v r ->
  let b' := rerandomise pk delta b in Encrypts GF pk (ctU (bdBallot b')) (ctV (bdBallot b')) v (r + delta).
Proof.
  intros GF GE pk delta b v r L [HU HV] b'. unfold b', rerandomise, Encrypts. cbn [bdBallot ctU ctV]. rewrite HU, HV, ?(l_base GF L). split; glin L.
Qed.
Theorem C73_new_ciphertext : forall GF GE pk delta (b : BallotData GF GE), GrpPrime GF -> delta mod gN GF <> 0 ->
  ctU (bdBallot (rerandomise pk delta b)) <> ctU (bdBallot b).
Proof.
  intros GF GE pk delta b P Hd H. pose proof (lp_laws GF P) as L. unfold rerandomise in H. cbn [bdBallot ctU] in H. apply Hd.
  rewrite <- (Z.mod_0_l (gN GF)) by (pose proof (l_order GF L); lia). apply (gen_inj GF P).
  rewrite <- (l_base GF L). apply (add_cancel_l L (ctU (bdBallot b))). rewrite H. glin L.
Qed.

Lemma vpProve_shift : forall GF GE HO (pr : ProofParams GF GE) v r delta g1 g2 drs pf, gpN (vGFF pr) = Some (gN GF) ->
  vpProve GF GE HO v r g1 g2 pr drs = Ok pf -> vpProve GF GE HO v ((r + delta) mod gN GF) g1 g2 pr drs = Ok (shiftVote delta pf).
Proof.
  intros GF GE HO pr v r delta g1 g2 drs pf HN. induction drs as [|dr t IH]; [discriminate|]. intros Hp. cbn [vpProve] in *. unfold vpIter in *.
  rewrite HN in *. unfold posN at 1 in Hp. unfold posN at 1. cbn [deref bind] in *. destruct (gN GF <=? 0); try discriminate. cbn [bind] in *.
  destruct (posN (gpN (vGEC pr))) as [ne'| | |]; try discriminate. cbn [bind] in *.
  destruct (getFSChallenge _ _ _ _ _ _ _ _) as [c| | |]; try discriminate. cbn [bind] in *. destruct (_ || _).
  - cbn [bind] in *. apply IH. exact Hp.
  - cbn [bind] in *. injection Hp as <-. unfold shiftVote. cbn [sW sKp sKq1 sKq2 sChal sZ sSp sSq1 sSq2 sParams option_map].
    do 3 f_equal. rewrite Zplus_mod_idemp_l. apply (proj1 (eqm_mod _ _ _)). modn. apply eqm_of_eq. ring.
Qed.
Lemma cast_facts : forall GF GE HO (pp : PublicParameters GF GE) ch r r1 r2 drs b, castVote GF GE HO pp (mkCastRand ch r r1 r2 drs) = Ok b ->
  ctU (bdBallot b) = gBase GF (r + 1) /\ sParams (bdVote b) = ppRP pp.
Proof.
  intros GF GE HO pp ch r r1 r2 drs b H. unfold castVote in H. cbn [cr_choice cr_eg cr_bp1 cr_bp2 cr_vp] in H.
  destruct (randInt _ ch) as [rb| | |]; try discriminate. cbn [bind] in H. cbv zeta in H.
  unfold encryptVote, randInt in H. destruct (gN GF - 1 <=? 0); [discriminate|]. cbn [bind] in H.
  destruct (Prove GE HO _ _ r1) as [[b1 g1]| | |]; try discriminate. cbn [bind] in H.
  destruct (Prove GE HO _ _ r2) as [[b2 g2]| | |]; try discriminate. cbn [bind] in H.
  destruct (deref _) as [ne| | |]; try discriminate. cbn [bind] in H.
  destruct (vpProve _ _ _ _ _ _ _ _ _) as [pf| | |] eqn:Ep; try discriminate. cbn [bind] in H. injection H as <-. cbn [bdBallot bdVote ctU]. split; [reflexivity|].
  induction drs as [|dr t IH]; [discriminate|]. cbn [vpProve] in Ep. unfold vpIter in Ep.
  destruct (posN (gpN (vGFF (ppRP pp)))); try discriminate. destruct (posN (gpN (vGEC (ppRP pp)))); try discriminate. cbn [bind] in Ep.
  destruct (getFSChallenge _ _ _ _ _ _ _ _) as [c| | |]; try discriminate. cbn [bind] in Ep. destruct (_ || _); cbn [bind] in Ep; [apply IH; exact Ep|].
  injection Ep as <-. reflexivity.
Qed.
(** the encryption randomness after adding delta; a draw of castVote (0 <= . < N - 1) unless (r + 1 + delta) is a multiple of N *)
Definition freshDraw (N r delta : Z) : Z := (r + 1 + delta) mod N - 1.
Lemma freshDraw_range : forall N r delta, 0 < N -> (r + 1 + delta) mod N <> 0 -> 0 <= freshDraw N r delta < N - 1.
Proof. intros N r delta HN H. unfold freshDraw. pose proof (Z.mod_pos_bound (r + 1 + delta) N HN). lia. Qed.

Lemma honest_gen : forall GF GE HO (pp : PublicParameters GF GE) ch r delta r1 r2 drs b,
  (forall a c, gBase GF ((a + c) mod gN GF) = gAdd GF (gBase GF a) (gBase GF c)) ->
  (forall X a c, gAdd GF X (gScale GF (ppEGPK pp) ((a + c) mod gN GF)) = gAdd GF (gAdd GF X (gScale GF (ppEGPK pp) a)) (gScale GF (ppEGPK pp) c)) ->
  gpN (vGFF (ppRP pp)) = Some (gN GF) ->
  castVote GF GE HO pp (mkCastRand ch r r1 r2 drs) = Ok b ->
  castVote GF GE HO pp (mkCastRand ch (freshDraw (gN GF) r delta) r1 r2 drs) = Ok (rerandomise (ppEGPK pp) delta b).
Proof.
  intros GF GE HO pp ch r delta r1 r2 drs b HB HK HN H. unfold castVote in *. cbn [cr_choice cr_eg cr_bp1 cr_bp2 cr_vp] in *.
  destruct (randInt _ ch) as [rb| | |]; try discriminate. cbn [bind] in *. cbv zeta in *.
  unfold encryptVote, randInt in *. destruct (gN GF - 1 <=? 0); [discriminate|]. cbn [bind] in *.
  destruct (Prove GE HO _ _ r1) as [[b1 g1]| | |]; try discriminate. cbn [bind] in *.
  destruct (Prove GE HO _ _ r2) as [[b2 g2]| | |]; try discriminate. cbn [bind] in *.
  destruct (deref _) as [ne| | |]; try discriminate. cbn [bind] in *.
  match type of H with context [vpProve _ _ _ ?v _ _ _ _ _] => destruct (vpProve GF GE HO v (r + 1) g1 (ne - g2) (ppRP pp) drs) as [pf| | |] eqn:Ep; try discriminate end.
  cbn [bind] in H. injection H as <-. unfold freshDraw. rewrite Z.sub_add. rewrite (vpProve_shift _ _ _ _ _ _ delta _ _ _ _ HN Ep). cbn [bind].
  unfold rerandomise. cbn [bdBallot bdLower bdUpper bdVote ctU ctV]. rewrite HB, HK. reflexivity.
Qed.

(** Nobody can tell: re-randomising what castVote returns gives what castVote returns with other encryption randomness and the same draws
    otherwise. A uniform delta makes the new randomness uniform. *)
Theorem C73_honest : forall GF GE HO (pp : PublicParameters GF GE) ch r delta r1 r2 drs b, GrpLaws GF ->
  gpN (vGFF (ppRP pp)) = Some (gN GF) ->
  castVote GF GE HO pp (mkCastRand ch r r1 r2 drs) = Ok b ->
  castVote GF GE HO pp (mkCastRand ch (freshDraw (gN GF) r delta) r1 r2 drs) = Ok (rerandomise (ppEGPK pp) delta b).
Proof.
  intros GF GE HO pp ch r delta r1 r2 drs b L HN H. apply honest_gen; try assumption.
  - intros a c. rewrite !(l_base GF L). glin L. modn. apply eqm_of_eq; ring.
  - intros X a c. glin L. modn. apply eqm_of_eq; ring.
Qed.
(** the program: any parameters from setup; the copy is accepted and is a new ciphertext *)
Theorem C73_program : forall d GE HO nan64 pp ch r delta r1 r2 drs b,
  ModPOk d -> (forall m, Forall is_byte (sha256 HO m)) -> setup d GE nan64 = Ok pp ->
  castVote (ModPGrp d) GE HO pp (mkCastRand ch r r1 r2 drs) = Ok b ->
  let b' := rerandomise (GF:=ModPGrp d) (ppEGPK pp) delta b in
  castVote (ModPGrp d) GE HO pp (mkCastRand ch (freshDraw (mpOrder d) r delta) r1 r2 drs) = Ok b' /\
  verifyVote (ModPGrp d) GE HO b' (ppRP pp) = verifyVote (ModPGrp d) GE HO b (ppRP pp) /\
  (SafePrime2 d -> delta mod mpOrder d <> 0 -> ctU (bdBallot b') <> ctU (bdBallot b)).
Proof.
  intros d GE HO nan64 pp ch r delta r1 r2 drs b Hok Hby HS H b'.
  assert (HP : Member d (ppEGPK pp) /\ gpN (vGFF (ppRP pp)) = Some (mpOrder d) /\ gpH (vGFF (ppRP pp)) = ppEGPK pp).
  { unfold setup in HS. destruct (Setup GE nan64 65536) as [bp| | |]; try discriminate. cbn [bind] in HS. unfold vpSetup in HS.
    destruct (_ <? 1); [discriminate|]. cbn [bind] in HS. injection HS as <-. cbn [ppEGPK ppRP vGFF gpN gpH]. split; [|split; reflexivity].
    apply (memb_scale d Hok). apply (memb_gen d Hok). }
  destruct HP as (HM & HN & HPk). destruct (cast_facts _ _ _ _ _ _ _ _ _ _ H) as [HU HSP]. pose proof (memb_gen d Hok) as Hg.
  split; [|split].
  - unfold b'. apply (honest_gen (ModPGrp d)); try assumption.
    + intros a c. cbn [ModPGrp gBase gAdd gN]. change (mpBaseScale d 0) with (mpScale d 0 (mpGen d)). rewrite (scale_mod' d Hok) by exact Hg. apply (scale_plus' d Hok). exact Hg.
    + intros X a c. cbn [ModPGrp gScale gAdd gN]. rewrite (scale_mod' d Hok), (scale_plus' d Hok) by exact HM. apply add_assoc'.
  - apply C73_same_answer_modp; try assumption. rewrite HSP. exact HPk.
  - intros HSf Hd He. pose proof (C29_prime_order d Hok HSf) as PF. apply Hd. unfold b', rerandomise in He. cbn [bdBallot ctU] in He. rewrite HU in He.
    rewrite <- (Z.mod_0_l (mpOrder d)) by (pose proof (okq d Hok); lia). apply (gen_inj (SubGrp d Hok) PF).
    pose proof (SubLaws d Hok) as L. apply (add_cancel_l L (gScale (SubGrp d Hok) (gGen (SubGrp d Hok)) (r + 1))).
    transitivity (gScale (SubGrp d Hok) (gGen (SubGrp d Hok)) (r + 1)); [apply sub_eq; exact He|]. glin L.
Qed.

(** ** A concrete case *)
(** the ballot of C25_run (ElGamal over p = 8423, candidate 5) re-randomised by 1000: another ciphertext, accepted, decrypting to 2^5, and the one
    castVote returns for the randomness 1077 *)
Definition cRun (delta : Z) : res (bool * nat * Z * Z) :=
  b <- castVote (ModPGrp dToy) toy aHO aPP aCR ;;
  let b' := rerandomise (GF:=ModPGrp dToy) (ppEGPK aPP) delta b in
  '(ok, n) <- verifyVote (ModPGrp dToy) toy aHO b' aRP ;;
  Ok (ok, n, ctU (bdBallot b'), gSub (ModPGrp dToy) (ctV (bdBallot b')) (gScale (ModPGrp dToy) (ctU (bdBallot b')) 13)).
Example C73_case : cRun 0 = Ok (true, 2%nat, 3917, 32) /\ cRun 1000 = Ok (true, 2%nat, 1369, 32) /\ freshDraw (mpOrder dToy) 77 1000 = 1077.
Proof. repeat split; vm_compute; reflexivity. Qed.

Print Assumptions C73_same_answer.
Print Assumptions C73_same_answer_modp.
Print Assumptions C73_same_vote.
Print Assumptions C73_new_ciphertext.
Print Assumptions C73_honest.
Print Assumptions C73_program.
