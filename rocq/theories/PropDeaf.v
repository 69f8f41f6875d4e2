(** C78: what the server can be made to accept over the groups whose elements do not survive JSON (C53). *)
From Verif Require Import GoBase Json GroupIface Vector BIP BP VoteProof ModP App ECJson P256k1 Groups Marshal NumTh Alg
  VectorProofs BIPProofs BPProofs SetupProofs ModPProofs BytesProofs Toy Hom Pres PropBP PropVote PropModP PropApp PropEC PropCurve PropJson PropTransport PropGen
  PropModSound Fork PropFork PropK1 Curve Primes PrimeCerts PropPrime ECPoints ECStd ECCert OrderCerts PropECLaw PropK1Sound.
From Coq Require Import Znumtheory Zpow_facts.

(** ** Specification *)
(** The hash of two freshly allocated elements gives y = z; this is the point that condition (67) asks for when all of A, S and P are the
    identity. It depends on the public parameters and the hash alone. *)
Definition blankPoint (GE : Grp) (HO : Oracles) (p : BPParams GE) : E GE :=
  let '(y, z) := HashBP GE HO (gNew GE) (gNew GE) in
  let n := length (bpGg p) in
  gAdd GE (gsum (G:=GE) n (fun j => gScale GE (nth j (bpGg p) (gId GE)) (- z)))
          (gsum (G:=GE) n (fun j => gScale GE (nth j (bpHh p) (gId GE)) (inverse y (gN GE) ^ Z.of_nat j * (z * y ^ Z.of_nat j + z * z * 2 ^ Z.of_nat j)))).
(** [mu] is its discrete logarithm to the base h *)
Definition KeyLog (GE : Grp) (HO : Oracles) (p : BPParams GE) (mu : Z) : Prop :=
  gEq GE (gScale GE (bpH p) mu) (blankPoint GE HO p) = true.
(** its coefficients do not vanish: [KeyLog] is a non-trivial relation between h and the hashed generators *)
Definition BlankHash (GE : Grp) (HO : Oracles) : Z := snd (HashBP GE HO (gNew GE) (gNew GE)).

(** What a forger who has the logarithm sends: a ballot with any ciphertext, all curve elements left out, an inner-product argument of one
    generator and no rounds, and a vote proof that names the challenge length 0. *)
Definition blankIPP (GE : Grp) : IPProof GE :=
  mkIPProof (gNew GE) (Some 0) (Some 0) (Some 0) [] [] (mkIPParams [gNew GE] [Some (gNew GE)] (gNew GE)).
Definition blankBP (GE : Grp) (HO : Oracles) (p : BPParams GE) (mu : Z) : BulletProof GE :=
  let '(y, z) := HashBP GE HO (gNew GE) (gNew GE) in
  let N := gNew GE in mkBulletProof N N N N N (Some 0) (Some mu) (Some (deltaZ (length (bpGg p)) y z)) (blankIPP GE) p.
Definition blankVote (GF GE : Grp) (gp : GroupParams GF) : SigmaProof GF GE :=
  mkSigmaProof (gBase GF 0) (vpCommit GF (gN GE) 0 gp) (gNew GE) (gNew GE) (Some 0) (Some (gN GE)) (Some 0) (Some 0) (Some 0)
    (mkProofParams 0 0 0 256 0 0 gp (mkGroupParams (gNew GE) (gNew GE) (Some (gN GE)) (Some 0))).
Definition blankBallot (GF GE : Grp) (HO : Oracles) (pp : PublicParameters GF GE) (ct : Ciphertext GF) (mu : Z) : BallotData GF GE :=
  mkBallotData ct (blankBP GE HO (ppBP pp) mu) (blankBP GE HO (ppBP pp) mu) (blankVote GF GE (ppFF pp)).

Section DeafServer.
Context (GE A : Grp) (R : E GE -> E A -> Prop) (P : Pres GE A R) (PA : GrpPrime A) (D : Deaf GE) (RN : R (gNew GE) (gId A)).
Let L : GrpLaws A := pr_laws _ _ _ P.

Lemma gsum_rel : forall n (f : nat -> E GE) g, (forall j, R (f j) (g j)) -> R (gsum (G:=GE) n f) (gsum (G:=A) n g).
Proof. intros n f g H. induction n as [|n IH]; cbn [gsum]; [apply (pr_id _ _ _ P)|]. apply (pr_add _ _ _ P); [exact IH|apply H]. Qed.
Lemma nth_rel : forall n (f : nat -> E GE) g j, (forall j, R (f j) (g j)) -> R (nth j (tab n f) (gId GE)) (nth j (tab n g) (gId A)).
Proof.
  intros n f g j H. destruct (Nat.lt_ge_cases j n) as [Hj|Hj]; [rewrite !nth_tab by exact Hj; apply H|].
  rewrite !nth_overflow by (rewrite tab_length; exact Hj). apply (pr_id _ _ _ P).
Qed.

Lemma blank_range : forall HO nan64 b params (pf : BulletProof GE), nanConv nan64 -> is_int64 b = true -> Setup GE nan64 b = Ok params -> 2 < b ->
  (forall s X, In s (usedSeeds (Z.to_nat (bpN params))) -> gMap GE s = Ok X -> exists a, R X a) ->
  BlankBP pf -> pParams pf = params -> Verify GE HO pf = Ok true ->
  BlankHash GE HO mod gN GE <> 0 /\ exists mu, pMu pf = Some mu /\ KeyLog GE HO params mu.
Proof.
  intros HO nan64 b params pf Hn Hb HS Hb2 Hseed (BV & BA & BS & BT1 & BT2 & BP & _) Hpar HV.
  destruct (Setup_rel GE A R P nan64 b params Hn Hb HS Hseed) as (k & g & h & H' & g' & h' & Hk & Hbk & Hp & RH & Rg & Rh).
  set (n := (2 ^ k)%nat) in *. rewrite Hp in Hpar.
  assert (Hk0 : k <> O). { intros ->. cbn in Hbk. lia. }
  assert (Hn2 : (2 <= n)%nat). { unfold n. destruct k as [|k]; [contradiction|]. cbn. pose proof (Nat.pow_nonzero 2 k). lia. }
  destruct n as [|[|n']] eqn:En; [lia|lia|].
  pose proof HV as HV0. unfold Verify in HV. rewrite Hpar in HV. cbn [bpN bpHh] in HV.
  destruct (HashBP GE HO (pA pf) (pS pf)) as [y z] eqn:Hyz.
  destruct (updateGenerators GE (tab (S (S n')) h) y (Z.of_nat (S (S n')))) as [hp| | |] eqn:Hhp; try discriminate. cbn [bind] in HV.
  destruct (pTprime pf) as [tp|] eqn:Etp; [|discriminate]. destruct (pTaux pf) as [tx|] eqn:Etx; [|discriminate]. cbn [bind deref] in HV.
  assert (Emu : exists mu, pMu pf = Some mu).
  { destruct (pMu pf) as [mu|]; [eexists; reflexivity|]. clear - HV.
    repeat match type of HV with bind ?e _ = Ok _ => destruct e as [?| | |]; cbn [bind] in HV; try discriminate end. }
  destruct Emu as [mu Emu].

  destruct (upd_rel GE A R P (S n') h h' y hp Rh Hhp) as (i & hf & -> & Rhf & Hyi).
  assert (Hy1 : eqm (gN A) (y * i) 1).
  { specialize (Hyi 1%nat ltac:(lia)). change (Z.of_nat 1) with 1 in Hyi. rewrite !Z.pow_1_r in Hyi. exact Hyi. }
  pose proof (l_order A L) as HN1.
  assert (HyN : y mod gN A <> 0).
  { intros H0. apply eqm_mod0 in H0. rewrite H0 in Hy1. apply (proj1 (eqm_mod _ _ _)) in Hy1. rewrite Z.mul_0_l, Z.mod_0_l, Z.mod_1_l in Hy1 by lia. discriminate. }
  assert (Hyz' : z = y). { pose proof (C10_challenges_equal GE HO (pA pf) (pS pf)) as HC. rewrite Hyz in HC. symmetry. exact HC. }
  rewrite BA, BS in Hyz.
  split. { unfold BlankHash. rewrite Hyz, (pr_N _ _ _ P), Hyz'. exact HyN. }
  exists mu. split; [exact Emu|].
  destruct (Verify_rel GE A R P HO (S (S n')) (bpG params) (bpH params) g h hf pf y z tp tx mu H' g' (fun j => gScale A (h' j) (i ^ Z.of_nat j)) (gId A) (gId A) (gId A) (gId A) (gId A) (gId A)
    RH Rg Rhf) as (b65 & b67 & Hver & _ & H67);
    [rewrite BV; exact RN|rewrite BA; exact RN|rewrite BS; exact RN|rewrite BT1; exact RN|rewrite BT2; exact RN|rewrite BP; exact RN|exact Hpar
    |rewrite BA, BS; exact Hyz|exact Hhp|assumption|assumption|assumption|].
  rewrite HV0 in Hver. destruct (ipVerify GE HO (pIPP pf)) as [ok| | |]; try discriminate. cbn [bind] in Hver. injection Hver as Hver. symmetry in Hver.
  apply andb_prop in Hver. destruct Hver as [Hver _]. apply andb_prop in Hver. destruct Hver as [_ Hver]. apply H67 in Hver. clear H67.
  unfold eq67 in Hver. rewrite (add_0_r L), (scale_id L), !(add_0_l L) in Hver.
  assert (Hiv : eqm (gN A) i (inverse y (gN GE))).
  { rewrite (pr_N _ _ _ P). unfold inverse. destruct (modInverse y (gN A)) as [i'|] eqn:Ei.
    - destruct (modInverse_Some _ _ _ HN1 Ei) as [_ Hi']. apply eqm_inv1 in Hi'; [|exact HN1].
      transitivity (i * (y * i')); [rewrite Hi'; apply eqm_of_eq; ring|]. transitivity (y * i * i'); [apply eqm_of_eq; ring|]. rewrite Hy1. apply eqm_of_eq. ring.
    - exfalso. apply (proj1 (modInverse_None _ _)) in Ei. apply Ei. apply (inv_gcd1 y i (gN A) HN1). apply (proj1 (eqm_mod _ _ _)) in Hy1. rewrite Z.mod_1_l in Hy1 by lia. exact Hy1. }
  unfold KeyLog, blankPoint. rewrite Hyz, Hp. cbn [bpGg bpHh bpH]. rewrite tab_length.
  apply (pr_eq _ _ _ P _ _ _ _ (pr_scale _ _ _ P _ _ mu RH)
    (pr_add _ _ _ P _ _ (gsum (G:=A) (S (S n')) (fun j => gScale A (nth j (tab (S (S n')) g') (gId A)) (- z)))
       (gsum (G:=A) (S (S n')) (fun j => gScale A (nth j (tab (S (S n')) h') (gId A)) (inverse y (gN GE) ^ Z.of_nat j * (z * y ^ Z.of_nat j + z * z * 2 ^ Z.of_nat j))))
       (gsum_rel _ _ _ (fun j => pr_scale _ _ _ P _ _ _ (nth_rel _ g g' j Rg))) (gsum_rel _ _ _ (fun j => pr_scale _ _ _ P _ _ _ (nth_rel _ h h' j Rh))))).
  rewrite Hver. f_equal; apply gsum_ext; intros j Hj; rewrite nth_tab by exact Hj; [reflexivity|].
  rewrite (scale_mul L). apply (scale_eqm L). rewrite (eqm_pow _ _ _ (Z.of_nat j) Hiv). reflexivity.
Qed.

(** the vote proof: its two curve equations have no room for a challenge other than 0 *)
Lemma blank_vote : forall GF HO (pf : SigmaProof GF GE) comm lo hi, R (sKq1 pf) (gId A) -> R (sKq2 pf) (gId A) -> R (gpH (vGEC (sParams pf))) (gId A) ->
  R (cXq1 comm) (gBase A lo) -> R (cXq2 comm) (gBase A hi) -> (lo - hi) mod gN A <> 0 ->
  vpVerify GF GE HO pf comm = Ok true -> exists c, sChal pf = Some c /\ c mod gN GE = 0.
Proof.
  intros GF HO pf comm lo hi R1 R2 Rh RX1 RX2 Hlh H. unfold vpVerify in H. cbv zeta in H.
  destruct (sZ pf) as [z|]; [|discriminate]. cbn [deref bind] in *. destruct (_ || _); [discriminate|].
  destruct (getFSChallenge GF GE HO _ _ _ _ _) as [c'| | |]; try discriminate. cbn [bind] in *.
  destruct (sChal pf) as [c|]; [|discriminate]. cbn [deref bind] in *. destruct (negb (c' =? c)); [discriminate|].
  destruct (sSp pf) as [sp|]; [|discriminate]. cbn [deref bind] in *.
  destruct (negb (gEq GF _ _)); [discriminate|]. destruct (negb (sigmaPedersenCheck GF _ _ _ _ _ _)); [discriminate|].
  destruct (sSq1 pf) as [sq1|]; [|discriminate]. cbn [deref bind] in *.
  destruct (sigmaPedersenCheck GE z sq1 _ _ _ _) eqn:E1; [|discriminate]. cbn [negb] in H.
  destruct (sSq2 pf) as [sq2|]; [|discriminate]. cbn [deref bind] in *.
  destruct (sigmaPedersenCheck GE z sq2 _ _ _ _) eqn:E2; [|discriminate]. clear H.
  exists c. split; [reflexivity|]. rewrite (pr_N _ _ _ P).
  assert (Hq : forall s k x v, R k (gId A) -> R x (gBase A v) -> sigmaPedersenCheck GE z s c k x (vGEC (sParams pf)) = true -> eqm (gN A) z (v * c)).
  { intros s k x v Rk Rx HE. unfold sigmaPedersenCheck, vpCommit in HE. cbv zeta in HE.
    apply (pr_eq _ _ _ P _ _ _ _ (pr_add _ _ _ P _ _ _ _ (pr_base _ _ _ P z) (pr_scale _ _ _ P _ _ s Rh)) (pr_add _ _ _ P _ _ _ _ (pr_scale _ _ _ P _ _ c Rx) Rk)) in HE.
    rewrite (scale_id L), !(add_0_r L), !(base_scale L), (scale_mul L) in HE. apply eqm_mod, (gen_inj A PA). exact HE. }
  pose proof (Hq _ _ _ _ R1 RX1 E1) as Q1. pose proof (Hq _ _ _ _ R2 RX2 E2) as Q2.
  assert (Q : eqm (gN A) ((lo - hi) * c) 0).
  { transitivity (lo * c - hi * c); [apply eqm_of_eq; ring|]. rewrite <- Q1, <- Q2. apply eqm_of_eq. ring. }
  destruct (eqm_prime_mul0 _ _ _ (lp_prime A PA) Q) as [H0|H0]; apply eqm_mod0 in H0; [contradiction|exact H0].
Qed.

Lemma deaf_server : forall d HO nan64 pp doc (b : BallotData (ModPGrp d) GE) t, nanConv nan64 -> 2000 < gN GE ->
  setup d GE nan64 = Ok pp -> (forall s X, In s (usedSeeds 16) -> gMap GE s = Ok X -> exists a, R X a) ->
  BallotDataUnmarshalJSON (ModPGrp d) GE doc pp = Ok b -> verifyVote (ModPGrp d) GE HO b (ppRP pp) = Ok (true, t) ->
  BlankHash GE HO mod gN GE <> 0 /\
  (exists mu, pMu (bdLower b) = Some mu /\ KeyLog GE HO (ppBP pp) mu) /\ (exists mu, pMu (bdUpper b) = Some mu /\ KeyLog GE HO (ppBP pp) mu) /\
  exists c, sChal (bdVote b) = Some c /\ c mod gN GE = 0.
Proof.
  intros d HO nan64 pp doc b t Hn HN HSet Hseed Hd HV.
  pose proof (C53_curve_elements_lost _ _ _ _ _ D Hd) as (B1 & B2 & K1 & K2 & _ & Kh).
  assert (Hpar : pParams (bdLower b) = ppBP pp /\ pParams (bdUpper b) = ppBP pp).
  { unfold BallotDataUnmarshalJSON in Hd. cbv zeta in Hd.
    destruct (BallotUnmarshalJSON _ _) as [ct| | |]; try discriminate. cbn [bind] in Hd.
    destruct (BulletProofUnmarshalJSON GE (jLower _) _) as [lo| | |] eqn:E1; try discriminate. cbn [bind] in Hd.
    destruct (BulletProofUnmarshalJSON GE (jUpper _) _) as [up| | |] eqn:E2; try discriminate. cbn [bind] in Hd.
    destruct (ProofUnmarshalJSON _ GE _) as [vp| | |]; try discriminate. cbn [bind] in Hd. injection Hd as <-. cbn [bdLower bdUpper].
    assert (W : forall r p q, BulletProofUnmarshalJSON GE r p = Ok q -> pParams q = p).
    { clear. intros r p q H. unfold BulletProofUnmarshalJSON in H. destruct (unmarshal _ _ _) as [t|]; [|discriminate].
      repeat match type of H with bind ?e _ = Ok _ => destruct e as [?| | |]; cbn [bind] in H; try discriminate end. injection H as <-. reflexivity. }
    split; [exact (W _ _ _ E1)|exact (W _ _ _ E2)]. }
  destruct Hpar as [P1 P2].
  assert (HS : Setup GE nan64 65536 = Ok (ppBP pp) /\ vLo (ppRP pp) = 101 /\ vHi (ppRP pp) = 2000).
  { clear - HSet. unfold setup in HSet. destruct (Setup GE nan64 65536) as [bp| | |]; try discriminate. cbn [bind] in HSet.
    unfold vpSetup in HSet. destruct (_ <? 1); [discriminate|]. cbn [bind] in HSet. injection HSet as <-. split; [|split]; reflexivity. }
  destruct HS as (HS & Hlo & Hhi).
  assert (HN16 : bpN (ppBP pp) = 16).
  { destruct (Setup_ok _ nan64 65536 _ eq_refl HS) as [Hx|[_ Hs]]; [discriminate|]. destruct Hs as (HN' & _). exact HN'. }
  apply C28_all_proofs_checked in HV. destruct HV as [[HV _] _]. destruct (HV eq_refl) as (V1 & V2 & V3).
  destruct (blank_range HO nan64 65536 (ppBP pp) (bdLower b) Hn eq_refl HS ltac:(lia)) as [Hz M1]; try assumption; [rewrite HN16; exact Hseed|].
  destruct (blank_range HO nan64 65536 (ppBP pp) (bdUpper b) Hn eq_refl HS ltac:(lia)) as [_ M2]; try assumption; [rewrite HN16; exact Hseed|].
  split; [exact Hz|]. split; [exact M1|]. split; [exact M2|].
  rewrite (pr_N _ _ _ P) in HN.
  apply (blank_vote _ HO (bdVote b) _ 101 2000) in V3; [exact V3|rewrite K1; exact RN|rewrite K2; exact RN|rewrite Kh; exact RN| | |].
  - cbn [cXq1]. rewrite Hlo, <- (add_0_r L (gBase A 101)). apply (pr_add _ _ _ P); [apply (pr_base _ _ _ P)|]. destruct B1 as [-> _]. exact RN.
  - cbn [cXq2]. rewrite Hhi, <- (add_0_r L (gBase A 2000)). apply (pr_add _ _ _ P); [apply (pr_base _ _ _ P)|]. destruct B2 as [-> _].
    rewrite <- (scale_id L (-1)). apply (pr_scale _ _ _ P). exact RN.
  - intros H0. apply Z.mod_divide in H0; [|lia]. destruct H0 as [q Hq]. assert (q = 0 \/ q <> 0) as [->|] by lia; nia.
Qed.

(** *** The forger *)
Lemma blank_ip : forall HO, ipVerify GE HO (blankIPP GE) = Ok true.
Proof.
  intros HO. unfold ipVerify, blankIPP, hashIP, hashIP_input. cbn [ipParams ipGg ipHh ipP ipCc ipUu ipL ipR ipA ipB hashIP_elems bind computePP ipVerifyLoop map length deref].
  unfold computePP. cbn [deref bind ipVerifyLoop idx nth_error]. f_equal.
  assert (HR : R (gAdd GE (gNeg GE (gAdd GE (gNew GE) (gScale GE (gScale GE (gNew GE) (fromByteArray HO (sha256 HO (gStr GE (gNew GE) ++ (gStr GE (gNew GE) ++ gStr GE (gNew GE) ++ []) ++ dec_str_opt (Some 0))))) 0)))
     (gAdd GE (gAdd GE (gScale GE (gNew GE) 0) (gScale GE (gNew GE) 0)) (gScale GE (gScale GE (gNew GE) (fromByteArray HO (sha256 HO (gStr GE (gNew GE) ++ (gStr GE (gNew GE) ++ gStr GE (gNew GE) ++ []) ++ dec_str_opt (Some 0))))) ((0 * 0) mod gN GE)))) (gId A)).
  { match goal with |- R ?X _ => assert (HX : exists a, R X a /\ a = gId A) end.
    { eexists. split; [repeat first [apply (pr_add _ _ _ P)|apply (pr_neg _ _ _ P)|apply (pr_scale _ _ _ P)|exact RN]|].
      rewrite !(scale_id L), !(add_0_l L). apply (negadd_0_iff L). reflexivity. }
    destruct HX as (a & HX & ->). exact HX. }
  apply (pr_isid _ _ _ P _ _ HR). reflexivity.
Qed.

Lemma blank_verifies : forall HO nan64 b params mu, nanConv nan64 -> is_int64 b = true -> Setup GE nan64 b = Ok params ->
  (forall s X, In s (usedSeeds (Z.to_nat (bpN params))) -> gMap GE s = Ok X -> exists a, R X a) ->
  Z.gcd (BlankHash GE HO) (gN GE) = 1 -> KeyLog GE HO params mu -> Verify GE HO (blankBP GE HO params mu) = Ok true.
Proof.
  intros HO nan64 b params mu Hn Hb HS Hseed Hgcd HK.
  destruct (Setup_rel GE A R P nan64 b params Hn Hb HS Hseed) as (k & g & h & H' & g' & h' & Hk & Hbk & Hp & RH & Rg & Rh).
  set (n := (2 ^ k)%nat) in *.
  assert (Hn0 : exists n', n = S n'). { unfold n. pose proof (Nat.pow_nonzero 2 k). destruct (2 ^ k)%nat; [lia|eexists; reflexivity]. }
  destruct Hn0 as [n' En]. rewrite En in *. clear En.
  unfold KeyLog, blankPoint in HK. unfold blankBP, BlankHash in *. pose proof (C10_challenges_equal GE HO (gNew GE) (gNew GE)) as HC.
  destruct (HashBP GE HO (gNew GE) (gNew GE)) as [y z] eqn:Hyz. cbn [snd] in Hgcd. unfold fst, snd in HC. subst z.
  pose proof (l_order A L) as HN1. rewrite (pr_N _ _ _ P) in Hgcd.
  destruct (modInverse_ex _ _ HN1 Hgcd) as (i' & Hi & Hyi').
  assert (Hg : exists hp, updateGenerators GE (tab (S n') h) y (Z.of_nat (S n')) = Ok hp).
  { unfold updateGenerators. rewrite make_len_nat. cbn [bind]. rewrite tab_S, (pr_N _ _ _ P), Hi, updGen_loop_tab. eexists. reflexivity. }
  destruct Hg as [hp Hhp]. destruct (upd_rel GE A R P n' h h' y hp Rh Hhp) as (i & hf & -> & Rhf & Hyi).
  rewrite Hp in HK. cbn [bpGg bpHh bpH] in HK. rewrite tab_length in HK.
  match goal with |- Verify _ _ ?p = _ => set (pf := p) end.
  destruct (Verify_rel GE A R P HO (S n') (bpG params) (bpH params) g h hf pf y y (deltaZ (S n') y y) 0 mu H' g' (fun j => gScale A (h' j) (i ^ Z.of_nat j)) (gId A) (gId A) (gId A) (gId A) (gId A) (gId A)
    RH Rg Rhf) as (b65 & b67 & Hver & H65 & H67); try exact RN; try (exact Hp || exact Hyz || exact Hhp || reflexivity).
  { unfold pf. cbn [pTprime]. rewrite Hp. cbn [bpGg]. rewrite tab_length. reflexivity. }
  rewrite Hver. cbn [pIPP pf]. rewrite blank_ip. cbn [bind]. rewrite (proj2 H65), (proj2 H67); [reflexivity| |].
  - apply (pr_eq _ _ _ P _ _ _ _ (pr_scale _ _ _ P _ _ mu RH)
      (pr_add _ _ _ P _ _ (gsum (G:=A) (S n') (fun j => gScale A (nth j (tab (S n') g') (gId A)) (- y)))
         (gsum (G:=A) (S n') (fun j => gScale A (nth j (tab (S n') h') (gId A)) (inverse y (gN GE) ^ Z.of_nat j * (y * y ^ Z.of_nat j + y * y * 2 ^ Z.of_nat j))))
         (gsum_rel _ _ _ (fun j => pr_scale _ _ _ P _ _ _ (nth_rel _ g g' j Rg))) (gsum_rel _ _ _ (fun j => pr_scale _ _ _ P _ _ _ (nth_rel _ h h' j Rh))))) in HK.
    unfold eq67. rewrite (add_0_r L), (scale_id L), !(add_0_l L), HK. f_equal; apply gsum_ext; intros j Hj; rewrite nth_tab by exact Hj; [reflexivity|].
    rewrite (scale_mul L). apply (scale_eqm L). rewrite !Z.mul_add_distr_l.
    assert (Hij : eqm (gN A) (inverse y (gN GE) ^ Z.of_nat j) (i ^ Z.of_nat j)).
    { rewrite (pr_N _ _ _ P). unfold inverse. rewrite Hi.
      pose proof (Hyi j ltac:(lia)) as Hj1. assert (Hj2 : eqm (gN A) (y ^ Z.of_nat j * i' ^ Z.of_nat j) 1) by (apply eqm_inv_pow; [lia|first [exact Hyi'|apply eqm_inv1; [exact HN1|apply Hyi']]]).
      transitivity (i' ^ Z.of_nat j * (y ^ Z.of_nat j * i ^ Z.of_nat j)); [rewrite Hj1; apply eqm_of_eq; ring|].
      transitivity (y ^ Z.of_nat j * i' ^ Z.of_nat j * i ^ Z.of_nat j); [apply eqm_of_eq; ring|]. rewrite Hj2. apply eqm_of_eq. ring. }
    rewrite Hij. reflexivity.
  - unfold eq65. rewrite !(scale_id L), (l_scale0 A L), !(add_0_r L), (add_0_l L). reflexivity.
Qed.

Lemma blank_accepted : forall d HO nan64 pp ct mu, 1 < mpField d -> nanConv nan64 -> 0 < gN GE < 2 ^ 256 ->
  setup d GE nan64 = Ok pp -> (forall s X, In s (usedSeeds 16) -> gMap GE s = Ok X -> exists a, R X a) ->
  Z.gcd (BlankHash GE HO) (gN GE) = 1 -> KeyLog GE HO (ppBP pp) mu ->
  verifyVote (ModPGrp d) GE HO (blankBallot (ModPGrp d) GE HO pp ct mu) (ppRP pp) = Ok (true, 2%nat).
Proof.
  intros d HO nan64 pp ct mu Hp Hn HN HSet Hseed Hg HK.
  assert (HS : Setup GE nan64 65536 = Ok (ppBP pp)).
  { clear - HSet. unfold setup in HSet. destruct (Setup GE nan64 65536) as [bp| | |]; try discriminate. cbn [bind] in HSet.
    unfold vpSetup in HSet. destruct (_ <? 1); [discriminate|]. cbn [bind] in HSet. injection HSet as <-. reflexivity. }
  assert (HN16 : bpN (ppBP pp) = 16).
  { destruct (Setup_ok _ nan64 65536 _ eq_refl HS) as [Hx|[_ Hs]]; [discriminate|]. destruct Hs as (HN' & _). exact HN'. }
  assert (HV : Verify GE HO (blankBP GE HO (ppBP pp) mu) = Ok true).
  { apply (blank_verifies HO nan64 65536); try assumption; [reflexivity|]. rewrite HN16. exact Hseed. }
  unfold verifyVote, blankBallot. cbn [bdLower bdUpper]. rewrite HV. cbn [bind negb].
  match goal with |- (r <- vpVerify _ _ _ _ ?c ;; _) = _ => set (comm := c) end.
  enough (E : vpVerify (ModPGrp d) GE HO (blankVote (ModPGrp d) GE (ppFF pp)) comm = Ok true) by (cbn [bdVote]; rewrite E; reflexivity).
  assert (HRq : forall X, R (gAdd GE (gBase GE (gN GE)) (gScale GE (gNew GE) 0)) (gId A) /\ (forall a, R X a -> R (gAdd GE (gScale GE X 0) (gNew GE)) (gId A))).
  { intros X. split.
    - rewrite <- (add_0_r L (gId A)). apply (pr_add _ _ _ P); [|rewrite <- (scale_id L 0); apply (pr_scale _ _ _ P); exact RN].
      replace (gId A) with (gBase A (gN GE)); [apply (pr_base _ _ _ P)|]. rewrite (l_base A L), (pr_N _ _ _ P). apply (l_scaleN A L).
    - intros a Ha. rewrite <- (add_0_r L (gId A)). apply (pr_add _ _ _ P); [|exact RN]. rewrite <- (l_scale0 A L a). apply (pr_scale _ _ _ P). exact Ha. }
  assert (HE : forall a, bigExp a 0 (mpField d) = Some 1).
  { intros a. unfold bigExp. cbn [Z.ltb Z.compare]. rewrite Zpow_mod_correct by lia. f_equal. apply Z.mod_1_l. exact Hp. }
  assert (Hc : getFSChallenge (ModPGrp d) GE HO (sW (blankVote (ModPGrp d) GE (ppFF pp))) (sKp (blankVote (ModPGrp d) GE (ppFF pp))) (gNew GE) (gNew GE) 0 = Ok 0) by reflexivity.
  assert (HQ : forall s0 X a gp, s0 = 0 -> gpH gp = gNew GE -> R X a -> sigmaPedersenCheck GE (gN GE) s0 0 (gNew GE) X gp = true).
  { intros s0 X a gp -> Hh Ha. unfold sigmaPedersenCheck, vpCommit. cbv zeta. rewrite Hh.
    apply (pr_eq _ _ _ P _ _ _ _ (proj1 (HRq X)) (proj2 (HRq X) a Ha)). reflexivity. }
  unfold vpVerify. unfold blankVote in *. cbn [sParams sZ sW sKp sKq1 sKq2 sChal sSp sSq1 sSq2 vBc vBb vBx vGFF vGEC deref bind] in *.
  unfold zLowerBound, zUpperBound. cbn [vBc vBb vBx]. change (bigExp2 (wrap16 (0 + 0))) with 1. change (bigExp2 (wrap16 (0 + 0) + 256)) with (2 ^ 256).
  replace ((gN GE <? 1) || (2 ^ 256 <=? gN GE)) with false by (symmetry; apply orb_false_iff; split; [apply Z.ltb_ge|apply Z.leb_gt]; lia).
  rewrite Hc. cbn [bind Z.eqb negb].
  replace (gEq (ModPGrp d) _ _) with true.
  2:{ symmetry. cbn [ModPGrp gEq gBase gAdd gScale]. unfold mpBaseScale, mpScale, mpAdd. rewrite !HE. cbn [or_old]. apply Z.eqb_eq. symmetry. apply Z.mod_1_l. exact Hp. }
  cbn [negb].
  replace (sigmaPedersenCheck (ModPGrp d) _ _ _ _ _ _) with true.
  2:{ symmetry. unfold sigmaPedersenCheck, vpCommit. cbn [ModPGrp gEq gBase gAdd gScale]. unfold mpScale, mpAdd. rewrite !HE. cbn [or_old]. apply Z.eqb_eq.
      rewrite Z.mul_1_l, Zmod_mod. reflexivity. }
  cbn [negb].
  rewrite (HQ 0 (cXq1 comm) (gAdd A (gBase A (vLo (ppRP pp))) (gId A))); [|reflexivity|reflexivity|].
  2:{ unfold comm. cbn [cXq1]. apply (pr_add _ _ _ P); [apply (pr_base _ _ _ P)|]. unfold blankBP. destruct (HashBP _ _ _ _). exact RN. }
  cbn [negb].
  rewrite (HQ 0 (cXq2 comm) (gAdd A (gBase A (vHi (ppRP pp))) (gScale A (gId A) (-1)))); [reflexivity|reflexivity|reflexivity|].
  unfold comm. cbn [cXq2]. apply (pr_add _ _ _ P); [apply (pr_base _ _ _ P)|]. apply (pr_scale _ _ _ P). unfold blankBP. destruct (HashBP _ _ _ _). exact RN.
Qed.
(** the logarithm exists: the forgery is a matter of finding it *)
Lemma keylog_exists : forall HO nan64 b params, nanConv nan64 -> is_int64 b = true -> Setup GE nan64 b = Ok params ->
  (forall s X, In s (usedSeeds (Z.to_nat (bpN params))) -> gMap GE s = Ok X -> exists a, R X a) ->
  gIsId GE (bpH params) = false -> exists mu, KeyLog GE HO params mu.
Proof.
  intros HO nan64 b params Hn Hb HS Hseed HH.
  destruct (Setup_rel GE A R P nan64 b params Hn Hb HS Hseed) as (k & g & h & H' & g' & h' & Hk & Hbk & Hp & RH & Rg & Rh).
  assert (HB : exists a, R (blankPoint GE HO params) a).
  { unfold blankPoint. destruct (HashBP _ _ _ _) as [y z]. rewrite Hp. cbn [bpGg bpHh]. eexists. apply (pr_add _ _ _ P).
    - apply gsum_rel. intros j. apply (pr_scale _ _ _ P), nth_rel, Rg.
    - apply gsum_rel. intros j. apply (pr_scale _ _ _ P), nth_rel, Rh. }
  destruct HB as [a Ha]. destruct (lp_cyclic A PA a) as [ka ->]. destruct (lp_cyclic A PA H') as [kh Hkh].
  assert (Hh0 : kh mod gN A <> 0).
  { intros H0. assert (Hid : H' = gId A). { rewrite Hkh, <- (l_scale0 A L (gGen A)). apply (scale_eqm L), eqm_mod0, H0. }
    apply (pr_isid _ _ _ P _ _ RH) in Hid. congruence. }
  pose proof (l_order A L) as HN1.
  assert (Hg1 : Z.gcd kh (gN A) = 1).
  { apply Zgcd_1_rel_prime. apply rel_prime_sym. apply prime_rel_prime; [exact (lp_prime A PA)|].
    intros Hd. apply Hh0. apply Z.mod_divide; [lia|exact Hd]. }
  destruct (modInverse_ex _ _ HN1 Hg1) as (i & _ & _ & Hi). apply eqm_inv1 in Hi; [|exact HN1].
  exists (i * ka). unfold KeyLog. apply (pr_eq _ _ _ P _ _ _ _ (pr_scale _ _ _ P _ _ _ RH) Ha).
  rewrite Hkh, (scale_mul L). apply (scale_eqm L). transitivity (kh * i * ka); [apply eqm_of_eq; ring|]. rewrite Hi. apply eqm_of_eq. ring.
Qed.
End DeafServer.

(** ** C78 *)
(** secp256k1: whatever document is accepted, its two numbers Mu are the logarithm, and its vote proof's challenge vanishes *)
Theorem C78_secp256k1 : forall ing A on abs d HO nan64 pp doc (b : BallotData (ModPGrp d) (K1Grp ing)) t,
  IngOk ing A on abs -> GrpPrime A -> SeedsFull ing 16 -> nanConv nan64 -> setup d (K1Grp ing) nan64 = Ok pp ->
  BallotDataUnmarshalJSON (ModPGrp d) (K1Grp ing) doc pp = Ok b -> verifyVote (ModPGrp d) (K1Grp ing) HO b (ppRP pp) = Ok (true, t) ->
  BlankHash (K1Grp ing) HO mod k1Order <> 0 /\
  (exists mu, pMu (bdLower b) = Some mu /\ KeyLog (K1Grp ing) HO (ppBP pp) mu) /\
  (exists mu, pMu (bdUpper b) = Some mu /\ KeyLog (K1Grp ing) HO (ppBP pp) mu) /\
  exists c, sChal (bdVote b) = Some c /\ c mod k1Order = 0.
Proof.
  intros ing A on abs d HO nan64 pp doc b t IO PA HF Hn HS HD HV.
  apply (deaf_server (K1Grp ing) A (k1Rel on abs) (k1_pres ing A on abs IO) PA (C53_secp256k1_deaf ing) (ig_nil _ _ _ _ IO) d HO nan64 pp doc b t); try assumption; [reflexivity|].
  intros s X. apply (k1_seed_rel ing A on abs IO 16 s X HF).
Qed.
(** ... and whoever has the logarithm has a document for every ciphertext. *)
Theorem C78_secp256k1_forger : forall ing A on abs d HO nan64 pp ct mu,
  IngOk ing A on abs -> SeedsFull ing 16 -> nanConv nan64 -> 1 < mpField d -> setup d (K1Grp ing) nan64 = Ok pp ->
  Z.gcd (BlankHash (K1Grp ing) HO) k1Order = 1 -> KeyLog (K1Grp ing) HO (ppBP pp) mu ->
  let b := blankBallot (ModPGrp d) (K1Grp ing) HO pp ct mu in
  exists doc, BallotDataUnmarshalJSON (ModPGrp d) (K1Grp ing) (Some doc) pp = Ok b /\ bdBallot b = ct /\
    verifyVote (ModPGrp d) (K1Grp ing) HO b (ppRP pp) = Ok (true, 2%nat).
Proof.
  intros ing A on abs d HO nan64 pp ct mu IO HF Hn Hp HS Hg HK b.
  destruct (C53_secp256k1_transport d ing b pp) as (doc & _ & Hdoc).
  - unfold b, blankBallot, blankBP. cbn [bdLower]. destruct (HashBP _ _ _ _). reflexivity.
  - unfold b, blankBallot, blankBP. cbn [bdUpper]. destruct (HashBP _ _ _ _). reflexivity.
  - unfold b, blankBallot, blankBP. cbn [bdLower]. destruct (HashBP _ _ _ _). exists [gNew (K1Grp ing)], []. repeat split.
  - unfold b, blankBallot, blankBP. cbn [bdUpper]. destruct (HashBP _ _ _ _). exists [gNew (K1Grp ing)], []. repeat split.
  - unfold b, blankBallot, blankVote, WFInts. cbn. lia.
  - exists doc. split; [|split; [reflexivity|]].
    + rewrite Hdoc. reflexivity.
    + apply (blank_accepted (K1Grp ing) A (k1Rel on abs) (k1_pres ing A on abs IO) (ig_nil _ _ _ _ IO) d HO nan64 pp ct mu); try assumption; [split; reflexivity|].
      intros s X. apply (k1_seed_rel ing A on abs IO 16 s X HF).
Qed.
(** ristretto255: the same *)
Lemma self_pres : forall G, GrpLaws G -> Pres G G eq.
Proof.
  intros G L. constructor; try exact L; try reflexivity; try (intros; subst; reflexivity).
  - intros X Y a b <- <-. apply (l_eq G L).
  - intros X a <-. apply (l_isid G L).
Qed.
Theorem C78_ristretto : forall c ri d HO nan64 pp doc (b : BallotData (ModPGrp d) (R255Grp c ri)) t,
  R255Contract c -> RistrettoOk c r255Order ri -> GrpPrime (R255Grp c ri) -> nanConv nan64 -> setup d (R255Grp c ri) nan64 = Ok pp ->
  BallotDataUnmarshalJSON (ModPGrp d) (R255Grp c ri) doc pp = Ok b -> verifyVote (ModPGrp d) (R255Grp c ri) HO b (ppRP pp) = Ok (true, t) ->
  BlankHash (R255Grp c ri) HO mod r255Order <> 0 /\
  (exists mu, pMu (bdLower b) = Some mu /\ KeyLog (R255Grp c ri) HO (ppBP pp) mu) /\
  (exists mu, pMu (bdUpper b) = Some mu /\ KeyLog (R255Grp c ri) HO (ppBP pp) mu) /\
  exists ch, sChal (bdVote b) = Some ch /\ ch mod r255Order = 0.
Proof.
  intros c ri d HO nan64 pp doc b t RC RO PA Hn HS HD HV.
  apply (deaf_server (R255Grp c ri) (R255Grp c ri) eq (self_pres _ (C51_ristretto_contract c r255Order ri RO)) PA (C53_ristretto_deaf c r255Order ri RC) eq_refl d HO nan64 pp doc b t);
    try assumption; [reflexivity|]. intros s X _ _. exists X. reflexivity.
Qed.
(** A document for [blankBallot] in which every curve element is the pair 0, 0: the JSON form of the identity, which the element decoder refuses
    and the ballot decoder then takes for the fresh element it was given. *)
Section BlankDoc.
Context (GF GE : Grp) (JF : JsonRoundtrip GF) (Z0 : decElt GE (Some (encECPoint 0 0)) = Ok (gNew GE)).
Let z := encECPoint 0 0.
Definition bpDoc (tp mu : Z) : json :=
  JObj [("V", z); ("A", z); ("S", z); ("T1", z); ("T2", z); ("Taux", JInt 0); ("Mu", JInt mu); ("Tprime", JInt tp);
        ("InnerProductProof", JObj [("P", z); ("Cc", JInt 0); ("a", JInt 0); ("b", JInt 0); ("L", JArr []); ("R", JArr []);
           ("Params", JObj [("Gg", JArr [z]); ("Hh", JArr [z]); ("Uu", z)])])]%string.
Lemma bpDoc_reads : forall HO p mu, exists tp, BulletProofUnmarshalJSON GE (Some (bpDoc tp mu)) p = Ok (blankBP GE HO p mu).
Proof.
  intros HO p mu. unfold blankBP. destruct (HashBP GE HO (gNew GE) (gNew GE)) as [y zz]. set (tp := deltaZ _ _ _). exists tp. clearbody tp. unfold BulletProofUnmarshalJSON.
  match goal with |- match ?u with _ => _ end = _ => replace u with (Some (mkBulletProofJ (Some z) (Some z) (Some z) (Some z) (Some z) (Some 0) (Some mu) (Some tp)
     (mkIPProofJ (Some z) (Some 0) (Some 0) (Some 0) [] [] (mkIPParamsJ (Some z) [z] [z] None)) None)) end.
  2:{ cbv. reflexivity. }
  cbv beta iota. unfold ipProofFromRaw, ipParamsFromRaw. cbn [jIPP jV jA jS jT1 jT2 jTaux jMu jTprime jIPParams jL jR jP jCc ja jb jUu jGg jHh decPairs].
  subst z. rewrite !Z0. reflexivity.
Qed.
Lemma blank_document : forall HO (pp : PublicParameters GF GE) ct mu, exists doc,
  BallotDataUnmarshalJSON GF GE (Some doc) pp = Ok (blankBallot GF GE HO pp ct mu).
Proof.
  intros HO pp [U V] mu. unfold blankBallot. destruct (bpDoc_reads HO (ppBP pp) mu) as [tp HB]. set (N := gN GE).
  destruct (enc_jel GF JF U) as (dU & _ & DU). destruct (enc_jel GF JF V) as (dV & _ & DV).
  destruct (enc_jel GF JF (gBase GF 0)) as (dw & _ & Dw). destruct (enc_jel GF JF (vpCommit GF N 0 (ppFF pp))) as (dkp & _ & Dkp).
  destruct (ppFF pp) as [gf hf nf ff]. destruct (enc_jel GF JF gf) as (dgf & _ & Dgf). destruct (enc_jel GF JF hf) as (dhf & _ & Dhf).
  exists (JObj [("ballot", JObj [("u", dU); ("v", dV)]); ("lbProof", bpDoc tp mu); ("ubProof", bpDoc tp mu);
    ("voteProof", JObj [("W", dw); ("Kp", dkp); ("Kq1", z); ("Kq2", z); ("Challenge", JInt 0); ("Z", JInt N); ("Sp", JInt 0); ("Sq1", JInt 0); ("Sq2", JInt 0);
       ("Params", JObj [("Bx", JInt 0); ("Bc", JInt 0); ("Bg", JInt 0); ("Bb", JInt 256); ("RangeLo", JInt 0); ("RangeHi", JInt 0);
          ("GFF", JObj [("G", dgf); ("H", dhf); ("N", enc_bigint nf); ("F", enc_bigint ff)]);
          ("GEC", JObj [("G", z); ("H", z); ("N", JInt N); ("F", JInt 0)])])])]%string).
  unfold BallotDataUnmarshalJSON. rewrite ballot_fields. cbv zeta. cbn [jBallot jLower jUpper jVote].
  unfold BallotUnmarshalJSON. change (unmarshal stepCiphertextJ (None, None) (Some (JObj [("u"%string, dU); ("v"%string, dV)]))) with (Some (Some dU, Some dV)).
  cbv beta iota. rewrite (dec_jel _ _ _ DU), (dec_jel _ _ _ DV). cbn [bind]. rewrite HB. cbn [bind].
  unfold ProofUnmarshalJSON.
  match goal with |- context [unmarshal ?s ?z0 ?d] => replace (unmarshal s z0 d) with (Some (mkSigmaProofJ (Some dw) (Some dkp) (Some z) (Some z) (Some 0) (Some N) (Some 0) (Some 0) (Some 0)
     (mkProofParamsJ 0 0 0 256 0 0 (mkGroupParamsJ (Some dgf) (Some dhf) nf ff None) (mkGroupParamsJ (Some z) (Some z) (Some N) (Some 0) None)))) end.
  2:{ clearbody N. cbv - [dec_bigint enc_bigint]. rewrite !dec_big. reflexivity. }
  cbv beta iota. cbn [jPP jGFF jGEC jG jH jN jF jBx jBc jBg jBb jLo jHi jW jKp jKq1 jKq2 jChal jZ jSp jSq1 jSq2].
  change z with (encECPoint 0 0). rewrite (dec_jel _ _ _ Dgf), (dec_jel _ _ _ Dhf), (dec_jel _ _ _ Dw), (dec_jel _ _ _ Dkp), !Z0. reflexivity.
Qed.
End BlankDoc.
Theorem C78_ristretto_forger : forall c ri d HO nan64 pp ct mu,
  R255Contract c -> RistrettoOk c r255Order ri -> nanConv nan64 -> 1 < mpField d -> setup d (R255Grp c ri) nan64 = Ok pp ->
  Z.gcd (BlankHash (R255Grp c ri) HO) r255Order = 1 -> KeyLog (R255Grp c ri) HO (ppBP pp) mu ->
  let b := blankBallot (ModPGrp d) (R255Grp c ri) HO pp ct mu in
  exists doc, BallotDataUnmarshalJSON (ModPGrp d) (R255Grp c ri) (Some doc) pp = Ok b /\ bdBallot b = ct /\
    verifyVote (ModPGrp d) (R255Grp c ri) HO b (ppRP pp) = Ok (true, 2%nat).
Proof.
  intros c ri d HO nan64 pp ct mu RC RO Hn Hp HS Hg HK b.
  destruct (blank_document (ModPGrp d) (R255Grp c ri) (C35_modp_elements d)) with (HO := HO) (pp := pp) (ct := ct) (mu := mu) as [doc Hd].
  - unfold decElt. cbn [R255Grp RistGrp gOfJson gNew]. unfold r255UnmarshalJSON, pointUnmarshalJSON.
    change (pointJSONBytes 32 (Some (encECPoint 0 0))) with (Ok (Some [0])). cbn [bind]. rewrite (proj2 RC) by discriminate. reflexivity.
  - exists doc. split; [exact Hd|]. split; [reflexivity|].
    apply (blank_accepted (R255Grp c ri) (R255Grp c ri) eq (self_pres _ (C51_ristretto_contract c r255Order ri RO)) eq_refl d HO nan64 pp ct mu);
      try assumption; [split; reflexivity|]. intros s X _ _. exists X. reflexivity.
Qed.
(** A hash that sends the two fresh elements to a multiple of the order makes the server panic on every document: over these groups there is
    nothing to search for but the one logarithm, which does not depend on the vote. *)

(** ** Concrete case: ing3 of PropK1Sound.v and a constant hash; the logarithm exists, and a document for a ciphertext that encrypts nothing is accepted *)
Example C78_case : exists pp mu doc b, IngOk ing3 gK on2 abs2 /\ GrpPrime gK /\ SeedsFull ing3 16 /\ setup dSafe (K1Grp ing3) 0 = Ok pp /\
  Z.gcd (BlankHash (K1Grp ing3) oneHO) k1Order = 1 /\ KeyLog (K1Grp ing3) oneHO (ppBP pp) mu /\
  BallotDataUnmarshalJSON (ModPGrp dSafe) (K1Grp ing3) (Some doc) pp = Ok b /\ bdBallot b = mkCiphertext (G:=ModPGrp dSafe) 0 0 /\
  verifyVote (ModPGrp dSafe) (K1Grp ing3) oneHO b (ppRP pp) = Ok (true, 2%nat) /\ pMu (bdLower b) = Some mu.
Proof.
  destruct case_setup as (pp & HS & _).
  assert (HS0 : Setup (K1Grp ing3) 0 65536 = Ok (ppBP pp)).
  { unfold setup in HS. destruct (Setup (K1Grp ing3) 0 65536) as [bp| | |]; try discriminate. cbn [bind] in HS.
    unfold vpSetup in HS. destruct (_ <? 1); [discriminate|]. cbn [bind] in HS. injection HS as <-. reflexivity. }
  destruct (Setup_ok _ 0 65536 _ eq_refl HS0) as [Hx|[_ (HN & _ & HH & _)]]; [discriminate|].
  assert (Hid : gIsId (K1Grp ing3) (bpH (ppBP pp)) = false) .
  { cbn [K1Grp gMap] in HH. unfold kgMapToGroup in HH. destruct (inMapToGroup ing3 (str_bytes SEEDH)) as [u w] eqn:EM.
    pose proof (ing3_seeds 16 (str_bytes SEEDH) (or_introl eq_refl)) as Hf. rewrite EM in Hf. cbn [fst] in Hf.
    destruct (ig_map _ _ _ _ ing3_ok _ u w EM) as (_ & Hu & Hw). apply (C34_map_exact u w Hu Hw) in Hf. rewrite Hf in HH. cbn [bind] in HH.
    assert (E1 : w = 1) by (injection EM as _ EM; symmetry; exact EM). injection HH as HH. rewrite <- HH, E1. cbn [K1Grp gIsId].
    unfold kgIsIdentity, k1IsIdentity, ingOfPtrs, ingPtrs. cbn. destruct (u =? 0); reflexivity. }
  destruct (keylog_exists (K1Grp ing3) gK (k1Rel on2 abs2) (k1_pres ing3 gK on2 abs2 ing3_ok) gK_prime oneHO 0 65536 (ppBP pp) (or_intror eq_refl) eq_refl HS0) as [mu HK].
  - rewrite HN. intros s X. apply (k1_seed_rel ing3 gK on2 abs2 ing3_ok 16 s X (ing3_seeds 16)).
  - exact Hid.
  - assert (Hg : Z.gcd (BlankHash (K1Grp ing3) oneHO) k1Order = 1) by reflexivity.
    assert (Hp : 1 < mpField dSafe) by reflexivity.
    destruct (C78_secp256k1_forger ing3 gK on2 abs2 dSafe oneHO 0 pp (mkCiphertext (G:=ModPGrp dSafe) 0 0) mu ing3_ok (ing3_seeds 16) (or_intror eq_refl) Hp HS Hg HK) as (doc & D1 & D2 & D3).
    exists pp, mu, doc, (blankBallot (ModPGrp dSafe) (K1Grp ing3) oneHO pp (mkCiphertext (G:=ModPGrp dSafe) 0 0) mu).
    split; [exact ing3_ok|]. split; [exact gK_prime|]. split; [exact (ing3_seeds 16)|]. split; [exact HS|]. split; [exact Hg|]. split; [exact HK|].
    split; [exact D1|]. split; [exact D2|]. split; [exact D3|]. reflexivity.
Qed.

Lemma ristToy_prime : GrpPrime (R255Grp ristCodec ristToy).
Proof.
  assert (GP : GrpPrime gR) by (apply toyPrime; exact prime_r255Order). pose proof (lp_laws _ GP) as LR.
  constructor; [apply C51_ristretto_contract; exact ristToy_ok|exact prime_r255Order|exact (lp_gen _ GP)|].
  intros X. destruct (lp_cyclic _ GP X) as [k Hk]. exists k. rewrite Hk. cbn [R255Grp RistGrp gScale gGen]. unfold rgScale. cbn [ristToy riMul riGen].
  apply (scale_eqm LR). symmetry. apply Zmod_eqm.
Qed.
Example C78_ristretto_case : let GE := R255Grp ristCodec ristToy in exists pp mu doc b, R255Contract ristCodec /\ RistrettoOk ristCodec r255Order ristToy /\ GrpPrime GE /\
  setup dSafe GE 0 = Ok pp /\ Z.gcd (BlankHash GE oneHO) r255Order = 1 /\ KeyLog GE oneHO (ppBP pp) mu /\
  BallotDataUnmarshalJSON (ModPGrp dSafe) GE (Some doc) pp = Ok b /\ bdBallot b = mkCiphertext (G:=ModPGrp dSafe) 0 0 /\
  verifyVote (ModPGrp dSafe) GE oneHO b (ppRP pp) = Ok (true, 2%nat) /\ pMu (bdLower b) = Some mu.
Proof.
  cbv zeta. set (GE := R255Grp ristCodec ristToy).
  assert (LE : GrpLaws GE) by exact (lp_laws _ ristToy_prime). assert (HB : bitLen (gN GE) = 253) by reflexivity.
  destruct (C43_setup_outcome dSafe GE 0) as [_ HS]; [intros s; eexists; reflexivity|rewrite HB; lia|rewrite HB; lia|].
  destruct (HS ltac:(rewrite HB; lia)) as (pp & HSe & _). clear HS.
  assert (HS0 : Setup GE 0 65536 = Ok (ppBP pp)).
  { unfold setup in HSe. destruct (Setup GE 0 65536) as [bp| | |]; try discriminate. cbn [bind] in HSe.
    unfold vpSetup in HSe. destruct (_ <? 1); [discriminate|]. cbn [bind] in HSe. injection HSe as <-. reflexivity. }
  destruct (Setup_ok _ 0 65536 _ eq_refl HS0) as [Hx|[_ (HN & _ & HH & _)]]; [discriminate|].
  assert (Hid : gIsId GE (bpH (ppBP pp)) = false) by (cbn [GE R255Grp RistGrp gMap] in HH; injection HH as <-; reflexivity).
  destruct (keylog_exists GE GE eq (self_pres _ LE) ristToy_prime oneHO 0 65536 (ppBP pp) (or_intror eq_refl) eq_refl HS0) as [mu HK].
  - intros s X _ _. exists X. reflexivity.
  - exact Hid.
  - assert (Hg : Z.gcd (BlankHash GE oneHO) r255Order = 1) by reflexivity.
    assert (Hp : 1 < mpField dSafe) by reflexivity.
    destruct (C78_ristretto_forger ristCodec ristToy dSafe oneHO 0 pp (mkCiphertext (G:=ModPGrp dSafe) 0 0) mu ristCodec_ok ristToy_ok (or_intror eq_refl) Hp HSe Hg HK) as (doc & D1 & D2 & D3).
    exists pp, mu, doc, (blankBallot (ModPGrp dSafe) GE oneHO pp (mkCiphertext (G:=ModPGrp dSafe) 0 0) mu).
    split; [exact ristCodec_ok|]. split; [exact ristToy_ok|]. split; [exact ristToy_prime|]. split; [exact HSe|]. split; [exact Hg|]. split; [exact HK|].
    split; [exact D1|]. split; [exact D2|]. split; [exact D3|]. reflexivity.
Qed.

Print Assumptions C78_secp256k1.
Print Assumptions C78_secp256k1_forger.
Print Assumptions C78_ristretto.
Print Assumptions C78_ristretto_forger.
