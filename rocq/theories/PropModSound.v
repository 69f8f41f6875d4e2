(** C60: soundness of the vote proof over the mod-p group as it is implemented. Nothing checks that the elements of a
    ballot are canonical subgroup members, so the soundness theorems over a lawful group (C21, C50) do not apply to
    ModPGrp; they hold up to the sign of the two components of the ciphertext. *)
From Verif Require Import GoBase Json GroupIface Vector BIP BP VoteProof ModP App NumTh Alg ModPProofs Hom Toy PropBP PropVote PropModP PropApp Primes.
From Coq Require Import Znumtheory.

(** ** Projection of the integers to the subgroup: x^(q+1) = x * x^q, that is x or -x *)
Section Proj.
Context (d : ModPDesc) (HS : SafePrime2 d).
Local Notation p := (mpField d).
Local Notation q := (mpOrder d).
Let Hok : ModPOk d := safe_ok d HS.

Lemma safe_p : p = 2 * q + 1.
Proof.
  pose proof HS as (Hp & Hq & Ho & H8 & _). rewrite Ho. pose proof (Z.div_mod p 8 ltac:(lia)).
  replace (p - 1) with ((4 * (p / 8) + 3) * 2) by lia. rewrite Z.div_mul by lia. lia.
Qed.
Definition unit (x : Z) : Prop := Z.gcd x p = 1.
Lemma unit_half : forall x, unit x -> eqm p (x ^ q) 1 \/ eqm p (x ^ q) (-1).
Proof.
  intros x Hx. pose proof (okq d Hok). pose proof (okp d Hok). pose proof HS as (Hp & _).
  assert (H1 : eqm p ((x ^ q - 1) * (x ^ q - - 1)) 0).
  { transitivity (x ^ (p - 1) - 1).
    - apply eqm_of_eq. replace (p - 1) with (q + q) by (rewrite safe_p; lia). rewrite Z.pow_add_r by lia. ring.
    - rewrite (fermat p x Hp Hx). reflexivity. }
  destruct (eqm_prime_mul0 p _ _ Hp H1) as [H2|H2]; [left|right]; apply (eqm_sub0 p); try lia; exact H2.
Qed.
Definition projZ (x : Z) : Z := if Z.gcd x p =? 1 then x ^ (q + 1) mod p else 1.
Lemma proj_memb : forall x, Member d (projZ x).
Proof.
  intros x. unfold projZ. destruct (_ =? 1) eqn:E; [|apply (memb_1 d Hok)]. apply Z.eqb_eq in E.
  pose proof (okq d Hok). apply (memb_mod d Hok). rewrite <- Z.pow_mul_r by lia. rewrite Z.mul_comm, Z.pow_mul_r by lia.
  destruct (unit_half x E) as [H1|H1]; rewrite (eqm_pow p _ _ (q + 1) H1); apply eqm_of_eq.
  - apply Z.pow_1_l. lia.
  - pose proof HS as (_ & Hq & Ho & H8 & _). assert (Hodd : Z.odd q = true).
    { rewrite Ho. pose proof (Z.div_mod p 8 ltac:(lia)). replace (p - 1) with ((2 * (2 * (p / 8) + 1) + 1) * 2) by lia.
      rewrite Z.div_mul by lia. rewrite Z.add_comm, Z.odd_add_mul_2. reflexivity. }
    apply Z.odd_spec in Hodd. destruct Hodd as [k Hk]. replace (q + 1) with (2 * (k + 1)) by lia.
    rewrite Z.pow_mul_r by lia. change ((-1) ^ 2) with 1. apply Z.pow_1_l. lia.
Qed.
Definition proj (x : Z) : E (SubGrp d Hok) := mks d (projZ x) (proj_memb x).
Lemma proj_sign : forall x, unit x -> x mod p = projZ x \/ x mod p = p - projZ x.
Proof.
  intros x Hx. pose proof (okq d Hok). pose proof (okp d Hok) as Hp1. unfold projZ. rewrite (proj2 (Z.eqb_eq _ _) Hx).
  assert (Hb : 0 < x ^ (q + 1) mod p < p).
  { pose proof (Z.mod_pos_bound (x ^ (q + 1)) p ltac:(lia)). enough (x ^ (q + 1) mod p <> 0) by lia. intros Hz.
    pose proof (gcd_pow d Hok x (q + 1) ltac:(lia) Hx) as Hg. rewrite <- (gcd_mod_l _ p ltac:(lia)), Hz, Z.gcd_0_l in Hg. lia. }
  assert (He : eqm p (x ^ (q + 1)) (x ^ q * x)) by (apply eqm_of_eq; rewrite Z.pow_add_r by lia; ring).
  destruct (unit_half x Hx) as [H1|H1]; rewrite H1 in He.
  - left. apply (proj1 (eqm_mod _ _ _)). rewrite He. apply eqm_of_eq. ring.
  - right. rewrite <- (Z.mod_small (p - _) p) by lia. apply (proj1 (eqm_mod _ _ _)).
    transitivity (0 - (x ^ (q + 1) mod p)).
    + rewrite (Zmod_eqm p (x ^ (q + 1))), He. apply eqm_of_eq. ring.
    + apply (eqm_iff p); [lia|]. exists (-1). ring.
Qed.
Lemma proj_id : forall x, Member d x -> projZ x = x.
Proof.
  intros x Hx. pose proof (okq d Hok). unfold projZ. rewrite (proj2 (Z.eqb_eq _ _) (memb_gcd d Hok x Hx)).
  apply (eqm_small p); [apply Z.mod_pos_bound; pose proof (okp d Hok); lia|apply Hx|].
  rewrite (Zmod_eqm p (x ^ (q + 1))), Z.pow_add_r by lia. rewrite (memb_eqm d Hok x Hx). apply eqm_of_eq. ring.
Qed.
Lemma unit_mul : forall x y, unit (x * y) <-> unit x /\ unit y.
Proof.
  intros x y. unfold unit. split.
  - intros H. split; apply Zgcd_1_rel_prime; apply Zgcd_1_rel_prime in H.
    + apply rel_prime_sym. apply rel_prime_sym in H.
      apply bezout_rel_prime. apply rel_prime_bezout in H. destruct H as [u v H]. apply (Bezout_intro _ _ _ u (v * y)). rewrite <- H. ring.
    + apply rel_prime_sym. apply rel_prime_sym in H.
      apply bezout_rel_prime. apply rel_prime_bezout in H. destruct H as [u v H]. apply (Bezout_intro _ _ _ u (v * x)). rewrite <- H. ring.
  - intros [Hx Hy]. apply Zgcd_1_rel_prime. apply rel_prime_sym, rel_prime_mult; apply rel_prime_sym, Zgcd_1_rel_prime; assumption.
Qed.
Lemma unit_cong : forall x y, eqm p x y -> unit x -> unit y.
Proof. intros x y H. unfold unit. pose proof (okp d Hok). rewrite <- (gcd_mod_l x p), <- (gcd_mod_l y p) by lia. rewrite (proj1 (eqm_mod _ _ _) H). auto. Qed.
Lemma projZ_cong : forall x y, eqm p x y -> projZ x = projZ y.
Proof.
  intros x y H. unfold projZ. pose proof (okp d Hok). rewrite <- (gcd_mod_l x p), <- (gcd_mod_l y p) by lia.
  rewrite (proj1 (eqm_mod _ _ _) H). destruct (_ =? 1); [|reflexivity]. apply (proj1 (eqm_mod _ _ _)). apply eqm_pow. exact H.
Qed.
Lemma projZ_mul : forall x y, unit x -> unit y -> projZ (x * y) = mpAdd d (projZ x) (projZ y).
Proof.
  intros x y Hx Hy. unfold projZ. rewrite (proj2 (Z.eqb_eq _ _) Hx), (proj2 (Z.eqb_eq _ _) Hy), (proj2 (Z.eqb_eq _ _) (proj2 (unit_mul x y) (conj Hx Hy))).
  unfold mpAdd. apply (proj1 (eqm_mod _ _ _)). rewrite !(Zmod_eqm p), Z.pow_mul_l. reflexivity.
Qed.
Lemma projZ_pow : forall x c, unit x -> 0 <= c -> projZ (x ^ c) = mpScale d 0 (projZ x) c.
Proof.
  intros x c Hx Hc. pose proof (okq d Hok). pose proof (okp d Hok). rewrite (mpScale_pow d Hok) by apply proj_memb.
  apply (eqm_small p); [apply proj_memb|apply Z.mod_pos_bound; lia|]. rewrite (Zmod_eqm p (projZ x ^ _)).
  rewrite <- (pow_mod_q d Hok) by (try apply proj_memb; assumption).
  unfold projZ. rewrite (proj2 (Z.eqb_eq _ _) Hx), (proj2 (Z.eqb_eq _ _) (gcd_pow d Hok x c Hc Hx)).
  rewrite (Zmod_eqm p). rewrite (eqm_pow p (x ^ (q + 1) mod p) (x ^ (q + 1)) c) by apply Zmod_eqm.
  apply eqm_of_eq. rewrite <- !Z.pow_mul_r by lia. f_equal. ring.
Qed.

(** one checked equation T = X^c * K with T a member, X and K any integers *)
Lemma proj_eq : forall T X K c, Member d T -> 0 <= c -> T = mpAdd d (mpScale d 0 X c) K ->
  T = mpAdd d (mpScale d 0 (projZ X) c) (projZ K) /\ eqm p T (X ^ c * K) /\ (c <> 0 -> unit X).
Proof.
  intros T X K c HT Hc H. pose proof (okp d Hok) as Hp.
  assert (Hs : eqm p (mpScale d 0 X c) (X ^ c)).
  { unfold mpScale, bigExp. replace (c <? 0) with false by (symmetry; apply Z.ltb_ge; lia). cbn [or_old]. rewrite Zpow_mod_pow by lia. apply Zmod_eqm. }
  assert (HTe : eqm p T (X ^ c * K)).
  { rewrite H. unfold mpAdd. rewrite (Zmod_eqm p). rewrite Hs. reflexivity. }
  assert (Hu : unit (X ^ c * K)) by (apply (unit_cong T); [exact HTe|apply (memb_gcd d Hok); exact HT]).
  apply unit_mul in Hu. destruct Hu as [HuX HuK]. split; [|split; [exact HTe|]].
  - rewrite <- (proj_id T HT). rewrite (projZ_cong _ _ HTe), projZ_mul by assumption. f_equal.
    destruct (Z.eq_dec c 0) as [->|Hc0].
    + rewrite (mpScale_pow d Hok) by apply proj_memb. rewrite Zmod_0_l, Z.pow_0_r. rewrite Z.mod_1_l by lia. apply proj_id. apply (memb_1 d Hok).
    + apply projZ_pow; [|exact Hc]. replace c with (1 + (c - 1)) in HuX by lia. rewrite Z.pow_add_r, Z.pow_1_r in HuX by lia.
      apply unit_mul in HuX. apply HuX.
  - intros Hc0. replace c with (1 + (c - 1)) in HuX by lia. rewrite Z.pow_add_r, Z.pow_1_r in HuX by lia. apply unit_mul in HuX. apply HuX.
Qed.
(** two equations whose exponents differ in parity leave no room for a sign *)
Lemma no_sign : forall T T' X K c c', Member d T -> Member d T' -> 0 <= c -> 0 <= c' -> Z.odd (c - c') = true ->
  unit X -> eqm p T (X ^ c * K) -> eqm p T' (X ^ c' * K) -> X mod p = projZ X.
Proof.
  intros T T' X K c c' HT HT' Hc Hc' Hodd HX E1 E2. pose proof (okq d Hok) as Hq1. pose proof (okp d Hok).
  assert (Hq : forall T c, Member d T -> 0 <= c -> eqm p T (X ^ c * K) -> eqm p ((X ^ q) ^ c * K ^ q) 1).
  { intros T0 c0 H0 Hc0 He. rewrite <- (memb_eqm d Hok T0 H0), (eqm_pow p _ _ q He), Z.pow_mul_l, <- !Z.pow_mul_r by lia.
    apply eqm_of_eq. do 2 f_equal. lia. }
  pose proof (Hq T c HT Hc E1) as F1. pose proof (Hq T' c' HT' Hc' E2) as F2. clear Hq.
  destruct (unit_half X HX) as [H1|H1].
  - unfold projZ. rewrite (proj2 (Z.eqb_eq _ _) HX). apply (proj1 (eqm_mod _ _ _)). rewrite Z.pow_add_r, H1 by lia. apply eqm_of_eq. ring.
  - exfalso. rewrite (eqm_pow p _ _ c H1) in F1. rewrite (eqm_pow p _ _ c' H1) in F2.
    assert (Hsg : forall k, 0 <= k -> (-1) ^ k = if Z.odd k then -1 else 1).
    { intros k Hk. assert (0 <= Z.div2 k) by (apply Z.div2_nonneg; lia). assert (0 <= Z.b2z (Z.odd k)) by (destruct (Z.odd k); cbn; lia).
      rewrite (Z.div2_odd k) at 1. rewrite Z.pow_add_r, Z.pow_mul_r by lia.
      change ((-1) ^ 2) with 1. rewrite Z.pow_1_l by lia. destruct (Z.odd k); reflexivity. }
    rewrite Z.odd_sub in Hodd. rewrite Hsg in F1, F2 by assumption.
    assert (H2 : eqm p 2 0).
    { destruct (Z.odd c), (Z.odd c'); try discriminate.
      all: transitivity (-1 * K ^ q + 1 * K ^ q); [rewrite F1, F2; reflexivity|apply eqm_of_eq; ring]. }
    apply (eqm_mod0 p) in H2. pose proof HS as (_ & _ & _ & H8 & _). rewrite Z.mod_small in H2; [lia|].
    pose proof (Z.mod_small p 8). destruct (Z.lt_ge_cases p 8); lia.
Qed.
End Proj.

(** ** An accepting transcript projects to an accepting transcript over the subgroup *)
Section Transcript.
Context (d : ModPDesc) (HS : SafePrime2 d) (GE : Grp) (HO : Oracles) (HD : Digest32 HO).
Let Hok : ModPOk d := safe_ok d HS.
Local Notation GM := (ModPGrp d).
Local Notation SG := (SubGrp d (safe_ok d HS)).
Local Notation pj := (proj d HS).

Definition projGp (gp : GroupParams GM) : GroupParams SG := mkGroupParams (G:=SG) (pj (gpG gp)) (pj (gpH gp)) (gpN gp) (gpF gp).
Definition projPr (pr : ProofParams GM GE) : ProofParams SG GE :=
  mkProofParams (vBx pr) (vBc pr) (vBg pr) (vBb pr) (vLo pr) (vHi pr) (projGp (vGFF pr)) (vGEC pr).
Definition projPf (pf : SigmaProof GM GE) : SigmaProof SG GE :=
  mkSigmaProof (GF:=SG) (pj (sW pf)) (pj (sKp pf)) (sKq1 pf) (sKq2 pf) (sChal pf) (sZ pf) (sSp pf) (sSq1 pf) (sSq2 pf) (projPr (sParams pf)).
Definition projComm (c : VerCommitments GM GE) : VerCommitments SG GE :=
  mkVerCommitments (GF:=SG) (pj (cY c)) (pj (cXp c)) (cXq1 c) (cXq2 c).
(** the hash function that answers everything like [HO] answers the first message of [pf] *)
Definition answerOf (pf : SigmaProof GM GE) : Oracles :=
  mkOracles (fun _ => sha256 HO (fsInput GM GE (sW pf) (sKp pf) (sKq1 pf) (sKq2 pf))) (fromByteArray HO).
Lemma answer_digest : forall pf, Digest32 (answerOf pf).
Proof. intros pf b. apply HD. Qed.

Lemma proj_verify : forall (pf : SigmaProof GM GE) (comm : VerCommitments GM GE), 0 <= vBc (sParams pf) -> Member d (gpH (vGFF (sParams pf))) ->
  vpVerify GM GE HO pf comm = Ok true ->
  vpVerify SG GE (answerOf pf) (projPf pf) (projComm comm) = Ok true /\
  exists c T1 T2, sChal pf = Some c /\ 0 <= c /\ (c <> 0 -> unit d (cY comm) /\ unit d (cXp comm)) /\
    Member d T1 /\ eqm (mpField d) T1 (cY comm ^ c * sW pf) /\ Member d T2 /\ eqm (mpField d) T2 (cXp comm ^ c * sKp pf).
Proof.
  intros pf comm HBc HH H. unfold vpVerify in *. cbv zeta in *.
  cbn [projPf projComm projPr sZ sChal sSp sSq1 sSq2 sW sKp sKq1 sKq2 sParams vBc vGEC vGFF cY cXp cXq1 cXq2].
  change (zLowerBound SG GE (projPr (sParams pf))) with (zLowerBound GM GE (sParams pf)).
  change (zUpperBound SG GE (projPr (sParams pf))) with (zUpperBound GM GE (sParams pf)).
  destruct (sZ pf) as [z|]; [|discriminate]. cbn [deref bind] in *. destruct (_ || _); [discriminate|].
  change (getFSChallenge SG GE (answerOf pf) (pj (sW pf)) (pj (sKp pf)) (sKq1 pf) (sKq2 pf) (vBc (sParams pf)))
    with (getFSChallenge GM GE HO (sW pf) (sKp pf) (sKq1 pf) (sKq2 pf) (vBc (sParams pf))).
  destruct (getFSChallenge GM GE HO _ _ _ _ _) as [c| | |] eqn:Ef; try discriminate. cbn [bind] in *.
  pose proof (fs_bound HD _ _ _ _ _ _ HBc Ef) as [Hc _].
  destruct (sChal pf) as [c'|]; [|discriminate]. cbn [deref bind] in *. destruct (c =? c') eqn:Ec; [|discriminate]. apply Z.eqb_eq in Ec. subst c'.
  cbn [negb] in *. destruct (sSp pf) as [sp|]; [|discriminate]. cbn [deref bind] in *.
  destruct (gEq GM _ _) eqn:E1; [|discriminate]. cbn [negb] in H.
  destruct (sigmaPedersenCheck GM _ _ _ _ _ _) eqn:E2; [|discriminate]. cbn [negb] in H.
  apply Z.eqb_eq in E1. unfold sigmaPedersenCheck in E2. cbv zeta in E2. apply Z.eqb_eq in E2. unfold vpCommit in E2.
  cbn [ModPGrp gBase gAdd gScale] in E1, E2. 
  assert (Hbm : forall s, Member d (mpBaseScale d 0 s)) by (intros; apply (memb_scale d Hok), (memb_gen d Hok)).
  destruct (proj_eq d HS _ _ _ c (Hbm sp) Hc E1) as (P1 & Q1 & U1).
  assert (HT2 : Member d (mpAdd d (mpBaseScale d 0 z) (mpScale d 0 (gpH (vGFF (sParams pf))) sp))).
  { apply (memb_add d Hok); [apply Hbm|apply (memb_scale d Hok); exact HH]. }
  destruct (proj_eq d HS _ _ _ c HT2 Hc E2) as (P2 & Q2 & U2).
  split; [|exists c; do 2 eexists; split; [reflexivity|]; split; [exact Hc|]; split;
    [intros Hc0; split; [apply U1|apply U2]; exact Hc0|split; [apply (Hbm sp)|split; [exact Q1|split; [exact HT2|exact Q2]]]]].
  replace (gEq SG (gBase SG sp) (gAdd SG (gScale SG (pj (cY comm)) c) (pj (sW pf)))) with true.
  2:{ symmetry. cbn [SubGrp gEq]. apply Z.eqb_eq. exact P1. }
  replace (sigmaPedersenCheck SG z sp c (pj (sKp pf)) (pj (cXp comm)) (projGp (vGFF (sParams pf)))) with true.
  2:{ symmetry. unfold sigmaPedersenCheck. cbv zeta. cbn [SubGrp gEq]. apply Z.eqb_eq. rewrite <- (proj_id d HS _ HH) in P2 at 1. exact P2. }
  exact H.
Qed.
End Transcript.

(** ** The theorems *)
Definition UpToSign (d : ModPDesc) (x A : Z) : Prop := x mod mpField d = A \/ x mod mpField d = mpField d - A.

Section Main.
Context (d : ModPDesc) (HS : SafePrime2 d) (GE : Grp) (PE : GrpPrime GE) (HO1 HO2 : Oracles) (HD1 : Digest32 HO1) (HD2 : Digest32 HO2).
Context (pr : ProofParams (ModPGrp d) GE) (pf1 pf2 : SigmaProof (ModPGrp d) GE) (comm : VerCommitments (ModPGrp d) GE).
Context (V1 V2 : E GE) (a ra b rb n : Z).
Local Notation SG := (SubGrp d (safe_ok d HS)).
Lemma modp_sound : SetupParams pr -> 2 ^ (vBg pr - 1) <= gN GE -> 2 ^ (vBg pr - 1) <= mpOrder d -> Member d (gpH (vGFF pr)) ->
  0 <= vLo pr -> 0 <= vHi pr < 2 ^ vBx pr -> vLo pr + 2 * 2 ^ n <= gN GE ->
  cXq1 comm = gAdd GE (gBase GE (vLo pr)) V1 -> cXq2 comm = gAdd GE (gBase GE (vHi pr)) (gScale GE V2 (-1)) ->
  Opens GE (gpH (vGEC pr)) V1 a ra -> 0 <= a < 2 ^ n -> Opens GE (gpH (vGEC pr)) V2 b rb -> 0 <= b < 2 ^ n ->
  sParams pf1 = pr -> sParams pf2 = pr ->
  sW pf1 = sW pf2 -> sKp pf1 = sKp pf2 -> sKq1 pf1 = sKq1 pf2 -> sKq2 pf1 = sKq2 pf2 -> sChal pf1 <> sChal pf2 ->
  vpVerify (ModPGrp d) GE HO1 pf1 comm = Ok true -> vpVerify (ModPGrp d) GE HO2 pf2 comm = Ok true ->
  Relation2 GE (gGen GE) (gpH (vGEC pr)) (relLow pf1 pf2 (vLo pr + a) ra) \/
  Relation2 GE (gGen GE) (gpH (vGEC pr)) (relHigh pf1 pf2 (vHi pr - b) (- rb)) \/
  exists v rp A B, Encrypts (ModPGrp d) (gpH (vGFF pr)) A B v rp /\ Extracted pf1 pf2 rp /\ v = vLo pr + a /\ vLo pr <= v <= vHi pr /\
    UpToSign d (cY comm) A /\ UpToSign d (cXp comm) B /\
    (forall c1 c2, sChal pf1 = Some c1 -> sChal pf2 = Some c2 -> Z.odd (c1 - c2) = true ->
       cY comm mod mpField d = A /\ cXp comm mod mpField d = B).
Proof.
  intros HSet HNE HNF HH Blo Bhi HnN HX1 HX2 O1 Ba O2 Bb Hp1 Hp2 Hw Hkp Hk1 Hk2 Hne A1 A2.
  destruct (setup_facts pr HSet) as (_ & [HBc _] & _).
  destruct (proj_verify d HS GE HO1 HD1 pf1 comm) as (B1 & c1 & T1 & S1 & Hc1 & Pc1 & Un1 & M1 & Q1 & N1 & R1); try (rewrite Hp1; assumption); try assumption.
  destruct (proj_verify d HS GE HO2 HD2 pf2 comm) as (B2 & c2 & T2 & S2 & Hc2 & Pc2 & Un2 & M2 & Q2 & N2 & R2); try (rewrite Hp2; assumption); try assumption.
  assert (Hun : unit d (cY comm) /\ unit d (cXp comm)).
  { destruct (Z.eq_dec c1 0) as [E0|]; [|apply Un1; assumption]. apply Un2. intros E1. apply Hne. rewrite Hc1, Hc2, E0, E1. reflexivity. }
  destruct Hun as [HuY HuX].
  assert (HSet' : SetupParams (projPr d HS GE pr)).
  { destruct HSet as (l1 & l2 & l3 & lo & hi & G1 & G2 & G3 & G4 & G5 & G6). exists l1, l2, l3, lo, hi.
    split; [exact G1|]. split; [exact G2|]. split; [exact G3|]. split; [|split; [exact G5|exact G6]].
    unfold vpSetup in *. cbv zeta in *. destruct (_ <? 1); [discriminate|]. injection G4 as G4. rewrite <- G4. reflexivity. }
  destruct (C50_sound_ballot_in_range SG GE (answerOf d GE HO1 pf1) (answerOf d GE HO2 pf2) (projPr d HS GE pr)
     (projPf d HS GE pf1) (projPf d HS GE pf2) (projComm d HS GE comm) V1 V2 a ra b rb n) as [Hrel|[Hrel|(v & rp & [HA HB] & Hex & Hv)]];
    try assumption; try (apply answer_digest; assumption).
  - apply SubLaws.
  - apply HS.
  - cbn [projPf sParams]. rewrite Hp1. reflexivity.
  - cbn [projPf sParams]. rewrite Hp2. reflexivity.
  - cbn [projPf sW]. rewrite Hw. reflexivity.
  - cbn [projPf sKp]. rewrite Hkp. reflexivity.
  - left. exact Hrel.
  - right. left. exact Hrel.
  - right. right. apply (f_equal sv) in HA. apply (f_equal sv) in HB.
    exists v, rp, (projZ d (cY comm)), (projZ d (cXp comm)). split; [|split; [exact Hex|split; [apply Hv|split; [apply Hv|]]]].
    + split; [exact HA|]. rewrite <- (proj_id d HS _ HH). exact HB.
    + split; [apply (proj_sign d HS); exact HuY|]. split; [apply (proj_sign d HS); exact HuX|].
      intros c1' c2' E1 E2 Hodd. rewrite Hc1 in E1. rewrite Hc2 in E2. injection E1 as <-. injection E2 as <-. split.
      * apply (no_sign d HS T1 T2 _ (sW pf1) c1 c2); try assumption. rewrite Hw. exact Q2.
      * apply (no_sign d HS S1 S2 _ (sKp pf1) c1 c2); try assumption. rewrite Hkp. exact R2.
Qed.
End Main.
(** Over the group of main.go's kind (p a safe prime, p = 7 mod 8, generator 2), for elements that are arbitrary integers:
    two accepting transcripts with the same first message and different challenges, for a statement formed from range-proved
    commitments as in server.go 27-43, give an in-range value v such that (U, V) encrypts v up to the signs of U and V modulo p,
    or a relation that breaks the discrete logarithm of the curve group. *)
Theorem C60_sound_up_to_sign : forall d GE HO1 HO2 (pr : ProofParams (ModPGrp d) GE) pf1 pf2 comm V1 V2 a ra b rb n,
  SafePrime2 d -> GrpPrime GE -> Digest32 HO1 -> Digest32 HO2 ->
  SetupParams pr -> 2 ^ (vBg pr - 1) <= gN GE -> 2 ^ (vBg pr - 1) <= mpOrder d -> Member d (gpH (vGFF pr)) ->
  0 <= vLo pr -> 0 <= vHi pr < 2 ^ vBx pr -> vLo pr + 2 * 2 ^ n <= gN GE ->
  cXq1 comm = gAdd GE (gBase GE (vLo pr)) V1 -> cXq2 comm = gAdd GE (gBase GE (vHi pr)) (gScale GE V2 (-1)) ->
  Opens GE (gpH (vGEC pr)) V1 a ra -> 0 <= a < 2 ^ n -> Opens GE (gpH (vGEC pr)) V2 b rb -> 0 <= b < 2 ^ n ->
  sParams pf1 = pr -> sParams pf2 = pr ->
  sW pf1 = sW pf2 -> sKp pf1 = sKp pf2 -> sKq1 pf1 = sKq1 pf2 -> sKq2 pf1 = sKq2 pf2 -> sChal pf1 <> sChal pf2 ->
  vpVerify (ModPGrp d) GE HO1 pf1 comm = Ok true -> vpVerify (ModPGrp d) GE HO2 pf2 comm = Ok true ->
  Relation2 GE (gGen GE) (gpH (vGEC pr)) (relLow pf1 pf2 (vLo pr + a) ra) \/
  Relation2 GE (gGen GE) (gpH (vGEC pr)) (relHigh pf1 pf2 (vHi pr - b) (- rb)) \/
  exists v rp A B, Encrypts (ModPGrp d) (gpH (vGFF pr)) A B v rp /\ Extracted pf1 pf2 rp /\ v = vLo pr + a /\ vLo pr <= v <= vHi pr /\
    UpToSign d (cY comm) A /\ UpToSign d (cXp comm) B.
Proof.
  intros d GE HO1 HO2 pr pf1 pf2 comm V1 V2 a ra b rb n HS PE HD1 HD2 H1 H2 H3 H4 H5 H6 H7 H8 H9 H10 H11 H12 H13 H14 H15 H16 H17 H18 H19 H20 H21 H22.
  destruct (modp_sound d HS GE PE HO1 HO2 HD1 HD2 pr pf1 pf2 comm V1 V2 a ra b rb n H1 H2 H3 H4 H5 H6 H7 H8 H9 H10 H11 H12 H13 H14 H15 H16 H17 H18 H19 H20 H21 H22)
    as [Hr|[Hr|(v & rp & A & B & He & Hex & Hx & Hv & HA & HB & _)]]; [left; exact Hr|right; left; exact Hr|right; right]. exists v, rp, A, B. auto 10.
Qed.
(** When the two challenges differ in parity no sign is left: modulo p the ciphertext is exactly an encryption of v. *)
Theorem C60_exact_other_parity : forall d GE HO1 HO2 (pr : ProofParams (ModPGrp d) GE) pf1 pf2 comm V1 V2 a ra b rb n c1 c2,
  SafePrime2 d -> GrpPrime GE -> Digest32 HO1 -> Digest32 HO2 ->
  SetupParams pr -> 2 ^ (vBg pr - 1) <= gN GE -> 2 ^ (vBg pr - 1) <= mpOrder d -> Member d (gpH (vGFF pr)) ->
  0 <= vLo pr -> 0 <= vHi pr < 2 ^ vBx pr -> vLo pr + 2 * 2 ^ n <= gN GE ->
  cXq1 comm = gAdd GE (gBase GE (vLo pr)) V1 -> cXq2 comm = gAdd GE (gBase GE (vHi pr)) (gScale GE V2 (-1)) ->
  Opens GE (gpH (vGEC pr)) V1 a ra -> 0 <= a < 2 ^ n -> Opens GE (gpH (vGEC pr)) V2 b rb -> 0 <= b < 2 ^ n ->
  sParams pf1 = pr -> sParams pf2 = pr ->
  sW pf1 = sW pf2 -> sKp pf1 = sKp pf2 -> sKq1 pf1 = sKq1 pf2 -> sKq2 pf1 = sKq2 pf2 ->
  sChal pf1 = Some c1 -> sChal pf2 = Some c2 -> Z.odd (c1 - c2) = true ->
  vpVerify (ModPGrp d) GE HO1 pf1 comm = Ok true -> vpVerify (ModPGrp d) GE HO2 pf2 comm = Ok true ->
  Relation2 GE (gGen GE) (gpH (vGEC pr)) (relLow pf1 pf2 (vLo pr + a) ra) \/
  Relation2 GE (gGen GE) (gpH (vGEC pr)) (relHigh pf1 pf2 (vHi pr - b) (- rb)) \/
  exists v rp, Encrypts (ModPGrp d) (gpH (vGFF pr)) (cY comm mod mpField d) (cXp comm mod mpField d) v rp /\ Extracted pf1 pf2 rp /\ v = vLo pr + a /\ vLo pr <= v <= vHi pr.
Proof.
  intros d GE HO1 HO2 pr pf1 pf2 comm V1 V2 a ra b rb n c1 c2 HS PE HD1 HD2 H1 H2 H3 H4 H5 H6 H7 H8 H9 H10 H11 H12 H13 H14 H15 H16 H17 H18 H19 Hc1 Hc2 Hodd H21 H22.
  assert (H20 : sChal pf1 <> sChal pf2).
  { rewrite Hc1, Hc2. intros He. injection He as ->. rewrite Z.sub_diag in Hodd. discriminate. }
  destruct (modp_sound d HS GE PE HO1 HO2 HD1 HD2 pr pf1 pf2 comm V1 V2 a ra b rb n H1 H2 H3 H4 H5 H6 H7 H8 H9 H10 H11 H12 H13 H14 H15 H16 H17 H18 H19 H20 H21 H22)
    as [Hr|[Hr|(v & rp & A & B & He & Hxt & Hx & Hv & HA & HB & Hex)]]; [left; exact Hr|right; left; exact Hr|right; right].
  destruct (Hex c1 c2 Hc1 Hc2 Hodd) as [<- <-]. exists v, rp. auto.
Qed.
(** The same for the server and the parameters of main.go's setup: two ballots accepted by verifyVote with the same ciphertext,
    range commitments and first message of the vote proof, but different challenges. The range commitments must open to 16-bit
    values: that is what the range proofs are for, but see C05. *)
Theorem C60_server : forall d GE HO1 HO2 nan64 pp (b1 b2 : BallotData (ModPGrp d) GE) t1 t2 x rx y ry,
  SafePrime2 d -> GrpPrime GE -> Digest32 HO1 -> Digest32 HO2 ->
  bitLen (gN GE) < 65536 -> gN GE <= mpOrder d -> setup d GE nan64 = Ok pp ->
  verifyVote (ModPGrp d) GE HO1 b1 (ppRP pp) = Ok (true, t1) -> verifyVote (ModPGrp d) GE HO2 b2 (ppRP pp) = Ok (true, t2) ->
  bdBallot b1 = bdBallot b2 -> pV (bdLower b1) = pV (bdLower b2) -> pV (bdUpper b1) = pV (bdUpper b2) ->
  Opens GE (bpH (ppBP pp)) (pV (bdLower b1)) x rx -> 0 <= x < 2 ^ 16 ->
  Opens GE (bpH (ppBP pp)) (pV (bdUpper b1)) y ry -> 0 <= y < 2 ^ 16 ->
  let s1 := bdVote b1 in let s2 := bdVote b2 in
  sParams s1 = ppRP pp -> sParams s2 = ppRP pp ->
  sW s1 = sW s2 -> sKp s1 = sKp s2 -> sKq1 s1 = sKq1 s2 -> sKq2 s1 = sKq2 s2 -> sChal s1 <> sChal s2 ->
  Relation2 GE (gGen GE) (bpH (ppBP pp)) (relLow s1 s2 (101 + x) rx) \/
  Relation2 GE (gGen GE) (bpH (ppBP pp)) (relHigh s1 s2 (2000 - y) (- ry)) \/
  exists v r A B, Encrypts (ModPGrp d) (ppEGPK pp) A B v r /\ Extracted s1 s2 r /\ v = 101 + x /\ 101 <= v <= 2000 /\
    UpToSign d (ctU (bdBallot b1)) A /\ UpToSign d (ctV (bdBallot b1)) B.
Proof.
  intros d GE HO1 HO2 nan64 pp b1 b2 t1 t2 x rx y ry HS PE D1 D2 HB HQ HSet V1 V2 Hb Hl Hu O1 B1 O2 B2 s1 s2 P1 P2 Hw Hk H1 H2 Hc.
  pose proof (lp_laws GE PE) as LE. pose proof (l_order GE LE) as HN. pose proof (safe_ok d HS) as Hok.
  assert (HQ2 : 2 ^ (bitLen (gN GE) - 1) <= gN GE).
  { unfold bitLen. replace (gN GE =? 0) with false by (symmetry; apply Z.eqb_neq; lia). rewrite Z.abs_eq by lia.
    replace (Z.log2 (gN GE) + 1 - 1) with (Z.log2 (gN GE)) by lia. apply Z.log2_spec. lia. }
  assert (HP : SetupParams (ppRP pp) /\ vBg (ppRP pp) = bitLen (gN GE) /\ vLo (ppRP pp) = 101 /\ vHi (ppRP pp) = 2000 /\ vBx (ppRP pp) = 16 /\
    gpH (vGEC (ppRP pp)) = bpH (ppBP pp) /\ gpH (vGFF (ppRP pp)) = ppEGPK pp /\ ppEGPK pp = gBase (ModPGrp d) 13 /\ 242 <= bitLen (gN GE)).
  { clear - HSet HB HN. unfold setup in HSet. destruct (Setup GE nan64 65536) as [bp| | |]; try discriminate. cbn [bind] in HSet.
    assert (HB0 : 0 <= bitLen (gN GE)) by (unfold bitLen; destruct (_ =? 0); [lia|pose proof (Z.log2_nonneg (Z.abs (gN GE))); lia]).
    assert (Hw : wrap16 (bitLen (gN GE)) = bitLen (gN GE)) by (unfold wrap16; apply Z.mod_small; lia).
    rewrite Hw in HSet. unfold vpSetup in HSet. destruct (_ <? 1) eqn:Hb1; [discriminate|]. cbn [bind] in HSet. injection HSet as <-.
    split; [|repeat split; try reflexivity; apply Z.ltb_ge in Hb1; lia].
    exists 16, 224, (bitLen (gN GE)), 101, 2000. split; [lia|]. split; [lia|]. split; [lia|].
    split; [unfold vpSetup; rewrite Hb1; reflexivity|]. split; reflexivity. }
  destruct HP as (HSP & Hbg & Hlo & Hhi & Hbx & HhE & HhF & Hpk & H242).
  apply C28_all_proofs_checked in V1, V2. destruct V1 as [[V1 _] _], V2 as [[V2 _] _].
  destruct (V1 eq_refl) as (_ & _ & A1). destruct (V2 eq_refl) as (_ & _ & A2). rewrite <- Hb, <- Hl, <- Hu in A2.
  set (comm := mkVerCommitments _ _ _ _) in A1, A2.
  assert (Hbig : 2 ^ 241 <= 2 ^ (bitLen (gN GE) - 1)) by (apply Z.pow_le_mono_r; lia).
  rewrite <- HhE in O1, O2. rewrite <- HhE, <- HhF.
  destruct (C60_sound_up_to_sign d GE HO1 HO2 (ppRP pp) s1 s2 comm (pV (bdLower b1)) (pV (bdUpper b1)) x rx y ry 16 HS PE D1 D2 HSP) as [H|[H|(v & r & A & B & H)]];
    rewrite ?Hbg, ?Hlo, ?Hhi, ?Hbx; try assumption; try lia; try (unfold comm; cbn [cXq1 cXq2]; rewrite ?Hlo, ?Hhi; reflexivity).
  - rewrite HhF, Hpk. destruct (C29_group_contract d Hok) as (_ & _ & H & _). exact (proj2 (H 1 13 (proj1 (proj1 (C29_group_contract d Hok))))).
  - left. rewrite Hlo in H. exact H.
  - right. left. rewrite Hhi in H. exact H.
  - right. right. exists v, r, A, B. rewrite Hlo, Hhi in H. exact H.
Qed.
(** The sign is needed: with two even challenges both transcripts are also accepted for (U, p - V), which encrypts nothing. *)
Theorem C60_sign_needed : forall d GE HO1 HO2 (pf1 pf2 : SigmaProof (ModPGrp d) GE) H U V Xq1 Xq2 c1 c2 v r,
  SafePrime2 d -> Member d H -> Encrypts (ModPGrp d) H U V v r ->
  sChal pf1 = Some c1 -> sChal pf2 = Some c2 -> 0 <= c1 -> 0 <= c2 -> Z.even c1 = true -> Z.even c2 = true ->
  vpVerify (ModPGrp d) GE HO1 pf1 (mkVerCommitments (GF:=ModPGrp d) U V Xq1 Xq2) = Ok true ->
  vpVerify (ModPGrp d) GE HO2 pf2 (mkVerCommitments (GF:=ModPGrp d) U V Xq1 Xq2) = Ok true ->
  let comm' := mkVerCommitments (GF:=ModPGrp d) U (mpField d - V) Xq1 Xq2 in
  vpVerify (ModPGrp d) GE HO1 pf1 comm' = Ok true /\ vpVerify (ModPGrp d) GE HO2 pf2 comm' = Ok true /\
  forall v' r', ~ Encrypts (ModPGrp d) H U ((mpField d - V) mod mpField d) v' r'.
Proof.
  intros d GE HO1 HO2 pf1 pf2 H U V Xq1 Xq2 c1 c2 v r HS HH [HU HV] Hc1 Hc2 P1 P2 E1 E2 A1 A2 comm'.
  pose proof (safe_ok d HS) as Hok.
  assert (Hm : forall x y, Member d (mpAdd d (mpScale d 0 (mpGen d) x) (mpScale d 0 H y))).
  { intros x y. apply (memb_add d Hok); apply (memb_scale d Hok); [apply (memb_gen d Hok)|exact HH]. }
  assert (HVm : Member d V) by (rewrite HV; apply Hm).
  destruct (C30_refuted_nonmember d GE HO1 pf1 U V Xq1 Xq2 c1 HS Hc1 P1 E1 HVm A1) as (R1 & Hb & Hnm).
  destruct (C30_refuted_nonmember d GE HO2 pf2 U V Xq1 Xq2 c2 HS Hc2 P2 E2 HVm A2) as (R2 & _ & _).
  split; [exact R1|]. split; [exact R2|]. intros v' r' [_ HE]. apply Hnm. rewrite Z.mod_small in HE by exact Hb.
  rewrite HE. apply Hm.
Qed.

(** ** Concrete case: p = 8423, curve group Z/4111, vote 1 in [0, 1]. Under hash functions 0 and 100 the challenges are both even
    or both odd, under 0 and 101 they differ in parity. *)
Definition c60Gff : GroupParams (ModPGrp dToy) := mkGroupParams (G:=ModPGrp dToy) 2 (gBase (ModPGrp dToy) 13) (Some 4211) (Some 8423).
Definition c60Pr : ProofParams (ModPGrp dToy) toyE := mkProofParams 1 8 13 3 0 1 c60Gff toyGec.
Definition c60Pf (seed : Z) : SigmaProof (ModPGrp dToy) toyE :=
  match vpProve (ModPGrp dToy) toyE (toyD seed) 1 44 55 66 c60Pr toyDraws with Ok p => p
  | _ => mkSigmaProof (GF:=ModPGrp dToy) (GE:=toyE) 0 0 (gId toyE) (gId toyE) None None None None None c60Pr end.
Definition c60U : Z := gScale (ModPGrp dToy) 2 44.
Definition c60V : Z := gAdd (ModPGrp dToy) (gScale (ModPGrp dToy) 2 1) (gScale (ModPGrp dToy) (gpH c60Gff) 44).
Definition c60C (u v : Z) : VerCommitments (ModPGrp dToy) toyE := mkVerCommitments (GF:=ModPGrp dToy) (GE:=toyE) u v
  (gAdd toyE (gBase toyE 0) toyV1) (gAdd toyE (gBase toyE 1) (gScale toyE toyV2 (-1))).
Lemma c60Pr_setup : SetupParams c60Pr.
Proof. exists 1, 8, 13, 0, 1. repeat split; lia. Qed.
Example C60_case :
  SafePrime2 dToy /\ GrpPrime toyE /\ SetupParams c60Pr /\ Member dToy (gpH (vGFF c60Pr)) /\
  2 ^ (vBg c60Pr - 1) <= gN toyE /\ 2 ^ (vBg c60Pr - 1) <= mpOrder dToy /\ vLo c60Pr + 2 * 2 ^ 1 <= gN toyE /\
  Opens toyE (gpH (vGEC c60Pr)) toyV1 1 55 /\ Opens toyE (gpH (vGEC c60Pr)) toyV2 0 (-66) /\
  map (fun s => (sW (c60Pf s), sKp (c60Pf s), zv _ (sKq1 (c60Pf s)), zv _ (sKq2 (c60Pf s)))) [100; 101] =
    repeat (sW (c60Pf 0), sKp (c60Pf 0), zv _ (sKq1 (c60Pf 0)), zv _ (sKq2 (c60Pf 0))) 2 /\
  map (fun s => sChal (c60Pf s)) [0; 100; 101] = [Some 234; Some 78; Some 79] /\
  map (fun s => vpVerify (ModPGrp dToy) toyE (toyD s) (c60Pf s) (c60C c60U c60V)) [0; 100; 101] = [Ok true; Ok true; Ok true] /\
  map (fun s => vpVerify (ModPGrp dToy) toyE (toyD s) (c60Pf s) (c60C (c60U + 8423) (8423 - c60V))) [0; 100; 101] = [Ok true; Ok true; Ok false].
Proof.
  split; [exact dToy_safe|]. split; [exact toyE_prime|]. split; [exact c60Pr_setup|].
  split; [apply memb_check; [reflexivity|discriminate|vm_compute; reflexivity]|].
  repeat split; try (vm_compute; reflexivity); try (vm_compute; discriminate).
Qed.

Print Assumptions C60_sound_up_to_sign.
Print Assumptions C60_exact_other_parity.
Print Assumptions C60_sign_needed.
Print Assumptions C60_server.
