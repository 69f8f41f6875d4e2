(** C76: the points of P-256, P-384 and secp256k1 under the textbook formulas are groups of prime order generated by the standard
    generators; so over these curves the interface's contract holds if the libraries compute the textbook formulas. *)
From Verif Require Import GoBase Json GroupIface Vector BIP BP VoteProof ModP App ECJson P256k1 Curve Groups NumTh Alg ModPProofs Toy
  PropBP PropVote PropModP PropApp PropEC PropCurve PropModSound PropGen PropK1 Primes PrimeCerts PropPrime Fork PropFork
  ECLaw ECPoints ECOrder ECStd ECCert FieldCerts FieldCerts384 OrderCerts OrderCerts384.
From Coq Require Import Znumtheory.

(** ** What the libraries are assumed to compute: the formulas of ECPoints.v on coordinates *)
(** P + ... + P, s times *)
Definition ecMulZ (cv : Curve) (P : Z * Z) (s : Z) : Z * Z := Nat.iter (Z.to_nat s) (ecAddZ cv P) (0, 0).
Record CirclStd (cv : Curve) (n : Z) (g : Z * Z) (ci : Circl cv) : Prop := {
  cs_add : forall P Q, pv (ciAdd ci P Q) = ecAddZ cv (pv P) (pv Q);
  cs_neg : forall P, pv (ciNeg ci P) = ecNegZ cv (pv P);
  cs_mul : forall P s, 0 <= s < n -> pv (ciMul ci P s) = ecMulZ cv (pv P) s;
  cs_mulgen : forall s, 0 <= s < n -> pv (ciMulGen ci s) = ecMulZ cv g s;
  cs_gen : pv (ciGen ci) = g
}.
(** circl's P256 and P384 with the standard parameters *)
Inductive Nist : Grp -> Prop :=
| nist_p256 : forall decomp ci, CirclStd (P256 decomp) p256Order p256Gen ci -> Nist (P256Grp decomp ci)
| nist_p384 : forall decomp ci, CirclStd (P384 decomp) p384Order p384Gen ci -> Nist (P384Grp decomp ci).

(** ** The formulas make an abelian group of the points of any nonsingular curve *)
Theorem C76_formulas : forall cv P Q R, CurveOk cv -> IsPoint cv P -> IsPoint cv Q -> IsPoint cv R ->
  IsPoint cv (ecAddZ cv P Q) /\ IsPoint cv (ecNegZ cv P) /\
  ecAddZ cv P Q = ecAddZ cv Q P /\ ecAddZ cv P (ecAddZ cv Q R) = ecAddZ cv (ecAddZ cv P Q) R /\
  ecAddZ cv (0, 0) P = P /\ ecAddZ cv P (ecNegZ cv P) = (0, 0).
Proof.
  intros cv P Q R OK HP HQ HR. apply isPointb_iff in HP, HQ, HR.
  pose proof (pv_toPt cv P HP) as EP. pose proof (pv_toPt cv Q HQ) as EQ. pose proof (pv_toPt cv R HR) as ER.
  split; [apply isPointb_iff, (phi_add cv OK); assumption|]. split; [apply isPointb_iff, (neg_ok cv OK); assumption|].
  rewrite <- EP, <- EQ, <- ER. rewrite <- !(pv_neg cv OK), <- !(pv_add cv OK).
  split; [f_equal; apply (std_comm cv OK)|]. split; [f_equal; apply (std_assoc cv OK)|]. split; [reflexivity|].
  rewrite (std_neg cv OK). reflexivity.
Qed.
Lemma ecMulZ_std : forall cv P s, CurveOk cv -> ecMulZ cv (pv P) s = pv (stdMul cv P s).
Proof.
  intros cv P s OK. unfold ecMulZ, stdMul. induction (Z.to_nat s) as [|k IH]; [reflexivity|]. change (ecAddZ cv (pv P) (Nat.iter k (ecAddZ cv (pv P)) (0, 0)) = pv (stdAdd cv P (Nat.iter k (stdAdd cv P) (ptId cv)))).
  rewrite IH. symmetry. apply (pv_add cv OK).
Qed.

(** ** The shipped parameters *)
(** every point of the curve is exactly one of the multiples 0, ..., n-1 of the generator: the cofactor is 1 *)
Definition CyclicOf (cv : Curve) (n : Z) (g : Z * Z) : Prop :=
  prime n /\ IsPoint cv g /\ g <> (0, 0) /\ ecMulZ cv g n = (0, 0) /\
  (forall P, IsPoint cv P -> exists k, 0 <= k < n /\ P = ecMulZ cv g k) /\
  (forall j k, 0 <= j < n -> 0 <= k < n -> ecMulZ cv g j = ecMulZ cv g k -> j = k).
Lemma cert_cyclic : forall cv n g, CurveCert cv n g -> CyclicOf cv n g.
Proof.
  intros cv n g C. pose proof (cc_ok _ _ _ C) as OK. pose proof (cc_odd _ _ _ C). destruct (curve_cyclic cv n g C) as (Hg & Hc & _).
  assert (HP : isPointb cv g = true) by (unfold isPointb; rewrite (cc_g _ _ _ C); apply orb_true_r).
  pose proof (pv_toPt cv g HP) as Eg.
  assert (M : forall s, ecMulZ cv g s = pv (stdMul cv (toPt cv g) s)) by (intros s; rewrite <- Eg at 1; apply ecMulZ_std; exact OK).
  split; [exact (cc_n _ _ _ C)|]. split; [apply isPointb_iff; exact HP|]. split; [|split; [|split]].
  - intros E. apply Hg. apply pt_eq. rewrite Eg. exact E.
  - rewrite M, (cc_order _ _ _ C). reflexivity.
  - intros P HPP. apply isPointb_iff in HPP. destruct (Hc (toPt cv P)) as (k & Hk & E). exists k. split; [exact Hk|]. rewrite M, <- E. symmetry. apply pv_toPt. exact HPP.
  - intros j k Hj Hk E. rewrite !M in E. apply pt_eq in E. unfold stdMul in E.
    apply (mul_inj (Pt cv) (ptId cv) (stdAdd cv) (stdNeg cv) (std_comm cv OK) (std_assoc cv OK) (std_id cv OK) (std_neg cv OK) (Z.to_nat n)) in E; try lia.
    + rewrite Z2Nat.id by lia. exact (cc_n _ _ _ C).
    + exact Hg.
    + exact (cc_order _ _ _ C).
Qed.
Theorem C76_cofactor_one : forall decomp,
  CyclicOf (P256 decomp) p256Order p256Gen /\ CyclicOf (P384 decomp) p384Order p384Gen /\ CyclicOf (K1 decomp) k1Order k1Gen.
Proof. intros decomp. split; [|split]; apply cert_cyclic; [apply p256_cert|apply p384_cert|apply k1_cert]. Qed.

(** ** The contract of the group interface *)
Lemma std_contract : forall cv n g ci, CurveCert cv n g -> CirclStd cv n g ci ->
  CirclOk cv n ci /\ ciGen ci <> ptId cv /\ forall P, exists s, P = ciMul ci (ciGen ci) s /\ 0 <= s < n.
Proof.
  intros cv n g ci C S. pose proof (cc_ok _ _ _ C) as OK. pose proof (cc_odd _ _ _ C) as Hn. destruct (curve_cyclic cv n g C) as (Hg & Hc & Hx).
  assert (EA : forall P Q, ciAdd ci P Q = stdAdd cv P Q) by (intros; apply pt_eq; rewrite (pv_add cv OK); apply (cs_add _ _ _ _ S)).
  assert (EN : forall P, ciNeg ci P = stdNeg cv P) by (intros; apply pt_eq; rewrite (pv_neg cv OK); apply (cs_neg _ _ _ _ S)).
  assert (EM : forall P s, 0 <= s < n -> ciMul ci P s = stdMul cv P s) by (intros; apply pt_eq; rewrite <- (ecMulZ_std cv _ _ OK); apply (cs_mul _ _ _ _ S); assumption).
  assert (EG : ciGen ci = toPt cv g).
  { apply pt_eq. rewrite (cs_gen _ _ _ _ S). symmetry. apply pv_toPt. unfold isPointb. rewrite (cc_g _ _ _ C). apply orb_true_r. }
  split; [|split].
  - constructor.
    + lia.
    + intros. rewrite !EA. apply (std_comm cv OK).
    + intros. rewrite !EA. apply (std_assoc cv OK).
    + intros. rewrite !EA. apply (std_id cv OK).
    + intros. rewrite EA, EN. apply (std_neg cv OK).
    + intros. rewrite EM by lia. reflexivity.
    + intros. rewrite EA, !EM by lia. rewrite (stdMul_plus cv OK), (stdMul_1 cv OK) by lia. reflexivity.
    + intros P. rewrite EA, EM by lia. rewrite <- (stdMul_1 cv OK P) at 2. rewrite <- (stdMul_plus cv OK) by lia. replace (n - 1 + 1) with n by ring. apply Hx.
    + intros s Hs. apply pt_eq. rewrite (cs_mulgen _ _ _ _ S), (cs_mul _ _ _ _ S), (cs_gen _ _ _ _ S) by assumption. reflexivity.
  - rewrite EG. exact Hg.
  - intros P. destruct (Hc P) as (k & Hk & ->). exists k. split; [|exact Hk]. rewrite EM, EG by exact Hk. reflexivity.
Qed.
Theorem C76_prime_group : forall G, Nist G -> Shipped G /\ GrpPrime G.
Proof.
  intros G [decomp ci S|decomp ci S].
  - destruct (std_contract _ _ _ _ (p256_cert decomp) S) as (O & Hg & Hc). split; [constructor; exact O|]. apply (C51_prime _ _ _ _ O); [exact prime_p256Order|exact Hg|exact Hc].
  - destruct (std_contract _ _ _ _ (p384_cert decomp) S) as (O & Hg & Hc). split; [constructor; exact O|]. apply (C51_prime _ _ _ _ O); [exact prime_p384Order|exact Hg|exact Hc].
Qed.
(** whatever UnmarshalJSON, MapToGroup or any operation returns is a multiple of the generator, by one scalar modulo the order *)
Theorem C76_no_small_subgroup : forall G, Nist G ->
  (forall X, exists k, 0 <= k < gN G /\ X = gScale G (gGen G) k /\ forall k', 0 <= k' < gN G -> X = gScale G (gGen G) k' -> k' = k) /\
  (forall X s, X <> gId G -> gScale G X s = gId G -> s mod gN G = 0).
Proof.
  intros G HG. destruct (C76_prime_group G HG) as [_ [L P Hg Hc]]. pose proof (N_pos L) as HN. split.
  - intros X. destruct (Hc X) as [k ->]. exists (k mod gN G). pose proof (Z.mod_pos_bound k (gN G) HN) as Bk. split; [exact Bk|]. split.
    + apply (scale_eqm L). symmetry. apply Zmod_eqm.
    + intros k' Bk' E. apply (exact_order G _ _ _ L P Hg) in E. rewrite (Z.mod_small k') in E by exact Bk'. congruence.
  - intros X s HX E. rewrite <- (l_scale0 G L X) in E. apply (exact_order G _ _ _ L P HX) in E. rewrite Zmod_0_l in E. exact E.
Qed.
(** an acceptance of the server over P-256 or P-384, with nothing assumed of the group but the formulas *)
Theorem C76_server_sound : forall d GE HO1 HO2 nan64 pp (b1 b2 : BallotData (ModPGrp d) GE) t1 t2 x rx y ry,
  SafePrime2 d -> Nist GE -> Digest32 HO1 -> Digest32 HO2 -> 2 ^ 384 <= mpOrder d -> setup d GE nan64 = Ok pp ->
  verifyVote (ModPGrp d) GE HO1 b1 (ppRP pp) = Ok (true, t1) -> verifyVote (ModPGrp d) GE HO2 b2 (ppRP pp) = Ok (true, t2) ->
  bdBallot b1 = bdBallot b2 -> pV (bdLower b1) = pV (bdLower b2) -> pV (bdUpper b1) = pV (bdUpper b2) ->
  Opens GE (bpH (ppBP pp)) (pV (bdLower b1)) x rx -> 0 <= x < 2 ^ 16 ->
  Opens GE (bpH (ppBP pp)) (pV (bdUpper b1)) y ry -> 0 <= y < 2 ^ 16 ->
  let s1 := bdVote b1 in let s2 := bdVote b2 in
  sParams s1 = ppRP pp -> sParams s2 = ppRP pp ->
  sW s1 = sW s2 -> sKp s1 = sKp s2 -> sKq1 s1 = sKq1 s2 -> sKq2 s1 = sKq2 s2 -> sChal s1 <> sChal s2 ->
  Relation2 GE (gGen GE) (bpH (ppBP pp)) (relLow s1 s2 (101 + x) rx) \/
  Relation2 GE (gGen GE) (bpH (ppBP pp)) (relHigh s1 s2 (2000 - y) (- ry)) \/
  exists v r A B, Encrypts (ModPGrp d) (ppEGPK pp) A B v r /\ Extracted s1 s2 r /\ v = 101 + x /\ 101 <= v <= 2000 /\
    UpToSign d (ctU (bdBallot b1)) A /\ UpToSign d (ctV (bdBallot b1)) B.
Proof.
  intros d GE HO1 HO2 nan64 pp b1 b2 t1 t2 x rx y ry HS HG. destruct (C76_prime_group GE HG) as [HSh P].
  apply (C62_server_sound d GE HO1 HO2 nan64 pp b1 b2 t1 t2 x rx y ry HS HSh (lp_gen GE P) (lp_cyclic GE P)).
Qed.
(** C75 likewise *)
Theorem C76_forking : forall d GE bg fb nan64 pp (adv : Prog (BallotData (ModPGrp d) GE)) ct V1 V2 x rx y ry n L runs,
  SafePrime2 d -> Nist GE ->
  (forall b, is_digest (bg b)) -> 2 ^ 384 <= mpOrder d -> setup d GE nan64 = Ok pp ->
  Opens GE (bpH (ppBP pp)) V1 x rx -> 0 <= x < 2 ^ 16 -> Opens GE (bpH (ppBP pp)) V2 y ry -> 0 <= y < 2 ^ 16 ->
  WinningRuns bdVote (ServerAccepts (ppRP pp) ct V1 V2) bg fb adv n L runs ->
  Few n L 28 runs \/
  exists hs1 hs2 b1 b2, In hs1 runs /\ In hs2 runs /\
    Wins bdVote (ServerAccepts (ppRP pp) ct V1 V2) bg fb adv hs1 b1 /\ Wins bdVote (ServerAccepts (ppRP pp) ct V1 V2) bg fb adv hs2 b2 /\
    (Relation2 GE (gGen GE) (bpH (ppBP pp)) (relLow (bdVote b1) (bdVote b2) (101 + x) rx) \/
     Relation2 GE (gGen GE) (bpH (ppBP pp)) (relHigh (bdVote b1) (bdVote b2) (2000 - y) (- ry)) \/
     exists v r A B, Encrypts (ModPGrp d) (ppEGPK pp) A B v r /\ Extracted (bdVote b1) (bdVote b2) r /\ v = 101 + x /\ 101 <= v <= 2000 /\
       UpToSign d (ctU ct) A /\ UpToSign d (ctV ct) B).
Proof.
  intros d GE bg fb nan64 pp adv ct V1 V2 x rx y ry n L runs HS HG. destruct (C76_prime_group GE HG) as [HSh P].
  assert (HR : FSReads (ModPGrp d) GE) by (destruct (C75_hash_reads d) as (R1 & R2 & _); destruct HG; [apply R1|apply R2]).
  apply (C75_server d GE bg fb nan64 pp adv ct V1 V2 x rx y ry n L runs HS HSh (lp_gen GE P) (lp_cyclic GE P) HR).
Qed.

(** ** secp256k1 *)
(** ING's points as coordinates: two nil pointers are (0,0) *)
Definition ingXY (P : ingPt) : Z * Z := match P with None => (0, 0) | Some q => q end.
Definition noDecomp : bytes -> option (Z * Z) := fun _ => None.
Record IngStd (ing : Ing) : Prop := {
  is_mul : forall P Q, IsPoint (K1 noDecomp) (ingXY P) -> IsPoint (K1 noDecomp) (ingXY Q) ->
    ingXY (inMultiply ing P Q) = ecAddZ (K1 noDecomp) (ingXY P) (ingXY Q);
  is_scale : forall P s, IsPoint (K1 noDecomp) (ingXY P) -> ingXY (inScalarMult ing P s) = ecMulZ (K1 noDecomp) (ingXY P) (s mod k1Order);
  is_base : forall s, ingXY (inScalarBaseMult ing s) = ecMulZ (K1 noDecomp) k1Gen (s mod k1Order);
  is_map : forall b, IsPoint (K1 noDecomp) (inMapToGroup ing b)
}.
(** an implementation of the formulas, on any curve *)
Definition stdCircl (cv : Curve) (g : Z * Z) (h : bytes -> Pt cv) : Circl cv :=
  mkCircl cv (stdAdd cv) (stdNeg cv) (stdMul cv) (stdMul cv (toPt cv g)) (toPt cv g) h.
Lemma stdCircl_ok : forall cv n g h, CurveCert cv n g -> CirclStd cv n g (stdCircl cv g h).
Proof.
  intros cv n g h C. pose proof (cc_ok _ _ _ C) as OK.
  assert (Eg : pv (toPt cv g) = g) by (apply pv_toPt; unfold isPointb; rewrite (cc_g _ _ _ C); apply orb_true_r).
  constructor; cbn [stdCircl ciAdd ciNeg ciMul ciMulGen ciGen].
  - apply (pv_add cv OK).
  - apply (pv_neg cv OK).
  - intros. symmetry. apply ecMulZ_std. exact OK.
  - intros s _. rewrite <- Eg at 2. symmetry. apply ecMulZ_std. exact OK.
  - exact Eg.
Qed.
Definition k1Std : Grp := CurveGrp (K1 noDecomp) "secp256k1" k1Order (stdCircl (K1 noDecomp) k1Gen (fun _ => ptId _)).
Definition k1On (P : ingPt) : Prop := IsPoint (K1 noDecomp) (ingXY P).
Definition k1Abs (P : ingPt) : E k1Std := toPt (K1 noDecomp) (ingXY P).
Theorem C76_secp256k1 : forall ing, IngStd ing -> IngOk ing k1Std k1On k1Abs /\ GrpPrime k1Std.
Proof.
  intros ing S. pose proof (k1_cert noDecomp) as C. pose proof (cc_ok _ _ _ C) as OK. set (cv := K1 noDecomp) in *.
  pose proof (stdCircl_ok cv k1Order k1Gen (fun _ => ptId _) C) as SC. destruct (std_contract _ _ _ _ C SC) as (O & Hg & Hc).
  assert (GP : GrpPrime k1Std) by (apply (C51_prime _ _ _ _ O); [exact prime_k1Order|exact Hg|exact Hc]).
  split; [|exact GP].
  assert (Eg : pv (toPt cv k1Gen) = k1Gen) by (apply pv_toPt; unfold isPointb; rewrite (cc_g _ _ _ C); apply orb_true_r).
  assert (PV : forall P, k1On P -> pv (k1Abs P) = ingXY P) by (intros P HP; apply pv_toPt, isPointb_iff; exact HP).
  assert (ON : forall P (X : Pt cv), ingXY P = pv X -> k1On P /\ k1Abs P = X).
  { intros P X E. assert (HP : k1On P) by (unfold k1On; rewrite E; apply isPointb_iff, pok). split; [exact HP|]. apply pt_eq. rewrite PV by exact HP. exact E. }
  constructor.
  - exact (lp_laws _ GP).
  - reflexivity.
  - split; [left; reflexivity|]. apply pt_eq. rewrite PV by (left; reflexivity). reflexivity.
  - intros P Q HP HQ. apply ON. rewrite (is_mul _ S) by assumption. rewrite <- (PV P HP), <- (PV Q HQ). symmetry. apply (pv_add cv OK).
  - intros P s HP. apply ON. rewrite (is_scale _ S) by assumption. rewrite <- (PV P HP). apply (ecMulZ_std cv). exact OK.
  - intros s. apply ON. rewrite (is_base _ S). fold cv. rewrite <- Eg at 1. apply (ecMulZ_std cv). exact OK.
  - intros P Q HP HQ. rewrite <- (PV P HP), <- (PV Q HQ) || idtac.
    assert (W : forall R, k1On R -> k1Coord (fst (ingPtrs R)) = fst (pv (k1Abs R)) /\ k1Coord (snd (ingPtrs R)) = snd (pv (k1Abs R))).
    { intros R HR. rewrite (PV R HR). destruct R as [[x y]|]; split; reflexivity. }
    destruct (W P HP) as [-> ->]. destruct (W Q HQ) as [-> ->]. split; [|intros ->; split; reflexivity].
    intros [E1 E2]. apply pt_eq. rewrite (surjective_pairing (pv (k1Abs P))), (surjective_pairing (pv (k1Abs Q))), E1, E2. reflexivity.
  - intros b x y E. pose proof (is_map _ S b) as HM. rewrite E in HM. split; [exact HM|]. destruct HM as [HM|HM]; [injection HM as -> ->; lia|].
    destruct (onCurve_bounds _ _ _ HM) as [? ?]. cbn [fst snd] in *. lia.
Qed.

(** ** Concrete cases *)
(** the contracts assumed elsewhere can be met over the real curves *)
Example C76_p256_case : forall decomp h, Nist (P256Grp decomp (stdCircl (P256 decomp) p256Gen h)).
Proof. intros. constructor. apply stdCircl_ok, p256_cert. Qed.
Example C76_p384_case : forall decomp h, Nist (P384Grp decomp (stdCircl (P384 decomp) p384Gen h)).
Proof. intros. constructor. apply stdCircl_ok, p384_cert. Qed.
Definition stdIng : Ing := mkIng (fun P Q => Some (ecAddZ (K1 noDecomp) (ingXY P) (ingXY Q))) (fun P s => Some (ecMulZ (K1 noDecomp) (ingXY P) (s mod k1Order)))
  (fun s => Some (ecMulZ (K1 noDecomp) k1Gen (s mod k1Order))) (fun _ => k1Gen) (fun _ => []).
Example C76_secp256k1_case : IngStd stdIng.
Proof. constructor; try reflexivity. intros b. apply isPointb_iff. unfold isPointb. cbn [inMapToGroup stdIng]. rewrite (cc_g _ _ _ (k1_cert noDecomp)). apply orb_true_r. Qed.
(** twice the generator of P-256, as published *)
Example C76_double_case : ecAddZ (P256 noDecomp) p256Gen p256Gen =
  (0x7cf27b188d034f7e8a52380304b51ac3c08969e277f21b35a60b48fc47669978, 0x07775510db8ed040293d9ac69f7430dbba7dade63ce982299e04b79d227873d1).
Proof. vm_cast_no_check (eq_refl (0x7cf27b188d034f7e8a52380304b51ac3c08969e277f21b35a60b48fc47669978, 0x07775510db8ed040293d9ac69f7430dbba7dade63ce982299e04b79d227873d1)). Qed.

Print Assumptions C76_formulas.
Print Assumptions C76_cofactor_one.
Print Assumptions C76_prime_group.
Print Assumptions C76_no_small_subgroup.
Print Assumptions C76_server_sound.
Print Assumptions C76_forking.
Print Assumptions C76_secp256k1.
