(** The group of points of a short Weierstrass curve under the textbook formulas: abelian, and cyclic of prime order n when a multiple
    of a generator is certified. *)
From Verif Require Import GoBase Json GroupIface ECJson Curve NumTh Toy PropEC PropCurve ECLaw ECPoints ECOrder.
From Coq Require Import Znumtheory.

Definition toPt (cv : Curve) (P : Z * Z) : Pt cv := match ptOf cv P with Some r => r | None => ptId cv end.
Definition stdAdd (cv : Curve) (P Q : Pt cv) : Pt cv := toPt cv (ecAddZ cv (pv P) (pv Q)).
Definition stdNeg (cv : Curve) (P : Pt cv) : Pt cv := toPt cv (ecNegZ cv (pv P)).
(** P + ... + P, s times *)
Definition stdMul (cv : Curve) (P : Pt cv) (s : Z) : Pt cv := Nat.iter (Z.to_nat s) (stdAdd cv P) (ptId cv).

Lemma pv_toPt : forall cv P, isPointb cv P = true -> pv (toPt cv P) = P.
Proof. intros cv P H. unfold toPt, ptOf. destruct (bool_dec (isPointb cv P) true) as [H'|H']; [reflexivity|contradiction]. Qed.
Lemma pt_dec : forall cv (P Q : Pt cv), {P = Q} + {P <> Q}.
Proof.
  intros cv P Q. destruct (Z.eq_dec (fst (pv P)) (fst (pv Q))) as [E1|E1]; [|right; intros ->; apply E1; reflexivity].
  destruct (Z.eq_dec (snd (pv P)) (snd (pv Q))) as [E2|E2]; [|right; intros ->; apply E2; reflexivity].
  left. apply pt_eq. rewrite (surjective_pairing (pv P)), (surjective_pairing (pv Q)), E1, E2. reflexivity.
Qed.

Section Std.
Context (cv : Curve) (OK : CurveOk cv).
Local Notation p := (cvP cv).
Local Notation H1 := (p_gt1 cv OK).
Local Notation F := (phi cv OK).
Local Notation FT := (fieldP cv OK).

Lemma pv_add : forall P Q : Pt cv, pv (stdAdd cv P Q) = ecAddZ cv (pv P) (pv Q).
Proof. intros P Q. apply pv_toPt. apply (phi_add cv OK); apply pok. Qed.
Lemma neg_ok : forall P, isPointb cv P = true -> isPointb cv (ecNegZ cv P) = true /\ F (ecNegZ cv P) = lNeg cv OK (F P).
Proof.
  intros [x y] H. destruct (ecIsIdentity (x, y)) eqn:E.
  - unfold ecIsIdentity in E. cbn in E. apply andb_prop in E. destruct E as [E1 E2]. apply Z.eqb_eq in E1, E2. subst. split; reflexivity.
  - unfold isPointb in H. rewrite E in H. cbn [orb fst snd] in H. destruct (onCurve_bounds cv x y H) as [Bx By].
    pose proof (p_gt1 cv OK) as Hp1. pose proof (Z.mod_pos_bound (- y) p ltac:(lia)) as Bn.
    assert (HC : onCurve cv x ((- y) mod p) = true).
    { apply (onCurve_k cv OK); [assumption|assumption|]. apply (onCurve_k cv OK) in H; [|assumption|assumption]. rewrite kz_mod, kz_opp. unfold onC in *.
      rewrite <- H. rewrite <- kz_opp, <- !kz_mul. f_equal. ring. }
    unfold ecNegZ. cbn [fst snd]. split; [unfold isPointb; cbn [fst snd]; rewrite HC; apply orb_true_r|].
    unfold phi. rewrite E, (onCurve_nid cv OK _ _ HC). cbn [fst snd lNeg ptNeg]. rewrite kz_mod, kz_opp. reflexivity.
Qed.
Lemma pv_neg : forall P : Pt cv, pv (stdNeg cv P) = ecNegZ cv (pv P).
Proof. intros P. apply pv_toPt. apply neg_ok. apply pok. Qed.
Definition fpt (P : Pt cv) := F (pv P).
Lemma fpt_inj : forall P Q, fpt P = fpt Q -> P = Q.
Proof. intros P Q H. apply pt_eq. apply (phi_inj cv OK); [apply pok|apply pok|exact H]. Qed.
Lemma fpt_add : forall P Q, fpt (stdAdd cv P Q) = lAdd cv OK (fpt P) (fpt Q).
Proof. intros P Q. unfold fpt. rewrite pv_add. apply (phi_add cv OK); apply pok. Qed.
Lemma fpt_neg : forall P, fpt (stdNeg cv P) = lNeg cv OK (fpt P).
Proof. intros P. unfold fpt. rewrite pv_neg. apply neg_ok; apply pok. Qed.
Lemma fpt_on : forall P, lOn cv OK (fpt P).
Proof. intros P. apply phi_on. apply pok. Qed.
Lemma std_comm : forall P Q, stdAdd cv P Q = stdAdd cv Q P.
Proof. intros P Q. apply fpt_inj. rewrite !fpt_add. apply (add_comm _ _ _ _ _ _ _ _ _ FT (fp_dec p) (kz H1 (cvA cv)) (kz H1 (cvB cv)) (two_nz cv OK)); apply fpt_on. Qed.
Lemma std_assoc : forall P Q R, stdAdd cv P (stdAdd cv Q R) = stdAdd cv (stdAdd cv P Q) R.
Proof. intros P Q R. apply fpt_inj. rewrite !fpt_add. apply (add_assoc _ _ _ _ _ _ _ _ _ FT (fp_dec p) (kz H1 (cvA cv)) (kz H1 (cvB cv)) (two_nz cv OK) (smooth_nz cv OK)); apply fpt_on. Qed.
Lemma std_id : forall P, stdAdd cv (ptId cv) P = P.
Proof. intros P. apply pt_eq. rewrite pv_add. reflexivity. Qed.
Lemma std_neg : forall P, stdAdd cv P (stdNeg cv P) = ptId cv.
Proof. intros P. apply fpt_inj. rewrite fpt_add, fpt_neg. apply (add_neg _ _ _ _ _ _ _ _ _ FT). Qed.

(** ** Points of order 2 *)
Lemma fpt_surj : forall P, lOn cv OK P -> exists Q : Pt cv, fpt Q = P.
Proof.
  intros P H. destruct (psi_ok cv OK P H) as [B E]. exists (toPt cv (psi cv P)). unfold fpt. rewrite pv_toPt by exact B. exact E.
Qed.
Lemma std_tors : forall s, eqm p (s * s) (- (4 * cvA cv ^ 3 + 27 * cvB cv ^ 2)) -> forall P, P <> ptId cv -> stdAdd cv P P = ptId cv ->
  exists Q, Q <> ptId cv /\ Q <> P /\ stdAdd cv Q Q = ptId cv.
Proof.
  intros s Hs P HP H2. apply (f_equal fpt) in H2. rewrite fpt_add in H2. pose proof (fpt_on P) as HO.
  destruct (fpt P) as [[e y]|] eqn:EP; [|exfalso; apply HP; apply fpt_inj; exact EP].
  assert (Hy : y = kopp H1 y).
  { change (lAdd cv OK (Some (e, y)) (Some (e, y)) = None) in H2. unfold lAdd in H2. apply (add_none _ _ _ _ _ _ _ _ _ FT (fp_dec p) (kz H1 (cvA cv)) (kz H1 (cvB cv)) (two_nz cv OK)) in H2; [|exact HO|exact HO]. injection H2 as H2. exact H2. }
  assert (Hy0 : y = kz H1 0).
  { apply (double_zero _ _ _ _ _ _ _ _ _ FT (fp_dec p) (two_nz cv OK)). rewrite Hy at 1. revert y HO EP H2 Hy. intros y _ _ _ _. revert y. apply (k_ind p H1). intros z.
    rewrite <- kz_opp, <- kz_add. f_equal. ring. }
  subst y. cbn in HO. unfold onC in HO.
  destruct (two_torsion _ _ _ _ _ _ _ _ _ FT (fp_dec p) (kz H1 (cvA cv)) (kz H1 (cvB cv)) (two_nz cv OK) (smooth_nz cv OK) e (kz H1 s)) as (e' & Hne & He').
  - rewrite <- HO. rewrite <- kz_mul. reflexivity.
  - fold (lDisc cv OK). rewrite lDisc_k, <- kz_mul, <- kz_opp. apply kz_eq. exact Hs.
  - destruct (fpt_surj (Some (e', kz H1 0))) as [Q HQ].
    { cbn. unfold onC. rewrite He'. rewrite <- kz_mul. reflexivity. }
    exists Q. split; [|split].
    + intros ->. discriminate HQ.
    + intros ->. rewrite EP in HQ. injection HQ as E. apply Hne. symmetry. exact E.
    + apply fpt_inj. rewrite fpt_add, HQ. unfold lAdd. cbn [ptAdd]. destruct (fp_dec p e' e') as [_|C]; [|contradiction].
      destruct (fp_dec p _ (kz H1 0)) as [_|C]; [reflexivity|]. destruct C. rewrite <- kz_add. reflexivity.
Qed.

(** ** At most 2p + 1 points *)
Definition ptCode (P : Pt cv) : Z := if ecIsIdentity (pv P) then 2 * p else 2 * fst (pv P) + snd (pv P) mod 2.
Lemma ptCode_range : forall P, 0 <= ptCode P < 2 * p + 1.
Proof.
  intros [[x y] H]. unfold ptCode. cbn [pv fst snd]. pose proof (p_gt1 cv OK). destruct (ecIsIdentity (x, y)) eqn:E; [lia|].
  unfold isPointb in H. rewrite E in H. cbn [orb fst snd] in H. destruct (onCurve_bounds cv x y H). pose proof (Z.mod_pos_bound y 2 ltac:(lia)). lia.
Qed.
Lemma p_odd : p mod 2 = 1.
Proof.
  pose proof (Z.mod_pos_bound p 2 ltac:(lia)). destruct (Z.eq_dec (p mod 2) 0) as [E|E]; [exfalso|lia].
  apply Z.mod_divide in E; [|lia]. apply (prime_divisors _ (ec_prime cv OK)) in E. pose proof (ec_odd cv OK). lia.
Qed.
Lemma ptCode_inj : forall P Q, ptCode P = ptCode Q -> P = Q.
Proof.
  intros [[x y] H] [[x' y'] H']. unfold ptCode. cbn [pv fst snd]. intros E. apply pt_eq. cbn [pv].
  pose proof (p_gt1 cv OK) as Hp1. pose proof (Z.mod_pos_bound y 2 ltac:(lia)) as By2. pose proof (Z.mod_pos_bound y' 2 ltac:(lia)) as By2'.
  unfold isPointb in H, H'. destruct (ecIsIdentity (x, y)) eqn:I, (ecIsIdentity (x', y')) eqn:I'; cbn [orb fst snd] in H, H'.
  - unfold ecIsIdentity in *. cbn in *. apply andb_prop in I, I'. destruct I as [I1 I2], I' as [I3 I4]. apply Z.eqb_eq in I1, I2, I3, I4. congruence.
  - destruct (onCurve_bounds cv x' y' H'). lia.
  - destruct (onCurve_bounds cv x y H). lia.
  - destruct (onCurve_bounds cv x y H) as [Bx By], (onCurve_bounds cv x' y' H') as [Bx' By']. assert (x' = x) by lia. subst x'. f_equal.
    assert (Em : y mod 2 = y' mod 2) by lia.
    unfold onCurve in H, H'. rewrite !andb_true_iff, Z.eqb_eq in H, H'. destruct H as [_ H], H' as [_ H']. apply eqm_mod0 in H, H'.
    assert (D : eqm p ((y - y') * (y + y')) 0).
    { set (f := x * x * x + cvA cv * x + cvB cv) in *. transitivity ((y * y - f) - (y' * y' - f)); [apply eqm_of_eq; ring|]. rewrite H, H'. reflexivity. }
    apply (eqm_prime_mul0 _ _ _ (ec_prime cv OK)) in D. destruct D as [D|D].
    + apply (eqm_small p); [assumption|assumption|]. apply eqm_sub0; [lia|exact D].
    + apply eqm_mod0, Z.mod_divide in D; [|lia]. destruct D as [k Hk]. assert (k = 0 \/ k = 1) as [->| ->] by nia; [lia|].
      exfalso. pose proof p_odd as Po. replace p with (y + y') in Po by lia. rewrite Z.add_mod, Em, <- Z.add_mod in Po by lia.
      replace (y' + y') with (y' * 2) in Po by ring. rewrite Z.mod_mul in Po; lia.
Qed.
End Std.

(** ** The curve's group *)
(** what a curve's parameters must satisfy; the square root of the discriminant shows that the group order is odd *)
Record CurveCert (cv : Curve) (n : Z) (g : Z * Z) : Prop := {
  cc_ok : CurveOk cv;
  cc_n : prime n;
  cc_odd : 2 < n;
  cc_big : 2 * cvP cv + 1 < 3 * n;
  cc_disc : exists s, eqm (cvP cv) (s * s) (- (4 * cvA cv ^ 3 + 27 * cvB cv ^ 2));
  cc_g : onCurve cv (fst g) (snd g) = true;
  cc_order : stdMul cv (toPt cv g) n = ptId cv
}.
Theorem curve_cyclic : forall cv n g, CurveCert cv n g ->
  toPt cv g <> ptId cv /\ (forall P, exists k, 0 <= k < n /\ P = stdMul cv (toPt cv g) k) /\ (forall P, stdMul cv P n = ptId cv).
Proof.
  intros cv n g C. pose proof (cc_ok _ _ _ C) as OK. pose proof (cc_odd _ _ _ C) as Hodd. destruct (cc_disc _ _ _ C) as [s Hs].
  assert (Hg : toPt cv g <> ptId cv).
  { intros E. apply (f_equal pv) in E. pose proof (cc_g _ _ _ C) as B. rewrite pv_toPt in E.
    - subst g. pose proof (onCurve_nid cv OK _ _ B) as N. discriminate N.
    - unfold isPointb. rewrite B. apply orb_true_r. }
  assert (Hn : prime (Z.of_nat (Z.to_nat n))) by (rewrite Z2Nat.id by lia; exact (cc_n _ _ _ C)).
  assert (Hb : 2 * cvP cv + 1 < 3 * Z.of_nat (Z.to_nat n)) by (rewrite Z2Nat.id by lia; exact (cc_big _ _ _ C)).
  assert (Ho : 2 < Z.of_nat (Z.to_nat n)) by (rewrite Z2Nat.id by lia; exact Hodd).
  pose proof (all_multiples (Pt cv) (ptId cv) (stdAdd cv) (stdNeg cv) (std_comm cv OK) (std_assoc cv OK) (std_id cv OK) (std_neg cv OK) (Z.to_nat n) Hn
    (toPt cv g) Hg (cc_order _ _ _ C) (pt_dec cv) (ptCode cv) (2 * cvP cv + 1) (ptCode_range cv OK) (ptCode_inj cv OK) Hb Ho (std_tors cv OK s Hs)) as A.
  pose proof (all_exponent (Pt cv) (ptId cv) (stdAdd cv) (stdNeg cv) (std_comm cv OK) (std_assoc cv OK) (std_id cv OK) (std_neg cv OK) (Z.to_nat n) Hn
    (toPt cv g) Hg (cc_order _ _ _ C) (pt_dec cv) (ptCode cv) (2 * cvP cv + 1) (ptCode_range cv OK) (ptCode_inj cv OK) Hb Ho (std_tors cv OK s Hs)) as X.
  split; [exact Hg|]. split; [|exact X].
  intros P. destruct (A P) as (k & Hk & ->). exists (Z.of_nat k). split; [lia|]. unfold stdMul. rewrite Nat2Z.id. reflexivity.
Qed.
