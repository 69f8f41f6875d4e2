(** Point addition on a short Weierstrass curve over F_p in coordinates, the operation circl's group.P256 and group.P384 and ING's
    p256 package provide: the textbook affine formulas, and the proof that the points form an abelian group. *)
From Verif Require Import GoBase Json GroupIface ECJson Curve NumTh Toy PropEC PropCurve ECLaw.
From Coq Require Import Znumtheory Ring Field Eqdep_dec.

(** ** The textbook formulas (SEC 1, section 2.2.1) *)
Definition fInv (p z : Z) : Z := match modInverse z p with Some v => v | None => 0 end.
Definition ecNegZ (cv : Curve) (P : Z * Z) : Z * Z := (fst P, (- snd P) mod cvP cv).
Definition ecSlope (cv : Curve) (x1 y1 x2 y2 : Z) : Z :=
  if x1 =? x2 then (3 * x1 * x1 + cvA cv) * fInv (cvP cv) (2 * y1) else (y2 - y1) * fInv (cvP cv) (x2 - x1).
Definition ecAddZ (cv : Curve) (P Q : Z * Z) : Z * Z :=
  if ecIsIdentity P then Q else if ecIsIdentity Q then P else
  let '(x1, y1) := P in let '(x2, y2) := Q in
  if (x1 =? x2) && ((y1 + y2) mod cvP cv =? 0) then (0, 0)
  else
    let m := ecSlope cv x1 y1 x2 y2 in
    let x3 := (m * m - x1 - x2) mod cvP cv in (x3, (m * (x1 - x3) - y1) mod cvP cv).

(** ** The integers modulo a prime as a field *)
Section Fp.
Context (p : Z) (Hp : prime p) (H1 : 1 < p).
Definition fp : Type := zq p.
Definition kz (z : Z) : fp := @zqm p H1 z.
Definition kadd (a b : fp) : fp := kz (zv p a + zv p b).
Definition kmul (a b : fp) : fp := kz (zv p a * zv p b).
Definition ksub (a b : fp) : fp := kz (zv p a - zv p b).
Definition kopp (a : fp) : fp := kz (- zv p a).
Definition kinv (a : fp) : fp := kz (fInv p (zv p a)).
Definition kdiv (a b : fp) : fp := kmul a (kinv b).
Lemma kz_eq : forall x y, kz x = kz y <-> eqm p x y.
Proof.
  intros x y. split; [intros H; apply (f_equal (zv p)) in H; apply eqm_intro; exact H|intros [H]; apply zq_eq; exact H].
Qed.
Lemma kz_zv : forall a : fp, kz (zv p a) = a.
Proof. intros a. apply zq_eq. cbn. apply Z.mod_small. apply zq_bnd. Qed.
Lemma zv_kz : forall z, eqm p (zv p (kz z)) z.
Proof. intros z. cbn. apply Zmod_eqm. Qed.
Lemma kz_add : forall x y, kz (x + y) = kadd (kz x) (kz y).
Proof. intros. apply kz_eq. rewrite !zv_kz. reflexivity. Qed.
Lemma kz_mul : forall x y, kz (x * y) = kmul (kz x) (kz y).
Proof. intros. apply kz_eq. rewrite !zv_kz. reflexivity. Qed.
Lemma kz_sub : forall x y, kz (x - y) = ksub (kz x) (kz y).
Proof. intros. apply kz_eq. rewrite !zv_kz. reflexivity. Qed.
Lemma kz_opp : forall x, kz (- x) = kopp (kz x).
Proof. intros. apply kz_eq. rewrite !zv_kz. reflexivity. Qed.
Lemma kz_mod : forall x, kz (x mod p) = kz x.
Proof. intros. apply kz_eq. apply Zmod_eqm. Qed.
Lemma k_ind : forall P : fp -> Prop, (forall z, P (kz z)) -> forall a, P a.
Proof. intros P H a. rewrite <- (kz_zv a). apply H. Qed.
Lemma kz_1_0 : kz 1 <> kz 0.
Proof. intros E. apply kz_eq in E. apply eqm_mod0 in E. rewrite Z.mod_small in E; lia. Qed.
Lemma fInv_mul : forall z, ~ eqm p z 0 -> eqm p (fInv p z * z) 1.
Proof.
  intros z Hz. unfold fInv. destruct (modInverse_ex z p H1) as (i & -> & _ & Hi); [apply prime_gcd1; [exact Hp|intros E; apply Hz, eqm_mod0; exact E]|].
  rewrite Z.mul_comm. apply eqm_inv1; assumption.
Qed.
Lemma fInv_eqm : forall z z', eqm p z z' -> fInv p z = fInv p z'.
Proof.
  intros z z' E. unfold fInv.
  assert (G : Z.gcd z p = Z.gcd z' p) by (rewrite <- (gcd_mod_l z p), <- (gcd_mod_l z' p) by lia; f_equal; destruct E; assumption).
  destruct (modInverse z p) as [i|] eqn:Ei, (modInverse z' p) as [j|] eqn:Ej; try reflexivity.
  - destruct (modInverse_Some _ _ _ H1 Ei) as [B1 I1]. destruct (modInverse_Some _ _ _ H1 Ej) as [B2 I2].
    apply (eqm_small p); [assumption..|]. pose proof (eqm_inv1 _ _ _ H1 I1) as E1. pose proof (eqm_inv1 _ _ _ H1 I2) as E2.
    transitivity (i * (z' * j)); [rewrite E2; apply eqm_of_eq; ring|]. rewrite <- E.
    transitivity ((z * i) * j); [apply eqm_of_eq; ring|]. rewrite E1. apply eqm_of_eq. ring.
  - apply modInverse_None in Ej. destruct (Z.eq_dec (Z.gcd z p) 1) as [E1|E1]; [congruence|]. apply modInverse_None in E1. congruence.
  - apply modInverse_None in Ei. destruct (Z.eq_dec (Z.gcd z' p) 1) as [E1|E1]; [congruence|]. apply modInverse_None in E1. congruence.
Qed.
Lemma kz_inv : forall z, kz (fInv p z) = kinv (kz z).
Proof. intros z. unfold kinv. f_equal. apply fInv_eqm. symmetry. apply zv_kz. Qed.
Lemma fp_field : field_theory (kz 0) (kz 1) kadd kmul ksub kopp kdiv kinv eq.
Proof.
  constructor; [constructor| | |].
  - intros x; pattern x; apply k_ind; intros. rewrite <- kz_add. f_equal.
  - intros x y; pattern x; apply k_ind; pattern y; apply k_ind; intros. rewrite <- !kz_add. f_equal. ring.
  - intros x y z; pattern x; apply k_ind; pattern y; apply k_ind; pattern z; apply k_ind; intros. rewrite <- !kz_add. f_equal. ring.
  - intros x; pattern x; apply k_ind; intros. rewrite <- kz_mul. f_equal. ring.
  - intros x y; pattern x; apply k_ind; pattern y; apply k_ind; intros. rewrite <- !kz_mul. f_equal. ring.
  - intros x y z; pattern x; apply k_ind; pattern y; apply k_ind; pattern z; apply k_ind; intros. rewrite <- !kz_mul. f_equal. ring.
  - intros x y z; pattern x; apply k_ind; pattern y; apply k_ind; pattern z; apply k_ind; intros. rewrite <- !kz_add, <- !kz_mul, <- !kz_add. f_equal. ring.
  - intros x y; pattern x; apply k_ind; pattern y; apply k_ind; intros. rewrite <- kz_sub, <- kz_opp, <- kz_add. f_equal.
  - intros x; pattern x; apply k_ind; intros. rewrite <- kz_opp, <- kz_add. f_equal. ring.
  - exact kz_1_0.
  - reflexivity.
  - intros x; pattern x; apply k_ind; intros z Hz. rewrite <- kz_inv, <- kz_mul. apply kz_eq. apply fInv_mul. intros E. apply Hz, kz_eq. exact E.
Qed.
Lemma fp_dec : forall x y : fp, {x = y} + {x <> y}.
Proof.
  intros x y. destruct (Z.eq_dec (zv p x) (zv p y)) as [E|E]; [left; apply zq_eq; exact E|right; intros ->; apply E; reflexivity].
Defined.
End Fp.
Arguments kz {p}. Arguments kadd {p}. Arguments kmul {p}. Arguments ksub {p}. Arguments kopp {p}. Arguments kinv {p}. Arguments kdiv {p}.

(** ** The points of a nonsingular curve over F_p *)
(** p > 2, 4 a^3 + 27 b^2 and b not 0 in F_p: with b = 0 the pair (0,0) would be a point *)
Record CurveOk (cv : Curve) : Prop := {
  ec_prime : prime (cvP cv);
  ec_odd : 2 < cvP cv;
  ec_smooth : (4 * cvA cv ^ 3 + 27 * cvB cv ^ 2) mod cvP cv <> 0;
  ec_b : cvB cv mod cvP cv <> 0
}.

Section Points.
Context (cv : Curve) (OK : CurveOk cv).
Local Notation p := (cvP cv).
Let Hp : prime p := ec_prime cv OK.
Lemma p_gt1 : 1 < cvP cv.
Proof. pose proof (ec_odd cv OK). lia. Qed.
Let H1 := p_gt1.
Local Notation k := (kz H1).
Local Notation ka := (k (cvA cv)).
Local Notation kb := (k (cvB cv)).
Local Notation fadd := (kadd H1). Local Notation fmul := (kmul H1). Local Notation fsub := (ksub H1). Local Notation fopp := (kopp H1).
Local Notation fdiv := (kdiv H1). Local Notation finv := (kinv H1).
Definition fieldP := fp_field p Hp H1.
Local Notation FT := fieldP.
Definition lPoint : Type := option (fp p * fp p).
Definition lAdd : lPoint -> lPoint -> lPoint := ptAdd (fp p) (k 0) (k 1) fadd fmul fsub fdiv (fp_dec p) ka.
Definition lNeg : lPoint -> lPoint := ptNeg (fp p) fopp.
Definition lOn : lPoint -> Prop := onE (fp p) fadd fmul ka kb.
Lemma k2 : fadd (k 1) (k 1) = k 2. Proof. rewrite <- kz_add. reflexivity. Qed.
Lemma k3 : fadd (fadd (k 1) (k 1)) (k 1) = k 3. Proof. rewrite <- !kz_add. reflexivity. Qed.
Lemma two_nz : fadd (k 1) (k 1) <> k 0.
Proof. rewrite k2. intros E. apply kz_eq in E. apply eqm_mod0 in E. pose proof (ec_odd cv OK). rewrite Z.mod_small in E; lia. Qed.
Definition lDisc : fp p := fadd (fmul (fmul (fadd (k 1) (k 1)) (fadd (k 1) (k 1))) (fmul (fmul ka ka) ka))
  (fmul (fmul (fmul (fadd (fadd (k 1) (k 1)) (k 1)) (fadd (fadd (k 1) (k 1)) (k 1))) (fadd (fadd (k 1) (k 1)) (k 1))) (fmul kb kb)).
Lemma lDisc_k : lDisc = k (4 * cvA cv ^ 3 + 27 * cvB cv ^ 2).
Proof. unfold lDisc. rewrite k3, k2. rewrite <- !kz_mul, <- !kz_add. f_equal. ring. Qed.
Lemma smooth_nz : lDisc <> k 0.
Proof. rewrite lDisc_k. intros E. apply kz_eq, eqm_mod0 in E. exact (ec_smooth cv OK E). Qed.

Definition phi (P : Z * Z) : lPoint := if ecIsIdentity P then None else Some (k (fst P), k (snd P)).
Lemma onCurve_k : forall x y, 0 <= x < p -> 0 <= y < p ->
  (onCurve cv x y = true <-> onC (fp p) fadd fmul ka kb (k x) (k y)).
Proof.
  intros x y Hx Hy. unfold onC. rewrite <- !kz_mul, <- !kz_add, kz_eq. unfold onCurve. rewrite !andb_true_iff, !Z.leb_le, !Z.ltb_lt, Z.eqb_eq.
 rewrite <- eqm_mod0. rewrite <- eqm_sub0 by lia. split; [intros (_ & H); exact H|intros H; refine (conj (conj (conj (conj _ _) _) _) H); lia].
Qed.
Lemma onCurve_nid : forall x y, onCurve cv x y = true -> ecIsIdentity (x, y) = false.
Proof.
  intros x y H. destruct (ecIsIdentity (x, y)) eqn:E; [exfalso|reflexivity]. unfold ecIsIdentity in E. cbn in E. apply andb_prop in E. destruct E as [E1 E2].
  apply Z.eqb_eq in E1, E2. subst. unfold onCurve in H. rewrite !andb_true_iff, Z.eqb_eq in H. destruct H as [_ H]. apply (ec_b cv OK).
  apply (proj1 (eqm_mod0 _ _)). apply eqm_mod0 in H. transitivity (- (0 * 0 - (0 * 0 * 0 + cvA cv * 0 + cvB cv))); [apply eqm_of_eq; ring|]. rewrite H. reflexivity.
Qed.
Lemma phi_on : forall P, isPointb cv P = true -> lOn (phi P).
Proof.
  intros [x y] H. unfold phi. destruct (ecIsIdentity (x, y)) eqn:E; [exact I|]. unfold isPointb in H. rewrite E in H. cbn [orb fst snd] in *.
  destruct (onCurve_bounds cv x y H). cbn. apply onCurve_k; assumption.
Qed.
(** [phi] is a bijection between the pairs (0,0) or on the curve and the points over the field *)
Lemma phi_inj : forall P Q, isPointb cv P = true -> isPointb cv Q = true -> phi P = phi Q -> P = Q.
Proof.
  intros [x y] [x' y'] HP HQ. unfold phi, isPointb in *. cbn [fst snd] in *.
  destruct (ecIsIdentity (x, y)) eqn:E, (ecIsIdentity (x', y')) eqn:E'; try discriminate.
  - intros _. unfold ecIsIdentity in *. cbn in *. apply andb_prop in E, E'. destruct E as [E1 E2], E' as [E3 E4]. apply Z.eqb_eq in E1, E2, E3, E4. congruence.
  - cbn [orb] in *. destruct (onCurve_bounds cv x y HP), (onCurve_bounds cv x' y' HQ). intros HE. injection HE as Hx Hy.
    f_equal; apply (eqm_small p); try assumption; apply (kz_eq p H1); apply zq_eq; assumption.
Qed.
Definition psi (P : lPoint) : Z * Z := match P with None => (0, 0) | Some (x, y) => (zv p x, zv p y) end.
Lemma psi_ok : forall P, lOn P -> isPointb cv (psi P) = true /\ phi (psi P) = P.
Proof.
  intros [[x y]|] H; [|split; reflexivity]. cbn in H. cbn [psi]. pose proof (zq_bnd p x) as Bx. pose proof (zq_bnd p y) as By.
  assert (HC : onCurve cv (zv p x) (zv p y) = true).
  { apply onCurve_k; try assumption. rewrite !kz_zv. exact H. }
  split; [unfold isPointb; cbn [fst snd]; rewrite HC; apply orb_true_r|]. unfold phi. rewrite (onCurve_nid _ _ HC). cbn [fst snd]. rewrite !kz_zv. reflexivity.
Qed.
Lemma k_eqb : forall x y, 0 <= x < p -> 0 <= y < p -> (x =? y) = if fp_dec p (k x) (k y) then true else false.
Proof.
  intros x y Hx Hy. destruct (fp_dec p (k x) (k y)) as [E|E].
  - apply Z.eqb_eq. apply (eqm_small p); try assumption. apply (kz_eq p H1). exact E.
  - apply Z.eqb_neq. intros ->. apply E. reflexivity.
Qed.
Lemma k_eqb0 : forall x, (x mod p =? 0) = if fp_dec p (k x) (k 0) then true else false.
Proof.
  intros x. destruct (fp_dec p (k x) (k 0)) as [E|E].
  - apply kz_eq, eqm_mod0 in E. apply Z.eqb_eq. exact E.
  - apply Z.eqb_neq. intros H. apply E, kz_eq, eqm_mod0. exact H.
Qed.
Lemma slope_k : forall x1 y1 x2 y2, 0 <= x1 < p -> 0 <= x2 < p ->
  k (ecSlope cv x1 y1 x2 y2) = if fp_dec p (k x1) (k x2) then fdiv (fadd (fmul (fadd (fadd (k 1) (k 1)) (k 1)) (fmul (k x1) (k x1))) ka) (fmul (fadd (k 1) (k 1)) (k y1))
    else fdiv (fsub (k y2) (k y1)) (fsub (k x2) (k x1)).
Proof.
  intros x1 y1 x2 y2 Hx1 Hx2. unfold ecSlope. rewrite (k_eqb x1 x2) by assumption. destruct (fp_dec p (k x1) (k x2)) as [E|E].
  - unfold kdiv. rewrite k3, k2. rewrite kz_mul, kz_inv, kz_add, !kz_mul. do 2 f_equal. rewrite <- !kz_mul. f_equal. ring.
  - unfold kdiv. rewrite kz_mul, kz_inv, !kz_sub. reflexivity.
Qed.
Lemma third_psi : forall m x1 y1 x2, (let x3 := (m * m - x1 - x2) mod p in (x3, (m * (x1 - x3) - y1) mod p)) =
  psi (third (fp p) fmul fsub (k m) (k x1) (k y1) (k x2)).
Proof.
  intros m x1 y1 x2. unfold third. cbv zeta. rewrite <- !kz_mul, <- !kz_sub, <- kz_mul, <- kz_sub. cbn [psi kz zqm zv]. f_equal.
  apply (proj1 (eqm_mod p _ _)). rewrite (Zmod_eqm p (m * m - x1 - x2)). reflexivity.
Qed.
(** the formulas are the chord-and-tangent law *)
Lemma phi_add : forall P Q, isPointb cv P = true -> isPointb cv Q = true ->
  isPointb cv (ecAddZ cv P Q) = true /\ phi (ecAddZ cv P Q) = lAdd (phi P) (phi Q).
Proof.
  intros P Q HP HQ.
  assert (E : ecAddZ cv P Q = psi (lAdd (phi P) (phi Q))).
  { unfold ecAddZ. destruct (ecIsIdentity P) eqn:EP.
    { unfold phi at 1. rewrite EP. cbn [lAdd ptAdd]. change (Q = psi (phi Q)). destruct (psi_ok (phi Q) (phi_on Q HQ)) as [B C].
      apply phi_inj; [assumption|assumption|]. symmetry. exact C. }
    destruct (ecIsIdentity Q) eqn:EQ.
    { unfold phi at 2. rewrite EQ. change (P = psi (lAdd (phi P) None)). replace (lAdd (phi P) None) with (phi P) by (destruct (phi P) as [[? ?]|]; reflexivity).
      destruct (psi_ok (phi P) (phi_on P HP)) as [B C]. apply phi_inj; [assumption|assumption|]. symmetry. exact C. }
    destruct P as [x1 y1], Q as [x2 y2]. unfold isPointb in HP, HQ. rewrite EP in HP. rewrite EQ in HQ. cbn [orb fst snd] in HP, HQ.
    destruct (onCurve_bounds cv x1 y1 HP) as [Bx1 By1], (onCurve_bounds cv x2 y2 HQ) as [Bx2 By2].
    unfold phi. rewrite EP, EQ. cbn [fst snd]. unfold lAdd, ptAdd. rewrite <- kz_add. rewrite (k_eqb x1 x2) by assumption.
    rewrite k_eqb0. pose proof (slope_k x1 y1 x2 y2 Bx1 Bx2) as S.
    destruct (fp_dec p (k x1) (k x2)) as [Ex|Ex]; cbn [andb].
    - destruct (fp_dec p (k (y1 + y2)) (k 0)) as [Ey|Ey]; [reflexivity|]. rewrite <- S. apply third_psi.
    - rewrite <- S. apply third_psi. }
  rewrite E. apply psi_ok. apply (add_on _ _ _ _ _ _ _ _ _ FT); [exact two_nz|apply phi_on; assumption|apply phi_on; assumption].
Qed.
End Points.
