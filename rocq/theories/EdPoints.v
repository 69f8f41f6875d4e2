(** The points of the twisted Edwards curve -x^2 + y^2 = 1 + d x^2 y^2 over F_p as pairs of numbers, with the formulas of RFC 8032,
    5.1.4 and RFC 9496; the group they form, and how many there are. Nothing here models code of /repo. *)
From Verif Require Import GoBase Json GroupIface ECJson Curve NumTh Toy PropEC PropCurve ECLaw ECPoints ECOrder EdLaw.
From Coq Require Import Znumtheory.

Section Formulas.
Context (p d : Z).
(** coordinates in [0, p), and the equation *)
Definition edPointb (P : Z * Z) : bool :=
  let (x, y) := P in
  (0 <=? x) && (x <? p) && (0 <=? y) && (y <? p) && ((y * y - x * x - (1 + d * x * x * y * y)) mod p =? 0).
Definition edAddZ (P Q : Z * Z) : Z * Z :=
  let (x1, y1) := P in let (x2, y2) := Q in
  (((x1 * y2 + y1 * x2) * fInv p (1 + d * x1 * x2 * y1 * y2)) mod p,
   ((y1 * y2 + x1 * x2) * fInv p (1 - d * x1 * x2 * y1 * y2)) mod p).
Definition edNegZ (P : Z * Z) : Z * Z := let (x, y) := P in ((- x) mod p, y).
Definition edMulZ (P : Z * Z) (s : Z) : Z * Z := Nat.iter (Z.to_nat s) (edAddZ P) (0, 1).
(** RFC 9496, 4.3.3: two points stand for the same element *)
Definition ristEqZ (P Q : Z * Z) : bool :=
  let (x1, y1) := P in let (x2, y2) := Q in
  ((x1 * y2 - y1 * x2) mod p =? 0) || ((y1 * y2 - x1 * x2) mod p =? 0).
End Formulas.

Record EdOk (p d : Z) : Prop := {
  eo_prime : prime p;
  eo_odd : 2 < p;
  eo_i : exists i, eqm p (i * i) (-1);
  eo_d : forall r, ~ eqm p (r * r) d
}.

Section Points.
Context (p d : Z) (OK : EdOk p d).
Lemma ed_p1 : 1 < p. Proof. pose proof (eo_odd p d OK). lia. Qed.
Local Notation H1 := ed_p1.
Local Notation k := (kz H1).
Let FT := fp_field p (eo_prime p d OK) H1.
Let dec := fp_dec p.
Lemma ed_two : kadd H1 (k 1) (k 1) <> k 0.
Proof. rewrite <- kz_add. intros E. apply kz_eq, eqm_mod0 in E. pose proof (eo_odd p d OK). rewrite Z.mod_small in E; lia. Qed.
Lemma ed_nonsq : forall r, kmul H1 r r <> k d.
Proof. intros r. pattern r. apply (k_ind p H1). intros z E. rewrite <- kz_mul in E. apply kz_eq in E. apply (eo_d p d OK z). exact E. Qed.
Lemma ed_root : exists i, kmul H1 i i = kopp H1 (k 1).
Proof. destruct (eo_i p d OK) as [i Hi]. exists (k i). rewrite <- kz_mul, <- kz_opp. apply kz_eq. exact Hi. Qed.
Local Notation lAdd := (edAdd (k 1) (kadd H1) (kmul H1) (ksub H1) (kdiv H1) (k d)).
Local Notation lOn := (onEd (k 1) (kadd H1) (kmul H1) (ksub H1) (k d)).
Local Notation lNeg := (edNeg (kopp H1)).
Definition ephi (P : Z * Z) : fp p * fp p := (k (fst P), k (snd P)).
Definition inR (P : Z * Z) : Prop := 0 <= fst P < p /\ 0 <= snd P < p.
Lemma ephi_add : forall P Q, ephi (edAddZ p d P Q) = lAdd (ephi P) (ephi Q).
Proof.
  intros [x1 y1] [x2 y2]. unfold ephi, edAddZ. cbn [fst snd edAdd]. unfold kdiv. rewrite !kz_mod, !kz_mul, !kz_inv, !kz_add, !kz_sub, !kz_mul. reflexivity.
Qed.
Lemma ephi_neg : forall P, ephi (edNegZ p P) = lNeg (ephi P).
Proof. intros [x y]. unfold ephi, edNegZ. cbn [fst snd edNeg]. rewrite kz_mod, kz_opp. reflexivity. Qed.
Lemma ephi_on : forall P, edPointb p d P = true <-> inR P /\ lOn (ephi P).
Proof.
  intros [x y]. unfold edPointb, inR, ephi. cbn [fst snd onEd]. rewrite !andb_true_iff, !Z.leb_le, !Z.ltb_lt, Z.eqb_eq, <- !kz_mul, <- kz_sub, <- kz_add, kz_eq, <- eqm_mod0.
  split.
  - intros [[[[? ?] ?] ?] E]. split; [lia|]. transitivity ((y * y - x * x - (1 + d * x * x * y * y)) + (1 + d * x * x * y * y)); [apply eqm_of_eq; ring|rewrite E; reflexivity].
  - intros [[? ?] E]. repeat (split; [|lia || idtac]); try lia. rewrite E. apply eqm_of_eq. ring.
Qed.
Lemma ephi_inj : forall P Q, inR P -> inR Q -> ephi P = ephi Q -> P = Q.
Proof.
  intros [x y] [x' y'] [Bx By] [Bx' By'] E. unfold ephi in E. cbn [fst snd] in *. injection E as E1 E2.
  f_equal; [rewrite <- (Z.mod_small x p), <- (Z.mod_small x' p) by assumption; exact E1|rewrite <- (Z.mod_small y p), <- (Z.mod_small y' p) by assumption; exact E2].
Qed.

(** ** The group of points *)
Record EPt : Type := mkEPt { ev : Z * Z; eok : edPointb p d ev = true }.
Lemma ept_eq : forall P Q : EPt, ev P = ev Q -> P = Q.
Proof. intros [P HP] [Q HQ] E. cbn in E. subst Q. f_equal. apply Eqdep_dec.UIP_dec. apply Bool.bool_dec. Qed.
Lemma e_r : forall P : EPt, inR (ev P). Proof. intros P. apply (proj1 (ephi_on _) (eok P)). Qed.
Lemma e_on : forall P : EPt, lOn (ephi (ev P)). Proof. intros P. apply (proj1 (ephi_on _) (eok P)). Qed.
Lemma e_inj : forall P Q : EPt, ephi (ev P) = ephi (ev Q) -> P = Q.
Proof. intros P Q E. apply ept_eq, ephi_inj; [apply e_r|apply e_r|exact E]. Qed.
Lemma mod_r : forall a b, inR (a mod p, b mod p).
Proof. intros a b. pose proof ed_p1. split; apply Z.mod_pos_bound; lia. Qed.
Lemma add_r : forall P Q, inR (edAddZ p d P Q). Proof. intros [x1 y1] [x2 y2]. apply mod_r. Qed.
Lemma add_b : forall P Q, edPointb p d P = true -> edPointb p d Q = true -> edPointb p d (edAddZ p d P Q) = true.
Proof.
  intros P Q HP HQ. apply ephi_on in HP, HQ. apply ephi_on. split; [apply add_r|]. rewrite ephi_add. destruct ed_root as [i Hi].
  apply (ed_closed _ _ _ _ _ _ _ _ _ FT dec ed_two (k d) i Hi ed_nonsq); [apply HP|apply HQ].
Qed.
Lemma neg_b : forall P, edPointb p d P = true -> edPointb p d (edNegZ p P) = true.
Proof.
  intros P HP. apply ephi_on in HP. apply ephi_on. split; [|rewrite ephi_neg; apply (ed_neg_on _ _ _ _ _ _ _ _ _ FT); apply HP].
  destruct P as [x y]. destruct HP as [[Bx By] _]. cbn [fst snd] in *. split; [apply Z.mod_pos_bound; pose proof ed_p1; lia|exact By].
Qed.
Lemma id_b : edPointb p d (0, 1) = true.
Proof.
  apply ephi_on. pose proof ed_p1. split; [split; cbn; lia|]. apply (ed_id_on _ _ _ _ _ _ _ _ _ FT).
Qed.
Definition eAdd (P Q : EPt) : EPt := mkEPt _ (add_b _ _ (eok P) (eok Q)).
Definition eNeg (P : EPt) : EPt := mkEPt _ (neg_b _ (eok P)).
Definition eId : EPt := mkEPt _ id_b.
Lemma e_comm : forall P Q, eAdd P Q = eAdd Q P.
Proof. intros P Q. apply e_inj. cbn [eAdd ev]. rewrite !ephi_add. apply (ed_comm _ _ _ _ _ _ _ _ _ FT). Qed.
Lemma e_assoc : forall P Q R, eAdd P (eAdd Q R) = eAdd (eAdd P Q) R.
Proof.
  intros P Q R. apply e_inj. cbn [eAdd ev]. rewrite !ephi_add. destruct ed_root as [i Hi].
  apply (ed_assoc _ _ _ _ _ _ _ _ _ FT dec ed_two (k d) i Hi ed_nonsq); apply e_on.
Qed.
Lemma e_id : forall P, eAdd eId P = P.
Proof. intros P. apply e_inj. cbn [eAdd ev eId]. rewrite ephi_add. apply (ed_id _ _ _ _ _ _ _ _ _ FT). Qed.
Lemma e_neg : forall P, eAdd P (eNeg P) = eId.
Proof.
  intros P. apply e_inj. cbn [eAdd ev eId eNeg]. rewrite ephi_add, ephi_neg. destruct ed_root as [i Hi].
  apply (ed_neg _ _ _ _ _ _ _ _ _ FT dec ed_two (k d) i Hi ed_nonsq). apply e_on.
Qed.
Lemma e_dec : forall P Q : EPt, {P = Q} + {P <> Q}.
Proof.
  intros P Q. destruct (Z.eq_dec (fst (ev P)) (fst (ev Q))) as [E1|E1]; [|right; intros ->; apply E1; reflexivity].
  destruct (Z.eq_dec (snd (ev P)) (snd (ev Q))) as [E2|E2]; [|right; intros ->; apply E2; reflexivity].
  left. apply ept_eq. rewrite (surjective_pairing (ev P)), (surjective_pairing (ev Q)), E1, E2. reflexivity.
Qed.
Local Notation emul := (mul EPt eId eAdd).

(** ** Sums from their defining equations *)
Lemma add_eqm : forall x1 y1 x2 y2 x3 y3 e, edPointb p d (x1, y1) = true -> edPointb p d (x2, y2) = true -> inR (x3, y3) -> eqm p e (d * x1 * x2 * y1 * y2) ->
  eqm p (x3 * (1 + e)) (x1 * y2 + y1 * x2) -> eqm p (y3 * (1 - e)) (y1 * y2 + x1 * x2) -> edAddZ p d (x1, y1) (x2, y2) = (x3, y3).
Proof.
  intros x1 y1 x2 y2 x3 y3 e HP HQ HR Ee Ex Ey. apply ephi_inj; [apply add_r|exact HR|]. rewrite ephi_add. apply ephi_on in HP, HQ. destruct ed_root as [i Hi].
  unfold ephi in *. cbn [fst snd] in *. rewrite Ee in Ex, Ey.
  apply (edAdd_eq _ _ _ _ _ _ _ _ _ FT dec ed_two (k d) i Hi ed_nonsq); [apply HP|apply HQ| |]; rewrite <- !kz_mul, <- !kz_add, <- ?kz_sub, <- !kz_mul; apply kz_eq; assumption.
Qed.
Lemma dbl_eqm : forall x y x' y' u, edPointb p d (x, y) = true -> inR (x', y') -> eqm p u (y * y - x * x) ->
  eqm p (x' * u) (2 * x * y) -> eqm p (y' * (2 - u)) (y * y + x * x) -> edAddZ p d (x, y) (x, y) = (x', y').
Proof.
  intros x y x' y' u HP HR Eu Ex Ey. pose proof HP as HP'. apply ephi_on in HP'. destruct HP' as [_ HO]. unfold ephi in HO. cbn [fst snd onEd] in HO.
  rewrite <- !kz_mul, <- kz_sub, <- kz_add in HO. apply kz_eq in HO. rewrite HO in Eu.
  apply (add_eqm x y x y x' y' (d * x * x * y * y)); try assumption; [reflexivity| |].
  - rewrite <- Eu, Ex. apply eqm_of_eq. ring.
  - rewrite <- Ey. rewrite Eu. apply eqm_of_eq. ring.
Qed.

(** ** Points killed by 4, and the equality test of RFC 9496 *)
Lemma e_quarter : forall P, emul 4 P = eId <-> eqm p (fst (ev P) * snd (ev P)) 0.
Proof.
  intros P. destruct ed_root as [i Hi]. assert (E4 : emul 4 P = eAdd (eAdd P P) (eAdd P P)).
  { change 4%nat with (2 + 2)%nat. rewrite (mul_plus EPt eId eAdd e_assoc e_id). cbn [mul Nat.iter nat_rect]. rewrite (e_comm P eId), e_id. reflexivity. }
  rewrite E4. assert (Q : ephi (ev (eAdd (eAdd P P) (eAdd P P))) = lAdd (lAdd (ephi (ev P)) (ephi (ev P))) (lAdd (ephi (ev P)) (ephi (ev P)))).
  { cbn [eAdd ev]. rewrite !ephi_add. reflexivity. }
  pose proof (e_on P) as HO. rewrite <- kz_eq, kz_mul. unfold ephi in HO.
  pose proof (ed_quarter _ _ _ _ _ _ _ _ _ FT dec ed_two (k d) i Hi ed_nonsq _ _ HO) as K. rewrite K. clear K. fold (ephi (ev P)). rewrite <- Q.
  split; [intros ->; reflexivity|intros E; apply e_inj; exact E].
Qed.
Lemma ristEq_iff : forall P Q : EPt, ristEqZ p (ev P) (ev Q) = true <-> emul 4 P = emul 4 Q.
Proof.
  intros P Q. assert (E : emul 4 (eAdd P (eNeg Q)) = eId <-> emul 4 P = emul 4 Q).
  { rewrite (mul_dist EPt eId eAdd e_comm e_assoc e_id), (mul_neg EPt eId eAdd eNeg e_comm e_assoc e_id e_neg). split; [|intros ->; apply e_neg].
    intros E. apply (cancel EPt eId eAdd eNeg e_comm e_assoc e_id e_neg (eNeg (emul 4 Q))). rewrite e_comm, E, e_comm, e_neg. reflexivity. }
  rewrite <- E, e_quarter. clear E. destruct P as [[x1 y1] HP], Q as [[x2 y2] HQ]. cbn [ev eAdd eNeg].
  pose proof (neg_b _ HQ) as HN. cbn [edNegZ] in *. destruct (edAddZ p d (x1, y1) ((- x2) mod p, y2)) as [u v] eqn:EA.
  assert (HN' : lOn (k (- x2), k y2)) by (apply ephi_on in HN; unfold ephi in HN; cbn [fst snd] in HN; rewrite kz_mod in HN; apply HN).
  apply ephi_on in HP. destruct HP as [_ HP]. unfold ephi in HP. cbn [fst snd] in HP. destruct ed_root as [i Hi].
  apply (f_equal ephi) in EA. rewrite ephi_add in EA. unfold ephi in EA. cbn [fst snd edAdd] in EA. rewrite kz_mod in EA.
  pose proof (ed_dp _ _ _ _ _ _ _ _ _ FT dec ed_two (k d) i Hi ed_nonsq _ _ _ _ HP HN') as Dp.
  pose proof (ed_dm _ _ _ _ _ _ _ _ _ FT dec ed_two (k d) i Hi ed_nonsq _ _ _ _ HP HN') as Dm.
  pose proof (f_equal fst EA) as Eu. pose proof (f_equal snd EA) as Ev. cbn [fst snd] in Eu, Ev |- *. clear EA.
  apply (proj1 (div_eq _ _ _ _ _ _ _ _ _ FT _ _ _ Dp)) in Eu. apply (proj1 (div_eq _ _ _ _ _ _ _ _ _ FT _ _ _ Dm)) in Ev.
  unfold ristEqZ. rewrite orb_true_iff, !Z.eqb_eq, <- !eqm_mod0, <- !kz_eq.
  assert (X : k (x1 * y2 - y1 * x2) = kmul H1 (k u) (kadd H1 (k 1) (kmul H1 (kmul H1 (kmul H1 (kmul H1 (k d) (k x1)) (k (- x2))) (k y1)) (k y2)))).
  { rewrite <- Eu, <- !kz_mul, <- kz_add. f_equal. ring. }
  assert (Y : k (y1 * y2 - x1 * x2) = kmul H1 (k v) (ksub H1 (k 1) (kmul H1 (kmul H1 (kmul H1 (kmul H1 (k d) (k x1)) (k (- x2))) (k y1)) (k y2)))).
  { rewrite <- Ev, <- !kz_mul, <- kz_add. f_equal. ring. }
  rewrite X, Y, (kz_mul p H1 u v).
  assert (m0 : forall a b, kmul H1 a b = k 0 <-> a = k 0 \/ b = k 0).
  { intros a b. split; [apply (fmul0 _ _ _ _ _ _ _ _ _ FT dec)|]. pattern a; apply (k_ind p H1); pattern b; apply (k_ind p H1). intros z z'. rewrite <- kz_mul, !kz_eq.
    intros [->| ->]; apply eqm_of_eq; ring. }
  rewrite !m0. tauto.
Qed.

(** ** At most 2p points *)
Definition eCode (P : EPt) : Z := 2 * fst (ev P) + snd (ev P) mod 2.
Lemma eCode_range : forall P, 0 <= eCode P < 2 * p.
Proof. intros P. destruct (e_r P) as [Bx _]. unfold eCode. pose proof (Z.mod_pos_bound (snd (ev P)) 2 ltac:(lia)). lia. Qed.
Lemma ed_p_odd : p mod 2 = 1.
Proof.
  pose proof (Z.mod_pos_bound p 2 ltac:(lia)). destruct (Z.eq_dec (p mod 2) 0) as [E|E]; [exfalso|lia].
  apply Z.mod_divide in E; [|lia]. apply (prime_divisors _ (eo_prime p d OK)) in E. pose proof (eo_odd p d OK). lia.
Qed.
Lemma eqm_prime0 : forall a b, eqm p (a * b) 0 -> eqm p a 0 \/ eqm p b 0.
Proof.
  intros a b E. apply eqm_mod0, Z.mod_divide in E; [|pose proof ed_p1; lia]. apply prime_mult in E; [|apply (eo_prime p d OK)].
  pose proof ed_p1. destruct E as [E|E]; [left|right]; apply eqm_mod0, Z.mod_divide; try assumption; lia.
Qed.
Lemma eCode_inj : forall P Q, eCode P = eCode Q -> P = Q.
Proof.
  intros [[x y] HP] [[x' y'] HQ]. unfold eCode. cbn [ev fst snd]. intros E. apply ept_eq. cbn [ev].
  pose proof (Z.mod_pos_bound y 2 ltac:(lia)) as By2. pose proof (Z.mod_pos_bound y' 2 ltac:(lia)) as By2'.
  assert (x' = x) by lia. subst x'. f_equal. assert (E2 : y mod 2 = y' mod 2) by lia. clear E.
  unfold edPointb in HP, HQ. rewrite !andb_true_iff, !Z.leb_le, !Z.ltb_lt, Z.eqb_eq, <- eqm_mod0 in HP, HQ.
  destruct HP as [[[[? ?] ?] ?] EP], HQ as [[[[? ?] ?] ?] EQ].
  assert (K : eqm p ((y - y') * (y + y')  * (1 - d * x * x)) 0).
  { transitivity ((y * y - x * x - (1 + d * x * x * y * y)) - (y' * y' - x * x - (1 + d * x * x * y' * y'))); [apply eqm_of_eq; ring|]. rewrite EP, EQ. reflexivity. }
  apply eqm_prime0 in K. destruct K as [K|K].
  - apply eqm_prime0 in K. pose proof ed_p1. destruct K as [K|K].
    + apply (eqm_small p); [lia|lia|]. transitivity ((y - y') + y'); [apply eqm_of_eq; ring|]. rewrite K. apply eqm_of_eq. ring.
    + apply eqm_mod0, Z.mod_divide in K; [|lia]. destruct K as [q Hq]. pose proof ed_p_odd as PO.
      assert (q = 0 \/ q = 1) as [-> | ->] by nia; [lia|exfalso].
      pose proof (Z.div_mod y 2 ltac:(lia)). pose proof (Z.div_mod y' 2 ltac:(lia)). pose proof (Z.div_mod p 2 ltac:(lia)). lia.
  - exfalso. assert (G : Z.gcd x p = 1).
    { apply prime_gcd1; [apply (eo_prime p d OK)|]. intros Z0. assert (Z1 : eqm p x 0) by (apply eqm_mod0; exact Z0). rewrite Z1 in K.
      apply eqm_mod0 in K. pose proof ed_p1. rewrite Z.mod_small in K; lia. }
    destruct (modInverse_ex x p ed_p1 G) as (i & _ & _ & Hi). apply (eqm_inv1 _ _ _ ed_p1) in Hi. apply (eo_d p d OK i).
    transitivity ((i * i) * (1 - d * x * x) + d * ((x * i) * (x * i))); [apply eqm_of_eq; ring|]. rewrite K, Hi. apply eqm_of_eq. ring.
Qed.
End Points.
