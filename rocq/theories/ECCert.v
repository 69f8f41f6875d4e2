(** Checking that a multiple of a point is the identity: a double-and-add chain whose slopes and quotients come with the certificate and
    need not be trusted. Nothing here models code of /repo. *)
From Verif Require Import GoBase Json GroupIface ECJson Curve NumTh Mulw Toy PropEC PropCurve ECLaw ECPoints ECOrder ECStd.
From Coq Require Import Znumtheory.

(** ** Chains *)
Definition wit : Type := (Z * Z * Z * Z)%type.       (* slope, quotients *)
Section Chain.
Context (a A B gx gy : Z).                           (* the field is A - B, the point (gx, gy) *)
Definition inField (x y : Z) : bool := (0 <=? x) && (x <? A - B) && (0 <? y) && (y <? A - B).
Fixpoint chain (l : list (wit * option (bool * wit))) (x y s : Z) (fin : Z -> Z -> Z -> bool) : bool :=
  match l with
  | [] => fin x y s
  | ((m, k, q1, q2), o) :: t =>
      if zmw m (2 * y) =? 3 * Z.square x + a + A * k - B * k then
        let x' := Z.square m - x - x - A * q1 + B * q1 in
        let y' := zmw m (x - x') - y - A * q2 + B * q2 in
        if inField x' y' then
          match o with
          | None => chain t x' y' (2 * s) fin
          | Some (neg, (m, k, q1, q2)) =>
              let gy' := if neg : bool then A - B - gy else gy in
              if negb (x' =? gx) && (zmw m (gx - x') =? gy' - y' + A * k - B * k) then
                let x'' := Z.square m - x' - gx - A * q1 + B * q1 in
                let y'' := zmw m (x' - x'') - y' - A * q2 + B * q2 in
                if inField x'' y'' then chain t x'' y'' (if neg then 2 * s - 1 else 2 * s + 1) fin else false
              else false
          end
        else false
      else false
  end.
(** (n - 1)(gx, gy) = (gx, -gy) *)
Definition order_cert (n : Z) (l : list (wit * option (bool * wit))) : bool :=
  inField gx gy && chain l gx gy 1 (fun x y s => (x =? gx) && (y =? A - B - gy) && (s =? n - 1)).
End Chain.

Section Spec.
Context (cv : Curve) (OK : CurveOk cv) (A B gx gy : Z) (HAB : cvP cv = A - B).
Local Notation p := (cvP cv).
Local Notation H1 := (p_gt1 cv OK).
Local Notation FT := (fieldP cv OK).
Lemma pv_psi : forall R : Pt cv, pv R = psi cv (fpt cv OK R).
Proof. intros R. destruct (psi_ok cv OK (fpt cv OK R) (fpt_on cv OK R)) as [B' E]. apply (phi_inj cv OK); [apply pok|exact B'|symmetry; exact E]. Qed.
Lemma fpt_xy : forall (P : Pt cv) x y, pv P = (x, y) -> y <> 0 -> fpt cv OK P = Some (kz H1 x, kz H1 y).
Proof.
  intros P x y E Hy. unfold fpt, phi. rewrite E. unfold ecIsIdentity. cbn [fst snd]. apply Z.eqb_neq in Hy. rewrite Hy, andb_false_r. reflexivity.
Qed.
Lemma k_neq : forall x y, 0 <= x < p -> 0 <= y < p -> x <> y -> kz H1 x <> kz H1 y.
Proof. intros x y Bx By H E. apply kz_eq in E. apply H. apply (eqm_small p); assumption. Qed.
Lemma inField_iff : forall x y, inField A B x y = true <-> 0 <= x < p /\ 0 < y < p.
Proof. intros x y. unfold inField. rewrite <- HAB, !andb_true_iff, !Z.leb_le, !Z.ltb_lt. lia. Qed.
Lemma third_xy : forall m x1 y1 x2 x3 y3, 0 <= x3 < p -> 0 <= y3 < p -> eqm p x3 (m * m - x1 - x2) -> eqm p y3 (m * (x1 - x3) - y1) ->
  psi cv (third (fp p) (kmul H1) (ksub H1) (kz H1 m) (kz H1 x1) (kz H1 y1) (kz H1 x2)) = (x3, y3).
Proof.
  intros m x1 y1 x2 x3 y3 B3 C3 E1 E2. rewrite <- third_psi. cbv zeta.
  assert (E : (m * m - x1 - x2) mod p = x3).
  { destruct E1 as [E1]. rewrite <- E1. apply Z.mod_small. exact B3. }
  rewrite E. f_equal. destruct E2 as [E2]. rewrite <- E2. apply Z.mod_small. exact C3.
Qed.
Lemma eqm_AB : forall x y q, x = y - A * q + B * q -> eqm p x y.
Proof. intros x y q ->. pose proof (p_gt1 cv OK). apply eqm_iff; [lia|]. exists (- q). rewrite HAB. ring. Qed.
Lemma dbl_ok : forall (P : Pt cv) x y m k x' y', pv P = (x, y) -> 0 < y < p -> m * (2 * y) = 3 * (x * x) + cvA cv + A * k - B * k ->
  0 <= x' < p -> 0 <= y' < p -> eqm p x' (m * m - x - x) -> eqm p y' (m * (x - x') - y) -> pv (stdAdd cv P P) = (x', y').
Proof.
  intros P x y m k x' y' HP Hy Hm Bx By E1 E2. rewrite pv_psi, fpt_add, (fpt_xy P x y HP) by lia.
  unfold lAdd. rewrite (add_dbl _ _ _ _ _ _ _ _ _ FT _ _ (two_nz cv OK) (kz H1 m)).
  - apply third_xy; assumption.
  - apply k_neq; lia.
  - rewrite k3, k2, <- !kz_mul, <- kz_add. apply kz_eq. apply (eqm_AB _ _ (- k)). rewrite Hm. ring.
Qed.
Lemma chord_ok : forall (P Q : Pt cv) x1 y1 x2 y2 m k x' y', pv P = (x1, y1) -> pv Q = (x2, y2) -> 0 <= x1 < p -> 0 <= x2 < p -> 0 < y1 -> 0 < y2 -> x1 <> x2 ->
  m * (x2 - x1) = y2 - y1 + A * k - B * k ->
  0 <= x' < p -> 0 <= y' < p -> eqm p x' (m * m - x1 - x2) -> eqm p y' (m * (x1 - x') - y1) -> pv (stdAdd cv P Q) = (x', y').
Proof.
  intros P Q x1 y1 x2 y2 m k x' y' HP HQ B1 B2 Hy1 Hy2 Hne Hm Bx By E1 E2. rewrite pv_psi, fpt_add, (fpt_xy P x1 y1 HP), (fpt_xy Q x2 y2 HQ) by lia.
  unfold lAdd. rewrite (add_chord _ _ _ _ _ _ _ _ _ FT _ _ (kz H1 m)).
  - apply third_xy; assumption.
  - apply k_neq; assumption.
  - rewrite <- !kz_sub, <- !kz_mul. apply kz_eq. apply (eqm_AB _ _ (- k)). rewrite Hm. ring.
Qed.
Lemma stdMul_plus : forall P s t, 0 <= s -> 0 <= t -> stdMul cv P (s + t) = stdAdd cv (stdMul cv P s) (stdMul cv P t).
Proof. intros P s t Hs Ht. unfold stdMul. rewrite Z2Nat.inj_add by assumption. apply (mul_plus (Pt cv) (ptId cv) (stdAdd cv) (std_assoc cv OK) (std_id cv OK)). Qed.
Lemma stdMul_1 : forall P, stdMul cv P 1 = P.
Proof. intros P. change (stdAdd cv P (ptId cv) = P). rewrite (std_comm cv OK). apply (std_id cv OK). Qed.
Context (G : Pt cv) (HG : pv G = (gx, gy)).
Lemma chain_spec : forall fin l x y s P, inField A B gx gy = true -> pv P = (x, y) -> 0 <= x < p -> 0 < y < p -> 0 < s -> P = stdMul cv G s ->
  chain (cvA cv) A B gx gy l x y s fin = true ->
  exists P' x' y' s', pv P' = (x', y') /\ 0 < s' /\ P' = stdMul cv G s' /\ fin x' y' s' = true.
Proof.
  intros fin. induction l as [|[[[[m k] q1] q2] o] l IH]; intros x y s P HIG HP Bx By Hs HM H; [exists P, x, y, s; repeat (split; [assumption|]); assumption|].
  pose proof HIG as HG'. apply inField_iff in HG'. destruct HG' as [Bgx Bgy].
  cbn [chain] in H. destruct (zmw m (2 * y) =? _) eqn:E1; [|discriminate]. cbv zeta in H.
  set (x' := Z.square m - x - x - A * q1 + B * q1) in *. set (y' := zmw m (x - x') - y - A * q2 + B * q2) in *.
  destruct (inField A B x' y') eqn:E2; [|discriminate]. apply inField_iff in E2. destruct E2 as [Bx' By'].
  apply Z.eqb_eq in E1. rewrite zmw_spec, Z.square_spec in E1.
  assert (D : pv (stdAdd cv P P) = (x', y')).
  { apply (dbl_ok P x y m k); try assumption; try lia; [apply (eqm_AB _ _ q1)|apply (eqm_AB _ _ q2)].
    - unfold x'. rewrite Z.square_spec. reflexivity.
    - unfold y'. rewrite zmw_spec. reflexivity. }
  assert (M2 : stdAdd cv P P = stdMul cv G (2 * s)).
  { replace (2 * s) with (s + s) by ring. rewrite stdMul_plus, <- HM by lia. reflexivity. }
  destruct o as [[neg [[[m' k'] r1] r2]]|].
  - set (gy' := if neg then A - B - gy else gy) in *.
    destruct (negb (x' =? gx) && _) eqn:E3; [|discriminate]. apply andb_prop in E3. destruct E3 as [E3 E4].
    apply negb_true_iff, Z.eqb_neq in E3. apply Z.eqb_eq in E4. rewrite zmw_spec in E4.
    set (x'' := Z.square m' - x' - gx - A * r1 + B * r1) in *. set (y'' := zmw m' (x' - x'') - y' - A * r2 + B * r2) in *.
    destruct (inField A B x'' y'') eqn:E5; [|discriminate]. apply inField_iff in E5. destruct E5 as [Bx'' By''].
    set (Q := if neg then stdNeg cv G else G).
    assert (HQ : pv Q = (gx, gy')).
    { unfold Q, gy'. destruct neg; [|exact HG]. rewrite (pv_neg cv OK), HG. unfold ecNegZ. cbn [fst snd]. f_equal.
      rewrite <- (Z.mod_small (A - B - gy) p) by lia. apply (proj1 (eqm_mod p _ _)). apply eqm_iff; [lia|]. exists (-1). rewrite HAB. ring. }
    assert (Bgy' : 0 < gy') by (unfold gy'; destruct neg; lia).
    assert (D' : pv (stdAdd cv (stdAdd cv P P) Q) = (x'', y'')).
    { apply (chord_ok (stdAdd cv P P) Q x' y' gx gy' m' k'); try assumption; try lia; [apply (eqm_AB _ _ r1)|apply (eqm_AB _ _ r2)].
      - unfold x''. rewrite Z.square_spec. reflexivity.
      - unfold y''. rewrite zmw_spec. reflexivity. }
    apply (IH x'' y'' _ (stdAdd cv (stdAdd cv P P) Q)) in H; try assumption; [destruct neg; lia|].
    rewrite M2. unfold Q. destruct neg.
    + replace (2 * s) with ((2 * s - 1) + 1) at 1 by ring. rewrite stdMul_plus, stdMul_1, <- (std_assoc cv OK), (std_neg cv OK), (std_comm cv OK), (std_id cv OK) by lia. reflexivity.
    + rewrite stdMul_plus, stdMul_1 by lia. reflexivity.
  - apply (IH x' y' _ (stdAdd cv P P)) in H; try assumption. lia.
Qed.
Theorem order_cert_ok : forall n l, order_cert (cvA cv) A B gx gy n l = true -> stdMul cv G n = ptId cv.
Proof.
  intros n l H. unfold order_cert in H. apply andb_prop in H. destruct H as [HI H]. pose proof HI as HI'. apply inField_iff in HI'. destruct HI' as [Bx By].
  apply (chain_spec _ l gx gy 1 G HI HG Bx By) in H; [|lia|symmetry; apply stdMul_1].
  destruct H as (P & x & y & s & HP & Hs & HM & H). rewrite !andb_true_iff, !Z.eqb_eq in H. destruct H as [[-> ->] ->].
  assert (E : P = stdNeg cv G).
  { apply pt_eq. rewrite HP, (pv_neg cv OK), HG. unfold ecNegZ. cbn [fst snd]. f_equal.
    rewrite <- (Z.mod_small (A - B - gy) p) by lia. apply (proj1 (eqm_mod p _ _)). apply eqm_iff; [lia|]. exists 1. rewrite HAB. ring. }
  replace n with (1 + (n - 1)) by ring. rewrite stdMul_plus, stdMul_1, <- HM, E by lia. apply (std_neg cv OK).
Qed.
End Spec.
