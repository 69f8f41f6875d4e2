(** C79: ristretto255 as the double points of edwards25519, two of them being one element when the test of RFC 9496 says so, is a group
    of prime order generated by the base point; so the contract assumed of circl's Ristretto255 holds if it computes the formulas. *)
From Verif Require Import GoBase Json GroupIface Vector BIP BP VoteProof ModP App ECJson P256k1 Marshal Curve Groups NumTh Alg SetupProofs ModPProofs Toy
  PropBP PropVote PropModP PropApp PropEC PropCurve PropModSound PropTransport PropGen PropK1 Primes PrimeCerts PropPrime Fork PropFork PropDeaf
  ECLaw ECPoints ECOrder EdLaw EdPoints EdCert EdField EdChain.
From Coq Require Import Znumtheory.

(** ** What circl is assumed to compute *)
(** edwards25519: -x^2 + y^2 = 1 + d x^2 y^2 over the field of group/ristretto255.go 210, d = -121665/121666 *)
Definition EdPoint (P : Z * Z) : Prop :=
  let (x, y) := P in 0 <= x < r255Field /\ 0 <= y < r255Field /\ eqm r255Field (y * y - x * x) (1 + edw_d * x * x * y * y).
Local Notation eadd := (edAddZ r255Field edw_d).
Local Notation eneg := (edNegZ r255Field).
Local Notation emulz := (edMulZ r255Field edw_d).
(** two points are one element *)
Definition SameElt (P Q : Z * Z) : Prop := ristEqZ r255Field P Q = true.
(** [rep]: a point standing for an element. Every operation computes the formulas on the points; decoding and hashing yield double points. *)
Record RistStd (c : R255Codec) (rep : rPt c -> Z * Z) (ri : Ristretto c) : Prop := {
  rs_even : forall P, exists R, EdPoint R /\ rep P = eadd R R;
  rs_ext : forall P Q, SameElt (rep P) (rep Q) -> P = Q;
  rs_eq : forall P Q, riEq ri P Q = ristEqZ r255Field (rep P) (rep Q);
  rs_isid : forall P, riIsId ri P = riEq ri P (riId ri);
  rs_id : SameElt (rep (riId ri)) (0, 1);
  rs_gen : SameElt (rep (riGen ri)) edB;
  rs_add : forall P Q, SameElt (rep (riAdd ri P Q)) (eadd (rep P) (rep Q));
  rs_neg : forall P, SameElt (rep (riNeg ri P)) (eneg (rep P));
  rs_mul : forall P s, 0 <= s < r255Order -> SameElt (rep (riMul ri P s)) (emulz (rep P) s);
  rs_mulgen : forall s, 0 <= s < r255Order -> SameElt (rep (riMulGen ri s)) (emulz edB s)
}.

(** ** The formulas *)
Local Notation T := (EPt r255Field edw_d). Local Notation O := (eId _ _ edw_ok). Local Notation add := (eAdd _ _ edw_ok). Local Notation neg := (eNeg _ _ edw_ok).
Local Notation em := (mul T O add).
Lemma edPoint_b : forall P, EdPoint P <-> edPointb r255Field edw_d P = true.
Proof.
  intros [x y]. unfold EdPoint, edPointb. rewrite !andb_true_iff, !Z.leb_le, !Z.ltb_lt, Z.eqb_eq, <- eqm_mod0. split.
  - intros (? & ? & E). repeat (split; [|lia || idtac]); try lia. rewrite E. apply eqm_of_eq. ring.
  - intros [[[[? ?] ?] ?] E]. split; [lia|]. split; [lia|].
    transitivity ((y * y - x * x - (1 + edw_d * x * x * y * y)) + (1 + edw_d * x * x * y * y)); [apply eqm_of_eq; ring|rewrite E; reflexivity].
Qed.
Lemma toE : forall P, EdPoint P -> exists Q : T, ev _ _ Q = P.
Proof. intros P H. apply edPoint_b in H. exists (mkEPt _ _ P H). reflexivity. Qed.
(** the denominators of the formulas are invertible, and the points are an abelian group *)
Theorem C79_formulas : forall P Q R, EdPoint P -> EdPoint Q -> EdPoint R ->
  EdPoint (eadd P Q) /\ EdPoint (eneg P) /\ eadd P Q = eadd Q P /\ eadd P (eadd Q R) = eadd (eadd P Q) R /\ eadd (0, 1) P = P /\ eadd P (eneg P) = (0, 1) /\
  Z.gcd (1 + edw_d * fst P * fst Q * snd P * snd Q) r255Field = 1 /\ Z.gcd (1 - edw_d * fst P * fst Q * snd P * snd Q) r255Field = 1.
Proof.
  intros P Q R HP HQ HR. destruct (toE P HP) as [P' <-], (toE Q HQ) as [Q' <-], (toE R HR) as [R' <-].
  split; [apply edPoint_b, (eok _ _ (add P' Q'))|]. split; [apply edPoint_b, (eok _ _ (neg P'))|].
  split; [apply (f_equal (ev _ _) (e_comm _ _ edw_ok P' Q'))|]. split; [apply (f_equal (ev _ _) (e_assoc _ _ edw_ok P' Q' R'))|].
  split; [apply (f_equal (ev _ _) (e_id _ _ edw_ok P'))|]. split; [apply (f_equal (ev _ _) (e_neg _ _ edw_ok P'))|].
  destruct (ed_root _ _ edw_ok) as [i Hi]. set (H1 := ed_p1 _ _ edw_ok) in *.
  split; (apply prime_gcd1; [exact prime_r255Field|]); intros E; apply eqm_mod0 in E; apply (kz_eq _ H1) in E; revert E.
  - pose proof (ed_dp _ _ _ _ _ _ _ _ _ (fp_field _ (eo_prime _ _ edw_ok) H1) (fp_dec _) (ed_two _ _ edw_ok) (kz H1 edw_d) i Hi (ed_nonsq _ _ edw_ok) _ _ _ _ (e_on _ _ edw_ok P') (e_on _ _ edw_ok Q')) as D.
    rewrite kz_add, !kz_mul. exact D.
  - pose proof (ed_dm _ _ _ _ _ _ _ _ _ (fp_field _ (eo_prime _ _ edw_ok) H1) (fp_dec _) (ed_two _ _ edw_ok) (kz H1 edw_d) i Hi (ed_nonsq _ _ edw_ok) _ _ _ _ (e_on _ _ edw_ok P') (e_on _ _ edw_ok Q')) as D.
    rewrite kz_sub, !kz_mul. exact D.
Qed.
Lemma mulz_em : forall (P : T) s, emulz (ev _ _ P) s = ev _ _ (em (Z.to_nat s) P).
Proof.
  intros P s. unfold edMulZ, mul. induction (Z.to_nat s) as [|k IH]; [reflexivity|].
  change (eadd (ev _ _ P) (Nat.iter k (eadd (ev _ _ P)) (0, 1)) = eadd (ev _ _ P) (ev _ _ (Nat.iter k (add P) O))). rewrite IH. reflexivity.
Qed.
(** the test is an equivalence that the operations respect *)
Lemma same_em : forall P Q : T, SameElt (ev _ _ P) (ev _ _ Q) <-> em 4 P = em 4 Q.
Proof. exact (ristEq_iff _ _ edw_ok). Qed.
Local Notation edist := (mul_dist T O add (e_comm _ _ edw_ok) (e_assoc _ _ edw_ok) (e_id _ _ edw_ok)).
Local Notation eneg4 := (mul_neg T O add neg (e_comm _ _ edw_ok) (e_assoc _ _ edw_ok) (e_id _ _ edw_ok) (e_neg _ _ edw_ok)).
Local Notation emm := (mul_mul T O add (e_assoc _ _ edw_ok) (e_id _ _ edw_ok)).
Theorem C79_quotient : forall P Q R S, EdPoint P -> EdPoint Q -> EdPoint R -> EdPoint S ->
  SameElt P P /\ (SameElt P Q -> SameElt Q P) /\ (SameElt P Q -> SameElt Q R -> SameElt P R) /\
  (SameElt P Q -> SameElt R S -> SameElt (eadd P R) (eadd Q S)) /\ (SameElt P Q -> SameElt (eneg P) (eneg Q)) /\
  (forall s, SameElt P Q -> SameElt (emulz P s) (emulz Q s)) /\
  (SameElt P (0, 1) <-> emulz P 4 = (0, 1)).
Proof.
  intros P Q R S HP HQ HR HS. destruct (toE P HP) as [P' <-], (toE Q HQ) as [Q' <-], (toE R HR) as [R' <-], (toE S HS) as [S' <-].
  assert (E1 : SameElt (eadd (ev _ _ P') (ev _ _ R')) (eadd (ev _ _ Q') (ev _ _ S')) <-> em 4 (add P' R') = em 4 (add Q' S')) by apply (same_em (add P' R') (add Q' S')).
  assert (E2 : SameElt (eneg (ev _ _ P')) (eneg (ev _ _ Q')) <-> em 4 (neg P') = em 4 (neg Q')) by apply (same_em (neg P') (neg Q')).
  assert (E3 : SameElt (ev _ _ P') (0, 1) <-> em 4 P' = em 4 O) by apply (same_em P' O).
  pose proof (same_em P' Q') as E4. pose proof (same_em Q' P') as E5. pose proof (same_em Q' R') as E6. pose proof (same_em P' R') as E7. pose proof (same_em R' S') as E8.
  split; [apply same_em; reflexivity|]. split; [intros H; apply E5; symmetry; apply E4, H|].
  split; [intros H H'; apply E7; transitivity (em 4 Q'); [apply E4, H|apply E6, H']|].
  split; [intros H H'; apply E1; rewrite !edist; f_equal; [apply E4, H|apply E8, H']|].
  split; [intros H; apply E2; rewrite !eneg4; f_equal; apply E4, H|]. split.
  - intros s H. apply E4 in H. rewrite !mulz_em. apply same_em. rewrite !emm, !(Nat.mul_comm 4), <- !emm, H. reflexivity.
  - rewrite mulz_em. change (Z.to_nat 4) with 4%nat. rewrite (mul_O T O add (e_id _ _ edw_ok)) in E3. split; [intros H; apply E3 in H; rewrite H; reflexivity|].
    intros H. apply E3. apply ept_eq. exact H.
Qed.

(** ** The group *)
Lemma em8 : forall R : T, exists j, em 8 R = em j (em 4 edBP).
Proof.
  intros R. destruct (edw_cyclic R) as [j ->]. exists (2 * j)%nat. rewrite !emm, edist.
  replace (em (8 * j) edSP) with O; [|rewrite Nat.mul_comm, <- emm, edS_8, (mul_O T O add (e_id _ _ edw_ok)); reflexivity].
  rewrite (e_comm _ _ edw_ok), (e_id _ _ edw_ok). f_equal. lia.
Qed.
Lemma em_order : forall j, em (Z.to_nat r255Order) (em j (em 4 edBP)) = O.
Proof.
  intros j. rewrite (emm j 4%nat), emm, Nat.mul_comm, <- emm, edB_order. apply (mul_O T O add (e_id _ _ edw_ok)).
Qed.
Lemma em4B_nid : em 4 edBP <> O.
Proof.
  intros E. apply (mul_none T O add (e_comm _ _ edw_ok) (e_assoc _ _ edw_ok) (e_id _ _ edw_ok) (Z.to_nat r255Order)) in E.
  - rewrite Nat.mod_small in E; [discriminate E|]. apply Nat2Z.inj_lt. rewrite order_nat. reflexivity.
  - rewrite order_nat. exact prime_r255Order.
  - exact edB_nid.
  - exact edB_order.
Qed.
(** edwards25519 has exactly 8 times as many points as the order of the base point, all multiples of one point; 8 times a point is a
    multiple of the base point *)
Theorem C79_cofactor_8 :
  prime r255Field /\ prime r255Order /\ eqm r255Field (121666 * edw_d) (-121665) /\
  EdPoint edB /\ eqm r255Field (5 * snd edB) 4 /\ fst edB mod 2 = 0 /\ edB <> (0, 1) /\ emulz edB r255Order = (0, 1) /\
  (forall j k, 0 <= j < r255Order -> 0 <= k < r255Order -> emulz edB j = emulz edB k -> j = k) /\
  (exists G, EdPoint G /\ forall P, EdPoint P -> exists k, 0 <= k < 8 * r255Order /\ P = emulz G k /\ forall k', 0 <= k' < 8 * r255Order -> P = emulz G k' -> k' = k) /\
  (forall P, EdPoint P -> exists k, 0 <= k < r255Order /\ emulz P 8 = emulz edB k).
Proof.
  split; [exact prime_r255Field|]. split; [exact prime_r255Order|]. split; [exact edw_d_eq|]. split; [apply edPoint_b; exact edB_on|].
  split; [constructor; vm_cast_no_check (eq_refl 4)|]. split; [reflexivity|]. split; [discriminate|].
  assert (MB : forall s, emulz edB s = ev _ _ (em (Z.to_nat s) edBP)) by (intros s; apply (mulz_em edBP)).
  assert (PN : prime (Z.of_nat (Z.to_nat r255Order))) by (rewrite order_nat; exact prime_r255Order).
  split; [rewrite MB, edB_order; reflexivity|]. split; [|split].
  - intros j k Hj Hk E. rewrite !MB in E. apply ept_eq in E.
    apply (mul_inj T O add neg (e_comm _ _ edw_ok) (e_assoc _ _ edw_ok) (e_id _ _ edw_ok) (e_neg _ _ edw_ok) _ PN edBP edB_nid edB_order) in E; lia.
  - exists (ev _ _ (add edBP edSP)). split; [apply edPoint_b, eok|]. intros P HP. destruct (toE P HP) as [P' <-]. destruct (edw_unique P') as (j & Bj & Hj & HU).
    assert (N8 : Z.of_nat (8 * Z.to_nat r255Order) = 8 * r255Order) by (rewrite Nat2Z.inj_mul, order_nat; reflexivity).
    exists (Z.of_nat j). split; [apply Nat2Z.inj_lt in Bj; rewrite N8 in Bj; split; [apply Nat2Z.is_nonneg|exact Bj]|]. split; [rewrite mulz_em, Nat2Z.id, <- Hj; reflexivity|].
    intros k' Bk' E. rewrite mulz_em in E. apply ept_eq in E. apply HU in E; [rewrite <- E, Z2Nat.id by apply Bk'; reflexivity|].
    apply Nat2Z.inj_lt. rewrite N8, Z2Nat.id by apply Bk'. apply Bk'.
  - intros P HP. destruct (toE P HP) as [P' <-]. destruct (em8 P') as [j Hj]. exists (Z.of_nat ((j * 4) mod Z.to_nat r255Order)).
    pose proof (Nat.mod_upper_bound (j * 4) (Z.to_nat r255Order)) as Bj.
    assert (NZ : Z.to_nat r255Order <> 0%nat) by (intros Z0; apply (f_equal Z.of_nat) in Z0; rewrite order_nat in Z0; discriminate Z0).
    specialize (Bj NZ). split; [apply Nat2Z.inj_lt in Bj; rewrite order_nat in Bj; split; [apply Nat2Z.is_nonneg|exact Bj]|]. rewrite MB, Nat2Z.id, mulz_em. f_equal. change (Z.to_nat 8) with 8%nat.
    rewrite Hj, emm. apply (mul_mod T O add (e_assoc _ _ edw_ok) (e_id _ _ edw_ok) _ PN edBP edB_order).
Qed.

Section Contract.
Context (c : R255Codec) (rep : rPt c -> Z * Z) (ri : Ristretto c) (S : RistStd c rep ri).
Lemma rep_pt : forall P, EdPoint (rep P).
Proof.
  intros P. destruct (rs_even _ _ _ S P) as (R & HR & ->). destruct (toE R HR) as [R' <-]. apply edPoint_b, (eok _ _ (add R' R')).
Qed.
(** the element as a point of the subgroup of order l: 4 times any point standing for it *)
Definition lift (P : Z * Z) : T := match Bool.bool_dec (edPointb r255Field edw_d P) true with left H => em 4 (mkEPt _ _ P H) | right _ => O end.
Lemma lift_ev : forall P : T, lift (ev _ _ P) = em 4 P.
Proof. intros P. unfold lift. destruct (Bool.bool_dec _ true) as [H|H]; [f_equal; apply ept_eq; reflexivity|]. exfalso. apply H, eok. Qed.
Lemma lift_same : forall P Q, EdPoint P -> EdPoint Q -> SameElt P Q <-> lift P = lift Q.
Proof. intros P Q HP HQ. destruct (toE P HP) as [P' <-], (toE Q HQ) as [Q' <-]. rewrite !lift_ev. apply same_em. Qed.
Lemma lift_add : forall P Q, EdPoint P -> EdPoint Q -> EdPoint (eadd P Q) /\ lift (eadd P Q) = add (lift P) (lift Q).
Proof.
  intros P Q HP HQ. destruct (toE P HP) as [P' <-], (toE Q HQ) as [Q' <-]. change (eadd (ev _ _ P') (ev _ _ Q')) with (ev _ _ (add P' Q')).
  split; [apply edPoint_b, eok|]. rewrite !lift_ev. apply edist.
Qed.
Lemma lift_neg : forall P, EdPoint P -> EdPoint (eneg P) /\ lift (eneg P) = neg (lift P).
Proof.
  intros P HP. destruct (toE P HP) as [P' <-]. change (eneg (ev _ _ P')) with (ev _ _ (neg P')).
  split; [apply edPoint_b, eok|]. rewrite !lift_ev. apply eneg4.
Qed.
Lemma lift_mul : forall P s, EdPoint P -> EdPoint (emulz P s) /\ lift (emulz P s) = em (Z.to_nat s) (lift P).
Proof.
  intros P s HP. destruct (toE P HP) as [P' <-]. rewrite mulz_em. split; [apply edPoint_b, eok|]. rewrite !lift_ev, !emm, Nat.mul_comm. reflexivity.
Qed.
Definition eta (P : rPt c) : T := lift (rep P).
Lemma eta_same : forall P X, EdPoint X -> SameElt (rep P) X -> eta P = lift X.
Proof. intros P X HX H. apply lift_same; [apply rep_pt|exact HX|exact H]. Qed.
Lemma eta_inj : forall P Q, eta P = eta Q -> P = Q.
Proof. intros P Q H. apply (rs_ext _ _ _ S). apply lift_same; [apply rep_pt|apply rep_pt|exact H]. Qed.
Lemma id_pt : EdPoint (0, 1). Proof. apply edPoint_b, (eok _ _ O). Qed.
Lemma B_pt : EdPoint edB. Proof. apply edPoint_b, edB_on. Qed.
Lemma eta_id : eta (riId ri) = O.
Proof. rewrite (eta_same _ _ id_pt (rs_id _ _ _ S)). change (0, 1) with (ev _ _ O). rewrite lift_ev. apply (mul_O T O add (e_id _ _ edw_ok)). Qed.
Lemma eta_gen : eta (riGen ri) = em 4 edBP.
Proof. rewrite (eta_same _ _ B_pt (rs_gen _ _ _ S)). apply (lift_ev edBP). Qed.
Lemma eta_add : forall P Q, eta (riAdd ri P Q) = add (eta P) (eta Q).
Proof. intros P Q. destruct (lift_add _ _ (rep_pt P) (rep_pt Q)) as [HX E]. rewrite (eta_same _ _ HX (rs_add _ _ _ S P Q)). exact E. Qed.
Lemma eta_neg : forall P, eta (riNeg ri P) = neg (eta P).
Proof. intros P. destruct (lift_neg _ (rep_pt P)) as [HX E]. rewrite (eta_same _ _ HX (rs_neg _ _ _ S P)). exact E. Qed.
Lemma eta_mul : forall P s, 0 <= s < r255Order -> eta (riMul ri P s) = em (Z.to_nat s) (eta P).
Proof. intros P s Hs. destruct (lift_mul _ s (rep_pt P)) as [HX E]. rewrite (eta_same _ _ HX (rs_mul _ _ _ S P s Hs)). exact E. Qed.
Lemma eta_mulgen : forall s, 0 <= s < r255Order -> eta (riMulGen ri s) = em (Z.to_nat s) (em 4 edBP).
Proof. intros s Hs. destruct (lift_mul _ s B_pt) as [HX E]. rewrite (eta_same _ _ HX (rs_mulgen _ _ _ S s Hs)), E. f_equal. apply (lift_ev edBP). Qed.
Lemma eta_cyclic : forall P, exists j, eta P = em j (em 4 edBP).
Proof.
  intros P. unfold eta. destruct (rs_even _ _ _ S P) as (R & HR & ->). destruct (toE R HR) as [R' <-]. change (eadd (ev _ _ R') (ev _ _ R')) with (ev _ _ (add R' R')).
  rewrite lift_ev, edist, <- (mul_plus T O add (e_assoc _ _ edw_ok) (e_id _ _ edw_ok)). apply em8.
Qed.
Lemma ord_succ : Z.to_nat r255Order = Datatypes.S (Z.to_nat (r255Order - 1)).
Proof. rewrite <- Z2Nat.inj_succ by discriminate. reflexivity. Qed.
Lemma std_ristretto : RistrettoOk c r255Order ri.
Proof.
  constructor.
  - reflexivity.
  - intros P Q. apply eta_inj. rewrite !eta_add. apply (e_comm _ _ edw_ok).
  - intros P Q R. apply eta_inj. rewrite !eta_add. apply (e_assoc _ _ edw_ok).
  - intros P. apply eta_inj. rewrite eta_add, eta_id. apply (e_id _ _ edw_ok).
  - intros P. apply eta_inj. rewrite eta_add, eta_neg, eta_id. apply (e_neg _ _ edw_ok).
  - intros P. apply eta_inj. rewrite eta_mul, eta_id by (split; [discriminate|reflexivity]). reflexivity.
  - intros P s H1 H2. apply eta_inj. rewrite eta_add, !eta_mul by lia. rewrite Z2Nat.inj_add by lia. change (Z.to_nat 1) with 1%nat.
    rewrite (mul_plus T O add (e_assoc _ _ edw_ok) (e_id _ _ edw_ok)). f_equal. apply (mul_1 T O add (e_comm _ _ edw_ok) (e_id _ _ edw_ok)).
  - intros P. apply eta_inj. rewrite eta_add, eta_mul, eta_id by (split; [discriminate|reflexivity]). rewrite (e_comm _ _ edw_ok).
    change (em (Datatypes.S (Z.to_nat (r255Order - 1))) (eta P) = O). rewrite <- ord_succ. destruct (eta_cyclic P) as [j ->]. apply em_order.
  - intros s Hs. apply eta_inj. rewrite eta_mulgen, eta_mul, eta_gen by exact Hs. reflexivity.
  - intros P Q. rewrite (rs_eq _ _ _ S). split; [apply (rs_ext _ _ _ S)|]. intros ->. apply lift_same; [apply rep_pt|apply rep_pt|reflexivity].
  - intros P. rewrite (rs_isid _ _ _ S), (rs_eq _ _ _ S). split; [apply (rs_ext _ _ _ S)|]. intros ->. apply lift_same; [apply rep_pt|apply rep_pt|reflexivity].
Qed.
Lemma std_prime : GrpPrime (R255Grp c ri).
Proof.
  constructor; [apply C51_ristretto_contract; exact std_ristretto|exact prime_r255Order| |].
  - intros E. apply (f_equal eta) in E. cbn [R255Grp RistGrp gGen gId] in E. rewrite eta_gen, eta_id in E. apply em4B_nid. exact E.
  - intros X. destruct (eta_cyclic X) as [j Hj]. exists (Z.of_nat j). apply eta_inj. cbn [R255Grp RistGrp gScale gGen]. unfold rgScale.
    pose proof (Z.mod_pos_bound (Z.of_nat j) r255Order ltac:(reflexivity)) as Bj. rewrite eta_mul, eta_gen, Hj by exact Bj.
    assert (PN : prime (Z.of_nat (Z.to_nat r255Order))) by (rewrite order_nat; exact prime_r255Order).
    rewrite (mul_mod T O add (e_assoc _ _ edw_ok) (e_id _ _ edw_ok) _ PN (em 4 edBP)).
    2:{ pose proof (em_order 1) as E1. rewrite (mul_1 T O add (e_comm _ _ edw_ok) (e_id _ _ edw_ok)) in E1. exact E1. }
    f_equal. apply Nat2Z.inj. rewrite Z2Nat.id by (apply Bj). rewrite Nat2Z.inj_mod, order_nat. reflexivity.
Qed.
End Contract.

(** ** The claims about the code *)
Theorem C79_prime_group : forall c rep ri, RistStd c rep ri -> RistrettoOk c r255Order ri /\ Shipped (R255Grp c ri) /\ GrpPrime (R255Grp c ri).
Proof. intros c rep ri S. pose proof (std_ristretto c rep ri S) as RO. split; [exact RO|]. split; [constructor; exact RO|exact (std_prime c rep ri S)]. Qed.
(** whatever SetBytes, MapToGroup or any operation returns is a multiple of the generator by one scalar modulo the order, and is of that
    order if it is not the identity, although the curve has points of order 2, 4 and 8 *)
Theorem C79_no_small_subgroup : forall c rep ri, RistStd c rep ri -> let G := R255Grp c ri in
  (forall X, exists k, 0 <= k < gN G /\ X = gScale G (gGen G) k /\ forall k', 0 <= k' < gN G -> X = gScale G (gGen G) k' -> k' = k) /\
  (forall X s, X <> gId G -> gScale G X s = gId G -> s mod gN G = 0).
Proof.
  intros c rep ri S G. destruct (C79_prime_group c rep ri S) as (_ & _ & [L P Hg Hc]). fold G in L, P, Hg, Hc. pose proof (N_pos L) as HN. split.
  - intros X. destruct (Hc X) as [k ->]. exists (k mod gN G). pose proof (Z.mod_pos_bound k (gN G) HN) as Bk. split; [exact Bk|]. split.
    + apply (scale_eqm L). symmetry. apply Zmod_eqm.
    + intros k' Bk' E. apply (exact_order G _ _ _ L P Hg) in E. rewrite (Z.mod_small k') in E by exact Bk'. congruence.
  - intros X s HX E. rewrite <- (l_scale0 G L X) in E. apply (exact_order G _ _ _ L P HX) in E. rewrite Zmod_0_l in E. exact E.
Qed.
(** an acceptance of the server over ristretto255, with nothing assumed of the group but the formulas *)
Theorem C79_server_sound : forall d c rep ri HO1 HO2 nan64 pp (b1 b2 : BallotData (ModPGrp d) (R255Grp c ri)) t1 t2 x rx y ry, let GE := R255Grp c ri in
  SafePrime2 d -> RistStd c rep ri -> Digest32 HO1 -> Digest32 HO2 -> 2 ^ 384 <= mpOrder d -> setup d GE nan64 = Ok pp ->
  verifyVote (ModPGrp d) GE HO1 b1 (ppRP pp) = Ok (true, t1) -> verifyVote (ModPGrp d) GE HO2 b2 (ppRP pp) = Ok (true, t2) ->
  bdBallot b1 = bdBallot b2 -> pV (bdLower b1) = pV (bdLower b2) -> pV (bdUpper b1) = pV (bdUpper b2) ->
  Opens GE (bpH (ppBP pp)) (pV (bdLower b1)) x rx -> 0 <= x < 2 ^ 16 ->
  Opens GE (bpH (ppBP pp)) (pV (bdUpper b1)) y ry -> 0 <= y < 2 ^ 16 ->
  let s1 := bdVote b1 in let s2 := bdVote b2 in
  sParams s1 = ppRP pp -> sParams s2 = ppRP pp ->
  sW s1 = sW s2 -> sKp s1 = sKp s2 -> sKq1 s1 = sKq1 s2 -> sKq2 s1 = sKq2 s2 -> sChal s1 <> sChal s2 ->
  Relation2 GE (gGen GE) (bpH (ppBP pp)) (relLow s1 s2 (101 + x) rx) \/
  Relation2 GE (gGen GE) (bpH (ppBP pp)) (relHigh s1 s2 (2000 - y) (- ry)) \/
  exists v r A B, Encrypts (ModPGrp d) (ppEGPK pp) A B v r /\ Extracted s1 s2 r /\ v = 101 + x /\ 101 <= v <= 2000 /\
    UpToSign d (ctU (bdBallot b1)) A /\ UpToSign d (ctV (bdBallot b1)) B.
Proof.
  intros d c rep ri HO1 HO2 nan64 pp b1 b2 t1 t2 x rx y ry GE HS HG. destruct (C79_prime_group c rep ri HG) as (_ & HSh & P).
  apply (C62_server_sound d GE HO1 HO2 nan64 pp b1 b2 t1 t2 x rx y ry HS HSh (lp_gen GE P) (lp_cyclic GE P)).
Qed.
(** C75 likewise, when different elements have different encodings of 32 bytes *)
Theorem C79_forking : forall d c rep ri bg fb nan64 pp (adv : Prog (BallotData (ModPGrp d) (R255Grp c ri))) ct V1 V2 x rx y ry n L runs, let GE := R255Grp c ri in
  SafePrime2 d -> RistStd c rep ri -> R255Contract c -> (forall P Q, rMarshalBinary c P = rMarshalBinary c Q -> P = Q) ->
  (forall b, is_digest (bg b)) -> 2 ^ 384 <= mpOrder d -> setup d GE nan64 = Ok pp ->
  Opens GE (bpH (ppBP pp)) V1 x rx -> 0 <= x < 2 ^ 16 -> Opens GE (bpH (ppBP pp)) V2 y ry -> 0 <= y < 2 ^ 16 ->
  WinningRuns bdVote (ServerAccepts (ppRP pp) ct V1 V2) bg fb adv n L runs ->
  Few n L 28 runs \/
  exists hs1 hs2 b1 b2, In hs1 runs /\ In hs2 runs /\
    Wins bdVote (ServerAccepts (ppRP pp) ct V1 V2) bg fb adv hs1 b1 /\ Wins bdVote (ServerAccepts (ppRP pp) ct V1 V2) bg fb adv hs2 b2 /\
    (Relation2 GE (gGen GE) (bpH (ppBP pp)) (relLow (bdVote b1) (bdVote b2) (101 + x) rx) \/
     Relation2 GE (gGen GE) (bpH (ppBP pp)) (relHigh (bdVote b1) (bdVote b2) (2000 - y) (- ry)) \/
     exists v r A B, Encrypts (ModPGrp d) (ppEGPK pp) A B v r /\ Extracted (bdVote b1) (bdVote b2) r /\ v = 101 + x /\ 101 <= v <= 2000 /\
       UpToSign d (ctU ct) A /\ UpToSign d (ctV ct) B).
Proof.
  intros d c rep ri bg fb nan64 pp adv ct V1 V2 x rx y ry n L runs GE HS HG RC HI. destruct (C79_prime_group c rep ri HG) as (_ & HSh & P).
  assert (HR : FSReads (ModPGrp d) GE) by (destruct (C75_hash_reads d) as (_ & _ & R3); apply R3; assumption).
  apply (C75_server d GE bg fb nan64 pp adv ct V1 V2 x rx y ry n L runs HS HSh (lp_gen GE P) (lp_cyclic GE P) HR).
Qed.
(** C78 over ristretto255: a ballot read from JSON is accepted by the server exactly with the one discrete logarithm *)
Theorem C79_json_ballots : forall d c rep ri HO nan64 pp, let GE := R255Grp c ri in
  RistStd c rep ri -> R255Contract c -> nanConv nan64 -> 1 < mpField d -> setup d GE nan64 = Ok pp ->
  (forall doc (b : BallotData (ModPGrp d) GE) t, BallotDataUnmarshalJSON (ModPGrp d) GE doc pp = Ok b -> verifyVote (ModPGrp d) GE HO b (ppRP pp) = Ok (true, t) ->
     BlankHash GE HO mod r255Order <> 0 /\ exists mu, pMu (bdLower b) = Some mu /\ pMu (bdUpper b) <> None /\ KeyLog GE HO (ppBP pp) mu) /\
  (forall mu ct, BlankHash GE HO mod r255Order <> 0 -> KeyLog GE HO (ppBP pp) mu ->
     exists doc (b : BallotData (ModPGrp d) GE), BallotDataUnmarshalJSON (ModPGrp d) GE (Some doc) pp = Ok b /\ bdBallot b = ct /\ verifyVote (ModPGrp d) GE HO b (ppRP pp) = Ok (true, 2%nat)).
Proof.
  intros d c rep ri HO nan64 pp GE S RC Hn Hp HS. destruct (C79_prime_group c rep ri S) as (RO & _ & P). split.
  - intros doc b t HD HV. destruct (C78_ristretto c ri d HO nan64 pp doc b t RC RO P Hn HS HD HV) as (H1 & (mu & H2 & H3) & (mu' & H4 & _) & _).
    split; [exact H1|]. exists mu. split; [exact H2|]. split; [intros E; pose proof (eq_trans (eq_sym H4) E) as C; discriminate C|exact H3].
  - intros mu ct HB HK. destruct (C78_ristretto_forger c ri d HO nan64 pp ct mu RC RO Hn Hp HS) as (doc & H1 & H2 & H3); [apply prime_gcd1; [exact prime_r255Order|exact HB]|exact HK|].
    eexists doc, _. split; [exact H1|]. split; [exact H2|exact H3].
Qed.

(** ** Concrete cases *)
(** twice the base point, as published; and the base point and its sum with a point of order 4, (i y, i x), are one element *)
Example C79_double_case : eadd edB edB =
  (0x36ab384c9f5a046c3d043b7d1833e7ac080d8e4515d7a45f83c5a14e2843ce0e,
   0x2260cdf3092329c21da25ee8c9a21f5697390f51643851560e5f46ae6af8a3c9).
Proof.
  apply (dblStep_ok _ _ edw_ok 0x8000000000000000000000000000000000000000000000000000000000000000 0x13 eq_refl _ _ _ _ 0x4932ee5d776beb664d1f9c33cfb9f26a26b67752e722564d6f2645ffcb8fe84f (-0x2b32889752bec2e0a8a2e751d76a7a91823ea8b28c85eefbcf574056192fb00a) (-0x6117d5d0e105be83b5f262e796bbc8d23009f3df9dadc54115f119275c394d3f)); [exact edB_on|vm_cast_no_check (eq_refl true)].
Qed.
Example C79_same_case : let Q := (0x6f9c1d3373017f3c22a4007a97fcac85bf68e00557598393d0be7c1f6e721a1b, 0x6a6597b61bb3c380f9e4c2a8f03b12a4a2eb3745bdac20b63381207f0acc5252) in
  EdPoint Q /\ Q <> edB /\ SameElt edB Q.
Proof. cbv zeta. split; [apply edPoint_b; vm_cast_no_check (eq_refl true)|]. split; [discriminate|vm_cast_no_check (eq_refl true)]. Qed.
(** circl's contract can be met over the real curve: the additive group of the order, the element s standing for s times the base point *)
Definition repB (X : rPt ristCodec) : Z * Z := emulz edB (zv _ X).
Lemma prime_n : prime (Z.of_nat (Z.to_nat r255Order)). Proof. rewrite order_nat. exact prime_r255Order. Qed.
Lemma em_B_mod : forall z, 0 <= z -> em (Z.to_nat (z mod r255Order)) edBP = em (Z.to_nat z) edBP.
Proof.
  intros z Hz. rewrite (mul_mod T O add (e_assoc _ _ edw_ok) (e_id _ _ edw_ok) _ prime_n edBP edB_order (Z.to_nat z)). f_equal.
  apply Nat2Z.inj. rewrite Nat2Z.inj_mod, order_nat, !Z2Nat.id; [reflexivity|exact Hz|]. apply Z.mod_pos_bound. reflexivity.
Qed.
Lemma repB_em : forall X, repB X = ev _ _ (em (Z.to_nat (zv _ X)) edBP).
Proof. intros X. exact (mulz_em edBP _). Qed.
Lemma same_eq : forall (P : T) X, X = ev _ _ P -> SameElt X (ev _ _ P).
Proof. intros P X ->. apply same_em. reflexivity. Qed.
Example C79_case : RistStd ristCodec repB ristToy.
Proof.
  assert (R : forall X : zq r255Order, 0 <= zv _ X < r255Order) by (intros X; apply zq_bnd).
  assert (EXT : forall X Y : rPt ristCodec, SameElt (repB X) (repB Y) -> X = Y).
  { intros X Y H. rewrite !repB_em in H. apply same_em in H. rewrite !emm, !(Nat.mul_comm 4), <- !emm in H.
    apply (mul_inj T O add neg (e_comm _ _ edw_ok) (e_assoc _ _ edw_ok) (e_id _ _ edw_ok) (e_neg _ _ edw_ok) _ prime_n (em 4 edBP) em4B_nid) in H.
    - apply zq_eq. pose proof (R X). pose proof (R Y). apply Z2Nat.inj in H; lia.
    - pose proof (em_order 1) as E1. rewrite (mul_1 T O add (e_comm _ _ edw_ok) (e_id _ _ edw_ok)) in E1. exact E1.
    - apply Z2Nat.inj_lt; [apply R|discriminate|apply R].
    - apply Z2Nat.inj_lt; [apply R|discriminate|apply R]. }
  constructor; cbn [ristToy riId riAdd riNeg riMul riMulGen riGen riEq riIsId].
  - intros X. exists (ev _ _ (em (Z.to_nat (zv _ X * ((r255Order + 1) / 2))) edBP)). split; [apply edPoint_b, eok|].
    rewrite repB_em. change (ev _ _ (em (Z.to_nat (zv _ X)) edBP) = ev _ _ (add (em (Z.to_nat (zv _ X * ((r255Order + 1) / 2))) edBP) (em (Z.to_nat (zv _ X * ((r255Order + 1) / 2))) edBP))).
    f_equal. rewrite <- (mul_plus T O add (e_assoc _ _ edw_ok) (e_id _ _ edw_ok)). pose proof (R X) as B.
    assert (H2 : (r255Order + 1) / 2 + (r255Order + 1) / 2 = r255Order + 1) by reflexivity. assert (H0 : 0 <= (r255Order + 1) / 2) by discriminate.
    set (h := (r255Order + 1) / 2) in *. clearbody h. rewrite <- Z2Nat.inj_add by nia. rewrite <- Z.mul_add_distr_l, H2.
    rewrite <- (em_B_mod (zv _ X * (r255Order + 1))) by nia. f_equal. f_equal. rewrite Z.mul_add_distr_l, Z.mul_1_r, Z.add_comm, Z_mod_plus_full. symmetry. apply Z.mod_small. exact B.
  - exact EXT.
  - intros X Y. apply Bool.eq_iff_eq_true. change (gEq gR X Y = true <-> SameElt (repB X) (repB Y)).
    split; [|intros H; apply EXT in H; apply (l_eq gR (toyLaws r255Order hR)); exact H].
    intros H. apply (l_eq gR (toyLaws r255Order hR)) in H. rewrite H, repB_em. apply same_eq. reflexivity.
  - intros X. reflexivity.
  - apply (same_eq O). reflexivity.
  - apply (same_eq edBP). rewrite repB_em. f_equal. change (zv _ (gGen gR)) with (1 mod r255Order). rewrite em_B_mod by discriminate. apply (mul_1 T O add (e_comm _ _ edw_ok) (e_id _ _ edw_ok)).
  - intros X Y. rewrite (repB_em X), (repB_em Y). match goal with |- SameElt _ (eadd (ev _ _ ?a) (ev _ _ ?b)) => apply (same_eq (add a b)) end.
    rewrite repB_em. f_equal. change (zv _ (gAdd gR X Y)) with ((zv _ X + zv _ Y) mod r255Order). pose proof (R X). pose proof (R Y).
    rewrite em_B_mod, Z2Nat.inj_add by lia. apply (mul_plus T O add (e_assoc _ _ edw_ok) (e_id _ _ edw_ok)).
  - intros X. rewrite (repB_em X). match goal with |- SameElt _ (eneg (ev _ _ ?a)) => apply (same_eq (neg a)) end.
    rewrite repB_em. f_equal. change (zv _ (gNeg gR X)) with ((- zv _ X) mod r255Order). pose proof (R X) as B.
    apply (neg_unique T O add neg (e_comm _ _ edw_ok) (e_assoc _ _ edw_ok) (e_id _ _ edw_ok) (e_neg _ _ edw_ok)).
    rewrite <- (mul_plus T O add (e_assoc _ _ edw_ok) (e_id _ _ edw_ok)). pose proof (Z.mod_pos_bound (- zv _ X) r255Order ltac:(reflexivity)) as B'.
    rewrite <- Z2Nat.inj_add by lia. rewrite <- em_B_mod by lia. rewrite Zplus_mod_idemp_r, Z.add_opp_diag_r. reflexivity.
  - intros X s Hs. rewrite (repB_em X), mulz_em. apply same_eq. rewrite repB_em. f_equal. change (zv _ (gScale gR X s)) with ((zv _ X * s) mod r255Order). pose proof (R X) as B.
    rewrite em_B_mod, Z2Nat.inj_mul, emm, Nat.mul_comm by nia. reflexivity.
  - intros s Hs. rewrite (mulz_em edBP). apply same_eq. rewrite repB_em. f_equal. change (zv _ (gBase gR s)) with (s mod r255Order). rewrite em_B_mod by lia. reflexivity.
Qed.

Print Assumptions C79_formulas.
Print Assumptions C79_quotient.
Print Assumptions C79_cofactor_8.
Print Assumptions C79_prime_group.
Print Assumptions C79_no_small_subgroup.
Print Assumptions C79_server_sound.
Print Assumptions C79_forking.
Print Assumptions C79_json_ballots.
Print Assumptions C79_case.
