(** The chord-and-tangent law on a short Weierstrass curve over a field is associative. The proof maps a point P to the class of the
    ideal (X - x, Y - y) of the coordinate ring F[X,Y]/(Y^2 - X^3 - aX - b); nothing here models code of /repo. *)
From Coq Require Import List Lia Ring Field Setoid Morphisms Arith.
Import ListNotations.

Section Law.
Context (F : Type) (f0 f1 : F) (fadd fmul fsub : F -> F -> F) (fopp : F -> F) (fdiv : F -> F -> F) (finv : F -> F).
Context (FT : field_theory f0 f1 fadd fmul fsub fopp fdiv finv eq) (feq_dec : forall x y : F, {x = y} + {x <> y}).
Add Field Ff : FT.
Declare Scope fld. Delimit Scope fld with fld.
Local Infix "+" := fadd : fld. Local Infix "*" := fmul : fld. Local Infix "-" := fsub : fld. Local Infix "/" := fdiv : fld.
Local Notation "- x" := (fopp x) : fld. Local Notation "0" := f0 : fld. Local Notation "1" := f1 : fld.
Local Open Scope fld.

Lemma fmul0 : forall x y, x * y = 0 -> x = 0 \/ y = 0.
Proof.
  intros x y H. destruct (feq_dec x 0) as [|Hx]; [left; assumption|right].
  assert (E : y = (x * y) / x) by (field; exact Hx). rewrite E, H. field. exact Hx.
Qed.
Lemma fmul_neq0 : forall x y, x <> 0 -> y <> 0 -> x * y <> 0.
Proof. intros x y Hx Hy H. destruct (fmul0 _ _ H); contradiction. Qed.
Lemma fsub0 : forall x y, x - y = 0 -> x = y.
Proof. intros x y H. replace x with (x - y + y) by ring. rewrite H. ring. Qed.

(** ** Polynomials: coefficient lists, compared coefficient by coefficient *)
Definition poly := list F.
Definition cf (p : poly) (n : nat) : F := nth n p 0.
Definition peq (p q : poly) : Prop := forall n, cf p n = cf q n.
Local Infix "==" := peq (at level 70, no associativity).
Global Instance peq_equiv : Equivalence peq.
Proof. split; [intros p n; reflexivity|intros p q H n; symmetry; apply H|intros p q r H1 H2 n; rewrite H1; apply H2]. Qed.

Fixpoint padd (p q : poly) : poly :=
  match p, q with [], _ => q | _, [] => p | a :: p', b :: q' => (a + b) :: padd p' q' end.
Definition psc (c : F) (p : poly) : poly := map (fmul c) p.
Fixpoint pmul (p q : poly) : poly := match p with [] => [] | a :: p' => padd (psc a q) (0 :: pmul p' q) end.
Definition popp (p : poly) : poly := psc (- (1)) p.
Definition psub (p q : poly) : poly := padd p (popp q).

Lemma cf_nil : forall n, cf [] n = 0. Proof. destruct n; reflexivity. Qed.
Lemma cf_padd : forall p q n, cf (padd p q) n = cf p n + cf q n.
Proof.
  unfold cf. induction p as [|a p IH]; intros q n; [cbn; destruct n; cbn; ring|].
  destruct q as [|b q]; [cbn [padd]; destruct n; cbn; ring|]. destruct n as [|n]; cbn; [reflexivity|apply IH].
Qed.
Lemma cf_psc : forall c p n, cf (psc c p) n = c * cf p n.
Proof. unfold cf, psc. induction p as [|a p IH]; intros [|n]; cbn; try ring. apply IH. Qed.
Lemma cf_S : forall a p n, cf (a :: p) (S n) = cf p n. Proof. reflexivity. Qed.
Lemma cf_0 : forall a p, cf (a :: p) O = a. Proof. reflexivity. Qed.
Lemma cf_mul0 : forall a p q, cf (pmul (a :: p) q) O = a * cf q O.
Proof. intros. cbn [pmul]. rewrite cf_padd, cf_psc, cf_0. ring. Qed.
Lemma cf_mulS : forall a p q n, cf (pmul (a :: p) q) (S n) = a * cf q (S n) + cf (pmul p q) n.
Proof. intros. cbn [pmul]. rewrite cf_padd, cf_psc, cf_S. reflexivity. Qed.

Lemma pmul_nil_r : forall p n, cf (pmul p []) n = 0.
Proof. induction p as [|a p IH]; intros n; [apply cf_nil|]. destruct n; [rewrite cf_mul0, cf_nil; ring|rewrite cf_mulS, cf_nil, IH; ring]. Qed.
Lemma pmul_cons_r : forall p b q n, cf (pmul p (b :: q)) n = b * cf p n + match n with O => 0 | S m => cf (pmul p q) m end.
Proof.
  induction p as [|a p IH]; intros b q n; [cbn [pmul]; destruct n; rewrite ?cf_nil; ring|].
  destruct n as [|n]; [rewrite cf_mul0, !cf_0; ring|]. rewrite cf_mulS, IH, !cf_S.
  destruct n as [|n]; [rewrite cf_mul0; ring|rewrite cf_mulS; ring].
Qed.
Lemma pmul_comm : forall p q, pmul p q == pmul q p.
Proof.
  induction p as [|a p IH]; intros q n; [rewrite pmul_nil_r; apply cf_nil|]. rewrite pmul_cons_r.
  destruct n as [|n]; [rewrite cf_mul0; ring|rewrite cf_mulS, IH; ring].
Qed.
Lemma pmul_ext_r : forall p q q', q == q' -> pmul p q == pmul p q'.
Proof.
  induction p as [|a p IH]; intros q q' H n; [reflexivity|]. destruct n as [|n]; [rewrite !cf_mul0, H; reflexivity|]. rewrite !cf_mulS, H, (IH q q' H). reflexivity.
Qed.
Global Instance padd_m : Proper (peq ==> peq ==> peq) padd.
Proof. intros p p' Hp q q' Hq n. rewrite !cf_padd, Hp, Hq. reflexivity. Qed.
Global Instance pmul_m : Proper (peq ==> peq ==> peq) pmul.
Proof. intros p p' Hp q q' Hq. rewrite (pmul_ext_r p q q' Hq), (pmul_comm p), (pmul_comm p'). apply pmul_ext_r. exact Hp. Qed.
Global Instance popp_m : Proper (peq ==> peq) popp.
Proof. intros p p' Hp n. unfold popp. rewrite !cf_psc, Hp. reflexivity. Qed.
Global Instance psub_m : Proper (peq ==> peq ==> peq) psub.
Proof. intros p p' Hp q q' Hq. unfold psub. rewrite Hp, Hq. reflexivity. Qed.
Lemma pmul_distr : forall p q r, pmul (padd p q) r == padd (pmul p r) (pmul q r).
Proof.
  induction p as [|a p IH]; intros q r n; [rewrite cf_padd; cbn [padd pmul]; rewrite cf_nil; ring|].
  destruct q as [|b q]; [cbn [padd]; rewrite cf_padd; cbn [pmul]; rewrite cf_nil; ring|].
  cbn [padd]. rewrite cf_padd. destruct n as [|n]; [rewrite !cf_mul0; ring|]. rewrite !cf_mulS, IH, cf_padd. ring.
Qed.
Lemma pmul_sc : forall c p q n, cf (pmul (psc c p) q) n = c * cf (pmul p q) n.
Proof.
  intros c. induction p as [|a p IH]; intros q n; [cbn [psc map pmul]; rewrite cf_nil; ring|]. cbn [psc map]. fold (psc c p).
  destruct n as [|n]; [rewrite !cf_mul0; ring|rewrite !cf_mulS, IH; ring].
Qed.
Lemma pmul_shift : forall p q n, cf (pmul (0 :: p) q) n = match n with O => 0 | S m => cf (pmul p q) m end.
Proof. intros p q [|n]; [rewrite cf_mul0; ring|rewrite cf_mulS; ring]. Qed.
Lemma pmul_assoc : forall p q r, pmul p (pmul q r) == pmul (pmul p q) r.
Proof.
  induction p as [|a p IH]; intros q r n; [reflexivity|].
  change (pmul (a :: p) q) with (padd (psc a q) (0 :: pmul p q)). rewrite (pmul_distr _ _ _ n), cf_padd, pmul_sc, pmul_shift.
  destruct n as [|n]; [rewrite cf_mul0; ring|rewrite cf_mulS, (IH q r n); ring].
Qed.
Lemma pmul_1 : forall p, pmul [1] p == p.
Proof. intros p n. destruct n; [rewrite cf_mul0; ring|rewrite cf_mulS; cbn [pmul]; rewrite cf_nil; ring]. Qed.
Lemma poly_ring : ring_theory (R := poly) [] [1] padd pmul psub popp peq.
Proof.
  constructor.
  - intros p n. rewrite cf_padd, cf_nil. ring.
  - intros p q n. rewrite !cf_padd. ring.
  - intros p q r n. rewrite !cf_padd. ring.
  - exact pmul_1.
  - exact pmul_comm.
  - exact pmul_assoc.
  - exact pmul_distr.
  - intros p q. reflexivity.
  - intros p n. rewrite cf_padd. unfold popp. rewrite cf_psc, cf_nil. ring.
Qed.
Lemma poly_ext : ring_eq_ext padd pmul popp peq.
Proof. constructor; [exact padd_m|exact pmul_m|exact popp_m]. Qed.
Add Ring PolyR : poly_ring (setoid peq_equiv poly_ext).

(** degree and leading coefficient *)
Definition lead (p : poly) (d : nat) (c : F) : Prop := c <> 0 /\ cf p d = c /\ forall n, (d < n)%nat -> cf p n = 0.
Lemma lead_ext : forall p q d c, p == q -> lead p d c -> lead q d c.
Proof. intros p q d c H (H1 & H2 & H3). split; [exact H1|]. split; [rewrite <- H; exact H2|]. intros n Hn. rewrite <- H. apply H3. exact Hn. Qed.
Lemma lead_ex : forall p, p == [] \/ exists d c, lead p d c.
Proof.
  induction p as [|a p [H|(d & c & H1 & H2 & H3)]]; [left; reflexivity| |].
  - destruct (feq_dec a 0) as [->|Ha]; [left|right].
    + intros [|n]; [reflexivity|]. rewrite cf_S, H, !cf_nil. reflexivity.
    + exists O, a. split; [exact Ha|]. split; [reflexivity|]. intros [|n] Hn; [lia|]. rewrite cf_S, H, cf_nil. reflexivity.
  - right. exists (S d), c. split; [exact H1|]. split; [exact H2|]. intros [|n] Hn; [lia|]. rewrite cf_S. apply H3. lia.
Qed.
Lemma lead_nil : forall d c, ~ lead [] d c.
Proof. intros d c (H1 & H2 & _). rewrite cf_nil in H2. congruence. Qed.
Lemma lead_uniq : forall p d c e k, lead p d c -> lead p e k -> d = e /\ c = k.
Proof.
  intros p d c e k (H1 & H2 & H3) (K1 & K2 & K3). destruct (Nat.lt_trichotomy d e) as [H|[H|H]].
  - rewrite (H3 e H) in K2. congruence.
  - subst e. split; congruence.
  - rewrite (K3 d H) in H2. congruence.
Qed.
Lemma zero_mul : forall p q, (forall n, cf p n = 0) -> forall n, cf (pmul p q) n = 0.
Proof. intros p q H n. assert (E : p == []) by (intros m; rewrite H, cf_nil; reflexivity). rewrite (pmul_m _ _ E q q ltac:(reflexivity) n). apply cf_nil. Qed.
Lemma lead_mul : forall p q d c e k, lead p d c -> lead q e k -> lead (pmul p q) (d + e) (c * k).
Proof.
  induction p as [|a p IH]; intros q d c e k Hp Hq; [destruct (lead_nil _ _ Hp)|].
  pose proof Hp as (H1 & H2 & H3). pose proof Hq as (K1 & K2 & K3). destruct d as [|d].
  - rewrite cf_0 in H2. subst a. assert (Hz : forall n, cf p n = 0) by (intros n; specialize (H3 (S n)); rewrite cf_S in H3; apply H3; lia).
    split; [apply fmul_neq0; assumption|]. cbn [plus Nat.add]. split.
    + destruct e as [|e]; [rewrite cf_mul0, K2; reflexivity|]. rewrite cf_mulS, K2, (zero_mul p q Hz). ring.
    + intros [|n] Hn; [lia|]. rewrite cf_mulS, (K3 (S n)), (zero_mul p q Hz) by lia. ring.
  - assert (Hp' : lead p d c). { split; [exact H1|]. split; [exact H2|]. intros n Hn. specialize (H3 (S n)). rewrite cf_S in H3. apply H3. lia. }
    destruct (IH q d c e k Hp' Hq) as (I1 & I2 & I3). split; [exact I1|]. cbn [Nat.add]. split.
    + rewrite cf_mulS, I2, (K3 (S (d + e))) by lia. ring.
    + intros [|n] Hn; [lia|]. rewrite cf_mulS, (K3 (S n)), I3 by lia. ring.
Qed.

(** ** The coordinate ring: u + vY *)
Context (a b : F).
Definition cubic : poly := [b; a; 0; 1].
Definition R : Type := (poly * poly)%type.
Definition req (h k : R) : Prop := fst h == fst k /\ snd h == snd k.
Local Infix "=~" := req (at level 70, no associativity).
Definition rz : R := ([], []).
Definition ro : R := ([1], []).
Definition radd (h k : R) : R := (padd (fst h) (fst k), padd (snd h) (snd k)).
Definition rmul (h k : R) : R :=
  (padd (pmul (fst h) (fst k)) (pmul (pmul (snd h) (snd k)) cubic), padd (pmul (fst h) (snd k)) (pmul (snd h) (fst k))).
Definition ropp (h : R) : R := (popp (fst h), popp (snd h)).
Definition rsub (h k : R) : R := (psub (fst h) (fst k), psub (snd h) (snd k)).
Global Instance req_equiv : Equivalence req.
Proof.
  split; [intros h; split; reflexivity|intros h k [H1 H2]; split; symmetry; assumption|].
  intros h k l [H1 H2] [H3 H4]. split; [rewrite H1; exact H3|rewrite H2; exact H4].
Qed.
Global Instance radd_m : Proper (req ==> req ==> req) radd.
Proof. intros h h' [H1 H2] k k' [K1 K2]. split; cbn; [rewrite H1, K1|rewrite H2, K2]; reflexivity. Qed.
Global Instance rmul_m : Proper (req ==> req ==> req) rmul.
Proof. intros h h' [H1 H2] k k' [K1 K2]. split; cbn [rmul fst snd]; rewrite H1, H2, K1, K2; reflexivity. Qed.
Global Instance ropp_m : Proper (req ==> req) ropp.
Proof. intros h h' [H1 H2]. split; cbn; [rewrite H1|rewrite H2]; reflexivity. Qed.
Global Instance rsub_m : Proper (req ==> req ==> req) rsub.
Proof. intros h h' [H1 H2] k k' [K1 K2]. split; cbn [rsub fst snd]; [rewrite H1, K1|rewrite H2, K2]; reflexivity. Qed.
Lemma r_ring : ring_theory rz ro radd rmul rsub ropp req.
Proof.
  constructor; repeat intros [? ?]; split; cbn [rz ro radd rmul rsub ropp fst snd]; ring.
Qed.
Lemma r_ext : ring_eq_ext radd rmul ropp req.
Proof. constructor; [exact radd_m|exact rmul_m|exact ropp_m]. Qed.
Add Ring RR : r_ring (setoid req_equiv r_ext).

(** constants, X and Y *)
Definition cst (c : F) : R := ([c], []).
Definition rX : R := ([0; 1], []).
Definition rY : R := ([], [1]).
Lemma cst_add : forall c d, cst (c + d) =~ radd (cst c) (cst d).
Proof. intros. split; intros [|[|n]]; reflexivity. Qed.
Lemma cst_mul : forall c d, cst (c * d) =~ rmul (cst c) (cst d).
Proof. intros. split; intros [|[|n]]; cbn; try reflexivity; ring. Qed.
Lemma cst_sub : forall c d, cst (c - d) =~ rsub (cst c) (cst d).
Proof. intros. split; intros [|[|n]]; cbn; try reflexivity; ring. Qed.
Lemma cst_opp : forall c, cst (- c) =~ ropp (cst c).
Proof. intros. split; intros [|[|n]]; cbn; try reflexivity; ring. Qed.
Lemma cst_0 : cst 0 =~ rz.
Proof. split; intros [|[|n]]; reflexivity. Qed.
Lemma cst_1 : cst 1 =~ ro.
Proof. split; intros [|[|n]]; reflexivity. Qed.
Lemma rY2 : rmul rY rY =~ radd (radd (rmul rX (rmul rX rX)) (rmul (cst a) rX)) (cst b).
Proof. split; intros [|[|[|[|n]]]]; cbn; try reflexivity; try ring. Qed.

(** evaluation at a point of the curve *)
Fixpoint pev (p : poly) (x : F) : F := match p with [] => 0 | c :: t => c + x * pev t x end.
Lemma pev_add : forall p q x, pev (padd p q) x = pev p x + pev q x.
Proof. induction p as [|c p IH]; intros [|d q] x; cbn [padd pev]; try ring. rewrite IH. ring. Qed.
Lemma pev_sc : forall c p x, pev (psc c p) x = c * pev p x.
Proof. intros c. induction p as [|d p IH]; intros x; cbn [psc map pev]; [ring|]. fold (psc c p). rewrite IH. ring. Qed.
Lemma pev_mul : forall p q x, pev (pmul p q) x = pev p x * pev q x.
Proof. induction p as [|c p IH]; intros q x; cbn [pmul pev]; [ring|]. rewrite pev_add, pev_sc. cbn [pev]. rewrite IH. ring. Qed.
Lemma pev_ext : forall p q x, p == q -> pev p x = pev q x.
Proof.
  assert (Z : forall p x, p == [] -> pev p x = 0).
  { induction p as [|c p IH]; intros x H; [reflexivity|]. cbn [pev]. rewrite IH.
    - pose proof (H O) as H0. rewrite cf_0, cf_nil in H0. rewrite H0. ring.
    - intros n. specialize (H (S n)). rewrite cf_S in H. rewrite H, !cf_nil. reflexivity. }
  intros p q x H. apply fsub0. assert (E : psub p q == []) by (rewrite H; ring).
  pose proof (Z _ x E) as HZ. unfold psub, popp in HZ. rewrite pev_add, pev_sc in HZ. rewrite <- HZ. ring.
Qed.
Definition onC (x y : F) : Prop := y * y = x * x * x + a * x + b.
Definition rev (h : R) (x y : F) : F := pev (fst h) x + y * pev (snd h) x.
Lemma rev_ext : forall h k x y, h =~ k -> rev h x y = rev k x y.
Proof. intros h k x y [H1 H2]. unfold rev. rewrite (pev_ext _ _ x H1), (pev_ext _ _ x H2). reflexivity. Qed.
Lemma rev_add : forall h k x y, rev (radd h k) x y = rev h x y + rev k x y.
Proof. intros. unfold rev. cbn [radd fst snd]. rewrite !pev_add. ring. Qed.
Lemma rev_mul : forall h k x y, onC x y -> rev (rmul h k) x y = rev h x y * rev k x y.
Proof.
  intros h k x y Hc. unfold rev. cbn [rmul fst snd]. rewrite !pev_add, !pev_mul. cbn [cubic pev].
  replace (b + x * (a + x * (0 + x * (1 + x * 0)))) with (y * y) by (unfold onC in Hc; rewrite Hc; ring). ring.
Qed.

(** ** The norm and its degree *)
Definition nrm (h : R) : poly := psub (pmul (fst h) (fst h)) (pmul cubic (pmul (snd h) (snd h))).
Lemma nrm_mul : forall h k, nrm (rmul h k) == pmul (nrm h) (nrm k).
Proof. intros [u v] [u' v']. unfold nrm. cbn [rmul fst snd]. ring. Qed.
Lemma nrm_ext : forall h k, h =~ k -> nrm h == nrm k.
Proof. intros h k [H1 H2]. unfold nrm. rewrite H1, H2. reflexivity. Qed.
Lemma one_neq0 : (1 : F) <> 0. Proof. exact (F_1_neq_0 FT). Qed.
Lemma cubic_lead : lead cubic 3 1.
Proof. split; [exact one_neq0|]. split; [reflexivity|]. intros [|[|[|[|[|n]]]]] Hn; try lia; reflexivity. Qed.
Lemma fopp_neq0 : forall x, x <> 0 -> - x <> 0.
Proof. intros x H E. apply H. replace x with (- - x) by ring. rewrite E. ring. Qed.
Lemma cf_psub : forall p q n, cf (psub p q) n = cf p n - cf q n.
Proof. intros. unfold psub, popp. rewrite cf_padd, cf_psc. ring. Qed.
(** the norm of u + vY: degree 2 deg u or 2 deg v + 3, whichever is larger *)
Lemma nrm_cases : forall h,
  h =~ rz \/
  (exists i c, lead (fst h) i c /\ (forall j k, lead (snd h) j k -> (2 * j + 3 < 2 * i)%nat) /\ lead (nrm h) (2 * i) (c * c)) \/
  (exists j c, lead (snd h) j c /\ exists k, lead (nrm h) (2 * j + 3) k).
Proof.
  intros [u v]. cbn [fst snd]. unfold nrm. cbn [fst snd].
  destruct (lead_ex u) as [Hu|(i & c & Hu)], (lead_ex v) as [Hv|(j & d & Hv)].
  - left. split; assumption.
  - right; right. exists j, d. split; [exact Hv|].
    pose proof (lead_mul _ _ _ _ _ _ cubic_lead (lead_mul _ _ _ _ _ _ Hv Hv)) as (K1 & K2 & K3).
    assert (E : psub (pmul u u) (pmul cubic (pmul v v)) == psub [] (pmul cubic (pmul v v))) by (rewrite Hu; ring).
    exists (- (1 * (d * d))). apply (lead_ext _ _ _ _ (symmetry E)). split; [apply fopp_neq0; exact K1|].
    replace (2 * j + 3)%nat with (3 + (j + j))%nat by lia. split; [rewrite cf_psub, K2, cf_nil; ring|].
    intros n Hn. rewrite cf_psub, K3, cf_nil by exact Hn. ring.
  - right; left. exists i, c. split; [exact Hu|]. split.
    + intros j k Hk. destruct (lead_nil j k). exact (lead_ext _ _ _ _ Hv Hk).
    + assert (E : psub (pmul u u) (pmul cubic (pmul v v)) == pmul u u) by (rewrite Hv; ring).
      apply (lead_ext _ _ _ _ (symmetry E)). replace (2 * i)%nat with (i + i)%nat by lia. exact (lead_mul _ _ _ _ _ _ Hu Hu).
  - pose proof (lead_mul _ _ _ _ _ _ Hu Hu) as (L1 & L2 & L3).
    pose proof (lead_mul _ _ _ _ _ _ cubic_lead (lead_mul _ _ _ _ _ _ Hv Hv)) as (K1 & K2 & K3).
    destruct (Nat.lt_ge_cases (2 * j + 3) (2 * i)) as [H|H]; right; [left|right].
    + exists i, c. split; [exact Hu|]. split; [intros j' k Hk; destruct (lead_uniq _ _ _ _ _ Hv Hk) as [<- _]; exact H|].
      split; [exact L1|]. replace (2 * i)%nat with (i + i)%nat by lia. split; [rewrite cf_psub, L2, K3 by lia; ring|].
      intros n Hn. rewrite cf_psub, L3, K3 by lia. ring.
    + exists j, d. split; [exact Hv|]. exists (- (1 * (d * d))). split; [apply fopp_neq0; exact K1|].
      replace (2 * j + 3)%nat with (3 + (j + j))%nat by lia. split; [rewrite cf_psub, K2, L3 by lia; ring|].
      intros n Hn. rewrite cf_psub, L3, K3 by lia. ring.
Qed.
Lemma nrm_lead : forall h, h =~ rz \/ exists d c, lead (nrm h) d c /\ d <> 1%nat.
Proof.
  intros h. destruct (nrm_cases h) as [H|[(i & c & _ & _ & H)|(j & c & _ & k & H)]]; [left; exact H| |].
  - right. exists (2 * i)%nat, (c * c). split; [exact H|lia].
  - right. exists (2 * j + 3)%nat, k. split; [exact H|lia].
Qed.
Lemma nrm_rz : forall h, h =~ rz -> nrm h == [].
Proof. intros h H. rewrite (nrm_ext _ _ H). unfold nrm. cbn [rz fst snd]. ring. Qed.
(** a domain *)
Lemma r_domain : forall h k, rmul h k =~ rz -> h =~ rz \/ k =~ rz.
Proof.
  intros h k H. destruct (nrm_lead h) as [|(d & c & Hh & _)]; [left; assumption|].
  destruct (nrm_lead k) as [|(e & m & Hk & _)]; [right; assumption|exfalso].
  pose proof (lead_ext _ _ _ _ (symmetry (nrm_mul h k)) (lead_mul _ _ _ _ _ _ Hh Hk)) as HL.
  apply (lead_nil (d + e) (c * m)). exact (lead_ext _ _ _ _ (nrm_rz _ H) HL).
Qed.
Lemma r_cancel : forall p h k, ~ p =~ rz -> rmul p h =~ rmul p k -> h =~ k.
Proof.
  intros p h k Hp H. destruct (r_domain p (rsub h k)) as [E|E].
  - transitivity (rsub (rmul p h) (rmul p k)); [ring|rewrite H; ring].
  - contradiction.
  - transitivity (radd (rsub h k) k); [ring|rewrite E; ring].
Qed.
Lemma r_nonzero_mul : forall p q, ~ p =~ rz -> ~ q =~ rz -> ~ rmul p q =~ rz.
Proof. intros p q Hp Hq H. destruct (r_domain _ _ H); contradiction. Qed.
(** norm of degree 0: a constant *)
Lemma nrm_const : forall h c, lead (nrm h) 0 c -> exists e, e <> 0 /\ h =~ cst e.
Proof.
  intros h c H. destruct (nrm_cases h) as [E|[(i & d & Hu & Hv & HN)|(j & d & _ & k & HN)]].
  - destruct (lead_nil 0 c). exact (lead_ext _ _ _ _ (nrm_rz _ E) H).
  - destruct (lead_uniq _ _ _ _ _ H HN) as [Hi _]. assert (i = 0)%nat by lia. subst i.
    exists d. split; [apply Hu|]. split; cbn [cst fst snd].
    + intros [|n]; [apply Hu|]. destruct Hu as (_ & _ & Hu). rewrite (Hu (S n)) by lia. rewrite cf_S, cf_nil. reflexivity.
    + destruct (lead_ex (snd h)) as [E|(j & k & Hk)]; [exact E|]. specialize (Hv j k Hk). lia.
  - destruct (lead_uniq _ _ _ _ _ H HN) as [Hi _]. lia.
Qed.

(** ** Ideals up to principal factors *)
Definition ideal : Type := R -> Prop.
Record IsIdeal (I : ideal) : Prop := {
  id_ext : forall h k, h =~ k -> I h -> I k;
  id_add : forall h k, I h -> I k -> I (radd h k);
  id_mul : forall r h, I h -> I (rmul r h);
  id_0 : I rz
}.
Inductive iprod (I J : ideal) : ideal :=
| ip_0 : iprod I J rz
| ip_mul : forall h k, I h -> J k -> iprod I J (rmul h k)
| ip_add : forall h k, iprod I J h -> iprod I J k -> iprod I J (radd h k)
| ip_r : forall r h, iprod I J h -> iprod I J (rmul r h)
| ip_ext : forall h k, h =~ k -> iprod I J h -> iprod I J k.
Lemma iprod_ideal : forall I J, IsIdeal (iprod I J).
Proof. intros I J. constructor; [exact (ip_ext I J)|exact (ip_add I J)|exact (ip_r I J)|exact (ip_0 I J)]. Qed.
Definition whole : ideal := fun _ => True.
Lemma whole_ideal : IsIdeal whole. Proof. constructor; intros; exact I. Qed.

(** p I is contained in q J *)
Definition below (p q : R) (I J : ideal) : Prop := forall h, I h -> exists k, J k /\ rmul p h =~ rmul q k.
Definition same (I J : ideal) : Prop := exists p q, ~ p =~ rz /\ ~ q =~ rz /\ below p q I J /\ below q p J I.
Lemma ro_nz : ~ ro =~ rz.
Proof. intros [H _]. specialize (H O). cbn in H. exact (one_neq0 H). Qed.
Lemma same_refl : forall I, same I I.
Proof. intros I. exists ro, ro. repeat split; try exact ro_nz; intros h H; exists h; (split; [exact H|reflexivity]). Qed.
Lemma same_sym : forall I J, same I J -> same J I.
Proof. intros I J (p & q & Hp & Hq & H1 & H2). exists q, p. auto. Qed.
Lemma below_trans : forall p q p' q' I J K, below p q I J -> below p' q' J K -> below (rmul p' p) (rmul q q') I K.
Proof.
  intros p q p' q' I J K H1 H2 h Hh. destruct (H1 h Hh) as (k & Hk & E1). destruct (H2 k Hk) as (l & Hl & E2). exists l. split; [exact Hl|].
  transitivity (rmul p' (rmul p h)); [ring|]. rewrite E1. transitivity (rmul q (rmul p' k)); [ring|]. rewrite E2. ring.
Qed.
Lemma below_ext : forall p q p' q' I J, p =~ p' -> q =~ q' -> below p q I J -> below p' q' I J.
Proof. intros p q p' q' I J Hp Hq H h Hh. destruct (H h Hh) as (k & Hk & E). exists k. split; [exact Hk|]. rewrite <- Hp, <- Hq. exact E. Qed.
Lemma same_trans : forall I J K, same I J -> same J K -> same I K.
Proof.
  intros I J K (p & q & Hp & Hq & H1 & H2) (p' & q' & Hp' & Hq' & H3 & H4).
  exists (rmul p' p), (rmul q q'). repeat split; try (apply r_nonzero_mul; assumption).
  - exact (below_trans _ _ _ _ _ _ _ H1 H3).
  - refine (below_ext _ _ _ _ _ _ _ _ (below_trans _ _ _ _ _ _ _ H4 H2)); ring.
Qed.
Lemma below_prod : forall p q I I' J, below p q I I' -> below p q (iprod I J) (iprod I' J).
Proof.
  intros p q I I' J H h Hh. induction Hh as [|h k Hh Hk|h k _ (h' & Hh' & E1) _ (k' & Hk' & E2)|r h _ (h' & Hh' & E1)|h k E _ (h' & Hh' & E1)].
  - exists rz. split; [apply ip_0|ring].
  - destruct (H h Hh) as (h' & Hh' & E). exists (rmul h' k). split; [apply ip_mul; assumption|].
    transitivity (rmul (rmul p h) k); [ring|rewrite E; ring].
  - exists (radd h' k'). split; [apply ip_add; assumption|]. transitivity (radd (rmul p h) (rmul p k)); [ring|rewrite E1, E2; ring].
  - exists (rmul r h'). split; [apply ip_r; assumption|]. transitivity (rmul r (rmul p h)); [ring|rewrite E1; ring].
  - exists h'. split; [exact Hh'|]. rewrite <- E. exact E1.
Qed.
Lemma same_prod_l : forall I I' J, same I I' -> same (iprod I J) (iprod I' J).
Proof. intros I I' J (p & q & Hp & Hq & H1 & H2). exists p, q. repeat split; try assumption; apply below_prod; assumption. Qed.
Lemma sub_same : forall I J : ideal, (forall h, I h -> J h) -> (forall h, J h -> I h) -> same I J.
Proof. intros I J H1 H2. exists ro, ro. repeat split; try exact ro_nz; intros h H; exists h; (split; [auto|reflexivity]). Qed.
Lemma iprod_comm1 : forall I J h, iprod I J h -> iprod J I h.
Proof.
  intros I J h H. induction H; [apply ip_0|apply (ip_ext _ _ (rmul k h)); [ring|apply ip_mul; assumption]|apply ip_add; assumption|apply ip_r; assumption|].
  apply (ip_ext _ _ h); assumption.
Qed.
Lemma same_comm : forall I J, same (iprod I J) (iprod J I).
Proof. intros. apply sub_same; apply iprod_comm1. Qed.
Lemma same_prod_r : forall I J J', same J J' -> same (iprod I J) (iprod I J').
Proof. intros I J J' H. apply (same_trans _ (iprod J I)); [apply same_comm|]. apply (same_trans _ (iprod J' I)); [apply same_prod_l; exact H|apply same_comm]. Qed.
Lemma iprod_assoc1 : forall I J K h, iprod (iprod I J) K h -> iprod I (iprod J K) h.
Proof.
  intros I J K h H. induction H as [|h k Hh Hk|h k _ IH1 _ IH2|r h _ IH|h k E _ IH].
  - apply ip_0.
  - induction Hh as [|h l Hh Hl|h l _ IH1 _ IH2|r h _ IH|h l E _ IH].
    + apply (ip_ext _ _ rz); [ring|apply ip_0].
    + apply (ip_ext _ _ (rmul h (rmul l k))); [ring|]. apply ip_mul; [exact Hh|]. apply ip_mul; assumption.
    + apply (ip_ext _ _ (radd (rmul h k) (rmul l k))); [ring|]. apply ip_add; assumption.
    + apply (ip_ext _ _ (rmul r (rmul h k))); [ring|]. apply ip_r; assumption.
    + apply (ip_ext _ _ (rmul h k)); [rewrite E; reflexivity|assumption].
  - apply ip_add; assumption.
  - apply ip_r; assumption.
  - apply (ip_ext _ _ h); assumption.
Qed.
Lemma iprod_mono : forall (I I' J J' : ideal) h, (forall x, I x -> I' x) -> (forall x, J x -> J' x) -> iprod I J h -> iprod I' J' h.
Proof.
  intros I I' J J' h H1 H2 H. induction H; [apply ip_0|apply ip_mul; auto|apply ip_add; assumption|apply ip_r; assumption|].
  apply (ip_ext _ _ h); assumption.
Qed.
Lemma iprod_assoc2 : forall I J K h, iprod I (iprod J K) h -> iprod (iprod I J) K h.
Proof.
  intros I J K h H. apply iprod_comm1 in H. apply (iprod_mono _ (iprod K J) _ I) in H; [|apply iprod_comm1|auto].
  apply iprod_assoc1, iprod_comm1 in H. revert H. apply iprod_mono; [|auto]. apply iprod_comm1.
Qed.
Lemma same_assoc : forall I J K, same (iprod (iprod I J) K) (iprod I (iprod J K)).
Proof. intros. apply sub_same; [apply iprod_assoc1|apply iprod_assoc2]. Qed.
Lemma same_whole : forall I, IsIdeal I -> same (iprod whole I) I.
Proof.
  intros I HI. apply sub_same; intros h H.
  - induction H; [apply (id_0 _ HI)|apply (id_mul _ HI); assumption|apply (id_add _ HI); assumption|apply (id_mul _ HI); assumption|].
    apply (id_ext _ HI h); assumption.
  - apply (ip_ext _ _ (rmul ro h)); [ring|]. apply ip_mul; [exact Coq.Init.Logic.I|exact H].
Qed.

(** the ideal generated by two elements *)
Definition gen2 (g k : R) : ideal := fun h => exists u v, h =~ radd (rmul u g) (rmul v k).
Lemma gen2_ideal : forall g k, IsIdeal (gen2 g k).
Proof.
  intros g k. constructor.
  - intros h l E (u & v & H). exists u, v. rewrite <- E. exact H.
  - intros h l (u & v & H) (u' & v' & H'). exists (radd u u'), (radd v v'). rewrite H, H'. ring.
  - intros r h (u & v & H). exists (rmul r u), (rmul r v). rewrite H. ring.
  - exists rz, rz. ring.
Qed.
Lemma gen2_l : forall g k, gen2 g k g. Proof. intros. exists ro, rz. ring. Qed.
Lemma gen2_r : forall g k, gen2 g k k. Proof. intros. exists rz, ro. ring. Qed.
(** the product of two such ideals is below J when the four products are *)
Lemma below_gen : forall p q g k g' k' J, IsIdeal J ->
  (forall h, In h [rmul g g'; rmul g k'; rmul k g'; rmul k k'] -> exists l, J l /\ rmul p h =~ rmul q l) ->
  below p q (iprod (gen2 g k) (gen2 g' k')) J.
Proof.
  intros p q g k g' k' J HJ H h Hh.
  destruct (H (rmul g g')) as (l1 & J1 & E1); [cbn; auto|]. destruct (H (rmul g k')) as (l2 & J2 & E2); [cbn; auto|].
  destruct (H (rmul k g')) as (l3 & J3 & E3); [cbn; auto|]. destruct (H (rmul k k')) as (l4 & J4 & E4); [cbn; auto|].
  induction Hh as [|h l (u & v & Eh) (u' & v' & El)|h l _ (h' & Hh' & F1) _ (l' & Hl' & F2)|r h _ (h' & Hh' & F1)|h l E _ (h' & Hh' & F1)].
  - exists rz. split; [apply (id_0 _ HJ)|ring].
  - exists (radd (radd (rmul (rmul u u') l1) (rmul (rmul u v') l2)) (radd (rmul (rmul v u') l3) (rmul (rmul v v') l4))).
    split; [repeat apply (id_add _ HJ); apply (id_mul _ HJ); assumption|]. rewrite Eh, El.
    transitivity (radd (radd (rmul (rmul u u') (rmul p (rmul g g'))) (rmul (rmul u v') (rmul p (rmul g k')))) (radd (rmul (rmul v u') (rmul p (rmul k g'))) (rmul (rmul v v') (rmul p (rmul k k'))))); [ring|].
    rewrite E1, E2, E3, E4. ring.
  - exists (radd h' l'). split; [apply (id_add _ HJ); assumption|]. transitivity (radd (rmul p h) (rmul p l)); [ring|rewrite F1, F2; ring].
  - exists (rmul r h'). split; [apply (id_mul _ HJ); assumption|]. transitivity (rmul r (rmul p h)); [ring|rewrite F1; ring].
  - exists h'. split; [exact Hh'|]. rewrite <- E. exact F1.
Qed.
Lemma below_gen2 : forall p q g k J, IsIdeal J ->
  (exists l, J l /\ rmul p g =~ rmul q l) -> (exists l, J l /\ rmul p k =~ rmul q l) -> below p q (gen2 g k) J.
Proof.
  intros p q g k J HJ (l1 & J1 & E1) (l2 & J2 & E2) h (u & v & Eh).
  exists (radd (rmul u l1) (rmul v l2)). split; [apply (id_add _ HJ); apply (id_mul _ HJ); assumption|]. rewrite Eh.
  transitivity (radd (rmul u (rmul p g)) (rmul v (rmul p k))); [ring|rewrite E1, E2; ring].
Qed.

(** ** The group law *)
Definition point : Type := option (F * F).
Definition onE (P : point) : Prop := match P with None => True | Some (x, y) => onC x y end.
Definition ptNeg (P : point) : point := match P with None => None | Some (x, y) => Some (x, - y) end.
(** the third intersection of the line of slope m through (x1, y1) and (x2, _), reflected *)
Definition third (m x1 y1 x2 : F) : point := let x3 := m * m - x1 - x2 in Some (x3, m * (x1 - x3) - y1).
Definition ptAdd (P Q : point) : point :=
  match P, Q with
  | None, _ => Q
  | _, None => P
  | Some (x1, y1), Some (x2, y2) =>
      if feq_dec x1 x2 then
        if feq_dec (y1 + y2) 0 then None
        else third (((1 + 1 + 1) * (x1 * x1) + a) / ((1 + 1) * y1)) x1 y1 x2
      else third ((y2 - y1) / (x2 - x1)) x1 y1 x2
  end.

Context (two : 1 + 1 <> (0 : F)) (smooth : (1 + 1) * (1 + 1) * (a * a * a) + (1 + 1 + 1) * (1 + 1 + 1) * (1 + 1 + 1) * (b * b) <> 0).

Definition cls (P : point) : ideal :=
  match P with None => whole | Some (x, y) => gen2 (rsub rX (cst x)) (rsub rY (cst y)) end.
Lemma cls_ideal : forall P, IsIdeal (cls P).
Proof. intros [[x y]|]; [apply gen2_ideal|exact whole_ideal]. Qed.
Lemma xm_nz : forall x, ~ rsub rX (cst x) =~ rz.
Proof. intros x [H _]. specialize (H 1%nat). cbn in H. apply one_neq0. rewrite <- H. ring. Qed.
Lemma cst_inv : forall c, c <> 0 -> rmul (cst (1 / c)) (cst c) =~ ro.
Proof. intros c Hc. rewrite <- cst_mul. replace (1 / c * c) with 1 by (field; exact Hc). exact cst_1. Qed.
Lemma cst_two : forall y, cst ((1 + 1) * y) =~ radd (cst y) (cst y).
Proof. intros y. replace ((1 + 1) * y) with (y + y) by ring. apply cst_add. Qed.

Lemma neg_on : forall x y, onC x y -> onC x (- y).
Proof. intros x y H. unfold onC in *. rewrite <- H. ring. Qed.
Lemma double_zero : forall y, y + y = 0 -> y = 0.
Proof. intros y H. destruct (fmul0 (1 + 1) y) as [E|E]; [rewrite <- H; ring|contradiction|exact E]. Qed.
(** P and -P *)
Lemma key_neg : forall x y, onC x y -> same (iprod (cls (Some (x, y))) (cls (Some (x, - y)))) whole.
Proof.
  intros x y Hc. cbn [cls]. set (U := rsub rX (cst x)).
  exists ro, U. split; [exact ro_nz|]. split; [apply xm_nz|].
  assert (HYY : rmul (rsub rY (cst y)) (rsub rY (cst (- y))) =~ rmul U (radd (radd (rmul rX rX) (rmul (cst x) rX)) (radd (rmul (cst x) (cst x)) (cst a)))).
  { rewrite cst_opp. transitivity (rsub (rmul rY rY) (rmul (cst y) (cst y))); [ring|]. rewrite rY2, <- cst_mul.
    unfold onC in Hc. rewrite Hc, !cst_add, !cst_mul. unfold U. ring. }
  split.
  - apply below_gen; [exact whole_ideal|]. intros h [<-|[<-|[<-|[<-|[]]]]].
    + exists U. split; [exact I|ring].
    + exists (rsub rY (cst (- y))). split; [exact I|ring].
    + exists (rsub rY (cst y)). split; [exact I|ring].
    + eexists. split; [exact I|]. rewrite HYY. transitivity (rmul U (radd (radd (rmul rX rX) (rmul (cst x) rX)) (radd (rmul (cst x) (cst x)) (cst a)))); [ring|reflexivity].
  - intros h _. exists (rmul h U). split; [|ring]. apply ip_r.
    set (I1 := gen2 U (rsub rY (cst y))). set (I2 := gen2 U (rsub rY (cst (- y)))).
    assert (G1 : iprod I1 I2 (rmul U U)) by (apply ip_mul; apply gen2_l).
    assert (G2 : iprod I1 I2 (rmul U (rsub rY (cst (- y))))) by (apply ip_mul; [apply gen2_l|apply gen2_r]).
    assert (G3 : iprod I1 I2 (rmul (rsub rY (cst y)) U)) by (apply ip_mul; [apply gen2_r|apply gen2_l]).
    assert (G4 : iprod I1 I2 (rmul (rsub rY (cst y)) (rsub rY (cst (- y))))) by (apply ip_mul; apply gen2_r).
    destruct (feq_dec y 0) as [Hy|Hy].
    + assert (Hd : (1 + 1 + 1) * (x * x) + a <> 0).
      { intros E. apply smooth. assert (Ha : a = - ((1 + 1 + 1) * (x * x))) by (apply fsub0; rewrite <- E; ring).
        assert (Hb : b = (1 + 1) * (x * x * x)).
        { unfold onC in Hc. rewrite Hy, Ha in Hc. apply fsub0. replace (b - (1 + 1) * (x * x * x)) with (x * x * x + - ((1 + 1 + 1) * (x * x)) * x + b) by ring. rewrite <- Hc. ring. }
        rewrite Hb, Ha. ring. }
      apply (ip_ext _ _ (rmul (cst (1 / ((1 + 1 + 1) * (x * x) + a)))
        (radd (rmul (rsub rY (cst y)) (rsub rY (cst (- y)))) (rmul (ropp (radd rX (cst (x + x)))) (rmul U U))))).
      * rewrite HYY. transitivity (rmul (rmul (cst (1 / ((1 + 1 + 1) * (x * x) + a))) (cst ((1 + 1 + 1) * (x * x) + a))) U); [|rewrite cst_inv by exact Hd; ring].
        assert (E : cst ((1 + 1 + 1) * (x * x) + a) =~ radd (radd (radd (rmul (cst x) (cst x)) (rmul (cst x) (cst x))) (rmul (cst x) (cst x))) (cst a)).
        { rewrite <- !cst_mul, <- !cst_add. replace ((1 + 1 + 1) * (x * x) + a) with (x * x + x * x + x * x + a) by ring. reflexivity. }
        rewrite E, cst_add. unfold U. ring.
      * apply ip_r, ip_add; [exact G4|apply ip_r; exact G1].
    + apply (ip_ext _ _ (rmul (cst (1 / ((1 + 1) * y))) (radd (rmul U (rsub rY (cst (- y)))) (rmul (ropp ro) (rmul (rsub rY (cst y)) U))))).
      * transitivity (rmul (rmul (cst (1 / ((1 + 1) * y))) (cst ((1 + 1) * y))) U); [|rewrite cst_inv; [ring|apply fmul_neq0; assumption]].
        rewrite cst_two, cst_opp. ring.
      * apply ip_r, ip_add; [exact G2|apply ip_r; exact G3].
Qed.

(** the line through two points, given that it lies in the product of their ideals *)
Lemma key_line : forall m x1 y1 x2 y2, onC x1 y1 -> y2 = m * (x2 - x1) + y1 -> a = m * (y1 + y2) - (x1 * x1 + x1 * x2 + x2 * x2) ->
  let l := rsub (rsub rY (rmul (cst m) (rsub rX (cst x1)))) (cst y1) in
  let IJ := iprod (cls (Some (x1, y1))) (cls (Some (x2, y2))) in
  IJ l -> same IJ (cls (third m x1 y1 x2)).
Proof.
  intros m x1 y1 x2 y2 Hc H2 Ha l IJ Hl. unfold third. set (x3 := m * m - x1 - x2). set (y3 := m * (x1 - x3) - y1). cbn [cls].
  set (U1 := rsub rX (cst x1)). set (U2 := rsub rX (cst x2)). set (U3 := rsub rX (cst x3)).
  set (lb := radd (radd rY (rmul (cst m) (rsub rX (cst x1)))) (cst y1)).
  assert (E1 : rsub rY (cst y1) =~ radd l (rmul (cst m) U1)) by (unfold l, U1; ring).
  assert (E2 : rsub rY (cst y2) =~ radd l (rmul (cst m) U2)) by (rewrite H2, cst_add, cst_mul, cst_sub; unfold l, U2; ring).
  assert (E3 : rsub rY (cst y3) =~ rsub lb (rmul (cst m) U3)) by (unfold y3, lb, U3; rewrite cst_sub, cst_mul, cst_sub; ring).
  assert (Hb : b = y1 * y1 - x1 * x1 * x1 - a * x1) by (unfold onC in Hc; rewrite Hc; ring).
  assert (EP : rmul l lb =~ rmul U1 (rmul U2 U3)).
  { transitivity (rsub (rmul rY rY) (rmul (radd (rmul (cst m) (rsub rX (cst x1))) (cst y1)) (radd (rmul (cst m) (rsub rX (cst x1))) (cst y1)))); [unfold l, lb; ring|].
    rewrite rY2.
    assert (CA : cst a =~ rsub (rmul (cst m) (radd (cst y1) (radd (rmul (cst m) (rsub (cst x2) (cst x1))) (cst y1)))) (radd (radd (rmul (cst x1) (cst x1)) (rmul (cst x1) (cst x2))) (rmul (cst x2) (cst x2)))).
    { rewrite Ha at 1. rewrite H2. rewrite cst_sub, cst_mul, !cst_add, !cst_mul, cst_sub. reflexivity. }
    assert (CB : cst b =~ rsub (rsub (rmul (cst y1) (cst y1)) (rmul (rmul (cst x1) (cst x1)) (cst x1))) (rmul (cst a) (cst x1))).
    { rewrite Hb at 1. rewrite !cst_sub, !cst_mul. reflexivity. }
    assert (C3 : cst x3 =~ rsub (rsub (rmul (cst m) (cst m)) (cst x1)) (cst x2)) by (unfold x3; rewrite !cst_sub, cst_mul; reflexivity).
    unfold U1, U2, U3. rewrite CB, CA, C3. ring. }
  exists U3, l. split; [apply xm_nz|]. split.
  { intros [_ H]. specialize (H O). cbn in H. apply one_neq0. rewrite <- H. ring. }
  assert (HJ : IsIdeal (gen2 U3 (rsub rY (cst y3)))) by apply gen2_ideal.
  assert (Hlb : gen2 U3 (rsub rY (cst y3)) lb).
  { apply (id_ext _ HJ (radd (rsub rY (cst y3)) (rmul (cst m) U3))); [rewrite E3; ring|]. apply (id_add _ HJ); [apply gen2_r|apply (id_mul _ HJ), gen2_l]. }
  assert (HU3 : gen2 U3 (rsub rY (cst y3)) U3) by apply gen2_l.
  split.
  - apply below_gen; [exact HJ|]. intros h [<-|[<-|[<-|[<-|[]]]]].
    + exists lb. split; [exact Hlb|]. rewrite EP. fold U1 U2. ring.
    + exists (radd (rmul U1 U3) (rmul (cst m) lb)). split; [apply (id_add _ HJ); apply (id_mul _ HJ); assumption|]. fold U1. rewrite E2.
      transitivity (radd (rmul l (rmul U1 U3)) (rmul (cst m) (rmul U1 (rmul U2 U3)))); [ring|rewrite <- EP; ring].
    + exists (radd (rmul U2 U3) (rmul (cst m) lb)). split; [apply (id_add _ HJ); apply (id_mul _ HJ); assumption|]. fold U2. rewrite E1.
      transitivity (radd (rmul l (rmul U2 U3)) (rmul (cst m) (rmul U1 (rmul U2 U3)))); [ring|rewrite <- EP; ring].
    + exists (radd (rmul (radd l (rmul (cst m) (radd U1 U2))) U3) (rmul (rmul (cst m) (cst m)) lb)). split; [apply (id_add _ HJ); apply (id_mul _ HJ); assumption|].
      rewrite E1, E2.
      transitivity (radd (rmul l (rmul (radd l (rmul (cst m) (radd U1 U2))) U3)) (rmul (rmul (cst m) (cst m)) (rmul U1 (rmul U2 U3)))); [ring|rewrite <- EP; ring].
  - apply below_gen2; [apply iprod_ideal| |].
    + exists l. split; [exact Hl|ring].
    + exists (rsub (rmul U1 U2) (rmul (cst m) l)). split.
      * apply (ip_ext _ _ (radd (rmul U1 U2) (rmul (ropp (cst m)) l))); [ring|]. apply ip_add; [apply ip_mul; apply gen2_l|apply ip_r; exact Hl].
      * rewrite E3. transitivity (rsub (rmul l lb) (rmul U3 (rmul (cst m) l))); [ring|rewrite EP; ring].
Qed.

Lemma y_of_x : forall x y y', onC x y -> onC x y' -> y + y' <> 0 -> y' = y.
Proof.
  intros x y y' H H' Hn. unfold onC in *. destruct (fmul0 (y' - y) (y + y')) as [E|E]; [|apply fsub0; exact E|contradiction].
  replace ((y' - y) * (y + y')) with (y' * y' - y * y) by ring. rewrite H, H'. ring.
Qed.
(** the class of a sum is the product of the classes *)
Lemma key_add : forall P Q, onE P -> onE Q -> same (iprod (cls P) (cls Q)) (cls (ptAdd P Q)).
Proof.
  intros [[x1 y1]|] [[x2 y2]|] HP HQ; cbn [ptAdd].
  - cbn [onE] in HP, HQ. destruct (feq_dec x1 x2) as [<-|Hx].
    + destruct (feq_dec (y1 + y2) 0) as [Hy|Hy].
      * assert (E : y2 = - y1) by (apply fsub0; rewrite <- Hy; ring). subst y2. apply key_neg. exact HP.
      * pose proof (y_of_x _ _ _ HP HQ Hy) as E. subst y2.
        assert (Hy1 : y1 <> 0) by (intros E; apply Hy; rewrite E; ring).
        assert (H2y : (1 + 1) * y1 <> 0) by (apply fmul_neq0; assumption).
        apply key_line; try assumption.
        { ring. } { field. split; assumption. }
        set (m := ((1 + 1 + 1) * (x1 * x1) + a) / ((1 + 1) * y1)). set (U := rsub rX (cst x1)). cbn [cls]. fold U.
        set (l := rsub (rsub rY (rmul (cst m) U)) (cst y1)).
        set (IJ := iprod (gen2 U (rsub rY (cst y1))) (gen2 U (rsub rY (cst y1)))).
        assert (Hla : gen2 U (rsub rY (cst y1)) l) by (exists (ropp (cst m)), ro; unfold l; ring).
        assert (G1 : IJ (rmul U l)) by (apply ip_mul; [apply gen2_l|exact Hla]).
        assert (G2 : IJ (rmul l l)) by (apply ip_mul; exact Hla).
        assert (G3 : IJ (rmul U U)) by (apply ip_mul; apply gen2_l).
        (* l * lb = U U (X - x3) *)
        set (x3 := m * m - x1 - x1).
        assert (Ha : a = m * (y1 + y1) - (x1 * x1 + x1 * x1 + x1 * x1)) by (unfold m; field; split; assumption).
        assert (Hb : b = y1 * y1 - x1 * x1 * x1 - a * x1) by (unfold onC in HP; rewrite HP; ring).
        assert (EP : rmul l (radd (radd rY (rmul (cst m) U)) (cst y1)) =~ rmul (rsub rX (cst x3)) (rmul U U)).
        { transitivity (rsub (rmul rY rY) (rmul (radd (rmul (cst m) U) (cst y1)) (radd (rmul (cst m) U) (cst y1)))); [unfold l; ring|].
          rewrite rY2.
          assert (CA : cst a =~ rsub (rmul (cst m) (radd (cst y1) (cst y1))) (radd (radd (rmul (cst x1) (cst x1)) (rmul (cst x1) (cst x1))) (rmul (cst x1) (cst x1)))).
          { rewrite Ha at 1. rewrite cst_sub, cst_mul, !cst_add, !cst_mul. reflexivity. }
          assert (CB : cst b =~ rsub (rsub (rmul (cst y1) (cst y1)) (rmul (rmul (cst x1) (cst x1)) (cst x1))) (rmul (cst a) (cst x1))).
          { rewrite Hb at 1. rewrite !cst_sub, !cst_mul. reflexivity. }
          assert (C3 : cst x3 =~ rsub (rsub (rmul (cst m) (cst m)) (cst x1)) (cst x1)) by (unfold x3; rewrite !cst_sub, cst_mul; reflexivity).
          unfold U. rewrite CB, CA, C3. ring. }
        apply (ip_ext _ _ (rmul (cst (1 / ((1 + 1) * y1))) (radd (rmul (rsub rX (cst x3)) (rmul U U)) (radd (rmul (ropp ro) (rmul l l)) (rmul (ropp (radd (cst m) (cst m))) (rmul U l)))))).
        { rewrite <- EP. transitivity (rmul (rmul (cst (1 / ((1 + 1) * y1))) (cst ((1 + 1) * y1))) l); [|rewrite cst_inv by exact H2y; ring].
          rewrite cst_two. unfold l. ring. }
        apply ip_r, ip_add; [apply ip_r; exact G3|apply ip_add; apply ip_r; assumption].
    + assert (Hd : x2 - x1 <> 0) by (intros E; apply Hx; symmetry; apply fsub0; exact E).
      assert (Hm : y2 = (y2 - y1) / (x2 - x1) * (x2 - x1) + y1) by (field; exact Hd).
      apply key_line; try assumption.
      { apply (fun H => fsub0 _ _ H). destruct (fmul0 (x2 - x1) (a - ((y2 - y1) / (x2 - x1) * (y1 + y2) - (x1 * x1 + x1 * x2 + x2 * x2)))) as [E|E]; [|contradiction|exact E].
        transitivity ((x2 * x2 * x2 + a * x2 + b) - (x1 * x1 * x1 + a * x1 + b) - (y2 * y2 - y1 * y1)); [field; exact Hd|].
        unfold onC in HP, HQ. rewrite HP, HQ. ring. }
      set (m := (y2 - y1) / (x2 - x1)) in *. cbn [cls]. set (U1 := rsub rX (cst x1)). set (U2 := rsub rX (cst x2)).
      set (l := rsub (rsub rY (rmul (cst m) U1)) (cst y1)).
      set (IJ := iprod (gen2 U1 (rsub rY (cst y1))) (gen2 U2 (rsub rY (cst y2)))).
      assert (Hl1 : gen2 U1 (rsub rY (cst y1)) l) by (exists (ropp (cst m)), ro; unfold l; ring).
      assert (Hl2 : gen2 U2 (rsub rY (cst y2)) l).
      { exists (ropp (cst m)), ro. rewrite Hm, cst_add, cst_mul, cst_sub. unfold l, U1, U2. ring. }
      assert (G1 : IJ (rmul U1 l)) by (apply ip_mul; [apply gen2_l|exact Hl2]).
      assert (G2 : IJ (rmul l U2)) by (apply ip_mul; [exact Hl1|apply gen2_l]).
      apply (ip_ext _ _ (rmul (cst (1 / (x2 - x1))) (radd (rmul U1 l) (rmul (ropp ro) (rmul l U2))))).
      * transitivity (rmul (rmul (cst (1 / (x2 - x1))) (cst (x2 - x1))) l); [|rewrite cst_inv by exact Hd; ring].
        rewrite cst_sub. unfold U1, U2. ring.
      * apply ip_r, ip_add; [exact G1|apply ip_r; exact G2].
  - apply (same_trans _ (iprod whole (cls (Some (x1, y1))))); [apply same_comm|]. apply same_whole, cls_ideal.
  - apply same_whole, cls_ideal.
  - apply same_whole, cls_ideal.
Qed.
(** only the point at infinity has the trivial class *)
Lemma key_trivial : forall P, onE P -> same (cls P) whole -> P = None.
Proof.
  intros [[x y]|] Hc HS; [exfalso|reflexivity]. cbn [onE cls] in *. destruct HS as (p & q & Hp & Hq & H1 & H2).
  destruct (H2 ro Logic.I) as (g & Hg & Eg).
  assert (HP : forall h, gen2 (rsub rX (cst x)) (rsub rY (cst y)) h -> exists k, h =~ rmul g k).
  { intros h Hh. destruct (H1 h Hh) as (k & _ & E). exists k. apply (r_cancel p); [exact Hp|]. rewrite E.
    transitivity (rmul (rmul q ro) k); [ring|rewrite Eg; ring]. }
  assert (Hg0 : rev g x y = 0).
  { destruct Hg as (u & v & E). rewrite (rev_ext _ _ x y E), rev_add, !rev_mul by exact Hc. unfold rev. cbn. ring. }
  destruct (HP _ (gen2_l _ _)) as (k & Ek). destruct (HP _ (gen2_r _ _)) as (m & Em).
  assert (HN : lead (nrm (rsub rX (cst x))) 2 1).
  { split; [exact one_neq0|]. split; [cbn; ring|]. intros [|[|[|n]]] Hn; try lia. destruct n as [|[|[|n]]]; cbn; try reflexivity; ring. }
  pose proof (lead_ext _ _ _ _ (nrm_ext _ _ Ek) HN) as HN2. pose proof (lead_ext _ _ _ _ (nrm_mul g k) HN2) as HN3.
  destruct (nrm_lead g) as [E|(d & c & Hd & Hd1)]; [destruct (lead_nil 2 1); apply (lead_ext _ _ _ _ (nrm_rz (rmul g k) ltac:(rewrite E; ring)) HN2)|].
  destruct (nrm_lead k) as [E|(e & c' & He & He1)]; [destruct (lead_nil 2 1); apply (lead_ext _ _ _ _ (nrm_rz (rmul g k) ltac:(rewrite E; ring)) HN2)|].
  destruct (lead_uniq _ _ _ _ _ HN3 (lead_mul _ _ _ _ _ _ Hd He)) as [Hde _].
  assert (Hcase : d = 0%nat \/ e = 0%nat) by lia. destruct Hcase as [->| ->].
  - destruct (nrm_const g c Hd) as (w & Hw & Egw). apply Hw. rewrite (rev_ext _ _ x y Egw) in Hg0. unfold rev in Hg0. cbn in Hg0. rewrite <- Hg0. ring.
  - destruct (nrm_const k c' He) as (w & Hw & Ekw).
    (* g w = X - x, so (X - x) m' = Y - y *)
    assert (E : rmul (cst w) (rsub rY (cst y)) =~ rmul (rsub rX (cst x)) m) by (rewrite Em, Ek, Ekw; ring).
    destruct E as [_ E]. cbn [rmul rsub cst rX rY fst snd] in E.
    destruct (lead_ex (snd m)) as [Hm|(j & t & Hm)].
    + specialize (E O).
      assert (E' : cf (padd (pmul (psub [0; 1] [x]) (snd m)) (pmul (psub [] []) (fst m))) 0 = 0).
      { rewrite cf_padd. rewrite (pmul_m _ _ (reflexivity (psub [0; 1] [x])) _ _ Hm 0%nat), pmul_nil_r. cbn. ring. }
      rewrite E' in E. cbn in E. apply Hw. rewrite <- E. ring.
    + assert (HL : lead (psub [0; 1] [x]) 1 1).
      { split; [exact one_neq0|]. split; [cbn; ring|]. intros [|[|n]] Hn; try lia. destruct n; reflexivity. }
      pose proof (lead_mul _ _ _ _ _ _ HL Hm) as (L1 & L2 & _). specialize (E (1 + j)%nat). rewrite !cf_padd in E. rewrite L2 in E.
      apply L1. change (1 + j)%nat with (S j) in E. change (pmul (psub [] []) (fst m)) with (@nil F) in E. rewrite !cf_nil in E.
      transitivity (1 * t + 0); [ring|]. rewrite <- E. destruct j as [|j]; cbn; ring.
Qed.

(** ** An abelian group *)
Lemma neg_onE : forall P, onE P -> onE (ptNeg P).
Proof. intros [[x y]|] H; [apply neg_on; exact H|exact H]. Qed.
Lemma neg_neg : forall P, ptNeg (ptNeg P) = P.
Proof. intros [[x y]|]; [cbn; do 2 f_equal; ring|reflexivity]. Qed.
Lemma third_on : forall m x1 y1 x2 y2, onC x1 y1 -> y2 = m * (x2 - x1) + y1 -> a = m * (y1 + y2) - (x1 * x1 + x1 * x2 + x2 * x2) -> onE (third m x1 y1 x2).
Proof.
  intros m x1 y1 x2 y2 Hc H2 Ha. assert (Hb : b = y1 * y1 - x1 * x1 * x1 - a * x1) by (unfold onC in Hc; rewrite Hc; ring).
  unfold third, onE, onC. cbv zeta. rewrite Hb. set (A := a) in *. rewrite Ha, H2. ring.
Qed.
(** what the two formulas have in common *)
Lemma add_cases : forall x1 y1 x2 y2, onC x1 y1 -> onC x2 y2 ->
  (x1 = x2 /\ y2 = - y1 /\ ptAdd (Some (x1, y1)) (Some (x2, y2)) = None) \/
  exists m, y2 = m * (x2 - x1) + y1 /\ a = m * (y1 + y2) - (x1 * x1 + x1 * x2 + x2 * x2) /\ ptAdd (Some (x1, y1)) (Some (x2, y2)) = third m x1 y1 x2 /\
    ((x1 <> x2 /\ m = (y2 - y1) / (x2 - x1)) \/ (x1 = x2 /\ y1 = y2 /\ y1 <> 0 /\ m = ((1 + 1 + 1) * (x1 * x1) + a) / ((1 + 1) * y1))).
Proof.
  intros x1 y1 x2 y2 HP HQ. cbn [ptAdd]. destruct (feq_dec x1 x2) as [<-|Hx].
  - destruct (feq_dec (y1 + y2) 0) as [Hy|Hy].
    + left. split; [reflexivity|]. split; [apply fsub0; rewrite <- Hy; ring|reflexivity].
    + right. pose proof (y_of_x _ _ _ HP HQ Hy) as E. subst y2.
      assert (Hy1 : y1 <> 0) by (intros E; apply Hy; rewrite E; ring).
      eexists. split; [|split; [|split; [reflexivity|right; repeat split; try assumption; reflexivity]]]; [ring|field; split; assumption].
  - right. assert (Hd : x2 - x1 <> 0) by (intros E; apply Hx; symmetry; apply fsub0; exact E).
    exists ((y2 - y1) / (x2 - x1)). split; [field; exact Hd|]. split; [|split; [reflexivity|left; split; [exact Hx|reflexivity]]].
    apply fsub0. destruct (fmul0 (x2 - x1) (a - ((y2 - y1) / (x2 - x1) * (y1 + y2) - (x1 * x1 + x1 * x2 + x2 * x2)))) as [E|E]; [|contradiction|exact E].
    transitivity ((x2 * x2 * x2 + a * x2 + b) - (x1 * x1 * x1 + a * x1 + b) - (y2 * y2 - y1 * y1)); [field; exact Hd|].
    unfold onC in HP, HQ. rewrite HP, HQ. ring.
Qed.
Theorem add_on : forall P Q, onE P -> onE Q -> onE (ptAdd P Q).
Proof.
  intros [[x1 y1]|] [[x2 y2]|] HP HQ; try assumption.
  destruct (add_cases x1 y1 x2 y2 HP HQ) as [(_ & _ & ->)|(m & H1 & H2 & -> & _)]; [exact Logic.I|]. apply (third_on m x1 y1 x2 y2); assumption.
Qed.
Theorem add_comm : forall P Q, onE P -> onE Q -> ptAdd P Q = ptAdd Q P.
Proof.
  intros [[x1 y1]|] [[x2 y2]|] HP HQ; try reflexivity. cbn [onE] in *.
  destruct (add_cases x1 y1 x2 y2 HP HQ) as [(E1 & E2 & ->)|(m & H1 & H2 & E & H3)].
  - subst. cbn [ptAdd]. destruct (feq_dec x2 x2); [|contradiction]. destruct (feq_dec (- y1 + y1) 0) as [|n]; [reflexivity|]. destruct n. ring.
  - destruct H3 as [[Hx Hm]|(-> & <- & _ & _)].
    + rewrite E. clear E. cbn [ptAdd]. destruct (feq_dec x2 x1) as [E|_]; [congruence|].
      assert (Hd : x2 - x1 <> 0) by (intros E; apply Hx; symmetry; apply fsub0; exact E).
      assert (Hd' : x1 - x2 <> 0) by (intros E; apply Hx; apply fsub0; exact E).
      replace ((y1 - y2) / (x1 - x2)) with m by (rewrite Hm; field; split; assumption).
      unfold third. cbv zeta. f_equal. assert (E3 : m * m - x1 - x2 = m * m - x2 - x1) by ring. rewrite E3. f_equal. rewrite H1. ring.
    + reflexivity.
Qed.
Theorem add_neg : forall P, ptAdd P (ptNeg P) = None.
Proof.
  intros [[x y]|]; [|reflexivity]. cbn [ptNeg ptAdd]. destruct (feq_dec x x); [|contradiction]. destruct (feq_dec (y + - y) 0) as [|n]; [reflexivity|]. destruct n. ring.
Qed.
Lemma add_none : forall P Q, onE P -> onE Q -> ptAdd P Q = None -> Q = ptNeg P.
Proof.
  intros [[x1 y1]|] [[x2 y2]|] HP HQ H; try discriminate; try reflexivity.
  destruct (add_cases x1 y1 x2 y2 HP HQ) as [(E1 & E2 & _)|(m & _ & _ & E & _)]; [subst; reflexivity|]. rewrite H in E. discriminate.
Qed.
Lemma cls_inj : forall P Q, onE P -> onE Q -> same (cls P) (cls Q) -> P = Q.
Proof.
  intros P Q HP HQ H. pose proof (neg_onE Q HQ) as HQ'.
  assert (E : ptAdd P (ptNeg Q) = None).
  { apply key_trivial; [apply add_on; assumption|].
    apply (same_trans _ (iprod (cls P) (cls (ptNeg Q)))); [apply same_sym, key_add; assumption|].
    apply (same_trans _ (iprod (cls Q) (cls (ptNeg Q)))); [apply same_prod_l; exact H|].
    apply (same_trans _ (cls (ptAdd Q (ptNeg Q)))); [apply key_add; assumption|]. rewrite add_neg. apply same_refl. }
  apply add_none in E; try assumption. rewrite <- (neg_neg P), <- E. apply neg_neg.
Qed.
Theorem add_assoc : forall P Q S, onE P -> onE Q -> onE S -> ptAdd P (ptAdd Q S) = ptAdd (ptAdd P Q) S.
Proof.
  intros P Q S HP HQ HS. pose proof (add_on P Q HP HQ) as HPQ. pose proof (add_on Q S HQ HS) as HQS.
  apply cls_inj; [apply add_on; assumption|apply add_on; assumption|].
  apply (same_trans _ (iprod (cls P) (cls (ptAdd Q S)))); [apply same_sym, key_add; assumption|].
  apply (same_trans _ (iprod (cls P) (iprod (cls Q) (cls S)))); [apply same_prod_r, same_sym, key_add; assumption|].
  apply (same_trans _ (iprod (iprod (cls P) (cls Q)) (cls S))); [apply same_sym, same_assoc|].
  apply (same_trans _ (iprod (cls (ptAdd P Q)) (cls S))); [apply same_prod_l, key_add; assumption|]. apply key_add; assumption.
Qed.
(** a point of order 2 comes with another one when the discriminant is a square *)
Lemma two_torsion : forall e s, e * e * e + a * e + b = 0 ->
  s * s = - ((1 + 1) * (1 + 1) * (a * a * a) + (1 + 1 + 1) * (1 + 1 + 1) * (1 + 1 + 1) * (b * b)) ->
  exists e', e' <> e /\ e' * e' * e' + a * e' + b = 0.
Proof.
  intros e s He Hs. set (d := (1 + 1 + 1) * (e * e) + a).
  assert (Hb : b = - (e * e * e) - a * e) by (apply fsub0; rewrite <- He; ring).
  assert (Hd : d <> 0).
  { intros E. apply smooth. assert (Ha : a = - ((1 + 1 + 1) * (e * e))) by (apply fsub0; unfold d in E; rewrite <- E; ring). rewrite Hb, Ha. ring. }
  assert (HD : (s / d) * (s / d) = - ((1 + 1 + 1) * (e * e)) - (1 + 1) * (1 + 1) * a).
  { transitivity ((s * s) / (d * d)); [field; exact Hd|]. rewrite Hs, Hb. unfold d. field. intros E. apply Hd. unfold d. rewrite <- E. ring. }
  set (t := s / d) in *. set (e' := (t - e) / (1 + 1)).
  assert (Hq : e' * e' + e * e' + e * e + a = 0).
  { transitivity ((t * t - e * e + (1 + 1) * (1 + 1) * (e * e + a)) / ((1 + 1) * (1 + 1))); [unfold e'; field; try split; try apply fmul_neq0; exact two|]. rewrite HD. field. try apply fmul_neq0; exact two. }
  exists e'. split.
  - intros E. apply Hd. unfold d. rewrite E in Hq. rewrite <- Hq. ring.
  - transitivity ((e' - e) * (e' * e' + e * e' + e * e + a) + (e * e * e + a * e + b)); [ring|]. rewrite Hq, He. ring.
Qed.
(** the two formulas with the slope given *)
Lemma add_dbl : forall m x y, y <> 0 -> m * ((1 + 1) * y) = (1 + 1 + 1) * (x * x) + a -> ptAdd (Some (x, y)) (Some (x, y)) = third m x y x.
Proof.
  intros m x y Hy Hm. cbn [ptAdd]. destruct (feq_dec x x) as [_|n]; [|contradiction]. destruct (feq_dec (y + y) 0) as [E|_]; [destruct Hy; apply double_zero; exact E|].
  f_equal. rewrite <- Hm. field. split; assumption.
Qed.
Lemma add_chord : forall m x1 y1 x2 y2, x1 <> x2 -> m * (x2 - x1) = y2 - y1 -> ptAdd (Some (x1, y1)) (Some (x2, y2)) = third m x1 y1 x2.
Proof.
  intros m x1 y1 x2 y2 Hx Hm. cbn [ptAdd]. destruct (feq_dec x1 x2) as [|_]; [contradiction|]. f_equal. rewrite <- Hm. field.
  intros E. apply Hx. symmetry. apply fsub0. exact E.
Qed.
End Law.
