(** The addition law of the twisted Edwards curve -x^2 + y^2 = 1 + d x^2 y^2 over a field in which -1 is a square and d is not: it is
    total, and the points are an abelian group. Nothing here models code of /repo. *)
From Coq Require Import Ring Field.
From Verif Require Import ECLaw.

Section Ed.
Context (F : Type) (f0 f1 : F) (fadd fmul fsub : F -> F -> F) (fopp : F -> F) (fdiv : F -> F -> F) (finv : F -> F).
Context (FT : field_theory f0 f1 fadd fmul fsub fopp fdiv finv eq) (feq_dec : forall x y : F, {x = y} + {x <> y}).
Add Field Ef : FT.
Declare Scope edw. Delimit Scope edw with edw.
Local Infix "+" := fadd : edw. Local Infix "*" := fmul : edw. Local Infix "-" := fsub : edw. Local Infix "/" := fdiv : edw.
Local Notation "- x" := (fopp x) : edw. Local Notation "0" := f0 : edw. Local Notation "1" := f1 : edw.
Local Open Scope edw.
Context (two_nz : 1 + 1 <> 0) (d i : F) (Hi : i * i = - (1)) (Hd : forall r, r * r <> d).
Let m0 := fmul0 _ _ _ _ _ _ _ _ _ FT feq_dec.
Let s0 := fsub0 _ _ _ _ _ _ _ _ _ FT.
Definition onEd (P : F * F) : Prop := let (x, y) := P in y * y - x * x = 1 + d * x * x * y * y.
Definition edAdd (P Q : F * F) : F * F :=
  let (x1, y1) := P in let (x2, y2) := Q in
  ((x1 * y2 + y1 * x2) / (1 + d * x1 * x2 * y1 * y2), (y1 * y2 + x1 * x2) / (1 - d * x1 * x2 * y1 * y2)).
Definition edNeg (P : F * F) : F * F := let (x, y) := P in (- x, y).
Definition edId : F * F := (0, 1).

(** ** The denominators are not 0 *)
Lemma d_nz : d <> 0.
Proof. intros E. apply (Hd 0). rewrite E. ring. Qed.
Lemma square_ratio : forall a b, a * a = d * (b * b) -> b = 0.
Proof.
  intros a b H. destruct (feq_dec b 0) as [|Hb]; [assumption|]. exfalso. apply (Hd (a / b)).
  transitivity ((a * a) / (b * b)); [field; exact Hb|]. rewrite H. field. exact Hb.
Qed.
Lemma i_nz : i <> 0.
Proof. intros E. rewrite E in Hi. apply (F_1_neq_0 FT). transitivity (- - (1)); [ring|]. rewrite <- Hi. ring. Qed.
Lemma ed_den : forall x1 y1 x2 y2 e, onEd (x1, y1) -> onEd (x2, y2) -> e * e = 1 -> d * x1 * x2 * y1 * y2 = e -> False.
Proof.
  intros x1 y1 x2 y2 e H1 H2 He E. unfold onEd in *.
  assert (E2 : d * x1 * x2 * y1 * y2 * (d * x1 * x2 * y1 * y2) = 1) by (rewrite E; exact He).
  assert (NZ : x1 * y1 <> 0).
  { intros Z. apply (F_1_neq_0 FT). rewrite <- E2. replace (d * x1 * x2 * y1 * y2) with (d * x2 * y2 * (x1 * y1)) by ring. rewrite Z. ring. }
  assert (K : forall s, s * s = 1 -> x1 * y1 * (i * x2 + s * y2) = 0).
  { intros s Hs. apply (square_ratio (i * x1 + s * e * y1)).
    assert (G1 : (i * x1 + s * e * y1) * (i * x1 + s * e * y1) = y1 * y1 - x1 * x1 + (1 + 1) * i * s * e * x1 * y1).
    { transitivity ((i * i) * (x1 * x1) + (s * s) * (e * e) * (y1 * y1) + (1 + 1) * i * s * e * x1 * y1); [ring|]. rewrite Hi, Hs, He. ring. }
    assert (G2 : (x1 * y1 * (i * x2 + s * y2)) * (x1 * y1 * (i * x2 + s * y2)) = x1 * x1 * y1 * y1 * (y2 * y2 - x2 * x2) + (1 + 1) * i * s * x1 * y1 * (x1 * x2 * y1 * y2)).
    { transitivity (x1 * x1 * y1 * y1 * ((i * i) * (x2 * x2) + (s * s) * (y2 * y2)) + (1 + 1) * i * s * x1 * y1 * (x1 * x2 * y1 * y2)); [ring|]. rewrite Hi, Hs. ring. }
    rewrite G1, G2, H1, H2.
    transitivity (d * x1 * x1 * y1 * y1 + 1 + (1 + 1) * i * s * x1 * y1 * e); [ring|].
    transitivity (d * x1 * x1 * y1 * y1 + d * x1 * x2 * y1 * y2 * (d * x1 * x2 * y1 * y2) + (1 + 1) * i * s * x1 * y1 * (d * x1 * x2 * y1 * y2)); [rewrite E2, E; ring|]. ring. }
  assert (K1 : i * x2 + 1 * y2 = 0) by (destruct (m0 _ _ (K 1 ltac:(ring))); [contradiction|assumption]).
  assert (K2 : i * x2 + - (1) * y2 = 0) by (destruct (m0 _ _ (K (- (1)) ltac:(ring))); [contradiction|assumption]).
  assert (Y0 : y2 = 0).
  { assert (Y : (1 + 1) * y2 = 0) by (transitivity ((i * x2 + 1 * y2) - (i * x2 + - (1) * y2)); [ring|rewrite K1, K2; ring]).
    destruct (m0 _ _ Y); [contradiction|assumption]. }
  apply (F_1_neq_0 FT). rewrite <- E2, Y0. ring.
Qed.
Lemma ed_dp : forall x1 y1 x2 y2, onEd (x1, y1) -> onEd (x2, y2) -> 1 + d * x1 * x2 * y1 * y2 <> 0.
Proof.
  intros x1 y1 x2 y2 H1 H2 H. apply (ed_den x1 y1 x2 y2 (- (1)) H1 H2); [ring|].
  transitivity (1 + d * x1 * x2 * y1 * y2 - 1); [ring|rewrite H; ring].
Qed.
Lemma ed_dm : forall x1 y1 x2 y2, onEd (x1, y1) -> onEd (x2, y2) -> 1 - d * x1 * x2 * y1 * y2 <> 0.
Proof.
  intros x1 y1 x2 y2 H1 H2 H. apply (ed_den x1 y1 x2 y2 1 H1 H2); [ring|].
  transitivity (1 - (1 - d * x1 * x2 * y1 * y2)); [ring|rewrite H; ring].
Qed.
Lemma div_eq : forall a b c, b <> 0 -> a / b = c <-> a = c * b.
Proof. intros a b c Hb. split; [intros <-; field; exact Hb|intros ->; field; exact Hb]. Qed.
(** the sum from its defining equations, without division *)
Lemma edAdd_eq : forall x1 y1 x2 y2 x3 y3, onEd (x1, y1) -> onEd (x2, y2) ->
  x3 * (1 + d * x1 * x2 * y1 * y2) = x1 * y2 + y1 * x2 -> y3 * (1 - d * x1 * x2 * y1 * y2) = y1 * y2 + x1 * x2 -> edAdd (x1, y1) (x2, y2) = (x3, y3).
Proof.
  intros x1 y1 x2 y2 x3 y3 H1 H2 Ex Ey. unfold edAdd. f_equal; apply div_eq; [apply ed_dp; assumption|symmetry; exact Ex|apply ed_dm; assumption|symmetry; exact Ey].
Qed.

(** ** The sum is on the curve *)
Lemma ed_closed : forall P Q, onEd P -> onEd Q -> onEd (edAdd P Q).
Proof.
  intros [x1 y1] [x2 y2] H1 H2. pose proof (ed_dp _ _ _ _ H1 H2) as Dp. pose proof (ed_dm _ _ _ _ H1 H2) as Dm. unfold onEd in *. cbn [edAdd].
  assert (Z1 : d*x1*x1*y1*y1 - (y1*y1 - x1*x1 - 1) = 0) by (rewrite H1; ring).
  assert (Z2 : d*x2*x2*y2*y2 - (y2*y2 - x2*x2 - 1) = 0) by (rewrite H2; ring).
  set (Nx := x1 * y2 + y1 * x2). set (Ny := y1 * y2 + x1 * x2).
  assert (K : Ny * Ny * ((1 + d * x1 * x2 * y1 * y2) * (1 + d * x1 * x2 * y1 * y2)) - Nx * Nx * ((1 - d * x1 * x2 * y1 * y2) * (1 - d * x1 * x2 * y1 * y2)) =
    (1 + d * x1 * x2 * y1 * y2) * (1 + d * x1 * x2 * y1 * y2) * ((1 - d * x1 * x2 * y1 * y2) * (1 - d * x1 * x2 * y1 * y2)) + d * Nx * Nx * Ny * Ny).
  { apply s0. unfold Nx, Ny. transitivity ((0 - y2*y2*y2*y2 + (1+1+1+1)*x2*x2*y2*y2 - (1+1)*x2*x2*y2*y2*y2*y2 - x2*x2*x2*x2 + (1+1)*x2*x2*x2*x2*y2*y2 + (1+1)*d*x2*x2*y2*y2 +
    (1+1)*d*x2*x2*x2*x2*y2*y2*y2*y2 + d*y1*y1*x2*x2*y2*y2*y2*y2 - d*y1*y1*x2*x2*x2*x2*y2*y2 - d*x1*x1*x2*x2*y2*y2*y2*y2 + d*x1*x1*x2*x2*x2*x2*y2*y2 +
    d*d*x2*x2*x2*x2*y2*y2*y2*y2 - d*d*y1*y1*x2*x2*x2*x2*y2*y2*y2*y2 + d*d*x1*x1*x2*x2*x2*x2*y2*y2*y2*y2 - d*d*d*x1*x1*y1*y1*x2*x2*x2*x2*y2*y2*y2*y2) * (d*x1*x1*y1*y1 - (y1*y1 - x1*x1 - 1)) + (0 - 1 - y2*y2 + x2*x2 - (1+1)*x2*x2*y2*y2 + y1*y1*y2*y2 - y1*y1*x2*x2 + (1+1)*y1*y1*x2*x2*y2*y2 - x1*x1*y2*y2 + x1*x1*x2*x2 - (1+1)*x1*x1*x2*x2*y2*y2
    - d*x2*x2*y2*y2 + (1+1)*d*y1*y1*x2*x2*y2*y2 - d*y1*y1*y1*y1*x2*x2*y2*y2 - (1+1)*d*x1*x1*x2*x2*y2*y2 - d*x1*x1*x1*x1*x2*x2*y2*y2) * (d*x2*x2*y2*y2 - (y2*y2 - x2*x2 - 1))); [ring|]. rewrite Z1, Z2. ring. }
  revert K Dp Dm. generalize (1 + d * x1 * x2 * y1 * y2) (1 - d * x1 * x2 * y1 * y2) Nx Ny. intros a b n m K Ha Hb.
  transitivity ((m * m * (a * a) - n * n * (b * b)) / (a * a * (b * b))); [field; split; assumption|]. rewrite K. field; split; assumption.
Qed.

(** ** Abelian group *)
Lemma ed_comm : forall P Q, edAdd P Q = edAdd Q P.
Proof. intros [x1 y1] [x2 y2]. unfold edAdd. f_equal; f_equal; ring. Qed.
Lemma ed_id_on : onEd edId. Proof. unfold onEd, edId. ring. Qed.
Lemma ed_neg_on : forall P, onEd P -> onEd (edNeg P).
Proof. intros [x y] H. unfold onEd, edNeg in *. replace (- x * - x) with (x * x) by ring. rewrite H. ring. Qed.
Lemma ed_id : forall P, edAdd edId P = P.
Proof.
  intros [x y]. unfold edId, edAdd. f_equal; apply div_eq; try ring; [replace (1 + d * 0 * x * 1 * y) with 1 by ring|replace (1 - d * 0 * x * 1 * y) with 1 by ring]; apply (F_1_neq_0 FT).
Qed.
Lemma ed_neg : forall P, onEd P -> edAdd P (edNeg P) = edId.
Proof.
  intros [x y] H. pose proof (ed_neg_on _ H) as H'. cbn [edNeg] in *. unfold edId. apply edAdd_eq; try assumption; [ring|].
  unfold onEd in H. transitivity (1 + d * x * x * y * y); [ring|]. rewrite <- H. ring.
Qed.

Lemma div_cross : forall a b c e, b <> 0 -> e <> 0 -> a * e = c * b -> a / b = c / e.
Proof. intros a b c e Hb He H. apply div_eq; [exact Hb|]. transitivity ((c * b) / e); [rewrite <- H; field; exact He|field; exact He]. Qed.

Lemma ed_assoc_x : forall x1 y1 x2 y2 x3 y3, onEd (x1, y1) -> onEd (x2, y2) -> onEd (x3, y3) ->
  ((x1*y2+y1*x2)*(1-(d*x1*x2*y1*y2))*y3+(y1*y2+x1*x2)*(1+(d*x1*x2*y1*y2))*x3)
  * ((1-(d*x2*x3*y2*y3))*(1+(d*x2*x3*y2*y3))+d*(x2*y3+y2*x3)*(y2*y3+x2*x3)*x1*y1) =
  ((x2*y3+y2*x3)*(1-(d*x2*x3*y2*y3))*y1+(y2*y3+x2*x3)*(1+(d*x2*x3*y2*y3))*x1)
  * ((1-(d*x1*x2*y1*y2))*(1+(d*x1*x2*y1*y2))+d*(x1*y2+y1*x2)*(y1*y2+x1*x2)*x3*y3).
Proof.
  intros x1 y1 x2 y2 x3 y3 H1 H2 H3. unfold onEd in *.
  assert (Z1 : d*x1*x1*y1*y1 - (y1*y1 - x1*x1 - 1) = 0) by (rewrite H1; ring).
  assert (Z2 : d*x2*x2*y2*y2 - (y2*y2 - x2*x2 - 1) = 0) by (rewrite H2; ring).
  assert (Z3 : d*x3*x3*y3*y3 - (y3*y3 - x3*x3 - 1) = 0) by (rewrite H3; ring).
  apply s0. transitivity ((d*y1*x2*y2*y2*y2*y2*x3*x3*y3 + d*y1*x2*x2*y2*y2*y2*x3 + d*y1*x2*x2*y2*y2*y2*x3*x3*x3 + d*y1*x2*x2*x2*y2*y2*y3 - d*y1*x2*x2*x2*y2*y2*y3*y3*y3 -
    d*y1*x2*x2*x2*x2*y2*x3*y3*y3 - d*x1*x2*y2*y2*y2*y2*x3*y3*y3 + d*x1*x2*x2*y2*y2*y2*y3 - d*x1*x2*x2*y2*y2*y2*y3*y3*y3 + d*x1*x2*x2*x2*y2*y2*x3 +
    d*x1*x2*x2*x2*y2*y2*x3*x3*x3 + d*x1*x2*x2*x2*x2*y2*x3*x3*y3 - d*d*y1*x2*x2*x2*y2*y2*y2*y2*x3*x3*y3 - d*d*y1*x2*x2*x2*x2*y2*y2*y2*x3*y3*y3 +
    d*d*x1*x2*x2*x2*y2*y2*y2*y2*x3*y3*y3 + d*d*x1*x2*x2*x2*x2*y2*y2*y2*x3*x3*y3) * (d*x1*x1*y1*y1 - (y1*y1 - x1*x1 - 1)) +
    (0 - y1*y2*x3 + y1*y2*x3*y3*y3 - y1*y2*x3*x3*x3 - y1*x2*y3 + y1*x2*y3*y3*y3 - y1*x2*x3*x3*y3 + y1*y1*y1*y2*x3 - y1*y1*y1*y2*x3*y3*y3 +
    y1*y1*y1*y2*x3*x3*x3 + y1*y1*y1*x2*y3 - y1*y1*y1*x2*y3*y3*y3 + y1*y1*y1*x2*x3*x3*y3 - x1*y2*y3 + x1*y2*y3*y3*y3 - x1*y2*x3*x3*y3 - x1*x2*x3 +
    x1*x2*x3*y3*y3 - x1*x2*x3*x3*x3 + x1*y1*y1*y2*y3 - x1*y1*y1*y2*y3*y3*y3 + x1*y1*y1*y2*x3*x3*y3 + x1*y1*y1*x2*x3 - x1*y1*y1*x2*x3*y3*y3 +
    x1*y1*y1*x2*x3*x3*x3 - x1*x1*y1*y2*x3 + x1*x1*y1*y2*x3*y3*y3 - x1*x1*y1*y2*x3*x3*x3 - x1*x1*y1*x2*y3 + x1*x1*y1*x2*y3*y3*y3 - x1*x1*y1*x2*x3*x3*y3 -
    x1*x1*x1*y2*y3 + x1*x1*x1*y2*y3*y3*y3 - x1*x1*x1*y2*x3*x3*y3 - x1*x1*x1*x2*x3 + x1*x1*x1*x2*x3*y3*y3 - x1*x1*x1*x2*x3*x3*x3 - d*y1*y2*x3*x3*x3*y3*y3 -
    d*y1*x2*x3*x3*y3*y3*y3 + d*y1*x2*y2*y2*x3*x3*y3 + d*y1*x2*x2*y2*x3*y3*y3 + d*y1*y1*y1*y2*x3*x3*x3*y3*y3 + d*y1*y1*y1*x2*x3*x3*y3*y3*y3 -
    d*y1*y1*y1*x2*y2*y2*x3*x3*y3 - d*y1*y1*y1*x2*x2*y2*x3*y3*y3 - d*x1*y2*x3*x3*y3*y3*y3 - d*x1*x2*x3*x3*x3*y3*y3 - d*x1*x2*y2*y2*x3*y3*y3 -
    d*x1*x2*x2*y2*x3*x3*y3 + d*x1*y1*y1*y2*x3*x3*y3*y3*y3 + d*x1*y1*y1*x2*x3*x3*x3*y3*y3 + d*x1*y1*y1*x2*y2*y2*x3*y3*y3 + d*x1*y1*y1*x2*x2*y2*x3*x3*y3 -
    d*x1*x1*y1*y2*x3*x3*x3*y3*y3 - d*x1*x1*y1*x2*x3*x3*y3*y3*y3 + d*x1*x1*y1*x2*y2*y2*x3*x3*y3 + d*x1*x1*y1*x2*x2*y2*x3*y3*y3 -
    d*x1*x1*x1*y2*x3*x3*y3*y3*y3 - d*x1*x1*x1*x2*x3*x3*x3*y3*y3 - d*x1*x1*x1*x2*y2*y2*x3*y3*y3 - d*x1*x1*x1*x2*x2*y2*x3*x3*y3 -
    d*d*x1*y1*y1*x2*y2*y2*x3*x3*x3*y3*y3 + d*d*x1*y1*y1*x2*x2*y2*x3*x3*y3*y3*y3 + d*d*x1*x1*y1*x2*y2*y2*x3*x3*y3*y3*y3 -
    d*d*x1*x1*y1*x2*x2*y2*x3*x3*x3*y3*y3) * (d*x2*x2*y2*y2 - (y2*y2 - x2*x2 - 1)) +
    (y1*y2*x3 - y1*y2*y2*y2*x3 + y1*x2*y3 - y1*x2*y2*y2*y3 + y1*x2*x2*y2*x3 + y1*x2*x2*x2*y3 - y1*y1*y1*y2*x3 + y1*y1*y1*y2*y2*y2*x3 - y1*y1*y1*x2*y3 +
    y1*y1*y1*x2*y2*y2*y3 - y1*y1*y1*x2*x2*y2*x3 - y1*y1*y1*x2*x2*x2*y3 + x1*y2*y3 - x1*y2*y2*y2*y3 + x1*x2*x3 - x1*x2*y2*y2*x3 + x1*x2*x2*y2*y3 +
    x1*x2*x2*x2*x3 - x1*y1*y1*y2*y3 + x1*y1*y1*y2*y2*y2*y3 - x1*y1*y1*x2*x3 + x1*y1*y1*x2*y2*y2*x3 - x1*y1*y1*x2*x2*y2*y3 - x1*y1*y1*x2*x2*x2*x3 +
    x1*x1*y1*y2*x3 - x1*x1*y1*y2*y2*y2*x3 + x1*x1*y1*x2*y3 - x1*x1*y1*x2*y2*y2*y3 + x1*x1*y1*x2*x2*y2*x3 + x1*x1*y1*x2*x2*x2*y3 + x1*x1*x1*y2*y3 -
    x1*x1*x1*y2*y2*y2*y3 + x1*x1*x1*x2*x3 - x1*x1*x1*x2*y2*y2*x3 + x1*x1*x1*x2*x2*y2*y3 + x1*x1*x1*x2*x2*x2*x3 + d*x1*y1*y1*x2*y2*y2*x3 -
    d*x1*y1*y1*x2*x2*y2*y3 - d*x1*x1*y1*x2*y2*y2*y3 + d*x1*x1*y1*x2*x2*y2*x3) * (d*x3*x3*y3*y3 - (y3*y3 - x3*x3 - 1))); [ring|]. rewrite Z1, Z2, Z3. ring.
Qed.

Lemma ed_assoc_y : forall x1 y1 x2 y2 x3 y3, onEd (x1, y1) -> onEd (x2, y2) -> onEd (x3, y3) ->
  ((y1*y2+x1*x2)*(1+(d*x1*x2*y1*y2))*y3+(x1*y2+y1*x2)*(1-(d*x1*x2*y1*y2))*x3)
  * ((1-(d*x2*x3*y2*y3))*(1+(d*x2*x3*y2*y3))-d*(x2*y3+y2*x3)*(y2*y3+x2*x3)*x1*y1) =
  ((y2*y3+x2*x3)*(1+(d*x2*x3*y2*y3))*y1+(x2*y3+y2*x3)*(1-(d*x2*x3*y2*y3))*x1)
  * ((1-(d*x1*x2*y1*y2))*(1+(d*x1*x2*y1*y2))-d*(x1*y2+y1*x2)*(y1*y2+x1*x2)*x3*y3).
Proof.
  intros x1 y1 x2 y2 x3 y3 H1 H2 H3. unfold onEd in *.
  assert (Z1 : d*x1*x1*y1*y1 - (y1*y1 - x1*x1 - 1) = 0) by (rewrite H1; ring).
  assert (Z2 : d*x2*x2*y2*y2 - (y2*y2 - x2*x2 - 1) = 0) by (rewrite H2; ring).
  assert (Z3 : d*x3*x3*y3*y3 - (y3*y3 - x3*x3 - 1) = 0) by (rewrite H3; ring).
  apply s0. transitivity ((0 - d*y1*x2*y2*y2*y2*y2*x3*y3*y3 + d*y1*x2*x2*y2*y2*y2*y3 - d*y1*x2*x2*y2*y2*y2*y3*y3*y3 + d*y1*x2*x2*x2*y2*y2*x3 + d*y1*x2*x2*x2*y2*y2*x3*x3*x3 +
    d*y1*x2*x2*x2*x2*y2*x3*x3*y3 + d*x1*x2*y2*y2*y2*y2*x3*x3*y3 + d*x1*x2*x2*y2*y2*y2*x3 + d*x1*x2*x2*y2*y2*y2*x3*x3*x3 + d*x1*x2*x2*x2*y2*y2*y3 -
    d*x1*x2*x2*x2*y2*y2*y3*y3*y3 - d*x1*x2*x2*x2*x2*y2*x3*y3*y3 + d*d*y1*x2*x2*x2*y2*y2*y2*y2*x3*y3*y3 + d*d*y1*x2*x2*x2*x2*y2*y2*y2*x3*x3*y3 -
    d*d*x1*x2*x2*x2*y2*y2*y2*y2*x3*x3*y3 - d*d*x1*x2*x2*x2*x2*y2*y2*y2*x3*y3*y3) * (d*x1*x1*y1*y1 - (y1*y1 - x1*x1 - 1)) +
    (0 - y1*y2*y3 + y1*y2*y3*y3*y3 - y1*y2*x3*x3*y3 - y1*x2*x3 + y1*x2*x3*y3*y3 - y1*x2*x3*x3*x3 + y1*y1*y1*y2*y3 - y1*y1*y1*y2*y3*y3*y3 +
    y1*y1*y1*y2*x3*x3*y3 + y1*y1*y1*x2*x3 - y1*y1*y1*x2*x3*y3*y3 + y1*y1*y1*x2*x3*x3*x3 - x1*y2*x3 + x1*y2*x3*y3*y3 - x1*y2*x3*x3*x3 - x1*x2*y3 +
    x1*x2*y3*y3*y3 - x1*x2*x3*x3*y3 + x1*y1*y1*y2*x3 - x1*y1*y1*y2*x3*y3*y3 + x1*y1*y1*y2*x3*x3*x3 + x1*y1*y1*x2*y3 - x1*y1*y1*x2*y3*y3*y3 +
    x1*y1*y1*x2*x3*x3*y3 - x1*x1*y1*y2*y3 + x1*x1*y1*y2*y3*y3*y3 - x1*x1*y1*y2*x3*x3*y3 - x1*x1*y1*x2*x3 + x1*x1*y1*x2*x3*y3*y3 - x1*x1*y1*x2*x3*x3*x3 -
    x1*x1*x1*y2*x3 + x1*x1*x1*y2*x3*y3*y3 - x1*x1*x1*y2*x3*x3*x3 - x1*x1*x1*x2*y3 + x1*x1*x1*x2*y3*y3*y3 - x1*x1*x1*x2*x3*x3*y3 - d*y1*y2*x3*x3*y3*y3*y3 -
    d*y1*x2*x3*x3*x3*y3*y3 - d*y1*x2*y2*y2*x3*y3*y3 - d*y1*x2*x2*y2*x3*x3*y3 + d*y1*y1*y1*y2*x3*x3*y3*y3*y3 + d*y1*y1*y1*x2*x3*x3*x3*y3*y3 +
    d*y1*y1*y1*x2*y2*y2*x3*y3*y3 + d*y1*y1*y1*x2*x2*y2*x3*x3*y3 - d*x1*y2*x3*x3*x3*y3*y3 - d*x1*x2*x3*x3*y3*y3*y3 + d*x1*x2*y2*y2*x3*x3*y3 +
    d*x1*x2*x2*y2*x3*y3*y3 + d*x1*y1*y1*y2*x3*x3*x3*y3*y3 + d*x1*y1*y1*x2*x3*x3*y3*y3*y3 - d*x1*y1*y1*x2*y2*y2*x3*x3*y3 - d*x1*y1*y1*x2*x2*y2*x3*y3*y3 -
    d*x1*x1*y1*y2*x3*x3*y3*y3*y3 - d*x1*x1*y1*x2*x3*x3*x3*y3*y3 - d*x1*x1*y1*x2*y2*y2*x3*y3*y3 - d*x1*x1*y1*x2*x2*y2*x3*x3*y3 -
    d*x1*x1*x1*y2*x3*x3*x3*y3*y3 - d*x1*x1*x1*x2*x3*x3*y3*y3*y3 + d*x1*x1*x1*x2*y2*y2*x3*x3*y3 + d*x1*x1*x1*x2*x2*y2*x3*y3*y3 -
    d*d*x1*y1*y1*x2*y2*y2*x3*x3*y3*y3*y3 + d*d*x1*y1*y1*x2*x2*y2*x3*x3*x3*y3*y3 + d*d*x1*x1*y1*x2*y2*y2*x3*x3*x3*y3*y3 -
    d*d*x1*x1*y1*x2*x2*y2*x3*x3*y3*y3*y3) * (d*x2*x2*y2*y2 - (y2*y2 - x2*x2 - 1)) +
    (y1*y2*y3 - y1*y2*y2*y2*y3 + y1*x2*x3 - y1*x2*y2*y2*x3 + y1*x2*x2*y2*y3 + y1*x2*x2*x2*x3 - y1*y1*y1*y2*y3 + y1*y1*y1*y2*y2*y2*y3 - y1*y1*y1*x2*x3 +
    y1*y1*y1*x2*y2*y2*x3 - y1*y1*y1*x2*x2*y2*y3 - y1*y1*y1*x2*x2*x2*x3 + x1*y2*x3 - x1*y2*y2*y2*x3 + x1*x2*y3 - x1*x2*y2*y2*y3 + x1*x2*x2*y2*x3 +
    x1*x2*x2*x2*y3 - x1*y1*y1*y2*x3 + x1*y1*y1*y2*y2*y2*x3 - x1*y1*y1*x2*y3 + x1*y1*y1*x2*y2*y2*y3 - x1*y1*y1*x2*x2*y2*x3 - x1*y1*y1*x2*x2*x2*y3 +
    x1*x1*y1*y2*y3 - x1*x1*y1*y2*y2*y2*y3 + x1*x1*y1*x2*x3 - x1*x1*y1*x2*y2*y2*x3 + x1*x1*y1*x2*x2*y2*y3 + x1*x1*y1*x2*x2*x2*x3 + x1*x1*x1*y2*x3 -
    x1*x1*x1*y2*y2*y2*x3 + x1*x1*x1*x2*y3 - x1*x1*x1*x2*y2*y2*y3 + x1*x1*x1*x2*x2*y2*x3 + x1*x1*x1*x2*x2*x2*y3 + d*x1*y1*y1*x2*y2*y2*y3 -
    d*x1*y1*y1*x2*x2*y2*x3 - d*x1*x1*y1*x2*y2*y2*x3 + d*x1*x1*y1*x2*x2*y2*y3) * (d*x3*x3*y3*y3 - (y3*y3 - x3*x3 - 1))); [ring|]. rewrite Z1, Z2, Z3. ring.
Qed.

(** a sum of three, over one denominator *)
Lemma ed_three : forall x1 y1 x2 y2 x3 y3, onEd (x1, y1) -> onEd (x2, y2) -> onEd (x3, y3) ->
  let D := d*x1*x2*y1*y2 in let X := x1*y2+y1*x2 in let Y := y1*y2+x1*x2 in
  let a := (1-D)*(1+D)+d*X*Y*x3*y3 in let b := (1-D)*(1+D)-d*X*Y*x3*y3 in
  a <> 0 /\ b <> 0 /\ edAdd (edAdd (x1, y1) (x2, y2)) (x3, y3) = ((X*(1-D)*y3+Y*(1+D)*x3) / a, (Y*(1+D)*y3+X*(1-D)*x3) / b).
Proof.
  intros x1 y1 x2 y2 x3 y3 H1 H2 H3 D X Y a b. pose proof (ed_closed _ _ H1 H2) as HC.
  pose proof (ed_dp _ _ _ _ H1 H2) as Dp. pose proof (ed_dm _ _ _ _ H1 H2) as Dm. fold D in Dp, Dm. unfold edAdd at 2. cbn [edAdd] in HC. fold D X Y in HC |- *.
  pose proof (ed_dp _ _ _ _ HC H3) as Dp'. pose proof (ed_dm _ _ _ _ HC H3) as Dm'.
  assert (Ea : a = (1 + d * (X / (1 + D)) * x3 * (Y / (1 - D)) * y3) * ((1 - D) * (1 + D))) by (unfold a; field; split; assumption).
  assert (Eb : b = (1 - d * (X / (1 + D)) * x3 * (Y / (1 - D)) * y3) * ((1 - D) * (1 + D))) by (unfold b; field; split; assumption).
  assert (Q : (1 - D) * (1 + D) <> 0) by (intros Z; destruct (m0 _ _ Z); contradiction).
  assert (Ha : a <> 0) by (rewrite Ea; intros Z; destruct (m0 _ _ Z); contradiction).
  assert (Hb : b <> 0) by (rewrite Eb; intros Z; destruct (m0 _ _ Z); contradiction).
  split; [exact Ha|]. split; [exact Hb|]. unfold edAdd. f_equal; apply div_cross; try assumption.
  - rewrite Ea. generalize (1 + d * (X / (1 + D)) * x3 * (Y / (1 - D)) * y3). intros t. field. split; assumption.
  - rewrite Eb. generalize (1 - d * (X / (1 + D)) * x3 * (Y / (1 - D)) * y3). intros t. field. split; assumption.
Qed.
Theorem ed_assoc : forall P Q R, onEd P -> onEd Q -> onEd R -> edAdd P (edAdd Q R) = edAdd (edAdd P Q) R.
Proof.
  intros [x1 y1] [x2 y2] [x3 y3] H1 H2 H3. rewrite (ed_comm (x1, y1)).
  destruct (ed_three _ _ _ _ _ _ H2 H3 H1) as (A1 & B1 & ->). destruct (ed_three _ _ _ _ _ _ H1 H2 H3) as (A2 & B2 & ->).
  f_equal; apply div_cross; try assumption; symmetry; [apply ed_assoc_x|apply ed_assoc_y]; assumption.
Qed.

(** ** Doubling, and the points killed by 4 *)
Lemma ed_dbl : forall x y x' y', onEd (x, y) -> x' * (y * y - x * x) = (1 + 1) * x * y -> y' * (1 + 1 - (y * y - x * x)) = y * y + x * x -> edAdd (x, y) (x, y) = (x', y').
Proof.
  intros x y x' y' H Ex Ey. apply edAdd_eq; try exact H; unfold onEd in H.
  - replace (1 + d * x * x * y * y) with (y * y - x * x). { rewrite Ex. ring. }
  - replace (1 - d * x * x * y * y) with (1 + 1 - (y * y - x * x)). { rewrite Ey. ring. } rewrite H. ring.
Qed.
Lemma ed_quarter : forall x y, onEd (x, y) -> x * y = 0 <-> edAdd (edAdd (x, y) (x, y)) (edAdd (x, y) (x, y)) = edId.
Proof.
  intros x y H. pose proof (ed_closed _ _ H H) as HC. destruct (edAdd (x, y) (x, y)) as [u v] eqn:E. pose proof HC as HO. unfold onEd in HC.
  unfold edAdd in E. injection E as Eu Ev. clear Ev. apply div_eq in Eu; [|apply ed_dp; assumption].
  split; intros Z.
  - assert (U : u = 0).
    { assert (U : u * (1 + d * x * x * y * y) = 0) by (rewrite <- Eu; transitivity ((1 + 1) * (x * y)); [ring|rewrite Z; ring]).
      destruct (m0 _ _ U) as [|C]; [assumption|]. exfalso. revert C. apply ed_dp; assumption. }
    subst u. unfold edId. apply edAdd_eq; try exact HO; [ring|]. transitivity (1 - d * 0 * 0 * v * v); [ring|].
    transitivity 1; [ring|]. transitivity (1 + d * 0 * 0 * v * v); [ring|]. rewrite <- HC. ring.
  - unfold edAdd, edId in Z. injection Z as Zu Zv.
    apply div_eq in Zu; [|apply ed_dp; assumption]. apply div_eq in Zv; [|apply ed_dm; assumption].
    assert (UV : u * v = 0).
    { assert (W : (1 + 1) * (u * v) = 0) by (transitivity (u * v + v * u); [ring|rewrite Zu; ring]). destruct (m0 _ _ W); [contradiction|assumption]. }
    assert (U : u = 0).
    { destruct (m0 _ _ UV) as [|V]; [assumption|]. subst v. exfalso.
      (* v = 0: -u^2 = 1 and u^2 = 1 *)
      assert (W : (1 + 1) = 0); [|contradiction].
      transitivity ((0 * 0 + u * u) + (1 + d * u * u * 0 * 0)); [rewrite Zv; ring|]. rewrite <- HC. ring. }
    subst u. assert (W : (1 + 1) * (x * y) = 0) by (transitivity (x * y + y * x); [ring|rewrite Eu; ring]). destruct (m0 _ _ W); [contradiction|assumption].
Qed.
End Ed.
Arguments edAdd {F}. Arguments edNeg {F}. Arguments edId {F}. Arguments onEd {F}.
