(** A polynomial of degree at most D modulo a prime, with non-zero value at 0, has at most D roots. *)
From Verif Require Import GoBase NumTh Alg.
From Coq Require Import Setoid Morphisms Znumtheory.

Fixpoint peval (p : list Z) (x : Z) : Z := match p with [] => 0 | c :: t => c + x * peval t x end.
Fixpoint padd (p q : list Z) : list Z :=
  match p, q with
  | [], _ => q
  | _, [] => p
  | a :: p', b :: q' => a + b :: padd p' q'
  end.
Lemma padd_eval : forall p q x, peval (padd p q) x = peval p x + peval q x.
Proof. induction p as [|a p IH]; intros [|b q] x; cbn [padd peval]; try lia. rewrite IH. ring. Qed.
Lemma padd_len : forall p q D, (length p <= D)%nat -> (length q <= D)%nat -> (length (padd p q) <= D)%nat.
Proof.
  induction p as [|a p IH]; intros [|b q] D Hp Hq; cbn [padd length] in *; try lia.
  destruct D; [lia|]. specialize (IH q D). lia.
Qed.
Lemma mono_eval : forall k a x, peval (repeat 0 k ++ [a]) x = a * x ^ Z.of_nat k.
Proof.
  induction k as [|k IH]; intros; [cbn [repeat app peval]; change (x ^ Z.of_nat 0) with 1; ring|]. cbn [repeat app peval]. rewrite IH, Nat2Z.inj_succ, Z.pow_succ_r by lia. ring.
Qed.

(** [f] is a polynomial function of degree at most [D] *)
Definition PolyFun (D : nat) (f : Z -> Z) : Prop := exists p, (length p <= S D)%nat /\ forall x, f x = peval p x.
Lemma poly_mono : forall D k a, (k <= D)%nat -> PolyFun D (fun x => a * x ^ Z.of_nat k).
Proof. intros D k a Hk. exists (repeat 0 k ++ [a]). rewrite app_length, repeat_length. split; [cbn; lia|]. intros x. symmetry. apply mono_eval. Qed.
Lemma poly_add : forall D f g, PolyFun D f -> PolyFun D g -> PolyFun D (fun x => f x + g x).
Proof. intros D f g (p & Hp & Ep) (q & Hq & Eq). exists (padd p q). split; [apply padd_len; assumption|]. intros x. rewrite padd_eval, Ep, Eq. reflexivity. Qed.
Lemma poly_0 : forall D, PolyFun D (fun _ => 0).
Proof. intros D. exists []. split; [cbn; lia|reflexivity]. Qed.
Lemma poly_zsum : forall D n f, (forall i, (i < n)%nat -> PolyFun D (f i)) -> PolyFun D (fun x => zsum n (fun i => f i x)).
Proof.
  intros D n f. induction n as [|n IH]; intros Hf; [apply poly_0|]. cbn [zsum]. apply poly_add; [apply IH; intros; apply Hf; lia|apply Hf; lia].
Qed.
Lemma poly_ext : forall D f g, (forall x, f x = g x) -> PolyFun D f -> PolyFun D g.
Proof. intros D f g He (p & Hp & Ep). exists p. split; [exact Hp|]. intros x. rewrite <- He. apply Ep. Qed.

Fixpoint pquot (p : list Z) (a : Z) : list Z :=
  match p with
  | [] => []
  | _ :: t => match t with [] => [] | _ => peval t a :: pquot t a end
  end.
Lemma pquot_len : forall p a, length (pquot p a) = pred (length p).
Proof. induction p as [|c [|d t] IH]; intros a; [reflexivity|reflexivity|]. change (pquot (c :: d :: t) a) with (peval (d :: t) a :: pquot (d :: t) a). cbn [length]. rewrite IH. reflexivity. Qed.
Lemma pquot_eval : forall p a x, peval p x - peval p a = (x - a) * peval (pquot p a) x.
Proof.
  induction p as [|c [|d t] IH]; intros a x; [cbn; ring|cbn; ring|].
  change (pquot (c :: d :: t) a) with (peval (d :: t) a :: pquot (d :: t) a).
  change (peval (c :: d :: t) x) with (c + x * peval (d :: t) x). change (peval (c :: d :: t) a) with (c + a * peval (d :: t) a).
  specialize (IH a x). set (P := peval (d :: t)) in *. cbn [peval]. set (Q := peval (pquot (d :: t) a) x) in *. clearbody P Q.
  transitivity (x * (P x - P a) + (x - a) * P a); [ring|]. rewrite IH. ring.
Qed.
Lemma pquot_zero : forall q p a, Forall (fun c => eqm q c 0) (pquot p a) -> eqm q (peval p a) 0 -> Forall (fun c => eqm q c 0) p.
Proof.
  induction p as [|c [|d t] IH]; intros a Hq Ha; [constructor| |].
  - constructor; [|constructor]. rewrite <- Ha. cbn. apply eqm_of_eq. ring.
  - change (pquot (c :: d :: t) a) with (peval (d :: t) a :: pquot (d :: t) a) in Hq.
    inversion Hq as [|? ? H1 H2]; subst. constructor; [|apply (IH a); assumption].
    change (peval (c :: d :: t) a) with (c + a * peval (d :: t) a) in Ha. transitivity (c + a * peval (d :: t) a - a * peval (d :: t) a); [apply eqm_of_eq; ring|].
    rewrite Ha, H1. apply eqm_of_eq. ring.
Qed.
Lemma roots_zero : forall q, prime q -> forall n p roots, length p = n -> (n <= length roots)%nat -> NoDup roots ->
  (forall x, In x roots -> 0 <= x < q /\ eqm q (peval p x) 0) -> Forall (fun c => eqm q c 0) p.
Proof.
  intros q Pq. induction n as [|n IH]; intros p roots Hp Hl Hnd Hr; [destruct p; [constructor|discriminate]|].
  destruct roots as [|a rest]; [cbn in Hl; lia|]. inversion Hnd as [|? ? Ha Hnd']; subst.
  apply (pquot_zero q p a); [|apply Hr; left; reflexivity].
  apply (IH _ rest); [rewrite pquot_len, Hp; reflexivity|cbn in Hl; lia|exact Hnd'|].
  intros x Hx. destruct (Hr x (or_intror Hx)) as [Bx Ex]. destruct (Hr a (or_introl eq_refl)) as [Ba Ea]. split; [exact Bx|].
  destruct (eqm_prime_mul0 q (x - a) (peval (pquot p a) x) Pq) as [H0|H0]; [|exfalso|exact H0].
  - rewrite <- pquot_eval, Ex, Ea. apply eqm_of_eq. ring.
  - apply Ha. replace a with x; [exact Hx|]. apply (eqm_small q); [exact Bx|exact Ba|]. apply eqm_sub0; [lia|exact H0].
Qed.
Theorem few_roots : forall q D f roots, prime q -> PolyFun D f -> f 0 mod q <> 0 -> NoDup roots ->
  (forall x, In x roots -> 0 <= x < q /\ f x mod q = 0) -> (length roots <= D)%nat.
Proof.
  intros q D f roots Pq (p & Hp & Ep) H0 Hnd Hr. destruct (le_lt_dec (length roots) D) as [|Hlt]; [assumption|exfalso].
  assert (HZ : Forall (fun c => eqm q c 0) p).
  { apply (roots_zero q Pq (length p) p roots eq_refl); [lia|exact Hnd|]. intros x Hx. destruct (Hr x Hx) as [Bx Ex]. split; [exact Bx|].
    rewrite Ep in Ex. apply eqm_mod0. exact Ex. }
  apply H0. rewrite Ep. apply (proj1 (eqm_mod0 _ _)). destruct HZ as [|c t Hc _]; [reflexivity|]. cbn [peval]. rewrite Hc. apply eqm_of_eq. ring.
Qed.
