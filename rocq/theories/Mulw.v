(** Multiplication with a table of the odd multiples up to 15, to check certificates faster. Nothing here models code of /repo. *)
From Coq Require Import ZArith Lia.
Open Scope Z_scope.

Section Mw.
Context (y y3 y5 y7 y9 y11 y13 y15 : positive).
Definition x16 (p : positive) : positive := xO (xO (xO (xO p))).
Fixpoint pmw (x : positive) : positive :=
  match x with
  | xH => y
  | xO x => xO (pmw x)
  | xI xH => y3
  | xI (xO xH) => y5
  | xI (xI xH) => y7
  | xI (xO (xO xH)) => y9
  | xI (xI (xO xH)) => y11
  | xI (xO (xI xH)) => y13
  | xI (xI (xI xH)) => y15
  | xI (xO (xO (xO x))) => (y + x16 (pmw x))%positive
  | xI (xI (xO (xO x))) => (y3 + x16 (pmw x))%positive
  | xI (xO (xI (xO x))) => (y5 + x16 (pmw x))%positive
  | xI (xI (xI (xO x))) => (y7 + x16 (pmw x))%positive
  | xI (xO (xO (xI x))) => (y9 + x16 (pmw x))%positive
  | xI (xI (xO (xI x))) => (y11 + x16 (pmw x))%positive
  | xI (xO (xI (xI x))) => (y13 + x16 (pmw x))%positive
  | xI (xI (xI (xI x))) => (y15 + x16 (pmw x))%positive
  end.
Context (H3 : y3 = (3 * y)%positive) (H5 : y5 = (5 * y)%positive) (H7 : y7 = (7 * y)%positive) (H9 : y9 = (9 * y)%positive)
  (H11 : y11 = (11 * y)%positive) (H13 : y13 = (13 * y)%positive) (H15 : y15 = (15 * y)%positive).
Lemma pmw_spec : forall k x, (Pos.to_nat x < k)%nat -> pmw x = (x * y)%positive.
Proof.
  induction k as [|k IH]; intros x Hx; [lia|].
  assert (S : forall x', (x' < x)%positive -> pmw x' = (x' * y)%positive) by (intros x' H; apply IH; lia). clear IH Hx.
  destruct x as [[[[x|x|]|[x|x|]|]|[[x|x|]|[x|x|]|]|]|x|]; cbn [pmw]; subst; try (rewrite S by lia); unfold x16; lia.
Qed.
End Mw.
Definition pmulw (x y : positive) : positive :=
  let y2 := xO y in
  let y3 := (y + y2)%positive in let y5 := (y3 + y2)%positive in let y7 := (y5 + y2)%positive in let y9 := (y7 + y2)%positive in
  let y11 := (y9 + y2)%positive in let y13 := (y11 + y2)%positive in let y15 := (y13 + y2)%positive in pmw y y3 y5 y7 y9 y11 y13 y15 x.
Definition zmw (a b : Z) : Z :=
  match a, b with
  | Z0, _ | _, Z0 => Z0
  | Zpos x, Zpos y | Zneg x, Zneg y => Zpos (pmulw x y)
  | Zpos x, Zneg y | Zneg x, Zpos y => Zneg (pmulw x y)
  end.
Lemma pmulw_spec : forall x y, pmulw x y = (x * y)%positive.
Proof. intros x y. unfold pmulw. cbv zeta. eapply pmw_spec; [lia..|apply Nat.lt_succ_diag_r]. Qed.
Lemma zmw_spec : forall a b, zmw a b = a * b.
Proof. intros [|x|x] [|y|y]; cbn [zmw]; rewrite ?pmulw_spec; reflexivity. Qed.
