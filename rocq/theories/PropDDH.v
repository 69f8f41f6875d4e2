(** C86: whoever tells votes apart from their ciphertexts decides Diffie-Hellman triples. *)
From Verif Require Import GoBase Json GroupIface Vector BIP BP VoteProof ModP App NumTh Alg ModPProofs Hom Toy PropModP PropApp.
From Coq Require Import Znumtheory.

(** ** Specification *)
(** f 0 + ... + f (n-1), and the number of draws (r_1, ..., r_k) below n counted by f *)
Fixpoint tot (n : nat) (f : Z -> Z) : Z := match n with O => 0 | S m => tot m f + f (Z.of_nat m) end.
Fixpoint totL (k n : nat) (f : list Z -> Z) : Z := match k with O => f [] | S j => tot n (fun r => totL j n (fun l => f (r :: l))) end.
Definition b2z (b : bool) : Z := if b then 1 else 0.

Section DDH.
Context (G : Grp).
Notation N := (Z.to_nat (gN G)).
Notation N1 := (Z.to_nat (gN G - 1)).
Definition Test : Type := E G -> E G -> E G -> bool.

(** in how many of all choices of a and b a test says "yes" to the triple (g^a, g^b, g^(ab)); of a, b and c to (g^a, g^b, g^c). As in elgamal.go b is not 0. *)
Definition ddhReal (T : Test) : Z := tot N (fun a => tot N1 (fun r => b2z (T (gBase G a) (gBase G (r + 1)) (gBase G (a * (r + 1)))))).
Definition ddhRand (T : Test) : Z := tot N (fun a => tot N1 (fun r => tot N (fun c => b2z (T (gBase G a) (gBase G (r + 1)) (gBase G c))))).
(** There are N^2 (N-1) choices of a, b and c; [adv T] divided by this is the advantage of T. *)
Definition adv (T : Test) : Z := Z.abs (gN G * ddhReal T - ddhRand T).

(** somebody who is shown the key and the ciphertexts, in order, of votes cast under it, and says "yes" or "no" *)
Definition Spy : Type := E G -> list (Ciphertext G) -> bool.
Fixpoint encryptAll (X : E G) (vs rs : list Z) : res (list (Ciphertext G)) :=
  match vs, rs with
  | [], [] => Ok []
  | v :: vs', r :: rs' => '(c, _) <- encryptVote G v X r ;; cs <- encryptAll X vs' rs' ;; Ok (c :: cs)
  | _, _ => Err
  end.
Definition says (D : Spy) (X : E G) (cs : res (list (Ciphertext G))) : bool := match cs with Ok l => D X l | _ => false end.
(** in how many of all choices of the secret key and of encryptVote's draws the spy says "yes" to the votes vs *)
Definition yes (D : Spy) (vs : list Z) : Z :=
  tot N (fun sk => totL (length vs) N1 (fun rs => b2z (says D (gBase G sk) (encryptAll (gBase G sk) vs rs)))).

(** The test made of the spy: it encrypts the votes in front and behind with draws of its own, under the key A, and puts the rest of the triple, with g^w, between them. *)
Definition testOf (D : Spy) (us : list Z) (w : Z) (vs rs ss : list Z) : Test := fun A B C =>
  match encryptAll A us rs, encryptAll A vs ss with
  | Ok l, Ok r => D A (l ++ mkCiphertext B (gAdd G (gBase G w) C) :: r)
  | _, _ => false
  end.
Definition Draws (n : nat) (l : list Z) : Prop := length l = n /\ Forall (fun r => 0 <= r < gN G - 1) l.
(** eps bounds what the tests for telling vs from vs' achieve: votes of vs' up to some place, the vote of either list at the place, votes of vs behind it *)
Definition TestsBelow (D : Spy) (vs vs' : list Z) (eps : Z) : Prop := forall us u ts us' v ts' w rs ss,
  vs = us ++ u :: ts -> vs' = us' ++ v :: ts' -> length us = length us' -> w = u \/ w = v ->
  Draws (length us') rs -> Draws (length ts) ss -> adv (testOf D us' w ts rs ss) <= eps.

(** what is needed of the group: exponents of the generator count modulo the order *)
Record ExpLaws : Prop := {
  xl_n : 1 < gN G;
  xl_add : forall a b, gAdd G (gBase G a) (gBase G b) = gBase G (a + b);
  xl_sub : forall a b, gSub G (gBase G a) (gBase G b) = gBase G (a - b);
  xl_scale : forall a b, gScale G (gBase G a) b = gBase G (a * b);
  xl_mod : forall a, gBase G (a mod gN G) = gBase G a
}.
End DDH.

(** ** Sums *)
Lemma tot_ext : forall n f g, (forall i, 0 <= i < Z.of_nat n -> f i = g i) -> tot n f = tot n g.
Proof. induction n as [|n IH]; intros f g H; [reflexivity|]. cbn [tot]. rewrite (IH f g), H by (intros; try apply H; lia). reflexivity. Qed.
Lemma tot_add : forall n f g, tot n (fun i => f i + g i) = tot n f + tot n g.
Proof. induction n as [|n IH]; intros; [reflexivity|]. cbn [tot]. rewrite IH. ring. Qed.
Lemma tot_mul : forall n f c, tot n (fun i => c * f i) = c * tot n f.
Proof. induction n as [|n IH]; intros; cbn [tot]; [ring|]. rewrite IH. ring. Qed.
Lemma tot_le : forall n f g, (forall i, 0 <= i < Z.of_nat n -> f i <= g i) -> tot n f <= tot n g.
Proof. induction n as [|n IH]; intros f g H; cbn [tot]; [lia|]. pose proof (IH f g ltac:(intros; apply H; lia)). pose proof (H (Z.of_nat n) ltac:(lia)). lia. Qed.
Lemma tot_abs : forall n f, Z.abs (tot n f) <= tot n (fun i => Z.abs (f i)).
Proof. induction n as [|n IH]; intros f; cbn [tot]; [lia|]. specialize (IH f). lia. Qed.
Lemma tot_const : forall n c, tot n (fun _ => c) = Z.of_nat n * c.
Proof. induction n as [|n IH]; intros; cbn [tot]; [ring|]. rewrite IH. replace (Z.of_nat (S n)) with (Z.of_nat n + 1) by lia. ring. Qed.
Lemma tot_swap : forall n m f, tot n (fun i => tot m (fun j => f i j)) = tot m (fun j => tot n (fun i => f i j)).
Proof.
  induction n as [|n IH]; intros m f; cbn [tot]; [rewrite tot_const; ring|]. rewrite IH, <- tot_add. reflexivity. Qed.
Lemma tot_front : forall n f, tot n (fun i => f (i + 1)) + f 0 = tot n f + f (Z.of_nat n).
Proof.
  induction n as [|n IH]; intros f; cbn [tot]; [reflexivity|]. specialize (IH f). replace (Z.of_nat (S n)) with (Z.of_nat n + 1) by lia. lia. Qed.
Lemma tot_rot : forall n f k, (0 < n)%nat -> tot n (fun i => f ((i + k) mod Z.of_nat n)) = tot n f.
Proof.
  intros n f k Hn. assert (HN : 0 < Z.of_nat n) by lia.
  assert (HR : forall j : nat, tot n (fun i => f ((i + Z.of_nat j) mod Z.of_nat n)) = tot n f).
  { induction j as [|j IH].
    - apply tot_ext. intros i Hi. rewrite Z.add_0_r, Z.mod_small by lia. reflexivity.
    - rewrite <- IH. pose proof (tot_front n (fun i => f ((i + Z.of_nat j) mod Z.of_nat n))) as HF. cbv beta in HF.
      replace (f ((Z.of_nat n + Z.of_nat j) mod Z.of_nat n)) with (f ((0 + Z.of_nat j) mod Z.of_nat n)) in HF.
      2:{ f_equal. replace (Z.of_nat n + Z.of_nat j) with (0 + Z.of_nat j + 1 * Z.of_nat n) by ring. rewrite Z.mod_add by lia. reflexivity. }
      rewrite <- (Z.add_cancel_r _ _ (f ((0 + Z.of_nat j) mod Z.of_nat n))), <- HF. f_equal. apply tot_ext. intros i _. do 2 f_equal. lia. }
  rewrite <- (HR (Z.to_nat (k mod Z.of_nat n))). pose proof (Z.mod_pos_bound k (Z.of_nat n) HN). apply tot_ext. intros i _.
  rewrite Z2Nat.id by lia. rewrite Zplus_mod_idemp_r. reflexivity.
Qed.
Lemma totL_ext : forall k n f g, (forall l, length l = k -> Forall (fun r => 0 <= r < Z.of_nat n) l -> f l = g l) -> totL k n f = totL k n g.
Proof.
  induction k as [|k IH]; intros n f g H; cbn [totL]; [apply H; [reflexivity|constructor]|]. apply tot_ext. intros i Hi. apply IH. intros l Hl HF.
  apply H; [cbn [length]; lia|constructor; assumption]. Qed.
Lemma totL_add : forall k n f g, totL k n (fun l => f l + g l) = totL k n f + totL k n g.
Proof.
  induction k as [|k IH]; intros n f g; cbn [totL]; [reflexivity|]. rewrite <- tot_add. apply tot_ext. intros i _. apply IH. Qed.
Lemma totL_mul : forall k n f c, totL k n (fun l => c * f l) = c * totL k n f.
Proof.
  induction k as [|k IH]; intros n f c; cbn [totL]; [reflexivity|]. rewrite <- tot_mul. apply tot_ext. intros i _. apply IH. Qed.
Lemma totL_le : forall k n f g, (forall l, length l = k -> Forall (fun r => 0 <= r < Z.of_nat n) l -> f l <= g l) -> totL k n f <= totL k n g.
Proof.
  induction k as [|k IH]; intros n f g H; cbn [totL]; [apply H; [reflexivity|constructor]|]. apply tot_le. intros i Hi. apply IH. intros l Hl HF.
  apply H; [cbn [length]; lia|constructor; assumption]. Qed.
Lemma totL_abs : forall k n f, Z.abs (totL k n f) <= totL k n (fun l => Z.abs (f l)).
Proof.
  induction k as [|k IH]; intros n f; cbn [totL]; [lia|]. eapply Z.le_trans; [apply tot_abs|]. apply tot_le. intros i _. apply IH. Qed.
Lemma totL_const : forall k n c, totL k n (fun _ => c) = Z.of_nat n ^ Z.of_nat k * c.
Proof.
  induction k as [|k IH]; intros n c; cbn [totL]; [change (Z.of_nat 0) with 0; rewrite Z.pow_0_r; ring|]. rewrite (tot_ext n _ (fun _ => Z.of_nat n ^ Z.of_nat k * c)) by (intros; apply IH).
  rewrite tot_const, Nat2Z.inj_succ, Z.pow_succ_r by lia. ring. Qed.
Lemma totL_tot : forall k n m f, totL k n (fun l => tot m (fun i => f l i)) = tot m (fun i => totL k n (fun l => f l i)).
Proof.
  induction k as [|k IH]; intros n m f; cbn [totL]; [reflexivity|]. rewrite tot_swap. apply tot_ext. intros i _. apply IH. Qed.


(** ** C86 *)
Section Proofs.
Context (G : Grp) (X : ExpLaws G).
Notation N := (Z.to_nat (gN G)).
Notation N1 := (Z.to_nat (gN G - 1)).
Let HN : Z.of_nat N = gN G. Proof. pose proof (xl_n G X). lia. Qed.
Let HN1 : Z.of_nat N1 = gN G - 1. Proof. pose proof (xl_n G X). lia. Qed.
Let Hpos : (0 < N)%nat. Proof. pose proof (xl_n G X). lia. Qed.

Lemma enc_any : forall v A r, encryptVote G v A r = Ok (mkCiphertext (gBase G (r + 1)) (gAdd G (gBase G v) (gScale G A (r + 1))), r + 1).
Proof. intros. unfold encryptVote, randInt. pose proof (xl_n G X). replace (gN G - 1 <=? 0) with false by (symmetry; apply Z.leb_gt; lia). reflexivity. Qed.
Lemma adv_ext : forall T T' : Test G, (forall A B C, T A B C = T' A B C) -> adv G T = adv G T'.
Proof.
  intros T T' H. unfold adv, ddhReal, ddhRand. f_equal. f_equal; [f_equal|]; apply tot_ext; intros a _; apply tot_ext; intros r _; [rewrite H; reflexivity|].
  apply tot_ext. intros c _. rewrite H. reflexivity.
Qed.
(** one ciphertext *)
Let one (w : Z) (D : E G -> Ciphertext G -> bool) : Z :=
  tot N (fun a => tot N1 (fun r => b2z (D (gBase G a) (mkCiphertext (gBase G (r + 1)) (gAdd G (gBase G w) (gScale G (gBase G a) (r + 1))))))).
Let oneTest (w : Z) (D : E G -> Ciphertext G -> bool) : Test G := fun A B C => D A (mkCiphertext B (gAdd G (gBase G w) C)).
Lemma one_real : forall w D, one w D = ddhReal G (oneTest w D).
Proof. intros w D. apply tot_ext. intros a _. apply tot_ext. intros r _. unfold oneTest. rewrite (xl_scale G X). reflexivity. Qed.
Lemma pad : forall w D, ddhRand G (oneTest w D) = tot N (fun a => tot N1 (fun r => tot N (fun c => b2z (D (gBase G a) (mkCiphertext (gBase G (r + 1)) (gBase G c)))))).
Proof.
  intros w D. apply tot_ext. intros a _. apply tot_ext. intros r _. rewrite <- (tot_rot N (fun c => b2z (D (gBase G a) (mkCiphertext (gBase G (r + 1)) (gBase G c)))) w Hpos).
  apply tot_ext. intros c _. unfold oneTest. rewrite (xl_add G X), HN, (xl_mod G X), (Z.add_comm w c). reflexivity.
Qed.
Lemma one_step : forall u v D, Z.abs (one u D - one v D) * gN G <= adv G (oneTest u D) + adv G (oneTest v D).
Proof.
  intros u v D. unfold adv. rewrite <- !one_real, !pad. pose proof (xl_n G X). rewrite <- (Z.abs_eq (gN G)) at 1 by lia. rewrite <- Z.abs_mul. lia. Qed.

Lemma draws_of : forall n l, length l = n -> Forall (fun r => 0 <= r < Z.of_nat N1) l -> Draws G n l.
Proof. intros n l H1 H2. split; [exact H1|]. rewrite HN1 in H2. exact H2. Qed.
Lemma b2z_says : forall (D : Spy G) A c cs, says G D A (cs' <- cs ;; Ok (c :: cs')) = says G (fun A l => D A (c :: l)) A cs.
Proof. intros D A c [l| | |]; reflexivity. Qed.

Lemma bounded : forall vs vs' D eps, length vs = length vs' -> TestsBelow G D vs vs' eps ->
  Z.abs (yes G D vs - yes G D vs') * gN G * (gN G - 1) <= 2 * Z.of_nat (length vs) * eps * (gN G - 1) ^ Z.of_nat (length vs).
Proof.
  pose proof (xl_n G X) as Hn. induction vs as [|u us IH]; intros [|v vs'] D eps HL HT; try discriminate; [cbn [length]; rewrite Z.sub_diag; cbn; lia|].
  injection HL as HL. set (k := length us) in *. set (M := gN G - 1).
  set (S1 := fun rs A c => says G (fun A l => D A (c :: l)) A (encryptAll G A us rs)).
  assert (E1 : forall w, yes G D (w :: us) = totL k N1 (fun rs => one w (S1 rs))).
  { intros w. unfold yes, one. cbn [length totL]. fold k. rewrite totL_tot. apply tot_ext. intros a _. rewrite totL_tot. apply tot_ext. intros r _.
    apply totL_ext. intros rs _ _. cbn [encryptAll]. rewrite enc_any. cbn [bind]. rewrite b2z_says. reflexivity. }
  set (D2 := fun r A l => D A (mkCiphertext (gBase G (r + 1)) (gAdd G (gBase G v) (gScale G A (r + 1))) :: l) : bool).
  assert (E2 : forall ws, length ws = k -> yes G D (v :: ws) = tot N1 (fun r => yes G (D2 r) ws)).
  { intros ws Hw. unfold yes. cbn [length totL]. rewrite Hw, tot_swap. apply tot_ext. intros r _. apply tot_ext. intros a _.
    apply totL_ext. intros rs _ _. cbn [encryptAll]. rewrite enc_any. cbn [bind]. rewrite b2z_says. reflexivity. }
  assert (A1 : Z.abs (yes G D (u :: us) - yes G D (v :: us)) * gN G <= M ^ Z.of_nat k * (2 * eps)).
  { rewrite !E1. replace (totL k N1 (fun rs => one u (S1 rs)) - totL k N1 (fun rs => one v (S1 rs))) with (totL k N1 (fun rs => one u (S1 rs) + -1 * one v (S1 rs))).
    2:{ rewrite totL_add, totL_mul. ring. }
    apply Z.le_trans with (totL k N1 (fun rs => gN G * Z.abs (one u (S1 rs) + -1 * one v (S1 rs)))).
    { rewrite totL_mul, Z.mul_comm. apply Z.mul_le_mono_nonneg_l; [lia|]. apply totL_abs. }
    replace (M ^ Z.of_nat k * (2 * eps)) with (totL k N1 (fun _ => 2 * eps)) by (rewrite totL_const, HN1; reflexivity).
    apply totL_le. intros rs Hr1 Hr2.
    assert (HB : forall w, w = u \/ w = v -> adv G (oneTest w (S1 rs)) <= eps).
    { intros w Hw. rewrite (adv_ext _ (testOf G D [] w us [] rs)).
      - apply (HT [] u us [] v vs' w [] rs); try reflexivity; try exact Hw; [split; [reflexivity|constructor]|]. apply draws_of; assumption.
      - intros A B C. unfold oneTest, S1, testOf, says. cbn [encryptAll app]. destruct (encryptAll G A us rs); reflexivity. }
    pose proof (one_step u v (S1 rs)) as H1. pose proof (HB u (or_introl eq_refl)). pose proof (HB v (or_intror eq_refl)).
    replace (one u (S1 rs) + -1 * one v (S1 rs)) with (one u (S1 rs) - one v (S1 rs)) by ring. lia. }
  assert (A2 : Z.abs (yes G D (v :: us) - yes G D (v :: vs')) * gN G * M <= M * (2 * Z.of_nat k * eps * M ^ Z.of_nat k)).
  { rewrite (E2 us eq_refl), (E2 vs' (eq_sym HL)). replace (tot N1 (fun r => yes G (D2 r) us) - tot N1 (fun r => yes G (D2 r) vs')) with (tot N1 (fun r => yes G (D2 r) us + -1 * yes G (D2 r) vs')).
    2:{ rewrite tot_add, tot_mul. ring. }
    apply Z.le_trans with (tot N1 (fun r => (gN G * M) * Z.abs (yes G (D2 r) us + -1 * yes G (D2 r) vs'))).
    { rewrite tot_mul, <- Z.mul_assoc, Z.mul_comm. apply Z.mul_le_mono_nonneg_l; [unfold M; nia|]. apply tot_abs. }
    replace (M * (2 * Z.of_nat k * eps * M ^ Z.of_nat k)) with (tot N1 (fun _ => 2 * Z.of_nat k * eps * M ^ Z.of_nat k)) by (rewrite tot_const, HN1; reflexivity).
    apply tot_le. intros r Hr.
    assert (HT2 : TestsBelow G (D2 r) us vs' eps).
    { intros us0 u0 ts us1 v0 ts' w rs ss Q1 Q2 Q3 Q4 Q5 Q6. rewrite (adv_ext _ (testOf G D (v :: us1) w ts (r :: rs) ss)).
      - apply (HT (u :: us0) u0 ts (v :: us1) v0 ts' w (r :: rs) ss); [cbn [app]; congruence|cbn [app]; congruence|cbn [length]; congruence|exact Q4| |exact Q6].
        destruct Q5 as [Q5 Q5']. split; [cbn [length]; congruence|]. constructor; [rewrite HN1 in Hr; exact Hr|exact Q5'].
      - intros A B C. unfold testOf. cbn [encryptAll]. rewrite enc_any. cbn [bind]. destruct (encryptAll G A us1 rs); [cbn [bind]|reflexivity..].
        destruct (encryptAll G A ts ss); reflexivity. }
    specialize (IH vs' (D2 r) eps HL HT2). fold M k in IH. replace (yes G (D2 r) us + -1 * yes G (D2 r) vs') with (yes G (D2 r) us - yes G (D2 r) vs') by ring. lia. }
  assert (HM : 0 < M) by (unfold M; lia).
  replace (Z.of_nat (length (u :: us))) with (Z.of_nat k + 1) by (cbn [length]; unfold k; lia). rewrite Z.pow_add_r, Z.pow_1_r by lia.
  set (P := M ^ Z.of_nat k) in *. set (a := yes G D (u :: us)) in *. set (b := yes G D (v :: us)) in *. set (c := yes G D (v :: vs')) in *. set (n := gN G) in *.
  assert (HT3 : Z.abs (a - c) * n * M <= Z.abs (a - b) * n * M + Z.abs (b - c) * n * M).
  { rewrite <- !Z.mul_assoc, <- Z.mul_add_distr_r. apply Z.mul_le_mono_nonneg_r; [unfold n, M in *; nia|lia]. }
  assert (A1' : Z.abs (a - b) * n * M <= P * (2 * eps) * M) by (apply Z.mul_le_mono_nonneg_r; [lia|exact A1]).
  replace (2 * (Z.of_nat k + 1) * eps * (P * M)) with (P * (2 * eps) * M + M * (2 * Z.of_nat k * eps * P)) by ring. lia.
Qed.
End Proofs.

(** Groups with the contract of group.go, and the mod-p group *)
Lemma laws_exp : forall G, GrpLaws G -> ExpLaws G.
Proof.
  intros G L. constructor; intros; rewrite ?(l_base G L); try exact (l_order G L).
  - symmetry. apply (scale_plus L).
  - rewrite (l_sub G L), <- (scale_opp L), <- (scale_plus L). reflexivity.
  - apply (scale_mul L).
  - apply (scale_eqm L). apply Zmod_eqm.
Qed.
Lemma modp_exp : forall d, ModPOk d -> ExpLaws (ModPGrp d).
Proof.
  intros d Hok. pose proof (laws_exp _ (SubLaws d Hok)) as [H1 H2 H3 H4 H5]. destruct (C29_group_contract d Hok) as (_ & _ & Hcs & _ & _ & _ & Hsub & _).
  pose proof (SubHom d Hok) as HF. constructor; intros.
  - exact H1.
  - exact (f_equal sv (H2 a b)).
  - rewrite Hsub by (apply (Hcs (mpGen d) b (memb_gen d Hok))). exact (f_equal sv (H3 a b)).
  - exact (f_equal sv (H4 a b)).
  - exact (f_equal sv (H5 a)).
Qed.

(** C86. Whatever a spy, shown the key and the ciphertexts of any number of votes, says: over all keys and all draws of encryptVote, its answers to two
    elections differ by no more than what explicit tests, which run the spy once, achieve at telling (g^a, g^b, g^(ab)) from (g^a, g^b, g^c). Divided by
    N^2 (N-1)^(n+1), with e = eps / (N^2 (N-1)) the advantage of the tests, this says: the probabilities differ by at most 2 n e. *)
Theorem C86_ciphertexts_hide_votes : forall d vs vs' (D : Spy (ModPGrp d)) eps, ModPOk d -> length vs = length vs' -> TestsBelow (ModPGrp d) D vs vs' eps ->
  Z.abs (yes (ModPGrp d) D vs - yes (ModPGrp d) D vs') * mpOrder d * (mpOrder d - 1) <= 2 * Z.of_nat (length vs) * eps * (mpOrder d - 1) ^ Z.of_nat (length vs).
Proof. intros d vs vs' D eps Hok. exact (bounded (ModPGrp d) (modp_exp d Hok) vs vs' D eps). Qed.
(** For one vote the two sides are even equal before the absolute values are taken: the votes are as far apart as the tests are from guessing. *)
Theorem C86_one_vote : forall d v v' (D : Spy (ModPGrp d)), ModPOk d -> let T w := testOf (ModPGrp d) D [] w [] [] [] in
  mpOrder d * (yes (ModPGrp d) D [v] - yes (ModPGrp d) D [v']) =
  (mpOrder d * ddhReal (ModPGrp d) (T v) - ddhRand (ModPGrp d) (T v)) - (mpOrder d * ddhReal (ModPGrp d) (T v') - ddhRand (ModPGrp d) (T v')).
Proof.
  intros d v v' D Hok T. set (G := ModPGrp d) in *. pose proof (modp_exp d Hok) as X. fold G in X.
  assert (E : forall w, yes G D [w] = ddhReal G (T w)).
  { intros w. unfold yes. cbn [length totL]. apply tot_ext. intros a _. apply tot_ext. intros r _. cbn [encryptAll]. rewrite (enc_any G X). cbn [bind says].
    unfold T, testOf. cbn [encryptAll app]. rewrite (xl_scale G X). reflexivity. }
  pose proof (fun w => pad G X w (fun A c => D A [c]) : ddhRand G (T w) = _) as P. rewrite !E, !P. ring.
Qed.

(** Conversely every test makes a spy: it tells the vote v from a random exponent exactly as well as the test tells the triples. *)
Definition spyOf {G : Grp} (v : Z) (T : Test G) : Spy G := fun A cs => match cs with [c] => T A (ctU c) (gSub G (ctV c) (gBase G v)) | _ => false end.
Theorem C86_no_better : forall d v (T : Test (ModPGrp d)), ModPOk d ->
  tot (Z.to_nat (mpOrder d)) (fun v' => yes (ModPGrp d) (spyOf v T) [v] - yes (ModPGrp d) (spyOf v T) [v']) = mpOrder d * ddhReal (ModPGrp d) T - ddhRand (ModPGrp d) T.
Proof.
  intros d v T Hok. set (G := ModPGrp d) in *. pose proof (modp_exp d Hok) as X. fold G in X. change (mpOrder d) with (gN G).
  pose proof (xl_n G X) as Hn. set (n := Z.to_nat (gN G)).
  assert (E : forall w, yes G (spyOf v T) [w] = tot n (fun a => tot (Z.to_nat (gN G - 1)) (fun r => b2z (T (gBase G a) (gBase G (r + 1)) (gBase G (a * (r + 1) + (w - v))))))).
  { intros w. unfold yes. cbn [length totL]. apply tot_ext. intros a _. apply tot_ext. intros r _. cbn [encryptAll]. rewrite (enc_any G X). cbn [bind says spyOf ctU ctV].
    rewrite (xl_scale G X), (xl_add G X), (xl_sub G X). do 3 f_equal. ring. }
  rewrite (tot_ext n _ (fun v' => yes G (spyOf v T) [v] + -1 * yes G (spyOf v T) [v'])) by (intros; ring). rewrite tot_add, tot_const, tot_mul. unfold n at 1. rewrite Z2Nat.id by lia.
  assert (E1 : yes G (spyOf v T) [v] = ddhReal G T).
  { rewrite E. apply tot_ext. intros a _. apply tot_ext. intros r _. rewrite Z.sub_diag, Z.add_0_r. reflexivity. }
  assert (E2 : tot n (fun w => yes G (spyOf v T) [w]) = ddhRand G T).
  { rewrite (tot_ext n _ (fun w => tot n (fun a => tot (Z.to_nat (gN G - 1)) (fun r => b2z (T (gBase G a) (gBase G (r + 1)) (gBase G (a * (r + 1) + (w - v))))))) (fun w _ => E w)).
    rewrite tot_swap. apply tot_ext. intros a _. rewrite tot_swap. apply tot_ext. intros r _.
    fold n. rewrite <- (tot_rot n (fun c => b2z (T (gBase G a) (gBase G (r + 1)) (gBase G c))) (a * (r + 1) - v)) by (unfold n; lia).
    apply tot_ext. intros c _. unfold n. rewrite Z2Nat.id by lia. rewrite (xl_mod G X). do 3 f_equal. ring. }
  rewrite E1, E2. ring.
Qed.
(** with the prime of main.go *)
Theorem C86_rfc3526 : prime (mpField rfcDesc) -> prime (mpOrder rfcDesc) -> forall vs vs' (D : Spy (ModPGrp rfcDesc)) eps,
  length vs = length vs' -> TestsBelow (ModPGrp rfcDesc) D vs vs' eps ->
  Z.abs (yes (ModPGrp rfcDesc) D vs - yes (ModPGrp rfcDesc) D vs') * mpOrder rfcDesc * (mpOrder rfcDesc - 1) <= 2 * Z.of_nat (length vs) * eps * (mpOrder rfcDesc - 1) ^ Z.of_nat (length vs).
Proof.
  intros Hp Hq vs vs' D eps. pose proof C49_rfc3526 as (_ & _ & _ & _ & _ & _ & _ & HSP).
  exact (C86_ciphertexts_hide_votes rfcDesc vs vs' D eps (safe_ok _ (HSP Hp Hq))). Qed.

(** ** Concrete case: a group of order 3, where a spy can try all keys. It says "yes" to all 6 encryptions of the vote 1, to none of 2; its two tests achieve 12 and 6. *)
Definition d7 : ModPDesc := mkModPDesc 2 7 3 "tiny".
Definition reader : Spy (ModPGrp d7) := fun A cs => match cs with [c] => existsb (fun sk => (2 ^ sk mod 7 =? A) && (2 * ctU c ^ sk mod 7 =? ctV c)) [0; 1; 2] | _ => false end.
Example C86_case : ModPOk d7 /\ TestsBelow (ModPGrp d7) reader [1] [2] 12 /\ yes (ModPGrp d7) reader [1] = 6 /\ yes (ModPGrp d7) reader [2] = 0 /\
  adv (ModPGrp d7) (testOf (ModPGrp d7) reader [] 1 [] [] []) = 12 /\ adv (ModPGrp d7) (testOf (ModPGrp d7) reader [] 2 [] [] []) = 6.
Proof.
  split; [unfold ModPOk; cbn; lia|]. split; [|split; [vm_compute; reflexivity|split; [vm_compute; reflexivity|split; vm_compute; reflexivity]]].
  intros us u ts us' v ts' w rs ss H1 H2 HL Hw [Hr _] [Hs _].
  destruct us as [|x us]; [|destruct us; discriminate]. destruct us' as [|x us']; [|discriminate]. cbn [app] in H1, H2. injection H1 as <- <-. injection H2 as <- <-.
  destruct rs; [|discriminate]. destruct ss; [|discriminate]. destruct Hw as [->| ->]; vm_compute; discriminate.
Qed.
Print Assumptions C86_ciphertexts_hide_votes.
Print Assumptions C86_one_vote.
Print Assumptions C86_no_better.
Print Assumptions C86_rfc3526.
