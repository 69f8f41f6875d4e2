(** Number-theoretic lemmas: modular inverses, congruences. *)
From Verif Require Import GoBase.
From Coq Require Import Znumtheory Zpow_facts Setoid Morphisms.

Lemma egcd_spec_aux : forall (k : nat) (f : nat) a b,
  (2 * k + 1 <= f)%nat -> 0 <= a -> 0 <= b < 2 ^ Z.of_nat k ->
  let '(s, t) := egcd f a b in s * a + t * b = Z.gcd a b.
Proof.
  induction k as [|k IH]; intros f a b Hf Ha Hb.
  - assert (b = 0) by (simpl in Hb; lia). subst b.
    destruct f; cbn [egcd]; [lia|]. rewrite Z.eqb_refl. rewrite Z.gcd_0_r, Z.abs_eq; lia.
  - destruct f as [|f]; [lia|]. cbn [egcd].
    destruct (b =? 0) eqn:Eb.
    { apply Z.eqb_eq in Eb. subst b. rewrite Z.gcd_0_r, Z.abs_eq; lia. }
    apply Z.eqb_neq in Eb. assert (Hb0 : 0 < b) by lia.
    destruct f as [|f]; [lia|]. cbn [egcd].
    pose proof (Z.mod_pos_bound a b Hb0) as Hr.
    pose proof (Z.div_mod a b Eb) as Hdm.
    destruct (a mod b =? 0) eqn:Er.
    { apply Z.eqb_eq in Er. rewrite Er in *.
      replace a with (b * (a / b)) at 3 by lia.
      assert (Z.gcd (b * (a / b)) b = b).
      { rewrite Z.gcd_comm, Z.gcd_mul_diag_l; lia. }
      nia. }
    apply Z.eqb_neq in Er.
    set (r := a mod b) in *.
    assert (Hr0 : 0 < r) by lia.
    pose proof (Z.mod_pos_bound b r Hr0) as Hr2.
    pose proof (Z.div_mod b r Er) as Hdm2.
    assert (Hq : 1 <= b / r) by (apply Z.div_le_lower_bound; lia).
    assert (Hpow : 2 ^ Z.of_nat (S k) = 2 * 2 ^ Z.of_nat k).
    { rewrite Nat2Z.inj_succ, Z.pow_succ_r; lia. }
    specialize (IH f r (b mod r)).
    destruct (egcd f r (b mod r)) as [s t] eqn:Ee.
    assert (Hg : Z.gcd a b = Z.gcd r (b mod r)).
    { rewrite (Z.gcd_comm r (b mod r)), Z.gcd_mod by lia. rewrite Z.gcd_comm.
      unfold r. rewrite (Z.gcd_comm b a). rewrite (Z.gcd_mod a b) by lia. apply Z.gcd_comm. }
    rewrite Hg, <- IH by nia.
    assert (E1 : (s - b / r * t) * (a - (b * (a / b) + r)) = 0) by (rewrite <- Hdm; ring).
    assert (E2 : t * (b - (r * (b / r) + b mod r)) = 0) by (rewrite <- Hdm2; ring).
    lia.
Qed.

Lemma egcd_spec : forall a b, 0 <= a -> 0 < b ->
  let '(s, t) := egcd (egcd_fuel b) a b in s * a + t * b = Z.gcd a b.
Proof.
  intros a b Ha Hb. unfold egcd_fuel.
  apply (egcd_spec_aux (S (Z.to_nat (Z.log2 b)))); [lia|lia|].
  split; [lia|]. rewrite Nat2Z.inj_succ, Z2Nat.id by apply Z.log2_nonneg.
  apply Z.log2_spec; lia.
Qed.

Lemma modInverse_Some : forall a n i, 1 < n -> modInverse a n = Some i ->
  0 <= i < n /\ (a * i) mod n = 1.
Proof.
  intros a n i Hn H. unfold modInverse in H.
  destruct (Z.gcd a n =? 1) eqn:E; [|discriminate]. apply Z.eqb_eq in E.
  assert (Hi : i = fst (egcd (egcd_fuel n) (a mod n) n) mod n) by congruence. subst i. clear H.
  pose proof (egcd_spec (a mod n) n) as Hs.
  destruct (egcd (egcd_fuel n) (a mod n) n) as [s t]. cbn [fst].
  pose proof (Z.mod_pos_bound a n ltac:(lia)) as Hm.
  specialize (Hs ltac:(lia) ltac:(lia)).
  rewrite Z.gcd_mod in Hs by lia. rewrite Z.gcd_comm in E. rewrite E in Hs.
  split; [apply Z.mod_pos_bound; lia|].
  rewrite Zmult_mod_idemp_r, <- (Zmult_mod_idemp_l a s n).
  replace (a mod n * s) with (1 + (- t) * n) by lia.
  rewrite Z_mod_plus_full. apply Z.mod_small; lia.
Qed.

Lemma modInverse_None : forall a n, modInverse a n = None <-> Z.gcd a n <> 1.
Proof.
  intros a n. unfold modInverse. destruct (Z.gcd a n =? 1) eqn:E.
  - apply Z.eqb_eq in E. split; [discriminate|contradiction].
  - apply Z.eqb_neq in E. split; auto.
Qed.

Lemma modInverse_ex : forall a n, 1 < n -> Z.gcd a n = 1 ->
  exists i, modInverse a n = Some i /\ 0 <= i < n /\ (a * i) mod n = 1.
Proof.
  intros a n Hn Hg. destruct (modInverse a n) as [i|] eqn:E.
  - exists i. split; [reflexivity|]. apply modInverse_Some; assumption.
  - apply modInverse_None in E. contradiction.
Qed.

Lemma modInverse_unique : forall a n i j, 1 < n -> (a * i) mod n = 1 -> (a * j) mod n = 1 ->
  i mod n = j mod n.
Proof.
  intros a n i j Hn Hi Hj.
  assert (H1 : (i * (a * j)) mod n = i mod n).
  { rewrite <- Zmult_mod_idemp_r, Hj. f_equal. lia. }
  rewrite <- H1. replace (i * (a * j)) with (j * (a * i)) by ring.
  rewrite <- Zmult_mod_idemp_r, Hi. f_equal. lia.
Qed.

Lemma gcd_mod_l : forall a n, 0 < n -> Z.gcd (a mod n) n = Z.gcd a n.
Proof. intros. rewrite Z.gcd_mod by lia. apply Z.gcd_comm. Qed.

(** a is invertible modulo n iff gcd = 1; for prime n iff a mod n <> 0 *)
Lemma prime_gcd1 : forall q a, prime q -> a mod q <> 0 -> Z.gcd a q = 1.
Proof.
  intros q a Hq Ha. rewrite Z.gcd_comm. apply Zgcd_1_rel_prime.
  apply prime_rel_prime; [assumption|]. intros Hd.
  apply Ha. destruct Hd as [k ->]. apply Z_mod_mult.
Qed.

Lemma inv_gcd1 : forall a i n, 1 < n -> (a * i) mod n = 1 -> Z.gcd a n = 1.
Proof.
  intros a i n Hn H. apply Zgcd_1_rel_prime. apply bezout_rel_prime.
  apply Bezout_intro with i (- (a * i / n)).
  pose proof (Z.div_mod (a * i) n ltac:(lia)). lia.
Qed.

(** ** Congruences modulo N *)
Inductive eqm (N a b : Z) : Prop := eqm_intro : a mod N = b mod N -> eqm N a b.
Lemma eqm_mod : forall N a b, eqm N a b <-> a mod N = b mod N.
Proof. intros. split; [intros [H]; exact H | apply eqm_intro]. Qed.
#[export] Instance eqm_equiv : forall N, Equivalence (eqm N).
Proof.
  intros N. constructor.
  - intros a. apply eqm_intro. reflexivity.
  - intros a b [H]. apply eqm_intro. congruence.
  - intros a b c [H] [H']. apply eqm_intro. congruence.
Qed.
#[export] Instance Zplus_eqm : forall N, Proper (eqm N ==> eqm N ==> eqm N) Z.add.
Proof.
  intros N a a' [Ha] b b' [Hb]. apply eqm_intro. rewrite Zplus_mod, Ha, Hb, <- Zplus_mod. reflexivity.
Qed.
#[export] Instance Zminus_eqm : forall N, Proper (eqm N ==> eqm N ==> eqm N) Z.sub.
Proof.
  intros N a a' [Ha] b b' [Hb]. apply eqm_intro. rewrite Zminus_mod, Ha, Hb, <- Zminus_mod. reflexivity.
Qed.
#[export] Instance Zmult_eqm : forall N, Proper (eqm N ==> eqm N ==> eqm N) Z.mul.
Proof.
  intros N a a' [Ha] b b' [Hb]. apply eqm_intro. rewrite Zmult_mod, Ha, Hb, <- Zmult_mod. reflexivity.
Qed.
#[export] Instance Zopp_eqm : forall N, Proper (eqm N ==> eqm N) Z.opp.
Proof. intros N a a' H. rewrite <- !Z.sub_0_l. rewrite H. reflexivity. Qed.
#[export] Instance Zmod_proper_eqm : forall N, Proper (eqm N ==> eq) (fun a => a mod N).
Proof. intros N a b [H]. exact H. Qed.
Lemma Zmod_eqm : forall N a, eqm N (a mod N) a.
Proof. intros. apply eqm_intro. apply Zmod_mod. Qed.
Lemma eqm_iff : forall N a b, 0 < N -> (eqm N a b <-> exists k, a - b = k * N).
Proof.
  intros N a b HN. rewrite eqm_mod. split.
  - intros H. exists (a / N - b / N).
    pose proof (Z.div_mod a N ltac:(lia)). pose proof (Z.div_mod b N ltac:(lia)). lia.
  - intros [k Hk]. replace a with (b + k * N) by lia. apply Z.mod_add; lia.
Qed.
Lemma eqm_of_eq : forall N a b, a = b -> eqm N a b.
Proof. intros; subst; reflexivity. Qed.
Lemma eqm_sub0 : forall N a b, 0 < N -> (eqm N a b <-> eqm N (a - b) 0).
Proof.
  intros N a b HN. rewrite !eqm_iff by assumption. split; intros [k Hk]; exists k; lia.
Qed.
Lemma eqm_mod0 : forall N a, eqm N a 0 <-> a mod N = 0.
Proof. intros. rewrite eqm_mod. rewrite Zmod_0_l. reflexivity. Qed.
Lemma eqm_inv1 : forall N a i, 1 < N -> (a * i) mod N = 1 -> eqm N (a * i) 1.
Proof. intros. apply eqm_intro. rewrite H0, Z.mod_small; lia. Qed.
Lemma eqm_cancel : forall N c a b, 1 < N -> Z.gcd c N = 1 -> eqm N (c * a) (c * b) -> eqm N a b.
Proof.
  intros N c a b HN Hg H.
  destruct (modInverse_ex c N HN Hg) as (i & _ & _ & Hi).
  apply eqm_inv1 in Hi; [|assumption].
  transitivity (c * i * a); [rewrite Hi; apply eqm_of_eq; ring|].
  transitivity (c * i * b); [|rewrite Hi; apply eqm_of_eq; ring].
  transitivity (i * (c * a)); [apply eqm_of_eq; ring|]. rewrite H. apply eqm_of_eq; ring.
Qed.
Lemma eqm_small : forall N a b, 0 <= a < N -> 0 <= b < N -> eqm N a b -> a = b.
Proof. intros N a b Ha Hb [H]. rewrite !Z.mod_small in H; lia. Qed.
Lemma eqm_prime_mul0 : forall q a b, prime q -> eqm q (a * b) 0 -> eqm q a 0 \/ eqm q b 0.
Proof.
  intros q a b Hq H. apply eqm_mod0 in H. apply Z.mod_divide in H.
  2:{ destruct Hq; lia. }
  destruct (prime_mult q Hq a b H) as [Hd|Hd]; [left|right]; apply eqm_mod0;
    apply Z.mod_divide; try assumption; destruct Hq; lia.
Qed.
Lemma eqm_pow : forall N a b k, eqm N a b -> eqm N (a ^ k) (b ^ k).
Proof.
  intros N a b k H. destruct (Z.le_gt_cases 0 k) as [Hk|Hk].
  - revert k Hk. apply natlike_ind; [reflexivity|]. intros k Hk IH.
    rewrite !Z.pow_succ_r by assumption. rewrite IH, H. reflexivity.
  - rewrite !Z.pow_neg_r by assumption. reflexivity.
Qed.
Lemma eqm_inv_pow : forall N a i k, 0 <= k -> eqm N (a * i) 1 -> eqm N (a ^ k * i ^ k) 1.
Proof.
  intros N a i k Hk H.
  rewrite <- Z.pow_mul_l. rewrite (eqm_pow _ _ _ k H). rewrite Z.pow_1_l by assumption. reflexivity.
Qed.
(** drop reductions modulo N in a congruence *)
Ltac modn := repeat match goal with |- eqm ?N _ _ => match goal with |- context [?a mod N] => rewrite (Zmod_eqm N a) end end.
