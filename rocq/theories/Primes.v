(** Fermat's little theorem and the Pocklington criterion, for certificates of the primes used by the program. *)
From Verif Require Import GoBase NumTh Mulw.
From Coq Require Import Znumtheory Zpow_facts Permutation.

(** ** Fermat *)
Definition lprod (l : list Z) : Z := fold_right Z.mul 1 l.
Lemma lprod_perm : forall l l', Permutation l l' -> lprod l = lprod l'.
Proof. induction 1; cbn [lprod fold_right] in *; unfold lprod in *; cbn [fold_right]; try congruence. ring. Qed.
Lemma lprod_mul : forall p x l, eqm p (lprod (map (fun a => (x * a) mod p) l)) (x ^ Z.of_nat (length l) * lprod l).
Proof.
  induction l as [|a l IH]; [reflexivity|]. unfold lprod in *. cbn [map fold_right length]. rewrite Nat2Z.inj_succ, Z.pow_succ_r by lia.
  rewrite IH. rewrite (Zmod_eqm p (x * a)). apply eqm_of_eq. ring.
Qed.
Lemma lprod_gcd : forall p l, 1 < p -> (forall a, In a l -> Z.gcd a p = 1) -> Z.gcd (lprod l) p = 1.
Proof.
  induction l as [|a l IH]; intros Hp H; unfold lprod in *; cbn [fold_right]; [apply Z.gcd_1_l|].
  assert (Ha : Z.gcd a p = 1) by (apply H; left; reflexivity). assert (Hl : Z.gcd (fold_right Z.mul 1 l) p = 1) by (apply IH; [assumption|intros; apply H; right; assumption]).
  apply Zgcd_1_rel_prime. apply rel_prime_sym, rel_prime_mult; apply rel_prime_sym, Zgcd_1_rel_prime; assumption.
Qed.
Lemma fermat : forall p x, prime p -> Z.gcd x p = 1 -> eqm p (x ^ (p - 1)) 1.
Proof.
  intros p x Hp Hx. pose proof (prime_ge_2 p Hp) as Hp2.
  set (L := map (fun i => Z.of_nat i + 1) (seq 0 (Z.to_nat (p - 1)))).
  assert (HL : forall a, In a L <-> 1 <= a < p).
  { intros a. unfold L. rewrite in_map_iff. split.
    - intros (i & <- & Hi). apply in_seq in Hi. lia.
    - intros Ha. exists (Z.to_nat (a - 1)). split; [lia|]. apply in_seq. lia. }
  assert (HnL : NoDup L).
  { apply FinFun.Injective_map_NoDup; [|apply seq_NoDup]. intros i j H. lia. }
  assert (Hlen : Z.of_nat (length L) = p - 1) by (unfold L; rewrite map_length, seq_length; lia).
  assert (Hg : forall a, In a L -> Z.gcd a p = 1).
  { intros a Ha. apply HL in Ha. apply prime_gcd1; [exact Hp|]. rewrite Z.mod_small; lia. }
  assert (HP : Permutation (map (fun a => (x * a) mod p) L) L).
  { apply NoDup_Permutation_bis.
    - assert (Hinj : forall a b, In a L -> In b L -> (x * a) mod p = (x * b) mod p -> a = b).
      { intros a b Ha Hb H. apply HL in Ha. apply HL in Hb. apply (eqm_small p); [lia|lia|].
        apply (eqm_cancel p x); [lia|exact Hx|]. apply eqm_intro. exact H. }
      clear - HnL Hinj. induction L as [|a l IH]; [constructor|]. inversion HnL; subst. cbn [map]. constructor.
      + intros Hin. apply in_map_iff in Hin. destruct Hin as (b & Hb & Hin). assert (b = a) by (apply Hinj; [right; exact Hin|left; reflexivity|exact Hb]).
        subst b. contradiction.
      + apply IH; [assumption|]. intros; apply Hinj; try (right; assumption); assumption.
    - rewrite map_length. apply Nat.le_refl.
    - intros y Hy. apply in_map_iff in Hy. destruct Hy as (a & <- & Ha). apply HL. pose proof (Hg a Ha) as Hga. apply HL in Ha.
      pose proof (Z.mod_pos_bound (x * a) p ltac:(lia)). enough ((x * a) mod p <> 0) by lia. intros H0. apply eqm_mod0 in H0.
      destruct (eqm_prime_mul0 p x a Hp H0) as [H1|H1]; apply eqm_mod0 in H1.
      + rewrite <- (gcd_mod_l x p ltac:(lia)), H1 in Hx. rewrite Z.gcd_0_l in Hx. lia.
      + rewrite Z.mod_small in H1; lia. }
  apply (eqm_cancel p (lprod L)); [lia|apply lprod_gcd; [lia|exact Hg]|].
  rewrite Z.mul_1_r, Z.mul_comm, <- Hlen, <- lprod_mul. apply eqm_of_eq. apply lprod_perm. exact HP.
Qed.

(** ** Pocklington *)
Lemma pow_gcd1 : forall p a, 1 < p -> forall k m, 0 <= k -> 0 <= m -> eqm p (a ^ m) 1 -> eqm p (a ^ k) 1 -> eqm p (a ^ Z.gcd m k) 1.
Proof.
  intros p a Hp k. pattern k. apply (well_founded_ind (Z.lt_wf 0)). clear k. intros k IH m Hk Hm H1 H2.
  destruct (Z.eq_dec k 0) as [->|Hk0]; [rewrite Z.gcd_0_r, Z.abs_eq by lia; exact H1|].
  pose proof (Z.mod_pos_bound m k ltac:(lia)) as Hr. rewrite Z.gcd_comm, <- Z.gcd_mod by lia. rewrite Z.gcd_comm.
  apply IH; try lia; [exact H2|].
  assert (H3 : eqm p (a ^ m) (a ^ (m mod k))).
  { rewrite (Z.div_mod m k) at 1 by lia. pose proof (Z.div_pos m k Hm ltac:(lia)).
    rewrite Z.pow_add_r, Z.pow_mul_r by (try lia; apply Z.mul_nonneg_nonneg; lia).
    rewrite (eqm_pow p _ _ (m / k) H2), Z.pow_1_l by lia. apply eqm_of_eq. ring. }
  rewrite <- H3. exact H1.
Qed.
(** one prime power of n - 1 *)
Lemma pock_step : forall n a q e p, 1 < n -> prime q -> 0 < e -> (q ^ e | n - 1) ->
  eqm n (a ^ (n - 1)) 1 -> Z.gcd (a ^ ((n - 1) / q) - 1) n = 1 -> prime p -> (p | n) -> (q ^ e | p - 1).
Proof.
  intros n a q e p Hn Hq He Hqe H1 Hg Hp Hpn.
  pose proof (prime_ge_2 p Hp) as Hp2. pose proof (prime_ge_2 q Hq) as Hq2.
  assert (Hred : forall x y, eqm n x y -> eqm p x y).
  { intros x y H. apply eqm_iff in H; [|lia]. apply eqm_iff; [lia|]. destruct H as [k Hk], Hpn as [w Hw]. exists (k * w). rewrite Hk, Hw. ring. }
  assert (Ha : Z.gcd a p = 1).
  { pose proof (Hred _ _ H1) as H. replace (n - 1) with (Z.succ (n - 2)) in H by lia. rewrite Z.pow_succ_r in H by lia.
    apply Zgcd_1_rel_prime, rel_prime_sym, prime_rel_prime; [exact Hp|]. intros Hd.
    assert (H0 : eqm p 1 0).
    { transitivity (a * a ^ (n - 2)); [symmetry; exact H|]. apply eqm_mod0. apply Z.mod_divide; [lia|]. apply Z.divide_mul_l. exact Hd. }
    apply eqm_mod0 in H0. rewrite Z.mod_small in H0; lia. }
  pose proof (pow_gcd1 p a ltac:(lia) (n - 1) (p - 1) ltac:(lia) ltac:(lia) (fermat p a Hp Ha) (Hred _ _ H1)) as Hgc.
  set (g := Z.gcd (p - 1) (n - 1)) in *.
  assert (Hg0 : 0 < g). { pose proof (Z.gcd_nonneg (p - 1) (n - 1)). destruct (Z.eq_dec g 0) as [E|]; [apply Z.gcd_eq_0_r in E; lia|unfold g in *; lia]. }
  destruct (Z.gcd_divide_r (p - 1) (n - 1)) as [k Hk]. fold g in Hk.
  destruct (Zdivide_dec q k) as [[k' Hk']|Hnk].
  - exfalso.
    assert (Hd : (n - 1) / q = k' * g) by (rewrite Hk, Hk'; replace (k' * q * g) with (k' * g * q) by ring; apply Z.div_mul; lia).
    assert (Hk'0 : 0 <= k') by nia.
    assert (Hm1 : eqm p (a ^ ((n - 1) / q) - 1) 0).
    { rewrite Hd, Z.mul_comm, Z.pow_mul_r by lia. rewrite (eqm_pow p _ _ k' Hgc), Z.pow_1_l by lia. reflexivity. }
    apply eqm_mod0, Z.mod_divide in Hm1; [|lia].
    pose proof (Z.gcd_greatest _ _ _ Hm1 Hpn) as H. rewrite Hg in H. apply Z.divide_1_r_nonneg in H; lia.
  - apply Z.divide_trans with g; [|apply Z.gcd_divide_l].
    apply Gauss with k; [rewrite <- Hk; exact Hqe|].
    apply rel_prime_sym, rel_prime_Zpower_r; [lia|]. apply rel_prime_sym, prime_rel_prime; assumption.
Qed.
(** F > sqrt n divides p - 1 for every prime divisor p of n *)
Lemma pock_prime : forall n F, 1 < n -> 0 < F -> n < F * F -> (forall p, prime p -> (p | n) -> (F | p - 1)) -> prime n.
Proof.
  intros n F Hn HF HFF H.
  assert (Hex : forall d, 1 < d -> exists p, prime p /\ (p | d)).
  { intros d. pattern d. apply (well_founded_ind (Z.lt_wf 0)). clear d. intros d IH Hd.
    destruct (prime_dec d) as [Hp|Hp]; [exists d; split; [exact Hp|apply Z.divide_refl]|].
    destruct (not_prime_divide d Hd Hp) as (x & Hx & Hxd). destruct (IH x ltac:(lia) ltac:(lia)) as (p & H1 & H2).
    exists p. split; [exact H1|]. apply Z.divide_trans with x; assumption. }
  assert (Hbig : forall d, 1 < d -> (d | n) -> F < d).
  { intros d Hd Hdn. destruct (Hex d Hd) as (p & Hp & Hpd). pose proof (H p Hp (Z.divide_trans _ _ _ Hpd Hdn)) as HFp.
    pose proof (prime_ge_2 p Hp). apply Z.divide_pos_le in HFp; [|lia]. apply Z.divide_pos_le in Hpd; [|lia]. lia. }
  destruct (prime_dec n) as [|Hc]; [assumption|exfalso].
  destruct (not_prime_divide n Hn Hc) as (d & Hd & Hdn). pose proof (Hbig d ltac:(lia) Hdn) as B1.
  destruct Hdn as [k Hk]. assert (Hk1 : 1 < k) by nia. pose proof (Hbig k Hk1 ltac:(exists d; lia)) as B2. nia.
Qed.

(** ** Checking certificates *)
(** Square-and-multiply modulo A - B; the quotients come with the certificate and need not be trusted. *)
Fixpoint powq (a A B : Z) (l : list (bool * Z)) (r : Z) : Z :=
  match l with
  | [] => r
  | (b, q) :: t => let s := Z.square r in powq a A B t ((if b then zmw a s else s) - A * q + B * q)
  end.
Fixpoint expo (l : list (bool * Z)) (x : Z) : Z :=
  match l with [] => x | (b, _) :: t => expo t (if b then 2 * x + 1 else 2 * x) end.
Lemma powq_spec : forall a A B l r x, 0 < A - B -> 0 <= x -> eqm (A - B) r (a ^ x) ->
  0 <= expo l x /\ eqm (A - B) (powq a A B l r) (a ^ expo l x).
Proof.
  induction l as [|[b q] l IH]; intros r x Hn Hx Hr; [split; assumption|]. cbn [powq expo]. apply IH; [exact Hn|destruct b; lia|].
  rewrite zmw_spec, Z.square_spec.
  assert (Hs : eqm (A - B) (r * r) (a ^ (2 * x))).
  { replace (2 * x) with (x + x) by lia. rewrite Z.pow_add_r by lia. rewrite Hr. reflexivity. }
  transitivity (if b then a * (r * r) else r * r).
  - apply eqm_iff; [exact Hn|]. exists (- q). ring.
  - destruct b; [|exact Hs]. rewrite Hs. apply eqm_of_eq. rewrite Z.pow_add_r, Z.pow_1_r by lia. ring.
Qed.
(** [cert A B q e a l1 l2 u]: q^e divides n - 1 where n = A - B; l1 computes c = a^((n-1)/q), l2 computes c^q = 1,
    and u is the inverse of c - 1 *)
Definition cert (A B q e a : Z) (l1 l2 : list (bool * Z)) (u : Z) : bool :=
  let n := A - B in
  let c := powq a A B l1 1 in
  (1 <? n) && (0 <? e) && ((n - 1) mod (q ^ e) =? 0) && (expo l1 0 * q =? n - 1) && (expo l2 0 =? q) &&
  (powq c A B l2 1 mod n =? 1) && (((c - 1) * u) mod n =? 1).
Lemma cert_ok : forall A B q e a l1 l2 u, prime q -> cert A B q e a l1 l2 u = true ->
  forall p, prime p -> (p | A - B) -> (q ^ e | p - 1).
Proof.
  intros A B q e a l1 l2 u Hq H p Hp Hpn. unfold cert in H. repeat (apply andb_prop in H; destruct H as [H ?]).
  apply Z.ltb_lt in H. match goal with H : (0 <? e) = true |- _ => apply Z.ltb_lt in H; rename H into He end.
  repeat match goal with H : (_ =? _) = true |- _ => apply Z.eqb_eq in H end.
  set (n := A - B) in *. set (c := powq a A B l1 1) in *. pose proof (prime_ge_2 q Hq) as Hq2.
  destruct (powq_spec a A B l1 1 0) as [P1 C1]; [fold n; lia|lia|reflexivity|]. fold c n in C1.
  destruct (powq_spec c A B l2 1 0) as [P2 C2]; [fold n; lia|lia|reflexivity|]. fold n in C2.
  assert (Hd : (n - 1) / q = expo l1 0).
  { match goal with H : expo l1 0 * q = _ |- _ => rewrite <- H end. apply Z.div_mul. lia. }
  apply (pock_step n a q e p); try assumption; try lia.
  - apply Z.mod_divide; [|assumption]. pose proof (Z.pow_pos_nonneg q e ltac:(lia) ltac:(lia)). lia.
  - rewrite <- Hd in C1. replace (n - 1) with ((n - 1) / q * q) by (rewrite Hd; assumption).
    rewrite Z.pow_mul_r by (try lia; rewrite Hd; exact P1). rewrite <- (eqm_pow n _ _ q C1).
    match goal with H : expo l2 0 = q |- _ => rewrite H in C2 end. rewrite <- C2.
    match goal with H : powq c A B l2 1 mod n = 1 |- _ => apply eqm_mod; rewrite H; symmetry; apply Z.mod_small; lia end.
  - rewrite Hd, <- (gcd_mod_l (a ^ expo l1 0 - 1) n) by lia.
    assert (E : (a ^ expo l1 0 - 1) mod n = (c - 1) mod n) by (apply (proj1 (eqm_mod n _ _)); rewrite C1; reflexivity).
    rewrite E, gcd_mod_l by lia. apply (inv_gcd1 (c - 1) u n); [lia|assumption].
Qed.
(** one prime power is enough *)
Lemma cert_prime1 : forall A B q e a l1 l2 u, prime q -> cert A B q e a l1 l2 u = true -> A - B <? q ^ e * q ^ e = true -> prime (A - B).
Proof.
  intros A B q e a l1 l2 u Hq H HF. apply Z.ltb_lt in HF. pose proof (cert_ok A B q e a l1 l2 u Hq H) as HD.
  unfold cert in H. repeat (apply andb_prop in H; destruct H as [H ?]). apply Z.ltb_lt in H.
  apply (pock_prime _ (q ^ e)); try assumption.
  match goal with H : (0 <? e) = true |- _ => apply Z.ltb_lt in H end. pose proof (prime_ge_2 q Hq). apply Z.pow_pos_nonneg; lia.
Qed.
(** two different primes *)
Lemma cert_prime2 : forall A B q q' a a' l1 l2 u l1' l2' u', prime q -> prime q' -> q <> q' ->
  cert A B q 1 a l1 l2 u = true -> cert A B q' 1 a' l1' l2' u' = true -> A - B <? (q * q') * (q * q') = true -> prime (A - B).
Proof.
  intros A B q q' a a' l1 l2 u l1' l2' u' Hq Hq' Hne H H' HF. apply Z.ltb_lt in HF.
  pose proof (cert_ok A B q 1 a l1 l2 u Hq H) as HD. pose proof (cert_ok A B q' 1 a' l1' l2' u' Hq' H') as HD'.
  unfold cert in H. repeat (apply andb_prop in H; destruct H as [H ?]). apply Z.ltb_lt in H.
  pose proof (prime_ge_2 q Hq). pose proof (prime_ge_2 q' Hq').
  apply (pock_prime _ (q * q')); try assumption; [apply Z.mul_pos_pos; lia|].
  intros p Hp Hpn. pose proof (HD p Hp Hpn) as [x Hx]. pose proof (HD' p Hp Hpn) as D'. rewrite Z.pow_1_r in *.
  rewrite Hx, Z.mul_comm. apply Z.mul_divide_mono_r. apply Gauss with q; [rewrite Z.mul_comm, <- Hx; exact D'|].
  apply rel_prime_sym. apply prime_rel_prime; [exact Hq|]. intros Hd. apply Hne. apply prime_div_prime; assumption.
Qed.
