(** Lemmas about the mod-p group: powers, the subgroup of members as a lawful group, quadratic character of 2,
    roots of X^q - 1. *)
From Verif Require Import GoBase Json GroupIface NumTh ModP.
From Coq Require Import Znumtheory Zpow_facts Eqdep_dec Permutation.

(** What is needed of the description of a group: q > 1, and the generator has order dividing q. No primality. *)
Definition ModPOk (d : ModPDesc) : Prop :=
  1 < mpOrder d /\ 1 < mpField d /\ 0 <= mpGen d < mpField d /\ mpGen d ^ mpOrder d mod mpField d = 1.
(** canonical subgroup members *)
Definition Member (d : ModPDesc) (x : Z) : Prop := 0 <= x < mpField d /\ x ^ mpOrder d mod mpField d = 1.

Lemma Zpow_mod_pow : forall a m n, 1 < n -> 0 <= m -> Zpow_mod a m n = a ^ m mod n.
Proof. intros. apply Zpow_mod_correct. lia. Qed.

Section P.
Context (d : ModPDesc) (Hok : ModPOk d).
Local Notation p := (mpField d).
Local Notation q := (mpOrder d).

Lemma okp : 1 < p. Proof. apply Hok. Qed.
Lemma okq : 1 < q. Proof. apply Hok. Qed.
Lemma m1 : eqm p 1 1. Proof. reflexivity. Qed.
Lemma eq1 : forall x, x mod p = 1 <-> eqm p x 1.
Proof. intros. rewrite eqm_mod. rewrite (Z.mod_1_l p okp). reflexivity. Qed.
Lemma memb_eqm : forall x, Member d x -> eqm p (x ^ q) 1.
Proof. intros x [_ H]. apply eq1. exact H. Qed.
Lemma memb_gcd : forall x, Member d x -> Z.gcd x p = 1.
Proof.
  intros x H. pose proof okp. pose proof okq. apply (inv_gcd1 x (x ^ (q - 1))); [assumption|]. apply eq1.
  transitivity (x ^ q); [|apply memb_eqm; assumption]. apply eqm_of_eq. replace (x ^ q) with (x ^ (1 + (q - 1))) by (f_equal; lia).
  rewrite Z.pow_add_r by lia. ring.
Qed.
Lemma pow_qk : forall x k, Member d x -> 0 <= k -> eqm p (x ^ (q * k)) 1.
Proof.
  intros x k H Hk. pose proof okq. rewrite Z.pow_mul_r by lia. rewrite (eqm_pow _ _ _ k (memb_eqm x H)).
  rewrite Z.pow_1_l by lia. reflexivity.
Qed.
Lemma pow_mod_q : forall x s, Member d x -> 0 <= s -> eqm p (x ^ s) (x ^ (s mod q)).
Proof.
  intros x s H Hs. pose proof okq. rewrite (Z.div_mod s q) at 1 by lia.
  pose proof (Z.mod_pos_bound s q ltac:(lia)). assert (0 <= s / q) by (apply Z.div_pos; lia).
  rewrite Z.pow_add_r by nia. rewrite (pow_qk x (s / q) H) by assumption. apply eqm_of_eq; ring.
Qed.
Lemma memb_cancel : forall c a b, Z.gcd c p = 1 -> eqm p (c * a) (c * b) -> eqm p a b.
Proof. intros. apply (eqm_cancel p c); auto using okp. Qed.
Lemma gcd_pow : forall x k, 0 <= k -> Z.gcd x p = 1 -> Z.gcd (x ^ k) p = 1.
Proof.
  intros x k Hk H. destruct (modInverse_ex x p okp H) as (i & _ & _ & Hi).
  apply (inv_gcd1 _ (i ^ k)); [apply okp|]. apply eq1. apply eqm_inv_pow; [assumption|]. apply eq1. exact Hi.
Qed.

(** Scale: x^s, exponents modulo q, independent of the receiver *)
Lemma mpScale_pow : forall old x s, Member d x -> mpScale d old x s = x ^ (s mod q) mod p.
Proof.
  intros old x s H. pose proof okq as Hq. pose proof okp as Hp. unfold mpScale, bigExp.
  pose proof (Z.mod_pos_bound s q ltac:(lia)) as Hb.
  destruct (s <? 0) eqn:E.
  - apply Z.ltb_lt in E. destruct (modInverse_ex x p Hp (memb_gcd x H)) as (i & -> & _ & Hi). cbn [or_old].
    rewrite Zpow_mod_pow by lia. apply (proj1 (eqm_mod _ _ _)).
    apply (memb_cancel (x ^ (- s))); [apply gcd_pow; [lia|apply memb_gcd; assumption]|].
    rewrite <- Z.pow_add_r by lia. rewrite (eqm_inv_pow p x i (- s)) by (try lia; apply eq1; exact Hi).
    symmetry. replace (- s + s mod q) with (q * (- (s / q))).
    + apply pow_qk; [assumption|]. assert (s / q < 0) by (apply Z.div_lt_upper_bound; lia). lia.
    + pose proof (Z.div_mod s q ltac:(lia)). lia.
  - apply Z.ltb_ge in E. cbn [or_old]. rewrite Zpow_mod_pow by lia. apply (proj1 (eqm_mod _ _ _)). apply pow_mod_q; assumption.
Qed.
Lemma mpNegate_scale : forall old x, Member d x -> mpNegate d old x = mpScale d 0 x (-1).
Proof.
  intros old x H. pose proof okp as Hp. unfold mpNegate, mpScale, bigExp. cbn [Z.ltb Z.compare Z.opp].
  destruct (modInverse_ex x p Hp (memb_gcd x H)) as (i & -> & Hi & _). cbn [or_old]. rewrite Zpow_mod_pow by lia.
  rewrite Z.pow_1_r. symmetry. apply Z.mod_small. assumption.
Qed.
Lemma memb_mod : forall x, eqm p (x ^ q) 1 -> Member d (x mod p).
Proof.
  intros x H. pose proof okp. split; [apply Z.mod_pos_bound; lia|]. apply eq1.
  rewrite (eqm_pow p (x mod p) x q) by apply Zmod_eqm. assumption.
Qed.
Lemma memb_pow : forall x k, Member d x -> 0 <= k -> Member d (x ^ k mod p).
Proof.
  intros x k H Hk. pose proof okq. apply memb_mod. rewrite <- Z.pow_mul_r by lia. rewrite Z.mul_comm. apply pow_qk; assumption.
Qed.
Lemma memb_scale : forall old x s, Member d x -> Member d (mpScale d old x s).
Proof. intros. rewrite mpScale_pow by assumption. apply memb_pow; [assumption|]. pose proof okq. apply Z.mod_pos_bound; lia. Qed.
Lemma memb_add : forall x y, Member d x -> Member d y -> Member d (mpAdd d x y).
Proof.
  intros x y Hx Hy. unfold mpAdd. apply memb_mod. rewrite Z.pow_mul_l. rewrite (memb_eqm x Hx), (memb_eqm y Hy). reflexivity.
Qed.
Lemma memb_1 : Member d 1.
Proof. pose proof okp. pose proof okq. split; [lia|]. rewrite Z.pow_1_l by lia. apply Z.mod_1_l. assumption. Qed.
Lemma memb_gen : Member d (mpGen d).
Proof. destruct Hok as (_ & _ & H & H'). split; assumption. Qed.
Lemma memb_neg : forall old x, Member d x -> Member d (mpNegate d old x).
Proof. intros. rewrite mpNegate_scale by assumption. apply memb_scale. assumption. Qed.

Lemma add_comm' : forall x y, mpAdd d x y = mpAdd d y x.
Proof. intros. unfold mpAdd. f_equal. ring. Qed.
Lemma add_assoc' : forall x y z, mpAdd d x (mpAdd d y z) = mpAdd d (mpAdd d x y) z.
Proof. intros. unfold mpAdd. apply (proj1 (eqm_mod _ _ _)). modn. apply eqm_of_eq. ring. Qed.
Lemma add_1' : forall x, Member d x -> mpAdd d 1 x = x.
Proof. intros x [H _]. unfold mpAdd. rewrite Z.mul_1_l. apply Z.mod_small. assumption. Qed.
Lemma scale_0' : forall x, Member d x -> mpScale d 0 x 0 = 1.
Proof. intros x H. rewrite mpScale_pow by assumption. rewrite Zmod_0_l. apply Z.mod_1_l. apply okp. Qed.
Lemma scale_plus' : forall x a b, Member d x -> mpScale d 0 x (a + b) = mpAdd d (mpScale d 0 x a) (mpScale d 0 x b).
Proof.
  intros x a b H. pose proof okq. rewrite !mpScale_pow by assumption. unfold mpAdd. apply (proj1 (eqm_mod _ _ _)). modn.
  rewrite <- Z.pow_add_r by (apply Z.mod_pos_bound; lia).
  rewrite (pow_mod_q x (a mod q + b mod q) H).
  - rewrite <- Zplus_mod. reflexivity.
  - pose proof (Z.mod_pos_bound a q ltac:(lia)). pose proof (Z.mod_pos_bound b q ltac:(lia)). lia.
Qed.
Lemma scale_1' : forall x, Member d x -> mpScale d 0 x 1 = x.
Proof.
  intros x H. pose proof okq. rewrite mpScale_pow by assumption. rewrite Z.mod_1_l by assumption. rewrite Z.pow_1_r.
  apply Z.mod_small. apply H.
Qed.
Lemma scale_mod' : forall x s, Member d x -> mpScale d 0 x (s mod q) = mpScale d 0 x s.
Proof. intros. rewrite !mpScale_pow by assumption. rewrite Zmod_mod. reflexivity. Qed.
Lemma neg_r' : forall x, Member d x -> mpAdd d x (mpNegate d 0 x) = 1.
Proof.
  intros x H. rewrite mpNegate_scale by assumption. rewrite <- (scale_1' x H) at 1. rewrite <- scale_plus' by assumption.
  apply scale_0'. assumption.
Qed.

(** ** The members as a group of type Grp (a mathematical device; the code's group is ModPGrp) *)
Definition membb (x : Z) : bool := (0 <=? x) && (x <? p) && (x ^ q mod p =? 1).
End P.

Lemma membb_iff : forall d x, membb d x = true <-> Member d x.
Proof. intros. unfold membb, Member. rewrite !andb_true_iff, Z.leb_le, Z.ltb_lt, Z.eqb_eq. tauto. Qed.

Record sub (d : ModPDesc) : Type := mksub { sv : Z; sok : membb d sv = true }.
Arguments sv {d}. Arguments sok {d}.
Lemma sub_eq : forall d (a b : sub d), sv a = sv b -> a = b.
Proof. intros d [a Ha] [b Hb]; cbn; intros ->. f_equal. apply UIP_dec. apply bool_dec. Qed.
Lemma sub_memb : forall d (a : sub d), Member d (sv a).
Proof. intros. apply membb_iff. apply sok. Qed.
Definition mks d (x : Z) (H : Member d x) : sub d := mksub d x (proj2 (membb_iff d x) H).

Section Sub.
Context (d : ModPDesc) (Hok : ModPOk d).
Definition sone : sub d := mks d 1 (memb_1 d Hok).
Definition sadd (a b : sub d) : sub d := mks d _ (memb_add d Hok _ _ (sub_memb d a) (sub_memb d b)).
Definition sneg (a : sub d) : sub d := mks d _ (memb_neg d Hok 0 _ (sub_memb d a)).
Definition sscale (a : sub d) (s : Z) : sub d := mks d _ (memb_scale d Hok 0 _ s (sub_memb d a)).
Definition sgen : sub d := mks d _ (memb_gen d Hok).
Definition SubGrp : Grp := mkGrp (sub d) (mpName d) (mpOrder d) (mpField d) sone sgen sone
  sadd (fun a b => sadd a (sneg b)) sneg sscale (sscale sgen) (fun a b => sv a =? sv b) (fun a => sv a =? 1)
  (fun a => dec_str (sv a)) (fun _ => Panic) (fun a => Ok (JInt (sv a)))
  (fun old _ => Ok (old, false)).

Lemma SubLaws : GrpLaws SubGrp.
Proof.
  constructor; cbn [SubGrp gN gAdd gId gNeg gSub gScale gBase gGen gEq gIsId E].
  - apply (okq d Hok).
  - intros. apply sub_eq. apply add_comm'.
  - intros. apply sub_eq. apply add_assoc'.
  - intros. apply sub_eq. apply (add_1' d). apply sub_memb.
  - intros. apply sub_eq. apply (neg_r' d Hok). apply sub_memb.
  - reflexivity.
  - intros. apply sub_eq. apply (scale_0' d Hok). apply sub_memb.
  - intros. apply sub_eq. cbn [sscale sadd mks sv]. rewrite (scale_plus' d Hok) by apply sub_memb.
    rewrite (scale_1' d Hok) by apply sub_memb. reflexivity.
  - intros. apply sub_eq. cbn [sscale sone mks sv]. rewrite <- (scale_mod' d Hok) by apply sub_memb.
    rewrite Z_mod_same_full. apply (scale_0' d Hok). apply sub_memb.
  - reflexivity.
  - intros. rewrite Z.eqb_eq. split; [apply sub_eq|intros ->; reflexivity].
  - intros. rewrite Z.eqb_eq. split; [intros; apply sub_eq; assumption|intros ->; reflexivity].
Qed.
End Sub.

(** ** 2 is a square modulo p for p = 7 mod 8 *)
Fixpoint zprod (n : nat) (f : nat -> Z) : Z := match n with O => 1 | S n' => zprod n' f * f n' end.
Lemma zprod_ext : forall n f g, (forall i, (i < n)%nat -> f i = g i) -> zprod n f = zprod n g.
Proof. induction n as [|n IH]; intros f g H; cbn [zprod]; [reflexivity|]. rewrite (IH f g), (H n) by (intros; try apply H; lia). reflexivity. Qed.
Lemma zprod_eqm : forall p n f g, (forall i, (i < n)%nat -> eqm p (f i) (g i)) -> eqm p (zprod n f) (zprod n g).
Proof. induction n as [|n IH]; intros f g H; cbn [zprod]; [reflexivity|]. rewrite (IH f g), (H n) by (intros; try apply H; lia). reflexivity. Qed.
Lemma zprod_app : forall n m f, zprod (n + m) f = zprod n f * zprod m (fun i => f (n + i)%nat).
Proof.
  induction m as [|m IH]; intros f; cbn [zprod]; [rewrite Nat.add_0_r; ring|].
  rewrite Nat.add_succ_r. cbn [zprod]. rewrite IH. ring.
Qed.
Lemma zprod_mul : forall n f g, zprod n (fun i => f i * g i) = zprod n f * zprod n g.
Proof. induction n as [|n IH]; intros; cbn [zprod]; [reflexivity|]. rewrite IH. ring. Qed.
Lemma zprod_const : forall n c, zprod n (fun _ => c) = c ^ Z.of_nat n.
Proof. induction n as [|n IH]; intros; [reflexivity|]. cbn [zprod]. rewrite IH, Nat2Z.inj_succ, Z.pow_succ_r by lia. ring. Qed.
Lemma zprod_rev : forall n f, zprod n f = zprod n (fun i => f (n - 1 - i)%nat).
Proof.
  induction n as [|n IH]; intros f; [reflexivity|].
  change (zprod (S n) (fun i => f (S n - 1 - i)%nat)) with (zprod (1 + n) (fun i => f (S n - 1 - i)%nat)).
  rewrite zprod_app. cbn [zprod]. rewrite (IH f).
  replace (S n - 1 - 0)%nat with n by lia.
  rewrite (zprod_ext n (fun i => f (S n - 1 - (1 + i))%nat) (fun i => f (n - 1 - i)%nat)) by (intros; f_equal; lia). ring.
Qed.
Lemma zprod_evenodd : forall h f, zprod (2 * h + 1) f = zprod h (fun i => f (2 * i + 1)%nat) * zprod (S h) (fun i => f (2 * i)%nat).
Proof.
  induction h as [|h IH]; intros f.
  - cbn [Nat.mul Nat.add zprod]. ring.
  - replace (2 * S h + 1)%nat with (S (S (2 * h + 1))) by lia. cbn [zprod] in IH |- *. rewrite IH.
    replace (2 * S h)%nat with (S (2 * h + 1)) by lia. ring.
Qed.
Lemma zprod_gcd : forall p n f, (forall i, (i < n)%nat -> Z.gcd (f i) p = 1) -> Z.gcd (zprod n f) p = 1.
Proof.
  intros p n f H. apply Zgcd_1_rel_prime. induction n as [|n IH]; cbn [zprod].
  - apply rel_prime_1.
  - apply rel_prime_sym, rel_prime_mult; apply rel_prime_sym; [apply IH; intros; apply H; lia | apply Zgcd_1_rel_prime, H; lia].
Qed.

(** q = (p-1)/2 = 2h+1 with h odd. Products run over k = i+1, i < q. *)
Lemma two_pow_q : forall p h, prime p -> p = 2 * (2 * Z.of_nat h + 1) + 1 -> Z.odd (Z.of_nat h) = true ->
  eqm p (2 ^ (2 * Z.of_nat h + 1)) 1.
Proof.
  intros p h Hp Hph Hodd. set (n := (2 * h + 1)%nat).
  assert (Hn : Z.of_nat n = 2 * Z.of_nat h + 1) by (unfold n; lia).
  set (fact := zprod n (fun i => Z.of_nat i + 1)).
  assert (Hg : Z.gcd fact p = 1).
  { apply zprod_gcd. intros i Hi. apply prime_gcd1; [assumption|]. rewrite Z.mod_small by lia. lia. }
  apply (eqm_cancel p fact); [destruct Hp; assumption|assumption|]. rewrite Z.mul_1_r.
  assert (H2 : fact * 2 ^ (2 * Z.of_nat h + 1) = zprod n (fun i => 2 * (Z.of_nat i + 1))).
  { rewrite zprod_mul, zprod_const, Hn. unfold fact. ring. }
  rewrite H2.
  (* fact, with the odd k replaced by -(p-k) *)
  assert (H1 : eqm p fact (zprod h (fun i => 2 * (Z.of_nat i + 1)) * zprod (S h) (fun i => 2 * (Z.of_nat n - Z.of_nat i)))).
  { unfold fact, n. rewrite zprod_evenodd.
    rewrite (zprod_ext h _ (fun i => 2 * (Z.of_nat i + 1))) by (intros; lia).
    apply Zmult_eqm; [reflexivity|].
    transitivity (zprod (S h) (fun i => (-1) * (2 * (Z.of_nat n - Z.of_nat i)))).
    - apply zprod_eqm. intros i Hi. apply eqm_iff; [destruct Hp; lia|]. exists 1. lia.
    - rewrite zprod_mul, zprod_const. rewrite Nat2Z.inj_succ. apply Zodd_bool_iff in Hodd.
      replace ((-1) ^ Z.succ (Z.of_nat h)) with 1. { unfold n. apply eqm_of_eq. ring. }
      apply Zodd_ex in Hodd. destruct Hodd as [k Hk]. replace (Z.succ (Z.of_nat h)) with (2 * (k + 1)) by lia.
      rewrite Z.pow_mul_r by lia. change ((-1) ^ 2) with 1. rewrite Z.pow_1_l by lia. reflexivity. }
  rewrite H1. replace n with (h + S h)%nat at 1 by (unfold n; lia). rewrite zprod_app.
  apply Zmult_eqm; [reflexivity|]. rewrite zprod_rev. apply eqm_of_eq. apply zprod_ext. intros i Hi. unfold n. lia.
Qed.
Lemma two_pow_safe : forall p, prime p -> p mod 8 = 7 -> 2 ^ ((p - 1) / 2) mod p = 1.
Proof.
  intros p Hp H8. pose proof (Z.div_mod p 8 ltac:(lia)) as Hd. rewrite H8 in Hd.
  assert (1 < p) by (destruct Hp; assumption). assert (0 <= p / 8) by (apply Z.div_pos; lia).
  set (h := Z.to_nat (2 * (p / 8) + 1)).
  assert (Hh : Z.of_nat h = 2 * (p / 8) + 1) by (unfold h; lia).
  assert (Hq : (p - 1) / 2 = 2 * Z.of_nat h + 1) by (rewrite Hh; symmetry; apply Z.div_unique with 0; lia).
  rewrite Hq. destruct (two_pow_q p h Hp) as [H1]; [lia| |].
  - rewrite Hh. rewrite Z.odd_add, Z.odd_mul. reflexivity.
  - rewrite H1. apply Z.mod_1_l. assumption.
Qed.

(** ** order of a member when q is prime *)
Lemma pow_order : forall d x k, ModPOk d -> prime (mpOrder d) -> Member d x -> x <> 1 -> 0 <= k ->
  eqm (mpField d) (x ^ k) 1 -> k mod mpOrder d = 0.
Proof.
  intros d x k Hok Hq Hx Hne Hk H. destruct (Z.eq_dec (k mod mpOrder d) 0) as [|Hn]; [assumption|exfalso].
  pose proof (okp d Hok) as Hp. pose proof (okq d Hok) as Hq1.
  destruct (modInverse_ex k _ Hq1 (prime_gcd1 _ _ Hq Hn)) as (i & _ & Hi & Hki).
  apply Hne. apply (eqm_small (mpField d)); [apply Hx|lia|].
  assert (H1 : eqm (mpField d) (x ^ (k * i)) 1).
  { rewrite Z.pow_mul_r by lia. rewrite (eqm_pow _ _ _ i H). rewrite Z.pow_1_l by lia. reflexivity. }
  rewrite (pow_mod_q d Hok x (k * i) Hx) in H1 by nia. rewrite Hki, Z.pow_1_r in H1. exact H1.
Qed.

(** ** roots of polynomials modulo a prime *)
Fixpoint peval (l : list Z) (x : Z) : Z := match l with [] => 0 | c :: t => c + x * peval t x end.
(** synthetic division of c0 + X*t by (X - r): quotient *)
Fixpoint pdiv (l : list Z) (r : Z) : list Z := match l with [] => [] | [_] => [] | _ :: t => peval t r :: pdiv t r end.
Lemma pdiv_spec : forall l r x, peval l x = peval l r + (x - r) * peval (pdiv l r) x.
Proof.
  induction l as [|c t IH]; intros r x; [cbn; ring|]. destruct t as [|c' t].
  - cbn. ring.
  - change (pdiv (c :: c' :: t) r) with (peval (c' :: t) r :: pdiv (c' :: t) r).
    remember (c' :: t) as u. cbn [peval]. rewrite (IH r x). ring.
Qed.
Lemma pdiv_length : forall l r, length (pdiv l r) = pred (length l).
Proof. induction l as [|c t IH]; intros r; [reflexivity|]. destruct t as [|c' t]; [reflexivity|].
  change (pdiv (c :: c' :: t) r) with (peval (c' :: t) r :: pdiv (c' :: t) r). cbn [length]. rewrite IH. reflexivity. Qed.
Lemma pdiv_last : forall l r d0, (2 <= length l)%nat -> last (pdiv l r) d0 = last l d0.
Proof.
  induction l as [|c t IH]; intros r d0 H; [cbn in H; lia|]. destruct t as [|c' t]; [cbn in H; lia|].
  destruct t as [|c2 t].
  - cbn. ring.
  - change (pdiv (c :: c' :: c2 :: t) r) with (peval (c' :: c2 :: t) r :: pdiv (c' :: c2 :: t) r).
    change (last (c :: c' :: c2 :: t) d0) with (last (c' :: c2 :: t) d0). rewrite <- (IH r d0) by (cbn; lia). reflexivity.
Qed.
Lemma roots_bound : forall p, prime p -> forall n l rs, length l = S n -> last l 0 mod p <> 0 ->
  NoDup rs -> (forall r, In r rs -> 0 <= r < p /\ eqm p (peval l r) 0) -> (length rs <= n)%nat.
Proof.
  intros p Hp. induction n as [|n IH]; intros l rs Hl Hlast Hnd Hr.
  - destruct l as [|c [|]]; try discriminate. destruct rs as [|r rs]; [cbn; lia|]. exfalso.
    destruct (Hr r (or_introl eq_refl)) as [_ H]. cbn in H. apply Hlast. cbn. apply (proj1 (eqm_mod0 _ _)). rewrite <- H. apply eqm_of_eq; ring.
  - destruct rs as [|r rs]; [cbn; lia|]. cbn [length]. apply le_n_S.
    apply (IH (pdiv l r)).
    + rewrite pdiv_length, Hl. reflexivity.
    + rewrite pdiv_last by lia. assumption.
    + inversion Hnd; assumption.
    + intros s Hs. destruct (Hr s (or_intror Hs)) as [Hsb Hse]. destruct (Hr r (or_introl eq_refl)) as [Hrb Hre]. split; [assumption|].
      rewrite (pdiv_spec l r s) in Hse. rewrite Hre in Hse. rewrite Z.add_0_l in Hse.
      destruct (eqm_prime_mul0 p _ _ Hp Hse) as [H|H]; [exfalso|assumption].
      apply eqm_sub0 in H; [|destruct Hp; lia]. apply eqm_small in H; [|assumption|assumption]. subst s.
      inversion Hnd; contradiction.
Qed.
Lemma peval_repeat0 : forall n l x, peval (repeat 0 n ++ l) x = x ^ Z.of_nat n * peval l x.
Proof.
  induction n as [|n IH]; intros; cbn [repeat app peval]; [cbn [Z.of_nat]; rewrite Z.pow_0_r; ring|].
  rewrite IH, Nat2Z.inj_succ, Z.pow_succ_r by lia. ring.
Qed.
(** in a prime field every member is a power of any member of order q *)
Lemma memb_cyclic : forall d, ModPOk d -> prime (mpField d) -> prime (mpOrder d) -> mpGen d <> 1 ->
  forall x, Member d x -> exists k, 0 <= k < mpOrder d /\ x = mpGen d ^ k mod mpField d.
Proof.
  intros d Hok Hp Hq Hg x Hx. set (p := mpField d) in *. set (q := mpOrder d) in *.
  pose proof (okp d Hok) as Hp1. pose proof (okq d Hok) as Hq1. fold p in Hp1. fold q in Hq1.
  set (n := Z.to_nat q). assert (Hn : Z.of_nat n = q) by (unfold n; lia).
  set (pw := map (fun k => mpGen d ^ Z.of_nat k mod p) (seq 0 n)).
  destruct (in_dec Z.eq_dec x pw) as [Hin|Hout].
  - unfold pw in Hin. apply in_map_iff in Hin. destruct Hin as (k & <- & Hk). apply in_seq in Hk. exists (Z.of_nat k). split; [lia|reflexivity].
  - exfalso.
    assert (Hinj : forall a b, 0 <= a < q -> 0 <= b < q -> a <= b -> mpGen d ^ a mod p = mpGen d ^ b mod p -> a = b).
    { intros a b Ha Hb Hab He. assert (Hz : (b - a) mod q = 0).
      { apply (pow_order d (mpGen d) (b - a) Hok Hq (memb_gen d Hok) Hg ltac:(lia)).
        apply (memb_cancel d Hok (mpGen d ^ a)); [apply (gcd_pow d Hok); [lia|apply (memb_gcd d Hok), (memb_gen d Hok)]|].
        rewrite <- Z.pow_add_r by lia. rewrite Z.mul_1_r. replace (a + (b - a)) with b by lia. apply eqm_intro. symmetry. exact He. }
      rewrite Z.mod_small in Hz by lia. lia. }
    assert (Hnd : NoDup pw).
    {
      assert (Hgen : forall m s, (s + m <= n)%nat -> NoDup (map (fun k => mpGen d ^ Z.of_nat k mod p) (seq s m))).
      { induction m as [|m IH]; intros s Hs; cbn [seq map]; constructor.
        - intros Hi. apply in_map_iff in Hi. destruct Hi as (k & Hk & Hki). apply in_seq in Hki.
          assert (Z.of_nat s = Z.of_nat k) by (apply Hinj; try lia; symmetry; exact Hk). lia.
        - apply IH. lia. }
      apply Hgen. lia. }
    assert (Hroot : forall y, Member d y -> eqm p (peval (-1 :: repeat 0 (n - 1) ++ [1]) y) 0).
    { intros y Hy. cbn [peval]. rewrite peval_repeat0. cbn [peval].
      assert (Hyq : y * (y ^ Z.of_nat (n - 1) * (1 + y * 0)) = y ^ q).
      { replace q with (Z.succ (Z.of_nat (n - 1))) by lia. rewrite Z.pow_succ_r by lia. ring. }
      rewrite Hyq. pose proof (memb_eqm d Hok y Hy) as Hy1. fold p q in Hy1. rewrite Hy1. reflexivity. }
    pose proof (roots_bound p Hp n (-1 :: repeat 0 (n - 1) ++ [1]) (x :: pw)) as Hb.
    assert (Hlen : length (x :: pw) = S n) by (cbn [length]; unfold pw; rewrite map_length, seq_length; reflexivity).
    rewrite Hlen in Hb. cut (S n <= n)%nat; [lia|]. apply Hb.
    + cbn [length]. rewrite app_length, repeat_length. cbn [length]. lia.
    + replace (last (-1 :: repeat 0 (n - 1) ++ [1]) 0) with 1.
      * rewrite Z.mod_1_l by assumption. lia.
      * change (-1 :: repeat 0 (n - 1) ++ [1]) with ((-1 :: repeat 0 (n - 1)) ++ [1]). rewrite last_last. reflexivity.
    + constructor; assumption.
    + intros r [<-|Hr].
      * split; [apply Hx|apply Hroot; assumption].
      * unfold pw in Hr. apply in_map_iff in Hr. destruct Hr as (k & <- & _).
        assert (Hm : Member d (mpGen d ^ Z.of_nat k mod p)) by (apply (memb_pow d Hok); [apply (memb_gen d Hok)|lia]).
        split; [apply Hm|apply Hroot; assumption].
Qed.
Lemma SubPrime : forall d (Hok : ModPOk d), prime (mpField d) -> prime (mpOrder d) -> mpGen d <> 1 -> GrpPrime (SubGrp d Hok).
Proof.
  intros d Hok Hp Hq Hg. constructor.
  - apply SubLaws.
  - exact Hq.
  - intros H. apply Hg. apply (f_equal sv) in H. exact H.
  - intros X. destruct (memb_cyclic d Hok Hp Hq Hg (sv X) (sub_memb d X)) as (k & Hk & He). exists k. apply sub_eq.
    cbn [SubGrp gScale gGen sscale sgen mks sv]. rewrite (mpScale_pow d Hok) by apply (memb_gen d Hok).
    rewrite (Z.mod_small k) by assumption. exact He.
Qed.
