(** A finite abelian group with an element of large prime order is cyclic, when points of order 2 come in pairs; and so the points of
    the shipped curves are the multiples of the generator. Nothing here models code of /repo. *)
From Verif Require Import GoBase NumTh.
From Coq Require Import Znumtheory.

Section Order.
Context (T : Type) (O : T) (add : T -> T -> T) (neg : T -> T).
Context (comm : forall a b, add a b = add b a) (assoc : forall a b c, add a (add b c) = add (add a b) c)
  (idl : forall a, add O a = a) (negr : forall a, add a (neg a) = O).

Definition mul (k : nat) (a : T) : T := Nat.iter k (add a) O.
Lemma idr : forall a, add a O = a. Proof. intros. rewrite comm. apply idl. Qed.
Lemma mul_S : forall k a, mul (S k) a = add a (mul k a). Proof. reflexivity. Qed.
Lemma mul_1 : forall a, mul 1 a = a. Proof. intros. cbn. apply idr. Qed.
Lemma mul_plus : forall j k a, mul (j + k) a = add (mul j a) (mul k a).
Proof. induction j as [|j IH]; intros k a; [symmetry; apply idl|]. cbn [Nat.add]. rewrite !mul_S, IH. apply assoc. Qed.
Lemma mul_O : forall k, mul k O = O. Proof. induction k as [|k IH]; [reflexivity|]. rewrite mul_S, IH. apply idl. Qed.
Lemma mul_mul : forall j k a, mul j (mul k a) = mul (j * k) a.
Proof. induction j as [|j IH]; intros k a; [reflexivity|]. cbn [Nat.mul]. rewrite mul_S, mul_plus, IH. reflexivity. Qed.
Lemma mul_dist : forall k a b, mul k (add a b) = add (mul k a) (mul k b).
Proof.
  induction k as [|k IH]; intros a b; [symmetry; apply idl|]. rewrite !mul_S, IH, !assoc. f_equal. rewrite <- !assoc. f_equal. apply comm.
Qed.
Lemma cancel : forall a b c, add a b = add a c -> b = c.
Proof.
  intros a b c H. rewrite <- (idl b), <- (idl c), <- (negr a), (comm a (neg a)), <- !assoc, H. reflexivity.
Qed.
Lemma neg_unique : forall a b, add a b = O -> b = neg a.
Proof. intros a b H. apply (cancel a). rewrite H, negr. reflexivity. Qed.
Lemma mul_neg : forall k a, mul k (neg a) = neg (mul k a).
Proof. intros k a. apply neg_unique. rewrite <- mul_dist, negr. apply mul_O. Qed.

Context (n : nat) (Hn : prime (Z.of_nat n)) (G : T) (HG : G <> O) (HnG : mul n G = O).
Lemma n_pos : (1 < n)%nat. Proof. pose proof (prime_ge_2 _ Hn). lia. Qed.
Lemma mul_mod : forall k, mul k G = mul (k mod n) G.
Proof.
  intros k. pose proof n_pos. rewrite (Nat.div_mod k n) at 1 by lia. rewrite mul_plus, (Nat.mul_comm n), <- mul_mul, HnG, mul_O. apply idl.
Qed.
Lemma mul_none : forall d, mul d G = O -> (d mod n = 0)%nat.
Proof.
  intros d H. pose proof n_pos as Hn1. destruct (Nat.eq_dec (d mod n) 0) as [|E]; [assumption|exfalso]. apply HG.
  assert (Hg : Z.gcd (Z.of_nat d) (Z.of_nat n) = 1).
  { apply prime_gcd1; [exact Hn|]. rewrite <- Nat2Z.inj_mod. lia. }
  destruct (modInverse_ex _ _ (ltac:(lia) : 1 < Z.of_nat n) Hg) as (i & _ & Hi & He).
  rewrite <- (Z2Nat.id i) in He by lia. rewrite <- Nat2Z.inj_mul, <- Nat2Z.inj_mod in He.
  rewrite <- (mul_1 G). replace 1%nat with ((d * Z.to_nat i) mod n)%nat by lia. rewrite <- mul_mod, Nat.mul_comm, <- mul_mul, H. apply mul_O.
Qed.
Lemma mul_inj : forall i j, (i < n)%nat -> (j < n)%nat -> mul i G = mul j G -> i = j.
Proof.
  assert (W : forall i j, (i < n)%nat -> (j < n)%nat -> (i <= j)%nat -> mul i G = mul j G -> i = j).
  { intros i j Hi Hj Hij H. replace j with (i + (j - i))%nat in H by lia. rewrite mul_plus in H. rewrite <- (idr (mul i G)) in H at 1.
    apply cancel in H. symmetry in H. apply mul_none in H. rewrite Nat.mod_small in H; lia. }
  intros i j Hi Hj H. destruct (Nat.le_ge_cases i j); [apply W|symmetry; apply W; [..|symmetry]]; assumption.
Qed.

Definition InH (a : T) : Prop := exists k, a = mul k G.
Lemma InH_add : forall a b, InH a -> InH b -> InH (add a b).
Proof. intros a b [j ->] [k ->]. exists (j + k)%nat. symmetry. apply mul_plus. Qed.
Lemma InH_neg : forall a, InH a -> InH (neg a).
Proof.
  intros a [k ->]. exists (k * (n - 1))%nat. symmetry. apply neg_unique. rewrite <- mul_plus. pose proof n_pos.
  replace (k + k * (n - 1))%nat with (k * n)%nat by nia. rewrite <- mul_mul, HnG. apply mul_O.
Qed.
Lemma InH_mul : forall k a, InH a -> InH (mul k a).
Proof. intros k a [j ->]. exists (k * j)%nat. apply mul_mul. Qed.
Lemma InH_O : InH O. Proof. exists 0%nat. reflexivity. Qed.
Lemma InH_cancel : forall a b, InH a -> InH (add a b) -> InH b.
Proof. intros a b Ha Hab. rewrite <- (idl b), <- (negr a), (comm a), <- assoc. apply InH_add; [apply InH_neg|]; assumption. Qed.
Context (eq_dec : forall a b : T, {a = b} + {a <> b}).
Lemma InH_dec : forall a, InH a \/ ~ InH a.
Proof.
  intros a. destruct (in_dec eq_dec a (map (fun k => mul k G) (seq 0 n))) as [H|H].
  - left. apply in_map_iff in H. destruct H as (k & <- & _). exists k. reflexivity.
  - right. intros [k ->]. apply H. rewrite mul_mod. apply in_map_iff. exists (k mod n)%nat. split; [reflexivity|].
    apply in_seq. pose proof n_pos. pose proof (Nat.mod_upper_bound k n). lia.
Qed.

(** at most M elements *)
Context (code : T -> Z) (M : Z) (code_range : forall a, 0 <= code a < M) (code_inj : forall a b, code a = code b -> a = b).
Context (big : M < 3 * Z.of_nat n).
Definition coset (a : T) : list Z := map (fun k => code (add a (mul k G))) (seq 0 n).
Lemma coset_nodup : forall a, NoDup (coset a).
Proof.
  intros a. unfold coset.
  assert (W : forall l, NoDup l -> (forall i, In i l -> (i < n)%nat) -> NoDup (map (fun k => code (add a (mul k G))) l)).
  { induction l as [|i l IH]; intros HN HL; [constructor|]. inversion HN; subst. cbn [map]. constructor.
    - intros HI. apply in_map_iff in HI. destruct HI as (j & Hj & HI). apply code_inj, cancel in Hj. apply mul_inj in Hj; [subst; contradiction|apply HL; right; exact HI|apply HL; left; reflexivity].
    - apply IH; [assumption|]. intros; apply HL; right; assumption. }
  apply W; [apply seq_NoDup|]. intros i Hi. apply in_seq in Hi. lia.
Qed.
Lemma coset_disj : forall a b z, In z (coset a) -> In z (coset b) -> InH (add b (neg a)).
Proof.
  intros a b z Ha Hb. unfold coset in *. apply in_map_iff in Ha, Hb. destruct Ha as (i & Ei & _), Hb as (j & Ej & _). rewrite <- Ej in Ei. apply code_inj in Ei.
  apply (InH_cancel (mul j G)); [exists j; reflexivity|]. exists i. apply (cancel a). rewrite Ei.
  rewrite (comm b (neg a)), (assoc (mul j G)), (comm (mul j G) (neg a)), <- (assoc (neg a)), (assoc a), negr, idl. apply comm.
Qed.
Lemma nodup_app : forall (l l' : list Z), NoDup l -> NoDup l' -> (forall z, In z l -> ~ In z l') -> NoDup (l ++ l').
Proof.
  induction l as [|a l IH]; intros l' H H' HD; [exact H'|]. inversion H; subst. cbn. constructor.
  - rewrite in_app_iff. intros [E|E]; [contradiction|]. apply (HD a); [left; reflexivity|exact E].
  - apply IH; [assumption|assumption|]. intros z Hz. apply HD. right. exact Hz.
Qed.
(** three disjoint cosets are too many *)
Lemma three_cosets : forall a b c, ~ InH (add b (neg a)) -> ~ InH (add c (neg a)) -> ~ InH (add c (neg b)) -> False.
Proof.
  intros a b c Hab Hac Hbc.
  assert (HN : NoDup (coset a ++ coset b ++ coset c)).
  { apply nodup_app; [apply coset_nodup|apply nodup_app; [apply coset_nodup|apply coset_nodup|]|].
    - intros z H1 H2. apply Hbc. apply (coset_disj b c z); assumption.
    - intros z H1 H2. apply in_app_iff in H2. destruct H2 as [H2|H2]; [apply Hab, (coset_disj a b z)|apply Hac, (coset_disj a c z)]; assumption. }
  assert (HI : incl (coset a ++ coset b ++ coset c) (map Z.of_nat (seq 0 (Z.to_nat M)))).
  { intros z Hz. assert (R : 0 <= z < M).
    { rewrite !in_app_iff in Hz. unfold coset in Hz. rewrite !in_map_iff in Hz. destruct Hz as [(k & <- & _)|[(k & <- & _)|(k & <- & _)]]; apply code_range. }
    apply in_map_iff. exists (Z.to_nat z). split; [lia|]. apply in_seq. lia. }
  pose proof (NoDup_incl_length HN HI) as HL. rewrite !app_length, map_length, seq_length in HL. unfold coset in HL. rewrite !map_length, seq_length in HL. pose proof (code_range O). lia.
Qed.
Context (odd : 2 < Z.of_nat n) (tors : forall a, a <> O -> add a a = O -> exists b, b <> O /\ b <> a /\ add b b = O).
Lemma H_no_two : forall a, InH a -> add a a = O -> a = O.
Proof.
  intros a [k ->] H. rewrite <- mul_plus in H. apply mul_none in H. rewrite mul_mod.
  assert (D : (Z.of_nat n | Z.of_nat (k + k))).
  { apply Z.mod_divide; [lia|]. rewrite <- Nat2Z.inj_mod. lia. }
  replace (Z.of_nat (k + k)) with (2 * Z.of_nat k) in D by lia. apply prime_mult in D; [|exact Hn].
  destruct D as [D|D]; [apply Z.divide_pos_le in D; lia|]. apply Z.mod_divide in D; [|lia]. rewrite <- Nat2Z.inj_mod in D.
  replace (k mod n)%nat with 0%nat by lia. reflexivity.
Qed.
Lemma self_neg : forall a, add a a = O -> neg a = a.
Proof. intros a H. symmetry. apply neg_unique. exact H. Qed.
Lemma no_two : forall a, add a a = O -> a = O.
Proof.
  intros a H. destruct (eq_dec a O) as [|Ha]; [assumption|exfalso]. destruct (tors a Ha H) as (b & Hb & Hba & Hbb).
  assert (NO : add O (neg O) = O) by apply negr. assert (HO : neg O = O) by (rewrite <- (idl (neg O)); exact NO).
  apply (three_cosets O a b).
  - rewrite HO, idr. intros HI. apply Ha, H_no_two; assumption.
  - rewrite HO, idr. intros HI. apply Hb, H_no_two; assumption.
  - rewrite (self_neg a H). intros HI. apply Hba. apply H_no_two in HI.
    + apply (cancel a). rewrite H, comm. exact HI.
    + rewrite assoc, <- (assoc b a b), (comm a b), assoc, Hbb, idl. exact H.
Qed.
Theorem all_multiples : forall P, exists k, (k < n)%nat /\ P = mul k G.
Proof.
  intros P. assert (HI : InH P).
  { destruct (InH_dec P) as [|HP]; [assumption|exfalso].
    destruct (InH_dec (add P P)) as [H2|H2].
    - destruct H2 as [k Hk]. apply HP.
      set (h := (k * ((n + 1) / 2))%nat).
      assert (Hodd : (2 * ((n + 1) / 2) = n + 1)%nat).
      { pose proof (Nat.div_mod (n + 1) 2 ltac:(lia)) as E. pose proof (Nat.mod_upper_bound (n + 1) 2 ltac:(lia)) as B.
        enough ((n + 1) mod 2 = 0)%nat by lia. destruct (Nat.eq_dec ((n + 1) mod 2) 0) as [|E1]; [assumption|exfalso].
        assert (D : (2 | Z.of_nat n)) by (exists (Z.of_nat ((n + 1) / 2)); lia).
        apply (prime_divisors _ Hn) in D. lia. }
      assert (HQ : add P (neg (mul h G)) = O).
      { apply no_two. rewrite assoc, <- (assoc P), (comm (neg _) P), assoc, Hk, <- assoc. rewrite <- mul_neg, <- mul_plus, mul_neg.
        replace (h + h)%nat with (k + k * n)%nat by (unfold h; nia). rewrite mul_plus, <- (mul_mul k n), HnG, mul_O, idr. apply negr. }
      exists h. apply (cancel (neg (mul h G))). rewrite comm, HQ, comm, negr. reflexivity.
    - apply (three_cosets O P (add P P)).
      + assert (HO : neg O = O) by (rewrite <- (idl (neg O)); apply negr). rewrite HO, idr. exact HP.
      + assert (HO : neg O = O) by (rewrite <- (idl (neg O)); apply negr). rewrite HO, idr. exact H2.
      + rewrite <- assoc, negr, idr. exact HP. }
  destruct HI as [k ->]. exists (k mod n)%nat. pose proof n_pos. split; [apply Nat.mod_upper_bound; lia|apply mul_mod].
Qed.
Lemma all_exponent : forall P, mul n P = O.
Proof. intros P. destruct (all_multiples P) as (k & _ & ->). rewrite mul_mul, Nat.mul_comm, <- mul_mul, HnG. apply mul_O. Qed.
End Order.
