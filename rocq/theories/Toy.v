(** A lawful prime-order group used only to show that the hypotheses of the theorems can be met:
    the additive group of integers modulo q. Nothing here models code of /repo. *)
From Verif Require Import GoBase Json GroupIface Vector NumTh.
From Coq Require Import Znumtheory Eqdep_dec.

Section Toy.
Context (q : Z) (Hq : 1 < q).

Record zq : Type := mkzq { zv : Z; zok : ((0 <=? zv) && (zv <? q)) = true }.
Lemma zq_eq : forall a b : zq, zv a = zv b -> a = b.
Proof.
  intros [a Ha] [b Hb]; cbn; intros ->. f_equal. apply UIP_dec. apply bool_dec.
Qed.
Lemma zq_in : forall z, ((0 <=? z mod q) && (z mod q <? q)) = true.
Proof.
  intros z. pose proof (Z.mod_pos_bound z q). apply andb_true_intro. split; [apply Z.leb_le|apply Z.ltb_lt]; lia.
Qed.
Definition zqm (z : Z) : zq := mkzq (z mod q) (zq_in z).
Lemma zq_bnd : forall a : zq, 0 <= zv a < q.
Proof. intros [a Ha]; cbn. apply andb_prop in Ha. rewrite Z.leb_le, Z.ltb_lt in Ha. lia. Qed.

Definition toyStr (a : zq) : bytes := [zv a].
Definition toyMap (b : bytes) : res zq := Ok (zqm (1 + (fold_left (fun acc x => 3 * acc + x) b 0) mod (q - 1))).
Definition toyOfJson (old : zq) (j : raw) : res (zq * bool) :=
  match j with Some (JInt z) => Ok (zqm z, true) | _ => Ok (old, false) end.

Definition ToyGrp : Grp := mkGrp zq "toy" q q (zqm 0) (zqm 1) (zqm 0)
  (fun a b => zqm (zv a + zv b)) (fun a b => zqm (zv a - zv b)) (fun a => zqm (- zv a))
  (fun a s => zqm (zv a * s)) (fun s => zqm s) (fun a b => zv a =? zv b) (fun a => zv a =? 0)
  toyStr toyMap (fun a => Ok (JInt (zv a))) toyOfJson.

Ltac zq_solve := intros; apply zq_eq; cbn [zv zqm]; rewrite ?Zminus_mod_idemp_r;
  apply (proj1 (eqm_mod _ _ _)); modn; apply eqm_of_eq; ring.

Lemma toyLaws : GrpLaws ToyGrp.
Proof.
  constructor; cbn -[zqm].
  - exact Hq.
  - zq_solve.
  - zq_solve.
  - intros. apply zq_eq. cbn [zv zqm]. rewrite Zplus_mod_idemp_l. apply Z.mod_small. apply zq_bnd.
  - zq_solve.
  - zq_solve.
  - zq_solve.
  - zq_solve.
  - intros. apply zq_eq. cbn [zv zqm]. rewrite Z_mod_mult, Zmod_0_l. reflexivity.
  - zq_solve.
  - intros. rewrite Z.eqb_eq. split; [apply zq_eq | intros ->; reflexivity].
  - intros. rewrite Z.eqb_eq. split.
    + intros H. apply zq_eq. rewrite H. reflexivity.
    + intros ->. reflexivity.
Qed.

Lemma toyPrime : prime q -> GrpPrime ToyGrp.
Proof.
  intros Hp. constructor.
  - exact toyLaws.
  - exact Hp.
  - cbn. intros H. apply (f_equal zv) in H. cbn [zv zqm] in H. rewrite Zmod_0_l, Z.mod_small in H; lia.
  - intros X. exists (zv X). apply zq_eq. cbn [zv zqm ToyGrp gScale gGen]. rewrite Zmult_mod_idemp_l, Z.mul_1_l.
    symmetry. apply Z.mod_small. apply zq_bnd.
Qed.
End Toy.
Arguments zqm q {Hq}.

(** Trial division. *)
Definition prime_check (q : Z) : bool :=
  (1 <? q) && forallb (fun d => negb (q mod (Z.of_nat d + 2) =? 0)) (seq 0 (Z.to_nat (Z.sqrt q) - 1)).
Lemma prime_check_ok : forall q, prime_check q = true -> prime q.
Proof.
  intros q H. unfold prime_check in H. apply andb_prop in H. destruct H as [H1 H2]. apply Z.ltb_lt in H1.
  rewrite forallb_forall in H2. apply prime_alt. split; [assumption|].
  assert (Hs : forall d, 2 <= d <= Z.sqrt q -> ~ (d | q)).
  { intros d Hd Hdiv. assert (Hin : In (Z.to_nat (d - 2)) (seq 0 (Z.to_nat (Z.sqrt q) - 1))) by (apply in_seq; lia).
    specialize (H2 _ Hin). rewrite Z2Nat.id in H2 by lia. replace (d - 2 + 2) with d in H2 by lia.
    apply Z.mod_divide in Hdiv; [|lia]. rewrite Hdiv in H2. discriminate. }
  intros n Hn Hdiv. destruct (Z.le_gt_cases n (Z.sqrt q)) as [Hle|Hgt]; [apply (Hs n); [lia|assumption]|].
  destruct Hdiv as [k Hk]. assert (Hk1 : 1 < k) by nia.
  apply (Hs k); [|exists n; lia]. split; [lia|].
  pose proof (Z.sqrt_spec q ltac:(lia)) as [_ Hu]. unfold Z.succ in Hu.
  destruct (Z.le_gt_cases k (Z.sqrt q)) as [Hk2|Hk2]; [lia|]. exfalso.
  pose proof (Z.sqrt_nonneg q). assert ((Z.sqrt q + 1) * (Z.sqrt q + 1) <= k * n) by (apply Z.mul_le_mono_nonneg; lia). lia.
Qed.

Definition toyH : 1 < 101. Proof. reflexivity. Qed.
Definition toy : Grp := ToyGrp 101 toyH.
Lemma toy_prime : GrpPrime toy. Proof. apply toyPrime. apply prime_check_ok. vm_compute. reflexivity. Qed.
Lemma toy_laws : GrpLaws toy. Proof. apply toyLaws. Qed.
(** A "hash" whose challenges are never 0 modulo 101. *)
Definition toyO : Oracles :=
  {| sha256 := fun b => [1 + (fold_left (fun acc x => 5 * acc + x + 7) b 0) mod 100]; fromByteArray := os2ip |}.
