(** Big-endian integers: os2ip, i2osp, big.Int.Bytes. *)
From Verif Require Import GoBase.

Lemma os2ip_app1 : forall l b, os2ip (l ++ [b]) = os2ip l * 256 + b.
Proof. intros. unfold os2ip. rewrite fold_left_app. reflexivity. Qed.
Lemma os2ip_acc : forall l acc, fold_left (fun acc b => acc * 256 + b) l acc = acc * 256 ^ Z.of_nat (length l) + os2ip l.
Proof.
  induction l as [|b l IH] using rev_ind; intros acc; [cbn; lia|].
  rewrite fold_left_app, os2ip_app1, app_length. cbn [fold_left length]. rewrite IH, Nat2Z.inj_add, Z.pow_add_r by lia. cbn. ring.
Qed.
Lemma os2ip_app : forall a b, os2ip (a ++ b) = os2ip a * 256 ^ Z.of_nat (length b) + os2ip b.
Proof. intros. unfold os2ip at 1. rewrite fold_left_app. apply os2ip_acc. Qed.
Lemma os2ip_cons : forall a b, os2ip (a :: b) = a * 256 ^ Z.of_nat (length b) + os2ip b.
Proof. intros. apply (os2ip_app [a] b). Qed.
Lemma os2ip_zeros : forall n, os2ip (repeat 0 n) = 0.
Proof. induction n as [|n IH]; [reflexivity|]. cbn [repeat]. rewrite os2ip_cons, IH. lia. Qed.
Lemma os2ip_bound : forall l, Forall is_byte l -> 0 <= os2ip l < 256 ^ Z.of_nat (length l).
Proof.
  induction l as [|b l IH] using rev_ind; intros H; [cbn; lia|]. apply Forall_app in H. destruct H as [H1 H2]. inversion H2; subst.
  specialize (IH H1). rewrite os2ip_app1, app_length. cbn [length]. rewrite Nat2Z.inj_add, Z.pow_add_r by lia.
  change (256 ^ Z.of_nat 1) with 256. unfold is_byte in *. lia.
Qed.

Lemma i2osp_length : forall n x, length (i2osp n x) = n.
Proof. induction n as [|n IH]; intros x; [reflexivity|]. cbn [i2osp]. rewrite app_length, IH. cbn. lia. Qed.
Lemma i2osp_bytes : forall n x, Forall is_byte (i2osp n x).
Proof.
  induction n as [|n IH]; intros x; cbn [i2osp]; [constructor|]. apply Forall_app. split; [apply IH|]. constructor; [|constructor].
  apply Z.mod_pos_bound. lia.
Qed.
Lemma os2ip_i2osp : forall n x, 0 <= x -> os2ip (i2osp n x) = x mod 256 ^ Z.of_nat n.
Proof.
  induction n as [|n IH]; intros x Hx; [rewrite Z.mod_1_r; reflexivity|].
  cbn [i2osp]. rewrite os2ip_app1, IH by (apply Z.div_pos; lia).
  rewrite Nat2Z.inj_succ, Z.pow_succ_r by lia. rewrite Z.rem_mul_r by lia. lia.
Qed.
Lemma os2ip_i2osp_small : forall n x, 0 <= x < 256 ^ Z.of_nat n -> os2ip (i2osp n x) = x.
Proof. intros n x H. rewrite os2ip_i2osp by lia. apply Z.mod_small. exact H. Qed.
Lemma i2osp_os2ip : forall l, Forall is_byte l -> i2osp (length l) (os2ip l) = l.
Proof.
  induction l as [|b l IH] using rev_ind; intros H; [reflexivity|]. apply Forall_app in H. destruct H as [H1 H2]. inversion H2; subst.
  rewrite os2ip_app1, app_length. cbn [length]. rewrite Nat.add_1_r. cbn [i2osp]. unfold is_byte in *.
  rewrite Z.div_add_l, (Z.div_small b), Z.add_0_r, IH by (assumption || lia). do 2 f_equal.
  rewrite Z.add_comm, Z.mod_add by lia. apply Z.mod_small. lia.
Qed.
Lemma i2osp_inj : forall n x y, 0 <= x < 256 ^ Z.of_nat n -> 0 <= y < 256 ^ Z.of_nat n -> i2osp n x = i2osp n y -> x = y.
Proof. intros n x y Hx Hy H. rewrite <- (os2ip_i2osp_small n x Hx), <- (os2ip_i2osp_small n y Hy), H. reflexivity. Qed.

Lemma byteLen_spec : forall x n, (byteLen x <= n)%nat <-> Z.abs x < 256 ^ Z.of_nat n.
Proof.
  intros x n. unfold byteLen. destruct (x =? 0) eqn:E.
  - apply Z.eqb_eq in E. subst. split; [|lia]. intros _. apply Z.pow_pos_nonneg; lia.
  - apply Z.eqb_neq in E. replace (256 ^ Z.of_nat n) with (2 ^ (8 * Z.of_nat n)) by (rewrite Z.pow_mul_r by lia; reflexivity).
    assert (Ha : 0 < Z.abs x) by lia. pose proof (Z.log2_nonneg (Z.abs x)). rewrite Z.log2_lt_pow2 by assumption.
    assert (Hd : 0 <= Z.log2 (Z.abs x) / 8) by (apply Z.div_pos; lia).
    split; intros Hn.
    + assert (Hn2 : Z.log2 (Z.abs x) / 8 < Z.of_nat n) by lia. pose proof (Z.div_mod (Z.log2 (Z.abs x)) 8 ltac:(lia)).
      pose proof (Z.mod_pos_bound (Z.log2 (Z.abs x)) 8 ltac:(lia)). lia.
    + assert (Z.log2 (Z.abs x) / 8 < Z.of_nat n) by (apply Z.div_lt_upper_bound; lia). lia.
Qed.
Lemma byteLen_own : forall x, Z.abs x < 256 ^ Z.of_nat (byteLen x).
Proof. intros. apply byteLen_spec. lia. Qed.
Lemma bigBytes_length : forall x, length (bigBytes x) = byteLen x. Proof. intros. apply i2osp_length. Qed.
Lemma bigBytes_bytes : forall x, Forall is_byte (bigBytes x). Proof. intros. apply i2osp_bytes. Qed.
Lemma os2ip_bigBytes : forall x, os2ip (bigBytes x) = Z.abs x.
Proof. intros. apply os2ip_i2osp_small. split; [lia|apply byteLen_own]. Qed.
Lemma bigBytes_opp : forall x, bigBytes (- x) = bigBytes x.
Proof.
  intros. unfold bigBytes, byteLen. rewrite Z.abs_opp. replace (- x =? 0) with (x =? 0); [reflexivity|].
  destruct (x =? 0) eqn:E; symmetry; [apply Z.eqb_eq in E; apply Z.eqb_eq; lia|apply Z.eqb_neq in E; apply Z.eqb_neq; lia].
Qed.
(** zero-padded Bytes is the fixed-length encoding *)
Lemma pad_bigBytes : forall n x, 0 <= x < 256 ^ Z.of_nat n -> repeat 0 (n - byteLen x) ++ bigBytes x = i2osp n x.
Proof.
  intros n x H. assert (Hl : (byteLen x <= n)%nat) by (apply byteLen_spec; lia).
  assert (He : length (repeat 0 (n - byteLen x) ++ bigBytes x) = n) by (rewrite app_length, repeat_length, bigBytes_length; lia).
  assert (Hb : Forall is_byte (repeat 0 (n - byteLen x) ++ bigBytes x)).
  { apply Forall_app. split; [|apply bigBytes_bytes]. apply Forall_forall. intros y Hy. apply repeat_spec in Hy. subst. unfold is_byte. lia. }
  rewrite <- (i2osp_os2ip _ Hb), He, os2ip_app, os2ip_zeros, os2ip_bigBytes. f_equal. lia.
Qed.
Lemma byteLen_mul : forall x y n, 0 < x -> 0 <= y < 256 ^ Z.of_nat n -> byteLen (x * 256 ^ Z.of_nat n + y) = (byteLen x + n)%nat.
Proof.
  intros x y n Hx Hy. assert (Hp : 0 < 256 ^ Z.of_nat n) by (apply Z.pow_pos_nonneg; lia).
  assert (Hle : (byteLen (x * 256 ^ Z.of_nat n + y) <= byteLen x + n)%nat).
  { apply byteLen_spec. rewrite Nat2Z.inj_add, Z.pow_add_r by lia. pose proof (byteLen_own x). rewrite Z.abs_eq in * by nia. nia. }
  destruct (Nat.le_gt_cases (byteLen x + n) (byteLen (x * 256 ^ Z.of_nat n + y))) as [Hge|Hlt]; [lia|]. exfalso.
  assert (Hx1 : (1 <= byteLen x)%nat) by (unfold byteLen; replace (x =? 0) with false by (symmetry; apply Z.eqb_neq; lia); lia).
  assert (Hc : (byteLen (x * 256 ^ Z.of_nat n + y) <= (byteLen x - 1) + n)%nat) by lia.
  apply byteLen_spec in Hc. rewrite Nat2Z.inj_add, Z.pow_add_r in Hc by lia. rewrite Z.abs_eq in Hc by nia.
  assert (Hb : ~ (byteLen x <= byteLen x - 1)%nat) by lia. apply Hb. apply byteLen_spec. rewrite Z.abs_eq by lia. nia.
Qed.
Lemma bigBytes_mul : forall x y n, 0 < x -> 0 <= y < 256 ^ Z.of_nat n -> bigBytes (x * 256 ^ Z.of_nat n + y) = bigBytes x ++ i2osp n y.
Proof.
  intros x y n Hx Hy. assert (Hp : 0 < 256 ^ Z.of_nat n) by (apply Z.pow_pos_nonneg; lia).
  assert (Hb : Forall is_byte (bigBytes x ++ i2osp n y)) by (apply Forall_app; split; [apply bigBytes_bytes|apply i2osp_bytes]).
  rewrite <- (i2osp_os2ip _ Hb). rewrite app_length, bigBytes_length, i2osp_length, os2ip_app, i2osp_length, os2ip_bigBytes, os2ip_i2osp_small by assumption.
  unfold bigBytes. rewrite byteLen_mul by assumption. f_equal. rewrite !Z.abs_eq by nia. reflexivity.
Qed.
