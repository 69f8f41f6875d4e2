(** The vector helpers on tabulated vectors. *)
From Verif Require Import GoBase Json GroupIface Vector BIP BP NumTh Alg.
From Coq Require Import Setoid Morphisms Zpow_facts.

Lemma make_len_nat : forall n, make_len (Z.of_nat n) = Ok n.
Proof.
  intros. unfold make_len. replace (Z.of_nat n <? 0) with false by (symmetry; apply Z.ltb_ge; lia).
  rewrite Nat2Z.id. reflexivity.
Qed.
Lemma slice_to_all : forall {A} (l : list A) n, length l = n -> slice_to l n = Ok l.
Proof. intros A l n <-. unfold slice_to. rewrite Nat.leb_refl, firstn_all. reflexivity. Qed.
Lemma slice_to_tab : forall {A} k n (f : nat -> A), slice_to (tab (k + n) f) k = Ok (tab k f).
Proof.
  intros. unfold slice_to. rewrite tab_length.
  replace (Nat.leb k (k + n)) with true by (symmetry; apply Nat.leb_le; lia).
  rewrite firstn_tab. reflexivity.
Qed.
Lemma slice_from_tab : forall {A} k n (f : nat -> A),
  slice_from (tab (k + n) f) k = Ok (tab n (fun i => f (k + i)%nat)).
Proof.
  intros. unfold slice_from. rewrite tab_length.
  replace (Nat.leb k (k + n)) with true by (symmetry; apply Nat.leb_le; lia).
  rewrite skipn_tab. reflexivity.
Qed.

Lemma VectorCopy_tab : forall a n, VectorCopy a (Z.of_nat n) = Ok (tab n (fun _ => a)).
Proof. intros. unfold VectorCopy. rewrite make_len_nat. cbn [bind]. rewrite repeat_tab. reflexivity. Qed.
Lemma VectorConvertToBig_tab : forall n (f : nat -> Z), VectorConvertToBig (tab n f) (Z.of_nat n) = Ok (tab n f).
Proof.
  intros. unfold VectorConvertToBig. rewrite make_len_nat. cbn [bind]. apply slice_to_all. apply tab_length.
Qed.
Lemma VectorAdd_tab : forall n f g m, VectorAdd (tab n f) (tab n g) m = Some (tab n (fun i => (f i + g i) mod m)).
Proof. intros. unfold VectorAdd. rewrite !tab_length, Nat.eqb_refl, map2_tab. reflexivity. Qed.
Lemma VectorSub_tab : forall n f g m, VectorSub (tab n f) (tab n g) m = Some (tab n (fun i => (f i - g i) mod m)).
Proof. intros. unfold VectorSub. rewrite !tab_length, Nat.eqb_refl, map2_tab. reflexivity. Qed.
Lemma VectorMul_tab : forall n f g m, VectorMul (tab n f) (tab n g) m = Some (tab n (fun i => (f i * g i) mod m)).
Proof. intros. unfold VectorMul. rewrite !tab_length, Nat.eqb_refl, map2_tab. reflexivity. Qed.
Lemma VectorAddConst_tab : forall n f c m, VectorAddConst (tab n f) c m = tab n (fun i => (f i + c) mod m).
Proof. intros. unfold VectorAddConst. apply map_tab. Qed.
Lemma VectorScalarMul_tab : forall n f s m, VectorScalarMul (tab n f) (Some s) m = Ok (tab n (fun i => (f i * s) mod m)).
Proof. intros. unfold VectorScalarMul. apply mapM_tab. intros. reflexivity. Qed.

Lemma vip_loop_tab : forall m n f g acc,
  exists r, vip_loop (tab n f) (tab n g) m acc = Ok r /\ eqm m r (acc + zsum n (fun i => f i * g i)).
Proof.
  induction n as [|n IH]; intros f g acc.
  - exists acc. split; [reflexivity|]. cbn [zsum]. rewrite Z.add_0_r. reflexivity.
  - rewrite !tab_S. cbn [vip_loop].
    destruct (IH (fun i => f (S i)) (fun i => g (S i)) (acc + (f O * g O) mod m)) as (r & Hr & He).
    exists r. split; [exact Hr|]. rewrite He.
    replace (S n) with (1 + n)%nat by lia. rewrite zsum_app. cbn [zsum].
    rewrite (Zmod_eqm m). apply eqm_of_eq. rewrite Z.add_0_l, Z.add_assoc. reflexivity.
Qed.
Lemma VectorInnerProduct_tab : forall n f g m,
  VectorInnerProduct (tab n f) (tab n g) m = Ok (zsum n (fun i => f i * g i) mod m).
Proof.
  intros. unfold VectorInnerProduct. destruct (vip_loop_tab m n f g 0) as (r & -> & He).
  cbn [bind]. f_equal. rewrite Z.add_0_l in He. destruct He as [He]. exact He.
Qed.

Lemma decompose_loop_tab : forall u n x, 0 < u -> decompose_loop n x u = tab n (fun i => (x / u ^ Z.of_nat i) mod u).
Proof.
  induction n as [|n IH]; intros x Hu; [reflexivity|]. rewrite tab_S. cbn [decompose_loop].
  rewrite Z.pow_0_r, Z.div_1_r. f_equal. rewrite IH by assumption. apply tab_ext. intros i _.
  rewrite Nat2Z.inj_succ, Z.pow_succ_r by lia. rewrite Z.div_div by lia. reflexivity.
Qed.
Lemma Decompose_tab : forall x n, Decompose x 2 (Z.of_nat n) = Ok (tab n (fun i => (x / 2 ^ Z.of_nat i) mod 2)).
Proof. intros. unfold Decompose. rewrite make_len_nat. cbn [bind]. rewrite decompose_loop_tab by lia. reflexivity. Qed.

Lemma computeAR_tab : forall n f, (forall i, (i < n)%nat -> f i = 0 \/ f i = 1) ->
  computeAR (tab n f) = Some (tab n (fun i => f i - 1)).
Proof.
  induction n as [|n IH]; intros f H; [reflexivity|]. rewrite !tab_S. cbn [computeAR].
  rewrite IH by (intros; apply H; lia).
  destruct (H O ltac:(lia)) as [-> | ->]; reflexivity.
Qed.
Lemma bit_01 : forall x i, (x / 2 ^ Z.of_nat i) mod 2 = 0 \/ (x / 2 ^ Z.of_nat i) mod 2 = 1.
Proof. intros. pose proof (Z.mod_pos_bound (x / 2 ^ Z.of_nat i) 2). lia. Qed.

(** weighted sum of digits *)
Lemma zsum_digits : forall u n x, 0 < u ->
  zsum n (fun i => (x / u ^ Z.of_nat i) mod u * u ^ Z.of_nat i) = x mod u ^ Z.of_nat n.
Proof.
  intros u n x Hu. induction n as [|n IH]; cbn [zsum].
  - cbn. rewrite Z.mod_1_r. reflexivity.
  - rewrite IH. rewrite Nat2Z.inj_succ, Z.pow_succ_r by lia.
    assert (0 < u ^ Z.of_nat n) by (apply Z.pow_pos_nonneg; lia).
    rewrite (Z.mul_comm u). rewrite Z.rem_mul_r by lia. lia.
Qed.

Section WithGroup.
Context (G : Grp) (HL : GrpLaws G).
Local Notation E := (E G).
Local Notation N := (gN G).

Lemma powerOf_loop_tab : forall n cur x k, 0 <= k -> cur = x ^ k mod N ->
  powerOf_loop n cur x N = tab n (fun i => x ^ (k + Z.of_nat i) mod N).
Proof.
  induction n as [|n IH]; intros cur x k Hk Hc; [reflexivity|]. rewrite tab_S. cbn [powerOf_loop]. f_equal.
  - rewrite Hc. f_equal. f_equal. lia.
  - rewrite (IH _ x (k + 1)); [|lia|].
    + apply tab_ext. intros. f_equal. f_equal. lia.
    + rewrite Hc. rewrite Zmult_mod_idemp_l. f_equal. rewrite Z.pow_add_r, Z.pow_1_r by lia. reflexivity.
Qed.
Lemma powerOf_tab : forall x n, powerOf G x (Z.of_nat n) = Ok (tab n (fun i => x ^ Z.of_nat i mod N)).
Proof.
  intros. unfold powerOf. rewrite make_len_nat. cbn [bind].
  rewrite (powerOf_loop_tab n 1 x 0); [reflexivity|lia|].
  pose proof (l_order G HL). rewrite Z.pow_0_r, Z.mod_small; lia.
Qed.

Lemma combine_tab : forall {A B} n (f : nat -> A) (g : nat -> B), combine (tab n f) (tab n g) = tab n (fun i => (f i, g i)).
Proof.
  induction n as [|n IH]; intros; [reflexivity|]. rewrite !tab_S. cbn [combine]. f_equal. apply IH.
Qed.
Lemma fold_left_gsum : forall {A} (h : A -> E) n f acc,
  fold_left (fun r p => gAdd G r (h p)) (tab n f) acc = gAdd G acc (gsum (G:=G) n (fun i => h (f i))).
Proof.
  induction n as [|n IH]; intros; cbn [gsum]; [rewrite (add_0_r HL); reflexivity|].
  rewrite tab_snoc, fold_left_app, IH. cbn [fold_left]. symmetry. apply (l_assoc G HL).
Qed.
Lemma VectorExp_tab : forall n g a, VectorExp G (tab n g) (tab n a) = Some (gsum (G:=G) n (fun i => gScale G (g i) (a i))).
Proof.
  intros. unfold VectorExp. rewrite !tab_length, Nat.eqb_refl, combine_tab. f_equal.
  rewrite (fold_left_gsum (fun p => gScale G (fst p) (snd p))), (add_0_l HL). reflexivity.
Qed.
Lemma ScalarProduct_tab : forall n a b, ScalarProduct G (tab n a) (tab n b) = Some (zsum n (fun i => a i * b i) mod N).
Proof.
  intros. unfold ScalarProduct. rewrite !tab_length, Nat.eqb_refl, combine_tab. f_equal.
  pose proof (N_pos HL).
  induction n as [|n IH]; cbn [zsum]; [rewrite Zmod_0_l; reflexivity|].
  rewrite tab_snoc, fold_left_app. cbn [fold_left fst snd]. rewrite IH.
  rewrite Zplus_mod_idemp_l. reflexivity.
Qed.
Lemma VectorECAdd_tab : forall n f g, VectorECAdd G (tab n f) (tab n g) = Some (tab n (fun i => gAdd G (f i) (g i))).
Proof. intros. unfold VectorECAdd. rewrite !tab_length, Nat.eqb_refl, map2_tab. reflexivity. Qed.
Lemma vectorScalarExp_tab : forall n f s, vectorScalarExp G (tab n (fun i => Some (f i))) (Some s) = Ok (tab n (fun i => gScale G (f i) s)).
Proof. intros. unfold vectorScalarExp. apply mapM_tab. intros. reflexivity. Qed.

Lemma commitVector_loop_tab : forall n aL aR g h R,
  commitVector_loop G n (tab n aL) (tab n aR) (tab n g) (tab n h) R =
  Ok (gAdd G R (gsum (G:=G) n (fun i => gAdd G (gScale G (g i) (aL i)) (gScale G (h i) (aR i))))).
Proof.
  induction n as [|n IH]; intros.
  - cbn [commitVector_loop gsum]. rewrite (add_0_r HL). reflexivity.
  - rewrite !tab_S. cbn [commitVector_loop]. rewrite IH. f_equal.
    change (S n) with (1 + n)%nat. rewrite (gsum_app HL 1 n). cbn [gsum Nat.add].
    glin HL.
Qed.
Lemma commitVector_tab : forall n aL aR al H g h,
  commitVector G (tab n aL) (tab n aR) al H (tab n g) (tab n h) (Z.of_nat n) =
  Ok (gAdd G (gScale G H al) (gsum (G:=G) n (fun i => gAdd G (gScale G (g i) (aL i)) (gScale G (h i) (aR i))))).
Proof. intros. unfold commitVector. rewrite Nat2Z.id. apply commitVector_loop_tab. Qed.

Lemma updGen_loop_tab : forall n h e i,
  updGen_loop G n (tab n h) (Some e) (Some i) = Ok (tab n (fun j => gScale G (h j) (e * i ^ Z.of_nat j))).
Proof.
  induction n as [|n IH]; intros; [reflexivity|]. rewrite !tab_S. cbn [updGen_loop deref bind].
  rewrite IH. cbn [bind]. f_equal. f_equal.
  - f_equal. cbn. lia.
  - apply tab_ext. intros j _. f_equal. rewrite Nat2Z.inj_succ, Z.pow_succ_r by lia. ring.
Qed.
(** y invertible, or N = 1 *)
Lemma updateGenerators_tab : forall n h y i, modInverse y N = Some i ->
  updateGenerators G (tab (S n) h) y (Z.of_nat (S n)) = Ok (tab (S n) (fun j => gScale G (h j) (i ^ Z.of_nat j))).
Proof.
  intros. unfold updateGenerators. rewrite make_len_nat. cbn [bind]. rewrite H. rewrite !tab_S.
  rewrite updGen_loop_tab. cbn [bind]. f_equal. f_equal.
  - cbn. rewrite (scale_1 HL). reflexivity.
  - apply tab_ext. intros. f_equal. rewrite Nat2Z.inj_succ, Z.pow_succ_r by lia. reflexivity.
Qed.

Lemma delta_tab : forall n y z, exists d, delta G (Z.of_nat n) y z = Ok d /\
  eqm N d ((z - z * z) * zsum n (fun i => y ^ Z.of_nat i) - z * z * z * zsum n (fun i => 2 ^ Z.of_nat i)).
Proof.
  intros. unfold delta. rewrite VectorCopy_tab, !powerOf_tab. cbn [bind].
  rewrite !ScalarProduct_tab. cbn [deref bind]. eexists. split; [reflexivity|].
  assert (Hs : forall w, eqm N (zsum n (fun i => 1 * (w ^ Z.of_nat i mod N))) (zsum n (fun i => w ^ Z.of_nat i))).
  { intros w. apply zsum_eqm. intros. rewrite Z.mul_1_l. apply Zmod_eqm. }
  modn. rewrite !Hs. apply eqm_of_eq. ring.
Qed.
End WithGroup.
