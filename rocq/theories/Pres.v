(** Groups whose laws hold only up to IsEqual. A relation R between the elements of G and those of a lawful group A
    that every operation respects is enough for honest range proofs to be accepted, whatever the hash function makes
    of different representations of one element. (secp256k1: the identity is nil, nil or 0, 0.) *)
From Verif Require Import GoBase Json GroupIface Vector BIP NumTh Alg BP VectorProofs BIPProofs BPProofs SetupProofs.
From Coq Require Import Setoid Morphisms.

Record Pres (G A : Grp) (R : E G -> E A -> Prop) : Prop := {
  pr_laws : GrpLaws A;
  pr_N : gN G = gN A;
  pr_gen : R (gGen G) (gGen A);
  pr_id : R (gId G) (gId A);
  pr_add : forall X Y a b, R X a -> R Y b -> R (gAdd G X Y) (gAdd A a b);
  pr_sub : forall X Y a b, R X a -> R Y b -> R (gSub G X Y) (gSub A a b);
  pr_neg : forall X a, R X a -> R (gNeg G X) (gNeg A a);
  pr_scale : forall X a s, R X a -> R (gScale G X s) (gScale A a s);
  pr_base : forall s, R (gBase G s) (gBase A s);
  pr_eq : forall X Y a b, R X a -> R Y b -> (gEq G X Y = true <-> a = b);
  pr_isid : forall X a, R X a -> (gIsId G X = true <-> a = gId A)
}.

Section PresBP.
Context (G A : Grp) (R : E G -> E A -> Prop) (HP : Pres G A R) (HO : Oracles).
Local Notation E := (E G).
Local Notation N := (gN A).
Local Notation gs := (gsum (G:=A)).
Local Notation HN := (pr_N G A R HP).
Let HL : GrpLaws A := pr_laws G A R HP.

Ltac rel := repeat (first [ assumption | apply (pr_id _ _ _ HP) | apply (pr_gen _ _ _ HP) | apply (pr_base _ _ _ HP)
  | apply (pr_add _ _ _ HP) | apply (pr_sub _ _ _ HP) | apply (pr_neg _ _ _ HP) | apply (pr_scale _ _ _ HP) | match goal with H : forall _, R _ _ |- _ => apply H end ]).

Lemma pow_rel : forall x n, powerOf G x (Z.of_nat n) = Ok (tab n (fun i => x ^ Z.of_nat i mod N)).
Proof. intros. rewrite <- (powerOf_tab A HL). unfold powerOf. rewrite HN. reflexivity. Qed.
Lemma sp_rel : forall n a b, ScalarProduct G (tab n a) (tab n b) = Some (zsum n (fun i => a i * b i) mod N).
Proof. intros. rewrite <- (ScalarProduct_tab A HL). unfold ScalarProduct. rewrite HN. reflexivity. Qed.
Lemma exp_rel : forall n g a g', (forall i, R (g i) (g' i)) ->
  exists X, VectorExp G (tab n g) (tab n a) = Some X /\ R X (gs n (fun i => gScale A (g' i) (a i))).
Proof.
  intros n g a g' Hg. unfold VectorExp. rewrite !tab_length, Nat.eqb_refl, combine_tab. eexists. split; [reflexivity|].
  induction n as [|n IH]; cbn [gsum]; [apply (pr_id _ _ _ HP)|]. rewrite tab_snoc, fold_left_app. cbn [fold_left fst snd]. rel.
Qed.
Lemma cv_rel : forall n aL aR al H g h H' g' h', R H H' -> (forall i, R (g i) (g' i)) -> (forall i, R (h i) (h' i)) ->
  exists X, commitVector G (tab n aL) (tab n aR) al H (tab n g) (tab n h) (Z.of_nat n) = Ok X /\
    R X (gAdd A (gScale A H' al) (gs n (fun i => gAdd A (gScale A (g' i) (aL i)) (gScale A (h' i) (aR i))))).
Proof.
  intros n aL aR al H g h H' g' h' HH Hg Hh. unfold commitVector. rewrite Nat2Z.id.
  assert (HX : R (gScale G H al) (gScale A H' al)) by rel. revert HX. generalize (gScale G H al) as X0, (gScale A H' al) as x0.
  revert aL aR g h g' h' Hg Hh. induction n as [|n IH]; intros aL aR g h g' h' Hg Hh X0 x0 HX.
  - eexists. split; [reflexivity|]. cbn [gsum]. rewrite (add_0_r HL). exact HX.
  - rewrite !tab_S. cbn [commitVector_loop].
    destruct (IH (fun i => aL (S i)) (fun i => aR (S i)) (fun i => g (S i)) (fun i => h (S i)) (fun i => g' (S i)) (fun i => h' (S i))
      ltac:(intros; apply Hg) ltac:(intros; apply Hh) (gAdd G (gAdd G X0 (gScale G (g O) (aL O))) (gScale G (h O) (aR O)))
      (gAdd A (gAdd A x0 (gScale A (g' O) (aL O))) (gScale A (h' O) (aR O)))) as (X & He & HR); [rel|].
    exists X. split; [exact He|]. 
    replace (gAdd A x0 (gs (S n) (fun i => gAdd A (gScale A (g' i) (aL i)) (gScale A (h' i) (aR i))))) with
      (gAdd A (gAdd A (gAdd A x0 (gScale A (g' O) (aL O))) (gScale A (h' O) (aR O))) (gs n (fun i => gAdd A (gScale A (g' (S i)) (aL (S i))) (gScale A (h' (S i)) (aR (S i)))))); [exact HR|].
    change (S n) with (1 + n)%nat. rewrite (gsum_app HL). cbn [gsum]. rewrite (add_0_l HL). rewrite <- !(l_assoc A HL). reflexivity.
Qed.
Lemma delta_rel : forall n y z, exists d, delta G (Z.of_nat n) y z = Ok d /\ eqm N d (deltaZ n y z).
Proof.
  intros. destruct (delta_tab A HL n y z) as (d & Hd & He). exists d. split; [|exact He]. rewrite <- Hd.
  unfold delta, powerOf, ScalarProduct. rewrite HN. reflexivity.
Qed.
(** bp.go 352-367 *)
Lemma upd_rel : forall n h h' y hp, (forall i, R (h i) (h' i)) -> updateGenerators G (tab (S n) h) y (Z.of_nat (S n)) = Ok hp ->
  exists i hf, hp = tab (S n) hf /\ (forall j, R (hf j) (gScale A (h' j) (i ^ Z.of_nat j))) /\
    (forall j, (j <= n)%nat -> eqm N (y ^ Z.of_nat j * i ^ Z.of_nat j) 1).
Proof.
  intros n h h' y hp Hh H. unfold updateGenerators in H. rewrite make_len_nat in H. cbn [bind] in H. rewrite tab_S, HN in H.
  destruct (modInverse y N) as [i|] eqn:Hi.
  - rewrite updGen_loop_tab in H. cbn [bind] in H. injection H as <-.
    exists i, (fun j => match j with O => h O | S j' => gScale G (h (S j')) (i * i ^ Z.of_nat j') end).
    split; [rewrite tab_S; reflexivity|]. split.
    + intros [|j]; [change (i ^ Z.of_nat 0) with 1; rewrite (scale_1 HL); apply Hh|].
      rewrite Nat2Z.inj_succ, Z.pow_succ_r by lia. rel.
    + intros j _. pose proof (l_order A HL) as Hl. destruct (modInverse_Some _ _ _ Hl Hi) as [_ Hyi].
      apply eqm_inv_pow; [lia|]. apply eqm_inv1; assumption.
  - destruct n as [|n]; [|rewrite tab_S in H; cbn in H; discriminate]. cbn in H. injection H as <-.
    exists 0, (fun j => match j with O => h O | S j' => gScale G (h (S j')) (0 ^ Z.of_nat (S j')) end). split; [reflexivity|]. split.
    + intros [|j]; [change (0 ^ Z.of_nat 0) with 1; rewrite (scale_1 HL); apply Hh|]. rel.
    + intros j Hj. assert (j = O) by lia. subst j. reflexivity.
Qed.

(** ** The inner product argument *)
Lemma bip_step_rel : forall fuel m a b g h u P Ls Rs g' h' u', (0 < m)%nat ->
  (forall i, R (g i) (g' i)) -> (forall i, R (h i) (h' i)) -> R u u' ->
  exists L Rr, R L (ipCross A m (fun i => g' (m + i)%nat) h' u' a (fun i => b (m + i)%nat)) /\
    R Rr (ipCross A m g' (fun i => h' (m + i)%nat) u' (fun i => a (m + i)%nat) b) /\
  let x := fst (HashBP G HO L Rr) in
  computeBipRecursive G HO (S fuel) (tab (m + m) a) (tab (m + m) b) (tab (m + m) g) (tab (m + m) h) u P (m + m) Ls Rs =
  match modInverse x N with
  | None => Panic
  | Some i =>
    exists_i2 (modInverse ((x * x) mod N) N) (fun i2 =>
    computeBipRecursive G HO fuel
      (tab m (fun j => ((a j * x) mod N + (a (m + j)%nat * i) mod N) mod N))
      (tab m (fun j => ((b j * i) mod N + (b (m + j)%nat * x) mod N) mod N))
      (tab m (fun j => gAdd G (gScale G (g j) i) (gScale G (g (m + j)%nat) x)))
      (tab m (fun j => gAdd G (gScale G (h j) x) (gScale G (h (m + j)%nat) i)))
      u (gAdd G (gAdd G (gScale G L ((x * x) mod N)) P) (gScale G Rr i2)) m (Ls ++ [L]) (Rs ++ [Rr]))
  end.
Proof.
  intros fuel m a b g h u P Ls Rs g' h' u' Hm Hg Hh Hu. cbn [computeBipRecursive].
  replace (Nat.eqb (m + m) 1) with false by (symmetry; apply Nat.eqb_neq; lia).
  rewrite half_double, !slice_to_tab, !slice_from_tab. cbn [bind]. rewrite !sp_rel.
  destruct (exp_rel m (fun i => g (m + i)%nat) a (fun i => g' (m + i)%nat) ltac:(intros; apply Hg)) as (X1 & -> & H1).
  destruct (exp_rel m h (fun i => b (m + i)%nat) h' Hh) as (X2 & -> & H2).
  destruct (exp_rel m g (fun i => a (m + i)%nat) g' Hg) as (X3 & -> & H3).
  destruct (exp_rel m (fun i => h (m + i)%nat) b (fun i => h' (m + i)%nat) ltac:(intros; apply Hh)) as (X4 & -> & H4).
  cbn [bind deref]. rewrite HN, !map_tab.
  exists (gAdd G (gAdd G X1 X2) (gScale G u (zsum m (fun i => a i * b (m + i)%nat) mod N))),
    (gAdd G (gAdd G X3 X4) (gScale G u (zsum m (fun i => a (m + i)%nat * b i) mod N))).
  split; [unfold ipCross; rel|]. split; [unfold ipCross; rel|].
  set (L := gAdd G (gAdd G X1 X2) _). set (Rr := gAdd G (gAdd G X3 X4) _). cbv zeta. set (x := fst (HashBP G HO L Rr)).
  destruct (modInverse x N) as [i|] eqn:Hi.
  - rewrite !foldGens_tab. cbn [bind].
    rewrite (mapM_tab deref m _ (fun j => gAdd G (gScale G (g j) i) (gScale G (g (m + j)%nat) x))) by reflexivity.
    rewrite (mapM_tab deref m _ (fun j => gAdd G (gScale G (h j) x) (gScale G (h (m + j)%nat) i))) by reflexivity.
    cbn [bind]. destruct (modInverse ((x * x) mod N) N) as [i2|]; [|reflexivity].
    cbn [deref bind exists_i2]. rewrite !VectorScalarMul_tab. cbn [bind]. rewrite !VectorAdd_tab. reflexivity.
  - destruct m as [|m]; [lia|]. rewrite foldGens_None. reflexivity.
Qed.
Lemma loop_step_rel : forall m g h L Rr Ls Rs P i i2,
  let x := fst (HashBP G HO L Rr) in
  modInverse x N = Some i -> modInverse ((x * x) mod N) N = Some i2 ->
  ipVerifyLoop G HO (L :: Ls) (Some Rr :: Rs) (tab (m + m) (fun i => Some (g i))) (tab (m + m) (fun i => Some (h i))) (m + m) P =
  ipVerifyLoop G HO Ls Rs
      (tab m (fun j => Some (gAdd G (gScale G (g j) i) (gScale G (g (m + j)%nat) x))))
      (tab m (fun j => Some (gAdd G (gScale G (h j) x) (gScale G (h (m + j)%nat) i)))) m
      (gAdd G (gAdd G P (gScale G L ((x * x) mod N))) (gScale G Rr i2)).
Proof.
  intros m g h L Rr Ls Rs P i i2 x Hi Hi2. cbn [ipVerifyLoop]. fold x. rewrite half_double, HN, Hi, Hi2, !foldGens_tab. reflexivity.
Qed.

Lemma bip_rec_rel : forall k fuel a b g h u P Ls Rs ra rb rP rL rR g' h' u',
  (forall i, R (g i) (g' i)) -> (forall i, R (h i) (h' i)) -> R u u' ->
  computeBipRecursive G HO fuel (tab (2 ^ k) a) (tab (2 ^ k) b) (tab (2 ^ k) g) (tab (2 ^ k) h) u P (2 ^ k) Ls Rs
    = Ok (ra, rb, rP, rL, rR) ->
  exists L Rr g0 h0 g0' h0',
    rL = Ls ++ L /\ rR = Rs ++ Rr /\ R g0 g0' /\ R h0 h0' /\
    forall Pv pv, R Pv pv -> exists Pv' pv', R Pv' pv' /\
      ipVerifyLoop G HO L (map Some Rr) (tab (2 ^ k) (fun i => Some (g i))) (tab (2 ^ k) (fun i => Some (h i))) (2 ^ k) Pv
        = Ok ([Some g0], [Some h0], Pv') /\
      gAdd A pv' (ipCom A (2 ^ k) g' h' u' a b) =
      gAdd A pv (gAdd A (gAdd A (gScale A g0' ra) (gScale A h0' rb)) (gScale A u' (ra * rb))).
Proof.
  induction k as [|k IH]; intros fuel a b g h u P Ls Rs ra rb rP rL rR g' h' u' Hg Hh Hu H.
  - destruct fuel; cbn in H; injection H as <- <- <- <- <-;
      exists [], [], (g O), (h O), (g' O), (h' O); rewrite !app_nil_r; (do 2 (split; [reflexivity|])); (split; [apply Hg|]); (split; [apply Hh|]);
      intros Pv pv Hpv; exists Pv, pv; (split; [exact Hpv|]); (split; [reflexivity|]); unfold ipCom; cbn [Nat.pow gsum zsum]; glin HL.
  - assert (Hm : (0 < 2 ^ k)%nat) by (pose proof (Nat.pow_nonzero 2 k); lia).
    replace (2 ^ S k)%nat with (2 ^ k + 2 ^ k)%nat in * by (cbn [Nat.pow]; lia).
    destruct fuel as [|fuel].
    { cbn [computeBipRecursive] in H.
      replace (Nat.eqb (2 ^ k + 2 ^ k) 1) with false in H by (symmetry; apply Nat.eqb_neq; lia). discriminate. }
    destruct (bip_step_rel fuel (2 ^ k) a b g h u P Ls Rs g' h' u' Hm Hg Hh Hu) as (L & Rr & RL & RR & Hs). cbv zeta in Hs. rewrite Hs in H. clear Hs.
    set (x := fst (HashBP G HO L Rr)) in *.
    set (l := ipCross A (2 ^ k) (fun i => g' (2 ^ k + i)%nat) h' u' a (fun i => b (2 ^ k + i)%nat)) in *.
    set (r := ipCross A (2 ^ k) g' (fun i => h' (2 ^ k + i)%nat) u' (fun i => a (2 ^ k + i)%nat) b) in *.
    destruct (modInverse x N) as [i|] eqn:Hi; [|discriminate].
    destruct (sq_inv A HL _ _ Hi) as (i2 & Hi2 & Hi2q). rewrite Hi2 in H. cbn [exists_i2] in H.
    apply (IH _ _ _ _ _ _ _ _ _ _ _ _ _ _ (fun j => gAdd A (gScale A (g' j) i) (gScale A (g' (2 ^ k + j)%nat) x))
          (fun j => gAdd A (gScale A (h' j) x) (gScale A (h' (2 ^ k + j)%nat) i)) u') in H; [|intros; rel|intros; rel|exact Hu].
    destruct H as (L' & R' & g0 & h0 & g0' & h0' & -> & -> & Hg0 & Hh0 & Hv).
    exists (L :: L'), (Rr :: R'), g0, h0, g0', h0'. rewrite <- !app_assoc. do 2 (split; [reflexivity|]). split; [exact Hg0|]. split; [exact Hh0|].
    intros Pv pv Hpv. cbn [map].
    rewrite (loop_step_rel (2 ^ k) g h L Rr L' (map Some R') Pv i i2 Hi Hi2). fold x.
    destruct (Hv (gAdd G (gAdd G Pv (gScale G L ((x * x) mod N))) (gScale G Rr i2)) (gAdd A (gAdd A pv (gScale A l ((x * x) mod N))) (gScale A r i2)))
      as (Pv' & pv' & Rv & Hr & Hd); [rel|].
    exists Pv', pv'. split; [exact Rv|]. split; [exact Hr|]. clear Hr Hv.
    pose proof (l_order A HL) as Hl.
    destruct (modInverse_Some _ _ _ Hl Hi) as [_ Hxi]. apply eqm_inv1 in Hxi; [|assumption].
    assert (Hr := round_identity A HL (2 ^ k) g' (fun i => g' (2 ^ k + i)%nat) h' (fun i => h' (2 ^ k + i)%nat) u'
              a (fun i => a (2 ^ k + i)%nat) b (fun i => b (2 ^ k + i)%nat) x i i2 Hxi Hi2q). fold l r in Hr.
    rewrite (ipCom_ext A HL (2 ^ k) _ _ _ _ _ (fun j => gAdd A (gScale A (g' j) i) (gScale A (g' (2 ^ k + j)%nat) x))
          (fun j => gAdd A (gScale A (h' j) x) (gScale A (h' (2 ^ k + j)%nat) i))
          (fun j => a j * x + a (2 ^ k + j)%nat * i) (fun j => b j * i + b (2 ^ k + j)%nat * x)) in Hd
      by (intros; try reflexivity; modn; reflexivity).
    rewrite Hr in Hd. clear Hr. rewrite (ipCom_app A HL).
    rewrite (scale_mod HL) in Hd.
    set (C1 := ipCom A (2 ^ k) g' h' u' a b) in *.
    set (C2 := ipCom A (2 ^ k) (fun i => g' (2 ^ k + i)%nat) _ _ _ _) in *.
    apply (add_cancel_r HL (gAdd A (gScale A l (x * x)) (gScale A r i2))).
    transitivity (gAdd A pv' (gAdd A (gAdd A (gAdd A C1 C2) (gScale A l (x * x))) (gScale A r i2))); [glin HL|].
    rewrite Hd. glin HL.
Qed.

Lemma ip_rel : forall k fuel a b g h u P c pf g' h' u' P',
  (forall i, R (g i) (g' i)) -> (forall i, R (h i) (h' i)) -> R u u' -> R P P' ->
  proveInnerProduct G HO fuel (tab (2 ^ k) a) (tab (2 ^ k) b) P c
     (mkIPParams (tab (2 ^ k) g) (map Some (tab (2 ^ k) h)) u) = Ok pf ->
  exists c' x res, c = Some c' /\ ipP pf = P /\ ipVerify G HO pf = Ok res /\
    (res = true <-> gAdd A P' (gScale A (gScale A u' x) c') = ipCom A (2 ^ k) g' h' (gScale A u' x) a b).
Proof.
  intros k fuel a b g h u P c pf g' h' u' P' Hg Hh Hu HPP H. unfold proveInnerProduct in H.
  rewrite !tab_length, Nat.eqb_refl in H. cbn [negb ipGg ipHh ipUu] in H.
  destruct (hashIP G HO _ _ P c) as [x| | |] eqn:Hx; try discriminate. cbn [bind] in H.
  unfold computePP in H. destruct c as [c|]; cbn [deref bind] in H; [|discriminate].
  rewrite map_tab in H. rewrite (mapM_tab deref _ _ h) in H by reflexivity. cbn [bind] in H.
  destruct (computeBipRecursive _ _ _ _ _ _ _ _ _ _ _ _) as [[[[[ra rb] rP] rL] rR]| | |] eqn:Hr; try discriminate.
  cbn [bind] in H. injection H as <-.
  apply (bip_rec_rel k _ _ _ _ _ _ _ _ _ _ _ _ _ _ g' h' (gScale A u' x)) in Hr; [|assumption|assumption|rel].
  destruct Hr as (L & Rr & g0 & h0 & g0' & h0' & -> & -> & Hg0 & Hh0 & Hv).
  destruct (Hv (gAdd G P (gScale G (gScale G u x) c)) (gAdd A P' (gScale A (gScale A u' x) c))) as (Pv & pv & Rv & Hloop & Hd); [rel|].
  exists c, x, (gIsId G (gAdd G (gNeg G Pv) (gAdd G (gAdd G (gScale G g0 ra) (gScale G h0 rb))
                                        (gScale G (gScale G u x) ((ra * rb) mod N))))).
  split; [reflexivity|]. split; [reflexivity|]. split.
  - unfold ipVerify. cbn [ipParams ipGg ipHh ipP ipCc ipA ipB ipUu ipL ipR app]. rewrite map_tab in Hx.
    rewrite !map_tab, Hx. cbn [bind]. unfold computePP. cbn [bind deref].
    rewrite tab_length, Hloop. cbn. rewrite HN. reflexivity.
  - rewrite (pr_isid _ _ _ HP _ (gAdd A (gNeg A pv) (gAdd A (gAdd A (gScale A g0' ra) (gScale A h0' rb)) (gScale A (gScale A u' x) ((ra * rb) mod N))))) by rel.
    rewrite (negadd_0_iff HL), (scale_mod HL). split; intros Hi.
    + rewrite <- Hi in Hd. rewrite (l_comm A HL) in Hd. apply (add_cancel_r HL) in Hd. symmetry. exact Hd.
    + rewrite Hi in Hd. rewrite (l_comm A HL) in Hd. apply (add_cancel_l HL) in Hd. exact Hd.
Qed.

(** ** Range proofs *)
Lemma Verify_rel : forall n Gt H g h hp (pf : BulletProof G) y z tp tx mu H' g' hp' V' A' S' T1' T2' P',
  R H H' -> (forall i, R (g i) (g' i)) -> (forall i, R (hp i) (hp' i)) ->
  R (pV pf) V' -> R (pA pf) A' -> R (pS pf) S' -> R (pT1 pf) T1' -> R (pT2 pf) T2' -> R (ipP (pIPP pf)) P' ->
  pParams pf = mkBPParams (Z.of_nat n) Gt H (tab n g) (tab n h) ->
  HashBP G HO (pA pf) (pS pf) = (y, z) ->
  updateGenerators G (tab n h) y (Z.of_nat n) = Ok (tab n hp) ->
  pTprime pf = Some tp -> pTaux pf = Some tx -> pMu pf = Some mu ->
  let x := fst (HashBP G HO (pT1 pf) (pT2 pf)) in
  exists b65 b67,
    Verify G HO pf = (ok <- ipVerify G HO (pIPP pf) ;; Ok (b65 && b67 && ok)) /\
    (b65 = true <-> eq65 A n y z x H' V' T1' T2' tp tx) /\
    (b67 = true <-> eq67 A n y z x H' A' S' P' g' hp' mu).
Proof.
  intros n Gt H g h hp pf y z tp tx mu H' g' hp' V' A' S' T1' T2' P' RH Rg Rhp RV RA RS RT1 RT2 RP Hpar Hyz Hhp Htp Htx Hmu x.
  destruct (delta_rel n y z) as (d & Hd & Hdq).
  remember (Verify G HO pf) as V eqn:HV. unfold Verify in HV. rewrite Hpar in HV. cbn [bpN bpGg bpHh bpH] in HV.
  rewrite Hyz, Hhp, Htp, Htx, Hmu, Hd in HV. rewrite !pow_rel in HV. cbn [bind deref nil_slice] in HV.
  rewrite !VectorCopy_tab in HV. cbn [bind deref nil_slice] in HV. rewrite VectorMul_tab, VectorScalarMul_tab in HV. cbn [bind deref nil_slice] in HV.
  rewrite VectorAdd_tab in HV. cbn [bind deref nil_slice] in HV. rewrite HN in HV.
  match type of HV with context [VectorExp G (tab n g) (tab n ?a)] => destruct (exp_rel n g a g' Rg) as (X1 & E1 & R1) end.
  match type of HV with context [VectorExp G (tab n hp) (tab n ?a)] => destruct (exp_rel n hp a hp' Rhp) as (X2 & E2 & R2) end.
  rewrite E1, E2 in HV. cbn [bind deref] in HV. unfold PedersenCommit in HV. fold x in HV.
  do 2 eexists. split; [exact HV|]. split.
  - rewrite (pr_eq _ _ _ HP _ _ (gAdd A (gAdd A (gAdd A (gScale A V' ((z * z) mod N)) (gBase A d)) (gScale A T1' x)) (gScale A T2' ((x * x) mod N)))
      (gAdd A (gBase A tp) (gScale A H' tx))) by rel.
    unfold eq65. rewrite !(base_scale HL), !(scale_mod HL). rewrite (scale_eqm HL (gGen A) d (deltaZ n y z)) by exact Hdq.
    split; intros He; symmetry; exact He.
  - erewrite (pr_isid _ _ _ HP); [|apply (pr_sub _ _ _ HP); [apply (pr_add _ _ _ HP); [apply (pr_scale _ _ _ HP); exact RH|exact RP]|
      apply (pr_add _ _ _ HP); [apply (pr_add _ _ _ HP); [apply (pr_add _ _ _ HP); [exact RA|apply (pr_scale _ _ _ HP); exact RS]|exact R1]|exact R2]]].
    rewrite (sub_0_iff HL). unfold eq67.
    rewrite (gsum_ext n (fun i => gScale A (g' i) (N - z)) (fun j => gScale A (g' j) (- z))).
    2:{ intros. apply (scale_eqm HL). apply eqm_sub0; [apply (N_pos HL)|].
        apply eqm_iff; [apply (N_pos HL)|]. exists 1. ring. }
    match goal with |- context [gs n (fun i => gScale A (hp' i) (@?f i))] =>
      match f with fun i => z * _ + _ => fail 1 | _ =>
      rewrite (gsum_ext n (fun i => gScale A (hp' i) (f i)) (fun j => gScale A (hp' j) (z * y ^ Z.of_nat j + z * z * 2 ^ Z.of_nat j))) end end.
    2:{ intros. apply (scale_eqm HL). modn. apply eqm_of_eq. ring. }
    reflexivity.
Qed.

(** bp.go 104-332: the answer of Verify on the output of Prove, for every integer secret *)
Lemma honest_rel : forall k Gt H g h v rnd pf gam H' g' h',
  let n := (2 ^ k)%nat in
  R H H' -> (forall i, R (g i) (g' i)) -> (forall i, R (h i) (h' i)) ->
  (forall u, gMap G (str_bytes SEEDU) = Ok u -> exists u', R u u') ->
  Prove G HO v (mkBPParams (Z.of_nat n) Gt H (tab n g) (tab n h)) rnd = Ok (pf, gam) ->
  pParams pf = mkBPParams (Z.of_nat n) Gt H (tab n g) (tab n h) /\ gam = r_gamma rnd /\ pV pf = PedersenCommit G v gam H /\
  exists res, Verify G HO pf = Ok res /\
    (res = true <-> let '(y, z) := HashBP G HO (pA pf) (pS pf) in
       gScale A (gGen A) (z * z * v) = gScale A (gGen A) (z * z * (v mod 2 ^ Z.of_nat n))).
Proof.
  intros k Gt H g h v rnd pf gam H' g' h' n RH Rg Rh Hmu HQ.
  assert (Hn : (0 < n)%nat) by (unfold n; pose proof (Nat.pow_nonzero 2 k); lia).
  assert (Hn' : exists n', n = S n') by (exists (pred n); lia). destruct Hn' as [n' Hn'].
  pose proof (l_order A HL) as Hl.
  set (aL := fun i => (v / 2 ^ Z.of_nat i) mod 2). set (aR := fun i => (v / 2 ^ Z.of_nat i) mod 2 - 1).
  rewrite (Prove_vec _ _ _ _ _ (tab n aL)) in HQ by first [rewrite (pr_N _ _ _ HP); exact (N_pos HL)|apply Decompose_tab].
  rewrite computeAR_tab in HQ by (intros; apply bit_01). cbn [nil_slice] in HQ. change (fun i => aL i - 1) with aR in HQ.
  unfold ProveVec in HQ. cbn [bpN bpH bpGg bpHh] in HQ.
  destruct (cv_rel n aL aR (r_alpha rnd) H g h H' g' h' RH Rg Rh) as (Ac & EA & RA). rewrite EA in HQ. cbn [bind] in HQ.
  unfold sampleRandomVector in HQ. rewrite make_len_nat in HQ. cbn [bind] in HQ.
  change (map (r_sL rnd) (seq 0 n)) with (tab n (r_sL rnd)) in HQ.
  change (map (r_sR rnd) (seq 0 n)) with (tab n (r_sR rnd)) in HQ.
  destruct (cv_rel n (r_sL rnd) (r_sR rnd) (r_rho rnd) H g h H' g' h' RH Rg Rh) as (Sc & ES & RS). rewrite ES in HQ. cbn [bind] in HQ.
  destruct (HashBP G HO Ac Sc) as [y z] eqn:Hyz. rewrite !pow_rel, HN in HQ.
  vnorm0 HL HQ.
  match type of HQ with context [PedersenCommit G (?t mod N) (r_tau1 rnd) H] => set (t1 := t) in * end.
  match type of HQ with context [PedersenCommit G ?t (r_tau2 rnd) H] => set (t2 := t) in * end.
  set (T1 := PedersenCommit G (t1 mod N) (r_tau1 rnd) H) in *.
  set (T2 := PedersenCommit G t2 (r_tau2 rnd) H) in *.
  set (x := fst (HashBP G HO T1 T2)) in *.
  match type of HQ with context [ScalarProduct G (tab n ?f) (tab n ?f')] => set (l := f) in *; set (r := f') in * end.
  rewrite sp_rel, tab_length in HQ.
  destruct (updateGenerators G (tab n h) y (Z.of_nat n)) as [hp| | |] eqn:Hhp; try discriminate. cbn [bind] in HQ.
  destruct (upd_rel n' h h' y hp Rh) as (i & hf & -> & Rhf & Hyi); [rewrite <- Hn'; exact Hhp|].
  rewrite <- Hn' in Hhp, HQ.
  unfold setupInnerProduct in HQ. replace (Z.of_nat n <=? 0) with false in HQ by (symmetry; apply Z.leb_gt; lia).
  cbn [bind] in HQ. destruct (gMap G (str_bytes SEEDU)) as [u| | |] eqn:Hu; try discriminate. cbn [bind] in HQ.
  destruct (Hmu u eq_refl) as (u' & Ru).
  unfold commitInnerProduct in HQ.
  destruct (exp_rel n g l g' Rg) as (X1 & E1 & R1). destruct (exp_rel n hf r _ Rhf) as (X2 & E2 & R2). rewrite E1, E2 in HQ. cbn [bind deref] in HQ.
  destruct (proveInnerProduct _ _ _ _ _ _ _ _) as [ipf| | |] eqn:Hip; try discriminate. cbn [bind] in HQ.
  apply (ip_rel k _ _ _ _ _ _ _ _ _ g' (fun j => gScale A (h' j) (i ^ Z.of_nat j)) u'
    (gAdd A (gs n (fun i => gScale A (g' i) (l i))) (gs n (fun j => gScale A (gScale A (h' j) (i ^ Z.of_nat j)) (r j))))) in Hip; try assumption; [|rel].
  destruct Hip as (c' & xi & ires & Hc' & HipP & Hiv & Hires). fold n in Hires.
  injection HQ as <- <-. injection Hc' as <-.
  cbn [pParams pV pA pS].
  split; [reflexivity|]. split; [reflexivity|]. split; [reflexivity|]. rewrite Hyz.
  set (pf := mkBulletProof _ _ _ _ _ _ _ _ _ _).
  destruct (Verify_rel n Gt H g h hf pf y z (zsum n (fun i => l i * r i) mod N)
     ((r_tau2 rnd * (x * x) + r_tau1 rnd * x + z * z * r_gamma rnd) mod N) ((r_rho rnd * x + r_alpha rnd) mod N)
     H' g' (fun j => gScale A (h' j) (i ^ Z.of_nat j)) (PedersenCommit A v (r_gamma rnd) H')
     (gAdd A (gScale A H' (r_alpha rnd)) (gs n (fun i => gAdd A (gScale A (g' i) (aL i)) (gScale A (h' i) (aR i)))))
     (gAdd A (gScale A H' (r_rho rnd)) (gs n (fun i => gAdd A (gScale A (g' i) (r_sL rnd i)) (gScale A (h' i) (r_sR rnd i)))))
     (PedersenCommit A (t1 mod N) (r_tau1 rnd) H') (PedersenCommit A t2 (r_tau2 rnd) H')
     (gAdd A (gs n (fun i => gScale A (g' i) (l i))) (gs n (fun j => gScale A (gScale A (h' j) (i ^ Z.of_nat j)) (r j))))
     RH Rg Rhf) as (b65 & b67 & Hver & H65 & H67);
    [cbn [pf pV]; unfold PedersenCommit; rel|cbn [pf pA]; exact RA|cbn [pf pS]; exact RS|cbn [pf pT1]; unfold T1, PedersenCommit; rel
    |cbn [pf pT2]; unfold T2, PedersenCommit; rel|cbn [pf pIPP]; rewrite HipP; rel|reflexivity|exact Hyz|exact Hhp|reflexivity|reflexivity|reflexivity|].
  cbn [pf pT1 pT2 pIPP] in H65, H67, Hver. fold x in H65, H67. rewrite Hiv in Hver. cbn [bind] in Hver.
  exists (b65 && b67 && ires). split; [exact Hver|].
  assert (Hi1 : ires = true).
  { apply Hires. unfold ipCom. rewrite (scale_mod HL), (gsum_add HL). reflexivity. }
  assert (Hb67 : b67 = true).
  { apply H67. unfold eq67.
    rewrite !(scale_mod HL). set (SA := gs n (fun i => gAdd A (gScale A (g' i) (aL i)) _)).
    set (SS := gs n (fun i => gAdd A (gScale A (g' i) (r_sL rnd i)) _)).
    set (Sl := gs n (fun i => gScale A (g' i) (l i))). set (Sr := gs n (fun j => gScale A _ (r j))).
    set (Sz := gs n (fun i => gScale A (g' i) (- z))). set (Sh := gs n (fun j => gScale A _ (z * _ + _))).
    assert (Hs : gAdd A Sl Sr = gAdd A SA (gAdd A (gScale A SS x) (gAdd A Sz Sh))).
    { unfold SA, SS, Sl, Sr, Sz, Sh. rewrite <- (gsum_scale HL), <- !(gsum_add HL). apply gsum_ext. intros j Hj.
      rewrite (scale_eqm HL (g' j) (l j) (aL j - z + r_sL rnd j * x)) by (unfold l; modn; apply eqm_of_eq; ring).
      rewrite (scale_eqm HL _ (r j) (y ^ Z.of_nat j * (z + aR j + r_sR rnd j * x) + 2 ^ Z.of_nat j * (z * z)))
        by (unfold r; modn; reflexivity).
      glin HL. apply (eqm_diff1 A HL (y ^ Z.of_nat j * i ^ Z.of_nat j) (aR j + r_sR rnd j * x)).
      - apply Hyi. lia.
      - ring. }
    rewrite Hs. glin HL. }
  rewrite Hi1, Hb67, !andb_true_r. rewrite H65. unfold eq65. unfold PedersenCommit.
  assert (Hth : eqm N (zsum n (fun j => l j * r j)) (t0Z n y z aL aR + t1 * x + t2 * (x * x))).
  { transitivity (zsum n (fun j => (aL j - z + r_sL rnd j * x) *
                    (y ^ Z.of_nat j * (aR j + z + r_sR rnd j * x) + z * z * 2 ^ Z.of_nat j))).
    { apply zsum_eqm. intros j _. unfold l, r. modn. apply eqm_of_eq. ring. }
    assert (H1 : eqm N t1 (zsum n (fun j => r_sL rnd j * (y ^ Z.of_nat j * (z + aR j) + 2 ^ Z.of_nat j * (z * z)))
                           + zsum n (fun j => (aL j - z) * (y ^ Z.of_nat j * r_sR rnd j)))).
    { unfold t1. rewrite !Zmod_eqm. apply Zplus_eqm; apply zsum_eqm; intros j _; modn; apply eqm_of_eq; ring. }
    assert (H2 : eqm N t2 (zsum n (fun j => r_sL rnd j * (y ^ Z.of_nat j * r_sR rnd j)))).
    { unfold t2. rewrite !Zmod_eqm. apply zsum_eqm; intros j _; modn; apply eqm_of_eq; ring. }
    rewrite H1, H2. apply eqm_of_eq. unfold t0Z. rewrite <- zsum_add, <- !zsum_mul, <- !zsum_add.
    apply zsum_ext. intros j _. ring. }
  rewrite !(base_scale HL), !(scale_mod HL).
  rewrite (scale_eqm HL _ _ _ Hth). unfold aL, aR. rewrite t0Z_bits.
  set (Q := gAdd A (gScale A (gGen A) (deltaZ n y z + t1 * x + t2 * (x * x)))
                   (gScale A H' (r_tau2 rnd * (x * x) + r_tau1 rnd * x + z * z * r_gamma rnd))).
  match goal with |- (?a = ?b) <-> _ =>
    replace a with (gAdd A (gScale A (gGen A) (z * z * (v mod 2 ^ Z.of_nat n))) Q) by (unfold Q; glin HL);
    replace b with (gAdd A (gScale A (gGen A) (z * z * v)) Q) by (unfold Q; glin HL) end.
  split.
  - intros He. apply (add_cancel_r HL) in He. symmetry. exact He.
  - intros ->. reflexivity.
Qed.
(** ** With invertible challenges the prover returns *)
Lemma bip_rec_rel_total : (forall X Y, Z.gcd (fst (HashBP G HO X Y)) N = 1) ->
  forall k fuel a b g h u P Ls Rs g' h' u', (k <= fuel)%nat ->
  (forall i, R (g i) (g' i)) -> (forall i, R (h i) (h' i)) -> R u u' ->
  exists r, computeBipRecursive G HO fuel (tab (2 ^ k) a) (tab (2 ^ k) b) (tab (2 ^ k) g) (tab (2 ^ k) h) u P (2 ^ k) Ls Rs
    = Ok r.
Proof.
  intros Hinv. induction k as [|k IH]; intros fuel a b g h u P Ls Rs g' h' u' Hf Hg Hh Hu.
  - destruct fuel; eexists; reflexivity.
  - assert (Hm : (0 < 2 ^ k)%nat) by (pose proof (Nat.pow_nonzero 2 k); lia).
    replace (2 ^ S k)%nat with (2 ^ k + 2 ^ k)%nat in * by (cbn [Nat.pow]; lia).
    destruct fuel as [|fuel]; [lia|].
    destruct (bip_step_rel fuel (2 ^ k) a b g h u P Ls Rs g' h' u' Hm Hg Hh Hu) as (L & Rr & _ & _ & Hs). cbv zeta in Hs. rewrite Hs. clear Hs.
    pose proof (Hinv L Rr) as Hx. set (x := fst (HashBP G HO L Rr)) in *.
    destruct (modInverse_ex _ _ (l_order A HL) Hx) as (i & Hi & _). rewrite Hi.
    destruct (sq_inv A HL _ _ Hi) as (i2 & -> & _). cbn [exists_i2 bind deref].
    apply (IH _ _ _ _ _ _ _ _ _ (fun j => gAdd A (gScale A (g' j) i) (gScale A (g' (2 ^ k + j)%nat) x))
          (fun j => gAdd A (gScale A (h' j) x) (gScale A (h' (2 ^ k + j)%nat) i)) u'); [lia|intros; rel|intros; rel|exact Hu].
Qed.
Lemma ip_rel_total : (forall X Y, Z.gcd (fst (HashBP G HO X Y)) N = 1) ->
  forall k fuel a b g h u P c g' h' u', (k <= fuel)%nat ->
  (forall i, R (g i) (g' i)) -> (forall i, R (h i) (h' i)) -> R u u' ->
  exists pf, proveInnerProduct G HO fuel (tab (2 ^ k) a) (tab (2 ^ k) b) P (Some c)
     (mkIPParams (tab (2 ^ k) g) (map Some (tab (2 ^ k) h)) u) = Ok pf.
Proof.
  intros Hinv k fuel a b g h u P c g' h' u' Hf Hg Hh Hu. unfold proveInnerProduct. rewrite !tab_length, Nat.eqb_refl.
  cbn [negb ipGg ipHh ipUu]. destruct (hashIP_tab G HO (2 ^ k) g h P (Some c)) as [x ->]. cbn [bind].
  unfold computePP. cbn [deref bind]. rewrite map_tab. rewrite (mapM_tab deref _ _ h) by reflexivity. cbn [bind].
  destruct (bip_rec_rel_total Hinv k fuel a b g h (gScale G u x) (gAdd G P (gScale G (gScale G u x) c)) [] [] g' h' (gScale A u' x) Hf Hg Hh)
    as [[[[[ra rb] rP] rL] rR] ->]; [rel|].
  eexists. reflexivity.
Qed.
Lemma honest_rel_total : (forall X Y, Z.gcd (fst (HashBP G HO X Y)) N = 1) ->
  forall k Gt H g h v rnd H' g' h' u u',
  let n := (2 ^ k)%nat in
  R H H' -> (forall i, R (g i) (g' i)) -> (forall i, R (h i) (h' i)) -> gMap G (str_bytes SEEDU) = Ok u -> R u u' ->
  exists pf gam, Prove G HO v (mkBPParams (Z.of_nat n) Gt H (tab n g) (tab n h)) rnd = Ok (pf, gam).
Proof.
  intros Hinv k Gt H g h v rnd H' g' h' u u' n RH Rg Rh Hu Ru.
  assert (Hn : (0 < n)%nat) by (unfold n; pose proof (Nat.pow_nonzero 2 k); lia).
  assert (Hn' : exists n', n = S n') by (exists (pred n); lia). destruct Hn' as [n' Hn'].
  remember (Prove G HO v (mkBPParams (Z.of_nat n) Gt H (tab n g) (tab n h)) rnd) as RR eqn:HQ.
  set (aL := fun i => (v / 2 ^ Z.of_nat i) mod 2) in *.
  rewrite (Prove_vec _ _ _ _ _ (tab n aL)) in HQ by first [rewrite (pr_N _ _ _ HP); exact (N_pos HL)|apply Decompose_tab].
  rewrite computeAR_tab in HQ by (intros; apply bit_01). cbn [nil_slice] in HQ. set (aR := fun i => aL i - 1) in *.
  unfold ProveVec in HQ. cbn [bpN bpH bpGg bpHh] in HQ.
  destruct (cv_rel n aL aR (r_alpha rnd) H g h H' g' h' RH Rg Rh) as (Ac & EA & RA). rewrite EA in HQ. cbn [bind] in HQ.
  unfold sampleRandomVector in HQ. rewrite make_len_nat in HQ. cbn [bind] in HQ.
  change (map (r_sL rnd) (seq 0 n)) with (tab n (r_sL rnd)) in HQ.
  change (map (r_sR rnd) (seq 0 n)) with (tab n (r_sR rnd)) in HQ.
  destruct (cv_rel n (r_sL rnd) (r_sR rnd) (r_rho rnd) H g h H' g' h' RH Rg Rh) as (Sc & ES & RS). rewrite ES in HQ. cbn [bind] in HQ.
  pose proof (Hinv Ac Sc) as Hy. destruct (HashBP G HO Ac Sc) as [y z] eqn:Hyz. cbn [fst] in Hy. rewrite !pow_rel, HN in HQ.
  vnorm0 HL HQ. rewrite sp_rel, tab_length in HQ.
  destruct (modInverse_ex _ _ (l_order A HL) Hy) as (i & Hi & _).
  assert (Hg : exists hp, updateGenerators G (tab n h) y (Z.of_nat n) = Ok hp).
  { unfold updateGenerators. rewrite make_len_nat. cbn [bind]. rewrite Hn', tab_S, HN, Hi, updGen_loop_tab. eexists. reflexivity. }
  destruct Hg as [hp Hhp]. rewrite Hhp in HQ. cbn [bind] in HQ.
  destruct (upd_rel n' h h' y hp Rh) as (j & hf & -> & Rhf & _); [rewrite <- Hn'; exact Hhp|]. rewrite <- Hn' in HQ.
  unfold setupInnerProduct in HQ. replace (Z.of_nat n <=? 0) with false in HQ by (symmetry; apply Z.leb_gt; lia).
  rewrite Hu in HQ. cbn [bind] in HQ. unfold commitInnerProduct in HQ.
  match type of HQ with context [VectorExp G (tab n g) (tab n ?a)] => destruct (exp_rel n g a g' Rg) as (X1 & E1 & R1) end.
  match type of HQ with context [VectorExp G (tab n hf) (tab n ?a)] => destruct (exp_rel n hf a _ Rhf) as (X2 & E2 & R2) end.
  rewrite E1, E2 in HQ. cbn [bind deref] in HQ.
  match type of HQ with context [proveInnerProduct G HO n (tab n ?a) (tab n ?b) ?P (Some ?c) (mkIPParams (tab n ?gg) (map Some (tab n ?hh)) u)] =>
    destruct (ip_rel_total Hinv k n a b gg hh u P c g' _ u' ltac:(unfold n; pose proof (Nat.pow_gt_lin_r 2 k); lia) Rg Rhf Ru) as [ipf Hipf] end.
  fold n in Hipf. rewrite Hipf in HQ. cbn [bind] in HQ. subst RR. eauto.
Qed.

(** ** Parameters made by Setup *)
(** the strings hashed to the group by Setup with n generators, and by every proof *)
Definition usedSeeds (n : nat) : list bytes :=
  str_bytes SEEDH :: str_bytes SEEDU :: map (seed_bytes "g") (seq 0 n) ++ map (seed_bytes "h") (seq 0 n).
Lemma used_i : forall n i, (i < n)%nat -> In (seed_bytes "g" i) (usedSeeds n) /\ In (seed_bytes "h" i) (usedSeeds n).
Proof. intros n i Hi. unfold usedSeeds. split; do 2 right; apply in_or_app; [left|right]; apply in_map, in_seq; lia. Qed.
Lemma fin_choice : forall {T} n (d : T) (P : nat -> T -> Prop), (forall i, (i < n)%nat -> exists a, P i a) ->
  exists f, (forall i, (i < n)%nat -> P i (f i)) /\ forall i, (n <= i)%nat -> f i = d.
Proof.
  induction n as [|n IH]; intros d P H; [exists (fun _ => d); split; intros; [lia|reflexivity]|].
  destruct (IH d P ltac:(intros; apply H; lia)) as (f & Hf & Hd). destruct (H n ltac:(lia)) as [a Ha].
  exists (fun i => if Nat.eqb i n then a else f i). split.
  - intros i Hi. destruct (Nat.eqb_spec i n) as [->|]; [exact Ha|apply Hf; lia].
  - intros i Hi. destruct (Nat.eqb_spec i n); [lia|apply Hd; lia].
Qed.
Lemma Setup_rel : forall nan64 b p, nanConv nan64 -> is_int64 b = true -> Setup G nan64 b = Ok p ->
  (forall s X, In s (usedSeeds (Z.to_nat (bpN p))) -> gMap G s = Ok X -> exists a, R X a) ->
  exists k g h H' g' h', (k <= 5)%nat /\ b = 2 ^ Z.of_nat (2 ^ k) /\
    p = mkBPParams (Z.of_nat (2 ^ k)) (bpG p) (bpH p) (tab (2 ^ k) g) (tab (2 ^ k) h) /\
    R (bpH p) H' /\ (forall i, R (g i) (g' i)) /\ (forall i, R (h i) (h' i)).
Proof.
  intros nan64 b p Hn Hb H HS. destruct (Setup_ok G nan64 b p Hb H) as [Hm|[Hin Hs]].
  - subst b. exfalso. eapply Setup_min_not_ok; eassumption.
  - destruct Hs as (HNN & _ & HH & Hg & Hh & Hi). rewrite HNN in HS.
    assert (Hk : exists k, (k <= 5)%nat /\ b = 2 ^ Z.of_nat (2 ^ k) /\ Z.log2 b = Z.of_nat (2 ^ k)).
    { unfold okEnds in Hin. cbn in Hin. destruct Hin as [<-|[<-|[<-|[<-|[<-|[<-|[]]]]]]];
      [exists 0%nat|exists 1%nat|exists 2%nat|exists 3%nat|exists 4%nat|exists 5%nat]; repeat split; lia. }
    destruct Hk as (k & Hk & He & Hl). rewrite Hl, Nat2Z.id in *.
    destruct (HS _ _ (or_introl eq_refl) HH) as [H' RH].
    destruct (fin_choice (2 ^ k) (gId A) (fun i a => R (nth i (bpGg p) (gId G)) a)) as (g' & Rg & Dg).
    { intros i Hi'. apply (HS (seed_bytes "g" i)); [apply used_i|apply Hi]; assumption. }
    destruct (fin_choice (2 ^ k) (gId A) (fun i a => R (nth i (bpHh p) (gId G)) a)) as (h' & Rh & Dh).
    { intros i Hi'. apply (HS (seed_bytes "h" i)); [apply used_i|apply Hi]; assumption. }
    exists k, (fun i => nth i (bpGg p) (gId G)), (fun i => nth i (bpHh p) (gId G)), H', g', h'.
    split; [exact Hk|]. split; [exact He|]. split.
    { rewrite <- (tab_nth' (gId G) (bpGg p)), <- (tab_nth' (gId G) (bpHh p)), <- HNN by assumption. destruct p; reflexivity. }
    split; [exact RH|]. split; intros i; destruct (Nat.lt_ge_cases i (2 ^ k)) as [Hlt|Hge]; auto;
      [rewrite nth_overflow, Dg|rewrite nth_overflow, Dh]; try lia; apply (pr_id _ _ _ HP).
Qed.
Lemma Setup_rel_total : forall nan64 b, In b okEnds ->
  (forall s, In s (usedSeeds (Z.to_nat (Z.log2 b))) -> exists X, gMap G s = Ok X) -> exists p, Setup G nan64 b = Ok p.
Proof.
  intros nan64 b Hb HS. unfold Setup. destruct (HS _ (or_introl eq_refl)) as [h Hh].
  assert (Hc : IsPowerOfTwo b = true /\ IsPowerOfTwo (goLog2 nan64 b) = true /\ (32 <? goLog2 nan64 b) = false /\
               make_len (goLog2 nan64 b) = Ok (Z.to_nat (Z.log2 b))).
  { unfold okEnds in Hb. cbn in Hb. destruct Hb as [<-|[<-|[<-|[<-|[<-|[<-|[]]]]]]]; vm_compute; auto. }
  destruct Hc as (-> & -> & -> & ->). cbn [negb]. rewrite Hh. cbn [bind].
  assert (HM : forall l, incl l (seq 0 (Z.to_nat (Z.log2 b))) ->
    exists r, mapM (fun i => Gi <- gMap G (seed_bytes "g" i) ;; Hi <- gMap G (seed_bytes "h" i) ;; Ok (Gi, Hi)) l = Ok r).
  { induction l as [|i l IH]; intros Hi; [eexists; reflexivity|]. cbn [mapM].
    assert (Hil : (i < Z.to_nat (Z.log2 b))%nat) by (assert (In i (seq 0 (Z.to_nat (Z.log2 b)))) as Hq by (apply Hi; left; reflexivity); apply in_seq in Hq; lia).
    destruct (HS _ (proj1 (used_i _ _ Hil))) as [X ->]. destruct (HS _ (proj2 (used_i _ _ Hil))) as [Y ->]. cbn [bind].
    destruct IH as [r ->]; [intros j Hj; apply Hi; right; exact Hj|]. eexists. reflexivity. }
  destruct (HM _ (incl_refl _)) as [r ->]. eexists. reflexivity.
Qed.
End PresBP.
