(** C70: what MultiBulletProof.Verify accepts. *)
From Verif Require Import GoBase Json GroupIface Vector BIP BP MultiBP NumTh Alg VectorProofs BIPProofs BPProofs Toy PropBP PropMulti.
From Coq Require Import Setoid Morphisms Znumtheory.

Section MultiVerify.
Context (G : Grp) (HO : Oracles) (HL : GrpLaws G).
Local Notation E := (E G).
Local Notation N := (gN G).
Local Notation gs := (gsum (G:=G)).

Definition deltaM (n m b : nat) (y z : Z) : Z :=
  (z - z * z) * zsum n (fun i => y ^ Z.of_nat i) - zsum m (fun j => z ^ (3 + Z.of_nat j)) * zsum b (fun i => 2 ^ Z.of_nat i).
Lemma goDiv_nat : forall n m, (0 < m)%nat -> goDiv (Z.of_nat n) (Z.of_nat m) = Ok (Z.of_nat (n / m)).
Proof.
  intros n m Hm. unfold goDiv. replace (Z.of_nat m =? 0) with false by (symmetry; apply Z.eqb_neq; lia).
  rewrite Z.quot_div_nonneg, Nat2Z.inj_div by lia. reflexivity.
Qed.
Lemma deltaMul_gen : forall n m y z, (0 < m)%nat -> exists d, deltaMul G (Z.of_nat n) y z (Z.of_nat m) = Ok d /\ eqm N d (deltaM n m (n / m) y z).
Proof.
  intros n m y z Hm. unfold deltaMul. rewrite goDiv_nat by assumption. cbn [bind]. set (b := (n / m)%nat).
  rewrite !VectorCopy_tab, !(powerOf_tab _ HL). cbn [bind]. rewrite !(ScalarProduct_tab _ HL). cbn [deref bind].
  eexists. split; [reflexivity|]. unfold deltaM. modn. rewrite Nat2Z.id. apply Zminus_eqm.
  - rewrite Z.mul_comm. apply Zmult_eqm; [reflexivity|]. apply zsum_eqm. intros. modn. apply eqm_of_eq. ring.
  - set (sp := zsum b (fun i => 1 * (2 ^ Z.of_nat i mod N)) mod N).
    assert (Hsp : eqm N sp (zsum b (fun i => 2 ^ Z.of_nat i))).
    { unfold sp. rewrite Zmod_eqm. apply zsum_eqm. intros. modn. apply eqm_of_eq. ring. }
    clearbody sp b. clear Hm. induction m as [|m IH]; [reflexivity|]. rewrite seq_S, fold_left_app. cbn [fold_left zsum Nat.add].
    modn. rewrite IH, Hsp. apply eqm_of_eq. replace (Z.of_nat m + 3) with (3 + Z.of_nat m) by lia. ring.
Qed.
Lemma multiProd_gen : forall b z n hp k s prod, ((s + k) * b <= n)%nat ->
  multiProd_loop G (tab n hp) b (tab b (fun i => 2 ^ Z.of_nat i mod N)) z (seq s k) prod =
  Ok (gAdd G prod (gs k (fun j => gs b (fun i => gScale G (hp ((s + j) * b + i)%nat) (2 ^ Z.of_nat i + z ^ (2 + Z.of_nat (s + j))))))).
Proof.
  intros b z n hp. induction k as [|k IH]; intros s prod Hk; cbn [seq multiProd_loop].
  - cbn [gsum]. rewrite (add_0_r HL). reflexivity.
  - replace n with ((s + 1) * b + (n - (s + 1) * b))%nat by nia. rewrite slice_to_tab. cbn [bind].
    replace ((s + 1) * b)%nat with (s * b + b)%nat by lia. rewrite skipn_tab.
    replace (s * b + b + (n - (s * b + b)))%nat with n by nia.
    rewrite VectorAddConst_tab. rewrite (VectorExp_tab _ HL). cbn [deref bind]. rewrite IH by nia. f_equal.
    replace (S k) with (1 + k)%nat by lia. rewrite (gsum_app HL). cbn [gsum]. rewrite (add_0_l HL).
    rewrite <- (l_assoc G HL). f_equal. f_equal.
    + apply gsum_ext. intros i Hi. rewrite Nat.add_0_r. apply (scale_eqm HL). modn. reflexivity.
    + apply gsum_ext. intros j _. apply gsum_ext. intros i _. replace (S s + j)%nat with (s + (1 + j))%nat by lia. reflexivity.
Qed.

Definition eq65m (n m : nat) (y z x : Z) (H : E) (V : nat -> E) (T1 T2 : E) (tp tx : Z) : Prop :=
  gAdd G (gBase G tp) (gScale G H tx) =
  gAdd G (gAdd G (gAdd G (gs m (fun j => gScale G (V j) (z ^ (2 + Z.of_nat j)))) (gBase G (deltaM n m (n / m) y z))) (gScale G T1 x)) (gScale G T2 (x * x)).
Definition rest67m (n m : nat) (y z : Z) (g hp : nat -> E) : E :=
  gAdd G (gs n (fun j => gScale G (g j) (- z)))
    (gAdd G (gs n (fun j => gScale G (hp j) (z * y ^ Z.of_nat j)))
       (gs m (fun j => gs (n / m) (fun i => gScale G (hp (j * (n / m) + i)%nat) (2 ^ Z.of_nat i + z ^ (2 + Z.of_nat j)))))).
Lemma MultiChecks_eqs : forall n m Gt H g h hp (pf : MultiBulletProof G) y z tp tx mu,
  mParams pf = mkBPParams (Z.of_nat n) Gt H (tab n g) (tab n h) -> length (mVs pf) = m -> (0 < m)%nat ->
  HashBP G HO (mA pf) (mS pf) = (y, z) ->
  updateGenerators G (tab n h) y (Z.of_nat n) = Ok (tab n hp) ->
  mTprime pf = Some tp -> mTaux pf = Some tx -> mMu pf = Some mu ->
  let x := fst (HashBP G HO (mT1 pf) (mT2 pf)) in
  exists b65 b67,
    MultiChecks G HO pf = (ok <- ipVerify G HO (mIPP pf) ;; Ok (b65, b67, ok)) /\
    (b65 = true <-> eq65m n m y z x H (fun j => nth j (mVs pf) (gId G)) (mT1 pf) (mT2 pf) tp tx) /\
    (b67 = true <-> gAdd G (gScale G H mu) (ipP (mIPP pf)) = gAdd G (gAdd G (mA pf) (gScale G (mS pf) x)) (rest67m n m y z g hp)).
Proof.
  intros n m Gt H g h hp pf y z tp tx mu Hpar Hm Hm0 Hyz Hhp Htp Htx Hmu x.
  destruct (deltaMul_gen n m y z Hm0) as (d & Hd & Hdq).
  remember (MultiChecks G HO pf) as V eqn:HV. unfold MultiChecks in HV. rewrite Hpar in HV. cbn [bpN bpGg bpHh bpH] in HV.
  rewrite Hm, goDiv_nat in HV by exact Hm0. cbn [bind] in HV. rewrite Hyz, Hhp, Htp, Htx, Hmu in HV. cbn [bind deref] in HV.
  rewrite !(powerOf_tab _ HL) in HV. cbn [bind] in HV. rewrite Hd in HV. cbn [bind] in HV. rewrite !VectorCopy_tab in HV. cbn [bind] in HV.
  replace (combine (mVs pf)) with (combine (B:=Z) (tab m (fun j => nth j (mVs pf) (gId G)))) in HV by (rewrite <- (tab_nth' (gId G) (mVs pf) m Hm); reflexivity).
  rewrite combine_tab in HV.
  rewrite (VectorMul_tab n) in HV. cbn [nil_slice] in HV. rewrite !(VectorExp_tab _ HL) in HV. cbn [deref bind] in HV.
  rewrite Nat2Z.id in HV. rewrite multiProd_gen in HV.
  2:{ cbn [Nat.add]. apply Nat.mul_div_le. lia. }
  cbn [bind deref] in HV. fold x in HV.
  do 2 eexists. split; [exact HV|]. split.
  - rewrite (l_eq G HL). unfold eq65m, PedersenCommit. rewrite !(base_scale HL).
    rewrite (fold_left_gsum G HL (fun vp : E * Z => gScale G (fst vp) ((z * z) mod N * snd vp)) m). cbn [fst snd]. rewrite (add_0_l HL).
    rewrite !(scale_mod HL). rewrite (scale_eqm HL (gGen G) d (deltaM n m (n / m) y z)) by exact Hdq.
    rewrite (gsum_ext m _ (fun j => gScale G (nth j (mVs pf) (gId G)) (z ^ (2 + Z.of_nat j)))).
    2:{ intros j _. apply (scale_eqm HL). rewrite Z.pow_add_r by lia. change (z ^ 2) with (z * (z * 1)). modn. apply eqm_of_eq. ring. }
    split; intros He; symmetry; exact He.
  - rewrite (l_isid G HL), (sub_0_iff HL). unfold rest67m.
    rewrite (gsum_ext n (fun i => gScale G (g i) (N - z)) (fun j => gScale G (g j) (- z))).
    2:{ intros. apply (scale_eqm HL). apply eqm_sub0; [apply (N_pos HL)|].
        apply eqm_iff; [apply (N_pos HL)|]. exists 1. ring. }
    rewrite (gsum_ext n (fun i => gScale G (hp i) ((y ^ Z.of_nat i mod N * z) mod N)) (fun j => gScale G (hp j) (z * y ^ Z.of_nat j))).
    2:{ intros. apply (scale_eqm HL). modn. apply eqm_of_eq. ring. }
    rewrite !(add_0_l HL), !(l_assoc G HL). reflexivity.
Qed.
Lemma MultiVerify_eqs : forall n m Gt H g h hp (pf : MultiBulletProof G) y z tp tx mu,
  mParams pf = mkBPParams (Z.of_nat n) Gt H (tab n g) (tab n h) -> length (mVs pf) = m -> (0 < m)%nat ->
  HashBP G HO (mA pf) (mS pf) = (y, z) ->
  updateGenerators G (tab n h) y (Z.of_nat n) = Ok (tab n hp) ->
  mTprime pf = Some tp -> mTaux pf = Some tx -> mMu pf = Some mu ->
  let x := fst (HashBP G HO (mT1 pf) (mT2 pf)) in
  exists b65 b67,
    MultiVerify G HO pf = (ok <- ipVerify G HO (mIPP pf) ;; Ok (b65 && b67 && ok)) /\
    (b65 = true <-> eq65m n m y z x H (fun j => nth j (mVs pf) (gId G)) (mT1 pf) (mT2 pf) tp tx) /\
    (b67 = true <-> gAdd G (gScale G H mu) (ipP (mIPP pf)) = gAdd G (gAdd G (mA pf) (gScale G (mS pf) x)) (rest67m n m y z g hp)).
Proof.
  intros n m Gt H g h hp pf y z tp tx mu Hpar Hm Hm0 Hyz Hhp Htp Htx Hmu x.
  destruct (MultiChecks_eqs n m Gt H g h hp pf y z tp tx mu Hpar Hm Hm0 Hyz Hhp Htp Htx Hmu) as (b65 & b67 & HV & H65 & H67).
  exists b65, b67. split; [|split; assumption]. rewrite MultiVerify_checks, HV. destruct (ipVerify G HO (mIPP pf)); reflexivity.
Qed.
End MultiVerify.

(** Verify of a proof with [m] commitments and [n] generators on each side, b = n / m bits for each value. (y,z), x are the transcript's
    challenges; [hp j] is y^-j h_j. The last sum is where Verify departs from the protocol: the exponent of the i-th generator of block j
    is 2^i + z^(2+j), not 2^i z^(2+j). *)
Theorem C70_equations : forall G HO (pf : MultiBulletProof G) n m Gt H Gg Hh tp tx mu ok,
  GrpLaws G ->
  mParams pf = mkBPParams (Z.of_nat n) Gt H Gg Hh -> (0 < n)%nat -> length Gg = n -> length Hh = n ->
  length (mVs pf) = m -> (0 < m)%nat ->
  mTprime pf = Some tp -> mTaux pf = Some tx -> mMu pf = Some mu ->
  ipVerify G HO (mIPP pf) = Ok ok ->
  let b := (n / m)%nat in
  let x := fst (HashBP G HO (mT1 pf) (mT2 pf)) in
  let y := fst (HashBP G HO (mA pf) (mS pf)) in
  let z := snd (HashBP G HO (mA pf) (mS pf)) in
  let delta := (z - z * z) * zsum n (fun i => y ^ Z.of_nat i) - zsum m (fun j => z ^ (3 + Z.of_nat j)) * zsum b (fun i => 2 ^ Z.of_nat i) in
  forall yinv, (y * yinv) mod gN G = 1 ->
  let g j := nth j Gg (gId G) in
  let hp j := gScale G (nth j Hh (gId G)) (yinv ^ Z.of_nat j) in
  exists r, MultiVerify G HO pf = Ok r /\
  (r = true <->
     gAdd G (gBase G tp) (gScale G H tx) =
       gAdd G (gAdd G (gAdd G (gsum (G:=G) m (fun j => gScale G (nth j (mVs pf) (gId G)) (z ^ (2 + Z.of_nat j)))) (gBase G delta)) (gScale G (mT1 pf) x)) (gScale G (mT2 pf) (x * x)) /\
     gAdd G (gScale G H mu) (ipP (mIPP pf)) =
       gAdd G (gAdd G (mA pf) (gScale G (mS pf) x))
         (gAdd G (gsum (G:=G) n (fun j => gScale G (g j) (- z)))
            (gAdd G (gsum (G:=G) n (fun j => gScale G (hp j) (z * y ^ Z.of_nat j)))
               (gsum (G:=G) m (fun j => gsum (G:=G) b (fun i => gScale G (hp (j * b + i)%nat) (2 ^ Z.of_nat i + z ^ (2 + Z.of_nat j))))))) /\
     ok = true).
Proof.
  intros G HO pf n m Gt H Gg Hh tp tx mu ok HL Hpar Hn HlG HlH Hm Hm0 Htp Htx Hmu Hok b x y z delta yinv Hyi g hp.
  rewrite (tab_nth' (gId G) Gg n HlG), (tab_nth' (gId G) Hh n HlH) in Hpar. fold g in Hpar.
  pose proof (l_order G HL) as HN.
  destruct (modInverse_ex y (gN G) HN (inv_gcd1 _ _ _ HN Hyi)) as (i & Hi & _ & Hyi').
  assert (Hii : eqm (gN G) i yinv) by (constructor; apply (modInverse_unique y); assumption).
  assert (Hu : updateGenerators G (tab n (fun j => nth j Hh (gId G))) y (Z.of_nat n) = Ok (tab n hp)).
  { destruct n as [|n]; [lia|]. rewrite (updateGenerators_tab G HL _ _ _ i Hi). f_equal. apply tab_ext. intros j _. unfold hp.
    apply (scale_eqm HL). apply eqm_pow. exact Hii. }
  destruct (MultiVerify_eqs G HO HL n m Gt H g (fun j => nth j Hh (gId G)) hp pf y z tp tx mu) as (b65 & b67 & HV & H65 & H67);
    try assumption.
  { unfold y, z. destruct (HashBP G HO (mA pf) (mS pf)); reflexivity. }
  rewrite Hok in HV. cbn [bind] in HV. eexists. split; [exact HV|].
  rewrite !andb_true_iff, H65, H67. fold x. unfold eq65m, rest67m, deltaM. fold b. tauto.
Qed.

(** no commitments, or two generators and a challenge y that is not invertible: Verify panics *)
Theorem C70_panics : forall G HO (pf : MultiBulletProof G) n Gt H Gg Hh,
  mParams pf = mkBPParams (Z.of_nat n) Gt H Gg Hh ->
  mVs pf = [] \/ ((2 <= n)%nat /\ length Hh = n /\ Z.gcd (fst (HashBP G HO (mA pf) (mS pf))) (gN G) <> 1) ->
  MultiVerify G HO pf = Panic.
Proof.
  intros G HO pf n Gt H Gg Hh Hpar Hc. unfold MultiVerify. rewrite Hpar. cbn [bpN bpHh]. unfold goDiv.
  destruct (Z.of_nat (length (mVs pf)) =? 0) eqn:E; [reflexivity|]. cbn [bind].
  destruct Hc as [Hc|(Hn & HlH & Hy)]; [rewrite Hc in E; discriminate|].
  destruct (HashBP G HO (mA pf) (mS pf)) as [y z]. cbn [fst] in Hy. apply modInverse_None in Hy.
  destruct n as [|[|n]]; [lia|lia|]. destruct Hh as [|h0 [|h1 Hh]]; try discriminate.
  unfold updateGenerators. rewrite make_len_nat. cbn [bind]. rewrite Hy. reflexivity.
Qed.

(** For any number of commitments to any integers, in range or not, there is an accepted aggregated proof over the given parameters, with the
    honest generators in its inner-product argument; the number of values need not even divide N. *)
Definition forgeMany (G : Grp) (HO : Oracles) (k : nat) (p : BPParams G) (u : E G) (vs : list (Z * Z)) : res (MultiBulletProof G) :=
  let n := length (bpGg p) in let m := length vs in let b := (n / m)%nat in
  let '(y, z) := HashBP G HO (gId G) (gId G) in
  let hp := fun j => gScale G (nth j (bpHh p) (gId G)) (inverse y (gN G) ^ Z.of_nat j) in
  let l := fun _ : nat => - z in
  let r := fun j : nat => z * y ^ Z.of_nat j + (if (j <? m * b)%nat then 2 ^ Z.of_nat (j mod b) + z ^ (2 + Z.of_nat (j / b)) else 0) in
  let P := gAdd G (gsum (G:=G) n (fun j => gScale G (nth j (bpGg p) (gId G)) (l j))) (gsum (G:=G) n (fun j => gScale G (hp j) (r j))) in
  ipf <- proveInnerProduct G HO k (tab n l) (tab n r) P (Some (zsum n (fun j => l j * r j))) (mkIPParams (bpGg p) (map Some (tab n hp)) u) ;;
  Ok (mkMultiBulletProof (map (fun vg => gAdd G (gBase G (fst vg)) (gScale G (bpH p) (snd vg))) vs) (gId G) (gId G) (gId G) (gId G)
        (Some (zsum m (fun j => snd (nth j vs (0, 0)) * z ^ (2 + Z.of_nat j)))) (Some 0)
        (Some (zsum m (fun j => fst (nth j vs (0, 0)) * z ^ (2 + Z.of_nat j)) + deltaM n m b y z)) ipf p).
Theorem C70_forged : forall G HO k Gt H Gg Hh u (vs : list (Z * Z)),
  GrpLaws G -> ChallengesInvertible G HO ->
  let n := (2 ^ k)%nat in
  length Gg = n -> length Hh = n -> vs <> [] ->
  exists (pf : MultiBulletProof G) hp, forgeMany G HO k (mkBPParams (Z.of_nat n) Gt H Gg Hh) u vs = Ok pf /\
    mParams pf = mkBPParams (Z.of_nat n) Gt H Gg Hh /\
    mVs pf = map (fun vg => gAdd G (gBase G (fst vg)) (gScale G H (snd vg))) vs /\
    updateGenerators G Hh (fst (HashBP G HO (mA pf) (mS pf))) (Z.of_nat n) = Ok hp /\
    ipParams (mIPP pf) = mkIPParams Gg (map Some hp) u /\
    MultiVerify G HO pf = Ok true.
Proof.
  intros G HO k Gt H Gg Hh u vs HL Hinv n HlG HlH Hvs.
  set (F := forgeMany G HO k _ u vs).
  assert (HF : F = forgeMany G HO k (mkBPParams (Z.of_nat n) Gt H Gg Hh) u vs) by reflexivity. clearbody F.
  unfold forgeMany in HF. cbn [bpGg bpHh bpH] in HF. rewrite HlG in HF.
  assert (EG : Gg = tab n (fun j => nth j Gg (gId G))) by (apply (tab_nth' (gId G)); exact HlG).
  assert (EH : Hh = tab n (fun j => nth j Hh (gId G))) by (apply (tab_nth' (gId G)); exact HlH).
  set (g := fun j => nth j Gg (gId G)). set (h := fun j => nth j Hh (gId G)). set (m := length vs).
  assert (Hm : (0 < m)%nat) by (unfold m; destruct vs; [contradiction|cbn; lia]).
  assert (Hn : exists n', n = S n').
  { exists (pred n). unfold n. pose proof (Nat.pow_nonzero 2 k). lia. }
  destruct Hn as [n' Hn'].
  pose proof (Hinv (gId G) (gId G)) as Hy.
  destruct (HashBP G HO (gId G) (gId G)) as [y z] eqn:Hyz. cbn [fst] in Hy.
  destruct (modInverse_ex _ _ (l_order G HL) Hy) as (i & Hi & _). unfold inverse in HF. rewrite Hi in HF.
  set (hp := fun j => gScale G (h j) (i ^ Z.of_nat j)).
  fold g in EG. fold h in EH.
  assert (Hhp : updateGenerators G (tab n h) y (Z.of_nat n) = Ok (tab n hp))
    by (rewrite Hn'; apply (updateGenerators_tab G HL); exact Hi).
  set (b := (n / m)%nat).
  set (l := fun _ : nat => - z).
  set (r := fun j : nat => z * y ^ Z.of_nat j + (if (j <? m * b)%nat then 2 ^ Z.of_nat (j mod b) + z ^ (2 + Z.of_nat (j / b)) else 0)).
  set (P := gAdd G (gsum (G:=G) n (fun j => gScale G (g j) (l j))) (gsum (G:=G) n (fun j => gScale G (hp j) (r j)))).
  destruct (ip_total G HO HL Hinv k k l r g hp u P (zsum n (fun j => l j * r j)) (le_n k)) as [ipf Hipf].
  destruct (ip_honest G HO HL k k l r g hp u P _ ipf Hipf)
    as (c' & xi & res & Hc' & HipP & HipC & HipPar & _ & _ & _ & Hiv & Hres).
  injection Hc' as <-.
  assert (res = true). { apply Hres. unfold ipCom. fold n. rewrite (gsum_add HL). reflexivity. } subst res.
  set (v := fun j => fst (nth j vs (0, 0))). set (gam := fun j => snd (nth j vs (0, 0))).
  set (com := fun vg : Z * Z => gAdd G (gBase G (fst vg)) (gScale G H (snd vg))).
  set (tp := zsum m (fun j => v j * z ^ (2 + Z.of_nat j)) + deltaM n m b y z).
  set (tx := zsum m (fun j => gam j * z ^ (2 + Z.of_nat j))).
  set (pf := mkMultiBulletProof (map com vs) (gId G) (gId G) (gId G) (gId G)
               (Some tx) (Some 0) (Some tp) ipf (mkBPParams (Z.of_nat n) Gt H (tab n g) (tab n h))).
  exists pf, (tab n hp). split.
  { transitivity (q <- proveInnerProduct G HO k (tab n l) (tab n r) P (Some (zsum n (fun j => l j * r j))) (mkIPParams (tab n g) (map Some (tab n hp)) u) ;;
      Ok (mkMultiBulletProof (map com vs) (gId G) (gId G) (gId G) (gId G) (Some tx) (Some 0) (Some tp) q (mkBPParams (Z.of_nat n) Gt H Gg Hh))).
    - rewrite HF, <- EG. reflexivity.
    - fold n in Hipf. rewrite Hipf. cbn [bind]. unfold pf. rewrite <- EG, <- EH. reflexivity. }
  rewrite EG, EH. cbn [pf mParams mVs mA mS mIPP]. rewrite Hyz. cbn [fst]. do 2 (split; [reflexivity|]). split; [exact Hhp|]. split; [exact HipPar|].
  destruct (MultiVerify_eqs G HO HL n m Gt H g h hp pf y z tp tx 0)
    as (b65 & b67 & HV & H65 & H67); try reflexivity; try assumption.
  { apply map_length. }
  change (MultiVerify G HO pf = Ok true). rewrite HV. cbn [pf mIPP]. rewrite Hiv. cbn [bind].
  replace b65 with true; [replace b67 with true; [reflexivity|]|]; symmetry.
  - apply H67. cbn [pf mIPP ipP mA mS mT1 mT2]. rewrite HipP. unfold P, rest67m, l. fold b.
    rewrite (gsum_ext n (fun j => gScale G (hp j) (r j)) (fun j => gAdd G (gScale G (hp j) (z * y ^ Z.of_nat j))
      (gScale G (hp j) (if (j <? m * b)%nat then 2 ^ Z.of_nat (j mod b) + z ^ (2 + Z.of_nat (j / b)) else 0)))) by (intros; unfold r; apply (scale_plus HL)).
    assert (Hb : (m * b <= n)%nat) by (apply Nat.mul_div_le; lia).
    assert (HS : gsum (G:=G) m (fun j => gsum (G:=G) b (fun i0 => gScale G (hp (j * b + i0)%nat) (2 ^ Z.of_nat i0 + z ^ (2 + Z.of_nat j)))) =
      gsum (G:=G) n (fun j => gScale G (hp j) (if (j <? m * b)%nat then 2 ^ Z.of_nat (j mod b) + z ^ (2 + Z.of_nat (j / b)) else 0))).
    { replace n with (m * b + (n - m * b))%nat at 1 by lia. rewrite (gsum_app HL).
      rewrite (gsum_ext (n - m * b) _ (fun _ => gId G)).
      2:{ intros j _. replace (m * b + j <? m * b)%nat with false by (symmetry; apply Nat.ltb_ge; lia). apply (l_scale0 G HL). }
      assert (HZ : forall q, gsum (G:=G) q (fun _ => gId G) = gId G) by (induction q as [|q IHq]; cbn [gsum]; [reflexivity|rewrite IHq; apply (add_0_l HL)]).
      rewrite HZ, (add_0_r HL), (gsum_blocks G HL). apply gsum_ext. intros j Hj. apply gsum_ext. intros i0 Hi0.
      replace (j * b + i0 <? m * b)%nat with true by (symmetry; apply Nat.ltb_lt; nia). destruct (blk_ix b j i0 Hi0) as [-> ->]. reflexivity. }
    rewrite (gsum_add HL), HS.
    glin HL.
  - apply H65. unfold eq65m. cbn [pf mVs mT1 mT2]. fold b.
    rewrite (gsum_ext m _ (fun j => gAdd G (gScale G (gGen G) (v j * z ^ (2 + Z.of_nat j))) (gScale G H (gam j * z ^ (2 + Z.of_nat j))))).
    2:{ intros j Hj. rewrite (nth_indep _ (gId G) (com (0, 0))) by (rewrite map_length; exact Hj). rewrite map_nth. unfold com. fold (v j). fold (gam j). rewrite (base_scale HL). glin HL. }
    rewrite (gsum_add HL), !(gsum_base HL). rewrite !(base_scale HL). unfold tp, tx. glin HL.
Qed.

(** ** Concrete cases: three values far out of range, four generators *)
Example C70_forged_case :
  (pf <- forgeMany toy toyO 2 toyParams (gId toy) [(77, 5); (-3, 8); (50, 0)] ;; MultiVerify toy toyO pf) = Ok true.
Proof. vm_compute. reflexivity. Qed.
(** the hypotheses of C70_equations hold for the honest proof of C15_case, which Verify rejects *)
Definition toyMultiPf : MultiBulletProof toy := match MultiProve toy toyO [1; 3] toyParams (fun j => 40 + Z.of_nat j) toyRnd with Ok (p, _) => p | _ =>
  mkMultiBulletProof [] (gId toy) (gId toy) (gId toy) (gId toy) None None None (mkIPProof (gId toy) None None None [] [] (mkIPParams [] [] (gId toy))) toyParams end.
Example C70_case : length (mVs toyMultiPf) = 2%nat /\ mParams toyMultiPf = toyParams /\ ipVerify toy toyO (mIPP toyMultiPf) = Ok true /\
  (exists yinv, (fst (HashBP toy toyO (mA toyMultiPf) (mS toyMultiPf)) * yinv) mod gN toy = 1) /\ MultiVerify toy toyO toyMultiPf = Ok false.
Proof.
  split; [reflexivity|]. split; [reflexivity|]. split; [vm_compute; reflexivity|]. split; [|vm_compute; reflexivity].
  destruct (modInverse_ex _ _ (l_order toy toy_laws) (toy_challenges (mA toyMultiPf) (mS toyMultiPf))) as (i & _ & _ & Hi). exists i. exact Hi.
Qed.
Example C70_panics_case : MultiVerify toy toyO (mkMultiBulletProof [] (gId toy) (gId toy) (gId toy) (gId toy) (Some 0) (Some 0) (Some 0) (mIPP toyMultiPf) toyParams) = Panic.
Proof. apply (C70_panics _ _ _ 4 (bpG toyParams) (bpH toyParams) (bpGg toyParams) (bpHh toyParams)); [reflexivity|left; reflexivity]. Qed.

Print Assumptions C70_equations.
Print Assumptions C70_panics.
Print Assumptions C70_forged.
