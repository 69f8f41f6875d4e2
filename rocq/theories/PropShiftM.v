(** C87, continued: aggregated range proofs, and the comparison that would stop the shift. *)
From Verif Require Import GoBase Json GroupIface Vector BIP BP MultiBP VoteProof ModP App NumTh Alg VectorProofs BPProofs Toy PropBP PropModP PropApp PropMultiVerify PropShift.
From Coq Require Import Znumtheory.

(** ** Specification: adding ks to the values of an aggregated proof *)
Definition addEach {G : Grp} (Vs : list (E G)) (ks : list Z) : list (E G) := map (fun vk => gAdd G (fst vk) (gBase G (snd vk))) (combine Vs ks).
(** z^(2+i) k_0 + z^(3+i) k_1 + ... *)
Fixpoint zSum (z : Z) (i : nat) (ks : list Z) : Z := match ks with [] => 0 | k :: t => z * z * z ^ Z.of_nat i * k + zSum z (S i) t end.
Definition shiftMulti {G : Grp} (HO : Oracles) (ks : list Z) (pf : MultiBulletProof G) : MultiBulletProof G :=
  let z := snd (HashBP G HO (mA pf) (mS pf)) in
  mkMultiBulletProof (addEach (mVs pf) ks) (mA pf) (mS pf) (mT1 pf) (mT2 pf) (mTaux pf) (mMu pf)
    (option_map (fun t => (t + zSum z 0 ks) mod gN G) (mTprime pf)) (mIPP pf) (mParams pf).

Lemma fold_shift : forall G, GrpLaws G -> forall z ks Vs i acc acc' e, length ks = length Vs -> acc' = gAdd G acc (gScale G (gGen G) e) ->
  let f := fun r (vp : E G * Z) => gAdd G r (gScale G (fst vp) ((z * z) mod gN G * snd vp)) in
  let ps := tab (length Vs) (fun j => z ^ Z.of_nat (i + j) mod gN G) in
  fold_left f (combine (addEach Vs ks) ps) acc' = gAdd G (fold_left f (combine Vs ps) acc) (gScale G (gGen G) (e + zSum z i ks)).
Proof.
  intros G L z. induction ks as [|k ks IH]; intros [|V Vs] i acc acc' e Hl Ha; cbv zeta; try discriminate Hl.
  - cbn [addEach combine map fold_left length tab zSum]. rewrite Z.add_0_r. exact Ha.
  - cbn [length]. rewrite tab_S. unfold addEach. cbn [combine map fold_left fst snd]. fold (@addEach G Vs ks).
    injection Hl as Hl. rewrite (tab_ext (length Vs) (fun j => z ^ Z.of_nat (i + S j) mod gN G) (fun j => z ^ Z.of_nat (S i + j) mod gN G))
      by (intros; do 3 f_equal; lia).
    cbn [zSum]. rewrite Nat.add_0_r. replace (e + (z * z * z ^ Z.of_nat i * k + zSum z (S i) ks)) with ((e + z * z * z ^ Z.of_nat i * k) + zSum z (S i) ks) by ring.
    apply (IH Vs (S i)); [exact Hl|]. rewrite Ha, (l_base G L). glin L. all: try (modn; apply eqm_of_eq; ring).
Qed.
(** The aggregated verifier's answer stays the same for every proof and every list of numbers to add, one per commitment. *)
Theorem C87_aggregated : forall G HO ks (pf : MultiBulletProof G), GrpLaws G -> length ks = length (mVs pf) ->
  MultiVerify G HO (shiftMulti HO ks pf) = MultiVerify G HO pf.
Proof.
  intros G HO ks pf L Hl. unfold MultiVerify, shiftMulti. cbn [mVs mA mS mT1 mT2 mTaux mMu mTprime mIPP mParams].
  assert (HL : length (addEach (mVs pf) ks) = length (mVs pf)) by (unfold addEach; rewrite map_length, combine_length; lia). rewrite HL.
  destruct (goDiv _ _) as [bits| | |]; cbn [bind]; [|reflexivity|reflexivity|reflexivity]. cbv zeta.
  destruct (HashBP G HO (mA pf) (mS pf)) as [y z] eqn:EH. cbn [snd].
  destruct (updateGenerators _ _ _ _) as [hp| | |]; cbn [bind]; [|reflexivity|reflexivity|reflexivity].
  destruct (mTprime pf) as [tp|]; [|reflexivity]. cbn [option_map deref bind].
  destruct (mTaux pf) as [tx|]; [|reflexivity]. cbn [deref bind]. rewrite (powerOf_tab G L). cbn [bind].
  destruct (deltaMul _ _ _ _ _) as [dl| | |]; cbn [bind]; [|reflexivity|reflexivity|reflexivity].
  pose proof (fold_shift G L z ks (mVs pf) 0 (gId G) (gId G) 0 Hl) as HF. cbv zeta in HF. cbn [Nat.add] in HF. rewrite HF by glin L.
  match goal with |- context [gAdd G ?r (gScale G (gGen G) (0 + zSum z 0 ks))] => set (W := r) end.
  assert (HE : forall a b, gEq G (gAdd G (gAdd G (gAdd G (gAdd G W (gScale G (gGen G) (0 + zSum z 0 ks))) (gBase G dl)) a) b)
      (PedersenCommit G ((tp + zSum z 0 ks) mod gN G) tx (bpH (mParams pf))) =
    gEq G (gAdd G (gAdd G (gAdd G W (gBase G dl)) a) b) (PedersenCommit G tp tx (bpH (mParams pf)))).
  { intros a b. unfold PedersenCommit. apply (eq_plus G L _ _ _ _ (gScale G (gGen G) (zSum z 0 ks))); rewrite !(l_base G L); glin L.
    all: try (modn; apply eqm_of_eq; ring). }
  rewrite HE. reflexivity.
Qed.

(** What would stop the shift: a verifier that also compared t' with the value c of the inner-product argument, as the protocol asks for. The two
    numbers of the moved proof differ, unless z^2 k is a multiple of the order. *)
Theorem C87_comparison_helps : forall GE HO k (pf : BulletProof GE) t, 0 < gN GE -> ipCc (pIPP pf) = Some t -> pTprime pf = Some t ->
  let z := snd (HashBP GE HO (pA pf) (pS pf)) in ~ (gN GE | z * z * k) ->
  ipCc (pIPP (shiftRange HO k pf)) <> pTprime (shiftRange HO k pf).
Proof.
  intros GE HO k pf t HN Hc Ht z Hn H. change (ipCc (pIPP pf) = option_map (fun t => (t + z * z * k) mod gN GE) (pTprime pf)) in H. clearbody z.
  rewrite Hc, Ht in H. cbn [option_map] in H. assert (H1 : t = (t + z * z * k) mod gN GE) by congruence.
  apply Hn. exists ((t + z * z * k) / gN GE). pose proof (Z.div_mod (t + z * z * k) (gN GE) ltac:(lia)). lia.
Qed.

(** ** Concrete cases *)
(** the forged aggregated proof for 77, -3 and 50 of C70_forged_case moved by 1, 0 and -7: accepted; the honest one, rejected, stays rejected *)
Example C87_aggregated_case :
  (pf <- forgeMany toy toyO 2 toyParams (gId toy) [(77, 5); (-3, 8); (50, 0)] ;; MultiVerify toy toyO (shiftMulti toyO [1; 0; -7] pf)) = Ok true /\
  MultiVerify toy toyO (shiftMulti toyO [4; 9] toyMultiPf) = Ok false.
Proof. split; vm_compute; reflexivity. Qed.
(** the lower range proof of the ballot of C25_run: the two numbers agree, and no longer do after the shift by 1 *)
Example C87_comparison_case : (b <- castVote (ModPGrp dToy) toy aHO aPP aCR ;;
  let pf := bdLower b in let pf' := shiftRange (GE:=toy) aHO 1 pf in Ok (ipCc (pIPP pf), pTprime pf, ipCc (pIPP pf'), pTprime pf')) = Ok (Some 44, Some 44, Some 44, Some 49).
Proof. vm_compute. reflexivity. Qed.

Print Assumptions C87_aggregated.
Print Assumptions C87_comparison_helps.
