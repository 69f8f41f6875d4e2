(** C74: what MultiBulletProof.Verify prints. *)
From Verif Require Import GoBase Out Json GroupIface Vector BIP BP MultiBP MultiPrint NumTh Alg VectorProofs BIPProofs BPProofs Toy PropBP PropMulti PropMultiVerify.
From Coq Require Import Setoid Morphisms Znumtheory.

(** Printing aside, it is MultiVerify. If it returns, exactly three lines were printed, in this order, and the answer is their conjunction:
    a failed check does not stop the later ones. If it panics, only the first lines were printed, the last one never. *)
Theorem C74_lines : forall G HO (pf : MultiBulletProof G),
  snd (MultiVerifyOut G HO pf) = MultiVerify G HO pf /\
  (forall r, MultiVerify G HO pf = Ok r -> exists a b c, fst (MultiVerifyOut G HO pf) = [Check65 a; Check67 b; Check68 c] /\ r = a && b && c /\
     ipVerify G HO (mIPP pf) = Ok c) /\
  ((forall r, MultiVerify G HO pf <> Ok r) -> fst (MultiVerifyOut G HO pf) = [] \/ (exists a, fst (MultiVerifyOut G HO pf) = [Check65 a]) \/
     (exists a b, fst (MultiVerifyOut G HO pf) = [Check65 a; Check67 b])).
Proof.
  intros G HO pf. destruct (MultiVerifyOut_checks G HO pf) as (H1 & H2 & H3 & H4). rewrite H1 in *. split; [reflexivity|]. split; [|exact H4].
  intros r Hr. destruct (H3 r Hr) as (a & b & c & Hc). exists a, b, c. pose proof (proj1 (H2 a b c) Hc) as Ho. rewrite Ho in *. cbn [fst snd] in *.
  split; [reflexivity|]. split; [congruence|]. clear - Hc. unfold MultiChecks in Hc.
  repeat match type of Hc with
  | bind ?e _ = _ => lazymatch e with ipVerify _ _ _ => fail | _ => destruct e; try discriminate; cbn [bind] in Hc end
  | (let (y, z) := ?e in _) = _ => destruct e
  end.
  destruct (ipVerify G HO (mIPP pf)); try discriminate. injection Hc as _ _ <-. reflexivity.
Qed.

(** What the lines say about a proof with [m] commitments over n generators on each side (the notation of C70_equations). *)
Theorem C74_meaning : forall G HO (pf : MultiBulletProof G) n m Gt H Gg Hh tp tx mu ok,
  GrpLaws G ->
  mParams pf = mkBPParams (Z.of_nat n) Gt H Gg Hh -> (0 < n)%nat -> length Gg = n -> length Hh = n ->
  length (mVs pf) = m -> (0 < m)%nat ->
  mTprime pf = Some tp -> mTaux pf = Some tx -> mMu pf = Some mu ->
  ipVerify G HO (mIPP pf) = Ok ok ->
  let b := (n / m)%nat in
  let x := fst (HashBP G HO (mT1 pf) (mT2 pf)) in
  let y := fst (HashBP G HO (mA pf) (mS pf)) in
  let z := snd (HashBP G HO (mA pf) (mS pf)) in
  let delta := (z - z * z) * zsum n (fun i => y ^ Z.of_nat i) - zsum m (fun j => z ^ (3 + Z.of_nat j)) * zsum b (fun i => 2 ^ Z.of_nat i) in
  forall yinv, (y * yinv) mod gN G = 1 ->
  let g j := nth j Gg (gId G) in
  let hp j := gScale G (nth j Hh (gId G)) (yinv ^ Z.of_nat j) in
  exists c65 c67, MultiVerifyOut G HO pf = ([Check65 c65; Check67 c67; Check68 ok], Ok (c65 && c67 && ok)) /\
  (c65 = true <->
     gAdd G (gBase G tp) (gScale G H tx) =
       gAdd G (gAdd G (gAdd G (gsum (G:=G) m (fun j => gScale G (nth j (mVs pf) (gId G)) (z ^ (2 + Z.of_nat j)))) (gBase G delta)) (gScale G (mT1 pf) x)) (gScale G (mT2 pf) (x * x))) /\
  (c67 = true <->
     gAdd G (gScale G H mu) (ipP (mIPP pf)) =
       gAdd G (gAdd G (mA pf) (gScale G (mS pf) x))
         (gAdd G (gsum (G:=G) n (fun j => gScale G (g j) (- z)))
            (gAdd G (gsum (G:=G) n (fun j => gScale G (hp j) (z * y ^ Z.of_nat j)))
               (gsum (G:=G) m (fun j => gsum (G:=G) b (fun i => gScale G (hp (j * b + i)%nat) (2 ^ Z.of_nat i + z ^ (2 + Z.of_nat j)))))))).
Proof.
  intros G HO pf n m Gt H Gg Hh tp tx mu ok HL Hpar Hn HlG HlH Hm Hm0 Htp Htx Hmu Hok b x y z delta yinv Hyi g hp.
  rewrite (tab_nth' (gId G) Gg n HlG), (tab_nth' (gId G) Hh n HlH) in Hpar. fold g in Hpar.
  pose proof (l_order G HL) as HN.
  destruct (modInverse_ex y (gN G) HN (inv_gcd1 _ _ _ HN Hyi)) as (i & Hi & _ & Hyi').
  assert (Hii : eqm (gN G) i yinv) by (constructor; apply (modInverse_unique y); assumption).
  assert (Hu : updateGenerators G (tab n (fun j => nth j Hh (gId G))) y (Z.of_nat n) = Ok (tab n hp)).
  { destruct n as [|n]; [lia|]. rewrite (updateGenerators_tab G HL _ _ _ i Hi). f_equal. apply tab_ext. intros j _. unfold hp.
    apply (scale_eqm HL). apply eqm_pow. exact Hii. }
  destruct (MultiChecks_eqs G HO HL n m Gt H g (fun j => nth j Hh (gId G)) hp pf y z tp tx mu) as (b65 & b67 & HV & H65 & H67);
    try assumption.
  { unfold y, z. destruct (HashBP G HO (mA pf) (mS pf)); reflexivity. }
  rewrite Hok in HV. cbn [bind] in HV. exists b65, b67. split; [apply MultiVerifyOut_checks; exact HV|].
  rewrite H65, H67. fold x. unfold eq65m, rest67m, deltaM. fold b. tauto.
Qed.

(** On an honest proof of values in range the first and the third check succeed: the answer is that of the second *)
Theorem C74_honest : forall G HO k bits Gt H Gg Hh secrets gam rnd pf gammas,
  GrpLaws G -> (length secrets * bits = 2 ^ k)%nat -> length Gg = (2 ^ k)%nat -> length Hh = (2 ^ k)%nat ->
  (forall s, In s secrets -> 0 <= s < 2 ^ Z.of_nat bits) ->
  MultiProve G HO secrets (mkBPParams (Z.of_nat (2 ^ k)) Gt H Gg Hh) gam rnd = Ok (pf, gammas) ->
  exists c67, MultiVerifyOut G HO pf = ([Check65 true; Check67 c67; Check68 true], Ok c67).
Proof.
  intros G HO k bits Gt H Gg Hh secrets gam rnd pf gammas HL Hmb HlG HlH Hs HP.
  assert (Hm : (0 < length secrets)%nat).
  { destruct (length secrets); [pose proof (Nat.pow_nonzero 2 k); lia|lia]. }
  pose proof HP as HP0. rewrite <- Hmb in HlG, HlH, HP.
  rewrite (tab_nth 0 secrets), (tab_nth' (gId G) Gg _ HlG), (tab_nth' (gId G) Hh _ HlH) in HP. rewrite tab_length in HP.
  destruct (multi_honest G HO HL k (length secrets) bits Gt H _ _ _ gam rnd pf gammas Hmb Hm HP) as (yi & r & _ & Hv & _).
  { intros j Hj. apply Hs. apply nth_In. exact Hj. }
  pose proof (proj1 (proj1 (proj2 (MultiVerifyOut_checks G HO pf)) _ _ _) Hv) as Ho. cbn [andb] in Ho. rewrite andb_true_r in Ho.
  exists r. exact Ho.
Qed.
(** ... and that check is false for all but at most 2^k + 1 residues of the challenge (C15), over a group of prime order *)
Theorem C74_check67_fails : forall G k bits Gt H Gg Hh ys,
  GrpPrime G -> 2 < gN G -> (0 < k)%nat -> length Gg = (2 ^ k)%nat -> length Hh = (2 ^ k)%nat -> last Hh (gId G) <> gId G ->
  NoDup ys ->
  (forall y, In y ys -> 0 <= y < gN G /\ exists HO secrets gam rnd pf gammas,
     (length secrets * bits = 2 ^ k)%nat /\ (forall s, In s secrets -> 0 <= s < 2 ^ Z.of_nat bits) /\
     MultiProve G HO secrets (mkBPParams (Z.of_nat (2 ^ k)) Gt H Gg Hh) gam rnd = Ok (pf, gammas) /\
     fst (HashBP G HO (mA pf) (mS pf)) mod gN G = y /\ In (Check67 true) (fst (MultiVerifyOut G HO pf))) ->
  (length ys <= 2 ^ k + 1)%nat.
Proof.
  intros G k bits Gt H Gg Hh ys HG HN Hk HlG HlH Hlast Hnd Hys. apply (C15_refuted G k bits Gt H Gg Hh ys HG HN Hk HlG HlH Hlast Hnd).
  intros y Hy. destruct (Hys y Hy) as (By & HO & secrets & gam & rnd & pf & gammas & Hmb & Hs & HP & Hyh & Hin). split; [exact By|].
  exists HO, secrets, gam, rnd, pf, gammas. repeat (split; [assumption|]).
  destruct (C74_honest G HO k bits Gt H Gg Hh secrets gam rnd pf gammas (lp_laws G HG) Hmb HlG HlH Hs HP) as (c67 & Ho).
  rewrite <- (proj1 (MultiVerifyOut_checks G HO pf)). rewrite Ho in Hin |- *. cbn [fst snd In] in *.
  destruct Hin as [Hin|[Hin|[Hin|[]]]]; try discriminate. injection Hin as ->. reflexivity.
Qed.

(** ** Concrete cases *)
(** two 2-bit values honestly proved: the second check fails, the third is still made; without mu nothing is printed after the first *)
Example C74_case : MultiVerifyOut toy toyO toyMultiPf = ([Check65 true; Check67 false; Check68 true], Ok false) /\
  MultiVerifyOut toy toyO (mkMultiBulletProof (mVs toyMultiPf) (mA toyMultiPf) (mS toyMultiPf) (mT1 toyMultiPf) (mT2 toyMultiPf) (mTaux toyMultiPf) None
    (mTprime toyMultiPf) (mIPP toyMultiPf) toyParams) = ([Check65 true], Panic) /\
  MultiVerifyOut toy toyO (mkMultiBulletProof [] (gId toy) (gId toy) (gId toy) (gId toy) None None None (mIPP toyMultiPf) toyParams) = ([], Panic).
Proof. vm_compute. auto. Qed.

Print Assumptions C74_lines.
Print Assumptions C74_meaning.
Print Assumptions C74_honest.
Print Assumptions C74_check67_fails.
