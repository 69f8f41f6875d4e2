(** C17-C23, C45, C46, C50: the vote-correctness sigma protocol (voteproof). *)
From Verif Require Import GoBase Json GroupIface Vector VoteProof NumTh Alg Toy.
From Coq Require Import Znumtheory.

(** ** Vocabulary of the statements *)
(** SHA-256 returns 32 bytes. *)
Definition Digest32 (HO : Oracles) : Prop :=
  forall b, length (sha256 HO b) = 32%nat /\ Forall is_byte (sha256 HO b).

(** [pr] was returned by voteproof.Setup on machine-sized arguments, for groups whose recorded orders are the real ones. *)
Definition SetupParams {GF GE : Grp} (pr : ProofParams GF GE) : Prop :=
  exists lenSecret lenChallenge groupOrderLog lo hi,
    0 <= lenSecret < 2 ^ 8 /\ 0 <= lenChallenge < 2 ^ 16 /\ 0 <= groupOrderLog < 2 ^ 16 /\
    vpSetup GF GE lenSecret lenChallenge groupOrderLog lo hi (vGFF pr) (vGEC pr) = Ok pr /\
    gpN (vGFF pr) = Some (gN GF) /\ gpN (vGEC pr) = Some (gN GE).

(** ElGamal ciphertext (U,V) of x under public key H with randomness r, exponents lifted to the generator *)
Definition Encrypts (G : Grp) (H U V : E G) (x r : Z) : Prop :=
  U = gScale G (gGen G) r /\ V = gAdd G (gScale G (gGen G) x) (gScale G H r).
(** Pedersen opening *)
Definition Opens (G : Grp) (H C : E G) (x r : Z) : Prop :=
  C = gAdd G (gScale G (gGen G) x) (gScale G H r).
(** The coefficients [ab] of a non-trivial relation between two elements. In a group of prime order such coefficients always
    exist; whoever can name them knows the discrete logarithm. So the theorems below never say that some exist: they say that
    coefficients given by a formula in the proofs and openings at hand are such. *)
Definition Relation2 (G : Grp) (X Y : E G) (ab : Z * Z) : Prop :=
  (fst ab mod gN G <> 0 \/ snd ab mod gN G <> 0) /\ gAdd G (gScale G X (fst ab)) (gScale G Y (snd ab)) = gId G.
(** difference of two integers stored in proofs *)
Definition gap (o1 o2 : option Z) : Z := match o1, o2 with Some a, Some b => a - b | _, _ => 0 end.
(** what two transcripts and an opening (x, r) of the first (the second) curve commitment give *)
Definition relLow {GF GE : Grp} (pf1 pf2 : SigmaProof GF GE) (x r : Z) : Z * Z :=
  (gap (sZ pf1) (sZ pf2) - gap (sChal pf1) (sChal pf2) * x, gap (sSq1 pf1) (sSq1 pf2) - gap (sChal pf1) (sChal pf2) * r).
Definition relHigh {GF GE : Grp} (pf1 pf2 : SigmaProof GF GE) (x r : Z) : Z * Z :=
  (gap (sZ pf1) (sZ pf2) - gap (sChal pf1) (sChal pf2) * x, gap (sSq2 pf1) (sSq2 pf2) - gap (sChal pf1) (sChal pf2) * r).
(** the encryption randomness the two transcripts give: the response difference over the challenge difference *)
Definition Extracted {GF GE : Grp} (pf1 pf2 : SigmaProof GF GE) (rp : Z) : Prop :=
  (rp * gap (sChal pf1) (sChal pf2)) mod gN GF = gap (sSp pf1) (sSp pf2) mod gN GF.

Definition TrueStatement {GF GE : Grp} (pr : ProofParams GF GE) (comm : VerCommitments GF GE) (x rp rq1 rq2 : Z) : Prop :=
  Encrypts GF (gpH (vGFF pr)) (cY comm) (cXp comm) x rp /\
  Opens GE (gpH (vGEC pr)) (cXq1 comm) x rq1 /\ Opens GE (gpH (vGEC pr)) (cXq2 comm) x rq2.

(** The draws of one iteration lie in the ranges passed to rand.Int. *)
Definition DrawOk {GF GE : Grp} (pr : ProofParams GF GE) (dr : Draw) : Prop :=
  0 <= dk dr < 2 ^ (vBg pr - 1) /\ 0 <= dtp dr < gN GF /\ 0 <= dtq1 dr < gN GE /\ 0 <= dtq2 dr < gN GE.

(** ** C17 *)
Theorem C17_setup : forall GF GE Bx Bc Bg lo hi (gff : GroupParams GF) (gec : GroupParams GE),
  0 <= Bx < 2 ^ 8 -> 0 <= Bc < 2 ^ 16 -> 0 <= Bg < 2 ^ 16 ->
  (Bg <= 1 + Bx + Bc -> vpSetup GF GE Bx Bc Bg lo hi gff gec = Err) /\
  (1 + Bx + Bc < Bg -> exists pr, vpSetup GF GE Bx Bc Bg lo hi gff gec = Ok pr /\
     pr = mkProofParams Bx Bc Bg (Bg - 1 - Bx - Bc) lo hi gff gec /\ 1 <= vBb pr /\
     zLowerBound GF GE pr = 2 ^ (Bx + Bc) /\ zUpperBound GF GE pr = 2 ^ (Bg - 1)).
Proof.
  intros GF GE Bx Bc Bg lo hi gff gec Hx Hc Hg. unfold vpSetup. cbv zeta. split; intros H.
  - replace (Bg - 1 - Bx - Bc <? 1) with true by (symmetry; apply Z.ltb_lt; lia). reflexivity.
  - replace (Bg - 1 - Bx - Bc <? 1) with false by (symmetry; apply Z.ltb_ge; lia).
    eexists. split; [reflexivity|]. split; [reflexivity|]. cbn [vBb]. split; [lia|].
    unfold zLowerBound, zUpperBound. cbn [vBx vBc vBb]. unfold wrap16. rewrite Z.mod_small by lia.
    unfold bigExp2. split.
    + destruct (Bx + Bc <=? 0) eqn:E; [|reflexivity]. apply Z.leb_le in E. replace (Bx + Bc) with 0 by lia. reflexivity.
    + replace (Bx + Bc + (Bg - 1 - Bx - Bc)) with (Bg - 1) by lia.
      replace (Bg - 1 <=? 0) with false by (symmetry; apply Z.leb_gt; lia). reflexivity.
Qed.

(** ** Facts about accepted parameters *)
Section Facts.
Context {GF GE : Grp} {HO : Oracles}.
Notation PP := (ProofParams GF GE).

Lemma setup_facts : forall pr : PP, SetupParams pr ->
  0 <= vBx pr < 2 ^ 8 /\ 0 <= vBc pr < 2 ^ 16 /\ vBx pr + vBc pr + 1 < vBg pr < 2 ^ 16 /\
  zLowerBound GF GE pr = 2 ^ (vBx pr + vBc pr) /\ zUpperBound GF GE pr = 2 ^ (vBg pr - 1) /\
  gpN (vGFF pr) = Some (gN GF) /\ gpN (vGEC pr) = Some (gN GE) /\ vBb pr = vBg pr - 1 - vBx pr - vBc pr.
Proof.
  intros pr (Bx & Bc & Bg & lo & hi & Hx & Hc & Hg & HS & HF & HE).
  destruct (C17_setup GF GE Bx Bc Bg lo hi (vGFF pr) (vGEC pr) Hx Hc Hg) as [H1 H2].
  destruct (Z.le_gt_cases Bg (1 + Bx + Bc)) as [Hle|Hgt].
  - rewrite (H1 Hle) in HS. discriminate.
  - destruct (H2 ltac:(lia)) as (pr' & HS' & Hpr' & Hb & Hlo & Hup). rewrite HS in HS'. injection HS' as Hpp.
    rewrite <- Hpp in Hlo, Hup, Hpr'. rewrite Hlo, Hup. rewrite Hpr'. cbn [vBx vBc vBg vBb vGFF vGEC].
    repeat split; try lia; rewrite Hpr' in HF, HE; cbn in HF, HE; assumption.
Qed.

Lemma os2ip_acc : forall l acc, fold_left (fun a b => a * 256 + b) l acc = acc * 256 ^ Z.of_nat (length l) + os2ip l.
Proof.
  induction l as [|x t IH]; intros acc; cbn [fold_left length].
  - unfold os2ip. cbn. lia.
  - rewrite IH. unfold os2ip. cbn [fold_left]. rewrite (IH (0 * 256 + x)).
    rewrite Nat2Z.inj_succ, Z.pow_succ_r by lia. fold (os2ip t). ring.
Qed.
Lemma os2ip_cons : forall x t, os2ip (x :: t) = x * 256 ^ Z.of_nat (length t) + os2ip t.
Proof. intros. unfold os2ip at 1. cbn [fold_left]. rewrite os2ip_acc. lia. Qed.
Lemma os2ip_bound : forall l, Forall is_byte l -> 0 <= os2ip l < 256 ^ Z.of_nat (length l).
Proof.
  induction l as [|x t IH]; intros H.
  - unfold os2ip; cbn; lia.
  - inversion H as [|? ? Hx Ht]; subst. specialize (IH Ht). rewrite os2ip_cons. cbn [length].
    rewrite Nat2Z.inj_succ, Z.pow_succ_r by lia. unfold is_byte in Hx. nia.
Qed.

Lemma fs_ok : Digest32 HO -> forall w Kp Kq1 Kq2 Bc, 0 <= Bc <= 263 ->
  exists c, getFSChallenge GF GE HO w Kp Kq1 Kq2 Bc = Ok c /\ 0 <= c < 2 ^ Bc.
Proof.
  intros HD w Kp Kq1 Kq2 Bc HB. unfold getFSChallenge, slice_to.
  destruct (HD (fsInput GF GE w Kp Kq1 Kq2)) as [Hl Hf].
  assert (Hd : 0 <= Bc / 8 <= 32).
  { split; [apply Z.div_pos; lia|]. apply Z.lt_succ_r. apply Z.div_lt_upper_bound; lia. }
  replace (Nat.leb (Z.to_nat (Bc / 8)) (length (sha256 HO (fsInput GF GE w Kp Kq1 Kq2)))) with true
    by (symmetry; apply Nat.leb_le; rewrite Hl; lia).
  cbn [bind]. eexists. split; [reflexivity|].
  match goal with |- 0 <= os2ip ?l < _ => set (ll := l) end.
  assert (Hll : Forall is_byte ll).
  { unfold ll. clear -Hf. revert Hf. generalize (sha256 HO (fsInput GF GE w Kp Kq1 Kq2)) as l. generalize (Z.to_nat (Bc / 8)) as n.
    induction n; intros l Hl; [constructor|]. destruct l; [constructor|]. inversion Hl; subst. constructor; auto. }
  pose proof (os2ip_bound _ Hll) as Hb.
  assert (Hlen : length ll = Z.to_nat (Bc / 8)) by (unfold ll; rewrite firstn_length; lia).
  rewrite Hlen, Z2Nat.id in Hb by lia. split; [lia|]. apply (Z.lt_le_trans _ _ _ (proj2 Hb)).
  change 256 with (2 ^ 8). rewrite <- Z.pow_mul_r by lia. apply Z.pow_le_mono_r; [lia|].
  apply Z.mul_div_le. lia.
Qed.
Lemma fs_bound : Digest32 HO -> forall w Kp Kq1 Kq2 Bc c, 0 <= Bc ->
  getFSChallenge GF GE HO w Kp Kq1 Kq2 Bc = Ok c -> 0 <= c < 2 ^ Bc.
Proof.
  intros HD w Kp Kq1 Kq2 Bc c HB H. destruct (Z.le_gt_cases Bc 263) as [Hle|Hgt].
  - destruct (fs_ok HD w Kp Kq1 Kq2 Bc ltac:(lia)) as (c' & Hc' & Hb). rewrite H in Hc'. injection Hc' as ->. exact Hb.
  - exfalso. unfold getFSChallenge, slice_to in H. destruct (HD (fsInput GF GE w Kp Kq1 Kq2)) as [Hl _].
    replace (Nat.leb _ _) with false in H; [discriminate|]. symmetry. apply Nat.leb_gt. rewrite Hl.
    assert (33 <= Bc / 8) by (apply Z.div_le_lower_bound; lia). lia.
Qed.

(** The group equations checked by SigmaProof.Verify *)
Definition SigmaEqs (pr : PP) (comm : VerCommitments GF GE) (pf : SigmaProof GF GE) (c z sp sq1 sq2 : Z) : Prop :=
  gBase GF sp = gAdd GF (gScale GF (cY comm) c) (sW pf) /\
  gAdd GF (gBase GF z) (gScale GF (gpH (vGFF pr)) sp) = gAdd GF (gScale GF (cXp comm) c) (sKp pf) /\
  gAdd GE (gBase GE z) (gScale GE (gpH (vGEC pr)) sq1) = gAdd GE (gScale GE (cXq1 comm) c) (sKq1 pf) /\
  gAdd GE (gBase GE z) (gScale GE (gpH (vGEC pr)) sq2) = gAdd GE (gScale GE (cXq2 comm) c) (sKq2 pf).

Lemma vpVerify_iff : GrpLaws GF -> GrpLaws GE -> forall pf comm,
  vpVerify GF GE HO pf comm = Ok true <->
  exists c z sp sq1 sq2, sChal pf = Some c /\ sZ pf = Some z /\ sSp pf = Some sp /\ sSq1 pf = Some sq1 /\ sSq2 pf = Some sq2 /\
    zLowerBound GF GE (sParams pf) <= z < zUpperBound GF GE (sParams pf) /\
    getFSChallenge GF GE HO (sW pf) (sKp pf) (sKq1 pf) (sKq2 pf) (vBc (sParams pf)) = Ok c /\
    SigmaEqs (sParams pf) comm pf c z sp sq1 sq2.
Proof.
  intros LF LE pf comm. unfold vpVerify, SigmaEqs, sigmaPedersenCheck, vpCommit. cbv zeta.
  split.
  - intros H.
    destruct (sZ pf) as [z|]; cbn [deref bind] in H; [|discriminate].
    destruct ((z <? _) || _) eqn:Er; [discriminate|]. apply orb_false_elim in Er. destruct Er as [E1 E2].
    apply Z.ltb_ge in E1. apply Z.leb_gt in E2.
    destruct (getFSChallenge _ _ _ _ _ _ _ _) as [c0| | |] eqn:Ef; cbn [bind] in H; try discriminate.
    destruct (sChal pf) as [c|]; cbn [deref bind] in H; [|discriminate].
    destruct (c0 =? c) eqn:Ec; cbn [negb] in H; [|discriminate]. apply Z.eqb_eq in Ec. subst c0.
    destruct (sSp pf) as [sp|]; cbn [deref bind] in H; [|discriminate].
    destruct (gEq GF (gBase GF sp) _) eqn:G1; cbn [negb] in H; [|discriminate].
    destruct (gEq GF (gAdd _ _ _) _) eqn:G2; cbn [negb] in H; [|discriminate].
    destruct (sSq1 pf) as [sq1|]; cbn [deref bind] in H; [|discriminate].
    destruct (gEq GE _ _) eqn:G3; cbn [negb] in H; [|discriminate].
    destruct (sSq2 pf) as [sq2|]; cbn [deref bind] in H; [|discriminate].
    destruct (gEq GE (gAdd _ (gBase _ _) (gScale _ _ sq2)) _) eqn:G4; cbn [negb] in H; [|discriminate].
    exists c, z, sp, sq1, sq2.
    apply (l_eq GF LF) in G1, G2. apply (l_eq GE LE) in G3, G4. repeat split; assumption.
  - intros (c & z & sp & sq1 & sq2 & -> & -> & -> & -> & -> & Hr & Hf & H1 & H2 & H3 & H4).
    cbn [deref bind]. replace (z <? _) with false by (symmetry; apply Z.ltb_ge; lia).
    replace (_ <=? z) with false by (symmetry; apply Z.leb_gt; lia). cbn [orb]. rewrite Hf. cbn [bind].
    rewrite Z.eqb_refl. cbn [negb].
    apply (l_eq GF LF) in H1, H2. apply (l_eq GE LE) in H3, H4. rewrite H1, H2, H3, H4. reflexivity.
Qed.

(** One iteration, spelled out *)
Lemma vpIter_iff : forall (pr : PP) x rp rq1 rq2 dr pf,
  gpN (vGFF pr) = Some (gN GF) -> gpN (vGEC pr) = Some (gN GE) ->
  let w := gBase GF (dtp dr) in
  let Kp := vpCommit GF (dk dr mod gN GF) (dtp dr) (vGFF pr) in
  let Kq1 := vpCommit GE (dk dr mod gN GF) (dtq1 dr) (vGEC pr) in
  let Kq2 := vpCommit GE (dk dr mod gN GF) (dtq2 dr) (vGEC pr) in
  vpIter GF GE HO x rp rq1 rq2 pr dr = Ok (Some pf) <->
  (0 < gN GF /\ 0 < gN GE) /\
  exists c, getFSChallenge GF GE HO w Kp Kq1 Kq2 (vBc pr) = Ok c /\
    zLowerBound GF GE pr <= dk dr + c * x < zUpperBound GF GE pr /\
    pf = mkSigmaProof w Kp Kq1 Kq2 (Some c) (Some (dk dr + c * x)) (Some ((dtp dr + c * rp) mod gN GF))
           (Some ((dtq1 dr + c * rq1) mod gN GE)) (Some ((dtq2 dr + c * rq2) mod gN GE)) pr.
Proof.
  intros pr x rp rq1 rq2 dr pf HF HE w Kp Kq1 Kq2. unfold vpIter, posN. rewrite HF, HE. cbn [deref bind]. cbv zeta.
  destruct (Z.leb_spec (gN GF) 0); [split; [discriminate|intros [[? ?] _]; lia]|].
  destruct (Z.leb_spec (gN GE) 0); [split; [discriminate|intros [[? ?] _]; lia]|]. cbn [bind].
  fold w Kp Kq1 Kq2. destruct (getFSChallenge _ _ _ _ _ _ _ _) as [c| | |] eqn:Ef; cbn [bind].
  - destruct ((dk dr + c * x <? _) || _) eqn:Er.
    + split; [discriminate|]. intros (_ & c' & Hc & Hr & _). injection Hc as <-. apply orb_prop in Er.
      rewrite Z.ltb_lt, Z.leb_le in Er. lia.
    + apply orb_false_elim in Er. rewrite Z.ltb_ge, Z.leb_gt in Er. split.
      * intros Hv. injection Hv as <-. split; [split; assumption|]. exists c. split; [reflexivity|]. split; [lia|reflexivity].
      * intros (_ & c' & Hc & Hr & ->). injection Hc as <-. reflexivity.
  - split; [discriminate|]. intros (_ & c' & Hc & _). discriminate.
  - split; [discriminate|]. intros (_ & c' & Hc & _). discriminate.
  - split; [discriminate|]. intros (_ & c' & Hc & _). discriminate.
Qed.

(** Prove returns the first non-aborted iteration *)
Lemma vpProve_iter : forall (pr : PP) x rp rq1 rq2 drs pf,
  vpProve GF GE HO x rp rq1 rq2 pr drs = Ok pf -> exists dr, In dr drs /\ vpIter GF GE HO x rp rq1 rq2 pr dr = Ok (Some pf).
Proof.
  induction drs as [|dr t IH]; cbn [vpProve]; intros pf H; [discriminate|].
  destruct (vpIter GF GE HO x rp rq1 rq2 pr dr) as [[o|]| | |] eqn:Ei; cbn [bind] in H; try discriminate.
  - injection H as <-. exists dr. split; [left; reflexivity|assumption].
  - destruct (IH pf H) as (dr' & Hin & Hd). exists dr'. split; [right|]; assumption.
Qed.

(** Answer of Verify on an honest iteration: everything holds except, possibly, the curve equations *)
Lemma iter_verify : GrpLaws GF -> GrpLaws GE -> forall (pr : PP) x rp rq1 rq2 dr pf comm,
  gpN (vGFF pr) = Some (gN GF) -> gpN (vGEC pr) = Some (gN GE) -> TrueStatement pr comm x rp rq1 rq2 ->
  vpIter GF GE HO x rp rq1 rq2 pr dr = Ok (Some pf) ->
  exists r, vpVerify GF GE HO pf comm = Ok r /\
    (r = true <-> gScale GE (gGen GE) (dk dr) = gScale GE (gGen GE) (dk dr mod gN GF)).
Proof.
  intros LF LE pr x rp rq1 rq2 dr pf comm HF HE ((HY & HXp) & HXq1 & HXq2) HI.
  apply vpIter_iff in HI; [|assumption|assumption]. destruct HI as (_ & c & Hc & Hr & ->).
  unfold vpVerify, sigmaPedersenCheck. cbn [sParams sZ sW sKp sKq1 sKq2 sChal sSp sSq1 sSq2 deref bind].
  replace (_ <? _) with false by (symmetry; apply Z.ltb_ge; lia).
  replace (_ <=? _) with false by (symmetry; apply Z.leb_gt; lia). cbn [orb]. rewrite Hc. cbn [bind].
  rewrite Z.eqb_refl. cbn [negb]. unfold vpCommit.
  replace (gEq GF (gBase GF ((dtp dr + c * rp) mod gN GF)) _) with true.
  2:{ symmetry. apply (l_eq GF LF). rewrite HY. glin LF. modn. apply eqm_of_eq; ring. }
  cbn [negb].
  replace (gEq GF (gAdd GF (gBase GF _) (gScale GF _ _)) _) with true.
  2:{ symmetry. apply (l_eq GF LF). rewrite HXp. glin LF; modn; apply eqm_of_eq; ring. }
  cbn [negb].
  assert (Hq : forall Xq rq t, Opens GE (gpH (vGEC pr)) Xq x rq ->
    (gAdd GE (gBase GE (dk dr + c * x)) (gScale GE (gpH (vGEC pr)) ((t + c * rq) mod gN GE)) =
     gAdd GE (gScale GE Xq c) (gAdd GE (gBase GE (dk dr mod gN GF)) (gScale GE (gpH (vGEC pr)) t)) <->
     gScale GE (gGen GE) (dk dr) = gScale GE (gGen GE) (dk dr mod gN GF))).
  { intros Xq rq t ->.
    set (R := gAdd GE (gScale GE (gGen GE) (c * x)) (gScale GE (gpH (vGEC pr)) (t + c * rq))).
    replace (gAdd GE (gBase GE (dk dr + c * x)) _) with (gAdd GE (gScale GE (gGen GE) (dk dr)) R)
      by (unfold R; glin LE; modn; apply eqm_of_eq; ring).
    replace (gAdd GE (gScale GE _ c) _) with (gAdd GE (gScale GE (gGen GE) (dk dr mod gN GF)) R)
      by (unfold R; glin LE; apply eqm_of_eq; ring).
    split; [apply (add_cancel_r LE)|]. intros ->. reflexivity. }
  destruct (gEq GE (gAdd GE (gBase GE _) (gScale GE _ ((dtq1 dr + c * rq1) mod gN GE))) _) eqn:E1; cbn [negb].
  - apply (l_eq GE LE) in E1. apply Hq in E1; [|assumption].
    destruct (gEq GE (gAdd GE (gBase GE _) (gScale GE _ ((dtq2 dr + c * rq2) mod gN GE))) _) eqn:E2; cbn [negb].
    + eexists. split; [reflexivity|]. split; [intros _; assumption|reflexivity].
    + exfalso. rewrite <- Bool.not_true_iff_false in E2. apply E2. apply (l_eq GE LE). apply Hq; assumption.
  - eexists. split; [reflexivity|]. split; [discriminate|]. intros Hd. exfalso.
    rewrite <- Bool.not_true_iff_false in E1. apply E1. apply (l_eq GE LE). apply Hq; assumption.
Qed.

Lemma iter_returns : Digest32 HO -> 0 < gN GF -> 0 < gN GE -> forall (pr : PP) x rp rq1 rq2 dr, SetupParams pr -> vBc pr <= 263 ->
  0 <= x < 2 ^ vBx pr -> 2 ^ (vBx pr + vBc pr) <= dk dr <= 2 ^ (vBg pr - 1) - 2 ^ (vBx pr + vBc pr) ->
  exists pf, vpIter GF GE HO x rp rq1 rq2 pr dr = Ok (Some pf).
Proof.
  intros HD PF PE pr x rp rq1 rq2 dr HS HB Hx Hk.
  destruct (setup_facts pr HS) as (HBx & HBc & HBg & Hlo & Hup & HF & HE & _).
  destruct (fs_ok HD (gBase GF (dtp dr)) (vpCommit GF (dk dr mod gN GF) (dtp dr) (vGFF pr))
    (vpCommit GE (dk dr mod gN GF) (dtq1 dr) (vGEC pr)) (vpCommit GE (dk dr mod gN GF) (dtq2 dr) (vGEC pr)) (vBc pr) ltac:(lia))
    as (c & Hc & Hcb).
  eexists. apply vpIter_iff; [assumption|assumption|]. split; [split; lia|]. exists c. split; [exact Hc|]. split; [|reflexivity].
  rewrite Hlo, Hup. rewrite Z.pow_add_r in * by lia. nia.
Qed.
End Facts.

(** ** C18 *)
Theorem C18_completeness : forall GF GE HO pr x rp rq1 rq2 drs pf comm,
  GrpLaws GF -> GrpLaws GE -> SetupParams pr -> 2 ^ (vBg pr - 1) <= gN GF ->
  (forall dr, In dr drs -> DrawOk pr dr) ->
  TrueStatement pr comm x rp rq1 rq2 ->
  vpProve GF GE HO x rp rq1 rq2 pr drs = Ok pf ->
  vpVerify GF GE HO pf comm = Ok true.
Proof.
  intros GF GE HO pr x rp rq1 rq2 drs pf comm LF LE HS HN Hd HT HP.
  destruct (setup_facts pr HS) as (HBx & HBc & HBg & Hlo & Hup & HF & HE & _).
  apply vpProve_iter in HP. destruct HP as (dr & Hin & HI). destruct (Hd dr Hin) as (Hk & _).
  destruct (iter_verify LF LE pr x rp rq1 rq2 dr pf comm HF HE HT HI) as (r & Hr & Hi).
  rewrite Hr. f_equal. apply Hi. rewrite Z.mod_small by lia. reflexivity.
Qed.

(** ** C19: the condition on the ElGamal order is needed. For a small ElGamal group whose order N has
    2^(Bx+Bc) <= N <= 2^(Bx+Bc+Bb) - 2^(Bx+Bc) and is prime to the curve order, the mask k = N makes the honest proof of
    a true statement fail, whatever the hash function and the secret. *)
Theorem C19_refuted : forall GF GE HO pr x rp rq1 rq2 comm dr,
  GrpLaws GF -> GrpPrime GE -> Digest32 HO -> SetupParams pr -> vBc pr <= 263 ->
  2 ^ (vBx pr + vBc pr) <= gN GF <= 2 ^ (vBg pr - 1) - 2 ^ (vBx pr + vBc pr) -> Z.gcd (gN GF) (gN GE) = 1 ->
  0 <= x < 2 ^ vBx pr -> TrueStatement pr comm x rp rq1 rq2 ->
  dk dr = gN GF ->
  exists pf, vpProve GF GE HO x rp rq1 rq2 pr [dr] = Ok pf /\ vpVerify GF GE HO pf comm = Ok false.
Proof.
  intros GF GE HO pr x rp rq1 rq2 comm dr LF PE HD HS HB HN Hg Hx HT Hk. pose proof (lp_laws GE PE) as LE.
  destruct (setup_facts pr HS) as (HBx & HBc & HBg & Hlo & Hup & HF & HE & _).
  destruct (iter_returns HD (N_pos LF) (N_pos LE) pr x rp rq1 rq2 dr HS HB Hx ltac:(lia)) as (pf & HI).
  exists pf. cbn [vpProve]. rewrite HI. cbn [bind]. split; [reflexivity|].
  destruct (iter_verify LF LE pr x rp rq1 rq2 dr pf comm HF HE HT HI) as (r & Hr & Hi).
  rewrite Hr. f_equal. destruct r; [|reflexivity]. exfalso. destruct Hi as [Hi _]. specialize (Hi eq_refl).
  rewrite Hk, Z_mod_same_full, (l_scale0 GE LE) in Hi.
  destruct (modInverse_ex _ _ (l_order GE LE) Hg) as (i & _ & _ & Hinv). apply eqm_inv1 in Hinv; [|apply (l_order GE LE)].
  apply (lp_gen GE PE). rewrite <- (scale_1 LE (gGen GE)), <- (scale_eqm LE _ _ _ Hinv), <- (scale_mul LE), Hi.
  apply (scale_id LE).
Qed.

(** ** C20: perfect zero-knowledge of one iteration. The set of proofs an honest prover can output is the set of
    accepting proofs with reduced responses - a set that mentions the statement only - and each is produced by
    exactly one choice of masks, whichever witness is used. *)
Theorem C20_perfect_zero_knowledge : forall GF GE HO pr x rp rq1 rq2 comm pf,
  GrpLaws GF -> GrpLaws GE -> Digest32 HO -> SetupParams pr -> 2 ^ (vBg pr - 1) <= gN GF ->
  0 <= x < 2 ^ vBx pr -> TrueStatement pr comm x rp rq1 rq2 ->
  let Simulated := vpVerify GF GE HO pf comm = Ok true /\ sParams pf = pr /\
    (exists sp sq1 sq2, sSp pf = Some sp /\ sSq1 pf = Some sq1 /\ sSq2 pf = Some sq2 /\
       0 <= sp < gN GF /\ 0 <= sq1 < gN GE /\ 0 <= sq2 < gN GE) in
  ((exists dr, DrawOk pr dr /\ vpIter GF GE HO x rp rq1 rq2 pr dr = Ok (Some pf)) -> Simulated) /\
  (Simulated -> exists! dr, DrawOk pr dr /\ vpIter GF GE HO x rp rq1 rq2 pr dr = Ok (Some pf)).
Proof.
  intros GF GE HO pr x rp rq1 rq2 comm pf LF LE HD HS HN Hx HT Sim.
  destruct (setup_facts pr HS) as (HBx & HBc & HBg & Hlo & Hup & HF & HE & _).
  pose proof (N_pos LF) as NF. pose proof (N_pos LE) as NE.
  split.
  - intros (dr & (Hk & _) & HI). split; [|split].
    + destruct (iter_verify LF LE pr x rp rq1 rq2 dr pf comm HF HE HT HI) as (r & Hr & Hi).
      rewrite Hr. f_equal. apply Hi. rewrite Z.mod_small by lia. reflexivity.
    + apply vpIter_iff in HI; [|assumption|assumption]. destruct HI as (_ & c & _ & _ & ->). reflexivity.
    + apply vpIter_iff in HI; [|assumption|assumption]. destruct HI as (_ & c & _ & _ & ->). cbn [sSp sSq1 sSq2].
      do 3 eexists. repeat split; try reflexivity; apply Z.mod_pos_bound; assumption.
  - intros (HV & Hpr & sp & sq1 & sq2 & Hsp & Hsq1 & Hsq2 & Bsp & Bsq1 & Bsq2).
    apply vpVerify_iff in HV; [|assumption|assumption].
    destruct HV as (c & z & sp' & sq1' & sq2' & Hc & Hz & Hsp' & Hsq1' & Hsq2' & Hr & Hf & E1 & E2 & E3 & E4).
    rewrite Hsp in Hsp'. injection Hsp' as <-. rewrite Hsq1 in Hsq1'. injection Hsq1' as <-.
    rewrite Hsq2 in Hsq2'. injection Hsq2' as <-. rewrite Hpr in *.
    destruct HT as ((HY & HXp) & HXq1 & HXq2).
    pose proof (fs_bound HD _ _ _ _ _ _ (proj1 HBc) Hf) as Hcb.
    rewrite Hlo, Hup in Hr. assert (Hcx : 0 <= c * x < 2 ^ (vBx pr + vBc pr)) by (rewrite Z.pow_add_r by lia; nia).
    set (dr := mkDraw (z - c * x) ((sp - c * rp) mod gN GF) ((sq1 - c * rq1) mod gN GE) ((sq2 - c * rq2) mod gN GE)).
    assert (Hw : sW pf = gBase GF (dtp dr)).
    { apply (add_cancel_l LF (gScale GF (cY comm) c)). rewrite <- E1, HY. unfold dr; cbn [dtp]. glin LF; modn; apply eqm_of_eq; ring. }
    assert (HKp : sKp pf = vpCommit GF (dk dr mod gN GF) (dtp dr) (vGFF pr)).
    { apply (add_cancel_l LF (gScale GF (cXp comm) c)). rewrite <- E2, HXp. unfold dr, vpCommit; cbn [dtp dk]. glin LF; modn; apply eqm_of_eq; ring. }
    assert (Hmod : dk dr mod gN GF = dk dr) by (apply Z.mod_small; unfold dr; cbn [dk]; lia).
    assert (HKq1 : sKq1 pf = vpCommit GE (dk dr mod gN GF) (dtq1 dr) (vGEC pr)).
    { apply (add_cancel_l LE (gScale GE (cXq1 comm) c)). rewrite <- E3, HXq1, Hmod. unfold dr, vpCommit; cbn [dtq1 dk]. glin LE; modn; apply eqm_of_eq; ring. }
    assert (HKq2 : sKq2 pf = vpCommit GE (dk dr mod gN GF) (dtq2 dr) (vGEC pr)).
    { apply (add_cancel_l LE (gScale GE (cXq2 comm) c)). rewrite <- E4, HXq2, Hmod. unfold dr, vpCommit; cbn [dtq2 dk]. glin LE; modn; apply eqm_of_eq; ring. }
    exists dr. split; [split|].
    + unfold DrawOk, dr; cbn [dk dtp dtq1 dtq2]. repeat split; try lia; apply Z.mod_pos_bound; assumption.
    + apply vpIter_iff; [assumption|assumption|]. split; [split; lia|]. exists c. rewrite <- Hw, <- HKp, <- HKq1, <- HKq2. split; [exact Hf|].
      unfold dr; cbn [dk dtp dtq1 dtq2]. split; [rewrite Hlo, Hup; lia|].
      destruct pf as [w0 k0 k1 k2 c0 z0 s0 s1 s2 p0]. cbn in *. subst.
      assert (Hs : forall M s t, 0 < M -> 0 <= s < M -> ((s - t) mod M + t) mod M = s).
      { intros M s t HM Hs. rewrite Zplus_mod_idemp_l. replace (s - t + t) with s by ring. apply Z.mod_small; assumption. }
      rewrite !Hs by assumption. f_equal. f_equal. ring.
    + intros dr' [(Bk & Bt & Bt1 & Bt2) HI]. apply vpIter_iff in HI; [|assumption|assumption].
      destruct HI as (_ & c' & _ & _ & Hpf). rewrite Hpf in Hc, Hz, Hsp, Hsq1, Hsq2. cbn in Hc, Hz, Hsp, Hsq1, Hsq2.
      injection Hc as ->. injection Hz as Hz. injection Hsp as Hsp. injection Hsq1 as Hsq1. injection Hsq2 as Hsq2.
      assert (Hu : forall M s t t', 0 < M -> 0 <= t' < M -> (t' + t) mod M = s -> (s - t) mod M = t').
      { intros M s t t' HM Ht <-. rewrite Zminus_mod_idemp_l. replace (t' + t - t) with t' by ring. apply Z.mod_small; assumption. }
      unfold dr. destruct dr' as [k' tp' t1' t2']; cbn [dk dtp dtq1 dtq2] in *. f_equal; [lia| | |]; apply Hu; assumption.
Qed.

(** ** C46 *)
Theorem C46_progress : forall GF GE HO pr x rp rq1 rq2 drs dr,
  Digest32 HO -> 0 < gN GF -> 0 < gN GE -> SetupParams pr -> vBc pr <= 263 -> 0 <= x < 2 ^ vBx pr ->
  let lb := 2 ^ (vBx pr + vBc pr) in let ub := 2 ^ (vBg pr - 1) in
  In dr drs -> lb <= dk dr <= ub - lb ->
  exists pf, vpProve GF GE HO x rp rq1 rq2 pr drs = Ok pf.
Proof.
  intros GF GE HO pr x rp rq1 rq2 drs dr HD PF PE HS HB Hx lb ub Hin Hk.
  destruct (setup_facts pr HS) as (HBx & HBc & HBg & Hlo & Hup & HF & HE & _).
  induction drs as [|d t IH]; [destruct Hin|]. cbn [vpProve].
  assert (Hit : exists o, vpIter GF GE HO x rp rq1 rq2 pr d = Ok o).
  { unfold vpIter, posN. rewrite HF, HE. cbn [deref bind].
    destruct (Z.leb_spec (gN GF) 0); [lia|]. destruct (Z.leb_spec (gN GE) 0); [lia|]. cbn [bind].
    destruct (fs_ok HD (gBase GF (dtp d)) (vpCommit GF (dk d mod gN GF) (dtp d) (vGFF pr))
      (vpCommit GE (dk d mod gN GF) (dtq1 d) (vGEC pr)) (vpCommit GE (dk d mod gN GF) (dtq2 d) (vGEC pr)) (vBc pr) ltac:(lia))
      as (c & Hc & _). rewrite Hc. cbn [bind]. destruct (_ || _); eexists; reflexivity. }
  destruct Hit as (o & Ho). destruct Hin as [->|Hin].
  - destruct (iter_returns HD PF PE pr x rp rq1 rq2 dr HS HB Hx Hk) as (pf & ->). cbn [bind]. eexists; reflexivity.
  - rewrite Ho. cbn [bind]. destruct o as [pf|]; [eexists; reflexivity|]. apply IH. exact Hin.
Qed.

(** the masks outside that interval are at most a 2^(1-Bb) fraction of the 2^(Bg-1) masks *)
Theorem C46_abort_fraction : forall GF GE (pr : ProofParams GF GE), SetupParams pr ->
  let lb := 2 ^ (vBx pr + vBc pr) in let ub := 2 ^ (vBg pr - 1) in
  let accepting := ub - 2 * lb + 1 in
  0 <= ub - 2 * lb /\ (ub - accepting) * 2 ^ vBb pr < 2 * ub.
Proof.
  intros GF GE pr HS lb ub acc. destruct (setup_facts pr HS) as (HBx & HBc & HBg & _ & _ & _ & _ & Hb).
  assert (Hub : ub = lb * 2 ^ vBb pr) by (unfold ub, lb; rewrite <- Z.pow_add_r by lia; f_equal; lia).
  assert (0 < lb) by (unfold lb; apply Z.pow_pos_nonneg; lia).
  assert (2 <= 2 ^ vBb pr).
  { change 2 with (2 ^ 1) at 1. apply Z.pow_le_mono_r; lia. }
  unfold acc. nia.
Qed.

(** a challenge length of 264 bits or more is accepted by Setup but slices past the digest: Prove panics always *)
Theorem C46_long_challenge_panics : forall GF GE HO pr x rp rq1 rq2 dr drs,
  Digest32 HO -> SetupParams pr -> 264 <= vBc pr -> vpProve GF GE HO x rp rq1 rq2 pr (dr :: drs) = Panic.
Proof.
  intros GF GE HO pr x rp rq1 rq2 dr drs HD HS HB.
  destruct (setup_facts pr HS) as (_ & _ & _ & _ & _ & HF & HE & _).
  cbn [vpProve]. unfold vpIter, posN. rewrite HF, HE. cbn [deref bind].
  destruct (gN GF <=? 0); [reflexivity|]. destruct (gN GE <=? 0); [reflexivity|]. cbn [bind]. unfold getFSChallenge, slice_to.
  match goal with |- context [sha256 HO ?b] => destruct (HD b) as [Hl _] end.
  replace (Nat.leb _ _) with false; [reflexivity|]. symmetry. apply Nat.leb_gt. rewrite Hl.
  assert (33 <= vBc pr / 8) by (apply Z.div_le_lower_bound; lia). lia.
Qed.

(** ** C21 *)
(** Two accepting transcripts with the same first message under hash functions that answer it differently. *)
Section Sound.
Context (GF GE : Grp) (HO1 HO2 : Oracles) (LF : GrpLaws GF) (LE : GrpLaws GE) (HD1 : Digest32 HO1) (HD2 : Digest32 HO2).

Lemma fork : forall pr pf1 pf2 comm, SetupParams pr -> sParams pf1 = pr -> sParams pf2 = pr ->
  sW pf1 = sW pf2 -> sKp pf1 = sKp pf2 -> sKq1 pf1 = sKq1 pf2 -> sKq2 pf1 = sKq2 pf2 -> sChal pf1 <> sChal pf2 ->
  vpVerify GF GE HO1 pf1 comm = Ok true -> vpVerify GF GE HO2 pf2 comm = Ok true ->
  let dc := gap (sChal pf1) (sChal pf2) in let dz := gap (sZ pf1) (sZ pf2) in let dp := gap (sSp pf1) (sSp pf2) in
  let d1 := gap (sSq1 pf1) (sSq1 pf2) in let d2 := gap (sSq2 pf1) (sSq2 pf2) in
  dc <> 0 /\ Z.abs dc < 2 ^ vBc pr /\ Z.abs dz < 2 ^ (vBg pr - 1) - 2 ^ (vBx pr + vBc pr) /\
    gScale GF (gGen GF) dp = gScale GF (cY comm) dc /\
    gAdd GF (gScale GF (gGen GF) dz) (gScale GF (gpH (vGFF pr)) dp) = gScale GF (cXp comm) dc /\
    gAdd GE (gScale GE (gGen GE) dz) (gScale GE (gpH (vGEC pr)) d1) = gScale GE (cXq1 comm) dc /\
    gAdd GE (gScale GE (gGen GE) dz) (gScale GE (gpH (vGEC pr)) d2) = gScale GE (cXq2 comm) dc.
Proof.
  intros pr pf1 pf2 comm HS Hp1 Hp2 Hw Hkp Hk1 Hk2 Hne V1 V2.
  destruct (setup_facts pr HS) as (HBx & HBc & HBg & Hlo & Hup & HF & HE & _).
  apply (vpVerify_iff LF LE) in V1. apply (vpVerify_iff LF LE) in V2.
  destruct V1 as (c & z & sp & s1 & s2 & Hc & Q1 & Q2 & Q3 & Q4 & Hr & Hf & E1 & E2 & E3 & E4).
  destruct V2 as (c' & z' & sp' & s1' & s2' & Hc' & Q1' & Q2' & Q3' & Q4' & Hr' & Hf' & E1' & E2' & E3' & E4').
  rewrite Hc, Hc', Q1, Q1', Q2, Q2', Q3, Q3', Q4, Q4'. cbn [gap]. cbv zeta.
  rewrite Hp1 in *. rewrite Hp2 in *. rewrite Hlo, Hup in *.
  rewrite <- Hw in E1'. rewrite <- Hkp in E2'. rewrite <- Hk1 in E3'. rewrite <- Hk2 in E4'.
  pose proof (fs_bound HD1 _ _ _ _ _ _ (proj1 HBc) Hf). pose proof (fs_bound HD2 _ _ _ _ _ _ (proj1 HBc) Hf').
  assert (Hdiff : forall G (L : GrpLaws G) (A A' X K : E G) a a', A = gAdd G (gScale G X a) K -> A' = gAdd G (gScale G X a') K ->
     gSub G A A' = gScale G X (a - a')).
  { intros G L A A' X K a a' -> ->. glin L. }
  split; [intros Hd0; apply Hne; rewrite Hc, Hc'; f_equal; lia|]. split; [lia|]. split; [lia|].
  rewrite <- (Hdiff GF LF _ _ _ _ _ _ E1 E1'), <- (Hdiff GF LF _ _ _ _ _ _ E2 E2').
  rewrite <- (Hdiff GE LE _ _ _ _ _ _ E3 E3'), <- (Hdiff GE LE _ _ _ _ _ _ E4 E4').
  repeat split; try (glin LF); glin LE.
Qed.

Lemma fork_rel : forall (H Xq : E GE) dc dz d v r, (dz - dc * v) mod gN GE <> 0 -> Opens GE H Xq v r ->
  gAdd GE (gScale GE (gGen GE) dz) (gScale GE H d) = gScale GE Xq dc -> Relation2 GE (gGen GE) H (dz - dc * v, d - dc * r).
Proof.
  intros H Xq dc dz d v r Hz Ho Eq. split; cbn [fst snd]; [left; exact Hz|]. unfold Opens in Ho.
  transitivity (gSub GE (gAdd GE (gScale GE (gGen GE) dz) (gScale GE H d)) (gScale GE Xq dc)).
  - rewrite Ho. glin LE.
  - apply (sub_0_iff LE). exact Eq.
Qed.
(** exactness: if the two openings of Xq agree, the integer response difference is the challenge difference times the value *)
Lemma fork_int : forall (pr : ProofParams GF GE) dc dz v, SetupParams pr -> 2 ^ (vBg pr - 1) <= gN GE ->
  Z.abs dc < 2 ^ vBc pr -> Z.abs dz < 2 ^ (vBg pr - 1) - 2 ^ (vBx pr + vBc pr) -> 0 <= v < 2 ^ vBx pr ->
  (dz - dc * v) mod gN GE = 0 -> dz = dc * v.
Proof.
  intros pr dc dz v HS HN Hdc Hdz Hv Hz.
  destruct (setup_facts pr HS) as (HBx & HBc & HBg & _ & _ & _ & _ & _).
  apply Z.mod_divide in Hz; [|pose proof (N_pos LE); lia]. destruct Hz as [k Hk].
  assert (Hs : Z.abs (dc * v) < 2 ^ (vBx pr + vBc pr)).
  { rewrite Z.abs_mul, (Z.abs_eq v) by lia. rewrite Z.pow_add_r by lia. nia. }
  assert (Ha : Z.abs (k * gN GE) < gN GE) by lia. rewrite Z.abs_mul in Ha. assert (k = 0) by nia. lia.
Qed.

Lemma fork_encrypts : forall (H U V : E GF) dc v dp, Z.gcd dc (gN GF) = 1 ->
  gScale GF (gGen GF) dp = gScale GF U dc -> gAdd GF (gScale GF (gGen GF) (dc * v)) (gScale GF H dp) = gScale GF V dc ->
  exists r, Encrypts GF H U V v r /\ (r * dc) mod gN GF = dp mod gN GF.
Proof.
  intros H U V dc v dp Hg E1 E2. destruct (modInverse_ex _ _ (l_order GF LF) Hg) as (i & _ & _ & Hi).
  apply eqm_inv1 in Hi; [|apply (l_order GF LF)].
  assert (Hdiv : forall X, gScale GF (gScale GF X dc) i = X).
  { intros X. rewrite (scale_mul LF), (scale_eqm LF _ _ _ Hi). apply (scale_1 LF). }
  exists (dp * i). split; [split|].
  - rewrite <- (Hdiv U), <- E1. apply (scale_mul LF).
  - rewrite <- (Hdiv V), <- E2. glin LF. apply eqm_sub0; [apply (N_pos LF)|].
    transitivity (v * (dc * i - 1)); [apply eqm_of_eq; ring|]. rewrite Hi. apply eqm_of_eq. ring.
  - apply (proj1 (eqm_mod _ _ _)). transitivity (dp * (dc * i)); [apply eqm_of_eq; ring|]. rewrite Hi. apply eqm_of_eq. ring.
Qed.
End Sound.

Theorem C21_special_soundness : forall GF GE HO1 HO2 pr pf1 pf2 comm v r,
  GrpLaws GF -> prime (gN GF) -> GrpLaws GE -> Digest32 HO1 -> Digest32 HO2 ->
  SetupParams pr -> 2 ^ (vBg pr - 1) <= gN GE -> 2 ^ (vBg pr - 1) <= gN GF ->
  sParams pf1 = pr -> sParams pf2 = pr ->
  sW pf1 = sW pf2 -> sKp pf1 = sKp pf2 -> sKq1 pf1 = sKq1 pf2 -> sKq2 pf1 = sKq2 pf2 -> sChal pf1 <> sChal pf2 ->
  vpVerify GF GE HO1 pf1 comm = Ok true -> vpVerify GF GE HO2 pf2 comm = Ok true ->
  Opens GE (gpH (vGEC pr)) (cXq1 comm) v r -> 0 <= v < 2 ^ vBx pr ->
  Relation2 GE (gGen GE) (gpH (vGEC pr)) (relLow pf1 pf2 v r) \/
  exists rp, Encrypts GF (gpH (vGFF pr)) (cY comm) (cXp comm) v rp /\ Extracted pf1 pf2 rp.
Proof.
  intros GF GE HO1 HO2 pr pf1 pf2 comm v r LF PF LE HD1 HD2 HS HNE HNF Hp1 Hp2 Hw Hkp Hk1 Hk2 Hne V1 V2 Ho Hv.
  destruct (setup_facts pr HS) as (HBx & HBc & HBg & _ & _ & _ & _ & _).
  destruct (fork GF GE HO1 HO2 LF LE HD1 HD2 pr pf1 pf2 comm HS Hp1 Hp2 Hw Hkp Hk1 Hk2 Hne V1 V2)
    as (Hdc & Bdc & Bdz & E1 & E2 & E3 & E4). unfold relLow, Extracted.
  set (dc := gap (sChal pf1) _) in *. set (dz := gap (sZ pf1) _) in *. set (dp := gap (sSp pf1) _) in *. set (d1 := gap (sSq1 pf1) _) in *.
  destruct (Z.eq_dec ((dz - dc * v) mod gN GE) 0) as [Hz|Hz].
  2:{ left. apply (fork_rel GE LE _ _ _ _ _ _ _ Hz Ho E3). }
  apply (fork_int GF GE LE pr dc dz v HS HNE Bdc Bdz Hv) in Hz.
  right. clearbody dz. subst dz. apply (fork_encrypts GF LF _ _ _ dc v dp); [|assumption|assumption].
  apply prime_gcd1; [assumption|]. intros H0. apply Z.mod_divide in H0; [|pose proof (N_pos LF); lia].
  apply Z.divide_abs_r in H0. apply Z.divide_pos_le in H0; [|lia].
  assert (2 ^ vBc pr <= 2 ^ (vBg pr - 1)) by (apply Z.pow_le_mono_r; lia). lia.
Qed.

(** ** C50: range soundness of the protocol as a whole. V1 and V2 are the two Bulletproof commitments, opening to
    n-bit values (what the range proofs are for); the statement is formed as in verifyVote (server.go 27-43). *)
Theorem C50_sound_ballot_in_range : forall GF GE HO1 HO2 pr pf1 pf2 comm V1 V2 a ra b rb n,
  GrpLaws GF -> prime (gN GF) -> GrpPrime GE -> Digest32 HO1 -> Digest32 HO2 ->
  SetupParams pr -> 2 ^ (vBg pr - 1) <= gN GE -> 2 ^ (vBg pr - 1) <= gN GF ->
  0 <= vLo pr -> 0 <= vHi pr < 2 ^ vBx pr -> vLo pr + 2 * 2 ^ n <= gN GE ->
  cXq1 comm = gAdd GE (gBase GE (vLo pr)) V1 -> cXq2 comm = gAdd GE (gBase GE (vHi pr)) (gScale GE V2 (-1)) ->
  Opens GE (gpH (vGEC pr)) V1 a ra -> 0 <= a < 2 ^ n ->
  Opens GE (gpH (vGEC pr)) V2 b rb -> 0 <= b < 2 ^ n ->
  sParams pf1 = pr -> sParams pf2 = pr ->
  sW pf1 = sW pf2 -> sKp pf1 = sKp pf2 -> sKq1 pf1 = sKq1 pf2 -> sKq2 pf1 = sKq2 pf2 -> sChal pf1 <> sChal pf2 ->
  vpVerify GF GE HO1 pf1 comm = Ok true -> vpVerify GF GE HO2 pf2 comm = Ok true ->
  Relation2 GE (gGen GE) (gpH (vGEC pr)) (relLow pf1 pf2 (vLo pr + a) ra) \/
  Relation2 GE (gGen GE) (gpH (vGEC pr)) (relHigh pf1 pf2 (vHi pr - b) (- rb)) \/
  exists v rp, Encrypts GF (gpH (vGFF pr)) (cY comm) (cXp comm) v rp /\ Extracted pf1 pf2 rp /\ v = vLo pr + a /\ vLo pr <= v <= vHi pr.
Proof.
  intros GF GE HO1 HO2 pr pf1 pf2 comm V1 V2 a ra b rb n LF PF PE HD1 HD2 HS HNE HNF Blo Bhi HnN HX1 HX2 O1 Ba O2 Bb
    Hp1 Hp2 Hw Hkp Hk1 Hk2 Hne A1 A2. pose proof (lp_laws GE PE) as LE.
  destruct (setup_facts pr HS) as (HBx & HBc & HBg & _ & _ & _ & _ & _).
  destruct (fork GF GE HO1 HO2 LF LE HD1 HD2 pr pf1 pf2 comm HS Hp1 Hp2 Hw Hkp Hk1 Hk2 Hne A1 A2)
    as (Hdc & Bdc & Bdz & E1 & E2 & E3 & E4). unfold relLow, relHigh, Extracted.
  set (dc := gap (sChal pf1) _) in *. set (dz := gap (sZ pf1) _) in *. set (dp := gap (sSp pf1) _) in *.
  set (d1 := gap (sSq1 pf1) _) in *. set (d2 := gap (sSq2 pf1) _) in *.
  assert (Ho1 : Opens GE (gpH (vGEC pr)) (cXq1 comm) (vLo pr + a) ra).
  { unfold Opens in *. rewrite HX1, O1. glin LE. }
  assert (Ho2 : Opens GE (gpH (vGEC pr)) (cXq2 comm) (vHi pr - b) (- rb)).
  { unfold Opens in *. rewrite HX2, O2. glin LE. }
  assert (Hpow : 2 ^ vBc pr <= 2 ^ (vBg pr - 1)) by (apply Z.pow_le_mono_r; lia).
  assert (HxN : 2 ^ vBx pr <= 2 ^ (vBg pr - 1)) by (apply Z.pow_le_mono_r; lia).
  assert (Hgc : forall M, prime M -> 2 ^ (vBg pr - 1) <= M -> Z.gcd dc M = 1).
  { intros M PM HM. apply prime_gcd1; [assumption|]. intros Hdv. destruct PM as [HM1 _].
    apply Z.mod_divide in Hdv; [|lia]. apply Z.divide_abs_r in Hdv. apply Z.divide_pos_le in Hdv; lia. }
  destruct (Z.eq_dec ((dz - dc * (vLo pr + a)) mod gN GE) 0) as [Hz1|Hz1].
  2:{ left. apply (fork_rel GE LE _ _ _ _ _ _ _ Hz1 Ho1 E3). }
  destruct (Z.eq_dec ((dz - dc * (vHi pr - b)) mod gN GE) 0) as [Hz2|Hz2].
  2:{ right. left. apply (fork_rel GE LE _ _ _ _ _ _ _ Hz2 Ho2 E4). }
  right. right.
  assert (Hs : (vLo pr + a) - (vHi pr - b) = 0).
  { assert (Hz : eqm (gN GE) (dc * ((vLo pr + a) - (vHi pr - b))) 0).
    { apply eqm_mod0 in Hz1, Hz2. transitivity ((dz - dc * (vHi pr - b)) - (dz - dc * (vLo pr + a))); [apply eqm_of_eq; ring|].
      rewrite Hz1, Hz2. apply eqm_of_eq. ring. }
    destruct (eqm_prime_mul0 _ _ _ (lp_prime GE PE) Hz) as [Hb0|Hb0].
    - exfalso. pose proof (Hgc _ (lp_prime GE PE) HNE) as Hg. apply eqm_mod0 in Hb0.
      apply Z.mod_divide in Hb0; [|pose proof (N_pos LE); lia]. assert (Hd1 : (gN GE | 1)) by (rewrite <- Hg; apply Z.gcd_greatest; [assumption|exists 1; lia]).
      apply Z.divide_pos_le in Hd1; [|lia]. pose proof (l_order GE LE). lia.
    - apply eqm_mod0 in Hb0. apply Z.mod_divide in Hb0; [|pose proof (N_pos LE); lia].
      destruct Hb0 as [k Hk]. assert (Z.abs (k * gN GE) < gN GE) by lia. rewrite Z.abs_mul in *. assert (k = 0) by nia. lia. }
  apply (fork_int GF GE LE pr dc dz (vLo pr + a) HS HNE Bdc Bdz ltac:(lia)) in Hz1. rename Hz1 into Hdz.
  destruct (fork_encrypts GF LF (gpH (vGFF pr)) (cY comm) (cXp comm) dc (vLo pr + a) dp (Hgc _ PF HNF) E1) as (rp & Henc & Hex).
  { rewrite <- Hdz. exact E2. }
  exists (vLo pr + a), rp. split; [exact Henc|]. split; [exact Hex|]. split; [reflexivity|lia].
Qed.

(** ** C22: the parameters come from the proof, so every statement has an accepted proof. The forged proof keeps the
    verifier's groups, H elements, bit length Bg and range; only Bx, Bc, Bb are chosen by the forger. *)
(** what the forger outputs: it depends on the public parameters only *)
Definition forgeNoChallenge {GF GE : Grp} (pr : ProofParams GF GE) : SigmaProof GF GE :=
  mkSigmaProof (gBase GF 0) (vpCommit GF 1 0 (vGFF pr)) (vpCommit GE 1 0 (vGEC pr)) (vpCommit GE 1 0 (vGEC pr))
    (Some 0) (Some 1) (Some 0) (Some 0) (Some 0) (mkProofParams 0 0 (vBg pr) 1 (vLo pr) (vHi pr) (vGFF pr) (vGEC pr)).
Theorem C22_refuted : forall GF GE (pr : ProofParams GF GE),
  GrpLaws GF -> GrpLaws GE ->
  let pf := forgeNoChallenge pr in
  (forall HO comm, vpVerify GF GE HO pf comm = Ok true) /\
    vGFF (sParams pf) = vGFF pr /\ vGEC (sParams pf) = vGEC pr /\ vBg (sParams pf) = vBg pr /\
    vLo (sParams pf) = vLo pr /\ vHi (sParams pf) = vHi pr.
Proof.
  intros GF GE pr LF LE pf.
  split; [|cbn; auto]. intros HO comm. apply (vpVerify_iff LF LE). exists 0, 1, 0, 0, 0. unfold pf, forgeNoChallenge. cbn [sChal sZ sSp sSq1 sSq2 sParams sW sKp sKq1 sKq2].
  repeat (split; [reflexivity|]). split; [unfold zLowerBound, zUpperBound; cbn; lia|]. split.
  - unfold getFSChallenge, slice_to. cbn. reflexivity.
  - unfold SigmaEqs, vpCommit. cbn [sW sKp sKq1 sKq2 vGFF vGEC]. repeat split; try (glin LF); glin LE.
Qed.

(** ** C23: the statement is not hashed. Under honest parameters, for any value x in the Bulletproof commitments and any
    offset d, the prover gets a proof accepted for a ciphertext of x - d/c, chosen after the challenge c is known. *)
(** the proof and, with the same c, the statement it is for: group operations and one modular inverse *)
Definition lateProof {GF GE : Grp} (pr : ProofParams GF GE) (x rp rq1 rq2 k tp tq1 tq2 d c : Z) : SigmaProof GF GE :=
  mkSigmaProof (gBase GF tp) (vpCommit GF (k + d) tp (vGFF pr)) (vpCommit GE k tq1 (vGEC pr)) (vpCommit GE k tq2 (vGEC pr))
    (Some c) (Some (k + c * x)) (Some (tp + c * rp)) (Some (tq1 + c * rq1)) (Some (tq2 + c * rq2)) pr.
Definition lateVote (GF : Grp) (x d c : Z) : Z := x - d * match modInverse c (gN GF) with Some i => i | None => 0 end.
Definition lateStatement {GF GE : Grp} (pr : ProofParams GF GE) (x rp rq1 rq2 d c : Z) : VerCommitments GF GE :=
  mkVerCommitments (gScale GF (gGen GF) rp) (gAdd GF (gScale GF (gGen GF) (lateVote GF x d c)) (gScale GF (gpH (vGFF pr)) rp))
    (gAdd GE (gScale GE (gGen GE) x) (gScale GE (gpH (vGEC pr)) rq1)) (gAdd GE (gScale GE (gGen GE) x) (gScale GE (gpH (vGEC pr)) rq2)).
Theorem C23_refuted : forall GF GE HO (pr : ProofParams GF GE) x rp rq1 rq2 k tp tq1 tq2 d c,
  GrpPrime GF -> GrpLaws GE -> Digest32 HO -> SetupParams pr -> 0 <= x < 2 ^ vBx pr ->
  2 ^ (vBx pr + vBc pr) <= k <= 2 ^ (vBg pr - 1) - 2 ^ (vBx pr + vBc pr) ->
  d mod gN GF <> 0 ->
  getFSChallenge GF GE HO (gBase GF tp) (vpCommit GF (k + d) tp (vGFF pr)) (vpCommit GE k tq1 (vGEC pr)) (vpCommit GE k tq2 (vGEC pr)) (vBc pr) = Ok c ->
  c mod gN GF <> 0 ->
  let pf := lateProof pr x rp rq1 rq2 k tp tq1 tq2 d c in let comm := lateStatement pr x rp rq1 rq2 d c in let x' := lateVote GF x d c in
    sParams pf = pr /\ vpVerify GF GE HO pf comm = Ok true /\
    Opens GE (gpH (vGEC pr)) (cXq1 comm) x rq1 /\ Opens GE (gpH (vGEC pr)) (cXq2 comm) x rq2 /\
    Encrypts GF (gpH (vGFF pr)) (cY comm) (cXp comm) x' rp /\ x' mod gN GF <> x mod gN GF.
Proof.
  intros GF GE HO pr x rp rq1 rq2 k tp tq1 tq2 d c PF LE HD HS Hx Hk Hd Hc Hc0. pose proof (lp_laws GF PF) as LF.
  destruct (setup_facts pr HS) as (HBx & HBc & HBg & Hlo & Hup & HF & HE & _).
  assert (Hcb : 0 <= c < 2 ^ vBc pr) by (apply (fs_bound HD _ _ _ _ (vBc pr) c) in Hc; [exact Hc|lia]).
  unfold lateProof, lateStatement, lateVote.
  destruct (modInverse_ex c (gN GF) (l_order GF LF) (prime_gcd1 _ _ (lp_prime GF PF) Hc0)) as (i & -> & _ & Hi).
  apply eqm_inv1 in Hi; [|apply (l_order GF LF)]. cbv zeta.
  set (x' := x - d * i). split; [reflexivity|]. split.
  - apply (vpVerify_iff LF LE). do 5 eexists. cbn [sChal sZ sSp sSq1 sSq2 sParams sW sKp sKq1 sKq2].
    repeat (split; [reflexivity|]). split.
    { rewrite Hlo, Hup. rewrite Z.pow_add_r in * by lia. nia. }
    split; [exact Hc|]. unfold SigmaEqs, vpCommit, x'. cbn [sW sKp sKq1 sKq2 cY cXp cXq1 cXq2].
    repeat split; try (glin LE); glin LF.
    apply eqm_sub0; [apply (N_pos LF)|]. transitivity (d * (c * i - 1)); [apply eqm_of_eq; ring|].
    rewrite Hi. apply eqm_of_eq. ring.
  - cbn [cY cXp cXq1 cXq2]. split; [reflexivity|]. split; [reflexivity|]. split; [split; reflexivity|].
    intros He. apply Hd. apply (proj1 (eqm_mod0 _ _)).
    assert (Hdi : eqm (gN GF) (d * i) 0).
    { apply (eqm_intro (gN GF)) in He. unfold x' in He. transitivity (x - (x - d * i)); [apply eqm_of_eq; ring|].
      rewrite He. apply eqm_of_eq. ring. }
    transitivity (d * i * c); [|rewrite Hdi; apply eqm_of_eq; ring].
    transitivity (d * (c * i)); [rewrite Hi; apply eqm_of_eq; ring|]. apply eqm_of_eq. ring.
Qed.

(** ** C45 *)
Theorem C45_binds_statement : forall GF GE HO pf comm comm' c,
  GrpLaws GF -> GrpLaws GE -> sChal pf = Some c -> Z.gcd c (gN GF) = 1 -> Z.gcd c (gN GE) = 1 ->
  vpVerify GF GE HO pf comm = Ok true -> vpVerify GF GE HO pf comm' = Ok true -> comm = comm'.
Proof.
  intros GF GE HO pf comm comm' c LF LE Hc HgF HgE V1 V2.
  apply (vpVerify_iff LF LE) in V1. apply (vpVerify_iff LF LE) in V2.
  destruct V1 as (c1 & z & sp & s1 & s2 & Hc1 & Hz & Hsp & Hs1 & Hs2 & _ & _ & E1 & E2 & E3 & E4).
  destruct V2 as (c2 & z' & sp' & s1' & s2' & Hc2 & Hz' & Hsp' & Hs1' & Hs2' & _ & _ & E1' & E2' & E3' & E4').
  assert (c1 = c) by congruence. assert (c2 = c) by congruence. assert (z' = z) by congruence.
  assert (sp' = sp) by congruence. assert (s1' = s1) by congruence. assert (s2' = s2) by congruence. subst.
  assert (Hdiv : forall G (L : GrpLaws G) X Y (K A : E G), Z.gcd c (gN G) = 1 -> A = gAdd G (gScale G X c) K -> A = gAdd G (gScale G Y c) K -> X = Y).
  { intros G L X Y K A Hg EA EB. rewrite EA in EB. apply (add_cancel_r L) in EB.
    destruct (modInverse_ex c _ (l_order G L) Hg) as (i & _ & _ & Hi). apply eqm_inv1 in Hi; [|apply (l_order G L)].
    rewrite <- (scale_1 L X), <- (scale_1 L Y), <- !(scale_eqm L _ _ _ Hi), <- !(scale_mul L), EB. reflexivity. }
  destruct comm as [y xp x1 x2], comm' as [y' xp' x1' x2']. cbn in *.
  f_equal; [eapply (Hdiv GF LF)|eapply (Hdiv GF LF)|eapply (Hdiv GE LE)|eapply (Hdiv GE LE)]; eassumption.
Qed.

(** ** Concrete cases: groups Z/4099 (ElGamal) and Z/4111 (curve), 1-bit secrets, 8-bit challenges *)
Definition qf : 1 < 4099. Proof. reflexivity. Qed.
Definition qe : 1 < 4111. Proof. reflexivity. Qed.
Definition qs : 1 < 1021. Proof. reflexivity. Qed.
Definition toyF : Grp := ToyGrp 4099 qf.
Definition toyE : Grp := ToyGrp 4111 qe.
Definition toyS : Grp := ToyGrp 1021 qs.                  (* a small ElGamal group, for C19 *)
Lemma toyF_prime : GrpPrime toyF. Proof. apply toyPrime. apply prime_check_ok. vm_compute. reflexivity. Qed.
Lemma toyE_prime : GrpPrime toyE. Proof. apply toyPrime. apply prime_check_ok. vm_compute. reflexivity. Qed.
Lemma toyS_prime : GrpPrime toyS. Proof. apply toyPrime. apply prime_check_ok. vm_compute. reflexivity. Qed.
Definition toyD (seed : Z) : Oracles :=
  {| sha256 := fun b => map (fun i => (seed + Z.of_nat i + fold_left (fun acc x => 5 * acc + x + 7) b 0) mod 256) (seq 0 32);
     fromByteArray := os2ip |}.
Lemma toyD_digest : forall seed, Digest32 (toyD seed).
Proof.
  intros seed b. split; [reflexivity|]. apply Forall_forall. intros x Hx. cbn [sha256 toyD] in Hx.
  apply in_map_iff in Hx. destruct Hx as (i & <- & _). apply Z.mod_pos_bound. reflexivity.
Qed.
Definition toyGff : GroupParams toyF := mkGroupParams (G:=toyF) (gGen toyF) (gBase toyF 13) (Some 4099) (Some 4099).
Definition toyGsm : GroupParams toyS := mkGroupParams (G:=toyS) (gGen toyS) (gBase toyS 13) (Some 1021) (Some 1021).
Definition toyGec : GroupParams toyE := mkGroupParams (G:=toyE) (gGen toyE) (gBase toyE 1234) (Some 4111) (Some 4111).
Definition toyPr : ProofParams toyF toyE := mkProofParams 1 8 13 3 0 1 toyGff toyGec.
Definition toyPrS : ProofParams toyS toyE := mkProofParams 1 8 13 3 0 1 toyGsm toyGec.
Lemma toyPr_setup : SetupParams toyPr.
Proof. exists 1, 8, 13, 0, 1. repeat split; lia. Qed.
Lemma toyPrS_setup : SetupParams toyPrS.
Proof. exists 1, 8, 13, 0, 1. repeat split; lia. Qed.
(** the statement for x = 1, from V1 committing to 1 - 0 and V2 committing to 1 - 1 *)
Definition toyV1 : E toyE := gAdd toyE (gScale toyE (gGen toyE) 1) (gScale toyE (gpH toyGec) 55).
Definition toyV2 : E toyE := gAdd toyE (gScale toyE (gGen toyE) 0) (gScale toyE (gpH toyGec) (-66)).
Definition toyComm : VerCommitments toyF toyE :=
  mkVerCommitments (GF:=toyF) (GE:=toyE) (gScale toyF (gGen toyF) 44) (gAdd toyF (gScale toyF (gGen toyF) 1) (gScale toyF (gpH toyGff) 44))
    (gAdd toyE (gBase toyE 0) toyV1) (gAdd toyE (gBase toyE 1) (gScale toyE toyV2 (-1))).
Lemma toyComm_true : TrueStatement toyPr toyComm 1 44 55 66.
Proof.
  split; [split; reflexivity|]. split; apply zq_eq; vm_compute; reflexivity.
Qed.
Definition toyDraws : list Draw := [mkDraw 3 1 2 3; mkDraw 2000 11 22 33].      (* the first draw aborts *)
Definition toyProof (seed : Z) : res (SigmaProof toyF toyE) := vpProve toyF toyE (toyD seed) 1 44 55 66 toyPr toyDraws.
Definition dummyProof : SigmaProof toyF toyE :=
  mkSigmaProof (GF:=toyF) (GE:=toyE) (gId toyF) (gId toyF) (gId toyE) (gId toyE) None None None None None toyPr.
Definition getProof (r : res (SigmaProof toyF toyE)) : SigmaProof toyF toyE := match r with Ok p => p | _ => dummyProof end.
Definition toyPf1 := getProof (toyProof 0).
Definition toyPf2 := getProof (toyProof 100).
Example C17_case : vpSetup toyF toyE 1 8 13 0 1 toyGff toyGec = Ok toyPr /\ vpSetup toyF toyE 1 8 10 0 1 toyGff toyGec = Err.
Proof. split; reflexivity. Qed.
Example C18_C20_C46_case :
  2 ^ (vBg toyPr - 1) <= gN toyF /\ (forall dr, In dr toyDraws -> DrawOk toyPr dr) /\
  match vpIter toyF toyE (toyD 0) 1 44 55 66 toyPr (mkDraw 3 1 2 3) with Ok None => true | _ => false end = true /\
  match toyProof 0 with Ok pf => vpVerify toyF toyE (toyD 0) pf toyComm | _ => Ok false end = Ok true /\
  sChal toyPf1 <> Some 0.
Proof.
  split; [cbn; lia|]. split.
  { intros dr [<-|[<-|[]]]; unfold DrawOk; cbn; lia. }
  split; [vm_compute; reflexivity|]. split; [vm_compute; reflexivity|]. vm_compute. discriminate.
Qed.
(** the two transcripts of C21 and C50 *)
Example C21_C50_case :
  zv 4099 (sW toyPf1) = zv 4099 (sW toyPf2) /\ zv 4099 (sKp toyPf1) = zv 4099 (sKp toyPf2) /\
  zv 4111 (sKq1 toyPf1) = zv 4111 (sKq1 toyPf2) /\ zv 4111 (sKq2 toyPf1) = zv 4111 (sKq2 toyPf2) /\
  sChal toyPf1 <> sChal toyPf2 /\
  vpVerify toyF toyE (toyD 0) toyPf1 toyComm = Ok true /\ vpVerify toyF toyE (toyD 100) toyPf2 toyComm = Ok true /\
  Opens toyE (gpH (vGEC toyPr)) toyV1 1 55 /\ Opens toyE (gpH (vGEC toyPr)) toyV2 0 (-66) /\ vLo toyPr + 2 * 2 ^ 1 <= gN toyE /\
  (* the candidate relations are trivial here, so the theorems give the encryption; an opening to another value gives a true one *)
  map (fun ab => (fst ab mod 4111, snd ab mod 4111)) [relLow toyPf1 toyPf2 (0 + 1) 55; relHigh toyPf1 toyPf2 (1 - 0) 66] = [(0, 0); (0, 0)] /\
  Opens toyE (gpH (vGEC toyPr)) toyV1 2 (55 - 1176) /\ fst (relLow toyPf1 toyPf2 2 (55 - 1176)) mod 4111 <> 0.
Proof.
  repeat split; try (vm_compute; reflexivity); try (vm_compute; discriminate).
Qed.
Example C19_case : exists comm pf, TrueStatement toyPrS comm 1 44 55 66 /\
  vpProve toyS toyE (toyD 0) 1 44 55 66 toyPrS [mkDraw 1021 1 2 3] = Ok pf /\ vpVerify toyS toyE (toyD 0) pf comm = Ok false.
Proof.
  set (comm := mkVerCommitments (GF:=toyS) (GE:=toyE) (gScale toyS (gGen toyS) 44) (gAdd toyS (gScale toyS (gGen toyS) 1) (gScale toyS (gpH toyGsm) 44))
    (gAdd toyE (gScale toyE (gGen toyE) 1) (gScale toyE (gpH toyGec) 55)) (gAdd toyE (gScale toyE (gGen toyE) 1) (gScale toyE (gpH toyGec) 66))).
  assert (HT : TrueStatement toyPrS comm 1 44 55 66) by (split; [split|split]; reflexivity).
  destruct (C19_refuted toyS toyE (toyD 0) toyPrS 1 44 55 66 comm (mkDraw 1021 1 2 3) (lp_laws _ toyS_prime) toyE_prime (toyD_digest 0)
    toyPrS_setup ltac:(cbn; lia) ltac:(cbn; lia) ltac:(reflexivity) ltac:(cbn; lia) HT ltac:(reflexivity)) as (pf & H1 & H2).
  exists comm, pf. split; [exact HT|split; assumption].
Qed.
Example C22_case : sZ (forgeNoChallenge toyPr) = Some 1 /\ map (fun seed => vpVerify toyF toyE (toyD seed) (forgeNoChallenge toyPr)
  (mkVerCommitments (GF:=toyF) (GE:=toyE) (gBase toyF 5) (gBase toyF 3000) (gBase toyE 17) (gBase toyE 18))) [0; 100] = [Ok true; Ok true].
Proof. split; vm_compute; reflexivity. Qed.
Example C23_case : exists c,
  getFSChallenge toyF toyE (toyD 0) (gBase toyF 11) (vpCommit toyF (2000 + 7) 11 toyGff) (vpCommit toyE 2000 22 toyGec) (vpCommit toyE 2000 33 toyGec) (vBc toyPr) = Ok c /\
  c mod gN toyF <> 0 /\ vpVerify toyF toyE (toyD 0) (lateProof toyPr 1 44 55 66 2000 11 22 33 7 c) (lateStatement toyPr 1 44 55 66 7 c) = Ok true /\
  lateVote toyF 1 7 c mod 4099 <> 1.
Proof.
  eexists. split; [vm_compute; reflexivity|]. split; [vm_compute; discriminate|]. split; [vm_compute; reflexivity|vm_compute; discriminate].
Qed.
Example C45_case : exists c, sChal toyPf1 = Some c /\ Z.gcd c (gN toyF) = 1 /\ Z.gcd c (gN toyE) = 1 /\
  vpVerify toyF toyE (toyD 0) toyPf1 toyComm = Ok true.
Proof. destruct (sChal toyPf1) as [c|] eqn:E; [|vm_compute in E; discriminate]. exists c. vm_compute in E. injection E as <-. vm_compute. auto. Qed.

Print Assumptions C17_setup.
Print Assumptions C18_completeness.
Print Assumptions C19_refuted.
Print Assumptions C20_perfect_zero_knowledge.
Print Assumptions C21_special_soundness.
Print Assumptions C22_refuted.
Print Assumptions C23_refuted.
Print Assumptions C45_binds_statement.
Print Assumptions C46_progress.
Print Assumptions C46_abort_fraction.
Print Assumptions C46_long_challenge_panics.
Print Assumptions C50_sound_ballot_in_range.
