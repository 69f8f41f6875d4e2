(** C63: elections over secp256k1, whose elements have two representations of the identity, so that the group laws hold
    only up to IsEqual; C51 for secp256k1. *)
From Verif Require Import GoBase Json GroupIface Vector BIP BP VoteProof ModP App ECJson P256k1 Groups Marshal NumTh Alg
  VectorProofs BIPProofs BPProofs SetupProofs ModPProofs BytesProofs Toy Hom Pres PropBP PropVote PropModP PropApp PropEC PropJson PropTransport PropGen.
From Coq Require Import Znumtheory.

(** ** What is assumed of ING's p256 package *)
(** [on] singles out the points the package works with, [abs] says which element of an abstract group [A] of secp256k1's order
    a point stands for. Two points stand for the same element iff their coordinates agree, nil counting as 0. Nothing is
    assumed of String. *)
Record IngOk (ing : Ing) (A : Grp) (on : ingPt -> Prop) (abs : ingPt -> E A) : Prop := {
  ig_laws : GrpLaws A;
  ig_order : gN A = k1Order;
  ig_nil : on None /\ abs None = gId A;
  ig_mul : forall P Q, on P -> on Q -> on (inMultiply ing P Q) /\ abs (inMultiply ing P Q) = gAdd A (abs P) (abs Q);
  ig_scale : forall P s, on P -> on (inScalarMult ing P s) /\ abs (inScalarMult ing P s) = gScale A (abs P) s;
  ig_base : forall s, on (inScalarBaseMult ing s) /\ abs (inScalarBaseMult ing s) = gScale A (gGen A) s;
  ig_eq : forall P Q, on P -> on Q ->
    (k1Coord (fst (ingPtrs P)) = k1Coord (fst (ingPtrs Q)) /\ k1Coord (snd (ingPtrs P)) = k1Coord (snd (ingPtrs Q)) <-> abs P = abs Q);
  ig_map : forall b x y, inMapToGroup ing b = (x, y) -> on (Some (x, y)) /\ 0 <= x /\ 0 <= y
}.

Definition k1Rel {A : Grp} (on : ingPt -> Prop) (abs : ingPt -> E A) (P : ingPt) (a : E A) : Prop := on P /\ abs P = a.

Lemma k1_isid_eq : forall P, kgIsIdentity P = kgIsEqual P None.
Proof.
  intros [[x y]|]; [|reflexivity]. unfold kgIsIdentity, kgIsEqual, k1IsIdentity, k1IsEqual, k1CoordEq. cbn.
  destruct (x =? 0), (y =? 0); reflexivity.
Qed.
Section K1Facts.
Context (ing : Ing) (A : Grp) (on : ingPt -> Prop) (abs : ingPt -> E A) (IO : IngOk ing A on abs).
Let L := ig_laws _ _ _ _ IO.

Lemma k1_eq : forall P Q, on P -> on Q -> (kgIsEqual P Q = true <-> abs P = abs Q).
Proof. intros P Q HP HQ. unfold kgIsEqual. rewrite C34_is_equal_exact. apply (ig_eq _ _ _ _ IO); assumption. Qed.

Lemma k1_pres : Pres (K1Grp ing) A (k1Rel on abs).
Proof.
  unfold k1Rel.
  constructor; cbn [K1Grp gN gGen gId gAdd gSub gNeg gScale gBase gEq gIsId].
  - exact L.
  - symmetry. apply (ig_order _ _ _ _ IO).
  - destruct (ig_base _ _ _ _ IO 1) as [H ->]. split; [exact H|apply (scale_1 L)].
  - apply (ig_nil _ _ _ _ IO).
  - intros X Y a b [HX <-] [HY <-]. apply (ig_mul _ _ _ _ IO); assumption.
  - intros X Y a b [HX <-] [HY <-]. unfold kgSubtract, kgAdd, kgNegate. destruct (ig_scale _ _ _ _ IO Y (-1) HY) as [H1 H2].
    destruct (ig_mul _ _ _ _ IO X _ HX H1) as [H3 ->]. split; [exact H3|]. rewrite H2. glin L.
  - intros X a [HX <-]. unfold kgNegate. destruct (ig_scale _ _ _ _ IO X (-1) HX) as [H1 ->]. split; [exact H1|glin L].
  - intros X a s [HX <-]. apply (ig_scale _ _ _ _ IO); assumption.
  - intros s. destruct (ig_base _ _ _ _ IO s) as [H ->]. split; [exact H|]. symmetry. apply (l_base A L).
  - intros X Y a b [HX <-] [HY <-]. apply k1_eq; assumption.
  - intros X a [HX <-]. rewrite k1_isid_eq. destruct (ig_nil _ _ _ _ IO) as [HN <-]. apply k1_eq; assumption.
Qed.
End K1Facts.

(** ** C51 for secp256k1 *)
(** The abelian group laws hold of the methods up to IsEqual, on every point built by the package: Scale is repeated Add over all
    integers, Order() annihilates every element, Negate, Subtract and BaseScale are what they are named, IsIdentity is equality
    with Identity(), and IsEqual is an equivalence that all methods respect. *)
Theorem C51_secp256k1_contract : forall ing A on abs, IngOk ing A on abs ->
  let G := K1Grp ing in let eqG X Y := gEq G X Y = true in
  (on (gId G) /\ on (gGen G) /\ (forall s, on (gBase G s)) /\
   forall X, on X -> (forall Y, on Y -> on (gAdd G X Y) /\ on (gSub G X Y)) /\ on (gNeg G X) /\ forall s, on (gScale G X s)) /\
  (forall X, on X -> eqG X X) /\
  (forall X Y, on X -> on Y -> eqG X Y -> eqG Y X) /\
  (forall X Y Z, on X -> on Y -> on Z -> eqG X Y -> eqG Y Z -> eqG X Z) /\
  (forall X X' Y Y' s, on X -> on X' -> on Y -> on Y' -> eqG X X' -> eqG Y Y' ->
     eqG (gAdd G X Y) (gAdd G X' Y') /\ eqG (gSub G X Y) (gSub G X' Y') /\ eqG (gNeg G X) (gNeg G X') /\ eqG (gScale G X s) (gScale G X' s)) /\
  (forall X Y, on X -> on Y -> eqG (gAdd G X Y) (gAdd G Y X)) /\
  (forall X Y Z, on X -> on Y -> on Z -> eqG (gAdd G X (gAdd G Y Z)) (gAdd G (gAdd G X Y) Z)) /\
  (forall X, on X -> eqG (gAdd G X (gId G)) X /\ eqG (gAdd G X (gNeg G X)) (gId G)) /\
  (forall X Y, on X -> on Y -> eqG (gSub G X Y) (gAdd G X (gNeg G Y))) /\
  (forall X s, on X -> eqG (gScale G X 0) (gId G) /\ eqG (gScale G X (s + 1)) (gAdd G (gScale G X s) X) /\ eqG (gScale G X (gN G)) (gId G)) /\
  (forall s, eqG (gBase G s) (gScale G (gGen G) s)) /\
  (forall X, on X -> (gIsId G X = true <-> eqG X (gId G))).
Proof.
  intros ing A on abs IO G eqG. pose proof (ig_laws _ _ _ _ IO) as L.
  pose proof (ig_order _ _ _ _ IO) as HO.
  assert (P := k1_pres ing A on abs IO). fold G in P.
  assert (r : forall X, on X -> k1Rel on abs X (abs X)) by (intros; split; [assumption|reflexivity]).
  assert (Rid := pr_id _ _ _ P). assert (Rg := pr_gen _ _ _ P). assert (Rb := pr_base _ _ _ P).
  assert (Ra := fun X Y HX HY => pr_add _ _ _ P X Y _ _ (r X HX) (r Y HY)).
  assert (Rs := fun X Y HX HY => pr_sub _ _ _ P X Y _ _ (r X HX) (r Y HY)).
  assert (Rn := fun X HX => pr_neg _ _ _ P X _ (r X HX)).
  assert (Rc := fun X s HX => pr_scale _ _ _ P X _ s (r X HX)).
  assert (Re := pr_eq _ _ _ P).
  split; [|repeat split].
  { split; [apply Rid|]. split; [apply Rg|]. split; [intros s; apply Rb|]. intros X HX.
    split; [intros Y HY; split; [apply (Ra X Y HX HY)|apply (Rs X Y HX HY)]|]. split; [apply (Rn X HX)|]. intros s. apply (Rc X s HX). }
  - intros X HX. apply (Re X X _ _ (r X HX) (r X HX)). reflexivity.
  - intros X Y HX HY E. apply (Re _ _ _ _ (r X HX) (r Y HY)) in E. apply (Re _ _ _ _ (r Y HY) (r X HX)). congruence.
  - intros X Y Z HX HY HZ E1 E2. apply (Re _ _ _ _ (r X HX) (r Y HY)) in E1. apply (Re _ _ _ _ (r Y HY) (r Z HZ)) in E2.
    apply (Re _ _ _ _ (r X HX) (r Z HZ)). congruence.
  - apply (Re _ _ _ _ (Ra X Y H H1) (Ra X' Y' H0 H2)). apply (Re _ _ _ _ (r X H) (r X' H0)) in H3. apply (Re _ _ _ _ (r Y H1) (r Y' H2)) in H4. congruence.
  - apply (Re _ _ _ _ (Rs X Y H H1) (Rs X' Y' H0 H2)). apply (Re _ _ _ _ (r X H) (r X' H0)) in H3. apply (Re _ _ _ _ (r Y H1) (r Y' H2)) in H4. congruence.
  - apply (Re _ _ _ _ (Rn X H) (Rn X' H0)). apply (Re _ _ _ _ (r X H) (r X' H0)) in H3. congruence.
  - apply (Re _ _ _ _ (Rc X s H) (Rc X' s H0)). apply (Re _ _ _ _ (r X H) (r X' H0)) in H3. congruence.
  - intros X Y HX HY. apply (Re _ _ _ _ (Ra X Y HX HY) (Ra Y X HY HX)). apply (l_comm A L).
  - intros X Y Z HX HY HZ.
    apply (Re _ _ _ _ (pr_add _ _ _ P _ _ _ _ (r X HX) (Ra Y Z HY HZ)) (pr_add _ _ _ P _ _ _ _ (Ra X Y HX HY) (r Z HZ))). apply (l_assoc A L).
  - apply (Re _ _ _ _ (pr_add _ _ _ P _ _ _ _ (r X H) Rid) (r X H)). apply (add_0_r L).
  - apply (Re _ _ _ _ (pr_add _ _ _ P _ _ _ _ (r X H) (Rn X H)) Rid). apply (l_neg A L).
  - intros X Y HX HY. apply (Re _ _ _ _ (Rs X Y HX HY) (pr_add _ _ _ P _ _ _ _ (r X HX) (Rn Y HY))). apply (l_sub A L).
  - apply (Re _ _ _ _ (Rc X 0 H) Rid). apply (l_scale0 A L).
  - apply (Re _ _ _ _ (Rc X (s + 1) H) (pr_add _ _ _ P _ _ _ _ (Rc X s H) (r X H))). apply (l_scaleS A L).
  - apply (Re _ _ _ _ (Rc X (gN G) H) Rid). rewrite (pr_N _ _ _ P). apply (l_scaleN A L).
  - intros s. apply (Re _ _ _ _ (Rb s) (pr_scale _ _ _ P _ _ s Rg)). apply (l_base A L).
  - intros HI. apply (pr_isid _ _ _ P _ _ (r X H)) in HI. apply (Re _ _ _ _ (r X H) Rid). exact HI.
  - intros HI. apply (pr_isid _ _ _ P _ _ (r X H)). apply (Re _ _ _ _ (r X H) Rid). exact HI.
Qed.

(** ** The vote proof over a group that is lawful up to IsEqual *)
Lemma vote_rel : forall GF GE A R HO (pr : ProofParams GF GE) x rp rq1 rq2 drs pf comm h',
  GrpLaws GF -> Pres GE A R -> SetupParams pr -> 2 ^ (vBg pr - 1) <= gN GF ->
  (forall dr, In dr drs -> DrawOk pr dr) ->
  R (gpH (vGEC pr)) h' -> Encrypts GF (gpH (vGFF pr)) (cY comm) (cXp comm) x rp ->
  R (cXq1 comm) (gAdd A (gScale A (gGen A) x) (gScale A h' rq1)) -> R (cXq2 comm) (gAdd A (gScale A (gGen A) x) (gScale A h' rq2)) ->
  vpProve GF GE HO x rp rq1 rq2 pr drs = Ok pf -> vpVerify GF GE HO pf comm = Ok true.
Proof.
  intros GF GE A R HO pr x rp rq1 rq2 drs pf comm h' LF P HS HN Hd Rh (HY & HXp) R1 R2 HP.
  destruct (setup_facts pr HS) as (HBx & HBc & HBg & Hlo & Hup & HF & HE & _).
  apply vpProve_iter in HP. destruct HP as (dr & Hin & HI). destruct (Hd dr Hin) as (Hk & _).
  apply vpIter_iff in HI; [|assumption|assumption]. destruct HI as (_ & c & Hc & Hr & ->). pose proof (pr_laws _ _ _ P) as L.
  unfold vpVerify, sigmaPedersenCheck. cbn [sParams sZ sW sKp sKq1 sKq2 sChal sSp sSq1 sSq2 deref bind].
  replace (_ <? _) with false by (symmetry; apply Z.ltb_ge; lia).
  replace (_ <=? _) with false by (symmetry; apply Z.leb_gt; lia). cbn [orb]. rewrite Hc. cbn [bind].
  rewrite Z.eqb_refl. cbn [negb]. unfold vpCommit. rewrite (pr_N _ _ _ P).
  replace (gEq GF (gBase GF ((dtp dr + c * rp) mod gN GF)) _) with true.
  2:{ symmetry. apply (l_eq GF LF). rewrite HY. glin LF. modn. apply eqm_of_eq; ring. }
  cbn [negb].
  replace (gEq GF (gAdd GF (gBase GF _) (gScale GF _ _)) _) with true.
  2:{ symmetry. apply (l_eq GF LF). rewrite HXp. glin LF; modn; apply eqm_of_eq; ring. }
  cbn [negb]. rewrite (Z.mod_small (dk dr)) by lia.
  assert (Hq : forall Xq rq t, R Xq (gAdd A (gScale A (gGen A) x) (gScale A h' rq)) ->
    gEq GE (gAdd GE (gBase GE (dk dr + c * x)) (gScale GE (gpH (vGEC pr)) ((t + c * rq) mod gN A)))
       (gAdd GE (gScale GE Xq c) (gAdd GE (gBase GE (dk dr)) (gScale GE (gpH (vGEC pr)) t))) = true).
  { intros Xq rq t RX.
    apply (pr_eq _ _ _ P _ _ (gAdd A (gBase A (dk dr + c * x)) (gScale A h' ((t + c * rq) mod gN A)))
       (gAdd A (gScale A (gAdd A (gScale A (gGen A) x) (gScale A h' rq)) c) (gAdd A (gBase A (dk dr)) (gScale A h' t)))).
    - apply (pr_add _ _ _ P); [apply (pr_base _ _ _ P)|apply (pr_scale _ _ _ P); exact Rh].
    - apply (pr_add _ _ _ P); [apply (pr_scale _ _ _ P); exact RX|].
      apply (pr_add _ _ _ P); [apply (pr_base _ _ _ P)|apply (pr_scale _ _ _ P); exact Rh].
    - glin L; modn; apply eqm_of_eq; ring. }
  rewrite (Hq _ _ _ R1), (Hq _ _ _ R2). reflexivity.
Qed.

(** ** C63 *)
(** The strings hashed to the curve by Setup with n generators, and by every proof: on each of them the package's point has a
    first coordinate of exactly 32 significant bytes. MapToGroup destroys every other point (C34_map_exact). *)
Definition SeedsFull (ing : Ing) (n : nat) : Prop := forall s, In s (usedSeeds n) -> k1Full (fst (inMapToGroup ing s)).

Section K1Votes.
Context (ing : Ing) (A : Grp) (on : ingPt -> Prop) (abs : ingPt -> E A) (IO : IngOk ing A on abs).
Local Notation GE := (K1Grp ing).
Local Notation R := (k1Rel on abs).
Let P : Pres GE A R := k1_pres ing A on abs IO.

Lemma k1_map : forall s, k1Full (fst (inMapToGroup ing s)) -> exists X a, gMap GE s = Ok X /\ R X a.
Proof.
  intros s Hf. cbn [K1Grp gMap]. unfold kgMapToGroup. destruct (inMapToGroup ing s) as [x y] eqn:E. cbn [fst] in Hf.
  destruct (ig_map _ _ _ _ IO s x y E) as (Ho & Hx & Hy). apply (C34_map_exact x y Hx Hy) in Hf. rewrite Hf. cbn [bind].
  exists (Some (x, y)), (abs (Some (x, y))). split; [reflexivity|]. split; [exact Ho|reflexivity].
Qed.
Lemma k1_seed_rel : forall n s X, SeedsFull ing n -> In s (usedSeeds n) -> gMap GE s = Ok X -> exists a, R X a.
Proof. intros n s X HF Hi HX. destruct (k1_map s (HF s Hi)) as (Y & a & HY & Ha). rewrite HX in HY. injection HY as <-. exists a. exact Ha. Qed.
Lemma seedU_used : forall n, In (str_bytes SEEDU) (usedSeeds n). Proof. intros. right. left. reflexivity. Qed.

Lemma k1_range : forall HO nan64 b params v rnd pf gamma,
  nanConv nan64 -> is_int64 b = true -> Setup GE nan64 b = Ok params -> SeedsFull ing (Z.to_nat (bpN params)) ->
  Prove GE HO v params rnd = Ok (pf, gamma) ->
  exists H', R (bpH params) H' /\ pV pf = PedersenCommit GE v gamma (bpH params) /\ R (pV pf) (PedersenCommit A v gamma H') /\
    (0 <= v < 2 ^ bpN params -> Verify GE HO pf = Ok true).
Proof.
  intros HO nan64 b params v rnd pf gamma Hn Hb HS HF HQ.
  destruct (Setup_rel GE A R P nan64 b params Hn Hb HS) as (k & g & h & H' & g' & h' & _ & _ & Hp & RH & Rg & Rh).
  { intros s X Hi HX. exact (k1_seed_rel _ s X HF Hi HX). }
  exists H'. split; [exact RH|].
  rewrite Hp in HQ. rewrite Hp in HF.
  apply (honest_rel GE A R P HO k _ _ g h v rnd pf gamma H' g' h' RH Rg Rh) in HQ.
  2:{ intros u Hu. exact (k1_seed_rel _ _ u HF (seedU_used _) Hu). }
  destruct HQ as (_ & -> & HV & res & Hver & Hiff). split; [exact HV|]. split.
  - rewrite HV. unfold PedersenCommit. apply (pr_add _ _ _ P); [apply (pr_base _ _ _ P)|apply (pr_scale _ _ _ P); exact RH].
  - intros Hv. rewrite Hver. f_equal. apply Hiff. destruct (HashBP GE HO (pA pf) (pS pf)) as [y z]. rewrite Hp in Hv. cbn [bpN] in Hv.
    rewrite (Z.mod_small v) by exact Hv. reflexivity.
Qed.
Lemma k1_range_returns : forall HO nan64 b params v rnd,
  nanConv nan64 -> is_int64 b = true -> Setup GE nan64 b = Ok params -> SeedsFull ing (Z.to_nat (bpN params)) ->
  ChallengesInvertible GE HO -> exists pf gamma, Prove GE HO v params rnd = Ok (pf, gamma).
Proof.
  intros HO nan64 b params v rnd Hn Hb HS HF HI.
  destruct (Setup_rel GE A R P nan64 b params Hn Hb HS) as (k & g & h & H' & g' & h' & _ & _ & Hp & RH & Rg & Rh).
  { intros s X Hi HX. exact (k1_seed_rel _ s X HF Hi HX). }
  destruct (k1_map _ (HF _ (seedU_used _))) as (u & u' & Hu & Ru). rewrite Hp.
  apply (honest_rel_total GE A R P HO) with (H' := H') (g' := g') (h' := h') (u := u) (u' := u'); try assumption.
  intros X Y. rewrite <- (pr_N _ _ _ P). apply HI.
Qed.

(** verifyVote on what castVote returns, for parameters that fit together *)
Lemma k1_consistent : forall GF HO nan64 (pp : PublicParameters GF GE) cr ballot,
  GrpLaws GF -> nanConv nan64 -> Consistent nan64 pp -> SeedsFull ing (Z.to_nat (bpN (ppBP pp))) -> CastDrawsOk pp cr ->
  castVote GF GE HO pp cr = Ok ballot -> verifyVote GF GE HO ballot (ppRP pp) = Ok (true, 2%nat).
Proof.
  intros GF HO nan64 pp cr ballot LF Hn C HF [Hc Hd] H. pose proof (pr_laws _ _ _ P) as L.
  destruct (cast_parts GF GE HO pp cr ballot nan64 LF C Hc H) as (rp & r1 & r2 & b1 & b2 & pf & -> & E1 & E2 & E3).
  destruct (cs_range _ _ C) as (H1 & H2 & H3). destruct (cs_bp _ _ C) as (b & Hb & HS & Hl).
  set (ch := ppMin pp + cr_choice cr) in *.
  unfold verifyVote. cbn [bdLower bdUpper bdBallot bdVote ctU ctV].
  destruct (k1_range HO nan64 b (ppBP pp) (ch - ppMin pp) (cr_bp1 cr) b1 r1 Hn Hb HS HF E1) as (h' & Rh & _ & RV1 & Hv1).
  destruct (k1_range HO nan64 b (ppBP pp) (ppMax pp - ch) (cr_bp2 cr) b2 r2 Hn Hb HS HF E2) as (h2 & Rh2 & _ & RV2 & Hv2).
  assert (h2 = h') by (destruct Rh as [_ <-]; destruct Rh2 as [_ <-]; reflexivity). subst h2.
  rewrite Hv1 by (unfold ch; lia). cbn [bind negb]. rewrite Hv2 by (unfold ch; lia). cbn [bind negb].
  rewrite (vote_rel GF GE A R HO (ppRP pp) ch rp r1 (gN GE - r2) (cr_vp cr) pf _ h' LF P (cs_rp _ _ C) (cs_q _ _ C) Hd); [reflexivity| | | | |exact E3].
  - rewrite (cs_h _ _ C). exact Rh.
  - unfold Encrypts. cbn [cY cXp]. rewrite (cs_pk _ _ C), !(l_base GF LF). split; reflexivity.
  - cbn [cXq1]. rewrite (cs_lo _ _ C).
    replace (gAdd A (gScale A (gGen A) ch) (gScale A h' r1)) with (gAdd A (gBase A (ppMin pp)) (PedersenCommit A (ch - ppMin pp) r1 h'))
      by (unfold PedersenCommit; glin L).
    apply (pr_add _ _ _ P); [apply (pr_base _ _ _ P)|exact RV1].
  - cbn [cXq2]. rewrite (cs_hi _ _ C).
    replace (gAdd A (gScale A (gGen A) ch) (gScale A h' (gN GE - r2))) with
      (gAdd A (gBase A (ppMax pp)) (gScale A (PedersenCommit A (ppMax pp - ch) r2 h') (-1))).
    + apply (pr_add _ _ _ P); [apply (pr_base _ _ _ P)|apply (pr_scale _ _ _ P); exact RV2].
    + unfold PedersenCommit. rewrite (pr_N _ _ _ P). glin L. apply eqm_iff; [apply (N_pos L)|]. exists (-1). ring.
Qed.
End K1Votes.

(** Range proofs over secp256k1 *)
Theorem C63_range_proofs : forall ing A on abs HO nan64 b params v rnd pf gamma, IngOk ing A on abs ->
  nanConv nan64 -> is_int64 b = true -> Setup (K1Grp ing) nan64 b = Ok params -> SeedsFull ing (Z.to_nat (bpN params)) ->
  0 <= v < 2 ^ bpN params ->
  Prove (K1Grp ing) HO v params rnd = Ok (pf, gamma) -> Verify (K1Grp ing) HO pf = Ok true.
Proof.
  intros ing A on abs HO nan64 b params v rnd pf gamma IO Hn Hb HS HF Hv HP.
  destruct (k1_range ing A on abs IO HO nan64 b params v rnd pf gamma Hn Hb HS HF HP) as (_ & _ & _ & _ & Hver). apply Hver, Hv.
Qed.
Theorem C63_prove_returns : forall ing A on abs HO nan64 b params v rnd, IngOk ing A on abs ->
  nanConv nan64 -> is_int64 b = true -> Setup (K1Grp ing) nan64 b = Ok params -> SeedsFull ing (Z.to_nat (bpN params)) ->
  ChallengesInvertible (K1Grp ing) HO -> exists pf gamma, Prove (K1Grp ing) HO v params rnd = Ok (pf, gamma).
Proof. intros ing A on abs HO nan64 b params v rnd IO. apply (k1_range_returns ing A on abs IO). Qed.

(** main.go's setup succeeds, ... *)
Theorem C63_setup_returns : forall ing A on abs d nan64, IngOk ing A on abs -> SeedsFull ing 16 ->
  exists pp, setup d (K1Grp ing) nan64 = Ok pp /\ ppMin pp = 101 /\ ppMax pp = 2000 /\ vBg (ppRP pp) = 256 /\ bpN (ppBP pp) = 16.
Proof.
  intros ing A on abs d nan64 IO HF.
  destruct (Setup_rel_total (K1Grp ing) nan64 65536) as (bp & HS); [cbn; auto 10| |].
  { intros s Hi. destruct (k1_map ing A on abs IO s (HF s Hi)) as (X & _ & HX & _). exists X. exact HX. }
  destruct (Setup_ok _ nan64 65536 bp eq_refl HS) as [Hx|[_ Hs]]; [discriminate|]. destruct Hs as (HN & _).
  unfold setup. rewrite HS. cbn [bind]. change (wrap16 (bitLen (gN (K1Grp ing)))) with 256. unfold vpSetup. change (_ <? 1) with false. cbn [bind].
  eexists. split; [reflexivity|]. repeat split. exact HN.
Qed.

Lemma k1_setup_consistent : forall ing d nan64 pp (Hok : ModPOk d), nanConv nan64 -> k1Order <= mpOrder d ->
  setup d (K1Grp ing) nan64 = Ok pp ->
  exists pp0 : PublicParameters (SubGrp d Hok) (K1Grp ing), pp = mapPub (emb d Hok) pp0 /\ Consistent nan64 pp0 /\
    vBx (ppRP pp0) = 16 /\ vBc (ppRP pp0) = 224 /\ ppMin pp0 = 101 /\ ppMax pp0 = 2000 /\ Z.to_nat (bpN (ppBP pp0)) = 16%nat.
Proof.
  intros ing d nan64 pp Hok Hn HQ HS.
  assert (HN : bpN (ppBP pp) = 16).
  { unfold setup in HS. destruct (Setup (K1Grp ing) nan64 65536) as [bp| | |] eqn:HB; try discriminate. cbn [bind] in HS.
    destruct (Setup_ok _ nan64 65536 bp eq_refl HB) as [Hx|[_ Hs]]; [discriminate|]. destruct Hs as (HN & _).
    destruct (vpSetup _ _ _ _ _ _ _ _ _); try discriminate. cbn [bind] in HS. injection HS as <-. exact HN. }
  destruct (setup_consistent d (K1Grp ing) nan64 pp Hok Hn ltac:(discriminate) ltac:(reflexivity)) as (pp0 & -> & C & _ & HBx & HBc & Hmin & Hmax); [|exact HS|].
  - apply Z.le_trans with k1Order; [|exact HQ]. discriminate.
  - exists pp0. split; [reflexivity|]. split; [exact C|]. repeat (split; [assumption|]). change (bpN (ppBP pp0) = 16) in HN. rewrite HN. reflexivity.
Qed.

(** ... every ballot castVote returns is accepted, ... *)
Theorem C63_end_to_end : forall ing A on abs d HO nan64 pp cr ballot, IngOk ing A on abs -> SeedsFull ing 16 ->
  ModPOk d -> nanConv nan64 -> k1Order <= mpOrder d ->
  setup d (K1Grp ing) nan64 = Ok pp -> CastDrawsOk pp cr ->
  castVote (ModPGrp d) (K1Grp ing) HO pp cr = Ok ballot ->
  verifyVote (ModPGrp d) (K1Grp ing) HO ballot (ppRP pp) = Ok (true, 2%nat).
Proof.
  intros ing A on abs d HO nan64 pp cr ballot IO HF Hok Hn HQ HS HD H.
  destruct (k1_setup_consistent ing d nan64 pp Hok Hn HQ HS) as (pp0 & -> & C & _ & _ & _ & _ & HN).
  rewrite (castVote_hom _ _ (K1Grp ing) (emb d Hok) (emb_hom d Hok)) in H.
  destruct (castVote (SubGrp d Hok) (K1Grp ing) HO pp0 cr) as [b0| | |] eqn:E0; try discriminate. cbn [res_map] in H. injection H as <-.
  change (ppRP (mapPub (emb d Hok) pp0)) with (mapPP (GE:=K1Grp ing) (emb d Hok) (ppRP pp0)).
  rewrite (verifyVote_hom _ _ (K1Grp ing) (emb d Hok) (emb_hom d Hok)).
  apply (k1_consistent ing A on abs IO _ HO nan64 pp0 cr b0 (SubLaws d Hok) Hn C); [rewrite HN; exact HF|exact HD|exact E0].
Qed.
(** ... castVote returns as soon as one draw of the vote proof does not abort, ... *)
Theorem C63_cast_returns : forall ing A on abs d HO nan64 pp cr, IngOk ing A on abs -> SeedsFull ing 16 ->
  ModPOk d -> nanConv nan64 -> k1Order <= mpOrder d ->
  setup d (K1Grp ing) nan64 = Ok pp -> CastDrawsOk pp cr -> Digest32 HO -> ChallengesInvertible (K1Grp ing) HO ->
  (exists dr, In dr (cr_vp cr) /\ 2 ^ 240 <= dk dr <= 2 ^ 255 - 2 ^ 240) ->
  exists ballot, castVote (ModPGrp d) (K1Grp ing) HO pp cr = Ok ballot.
Proof.
  intros ing A on abs d HO nan64 pp cr IO HF Hok Hn HQ HS HD HDig HI (dr & Hin & Hk).
  assert (HBg : vBg (ppRP pp) = 256).
  { unfold setup in HS. destruct (Setup (K1Grp ing) nan64 65536) as [bp| | |]; try discriminate. cbn [bind] in HS.
    unfold vpSetup in HS. change (_ <? 1) with false in HS. cbn [bind] in HS. injection HS as <-. reflexivity. }
  destruct (k1_setup_consistent ing d nan64 pp Hok Hn HQ HS) as (pp0 & -> & C & HBx & HBc & Hmin & Hmax & HN).
  change (vBg (ppRP pp0) = 256) in HBg. rewrite (castVote_hom _ _ (K1Grp ing) (emb d Hok) (emb_hom d Hok)).
  destruct HD as [Hc Hd]. change (0 <= cr_choice cr < ppMax pp0 - ppMin pp0) in Hc.
  destruct (cs_bp _ _ C) as (b & Hb & HSb & _). rewrite <- HN in HF.
  unfold castVote. unfold randInt at 1. rewrite Hmin, Hmax in *. change (wrap16 (2000 - 101) <=? 0) with false. cbn [bind].
  assert (Hch : wrap16 (wrap16 (cr_choice cr) + 101) = 101 + cr_choice cr).
  { unfold wrap16. rewrite (Z.mod_small (cr_choice cr)) by lia. rewrite Z.mod_small; lia. }
  rewrite Hch. unfold encryptVote, randInt. change (gN (SubGrp d Hok)) with (mpOrder d).
  assert (H2 : 2 < mpOrder d) by (apply Z.lt_le_trans with k1Order; [reflexivity|exact HQ]).
  replace (mpOrder d - 1 <=? 0) with false by (symmetry; apply Z.leb_gt; lia). cbn [bind].
  destruct (k1_range_returns ing A on abs IO HO nan64 b (ppBP pp0) (wrap16 (101 + cr_choice cr - 101)) (cr_bp1 cr) Hn Hb HSb HF HI) as (b1 & g1 & ->). cbn [bind].
  destruct (k1_range_returns ing A on abs IO HO nan64 b (ppBP pp0) (wrap16 (2000 - (101 + cr_choice cr))) (cr_bp2 cr) Hn Hb HSb HF HI) as (b2 & g2 & ->). cbn [bind].
  rewrite (cs_n _ _ C). cbn [deref bind].
  destruct (C46_progress (SubGrp d Hok) (K1Grp ing) HO (ppRP pp0) (101 + cr_choice cr) (cr_eg cr + 1) g1 (gN (K1Grp ing) - g2) (cr_vp cr) dr HDig ltac:(change (gN (SubGrp d Hok)) with (mpOrder d); lia) eq_refl (cs_rp _ _ C)) as (pf & ->).
  - rewrite HBc. lia.
  - rewrite HBx. lia.
  - exact Hin.
  - rewrite HBx, HBc, HBg. exact Hk.
  - cbn [bind res_map]. eexists. reflexivity.
Qed.
(** ... and main's loop over secp256k1 reports success *)
Theorem C63_driver_succeeds : forall ing A on abs d HO nan64 pp crs success, IngOk ing A on abs -> SeedsFull ing 16 ->
  ModPOk d -> nanConv nan64 -> k1Order <= mpOrder d ->
  setup d (K1Grp ing) nan64 = Ok pp -> Forall (CastDrawsOk pp) crs ->
  Forall (fun cr => exists ballot, castVote (ModPGrp d) (K1Grp ing) HO pp cr = Ok ballot) crs ->
  driverLoop (ModPGrp d) (K1Grp ing) HO pp crs success = Ok success.
Proof.
  intros ing A on abs d HO nan64 pp crs success IO HF Hok Hn HQ HS HD HC. revert success.
  induction crs as [|cr t IH]; intros success; [reflexivity|]. inversion HD; subst. inversion HC as [|? ? [bl Hbl] HC']; subst.
  cbn [driverLoop]. rewrite Hbl. cbn [bind]. rewrite (C63_end_to_end ing A on abs d HO nan64 pp cr bl) by assumption. cbn [bind Nat.ltb Nat.leb].
  rewrite andb_true_r. apply IH; assumption.
Qed.
(** with the constants of main.go (primality of the RFC 3526 prime is a hypothesis) *)
Theorem C63_rfc3526 : forall ing A on abs HO nan64, prime (mpField rfcDesc) -> prime (mpOrder rfcDesc) ->
  IngOk ing A on abs -> SeedsFull ing 16 -> nanConv nan64 ->
  exists pp, setup rfcDesc (K1Grp ing) nan64 = Ok pp /\
    forall cr ballot, CastDrawsOk pp cr -> castVote (ModPGrp rfcDesc) (K1Grp ing) HO pp cr = Ok ballot ->
      verifyVote (ModPGrp rfcDesc) (K1Grp ing) HO ballot (ppRP pp) = Ok (true, 2%nat).
Proof.
  intros ing A on abs HO nan64 Hp Hq IO HF Hn. pose proof C49_rfc3526 as (_ & _ & _ & _ & _ & _ & _ & HSP).
  pose proof (safe_ok _ (HSP Hp Hq)) as Hok.
  destruct (C63_setup_returns ing A on abs rfcDesc nan64 IO HF) as (pp & HS & _). exists pp. split; [exact HS|].
  intros cr ballot HD HC.
  assert (HQ : k1Order <= mpOrder rfcDesc) by (vm_compute; discriminate).
  exact (C63_end_to_end ing A on abs rfcDesc HO nan64 pp cr ballot IO HF Hok Hn HQ HS HD HC).
Qed.

(** ** Concrete cases *)
(** "points" (k,1) adding like k modulo the order; a sum, product or base multiple that vanishes is the point 0,0, but multiplying
    by the scalar 0 gives nil,nil, and String tells the two apart *)
Definition hK : 1 < k1Order. Proof. reflexivity. Qed.
Definition gK : Grp := ToyGrp k1Order hK.
Definition k1mk (k : Z) : ingPt := Some (k mod k1Order, if k mod k1Order =? 0 then 0 else 1).
Definition ing2 : Ing := mkIng (fun a b => k1mk (ingV a + ingV b)) (fun a s => if s =? 0 then None else k1mk (ingV a * s)) k1mk
  (fun s => (2 ^ 255 + (fold_left Z.add s 0) mod 2 ^ 20, 1)) (fun a => match a with None => [110; 105; 108] | Some (x, y) => [x; y] end).
Definition on2 (P : ingPt) : Prop := P = None \/ exists k, P = k1mk k.
Definition abs2 (P : ingPt) : E gK := gBase gK (ingV P).
Lemma abs2_mk : forall k, abs2 (k1mk k) = gBase gK k.
Proof. intros k. unfold abs2, k1mk, ingV. cbn [gK ToyGrp gBase]. apply zq_eq. cbn [zv zqm]. apply Zmod_mod. Qed.
Lemma on2_v : forall P, on2 P -> 0 <= ingV P < k1Order /\
  k1Coord (fst (ingPtrs P)) = ingV P /\ k1Coord (snd (ingPtrs P)) = if ingV P =? 0 then 0 else 1.
Proof.
  intros P [->|[k ->]]; cbn [k1mk ingV ingPtrs fst snd k1Coord].
  - split; [split; [discriminate|reflexivity]|split; reflexivity].
  - split; [apply Z.mod_pos_bound; reflexivity|split; reflexivity].
Qed.
Lemma ing2_ok : IngOk ing2 gK on2 abs2.
Proof.
  pose proof (toyLaws k1Order hK) as L. fold gK in L.
  constructor; cbn [ing2 inMultiply inScalarMult inScalarBaseMult inMapToGroup].
  - exact L.
  - reflexivity.
  - split; [left; reflexivity|]. unfold abs2. cbn [ingV]. rewrite (l_base gK L). apply (l_scale0 gK L).
  - intros P Q _ _. split; [right; eexists; reflexivity|]. rewrite abs2_mk. unfold abs2. glin L.
  - intros P s _. destruct (Z.eqb_spec s 0) as [->|].
    + split; [left; reflexivity|]. unfold abs2. cbn [ingV]. glin L.
    + split; [right; eexists; reflexivity|]. rewrite abs2_mk. unfold abs2. glin L.
  - intros s. split; [right; eexists; reflexivity|]. rewrite abs2_mk. glin L.
  - intros P Q HP HQ. destruct (on2_v P HP) as (BP & -> & ->). destruct (on2_v Q HQ) as (BQ & -> & ->). split.
    + intros [He _]. unfold abs2. rewrite He. reflexivity.
    + intros He. assert (ingV P = ingV Q) as ->.
      { apply (f_equal (zv k1Order)) in He. unfold abs2 in He. cbn [gK ToyGrp gBase zv zqm] in He. rewrite !Z.mod_small in He by assumption. exact He. }
      split; reflexivity.
  - intros b x y He. apply pair_equal_spec in He. destruct He as [<- <-]. pose proof (Z.mod_pos_bound (fold_left Z.add b 0) (2 ^ 20) ltac:(reflexivity)) as Hm.
    set (m := fold_left Z.add b 0 mod 2 ^ 20) in *. assert (Hx : 0 < 2 ^ 255 + m < k1Order).
    { split; [apply Z.lt_le_trans with (2 ^ 255); [reflexivity|lia]|]. apply Z.lt_trans with (2 ^ 255 + 2 ^ 20); [lia|reflexivity]. }
    split; [|split; [lia|discriminate]]. right. exists (2 ^ 255 + m). unfold k1mk. rewrite Z.mod_small by lia.
    destruct (Z.eqb_spec (2 ^ 255 + m) 0); [lia|reflexivity].
Qed.
Lemma ing2_seeds : forall n, SeedsFull ing2 n.
Proof.
  intros n s _. cbn [ing2 inMapToGroup fst]. pose proof (Z.mod_pos_bound (fold_left Z.add s 0) (2 ^ 20) ltac:(reflexivity)) as Hm.
  set (m := fold_left Z.add s 0 mod 2 ^ 20) in *. unfold k1Full. split.
  - apply Z.le_trans with (2 ^ 255); [discriminate|lia].
  - apply Z.lt_trans with (2 ^ 255 + 2 ^ 20); [lia|reflexivity].
Qed.
(** the two identities are different values with different strings, and equal for IsEqual *)
Example C51_secp256k1_case : IngOk ing2 gK on2 abs2 /\
  gScale (K1Grp ing2) (gGen (K1Grp ing2)) 0 <> gScale (K1Grp ing2) (gGen (K1Grp ing2)) k1Order /\
  gStr (K1Grp ing2) (gScale (K1Grp ing2) (gGen (K1Grp ing2)) 0) <> gStr (K1Grp ing2) (gScale (K1Grp ing2) (gGen (K1Grp ing2)) k1Order) /\
  gEq (K1Grp ing2) (gScale (K1Grp ing2) (gGen (K1Grp ing2)) 0) (gScale (K1Grp ing2) (gGen (K1Grp ing2)) k1Order) = true.
Proof. split; [exact ing2_ok|]. repeat split; vm_compute; congruence. Qed.

(** p = 2^257 - 1 and generator 2, an ElGamal group larger than secp256k1 *)
Definition dBig7 : ModPDesc := mkModPDesc 2 (2 ^ 257 - 1) (257 * 2 ^ 250) "toy257".
Lemma dBig7_ok : ModPOk dBig7.
Proof.
  split; [reflexivity|]. split; [reflexivity|]. split; [split; [discriminate|reflexivity]|].
  cbn [dBig7 mpGen mpOrder mpField]. rewrite Z.pow_mul_r by discriminate.
  rewrite <- (Z.mod_small 1 (2 ^ 257 - 1)) by (split; [discriminate|reflexivity]).
  apply (proj1 (eqm_mod _ _ _)). transitivity (1 ^ (2 ^ 250)).
  - apply eqm_pow. apply eqm_iff; [reflexivity|]. exists 1. reflexivity.
  - apply eqm_of_eq. apply Z.pow_1_l. discriminate.
Qed.
Example C63_case : exists pp ballot, setup dBig7 (K1Grp ing2) 0 = Ok pp /\ CastDrawsOk pp bCR /\
  castVote (ModPGrp dBig7) (K1Grp ing2) oneHO pp bCR = Ok ballot /\
  verifyVote (ModPGrp dBig7) (K1Grp ing2) oneHO ballot (ppRP pp) = Ok (true, 2%nat).
Proof.
  assert (HQ : k1Order <= mpOrder dBig7) by discriminate. assert (Hn : nanConv 0) by (right; reflexivity).
  destruct (C63_setup_returns ing2 gK on2 abs2 dBig7 0 ing2_ok (ing2_seeds 16)) as (pp & HS & Hmin & Hmax & HBg & _).
  assert (HD : CastDrawsOk pp bCR).
  { split; [rewrite Hmin, Hmax; cbn [bCR cr_choice]; lia|]. intros dr Hin. unfold DrawOk. rewrite HBg. cbn [bCR cr_vp In] in Hin.
    destruct Hin as [<-|[<-|[]]]; cbn [dk dtp dtq1 dtq2]; repeat split; try discriminate; reflexivity. }
  assert (Hdig : Digest32 oneHO).
  { intros b. split; [reflexivity|]. apply Forall_forall. intros x Hx. cbn in Hx. unfold is_byte.
    repeat (destruct Hx as [<-|Hx]; [lia|]). destruct Hx. }
  destruct (C63_cast_returns ing2 gK on2 abs2 dBig7 oneHO 0 pp bCR ing2_ok (ing2_seeds 16) dBig7_ok Hn HQ HS HD Hdig) as (b & Hb).
  - intros X Y. replace (HashBP (K1Grp ing2) oneHO X Y) with (1, 1) by reflexivity. apply Z.gcd_1_l.
  - exists (mkDraw (2 ^ 241) 11 22 33). split; [right; left; reflexivity|]. cbn [dk]. split; discriminate.
  - exists pp, b. split; [exact HS|]. split; [exact HD|]. split; [exact Hb|].
    exact (C63_end_to_end ing2 gK on2 abs2 dBig7 oneHO 0 pp bCR b ing2_ok (ing2_seeds 16) dBig7_ok Hn HQ HS HD Hb).
Qed.

Print Assumptions C51_secp256k1_contract.
Print Assumptions C63_range_proofs.
Print Assumptions C63_prove_returns.
Print Assumptions C63_setup_returns.
Print Assumptions C63_end_to_end.
Print Assumptions C63_cast_returns.
Print Assumptions C63_driver_succeeds.
Print Assumptions C63_rfc3526.
