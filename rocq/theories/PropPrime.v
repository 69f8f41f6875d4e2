(** C62: the orders of the shipped curve groups are prime; and C60_server met by honest ballots over a certified safe prime. *)
From Verif Require Import GoBase Json GroupIface Vector BIP BP SetupProofs VoteProof ModP App ECJson P256k1 Curve Groups NumTh Alg ModPProofs Hom Toy
  PropBP PropVote PropModP PropApp PropCurve PropTransport PropGen PropModSound PropK1 Primes PrimeCerts.
From Coq Require Import Znumtheory.

(** ** C62 *)
(** group/group.go 9: "Element represents an element of a prime-order group" *)
Theorem C62_orders_prime : forall decomp ci decomp' ci' c ri ing,
  prime (gN (P256Grp decomp ci)) /\ prime (gN (P384Grp decomp' ci')) /\ prime (gN (R255Grp c ri)) /\ prime (gN (K1Grp ing)).
Proof.
  intros. split; [exact prime_p256Order|]. split; [exact prime_p384Order|]. split; [exact prime_r255Order|exact prime_k1Order].
Qed.

(** P-256, P-384 and ristretto255 over any circl that meets its contract *)
Inductive Shipped : Grp -> Prop :=
| sh_p256 : forall decomp ci, CirclOk (P256 decomp) p256Order ci -> Shipped (P256Grp decomp ci)
| sh_p384 : forall decomp ci, CirclOk (P384 decomp) p384Order ci -> Shipped (P384Grp decomp ci)
| sh_r255 : forall c ri, RistrettoOk c r255Order ri -> Shipped (R255Grp c ri).
Lemma shipped_laws : forall G, Shipped G -> GrpLaws G /\ prime (gN G).
Proof.
  intros G [decomp ci H|decomp ci H|c ri H].
  - split; [exact (C51_curve_group_contract _ "P-256" _ ci H)|exact prime_p256Order].
  - split; [exact (C51_curve_group_contract _ "P-384" _ ci H)|exact prime_p384Order].
  - split; [exact (C51_ristretto_contract _ _ ri H)|exact prime_r255Order].
Qed.
Lemma exact_order : forall G X s t, GrpLaws G -> prime (gN G) -> X <> gId G -> (gScale G X s = gScale G X t <-> s mod gN G = t mod gN G).
Proof.
  intros G X s t L P HX. pose proof (N_pos L) as HN. split.
  - intros H. destruct (Z.eq_dec (s mod gN G) (t mod gN G)) as [|Hne]; [assumption|exfalso]. apply HX.
    assert (Hd : (s - t) mod gN G <> 0).
    { intros H0. apply Hne. apply eqm_mod0 in H0. apply (proj1 (eqm_mod _ _ _)). apply eqm_sub0; assumption. }
    destruct (modInverse_ex (s - t) (gN G) (l_order G L) (prime_gcd1 _ _ P Hd)) as (i & _ & _ & Hi).
    assert (H0 : gScale G X (s - t) = gId G).
    { replace (s - t) with (s + - t) by ring. rewrite (scale_plus L), H, <- (scale_plus L). replace (t + - t) with 0 by ring. apply (l_scale0 G L). }
    assert (H1 : gScale G (gScale G X (s - t)) i = X).
    { rewrite (scale_mul L). rewrite <- (scale_1 L X) at 2. apply (scale_eqm L). apply eqm_inv1; [exact (l_order G L)|exact Hi]. }
    rewrite <- H1, H0. apply (scale_id L).
  - intros H. apply (scale_eqm L). apply eqm_intro. exact H.
Qed.
(** every element but the identity has order exactly N: Scale determines the scalar modulo N *)
Theorem C62_exact_order : forall G X s t, Shipped G -> X <> gId G ->
  (gScale G X s = gScale G X t <-> s mod gN G = t mod gN G).
Proof. intros G X s t HG. destruct (shipped_laws G HG) as [L P]. apply exact_order; assumption. Qed.
(** C55 for secp256k1: Random answers on every draw with the draw's multiple of the generator, and the N draws give N elements
    no two of which are equal *)
Theorem C55_random_secp256k1 : forall ing A on abs, IngOk ing A on abs -> gGen A <> gId A ->
  (forall r, exists X, kgRandom ing r = Ok X /\ on X /\ abs X = gScale A (gGen A) r) /\
  (forall r r' X X', 0 <= r < k1Order -> 0 <= r' < k1Order -> kgRandom ing r = Ok X -> kgRandom ing r' = Ok X' ->
     kgIsEqual X X' = true -> r = r').
Proof.
  intros ing A on abs IO Hg.
  assert (HR : forall r, exists X, kgRandom ing r = Ok X /\ on X /\ abs X = gScale A (gGen A) r).
  { intros r. exists (inScalarBaseMult ing r). split; [reflexivity|]. apply (ig_base _ _ _ _ IO). }
  split; [exact HR|]. intros r r' X X' Hr Hr' H H' E.
  destruct (HR r) as (Y & HY & OY & EY). destruct (HR r') as (Y' & HY' & OY' & EY'). rewrite H in HY. rewrite H' in HY'. injection HY as <-. injection HY' as <-.
  apply (k1_eq ing A on abs IO X X' OY OY') in E. rewrite EY, EY' in E.
  pose proof (ig_order _ _ _ _ IO) as HO.
  apply (exact_order A _ _ _ (ig_laws _ _ _ _ IO)) in E; [|rewrite HO; exact prime_k1Order|exact Hg].
  rewrite HO, !Z.mod_small in E by assumption. exact E.
Qed.
Example C55_secp256k1_case : IngOk ing2 gK on2 abs2 /\ gGen gK <> gId gK /\ exists X, kgRandom ing2 5 = Ok X /\ kgIsEqual X (Some (5, 1)) = true.
Proof. split; [exact ing2_ok|]. split; [intros H; apply (f_equal (zv k1Order)) in H; revert H; vm_compute; discriminate|]. eexists. split; reflexivity. Qed.
(** a challenge is invertible unless it is 0 modulo N: the only challenges on which the range proofs panic *)
Theorem C62_invertible : forall n c, In n [p256Order; p384Order; r255Order; k1Order] ->
  (c mod n <> 0 <-> exists v, modInverse c n = Some v /\ (c * v) mod n = 1).
Proof.
  intros n c Hn.
  assert (P : prime n).
  { destruct Hn as [<-|[<-|[<-|[<-|[]]]]]; [exact prime_p256Order|exact prime_p384Order|exact prime_r255Order|exact prime_k1Order]. }
  pose proof (prime_ge_2 n P) as H2. split.
  - intros H0. destruct (modInverse_ex c n ltac:(lia) (prime_gcd1 _ _ P H0)) as (i & Hi & _ & He). exists i. split; assumption.
  - intros (v & _ & Hv) H0. rewrite Zmult_mod, H0, Z.mul_0_l, Zmod_0_l in Hv. lia.
Qed.
(** so over the shipped groups Prove returns a proof unless some challenge is 0 modulo N *)
Theorem C62_prove_returns : forall G HO nan64 b params v rnd, Shipped G -> nanConv nan64 -> is_int64 b = true -> Setup G nan64 b = Ok params ->
  (forall A B, fst (HashBP G HO A B) mod gN G <> 0) -> (exists u, gMap G (str_bytes SEEDU) = Ok u) ->
  exists pf gamma, Prove G HO v params rnd = Ok (pf, gamma).
Proof.
  intros G HO nan64 b params v rnd HG Hn Hb HS Hc. destruct (shipped_laws G HG) as [L P].
  apply (C01_prove_returns G HO nan64 b params v rnd L Hn Hb HS). intros A B. apply prime_gcd1; [exact P|apply Hc].
Qed.
(** the interface's contract in full, when the generator is not the identity and generates (cofactor 1) *)
Theorem C62_prime_group : forall G, Shipped G -> gGen G <> gId G -> (forall X, exists k, X = gScale G (gGen G) k) -> GrpPrime G.
Proof. intros G HG H1 H2. destruct (shipped_laws G HG) as [L P]. constructor; assumption. Qed.
(** so the soundness of the server's answer holds over P-256 and P-384 with no assumption on their order *)
Theorem C62_server_sound : forall d GE HO1 HO2 nan64 pp (b1 b2 : BallotData (ModPGrp d) GE) t1 t2 x rx y ry,
  SafePrime2 d -> Shipped GE -> gGen GE <> gId GE -> (forall X, exists k, X = gScale GE (gGen GE) k) -> Digest32 HO1 -> Digest32 HO2 ->
  2 ^ 384 <= mpOrder d -> setup d GE nan64 = Ok pp ->
  verifyVote (ModPGrp d) GE HO1 b1 (ppRP pp) = Ok (true, t1) -> verifyVote (ModPGrp d) GE HO2 b2 (ppRP pp) = Ok (true, t2) ->
  bdBallot b1 = bdBallot b2 -> pV (bdLower b1) = pV (bdLower b2) -> pV (bdUpper b1) = pV (bdUpper b2) ->
  Opens GE (bpH (ppBP pp)) (pV (bdLower b1)) x rx -> 0 <= x < 2 ^ 16 ->
  Opens GE (bpH (ppBP pp)) (pV (bdUpper b1)) y ry -> 0 <= y < 2 ^ 16 ->
  let s1 := bdVote b1 in let s2 := bdVote b2 in
  sParams s1 = ppRP pp -> sParams s2 = ppRP pp ->
  sW s1 = sW s2 -> sKp s1 = sKp s2 -> sKq1 s1 = sKq1 s2 -> sKq2 s1 = sKq2 s2 -> sChal s1 <> sChal s2 ->
  Relation2 GE (gGen GE) (bpH (ppBP pp)) (relLow s1 s2 (101 + x) rx) \/
  Relation2 GE (gGen GE) (bpH (ppBP pp)) (relHigh s1 s2 (2000 - y) (- ry)) \/
  exists v r A B, Encrypts (ModPGrp d) (ppEGPK pp) A B v r /\ Extracted s1 s2 r /\ v = 101 + x /\ 101 <= v <= 2000 /\
    UpToSign d (ctU (bdBallot b1)) A /\ UpToSign d (ctV (bdBallot b1)) B.
Proof.
  intros d GE HO1 HO2 nan64 pp b1 b2 t1 t2 x rx y ry HS HG Hg Hc D1 D2 HQ.
  assert (HB : bitLen (gN GE) < 65536 /\ gN GE <= 2 ^ 384).
  { destruct HG; split; vm_compute; congruence. }
  apply (C60_server d GE HO1 HO2 nan64 pp b1 b2 t1 t2 x rx y ry HS (C62_prime_group GE HG Hg Hc) D1 D2 (proj1 HB)). lia.
Qed.

(** ** Concrete cases *)
Definition dSafe : ModPDesc := mkModPDesc 2 safeP safeQ "safe259".
Lemma dSafe_safe : SafePrime2 dSafe.
Proof. split; [exact prime_safeP|]. split; [exact prime_safeQ|]. split; [vm_compute; reflexivity|]. split; vm_compute; reflexivity. Qed.
(** a curve group with the order of ristretto255 *)
Lemma qBig : 1 < r255Order. Proof. reflexivity. Qed.
Definition toyBig : Grp := ToyGrp r255Order qBig.
Lemma toyBig_prime : GrpPrime toyBig. Proof. apply toyPrime. exact prime_r255Order. Qed.

(** the same draws under two hash functions: all but the challenge and the responses is the same *)
Lemma cast_same : forall GF GE HO1 HO2 (pp : PublicParameters GF GE) cr dr b1 b2, cr_vp cr = [dr] ->
  castVote GF GE HO1 pp cr = Ok b1 -> castVote GF GE HO2 pp cr = Ok b2 ->
  let s1 := bdVote b1 in let s2 := bdVote b2 in
  bdBallot b1 = bdBallot b2 /\ pV (bdLower b1) = pV (bdLower b2) /\ pV (bdUpper b1) = pV (bdUpper b2) /\
  (exists x rx, pV (bdLower b1) = gAdd GE (gBase GE x) (gScale GE (bpH (ppBP pp)) rx) /\ 0 <= x < 2 ^ 16) /\
  (exists y ry, pV (bdUpper b1) = gAdd GE (gBase GE y) (gScale GE (bpH (ppBP pp)) ry) /\ 0 <= y < 2 ^ 16) /\
  sParams s1 = ppRP pp /\ sParams s2 = ppRP pp /\ sW s1 = sW s2 /\ sKp s1 = sKp s2 /\ sKq1 s1 = sKq1 s2 /\ sKq2 s1 = sKq2 s2 /\
  (exists c, getFSChallenge GF GE HO1 (sW s1) (sKp s1) (sKq1 s1) (sKq2 s1) (vBc (ppRP pp)) = Ok c /\ sChal s1 = Some c) /\
  (exists c, getFSChallenge GF GE HO2 (sW s2) (sKp s2) (sKq1 s2) (sKq2 s2) (vBc (ppRP pp)) = Ok c /\ sChal s2 = Some c).
Proof.
  intros GF GE HO1 HO2 pp cr dr b1 b2 Hd H1 H2. unfold castVote in H1, H2. rewrite Hd in H1, H2.
  destruct (randInt _ _) as [rb| | |] in H1, H2; try discriminate. cbn [bind] in H1, H2.
  destruct (encryptVote _ _ _ _) as [[ct rp]| | |] in H1, H2; try discriminate. cbn [bind] in H1, H2.
  set (ch := wrap16 (wrap16 rb + ppMin pp)) in *.
  destruct (Prove GE HO1 (wrap16 (ch - ppMin pp)) _ _) as [[l1 g1]| | |] eqn:E1; try discriminate. cbn [bind] in H1.
  destruct (Prove GE HO2 (wrap16 (ch - ppMin pp)) _ _) as [[l2 g2]| | |] eqn:E2; try discriminate. cbn [bind] in H2.
  destruct (Prove GE HO1 (wrap16 (ppMax pp - ch)) _ _) as [[u1 k1]| | |] eqn:E3; try discriminate. cbn [bind] in H1.
  destruct (Prove GE HO2 (wrap16 (ppMax pp - ch)) _ _) as [[u2 k2]| | |] eqn:E4; try discriminate. cbn [bind] in H2.
  destruct (C03_commitment_opens _ _ _ _ _ _ _ E1) as [-> V1]. destruct (C03_commitment_opens _ _ _ _ _ _ _ E2) as [-> V2].
  destruct (C03_commitment_opens _ _ _ _ _ _ _ E3) as [-> V3]. destruct (C03_commitment_opens _ _ _ _ _ _ _ E4) as [-> V4].
  destruct (gpN (ppEC pp)) as [ne|]; try discriminate. cbn [deref bind] in H1, H2.
  destruct (vpProve GF GE HO1 _ _ _ _ _ _) as [p1| | |] eqn:P1; try discriminate. cbn [bind] in H1.
  destruct (vpProve GF GE HO2 _ _ _ _ _ _) as [p2| | |] eqn:P2; try discriminate. cbn [bind] in H2.
  injection H1 as <-. injection H2 as <-. cbn [bdBallot bdLower bdUpper bdVote].
  cbn [vpProve] in P1, P2. unfold vpIter in P1, P2.
  destruct (posN (gpN (vGFF (ppRP pp)))) as [nf| | |]; try discriminate. destruct (posN (gpN (vGEC (ppRP pp)))) as [ng| | |]; try discriminate. cbn [bind] in P1, P2.
  destruct (getFSChallenge GF GE HO1 _ _ _ _ _) as [c1| | |] eqn:F1; try discriminate. cbn [bind] in P1.
  destruct (getFSChallenge GF GE HO2 _ _ _ _ _) as [c2| | |] eqn:F2; try discriminate. cbn [bind] in P2.
  destruct (_ || _) in P1; try discriminate. destruct (_ || _) in P2; try discriminate. injection P1 as <-. injection P2 as <-.
  cbn [sParams sW sKp sKq1 sKq2 sChal]. rewrite V1, V2, V3, V4.
  assert (W : forall z, 0 <= wrap16 z < 2 ^ 16) by (intros z; unfold wrap16; apply Z.mod_pos_bound; reflexivity).
  repeat split; try (do 2 eexists; split; [reflexivity|apply W]); eexists; split; try reflexivity; assumption.
Qed.
Definition hoC (c : Z) : Oracles := mkOracles (fun _ => repeat 0 27 ++ [c] ++ repeat 0 4) (fun _ => 1).
Definition sCR : CastRand := mkCastRand 1234 77 (aRnd 5) (aRnd 6) [mkDraw (2 ^ 241) 11 22 33].
(** an honest voter's ballots under two hash functions meet every hypothesis of C60_server *)
Example C60_server_case : exists pp (b1 b2 : BallotData (ModPGrp dSafe) toyBig) x rx y ry,
  SafePrime2 dSafe /\ GrpPrime toyBig /\ Digest32 (hoC 5) /\ Digest32 (hoC 7) /\
  bitLen (gN toyBig) < 65536 /\ gN toyBig <= mpOrder dSafe /\ setup dSafe toyBig 0 = Ok pp /\
  verifyVote (ModPGrp dSafe) toyBig (hoC 5) b1 (ppRP pp) = Ok (true, 2%nat) /\ verifyVote (ModPGrp dSafe) toyBig (hoC 7) b2 (ppRP pp) = Ok (true, 2%nat) /\
  bdBallot b1 = bdBallot b2 /\ pV (bdLower b1) = pV (bdLower b2) /\ pV (bdUpper b1) = pV (bdUpper b2) /\
  Opens toyBig (bpH (ppBP pp)) (pV (bdLower b1)) x rx /\ 0 <= x < 2 ^ 16 /\
  Opens toyBig (bpH (ppBP pp)) (pV (bdUpper b1)) y ry /\ 0 <= y < 2 ^ 16 /\
  sParams (bdVote b1) = ppRP pp /\ sParams (bdVote b2) = ppRP pp /\ sW (bdVote b1) = sW (bdVote b2) /\ sKp (bdVote b1) = sKp (bdVote b2) /\
  sKq1 (bdVote b1) = sKq1 (bdVote b2) /\ sKq2 (bdVote b1) = sKq2 (bdVote b2) /\ sChal (bdVote b1) = Some 5 /\ sChal (bdVote b2) = Some 7.
Proof.
  pose proof (safe_ok _ dSafe_safe) as Hok. pose proof toyBig_prime as PE. pose proof (lp_laws _ PE) as LE.
  assert (HB : bitLen (gN toyBig) = 253) by (vm_compute; reflexivity).
  assert (HQ : gN toyBig <= mpOrder dSafe) by (vm_compute; discriminate).
  assert (HM : forall s, exists u, gMap toyBig s = Ok u) by (intros s; eexists; reflexivity).
  destruct (C43_setup_outcome dSafe toyBig 0) as [_ HS]; [exact HM|rewrite HB; lia|rewrite HB; lia|].
  destruct (HS ltac:(rewrite HB; lia)) as (pp & HSe & Hmin & Hmax & _ & _ & HBx & HBc & HBg & _). rewrite HB in HBg.
  assert (HD : CastDrawsOk pp sCR).
  { split; [rewrite Hmin, Hmax; cbn [sCR cr_choice]; lia|]. intros dr Hin. unfold DrawOk. rewrite HBg. cbn [sCR cr_vp In] in Hin.
    destruct Hin as [<-|[]]; cbn [dk dtp dtq1 dtq2]; repeat split; try discriminate; reflexivity. }
  assert (Hdig : forall c, 0 <= c < 256 -> Digest32 (hoC c)).
  { intros c Hc b. split; [reflexivity|]. apply Forall_forall. intros x Hx. cbn in Hx. unfold is_byte.
    repeat (destruct Hx as [<-|Hx]; [lia|]). destruct Hx. }
  assert (Hcast : forall c, c = 5 \/ c = 7 -> exists b, castVote (ModPGrp dSafe) toyBig (hoC c) pp sCR = Ok b).
  { intros c Hc. apply (C25_cast_returns dSafe toyBig (hoC c) 0 pp sCR Hok LE); try assumption.
    - right. reflexivity.
    - rewrite HB. reflexivity.
    - vm_compute. reflexivity.
    - apply Hdig. lia.
    - intros A B. destruct Hc as [->| ->]; vm_compute; reflexivity.
    - apply HM.
    - exists (mkDraw (2 ^ 241) 11 22 33). split; [left; reflexivity|]. rewrite HBg. cbn [dk]. split; discriminate. }
  destruct (Hcast 5 ltac:(lia)) as (b1 & H1). destruct (Hcast 7 ltac:(lia)) as (b2 & H2).
  assert (Hv : forall c b, castVote (ModPGrp dSafe) toyBig (hoC c) pp sCR = Ok b -> verifyVote (ModPGrp dSafe) toyBig (hoC c) b (ppRP pp) = Ok (true, 2%nat)).
  { intros c b H. apply (C25_end_to_end dSafe toyBig (hoC c) 0 pp sCR b); try assumption; [right; reflexivity|rewrite HB; reflexivity]. }
  destruct (cast_same _ _ (hoC 5) (hoC 7) pp sCR (mkDraw (2 ^ 241) 11 22 33) b1 b2 eq_refl H1 H2)
    as (C1 & C2 & C3 & (x & rx & O1 & Bx) & (y & ry & O2 & By) & C4 & C5 & C6 & C7 & C8 & C9 & (c1 & F1 & S1) & (c2 & F2 & S2)).
  rewrite HBc in F1, F2. vm_compute in F1. vm_compute in F2. injection F1 as <-. injection F2 as <-.
  rewrite (l_base _ LE) in O1, O2.
  exists pp, b1, b2, x, rx, y, ry.
  repeat (split; [first [assumption|exact dSafe_safe|apply Hdig; lia|apply Hv; assumption|rewrite HB; reflexivity|exact O1|exact O2]|]).
  assumption.
Qed.
Example C62_case : map (fun n => match modInverse 2 n with Some v => (2 * v) mod n | None => 0 end) [p256Order; k1Order] = [1; 1].
Proof. vm_compute. reflexivity. Qed.
(** the ristretto255 order with a concrete group of that order *)
Example C62_order_case : forall s t, gScale toyBig (gGen toyBig) s = gScale toyBig (gGen toyBig) t <-> s mod r255Order = t mod r255Order.
Proof.
  intros s t. change (gScale toyBig (gGen toyBig) s) with (zqm r255Order (Hq:=qBig) (1 * s)). change (gScale toyBig (gGen toyBig) t) with (zqm r255Order (Hq:=qBig) (1 * t)).
  rewrite !Z.mul_1_l. split.
  - intros H. exact (f_equal (zv r255Order) H).
  - intros H. apply zq_eq. exact H.
Qed.

Print Assumptions C62_orders_prime.
Print Assumptions C62_exact_order.
Print Assumptions C55_random_secp256k1.
Print Assumptions C62_invertible.
Print Assumptions C62_prime_group.
Print Assumptions C62_server_sound.
Print Assumptions C62_prove_returns.
