(** C80: a ballot is accepted for one range of candidates only, and in every election with that range. *)
From Verif Require Import GoBase Json GroupIface Vector BIP BP VoteProof ModP App ECJson P256k1 Groups Marshal NumTh Alg
  VectorProofs BIPProofs BPProofs SetupProofs ModPProofs BytesProofs Toy Hom Pres PropBP PropVote PropModP PropApp PropEC PropCurve PropJson PropTransport PropGen
  PropCopy PropK1 Curve Primes PrimeCerts PropPrime PropDeaf PropK1Sound.
From Coq Require Import Znumtheory.

(** ** Specification: what moving the ends of the range by (dlo, dhi) does to a proof with challenge c *)
Definition SameFor (N c lo hi lo' hi' : Z) : Prop := (N | c * (lo' - lo)) /\ (N | c * (hi' - hi)).
Definition sameForb (N c lo hi lo' hi' : Z) : bool := ((c * (lo' - lo)) mod N =? 0) && ((c * (hi' - hi)) mod N =? 0).

Section Replay.
Context (GF GE A : Grp) (R : E GE -> E A -> Prop) (P : Pres GE A R) (HO : Oracles).
Let L : GrpLaws A := pr_laws _ _ _ P.

(** one of the two checks of SigmaProof.Verify on a commitment shifted by e *)
Lemma shift_check : GrpPrime A -> forall z s c k V k0 V0 h0 (gp : GroupParams GE) e e', R k k0 -> R V V0 -> R (gpH gp) h0 ->
  sigmaPedersenCheck GE z s c k (gAdd GE (gBase GE e) V) gp = true ->
  sigmaPedersenCheck GE z s c k (gAdd GE (gBase GE e') V) gp = ((c * (e' - e)) mod gN GE =? 0).
Proof using P.
  intros PA z s c k V k0 V0 h0 gp e e' Hk HV Hh H. unfold sigmaPedersenCheck, vpCommit in *. cbv zeta in *.
  assert (Hl : R (gAdd GE (gBase GE z) (gScale GE (gpH gp) s)) (gAdd A (gBase A z) (gScale A h0 s))).
  { apply (pr_add _ _ _ P); [apply (pr_base _ _ _ P)|apply (pr_scale _ _ _ P), Hh]. }
  assert (Hr : forall e, R (gAdd GE (gScale GE (gAdd GE (gBase GE e) V) c) k) (gAdd A (gScale A (gAdd A (gBase A e) V0) c) k0)).
  { intros e0. apply (pr_add _ _ _ P); [|exact Hk]. apply (pr_scale _ _ _ P), (pr_add _ _ _ P); [apply (pr_base _ _ _ P)|exact HV]. }
  apply (pr_eq _ _ _ P _ _ _ _ Hl (Hr e)) in H.
  apply eq_true_iff_eq. rewrite (pr_eq _ _ _ P _ _ _ _ Hl (Hr e')), H, Z.eqb_eq, (pr_N _ _ _ P).
  rewrite !(l_base A L). split.
  - intros E1. apply (add_cancel_r L) in E1. apply (proj1 (eqm_mod0 _ _)).
    assert (E2 : gScale A (gGen A) (c * e) = gScale A (gGen A) (c * e')).
    { apply (add_cancel_r L (gScale A V0 c)). etransitivity; [|etransitivity; [exact E1|]]; glin L; modn; apply eqm_of_eq; ring. }
    apply (gen_inj A PA) in E2. apply (eqm_intro (gN A)) in E2.
    transitivity (c * e' - c * e); [apply eqm_of_eq; ring|]. rewrite E2. apply eqm_of_eq. ring.
  - intros E1. apply (proj2 (eqm_mod0 _ _)) in E1.
    assert (E2 : eqm (gN A) (c * e) (c * e')).
    { transitivity (c * e + c * (e' - e)); [rewrite E1|]; apply eqm_of_eq; ring. }
    assert (E3 : gScale A (gGen A) (c * e) = gScale A (gGen A) (c * e')) by (apply (scale_eqm L); exact E2).
    f_equal. transitivity (gAdd A (gScale A (gGen A) (c * e)) (gScale A V0 c)); [|rewrite E3]; glin L; modn; apply eqm_of_eq; ring.
Qed.

(** the elements a ballot is made of, as far as the range matters, stand for elements of A *)
Record Stands (b : BallotData GF GE) : Prop := {
  st_low : exists a, R (pV (bdLower b)) a;
  st_up : exists a, R (pV (bdUpper b)) a;
  st_k1 : exists a, R (sKq1 (bdVote b)) a;
  st_k2 : exists a, R (sKq2 (bdVote b)) a;
  st_h : exists a, R (gpH (vGEC (sParams (bdVote b)))) a
}.
Lemma replay_gen : GrpPrime A -> forall (b : BallotData GF GE) rp rp' n, Stands b -> verifyVote GF GE HO b rp = Ok (true, n) ->
  exists c, sChal (bdVote b) = Some c /\
    getFSChallenge GF GE HO (sW (bdVote b)) (sKp (bdVote b)) (sKq1 (bdVote b)) (sKq2 (bdVote b)) (vBc (sParams (bdVote b))) = Ok c /\
    verifyVote GF GE HO b rp' = Ok (sameForb (gN GE) c (vLo rp) (vHi rp) (vLo rp') (vHi rp'), n).
Proof using P.
  intros PA b rp rp' n [[lo0 Hlo] [up0 Hup] [k10 Hk1] [k20 Hk2] [h0 Hh]] H. unfold verifyVote in *.
  destruct (Verify GE HO (bdLower b)) as [[]| | |]; try discriminate; cbn [bind negb] in *; try discriminate.
  destruct (Verify GE HO (bdUpper b)) as [[]| | |]; try discriminate; cbn [bind negb] in *; try discriminate. cbv zeta in *.
  unfold vpVerify in *. cbv zeta in *. cbn [cY cXp cXq1 cXq2] in *.
  destruct (sZ (bdVote b)) as [z|]; [|discriminate]. cbn [deref bind] in *. destruct (_ || _); [discriminate|].
  destruct (getFSChallenge GF GE HO _ _ _ _ _) as [c0| | |]; try discriminate. cbn [bind] in *.
  destruct (sChal (bdVote b)) as [c|]; [|discriminate]. cbn [deref bind] in *.
  destruct (c0 =? c) eqn:Ec; cbn [negb bind] in *; [|discriminate]. apply Z.eqb_eq in Ec. subst c0. exists c. split; [reflexivity|]. split; [reflexivity|].
  destruct (sSp (bdVote b)) as [sp|]; [|discriminate]. cbn [deref bind] in *.
  destruct (gEq GF _ _); cbn [negb bind] in *; [|discriminate]. destruct (sigmaPedersenCheck GF _ _ _ _ _ _); cbn [negb bind] in *; [|discriminate].
  destruct (sSq1 (bdVote b)) as [s1|]; [|discriminate]. cbn [deref bind] in *.
  destruct (sigmaPedersenCheck GE z s1 c (sKq1 (bdVote b)) (gAdd GE (gBase GE (vLo rp)) (pV (bdLower b))) _) eqn:E1; cbn [negb bind] in H; [|discriminate].
  destruct (sSq2 (bdVote b)) as [s2|]; [|discriminate]. cbn [deref bind] in *.
  destruct (sigmaPedersenCheck GE z s2 c (sKq2 (bdVote b)) (gAdd GE (gBase GE (vHi rp)) (gScale GE (pV (bdUpper b)) (-1))) _) eqn:E2; cbn [negb bind] in H; [|discriminate].
  injection H as <-.
  rewrite (shift_check PA _ _ _ _ _ _ _ _ _ _ (vLo rp') Hk1 Hlo Hh E1).
  rewrite (shift_check PA _ _ _ _ _ _ _ _ _ _ (vHi rp') Hk2 (pr_scale _ _ _ P _ _ (-1) Hup) Hh E2). unfold sameForb.
  destruct (_ =? 0); cbn [negb andb bind]; [|reflexivity]. destruct (_ =? 0); reflexivity.
Qed.
End Replay.

Lemma sameForb_iff : forall N c lo hi lo' hi', 0 < N -> (sameForb N c lo hi lo' hi' = true <-> SameFor N c lo hi lo' hi').
Proof.
  intros N c lo hi lo' hi' HN. unfold sameForb, SameFor. rewrite andb_true_iff, !Z.eqb_eq, !(Z.mod_divide) by lia. reflexivity.
Qed.
(** for a prime order above the ends of the range, only a challenge that is a multiple of the order leaves a choice *)
Lemma sameFor_prime : forall N c lo hi lo' hi', prime N -> 65536 <= N -> 0 <= lo < 65536 -> 0 <= hi < 65536 -> 0 <= lo' < 65536 -> 0 <= hi' < 65536 ->
  c mod N <> 0 -> (SameFor N c lo hi lo' hi' <-> lo' = lo /\ hi' = hi).
Proof.
  intros N c lo hi lo' hi' HP HN H1 H2 H3 H4 Hc.
  assert (HD : forall a b, 0 <= a < 65536 -> 0 <= b < 65536 -> (N | c * (b - a)) -> b = a).
  { intros a b Ha Hb HD. apply prime_mult in HD; [|exact HP]. destruct HD as [HD|HD]; [apply Z.mod_divide in HD; lia|].
    destruct HD as [k Hk]. destruct (Z.eq_dec k 0) as [->|]; [lia|]. exfalso. nia. }
  split; [intros [A1 A2]; split; apply HD; assumption|]. intros [-> ->]. split; rewrite Z.sub_diag, Z.mul_0_r; apply Z.divide_0_r.
Qed.

(** C80. What verifyVote answers on an accepted ballot for any other parameters: only the ends of the range count, and only as far as the
    challenge of the vote proof does not cancel them. GF may be any group, lawful or not. *)
Theorem C80_exact : forall GF GE HO (b : BallotData GF GE) rp rp' n, GrpPrime GE -> verifyVote GF GE HO b rp = Ok (true, n) ->
  exists c ok, sChal (bdVote b) = Some c /\ verifyVote GF GE HO b rp' = Ok (ok, n) /\
    (ok = true <-> SameFor (gN GE) c (vLo rp) (vHi rp) (vLo rp') (vHi rp')).
Proof.
  intros GF GE HO b rp rp' n PE H. pose proof (lp_laws GE PE) as LE. pose proof (l_order GE LE) as HN.
  assert (HS : Stands GF GE GE eq b) by (constructor; eexists; reflexivity).
  destruct (replay_gen GF GE GE eq (self_pres GE LE) HO PE b rp rp' n HS H) as (c & Hc & _ & Hv).
  exists c. eexists. split; [exact Hc|]. split; [exact Hv|]. apply sameForb_iff. lia.
Qed.
(** Two elections whose ranges of candidates (16-bit numbers) differ never both accept the same ballot, unless the challenge in it is a
    multiple of the order. *)
Theorem C80_one_range : forall GF GE HO (b : BallotData GF GE) rp rp' n n' c, GrpPrime GE -> 65536 <= gN GE ->
  0 <= vLo rp < 65536 -> 0 <= vHi rp < 65536 -> 0 <= vLo rp' < 65536 -> 0 <= vHi rp' < 65536 ->
  sChal (bdVote b) = Some c -> c mod gN GE <> 0 ->
  verifyVote GF GE HO b rp = Ok (true, n) -> verifyVote GF GE HO b rp' = Ok (true, n') ->
  vLo rp' = vLo rp /\ vHi rp' = vHi rp.
Proof.
  intros GF GE HO b rp rp' n n' c PE HB H1 H2 H3 H4 Hc Hz V1 V2.
  destruct (C80_exact GF GE HO b rp rp' n PE V1) as (c1 & ok & Hc1 & Hv & Hok). assert (c1 = c) by congruence. subst c1.
  rewrite V2 in Hv. injection Hv as <- _. apply (sameFor_prime (gN GE) c); try assumption; [apply (lp_prime GE PE)|]. apply Hok. reflexivity.
Qed.
(** The exception is real: the challenge length is read from the proof, and a proof that asks for no challenge is accepted for every range. *)
Theorem C80_no_challenge : forall GF GE HO (b : BallotData GF GE) rp rp' n, GrpPrime GE -> verifyVote GF GE HO b rp = Ok (true, n) ->
  0 <= vBc (sParams (bdVote b)) < 8 -> verifyVote GF GE HO b rp' = Ok (true, n).
Proof.
  intros GF GE HO b rp rp' n PE H HB. pose proof (lp_laws GE PE) as LE. pose proof (l_order GE LE) as HN.
  assert (HS : Stands GF GE GE eq b) by (constructor; eexists; reflexivity).
  destruct (replay_gen GF GE GE eq (self_pres GE LE) HO PE b rp rp' n HS H) as (c & Hc & Hf & Hv).
  unfold getFSChallenge in Hf. rewrite Z.div_small in Hf by lia. unfold slice_to in Hf. cbn in Hf. injection Hf as <-.
  rewrite Hv. unfold sameForb. rewrite !Z.mul_0_l, Zmod_0_l. reflexivity.
Qed.
(** The program's ballots: with the parameters of setup (candidates 101 to 2000, 224-bit challenges) a ballot that castVote returns is
    accepted under every parameter set whose range is 101 to 2000 - whatever its key, generators and lengths, so in any other election with
    these candidate numbers too - and under no other, unless the 28 digest bytes that make the challenge are all zero. *)
Theorem C80_program : forall d GE HO nan64 pp cr b rp', ModPOk d -> GrpPrime GE -> Digest32 HO -> nanConv nan64 ->
  bitLen (gN GE) < 65536 -> gN GE <= mpOrder d -> setup d GE nan64 = Ok pp -> CastDrawsOk pp cr ->
  castVote (ModPGrp d) GE HO pp cr = Ok b -> 0 <= vLo rp' < 65536 -> 0 <= vHi rp' < 65536 ->
  (vLo rp' = 101 -> vHi rp' = 2000 -> verifyVote (ModPGrp d) GE HO b rp' = Ok (true, 2%nat)) /\
  (vLo rp' <> 101 \/ vHi rp' <> 2000 -> sChal (bdVote b) <> Some 0 -> verifyVote (ModPGrp d) GE HO b rp' = Ok (false, 2%nat)).
Proof.
  intros d GE HO nan64 pp cr b rp' Hok PE HD Hn HB HQ HS HC H Hl Hh. pose proof (lp_laws GE PE) as LE. pose proof (l_order GE LE) as HN.
  pose proof (C25_end_to_end d GE HO nan64 pp cr b Hok LE Hn HB HQ HS HC H) as HV.
  assert (HP : sParams (bdVote b) = ppRP pp).
  { destruct cr as [c0 r0 r1 r2 drs]. apply (cast_facts _ _ _ _ _ _ _ _ _ _ H). }
  assert (HR : vLo (ppRP pp) = 101 /\ vHi (ppRP pp) = 2000 /\ vBc (ppRP pp) = 224 /\ 242 <= bitLen (gN GE)).
  { unfold setup in HS. destruct (Setup GE nan64 65536) as [bp| | |]; try discriminate. cbn [bind] in HS. unfold vpSetup in HS.
    destruct (_ <? 1) eqn:Hb1; [discriminate|]. cbn [bind] in HS. injection HS as <-. cbn [ppRP vLo vHi vBc]. repeat split.
    apply Z.ltb_ge in Hb1. assert (HB0 : 0 <= bitLen (gN GE)) by (unfold bitLen; destruct (_ =? 0); [lia|pose proof (Z.log2_nonneg (Z.abs (gN GE))); lia]).
    unfold wrap16 in Hb1. rewrite Z.mod_small in Hb1 by lia. lia. }
  destruct HR as (R1 & R2 & R3 & R4).
  assert (HS0 : Stands (ModPGrp d) GE GE eq b) by (constructor; eexists; reflexivity).
  destruct (replay_gen (ModPGrp d) GE GE eq (self_pres GE LE) HO PE b (ppRP pp) rp' 2%nat HS0 HV) as (c & Hc & Hf & Hv).
  rewrite HP, R3 in Hf. apply (fs_bound HD) in Hf; [|discriminate]. rewrite Hv, R1, R2.
  assert (HN2 : 2 ^ 241 <= gN GE).
  { unfold bitLen in R4. replace (gN GE =? 0) with false in R4 by (symmetry; apply Z.eqb_neq; lia). rewrite Z.abs_eq in R4 by lia.
    apply Z.log2_le_pow2; lia. }
  assert (HP1 : 2 ^ 224 < 2 ^ 241) by reflexivity. assert (HP2 : 65536 < 2 ^ 241) by reflexivity.
  split.
  - intros -> ->. unfold sameForb. rewrite !Z.sub_diag, Z.mul_0_r, Zmod_0_l. reflexivity.
  - intros Hne Hc0. f_equal. f_equal. apply not_true_iff_false. intros Ht. apply sameForb_iff in Ht; [|lia].
    apply (sameFor_prime (gN GE) c) in Ht; try lia; [apply (lp_prime GE PE)|].
    rewrite Z.mod_small by lia. intros ->. apply Hc0. exact Hc.
Qed.
(** secp256k1, where IsEqual is not equality: the same for every ballot whose commitments are points of the curve *)
Theorem C80_secp256k1 : forall ing A on abs GF HO (b : BallotData GF (K1Grp ing)) rp rp' n, IngOk ing A on abs -> GrpPrime A ->
  BallotOn on b -> on (gpH (vGEC (sParams (bdVote b)))) ->
  verifyVote GF (K1Grp ing) HO b rp = Ok (true, n) ->
  exists c ok, sChal (bdVote b) = Some c /\ verifyVote GF (K1Grp ing) HO b rp' = Ok (ok, n) /\
    (ok = true <-> SameFor k1Order c (vLo rp) (vHi rp) (vLo rp') (vHi rp')).
Proof.
  intros ing A on abs GF HO b rp rp' n IO PA (O1 & O2 & O3 & O4) O5 H.
  assert (HS : Stands GF (K1Grp ing) A (k1Rel on abs) b) by (constructor; eexists; (split; [eassumption|reflexivity])).
  destruct (replay_gen GF (K1Grp ing) A (k1Rel on abs) (k1_pres ing A on abs IO) HO PA b rp rp' n HS H) as (c & Hc & _ & Hv).
  exists c. eexists. split; [exact Hc|]. split; [exact Hv|]. apply sameForb_iff. reflexivity.
Qed.

(** ** Concrete case: the ballot of C25_run (candidate 5 of 3 to 6) under the range it was made for and under two others *)
Definition shifted (lo hi : Z) : ProofParams (ModPGrp dToy) toy :=
  mkProofParams (vBx aRP) (vBc aRP) (vBg aRP) (vBb aRP) lo hi (vGFF aRP) (vGEC aRP).
Example C80_case : (b <- castVote (ModPGrp dToy) toy aHO aPP aCR ;;
  let t lo hi := verifyVote (ModPGrp dToy) toy aHO b (shifted lo hi) in
  v <- t 3 6 ;; w <- t 3 7 ;; x <- t 2 6 ;; Ok (v, w, x, match sChal (bdVote b) with Some c => c mod gN toy =? 0 | None => true end)) =
  Ok ((true, 2%nat), (false, 2%nat), (false, 2%nat), false).
Proof. vm_compute. reflexivity. Qed.
(** C80_no_challenge: the forgery of C22 inside a ballot with honest range proofs *)
Example C80_no_challenge_case : (b <- castVote (ModPGrp dToy) toy aHO aPP aCR ;;
  let b' := mkBallotData (bdBallot b) (bdLower b) (bdUpper b) (forgeNoChallenge aRP) in
  v <- verifyVote (ModPGrp dToy) toy aHO b' (shifted 3 6) ;; w <- verifyVote (ModPGrp dToy) toy aHO b' (shifted 40 77) ;;
  Ok (v, w, vBc (sParams (bdVote b')))) = Ok ((true, 2%nat), (true, 2%nat), 0).
Proof. vm_compute. reflexivity. Qed.
(** C80_program: the setting of C25_case (p = 2^253 - 1, curve group of the order of ristretto255) with a digest whose first 28 bytes are not
    all zero (those of oneHO are, and with it the second half of C80_program would say nothing) *)
Definition onesHO : Oracles := mkOracles (fun _ => repeat 1 32) (fun _ => 1).
Example C80_program_case : exists pp b, ModPOk dBig /\ GrpPrime gR /\ Digest32 onesHO /\ nanConv 0 /\ bitLen (gN gR) < 65536 /\ gN gR <= mpOrder dBig /\
  setup dBig gR 0 = Ok pp /\ CastDrawsOk pp bCR /\ castVote (ModPGrp dBig) gR onesHO pp bCR = Ok b /\ sChal (bdVote b) <> Some 0 /\ sChal (bdVote b) <> None.
Proof.
  assert (HB : bitLen (gN gR) = 253) by reflexivity.
  assert (HQ : gN gR <= mpOrder dBig) by discriminate.
  destruct (C43_setup_outcome dBig gR 0) as [_ HS]; [intros s; eexists; reflexivity|rewrite HB; lia|rewrite HB; lia|].
  destruct (HS ltac:(rewrite HB; lia)) as (pp & HSe & Hmin & Hmax & _ & _ & _ & _ & HBg & _). rewrite HB in HBg.
  assert (HD : CastDrawsOk pp bCR).
  { split; [rewrite Hmin, Hmax; cbn [bCR cr_choice]; lia|]. intros dr Hin. unfold DrawOk. rewrite HBg. cbn [bCR cr_vp In] in Hin.
    destruct Hin as [<-|[<-|[]]]; cbn [dk dtp dtq1 dtq2]; repeat split; try discriminate; reflexivity. }
  assert (Hdig : Digest32 onesHO).
  { intros b. split; [reflexivity|]. apply Forall_forall. intros x Hx. cbn in Hx. unfold is_byte.
    repeat (destruct Hx as [<-|Hx]; [lia|]). destruct Hx. }
  assert (HI : forall A B, fst (HashBP gR onesHO A B) = os2ip (repeat 1 32)) by reflexivity.
  assert (Hn : nanConv 0) by (right; reflexivity).
  assert (HB2 : bitLen (gN gR) < 65536) by (rewrite HB; reflexivity).
  destruct (C25_cast_returns dBig gR onesHO 0 pp bCR dBig_ok (toyLaws r255Order hR)) as (b & Hb); try assumption.
  - intros A B. rewrite HI. vm_compute. reflexivity.
  - eexists. reflexivity.
  - exists (mkDraw (2 ^ 241) 11 22 33). split; [right; left; reflexivity|]. rewrite HBg. cbn [dk]. split; discriminate.
  - exists pp, b. split; [exact dBig_ok|]. split; [apply toyPrime, prime_r255Order|]. do 7 (split; [assumption|]).
    pose proof (C25_end_to_end dBig gR onesHO 0 pp bCR b dBig_ok (toyLaws r255Order hR) Hn HB2 HQ HSe HD Hb) as HV.
    assert (HS0 : Stands (ModPGrp dBig) gR gR eq b) by (constructor; eexists; reflexivity).
    destruct (replay_gen (ModPGrp dBig) gR gR eq (self_pres gR (toyLaws r255Order hR)) onesHO (toyPrime _ _ prime_r255Order) b (ppRP pp) (ppRP pp) 2%nat HS0 HV)
      as (c & Hc & Hf & _).
    assert (HP : vBc (sParams (bdVote b)) = 224).
    { assert (HP : sParams (bdVote b) = ppRP pp) by (apply (cast_facts _ _ _ _ _ _ _ _ _ _ Hb)). rewrite HP. clear - HSe.
      unfold setup in HSe. destruct (Setup gR 0 65536) as [bp| | |]; try discriminate. cbn [bind] in HSe. unfold vpSetup in HSe.
      destruct (_ <? 1); [discriminate|]. cbn [bind] in HSe. injection HSe as <-. reflexivity. }
    rewrite HP in Hf. unfold getFSChallenge in Hf. cbn [onesHO sha256] in Hf.
    assert (Hs : slice_to (repeat 1 32) (Z.to_nat (224 / 8)) = Ok (repeat 1 28)) by reflexivity. rewrite Hs in Hf. cbn [bind] in Hf.
    rewrite Hc. split; [|discriminate]. intros He. injection He as ->. injection Hf as Hf. vm_compute in Hf. discriminate.
Qed.
(** C80_secp256k1: the ballot of C77_case, with challenge 5, under the range it was made for and under one longer by 1 *)
Example C80_secp256k1_case : exists rp rp' (b : BallotData (ModPGrp dSafe) (K1Grp ing3)), IngOk ing3 gK on2 abs2 /\ GrpPrime gK /\ BallotOn on2 b /\
  on2 (gpH (vGEC (sParams (bdVote b)))) /\ verifyVote (ModPGrp dSafe) (K1Grp ing3) (hoC 5) b rp = Ok (true, 2%nat) /\
  vLo rp = 101 /\ vHi rp = 2000 /\ vLo rp' = 101 /\ vHi rp' = 2001 /\ verifyVote (ModPGrp dSafe) (K1Grp ing3) (hoC 5) b rp' = Ok (false, 2%nat).
Proof.
  destruct C77_case as (pp & b & b2 & x & rx & y & ry & IO & PA & _ & _ & _ & _ & HS & Hh & V & _ & N & _ & _ & _ & _ & _ & _ & _ & _ & HP & _ & _ & _ & _ & _ & Hc & _).
  assert (HR : gpH (vGEC (ppRP pp)) = bpH (ppBP pp) /\ vLo (ppRP pp) = 101 /\ vHi (ppRP pp) = 2000).
  { clear - HS. unfold setup in HS. destruct (Setup (K1Grp ing3) 0 65536) as [bp| | |]; try discriminate. cbn [bind] in HS. unfold vpSetup in HS.
    destruct (_ <? 1); [discriminate|]. cbn [bind] in HS. injection HS as <-. repeat split; reflexivity. }
  destruct HR as (R1 & R2 & R3).
  assert (O : on2 (gpH (vGEC (sParams (bdVote b))))) by (rewrite HP, R1; exact Hh).
  set (rp := ppRP pp) in *. exists rp, (mkProofParams (vBx rp) (vBc rp) (vBg rp) (vBb rp) 101 2001 (vGFF rp) (vGEC rp)), b.
  repeat (split; [first [exact IO|exact PA|exact N|exact O|exact V|exact R2|exact R3|reflexivity]|]).
  destruct (C80_secp256k1 ing3 gK on2 abs2 (ModPGrp dSafe) (hoC 5) b rp (mkProofParams (vBx rp) (vBc rp) (vBg rp) (vBb rp) 101 2001 (vGFF rp) (vGEC rp)) 2%nat IO PA N O V)
    as (c & ok & Hc' & Hv & Hok). rewrite Hv. f_equal. f_equal. apply not_true_iff_false. intros Ht. apply Hok in Ht. destruct Ht as [_ [k Hk]].
  cbn [vHi] in Hk. rewrite R3 in Hk. assert (c = 5) by congruence. subst c. assert (1 < k1Order / 6) by reflexivity. unfold k1Order in Hk. lia.
Qed.

Print Assumptions C80_exact.
Print Assumptions C80_one_range.
Print Assumptions C80_no_challenge.
Print Assumptions C80_program.
Print Assumptions C80_secp256k1.
