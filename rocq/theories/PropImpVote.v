(** C65: ballots are cast and verified in place on shared objects, and still behave as functions of values. *)
From Verif Require Import GoBase Json GroupIface Vector BIP BP VoteProof ModP App NumTh Alg SetupProofs Toy ModPProofs PropBP PropVote PropApp
  ECJson PropModP Imp ImpProofs ImpFuns ImpBP PropImp ImpVote ImpVoteProofs.

(** Between [h] and [h'] every element of either group and every integer of [h] keeps its value, and every write goes to an
    object made meanwhile (so no object of [h] is written even temporarily). *)
Definition Unchanged2 (GF GE : Grp) (h h' : heap2 GF GE) : Prop :=
  (forall r v, nth_error (fe GF GE h) r = Some v -> nth_error (fe GF GE h') r = Some v) /\
  (exists l, fw GF GE h' = l ++ fw GF GE h /\ forall r, In r l -> nth_error (fe GF GE h) r = None) /\
  Unchanged GE (sub GF GE h) (sub GF GE h').

Lemma Pre2_Unchanged : forall GF GE h h', Pre2 GF GE h h' -> Unchanged2 GF GE h h'.
Proof.
  intros GF GE h h' [[(l & EF) (w & EW & A)] PE]. split; [|split; [|exact (Pre_Unchanged _ _ _ PE)]].
  - intros r v H. rewrite EF, nth_error_app1; [exact H|]. apply nth_error_Some. congruence.
  - exists w. split; [exact EW|]. intros r I. rewrite Forall_forall in A. apply nth_error_None, A, I.
Qed.

(** The server: verifyVote on a ballot made of shared objects ends as the value-level verifyVote does, with
    the same answer and number of timings, an error or a panic, and writes no object that existed before: not the ballot, not the parameters,
    not the group orders, not the package variable BigTwo. Nothing is assumed about which pointers coincide. *)
Theorem C65_verify_on_shared_objects : forall GF GE HO h b v rp vrp N two,
  repBallot GF GE (fe _ _ h) (sub _ _ h) b v -> repPP GF GE (fe _ _ h) (sub _ _ h) rp vrp ->
  zAt GE (sub _ _ h) N (Some (gN GE)) -> zAt GE (sub _ _ h) two (Some 2) ->
  match iVerifyVote GF GE HO b rp N two h with
  | Ok (a, h') => verifyVote GF GE HO v vrp = Ok a /\ Unchanged2 GF GE h h' /\ repBallot GF GE (fe _ _ h') (sub _ _ h') b v
  | Err => verifyVote GF GE HO v vrp = Err
  | Panic => verifyVote GF GE HO v vrp = Panic
  | OutOfFuel => verifyVote GF GE HO v vrp = OutOfFuel
  end.
Proof.
  intros GF GE HO [F W s] b v rp vrp N two HB HP HN HT. cbn [fe sub] in *.
  pose proof (iVerifyVote_ok GF GE HO b v rp vrp N two F W s HB HP HN HT) as K. unfold wp2 in K.
  destruct (iVerifyVote GF GE HO b rp N two (mkH2 GF GE F W s)) as [[a h']| | |]; try exact K.
  destruct K as (a' & HV & P & <-). split; [exact HV|]. split; [exact (Pre2_Unchanged _ _ _ _ P)|].
  exact (repBallot_pre GF GE _ _ b v P HB).
Qed.

(** The voter: castVote ends as the value-level castVote does; the objects it returns hold that ballot. *)
Theorem C65_cast_on_shared_objects : forall GF GE HO h pp vpp cr NF NE two,
  repPub GF GE (fe _ _ h) (sub _ _ h) pp vpp ->
  zAt GE (sub _ _ h) NF (Some (gN GF)) -> zAt GE (sub _ _ h) NE (Some (gN GE)) -> zAt GE (sub _ _ h) two (Some 2) ->
  match iCastVote GF GE HO pp cr NF NE two h with
  | Ok (b, h') => exists v, castVote GF GE HO vpp cr = Ok v /\ repBallot GF GE (fe _ _ h') (sub _ _ h') b v /\ Unchanged2 GF GE h h'
  | Err => castVote GF GE HO vpp cr = Err
  | Panic => castVote GF GE HO vpp cr = Panic
  | OutOfFuel => castVote GF GE HO vpp cr = OutOfFuel
  end.
Proof.
  intros GF GE HO [F W s] pp vpp cr NF NE two HP HF HE HT. cbn [fe sub] in *.
  pose proof (iCastVote_ok GF GE HO pp vpp cr NF NE two F W s HP HF HE HT) as K. unfold wp2 in K.
  destruct (iCastVote GF GE HO pp cr NF NE two (mkH2 GF GE F W s)) as [[b h']| | |]; try exact K.
  destruct K as (v & HV & P & R). exists v. split; [exact HV|]. split; [exact R|exact (Pre2_Unchanged _ _ _ _ P)].
Qed.

(** The vote correctness proof alone, for any statement, any proof and any responses (also nil ones). *)
Theorem C65_sigma_verify_on_shared_objects : forall GF GE HO h q v qc vc two,
  repSP GF GE (fe _ _ h) (sub _ _ h) q v -> repComm GF GE (fe _ _ h) (sub _ _ h) qc vc -> zAt GE (sub _ _ h) two (Some 2) ->
  match iVpVerify GF GE HO q qc two h with
  | Ok (b, h') => vpVerify GF GE HO v vc = Ok b /\ Unchanged2 GF GE h h'
  | Err => vpVerify GF GE HO v vc = Err
  | Panic => vpVerify GF GE HO v vc = Panic
  | OutOfFuel => vpVerify GF GE HO v vc = OutOfFuel
  end.
Proof.
  intros GF GE HO [F W s] q v qc vc two HQ HC HT. cbn [fe sub] in *.
  pose proof (iVpVerify_ok GF GE HO q v qc vc two F W s HQ HC HT) as K. unfold wp2 in K.
  destruct (iVpVerify GF GE HO q qc two (mkH2 GF GE F W s)) as [[a h']| | |]; try exact K.
  destruct K as (a' & HV & P & <-). split; [exact HV|exact (Pre2_Unchanged _ _ _ _ P)].
Qed.
Theorem C65_sigma_prove_on_shared_objects : forall GF GE HO h x rp r1 r2 vx vrp v1 v2 q v draws two,
  zAt GE (sub _ _ h) x (Some vx) -> zAt GE (sub _ _ h) rp (Some vrp) -> zAt GE (sub _ _ h) r1 (Some v1) -> zAt GE (sub _ _ h) r2 (Some v2) ->
  repPP GF GE (fe _ _ h) (sub _ _ h) q v -> zAt GE (sub _ _ h) two (Some 2) ->
  match iVpProve GF GE HO x rp r1 r2 q draws two h with
  | Ok (sp, h') => exists pf, vpProve GF GE HO vx vrp v1 v2 v draws = Ok pf /\ repSP GF GE (fe _ _ h') (sub _ _ h') sp pf /\ Unchanged2 GF GE h h'
  | Err => vpProve GF GE HO vx vrp v1 v2 v draws = Err
  | Panic => vpProve GF GE HO vx vrp v1 v2 v draws = Panic
  | OutOfFuel => vpProve GF GE HO vx vrp v1 v2 v draws = OutOfFuel
  end.
Proof.
  intros GF GE HO [F W s] x rp r1 r2 vx vrp v1 v2 q v draws two HX HRP H1 H2 HQ HT. cbn [fe sub] in *.
  pose proof (iVpProve_ok GF GE HO draws x rp r1 r2 vx vrp v1 v2 q v two F W s HX HRP H1 H2 HQ HT) as K. unfold wp2 in K.
  destruct (iVpProve GF GE HO x rp r1 r2 q draws two (mkH2 GF GE F W s)) as [[a h']| | |]; try exact K.
  destruct K as (pf & HV & P & R). exists pf. split; [exact HV|]. split; [exact R|exact (Pre2_Unchanged _ _ _ _ P)].
Qed.

(** setup: starting from the integers of the two groups, it returns parameters holding what the value-level setup computes. *)
Theorem C65_setup_on_shared_objects : forall d GE nan64 h NF PF NE,
  zAt GE (sub _ _ h) NF (Some (mpOrder d)) -> zAt GE (sub _ _ h) PF (Some (mpField d)) -> zAt GE (sub _ _ h) NE (Some (gN GE)) ->
  match iMainSetup (ModPGrp d) GE nan64 NF PF NE h with
  | Ok (pp, h') => exists vpp, setup d GE nan64 = Ok vpp /\ repPub (ModPGrp d) GE (fe _ _ h') (sub _ _ h') pp vpp /\ Unchanged2 (ModPGrp d) GE h h'
  | Err => setup d GE nan64 = Err
  | Panic => setup d GE nan64 = Panic
  | OutOfFuel => setup d GE nan64 = OutOfFuel
  end.
Proof.
  intros d GE nan64 [F W s] NF PF NE HF HP HE. cbn [sub] in *.
  pose proof (iMainSetup_ok d GE nan64 NF PF NE F W s HF HP HE) as K. unfold wp2 in K.
  destruct (iMainSetup (ModPGrp d) GE nan64 NF PF NE (mkH2 (ModPGrp d) GE F W s)) as [[pp h']| | |]; try exact K.
  destruct K as (v & HV & P & R). exists v. split; [exact HV|]. split; [exact R|exact (Pre2_Unchanged _ _ _ _ P)].
Qed.

(** ** Many ballots *)
Section Many.
Context (GF GE : Grp) (HO : Oracles).
Lemma castAll_ok : forall pp vpp crs NF NE two h,
  repPub GF GE (fe _ _ h) (sub _ _ h) pp vpp ->
  zAt GE (sub _ _ h) NF (Some (gN GF)) -> zAt GE (sub _ _ h) NE (Some (gN GE)) -> zAt GE (sub _ _ h) two (Some 2) ->
  Forall (fun cr => exists v, castVote GF GE HO vpp cr = Ok v) crs ->
  exists bs h', iCastAll GF GE HO pp crs NF NE two h = Ok (bs, h') /\ Pre2 GF GE h h' /\
    Forall2 (fun cr b => exists v, castVote GF GE HO vpp cr = Ok v /\ repBallot GF GE (fe _ _ h') (sub _ _ h') b v) crs bs.
Proof.
  intros pp vpp crs NF NE two. induction crs as [|cr t IH]; intros h HP HF HE HT HC.
  - exists [], h. split; [reflexivity|]. split; [|constructor]. destruct h as [F W s]. split; [apply PreF_refl|apply Pre_refl].
  - inversion HC as [|? ? (v & Hv) HC']; subst. cbn [iCastAll]. unfold mbind2 at 1.
    destruct h as [F W s]. cbn [fe sub] in *.
    pose proof (iCastVote_ok GF GE HO pp vpp cr NF NE two F W s HP HF HE HT) as K. unfold wp2 in K.
    destruct (iCastVote GF GE HO pp cr NF NE two (mkH2 GF GE F W s)) as [[b h1]| | |]; try congruence.
    destruct K as (v' & Hv' & P & R).
    destruct (IH h1) as (bs & h2 & E & P2 & A).
    + exact (repPub_pre GF GE _ _ pp vpp P HP).
    + exact (pre_z _ _ _ (proj2 P) _ _ HF).
    + exact (pre_z _ _ _ (proj2 P) _ _ HE).
    + exact (pre_z _ _ _ (proj2 P) _ _ HT).
    + exact HC'.
    + unfold mbind2 at 1. rewrite E. exists (b :: bs), h2. split; [reflexivity|]. split; [exact (Pre2_trans GF GE _ _ _ P P2)|].
      constructor; [|exact A]. exists v'. split; [exact Hv'|]. exact (repBallot_pre GF GE _ _ b v' P2 R).
Qed.
Lemma verifyAll_ok : forall rp vrp bs NE two h,
  repPP GF GE (fe _ _ h) (sub _ _ h) rp vrp -> zAt GE (sub _ _ h) NE (Some (gN GE)) -> zAt GE (sub _ _ h) two (Some 2) ->
  Forall (fun b => exists v, repBallot GF GE (fe _ _ h) (sub _ _ h) b v /\ verifyVote GF GE HO v vrp = Ok (true, 2%nat)) bs ->
  exists h', iVerifyAll GF GE HO bs rp NE two h = Ok (repeat (true, 2%nat) (length bs), h') /\ Pre2 GF GE h h'.
Proof.
  intros rp vrp bs NE two. induction bs as [|b t IH]; intros h HP HE HT HB.
  - exists h. split; [reflexivity|]. destruct h as [F W s]. split; [apply PreF_refl|apply Pre_refl].
  - inversion HB as [|? ? (v & R & Hv) HB']; subst. cbn [iVerifyAll]. unfold mbind2 at 1.
    destruct h as [F W s]. cbn [fe sub] in *.
    pose proof (iVerifyVote_ok GF GE HO b v rp vrp NE two F W s R HP HE HT) as K. unfold wp2 in K.
    destruct (iVerifyVote GF GE HO b rp NE two (mkH2 GF GE F W s)) as [[a h1]| | |]; try congruence.
    destruct K as (a' & Ha & P & ->). rewrite Hv in Ha. injection Ha as <-.
    destruct (IH h1) as (h2 & E & P2).
    + exact (repPP_pre GF GE _ _ _ _ _ _ rp vrp (proj1 P) (proj2 P) HP).
    + exact (pre_z _ _ _ (proj2 P) _ _ HE).
    + exact (pre_z _ _ _ (proj2 P) _ _ HT).
    + eapply Forall_impl; [|exact HB']. intros b' (v' & R' & V'). exists v'. split; [|exact V']. exact (repBallot_pre GF GE _ _ b' v' P R').
    + unfold mbind2 at 1. rewrite E. exists h2. split; [reflexivity|exact (Pre2_trans GF GE _ _ _ P P2)].
Qed.
End Many.

(** An election on objects. After setup, any number of voters cast ballots, each Bulletproof and sigma proof being computed on
    the shared parameters; afterwards the server verifies any of the ballots, in any order and any number of times. All
    are accepted, and nothing is changed on the way: not the parameters, not an earlier ballot. *)
Theorem C65_election : forall d GE HO nan64 vpp crs h NF PF NE two,
  ModPOk d -> GrpLaws GE -> nanConv nan64 -> bitLen (gN GE) < 65536 -> gN GE <= mpOrder d -> 2 < mpOrder d ->
  setup d GE nan64 = Ok vpp ->
  Digest32 HO -> ChallengesInvertible GE HO -> (exists u, gMap GE (str_bytes SEEDU) = Ok u) ->
  Forall (fun cr => CastDrawsOk vpp cr /\
    exists dr, In dr (cr_vp cr) /\ 2 ^ 240 <= dk dr <= 2 ^ (vBg (ppRP vpp) - 1) - 2 ^ 240) crs ->
  zAt GE (sub _ _ h) NF (Some (mpOrder d)) -> zAt GE (sub _ _ h) PF (Some (mpField d)) ->
  zAt GE (sub _ _ h) NE (Some (gN GE)) -> zAt GE (sub _ _ h) two (Some 2) ->
  exists pp h1 ballots h2,
    iMainSetup (ModPGrp d) GE nan64 NF PF NE h = Ok (pp, h1) /\ Unchanged2 (ModPGrp d) GE h h1 /\
    iCastAll (ModPGrp d) GE HO pp crs NF NE two h1 = Ok (ballots, h2) /\ Unchanged2 (ModPGrp d) GE h1 h2 /\
    length ballots = length crs /\
    forall bs, (forall b, In b bs -> In b ballots) ->
      exists h3, iVerifyAll (ModPGrp d) GE HO bs (yRP pp) NE two h2 = Ok (repeat (true, 2%nat) (length bs), h3) /\
        Unchanged2 (ModPGrp d) GE h2 h3.
Proof.
  intros d GE HO nan64 vpp crs h NF PF NE two Hok LE Hn HB HQ Hq2 HS HDig HI Hu HC HF HP HE HT.
  destruct h as [F W s]. cbn [sub] in *.
  pose proof (iMainSetup_ok d GE nan64 NF PF NE F W s HF HP HE) as K. unfold wp2 in K.
  destruct (iMainSetup (ModPGrp d) GE nan64 NF PF NE (mkH2 (ModPGrp d) GE F W s)) as [[pp h1]| | |]; try congruence.
  destruct K as (vpp' & HS' & P1 & R). rewrite HS in HS'. injection HS' as <-.
  pose proof (pre_z _ _ _ (proj2 P1) _ _ HF) as HF1. pose proof (pre_z _ _ _ (proj2 P1) _ _ HE) as HE1.
  pose proof (pre_z _ _ _ (proj2 P1) _ _ HT) as HT1. cbn [sub] in *.
  assert (HCast : Forall (fun cr => exists v, castVote (ModPGrp d) GE HO vpp cr = Ok v) crs).
  { eapply Forall_impl; [|exact HC]. intros cr [HD Hdr]. exact (C25_cast_returns d GE HO nan64 vpp cr Hok LE Hn HB HQ Hq2 HS HD HDig HI Hu Hdr). }
  destruct (castAll_ok (ModPGrp d) GE HO pp vpp crs NF NE two h1 R HF1 HE1 HT1 HCast) as (bs & h2 & E & P2 & A).
  exists pp, h1, bs, h2. split; [reflexivity|]. split; [exact (Pre2_Unchanged _ _ _ _ P1)|]. split; [exact E|].
  split; [exact (Pre2_Unchanged _ _ _ _ P2)|]. split; [clear - A; induction A; cbn; congruence|].
  intros l Hl.
  destruct (verifyAll_ok (ModPGrp d) GE HO (yRP pp) (ppRP vpp) l NE two h2) as (h3 & E3 & P3).
  - apply (repPP_pre (ModPGrp d) GE _ _ _ _ _ _ _ _ (proj1 P2) (proj2 P2)). apply R.
  - exact (pre_z _ _ _ (proj2 P2) _ _ HE1).
  - exact (pre_z _ _ _ (proj2 P2) _ _ HT1).
  - apply Forall_forall. intros b Hb. apply Hl in Hb. revert Hb. clear - A HC Hok LE Hn HB HQ HS.
    induction A as [|cr b' crs' bs' (v & Hv & Rv) A IH]; [intros []|intros [Hb|Hb]].
    + subst b'. inversion HC as [|? ? [HD _] _]; subst. exists v. split; [exact Rv|].
      exact (C25_end_to_end d GE HO nan64 vpp cr v Hok LE Hn HB HQ HS HD Hv).
    + inversion HC; subst. apply IH; assumption.
  - exists h3. split; [exact E3|exact (Pre2_Unchanged _ _ _ _ P3)].
Qed.

(** main's loop over one group, on objects: it ends as the value-level loop (C25, C64) does. *)
Theorem C65_driver_on_shared_objects : forall GF GE HO crs pp vpp success NF NE two h,
  repPub GF GE (fe _ _ h) (sub _ _ h) pp vpp ->
  zAt GE (sub _ _ h) NF (Some (gN GF)) -> zAt GE (sub _ _ h) NE (Some (gN GE)) -> zAt GE (sub _ _ h) two (Some 2) ->
  match iDriverLoop GF GE HO pp crs success NF NE two h with
  | Ok (b, h') => driverLoop GF GE HO vpp crs success = Ok b /\ Unchanged2 GF GE h h'
  | Err => driverLoop GF GE HO vpp crs success = Err
  | Panic => driverLoop GF GE HO vpp crs success = Panic
  | OutOfFuel => driverLoop GF GE HO vpp crs success = OutOfFuel
  end.
Proof.
  intros GF GE HO crs pp vpp success NF NE two h HP HF HE HT.
  assert (G : wp2 GF GE (iDriverLoop GF GE HO pp crs success NF NE two) (driverLoop GF GE HO vpp crs success) h
            (fun (b b' : bool) h' => Pre2 GF GE h h' /\ b = b')).
  { revert success h HP HF HE HT. induction crs as [|cr t IH]; intros success h HP HF HE HT; cbn [iDriverLoop driverLoop].
    { apply wp2_ret. split; [|reflexivity]. split; [apply PreF_refl|apply Pre_refl]. }
    destruct h as [F W s]. cbn [fe sub] in *.
    eapply wp2_bind; [exact (iCastVote_ok GF GE HO pp vpp cr NF NE two F W s HP HF HE HT)|]. intros b v [F1 W1 s1] [P1 R1]. cbn [fe sub] in *.
    pose proof (repPub_pre GF GE _ _ pp vpp P1 HP) as HP1. cbn [fe sub] in *.
    pose proof (pre_z _ _ _ (proj2 P1) _ _ HF) as HF1. pose proof (pre_z _ _ _ (proj2 P1) _ _ HE) as HE1.
    pose proof (pre_z _ _ _ (proj2 P1) _ _ HT) as HT1. cbn [sub] in *.
    eapply wp2_bind.
    { apply (iVerifyVote_ok GF GE HO b v (yRP pp) (ppRP vpp) NE two F1 W1 s1 R1); [apply HP1|exact HE1|exact HT1]. }
    intros [a n] v' h2 [P2 <-]. cbn [fst snd]. destruct (Nat.ltb n 2); [reflexivity|].
    eapply wp2_weaken.
    { apply IH.
      - exact (repPub_pre GF GE _ _ pp vpp P2 HP1).
      - exact (pre_z _ _ _ (proj2 P2) _ _ HF1).
      - exact (pre_z _ _ _ (proj2 P2) _ _ HE1).
      - exact (pre_z _ _ _ (proj2 P2) _ _ HT1). }
    intros u w h3 [P3 E3]. split; [|exact E3]. exact (Pre2_trans GF GE _ _ _ P1 (Pre2_trans GF GE _ _ _ P2 P3)). }
  unfold wp2 in G. destruct (iDriverLoop GF GE HO pp crs success NF NE two h) as [[b h']| | |]; try exact G.
  destruct G as (b' & E & P & <-). split; [exact E|exact (Pre2_Unchanged _ _ _ _ P)].
Qed.

(** ** A concrete run *)
(** The election of C25_run as objects: the key is both H and EGPK, the H of the curve group is that of the Bulletproofs, and
    the integers of the groups are used throughout. One ballot is cast and verified twice. *)
Definition vF : Grp := ModPGrp dToy.
Definition vHeap : heap2 vF toy :=
  mkH2 vF toy [2; gBase vF 13] [] (mkHeap toy ([gGen toy; gBase toy 1; bpH aBP] ++ bpGg aBP ++ bpHh aBP) [4211; 8423; 101; 2] []).
Definition vP (n : nat) : ptr := Some n.
Definition vFF : GroupParamsP := mkGroupParamsP (vP 0) (vP 1) (vP 0) (vP 1).
Definition vEC : GroupParamsP := mkGroupParamsP (vP 0) (vP 2) (vP 2) (vP 1).
Definition vBPP : BPParamsP := mkBPParamsP 2 (vP 1) (vP 2) [vP 3; vP 4] [vP 5; vP 6].
Definition vPub : PublicParametersP := mkPublicParametersP vFF vEC (vP 1) 3 6 vBPP (mkProofParamsP 3 8 13 1 3 6 vFF vEC).
Example C65_case :
  repPub vF toy (fe _ _ vHeap) (sub _ _ vHeap) vPub aPP /\
  zAt toy (sub _ _ vHeap) (vP 0) (Some (gN vF)) /\ zAt toy (sub _ _ vHeap) (vP 2) (Some (gN toy)) /\ zAt toy (sub _ _ vHeap) (vP 3) (Some 2) /\
  match iCastVote vF toy aHO vPub aCR (vP 0) (vP 2) (vP 3) vHeap with
  | Ok (b, h') =>
      match iVerifyAll vF toy aHO [b; b] (yRP vPub) (vP 2) (vP 3) h' with
      | Ok (a, h'') => a = [(true, 2%nat); (true, 2%nat)] /\ firstn 2 (fe _ _ h'') = fe _ _ vHeap /\
          firstn 7 (he _ (sub _ _ h'')) = he _ (sub _ _ vHeap) /\ firstn 4 (hz _ (sub _ _ h'')) = [4211; 8423; 101; 2] /\
          length (fw _ _ h'') = 28%nat
      | _ => False
      end
  | _ => False
  end.
Proof.
  split; [|split; [|split; [|split]]].
  - unfold repPub, repPP, repGF, repGE, repBPParams, esAt. vm_compute.
    repeat split; try (repeat constructor); eexists; split; reflexivity.
  - eexists. split; reflexivity.
  - eexists. split; reflexivity.
  - eexists. split; reflexivity.
  - vm_compute. repeat split; reflexivity.
Qed.

(** The hypotheses of C65_election hold for the constants of main.go, with the groups of C25_case: two voters, and the server
    verifies the second ballot, the first, and the second again. *)
Definition eHeap : heap2 (ModPGrp dBig) gR := mkH2 (ModPGrp dBig) gR [] [] (mkHeap gR [] [mpOrder dBig; mpField dBig; gN gR; 2] []).
Example C65_election_case : exists pp h1 b1 b2 h2 h3,
  iMainSetup (ModPGrp dBig) gR 0 (vP 0) (vP 1) (vP 2) eHeap = Ok (pp, h1) /\
  iCastAll (ModPGrp dBig) gR oneHO pp [bCR; bCR] (vP 0) (vP 2) (vP 3) h1 = Ok ([b1; b2], h2) /\
  iVerifyAll (ModPGrp dBig) gR oneHO [b2; b1; b2] (yRP pp) (vP 2) (vP 3) h2 = Ok ([(true, 2%nat); (true, 2%nat); (true, 2%nat)], h3).
Proof.
  assert (HB : bitLen (gN gR) = 253) by reflexivity.
  assert (HQ : gN gR <= mpOrder dBig) by discriminate.
  destruct (C43_setup_outcome dBig gR 0) as [_ HS]; [intros s; eexists; reflexivity|rewrite HB; lia|rewrite HB; lia|].
  destruct (HS ltac:(rewrite HB; lia)) as (vpp & HSe & Hmin & Hmax & _ & _ & _ & _ & HBg & _). rewrite HB in HBg.
  assert (HD : CastDrawsOk vpp bCR).
  { split; [rewrite Hmin, Hmax; cbn [bCR cr_choice]; lia|]. intros dr Hin. unfold DrawOk. rewrite HBg. cbn [bCR cr_vp In] in Hin.
    destruct Hin as [<-|[<-|[]]]; cbn [dk dtp dtq1 dtq2]; repeat split; try discriminate; reflexivity. }
  assert (Hdig : Digest32 oneHO).
  { intros b. split; [reflexivity|]. apply Forall_forall. intros x Hx. cbn in Hx. unfold is_byte.
    repeat (destruct Hx as [<-|Hx]; [lia|]). destruct Hx. }
  assert (HI : forall A B, HashBP gR oneHO A B = (1, 1)) by reflexivity.
  assert (HX : CastDrawsOk vpp bCR /\ exists dr, In dr (cr_vp bCR) /\ 2 ^ 240 <= dk dr <= 2 ^ (vBg (ppRP vpp) - 1) - 2 ^ 240).
  { split; [exact HD|]. exists (mkDraw (2 ^ 241) 11 22 33). split; [right; left; reflexivity|]. rewrite HBg. cbn [dk]. split; discriminate. }
  destruct (C65_election dBig gR oneHO 0 vpp [bCR; bCR] eHeap (vP 0) (vP 1) (vP 2) (vP 3)) as (pp & h1 & bs & h2 & E1 & _ & E2 & _ & EL & E3);
    try assumption.
  - exact dBig_ok.
  - exact (toyLaws r255Order hR).
  - right. reflexivity.
  - rewrite HB. reflexivity.
  - reflexivity.
  - intros A B. rewrite HI. cbn [fst]. apply Z.gcd_1_l.
  - eexists. reflexivity.
  - constructor; [exact HX|]. constructor; [exact HX|]. constructor.
  - exists 0%nat. split; reflexivity.
  - exists 1%nat. split; reflexivity.
  - exists 2%nat. split; reflexivity.
  - exists 3%nat. split; reflexivity.
  - destruct bs as [|b1 [|b2 [|]]]; try discriminate EL.
    destruct (E3 [b2; b1; b2]) as (h3 & E & _). { intros b Hb. cbn [In] in Hb |- *. tauto. }
    exists pp, h1, b1, b2, h2, h3. split; [exact E1|]. split; [exact E2|exact E].
Qed.

Print Assumptions C65_verify_on_shared_objects.
Print Assumptions C65_cast_on_shared_objects.
Print Assumptions C65_sigma_verify_on_shared_objects.
Print Assumptions C65_sigma_prove_on_shared_objects.
Print Assumptions C65_setup_on_shared_objects.
Print Assumptions C65_election.
Print Assumptions C65_driver_on_shared_objects.
