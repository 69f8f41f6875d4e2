(** C68: ballots are written to JSON and read back on shared objects. *)
From Verif Require Import GoBase Json GroupIface Vector BIP BP VoteProof ModP App ECJson Marshal NumTh Alg SetupProofs Toy ModPProofs PropBP PropVote
  PropApp PropModP PropJson PropRead Imp ImpProofs ImpFuns ImpBP PropImp ImpVote ImpVoteProofs PropImpVote ImpJson ImpJsonProofs.

(** ** Specification *)
(** the objects a ballot is made of, other than the Bulletproof parameters *)
Definition ipElements (p : IPProofP) : list ptr := qL p ++ qR p ++ qGg (qParams p) ++ qHh (qParams p) ++ [qUu (qParams p); qP p].
Definition bpElements (p : BulletProofP) : list ptr := ipElements (rIPP p) ++ [rT2 p; rT1 p; rS p; rA p; rV p].
Definition bpIntegers (p : BulletProofP) : list ptr := [rTaux p; rMu p; rTprime p; qCc (rIPP p); qA (rIPP p); qB (rIPP p)].
Definition groupIntegers (p : GroupParamsP) : list ptr := [kN p; kF p].
(** elements of the ElGamal group *)
Definition ballotElementsF (b : BallotDataP) : list ptr :=
  let v := yVote b in [uKp v; uW v; kH (wGFF (uParams v)); kG (wGFF (uParams v)); yV (yBallot b); yU (yBallot b)].
(** elements of the curve group *)
Definition ballotElementsE (b : BallotDataP) : list ptr :=
  let v := yVote b in [uKq2 v; uKq1 v; kH (wGEC (uParams v)); kG (wGEC (uParams v))] ++ bpElements (yUpper b) ++ bpElements (yLower b).
Definition ballotIntegers (b : BallotDataP) : list ptr :=
  let v := yVote b in [uChal v; uZ v; uSp v; uSq1 v; uSq2 v] ++ groupIntegers (wGFF (uParams v)) ++ groupIntegers (wGEC (uParams v)) ++
    bpIntegers (yUpper b) ++ bpIntegers (yLower b).

(** no object occurs twice in the list (nil may) *)
Definition Distinct (l : list ptr) : Prop := forall i j r, nth_error l i = Some (Some r) -> nth_error l j = Some (Some r) -> i = j.
(** none of the objects was there in [h] *)
Definition MadeSince (GF GE : Grp) (h : heap2 GF GE) (b : BallotDataP) : Prop :=
  (forall r, In (Some r) (ballotElementsF b) -> nth_error (fe _ _ h) r = None) /\
  (forall r, In (Some r) (ballotElementsE b) -> nth_error (he _ (sub _ _ h)) r = None) /\
  (forall r, In (Some r) (ballotIntegers b) -> nth_error (hz _ (sub _ _ h)) r = None).
(** every object that is not nil is there in [h] *)
Definition Within (GF GE : Grp) (h : heap2 GF GE) (b : BallotDataP) : Prop :=
  (forall r, In (Some r) (ballotElementsF b) -> nth_error (fe _ _ h) r <> None) /\
  (forall r, In (Some r) (ballotElementsE b) -> nth_error (he _ (sub _ _ h)) r <> None) /\
  (forall r, In (Some r) (ballotIntegers b) -> nth_error (hz _ (sub _ _ h)) r <> None).
(** two ballots have no object in common *)
Definition Apart (b c : BallotDataP) : Prop :=
  (forall r, ~ (In (Some r) (ballotElementsF b) /\ In (Some r) (ballotElementsF c))) /\
  (forall r, ~ (In (Some r) (ballotElementsE b) /\ In (Some r) (ballotElementsE c))) /\
  (forall r, ~ (In (Some r) (ballotIntegers b) /\ In (Some r) (ballotIntegers c))).

(** ** From the refinement *)
Lemma objs_Distinct : forall l, NoDup (objs l) -> Distinct l.
Proof.
  induction l as [|p l IH]; intros N i j r Hi Hj.
  - destruct i; discriminate.
  - destruct p as [q|]; cbn [objs flat_map app] in N.
    + inversion N as [|? ? NI N']; subst. destruct i as [|i], j as [|j]; cbn in Hi, Hj; try reflexivity.
      * injection Hi as ->. exfalso. apply NI, in_objs. exact (nth_error_In _ _ Hj).
      * injection Hj as ->. exfalso. apply NI, in_objs. exact (nth_error_In _ _ Hi).
      * f_equal. exact (IH N' i j r Hi Hj).
    + destruct i as [|i], j as [|j]; cbn in Hi, Hj; try discriminate. f_equal. exact (IH N i j r Hi Hj).
Qed.
Lemma fst_combine : forall {A B} (l : list A) (m : list B), length l = length m -> map fst (combine l m) = l.
Proof. intros A B l. induction l as [|a l IH]; intros [|b m] H; try discriminate; cbn; [reflexivity|]. f_equal. apply IH. cbn in H. lia. Qed.
Section FromOwn.
Context (GF GE : Grp).
Lemma fst_ip : forall q v, lenIPProof GE q v -> map fst (eltsIPProof GE q v) = ipElements q.
Proof.
  intros q v ((L1 & L2) & L3 & L4). cbn [fst snd] in *. unfold eltsIPProof, eltsIPParams, pairsE, ipElements. cbn [fst snd].
  rewrite !map_app, !fst_combine by (rewrite ?map_length; assumption). cbn [map fst]. rewrite <- !app_assoc. reflexivity.
Qed.
Lemma fst_bp : forall q v, lenIPProof GE (rIPP q) (pIPP v) -> map fst (eltsBulletProof GE q v) = bpElements q.
Proof. intros q v H. unfold eltsBulletProof, bpElements. rewrite map_app, fst_ip by exact H. reflexivity. Qed.
Lemma fst_F : forall q v, map fst (eltsBallotF GF GE q v) = ballotElementsF q.
Proof. reflexivity. Qed.
Lemma fst_E : forall q v, shapeBallot GF GE q v -> map fst (eltsBallotE GF GE q v) = ballotElementsE q.
Proof. intros q v (A & B & _). unfold eltsBallotE, ballotElementsE. rewrite !map_app, !fst_bp by assumption. reflexivity. Qed.
Lemma fst_Z : forall q v, map fst (intsBallot GF GE q v) = ballotIntegers q.
Proof. reflexivity. Qed.
Lemma Own2_Pre2 : forall h h' a b c, Own2 GF GE h h' a b c -> Pre2 GF GE h h'.
Proof. intros h h' a b c [A B]. split; [exact (of_pre _ _ _ _ _ A)|exact (own_pre _ _ _ _ _ B)]. Qed.
Lemma Own2_new : forall h h' q v, shapeBallot GF GE q v -> Own2 GF GE h h' (eltsBallotF GF GE q v) (eltsBallotE GF GE q v) (intsBallot GF GE q v) ->
  MadeSince GF GE h q /\ Within GF GE h' q /\ Distinct (ballotElementsF q) /\ Distinct (ballotElementsE q) /\ Distinct (ballotIntegers q).
Proof.
  intros h h' q v S [[A1 A2 A3 A4] [B1 B2 B3 B4 B5 B6 B7]].
  pose proof (fst_E q v S) as FE. rewrite FE in *. rewrite fst_F in *. rewrite fst_Z in *.
  assert (N : forall (T : Type) (l : list T) ps, Forall (fun r => (length l <= r)%nat) (objs ps) -> forall r, In (Some r) ps -> nth_error l r = None).
  { intros T l ps F r I. rewrite Forall_forall in F. apply nth_error_None, F, in_objs, I. }
  assert (W : forall (T U : Type) (at_ : list T -> ptr -> option U -> Prop) (l : list T) (x : list (ptr * option U)),
    (forall r o, at_ l (Some r) o -> nth_error l r <> None) -> Forall (fun y => at_ l (fst y) (snd y)) x -> forall r, In (Some r) (map fst x) -> nth_error l r <> None).
  { intros T U at_ l x H F r I. apply in_map_iff in I. destruct I as ([p o] & Ep & I). cbn in Ep. subst p. rewrite Forall_forall in F.
    apply (H r o). exact (F _ I). }
  split; [repeat split; apply N; assumption|]. split; [|repeat split; apply objs_Distinct; assumption].
  split; [|split].
  - rewrite <- (fst_F q v). apply (W _ _ (fAt GF)); [|exact A2]. intros r [X|] H; cbn in H; [|discriminate].
    destruct H as (r' & Er & H). injection Er as <-. congruence.
  - rewrite <- FE. intros r I. apply in_map_iff in I. destruct I as ([p o] & Ep & I). cbn in Ep. subst p. rewrite Forall_forall in B2.
    apply B2 in I. cbn in I. destruct o; cbn in I; [|discriminate]. destruct I as (r' & Er & I). injection Er as <-. congruence.
  - rewrite <- (fst_Z q v). intros r I. apply in_map_iff in I. destruct I as ([p o] & Ep & I). cbn in Ep. subst p. rewrite Forall_forall in B3.
    apply B3 in I. cbn in I. destruct o; cbn in I; [|discriminate]. destruct I as (r' & Er & I). injection Er as <-. congruence.
Qed.
End FromOwn.

(** ** Reading *)
(** The decoder, working on pointers, ends exactly as the decoder on values does: with a ballot, an error or a panic, on every
    document. The objects of the ballot hold what the document says, and nothing that existed is written. *)
Theorem C68_decode_on_shared_objects : forall GF GE doc pp vpp h,
  repPub GF GE (fe _ _ h) (sub _ _ h) pp vpp ->
  match BallotDataUnmarshalJSON GF GE doc vpp with
  | Ok v => exists b h', iBallotDataUnmarshalJSON GF GE doc pp h = Ok (b, h') /\ repBallot GF GE (fe _ _ h') (sub _ _ h') b v /\ Unchanged2 GF GE h h'
  | Err => iBallotDataUnmarshalJSON GF GE doc pp h = Err
  | Panic => iBallotDataUnmarshalJSON GF GE doc pp h = Panic
  | OutOfFuel => iBallotDataUnmarshalJSON GF GE doc pp h = OutOfFuel
  end.
Proof.
  intros GF GE doc pp vpp h HP. pose proof (iBallotData_ok GF GE doc pp vpp h) as K. unfold wpx in K.
  destruct (BallotDataUnmarshalJSON GF GE doc vpp) as [v| | |]; try exact K.
  destruct K as (b & h' & E & S & R1 & R2 & Q1 & Q2 & O). exists b, h'. split; [exact E|].
  pose proof (Own2_Pre2 _ _ _ _ _ _ _ O) as P. split; [|exact (Pre2_Unchanged _ _ _ _ P)].
  assert (RB : repBPParams GE (sub _ _ h') (yBP pp) (ppBP vpp)) by (eapply repBPParams_pre; [exact (proj2 P)|]; apply HP).
  apply (repBallot_own _ _ h h' b v S O); [rewrite R1, Q1|rewrite R2, Q2]; exact RB.
Qed.

(** A ballot that was read shares nothing with anything else: all its objects were made by the decoder, each is used for one
    field only, except that both Bulletproofs refer to the Bulletproof parameters of the reader. *)
Theorem C68_decoded_ballot_is_fresh : forall GF GE doc pp h b h',
  iBallotDataUnmarshalJSON GF GE doc pp h = Ok (b, h') ->
  MadeSince GF GE h b /\ Within GF GE h' b /\
  Distinct (ballotElementsF b) /\ Distinct (ballotElementsE b) /\ Distinct (ballotIntegers b) /\
  rParams (yLower b) = yBP pp /\ rParams (yUpper b) = yBP pp /\ Unchanged2 GF GE h h'.
Proof.
  intros GF GE doc pp h b h' E.
  pose (ff := @mkGroupParams GF (gNew GF) (gNew GF) None None). pose (ec := @mkGroupParams GE (gNew GE) (gNew GE) None None).
  pose (vpp := mkPublicParameters ff ec (gNew GF) 0 0 (mkBPParams 0 (gNew GE) (gNew GE) [] []) (mkProofParams 0 0 0 0 0 0 ff ec)).
  pose proof (iBallotData_ok GF GE doc pp vpp h) as K. unfold wpx in K.
  destruct (BallotDataUnmarshalJSON GF GE doc vpp) as [v| | |]; rewrite E in K; try discriminate.
  destruct K as (b' & h'' & E' & S & R1 & R2 & _ & _ & O). injection E' as <- <-.
  destruct (Own2_new _ _ _ _ _ _ S O) as (A & B & C & D & F). repeat (split; [assumption|]).
  exact (Pre2_Unchanged _ _ _ _ (Own2_Pre2 _ _ _ _ _ _ _ O)).
Qed.

(** Two ballots read one after the other, also from the same document, have no object in common, and reading the second leaves
    the first as it was. *)
Theorem C68_two_ballots_apart : forall GF GE doc1 doc2 pp1 pp2 h b1 h1 b2 h2,
  iBallotDataUnmarshalJSON GF GE doc1 pp1 h = Ok (b1, h1) ->
  iBallotDataUnmarshalJSON GF GE doc2 pp2 h1 = Ok (b2, h2) ->
  Apart b1 b2 /\ Unchanged2 GF GE h1 h2.
Proof.
  intros GF GE doc1 doc2 pp1 pp2 h b1 h1 b2 h2 E1 E2.
  destruct (C68_decoded_ballot_is_fresh _ _ _ _ _ _ _ E1) as (_ & (A1 & A2 & A3) & _).
  destruct (C68_decoded_ballot_is_fresh _ _ _ _ _ _ _ E2) as ((B1 & B2 & B3) & _ & _ & _ & _ & _ & _ & U).
  split; [|exact U]. split; [|split]; intros r [X Y].
  - exact (A1 r X (B1 r Y)).
  - exact (A2 r X (B2 r Y)).
  - exact (A3 r X (B3 r Y)).
Qed.

(** ** Writing *)
(** json.Marshal only reads: it ends as the encoder on values does, with the same document, and the heap is the same. *)
Theorem C68_encode_on_shared_objects : forall GF GE h b v,
  repBallot GF GE (fe _ _ h) (sub _ _ h) b v ->
  iEncBallotData GF GE b h = (j <- encBallotData GF GE v ;; Ok (j, h)).
Proof.
  intros GF GE h b v R. pose proof (enc_Ballot GF GE h b v R) as K. unfold Enc, wpx in K.
  destruct (encBallotData GF GE v) as [j| | |]; cbn [bind]; try exact K. destruct K as (u & h' & E & -> & ->). exact E.
Qed.

(** ** Sending a ballot and verifying what was received *)
(** main_test.go 13-26: the ballot is marshalled, and unmarshalled by the reader *)
Definition iSend (GF GE : Grp) (pp : PublicParametersP) (b : BallotDataP) : M2 GF GE BallotDataP :=
  mbind2 GF GE (iEncBallotData GF GE b) (fun j => iBallotDataUnmarshalJSON GF GE (Some j) pp).
Fixpoint iSendAll (GF GE : Grp) (pp : PublicParametersP) (bs : list BallotDataP) : M2 GF GE (list BallotDataP) :=
  match bs with
  | [] => ret2 GF GE []
  | b :: t => mbind2 GF GE (iSend GF GE pp b) (fun c => mbind2 GF GE (iSendAll GF GE pp t) (fun cs => ret2 GF GE (c :: cs)))
  end.

(** If the value-level ballot survives the transport, so do the objects: what arrives holds the same ballot, is made of new
    objects, and is verified with the same answer as what was sent. *)
Theorem C68_sent_ballot_verifies_alike : forall GF GE HO h pp vpp b v N two,
  repBallot GF GE (fe _ _ h) (sub _ _ h) b v -> repPub GF GE (fe _ _ h) (sub _ _ h) pp vpp ->
  zAt GE (sub _ _ h) N (Some (gN GE)) -> zAt GE (sub _ _ h) two (Some 2) ->
  (exists j, encBallotData GF GE v = Ok j /\ BallotDataUnmarshalJSON GF GE (Some j) vpp = Ok v) ->
  exists c h1, iSend GF GE pp b h = Ok (c, h1) /\ repBallot GF GE (fe _ _ h1) (sub _ _ h1) c v /\ MadeSince GF GE h c /\ Unchanged2 GF GE h h1 /\
    match iVerifyVote GF GE HO c (yRP pp) N two h1 with
    | Ok (a, h2) => verifyVote GF GE HO v (ppRP vpp) = Ok a /\ Unchanged2 GF GE h1 h2
    | Err => verifyVote GF GE HO v (ppRP vpp) = Err
  | Panic => verifyVote GF GE HO v (ppRP vpp) = Panic
  | OutOfFuel => verifyVote GF GE HO v (ppRP vpp) = OutOfFuel
    end.
Proof.
  intros GF GE HO h pp vpp b v N two R HP HN HT (j & EJ & DJ).
  pose proof (C68_decode_on_shared_objects GF GE (Some j) pp vpp h HP) as K. rewrite DJ in K. destruct K as (c & h1 & E & RC & U).
  exists c, h1. split; [unfold iSend, mbind2; rewrite (C68_encode_on_shared_objects GF GE h b v R), EJ; exact E|].
  split; [exact RC|]. pose proof (C68_decoded_ballot_is_fresh _ _ _ _ _ _ _ E) as (MS & _). split; [exact MS|]. split; [exact U|].
  pose proof (iBallotData_ok GF GE (Some j) pp vpp h) as K. unfold wpx in K. rewrite DJ in K. destruct K as (c' & h1' & E' & _ & _ & _ & _ & _ & O).
  rewrite E in E'. injection E' as <- <-. pose proof (Own2_Pre2 _ _ _ _ _ _ _ O) as P.
  pose proof (C65_verify_on_shared_objects GF GE HO h1 c v (yRP pp) (ppRP vpp) N two RC) as V.
  destruct (iVerifyVote GF GE HO c (yRP pp) N two h1) as [[a h2]| | |].
  - destruct V as (V1 & V2 & _); [apply (repPub_pre GF GE h h1 pp vpp P HP)|exact (pre_z _ _ _ (proj2 P) _ _ HN)|exact (pre_z _ _ _ (proj2 P) _ _ HT)|].
    split; assumption.
  - apply V; [apply (repPub_pre GF GE h h1 pp vpp P HP)|exact (pre_z _ _ _ (proj2 P) _ _ HN)|exact (pre_z _ _ _ (proj2 P) _ _ HT)].
  - apply V; [apply (repPub_pre GF GE h h1 pp vpp P HP)|exact (pre_z _ _ _ (proj2 P) _ _ HN)|exact (pre_z _ _ _ (proj2 P) _ _ HT)].
  - apply V; [apply (repPub_pre GF GE h h1 pp vpp P HP)|exact (pre_z _ _ _ (proj2 P) _ _ HN)|exact (pre_z _ _ _ (proj2 P) _ _ HT)].
Qed.

Section SendMany.
Context (GF GE : Grp).
Lemma sendAll_ok : forall pp vpp bs vs h,
  repPub GF GE (fe _ _ h) (sub _ _ h) pp vpp ->
  Forall2 (fun b v => repBallot GF GE (fe _ _ h) (sub _ _ h) b v) bs vs ->
  Forall (fun v => exists j, encBallotData GF GE v = Ok j /\ BallotDataUnmarshalJSON GF GE (Some j) vpp = Ok v) vs ->
  exists cs h', iSendAll GF GE pp bs h = Ok (cs, h') /\ Pre2 GF GE h h' /\
    Forall2 (fun c v => repBallot GF GE (fe _ _ h') (sub _ _ h') c v) cs vs.
Proof.
  intros pp vpp bs vs h HP HB. revert h HP HB. intros h HP HB. remember h as h0 eqn:Eh in HB.
  assert (P0 : Pre2 GF GE h0 h) by (subst h0; split; [apply PreF_refl|apply Pre_refl]). clear Eh. revert h P0 HP.
  induction HB as [|b v bs vs R HB IH]; intros h P0 HP HV.
  - exists [], h. split; [reflexivity|]. split; [|constructor]. split; [apply PreF_refl|apply Pre_refl].
  - inversion HV as [|? ? (j & EJ & DJ) HV']; subst.
    pose proof (C68_decode_on_shared_objects GF GE (Some j) pp vpp h HP) as K. rewrite DJ in K. destruct K as (c & h1 & E & RC & _).
    pose proof (iBallotData_ok GF GE (Some j) pp vpp h) as K. unfold wpx in K. rewrite DJ in K. destruct K as (c' & h1' & E' & _ & _ & _ & _ & _ & O).
    rewrite E in E'. injection E' as <- <-. pose proof (Own2_Pre2 _ _ _ _ _ _ _ O) as P.
    destruct (IH h1 (Pre2_trans GF GE _ _ _ P0 P)) as (cs & h2 & E2 & P2 & A); [exact (repPub_pre GF GE _ _ pp vpp P HP)|exact HV'|].
    exists (c :: cs), h2. split.
    { cbn [iSendAll]. unfold mbind2 at 1. unfold iSend, mbind2 at 1.
      rewrite (C68_encode_on_shared_objects GF GE h b v (repBallot_pre GF GE _ _ b v P0 R)), EJ. cbn [bind]. rewrite E. unfold mbind2. rewrite E2. reflexivity. }
    split; [exact (Pre2_trans GF GE _ _ _ P P2)|]. constructor; [exact (repBallot_pre GF GE _ _ c v P2 RC)|exact A].
Qed.
End SendMany.
Lemma castAll_values : forall GF GE HO vpp h crs bs,
  Forall2 (fun cr b => exists v, castVote GF GE HO vpp cr = Ok v /\ repBallot GF GE (fe _ _ h) (sub _ _ h) b v) crs bs ->
  forall b, In b bs -> exists cr v, In cr crs /\ castVote GF GE HO vpp cr = Ok v /\ repBallot GF GE (fe _ _ h) (sub _ _ h) b v.
Proof.
  intros GF GE HO vpp h crs bs A. induction A as [|cr b crs bs (v & E & R) A IH]; intros b' [].
  - subst b'. exists cr, v. split; [left; reflexivity|split; assumption].
  - destruct (IH b' H) as (cr' & v' & I & X). exists cr', v'. split; [right; exact I|exact X].
Qed.

(** An election by mail, on objects. After setup, any number of voters cast ballots; any of these are sent as JSON, in any
    order and any number of times; the server verifies any of the ballots it received, in any order and any number of times.
    All are accepted, and no step changes anything that was there before it. *)
Theorem C68_election_by_mail : forall d GE HO nan64 vpp crs h NF PF NE two,
  ModPOk d -> GrpLaws GE -> JsonRoundtrip GE -> nanConv nan64 -> bitLen (gN GE) < 65536 -> gN GE <= mpOrder d -> 2 < mpOrder d ->
  setup d GE nan64 = Ok vpp ->
  Digest32 HO -> ChallengesInvertible GE HO -> (exists u, gMap GE (str_bytes SEEDU) = Ok u) ->
  Forall (fun cr => CastDrawsOk vpp cr /\
    exists dr, In dr (cr_vp cr) /\ 2 ^ 240 <= dk dr <= 2 ^ (vBg (ppRP vpp) - 1) - 2 ^ 240) crs ->
  zAt GE (sub _ _ h) NF (Some (mpOrder d)) -> zAt GE (sub _ _ h) PF (Some (mpField d)) ->
  zAt GE (sub _ _ h) NE (Some (gN GE)) -> zAt GE (sub _ _ h) two (Some 2) ->
  exists pp h1 ballots h2,
    iMainSetup (ModPGrp d) GE nan64 NF PF NE h = Ok (pp, h1) /\ Unchanged2 (ModPGrp d) GE h h1 /\
    iCastAll (ModPGrp d) GE HO pp crs NF NE two h1 = Ok (ballots, h2) /\ Unchanged2 (ModPGrp d) GE h1 h2 /\
    length ballots = length crs /\
    forall bs, (forall b, In b bs -> In b ballots) ->
      exists cs h3, iSendAll (ModPGrp d) GE pp bs h2 = Ok (cs, h3) /\ Unchanged2 (ModPGrp d) GE h2 h3 /\ length cs = length bs /\
        forall l, (forall c, In c l -> In c cs) ->
        exists h4, iVerifyAll (ModPGrp d) GE HO l (yRP pp) NE two h3 = Ok (repeat (true, 2%nat) (length l), h4) /\
          Unchanged2 (ModPGrp d) GE h3 h4.
Proof.
  intros d GE HO nan64 vpp crs h NF PF NE two Hok LE JE Hn HB HQ Hq2 HS HDig HI Hu HC HF HP HE HT.
  destruct h as [F W s]. cbn [sub] in *.
  pose proof (iMainSetup_ok d GE nan64 NF PF NE F W s HF HP HE) as K. unfold wp2 in K.
  destruct (iMainSetup (ModPGrp d) GE nan64 NF PF NE (mkH2 (ModPGrp d) GE F W s)) as [[pp h1]| | |]; try congruence.
  destruct K as (vpp' & HS' & P1 & R). rewrite HS in HS'. injection HS' as <-.
  pose proof (pre_z _ _ _ (proj2 P1) _ _ HF) as HF1. pose proof (pre_z _ _ _ (proj2 P1) _ _ HE) as HE1.
  pose proof (pre_z _ _ _ (proj2 P1) _ _ HT) as HT1. cbn [sub] in *.
  assert (HCast : Forall (fun cr => exists v, castVote (ModPGrp d) GE HO vpp cr = Ok v) crs).
  { eapply Forall_impl; [|exact HC]. intros cr [HD Hdr]. exact (C25_cast_returns d GE HO nan64 vpp cr Hok LE Hn HB HQ Hq2 HS HD HDig HI Hu Hdr). }
  destruct (castAll_ok (ModPGrp d) GE HO pp vpp crs NF NE two h1 R HF1 HE1 HT1 HCast) as (ballots & h2 & E & P2 & A).
  exists pp, h1, ballots, h2. split; [reflexivity|]. split; [exact (Pre2_Unchanged _ _ _ _ P1)|]. split; [exact E|].
  split; [exact (Pre2_Unchanged _ _ _ _ P2)|]. split; [clear - A; induction A; cbn; congruence|].
  pose proof (repPub_pre (ModPGrp d) GE _ _ pp vpp P2 R) as R2.
  pose proof (pre_z _ _ _ (proj2 P2) _ _ HE1) as HE2. pose proof (pre_z _ _ _ (proj2 P2) _ _ HT1) as HT2.
  pose proof (castAll_values _ _ _ _ _ _ _ A) as AV.
  intros bs Hbs.
  assert (HV : exists vs, Forall2 (fun b v => repBallot (ModPGrp d) GE (fe _ _ h2) (sub _ _ h2) b v) bs vs /\
    Forall (fun v => exists cr, In cr crs /\ castVote (ModPGrp d) GE HO vpp cr = Ok v) vs).
  { clear - AV Hbs. induction bs as [|b bs IH]; [exists []; split; constructor|].
    destruct IH as (vs & I1 & I2); [intros b' I; apply Hbs; right; exact I|].
    destruct (AV b (Hbs b (or_introl eq_refl))) as (cr & v & I & Ec & Rv). exists (v :: vs). split; constructor; try assumption. exists cr. split; assumption. }
  destruct HV as (vs & RV & CV).
  destruct (sendAll_ok (ModPGrp d) GE pp vpp bs vs h2 R2 RV) as (cs & h3 & E3 & P3 & RC).
  { eapply Forall_impl; [|exact CV]. intros v (cr & _ & Hv). exact (C35_cast_roundtrip d GE HO nan64 vpp cr v JE LE Hn HB HS Hv). }
  exists cs, h3. split; [exact E3|]. split; [exact (Pre2_Unchanged _ _ _ _ P3)|].
  split; [clear - RC RV; transitivity (length vs); [clear RV; induction RC; cbn; congruence|clear RC; induction RV; cbn; congruence]|].
  intros l Hl.
  destruct (verifyAll_ok (ModPGrp d) GE HO (yRP pp) (ppRP vpp) l NE two h3) as (h4 & E4 & P4).
  - apply (repPP_pre (ModPGrp d) GE _ _ _ _ _ _ _ _ (proj1 P3) (proj2 P3)). apply R2.
  - exact (pre_z _ _ _ (proj2 P3) _ _ HE2).
  - exact (pre_z _ _ _ (proj2 P3) _ _ HT2).
  - apply Forall_forall. intros c Hc. apply Hl in Hc. revert Hc CV. clear - RC HC Hok LE Hn HB HQ HS.
    induction RC as [|c' v cs' vs' Rv A IH]; [intros []|intros [Hb|Hb] CV]; inversion CV as [|? ? (cr & Icr & Ecr) CV']; subst.
    + exists v. split; [exact Rv|]. rewrite Forall_forall in HC. destruct (HC cr Icr) as [HD _].
      exact (C25_end_to_end d GE HO nan64 vpp cr v Hok LE Hn HB HQ HS HD Ecr).
    + apply IH; assumption.
  - exists h4. split; [exact E4|exact (Pre2_Unchanged _ _ _ _ P4)].
Qed.

(** ** Concrete cases *)
(** The ballot of C65_case is sent twice. In the ballot itself Tprime and Cc are one object and the group order of both Bulletproof
    parameters is shared with the caller; the two arrivals are made of new objects only. All three verify. *)
Definition made (n k : nat) : list ptr := map (@Some nat) (seq n k).
Example C68_case :
  match iCastVote vF toy aHO vPub aCR (vP 0) (vP 2) (vP 3) vHeap with
  | Ok (b, h') =>
      match iSendAll vF toy vPub [b; b] h' with
      | Ok ([c; c'], h'') =>
          rTprime (yLower b) = qCc (rIPP (yLower b)) /\ ballotElementsF b = [vP 13; vP 10; vP 1; vP 0; vP 5; vP 4] /\
          ballotElementsF c = rev (made 14 6) /\ ballotElementsF c' = rev (made 20 6) /\
          ballotIntegers c = made 329 9 ++ made 323 6 ++ made 317 6 /\ ballotIntegers c' = made 350 9 ++ made 344 6 ++ made 338 6 /\
          length (ballotElementsE c) = 30%nat /\ rParams (yLower c) = vBPP /\
          match iVerifyAll vF toy aHO [c; c'; b] (yRP vPub) (vP 2) (vP 3) h'' with
          | Ok (a, h3) => a = repeat (true, 2%nat) 3 /\ firstn 26 (fe _ _ h3) = fe _ _ h''
          | _ => False
          end
      | _ => False
      end
  | _ => False
  end.
Proof. vm_compute. repeat split; reflexivity. Qed.

(** A repeated key overwrites the integer made for the first one; a null in between makes the decoder forget it. *)
Local Open Scope string_scope. Local Open Scope list_scope.
Example C68_repeated_key :
  match iBulletProofUnmarshalJSON toy (Some (JObj [("Taux", JInt 5); ("taux", JInt 7); ("Mu", JInt 1); ("Mu", JNull); ("Mu", JInt 2)])) vBPP (sub _ _ vHeap) with
  | Ok (p, s) => rTaux p = vP 4 /\ rMu p = vP 6 /\ rTprime p = None /\ hz _ s = [4211; 8423; 101; 2; 7; 1; 2]
  | _ => False
  end /\
  match iBallotDataUnmarshalJSON vF toy (Some (JObj [])) vPub vHeap with Err => True | _ => False end /\
  match iBulletProofUnmarshalJSON toy (Some (JObj [("InnerProductProof", JObj [("L", JArr [JInt 1])])])) vBPP (sub _ _ vHeap) with
  | Panic => True | _ => False end.
Proof. vm_compute. repeat split; reflexivity. Qed.

(** C68_election_by_mail with the constants of main.go: two voters, the second ballot is sent twice and the first once, and the
    server verifies what it received. *)
Lemma gR_json : JsonRoundtrip gR.
Proof. apply toy_json. Qed.
Example C68_election_case : exists pp h1 b1 b2 h2 c1 c2 c3 h3 h4,
  iMainSetup (ModPGrp dBig) gR 0 (vP 0) (vP 1) (vP 2) eHeap = Ok (pp, h1) /\
  iCastAll (ModPGrp dBig) gR oneHO pp [bCR; bCR] (vP 0) (vP 2) (vP 3) h1 = Ok ([b1; b2], h2) /\
  iSendAll (ModPGrp dBig) gR pp [b2; b1; b2] h2 = Ok ([c1; c2; c3], h3) /\
  iVerifyAll (ModPGrp dBig) gR oneHO [c3; c1; c2] (yRP pp) (vP 2) (vP 3) h3 = Ok ([(true, 2%nat); (true, 2%nat); (true, 2%nat)], h4).
Proof.
  assert (HB : bitLen (gN gR) = 253) by reflexivity.
  assert (HQ : gN gR <= mpOrder dBig) by discriminate.
  destruct (C43_setup_outcome dBig gR 0) as [_ HS]; [intros s; eexists; reflexivity|rewrite HB; lia|rewrite HB; lia|].
  destruct (HS ltac:(rewrite HB; lia)) as (vpp & HSe & Hmin & Hmax & _ & _ & _ & _ & HBg & _). rewrite HB in HBg.
  assert (HD : CastDrawsOk vpp bCR).
  { split; [rewrite Hmin, Hmax; cbn [bCR cr_choice]; lia|]. intros dr Hin. unfold DrawOk. rewrite HBg. cbn [bCR cr_vp In] in Hin.
    destruct Hin as [<-|[<-|[]]]; cbn [dk dtp dtq1 dtq2]; repeat split; try discriminate; reflexivity. }
  assert (Hdig : Digest32 oneHO).
  { intros b. split; [reflexivity|]. apply Forall_forall. intros x Hx. cbn in Hx. unfold is_byte.
    repeat (destruct Hx as [<-|Hx]; [lia|]). destruct Hx. }
  assert (HI : forall A B, HashBP gR oneHO A B = (1, 1)) by reflexivity.
  assert (HX : CastDrawsOk vpp bCR /\ exists dr, In dr (cr_vp bCR) /\ 2 ^ 240 <= dk dr <= 2 ^ (vBg (ppRP vpp) - 1) - 2 ^ 240).
  { split; [exact HD|]. exists (mkDraw (2 ^ 241) 11 22 33). split; [right; left; reflexivity|]. rewrite HBg. cbn [dk]. split; discriminate. }
  destruct (C68_election_by_mail dBig gR oneHO 0 vpp [bCR; bCR] eHeap (vP 0) (vP 1) (vP 2) (vP 3)) as (pp & h1 & bs & h2 & E1 & _ & E2 & _ & EL & E3);
    try assumption.
  - exact dBig_ok.
  - exact (toyLaws r255Order hR).
  - exact gR_json.
  - right. reflexivity.
  - rewrite HB. reflexivity.
  - reflexivity.
  - intros A B. rewrite HI. cbn [fst]. apply Z.gcd_1_l.
  - eexists. reflexivity.
  - constructor; [exact HX|]. constructor; [exact HX|]. constructor.
  - exists 0%nat. split; reflexivity.
  - exists 1%nat. split; reflexivity.
  - exists 2%nat. split; reflexivity.
  - exists 3%nat. split; reflexivity.
  - destruct bs as [|b1 [|b2 [|]]]; try discriminate EL.
    destruct (E3 [b2; b1; b2]) as (cs & h3 & E & _ & LC & E4). { intros b Hb. cbn [In] in Hb |- *. tauto. }
    destruct cs as [|c1 [|c2 [|c3 [|]]]]; try discriminate LC.
    destruct (E4 [c3; c1; c2]) as (h4 & EV & _). { intros b Hb. cbn [In] in Hb |- *. tauto. }
    exists pp, h1, b1, b2, h2, c1, c2, c3, h3, h4. split; [exact E1|]. split; [exact E2|]. split; [exact E|exact EV].
Qed.

Print Assumptions C68_decode_on_shared_objects.
Print Assumptions C68_decoded_ballot_is_fresh.
Print Assumptions C68_two_ballots_apart.
Print Assumptions C68_encode_on_shared_objects.
Print Assumptions C68_sent_ballot_verifies_alike.
Print Assumptions C68_election_by_mail.
