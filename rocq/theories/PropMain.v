(** C64: the program. *)
From Verif Require Import GoBase Out Json GroupIface Vector BIP BP VoteProof ModP App ECJson P256k1 Curve Groups Marshal Main NumTh Alg
  SetupProofs ModPProofs Toy Hom Pres PropBP PropVote PropModP PropApp PropEC PropCurve PropJson PropTransport PropGen PropK1.
From Coq Require Import Znumtheory.

(** ** Vocabulary *)
(** the sum of a clock reading over the thousand iterations *)
Definition total (f : Timing -> Z) (its : nat -> CastRand * Timing) : Z :=
  fold_right Z.add 0 (map (fun j => f (snd (its j))) (seq 0 1000)).
(** the response z = k + c x that a draw of the vote proof leads to, c being the first 28 bytes of the hash of the four commitments *)
Definition commitOf (G : Grp) (H : E G) (k t : Z) : E G := gAdd G (gBase G k) (gScale G H t).
Definition response {d GE} (HO : Oracles) (pp : PublicParameters (ModPGrp d) GE) (x : Z) (dr : Draw) : Z :=
  let k := dk dr mod gN (ModPGrp d) in
  let w := gBase (ModPGrp d) (dtp dr) in
  let Kp := commitOf (ModPGrp d) (ppEGPK pp) k (dtp dr) in
  let Kq1 := commitOf GE (bpH (ppBP pp)) k (dtq1 dr) in
  let Kq2 := commitOf GE (bpH (ppBP pp)) k (dtq2 dr) in
  dk dr + os2ip (firstn 28 (sha256 HO (gStr (ModPGrp d) w ++ gStr (ModPGrp d) Kp ++ gStr GE Kq1 ++ gStr GE Kq2))) * x.
(** how many draws of a ballot's vote proof are thrown away: those before the first with 2^240 <= z < 2^(bg-1), where bg is the
    bit length of the curve's order and x = 101 + choice the candidate *)
Fixpoint leading {A} (p : A -> bool) (l : list A) : nat :=
  match l with [] => 0%nat | x :: t => if p x then S (leading p t) else 0%nat end.
Definition aborts (d : ModPDesc) (HO : Oracles) (nan64 : Z) (GE : Grp) (cr : CastRand) : nat :=
  match setup d GE nan64 with
  | Ok pp => leading (fun dr => let z := response HO pp (101 + cr_choice cr) dr in (z <? 2 ^ 240) || (2 ^ (vBg (ppRP pp) - 1) <=? z)) (cr_vp cr)
  | _ => 0%nat
  end.
(** over the first n iterations of a group *)
Definition abortsUpTo (d : ModPDesc) (HO : Oracles) (nan64 : Z) (GE : Grp) (its : nat -> CastRand * Timing) (n : nat) : nat :=
  list_sum (map (fun j => aborts d HO nan64 GE (fst (its j))) (seq 0 n)).
(** what main prints about a group it ran to the end, with na "Aborted" lines and the answer b *)
Definition report (name : string) (b : bool) (na : nat) (its : nat -> CastRand * Timing) : list Line :=
  [LEq; LGen name] ++ repeat LAborted na ++
  [LDash; LCasting; LProve (total tCast its / 1000); LDash; LVerification; LTimeBP (total tBP its / 1000);
   LTimeRP (total tRP its / 1000); LTimeTotal (total tBP its / 1000 + total tRP its / 1000); LDash; LFormed b; LEq].
(** no clock reading is negative or above 2^53 ns (104 days), so that the totals fit int64 *)
Definition ClockOk (its : nat -> CastRand * Timing) : Prop := forall j, (j < 1000)%nat ->
  let tm := snd (its j) in 0 <= tCast tm <= 2 ^ 53 /\ 0 <= tBP tm <= 2 ^ 53 /\ 0 <= tRP tm <= 2 ^ 53.
(** the draws are in range, and each castVote returns (meets no challenge without an inverse, accepts one of its draws) *)
Definition CastsReturn (d : ModPDesc) (HO : Oracles) (nan64 : Z) (GE : Grp) (its : nat -> CastRand * Timing) : Prop :=
  forall pp j, setup d GE nan64 = Ok pp -> (j < 1000)%nat ->
    CastDrawsOk pp (fst (its j)) /\ exists ballot, castVote (ModPGrp d) GE HO pp (fst (its j)) = Ok ballot.
(** honest ballots over the group are accepted *)
Definition Accepting (d : ModPDesc) (HO : Oracles) (nan64 : Z) (GE : Grp) : Prop :=
  forall pp cr ballot, setup d GE nan64 = Ok pp -> CastDrawsOk pp cr -> castVote (ModPGrp d) GE HO pp cr = Ok ballot ->
    verifyVote (ModPGrp d) GE HO ballot (ppRP pp) = Ok (true, 2%nat).

(** ** Lemmas *)
(** printing changes nothing else: vpProveOut and castVoteOut end as vpProve and castVote do *)
Lemma proveOut_snd : forall GF GE HO x rp rq1 rq2 pr drs, snd (vpProveOut GF GE HO x rp rq1 rq2 pr drs) = vpProve GF GE HO x rp rq1 rq2 pr drs.
Proof.
  induction drs as [|dr t IH]; [reflexivity|]. cbn [vpProveOut vpProve]. rewrite obind_snd. cbn [quiet snd].
  destruct (vpIter GF GE HO x rp rq1 rq2 pr dr) as [[pf|]| | |]; try reflexivity. cbn [bind]. rewrite obind_snd. cbn [say snd bind]. exact IH.
Qed.
Lemma castOut_snd : forall GF GE HO pp cr, snd (castVoteOut GF GE HO pp cr) = castVote GF GE HO pp cr.
Proof.
  intros GF GE HO pp cr. unfold castVoteOut, castVote. rewrite obind_snd. cbn [quiet snd].
  destruct (randInt _ (cr_choice cr)) as [rb| | |]; try reflexivity. cbn [bind]. rewrite obind_snd. cbn [quiet snd].
  destruct (encryptVote _ _ _ _) as [[ct rp]| | |]; try reflexivity. cbn [bind]. rewrite obind_snd. cbn [quiet snd].
  destruct (Prove GE HO _ _ (cr_bp1 cr)) as [[b1 r1]| | |]; try reflexivity. cbn [bind]. rewrite obind_snd. cbn [quiet snd].
  destruct (Prove GE HO _ _ (cr_bp2 cr)) as [[b2 r2]| | |]; try reflexivity. cbn [bind]. rewrite obind_snd. cbn [quiet snd].
  destruct (deref _) as [ne| | |]; try reflexivity. cbn [bind]. rewrite obind_snd, proveOut_snd.
  destruct (vpProve _ _ _ _ _ _ _ _ _); reflexivity.
Qed.
Lemma proveOut_lines : forall GF GE HO x rp rq1 rq2 pr drs pf, vpProve GF GE HO x rp rq1 rq2 pr drs = Ok pf ->
  fst (vpProveOut GF GE HO x rp rq1 rq2 pr drs) =
  repeat LAborted (leading (fun dr => match vpIter GF GE HO x rp rq1 rq2 pr dr with Ok None => true | _ => false end) drs).
Proof.
  induction drs as [|dr t IH]; intros pf H; [discriminate|]. cbn [vpProveOut vpProve leading] in *. rewrite obind_quiet.
  destruct (vpIter GF GE HO x rp rq1 rq2 pr dr) as [[pf'|]| | |] eqn:Hi; try discriminate; cbn [bind] in H; [reflexivity|].
  unfold say. rewrite obind_ok. cbn [fst app repeat]. f_equal. apply (IH pf H).
Qed.
Lemma leading_ext_until : forall A (p q : A -> bool) l, (forall x, In x l -> p x = true -> q x = true) ->
  (exists l1 x l2, l = l1 ++ x :: l2 /\ (forall y, In y l1 -> p y = true) /\ p x = false /\ q x = false) -> leading p l = leading q l.
Proof.
  intros A p q l Hpq (l1 & x & l2 & -> & H1 & Hx & Hq). induction l1 as [|y t IH]; cbn [app leading].
  - rewrite Hx, Hq. reflexivity.
  - rewrite (H1 y (or_introl eq_refl)). rewrite (Hpq y (or_introl eq_refl) (H1 y (or_introl eq_refl))). f_equal. apply IH.
    + intros z Hz. apply Hpq. right. exact Hz.
    + intros z Hz. apply H1. right. exact Hz.
Qed.
Lemma setup_inv : forall d GE nan64 pp, setup d GE nan64 = Ok pp ->
  ppMin pp = 101 /\ ppMax pp = 2000 /\ vBc (ppRP pp) = 224 /\ gpN (vGFF (ppRP pp)) = Some (gN (ModPGrp d)) /\ gpN (vGEC (ppRP pp)) = Some (gN GE) /\
  gpH (vGFF (ppRP pp)) = ppEGPK pp /\ gpH (vGEC (ppRP pp)) = bpH (ppBP pp) /\
  zLowerBound _ _ (ppRP pp) = 2 ^ 240 /\ zUpperBound _ _ (ppRP pp) = 2 ^ (vBg (ppRP pp) - 1).
Proof.
  intros d GE nan64 pp H. unfold setup in H. destruct (Setup GE nan64 65536) as [bp| | |]; try discriminate. cbn [bind] in H.
  unfold vpSetup in H. destruct (wrap16 (bitLen (gN GE)) - 1 - 16 - 224 <? 1) eqn:E; try discriminate. cbn [bind] in H. injection H as <-.
  cbn [ppMin ppMax ppRP vBc vBg vGFF vGEC gpN gpH ppEGPK ppBP]. repeat split.
  unfold zUpperBound. cbn [vBx vBc vBb]. change (wrap16 (16 + 224)) with 240. apply Z.ltb_ge in E.
  unfold bigExp2. destruct (240 + _ <=? 0) eqn:E2; [apply Z.leb_le in E2; lia|]. f_equal. lia.
Qed.

Lemma castOut_lines : forall d HO nan64 GE pp cr b, setup d GE nan64 = Ok pp -> 0 <= cr_choice cr < 1899 ->
  castVote (ModPGrp d) GE HO pp cr = Ok b -> castVoteOut (ModPGrp d) GE HO pp cr = (repeat LAborted (aborts d HO nan64 GE cr), Ok b).
Proof.
  intros d HO nan64 GE pp cr b HS Hc H. pose proof (castOut_snd (ModPGrp d) GE HO pp cr) as Hs. rewrite H in Hs.
  destruct (castVoteOut (ModPGrp d) GE HO pp cr) as [o r] eqn:HO'. cbn [snd] in Hs. subst r. f_equal.
  destruct (setup_inv d GE nan64 pp HS) as (Hmin & Hmax & HBc & HNF & HNE & HHF & HHE & Hlo & Hup).
  unfold aborts. rewrite HS. unfold castVoteOut in HO'. unfold castVote in H.
  destruct (randInt _ (cr_choice cr)) as [rb| | |] eqn:HR; try discriminate. rewrite obind_quiet in HO'. cbn [bind] in H.
  assert (rb = cr_choice cr) as ->. { revert HR. unfold randInt. rewrite Hmin, Hmax. change (wrap16 (2000 - 101)) with 1899. cbn. congruence. }
  assert (Hx : wrap16 (wrap16 (cr_choice cr) + ppMin pp) = 101 + cr_choice cr).
  { rewrite Hmin. unfold wrap16. rewrite (Z.mod_small (cr_choice cr)) by lia. rewrite Z.mod_small; lia. }
  rewrite Hx in *.
  destruct (encryptVote _ _ _ _) as [[ct rp]| | |]; try discriminate. rewrite obind_quiet in HO'. cbn [bind] in H.
  destruct (Prove GE HO _ _ (cr_bp1 cr)) as [[b1 r1]| | |]; try discriminate. rewrite obind_quiet in HO'. cbn [bind] in H.
  destruct (Prove GE HO _ _ (cr_bp2 cr)) as [[b2 r2]| | |]; try discriminate. rewrite obind_quiet in HO'. cbn [bind] in H.
  destruct (deref _) as [ne| | |]; try discriminate. rewrite obind_quiet in HO'. cbn [bind] in H.
  destruct (vpProve _ _ _ _ _ _ _ _ _) as [pf| | |] eqn:HP; try discriminate. cbn [bind] in H.
  destruct (vpProveOut _ _ _ _ _ _ _ _ _) as [o' r'] eqn:HPO.
  pose proof (proveOut_lines _ _ _ _ _ _ _ _ _ _ HP) as HL. rewrite HPO in HL. cbn [fst] in HL.
  pose proof (proveOut_snd (ModPGrp d) GE HO (101 + cr_choice cr) rp r1 (ne - r2) (ppRP pp) (cr_vp cr)) as HPs. rewrite HPO, HP in HPs. cbn [snd] in HPs. subst r'.
  rewrite obind_ok in HO'. cbn [quiet fst snd] in HO'. rewrite app_nil_r in HO'. injection HO' as <- _. rewrite HL. f_equal.
  assert (HI : forall dr, match vpIter (ModPGrp d) GE HO (101 + cr_choice cr) rp r1 (ne - r2) (ppRP pp) dr with
    | Ok None => (response HO pp (101 + cr_choice cr) dr <? 2 ^ 240) || (2 ^ (vBg (ppRP pp) - 1) <=? response HO pp (101 + cr_choice cr) dr) = true
    | Ok (Some _) => (response HO pp (101 + cr_choice cr) dr <? 2 ^ 240) || (2 ^ (vBg (ppRP pp) - 1) <=? response HO pp (101 + cr_choice cr) dr) = false
    | _ => True end).
  { intros dr. unfold vpIter. rewrite HNF, HNE. unfold posN. cbn [deref bind].
    destruct (gN (ModPGrp d) <=? 0); [exact I|]. destruct (gN GE <=? 0); [exact I|]. cbn [bind]. unfold getFSChallenge, vpCommit. rewrite HBc, HHF, HHE, Hlo, Hup.
    change (Z.to_nat (224 / 8)) with 28%nat. unfold slice_to. destruct (Nat.leb 28 _); [|exact I]. cbn [bind].
    unfold response, commitOf, fsInput. destruct (_ || _) eqn:E; first [exact E|reflexivity]. }
  apply leading_ext_until.
  - intros dr _ Hd. specialize (HI dr). destruct (vpIter _ _ _ _ _ _ _ _ dr) as [[?|]| | |]; try discriminate. exact HI.
  - clear - HP HI. revert HP. induction (cr_vp cr) as [|dr t IH]; cbn [vpProve]; intros H; [discriminate|].
    pose proof (HI dr) as Hd. destruct (vpIter _ _ _ _ _ _ _ _ dr) as [[pf'|]| | |] eqn:Ei; try discriminate; cbn [bind] in H.
    + exists [], dr, t. rewrite Ei. repeat split; [intros y []|exact Hd].
    + destruct (IH H) as (l1 & x & l2 & -> & H1 & H2). exists (dr :: l1), x, l2. split; [reflexivity|]. split; [|exact H2].
      intros y [<-|Hy]; [rewrite Ei; reflexivity|apply H1, Hy].
Qed.

Section Iters.
Context (d : ModPDesc) (HO : Oracles) (GE : Grp) (pp : PublicParameters (ModPGrp d) GE).
Local Notation cast := (castVote (ModPGrp d) GE HO pp).
Local Notation verify := (fun b => verifyVote (ModPGrp d) GE HO b (ppRP pp)).

Lemma iters_cons : forall cr tm t st, mainIters d HO GE pp ((cr, tm) :: t) st =
  obind (castVoteOut (ModPGrp d) GE HO pp cr) (fun vote => obind (quiet (verifyVote (ModPGrp d) GE HO vote (ppRP pp))) (fun x =>
    let '(verify, times) := x in if Nat.ltb times 2 then quiet Panic else
    mainIters d HO GE pp t (mkTotals (tsSuccess st && verify) (wrap64 (tsCast st + tCast tm)) (wrap64 (tsBP st + tBP tm)) (wrap64 (tsRP st + tRP tm))))).
Proof. reflexivity. Qed.
Lemma iters_inv : forall its st st', snd (mainIters d HO GE pp its st) = Ok st' ->
  (forall it, In it its -> exists b v, cast (fst it) = Ok b /\ verify b = Ok (v, 2%nat)) /\
  (tsSuccess st' = true <-> tsSuccess st = true /\ forall it, In it its -> exists b, cast (fst it) = Ok b /\ verify b = Ok (true, 2%nat)).
Proof.
  induction its as [|[cr tm] t IH]; intros st st' H.
  - injection H as <-. split; [intros it []|]. split; [intros ->; split; [reflexivity|intros it []]|intros [-> _]; reflexivity].
  - rewrite iters_cons, obind_snd, castOut_snd in H.
    destruct (cast cr) as [b| | |] eqn:Ec; try discriminate. cbn [bind] in H. rewrite obind_snd in H. cbn [quiet snd] in H.
    destruct (verifyVote (ModPGrp d) GE HO b (ppRP pp)) as [[v n]| | |] eqn:Ev; try discriminate. cbn [bind] in H.
    assert (Hn : n = 0%nat \/ n = 2%nat).
    { unfold verifyVote in Ev. destruct (Verify GE HO (bdLower b)) as [[|]| | |]; try discriminate; cbn [bind negb] in Ev;
        [|injection Ev as _ <-; left; reflexivity].
      destruct (Verify GE HO (bdUpper b)) as [[|]| | |]; try discriminate; cbn [bind negb] in Ev; [|injection Ev as _ <-; left; reflexivity].
      destruct (vpVerify _ _ _ _ _); try discriminate. cbn [bind] in Ev. injection Ev as _ <-. right. reflexivity. }
    destruct Hn as [->| ->]; cbn [Nat.ltb Nat.leb] in H; [discriminate|].
    destruct (IH _ _ H) as [I1 I2]. cbn [tsSuccess] in I2. split.
    + intros it [<-|Hi]; [exists b, v; split; assumption|apply I1, Hi].
    + rewrite I2, andb_true_iff. split.
      * intros [[Hs ->] Ha]. split; [exact Hs|]. intros it [<-|Hi]; [exists b; split; assumption|apply Ha, Hi].
      * intros [Hs Ha]. split; [split; [exact Hs|]|intros it Hi; apply Ha; right; exact Hi].
        destruct (Ha (cr, tm) (or_introl eq_refl)) as (b' & E1 & E2). cbn [fst] in E1. rewrite Ec in E1. injection E1 as <-. congruence.
Qed.

(** the "Aborted" lines of some iterations *)
Definition isum (nan64 : Z) (its : list (CastRand * Timing)) : nat := list_sum (map (fun it => aborts d HO nan64 GE (fst it)) its).
(** the prefix of accepted or rejected vote proofs is passed, then the nil slice is indexed *)
Lemma iters_panic : forall nan64 its1 it its2 st b, setup d GE nan64 = Ok pp ->
  (forall it', In it' (its1 ++ [it]) -> 0 <= cr_choice (fst it') < 1899) ->
  (forall it, In it its1 -> exists b v, cast (fst it) = Ok b /\ verify b = Ok (v, 2%nat)) ->
  cast (fst it) = Ok b -> verify b = Ok (false, 0%nat) ->
  mainIters d HO GE pp (its1 ++ it :: its2) st = (repeat LAborted (isum nan64 (its1 ++ [it])), Panic).
Proof.
  intros nan64. induction its1 as [|[cr tm] t IH]; intros [cr' tm'] its2 st b HS Hd Ha Ec Ev; cbn [app fst] in *; rewrite iters_cons.
  - rewrite (castOut_lines d HO nan64 GE pp cr' b HS (Hd (cr', tm') (or_introl eq_refl)) Ec), obind_ok, obind_quiet.
    rewrite Ev. cbn [Nat.ltb Nat.leb quiet fst snd]. unfold isum. cbn [map fst list_sum fold_right]. rewrite app_nil_r, Nat.add_0_r. reflexivity.
  - destruct (Ha (cr, tm) (or_introl eq_refl)) as (b' & v & E1 & E2). cbn [fst] in E1.
    rewrite (castOut_lines d HO nan64 GE pp cr b' HS (Hd (cr, tm) (or_introl eq_refl)) E1), obind_ok, obind_quiet. rewrite E2. cbn [Nat.ltb Nat.leb].
    rewrite (IH (cr', tm') its2 _ b HS); try assumption.
    + cbn [fst snd]. unfold isum. cbn [map fst list_sum fold_right]. rewrite <- repeat_app. reflexivity.
    + intros it' Hi. apply Hd. right. exact Hi.
    + intros it' Hi. apply Ha. right. exact Hi.
Qed.

(** an iteration prints nothing but "Aborted" *)
Lemma prove_prints : forall x rp rq1 rq2 (pr : ProofParams (ModPGrp d) GE) drs l, In l (fst (vpProveOut (ModPGrp d) GE HO x rp rq1 rq2 pr drs)) -> l = LAborted.
Proof.
  induction drs as [|dr t IH]; intros l; [intros []|]. cbn [vpProveOut]. rewrite obind_quiet.
  destruct (vpIter _ _ _ _ _ _ _ _ dr) as [[pf|]| | |]; try (intros []). unfold say. rewrite obind_ok. cbn [fst app In]. intros [<-|H]; [reflexivity|apply IH, H].
Qed.
Lemma obind_prints : forall A B (m : Out Line A) (f : A -> Out Line B), (forall l, In l (fst m) -> l = LAborted) -> (forall a l, In l (fst (f a)) -> l = LAborted) ->
  forall l, In l (fst (obind m f)) -> l = LAborted.
Proof.
  intros A B [o [a| | |]] f Hm Hf l; try apply Hm. rewrite obind_ok. cbn [fst]. intros H. apply in_app_or in H. destruct H as [H|H]; [apply Hm, H|apply (Hf a), H].
Qed.
Lemma cast_prints : forall cr l, In l (fst (castVoteOut (ModPGrp d) GE HO pp cr)) -> l = LAborted.
Proof.
  intros cr. unfold castVoteOut. apply obind_prints; [intros l []|]. intros rb. apply obind_prints; [intros l []|]. intros [ct rp].
  apply obind_prints; [intros l []|]. intros [b1 r1]. apply obind_prints; [intros l []|]. intros [b2 r2]. apply obind_prints; [intros l []|]. intros ne.
  apply obind_prints; [apply prove_prints|]. intros pf l [].
Qed.
Lemma iters_prints : forall its st l, In l (fst (mainIters d HO GE pp its st)) -> l = LAborted.
Proof.
  induction its as [|[cr tm] t IH]; intros st; [intros l []|]. rewrite iters_cons. apply obind_prints; [apply cast_prints|]. intros b.
  apply obind_prints; [intros l []|]. intros [v n]. destruct (Nat.ltb n 2); [intros l []|apply IH].
Qed.

Lemma wrap64_small : forall x, 0 <= x < 2 ^ 63 -> wrap64 x = x.
Proof. intros x H. unfold wrap64. rewrite Z.mod_small; lia. Qed.
Definition tsum (f : Timing -> Z) (its : list (CastRand * Timing)) : Z := fold_right Z.add 0 (map (fun it => f (snd it)) its).
Lemma iters_run : forall nan64 its st, setup d GE nan64 = Ok pp -> (forall it, In it its -> 0 <= cr_choice (fst it) < 1899) ->
  (forall it, In it its -> exists b, cast (fst it) = Ok b /\ verify b = Ok (true, 2%nat)) ->
  (forall it, In it its -> let tm := snd it in 0 <= tCast tm <= 2 ^ 53 /\ 0 <= tBP tm <= 2 ^ 53 /\ 0 <= tRP tm <= 2 ^ 53) ->
  0 <= tsCast st -> 0 <= tsBP st -> 0 <= tsRP st ->
  tsCast st + Z.of_nat (length its) * 2 ^ 53 < 2 ^ 63 -> tsBP st + Z.of_nat (length its) * 2 ^ 53 < 2 ^ 63 -> tsRP st + Z.of_nat (length its) * 2 ^ 53 < 2 ^ 63 ->
  mainIters d HO GE pp its st = (repeat LAborted (isum nan64 its),
    Ok (mkTotals (tsSuccess st) (tsCast st + tsum tCast its) (tsBP st + tsum tBP its) (tsRP st + tsum tRP its))).
Proof.
  intros nan64. induction its as [|[cr tm] t IH]; intros st HS Hd Ha Hc N1 N2 N3 B1 B2 B3.
  - cbn [mainIters tsum map fold_right]. rewrite !Z.add_0_r. destruct st; reflexivity.
  - rewrite iters_cons. destruct (Ha (cr, tm) (or_introl eq_refl)) as (b & E1 & E2). cbn [fst] in E1.
    rewrite (castOut_lines d HO nan64 GE pp cr b HS (Hd (cr, tm) (or_introl eq_refl)) E1), obind_ok, obind_quiet. rewrite E2. cbn [Nat.ltb Nat.leb].
    destruct (Hc (cr, tm) (or_introl eq_refl)) as (C1 & C2 & C3). cbn [snd] in C1, C2, C3. cbn [length] in B1, B2, B3. rewrite Nat2Z.inj_succ in B1, B2, B3.
    rewrite andb_true_r, !wrap64_small by lia. rewrite IH; cbn [tsSuccess tsCast tsBP tsRP]; try lia; try assumption.
    + cbn [fst snd]. unfold isum. cbn [map fst list_sum fold_right]. rewrite <- repeat_app. f_equal.
      unfold tsum. cbn [map fold_right snd]. f_equal. f_equal; ring.
    + intros it Hi. apply Hd. right. exact Hi.
    + intros it Hi. apply Ha. right. exact Hi.
    + intros it Hi. apply Hc. right. exact Hi.
Qed.
End Iters.

Lemma tsum_total : forall f its, tsum f (map its (seq 0 1000)) = total f its.
Proof. intros f its. unfold tsum, total. rewrite map_map. reflexivity. Qed.
Lemma total_bound : forall f its, (forall j, (j < 1000)%nat -> 0 <= f (snd (its j)) <= 2 ^ 53) -> 0 <= total f its <= 1000 * 2 ^ 53.
Proof.
  intros f its H. unfold total.
  assert (G : forall l, (forall j, In j l -> (j < 1000)%nat) ->
    0 <= fold_right Z.add 0 (map (fun j => f (snd (its j))) l) <= Z.of_nat (length l) * 2 ^ 53).
  { induction l as [|j l IH]; intros Hl; cbn [map fold_right length]; [lia|].
    pose proof (H j (Hl j (or_introl eq_refl))). specialize (IH ltac:(intros; apply Hl; right; assumption)). rewrite Nat2Z.inj_succ. lia. }
  pose proof (G (seq 0 1000) ltac:(intros j Hj; apply in_seq in Hj; lia)) as HG. rewrite seq_length in HG. exact HG.
Qed.

(** ** C64 *)
(** A group whose honest ballots are accepted is reported as correct, with the average times. *)
Theorem C64_group_succeeds : forall d HO nan64 GE its,
  (exists pp, setup d GE nan64 = Ok pp) -> Accepting d HO nan64 GE -> CastsReturn d HO nan64 GE its -> ClockOk its ->
  mainGroup d HO nan64 GE its = (report (gName GE) true (abortsUpTo d HO nan64 GE its 1000) its, Ok tt).
Proof.
  intros d HO nan64 GE its (pp & HS) HA HC HK. unfold mainGroup. unfold say at 1. rewrite obind_ok, HS, obind_quiet. change (Z.to_nat iterCount) with 1000%nat.
  assert (Hsum : isum d HO GE nan64 (map its (seq 0 1000)) = abortsUpTo d HO nan64 GE its 1000) by (unfold isum, abortsUpTo; rewrite map_map; reflexivity).
  destruct (setup_inv d GE nan64 pp HS) as (Hmin & Hmax & _).
  rewrite (iters_run d HO GE pp nan64); cbn [tsSuccess tsCast tsBP tsRP]; try lia; [|exact HS| | | | | |].
  - rewrite obind_ok. unfold say. cbn [fst snd tsSuccess tsCast tsBP tsRP]. rewrite Hsum, !Z.add_0_l, !tsum_total. unfold report, iterCount.
    pose proof (total_bound tCast its ltac:(intros j Hj; apply (HK j Hj))) as T1.
    pose proof (total_bound tBP its ltac:(intros j Hj; apply (HK j Hj))) as T2.
    pose proof (total_bound tRP its ltac:(intros j Hj; apply (HK j Hj))) as T3.
    rewrite !Z.quot_div_nonneg by lia. rewrite wrap64_small; [reflexivity|].
    assert (0 <= total tBP its / 1000 <= 2 ^ 53) by (split; [apply Z.div_pos; lia|apply Z.div_le_upper_bound; lia]).
    assert (0 <= total tRP its / 1000 <= 2 ^ 53) by (split; [apply Z.div_pos; lia|apply Z.div_le_upper_bound; lia]). lia.
  - intros it Hi. apply in_map_iff in Hi. destruct Hi as (j & <- & Hj). apply in_seq in Hj.
    destruct (HC pp j HS ltac:(lia)) as ([HD _] & _). rewrite Hmin, Hmax in HD. lia.
  - intros it Hi. apply in_map_iff in Hi. destruct Hi as (j & <- & Hj). apply in_seq in Hj.
    destruct (HC pp j HS ltac:(lia)) as (HD & b & Hb). exists b. split; [exact Hb|]. apply (HA pp _ b HS HD Hb).
  - intros it Hi. apply in_map_iff in Hi. destruct Hi as (j & <- & Hj). apply in_seq in Hj. apply HK. lia.
  - rewrite map_length, seq_length. lia.
  - rewrite map_length, seq_length. lia.
  - rewrite map_length, seq_length. lia.
Qed.

(** The whole program: four reports in this order, all positive. *)
Theorem C64_main : forall HO nan64 d ing A on abs c ri decomp256 ci256 decomp384 ci384 its1 its2 its3 its4,
  ModPOk d -> p384Order <= mpOrder d -> nanConv nan64 ->
  IngOk ing A on abs -> SeedsFull ing 16 -> RistrettoOk c r255Order ri ->
  CirclOk (P256 decomp256) p256Order ci256 -> CirclOk (P384 decomp384) p384Order ci384 ->
  CastsReturn d HO nan64 (K1Grp ing) its1 -> CastsReturn d HO nan64 (R255Grp c ri) its2 ->
  CastsReturn d HO nan64 (P256Grp decomp256 ci256) its3 -> CastsReturn d HO nan64 (P384Grp decomp384 ci384) its4 ->
  ClockOk its1 -> ClockOk its2 -> ClockOk its3 -> ClockOk its4 ->
  goMain HO nan64 d ing c ri decomp256 ci256 decomp384 ci384 its1 its2 its3 its4 =
    (report "secp256k1" true (abortsUpTo d HO nan64 (K1Grp ing) its1 1000) its1 ++
     LBlank :: report "ristretto255" true (abortsUpTo d HO nan64 (R255Grp c ri) its2 1000) its2 ++
     LBlank :: report "P-256" true (abortsUpTo d HO nan64 (P256Grp decomp256 ci256) its3 1000) its3 ++
     LBlank :: report "P-384" true (abortsUpTo d HO nan64 (P384Grp decomp384 ci384) its4 1000) its4, Ok tt).
Proof.
  intros HO nan64 d ing A on abs c ri decomp256 ci256 decomp384 ci384 its1 its2 its3 its4 Hok HQ Hn IO HF RO CO1 CO2 R1 R2 R3 R4 K1 K2 K3 K4.
  assert (Hord : k1Order <= p384Order /\ r255Order <= p384Order /\ p256Order <= p384Order) by (vm_compute; repeat split; discriminate).
  assert (HSet : forall GE, (forall s, exists X, gMap GE s = Ok X) -> In (gN GE) [k1Order; r255Order; p256Order; p384Order] ->
    exists pp, setup d GE nan64 = Ok pp).
  { intros GE Hm Hi. assert (HB : 242 <= bitLen (gN GE) < 65536).
    { cbn [In] in Hi. destruct Hi as [<-|[<-|[<-|[<-|[]]]]]; vm_compute; split; congruence. }
    destruct (C43_setup_outcome d GE nan64 Hm ltac:(lia) ltac:(lia)) as [_ H]. destruct (H ltac:(lia)) as (pp & HS & _). exists pp. exact HS. }
  assert (HAcc : forall GE, GrpLaws GE -> In (gN GE) [r255Order; p256Order; p384Order] -> Accepting d HO nan64 GE).
  { intros GE LE Hi pp cr ballot HS HD HC. assert (HB : bitLen (gN GE) < 65536 /\ gN GE <= mpOrder d).
    { cbn [In] in Hi. destruct Hi as [<-|[<-|[<-|[]]]]; (split; [reflexivity|lia]). }
    apply (C25_end_to_end d GE HO nan64 pp cr ballot Hok LE Hn (proj1 HB) (proj2 HB) HS HD HC). }
  unfold goMain. cbn [mainLoop].
  rewrite (C64_group_succeeds d HO nan64 (K1Grp ing) its1); [| |intros pp cr ballot HS HD HC|exact R1|exact K1].
  2:{ destruct (C63_setup_returns ing A on abs d nan64 IO HF) as (pp & HS & _). exists pp. exact HS. }
  2:{ apply (C63_end_to_end ing A on abs d HO nan64 pp cr ballot IO HF Hok Hn ltac:(lia) HS HD HC). }
  rewrite (C64_group_succeeds d HO nan64 (R255Grp c ri) its2); [| | |exact R2|exact K2].
  2:{ apply HSet; [intros s; eexists; reflexivity|right; left; reflexivity]. }
  2:{ apply HAcc; [apply (C51_ristretto_contract c r255Order ri RO)|left; reflexivity]. }
  rewrite (C64_group_succeeds d HO nan64 (P256Grp decomp256 ci256) its3); [| | |exact R3|exact K3].
  2:{ apply HSet; [intros s; eexists; reflexivity|right; right; left; reflexivity]. }
  2:{ apply HAcc; [apply (C51_curve_group_contract (P256 decomp256) "P-256" p256Order ci256 CO1)|right; left; reflexivity]. }
  rewrite (C64_group_succeeds d HO nan64 (P384Grp decomp384 ci384) its4); [| | |exact R4|exact K4].
  2:{ apply HSet; [intros s; eexists; reflexivity|right; right; right; left; reflexivity]. }
  2:{ apply HAcc; [apply (C51_curve_group_contract (P384 decomp384) "P-384" p384Order ci384 CO2)|right; right; left; reflexivity]. }
  unfold say, quiet. rewrite !obind_ok. cbn [fst snd app]. rewrite app_nil_r. reflexivity.
Qed.

(** The draws of the thousand ballots over a group of order N and bit length bg, with exponents modulo q: the choice is an index into the
    1899 candidates (all but the last, C26), the draws of the vote proof lie in the ranges passed to rand.Int, and one of them is accepted. *)
Definition DrawsGood (bg N q : Z) (its : nat -> CastRand * Timing) : Prop := forall j, (j < 1000)%nat -> let cr := fst (its j) in
  0 <= cr_choice cr < 1899 /\
  (forall dr, In dr (cr_vp cr) -> 0 <= dk dr < 2 ^ (bg - 1) /\ 0 <= dtp dr < q /\ 0 <= dtq1 dr < N /\ 0 <= dtq2 dr < N) /\
  exists dr, In dr (cr_vp cr) /\ 2 ^ 240 <= dk dr <= 2 ^ (bg - 1) - 2 ^ 240.

Lemma casts_return : forall d HO nan64 GE its, ModPOk d -> GrpLaws GE -> nanConv nan64 -> (forall s, exists X, gMap GE s = Ok X) ->
  In (gN GE) [r255Order; p256Order; p384Order] -> p384Order <= mpOrder d -> Digest32 HO -> ChallengesInvertible GE HO ->
  DrawsGood (bitLen (gN GE)) (gN GE) (mpOrder d) its -> CastsReturn d HO nan64 GE its.
Proof.
  intros d HO nan64 GE its Hok LE Hn Hm Hi HQ HDig HI HG pp j HS Hj. destruct (HG j Hj) as (Hc & Hd & Hex).
  assert (HB : 242 <= bitLen (gN GE) < 65536 /\ gN GE <= p384Order /\ 2 < p384Order).
  { cbn [In] in Hi. destruct Hi as [<-|[<-|[<-|[]]]]; vm_compute; repeat split; congruence. }
  destruct (C43_setup_outcome d GE nan64 Hm ltac:(lia) ltac:(lia)) as [_ HS']. destruct (HS' ltac:(lia)) as (pp' & HSe & Hmin & Hmax & _ & _ & _ & _ & HBg & _).
  rewrite HS in HSe. injection HSe as <-.
  assert (HD : CastDrawsOk pp (fst (its j))).
  { split; [rewrite Hmin, Hmax; exact Hc|]. intros dr Hin. unfold DrawOk. rewrite HBg. apply Hd, Hin. }
  split; [exact HD|].
  apply (C25_cast_returns d GE HO nan64 pp (fst (its j)) Hok LE Hn (proj2 (proj1 HB)) ltac:(lia) ltac:(lia) HS HD HDig HI (Hm _)).
  rewrite HBg. exact Hex.
Qed.
Lemma casts_return_k1 : forall d HO nan64 ing A on abs its, ModPOk d -> IngOk ing A on abs -> SeedsFull ing 16 -> nanConv nan64 ->
  k1Order <= mpOrder d -> Digest32 HO -> ChallengesInvertible (K1Grp ing) HO -> DrawsGood 256 k1Order (mpOrder d) its -> CastsReturn d HO nan64 (K1Grp ing) its.
Proof.
  intros d HO nan64 ing A on abs its Hok IO HF Hn HQ HDig HI HG pp j HS Hj. destruct (HG j Hj) as (Hc & Hd & Hex).
  destruct (C63_setup_returns ing A on abs d nan64 IO HF) as (pp' & HSe & Hmin & Hmax & HBg & _). rewrite HS in HSe. injection HSe as <-.
  assert (HD : CastDrawsOk pp (fst (its j))).
  { split; [rewrite Hmin, Hmax; exact Hc|]. intros dr Hin. unfold DrawOk. rewrite HBg. apply Hd, Hin. }
  split; [exact HD|]. exact (C63_cast_returns ing A on abs d HO nan64 pp (fst (its j)) IO HF Hok Hn HQ HS HD HDig HI Hex).
Qed.

(** The program as shipped, over the RFC 3526 modulus: whatever the ballots, if the draws are good and no challenge is zero modulo a group's order,
    main prints the four positive reports and ends. *)
Theorem C64_rfc3526 : forall HO nan64 ing A on abs c ri decomp256 ci256 decomp384 ci384 its1 its2 its3 its4,
  prime (mpField rfcDesc) -> prime (mpOrder rfcDesc) -> nanConv nan64 -> Digest32 HO ->
  IngOk ing A on abs -> SeedsFull ing 16 -> RistrettoOk c r255Order ri ->
  CirclOk (P256 decomp256) p256Order ci256 -> CirclOk (P384 decomp384) p384Order ci384 ->
  ChallengesInvertible (K1Grp ing) HO -> ChallengesInvertible (R255Grp c ri) HO ->
  ChallengesInvertible (P256Grp decomp256 ci256) HO -> ChallengesInvertible (P384Grp decomp384 ci384) HO ->
  DrawsGood 256 k1Order (mpOrder rfcDesc) its1 -> DrawsGood 253 r255Order (mpOrder rfcDesc) its2 ->
  DrawsGood 256 p256Order (mpOrder rfcDesc) its3 -> DrawsGood 384 p384Order (mpOrder rfcDesc) its4 ->
  ClockOk its1 -> ClockOk its2 -> ClockOk its3 -> ClockOk its4 ->
  goMain HO nan64 rfcDesc ing c ri decomp256 ci256 decomp384 ci384 its1 its2 its3 its4 =
    (report "secp256k1" true (abortsUpTo rfcDesc HO nan64 (K1Grp ing) its1 1000) its1 ++
     LBlank :: report "ristretto255" true (abortsUpTo rfcDesc HO nan64 (R255Grp c ri) its2 1000) its2 ++
     LBlank :: report "P-256" true (abortsUpTo rfcDesc HO nan64 (P256Grp decomp256 ci256) its3 1000) its3 ++
     LBlank :: report "P-384" true (abortsUpTo rfcDesc HO nan64 (P384Grp decomp384 ci384) its4 1000) its4, Ok tt).
Proof.
  intros HO nan64 ing A on abs c ri decomp256 ci256 decomp384 ci384 its1 its2 its3 its4 Hp Hq Hn HDig IO HF RO CO1 CO2 I1 I2 I3 I4 G1 G2 G3 G4 K1 K2 K3 K4.
  pose proof C49_rfc3526 as (_ & _ & _ & _ & _ & _ & _ & HSP). pose proof (safe_ok _ (HSP Hp Hq)) as Hok. destruct rfc_facts as (_ & _ & _ & HQ & _).
  assert (HQ1 : k1Order <= mpOrder rfcDesc) by (vm_compute; discriminate).
  apply (C64_main HO nan64 rfcDesc ing A on abs c ri decomp256 ci256 decomp384 ci384); try assumption.
  - apply (casts_return_k1 rfcDesc HO nan64 ing A on abs); assumption.
  - apply casts_return; try assumption; [apply (C51_ristretto_contract c r255Order ri RO)|intros s; eexists; reflexivity|left; reflexivity].
  - apply casts_return; try assumption; [apply (C51_curve_group_contract (P256 decomp256) "P-256" p256Order ci256 CO1)|intros s; eexists; reflexivity|right; left; reflexivity].
  - apply casts_return; try assumption; [apply (C51_curve_group_contract (P384 decomp384) "P-384" p384Order ci384 CO2)|intros s; eexists; reflexivity|right; right; left; reflexivity].
Qed.

(** The printed answer, for any group: every iteration cast a ballot whose two range proofs verifyVote accepted, and the answer is
    whether all vote proofs were accepted too. *)
Theorem C64_answer_exact : forall d HO nan64 GE its out r b, mainGroup d HO nan64 GE its = (out, r) -> In (LFormed b) out ->
  exists pp, setup d GE nan64 = Ok pp /\ r = Ok tt /\
    (forall j, (j < 1000)%nat -> exists ballot v, castVote (ModPGrp d) GE HO pp (fst (its j)) = Ok ballot /\
       verifyVote (ModPGrp d) GE HO ballot (ppRP pp) = Ok (v, 2%nat)) /\
    (b = true <-> forall j, (j < 1000)%nat -> exists ballot, castVote (ModPGrp d) GE HO pp (fst (its j)) = Ok ballot /\
       verifyVote (ModPGrp d) GE HO ballot (ppRP pp) = Ok (true, 2%nat)).
Proof.
  intros d HO nan64 GE its out r b H Hin. unfold mainGroup in H. unfold say at 1 in H. rewrite obind_ok in H.
  assert (Hdie : forall o (q : res unit), ~ In (LFormed b) o -> ([LEq; LGen (gName GE)] ++ o, q) = (out, r) -> False).
  { intros o q Hno Hq. injection Hq as <- <-. cbn [In app] in Hin. intuition discriminate. }
  destruct (setup d GE nan64) as [pp| | |] eqn:HS.
  2,3,4: exfalso; refine (Hdie _ _ _ H); cbn; intuition discriminate.
  change (Z.to_nat iterCount) with 1000%nat in H. rewrite obind_quiet in H.
  pose proof (iters_prints d HO GE pp (map its (seq 0 1000)) (mkTotals true 0 0 0)) as HAb.
  destruct (mainIters d HO GE pp _ _) as [ao ro] eqn:HM. cbn [fst] in HAb.
  assert (HNA : ~ In (LFormed b) ao) by (intros Hx; specialize (HAb _ Hx); discriminate).
  destruct ro as [st| | |].
  2,3,4: exfalso; refine (Hdie _ _ _ H); exact HNA.
  rewrite obind_ok in H. cbn [fst snd say] in H. injection H as <- <-. exists pp. split; [reflexivity|]. split; [reflexivity|].
  assert (Hb : b = tsSuccess st).
  { cbn [In app] in Hin. destruct Hin as [|[|Hin]]; try discriminate. apply in_app_or in Hin. destruct Hin as [|Hin]; [contradiction|]. cbn [In] in Hin. intuition congruence. }
  assert (HM' : snd (mainIters d HO GE pp (map its (seq 0 1000)) (mkTotals true 0 0 0)) = Ok st) by (rewrite HM; reflexivity).
  destruct (iters_inv d HO GE pp _ _ _ HM') as [I1 I2]. cbn [tsSuccess] in I2. split.
  - intros j Hj. apply (I1 (its j)). apply in_map. apply in_seq. lia.
  - rewrite Hb, I2. split.
    + intros [_ Ha] j Hj. apply (Ha (its j)). apply in_map. apply in_seq. lia.
    + intros Ha. split; [reflexivity|]. intros it Hi. apply in_map_iff in Hi. destruct Hi as (j & <- & Hj). apply in_seq in Hj. apply Ha. lia.
Qed.

(** A rejected range proof never makes main print "false": it kills the program, which prints nothing more about this group than the
    "Aborted" lines of the ballots cast so far and does not reach the groups after it. *)
Theorem C64_rejected_range_proof_dies : forall d HO nan64 GE its rest first pp j ballot,
  setup d GE nan64 = Ok pp -> (j < 1000)%nat -> (forall i, (i <= j)%nat -> 0 <= cr_choice (fst (its i)) < 1899) ->
  (forall i, (i < j)%nat -> exists b v, castVote (ModPGrp d) GE HO pp (fst (its i)) = Ok b /\ verifyVote (ModPGrp d) GE HO b (ppRP pp) = Ok (v, 2%nat)) ->
  castVote (ModPGrp d) GE HO pp (fst (its j)) = Ok ballot ->
  Verify GE HO (bdLower ballot) = Ok false \/ (Verify GE HO (bdLower ballot) = Ok true /\ Verify GE HO (bdUpper ballot) = Ok false) ->
  mainLoop d HO nan64 first ((GE, its) :: rest) =
  ((if first then [] else [LBlank]) ++ [LEq; LGen (gName GE)] ++ repeat LAborted (abortsUpTo d HO nan64 GE its (S j)), Panic).
Proof.
  intros d HO nan64 GE its rest first pp j ballot HS Hj Hdr Hpre HC HR. cbn [mainLoop]. unfold mainGroup. unfold say at 1 2. rewrite !obind_ok, HS, obind_quiet.
  change (Z.to_nat iterCount) with 1000%nat.
  assert (Hsum : isum d HO GE nan64 (map its (seq 0 j) ++ [its j]) = abortsUpTo d HO nan64 GE its (S j)).
  { unfold isum, abortsUpTo. rewrite <- (map_map its (fun it => aborts d HO nan64 GE (fst it))), seq_S, !map_app, map_map. reflexivity. }
  replace (seq 0 1000) with (seq 0 j ++ j :: seq (S j) (999 - j)).
  2:{ replace 1000%nat with (j + S (999 - j))%nat by lia. rewrite seq_app. cbn [seq Nat.add]. reflexivity. }
  rewrite map_app. cbn [map].
  rewrite (iters_panic d HO GE pp nan64 _ (its j) _ _ ballot HS); [rewrite Hsum; reflexivity| | |exact HC|].
  - intros it Hi. apply in_app_or in Hi. destruct Hi as [Hi|[<-|[]]]; [|apply Hdr; lia].
    apply in_map_iff in Hi. destruct Hi as (i & <- & Hi). apply in_seq in Hi. apply Hdr. lia.
  - intros it Hi. apply in_map_iff in Hi. destruct Hi as (i & <- & Hi). apply in_seq in Hi. apply Hpre. lia.
  - unfold verifyVote. destruct HR as [->|[-> ->]]; reflexivity.
Qed.

(** A group setup refuses is reported as skipped and the next one is run. The printed reason is always that of voteproof.Setup: bulletproofs.Setup
    has succeeded by then. *)
Theorem C64_skip : forall d HO nan64 GE its rest first,
  setup d GE nan64 = Err ->
  mainLoop d HO nan64 first ((GE, its) :: rest) =
  (((if first then [] else [LBlank]) ++ [LEq; LGen (gName GE); LSkip (gName GE)]) ++ fst (mainLoop d HO nan64 false rest), snd (mainLoop d HO nan64 false rest)) /\
  ((forall s, exists X, gMap GE s = Ok X) -> exists bp, Setup GE nan64 65536 = Ok bp).
Proof.
  intros d HO nan64 GE its rest first HS. split.
  - cbn [mainLoop]. unfold mainGroup. rewrite HS. unfold say. rewrite !obind_ok. cbn [fst snd]. rewrite !obind_ok. cbn [fst snd].
    destruct first; reflexivity.
  - intros Hm. apply Setup_total; [exact Hm|]. cbn. auto 10.
Qed.

(** ** Cases *)
Definition mIts : nat -> CastRand * Timing := fun j => (bCR, mkTiming (Z.of_nat j) 7 2500).
Lemma mIts_clock : ClockOk mIts.
Proof. intros j Hj. cbn [mIts snd tCast tBP tRP]. lia. Qed.
Lemma oneHO_digest : Digest32 oneHO.
Proof.
  intros b. split; [reflexivity|]. apply Forall_forall. intros x Hx. cbn in Hx. unfold is_byte.
  repeat (destruct Hx as [<-|Hx]; [lia|]). destruct Hx.
Qed.
Lemma mIts_k1 : CastsReturn dBig7 oneHO 0 (K1Grp ing2) mIts.
Proof.
  intros pp j HS Hj. destruct (C63_setup_returns ing2 gK on2 abs2 dBig7 0 ing2_ok (ing2_seeds 16)) as (pp' & HS' & Hmin & Hmax & HBg & _).
  rewrite HS in HS'. injection HS' as <-. cbn [mIts fst].
  assert (HD : CastDrawsOk pp bCR).
  { split; [rewrite Hmin, Hmax; cbn [bCR cr_choice]; lia|]. intros dr Hin. unfold DrawOk. rewrite HBg. cbn [bCR cr_vp In] in Hin.
    destruct Hin as [<-|[<-|[]]]; cbn [dk dtp dtq1 dtq2]; repeat split; try discriminate; reflexivity. }
  split; [exact HD|].
  apply (C63_cast_returns ing2 gK on2 abs2 dBig7 oneHO 0 pp bCR ing2_ok (ing2_seeds 16) dBig7_ok (or_intror eq_refl) ltac:(discriminate) HS HD oneHO_digest).
  - intros X Y. replace (HashBP (K1Grp ing2) oneHO X Y) with (1, 1) by reflexivity. apply Z.gcd_1_l.
  - exists (mkDraw (2 ^ 241) 11 22 33). split; [right; left; reflexivity|]. cbn [dk]. split; discriminate.
Qed.
Lemma mIts_r255 : CastsReturn dBig7 oneHO 0 (R255Grp ristCodec ristToy) mIts.
Proof.
  set (GE := R255Grp ristCodec ristToy). assert (HB : bitLen (gN GE) = 253) by reflexivity.
  intros pp j HS Hj. destruct (C43_setup_outcome dBig7 GE 0) as [_ HS']; [intros s; eexists; reflexivity|rewrite HB; lia|rewrite HB; lia|].
  destruct (HS' ltac:(rewrite HB; lia)) as (pp' & HSe & Hmin & Hmax & _ & _ & _ & _ & HBg & _). rewrite HB in HBg.
  rewrite HS in HSe. injection HSe as <-. cbn [mIts fst].
  assert (HD : CastDrawsOk pp bCR).
  { split; [rewrite Hmin, Hmax; cbn [bCR cr_choice]; lia|]. intros dr Hin. unfold DrawOk. rewrite HBg. cbn [bCR cr_vp In] in Hin.
    destruct Hin as [<-|[<-|[]]]; cbn [dk dtp dtq1 dtq2]; repeat split; try discriminate; reflexivity. }
  split; [exact HD|].
  apply (C25_cast_returns dBig7 GE oneHO 0 pp bCR dBig7_ok (C51_ristretto_contract ristCodec r255Order ristToy ristToy_ok)); try assumption.
  - right. reflexivity.
  - rewrite HB. reflexivity.
  - discriminate.
  - reflexivity.
  - apply oneHO_digest.
  - intros A B. replace (HashBP GE oneHO A B) with (1, 1) by reflexivity. apply Z.gcd_1_l.
  - eexists. reflexivity.
  - exists (mkDraw (2 ^ 241) 11 22 33). split; [right; left; reflexivity|]. rewrite HBg. cbn [dk]. split; discriminate.
Qed.

(** every ballot throws its first draw away (z = k = 3) and keeps the second (z = k = 2^241) *)
Lemma mIts_aborts : forall GE pp, setup dBig7 GE 0 = Ok pp -> 242 < vBg (ppRP pp) -> forall n, abortsUpTo dBig7 oneHO 0 GE mIts n = n.
Proof.
  intros GE pp HS Hbg n.
  assert (HR : forall x dr, response oneHO pp x dr = dk dr).
  { intros x dr. unfold response. cbv zeta. match goal with |- context [sha256 oneHO ?b] => change (sha256 oneHO b) with (repeat 0 31 ++ [1]) end.
    change (os2ip (firstn 28 (repeat 0 31 ++ [1]))) with 0. rewrite Z.mul_0_l. apply Z.add_0_r. }
  assert (Ha : aborts dBig7 oneHO 0 GE bCR = 1%nat).
  { unfold aborts. rewrite HS. cbn [bCR cr_vp leading]. rewrite !HR. cbn [dk].
    replace ((3 <? 2 ^ 240) || (2 ^ (vBg (ppRP pp) - 1) <=? 3)) with true by reflexivity.
    replace ((2 ^ 241 <? 2 ^ 240) || (2 ^ (vBg (ppRP pp) - 1) <=? 2 ^ 241)) with false; [reflexivity|].
    symmetry. apply orb_false_intro; [reflexivity|]. apply Z.leb_gt. apply Z.pow_lt_mono_r; lia. }
  unfold abortsUpTo. replace (map _ (seq 0 n)) with (repeat 1%nat n).
  - induction n as [|n IH]; [reflexivity|]. cbn [repeat list_sum fold_right]. unfold list_sum in IH. rewrite IH. reflexivity.
  - symmetry. transitivity (map (fun _ : nat => 1%nat) (seq 0 n)); [apply map_ext; intros j; exact Ha|].
    assert (G : forall m k, map (fun _ : nat => 1%nat) (seq k m) = repeat 1%nat m); [|apply G].
    induction m as [|m IH]; intros k; [reflexivity|]. cbn [seq map repeat]. f_equal. apply IH.
Qed.
(** secp256k1, ristretto255 and a group of 13 elements, which setup refuses: a thousand aborted draws each, averages of 499 ns (0..999), 7 ns
    and 2500 ns *)
Example C64_case : mainLoop dBig7 oneHO 0 true [(K1Grp ing2, mIts); (R255Grp ristCodec ristToy, mIts); (ToyGrp 13 eq_refl, mIts)] =
  ([LEq; LGen "secp256k1"] ++ repeat LAborted 1000 ++
   [LDash; LCasting; LProve 499; LDash; LVerification; LTimeBP 7; LTimeRP 2500; LTimeTotal 2507; LDash; LFormed true; LEq; LBlank;
    LEq; LGen "ristretto255"] ++ repeat LAborted 1000 ++
   [LDash; LCasting; LProve 499; LDash; LVerification; LTimeBP 7; LTimeRP 2500; LTimeTotal 2507; LDash; LFormed true; LEq; LBlank;
    LEq; LGen "toy"; LSkip "toy"], Ok tt).
Proof.
  assert (T1 : total tCast mIts = 499500) by (vm_compute; reflexivity).
  assert (T2 : total tBP mIts = 7000) by (vm_compute; reflexivity).
  assert (T3 : total tRP mIts = 2500000) by (vm_compute; reflexivity).
  assert (HR : forall name n, report name true n mIts = [LEq; LGen name] ++ repeat LAborted n ++ [LDash; LCasting; LProve 499; LDash; LVerification;
    LTimeBP 7; LTimeRP 2500; LTimeTotal 2507; LDash; LFormed true; LEq]).
  { intros name n. unfold report. rewrite T1, T2, T3. reflexivity. }
  clear T1 T2 T3.
  assert (Hn : nanConv 0) by (right; reflexivity).
  assert (HK1 : k1Order <= mpOrder dBig7) by discriminate.
  assert (HR1 : r255Order <= mpOrder dBig7) by discriminate.
  assert (HB : bitLen r255Order = 253) by reflexivity.
  set (t13 := ToyGrp 13 eq_refl).
  assert (HSk : setup dBig7 t13 0 = Err).
  { destruct (C43_setup_outcome dBig7 t13 0) as [H _]; [intros s; eexists; reflexivity|reflexivity|discriminate|apply H; reflexivity]. }
  assert (HS1 : exists pp, setup dBig7 (K1Grp ing2) 0 = Ok pp /\ 242 < vBg (ppRP pp)).
  { destruct (C63_setup_returns ing2 gK on2 abs2 dBig7 0 ing2_ok (ing2_seeds 16)) as (pp & HS & _ & _ & HBg & _). exists pp. split; [exact HS|]. rewrite HBg. reflexivity. }
  assert (HS2 : exists pp, setup dBig7 (R255Grp ristCodec ristToy) 0 = Ok pp /\ 242 < vBg (ppRP pp)).
  { destruct (C43_setup_outcome dBig7 (R255Grp ristCodec ristToy) 0) as [_ H]; [intros s; eexists; reflexivity|reflexivity|discriminate|].
    destruct (H ltac:(discriminate)) as (pp & HS & _ & _ & _ & _ & _ & _ & HBg & _). exists pp. split; [exact HS|]. rewrite HBg. reflexivity. }
  assert (G1 : mainGroup dBig7 oneHO 0 (K1Grp ing2) mIts = (report "secp256k1" true 1000 mIts, Ok tt)).
  { destruct HS1 as (pp1 & HS1 & HB1). rewrite <- (mIts_aborts (K1Grp ing2) pp1 HS1 HB1 1000).
    apply C64_group_succeeds; [exists pp1; exact HS1|intros pp cr ballot HS HD HC|exact mIts_k1|exact mIts_clock].
    exact (C63_end_to_end ing2 gK on2 abs2 dBig7 oneHO 0 pp cr ballot ing2_ok (ing2_seeds 16) dBig7_ok Hn HK1 HS HD HC). }
  assert (G2 : mainGroup dBig7 oneHO 0 (R255Grp ristCodec ristToy) mIts = (report "ristretto255" true 1000 mIts, Ok tt)).
  { destruct HS2 as (pp2 & HS2 & HB2). rewrite <- (mIts_aborts (R255Grp ristCodec ristToy) pp2 HS2 HB2 1000).
    apply C64_group_succeeds; [exists pp2; exact HS2|intros pp cr ballot HS HD HC|exact mIts_r255|exact mIts_clock].
    exact (C25_end_to_end dBig7 (R255Grp ristCodec ristToy) oneHO 0 pp cr ballot dBig7_ok (C51_ristretto_contract ristCodec r255Order ristToy ristToy_ok) Hn eq_refl HR1 HS HD HC). }
  cbn [mainLoop]. rewrite G1, G2. unfold mainGroup. rewrite HSk, !HR. clear. generalize (repeat LAborted 1000). intros l.
  unfold say, quiet. rewrite !obind_ok. cbn [fst snd app]. rewrite <- !app_assoc. reflexivity.
Qed.

(** a library whose elements carry nothing and whose IsEqual always says false *)
Definition gBad : Grp := mkGrp unit "bad" (2 ^ 252 + 1) 0 tt tt tt (fun _ _ => tt) (fun _ _ => tt) (fun _ => tt) (fun _ _ => tt) (fun _ => tt)
  (fun _ _ => false) (fun _ => false) (fun _ => []) (fun _ => Ok tt) (fun _ => Ok JNull) (fun _ _ => Ok (tt, true)).
(** its first ballot's range proof is rejected: the program dies there *)
Example C64_panic_case : forall rest, mainLoop dBig7 oneHO 0 true ((gBad, mIts) :: rest) = ([LEq; LGen "bad"; LAborted], Panic).
Proof.
  intros rest.
  assert (H : (pp <- setup dBig7 gBad 0 ;; ballot <- castVote (ModPGrp dBig7) gBad oneHO pp bCR ;; Verify gBad oneHO (bdLower ballot)) = Ok false)
    by (lazy; reflexivity).
  destruct (setup dBig7 gBad 0) as [pp| | |] eqn:HS; try discriminate. cbn [bind] in H.
  destruct (castVote (ModPGrp dBig7) gBad oneHO pp bCR) as [ballot| | |] eqn:HC; try discriminate. cbn [bind] in H.
  assert (HB : 242 < vBg (ppRP pp)).
  { destruct (C43_setup_outcome dBig7 gBad 0) as [_ H']; [intros s; eexists; reflexivity|reflexivity|discriminate|].
    destruct (H' ltac:(discriminate)) as (pp' & HS' & _ & _ & _ & _ & _ & _ & HBg & _). rewrite HS in HS'. injection HS' as <-. rewrite HBg. reflexivity. }
  rewrite (C64_rejected_range_proof_dies dBig7 oneHO 0 gBad mIts rest true pp 0 ballot).
  - rewrite (mIts_aborts gBad pp HS HB). reflexivity.
  - exact HS.
  - apply Nat.ltb_lt. reflexivity.
  - intros i Hi. cbn [mIts fst bCR cr_choice]. lia.
  - intros i Hi. lia.
  - exact HC.
  - left. exact H.
Qed.

Print Assumptions C64_group_succeeds.
Print Assumptions C64_main.
Print Assumptions C64_rfc3526.
Print Assumptions C64_answer_exact.
Print Assumptions C64_rejected_range_proof_dies.
Print Assumptions C64_skip.
