(** C84: numbers left out of a proof or ballot, whatever the group library does with a missing scalar. *)
From Verif Require Import GoBase Json GroupIface Vector BIP BP MultiBP VoteProof ModP App ECJson P256k1 Groups Marshal NumTh Alg
  VectorProofs BIPProofs BPProofs SetupProofs ModPProofs BytesProofs Toy Hom Pres PropBP PropVote PropModP PropApp PropEC PropCurve PropJson PropTransport PropGen
  PropModSound Fork PropFork PropK1 Curve Primes PrimeCerts PropPrime ECPoints ECStd ECCert OrderCerts PropECLaw PropK1Sound PropDeaf PropRead PropMulti PropMultiVerify NilScale.
From Coq Require Import Znumtheory.

(** ** Specification *)
(** The numbers of a range proof that verification multiplies an element with, and the inverses it computes for it, exist. *)
Definition NumbersPresent (G : Grp) (HO : Oracles) (pf : BulletProof G) : Prop :=
  pTaux pf <> None /\ pMu pf <> None /\ ipCc (pIPP pf) <> None /\
  forall X Y, In (X, Some Y) (combine (ipL (pIPP pf)) (ipR (pIPP pf))) -> Z.gcd (fst (HashBP G HO X Y)) (gN G) = 1.
Definition MultiNumbersPresent (G : Grp) (HO : Oracles) (pf : MultiBulletProof G) : Prop :=
  mTaux pf <> None /\ mMu pf <> None /\ ipCc (mIPP pf) <> None /\
  forall X Y, In (X, Some Y) (combine (ipL (mIPP pf)) (ipR (mIPP pf))) -> Z.gcd (fst (HashBP G HO X Y)) (gN G) = 1.
Definition VoteNumbersPresent (GF GE : Grp) (pf : SigmaProof GF GE) : Prop := sSq1 pf <> None /\ sSq2 pf <> None.
(** What is asked of a library that does not panic on a missing scalar: it does so for the identity only, and answers the identity. *)
Definition NilSane (G A : Grp) (R : E G -> E A -> Prop) (nilScale : E G -> res (E G)) : Prop :=
  forall X a Y, R X a -> nilScale X = Ok Y -> a = gId A /\ R Y (gId A).

(** A ballot without the numbers Cc of both range proofs and Sq1, Sq2 of the vote proof *)
Definition gapIPP (GE : Grp) : IPProof GE :=
  mkIPProof (gNew GE) None (Some 0) (Some 0) [] [] (mkIPParams [gNew GE] [Some (gNew GE)] (gNew GE)).
Definition gapBP (GE : Grp) (HO : Oracles) (p : BPParams GE) (mu : Z) : BulletProof GE :=
  let '(y, z) := HashBP GE HO (gNew GE) (gNew GE) in
  let N := gNew GE in mkBulletProof N N N N N (Some 0) (Some mu) (Some (deltaZ (length (bpGg p)) y z)) (gapIPP GE) p.
Definition gapVote (GF GE : Grp) (gp : GroupParams GF) : SigmaProof GF GE :=
  mkSigmaProof (gBase GF 0) (vpCommit GF (gN GE) 0 gp) (gNew GE) (gNew GE) (Some 0) (Some (gN GE)) (Some 0) None None
    (mkProofParams 0 0 0 256 0 0 gp (mkGroupParams (gNew GE) (gNew GE) (Some (gN GE)) (Some 0))).
Definition gapBallot (GF GE : Grp) (HO : Oracles) (pp : PublicParameters GF GE) (ct : Ciphertext GF) (mu : Z) : BallotData GF GE :=
  mkBallotData ct (gapBP GE HO (ppBP pp) mu) (gapBP GE HO (ppBP pp) mu) (gapVote GF GE (ppFF pp)).

(** ** Answers are the same *)
Section Agree.
Context (G : Grp) (HO : Oracles) (ns : E G -> res (E G)).
Definition le_res {T} (a b : res T) : Prop := forall r, a = Ok r -> b = Ok r.
Lemma le_refl : forall T (a : res T), le_res a a. Proof. intros T a r H. exact H. Qed.
Lemma le_bind : forall T U (a b : res T) (f g : T -> res U), le_res a b -> (forall v, a = Ok v -> le_res (f v) (g v)) -> le_res (bind a f) (bind b g).
Proof. intros T U a b f g H F r E. destruct a as [v| | |]; try discriminate. rewrite (H v eq_refl). cbn [bind] in *. exact (F v eq_refl r E). Qed.
Lemma le_scale : forall U X (s : option Z) (f : Z -> res U) (g : E G -> res U), (forall z, s = Some z -> le_res (f z) (g (gScale G X z))) ->
  le_res (z <- deref s ;; f z) (Y <- scaleN G ns X s ;; g Y).
Proof. intros U X [z|] f g H r E; [exact (H z eq_refl r E)|discriminate]. Qed.
Lemma le_mapM : forall S T (f g : S -> res T) l, (forall v, le_res (f v) (g v)) -> le_res (mapM f l) (mapM g l).
Proof.
  intros S T f g l H. induction l as [|a l IH]; [apply le_refl|]. cbn [mapM]. apply le_bind; [apply H|]. intros v _.
  apply le_bind; [exact IH|]. intros w _. apply le_refl.
Qed.
Lemma le_vse : forall a b, le_res (vectorScalarExp G a b) (vectorScalarExpN G ns a b).
Proof.
  intros a b. apply le_mapM. intros X. apply le_bind; [apply le_refl|]. intros Y _ r E. destruct b as [z|]; [exact E|discriminate].
Qed.
Lemma le_fold : forall v np e1 e2, le_res (foldGens G v np e1 e2) (foldGensN G ns v np e1 e2).
Proof.
  intros v np e1 e2. unfold foldGens, foldGensN. apply le_bind; [apply le_refl|]. intros lo _. apply le_bind; [apply le_vse|]. intros lo' _.
  apply le_bind; [apply le_refl|]. intros hi _. apply le_bind; [apply le_vse|]. intros hi' _. apply le_refl.
Qed.
Lemma le_loop : forall Ls Rs g h np Pp, le_res (ipVerifyLoop G HO Ls Rs g h np Pp) (ipVerifyLoopN G HO ns Ls Rs g h np Pp).
Proof.
  induction Ls as [|X Ls IH]; intros Rs g h np Pp; [apply le_refl|]. cbn [ipVerifyLoop ipVerifyLoopN]. destruct Rs as [|[Y|] Rs]; try apply le_refl. cbv zeta.
  apply le_bind; [apply le_fold|]. intros g' _. apply le_bind; [apply le_fold|]. intros h' _. apply le_scale. intros i _. apply IH.
Qed.
Lemma le_ip : forall pf, le_res (ipVerify G HO pf) (ipVerifyN G HO ns pf).
Proof.
  intros pf. unfold ipVerify, ipVerifyN. cbv zeta. apply le_bind; [apply le_refl|]. intros x _. apply le_bind.
  - unfold computePP, computePPN. cbv zeta. apply le_scale. intros c _. apply le_refl.
  - intros [PP ux] _. apply le_bind; [apply le_loop|]. intros [[gp hp] Pp] _. apply le_refl.
Qed.
Lemma le_verify : forall pf, le_res (Verify G HO pf) (VerifyN G HO ns pf).
Proof.
  intros pf. unfold Verify, VerifyN. cbv zeta. destruct (HashBP G HO (pA pf) (pS pf)) as [y z].
  apply le_bind; [apply le_refl|]. intros hp _. apply le_bind; [apply le_refl|]. intros tp _. apply le_scale. intros tx _.
  do 6 (apply le_bind; [apply le_refl|]; intros ? _). do 2 (apply le_bind; [apply le_refl|]; intros ? _).
  apply le_scale. intros mu _. apply le_bind; [apply le_ip|]. intros ok _. apply le_refl.
Qed.
End Agree.
Lemma le_vote : forall GF GE HO ns (pf : SigmaProof GF GE) comm, le_res (vpVerify GF GE HO pf comm) (vpVerifyN GF GE HO ns pf comm).
Proof.
  intros GF GE HO ns pf comm. unfold vpVerify, vpVerifyN. cbv zeta. apply le_bind; [apply le_refl|]. intros z _. destruct (_ || _); [apply le_refl|].
  do 2 (apply le_bind; [apply le_refl|]; intros ? _). destruct (negb _); [apply le_refl|]. apply le_bind; [apply le_refl|]. intros sp _.
  destruct (negb _); [apply le_refl|]. destruct (negb _); [apply le_refl|]. unfold sigmaPedersenCheckN.
  intros r E. destruct (sSq1 pf) as [sq1|]; [|discriminate]. cbn [scaleN deref bind] in *. unfold sigmaPedersenCheck, vpCommit in E.
  destruct (negb (gEq GE _ _)); [exact E|]. destruct (sSq2 pf) as [sq2|]; [|discriminate]. cbn [scaleN deref bind] in *. exact E.
Qed.
(** Where no number is missing, or the library panics on every missing one, the two verifications are the same function. *)
Section Same.
Context (G : Grp) (HO : Oracles) (ns : E G -> res (E G)).
Definition good (s : option Z) : Prop := (forall X, ns X = Panic) \/ s <> None.
Lemma scale_eq : forall X s, good s -> scaleN G ns X s = (z <- deref s ;; Ok (gScale G X z)).
Proof. intros X [z|] [H|H]; try reflexivity; [apply H|contradiction]. Qed.
Lemma vse_eq : forall a b, good b -> vectorScalarExpN G ns a b = vectorScalarExp G a b.
Proof.
  intros a b H. unfold vectorScalarExpN, vectorScalarExp. induction a as [|X a IH]; [reflexivity|]. cbn [mapM]. rewrite IH.
  destruct X as [X|]; [|reflexivity]. cbn [deref bind]. rewrite (scale_eq X b H). reflexivity.
Qed.
Lemma fold_eq : forall v np e1 e2, good e1 -> good e2 -> foldGensN G ns v np e1 e2 = foldGens G v np e1 e2.
Proof. intros v np e1 e2 H1 H2. unfold foldGensN, foldGens. destruct (slice_to v np); try reflexivity. cbn [bind]. rewrite vse_eq by exact H1.
  destruct (vectorScalarExp G _ e1); try reflexivity. cbn [bind]. destruct (slice_from v np); try reflexivity. cbn [bind]. rewrite vse_eq by exact H2. reflexivity. Qed.
Lemma loop_eq : forall Ls Rs g h np Pp,
  (forall X Y, In (X, Some Y) (combine Ls Rs) -> good (modInverse (fst (HashBP G HO X Y)) (gN G)) /\ good (modInverse ((fst (HashBP G HO X Y) * fst (HashBP G HO X Y)) mod gN G) (gN G))) ->
  ipVerifyLoopN G HO ns Ls Rs g h np Pp = ipVerifyLoop G HO Ls Rs g h np Pp.
Proof.
  induction Ls as [|X Ls IH]; intros Rs g h np Pp H; [reflexivity|]. cbn [ipVerifyLoop ipVerifyLoopN]. destruct Rs as [|[Y|] Rs]; try reflexivity. cbv zeta.
  destruct (H X Y (or_introl eq_refl)) as [H1 H2]. rewrite !fold_eq by (try exact H1; right; discriminate).
  destruct (foldGens G g _ _ _) as [g'| | |]; try reflexivity. cbn [bind]. destruct (foldGens G h _ _ _) as [h'| | |]; try reflexivity. cbn [bind].
  rewrite (scale_eq Y _ H2). destruct (deref _) as [i| | |]; try reflexivity. cbn [bind]. apply IH. intros X' Y' HI. apply H. right. exact HI.
Qed.
Lemma ip_eq : forall pf, good (ipCc pf) ->
  (forall X Y, In (X, Some Y) (combine (ipL pf) (ipR pf)) -> good (modInverse (fst (HashBP G HO X Y)) (gN G)) /\ good (modInverse ((fst (HashBP G HO X Y) * fst (HashBP G HO X Y)) mod gN G) (gN G))) ->
  ipVerifyN G HO ns pf = ipVerify G HO pf.
Proof.
  intros pf Hc H. unfold ipVerify, ipVerifyN. cbv zeta. destruct (hashIP _ _ _ _ _ _) as [x| | |]; try reflexivity. cbn [bind].
  unfold computePPN, computePP. rewrite (scale_eq _ _ Hc). destruct (deref (ipCc pf)) as [c| | |]; try reflexivity. cbn [bind]. rewrite (loop_eq _ _ _ _ _ _ H). reflexivity.
Qed.
Lemma verify_eq : forall pf, good (pTaux pf) -> good (pMu pf) -> good (ipCc (pIPP pf)) ->
  (forall X Y, In (X, Some Y) (combine (ipL (pIPP pf)) (ipR (pIPP pf))) -> good (modInverse (fst (HashBP G HO X Y)) (gN G)) /\ good (modInverse ((fst (HashBP G HO X Y) * fst (HashBP G HO X Y)) mod gN G) (gN G))) ->
  VerifyN G HO ns pf = Verify G HO pf.
Proof.
  intros pf H1 H2 H3 H4. unfold Verify, VerifyN. cbv zeta. destruct (HashBP G HO (pA pf) (pS pf)) as [y z].
  rewrite (ip_eq _ H3 H4), (scale_eq _ _ H1), (scale_eq _ _ H2).
  destruct (updateGenerators _ _ _ _) as [hp| | |]; try reflexivity. cbn [bind]. destruct (deref (pTprime pf)) as [tp| | |]; try reflexivity. cbn [bind].
  destruct (deref (pTaux pf)) as [tx| | |]; try reflexivity. cbn [bind]. destruct (delta _ _ _ _) as [d| | |]; try reflexivity. cbn [bind].
  repeat match goal with |- bind ?e _ = bind ?e _ => destruct e as [?| | |]; try reflexivity; cbn [bind] end.
  destruct (pMu pf) as [mu|]; reflexivity.
Qed.
End Same.

(** ** C84 *)
(** A library that panics on every missing scalar is the model of the other files. *)
Theorem C84_strict : forall G HO ns (pf : BulletProof G), (forall X, ns X = Panic) -> VerifyN G HO ns pf = Verify G HO pf.
Proof. intros G HO ns pf H. apply verify_eq; intros; try split; left; exact H. Qed.
(** Whatever the library does: an answer stays the answer ... *)
Theorem C84_answers_stay : forall G HO ns (pf : BulletProof G) r, Verify G HO pf = Ok r -> VerifyN G HO ns pf = Ok r.
Proof. intros G HO ns pf r. apply le_verify. Qed.
(** ... and where all numbers are present, a panic stays a panic. *)
Theorem C84_complete : forall G HO ns (pf : BulletProof G), 1 < gN G -> NumbersPresent G HO pf -> VerifyN G HO ns pf = Verify G HO pf.
Proof.
  intros G HO ns pf HN (H1 & H2 & H3 & H4). apply verify_eq; try (right; assumption). intros X Y HI. specialize (H4 X Y HI).
  assert (W : forall v, Z.gcd v (gN G) = 1 -> good G ns (modInverse v (gN G))).
  { intros v Hv. destruct (modInverse_ex v (gN G) HN Hv) as (i & -> & _). right. discriminate. }
  split; apply W; [exact H4|]. rewrite Z.gcd_mod by lia. rewrite Z.gcd_comm.
  apply Zgcd_1_rel_prime, rel_prime_sym, rel_prime_mult; apply rel_prime_sym, Zgcd_1_rel_prime; exact H4.
Qed.
(** The server: the same three statements *)
Theorem C84_server : forall GF GE HO ns (b : BallotData GF GE) rp,
  ((forall X, ns X = Panic) -> verifyVoteN GF GE HO ns b rp = verifyVote GF GE HO b rp) /\
  (forall a, verifyVote GF GE HO b rp = Ok a -> verifyVoteN GF GE HO ns b rp = Ok a) /\
  (1 < gN GE -> NumbersPresent GE HO (bdLower b) -> NumbersPresent GE HO (bdUpper b) -> VoteNumbersPresent GF GE (bdVote b) ->
   verifyVoteN GF GE HO ns b rp = verifyVote GF GE HO b rp).
Proof.
  intros GF GE HO ns b rp.
  assert (HV : forall comm, (forall X, ns X = Panic) \/ VoteNumbersPresent GF GE (bdVote b) -> vpVerifyN GF GE HO ns (bdVote b) comm = vpVerify GF GE HO (bdVote b) comm).
  { intros comm H. unfold vpVerify, vpVerifyN. cbv zeta. destruct (deref (sZ _)) as [z| | |]; try reflexivity. cbn [bind]. destruct (_ || _); [reflexivity|].
    destruct (getFSChallenge _ _ _ _ _ _ _ _) as [c'| | |]; try reflexivity. cbn [bind]. destruct (deref (sChal _)) as [c| | |]; try reflexivity. cbn [bind].
    destruct (negb _); [reflexivity|]. destruct (deref (sSp _)) as [sp| | |]; try reflexivity. cbn [bind]. destruct (negb _); [reflexivity|]. destruct (negb _); [reflexivity|].
    unfold sigmaPedersenCheckN. rewrite !scale_eq by (destruct H as [H|[Ha Hb]]; [left; exact H|right; assumption]).
    destruct (sSq1 (bdVote b)) as [s1|]; [|reflexivity]. cbn [deref bind]. unfold sigmaPedersenCheck, vpCommit. destruct (negb _); [reflexivity|].
    destruct (sSq2 (bdVote b)) as [s2|]; reflexivity. }
  split; [|split].
  - intros H. unfold verifyVoteN, verifyVote. rewrite !C84_strict by exact H. destruct (Verify GE HO (bdLower b)) as [[]| | |]; try reflexivity. cbn [bind negb].
    destruct (Verify GE HO (bdUpper b)) as [[]| | |]; try reflexivity. cbn [bind negb]. cbv zeta. rewrite HV by (left; exact H). reflexivity.
  - unfold verifyVoteN, verifyVote. intros a. revert a. apply le_bind; [apply le_verify|]. intros o1 _. destruct (negb o1); [apply le_refl|].
    apply le_bind; [apply le_verify|]. intros o2 _. destruct (negb o2); [apply le_refl|]. cbv zeta. apply le_bind; [apply le_vote|]. intros r _. apply le_refl.
  - intros HN H1 H2 H3. unfold verifyVoteN, verifyVote. rewrite !C84_complete by assumption. destruct (Verify GE HO (bdLower b)) as [[]| | |]; try reflexivity. cbn [bind negb].
    destruct (Verify GE HO (bdUpper b)) as [[]| | |]; try reflexivity. cbn [bind negb]. cbv zeta. rewrite HV by (right; exact H3). reflexivity.
Qed.

(** The aggregated verifier: the same three statements *)
Theorem C84_aggregated : forall G HO ns (pf : MultiBulletProof G),
  ((forall X, ns X = Panic) -> MultiVerifyN G HO ns pf = MultiVerify G HO pf) /\
  (forall r, MultiVerify G HO pf = Ok r -> MultiVerifyN G HO ns pf = Ok r) /\
  (1 < gN G -> MultiNumbersPresent G HO pf -> MultiVerifyN G HO ns pf = MultiVerify G HO pf).
Proof.
  intros G HO ns pf.
  assert (HE : good G ns (mTaux pf) -> good G ns (mMu pf) -> good G ns (ipCc (mIPP pf)) ->
    (forall X Y, In (X, Some Y) (combine (ipL (mIPP pf)) (ipR (mIPP pf))) -> good G ns (modInverse (fst (HashBP G HO X Y)) (gN G)) /\ good G ns (modInverse ((fst (HashBP G HO X Y) * fst (HashBP G HO X Y)) mod gN G) (gN G))) ->
    MultiVerifyN G HO ns pf = MultiVerify G HO pf).
  { intros H1 H2 H3 H4. unfold MultiVerify, MultiVerifyN. cbv zeta. destruct (goDiv _ _) as [bits| | |]; try reflexivity. cbn [bind].
    destruct (HashBP G HO (mA pf) (mS pf)) as [y z]. rewrite (ip_eq G HO ns _ H3 H4), (scale_eq G ns _ _ H1), (scale_eq G ns _ _ H2).
    destruct (updateGenerators _ _ _ _) as [hp| | |]; try reflexivity. cbn [bind]. destruct (deref (mTprime pf)) as [tp| | |]; try reflexivity. cbn [bind].
    destruct (deref (mTaux pf)) as [tx| | |]; try reflexivity. cbn [bind].
    repeat match goal with |- bind ?e _ = bind ?e _ => destruct e as [?| | |]; try reflexivity; cbn [bind] end.
    destruct (mMu pf) as [mu|]; reflexivity. }
  split; [|split].
  - intros H. apply HE; intros; try split; left; exact H.
  - intros r. revert r. unfold MultiVerify, MultiVerifyN. cbv zeta. apply le_bind; [apply le_refl|]. intros bits _. destruct (HashBP G HO (mA pf) (mS pf)) as [y z].
    apply le_bind; [apply le_refl|]. intros hp _. apply le_bind; [apply le_refl|]. intros tp _. apply le_scale. intros tx _.
    do 9 (apply le_bind; [apply le_refl|]; intros ? _).
    apply le_scale. intros mu _. apply le_bind; [apply le_ip|]. intros ok _. apply le_refl.
  - intros HN (H1 & H2 & H3 & H4). apply HE; try (right; assumption). intros X Y HI. specialize (H4 X Y HI).
    assert (W : forall v, Z.gcd v (gN G) = 1 -> good G ns (modInverse v (gN G))).
    { intros v Hv. destruct (modInverse_ex v (gN G) HN Hv) as (i & -> & _). right. discriminate. }
    split; apply W; [exact H4|]. rewrite Z.gcd_mod by lia. rewrite Z.gcd_comm.
    apply Zgcd_1_rel_prime, rel_prime_sym, rel_prime_mult; apply rel_prime_sym, Zgcd_1_rel_prime; exact H4.
Qed.

Section DeafNil.
Context (GE A : Grp) (R : E GE -> E A -> Prop) (P : Pres GE A R) (PA : GrpPrime A) (D : Deaf GE) (RN : R (gNew GE) (gId A)).
Context (ns : E GE -> res (E GE)) (NS : NilSane GE A R ns).
Let L : GrpLaws A := pr_laws _ _ _ P.

(** the range proof with its inner-product argument exchanged *)
Definition withIPP (pf : BulletProof GE) (q : IPProof GE) : BulletProof GE :=
  mkBulletProof (pV pf) (pA pf) (pS pf) (pT1 pf) (pT2 pf) (pTaux pf) (pMu pf) (pTprime pf) q (pParams pf).

Lemma andOk : forall a b, @Ok bool (a && b) = Ok true -> @Ok bool (a && true) = Ok true.
Proof. intros a b H. injection H as H. apply andb_prop in H. destruct H as [-> _]. reflexivity. Qed.
Lemma nil_range : forall HO (pf : BulletProof GE), (forall Y, ns (bpH (pParams pf)) <> Ok Y) -> ipP (pIPP pf) = gNew GE ->
  VerifyN GE HO ns pf = Ok true -> Verify GE HO (withIPP pf (blankIPP GE)) = Ok true.
Proof.
  intros HO pf Hns HP. unfold Verify, VerifyN, withIPP. cbv zeta. cbn [pV pA pS pT1 pT2 pTaux pMu pTprime pIPP pParams]. rewrite HP, (blank_ip GE A R P RN HO).
  cbn [blankIPP ipP]. destruct (HashBP GE HO (pA pf) (pS pf)) as [y z].
  destruct (updateGenerators _ _ _ _) as [hp| | |]; try discriminate. cbn [bind]. destruct (deref (pTprime pf)) as [tp| | |]; try discriminate. cbn [bind].
  destruct (pTaux pf) as [tx|]; [|cbn [scaleN]; destruct (ns _) as [Y| | |] eqn:E; try discriminate; exfalso; exact (Hns Y eq_refl)]. cbn [scaleN deref bind].
  repeat match goal with |- bind ?e _ = _ -> bind ?e _ = _ => destruct e as [?| | |]; try discriminate; cbn [bind] end.
  destruct (pMu pf) as [mu|]; [|cbn [scaleN]; destruct (ns _) as [Y| | |] eqn:E; try discriminate; exfalso; exact (Hns Y eq_refl)]. cbn [scaleN deref bind].
  destruct (ipVerifyN GE HO ns (pIPP pf)) as [ok| | |]; try discriminate. cbn [bind]. exact (andOk _ ok).
Qed.
Lemma nil_rangeN : forall HO (pf : BulletProof GE) q, ipP q = ipP (pIPP pf) -> ipVerifyN GE HO ns q = Ok true ->
  Verify GE HO pf = Ok true -> VerifyN GE HO ns (withIPP pf q) = Ok true.
Proof.
  intros HO pf q HP Hq HV. apply (C84_answers_stay GE HO ns) in HV. revert HV. unfold VerifyN, withIPP. cbv zeta. cbn [pV pA pS pT1 pT2 pTaux pMu pTprime pIPP pParams]. rewrite HP, Hq.
  destruct (HashBP GE HO (pA pf) (pS pf)) as [y z].
  repeat match goal with |- bind ?e _ = _ -> bind ?e _ = _ => destruct e as [?| | |]; try discriminate; cbn [bind] end.
  destruct (ipVerifyN GE HO ns (pIPP pf)) as [ok| | |]; try discriminate. cbn [bind]. exact (andOk _ ok).
Qed.
Lemma nil_panic : forall HO (pf : BulletProof GE) q, ipP q = ipP (pIPP pf) -> ipVerify GE HO q = Panic -> Verify GE HO pf = Ok true -> Verify GE HO (withIPP pf q) = Panic.
Proof.
  intros HO pf q HP Hq. unfold Verify, withIPP. cbv zeta. cbn [pV pA pS pT1 pT2 pTaux pMu pTprime pIPP pParams]. rewrite HP, Hq.
  destruct (HashBP GE HO (pA pf) (pS pf)) as [y z].
  repeat match goal with |- bind ?e _ = _ -> bind ?e _ = _ => destruct e as [?| | |]; try discriminate; cbn [bind] end. reflexivity.
Qed.

Lemma scaleN_id : forall X s Y, R X (gId A) -> scaleN GE ns X s = Ok Y -> R Y (gId A).
Proof.
  intros X [z|] Y HX E; cbn [scaleN] in E; [|exact (proj2 (NS X _ Y HX E))]. injection E as <-. rewrite <- (scale_id L z). apply (pr_scale _ _ _ P), HX.
Qed.
Lemma nil_vote : forall GF HO (pf : SigmaProof GF GE) comm lo hi, R (sKq1 pf) (gId A) -> R (sKq2 pf) (gId A) -> R (gpH (vGEC (sParams pf))) (gId A) ->
  R (cXq1 comm) (gBase A lo) -> R (cXq2 comm) (gBase A hi) -> (lo - hi) mod gN A <> 0 ->
  vpVerifyN GF GE HO ns pf comm = Ok true -> exists c, sChal pf = Some c /\ c mod gN GE = 0.
Proof.
  intros GF HO pf comm lo hi R1 R2 Rh RX1 RX2 Hlh H. unfold vpVerifyN in H. cbv zeta in H.
  destruct (sZ pf) as [z|]; [|discriminate]. cbn [deref bind] in *. destruct (_ || _); [discriminate|].
  destruct (getFSChallenge GF GE HO _ _ _ _ _) as [c'| | |]; try discriminate. cbn [bind] in *.
  destruct (sChal pf) as [c|]; [|discriminate]. cbn [deref bind] in *. destruct (negb (c' =? c)); [discriminate|].
  destruct (sSp pf) as [sp|]; [|discriminate]. cbn [deref bind] in *.
  destruct (negb (gEq GF _ _)); [discriminate|]. destruct (negb (sigmaPedersenCheck GF _ _ _ _ _ _)); [discriminate|].
  destruct (sigmaPedersenCheckN GE ns z (sSq1 pf) _ _ _ _) as [[]| | |] eqn:E1; try discriminate. cbn [negb bind] in H.
  destruct (sigmaPedersenCheckN GE ns z (sSq2 pf) _ _ _ _) as [[]| | |] eqn:E2; try discriminate. clear H.
  exists c. split; [reflexivity|]. rewrite (pr_N _ _ _ P).
  assert (Hq : forall s k x v, R k (gId A) -> R x (gBase A v) -> sigmaPedersenCheckN GE ns z s c k x (vGEC (sParams pf)) = Ok true -> eqm (gN A) z (v * c)).
  { intros s k x v Rk Rx HE. unfold sigmaPedersenCheckN in HE. cbv zeta in HE. destruct (scaleN GE ns _ s) as [Y| | |] eqn:EY; try discriminate. cbn [bind] in HE. injection HE as HE.
    pose proof (scaleN_id _ _ _ Rh EY) as RY.
    apply (pr_eq _ _ _ P _ _ _ _ (pr_add _ _ _ P _ _ _ _ (pr_base _ _ _ P z) RY) (pr_add _ _ _ P _ _ _ _ (pr_scale _ _ _ P _ _ c Rx) Rk)) in HE.
    rewrite !(add_0_r L), !(base_scale L), (scale_mul L) in HE. apply eqm_mod, (gen_inj A PA). exact HE. }
  pose proof (Hq _ _ _ _ R1 RX1 E1) as Q1. pose proof (Hq _ _ _ _ R2 RX2 E2) as Q2.
  assert (Q : eqm (gN A) ((lo - hi) * c) 0).
  { transitivity (lo * c - hi * c); [apply eqm_of_eq; ring|]. rewrite <- Q1, <- Q2. apply eqm_of_eq. ring. }
  destruct (eqm_prime_mul0 _ _ _ (lp_prime A PA) Q) as [H0|H0]; apply eqm_mod0 in H0; [contradiction|exact H0].
Qed.

Lemma deaf_nil : forall d HO nan64 pp doc (b : BallotData (ModPGrp d) GE) t, nanConv nan64 -> 2000 < gN GE ->
  setup d GE nan64 = Ok pp -> (forall s X, In s (usedSeeds 16) -> gMap GE s = Ok X -> exists a, R X a) -> gIsId GE (bpH (ppBP pp)) = false ->
  BallotDataUnmarshalJSON (ModPGrp d) GE doc pp = Ok b -> verifyVoteN (ModPGrp d) GE HO ns b (ppRP pp) = Ok (true, t) ->
  BlankHash GE HO mod gN GE <> 0 /\
  (exists mu, pMu (bdLower b) = Some mu /\ KeyLog GE HO (ppBP pp) mu) /\ (exists mu, pMu (bdUpper b) = Some mu /\ KeyLog GE HO (ppBP pp) mu) /\
  exists c, sChal (bdVote b) = Some c /\ c mod gN GE = 0.
Proof.
  intros d HO nan64 pp doc b t Hn HN HSet Hseed HH Hd HV.
  pose proof (C53_curve_elements_lost _ _ _ _ _ D Hd) as (B1 & B2 & K1 & K2 & _ & Kh).
  assert (Hpar : pParams (bdLower b) = ppBP pp /\ pParams (bdUpper b) = ppBP pp).
  { unfold BallotDataUnmarshalJSON in Hd. cbv zeta in Hd.
    destruct (BallotUnmarshalJSON _ _) as [ct| | |]; try discriminate. cbn [bind] in Hd.
    destruct (BulletProofUnmarshalJSON GE (jLower _) _) as [lo| | |] eqn:E1; try discriminate. cbn [bind] in Hd.
    destruct (BulletProofUnmarshalJSON GE (jUpper _) _) as [up| | |] eqn:E2; try discriminate. cbn [bind] in Hd.
    destruct (ProofUnmarshalJSON _ GE _) as [vp| | |]; try discriminate. cbn [bind] in Hd. injection Hd as <-. cbn [bdLower bdUpper].
    assert (W : forall r p q, BulletProofUnmarshalJSON GE r p = Ok q -> pParams q = p).
    { clear. intros r p q H. unfold BulletProofUnmarshalJSON in H. destruct (unmarshal _ _ _) as [t|]; [|discriminate].
      repeat match type of H with bind ?e _ = Ok _ => destruct e as [?| | |]; cbn [bind] in H; try discriminate end. injection H as <-. reflexivity. }
    split; [exact (W _ _ _ E1)|exact (W _ _ _ E2)]. }
  destruct Hpar as [P1 P2].
  assert (HS : Setup GE nan64 65536 = Ok (ppBP pp) /\ vLo (ppRP pp) = 101 /\ vHi (ppRP pp) = 2000).
  { clear - HSet. unfold setup in HSet. destruct (Setup GE nan64 65536) as [bp| | |]; try discriminate. cbn [bind] in HSet.
    unfold vpSetup in HSet. destruct (_ <? 1); [discriminate|]. cbn [bind] in HSet. injection HSet as <-. split; [|split]; reflexivity. }
  destruct HS as (HS & Hlo & Hhi).
  assert (HN16 : bpN (ppBP pp) = 16).
  { destruct (Setup_ok _ nan64 65536 _ eq_refl HS) as [Hx|[_ Hs]]; [discriminate|]. destruct Hs as (HN' & _). exact HN'. }
  assert (Hns : forall Y, ns (bpH (ppBP pp)) <> Ok Y).
  { intros Y E. destruct (Setup_rel GE A R P nan64 65536 (ppBP pp) Hn eq_refl HS) as (k & g & h & H' & g' & h' & _ & _ & _ & RH & _ & _); [rewrite HN16; exact Hseed|].
    destruct (NS _ _ _ RH E) as [HR _]. apply (pr_isid _ _ _ P _ _ RH) in HR. congruence. }
  unfold verifyVoteN in HV. destruct (VerifyN GE HO ns (bdLower b)) as [[]| | |] eqn:V1; try discriminate. cbn [bind negb] in HV.
  destruct (VerifyN GE HO ns (bdUpper b)) as [[]| | |] eqn:V2; try discriminate. cbn [bind negb] in HV. cbv zeta in HV.
  destruct (vpVerifyN _ GE HO ns (bdVote b) _) as [[]| | |] eqn:V3; try discriminate. clear HV.
  assert (W : forall pf, BlankBP pf -> pParams pf = ppBP pp -> VerifyN GE HO ns pf = Ok true ->
     BlankHash GE HO mod gN GE <> 0 /\ exists mu, pMu pf = Some mu /\ KeyLog GE HO (ppBP pp) mu).
  { intros pf HB HP HVn. pose proof HB as (BV & BA & BS & BT1 & BT2 & BP & _). rewrite <- HP in Hns. apply (nil_range HO pf Hns BP) in HVn.
    apply (blank_range GE A R P RN HO nan64 65536 (ppBP pp) (withIPP pf (blankIPP GE)) Hn eq_refl HS ltac:(lia)); try assumption.
    - rewrite HN16. exact Hseed.
    - unfold BlankBP, withIPP. cbn [pV pA pS pT1 pT2 pIPP pParams blankIPP ipP ipL ipR ipParams ipGg ipHh ipUu]. unfold BlankIPP. cbn [ipP ipL ipR ipParams ipGg ipHh ipUu].
      repeat split; try assumption; repeat (constructor; try reflexivity); right; reflexivity. }
  destruct (W _ B1 P1 V1) as [Hz M1]. destruct (W _ B2 P2 V2) as [_ M2].
  split; [exact Hz|]. split; [exact M1|]. split; [exact M2|].
  rewrite (pr_N _ _ _ P) in HN.
  apply (nil_vote _ HO (bdVote b) _ 101 2000) in V3; [exact V3|rewrite K1; exact RN|rewrite K2; exact RN|rewrite Kh; exact RN| | |].
  - cbn [cXq1]. rewrite Hlo, <- (add_0_r L (gBase A 101)). apply (pr_add _ _ _ P); [apply (pr_base _ _ _ P)|]. destruct B1 as [-> _]. exact RN.
  - cbn [cXq2]. rewrite Hhi, <- (add_0_r L (gBase A 2000)). apply (pr_add _ _ _ P); [apply (pr_base _ _ _ P)|]. destruct B2 as [-> _].
    rewrite <- (scale_id L (-1)). apply (pr_scale _ _ _ P). exact RN.
  - intros H0. apply Z.mod_divide in H0; [|lia]. destruct H0 as [q Hq]. assert (q = 0 \/ q <> 0) as [->|] by lia; nia.
Qed.
End DeafNil.

(** secp256k1 with any library behaviour that ignores missing scalars for the identity only: what C78 says of every accepted document stays true.
    In particular the numbers Mu and the challenge are never missing. *)
Theorem C84_secp256k1 : forall ing A on abs ns d HO nan64 pp doc (b : BallotData (ModPGrp d) (K1Grp ing)) t,
  IngOk ing A on abs -> GrpPrime A -> SeedsFull ing 16 -> NilSane (K1Grp ing) A (k1Rel on abs) ns -> nanConv nan64 -> setup d (K1Grp ing) nan64 = Ok pp ->
  gIsId (K1Grp ing) (bpH (ppBP pp)) = false ->
  BallotDataUnmarshalJSON (ModPGrp d) (K1Grp ing) doc pp = Ok b -> verifyVoteN (ModPGrp d) (K1Grp ing) HO ns b (ppRP pp) = Ok (true, t) ->
  BlankHash (K1Grp ing) HO mod k1Order <> 0 /\
  (exists mu, pMu (bdLower b) = Some mu /\ KeyLog (K1Grp ing) HO (ppBP pp) mu) /\
  (exists mu, pMu (bdUpper b) = Some mu /\ KeyLog (K1Grp ing) HO (ppBP pp) mu) /\
  exists c, sChal (bdVote b) = Some c /\ c mod k1Order = 0.
Proof.
  intros ing A on abs ns d HO nan64 pp doc b t IO PA HF NS Hn HS HH HD HV.
  apply (deaf_nil (K1Grp ing) A (k1Rel on abs) (k1_pres ing A on abs IO) PA (C53_secp256k1_deaf ing) (ig_nil _ _ _ _ IO) ns NS d HO nan64 pp doc b t); try assumption; [reflexivity|].
  intros s X. apply (k1_seed_rel ing A on abs IO 16 s X HF).
Qed.
(** ING's behaviour is one of them. *)
Lemma ing_sane : forall G A R, Pres G A R -> NilSane G A R (ingNil G).
Proof.
  intros G A R P X a Y HX E. unfold ingNil in E. destruct (gIsId G X) eqn:HI; [|discriminate]. injection E as <-. split; [|apply (pr_id _ _ _ P)].
  apply (pr_isid _ _ _ P _ _ HX). exact HI.
Qed.

(** Whoever has the logarithm has a document that leaves out Cc, Sq1 and Sq2 altogether and is accepted by the server whose library is ING's;
    the model of the other files panics on it. *)
Section Gap.
Context (GE A : Grp) (R : E GE -> E A -> Prop) (P : Pres GE A R) (RN : R (gNew GE) (gId A)).
Let L : GrpLaws A := pr_laws _ _ _ P.
Lemma nil_id : forall X, R X (gId A) -> ingNil GE X = Ok (gId GE).
Proof. intros X H. unfold ingNil. rewrite (proj2 (pr_isid _ _ _ P _ _ H) eq_refl). reflexivity. Qed.
Lemma gap_ip : forall HO, ipVerifyN GE HO (ingNil GE) (gapIPP GE) = Ok true.
Proof.
  intros HO. unfold ipVerifyN, gapIPP, hashIP, hashIP_input. cbn [ipParams ipGg ipHh ipP ipCc ipUu ipL ipR ipA ipB hashIP_elems bind map length deref].
  set (x := fromByteArray HO _). unfold computePPN. cbn [scaleN].
  assert (Hux : R (gScale GE (gNew GE) x) (gId A)) by (rewrite <- (scale_id L x); apply (pr_scale _ _ _ P), RN).
  rewrite (nil_id _ Hux). cbn [bind ipVerifyLoopN idx nth_error deref]. f_equal.
  match goal with |- gIsId GE ?X = true => assert (HX : exists a, R X a /\ a = gId A) end.
  { eexists. split; [repeat first [apply (pr_add _ _ _ P)|apply (pr_neg _ _ _ P)|exact Hux|apply (pr_scale _ _ _ P)|exact RN|apply (pr_id _ _ _ P)]|].
    rewrite !(scale_id L), !(add_0_l L). apply (negadd_0_iff L). reflexivity. }
  destruct HX as (a & HX & ->). apply (pr_isid _ _ _ P _ _ HX). reflexivity.
Qed.
Lemma gap_ip_panic : forall HO, ipVerify GE HO (gapIPP GE) = Panic.
Proof. reflexivity. Qed.
Lemma gap_with : forall HO p mu, gapBP GE HO p mu = withIPP GE (blankBP GE HO p mu) (gapIPP GE).
Proof. intros HO p mu. unfold gapBP, blankBP. destruct (HashBP _ _ _ _). reflexivity. Qed.

Lemma gap_accepted : forall d HO nan64 pp ct mu, 1 < mpField d -> nanConv nan64 -> 0 < gN GE < 2 ^ 256 ->
  setup d GE nan64 = Ok pp -> (forall s X, In s (usedSeeds 16) -> gMap GE s = Ok X -> exists a, R X a) ->
  Z.gcd (BlankHash GE HO) (gN GE) = 1 -> KeyLog GE HO (ppBP pp) mu ->
  verifyVoteN (ModPGrp d) GE HO (ingNil GE) (gapBallot (ModPGrp d) GE HO pp ct mu) (ppRP pp) = Ok (true, 2%nat) /\
  verifyVote (ModPGrp d) GE HO (gapBallot (ModPGrp d) GE HO pp ct mu) (ppRP pp) = Panic.
Proof.
  intros d HO nan64 pp ct mu Hp Hn HN HSet Hseed Hg HK.
  pose proof (blank_accepted GE A R P RN d HO nan64 pp ct mu Hp Hn HN HSet Hseed Hg HK) as HB.
  apply C28_all_proofs_checked in HB. destruct HB as [[HB _] _]. destruct (HB eq_refl) as (V1 & _ & V3). cbn [bdLower blankBallot] in V1.
  assert (HP : ipP (gapIPP GE) = ipP (pIPP (blankBP GE HO (ppBP pp) mu))) by (unfold blankBP; destruct (HashBP _ _ _ _); reflexivity).
  split.
  2:{ unfold verifyVote, gapBallot. cbn [bdLower bdUpper]. rewrite gap_with, (nil_panic GE HO _ _ HP (gap_ip_panic HO) V1). reflexivity. }
  unfold verifyVoteN, gapBallot. cbn [bdLower bdUpper]. rewrite gap_with, (nil_rangeN GE (ingNil GE) HO _ _ HP (gap_ip HO) V1). cbn [bind negb].
  match goal with |- (r <- vpVerifyN _ _ _ _ _ ?c ;; _) = _ => set (comm := c) end.
  enough (EV : vpVerifyN (ModPGrp d) GE HO (ingNil GE) (gapVote (ModPGrp d) GE (ppFF pp)) comm = Ok true) by (cbn [bdVote]; rewrite EV; reflexivity).
  match type of V3 with vpVerify _ _ _ _ ?c = _ => set (comm0 := c) in V3 end.
  assert (Hcomm : comm = comm0).
  { unfold comm, comm0. unfold blankBallot, withIPP, blankBP. cbn [bdLower bdUpper bdBallot]. destruct (HashBP _ _ _ _). reflexivity. }
  rewrite <- Hcomm in V3. clear Hcomm comm0.
  assert (HR1 : exists a, R (cXq1 comm) a).
  { eexists. unfold comm. cbn [cXq1]. apply (pr_add _ _ _ P); [apply (pr_base _ _ _ P)|]. unfold withIPP, blankBP. destruct (HashBP _ _ _ _). exact RN. }
  assert (HR2 : exists a, R (cXq2 comm) a).
  { eexists. unfold comm. cbn [cXq2]. apply (pr_add _ _ _ P); [apply (pr_base _ _ _ P)|]. apply (pr_scale _ _ _ P). unfold withIPP, blankBP. destruct (HashBP _ _ _ _). exact RN. }
  clearbody comm. revert V3. unfold vpVerify, vpVerifyN. cbn [bdVote blankBallot]. unfold blankVote, gapVote. cbv zeta.
  cbn [sParams sZ sW sKp sKq1 sKq2 sChal sSp sSq1 sSq2 vBc vBb vBx vGFF vGEC deref bind].
  assert (HQ : forall z X (gp : GroupParams GE), (exists a, R X a) -> gpH gp = gNew GE -> sigmaPedersenCheck GE z 0 0 (gNew GE) X gp = true ->
     sigmaPedersenCheckN GE (ingNil GE) z None 0 (gNew GE) X gp = Ok true).
  { intros z X gp [a Ha] Hh. unfold sigmaPedersenCheck, sigmaPedersenCheckN, vpCommit. rewrite Hh. cbn [scaleN]. rewrite (nil_id _ RN). cbn [bind]. intros H. f_equal.
    apply (pr_eq _ _ _ P _ _ _ _ (pr_add _ _ _ P _ _ _ _ (pr_base _ _ _ P z) (pr_scale _ _ _ P _ _ 0 RN)) (pr_add _ _ _ P _ _ _ _ (pr_scale _ _ _ P _ _ 0 Ha) RN)) in H.
    apply (pr_eq _ _ _ P _ _ _ _ (pr_add _ _ _ P _ _ _ _ (pr_base _ _ _ P z) (pr_id _ _ _ P)) (pr_add _ _ _ P _ _ _ _ (pr_scale _ _ _ P _ _ 0 Ha) RN)).
    rewrite <- H, (scale_id L). reflexivity. }
  destruct (_ || _); [discriminate|]. destruct (getFSChallenge _ _ _ _ _ _ _ _) as [c'| | |]; try discriminate. cbn [bind].
  destruct (negb (c' =? 0)); [discriminate|]. destruct (negb (gEq (ModPGrp d) _ _)); [discriminate|].
  destruct (negb (sigmaPedersenCheck (ModPGrp d) _ _ _ _ _ _)); [discriminate|].
  destruct (sigmaPedersenCheck GE _ _ _ _ (cXq1 comm) _) eqn:Q1; [|discriminate]. cbn [negb].
  destruct (sigmaPedersenCheck GE _ _ _ _ (cXq2 comm) _) eqn:Q2; [|discriminate]. intros _.
  set (gq := mkGroupParams (gNew GE) (gNew GE) (Some (gN GE)) (Some 0)) in *.
  rewrite (HQ (gN GE) (cXq1 comm) gq HR1 eq_refl Q1). cbn [bind negb]. rewrite (HQ (gN GE) (cXq2 comm) gq HR2 eq_refl Q2). reflexivity.
Qed.
End Gap.

Theorem C84_secp256k1_left_out : forall ing A on abs d HO nan64 pp ct mu,
  IngOk ing A on abs -> SeedsFull ing 16 -> nanConv nan64 -> 1 < mpField d -> setup d (K1Grp ing) nan64 = Ok pp ->
  Z.gcd (BlankHash (K1Grp ing) HO) k1Order = 1 -> KeyLog (K1Grp ing) HO (ppBP pp) mu ->
  exists doc b, BallotDataUnmarshalJSON (ModPGrp d) (K1Grp ing) (Some doc) pp = Ok b /\ bdBallot b = ct /\
    ipCc (pIPP (bdLower b)) = None /\ ipCc (pIPP (bdUpper b)) = None /\ sSq1 (bdVote b) = None /\ sSq2 (bdVote b) = None /\
    verifyVoteN (ModPGrp d) (K1Grp ing) HO (ingNil (K1Grp ing)) b (ppRP pp) = Ok (true, 2%nat) /\ verifyVote (ModPGrp d) (K1Grp ing) HO b (ppRP pp) = Panic.
Proof.
  intros ing A on abs d HO nan64 pp ct mu IO HF Hn Hp HS Hg HK. set (b := gapBallot (ModPGrp d) (K1Grp ing) HO pp ct mu).
  destruct (C53_secp256k1_transport d ing b pp) as (doc & _ & Hdoc).
  - unfold b, gapBallot, gapBP. cbn [bdLower]. destruct (HashBP _ _ _ _). reflexivity.
  - unfold b, gapBallot, gapBP. cbn [bdUpper]. destruct (HashBP _ _ _ _). reflexivity.
  - unfold b, gapBallot, gapBP. cbn [bdLower]. destruct (HashBP _ _ _ _). exists [gNew (K1Grp ing)], []. repeat split.
  - unfold b, gapBallot, gapBP. cbn [bdUpper]. destruct (HashBP _ _ _ _). exists [gNew (K1Grp ing)], []. repeat split.
  - unfold b, gapBallot, gapVote, WFInts. cbn. lia.
  - exists doc, b. split; [rewrite Hdoc; reflexivity|]. split; [reflexivity|]. do 2 (split; [unfold b, gapBallot, gapBP; cbn [bdLower bdUpper]; destruct (HashBP _ _ _ _); reflexivity|]).
    split; [reflexivity|]. split; [reflexivity|].
    apply (gap_accepted (K1Grp ing) A (k1Rel on abs) (k1_pres ing A on abs IO) (ig_nil _ _ _ _ IO) d HO nan64 pp ct mu); try assumption; [split; reflexivity|].
    intros s X. apply (k1_seed_rel ing A on abs IO 16 s X HF).
Qed.

(** ** Concrete case: the library of C78's case. A document without these numbers is accepted; what [C84_secp256k1] asks for holds. *)
Example C84_case : exists pp mu doc b, IngOk ing3 gK on2 abs2 /\ GrpPrime gK /\ SeedsFull ing3 16 /\ NilSane (K1Grp ing3) gK (k1Rel on2 abs2) (ingNil (K1Grp ing3)) /\
  setup dSafe (K1Grp ing3) 0 = Ok pp /\ gIsId (K1Grp ing3) (bpH (ppBP pp)) = false /\
  Z.gcd (BlankHash (K1Grp ing3) oneHO) k1Order = 1 /\ KeyLog (K1Grp ing3) oneHO (ppBP pp) mu /\
  BallotDataUnmarshalJSON (ModPGrp dSafe) (K1Grp ing3) (Some doc) pp = Ok b /\ sSq1 (bdVote b) = None /\
  verifyVoteN (ModPGrp dSafe) (K1Grp ing3) oneHO (ingNil (K1Grp ing3)) b (ppRP pp) = Ok (true, 2%nat) /\ verifyVote (ModPGrp dSafe) (K1Grp ing3) oneHO b (ppRP pp) = Panic.
Proof.
  destruct case_setup as (pp & HS & _).
  assert (HS0 : Setup (K1Grp ing3) 0 65536 = Ok (ppBP pp)).
  { unfold setup in HS. destruct (Setup (K1Grp ing3) 0 65536) as [bp| | |]; try discriminate. cbn [bind] in HS.
    unfold vpSetup in HS. destruct (_ <? 1); [discriminate|]. cbn [bind] in HS. injection HS as <-. reflexivity. }
  destruct (Setup_ok _ 0 65536 _ eq_refl HS0) as [Hx|[_ (HN & _ & HH & _)]]; [discriminate|].
  assert (Hid : gIsId (K1Grp ing3) (bpH (ppBP pp)) = false) .
  { cbn [K1Grp gMap] in HH. unfold kgMapToGroup in HH. destruct (inMapToGroup ing3 (str_bytes SEEDH)) as [u w] eqn:EM.
    pose proof (ing3_seeds 16 (str_bytes SEEDH) (or_introl eq_refl)) as Hf. rewrite EM in Hf. cbn [fst] in Hf.
    destruct (ig_map _ _ _ _ ing3_ok _ u w EM) as (_ & Hu & Hw). apply (C34_map_exact u w Hu Hw) in Hf. rewrite Hf in HH. cbn [bind] in HH.
    assert (E1 : w = 1) by (injection EM as _ EM; symmetry; exact EM). injection HH as HH. rewrite <- HH, E1. cbn [K1Grp gIsId].
    unfold kgIsIdentity, k1IsIdentity, ingOfPtrs, ingPtrs. cbn. destruct (u =? 0); reflexivity. }
  destruct (keylog_exists (K1Grp ing3) gK (k1Rel on2 abs2) (k1_pres ing3 gK on2 abs2 ing3_ok) gK_prime oneHO 0 65536 (ppBP pp) (or_intror eq_refl) eq_refl HS0) as [mu HK].
  - rewrite HN. intros s X. apply (k1_seed_rel ing3 gK on2 abs2 ing3_ok 16 s X (ing3_seeds 16)).
  - exact Hid.
  - assert (Hg : Z.gcd (BlankHash (K1Grp ing3) oneHO) k1Order = 1) by reflexivity.
    assert (Hp : 1 < mpField dSafe) by reflexivity.
    destruct (C84_secp256k1_left_out ing3 gK on2 abs2 dSafe oneHO 0 pp (mkCiphertext (G:=ModPGrp dSafe) 0 0) mu ing3_ok (ing3_seeds 16) (or_intror eq_refl) Hp HS Hg HK) as (doc & b & D1 & _ & _ & _ & D2 & _ & D3 & D4).
    exists pp, mu, doc, b.
    split; [exact ing3_ok|]. split; [exact gK_prime|]. split; [exact (ing3_seeds 16)|]. split; [exact (ing_sane _ _ _ (k1_pres ing3 gK on2 abs2 ing3_ok))|].
    split; [exact HS|]. split; [exact Hid|]. split; [exact Hg|]. split; [exact HK|]. split; [exact D1|]. split; [exact D2|]. split; [exact D3|exact D4].
Qed.

(** every proof the verifier answers (C37) has its numbers *)
Lemma readable_numbers : forall G HO (pf : BulletProof G), BPReadable G HO pf -> NumbersPresent G HO pf.
Proof.
  intros G HO pf (_ & H1 & H2 & _ & H3 & _ & _ & _ & _ & _ & rs & rest & HR & HF). split; [exact H1|]. split; [exact H2|]. split; [exact H3|].
  rewrite HR. clear - HF. induction HF as [|X Y Ls Rs HXY HF IH]; cbn [combine map app]; [intros X Y []|].
  intros X' Y' [E|E]; [injection E as <- <-; exact HXY|exact (IH X' Y' E)].
Qed.
(** a proof of two rounds made by Prove; and one without Cc on which the two verifications differ for a library that ignores missing scalars *)
Example C84_complete_case : NumbersPresent toy toyO toyPf /\ 1 < gN toy /\ length (ipL (pIPP toyPf)) = 2%nat /\ Verify toy toyO toyPf = Ok true /\
  VerifyN toy toyO (fun _ => Ok (gId toy)) toyPf = Ok true /\ Verify toy toyO (withIPP toy toyPf (gapIPP toy)) = Panic /\ VerifyN toy toyO (ingNil toy) (withIPP toy toyPf (gapIPP toy)) <> @Panic bool.
Proof.
  split; [apply readable_numbers; exact (proj1 (proj2 C37_case))|]. split; [reflexivity|]. repeat split; vm_compute; congruence.
Qed.

(** an aggregated proof of two numbers, made by MultiProve; and the same without Cc, on which the two verifications differ *)
Definition gapMulti : MultiBulletProof toy :=
  mkMultiBulletProof (mVs toyMultiPf) (mA toyMultiPf) (mS toyMultiPf) (mT1 toyMultiPf) (mT2 toyMultiPf) (mTaux toyMultiPf) (mMu toyMultiPf) (mTprime toyMultiPf)
    (gapIPP toy) (mParams toyMultiPf).
Example C84_aggregated_case : MultiNumbersPresent toy toyO toyMultiPf /\ length (mVs toyMultiPf) = 2%nat /\ length (ipL (mIPP toyMultiPf)) = 2%nat /\
  MultiVerifyN toy toyO (fun _ => Ok (gId toy)) toyMultiPf = Ok false /\ MultiVerify toy toyO toyMultiPf = Ok false /\
  MultiVerify toy toyO gapMulti = Panic /\ MultiVerifyN toy toyO (ingNil toy) gapMulti = Ok false.
Proof.
  assert (H : forallb (fun p => match snd p with Some Y => Z.gcd (fst (HashBP toy toyO (fst p) Y)) (gN toy) =? 1 | None => true end)
                (combine (ipL (mIPP toyMultiPf)) (ipR (mIPP toyMultiPf))) = true) by (vm_compute; reflexivity).
  split; [split; [vm_compute; congruence|split; [vm_compute; congruence|split; [vm_compute; congruence|]]]|].
  - intros X Y HI. rewrite forallb_forall in H. specialize (H (X, Some Y) HI). cbn [fst snd] in H. apply Z.eqb_eq, H.
  - repeat split; vm_compute; reflexivity.
Qed.

(** ** Leaving out Sq1 *)
Definition noSq1 {GF GE : Grp} (b : BallotData GF GE) : BallotData GF GE :=
  let p := bdVote b in mkBallotData (bdBallot b) (bdLower b) (bdUpper b) (mkSigmaProof (sW p) (sKp p) (sKq1 p) (sKq2 p) (sChal p) (sZ p) (sSp p) None (sSq2 p) (sParams p)).
(** ING's library: an accepted ballot whose Sq1 is then left out makes the server panic when the key H is a proper point; when it is the identity, Sq1 is not looked at. *)
Theorem C84_left_out_panics : forall GF GE HO (b : BallotData GF GE) rp n, verifyVote GF GE HO b rp = Ok (true, n) ->
  (gIsId GE (gpH (vGEC (sParams (bdVote b)))) = false -> verifyVoteN GF GE HO (ingNil GE) (noSq1 b) rp = Panic) /\
  (GrpLaws GE -> gIsId GE (gpH (vGEC (sParams (bdVote b)))) = true -> verifyVoteN GF GE HO (ingNil GE) (noSq1 b) rp = Ok (true, n)).
Proof.
  intros GF GE HO b rp n H. unfold verifyVote, verifyVoteN, noSq1 in *. cbn [bdBallot bdLower bdUpper bdVote].
  destruct (Verify GE HO (bdLower b)) as [o1| | |] eqn:E1; try discriminate. rewrite (le_verify GE HO (ingNil GE) (bdLower b) o1 E1).
  destruct o1; cbn [bind negb] in *; [|discriminate].
  destruct (Verify GE HO (bdUpper b)) as [o2| | |] eqn:E2; try discriminate. rewrite (le_verify GE HO (ingNil GE) (bdUpper b) o2 E2).
  destruct o2; cbn [bind negb] in *; [|discriminate]. cbv zeta in *.
  unfold vpVerify, vpVerifyN in *. cbn [sW sKp sKq1 sKq2 sChal sZ sSp sSq1 sSq2 sParams cY cXp cXq1 cXq2] in *.
  destruct (sZ (bdVote b)) as [z|]; [|discriminate]. cbn [deref bind] in *. destruct (_ || _); [discriminate|].
  destruct (getFSChallenge _ _ _ _ _ _ _ _) as [c0| | |]; try discriminate. cbn [bind] in *.
  destruct (sChal (bdVote b)) as [c|]; [|discriminate]. cbn [deref bind] in *. destruct (c0 =? c); cbn [negb bind] in *; [|discriminate].
  destruct (sSp (bdVote b)) as [sp|]; [|discriminate]. cbn [deref bind] in *.
  destruct (gEq GF _ _); cbn [negb bind] in *; [|discriminate]. destruct (sigmaPedersenCheck GF _ _ _ _ _ _); cbn [negb bind] in *; [|discriminate].
  destruct (sSq1 (bdVote b)) as [s1|]; [|discriminate]. cbn [deref bind] in *. unfold sigmaPedersenCheckN. cbn [scaleN]. unfold ingNil at 1 3. split.
  - intros ->. reflexivity.
  - intros L Hid. rewrite Hid. cbn [bind]. apply (l_isid GE L) in Hid. unfold sigmaPedersenCheck, vpCommit in H. rewrite Hid in *.
    replace (gScale GE (gId GE) s1) with (gId GE) in H by glin L. destruct (gEq GE _ _); cbn [negb bind] in *; [|discriminate].
    destruct (sSq2 (bdVote b)) as [s2|]; [|discriminate]. cbn [deref bind scaleN] in *. destruct (gEq GE _ _); cbn [negb bind] in *; [exact H|discriminate].
Qed.
(** the ballot of C25_run: accepted, with a key that is a proper point *)
Example C84_left_out_case : (b <- castVote (ModPGrp dToy) toy aHO aPP aCR ;; v <- verifyVote (ModPGrp dToy) toy aHO b aRP ;;
  Ok (v, gIsId toy (gpH (vGEC (sParams (bdVote b)))))) = Ok ((true, 2%nat), false).
Proof. vm_compute. reflexivity. Qed.

Print Assumptions C84_strict.
Print Assumptions C84_answers_stay.
Print Assumptions C84_complete.
Print Assumptions C84_server.
Print Assumptions C84_aggregated.
Print Assumptions C84_secp256k1.
Print Assumptions C84_secp256k1_left_out.
Print Assumptions C84_left_out_panics.
