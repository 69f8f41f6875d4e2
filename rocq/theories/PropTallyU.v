(** C81, continued: the sign of the first component of the ciphertext. *)
From Verif Require Import GoBase Json GroupIface Vector BIP BP VoteProof ModP App ECJson Marshal NumTh Alg VectorProofs BIPProofs BPProofs SetupProofs ModPProofs
  BytesProofs Toy Hom PropBP PropVote PropModP PropApp PropJson PropRead PropCopy Primes PrimeCerts PropPrime PropDeaf PropK1Sound PropReplay PropTally.
From Coq Require Import Znumtheory.

(** the same ballot with p - U in place of U *)
Definition negU {d : ModPDesc} {GE : Grp} (b : BallotData (ModPGrp d) GE) : BallotData (ModPGrp d) GE :=
  mkBallotData (mkCiphertext (G:=ModPGrp d) (mpField d - ctU (bdBallot b)) (ctV (bdBallot b))) (bdLower b) (bdUpper b) (bdVote b).
(** The server accepts it exactly if the challenge is even *)
Theorem C81_sign_U : forall d GE HO (b : BallotData (ModPGrp d) GE) rp n c, SafePrime2 d -> (forall m, Forall is_byte (sha256 HO m)) ->
  verifyVote (ModPGrp d) GE HO b rp = Ok (true, n) -> sChal (bdVote b) = Some c ->
  ctU (bdBallot b) mod mpField d <> 0 -> sW (bdVote b) mod mpField d <> 0 ->
  verifyVote (ModPGrp d) GE HO (negU b) rp = Ok (Z.even c, n).
Proof.
  intros d GE HO b rp n c HS Hby H Hc HV HK. pose proof (safe_ok d HS) as Hok. pose proof (okp d Hok) as Hp. pose proof (p_odd d HS) as Hp3.
  assert (HP : prime (mpField d)) by apply HS.
  unfold verifyVote, negU in *. cbn [bdLower bdUpper bdBallot bdVote ctU ctV] in *.
  destruct (Verify GE HO (bdLower b)) as [[]| | |]; try discriminate; cbn [bind negb] in *; try discriminate.
  destruct (Verify GE HO (bdUpper b)) as [[]| | |]; try discriminate; cbn [bind negb] in *; try discriminate. cbv zeta in *.
  unfold vpVerify in *. cbv zeta in *. cbn [cY cXp cXq1 cXq2] in *. rewrite Hc in *.
  destruct (sZ (bdVote b)) as [z|]; [|discriminate]. cbn [deref bind] in *. destruct (_ || _); [discriminate|].
  destruct (getFSChallenge _ GE HO _ _ _ _ _) as [c0| | |] eqn:Hfs; try discriminate. cbn [bind] in *.
  destruct (c0 =? c) eqn:Ec; cbn [negb bind] in *; [|discriminate]. apply Z.eqb_eq in Ec. subst c0.
  pose proof (fs_nonneg _ _ _ _ _ _ _ _ _ (Hby _) Hfs) as Hc0.
  destruct (sSp (bdVote b)) as [sp|]; [|discriminate]. cbn [deref bind] in *.
  assert (HX : forall X, gAdd (ModPGrp d) (gScale (ModPGrp d) X c) (sW (bdVote b)) = (X ^ c * sW (bdVote b)) mod mpField d).
  { intros X. cbn [ModPGrp gAdd gScale]. unfold mpAdd, mpScale, bigExp. replace (c <? 0) with false by (symmetry; apply Z.ltb_ge; lia).
    rewrite Zpow_mod_pow by lia. cbn [or_old]. apply Z.mul_mod_idemp_l. lia. }
  rewrite HX in *. set (L := gBase (ModPGrp d) sp) in *. change (gEq (ModPGrp d)) with Z.eqb in *.
  destruct (Z.eqb L ((ctU (bdBallot b) ^ c * sW (bdVote b)) mod mpField d)) eqn:EL; cbn [negb bind] in H; [|discriminate]. apply Z.eqb_eq in EL.
  pose proof (neg_pow (mpField d) (ctU (bdBallot b)) c Hp Hc0) as Hn. destruct (Z.even c) eqn:Ev.
  - assert (E1 : ((mpField d - ctU (bdBallot b)) ^ c * sW (bdVote b)) mod mpField d = (ctU (bdBallot b) ^ c * sW (bdVote b)) mod mpField d).
    { apply (proj1 (eqm_mod _ _ _)). rewrite Hn. reflexivity. }
    rewrite E1, EL, Z.eqb_refl. cbn [negb]. exact H.
  - assert (E1 : L =? ((mpField d - ctU (bdBallot b)) ^ c * sW (bdVote b)) mod mpField d = false).
    { apply Z.eqb_neq. rewrite EL. intros E. apply eqm_intro in E. rewrite Hn in E. apply eqm_iff in E; [|lia]. destruct E as [k Hk].
      assert (HD : (mpField d | 2 * (ctU (bdBallot b) ^ c * sW (bdVote b)))) by (exists k; lia).
      apply prime_mult in HD; [|exact HP]. destruct HD as [HD|HD]; [apply Z.divide_pos_le in HD; lia|].
      apply prime_mult in HD; [|exact HP]. destruct HD as [HD|HD].
      - apply (dvd_pow _ _ HP _ Hc0) in HD. apply HV. apply Z.mod_divide; [lia|exact HD].
      - apply HK. apply Z.mod_divide; [lia|exact HD]. }
    rewrite E1. cbn [negb bind].
    destruct (sigmaPedersenCheck (ModPGrp d) _ _ _ _ _ _); cbn [negb bind] in H; [|discriminate]. destruct (sSq1 _) as [s1|]; cbn [deref bind] in H; [|discriminate].
    destruct (sigmaPedersenCheck GE _ _ _ _ _ _); cbn [negb bind] in H; [|discriminate]. destruct (sSq2 _) as [s2|]; cbn [deref bind] in H; [|discriminate].
    destruct (sigmaPedersenCheck GE _ _ _ _ _ _); cbn [negb bind] in H; [|discriminate]. injection H as <-. reflexivity.
Qed.
(** What it reads as depends on the secret key: nothing at all if the key is odd, as the program's is, and the same vote if it is even. *)
Theorem C81_unreadable_U : forall d sk U V v, SafePrime2 d -> 0 <= sk -> 0 <= v -> V mod mpField d <> 0 -> ReadsAs (mpField d) 2 sk U V v ->
  (Z.odd sk = true -> forall v', 0 <= v' -> ~ ReadsAs (mpField d) 2 sk (mpField d - U) V v') /\
  (Z.odd sk = false -> ReadsAs (mpField d) 2 sk (mpField d - U) V v).
Proof.
  intros d sk U V v HS Hs Hv HV H. pose proof (safe_ok d HS) as Hok. pose proof (okp d Hok) as Hp.
  pose proof (neg_pow (mpField d) U sk Hp Hs) as Hn. rewrite <- Z.negb_odd in Hn. split; intros Ho; rewrite Ho in Hn; cbn [negb] in Hn.
  - intros v' Hv' H'. apply (C81_unreadable d sk U V v v' HS Hs Hv Hv' HV H). unfold ReadsAs in *. apply eqm_intro in H'. apply (proj1 (eqm_mod _ _ _)).
    transitivity (- V); [apply eqm_iff; [lia|]; exists 1; lia|]. rewrite H', Hn. apply eqm_of_eq. ring.
  - unfold ReadsAs in *. apply eqm_intro in H. apply (proj1 (eqm_mod _ _ _)). rewrite H, Hn. reflexivity.
Qed.
(** Both signs together: accepted for even challenges; the vote reappears for odd keys, and is lost for even ones. *)
Theorem C81_both_signs : forall d sk U V v, SafePrime2 d -> 0 <= sk -> 0 <= v -> V mod mpField d <> 0 -> ReadsAs (mpField d) 2 sk U V v ->
  (Z.odd sk = true -> ReadsAs (mpField d) 2 sk (mpField d - U) (mpField d - V) v) /\
  (Z.odd sk = false -> forall v', 0 <= v' -> ~ ReadsAs (mpField d) 2 sk (mpField d - U) (mpField d - V) v').
Proof.
  intros d sk U V v HS Hs Hv HV H. pose proof (safe_ok d HS) as Hok. pose proof (okp d Hok) as Hp.
  pose proof (neg_pow (mpField d) U sk Hp Hs) as Hn. rewrite <- Z.negb_odd in Hn. split; intros Ho.
  - rewrite Ho in Hn. cbn [negb] in Hn. unfold ReadsAs in *. apply eqm_intro in H. apply (proj1 (eqm_mod _ _ _)).
    transitivity (- V); [apply eqm_iff; [lia|]; exists 1; lia|]. rewrite H, Hn. apply eqm_of_eq. ring.
  - intros v' Hv'. apply (C81_unreadable d sk (mpField d - U) V v v' HS Hs Hv Hv' HV). apply (proj2 (C81_unreadable_U d sk U V v HS Hs Hv HV H)). exact Ho.
Qed.

(** ** Concrete case, as C81_case: the ballot for 5 with p - U, read with the keys 13 (nothing); accepted iff the challenge is even. With the even key 14 a ciphertext of 5 keeps its vote. *)
Definition tRunU (cr : CastRand) : res (option Z * option Z * option Z * (bool * nat)) :=
  b <- castVote (ModPGrp dToy) toy aHO aPP cr ;; v <- verifyVote (ModPGrp dToy) toy aHO (negU b) aRP ;;
  let ct := bdBallot b in let ct' := bdBallot (negU b) in
  Ok (sChal (bdVote b), readVote 8423 2 13 (ctU ct) (ctV ct) [3; 4; 5; 6], readVote 8423 2 13 (ctU ct') (ctV ct') [3; 4; 5; 6], v).
Example C81_case_U : tRunU (mkCastRand 2 0 (aRnd 5) (aRnd 6) [mkDraw 2050 1 22 33]) = Ok (Some 198, Some 5, None, (true, 2%nat)) /\
  tRunU aCR = Ok (Some 25, Some 5, None, (false, 2%nat)) /\
  readVote 8423 2 14 7 (2 ^ 5 * 7 ^ 14) [3; 4; 5; 6] = Some 5 /\ readVote 8423 2 14 (8423 - 7) (2 ^ 5 * 7 ^ 14) [3; 4; 5; 6] = Some 5.
Proof. repeat split; vm_compute; reflexivity. Qed.
Print Assumptions C81_sign_U.
Print Assumptions C81_unreadable_U.
Print Assumptions C81_both_signs.
