(** C81: reading the vote out of a ballot. The program encrypts and verifies but has no decryption; what decrypting a ballot gives is the specification here. *)
From Verif Require Import GoBase Json GroupIface Vector BIP BP VoteProof ModP App ECJson Marshal NumTh Alg VectorProofs BIPProofs BPProofs SetupProofs ModPProofs
  BytesProofs Toy Hom PropBP PropVote PropModP PropApp PropJson PropRead PropCopy Primes PrimeCerts PropPrime PropDeaf PropK1Sound PropReplay.
From Coq Require Import Znumtheory.

(** ** Specification: ElGamal with lifted messages. (U, V) read with the secret key sk is the vote v if V = g^v * U^sk modulo p. *)
Definition ReadsAs (p g sk U V v : Z) : Prop := V mod p = (g ^ v * U ^ sk) mod p.
(** trying the candidates one after the other; needs the key and public data only *)
Definition readVote (p g sk U V : Z) (candidates : list Z) : option Z := find (fun v => V mod p =? (g ^ v * U ^ sk) mod p) candidates.
(** the candidates of setup: 101, 102, ..., 2000 *)
Definition candidates : list Z := map (fun i => 101 + Z.of_nat i) (seq 0 1900).

Lemma find_unique : forall (f : Z -> bool) l x, In x l -> f x = true -> (forall y, In y l -> f y = true -> y = x) -> find f l = Some x.
Proof.
  intros f l x. induction l as [|a t IH]; [intros []|]. intros Hin Hx Hu. cbn [find]. destruct (f a) eqn:Ea.
  - f_equal. apply Hu; [left; reflexivity|exact Ea].
  - apply IH; [destruct Hin as [->|Hin]; [congruence|exact Hin]|exact Hx|]. intros y Hy. apply Hu. right. exact Hy.
Qed.
Lemma in_candidates : forall v, In v candidates <-> 101 <= v <= 2000.
Proof.
  intros v. unfold candidates. rewrite in_map_iff. split.
  - intros (i & <- & Hi). apply in_seq in Hi. lia.
  - intros Hv. exists (Z.to_nat (v - 101)). split; [lia|]. apply in_seq. lia.
Qed.

(** what setup fixes, and the ciphertext castVote makes under it *)
Lemma setup_key : forall d GE nan64 pp, setup d GE nan64 = Ok pp -> ppEGPK pp = gBase (ModPGrp d) 13 /\ ppMin pp = 101 /\ ppMax pp = 2000.
Proof.
  intros d GE nan64 pp HS. unfold setup in HS. destruct (Setup GE nan64 65536) as [bp| | |]; try discriminate. cbn [bind] in HS.
  unfold vpSetup in HS. destruct (_ <? 1); [discriminate|]. cbn [bind] in HS. injection HS as <-. repeat split; reflexivity.
Qed.
Lemma cast_ct : forall d GE HO pp cr b, ppEGPK pp = gBase (ModPGrp d) 13 -> ppMin pp = 101 -> ppMax pp = 2000 -> 0 <= cr_choice cr < 1899 ->
  castVote (ModPGrp d) GE HO pp cr = Ok b ->
  ctU (bdBallot b) = gBase (ModPGrp d) (cr_eg cr + 1) /\
  ctV (bdBallot b) = gAdd (ModPGrp d) (gBase (ModPGrp d) (101 + cr_choice cr)) (gScale (ModPGrp d) (gBase (ModPGrp d) 13) (cr_eg cr + 1)).
Proof.
  intros d GE HO pp cr b HK Hmin Hmax Hc H. unfold castVote in H. rewrite Hmin, Hmax, HK in H. unfold randInt at 1 in H.
  change (wrap16 (2000 - 101) <=? 0) with false in H. cbn [bind] in H. cbv zeta in H.
  assert (Hw : wrap16 (wrap16 (cr_choice cr) + 101) = 101 + cr_choice cr) by (unfold wrap16; rewrite (Z.mod_small (cr_choice cr)), Z.mod_small; lia).
  rewrite Hw in H. unfold encryptVote, randInt in H. destruct (gN (ModPGrp d) - 1 <=? 0); [discriminate|]. cbn [bind] in H.
  destruct (Prove GE HO _ _ (cr_bp1 cr)) as [[b1 g1]| | |]; try discriminate. cbn [bind] in H.
  destruct (Prove GE HO _ _ (cr_bp2 cr)) as [[b2 g2]| | |]; try discriminate. cbn [bind] in H.
  destruct (deref _) as [ne| | |]; try discriminate. cbn [bind] in H.
  destruct (vpProve _ _ _ _ _ _ _ _ _) as [pf| | |]; try discriminate. cbn [bind] in H. injection H as <-. cbn [bdBallot ctU ctV]. split; reflexivity.
Qed.

Section Read.
Context (d : ModPDesc) (HS : SafePrime2 d).
Local Notation p := (mpField d).
Local Notation q := (mpOrder d).
Let Hok : ModPOk d := safe_ok d HS.

Lemma base_pow : forall s, gBase (ModPGrp d) s = mpGen d ^ (s mod q) mod p.
Proof using HS. intros s. apply (mpScale_pow d Hok 0 (mpGen d) s (memb_gen d Hok)). Qed.
Lemma reads_cast : forall v r, 0 <= v -> 
  ReadsAs p (mpGen d) 13 (gBase (ModPGrp d) r) (gAdd (ModPGrp d) (gBase (ModPGrp d) v) (gScale (ModPGrp d) (gBase (ModPGrp d) 13) r)) v.
Proof using HS.
  intros v r Hv. unfold ReadsAs. pose proof (memb_gen d Hok) as Hg. pose proof (okq d Hok) as Hq. pose proof (okp d Hok) as Hp.
  assert (Hk : Member d (gBase (ModPGrp d) 13)) by (apply (memb_scale d Hok 0 (mpGen d) 13 Hg)).
  change (gScale (ModPGrp d) (gBase (ModPGrp d) 13) r) with (mpScale d 0 (gBase (ModPGrp d) 13) r). rewrite (mpScale_pow d Hok 0 _ r Hk).
  rewrite !base_pow. cbn [ModPGrp gAdd]. unfold mpAdd. pose proof (Z.mod_pos_bound r q ltac:(lia)) as Hr. pose proof (Z.mod_pos_bound 13 q ltac:(lia)) as H13.
  rewrite Zmod_mod. apply (proj1 (eqm_mod _ _ _)).
  rewrite (Zmod_eqm p (mpGen d ^ (v mod q))). rewrite (pow_mod_q d Hok _ v Hg Hv). apply Zmult_eqm; [reflexivity|].
  transitivity ((mpGen d ^ (13 mod q)) ^ (r mod q)).
  { etransitivity; [apply Zmod_eqm|]. apply eqm_pow, Zmod_eqm. }
  transitivity ((mpGen d ^ (r mod q)) ^ 13); [|symmetry; apply eqm_pow, Zmod_eqm].
  rewrite <- !Z.pow_mul_r by lia.
  rewrite (pow_mod_q d Hok _ (13 mod q * (r mod q)) Hg) by nia. rewrite (pow_mod_q d Hok _ (r mod q * 13) Hg) by nia.
  apply eqm_of_eq. f_equal. rewrite Z.mul_mod_idemp_l by lia. rewrite Z.mul_comm. reflexivity.
Qed.
(** a ciphertext that can be read is read in one way only, modulo q *)
Lemma reads_unique : forall sk U V v v', 0 <= v -> 0 <= v' -> 0 <= sk -> V mod p <> 0 -> ReadsAs p (mpGen d) sk U V v -> ReadsAs p (mpGen d) sk U V v' -> v mod q = v' mod q.
Proof using HS.
  intros sk U V v v' Hv Hv' Hs HV H H'. unfold ReadsAs in *. pose proof (okp d Hok) as Hp. assert (HP : prime p) by (apply HS).
  assert (HU : Z.gcd (U ^ sk) p = 1).
  { apply Zgcd_1_rel_prime, rel_prime_sym, prime_rel_prime; [exact HP|]. intros [k Hk]. apply HV. rewrite H, Hk. rewrite Z.mul_assoc. apply Z_mod_mult. }
  assert (HE : eqm p (mpGen d ^ v) (mpGen d ^ v')).
  { apply (memb_cancel d Hok (U ^ sk)); [exact HU|]. apply eqm_intro. rewrite !(Z.mul_comm (U ^ sk)). congruence. }
  apply (C49_generator_order d v v' HS). rewrite !base_pow. apply (proj1 (eqm_mod _ _ _)).
  rewrite <- !(pow_mod_q d Hok _ _ (memb_gen d Hok)) by assumption. exact HE.
Qed.
Lemma memb_nz : forall x, Member d x -> x mod p <> 0.
Proof using HS.
  intros x Hx H0. pose proof (memb_gcd d Hok x Hx) as Hg. pose proof (okp d Hok). destruct Hx as [Hb _]. rewrite Z.mod_small in H0 by exact Hb. subst x.
  rewrite Z.gcd_0_l, Z.abs_eq in Hg by lia. lia.
Qed.
Lemma q_odd : Z.Odd q.
Proof using HS.
  pose proof HS as (Hpp & Hq & Ho & H8 & Hg). pose proof (Z.div_mod p 8 ltac:(lia)) as Hdm. rewrite H8 in Hdm. exists (2 * (p / 8) + 1).
  rewrite Ho. symmetry. apply Z.div_unique with 0; lia.
Qed.
Lemma p_odd : 3 <= p.
Proof using HS.
  pose proof HS as (Hpp & _ & _ & H8 & _). destruct Hpp as [H1 _]. pose proof (Z.div_mod p 8 ltac:(lia)). assert (0 <= p / 8) by (apply Z.div_pos; lia). lia.
Qed.
End Read.

(** C81. Whoever has the program can read every vote: setup makes the key from the constant 13, so trying the 1900 candidates on the
    ciphertext gives exactly the voter's choice. Nothing is assumed of the curve group or the hash. *)
Theorem C81_anyone_reads : forall d GE HO nan64 pp cr b, SafePrime2 d -> 2000 < mpOrder d -> setup d GE nan64 = Ok pp -> 0 <= cr_choice cr < 1899 ->
  castVote (ModPGrp d) GE HO pp cr = Ok b ->
  readVote (mpField d) 2 13 (ctU (bdBallot b)) (ctV (bdBallot b)) candidates = Some (101 + cr_choice cr).
Proof.
  intros d GE HO nan64 pp cr b HS HQ HSet Hc H. destruct (setup_key d GE nan64 pp HSet) as (HK & Hmin & Hmax).
  destruct (cast_ct d GE HO pp cr b HK Hmin Hmax Hc H) as [HU HV]. pose proof (safe_ok d HS) as Hok.
  assert (Hg : mpGen d = 2) by apply HS.
  pose proof (reads_cast d HS (101 + cr_choice cr) (cr_eg cr + 1) ltac:(lia)) as HR. rewrite <- HU, <- HV, Hg in HR.
  assert (HN : ctV (bdBallot b) mod mpField d <> 0).
  { apply (memb_nz d HS). rewrite HV. apply (memb_add d Hok); [apply (memb_scale d Hok 0 (mpGen d)), (memb_gen d Hok)|].
    apply (memb_scale d Hok 0). apply (memb_scale d Hok 0 (mpGen d)), (memb_gen d Hok). }
  apply find_unique; [apply in_candidates; lia|apply Z.eqb_eq; exact HR|]. intros y Hy Hf. apply in_candidates in Hy. apply Z.eqb_eq in Hf.
  pose proof (reads_unique d HS 13 (ctU (bdBallot b)) (ctV (bdBallot b)) y (101 + cr_choice cr) ltac:(lia) ltac:(lia) ltac:(lia) HN) as Hu. rewrite Hg in Hu.
  specialize (Hu Hf HR). rewrite !Z.mod_small in Hu by lia. exact Hu.
Qed.

(** ** Ballots nobody can read *)
(** the same ballot with p - V in place of V *)
Definition negV {d : ModPDesc} {GE : Grp} (b : BallotData (ModPGrp d) GE) : BallotData (ModPGrp d) GE :=
  mkBallotData (mkCiphertext (G:=ModPGrp d) (ctU (bdBallot b)) (mpField d - ctV (bdBallot b))) (bdLower b) (bdUpper b) (bdVote b).
Lemma dvd_pow : forall p V, prime p -> forall c, 0 <= c -> (p | V ^ c) -> (p | V).
Proof.
  intros p V HP. apply (natlike_ind (fun c => (p | V ^ c) -> (p | V))).
  - intros H. rewrite Z.pow_0_r in H. destruct HP as [H1 _]. apply Z.divide_pos_le in H; lia.
  - intros c Hc IH H. rewrite Z.pow_succ_r in H by exact Hc. apply prime_mult in H; [|exact HP]. destruct H as [H|H]; auto.
Qed.
Lemma neg_pow : forall p V c, 1 < p -> 0 <= c -> eqm p ((p - V) ^ c) (if Z.even c then V ^ c else - V ^ c).
Proof.
  intros p V c Hp Hc. rewrite (eqm_pow p (p - V) (- V) c) by (apply eqm_iff; [lia|]; exists 1; lia).
  destruct (Z.even c) eqn:E; apply eqm_of_eq; [apply Z.pow_opp_even, Z.even_spec; exact E|].
  apply Z.pow_opp_odd, Z.odd_spec. rewrite <- Z.negb_even, E. reflexivity.
Qed.
(** The server accepts it exactly if the challenge is even *)
Theorem C81_sign : forall d GE HO (b : BallotData (ModPGrp d) GE) rp n c, SafePrime2 d -> (forall m, Forall is_byte (sha256 HO m)) ->
  verifyVote (ModPGrp d) GE HO b rp = Ok (true, n) -> sChal (bdVote b) = Some c ->
  ctV (bdBallot b) mod mpField d <> 0 -> sKp (bdVote b) mod mpField d <> 0 ->
  verifyVote (ModPGrp d) GE HO (negV b) rp = Ok (Z.even c, n).
Proof.
  intros d GE HO b rp n c HS Hby H Hc HV HK. pose proof (safe_ok d HS) as Hok. pose proof (okp d Hok) as Hp. pose proof (p_odd d HS) as Hp3.
  assert (HP : prime (mpField d)) by apply HS.
  unfold verifyVote, negV in *. cbn [bdLower bdUpper bdBallot bdVote ctU ctV] in *.
  destruct (Verify GE HO (bdLower b)) as [[]| | |]; try discriminate; cbn [bind negb] in *; try discriminate.
  destruct (Verify GE HO (bdUpper b)) as [[]| | |]; try discriminate; cbn [bind negb] in *; try discriminate. cbv zeta in *.
  unfold vpVerify in *. cbv zeta in *. cbn [cY cXp cXq1 cXq2] in *. rewrite Hc in *.
  destruct (sZ (bdVote b)) as [z|]; [|discriminate]. cbn [deref bind] in *. destruct (_ || _); [discriminate|].
  destruct (getFSChallenge _ GE HO _ _ _ _ _) as [c0| | |] eqn:Hfs; try discriminate. cbn [bind] in *.
  destruct (c0 =? c) eqn:Ec; cbn [negb bind] in *; [|discriminate]. apply Z.eqb_eq in Ec. subst c0.
  pose proof (fs_nonneg _ _ _ _ _ _ _ _ _ (Hby _) Hfs) as Hc0.
  destruct (sSp (bdVote b)) as [sp|]; [|discriminate]. cbn [deref bind] in *.
  destruct (gEq (ModPGrp d) _ _); cbn [negb bind] in *; [|discriminate].
  assert (HX : forall X, gAdd (ModPGrp d) (gScale (ModPGrp d) X c) (sKp (bdVote b)) = (X ^ c * sKp (bdVote b)) mod mpField d).
  { intros X. cbn [ModPGrp gAdd gScale]. unfold mpAdd, mpScale, bigExp. replace (c <? 0) with false by (symmetry; apply Z.ltb_ge; lia).
    rewrite Zpow_mod_pow by lia. cbn [or_old]. apply Z.mul_mod_idemp_l. lia. }
  unfold sigmaPedersenCheck at 1 in H. unfold sigmaPedersenCheck at 1. cbv zeta in *. rewrite HX in *.
  set (L := vpCommit (ModPGrp d) z sp _) in *. change (gEq (ModPGrp d)) with Z.eqb in *.
  destruct (Z.eqb L ((ctV (bdBallot b) ^ c * sKp (bdVote b)) mod mpField d)) eqn:EL; cbn [negb bind] in H; [|discriminate]. apply Z.eqb_eq in EL.
  pose proof (neg_pow (mpField d) (ctV (bdBallot b)) c Hp Hc0) as Hn. destruct (Z.even c) eqn:Ev.
  - assert (E1 : ((mpField d - ctV (bdBallot b)) ^ c * sKp (bdVote b)) mod mpField d = (ctV (bdBallot b) ^ c * sKp (bdVote b)) mod mpField d).
    { apply (proj1 (eqm_mod _ _ _)). rewrite Hn. reflexivity. }
    rewrite E1, EL, Z.eqb_refl. cbn [negb]. exact H.
  - assert (E1 : L =? ((mpField d - ctV (bdBallot b)) ^ c * sKp (bdVote b)) mod mpField d = false).
    { apply Z.eqb_neq. rewrite EL. intros E. apply eqm_intro in E. rewrite Hn in E. apply eqm_iff in E; [|lia]. destruct E as [k Hk].
      assert (HD : (mpField d | 2 * (ctV (bdBallot b) ^ c * sKp (bdVote b)))) by (exists k; lia).
      apply prime_mult in HD; [|exact HP]. destruct HD as [HD|HD]; [apply Z.divide_pos_le in HD; lia|].
      apply prime_mult in HD; [|exact HP]. destruct HD as [HD|HD].
      - apply (dvd_pow _ _ HP _ Hc0) in HD. apply HV. apply Z.mod_divide; [lia|exact HD].
      - apply HK. apply Z.mod_divide; [lia|exact HD]. }
    rewrite E1. cbn [negb bind]. destruct (sSq1 _) as [s1|]; cbn [deref bind] in H; [|discriminate].
    destruct (sigmaPedersenCheck GE _ _ _ _ _ _); cbn [negb bind] in H; [|discriminate]. destruct (sSq2 _) as [s2|]; cbn [deref bind] in H; [|discriminate].
    destruct (sigmaPedersenCheck GE _ _ _ _ _ _); cbn [negb bind] in H; [|discriminate]. injection H as <-. reflexivity.
Qed.
(** ... and if the ballot could be read as some vote, with any key, then the new one cannot be read as any *)
Theorem C81_unreadable : forall d sk U V v v', SafePrime2 d -> 0 <= sk -> 0 <= v -> 0 <= v' -> V mod mpField d <> 0 ->
  ReadsAs (mpField d) 2 sk U V v -> ~ ReadsAs (mpField d) 2 sk U (mpField d - V) v'.
Proof.
  intros d sk U V v v' HS Hs Hv Hv' HV H H'. pose proof (safe_ok d HS) as Hok. pose proof (okp d Hok) as Hp. pose proof (okq d Hok) as Hq.
  assert (HP : prime (mpField d)) by apply HS. assert (Hg : mpGen d = 2) by apply HS. pose proof (p_odd d HS) as Hp3. unfold ReadsAs in *.
  apply eqm_intro in H, H'.
  assert (HU : Z.gcd (U ^ sk) (mpField d) = 1).
  { apply Zgcd_1_rel_prime, rel_prime_sym, prime_rel_prime; [exact HP|]. intros [k Hk]. apply HV. apply (proj1 (eqm_mod0 _ _)). rewrite H, Hk.
    apply (proj2 (eqm_mod0 _ _)). rewrite Z.mul_assoc. apply Z_mod_mult. }
  assert (HE : eqm (mpField d) (2 ^ v') (- 2 ^ v)).
  { apply (memb_cancel d Hok (U ^ sk)); [exact HU|]. transitivity (mpField d - V); [rewrite H'; apply eqm_of_eq; ring|].
    transitivity (- V); [apply eqm_iff; [lia|]; exists 1; lia|]. rewrite H. apply eqm_of_eq. ring. }
  pose proof (memb_eqm d Hok _ (memb_gen d Hok)) as H1. rewrite Hg in H1.
  assert (HQ : forall a, 0 <= a -> eqm (mpField d) ((2 ^ a) ^ mpOrder d) 1).
  { intros a Ha. rewrite <- Z.pow_mul_r, Z.mul_comm, Z.pow_mul_r by lia. rewrite (eqm_pow _ _ 1 a H1). rewrite Z.pow_1_l by exact Ha. reflexivity. }
  pose proof (eqm_pow _ _ _ (mpOrder d) HE) as HE2. rewrite (Z.pow_opp_odd _ _ (q_odd d HS)), !HQ in HE2 by assumption.
  apply eqm_iff in HE2; [|lia]. destruct HE2 as [k Hk]. destruct (Z.le_gt_cases k 0); nia.
Qed.
(** So every voter whose challenge happens to be even can make the ballot unreadable after casting it, and send it. *)
Theorem C81_spoiled : forall d GE HO nan64 pp cr b c, SafePrime2 d -> GrpLaws GE -> JsonRoundtrip GE -> nanConv nan64 -> Digest32 HO ->
  bitLen (gN GE) < 65536 -> gN GE <= mpOrder d -> setup d GE nan64 = Ok pp -> CastDrawsOk pp cr ->
  castVote (ModPGrp d) GE HO pp cr = Ok b -> sChal (bdVote b) = Some c ->
  verifyVote (ModPGrp d) GE HO (negV b) (ppRP pp) = Ok (Z.even c, 2%nat) /\
  (forall v, 0 <= v -> ~ ReadsAs (mpField d) 2 13 (ctU (bdBallot (negV b))) (ctV (bdBallot (negV b))) v) /\
  exists j, encBallotData (ModPGrp d) GE (negV b) = Ok j /\ BallotDataUnmarshalJSON (ModPGrp d) GE (Some j) pp = Ok (negV b).
Proof.
  intros d GE HO nan64 pp cr b c HS LE JE Hn HD HB HQ HSet HC H Hc. pose proof (safe_ok d HS) as Hok. pose proof (l_order GE LE) as HN.
  pose proof (C25_end_to_end d GE HO nan64 pp cr b Hok LE Hn HB HQ HSet HC H) as HV.
  destruct (setup_key d GE nan64 pp HSet) as (HK & Hmin & Hmax).
  assert (Hch : 0 <= cr_choice cr < 1899) by (destruct HC as [Hch _]; rewrite Hmin, Hmax in Hch; lia).
  destruct (cast_ct d GE HO pp cr b HK Hmin Hmax Hch H) as [HU HVe].
  assert (HQ2 : 2 ^ (bitLen (gN GE) - 1) <= mpOrder d).
  { unfold bitLen. replace (gN GE =? 0) with false by (symmetry; apply Z.eqb_neq; lia). rewrite Z.abs_eq by lia.
    replace (Z.log2 (gN GE) + 1 - 1) with (Z.log2 (gN GE)) by lia. pose proof (Z.log2_spec (gN GE) ltac:(lia)). lia. }
  assert (HM : ctV (bdBallot b) mod mpField d <> 0 /\ sKp (bdVote b) mod mpField d <> 0).
  { destruct (setup_consistent d GE nan64 pp Hok Hn ltac:(lia) HB HQ2 HSet) as (pp0 & Hpp & _). rewrite Hpp in H.
    rewrite (castVote_hom _ _ GE (emb d Hok) (emb_hom d Hok)) in H.
    destruct (castVote (SubGrp d Hok) GE HO pp0 cr) as [b0| | |]; try discriminate. cbn [res_map] in H. injection H as <-.
    split; apply (memb_nz d HS); apply sub_memb. }
  destruct HM as [HM1 HM2]. split; [|split].
  - apply C81_sign; try assumption. intros m. apply HD.
  - intros v Hv. apply (C81_unreadable d 13 (ctU (bdBallot b)) (ctV (bdBallot b)) (101 + cr_choice cr) v HS); try lia; try exact HM1.
    pose proof (reads_cast d HS (101 + cr_choice cr) (cr_eg cr + 1) ltac:(lia)) as HR. rewrite <- HU, <- HVe in HR. replace (mpGen d) with 2 in HR by (symmetry; apply HS). exact HR.
  - assert (HW : pParams (bdLower b) = ppBP pp /\ pParams (bdUpper b) = ppBP pp /\ WFLists (bdLower b) /\ WFLists (bdUpper b) /\ WFInts (sParams (bdVote b))).
    { clear - H HSet LE Hn HB HN. assert (HP : sParams (bdVote b) = ppRP pp) by (destruct cr as [c0 r0 r1 r2 drs]; apply (cast_facts _ _ _ _ _ _ _ _ _ _ H)). rewrite HP. clear HP.
      unfold setup in HSet. destruct (Setup GE nan64 65536) as [bp| | |] eqn:Hbp; try discriminate. cbn [bind] in HSet.
      assert (Hb0 : 0 <= bitLen (gN GE)) by (unfold bitLen; destruct (_ =? 0); [lia|pose proof (Z.log2_nonneg (Z.abs (gN GE))); lia]).
      assert (Hw : wrap16 (bitLen (gN GE)) = bitLen (gN GE)) by (unfold wrap16; apply Z.mod_small; lia). rewrite Hw in HSet.
      unfold vpSetup in HSet. destruct (_ <? 1) eqn:H1; [discriminate|]. cbn [bind] in HSet. apply Z.ltb_ge in H1.
      remember (mkPublicParameters (GF:=ModPGrp d) (GE:=GE)) as mk eqn:Hmk. injection HSet as HSet. subst mk.
      unfold castVote in H.
      repeat match type of H with
        | bind ?e _ = Ok _ => destruct e as [?| | |] eqn:?; cbn [bind] in H; try discriminate
        | (let '(_, _) := ?e in _) = Ok _ => destruct e as [? ?]
        end.
      injection H as <-.
      repeat match goal with Hq : Prove GE HO _ _ _ = Ok _ |- _ =>
        apply (prove_shape GE HO nan64 65536) in Hq; [destruct Hq|exact LE|exact Hn|reflexivity|rewrite <- HSet; exact Hbp] end.
      cbn [bdLower bdUpper]. repeat (split; [assumption|]). rewrite <- HSet. unfold WFInts. cbn [ppRP vBx vBc vBg vBb vLo vHi]. lia. }
    destruct HW as (W1 & W2 & W3 & W4 & W5). apply (C35_ballot_roundtrip (ModPGrp d) GE (C35_modp_elements d) JE); assumption.
Qed.

(** ** Concrete cases *)
(** by computation, in the election of C25_run (p = 8423, candidates 3 to 6): the ballot for candidate 5 is read as 5; with p - V it is read as none of them
    (by C81_unreadable as no number at all) and accepted when the challenge is even, 198, but not when it is odd, 25 *)
Definition tRun (cr : CastRand) : res (option Z * option Z * option Z * (bool * nat)) :=
  b <- castVote (ModPGrp dToy) toy aHO aPP cr ;; v <- verifyVote (ModPGrp dToy) toy aHO (negV b) aRP ;;
  let ct := bdBallot b in let ct' := bdBallot (negV b) in
  Ok (sChal (bdVote b), readVote 8423 2 13 (ctU ct) (ctV ct) [3; 4; 5; 6], readVote 8423 2 13 (ctU ct') (ctV ct') [3; 4; 5; 6], v).
Example C81_case : tRun (mkCastRand 2 0 (aRnd 5) (aRnd 6) [mkDraw 2050 1 22 33]) = Ok (Some 198, Some 5, None, (true, 2%nat)) /\
  tRun aCR = Ok (Some 25, Some 5, None, (false, 2%nat)).
Proof. split; vm_compute; reflexivity. Qed.
(** the hypotheses of C81_anyone_reads and C81_spoiled, with the constants of setup: a safe prime above the order of ristretto255, challenge 6, candidate 1335 *)
Example C81_program_case : exists pp b, let cr := mkCastRand (1335 - 101) 77 (aRnd 5) (aRnd 6) [mkDraw (2 ^ 241) 11 22 33] in
  SafePrime2 dSafe /\ 2000 < mpOrder dSafe /\ GrpLaws gR /\ JsonRoundtrip gR /\ nanConv 0 /\ Digest32 (hoC 6) /\ bitLen (gN gR) < 65536 /\ gN gR <= mpOrder dSafe /\
  setup dSafe gR 0 = Ok pp /\ CastDrawsOk pp cr /\ castVote (ModPGrp dSafe) gR (hoC 6) pp cr = Ok b /\ sChal (bdVote b) = Some 6.
Proof.
  cbv zeta. set (cr := mkCastRand (1335 - 101) 77 (aRnd 5) (aRnd 6) [mkDraw (2 ^ 241) 11 22 33]).
  assert (HB : bitLen (gN gR) = 253) by reflexivity.
  assert (HQ : gN gR <= mpOrder dSafe) by (vm_compute; discriminate).
  assert (HQ2 : 2 < mpOrder dSafe) by reflexivity. assert (HQ3 : 2000 < mpOrder dSafe) by reflexivity.
  pose proof (toyLaws r255Order hR) as LE. assert (Hn : nanConv 0) by (right; reflexivity). pose proof (safe_ok _ dSafe_safe) as Hok.
  assert (HB2 : bitLen (gN gR) < 65536) by (rewrite HB; lia).
  destruct (C43_setup_outcome dSafe gR 0) as [_ HS]; [intros s; eexists; reflexivity|rewrite HB; lia|rewrite HB; lia|].
  destruct (HS ltac:(rewrite HB; lia)) as (pp & HSe & Hmin & Hmax & Hlo & Hhi & _ & HBc & HBg & _). rewrite HB in HBg.
  assert (HD : CastDrawsOk pp cr).
  { split; [rewrite Hmin, Hmax; cbn [cr cr_choice]; lia|]. intros dr Hin. unfold DrawOk. rewrite HBg. cbn [cr cr_vp In] in Hin.
    destruct Hin as [<-|[]]; cbn [dk dtp dtq1 dtq2]; repeat split; try discriminate; reflexivity. }
  pose proof (hoC_digest 6 ltac:(lia)) as Hdig.
  destruct (C25_cast_returns dSafe gR (hoC 6) 0 pp cr Hok LE Hn HB2 HQ HQ2 HSe HD Hdig) as (b & Hb).
  - intros A B. vm_compute. reflexivity.
  - eexists. reflexivity.
  - exists (mkDraw (2 ^ 241) 11 22 33). split; [left; reflexivity|]. rewrite HBg. cbn [dk]. split; discriminate.
  - exists pp, b. repeat (split; [first [exact dSafe_safe|exact HQ3|exact LE|apply toy_json|exact Hn|exact Hdig|exact HB2|exact HQ|exact HSe|exact HD|exact Hb]|]).
    pose proof (C25_end_to_end dSafe gR (hoC 6) 0 pp cr b Hok LE Hn HB2 HQ HSe HD Hb) as HV.
    assert (HP : sParams (bdVote b) = ppRP pp) by (apply (cast_facts _ _ _ _ _ _ _ _ _ _ Hb)).
    destruct (replay_gen (ModPGrp dSafe) gR gR eq (self_pres gR LE) (hoC 6) (toyPrime _ _ prime_r255Order) b (ppRP pp) (ppRP pp) 2%nat) as (c & Hc & Hf & _);
      [constructor; eexists; reflexivity|exact HV|].
    rewrite HP, HBc in Hf. vm_compute in Hf. injection Hf as <-. exact Hc.
Qed.

Print Assumptions C81_anyone_reads.
Print Assumptions C81_sign.
Print Assumptions C81_unreadable.
Print Assumptions C81_spoiled.
