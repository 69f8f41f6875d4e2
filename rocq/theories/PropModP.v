(** C29, C30, C38, C49: the mod-p group of ElGamal ciphertexts (group/modsafeprime.go) and its use in the vote proof. *)
From Verif Require Import GoBase Json GroupIface Vector BIP BP VoteProof ModP App NumTh Alg ModPProofs Hom Toy.
From Coq Require Import Znumtheory Zpow_facts DecimalString DecimalFacts DecimalZ.

(** The statements use, from ModPProofs: [ModPOk d] (field order p > 1, order q > 1, generator in [0,p) with
    generator^q = 1 mod p) and [Member d x] (0 <= x < p and x^q = 1 mod p). *)

(** ** C29 *)
Theorem C29_group_contract : forall d, ModPOk d ->
  let G := ModPGrp d in let p := mpField d in let q := mpOrder d in let M := Member d in
  (M (gId G) /\ M (gGen G)) /\
  (forall x y, M x -> M y -> M (gAdd G x y) /\ M (gSub G x y) /\ M (gNeg G x)) /\
  (forall x s, M x -> M (gScale G x s) /\ M (gBase G s)) /\
  (forall x y, gAdd G x y = gAdd G y x) /\
  (forall x y z, gAdd G x (gAdd G y z) = gAdd G (gAdd G x y) z) /\
  (forall x, M x -> gAdd G (gId G) x = x /\ gAdd G x (gNeg G x) = gId G) /\
  (forall x y, M y -> gSub G x y = gAdd G x (gNeg G y)) /\
  (forall x, M x -> gScale G x 0 = gId G) /\
  (forall x s, M x -> gScale G x (s + 1) = gAdd G (gScale G x s) x) /\
  (forall x s, M x -> gScale G x s = x ^ (s mod q) mod p) /\
  (forall s, gBase G s = gScale G (gGen G) s) /\
  (forall x y, gEq G x y = true <-> x = y) /\ (forall x, gIsId G x = true <-> x = gId G) /\
  (* the receiver's previous value does not matter *)
  (forall old x s, M x -> mpScale d old x s = gScale G x s /\ mpNegate d old x = gNeg G x /\ mpBaseScale d old s = gBase G s).
Proof.
  intros d Hok G p q M. unfold G, M, p, q. clear G M p q.
  cbn [ModPGrp gId gGen gAdd gSub gNeg gScale gBase gEq gIsId E].
  assert (Hs : forall x y, Member d y -> mpSub d x y = mpAdd d x (mpNegate d 0 y)).
  { intros x y Hy. unfold mpSub. rewrite !(mpNegate_scale d Hok) by assumption. reflexivity. }
  assert (Hb : forall old s, mpBaseScale d old s = mpScale d old (mpGen d) s) by reflexivity.
  repeat match goal with |- _ /\ _ => split | |- _ <-> _ => split | |- forall _, _ => intro end;
    try (apply (memb_1 d Hok)); try (apply (memb_gen d Hok)); try (apply (memb_add d Hok); assumption);
    try (apply (memb_neg d Hok); assumption); try (apply (memb_scale d Hok); assumption); try reflexivity.
  - rewrite Hs by assumption. apply (memb_add d Hok); [assumption|apply (memb_neg d Hok); assumption].
  - apply (memb_scale d Hok). apply (memb_gen d Hok).
  - apply add_comm'.
  - apply add_assoc'.
  - apply (add_1' d); assumption.
  - apply (neg_r' d Hok); assumption.
  - apply Hs; assumption.
  - apply (scale_0' d Hok); assumption.
  - rewrite (scale_plus' d Hok), (scale_1' d Hok) by assumption. reflexivity.
  - apply (mpScale_pow d Hok); assumption.
  - apply Z.eqb_eq; assumption.
  - apply Z.eqb_eq; assumption.
  - apply Z.eqb_eq; assumption.
  - apply Z.eqb_eq; assumption.
  - rewrite !(mpScale_pow d Hok) by assumption. reflexivity.
  - rewrite !(mpNegate_scale d Hok) by assumption. reflexivity.
  - rewrite !Hb, !(mpScale_pow d Hok) by (apply (memb_gen d Hok)). reflexivity.
Qed.

(** For a safe prime the members are exactly the q powers of the generator. *)
Theorem C29_cyclic : forall d, ModPOk d -> prime (mpField d) -> prime (mpOrder d) -> mpGen d <> 1 ->
  forall x, Member d x <-> exists k, 0 <= k < mpOrder d /\ x = gBase (ModPGrp d) k.
Proof.
  intros d Hok Hp Hq Hg x. change (gBase (ModPGrp d)) with (mpScale d 0 (mpGen d)). split.
  - intros Hx. destruct (memb_cyclic d Hok Hp Hq Hg x Hx) as (k & Hk & ->). exists k. split; [assumption|].
    rewrite (mpScale_pow d Hok) by (apply (memb_gen d Hok)). rewrite (Z.mod_small k) by assumption. reflexivity.
  - intros (k & _ & ->). apply (memb_scale d Hok). apply (memb_gen d Hok).
Qed.

(** ** C49 *)
(** a safe-prime group generated by 2, as NewModPGroup builds it from "2" and a prime p = 7 mod 8 *)
Definition SafePrime2 (d : ModPDesc) : Prop :=
  prime (mpField d) /\ prime (mpOrder d) /\ mpOrder d = (mpField d - 1) / 2 /\ mpField d mod 8 = 7 /\ mpGen d = 2.
Lemma safe_ok : forall d, SafePrime2 d -> ModPOk d.
Proof.
  intros d (Hp & Hq & Ho & H8 & Hg). pose proof (two_pow_safe _ Hp H8) as H2. rewrite <- Ho, <- Hg in H2.
  repeat split; try (destruct Hp; assumption); try (destruct Hq; assumption); try exact H2; rewrite Hg; try lia.
  pose proof (Z.div_mod (mpField d) 8 ltac:(lia)). destruct Hp. assert (0 <= mpField d / 8) by (apply Z.div_pos; lia). lia.
Qed.
Theorem C49_generator_order : forall d a b, SafePrime2 d ->
  gBase (ModPGrp d) a = gBase (ModPGrp d) b <-> a mod mpOrder d = b mod mpOrder d.
Proof.
  intros d a b HS. pose proof (safe_ok d HS) as Hok. destruct HS as (Hp & Hq & _ & _ & Hg).
  change (gBase (ModPGrp d)) with (mpScale d 0 (mpGen d)).
  rewrite !(mpScale_pow d Hok) by (apply (memb_gen d Hok)).
  pose proof (okq d Hok) as Hq1. pose proof (Z.mod_pos_bound a (mpOrder d) ltac:(lia)). pose proof (Z.mod_pos_bound b (mpOrder d) ltac:(lia)).
  split; [|intros ->; reflexivity]. intros H1.
  assert (Hw : forall u v, 0 <= u <= v -> v < mpOrder d -> mpGen d ^ u mod mpField d = mpGen d ^ v mod mpField d -> u = v).
  { intros u v Hu Hv He. assert (Hz : (v - u) mod mpOrder d = 0).
    { apply (pow_order d (mpGen d) (v - u) Hok Hq (memb_gen d Hok)); [lia|lia|].
      apply (memb_cancel d Hok (mpGen d ^ u)); [apply (gcd_pow d Hok); [lia|apply (memb_gcd d Hok), (memb_gen d Hok)]|].
      rewrite <- Z.pow_add_r by lia. rewrite Z.mul_1_r. replace (u + (v - u)) with v by lia. apply eqm_intro. symmetry. exact He. }
    rewrite Z.mod_small in Hz by lia. lia. }
  destruct (Z.le_gt_cases (a mod mpOrder d) (b mod mpOrder d)).
  - apply Hw; [lia|lia|assumption].
  - symmetry. apply Hw; [lia|lia|symmetry; assumption].
Qed.

(** The constants of main.go: everything in SafePrime2 except the two primality facts is checked by computation. *)
Definition rfcDesc : ModPDesc := mkModPDesc 2
  0xffffffffffffffffc90fdaa22168c234c4c6628b80dc1cd129024e088a67cc74020bbea63b139b22514a08798e3404ddef9519b3cd3a431b302b0a6df25f14374fe1356d6d51c245e485b576625e7ec6f44c42e9a637ed6b0bff5cb6f406b7edee386bfb5a899fa5ae9f24117c4b1fe649286651ece45b3dc2007cb8a163bf0598da48361c55d39a69163fa8fd24cf5f83655d23dca3ad961c62f356208552bb9ed529077096966d670c354e4abc9804f1746c08ca18217c32905e462e36ce3be39e772c180e86039b2783a2ec07a28fb5c55df06f4c52c9de2bcbf6955817183995497cea956ae515d2261898fa051015728e5a8aaac42dad33170d04507a33a85521abdf1cba64ecfb850458dbef0a8aea71575d060c7db3970f85a6e1e4c7abf5ae8cdb0933d71e8c94e04a25619dcee3d2261ad2ee6bf12ffa06d98a0864d87602733ec86a64521f2b18177b200cbbe117577a615d6c770988c0bad946e208e24fa074e5ab3143db5bfce0fd108e4b82d120a93ad2caffffffffffffffff
  0x7fffffffffffffffe487ed5110b4611a62633145c06e0e68948127044533e63a0105df531d89cd9128a5043cc71a026ef7ca8cd9e69d218d98158536f92f8a1ba7f09ab6b6a8e122f242dabb312f3f637a262174d31bf6b585ffae5b7a035bf6f71c35fdad44cfd2d74f9208be258ff324943328f6722d9ee1003e5c50b1df82cc6d241b0e2ae9cd348b1fd47e9267afc1b2ae91ee51d6cb0e3179ab1042a95dcf6a9483b84b4b36b3861aa7255e4c0278ba3604650c10be19482f23171b671df1cf3b960c074301cd93c1d17603d147dae2aef837a62964ef15e5fb4aac0b8c1ccaa4be754ab5728ae9130c4c7d02880ab9472d45556216d6998b8682283d19d42a90d5ef8e5d32767dc2822c6df785457538abae83063ed9cb87c2d370f263d5fad7466d8499eb8f464a702512b0cee771e9130d697735f897fd036cc504326c3b01399f643532290f958c0bbd90065df08babbd30aeb63b84c4605d6ca371047127d03a72d598a1edadfe707e884725c16890549d69657fffffffffffffff
  "RFC3526ModPGroup3072".
Theorem C49_rfc3526 : rfc3526 = Ok rfcDesc /\ mpGen rfcDesc = 2 /\ mpField rfcDesc mod 8 = 7 /\
  mpOrder rfcDesc = (mpField rfcDesc - 1) / 2 /\ mpField rfcDesc = 2 * mpOrder rfcDesc + 1 /\
  bitLen (mpField rfcDesc) = 3072 /\ bitLen (mpOrder rfcDesc) = 3071 /\
  (prime (mpField rfcDesc) -> prime (mpOrder rfcDesc) -> SafePrime2 rfcDesc).
Proof.
  assert (H1 : rfc3526 = Ok rfcDesc) by (vm_compute; reflexivity).
  assert (H2 : mpGen rfcDesc = 2) by (vm_compute; reflexivity).
  assert (H3 : mpField rfcDesc mod 8 = 7) by (vm_compute; reflexivity).
  assert (H4 : mpOrder rfcDesc = (mpField rfcDesc - 1) / 2) by (vm_compute; reflexivity).
  split; [exact H1|]. split; [exact H2|]. split; [exact H3|]. split; [exact H4|].
  split; [vm_compute; reflexivity|]. split; [vm_compute; reflexivity|]. split; [vm_compute; reflexivity|].
  intros Hp Hq. exact (conj Hp (conj Hq (conj H4 (conj H3 H2)))).
Qed.

(** ** C30: no membership or canonicity check on the ciphertext *)
Lemma bigExp_cong : forall p x y c, 1 < p -> eqm p x y -> 0 <= c -> bigExp x c p = bigExp y c p.
Proof.
  intros p x y c Hp H Hc. unfold bigExp. replace (c <? 0) with false by (symmetry; apply Z.ltb_ge; lia).
  rewrite !Zpow_mod_pow by assumption. f_equal. apply (proj1 (eqm_mod _ _ _)). apply eqm_pow. assumption.
Qed.
Lemma fs_nonneg : forall GF GE HO w k k1 k2 b c, Forall is_byte (sha256 HO (fsInput GF GE w k k1 k2)) ->
  getFSChallenge GF GE HO w k k1 k2 b = Ok c -> 0 <= c.
Proof.
  intros GF GE HO w k k1 k2 b c Hf H. unfold getFSChallenge in H.
  destruct (slice_to _ _) as [l| | |] eqn:E; try discriminate. injection H as <-.
  assert (Hl : Forall is_byte l).
  { unfold slice_to in E. destruct (Nat.leb _ _); [|discriminate]. injection E as <-.
    rewrite <- (firstn_skipn (Z.to_nat (b / 8))) in Hf. apply Forall_app in Hf. apply Hf. }
  unfold os2ip. assert (Hg : forall l acc, Forall is_byte l -> 0 <= acc -> 0 <= fold_left (fun a b => a * 256 + b) l acc).
  { induction l0 as [|x t IH]; intros acc Hx Ha; cbn [fold_left]; [assumption|]. inversion Hx; subst. apply IH; [assumption|].
    unfold is_byte in *. lia. }
  apply Hg; [assumption|lia].
Qed.
(** an accepted ciphertext stays accepted when multiples of p are added to U and V *)
Theorem C30_refuted_noncanonical : forall d GE HO (pf : SigmaProof (ModPGrp d) GE) U V Xq1 Xq2 i j,
  1 < mpField d -> (forall b, Forall is_byte (sha256 HO b)) ->
  vpVerify (ModPGrp d) GE HO pf (mkVerCommitments (GF:=ModPGrp d) U V Xq1 Xq2) = Ok true ->
  vpVerify (ModPGrp d) GE HO pf (mkVerCommitments (GF:=ModPGrp d) (U + i * mpField d) (V + j * mpField d) Xq1 Xq2) = Ok true.
Proof.
  intros d GE HO pf U V Xq1 Xq2 i j Hp Hby H. rewrite <- H. unfold vpVerify. cbn [cY cXp cXq1 cXq2].
  destruct (sZ pf) as [z|]; [|reflexivity]. cbn [deref bind]. destruct (_ || _); [reflexivity|].
  destruct (getFSChallenge _ _ _ _ _ _ _ _) as [c| | |] eqn:Hfs; try reflexivity. cbn [bind].
  destruct (sChal pf) as [c'|]; [|reflexivity]. cbn [deref bind]. destruct (c =? c') eqn:Ecc; [|reflexivity]. cbn [negb].
  apply Z.eqb_eq in Ecc. subst c'. pose proof (fs_nonneg _ _ _ _ _ _ _ _ _ (Hby _) Hfs) as Hc.
  assert (Hs : forall X k, gScale (ModPGrp d) (X + k * mpField d) c = gScale (ModPGrp d) X c).
  { intros X k. cbn [ModPGrp gScale]. unfold mpScale. rewrite (bigExp_cong _ (X + k * mpField d) X c Hp); [reflexivity| |assumption].
    apply eqm_iff; [lia|]. exists k. lia. }
  unfold sigmaPedersenCheck. rewrite !Hs. reflexivity.
Qed.
(** ... and for an even challenge also when V is replaced by p - V, which is not a subgroup member *)
Theorem C30_refuted_nonmember : forall d GE HO (pf : SigmaProof (ModPGrp d) GE) U V Xq1 Xq2 c,
  SafePrime2 d -> sChal pf = Some c -> 0 <= c -> Z.even c = true -> Member d V ->
  vpVerify (ModPGrp d) GE HO pf (mkVerCommitments (GF:=ModPGrp d) U V Xq1 Xq2) = Ok true ->
  vpVerify (ModPGrp d) GE HO pf (mkVerCommitments (GF:=ModPGrp d) U (mpField d - V) Xq1 Xq2) = Ok true /\
  0 <= mpField d - V < mpField d /\ ~ Member d (mpField d - V).
Proof.
  intros d GE HO pf U V Xq1 Xq2 c HS Hch Hc He HV H. pose proof (safe_ok d HS) as Hok. pose proof (okp d Hok) as Hp.
  destruct HS as (Hpp & Hq & Ho & H8 & Hg).
  assert (HV0 : 0 < V).
  { destruct HV as [HV1 HV2]. destruct (Z.eq_dec V 0) as [->|]; [|lia]. rewrite Z.pow_0_l in HV2 by (pose proof (okq d Hok); lia).
    rewrite Zmod_0_l in HV2. discriminate. }
  split; [|split].
  - rewrite <- H. unfold vpVerify. cbn [cY cXp cXq1 cXq2]. rewrite Hch.
    assert (Hs : gScale (ModPGrp d) (mpField d - V) c = gScale (ModPGrp d) V c).
    { cbn [ModPGrp gScale]. unfold mpScale. unfold bigExp. replace (c <? 0) with false by (symmetry; apply Z.ltb_ge; lia).
      rewrite !Zpow_mod_pow by assumption. cbn [or_old]. apply (proj1 (eqm_mod _ _ _)).
      rewrite (eqm_pow _ (mpField d - V) (- V) c).
      2:{ apply eqm_iff; [lia|]. exists 1. lia. }
      apply eqm_of_eq. apply Z.pow_opp_even. apply Z.even_spec. assumption. }
    cbn [deref bind]. unfold sigmaPedersenCheck. rewrite Hs. reflexivity.
  - destruct HV as [[HV1 HV2] _]. lia.
  - intros Hm. pose proof (memb_eqm d Hok _ Hm) as H1. pose proof (memb_eqm d Hok _ HV) as H2.
    assert (Hodd : Z.Odd (mpOrder d)).
    { pose proof (Z.div_mod (mpField d) 8 ltac:(lia)) as Hdm. rewrite H8 in Hdm. exists (2 * (mpField d / 8) + 1).
      rewrite Ho. symmetry. apply Z.div_unique with 0; lia. }
    rewrite (eqm_pow _ (mpField d - V) (- V) (mpOrder d)) in H1.
    2:{ apply eqm_iff; [lia|]. exists 1. lia. }
    rewrite Z.pow_opp_odd in H1 by assumption. rewrite H2 in H1.
    apply eqm_iff in H1; [|lia]. destruct H1 as [k Hk]. assert (mpField d mod 8 = 7) by assumption.
    assert (3 <= mpField d). { pose proof (Z.div_mod (mpField d) 8 ltac:(lia)). assert (0 <= mpField d / 8) by (apply Z.div_pos; lia). lia. }
    destruct (Z.le_gt_cases 0 k); nia.
Qed.
(** Among canonical subgroup members the ciphertext is unique (challenge invertible modulo q, key H a member). *)
Theorem C30_unique_among_members : forall d GE HO (pf : SigmaProof (ModPGrp d) GE) U V U' V' Xq1 Xq2 Xq1' Xq2' c,
  ModPOk d -> sChal pf = Some c -> Z.gcd c (mpOrder d) = 1 ->
  Member d U -> Member d V -> Member d U' -> Member d V' -> Member d (gpH (vGFF (sParams pf))) ->
  vpVerify (ModPGrp d) GE HO pf (mkVerCommitments (GF:=ModPGrp d) U V Xq1 Xq2) = Ok true ->
  vpVerify (ModPGrp d) GE HO pf (mkVerCommitments (GF:=ModPGrp d) U' V' Xq1' Xq2') = Ok true ->
  U = U' /\ V = V'.
Proof.
  intros d GE HO pf U V U' V' Xq1 Xq2 Xq1' Xq2' c Hok Hch Hgc HU HV HU' HV' HH A1 A2.
  pose proof (okp d Hok) as Hp. pose proof (okq d Hok) as Hq.
  assert (Hinv : forall X Y, Member d X -> Member d Y -> mpScale d 0 X c = mpScale d 0 Y c -> X = Y).
  { intros X Y HX HY HXY. destruct (modInverse_ex c _ Hq Hgc) as (i & _ & Hi & Hci).
    assert (Hback : forall Z0, Member d Z0 -> mpScale d 0 (mpScale d 0 Z0 c) i = Z0).
    { intros Z0 HZ. rewrite (mpScale_pow d Hok _ _ i) by (apply (memb_scale d Hok); assumption).
      rewrite (mpScale_pow d Hok) by assumption. rewrite (Z.mod_small i) by assumption.
      apply (eqm_small (mpField d)); [apply Z.mod_pos_bound; lia|apply HZ|]. modn.
      rewrite (eqm_pow _ (Z0 ^ (c mod mpOrder d) mod mpField d) (Z0 ^ (c mod mpOrder d)) i) by apply Zmod_eqm.
      pose proof (Z.mod_pos_bound c (mpOrder d) ltac:(lia)). rewrite <- Z.pow_mul_r by lia.
      rewrite (pow_mod_q d Hok) by (try assumption; nia). rewrite Zmult_mod_idemp_l, Hci, Z.pow_1_r. reflexivity. }
    rewrite <- (Hback X HX), <- (Hback Y HY), HXY. reflexivity. }
  assert (Hcan : forall A B W T, Member d A -> Member d B -> Member d T ->
     T = mpAdd d (mpScale d 0 A c) W -> T = mpAdd d (mpScale d 0 B c) W -> A = B).
  { intros A B W T HA HB HT E1 E2. apply Hinv; [assumption|assumption|].
    assert (HgW : Z.gcd W (mpField d) = 1).
    { destruct (modInverse_ex T _ Hp (memb_gcd d Hok T HT)) as (i & _ & _ & Hi).
      apply (inv_gcd1 W (mpScale d 0 A c * i)); [assumption|]. apply (eq1 d Hok) in Hi. apply (eq1 d Hok).
      rewrite <- Hi. transitivity ((mpScale d 0 A c * W) * i); [apply eqm_of_eq; ring|].
      apply Zmult_eqm; [|reflexivity]. rewrite E1. unfold mpAdd. modn. reflexivity. }
    assert (Hb : forall X, Member d X -> 0 <= mpScale d 0 X c < mpField d) by (intros; apply (memb_scale d Hok); assumption).
    apply (eqm_small (mpField d)); [apply Hb; assumption|apply Hb; assumption|].
    apply (memb_cancel d Hok W); [assumption|]. rewrite E1 in E2. unfold mpAdd in E2. apply eqm_intro.
    rewrite (Z.mul_comm W), (Z.mul_comm W). exact E2. }
  assert (Hex : forall comm, vpVerify (ModPGrp d) GE HO pf comm = Ok true -> exists z sp,
     sZ pf = Some z /\ sSp pf = Some sp /\
     mpBaseScale d 0 sp = mpAdd d (mpScale d 0 (cY comm) c) (sW pf) /\
     mpAdd d (mpBaseScale d 0 z) (mpScale d 0 (gpH (vGFF (sParams pf))) sp) = mpAdd d (mpScale d 0 (cXp comm) c) (sKp pf)).
  { intros comm H. unfold vpVerify in H. rewrite Hch in H. destruct (sZ pf) as [z|]; [|discriminate]. cbn [deref bind] in H.
    destruct (_ || _); [discriminate|]. destruct (getFSChallenge _ _ _ _ _ _ _ _) as [c1| | |]; try discriminate. cbn [bind] in H.
    destruct (negb _); [discriminate|]. destruct (sSp pf) as [sp|]; [|discriminate]. cbn [deref bind] in H.
    destruct (gEq (ModPGrp d) _ _) eqn:E1; [|discriminate]. cbn [negb] in H.
    destruct (sigmaPedersenCheck (ModPGrp d) _ _ _ _ _ _) eqn:E2; [|discriminate].
    exists z, sp. split; [reflexivity|]. split; [reflexivity|]. split; [apply Z.eqb_eq; exact E1|apply Z.eqb_eq; exact E2]. }
  destruct (Hex _ A1) as (z & sp & Hz & Hsp & E1 & E2). destruct (Hex _ A2) as (z' & sp' & Hz' & Hsp' & E1' & E2').
  rewrite Hz in Hz'. injection Hz' as <-. rewrite Hsp in Hsp'. injection Hsp' as <-. cbn [cY cXp] in *.
  assert (Hbm : forall s, Member d (mpBaseScale d 0 s)) by (intros; apply (memb_scale d Hok), (memb_gen d Hok)).
  split.
  - apply (Hcan _ _ _ _ HU HU' (Hbm sp) E1 E1').
  - refine (Hcan _ _ _ _ HV HV' _ E2 E2'). apply (memb_add d Hok); [apply Hbm|apply (memb_scale d Hok); assumption].
Qed.

(** ** C38: two different pairs of subgroup members (powers of the generator 2), same Fiat-Shamir challenge for every hash *)
Theorem C38_refuted : forall d GE HO Kq1 Kq2 bound, mpGen d = 2 -> 64 < mpField d ->
  let G := ModPGrp d in
  let W := gBase G 4 in let Kp := gBase G 2 in let W' := gBase G 0 in let Kp' := gBase G 6 in
  W <> W' /\ Kp <> Kp' /\
  getFSChallenge G GE HO W Kp Kq1 Kq2 bound = getFSChallenge G GE HO W' Kp' Kq1 Kq2 bound.
Proof.
  intros d GE HO Kq1 Kq2 bound Hg Hp G W Kp W' Kp'.
  assert (Hb : forall k, 0 <= k <= 6 -> gBase G k = 2 ^ k).
  { intros k Hk. cbn [G ModPGrp gBase]. unfold mpBaseScale, bigExp. replace (k <? 0) with false by (symmetry; apply Z.ltb_ge; lia).
    rewrite Zpow_mod_pow by lia. rewrite Hg. cbn [or_old]. apply Z.mod_small. split; [apply Z.pow_nonneg; lia|].
    apply Z.le_lt_trans with (2 ^ 6); [apply Z.pow_le_mono_r; lia|lia]. }
  unfold W, Kp, W', Kp'. rewrite !Hb by lia. change (2 ^ 4) with 16. change (2 ^ 2) with 4. change (2 ^ 0) with 1. change (2 ^ 6) with 64.
  split; [discriminate|]. split; [discriminate|]. reflexivity.
Qed.

(** What does hold: the bytes of one element determine it, so pairs whose first elements print with equally many digits
    are not confused. *)
Lemma str_bytes_inj : forall s t, str_bytes s = str_bytes t -> s = t.
Proof.
  intros s t H. unfold str_bytes in H.
  assert (Hm : forall l l' : list ascii, map (fun c => Z.of_nat (nat_of_ascii c)) l = map (fun c => Z.of_nat (nat_of_ascii c)) l' -> l = l').
  { induction l as [|a l IH]; intros [|b l'] He; try discriminate; [reflexivity|]. cbn [map] in He. injection He as Ha Hl.
    f_equal; [|apply IH; exact Hl]. apply Nat2Z.inj in Ha. apply (f_equal ascii_of_nat) in Ha. rewrite !ascii_nat_embedding in Ha. exact Ha. }
  apply Hm in H. apply (f_equal string_of_list_ascii) in H. rewrite !string_of_list_ascii_of_string in H. exact H.
Qed.
Lemma dec_str_inj : forall a b, dec_str a = dec_str b -> a = b.
Proof.
  intros a b H. apply str_bytes_inj in H. apply (f_equal NilZero.int_of_string) in H.
  assert (Hn : forall z, NilZero.int_of_string (NilZero.string_of_int (Z.to_int z)) = Some (Z.to_int z)).
  { intros z. apply NilZero.isi; destruct z as [|q|q]; cbn; try discriminate.
    - intros E. apply (f_equal Decimal.rev) in E || idtac. pose proof (DecimalPos.Unsigned.to_uint_nonnil q). congruence.
    - intros E. pose proof (DecimalPos.Unsigned.to_uint_nonnil q). congruence. }
  rewrite !Hn in H. injection H as H. apply (f_equal Z.of_int) in H. rewrite !DecimalZ.of_to in H. exact H.
Qed.
Theorem C38_equal_length_injective : forall d GE (W Kp W' Kp' : E (ModPGrp d)) (Kq1 Kq2 : E GE),
  length (gStr (ModPGrp d) W) = length (gStr (ModPGrp d) W') ->
  fsInput (ModPGrp d) GE W Kp Kq1 Kq2 = fsInput (ModPGrp d) GE W' Kp' Kq1 Kq2 -> W = W' /\ Kp = Kp'.
Proof.
  intros d GE W Kp W' Kp' Kq1 Kq2 Hl H. unfold fsInput in H. cbn [ModPGrp gStr] in *.
  assert (Happ : forall (a b c e : bytes), length a = length b -> a ++ c = b ++ e -> a = b /\ c = e).
  { induction a as [|x a IH]; intros [|y b] c e Hab He; try discriminate; [auto|]. cbn in *. injection He as -> He. injection Hab as Hab.
    destruct (IH b c e Hab He) as [-> ->]. auto. }
  apply Happ in H; [|assumption]. destruct H as [H1 H2]. split; [apply dec_str_inj; exact H1|].
  assert (Hr : forall (a b t : bytes), a ++ t = b ++ t -> a = b) by (intros a b t; apply app_inv_tail).
  apply Hr in H2. apply dec_str_inj. exact H2.
Qed.

(** ** Concrete cases: p = 8423 = 2*4211 + 1 *)
Definition dToy : ModPDesc := mkModPDesc 2 8423 4211 "toy".
Lemma dToy_safe : SafePrime2 dToy.
Proof.
  refine (conj _ (conj _ (conj _ (conj _ _)))); try reflexivity; apply prime_check_ok; vm_compute; reflexivity.
Qed.
Lemma memb_check : forall d x, 1 < mpField d -> 0 <= mpOrder d -> (0 <=? x) && (x <? mpField d) && (Zpow_mod x (mpOrder d) (mpField d) =? 1) = true -> Member d x.
Proof. intros d x Hp Hq H. apply membb_iff. unfold membb. rewrite <- Zpow_mod_pow by assumption. exact H. Qed.
Example C29_case : ModPOk dToy /\ Member dToy 1024 /\ Member dToy 3 /\ gAdd (ModPGrp dToy) 4096 4096 = 7023 /\
  gAdd (ModPGrp dToy) (gScale (ModPGrp dToy) 4 (-3)) 64 = 1.
Proof.
  split; [apply safe_ok; exact dToy_safe|]. split; [apply memb_check; [reflexivity|discriminate|vm_compute; reflexivity]|].
  split; [apply memb_check; [reflexivity|discriminate|vm_compute; reflexivity]|]. split; vm_compute; reflexivity.
Qed.
Example C49_case : SafePrime2 dToy /\ gBase (ModPGrp dToy) 4218 = gBase (ModPGrp dToy) 7 /\ gBase (ModPGrp dToy) 8 <> gBase (ModPGrp dToy) 7.
Proof. split; [exact dToy_safe|]. split; [vm_compute; reflexivity|vm_compute; discriminate]. Qed.
(** an accepted proof over p = 8423 with challenge 2 (8 bits), curve group Z/101, and its two malleated ciphertexts *)
Definition c30O : Oracles := mkOracles (fun _ => 2 :: repeat 0 31) (fun b => os2ip b).
Definition c30PP : ProofParams (ModPGrp dToy) toy :=
  mkProofParams 1 8 12 2 0 1 (mkGroupParams (G:=ModPGrp dToy) 2 8 (Some 4211) (Some 8423)) (mkGroupParams (G:=toy) (gGen toy) (gBase toy 5) (Some 101) (Some 101)).
Definition c30Pf : SigmaProof (ModPGrp dToy) toy :=
  match vpProve (ModPGrp dToy) toy c30O 1 7 20 30 c30PP [mkDraw 1000 11 12 13] with Ok p => p | _ => mkSigmaProof (GF:=ModPGrp dToy) (GE:=toy) 0 0 (gId toy) (gId toy) None None None None None c30PP end.
Definition c30C (u v : Z) : VerCommitments (ModPGrp dToy) toy := mkVerCommitments (GF:=ModPGrp dToy) (GE:=toy) u v
  (vpCommit toy 1 20 (vGEC c30PP)) (vpCommit toy 1 30 (vGEC c30PP)).
Definition c30U : Z := gBase (ModPGrp dToy) 7.
Definition c30V : Z := vpCommit (ModPGrp dToy) 1 7 (vGFF c30PP).
Example C30_case : sChal c30Pf = Some 2 /\ Member dToy c30U /\ Member dToy c30V /\
  map (fun uv => vpVerify (ModPGrp dToy) toy c30O c30Pf (c30C (fst uv) (snd uv)))
      [(c30U, c30V); (c30U + 8423, c30V); (c30U, 8423 - c30V); (c30U, c30V * 2 mod 8423)] = [Ok true; Ok true; Ok true; Ok false].
Proof.
  split; [vm_compute; reflexivity|].
  split; [change c30U with (gBase (ModPGrp dToy) 7)|replace c30V with (gBase (ModPGrp dToy) 22) by (vm_compute; reflexivity); split].
  - apply C29_cyclic; [apply safe_ok; exact dToy_safe| | |discriminate|]; try apply dToy_safe. exists 7. split; [cbn; lia|reflexivity].
  - apply C29_cyclic; [apply safe_ok; exact dToy_safe| | |discriminate|]; try apply dToy_safe. exists 22. split; [cbn; lia|reflexivity].
  - vm_compute; reflexivity.
Qed.
Example C38_case : mpGen dToy = 2 /\ 64 < mpField dToy. Proof. split; [reflexivity|]. cbn. lia. Qed.

Print Assumptions C29_group_contract.
Print Assumptions C29_cyclic.
Print Assumptions C49_generator_order.
Print Assumptions C49_rfc3526.
Print Assumptions C30_refuted_noncanonical.
Print Assumptions C30_refuted_nonmember.
Print Assumptions C30_unique_among_members.
Print Assumptions C38_refuted.
Print Assumptions C38_equal_length_injective.
