(** C75: a prover that is not restricted to the code of Prove, only to asking SHA-256 for the digests it uses, convinces Verify of a
    ciphertext and range commitments fixed beforehand for at most a fraction n L / 2^(8 floor(Bc/8)) of the possible answers of the hash,
    unless two of its runs give away a relation between the generators or the ciphertext is an encryption of the committed value. *)
From Verif Require Import GoBase Json GroupIface Vector BIP BP VoteProof ModP ECJson Curve Groups App NumTh Alg BytesProofs ModPProofs Toy PropBP PropVote PropModP PropEC PropCurve PropApp PropModSound PropPrime PropAbort Fork.
From Coq Require Import Znumtheory DecimalString.

(** ** What is hashed determines the first message, given the length of the first of its four parts *)
Definition FSReads (GF GE : Grp) : Prop := forall w Kp K1 K2 w' Kp' K1' K2',
  length (gStr GF w) = length (gStr GF w') -> fsInput GF GE w Kp K1 K2 = fsInput GF GE w' Kp' K1' K2' ->
  w = w' /\ Kp = Kp' /\ K1 = K1' /\ K2 = K2'.

(** the same where elements of the curve group count as equal when [eqE] holds (C77) *)
Definition FSReadsUpTo (GF GE : Grp) (eqE : E GE -> E GE -> Prop) : Prop := forall w Kp K1 K2 w' Kp' K1' K2',
  length (gStr GF w) = length (gStr GF w') -> fsInput GF GE w Kp K1 K2 = fsInput GF GE w' Kp' K1' K2' ->
  w = w' /\ Kp = Kp' /\ eqE K1 K1' /\ eqE K2 K2'.

Lemma dec_chars : forall z, Forall (fun b => 45 <= b <= 57) (dec_str z).
Proof.
  assert (Hu : forall u, Forall (fun b => 45 <= b <= 57) (str_bytes (NilEmpty.string_of_uint u))).
  { induction u; unfold str_bytes in *; cbn; constructor; try assumption; cbn; lia. }
  assert (Hz : forall u, Forall (fun b => 45 <= b <= 57) (str_bytes (NilZero.string_of_uint u))).
  { intros u. destruct u; try (exact (Hu (Decimal.D0 u)) || exact (Hu (Decimal.D1 u)) || exact (Hu (Decimal.D2 u)) || exact (Hu (Decimal.D3 u)) || exact (Hu (Decimal.D4 u)) || exact (Hu (Decimal.D5 u)) || exact (Hu (Decimal.D6 u)) || exact (Hu (Decimal.D7 u)) || exact (Hu (Decimal.D8 u)) || exact (Hu (Decimal.D9 u))).
    constructor; [cbn; lia|constructor]. }
  intros z. unfold dec_str. destruct (Z.to_int z) as [u|u]; cbn [NilZero.string_of_int]; [apply Hz|].
  constructor; [cbn; lia|apply Hz].
Qed.
(** two words over one alphabet, each followed by a byte outside it *)
Lemma run_inj : forall (P : Z -> Prop) a b x y r s, Forall P a -> Forall P b -> ~ P x -> ~ P y -> a ++ x :: r = b ++ y :: s -> a = b /\ x :: r = y :: s.
Proof.
  intros P a. induction a as [|u a IH]; intros [|v b] x y r s Ha Hb Nx Ny H; cbn [app] in H.
  - auto.
  - injection H as -> _. inversion_clear Hb. contradiction.
  - injection H as -> _. inversion_clear Ha. contradiction.
  - injection H as -> H. inversion_clear Ha. inversion_clear Hb. destruct (IH b x y r s) as [-> ->]; auto.
Qed.
Lemma fs_reads_curve : forall d cv name ord (C : Circl cv), GoodCurve cv -> FSReads (ModPGrp d) (CurveGrp cv name ord C).
Proof.
  intros d cv name ord C GC w Kp K1 K2 w' Kp' K1' K2' Hl H. unfold fsInput in H. apply app_len_inj in H; [|exact Hl]. destruct H as [H1 H].
  apply dec_str_inj in H1. cbn [ModPGrp gStr CurveGrp] in H.
  assert (Hh : forall X : Pt cv, exists x r, cgString cv X = x :: r /\ ~ (45 <= x <= 57)).
  { intros X. destruct (cg_str_shape cv X) as [E|(r & E & _)]; rewrite E; eexists; eexists; (split; [reflexivity|lia]). }
  destruct (Hh K1) as (x & r & E1 & N1). destruct (Hh K1') as (y & s & E1' & N1').
  assert (Hs : dec_str Kp = dec_str Kp' /\ cgString cv K1 ++ cgString cv K2 = cgString cv K1' ++ cgString cv K2').
  { rewrite E1, E1' in *. cbn [app] in *. apply (run_inj (fun b => 45 <= b <= 57)) in H; try assumption; apply dec_chars. }
  destruct Hs as [H2 H3]. apply dec_str_inj in H2. apply (cg_str_inj cv) in H3; [|exact GC]. destruct H3 as [H3 H4].
  assert (H5 : K2 = K2'). { apply (cg_str_inj cv K2 K2' [] [] GC). rewrite !app_nil_r. exact H4. }
  auto.
Qed.
(** also when the elements of the second group have encodings of one length, as those of Ristretto255 *)
Lemma fs_reads_fixed : forall d (GE : Grp) m, (forall X, length (gStr GE X) = m) -> (forall X Y, gStr GE X = gStr GE Y -> X = Y) -> FSReads (ModPGrp d) GE.
Proof.
  intros d GE m Hm Hi w Kp K1 K2 w' Kp' K1' K2' Hl H. unfold fsInput in H. apply app_len_inj in H; [|exact Hl]. destruct H as [H1 H].
  apply dec_str_inj in H1. pose proof (f_equal (@length Z) H) as Hn. rewrite !app_length, !Hm in Hn. apply app_len_inj in H; [|lia]. destruct H as [H2 H].
  apply dec_str_inj in H2. apply app_len_inj in H; [|rewrite !Hm; reflexivity]. destruct H as [H3 H4]. auto.
Qed.
Lemma fs_reads_toy : forall GF q (Hq : 1 < q), (forall a b, gStr GF a = gStr GF b -> a = b) -> FSReads GF (ToyGrp q Hq).
Proof.
  intros GF q Hq Hi w Kp K1 K2 w' Kp' K1' K2' Hl H. unfold fsInput in H. apply app_len_inj in H; [|exact Hl]. destruct H as [H1 H].
  assert (Ht : forall X : zq q, gStr (ToyGrp q Hq) X = [zv q X]) by reflexivity. rewrite !Ht in H. cbn [app] in H.
  rewrite (app_assoc (gStr GF Kp) [zv q K1] [zv q K2] : _ ++ [_; _] = _), (app_assoc (gStr GF Kp') [zv q K1'] [zv q K2'] : _ ++ [_; _] = _) in H.
  apply app_inj_tail in H. destruct H as [H H4]. apply app_inj_tail in H. destruct H as [H2 H3].
  split; [apply Hi; exact H1|]. split; [apply Hi; exact H2|]. split; apply zq_eq; assumption.
Qed.

(** ** Provers *)
Section Fork.
Context (GF GE : Grp).
Definition fsq (pf : SigmaProof GF GE) : bytes := fsInput GF GE (sW pf) (sKp pf) (sKq1 pf) (sKq2 pf).

(** A prover with outputs in [A], which contain a vote proof. The hash answers successive new questions with the digests [hs]; the prover's
    questions come first and then the one about its vote proof. [bg] answers whatever else is asked by the acceptance test [Acc]. *)
Definition Wins {A} (vote : A -> SigmaProof GF GE) (Acc : Oracles -> A -> Prop) (bg : bytes -> bytes) (fb : bytes -> Z) (adv : Prog A) (hs : list bytes) (a : A) : Prop :=
  exists tbl, exec (thenAsk adv (fun a => fsq (vote a))) [] hs = Some (a, tbl) /\ Acc (mkOracles (oracle bg tbl) fb) a.

(** which is a run of the prover against some hash function, tested with the same one *)
Lemma wins_run : forall A vote Acc bg fb (adv : Prog A) hs a, (forall b, is_digest (bg b)) -> Forall is_digest hs -> Wins vote Acc bg fb adv hs a ->
  exists f, (forall b, is_digest (f b)) /\ runF f adv = a /\ Acc (mkOracles f fb) a.
Proof.
  intros A vote Acc bg fb adv hs a Hbg HD (tbl & E & V). exists (oracle bg tbl). split; [|split; [|exact V]].
  - intros b. unfold oracle. destruct (lookup tbl b) as [h|] eqn:El; [|apply Hbg].
    apply (exec_digests _ is_digest _ _ _ _ _ E HD) with (q := b); [intros q h0 Hq; discriminate|exact El].
  - pose proof (exec_runF _ bg _ _ _ _ _ E) as R. clear - R. revert R. generalize (oracle bg tbl) as f. intros f R. rewrite <- R. clear R.
    induction adv as [x|q k IH]; cbn [thenAsk runF]; [reflexivity|apply IH].
Qed.
Lemma oracle_digest : forall A bg (p : Prog A) hs a tbl, (forall b, is_digest (bg b)) -> Forall is_digest hs -> exec p [] hs = Some (a, tbl) ->
  forall fb, Digest32 (mkOracles (oracle bg tbl) fb).
Proof.
  intros A bg p hs a tbl Hbg HD E fb b. cbn [sha256]. unfold oracle. destruct (lookup tbl b) as [h|] eqn:El; [|apply Hbg].
  apply (exec_digests _ is_digest _ _ _ _ _ E HD) with (q := b); [intros q h0 Hq; discriminate|exact El].
Qed.
Lemma verify_chal : forall HO pf comm, vpVerify GF GE HO pf comm = Ok true ->
  (Z.to_nat (vBc (sParams pf) / 8) <= length (sha256 HO (fsq pf)))%nat /\
  sChal pf = Some (os2ip (firstn (Z.to_nat (vBc (sParams pf) / 8)) (sha256 HO (fsq pf)))).
Proof.
  intros HO pf comm H. unfold vpVerify in H. cbv zeta in H. destruct (sZ pf) as [z|]; cbn [deref bind] in H; [|discriminate].
  destruct (_ || _); [discriminate|]. unfold getFSChallenge, slice_to in H. fold (fsq pf) in H.
  destruct (Nat.leb _ _) eqn:El; cbn [bind] in H; [|discriminate]. apply Nat.leb_le in El.
  destruct (sChal pf) as [c|]; cbn [deref bind] in H; [|discriminate]. destruct (_ =? c) eqn:Ec; cbn [negb] in H; [|discriminate].
  apply Z.eqb_eq in Ec. subst c. auto.
Qed.
Lemma os2ip_len_inj : forall a b, length a = length b -> Forall is_byte a -> Forall is_byte b -> os2ip a = os2ip b -> a = b.
Proof.
  induction a as [|x a IH]; intros [|y b] Hl Ha Hb H; try discriminate; [reflexivity|]. injection Hl as Hl. inversion_clear Ha. inversion_clear Hb.
  rewrite !PropVote.os2ip_cons, Hl in H. pose proof (PropVote.os2ip_bound a ltac:(assumption)) as B1. pose proof (PropVote.os2ip_bound b ltac:(assumption)) as B2. rewrite Hl in B1.
  assert (x = y) by nia. subst y. f_equal. apply IH; try assumption. lia.
Qed.

(** [runs]: sequences of [n] digests for which the prover wins, with a first message whose first part takes fewer than [L] bytes *)
Definition WinningRuns {A} (vote : A -> SigmaProof GF GE) Acc bg fb (adv : Prog A) (n L : nat) (runs : list (list bytes)) : Prop :=
  NoDup runs /\ forall hs, In hs runs -> length hs = n /\ Forall is_digest hs /\
    exists a, Wins vote Acc bg fb adv hs a /\ (length (gStr GF (sW (vote a))) < L)%nat.
(** They are at most the fraction n L / 256^t of all the sequences of n digests, which are 256^(32n) *)
Definition Few (n L : nat) (t : Z) (runs : list (list bytes)) : Prop :=
  Z.of_nat (length runs) * 256 ^ t <= Z.of_nat n * Z.of_nat L * 256 ^ (32 * Z.of_nat n).

(** Many winning runs contain two with the same first message and different challenges. *)
Lemma two_transcripts_upto : forall eqE, FSReadsUpTo GF GE eqE -> forall A (vote : A -> SigmaProof GF GE) (Acc : Oracles -> A -> Prop) bg fb (adv : Prog A) pr n L runs,
  (forall HO a, Acc HO a -> sParams (vote a) = pr /\ exists comm, vpVerify GF GE HO (vote a) comm = Ok true) ->
  (forall b, is_digest (bg b)) -> WinningRuns vote Acc bg fb adv n L runs ->
  Few n L (vBc pr / 8) runs \/
  exists hs1 hs2 a1 a2 HO1 HO2, In hs1 runs /\ In hs2 runs /\ Wins vote Acc bg fb adv hs1 a1 /\ Wins vote Acc bg fb adv hs2 a2 /\
    Digest32 HO1 /\ Digest32 HO2 /\ Acc HO1 a1 /\ Acc HO2 a2 /\
    sW (vote a1) = sW (vote a2) /\ sKp (vote a1) = sKp (vote a2) /\ eqE (sKq1 (vote a1)) (sKq1 (vote a2)) /\ eqE (sKq2 (vote a1)) (sKq2 (vote a2)) /\
    sChal (vote a1) <> sChal (vote a2).
Proof.
  intros eqE HR A vote Acc bg fb adv pr n L runs HA Hbg [ND H]. unfold Few.
  destruct runs as [|hs0 rest] eqn:Er; [left; cbn [length]; pose proof (Z.pow_nonneg 256 (32 * Z.of_nat n)); nia|]. rewrite <- Er in *.
  assert (HB : (Z.to_nat (vBc pr / 8) <= 32)%nat).
  { destruct (H hs0) as (_ & HD & a & (tbl & E & V) & _); [rewrite Er; left; reflexivity|]. destruct (HA _ _ V) as (Hp & comm & Hv).
    destruct (verify_chal _ _ _ Hv) as [Hle _]. rewrite Hp in Hle. rewrite (proj1 (oracle_digest _ _ _ _ _ _ Hbg HD E fb (fsq (vote a)))) in Hle. exact Hle. }
  destruct (Z.lt_ge_cases (vBc pr / 8) 0) as [Hneg|Hpos].
  { left. rewrite (Z.pow_neg_r 256 _ Hneg). pose proof (Z.pow_nonneg 256 (32 * Z.of_nat n)). nia. }
  destruct (forking _ (thenAsk adv (fun a => fsq (vote a))) (fun a => fsq (vote a)) (fun a => length (gStr GF (sW (vote a)))) n L (Z.to_nat (vBc pr / 8)) runs HB ND) as [Hc|Hf].
  - intros hs Hi. destruct (H hs Hi) as (Hl & HD & a & (tbl & E & V) & HL). split; [exact Hl|]. split; [exact HD|].
    exists a, tbl. split; [exact E|]. split; [exact HL|]. exact (proj1 (exec_then _ _ _ _ _ _ _ E)).
  - left. rewrite Z2Nat.id in Hc by exact Hpos. exact Hc.
  - right. destruct Hf as (hs1 & hs2 & a1 & a2 & tb1 & tb2 & h1 & h2 & I1 & I2 & E1 & E2 & Hq & Hlab & L1 & L2 & Hne).
    destruct (H hs1 I1) as (_ & D1 & b1 & (tbl1 & E1' & V1) & _). rewrite E1 in E1'. injection E1' as <- <-.
    destruct (H hs2 I2) as (_ & D2 & b2 & (tbl2 & E2' & V2) & _). rewrite E2 in E2'. injection E2' as <- <-.
    pose proof (oracle_digest _ _ _ _ _ _ Hbg D1 E1 fb) as O1. pose proof (oracle_digest _ _ _ _ _ _ Hbg D2 E2 fb) as O2.
    exists hs1, hs2, a1, a2, (mkOracles (oracle bg tb1) fb), (mkOracles (oracle bg tb2) fb).
    destruct (HR _ _ _ _ _ _ _ _ Hlab Hq) as (Q1 & Q2 & Q3 & Q4).
    split; [exact I1|]. split; [exact I2|]. split; [exists tb1; auto|]. split; [exists tb2; auto|]. repeat (split; [assumption|]).
    destruct (HA _ _ V1) as (P1 & c1 & W1). destruct (HA _ _ V2) as (P2 & c2 & W2).
    destruct (verify_chal _ _ _ W1) as [_ C1]. destruct (verify_chal _ _ _ W2) as [_ C2]. rewrite C1, C2, P1, P2. cbn [sha256]. unfold oracle. rewrite L1, L2.
    intros He. injection He as He. apply Hne. pose proof (O1 (fsq (vote a1))) as [X1 Y1]. pose proof (O2 (fsq (vote a2))) as [X2 Y2].
    cbn [sha256] in *. unfold oracle in *. rewrite L1 in X1, Y1. rewrite L2 in X2, Y2.
    apply os2ip_len_inj; [rewrite !firstn_length; lia| | |exact He].
    + rewrite <- (firstn_skipn (Z.to_nat (vBc pr / 8)) h1) in Y1. apply Forall_app in Y1. apply Y1.
    + rewrite <- (firstn_skipn (Z.to_nat (vBc pr / 8)) h2) in Y2. apply Forall_app in Y2. apply Y2.
Qed.
Lemma two_transcripts : FSReads GF GE -> forall A (vote : A -> SigmaProof GF GE) (Acc : Oracles -> A -> Prop) bg fb (adv : Prog A) pr n L runs,
  (forall HO a, Acc HO a -> sParams (vote a) = pr /\ exists comm, vpVerify GF GE HO (vote a) comm = Ok true) ->
  (forall b, is_digest (bg b)) -> WinningRuns vote Acc bg fb adv n L runs ->
  Few n L (vBc pr / 8) runs \/
  exists hs1 hs2 a1 a2 HO1 HO2, In hs1 runs /\ In hs2 runs /\ Wins vote Acc bg fb adv hs1 a1 /\ Wins vote Acc bg fb adv hs2 a2 /\
    Digest32 HO1 /\ Digest32 HO2 /\ Acc HO1 a1 /\ Acc HO2 a2 /\
    sW (vote a1) = sW (vote a2) /\ sKp (vote a1) = sKp (vote a2) /\ sKq1 (vote a1) = sKq1 (vote a2) /\ sKq2 (vote a1) = sKq2 (vote a2) /\
    sChal (vote a1) <> sChal (vote a2).
Proof. intros HR. exact (two_transcripts_upto eq HR). Qed.
End Fork.
Arguments Wins {GF GE A}. Arguments WinningRuns {GF GE A}.

(** ** C75 *)
(** The prover outputs a vote proof for the parameters [pr], and Verify accepts it for [comm]. *)
Definition Accepted {GF GE} (pr : ProofParams GF GE) (comm : VerCommitments GF GE) (HO : Oracles) (pf : SigmaProof GF GE) : Prop :=
  sParams pf = pr /\ vpVerify GF GE HO pf comm = Ok true.
Definition itself {A} (a : A) : A := a.

Theorem C75_knowledge : forall GF GE bg fb (adv : Prog (SigmaProof GF GE)) pr comm v r n L runs,
  GrpLaws GF -> prime (gN GF) -> GrpLaws GE -> FSReads GF GE -> (forall b, is_digest (bg b)) ->
  SetupParams pr -> 2 ^ (vBg pr - 1) <= gN GE -> 2 ^ (vBg pr - 1) <= gN GF ->
  Opens GE (gpH (vGEC pr)) (cXq1 comm) v r -> 0 <= v < 2 ^ vBx pr ->
  WinningRuns itself (Accepted pr comm) bg fb adv n L runs ->
  Few n L (vBc pr / 8) runs \/
  exists hs1 hs2 pf1 pf2, In hs1 runs /\ In hs2 runs /\
    Wins itself (Accepted pr comm) bg fb adv hs1 pf1 /\ Wins itself (Accepted pr comm) bg fb adv hs2 pf2 /\
    (Relation2 GE (gGen GE) (gpH (vGEC pr)) (relLow pf1 pf2 v r) \/
     exists rp, Encrypts GF (gpH (vGFF pr)) (cY comm) (cXp comm) v rp /\ Extracted pf1 pf2 rp).
Proof.
  intros GF GE bg fb adv pr comm v r n L runs LF PF LE HR Hbg HS HNE HNF Ho Hv HW.
  destruct (two_transcripts GF GE HR _ itself (Accepted pr comm) bg fb adv pr n L runs) as [H|H]; try assumption.
  { intros HO a [Hp Hv']. split; [exact Hp|]. exists comm. exact Hv'. }
  { left. exact H. }
  right. destruct H as (hs1 & hs2 & a1 & a2 & HO1 & HO2 & I1 & I2 & W1 & W2 & D1 & D2 & [P1 V1] & [P2 V2] & Q1 & Q2 & Q3 & Q4 & Hne).
  exists hs1, hs2, a1, a2. split; [exact I1|]. split; [exact I2|]. split; [exact W1|]. split; [exact W2|].
  exact (C21_special_soundness GF GE HO1 HO2 pr a1 a2 comm v r LF PF LE D1 D2 HS HNE HNF P1 P2 Q1 Q2 Q3 Q4 Hne V1 V2 Ho Hv).
Qed.

(** The same over the mod-p group and a curve, as they are implemented, with the range commitments of a ballot. *)
Theorem C75_ballot : forall d cv name ord (C : Circl cv) bg fb (adv : Prog (SigmaProof (ModPGrp d) (CurveGrp cv name ord C)))
    (pr : ProofParams (ModPGrp d) (CurveGrp cv name ord C)) comm V1 V2 a ra b rb k n L runs,
  let GE := CurveGrp cv name ord C in
  SafePrime2 d -> GoodCurve cv -> GrpPrime GE -> (forall b, is_digest (bg b)) ->
  SetupParams pr -> 2 ^ (vBg pr - 1) <= gN GE -> 2 ^ (vBg pr - 1) <= mpOrder d -> Member d (gpH (vGFF pr)) ->
  0 <= vLo pr -> 0 <= vHi pr < 2 ^ vBx pr -> vLo pr + 2 * 2 ^ k <= gN GE ->
  cXq1 comm = gAdd GE (gBase GE (vLo pr)) V1 -> cXq2 comm = gAdd GE (gBase GE (vHi pr)) (gScale GE V2 (-1)) ->
  Opens GE (gpH (vGEC pr)) V1 a ra -> 0 <= a < 2 ^ k -> Opens GE (gpH (vGEC pr)) V2 b rb -> 0 <= b < 2 ^ k ->
  WinningRuns itself (Accepted pr comm) bg fb adv n L runs ->
  Few n L (vBc pr / 8) runs \/
  exists hs1 hs2 pf1 pf2, In hs1 runs /\ In hs2 runs /\
    Wins itself (Accepted pr comm) bg fb adv hs1 pf1 /\ Wins itself (Accepted pr comm) bg fb adv hs2 pf2 /\
    (Relation2 GE (gGen GE) (gpH (vGEC pr)) (relLow pf1 pf2 (vLo pr + a) ra) \/
     Relation2 GE (gGen GE) (gpH (vGEC pr)) (relHigh pf1 pf2 (vHi pr - b) (- rb)) \/
     exists v rp A B, Encrypts (ModPGrp d) (gpH (vGFF pr)) A B v rp /\ Extracted pf1 pf2 rp /\ v = vLo pr + a /\ vLo pr <= v <= vHi pr /\
       UpToSign d (cY comm) A /\ UpToSign d (cXp comm) B).
Proof.
  intros d cv name ord C bg fb adv pr comm V1 V2 a ra b rb k n L runs GE HSP GC PE Hbg HS H1 H2 H3 H4 H5 H6 H7 H8 H9 H10 H11 H12 HW.
  destruct (two_transcripts _ GE (fs_reads_curve d cv name ord C GC) _ itself (Accepted pr comm) bg fb adv pr n L runs) as [H|H]; try assumption.
  { intros HO a0 [Hp Hv']. split; [exact Hp|]. exists comm. exact Hv'. }
  { left. exact H. }
  right. destruct H as (hs1 & hs2 & a1 & a2 & HO1 & HO2 & I1 & I2 & W1 & W2 & D1 & D2 & [P1 A1] & [P2 A2] & Q1 & Q2 & Q3 & Q4 & Hne).
  exists hs1, hs2, a1, a2. split; [exact I1|]. split; [exact I2|]. split; [exact W1|]. split; [exact W2|].
  exact (C60_sound_up_to_sign d GE HO1 HO2 pr a1 a2 comm V1 V2 a ra b rb k HSP PE D1 D2 HS H1 H2 H3 H4 H5 H6 H7 H8 H9 H10 H11 H12 P1 P2 Q1 Q2 Q3 Q4 Hne A1 A2).
Qed.

(** The server with the parameters of main.go, over P-256 or P-384: the sender of a ballot asks n - 1 questions at most, and the ciphertext
    [ct] and the range commitments [V1], [V2] do not depend on the answers. *)
Definition ServerAccepts {GF GE} (pr : ProofParams GF GE) (ct : Ciphertext GF) (V1 V2 : E GE) (HO : Oracles) (b : BallotData GF GE) : Prop :=
  sParams (bdVote b) = pr /\ bdBallot b = ct /\ pV (bdLower b) = V1 /\ pV (bdUpper b) = V2 /\ exists t, verifyVote GF GE HO b pr = Ok (true, t).

Theorem C75_server : forall d GE bg fb nan64 pp (adv : Prog (BallotData (ModPGrp d) GE)) ct V1 V2 x rx y ry n L runs,
  SafePrime2 d -> Shipped GE -> gGen GE <> gId GE -> (forall X, exists k, X = gScale GE (gGen GE) k) -> FSReads (ModPGrp d) GE ->
  (forall b, is_digest (bg b)) -> 2 ^ 384 <= mpOrder d -> setup d GE nan64 = Ok pp ->
  Opens GE (bpH (ppBP pp)) V1 x rx -> 0 <= x < 2 ^ 16 -> Opens GE (bpH (ppBP pp)) V2 y ry -> 0 <= y < 2 ^ 16 ->
  WinningRuns bdVote (ServerAccepts (ppRP pp) ct V1 V2) bg fb adv n L runs ->
  Few n L 28 runs \/
  exists hs1 hs2 b1 b2, In hs1 runs /\ In hs2 runs /\
    Wins bdVote (ServerAccepts (ppRP pp) ct V1 V2) bg fb adv hs1 b1 /\ Wins bdVote (ServerAccepts (ppRP pp) ct V1 V2) bg fb adv hs2 b2 /\
    (Relation2 GE (gGen GE) (bpH (ppBP pp)) (relLow (bdVote b1) (bdVote b2) (101 + x) rx) \/
     Relation2 GE (gGen GE) (bpH (ppBP pp)) (relHigh (bdVote b1) (bdVote b2) (2000 - y) (- ry)) \/
     exists v r A B, Encrypts (ModPGrp d) (ppEGPK pp) A B v r /\ Extracted (bdVote b1) (bdVote b2) r /\ v = 101 + x /\ 101 <= v <= 2000 /\
       UpToSign d (ctU ct) A /\ UpToSign d (ctV ct) B).
Proof.
  intros d GE bg fb nan64 pp adv ct V1 V2 x rx y ry n L runs HSP HG Hg Hc HR Hbg HQ HSet O1 B1 O2 B2 HW.
  assert (HBc : vBc (ppRP pp) = 224).
  { clear - HSet. unfold setup in HSet. destruct (Setup GE nan64 65536) as [bp| | |]; try discriminate. cbn [bind] in HSet.
    destruct (vpSetup _ _ _ _ _ _ _ _ _) as [rp| | |] eqn:E; try discriminate. cbn [bind] in HSet. injection HSet as <-. cbn [ppRP].
    unfold vpSetup in E. destruct (_ <? 1); [discriminate|]. injection E as <-. reflexivity. }
  destruct (two_transcripts _ GE HR _ bdVote (ServerAccepts (ppRP pp) ct V1 V2) bg fb adv (ppRP pp) n L runs) as [H|H]; try assumption.
  { intros HO b (Hp & _ & _ & _ & t & Hv). split; [exact Hp|]. unfold verifyVote in Hv.
    destruct (Verify GE HO (bdLower b)) as [[|]| | |]; try discriminate. cbn [bind negb] in Hv.
    destruct (Verify GE HO (bdUpper b)) as [[|]| | |]; try discriminate. cbn [bind negb] in Hv. cbv zeta in Hv.
    destruct (vpVerify _ _ _ _ _) as [r| | |] eqn:E; try discriminate. cbn [bind] in Hv. injection Hv as -> _. eexists. exact E. }
  { left. rewrite HBc in H. exact H. }
  right. destruct H as (hs1 & hs2 & b1 & b2 & HO1 & HO2 & I1 & I2 & W1 & W2 & D1 & D2 & (P1 & T1 & L1 & U1 & t1 & A1) & (P2 & T2 & L2 & U2 & t2 & A2) & Q1 & Q2 & Q3 & Q4 & Hne).
  exists hs1, hs2, b1, b2. split; [exact I1|]. split; [exact I2|]. split; [exact W1|]. split; [exact W2|]. rewrite <- T1.
  apply (C62_server_sound d GE HO1 HO2 nan64 pp b1 b2 t1 t2 x rx y ry); try assumption; try congruence.
Qed.

(** The hypothesis [FSReads] holds for the NIST curves, and for Ristretto255 if circl encodes different elements as different strings of 32 bytes. *)
Theorem C75_hash_reads : forall d,
  (forall decomp ci, FSReads (ModPGrp d) (P256Grp decomp ci)) /\ (forall decomp ci, FSReads (ModPGrp d) (P384Grp decomp ci)) /\
  (forall c ri, R255Contract c -> (forall P Q, rMarshalBinary c P = rMarshalBinary c Q -> P = Q) -> FSReads (ModPGrp d) (R255Grp c ri)).
Proof.
  intros d. split; [|split].
  - intros decomp ci. apply fs_reads_curve. apply C31_shipped_curves.
  - intros decomp ci. apply fs_reads_curve. apply C31_shipped_curves.
  - intros c ri [Hl _] Hi. apply (fs_reads_fixed d _ 32); assumption.
Qed.

(** ** The honest prover is such a program, and wins for every answer of the hash *)
(** One iteration of Prove on the draw [dr], as a program; [dflt] is its output when the iteration aborts. *)
Definition honest {GF GE} (fb : bytes -> Z) (x rp rq1 rq2 : Z) (pr : ProofParams GF GE) (dr : Draw) (dflt : SigmaProof GF GE) : Prog (SigmaProof GF GE) :=
  let k := dk dr mod gN GF in
  Ask (fsInput GF GE (gBase GF (dtp dr)) (vpCommit GF k (dtp dr) (vGFF pr)) (vpCommit GE k (dtq1 dr) (vGEC pr)) (vpCommit GE k (dtq2 dr) (vGEC pr)))
    (fun h => Ret (match vpIter GF GE (mkOracles (fun _ => h) fb) x rp rq1 rq2 pr dr with Ok (Some pf) => pf | _ => dflt end)).
(** run against any hash function it outputs what the iteration of Prove does *)
Theorem C75_honest_is_prove : forall GF GE f fb x rp rq1 rq2 (pr : ProofParams GF GE) dr dflt pf,
  gpN (vGFF pr) = Some (gN GF) -> gpN (vGEC pr) = Some (gN GE) ->
  vpIter GF GE (mkOracles f fb) x rp rq1 rq2 pr dr = Ok (Some pf) -> runF f (honest fb x rp rq1 rq2 pr dr dflt) = pf.
Proof.
  intros GF GE f fb x rp rq1 rq2 pr dr dflt pf HF HE H. unfold honest. cbn [runF].
  match goal with |- context [fsInput ?a ?b ?c ?d ?e ?f] => set (q := fsInput a b c d e f) end.
  assert (E : vpIter GF GE (mkOracles (fun _ => f q) fb) x rp rq1 rq2 pr dr = Ok (Some pf)).
  { apply vpIter_iff in H; try assumption. apply vpIter_iff; assumption. }
  rewrite E. reflexivity.
Qed.
Theorem C75_honest_wins : forall GF GE bg fb x rp rq1 rq2 (pr : ProofParams GF GE) comm dr dflt h,
  GrpLaws GF -> GrpLaws GE -> SetupParams pr -> vBc pr <= 263 -> 2 ^ (vBg pr - 1) <= gN GF -> TrueStatement pr comm x rp rq1 rq2 ->
  0 <= x < 2 ^ vBx pr -> 2 ^ (vBx pr + vBc pr) <= dk dr <= 2 ^ (vBg pr - 1) - 2 ^ (vBx pr + vBc pr) -> is_digest h ->
  exists pf, Wins itself (Accepted pr comm) bg fb (honest fb x rp rq1 rq2 pr dr dflt) [h] pf /\ sW pf = gBase GF (dtp dr).
Proof.
  intros GF GE bg fb x rp rq1 rq2 pr comm dr dflt h LF LE HS HBc HN HT Hx Hk Hh.
  destruct (setup_facts pr HS) as (HBx & HBc0 & HBg & _ & _ & HF & HE & _).
  destruct (@iter_returns GF GE (mkOracles (fun _ => h) fb) (fun _ => Hh) (N_pos LF) (N_pos LE) pr x rp rq1 rq2 dr HS HBc Hx Hk) as [pf Hi].
  exists pf. pose proof Hi as Hi'. apply vpIter_iff in Hi'; try assumption. destruct Hi' as (_ & c & Hc & Hr & Hpf).
  split; [|rewrite Hpf; reflexivity]. unfold Wins, honest. cbn [thenAsk exec lookup].
  set (q := fsInput GF GE _ _ _ _). rewrite Hi.
  assert (Hq : fsq GF GE (itself pf) = q) by (rewrite Hpf; reflexivity). rewrite Hq.
  assert (Hl : (if list_eq_dec Z.eq_dec q q then Some h else None) = Some h) by (destruct (list_eq_dec Z.eq_dec q q); [reflexivity|contradiction]).
  rewrite Hl. exists [(q, h)]. split; [reflexivity|]. split; [rewrite Hpf; reflexivity|].
  assert (Hi2 : vpIter GF GE (mkOracles (oracle bg [(q, h)]) fb) x rp rq1 rq2 pr dr = Ok (Some pf)).
  { apply vpIter_iff; try assumption. split; [pose proof (N_pos LF); pose proof (N_pos LE); lia|]. exists c. split; [|split; [exact Hr|exact Hpf]].
    rewrite <- Hc. unfold getFSChallenge. cbn [sha256]. fold q. unfold oracle. cbn [lookup]. rewrite Hl. reflexivity. }
  destruct (@iter_verify GF GE (mkOracles (oracle bg [(q, h)]) fb) LF LE pr x rp rq1 rq2 dr pf comm HF HE HT Hi2) as (r & Hv & Hrr).
  rewrite Hv. f_equal. apply Hrr. rewrite Z.mod_small; [reflexivity|].
  assert (0 < 2 ^ (vBx pr + vBc pr)) by (apply Z.pow_pos_nonneg; lia). lia.
Qed.

(** ** Concrete case: the groups Z/4099 and Z/4111 of PropVote.v; 8-bit challenges. All the 256^32 runs of the honest prover win, which
    are not few, so the theorem gives two of them and the vote. *)
Lemma tuples_nodup : forall A (B : list A) n, NoDup B -> NoDup (tuples B n).
Proof.
  intros A B n HB. induction n as [|n IH]; [constructor; [intros []|constructor]|]. cbn [tuples].
  assert (H : forall C, NoDup C -> NoDup (flat_map (fun k => map (cons k) (tuples B n)) C)).
  { induction C as [|k C IHC]; intros ND; [constructor|]. inversion_clear ND. cbn [flat_map].
    assert (Happ : forall (u w : list (list A)), NoDup u -> NoDup w -> (forall z, In z u -> ~ In z w) -> NoDup (u ++ w)).
    { clear. induction u as [|z u IH]; intros w Hu Hw Hd; [exact Hw|]. inversion_clear Hu. constructor.
      - intros Hin. apply in_app_or in Hin. destruct Hin as [Hin|Hin]; [contradiction|exact (Hd z (or_introl eq_refl) Hin)].
      - apply IH; try assumption. intros z' Hz. apply Hd. right. exact Hz. }
    apply Happ; [|apply IHC; assumption|].
    - apply FinFun.Injective_map_NoDup; [intros u w E; injection E as ->; reflexivity|exact IH].
    - intros z Hz Hz'. apply in_map_iff in Hz. destruct Hz as (u & <- & _). apply in_flat_map in Hz'. destruct Hz' as (k' & Hk' & Hz').
      apply in_map_iff in Hz'. destruct Hz' as (w & E & _). injection E as -> _. contradiction. }
  apply H. exact HB.
Qed.
Lemma tuples_elem : forall A (B : list A) n u, In u (tuples B n) -> length u = n /\ forall k, In k u -> In k B.
Proof.
  intros A B n. induction n as [|n IH]; cbn [tuples]; intros u Hu; [destruct Hu as [<-|[]]; split; [reflexivity|intros k []]|].
  apply in_flat_map in Hu. destruct Hu as (k & Hk & Hu). apply in_map_iff in Hu. destruct Hu as (w & <- & Hw). destruct (IH w Hw) as [Hl Hin].
  split; [cbn [length]; congruence|]. intros k' [<-|Hk']; [exact Hk|apply Hin; exact Hk'].
Qed.
Definition c75Runs : list (list bytes) := map (fun h => [h]) (bytesOf 32).
Definition c75Prover : Prog (SigmaProof toyF toyE) := honest os2ip 1 44 55 66 toyPr (mkDraw 2000 11 22 33) dummyProof.
Lemma c75_few : ~ Few 1 2 (vBc toyPr / 8) c75Runs.
Proof.
  unfold Few, c75Runs. rewrite map_length, bytesOf_len. change (vBc toyPr / 8) with 1. change (32 * Z.of_nat 1) with 32. change (Z.of_nat 32) with 32.
  change (Z.of_nat 1 * Z.of_nat 2) with 2. change (256 ^ 1) with 256. assert (0 < 256 ^ 32) by (apply Z.pow_pos_nonneg; lia). lia.
Qed.
Example C75_case : forall bg, (forall b, is_digest (bg b)) ->
  FSReads toyF toyE /\ WinningRuns itself (Accepted toyPr toyComm) bg os2ip c75Prover 1 2 c75Runs /\ ~ Few 1 2 (vBc toyPr / 8) c75Runs /\
  exists hs1 hs2 pf1 pf2, In hs1 c75Runs /\ In hs2 c75Runs /\
    Wins itself (Accepted toyPr toyComm) bg os2ip c75Prover hs1 pf1 /\ Wins itself (Accepted toyPr toyComm) bg os2ip c75Prover hs2 pf2 /\
    (Relation2 toyE (gGen toyE) (gpH (vGEC toyPr)) (relLow pf1 pf2 1 55) \/
     exists rp, Encrypts toyF (gpH (vGFF toyPr)) (cY toyComm) (cXp toyComm) 1 rp /\ Extracted pf1 pf2 rp).
Proof.
  intros bg Hbg. assert (HR : FSReads toyF toyE).
  { apply fs_reads_toy. intros a b H. injection H as H. apply zq_eq. exact H. }
  assert (HW : WinningRuns itself (Accepted toyPr toyComm) bg os2ip c75Prover 1 2 c75Runs).
  { split.
    - unfold c75Runs. apply FinFun.Injective_map_NoDup; [intros u w E; injection E as ->; reflexivity|]. apply tuples_nodup. unfold allBytes, zrange.
      apply FinFun.Injective_map_NoDup; [intros i j E; lia|apply seq_NoDup].
    - intros hs Hi. apply in_map_iff in Hi. destruct Hi as (h & <- & Hh). destruct (tuples_elem _ _ _ _ Hh) as [Hl Hin].
      assert (HD : is_digest h).
      { split; [exact Hl|]. apply Forall_forall. intros k Hk. specialize (Hin k Hk). unfold allBytes in Hin. apply in_map_iff in Hin. destruct Hin as (i & <- & Hi). apply in_seq in Hi. unfold is_byte. change (Z.to_nat 256) with 256%nat in Hi. lia. }
      split; [reflexivity|]. split; [constructor; [exact HD|constructor]|].
      destruct (C75_honest_wins toyF toyE bg os2ip 1 44 55 66 toyPr toyComm (mkDraw 2000 11 22 33) dummyProof h) as (pf & Hw & _);
        try (exact (lp_laws _ toyF_prime) || exact (lp_laws _ toyE_prime) || exact toyPr_setup || exact toyComm_true || exact HD); try (cbn; lia).
      exists pf. split; [exact Hw|]. cbn. lia. }
  split; [exact HR|]. split; [exact HW|]. split; [exact c75_few|].
  destruct (C75_knowledge toyF toyE bg os2ip c75Prover toyPr toyComm 1 55 1 2 c75Runs) as [H|H];
    try (exact (lp_laws _ toyF_prime) || exact (lp_prime _ toyF_prime) || exact (lp_laws _ toyE_prime) || exact toyPr_setup || assumption); try (cbn; lia).
  - apply toyComm_true.
  - contradiction (c75_few H).
Qed.

Print Assumptions C75_knowledge.
Print Assumptions C75_ballot.
Print Assumptions C75_server.
Print Assumptions C75_hash_reads.
Print Assumptions C75_honest_is_prove.
Print Assumptions C75_honest_wins.
