(** C55, C56, C58 and instances of C24, C26, C29 for the mod-p group: where random elements and generators come from, and
    the whole path of a ballot over the shipped groups. *)
From Verif Require Import GoBase Json GroupIface Vector BIP BP VoteProof ModP App ECJson P256k1 Curve Groups Marshal NumTh Alg BPProofs SetupProofs ModPProofs Hom Toy
  PropBP PropVote PropModP PropApp PropEC PropCurve PropJson PropTransport.
From Coq Require Import Znumtheory.

(** ** The members of a safe-prime group form a group of prime order *)
Theorem C29_prime_order : forall d (Hok : ModPOk d), SafePrime2 d -> GrpPrime (SubGrp d Hok).
Proof.
  intros d Hok HS. pose proof HS as (Hp & Hq & _ & _ & Hg). constructor.
  - apply SubLaws.
  - exact Hq.
  - intros H. apply (f_equal sv) in H. cbn in H. lia.
  - intros X. destruct (proj1 (C29_cyclic d Hok Hp Hq ltac:(lia) (sv X)) (sub_memb d X)) as (k & _ & Hk).
    exists k. apply sub_eq. rewrite Hk. reflexivity.
Qed.

(** ** C24, C26 over the mod-p group of the program *)
Theorem C24_binding_modp : forall d pk c1 c2 r1 r2 ct rnd1 rnd2, SafePrime2 d -> Member d pk ->
  encryptVote (ModPGrp d) c1 pk r1 = Ok (ct, rnd1) -> encryptVote (ModPGrp d) c2 pk r2 = Ok (ct, rnd2) ->
  c1 mod mpOrder d = c2 mod mpOrder d.
Proof.
  intros d pk c1 c2 r1 r2 ct rnd1 rnd2 HS Hpk H1 H2. pose proof (safe_ok d HS) as Hok. pose proof (SubHom d Hok) as HF.
  change pk with (sv (mks d pk Hpk)) in H1, H2. rewrite encryptVote_hom with (1 := HF) in H1, H2.
  destruct (encryptVote (SubGrp d Hok) c1 (mks d pk Hpk) r1) as [[a1 n1]| | |] eqn:E1; try discriminate.
  destruct (encryptVote (SubGrp d Hok) c2 (mks d pk Hpk) r2) as [[a2 n2]| | |] eqn:E2; try discriminate.
  cbn [res_map fst snd] in H1, H2. injection H1 as <- _. injection H2 as HU HV _.
  assert (a2 = a1) by (destruct a1, a2; cbn in *; f_equal; apply sub_eq; congruence). subst a2.
  exact (C24_binding _ _ _ _ _ _ _ _ _ (C29_prime_order d Hok HS) E1 E2).
Qed.

Theorem C26_last_candidate_modp : forall d GE HO nan64 pp cr ballot r, SafePrime2 d -> GrpLaws GE -> nanConv nan64 ->
  bitLen (gN GE) < 65536 -> gN GE <= mpOrder d -> 2000 < mpOrder d ->
  setup d GE nan64 = Ok pp -> CastDrawsOk pp cr -> castVote (ModPGrp d) GE HO pp cr = Ok ballot ->
  ~ Encrypts (ModPGrp d) (ppEGPK pp) (ctU (bdBallot ballot)) (ctV (bdBallot ballot)) 2000 r.
Proof.
  intros d GE HO nan64 pp cr ballot r HS0 LE Hn HB HQ H2000 HS [HD _] H. pose proof (safe_ok d HS0) as Hok. pose proof (l_order GE LE) as HN.
  assert (HQ2 : 2 ^ (bitLen (gN GE) - 1) <= mpOrder d).
  { unfold bitLen. replace (gN GE =? 0) with false by (symmetry; apply Z.eqb_neq; lia). rewrite Z.abs_eq by lia.
    replace (Z.log2 (gN GE) + 1 - 1) with (Z.log2 (gN GE)) by lia. pose proof (Z.log2_spec (gN GE) ltac:(lia)). lia. }
  destruct (setup_consistent d GE nan64 pp Hok Hn ltac:(lia) HB HQ2 HS) as (pp0 & -> & C & HR & HBx & HBc & Hmin & Hmax).
  rewrite (castVote_hom _ _ GE (emb d Hok) (emb_hom d Hok)) in H.
  destruct (castVote (SubGrp d Hok) GE HO pp0 cr) as [b0| | |] eqn:E0; try discriminate. cbn [res_map] in H. injection H as <-.
  cbn [mapBallot bdBallot mapCt ctU ctV mapPub ppEGPK ppMin ppMax] in *. intros [HU HV].
  apply (C26_last_candidate_never (SubGrp d Hok) GE HO pp0 cr b0 r (C29_prime_order d Hok HS0)); try assumption; try lia.
  - rewrite Hmax. exact H2000.
  - rewrite Hmax. pose proof (SubHom d Hok) as HF. split; apply sub_eq.
    + rewrite (hm_scale _ _ _ HF), (hm_gen _ _ _ HF). exact HU.
    + rewrite (hm_add _ _ _ HF), !(hm_scale _ _ _ HF), (hm_gen _ _ _ HF). exact HV.
Qed.

(** ** C55 *)
(** Random() of the mod-p group: every draw gives a member, every member comes from exactly one of the N draws *)
Theorem C55_random_modp : forall d, SafePrime2 d ->
  (forall r, exists X, mpRandom d r = Ok X /\ Member d X) /\
  (forall X, Member d X -> exists r, 0 <= r < mpOrder d /\ mpRandom d r = Ok X /\
     forall r', 0 <= r' < mpOrder d -> mpRandom d r' = Ok X -> r' = r).
Proof.
  intros d HS. pose proof (safe_ok d HS) as Hok. pose proof HS as (Hp & Hq & _ & _ & Hg). pose proof (okq d Hok) as Hq1.
  assert (HR : forall r, mpRandom d r = Ok (gBase (ModPGrp d) r)).
  { intros r. unfold mpRandom, randInt. replace (mpOrder d <=? 0) with false by (symmetry; apply Z.leb_gt; lia). cbn [bind].
    f_equal. change (gBase (ModPGrp d)) with (mpScale d 0 (mpGen d)). change (mpBaseScale d 1 r) with (mpScale d 1 (mpGen d) r).
    rewrite !(mpScale_pow d Hok) by (apply (memb_gen d Hok)). reflexivity. }
  split.
  - intros r. exists (gBase (ModPGrp d) r). split; [apply HR|]. apply (memb_scale d Hok). apply (memb_gen d Hok).
  - intros X HX. destruct (proj1 (C29_cyclic d Hok Hp Hq ltac:(lia) X) HX) as (k & Hk & ->). exists k. split; [exact Hk|].
    split; [apply HR|]. intros r' Hr' H. rewrite HR in H. injection H as H. apply C49_generator_order in H; [|exact HS].
    rewrite !Z.mod_small in H by assumption. exact H.
Qed.

(** ** C56 *)
(** the strings hashed to the generators H, U, g_0.., h_0.. of an n-bit parameter set *)
Definition genSeeds (n : nat) : list bytes :=
  str_bytes SEEDH :: str_bytes SEEDU :: map (seed_bytes "g") (seq 0 n) ++ map (seed_bytes "h") (seq 0 n).
Lemma seed_inj : forall t t' i j, length (str_bytes t) = length (str_bytes t') -> seed_bytes t i = seed_bytes t' j -> t = t' /\ i = j.
Proof.
  intros t t' i j Hl H. unfold seed_bytes in H. apply app_inv_head in H.
  destruct (app_len_inj _ _ _ _ Hl H) as [H1 H2]. apply str_bytes_inj in H1. apply dec_str_inj in H2. split; [exact H1|lia].
Qed.
Lemma seed_len : forall t i, length (str_bytes t) = 1%nat -> (36 < length (seed_bytes t i))%nat.
Proof. intros t i H. unfold seed_bytes. rewrite !app_length, H. change (length (str_bytes SEEDH)) with 36%nat. lia. Qed.
Theorem C56_seeds_distinct : forall n, NoDup (genSeeds n).
Proof.
  intros n. unfold genSeeds.
  assert (Hg : forall t s, In s (map (seed_bytes t) (seq 0 n)) -> length (str_bytes t) = 1%nat -> (36 < length s)%nat).
  { intros t s Hin Ht. apply in_map_iff in Hin. destruct Hin as (i & <- & _). apply seed_len. exact Ht. }
  assert (Hnd : forall t, NoDup (map (seed_bytes t) (seq 0 n))).
  { intros t. apply FinFun.Injective_map_NoDup; [|apply seq_NoDup]. intros i j H. apply (seed_inj t t i j eq_refl H). }
  constructor.
  { intros [H|H]; [vm_compute in H; discriminate|]. apply in_app_or in H.
    destruct H as [H|H]; apply Hg in H; try reflexivity; cbn in H; lia. }
  constructor.
  { intros H. apply in_app_or in H. destruct H as [H|H]; apply Hg in H; try reflexivity; cbn in H; lia. }
  generalize (Hnd "h"%string) (Hnd "g"%string).
  assert (Hx : forall s, In s (map (seed_bytes "g") (seq 0 n)) -> ~ In s (map (seed_bytes "h") (seq 0 n))).
  { intros s H1 H2. apply in_map_iff in H1. apply in_map_iff in H2. destruct H1 as (i & <- & _). destruct H2 as (j & H2 & _).
    destruct (seed_inj "h" "g" j i eq_refl H2) as [H _]. discriminate. }
  revert Hx. generalize (map (seed_bytes "h") (seq 0 n)) (map (seed_bytes "g") (seq 0 n)). intros l1 l2 Hx H1 H2.
  induction l2 as [|a l2 IH]; [exact H1|]. inversion H2; subst. cbn [app]. constructor.
  - intros H. apply in_app_or in H. destruct H as [H|H]; [contradiction|]. exact (Hx a (or_introl eq_refl) H).
  - apply IH; [|assumption]. intros s Hs. apply Hx. right. exact Hs.
Qed.

Lemma nodup_map_inj : forall {A B} (f : A -> B) l, NoDup l -> (NoDup (map f l) <-> forall s t, In s l -> In t l -> f s = f t -> s = t).
Proof.
  intros A B f. induction l as [|a l IH]; intros Hl; [split; [intros _ s t []|intros; constructor]|].
  inversion Hl; subst. cbn [map]. split.
  - intros Hn s t Hs Ht He. inversion Hn as [|? ? Hni Hn']; subst. destruct Hs as [<-|Hs], Ht as [<-|Ht]; try reflexivity.
    + exfalso. apply Hni. rewrite He. apply in_map. exact Ht.
    + exfalso. apply Hni. rewrite <- He. apply in_map. exact Hs.
    + apply (proj1 (IH ltac:(assumption)) Hn'); assumption.
  - intros Hi. constructor.
    + intros Hin. apply in_map_iff in Hin. destruct Hin as (b & Hb & Hin). assert (b = a) by (apply Hi; [right; exact Hin|left; reflexivity|exact Hb]).
      subst b. contradiction.
    + apply IH; [assumption|]. intros s t Hs Ht. apply Hi; right; assumption.
Qed.

(** the generators a verifier uses with params: H, the U of the inner-product argument, the g_i and the h_i *)
Theorem C56_generators_distinct : forall G nan64 b params u, nanConv nan64 -> is_int64 b = true ->
  Setup G nan64 b = Ok params -> gMap G (str_bytes SEEDU) = Ok u ->
  map Ok (bpH params :: u :: bpGg params ++ bpHh params) = map (gMap G) (genSeeds (Z.to_nat (bpN params))) /\
  (NoDup (bpH params :: u :: bpGg params ++ bpHh params) <->
   forall s t, In s (genSeeds (Z.to_nat (bpN params))) -> In t (genSeeds (Z.to_nat (bpN params))) -> gMap G s = gMap G t -> s = t).
Proof.
  intros G nan64 b params u Hn Hb HS Hu.
  assert (He : map Ok (bpH params :: u :: bpGg params ++ bpHh params) = map (gMap G) (genSeeds (Z.to_nat (bpN params)))).
  { destruct (Setup_ok G nan64 b params Hb HS) as [Hm|[_ (HN & _ & HH & Lg & Lh & Hnth)]].
    { subst b. exfalso. eapply Setup_min_not_ok; eassumption. }
    rewrite <- HN in *. unfold genSeeds. cbn [map]. rewrite HH, Hu, !map_app, !map_map. f_equal. f_equal.
    assert (Hl : forall (l : list (E G)) f, length l = Z.to_nat (bpN params) ->
       (forall i, (i < Z.to_nat (bpN params))%nat -> gMap G (f i) = Ok (nth i l (gId G))) -> map Ok l = map (fun i => gMap G (f i)) (seq 0 (Z.to_nat (bpN params)))).
    { intros l f Hl Hi. apply nth_ext with (d := Ok (gId G)) (d' := gMap G (f O)); [rewrite !map_length, seq_length; exact Hl|].
      intros i Hi'. rewrite map_length, Hl in Hi'. rewrite map_nth, (map_nth (fun i => gMap G (f i))), seq_nth by exact Hi'.
      symmetry. apply Hi. exact Hi'. }
    f_equal; apply Hl; try assumption; intros i Hi; apply Hnth; exact Hi. }
  split; [exact He|]. rewrite <- (nodup_map_inj (gMap G)) by apply C56_seeds_distinct. rewrite <- He.
  split.
  2:{ apply NoDup_map_inv. }
  - intros H. apply FinFun.Injective_map_NoDup; [|exact H]. intros x y Hxy. injection Hxy as ->. reflexivity.
Qed.

(** ** C58 *)
(** setup, castVote, JSON out, JSON in, verifyVote over a curve wrapped as in p256.go *)
Theorem C58_curve_path : forall d cv name n ci HO nan64 pp cr ballot,
  ModPOk d -> GoodCurve cv -> CirclOk cv n ci -> nanConv nan64 -> bitLen n < 65536 -> n <= mpOrder d ->
  setup d (CurveGrp cv name n ci) nan64 = Ok pp -> CastDrawsOk pp cr ->
  castVote (ModPGrp d) (CurveGrp cv name n ci) HO pp cr = Ok ballot ->
  exists j ballot', encBallotData (ModPGrp d) (CurveGrp cv name n ci) ballot = Ok j /\
    BallotDataUnmarshalJSON (ModPGrp d) (CurveGrp cv name n ci) (Some j) pp = Ok ballot' /\
    verifyVote (ModPGrp d) (CurveGrp cv name n ci) HO ballot' (ppRP pp) = Ok (true, 2%nat).
Proof.
  intros d cv name n ci HO nan64 pp cr ballot Hok GC CO Hn HB HQ HS HD HC.
  pose proof (C51_curve_group_contract cv name n ci CO) as LE.
  destruct (C35_cast_roundtrip d (CurveGrp cv name n ci) HO nan64 pp cr ballot) as (j & H1 & H2); try assumption.
  - apply C35_curve_elements. exact GC.
  - exists j, ballot. split; [exact H1|]. split; [exact H2|].
    apply (C25_end_to_end d (CurveGrp cv name n ci) HO nan64 pp cr ballot); assumption.
Qed.

(** ... and with the constants of main.go: the 3072-bit group of RFC 3526 and P-256 or P-384 (rfcDesc is what
    NewModPGroup returns, C49_rfc3526; its primality is not proved here) *)
Lemma rfc_facts : bitLen p256Order < 65536 /\ p256Order <= mpOrder rfcDesc /\ bitLen p384Order < 65536 /\ p384Order <= mpOrder rfcDesc /\
  bitLen r255Order < 65536 /\ r255Order <= mpOrder rfcDesc.
Proof. vm_compute. repeat split; try reflexivity; discriminate. Qed.
Theorem C58_p256 : forall decomp ci HO nan64, prime (mpField rfcDesc) -> prime (mpOrder rfcDesc) ->
  CirclOk (P256 decomp) p256Order ci -> nanConv nan64 ->
  exists pp, setup rfcDesc (P256Grp decomp ci) nan64 = Ok pp /\
    forall cr ballot, CastDrawsOk pp cr -> castVote (ModPGrp rfcDesc) (P256Grp decomp ci) HO pp cr = Ok ballot ->
    exists j ballot', encBallotData (ModPGrp rfcDesc) (P256Grp decomp ci) ballot = Ok j /\
      BallotDataUnmarshalJSON (ModPGrp rfcDesc) (P256Grp decomp ci) (Some j) pp = Ok ballot' /\
      verifyVote (ModPGrp rfcDesc) (P256Grp decomp ci) HO ballot' (ppRP pp) = Ok (true, 2%nat).
Proof.
  intros decomp ci HO nan64 Hp Hq CO Hn. pose proof C49_rfc3526 as (_ & _ & _ & _ & _ & _ & _ & HSP).
  pose proof (safe_ok _ (HSP Hp Hq)) as Hok. destruct rfc_facts as (F1 & F2 & _).
  destruct (C43_shipped_curves (P256Grp decomp ci) nan64) as (pp & HS & _).
  - intros s. eexists. reflexivity.
  - right. right. left. reflexivity.
  - exists pp. split; [exact HS|]. intros cr ballot HD HC.
    exact (C58_curve_path rfcDesc (P256 decomp) "P-256" p256Order ci HO nan64 pp cr ballot Hok (proj1 (C31_shipped_curves decomp)) CO Hn F1 F2 HS HD HC).
Qed.
Theorem C58_p384 : forall decomp ci HO nan64, prime (mpField rfcDesc) -> prime (mpOrder rfcDesc) ->
  CirclOk (P384 decomp) p384Order ci -> nanConv nan64 ->
  exists pp, setup rfcDesc (P384Grp decomp ci) nan64 = Ok pp /\
    forall cr ballot, CastDrawsOk pp cr -> castVote (ModPGrp rfcDesc) (P384Grp decomp ci) HO pp cr = Ok ballot ->
    exists j ballot', encBallotData (ModPGrp rfcDesc) (P384Grp decomp ci) ballot = Ok j /\
      BallotDataUnmarshalJSON (ModPGrp rfcDesc) (P384Grp decomp ci) (Some j) pp = Ok ballot' /\
      verifyVote (ModPGrp rfcDesc) (P384Grp decomp ci) HO ballot' (ppRP pp) = Ok (true, 2%nat).
Proof.
  intros decomp ci HO nan64 Hp Hq CO Hn. pose proof C49_rfc3526 as (_ & _ & _ & _ & _ & _ & _ & HSP).
  pose proof (safe_ok _ (HSP Hp Hq)) as Hok. destruct rfc_facts as (_ & _ & F1 & F2 & _).
  destruct (C43_shipped_curves (P384Grp decomp ci) nan64) as (pp & HS & _).
  - intros s. eexists. reflexivity.
  - right. right. right. left. reflexivity.
  - exists pp. split; [exact HS|]. intros cr ballot HD HC.
    exact (C58_curve_path rfcDesc (P384 decomp) "P-384" p384Order ci HO nan64 pp cr ballot Hok (proj2 (C31_shipped_curves decomp)) CO Hn F1 F2 HS HD HC).
Qed.
(** over ristretto255 the ballot is accepted as long as it is not sent as JSON (C53) *)
Theorem C58_ristretto : forall c ri HO nan64, prime (mpField rfcDesc) -> prime (mpOrder rfcDesc) ->
  RistrettoOk c r255Order ri -> nanConv nan64 ->
  exists pp, setup rfcDesc (R255Grp c ri) nan64 = Ok pp /\
    forall cr ballot, CastDrawsOk pp cr -> castVote (ModPGrp rfcDesc) (R255Grp c ri) HO pp cr = Ok ballot ->
      verifyVote (ModPGrp rfcDesc) (R255Grp c ri) HO ballot (ppRP pp) = Ok (true, 2%nat).
Proof.
  intros c ri HO nan64 Hp Hq RO Hn. pose proof C49_rfc3526 as (_ & _ & _ & _ & _ & _ & _ & HSP).
  pose proof (safe_ok _ (HSP Hp Hq)) as Hok. destruct rfc_facts as (_ & _ & _ & _ & F1 & F2).
  destruct (C43_shipped_curves (R255Grp c ri) nan64) as (pp & HS & _).
  - intros s. eexists. reflexivity.
  - right. left. reflexivity.
  - exists pp. split; [exact HS|]. intros cr ballot HD HC.
    exact (C25_end_to_end rfcDesc (R255Grp c ri) HO nan64 pp cr ballot Hok (C51_ristretto_contract c r255Order ri RO) Hn F1 F2 HS HD HC).
Qed.

(** ** Concrete cases *)
Example C29_prime_case : GrpPrime (SubGrp dToy (safe_ok _ dToy_safe)). Proof. apply C29_prime_order. apply dToy_safe. Qed.
Example C55_case : mpRandom dToy 13 = Ok 8192 /\ forall r, 0 <= r < 4211 -> mpRandom dToy r = Ok 8192 -> r = 13.
Proof.
  split; [vm_compute; reflexivity|]. intros r Hr H. destruct (C55_random_modp dToy dToy_safe) as [_ HX].
  destruct (HX 8192) as (r0 & _ & _ & Hu); [apply memb_check; [reflexivity|discriminate|vm_compute; reflexivity]|].
  rewrite (Hu r Hr H). symmetry. apply Hu; [cbn; lia|vm_compute; reflexivity].
Qed.
Example C56_case : map (fun s => (length s, last s 0)) (genSeeds 2) = [(36%nat, 72); (36%nat, 85); (38%nat, 48); (38%nat, 49); (38%nat, 48); (38%nat, 49)].
Proof. vm_compute. reflexivity. Qed.
(** the curve group of 13 points over F_7, with a multiple of 13 in the place of the order so that setup accepts it *)
Definition n7 : Z := 13 * 2 ^ 249.
Lemma ci7_ok_mult : CirclOk cv7 n7 ci7.
Proof.
  assert (H0 : log7 (ptId cv7) = 0) by reflexivity. assert (Hn : n7 = 2 ^ 249 * 13) by (unfold n7; ring).
  constructor.
  - rewrite Hn. reflexivity.
  - exact (co_comm _ _ _ ci7_ok).
  - exact (co_assoc _ _ _ ci7_ok).
  - exact (co_id _ _ _ ci7_ok).
  - exact (co_neg _ _ _ ci7_ok).
  - exact (co_mul0 _ _ _ ci7_ok).
  - intros. cbn [ci7 ciAdd ciMul]. apply log7_inj. rewrite !log7_pt7, Zplus_mod_idemp_l. f_equal. ring.
  - intros. cbn [ci7 ciAdd ciMul]. apply log7_inj. rewrite !log7_pt7, H0, Zplus_mod_idemp_l.
    replace ((n7 - 1) * log7 P + log7 P) with ((2 ^ 249 * log7 P) * 13) by (rewrite Hn; ring). apply Z_mod_mult.
  - intros. cbn [ci7 ciMulGen ciMul ciGen]. apply log7_inj. rewrite !log7_pt7, Zmult_mod_idemp_r. f_equal. ring.
Qed.
Opaque n7.
Example C58_case : exists pp ballot j ballot', setup dBig (CurveGrp cv7 "toy" n7 ci7) 0 = Ok pp /\
  castVote (ModPGrp dBig) (CurveGrp cv7 "toy" n7 ci7) oneHO pp bCR = Ok ballot /\
  encBallotData (ModPGrp dBig) (CurveGrp cv7 "toy" n7 ci7) ballot = Ok j /\
  BallotDataUnmarshalJSON (ModPGrp dBig) (CurveGrp cv7 "toy" n7 ci7) (Some j) pp = Ok ballot' /\
  verifyVote (ModPGrp dBig) (CurveGrp cv7 "toy" n7 ci7) oneHO ballot' (ppRP pp) = Ok (true, 2%nat).
Proof.
  set (GE := CurveGrp cv7 "toy" n7 ci7).
  assert (HN : gN GE = n7) by reflexivity.
  assert (HB : bitLen (gN GE) = 253) by (rewrite HN; vm_compute; reflexivity).
  assert (HQ : gN GE <= mpOrder dBig) by (rewrite HN; vm_compute; discriminate).
  pose proof (C51_curve_group_contract cv7 "toy" n7 ci7 ci7_ok_mult) as LE.
  destruct (C43_setup_outcome dBig GE 0) as [_ HS]; [intros s; eexists; reflexivity|rewrite HB; lia|rewrite HB; lia|].
  destruct (HS ltac:(rewrite HB; lia)) as (pp & HSe & Hmin & Hmax & _ & _ & _ & _ & HBg & _). rewrite HB in HBg.
  assert (HD : CastDrawsOk pp bCR).
  { split; [rewrite Hmin, Hmax; cbn [bCR cr_choice]; lia|]. intros dr Hin. unfold DrawOk. rewrite HBg. cbn [bCR cr_vp In] in Hin.
    destruct Hin as [<-|[<-|[]]]; cbn [dk dtp dtq1 dtq2]; repeat split; try discriminate; reflexivity. }
  assert (Hdig : Digest32 oneHO).
  { intros b. split; [reflexivity|]. apply Forall_forall. intros x Hx. cbn in Hx. unfold is_byte.
    repeat (destruct Hx as [<-|Hx]; [lia|]). destruct Hx. }
  assert (HI : forall A B, HashBP GE oneHO A B = (1, 1)) by reflexivity.
  destruct (C25_cast_returns dBig GE oneHO 0 pp bCR dBig_ok LE) as (b & Hb); try assumption.
  - right. reflexivity.
  - rewrite HB. reflexivity.
  - reflexivity.
  - intros A B. rewrite HI. cbn [fst]. apply Z.gcd_1_l.
  - eexists. reflexivity.
  - exists (mkDraw (2 ^ 241) 11 22 33). split; [right; left; reflexivity|]. rewrite HBg. cbn [dk]. split; discriminate.
  - destruct (C58_curve_path dBig cv7 "toy" n7 ci7 oneHO 0 pp bCR b dBig_ok (proj1 C51_case) ci7_ok_mult) as (j & b' & H1 & H2 & H3); try assumption.
    + right. reflexivity.
    + change (bitLen n7) with (bitLen (gN GE)). rewrite HB. reflexivity.
    + exists pp, b, j, b'. repeat split; assumption.
Qed.

Print Assumptions C29_prime_order.
Print Assumptions C24_binding_modp.
Print Assumptions C26_last_candidate_modp.
Print Assumptions C55_random_modp.
Print Assumptions C56_seeds_distinct.
Print Assumptions C56_generators_distinct.
Print Assumptions C58_curve_path.
Print Assumptions C58_p256.
Print Assumptions C58_p384.
Print Assumptions C58_ristretto.
