(** C01-C05, C07, C09-C11, C47: Bulletproof range proofs. *)
From Verif Require Import GoBase Json GroupIface Vector BIP BP NumTh Alg VectorProofs BIPProofs BPProofs SetupProofs Toy.
From Coq Require Import Znumtheory.

(** Multiples of the generator of a prime-order group are equal iff the scalars are congruent. *)
Lemma gen_inj : forall G, GrpPrime G -> forall a b, gScale G (gGen G) a = gScale G (gGen G) b <-> a mod gN G = b mod gN G.
Proof.
  intros G HP a b. pose proof (lp_laws G HP) as HL. split.
  - intros H. destruct (Z.eq_dec ((a - b) mod gN G) 0) as [Hz|Hz].
    + apply (proj1 (eqm_mod (gN G) a b)). apply eqm_sub0; [apply (N_pos HL)|]. apply eqm_mod0. exact Hz.
    + exfalso. apply (lp_gen G HP).
      pose proof (prime_gcd1 _ _ (lp_prime G HP) Hz) as Hg.
      destruct (modInverse_ex _ _ (l_order G HL) Hg) as (i & _ & _ & Hi). apply eqm_inv1 in Hi; [|apply (l_order G HL)].
      rewrite <- (scale_1 HL (gGen G)), <- (scale_eqm HL _ _ _ Hi), <- (scale_mul HL).
      replace (gScale G (gGen G) (a - b)) with (gId G); [apply (scale_id HL)|].
      unfold Z.sub. rewrite (scale_plus HL), (scale_opp HL), H. symmetry. apply (l_neg G HL).
  - intros H. apply (scale_eqm HL). constructor. exact H.
Qed.

(** Every challenge derived by HashBP is invertible modulo the group order (for a prime order: non-zero).
    With SHA-256 this fails only with negligible probability; the code panics when it fails. *)
Definition ChallengesInvertible (G : Grp) (HO : Oracles) : Prop :=
  forall A B, Z.gcd (fst (HashBP G HO A B)) (gN G) = 1.

(** C01 *)
Theorem C01_completeness : forall G HO nan64 b params v rnd pf gamma,
  GrpLaws G -> nanConv nan64 -> is_int64 b = true -> Setup G nan64 b = Ok params ->
  0 <= v < 2 ^ bpN params ->
  Prove G HO v params rnd = Ok (pf, gamma) ->
  Verify G HO pf = Ok true.
Proof.
  intros G HO nan64 b params v rnd pf gamma HL Hn Hb HS Hv HP.
  destruct (Setup_tab G nan64 b params Hn Hb HS) as (k & g & h & _ & _ & Hp). rewrite Hp in HP, Hv. cbn [bpN] in Hv.
  apply (honest_run G HO HL) in HP. destruct HP as (r & Hr & Hiff). rewrite Hr. f_equal. apply Hiff.
  destruct (HashBP G HO (pA pf) (pS pf)) as [y z]. rewrite (Z.mod_small v) by exact Hv. reflexivity.
Qed.

(** ... and Prove does return, for every integer secret *)
Theorem C01_prove_returns : forall G HO nan64 b params v rnd,
  GrpLaws G -> nanConv nan64 -> is_int64 b = true -> Setup G nan64 b = Ok params ->
  ChallengesInvertible G HO -> (exists u, gMap G (str_bytes SEEDU) = Ok u) ->
  exists pf gamma, Prove G HO v params rnd = Ok (pf, gamma).
Proof.
  intros G HO nan64 b params v rnd HL Hn Hb HS Hinv Hu.
  destruct (Setup_tab G nan64 b params Hn Hb HS) as (k & g & h & _ & _ & Hp). rewrite Hp.
  rewrite (Prove_vec G HO _ _ _ (tab (2 ^ k) (fun i => (v / 2 ^ Z.of_nat i) mod 2))) by first [exact (N_pos HL)|apply Decompose_tab].
  rewrite computeAR_tab by (intros; apply bit_01). cbn [nil_slice].
  apply (ProveVec_total G HO HL); assumption.
Qed.

(** C02: exact answer of Verify on the output of Prove, for every integer secret *)
Theorem C02_out_of_range : forall G HO nan64 b params v rnd pf gamma,
  GrpPrime G -> nanConv nan64 -> is_int64 b = true -> Setup G nan64 b = Ok params ->
  Prove G HO v params rnd = Ok (pf, gamma) ->
  let z := snd (HashBP G HO (pA pf) (pS pf)) in
  z mod gN G <> 0 ->
  (v mod gN G = (v mod 2 ^ bpN params) mod gN G -> Verify G HO pf = Ok true) /\
  (v mod gN G <> (v mod 2 ^ bpN params) mod gN G -> Verify G HO pf = Ok false).
Proof.
  intros G HO nan64 b params v rnd pf gamma HG Hn Hb HS HP z Hz. pose proof (lp_laws G HG) as HL.
  destruct (Setup_tab G nan64 b params Hn Hb HS) as (k & g & h & _ & _ & Hp). rewrite Hp in HP |- *. cbn [bpN].
  apply (honest_run G HO HL) in HP. destruct HP as (r & Hr & Hiff). subst z.
  destruct (HashBP G HO (pA pf) (pS pf)) as [y z]. cbn [snd] in Hz. rewrite Hr.
  rewrite (gen_inj G HG) in Hiff.
  split; intros Hc.
  - f_equal. apply Hiff. apply (proj1 (eqm_mod _ _ _)). apply (eqm_intro (gN G)) in Hc. rewrite Hc at 1. reflexivity.
  - f_equal. destruct r; [|reflexivity]. exfalso. apply Hc. apply (proj1 (eqm_mod _ _ _)).
    pose proof (prime_gcd1 _ _ (lp_prime G HG) Hz) as Hg. pose proof (l_order G HL) as HN.
    destruct Hiff as [Hi _]. specialize (Hi eq_refl). apply (eqm_intro (gN G)) in Hi.
    apply (eqm_cancel _ z); [assumption|assumption|]. apply (eqm_cancel _ z); [assumption|assumption|].
    rewrite !Z.mul_assoc. exact Hi.
Qed.

(** The claim as listed: a secret outside the range (and not congruent to its low bits) is rejected. *)
Corollary C02_rejects : forall G HO nan64 b params v rnd pf gamma,
  GrpPrime G -> nanConv nan64 -> is_int64 b = true -> Setup G nan64 b = Ok params ->
  2 ^ bpN params <= v < gN G ->
  Prove G HO v params rnd = Ok (pf, gamma) ->
  snd (HashBP G HO (pA pf) (pS pf)) mod gN G <> 0 ->
  Verify G HO pf = Ok false.
Proof.
  intros G HO nan64 b params v rnd pf gamma HG Hn Hb HS Hv HP Hz.
  destruct (C02_out_of_range G HO nan64 b params v rnd pf gamma HG Hn Hb HS HP Hz) as [_ H]. apply H.
  destruct (Setup_tab G nan64 b params Hn Hb HS) as (k & g & h & _ & _ & Hp). rewrite Hp in Hv |- *. cbn [bpN] in Hv |- *.
  assert (H2 : 0 < 2 ^ Z.of_nat (2 ^ k)) by (apply Z.pow_pos_nonneg; lia).
  pose proof (Z.mod_pos_bound v _ H2). rewrite (Z.mod_small v (gN G)) by lia.
  rewrite (Z.mod_small (v mod _) (gN G)) by lia. lia.
Qed.

(** C03 *)
Theorem C03_commitment_opens : forall G HO params v rnd pf gamma,
  Prove G HO v params rnd = Ok (pf, gamma) ->
  gamma = r_gamma rnd /\ pV pf = gAdd G (gBase G v) (gScale G (bpH params) gamma).
Proof.
  intros G HO params v rnd pf gamma HP. unfold Prove, randInt in HP. destruct (gN G <=? 0); cbn [bind] in HP; [discriminate|].
  repeat match type of HP with
  | bind ?e _ = Ok _ => destruct e; cbn [bind] in HP; try discriminate
  | (let '(_, _) := ?e in _) = Ok _ => destruct e
  end.
  injection HP as <- <-. split; reflexivity.
Qed.

(** C04. [n] generators on each side; (y,z), x are the transcript's challenges; [hp j] is y^-j h_j. *)
Theorem C04_verify_equations : forall G HO (pf : BulletProof G) n Gt H Gg Hh tp tx mu ok,
  GrpLaws G ->
  pParams pf = mkBPParams (Z.of_nat n) Gt H Gg Hh -> (0 < n)%nat -> length Gg = n -> length Hh = n ->
  pTprime pf = Some tp -> pTaux pf = Some tx -> pMu pf = Some mu ->
  ipVerify G HO (pIPP pf) = Ok ok ->
  let x := fst (HashBP G HO (pT1 pf) (pT2 pf)) in
  let y := fst (HashBP G HO (pA pf) (pS pf)) in
  let z := snd (HashBP G HO (pA pf) (pS pf)) in
  let delta := (z - z * z) * zsum n (fun i => y ^ Z.of_nat i) - z * z * z * zsum n (fun i => 2 ^ Z.of_nat i) in
  forall yinv, (y * yinv) mod gN G = 1 ->
  let g j := nth j Gg (gId G) in
  let hp j := gScale G (nth j Hh (gId G)) (yinv ^ Z.of_nat j) in
  exists r, Verify G HO pf = Ok r /\
  (r = true <->
     gAdd G (gBase G tp) (gScale G H tx) =
       gAdd G (gAdd G (gAdd G (gScale G (pV pf) (z * z)) (gBase G delta)) (gScale G (pT1 pf) x)) (gScale G (pT2 pf) (x * x)) /\
     gAdd G (gScale G H mu) (ipP (pIPP pf)) =
       gAdd G (gAdd G (gAdd G (pA pf) (gScale G (pS pf) x)) (gsum (G:=G) n (fun j => gScale G (g j) (- z))))
              (gsum (G:=G) n (fun j => gScale G (hp j) (z * y ^ Z.of_nat j + z * z * 2 ^ Z.of_nat j))) /\
     ok = true).
Proof.
  intros G HO pf n Gt H Gg Hh tp tx mu ok HL Hpar Hn HlG HlH Htp Htx Hmu Hok x y z delta yinv Hyi g hp.
  rewrite (tab_nth' (gId G) Gg n HlG), (tab_nth' (gId G) Hh n HlH) in Hpar. fold g in Hpar.
  destruct n as [|n]; [lia|].
  pose proof (l_order G HL) as HN.
  destruct (modInverse_ex y (gN G) HN (inv_gcd1 _ _ _ HN Hyi)) as (i & Hi & _ & Hyi').
  assert (Hii : eqm (gN G) i yinv) by (constructor; apply (modInverse_unique y); assumption).
  assert (Hu : updateGenerators G (tab (S n) (fun j => nth j Hh (gId G))) y (Z.of_nat (S n)) = Ok (tab (S n) hp)).
  { rewrite (updateGenerators_tab G HL _ _ _ i Hi). f_equal. apply tab_ext. intros j _. unfold hp.
    apply (scale_eqm HL). apply eqm_pow. exact Hii. }
  destruct (Verify_eqs G HO HL (S n) Gt H g (fun j => nth j Hh (gId G)) hp pf y z tp tx mu) as (b65 & b67 & HV & H65 & H67);
    try assumption.
  { unfold y, z. destruct (HashBP G HO (pA pf) (pS pf)); reflexivity. }
  rewrite Hok in HV. cbn [bind] in HV. eexists. split; [exact HV|].
  rewrite !andb_true_iff, H65, H67. fold x. unfold eq65, eq67, deltaZ. tauto.
Qed.

(** C07 *)
Theorem C07_proof_size : forall G HO nan64 b params v rnd pf gamma,
  GrpLaws G -> nanConv nan64 -> is_int64 b = true -> Setup G nan64 b = Ok params ->
  Prove G HO v params rnd = Ok (pf, gamma) ->
  2 ^ Z.of_nat (length (ipL (pIPP pf))) = bpN params /\ length (ipR (pIPP pf)) = length (ipL (pIPP pf)).
Proof.
  intros G HO nan64 b params v rnd pf gamma HL Hn Hb HS HP.
  destruct (Setup_tab G nan64 b params Hn Hb HS) as (k & g & h & _ & _ & Hp). rewrite Hp in HP |- *. cbn [bpN].
  rewrite (Prove_vec G HO _ _ _ (tab (2 ^ k) (fun i => (v / 2 ^ Z.of_nat i) mod 2))) in HP by first [exact (N_pos HL)|apply Decompose_tab].
  rewrite computeAR_tab in HP by (intros; apply bit_01). cbn [nil_slice] in HP.
  apply (honest_vec G HO HL) in HP. destruct HP as (_ & _ & _ & _ & -> & -> & _). split; [|reflexivity].
  rewrite Nat2Z.inj_pow. reflexivity.
Qed.

(** C10 *)
Theorem C10_challenges_equal : forall G HO A B, fst (HashBP G HO A B) = snd (HashBP G HO A B).
Proof. reflexivity. Qed.

(** C11 *)
Theorem C11_setup_accepts : forall G nan64 b,
  (forall s, exists X, gMap G s = Ok X) -> is_int64 b = true ->
  (In b [2; 4; 16; 256; 65536; 2 ^ 32] ->
     exists p, Setup G nan64 b = Ok p /\ 2 ^ bpN p = b /\ bpG p = gBase G 1 /\
               Z.of_nat (length (bpGg p)) = bpN p /\ Z.of_nat (length (bpHh p)) = bpN p) /\
  (~ In b [2; 4; 16; 256; 65536; 2 ^ 32] -> b <> - 2 ^ 63 -> Setup G nan64 b = Err) /\
  (b = - 2 ^ 63 -> (nan64 = - 2 ^ 63 -> Setup G nan64 b = Panic) /\ (nan64 = 0 -> Setup G nan64 b = Err)).
Proof.
  intros G nan64 b Hmap Hb. repeat split.
  - intros Hin. destruct (Setup_total G Hmap nan64 b Hin) as [p Hp]. exists p. split; [exact Hp|].
    destruct (Setup_ok G nan64 b p Hb Hp) as [Hm|[_ (HN & HG & _ & Hg & Hh & _)]].
    + exfalso. subst b. cbn in Hin. unfold min_int64 in Hin. lia.
    + rewrite HN, Hg, Hh. cbn in Hin. destruct Hin as [<-|[<-|[<-|[<-|[<-|[<-|[]]]]]]]; repeat split; exact HG.
  - intros Hin Hm. apply Setup_err; assumption.
  - intros ->. subst b. apply (Setup_min G Hmap).
  - intros ->. subst b. apply (Setup_min G Hmap).
Qed.

(** With a non-invertible y and at least two generators Verify panics (nil ModInverse dereferenced). *)
Theorem C04_noninvertible_panics : forall G HO (pf : BulletProof G) n Gt H Gg Hh,
  GrpLaws G ->
  pParams pf = mkBPParams (Z.of_nat n) Gt H Gg Hh -> (2 <= n)%nat -> length Hh = n ->
  Z.gcd (fst (HashBP G HO (pA pf) (pS pf))) (gN G) <> 1 ->
  Verify G HO pf = Panic.
Proof.
  intros G HO pf n Gt H Gg Hh HL Hpar Hn HlH Hy. unfold Verify. rewrite Hpar. cbn [bpN bpHh].
  destruct (HashBP G HO (pA pf) (pS pf)) as [y z]. cbn [fst] in Hy. apply modInverse_None in Hy.
  destruct n as [|[|n]]; [lia|lia|]. destruct Hh as [|h0 [|h1 Hh]]; try discriminate.
  unfold updateGenerators. rewrite make_len_nat. cbn [bind]. rewrite Hy. reflexivity.
Qed.

(** C09: generators of the inner-product argument are taken from the proof. For the verifier's own
    Bulletproof parameters, any commitment V = v G + gamma H (any integer v), and any A, S (so the
    attacker can retry until the challenge is invertible) there is an accepted proof whose
    inner-product argument has a single made-up generator and no rounds. *)
Definition inverse (a m : Z) : Z := match modInverse a m with Some i => i | None => 0 end.
(** what the forger computes: group operations, the hash and one modular inverse; no discrete logarithm *)
Definition forgeOneGen (G : Grp) (HO : Oracles) (p : BPParams G) (v gamma : Z) (A S : E G) : BulletProof G :=
  let n := length (bpGg p) in
  let '(y, z) := HashBP G HO A S in
  let x := fst (HashBP G HO (gId G) (gId G)) in
  let hp j := gScale G (nth j (bpHh p) (gId G)) (inverse y (gN G) ^ Z.of_nat j) in
  let P := gAdd G (gAdd G (gAdd G A (gScale G S x)) (gsum (G:=G) n (fun j => gScale G (nth j (bpGg p) (gId G)) (- z))))
                (gsum (G:=G) n (fun j => gScale G (hp j) (z * y ^ Z.of_nat j + z * z * 2 ^ Z.of_nat j))) in
  mkBulletProof (gAdd G (gBase G v) (gScale G (bpH p) gamma)) A S (gId G) (gId G) (Some (z * z * gamma)) (Some 0)
    (Some (z * z * v + deltaZ n y z)) (mkIPProof P (Some 0) (Some 1) (Some 0) [] [] (mkIPParams [P] [Some (gId G)] (gId G))) p.
Theorem C09_refuted : forall G HO n Gt H Gg Hh v gamma A S,
  GrpLaws G -> (0 < n)%nat -> length Gg = n -> length Hh = n ->
  Z.gcd (fst (HashBP G HO A S)) (gN G) = 1 ->
  exists pf : BulletProof G, pf = forgeOneGen G HO (mkBPParams (Z.of_nat n) Gt H Gg Hh) v gamma A S /\
    pParams pf = mkBPParams (Z.of_nat n) Gt H Gg Hh /\
    pA pf = A /\ pS pf = S /\
    pV pf = gAdd G (gBase G v) (gScale G H gamma) /\
    length (ipGg (ipParams (pIPP pf))) = 1%nat /\ (ipL (pIPP pf) = [] /\ ipR (pIPP pf) = [] /\ exists X, ipHh (ipParams (pIPP pf)) = [Some X]) /\
    Verify G HO pf = Ok true.
Proof.
  intros G HO n Gt H Gg Hh v gamma A S HL Hn HlG HlH Hy.
  set (F := forgeOneGen G HO _ v gamma A S). assert (HF : F = forgeOneGen G HO (mkBPParams (Z.of_nat n) Gt H Gg Hh) v gamma A S) by reflexivity. clearbody F.
  unfold forgeOneGen in HF. cbn [bpGg bpHh bpH] in HF. rewrite HlG in HF.
  set (g := fun j => nth j Gg (gId G)). set (h := fun j => nth j Hh (gId G)).
  destruct n as [|n]; [lia|]. destruct (HashBP G HO A S) as [y z] eqn:Hyz. cbn [fst] in Hy.
  destruct (modInverse_ex _ _ (l_order G HL) Hy) as (i & Hi & _). unfold inverse in HF. rewrite Hi in HF.
  set (hp := fun j => gScale G (h j) (i ^ Z.of_nat j)).
  set (x := fst (HashBP G HO (gId G) (gId G))).
  set (P := gAdd G (gAdd G (gAdd G A (gScale G S x)) (gsum (G:=G) (Datatypes.S n) (fun j => gScale G (g j) (- z))))
                 (gsum (G:=G) (Datatypes.S n) (fun j => gScale G (hp j) (z * y ^ Z.of_nat j + z * z * 2 ^ Z.of_nat j)))).
  set (ipf := mkIPProof P (Some 0) (Some 1) (Some 0) [] [] (mkIPParams [P] [Some (gId G)] (gId G))).
  set (pf := mkBulletProof (gAdd G (gBase G v) (gScale G H gamma)) A S (gId G) (gId G) (Some (z * z * gamma)) (Some 0)
               (Some (z * z * v + deltaZ (Datatypes.S n) y z)) ipf
               (mkBPParams (Z.of_nat (Datatypes.S n)) Gt H (tab (Datatypes.S n) g) (tab (Datatypes.S n) h))).
  assert (EG : Gg = tab (Datatypes.S n) g) by (apply (tab_nth' (gId G)); exact HlG).
  assert (EH : Hh = tab (Datatypes.S n) h) by (apply (tab_nth' (gId G)); exact HlH).
  exists pf. split; [rewrite HF; unfold pf; rewrite <- EG, <- EH; reflexivity|]. rewrite EG, EH.
  do 5 (split; [reflexivity|]). split; [split; [reflexivity|]; split; [reflexivity|eexists; reflexivity]|].
  assert (Hip : ipVerify G HO ipf = Ok true).
  { unfold ipVerify, ipf. cbn. f_equal. apply (l_isid G HL). apply (negadd_0_iff HL).
    glin HL. }
  destruct (Verify_eqs G HO HL (Datatypes.S n) Gt H g h hp pf y z (z * z * v + deltaZ (Datatypes.S n) y z) (z * z * gamma) 0)
    as (b65 & b67 & HV & H65 & H67); try reflexivity.
  - exact Hyz.
  - apply (updateGenerators_tab G HL). exact Hi.
  - rewrite HV. cbn [pf pIPP]. rewrite Hip. cbn [bind].
    replace b65 with true; [replace b67 with true; [reflexivity|]|]; symmetry.
    + apply H67. unfold eq67. cbn [pf pIPP ipf ipP pA pS pT1 pT2]. fold x. fold P. glin HL.
    + apply H65. unfold eq65. cbn [pf pV pT1 pT2]. glin HL.
Qed.

(** C05: even with the honest inner-product generators, Verify does not tie t' to the inner product.
    For every integer v there is an accepted proof for the commitment v G + gamma H; only Cc <> t'. *)
Definition forgeAnyValue (G : Grp) (HO : Oracles) (k : nat) (p : BPParams G) (u : E G) (v gamma : Z) : res (BulletProof G) :=
  let n := length (bpGg p) in
  let '(y, z) := HashBP G HO (gId G) (gId G) in
  let hp := fun j => gScale G (nth j (bpHh p) (gId G)) (inverse y (gN G) ^ Z.of_nat j) in
  let l := fun _ : nat => - z in
  let r := fun j : nat => z * y ^ Z.of_nat j + z * z * 2 ^ Z.of_nat j in
  let P := gAdd G (gsum (G:=G) n (fun j => gScale G (nth j (bpGg p) (gId G)) (l j))) (gsum (G:=G) n (fun j => gScale G (hp j) (r j))) in
  ipf <- proveInnerProduct G HO k (tab n l) (tab n r) P (Some (zsum n (fun j => l j * r j))) (mkIPParams (bpGg p) (map Some (tab n hp)) u) ;;
  Ok (mkBulletProof (gAdd G (gBase G v) (gScale G (bpH p) gamma)) (gId G) (gId G) (gId G) (gId G)
        (Some (z * z * gamma)) (Some 0) (Some (z * z * v + deltaZ n y z)) ipf p).
Theorem C05_refuted : forall G HO k Gt H Gg Hh u v gamma,
  GrpLaws G -> ChallengesInvertible G HO ->
  let n := (2 ^ k)%nat in
  length Gg = n -> length Hh = n ->
  exists (pf : BulletProof G) hp, forgeAnyValue G HO k (mkBPParams (Z.of_nat n) Gt H Gg Hh) u v gamma = Ok pf /\
    pParams pf = mkBPParams (Z.of_nat n) Gt H Gg Hh /\
    pV pf = gAdd G (gBase G v) (gScale G H gamma) /\
    updateGenerators G Hh (fst (HashBP G HO (pA pf) (pS pf))) (Z.of_nat n) = Ok hp /\
    ipParams (pIPP pf) = mkIPParams Gg (map Some hp) u /\
    Verify G HO pf = Ok true.
Proof.
  intros G HO k Gt H Gg Hh u v gamma HL Hinv n HlG HlH.
  set (F := forgeAnyValue G HO k _ u v gamma).
  assert (HF : F = forgeAnyValue G HO k (mkBPParams (Z.of_nat n) Gt H Gg Hh) u v gamma) by reflexivity. clearbody F.
  unfold forgeAnyValue in HF. cbn [bpGg bpHh bpH] in HF. rewrite HlG in HF.
  set (g := fun j => nth j Gg (gId G)). set (h := fun j => nth j Hh (gId G)).
  assert (Hn : exists n', n = S n').
  { exists (pred n). unfold n. pose proof (Nat.pow_nonzero 2 k). lia. }
  destruct Hn as [n' Hn'].
  pose proof (Hinv (gId G) (gId G)) as Hy.
  destruct (HashBP G HO (gId G) (gId G)) as [y z] eqn:Hyz. cbn [fst] in Hy.
  destruct (modInverse_ex _ _ (l_order G HL) Hy) as (i & Hi & _). unfold inverse in HF. rewrite Hi in HF.
  set (hp := fun j => gScale G (h j) (i ^ Z.of_nat j)).
  assert (EG : Gg = tab n g) by (apply (tab_nth' (gId G)); exact HlG).
  assert (EH : Hh = tab n h) by (apply (tab_nth' (gId G)); exact HlH).
  assert (Hhp : updateGenerators G (tab n h) y (Z.of_nat n) = Ok (tab n hp))
    by (rewrite Hn'; apply (updateGenerators_tab G HL); exact Hi).
  set (l := fun _ : nat => - z). set (r := fun j : nat => z * y ^ Z.of_nat j + z * z * 2 ^ Z.of_nat j).
  set (P := gAdd G (gsum (G:=G) n (fun j => gScale G (g j) (- z)))
                 (gsum (G:=G) n (fun j => gScale G (hp j) (z * y ^ Z.of_nat j + z * z * 2 ^ Z.of_nat j)))).
  destruct (ip_total G HO HL Hinv k k l r g hp u P (zsum n (fun j => l j * r j)) (le_n k)) as [ipf Hipf].
  destruct (ip_honest G HO HL k k l r g hp u P _ ipf Hipf)
    as (c' & xi & res & Hc' & HipP & HipC & HipPar & _ & _ & _ & Hiv & Hres).
  injection Hc' as <-.
  assert (res = true). { apply Hres. unfold ipCom. fold n. rewrite (gsum_add HL). reflexivity. } subst res.
  set (pf := mkBulletProof (gAdd G (gBase G v) (gScale G H gamma)) (gId G) (gId G) (gId G) (gId G)
               (Some (z * z * gamma)) (Some 0) (Some (z * z * v + deltaZ n y z)) ipf
               (mkBPParams (Z.of_nat n) Gt H (tab n g) (tab n h))).
  exists pf, (tab n hp). split.
  { transitivity (p <- proveInnerProduct G HO k (tab n l) (tab n r) P (Some (zsum n (fun j => l j * r j))) (mkIPParams (tab n g) (map Some (tab n hp)) u) ;;
      Ok (mkBulletProof (gAdd G (gBase G v) (gScale G H gamma)) (gId G) (gId G) (gId G) (gId G) (Some (z * z * gamma)) (Some 0)
        (Some (z * z * v + deltaZ n y z)) p (mkBPParams (Z.of_nat n) Gt H Gg Hh))).
    - rewrite HF, <- EG. reflexivity.
    - fold n in Hipf. rewrite Hipf. cbn [bind]. unfold pf. rewrite <- EG, <- EH. reflexivity. }
  rewrite EG, EH. cbn [pf pParams pV pA pS pIPP]. rewrite Hyz. repeat split; try assumption.
  destruct (Verify_eqs G HO HL n Gt H g h hp pf y z (z * z * v + deltaZ n y z) (z * z * gamma) 0)
    as (b65 & b67 & HV & H65 & H67); try reflexivity; try assumption.
  change (Verify G HO pf = Ok true). rewrite HV. cbn [pf pIPP]. rewrite Hiv. cbn [bind].
  replace b65 with true; [replace b67 with true; [reflexivity|]|]; symmetry.
  - apply H67. unfold eq67. cbn [pf pIPP ipP pA pS pT1 pT2]. rewrite HipP. unfold P. glin HL.
  - apply H65. unfold eq65. cbn [pf pV pT1 pT2]. glin HL.
Qed.

(** C47: the equal challenges y = z suffice to break soundness, with honest generators and Cc = t'. *)
Definition aL47 (t : Z) (i : nat) : Z := if Nat.eqb i 3 then t else 0.
Definition aR47 (t : Z) (i : nat) : Z := if Nat.eqb i 3 then t - 1 else if Nat.eqb i 2 then t * (t - 1) - 1 else -1.

Lemma t0_47 : forall n z t, (4 <= n)%nat ->
  t0Z n z z (aL47 t) (aR47 t) = z * z * (8 * t) + deltaZ n z z.
Proof.
  intros n z t Hn. replace n with (4 + (n - 4))%nat by lia. generalize (n - 4)%nat as m. intros m.
  unfold t0Z, deltaZ. rewrite !zsum_app. cbn [zsum].
  change (Z.of_nat 0) with 0. change (Z.of_nat 1) with 1. change (Z.of_nat 2) with 2. change (Z.of_nat 3) with 3.
  assert (Hs : zsum m (fun i => (aL47 t (4 + i) - z) * (z ^ Z.of_nat (4 + i) * (aR47 t (4 + i) + z) + z * z * 2 ^ Z.of_nat (4 + i)))
          = (z - z * z) * zsum m (fun i => z ^ Z.of_nat (4 + i)) - z * z * z * zsum m (fun i => 2 ^ Z.of_nat (4 + i))).
  { rewrite <- !zsum_mul_l, <- zsum_sub. apply zsum_ext. intros i _. unfold aL47, aR47. cbn [Nat.eqb Nat.add]. ring. }
  rewrite Hs. unfold aL47, aR47. cbn [Nat.eqb]. ring.
Qed.

Definition forgeEqual (G : Grp) (HO : Oracles) (p : BPParams G) (v gamma : Z) : res (BulletProof G) :=
  let n := length (bpGg p) in
  let t := v * (inverse 2 (gN G) * inverse 2 (gN G) * inverse 2 (gN G)) in
  '(pf, _) <- ProveVec G HO v (tab n (aL47 t)) (tab n (aR47 t)) p (mkBPRand gamma 0 (fun _ => 0) (fun _ => 0) 0 0 0) ;;
  Ok pf.
Theorem C47_equal_challenges_unsound : forall G HO k Gt H Gg Hh v gamma,
  GrpLaws G -> ChallengesInvertible G HO -> Z.odd (gN G) = true ->
  (exists u, gMap G (str_bytes SEEDU) = Ok u) ->
  let n := (2 ^ k)%nat in
  (4 <= n)%nat -> length Gg = n -> length Hh = n ->
  exists (pf : BulletProof G) hp u, forgeEqual G HO (mkBPParams (Z.of_nat n) Gt H Gg Hh) v gamma = Ok pf /\
    pParams pf = mkBPParams (Z.of_nat n) Gt H Gg Hh /\
    pV pf = gAdd G (gBase G v) (gScale G H gamma) /\
    updateGenerators G Hh (fst (HashBP G HO (pA pf) (pS pf))) (Z.of_nat n) = Ok hp /\
    gMap G (str_bytes SEEDU) = Ok u /\
    ipParams (pIPP pf) = mkIPParams Gg (map Some hp) u /\
    ipCc (pIPP pf) = pTprime pf /\
    Verify G HO pf = Ok true.
Proof.
  intros G HO k Gt H Gg Hh v gamma HL Hinv Hodd Hu n Hn4 HlG HlH. unfold forgeEqual. cbn [bpGg]. rewrite HlG.
  rewrite (tab_nth' (gId G) Gg n HlG), (tab_nth' (gId G) Hh n HlH).
  set (g := fun j => nth j Gg (gId G)). set (h := fun j => nth j Hh (gId G)).
  pose proof (l_order G HL) as HN.
  assert (Hg2 : Z.gcd 2 (gN G) = 1).
  { apply Zgcd_1_rel_prime. apply prime_rel_prime; [exact prime_2|].
    intros Hd. apply Z.mod_divide in Hd; [|lia]. rewrite Zmod_odd, Hodd in Hd. discriminate. }
  destruct (modInverse_ex _ _ HN Hg2) as (hf & Hf & _ & Hhf). apply eqm_inv1 in Hhf; [|assumption]. unfold inverse. rewrite Hf.
  set (t := v * (hf * hf * hf)).
  assert (Ht : eqm (gN G) (8 * t) v).
  { unfold t. replace (8 * (v * (hf * hf * hf))) with (v * ((2 * hf) * (2 * hf) * (2 * hf))) by ring. rewrite Hhf.
    apply eqm_of_eq. ring. }
  set (rnd := mkBPRand gamma 0 (fun _ => 0) (fun _ => 0) 0 0 0).
  destruct (ProveVec_total G HO HL Hinv Hu k Gt H g h v (aL47 t) (aR47 t) rnd) as (pf & gam & HP). fold n in HP. fold t rnd. rewrite HP. cbn [bind].
  apply (honest_vec G HO HL) in HP.
  destruct HP as (Hpar & Hgam & HV & Hcc & _ & _ & _ & _ & (hp & u & Hgg & Hhh & Hhp & Hu' & Huu) & r & Hr & Hiff).
  exists pf, hp, u. split; [reflexivity|]. split; [exact Hpar|]. split; [rewrite HV, Hgam; reflexivity|].
  split; [exact Hhp|]. split; [exact Hu'|]. split.
  { destruct (ipParams (pIPP pf)) as [q1 q2 q3]. cbn [ipGg ipHh ipUu] in Hgg, Hhh, Huu. subst q1 q2 q3. reflexivity. }
  split; [congruence|]. rewrite Hr. f_equal. apply Hiff.
  pose proof (C10_challenges_equal G HO (pA pf) (pS pf)) as Hyz.
  destruct (HashBP G HO (pA pf) (pS pf)) as [y z]. cbn [fst snd] in Hyz. subst y.
  rewrite t0_47 by assumption. apply (scale_eqm HL). rewrite Ht. reflexivity.
Qed.

(** ** Concrete cases meeting the hypotheses (group Z/101, a total "hash" with invertible challenges) *)
Lemma toy_challenges : ChallengesInvertible toy toyO.
Proof.
  intros A B. unfold HashBP. cbn [fst sha256 toyO os2ip fold_left].
  match goal with |- context [?a mod 100] => set (w := a mod 100); assert (0 <= w < 100) by (apply Z.mod_pos_bound; lia) end.
  clearbody w. apply prime_gcd1; [apply (lp_prime toy toy_prime)|]. change (gN toy) with 101. rewrite Z.mod_small; lia.
Qed.
Lemma toy_map_total : forall s, exists X, gMap toy s = Ok X.
Proof. intros. eexists. reflexivity. Qed.
Definition toyRnd : BPRand := mkBPRand 17 23 (fun i => 3 + Z.of_nat i) (fun i => 50 - Z.of_nat i) 77 5 91.
Definition toyParams : BPParams toy :=
  match Setup toy 0 16 with Ok p => p | _ => mkBPParams 0 (gId toy) (gId toy) [] [] end.
Lemma toyParams_ok : Setup toy 0 16 = Ok toyParams. Proof. reflexivity. Qed.

(** Parameters for secrets in [0,16); proofs of 11 accepted; of 77 (out of range) rejected; z <> 0. *)
Definition toyRun (v : Z) : res (bool * nat * bool) :=
  '(pf, _) <- Prove toy toyO v toyParams toyRnd ;;
  ok <- Verify toy toyO pf ;;
  Ok (ok, length (ipL (pIPP pf)), negb (snd (HashBP toy toyO (pA pf) (pS pf)) mod 101 =? 0)).
Example C01_case : toyRun 11 = Ok (true, 2%nat, true). Proof. vm_compute. reflexivity. Qed.
Example C02_case : toyRun 77 = Ok (false, 2%nat, true). Proof. vm_compute. reflexivity. Qed.
Definition toyPf : BulletProof toy := match Prove toy toyO 11 toyParams toyRnd with Ok (p, _) => p | _ =>
  mkBulletProof (gId toy) (gId toy) (gId toy) (gId toy) (gId toy) None None None
    (mkIPProof (gId toy) None None None [] [] (mkIPParams [] [] (gId toy))) toyParams end.
Example C04_case : length (bpGg (pParams toyPf)) = 4%nat /\ ipVerify toy toyO (pIPP toyPf) = Ok true /\
  exists yinv, (fst (HashBP toy toyO (pA toyPf) (pS toyPf)) * yinv) mod gN toy = 1.
Proof. split; [|split]; [reflexivity|vm_compute; reflexivity|].
  destruct (modInverse_ex _ _ (l_order toy toy_laws) (toy_challenges (pA toyPf) (pS toyPf))) as (i & _ & _ & Hi). exists i. exact Hi. Qed.
(** The three forgeries for V committing to 77, far out of [0,16): once with the parameters of Setup, once with H the identity, where
    V = 77 G has no other opening at all. *)
Definition bareParams : BPParams toy := mkBPParams (bpN toyParams) (bpG toyParams) (gId toy) (bpGg toyParams) (bpHh toyParams).
Example C05_C09_C47_case :
  map (fun p => Verify toy toyO (forgeOneGen toy toyO p 77 5 (gId toy) (gId toy))) [toyParams; bareParams] = [Ok true; Ok true] /\
  map (fun p => pf <- forgeAnyValue toy toyO 2 p (gGen toy) 77 5 ;; Verify toy toyO pf) [toyParams; bareParams] = [Ok true; Ok true] /\
  map (fun p => pf <- forgeEqual toy toyO p 77 5 ;; Verify toy toyO pf) [toyParams; bareParams] = [Ok true; Ok true].
Proof. split; [|split]; vm_compute; reflexivity. Qed.
Example C11_case : Setup toy 0 16 = Ok toyParams /\ Setup toy 0 8 = Err /\ Setup toy 0 15 = Err /\ Setup toy (- 2 ^ 63) (- 2 ^ 63) = Panic.
Proof. repeat split. Qed.

Print Assumptions C01_completeness.
Print Assumptions C01_prove_returns.
Print Assumptions C02_out_of_range.
Print Assumptions C02_rejects.
Print Assumptions C03_commitment_opens.
Print Assumptions C04_verify_equations.
Print Assumptions C04_noninvertible_panics.
Print Assumptions C05_refuted.
Print Assumptions C07_proof_size.
Print Assumptions C09_refuted.
Print Assumptions C10_challenges_equal.
Print Assumptions C11_setup_accepts.
Print Assumptions C47_equal_challenges_unsound.
