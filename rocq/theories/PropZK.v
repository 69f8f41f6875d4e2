(** Perfect hiding of range proofs (C40): whatever the hash functions are, a proof for one secret is
    exactly as likely to come out of Prove as a proof for any other secret of the range.  The two
    sets of randomness that lead to a given proof are in bijection. *)
From Verif Require Import GoBase Json GroupIface Vector BIP BP NumTh Alg VectorProofs BIPProofs BPProofs SetupProofs Toy PropBP.

(** Specification: every scalar the prover draws lies in [0, N); only the first n entries of the two
    vectors sL, sR are ever drawn (bp.go 142-143), so randomness is compared up to n. *)
Definition RndInRange (m : Z) (n : nat) (r : BPRand) : Prop :=
  0 <= r_gamma r < m /\ 0 <= r_alpha r < m /\ 0 <= r_rho r < m /\ 0 <= r_tau1 r < m /\ 0 <= r_tau2 r < m /\
  (forall i, (i < n)%nat -> 0 <= r_sL r i < m) /\ (forall i, (i < n)%nat -> 0 <= r_sR r i < m).
Definition RndEq (n : nat) (r s : BPRand) : Prop :=
  r_gamma r = r_gamma s /\ r_alpha r = r_alpha s /\ r_rho r = r_rho s /\ r_tau1 r = r_tau1 s /\ r_tau2 r = r_tau2 s /\
  (forall i, (i < n)%nat -> r_sL r i = r_sL s i) /\ (forall i, (i < n)%nat -> r_sR r i = r_sR s i).
(** the challenge a proof fixes with its second pair of commitments is not zero *)
Definition ChallengeNonzero (G : Grp) (HO : Oracles) (pf : BulletProof G) : Prop :=
  fst (HashBP G HO (pT1 pf) (pT2 pf)) mod gN G <> 0.

Section ZK.
Context (G : Grp) (HO : Oracles) (HG : GrpPrime G).
Let HL : GrpLaws G := lp_laws G HG.
Local Notation E := (E G).
Local Notation N := (gN G).
Local Notation gs := (gsum (G:=G)).

(** ** Discrete logarithms to a base other than the identity, found by trying every exponent *)
Definition dlog (H X : E) : Z :=
  match find (fun k => gEq G (gScale G H k) X) (map Z.of_nat (seq 0 (Z.to_nat N))) with Some k => k | None => 0 end.

Lemma base_inj : forall H, H <> gId G -> forall a b, gScale G H a = gScale G H b -> eqm N a b.
Proof.
  intros H HH a b He. destruct (lp_cyclic G HG H) as [h Hh].
  assert (Hh0 : h mod N <> 0).
  { intros Hz. apply HH. rewrite Hh, <- (scale_mod HL), Hz. apply (l_scale0 G HL). }
  pose proof (prime_gcd1 _ _ (lp_prime G HG) Hh0) as Hg.
  rewrite Hh, !(scale_mul HL) in He. apply (gen_inj G HG) in He.
  apply (eqm_cancel _ h); [apply (l_order G HL)|exact Hg|]. apply eqm_mod. exact He.
Qed.

Lemma dlog_spec : forall H, H <> gId G -> forall X, 0 <= dlog H X < N /\ gScale G H (dlog H X) = X.
Proof.
  intros H HH X. pose proof (l_order G HL) as HN. unfold dlog.
  destruct (find _ _) as [k|] eqn:Hf.
  - apply find_some in Hf. destruct Hf as [Hin He]. apply in_map_iff in Hin. destruct Hin as (j & <- & Hj).
    apply in_seq in Hj. split; [lia|]. apply (l_eq G HL). exact He.
  - exfalso. destruct (lp_cyclic G HG H) as [h Hh]. destruct (lp_cyclic G HG X) as [x Hx].
    assert (Hh0 : h mod N <> 0).
    { intros Hz. apply HH. rewrite Hh, <- (scale_mod HL), Hz. apply (l_scale0 G HL). }
    pose proof (prime_gcd1 _ _ (lp_prime G HG) Hh0) as Hg.
    destruct (modInverse_ex _ _ HN Hg) as (i & _ & _ & Hi). apply eqm_inv1 in Hi; [|assumption].
    pose proof (Z.mod_pos_bound (i * x) N ltac:(lia)) as Hb.
    pose proof (find_none _ _ Hf ((i * x) mod N)) as Hn. cbv beta in Hn.
    assert (Hin : In ((i * x) mod N) (map Z.of_nat (seq 0 (Z.to_nat N)))).
    { apply in_map_iff. exists (Z.to_nat ((i * x) mod N)). split; [lia|]. apply in_seq. lia. }
    specialize (Hn Hin). assert (Ht : gEq G (gScale G H ((i * x) mod N)) X = true).
    { apply (l_eq G HL). rewrite (scale_mod HL), Hh, (scale_mul HL), Hx. apply (scale_eqm HL).
      rewrite Z.mul_assoc, Hi. apply eqm_of_eq. ring. }
    congruence.
Qed.

(** ** What the prover computes, in closed form *)
Definition Com (n : nat) (H : E) (g h : nat -> E) (a : Z) (l r : nat -> Z) : E :=
  gAdd G (gScale G H a) (gs n (fun i => gAdd G (gScale G (g i) (l i)) (gScale G (h i) (r i)))).
Definition t1Z (n : nat) (y z : Z) (aL aR sL sR : nat -> Z) : Z :=
  zsum n (fun j => sL j * (y ^ Z.of_nat j * (z + aR j) + 2 ^ Z.of_nat j * (z * z)) + (aL j - z) * (y ^ Z.of_nat j * sR j)).
Definition t2Z (n : nat) (y : Z) (sL sR : nat -> Z) : Z := zsum n (fun j => sL j * (y ^ Z.of_nat j * sR j)).
Definition lF (z x : Z) (aL sL : nat -> Z) (i : nat) : Z := (aL i - z + sL i * x) mod N.
Definition rF (y z x : Z) (aR sR : nat -> Z) (i : nat) : Z :=
  (y ^ Z.of_nat i * (z + aR i + sR i * x) + 2 ^ Z.of_nat i * (z * z)) mod N.
Definition finish (params : BPParams G) (V A S T1 T2 : E) (y tauX mu gamma : Z) (bl br : list Z) : res (BulletProof G * Z) :=
  let th := ScalarProduct G bl br in
  hp <- updateGenerators G (bpHh params) y (bpN params) ;;
  ipp <- setupInnerProduct G (Some (bpGg params)) (Some hp) (bpN params) ;;
  commit <- commitInnerProduct G (bpGg params) hp bl br ;;
  ipProof <- proveInnerProduct G HO (length bl) bl br commit th ipp ;;
  Ok (mkBulletProof V A S T1 T2 (Some tauX) (Some mu) th ipProof params, gamma).

Lemma ProveVec_explicit : forall n Gt H g h v aL aR rnd,
  let params := mkBPParams (Z.of_nat n) Gt H (tab n g) (tab n h) in
  ProveVec G HO v (tab n aL) (tab n aR) params rnd =
  let A := Com n H g h (r_alpha rnd) aL aR in
  let S := Com n H g h (r_rho rnd) (r_sL rnd) (r_sR rnd) in
  let y := fst (HashBP G HO A S) in let z := snd (HashBP G HO A S) in
  let T1 := PedersenCommit G (t1Z n y z aL aR (r_sL rnd) (r_sR rnd)) (r_tau1 rnd) H in
  let T2 := PedersenCommit G (t2Z n y (r_sL rnd) (r_sR rnd)) (r_tau2 rnd) H in
  let x := fst (HashBP G HO T1 T2) in
  finish params (PedersenCommit G v (r_gamma rnd) H) A S T1 T2 y
    ((r_tau2 rnd * (x * x) + r_tau1 rnd * x + z * z * r_gamma rnd) mod N) ((r_rho rnd * x + r_alpha rnd) mod N)
    (r_gamma rnd) (tab n (lF z x aL (r_sL rnd))) (tab n (rF y z x aR (r_sR rnd))).
Proof.
  intros n Gt H g h v aL aR rnd params.
  remember (ProveVec G HO v (tab n aL) (tab n aR) params rnd) as R eqn:HP.
  unfold ProveVec in HP. cbn [params bpN bpH bpGg bpHh] in HP.
  rewrite (commitVector_tab G HL) in HP. cbn [bind] in HP.
  unfold sampleRandomVector in HP. rewrite make_len_nat in HP. cbn [bind] in HP.
  change (map (r_sL rnd) (seq 0 n)) with (tab n (r_sL rnd)) in HP.
  change (map (r_sR rnd) (seq 0 n)) with (tab n (r_sR rnd)) in HP.
  rewrite (commitVector_tab G HL) in HP. cbn [bind] in HP.
  fold (Com n H g h (r_alpha rnd) aL aR) in HP. fold (Com n H g h (r_rho rnd) (r_sL rnd) (r_sR rnd)) in HP.
  cbv zeta. set (A := Com n H g h (r_alpha rnd) aL aR) in *. set (S := Com n H g h (r_rho rnd) (r_sL rnd) (r_sR rnd)) in *.
  destruct (HashBP G HO A S) as [y z] eqn:Hyz. cbn [fst snd].
  vnorm0 HL HP.
  match type of HP with context [PedersenCommit G (?t mod N) (r_tau1 rnd) H] => set (t1 := t mod N) in * end.
  match type of HP with context [PedersenCommit G ?t (r_tau2 rnd) H] => set (t2 := t) in * end.
  assert (H1 : eqm N t1 (t1Z n y z aL aR (r_sL rnd) (r_sR rnd))).
  { unfold t1, t1Z. rewrite zsum_add, !Zmod_eqm. apply Zplus_eqm; apply zsum_eqm; intros j _; modn; apply eqm_of_eq; ring. }
  assert (H2 : eqm N t2 (t2Z n y (r_sL rnd) (r_sR rnd))).
  { unfold t2, t2Z. rewrite !Zmod_eqm. apply zsum_eqm; intros j _; modn; apply eqm_of_eq; ring. }
  assert (HPC : forall a b c, eqm N a b -> PedersenCommit G a c H = PedersenCommit G b c H).
  { intros a b c Hab. unfold PedersenCommit. rewrite !(base_scale HL), (scale_eqm HL _ _ _ Hab). reflexivity. }
  rewrite (HPC _ _ _ H1), (HPC _ _ _ H2) in HP. clearbody t1 t2. clear H1 H2 HPC t1 t2.
  set (T1 := PedersenCommit G _ (r_tau1 rnd) H) in *.
  set (T2 := PedersenCommit G _ (r_tau2 rnd) H) in *.
  set (x := fst (HashBP G HO T1 T2)) in *.
  match type of HP with context [ScalarProduct G (tab n ?f) (tab n ?f')] => set (l := f) in *; set (r := f') in * end.
  assert (Hl : tab n l = tab n (lF z x aL (r_sL rnd))).
  { apply tab_ext. intros i _. unfold l, lF. apply (proj1 (eqm_mod _ _ _)). modn. apply eqm_of_eq. ring. }
  assert (Hr : tab n r = tab n (rF y z x aR (r_sR rnd))).
  { apply tab_ext. intros i _. unfold r, rF. apply (proj1 (eqm_mod _ _ _)). modn. apply eqm_of_eq. ring. }
  rewrite Hl, Hr in HP. rewrite HP. reflexivity.
Qed.

(** ** The map between the two sets of randomness *)
Section Shift.
Context (n : nat) (H : E) (g h : nat -> E) (HH : H <> gId G).
Local Notation bitsL v := (fun i => (v / 2 ^ Z.of_nat i) mod 2).
Local Notation bitsR v := (fun i => (v / 2 ^ Z.of_nat i) mod 2 - 1).

Definition inv0 (x : Z) : Z := match modInverse x N with Some i => i | None => 0 end.
Definition gdiff (v v' : Z) : E :=
  gs n (fun i => gAdd G (gScale G (g i) (bitsL v i - bitsL v' i)) (gScale G (h i) (bitsR v i - bitsR v' i))).
Definition shiftVec (xi : Z) (a a' s : nat -> Z) : nat -> Z := fun i => (s i + (a i - a' i) * xi) mod N.

Definition shift (v v' : Z) (rnd : BPRand) : BPRand :=
  let A := Com n H g h (r_alpha rnd) (bitsL v) (bitsR v) in
  let S := Com n H g h (r_rho rnd) (r_sL rnd) (r_sR rnd) in
  let y := fst (HashBP G HO A S) in let z := snd (HashBP G HO A S) in
  let t1 := t1Z n y z (bitsL v) (bitsR v) (r_sL rnd) (r_sR rnd) in
  let t2 := t2Z n y (r_sL rnd) (r_sR rnd) in
  let T1 := PedersenCommit G t1 (r_tau1 rnd) H in
  let T2 := PedersenCommit G t2 (r_tau2 rnd) H in
  let x := fst (HashBP G HO T1 T2) in
  let xi := inv0 x in
  let c := dlog H (gdiff v v') in
  let sL' := shiftVec xi (bitsL v) (bitsL v') (r_sL rnd) in
  let sR' := shiftVec xi (bitsR v) (bitsR v') (r_sR rnd) in
  let t1' := t1Z n y z (bitsL v') (bitsR v') sL' sR' in
  let t2' := t2Z n y sL' sR' in
  mkBPRand ((r_gamma rnd + dlog H (gScale G (gGen G) (v - v'))) mod N) ((r_alpha rnd + c) mod N) sL' sR'
    ((r_rho rnd - xi * c) mod N)
    ((r_tau1 rnd + dlog H (gScale G (gGen G) (t1 - t1'))) mod N)
    ((r_tau2 rnd + dlog H (gScale G (gGen G) (t2 - t2'))) mod N).

Lemma dlog_gen : forall w, gGen G = gScale G H w -> forall a, eqm N (dlog H (gScale G (gGen G) a)) (w * a).
Proof.
  intros w Hw a. apply (base_inj H HH). rewrite (proj2 (dlog_spec H HH _)), Hw, (scale_mul HL). reflexivity.
Qed.
Lemma dlog_opp : forall X Y, gAdd G X Y = gId G -> eqm N (dlog H X + dlog H Y) 0.
Proof.
  intros X Y HXY. apply (base_inj H HH). rewrite (scale_plus HL), !(proj2 (dlog_spec H HH _)), HXY.
  symmetry. apply (l_scale0 G HL).
Qed.

Lemma pc_shift : forall a b t, PedersenCommit G b ((t + dlog H (gScale G (gGen G) (a - b))) mod N) H = PedersenCommit G a t H.
Proof.
  intros. unfold PedersenCommit. rewrite !(base_scale HL), (scale_mod HL), (scale_plus HL), (proj2 (dlog_spec H HH _)).
  glin HL.
Qed.

Lemma inner_products : forall y z x aL aR sL sR,
  eqm N (zsum n (fun j => lF z x aL sL j * rF y z x aR sR j))
        (t0Z n y z aL aR + t1Z n y z aL aR sL sR * x + t2Z n y sL sR * (x * x)).
Proof.
  intros. transitivity (zsum n (fun j => (aL j - z + sL j * x) *
                    (y ^ Z.of_nat j * (aR j + z + sR j * x) + z * z * 2 ^ Z.of_nat j))).
  { apply zsum_eqm. intros j _. unfold lF, rF. modn. apply eqm_of_eq. ring. }
  apply eqm_of_eq. unfold t0Z, t1Z, t2Z. rewrite <- !zsum_mul, <- !zsum_add. apply zsum_ext. intros j _. ring.
Qed.

Lemma shift_run : forall Gt v v' rnd,
  0 <= v < 2 ^ Z.of_nat n -> 0 <= v' < 2 ^ Z.of_nat n ->
  let params := mkBPParams (Z.of_nat n) Gt H (tab n g) (tab n h) in
  let A := Com n H g h (r_alpha rnd) (bitsL v) (bitsR v) in
  let S := Com n H g h (r_rho rnd) (r_sL rnd) (r_sR rnd) in
  let y := fst (HashBP G HO A S) in let z := snd (HashBP G HO A S) in
  let T1 := PedersenCommit G (t1Z n y z (bitsL v) (bitsR v) (r_sL rnd) (r_sR rnd)) (r_tau1 rnd) H in
  let T2 := PedersenCommit G (t2Z n y (r_sL rnd) (r_sR rnd)) (r_tau2 rnd) H in
  let x := fst (HashBP G HO T1 T2) in
  x mod N <> 0 ->
  let rnd' := shift v v' rnd in
  RndInRange N n rnd' /\
  Com n H g h (r_alpha rnd') (bitsL v') (bitsR v') = A /\
  Com n H g h (r_rho rnd') (r_sL rnd') (r_sR rnd') = S /\
  PedersenCommit G (t1Z n y z (bitsL v') (bitsR v') (r_sL rnd') (r_sR rnd')) (r_tau1 rnd') H = T1 /\
  PedersenCommit G (t2Z n y (r_sL rnd') (r_sR rnd')) (r_tau2 rnd') H = T2 /\
  PedersenCommit G v' (r_gamma rnd') H = PedersenCommit G v (r_gamma rnd) H /\
  (r_tau2 rnd' * (x * x) + r_tau1 rnd' * x + z * z * r_gamma rnd') mod N =
  (r_tau2 rnd * (x * x) + r_tau1 rnd * x + z * z * r_gamma rnd) mod N /\
  (r_rho rnd' * x + r_alpha rnd') mod N = (r_rho rnd * x + r_alpha rnd) mod N /\
  tab n (lF z x (bitsL v') (r_sL rnd')) = tab n (lF z x (bitsL v) (r_sL rnd)) /\
  tab n (rF y z x (bitsR v') (r_sR rnd')) = tab n (rF y z x (bitsR v) (r_sR rnd)) /\
  (RndInRange N n rnd -> RndEq n (shift v' v rnd') rnd).
Proof.
  intros Gt v v' rnd Hv Hv' params A S y z T1 T2 x Hx rnd'. pose proof (l_order G HL) as HN.
  assert (Hm : forall a, 0 <= a mod N < N) by (intros; apply Z.mod_pos_bound; lia).
  pose proof (prime_gcd1 _ _ (lp_prime G HG) Hx) as Hgx.
  destruct (modInverse_ex _ _ HN Hgx) as (i & Hi0 & Hi1 & Hi).
  apply eqm_inv1 in Hi; [|assumption].
  assert (Hinv : inv0 x = i) by (unfold inv0; rewrite Hi0; reflexivity).
  assert (HA : Com n H g h (r_alpha rnd') (bitsL v') (bitsR v') = A).
  { unfold A, Com, rnd', shift. cbn [r_alpha]. rewrite (scale_mod HL), (scale_plus HL), (proj2 (dlog_spec H HH _)).
    unfold gdiff. rewrite <- (l_assoc G HL). f_equal. rewrite <- (gsum_add HL). apply gsum_ext. intros j _. glin HL. }
  assert (HS : Com n H g h (r_rho rnd') (r_sL rnd') (r_sR rnd') = S).
  { unfold S, Com, rnd', shift. cbn [r_rho r_sL r_sR]. fold A S y z T1 T2 x. rewrite Hinv.
    rewrite (scale_mod HL).
    replace (r_rho rnd - i * dlog H (gdiff v v')) with (r_rho rnd + dlog H (gdiff v v') * (- i)) by ring.
    rewrite (scale_plus HL), <- (scale_mul HL), (proj2 (dlog_spec H HH _)).
    rewrite <- (l_assoc G HL). f_equal. unfold gdiff. rewrite <- (gsum_scale HL), <- (gsum_add HL). apply gsum_ext. intros j _.
    unfold shiftVec. rewrite !(scale_mod HL). glin HL. }
  assert (HT1 : PedersenCommit G (t1Z n y z (bitsL v') (bitsR v') (r_sL rnd') (r_sR rnd')) (r_tau1 rnd') H = T1).
  { unfold rnd', shift. cbn [r_tau1 r_sL r_sR]. fold A S y z T1 T2 x. apply pc_shift. }
  assert (HT2 : PedersenCommit G (t2Z n y (r_sL rnd') (r_sR rnd')) (r_tau2 rnd') H = T2).
  { unfold rnd', shift. cbn [r_tau2 r_sL r_sR]. fold A S y z T1 T2 x. apply pc_shift. }
  assert (Hl : forall j, eqm N (bitsL v' j - z + r_sL rnd' j * x) (bitsL v j - z + r_sL rnd j * x)).
  { intros j. unfold rnd', shift. cbn [r_sL]. fold A S y z T1 T2 x. rewrite Hinv. unfold shiftVec. modn.
    set (a := bitsL v j). set (a' := bitsL v' j). cbv beta in a, a'. fold a a'.
    replace (a' - z + (r_sL rnd j + (a - a') * i) * x) with (a' - z + r_sL rnd j * x + (a - a') * (x * i)) by ring.
    rewrite Hi. apply eqm_of_eq. ring. }
  assert (Hr : forall j, eqm N (y ^ Z.of_nat j * (z + bitsR v' j + r_sR rnd' j * x) + 2 ^ Z.of_nat j * (z * z))
                                (y ^ Z.of_nat j * (z + bitsR v j + r_sR rnd j * x) + 2 ^ Z.of_nat j * (z * z))).
  { intros j. unfold rnd', shift. cbn [r_sR]. fold A S y z T1 T2 x. rewrite Hinv. unfold shiftVec.
    assert (Hq : eqm N (z + bitsR v' j + ((r_sR rnd j + (bitsR v j - bitsR v' j) * i) mod N) * x) (z + bitsR v j + r_sR rnd j * x)).
    { modn. set (a := bitsR v j). set (a' := bitsR v' j). cbv beta in a, a'. fold a a'.
      replace (z + a' + (r_sR rnd j + (a - a') * i) * x) with (z + a' + r_sR rnd j * x + (a - a') * (x * i)) by ring.
      rewrite Hi. apply eqm_of_eq. ring. }
    rewrite Hq. reflexivity. }
  assert (HlF : forall j, lF z x (bitsL v') (r_sL rnd') j = lF z x (bitsL v) (r_sL rnd) j).
  { intros j. apply (proj1 (eqm_mod _ _ _)). apply Hl. }
  assert (HrF : forall j, rF y z x (bitsR v') (r_sR rnd') j = rF y z x (bitsR v) (r_sR rnd) j).
  { intros j. apply (proj1 (eqm_mod _ _ _)). apply Hr. }
  assert (Hmu : eqm N (r_rho rnd' * x + r_alpha rnd') (r_rho rnd * x + r_alpha rnd)).
  { unfold rnd', shift. cbn [r_rho r_alpha]. fold A S y z T1 T2 x. rewrite Hinv. modn.
    set (c := dlog H (gdiff v v')).
    replace ((r_rho rnd - i * c) * x + (r_alpha rnd + c)) with (r_rho rnd * x - (x * i) * c + (r_alpha rnd + c)) by ring.
    rewrite Hi. apply eqm_of_eq. ring. }
  set (t1 := t1Z n y z (bitsL v) (bitsR v) (r_sL rnd) (r_sR rnd)) in *.
  set (t2 := t2Z n y (r_sL rnd) (r_sR rnd)) in *.
  set (t1' := t1Z n y z (bitsL v') (bitsR v') (r_sL rnd') (r_sR rnd')) in *.
  set (t2' := t2Z n y (r_sL rnd') (r_sR rnd')) in *.
  assert (Ht : eqm N (z * z * (v - v') + (t1 - t1') * x + (t2 - t2') * (x * x)) 0).
  { pose proof (inner_products y z x (bitsL v) (bitsR v) (r_sL rnd) (r_sR rnd)) as P1.
    pose proof (inner_products y z x (bitsL v') (bitsR v') (r_sL rnd') (r_sR rnd')) as P2.
    rewrite t0Z_bits, (Z.mod_small v) in P1 by exact Hv. rewrite t0Z_bits, (Z.mod_small v') in P2 by exact Hv'.
    fold t1 t2 in P1. fold t1' t2' in P2.
    rewrite (zsum_ext n (fun j => lF z x (bitsL v') _ j * _) (fun j => lF z x (bitsL v) (r_sL rnd) j * rF y z x (bitsR v) (r_sR rnd) j)) in P2
      by (intros j _; rewrite HlF, HrF; reflexivity).
    rewrite P1 in P2. apply eqm_sub0; [lia|]. apply eqm_sub0 in P2; [|lia].
    etransitivity; [|exact P2]. apply eqm_of_eq. ring. }
  destruct (dlog_spec H HH (gGen G)) as [_ Hw]. set (w := dlog H (gGen G)) in *. symmetry in Hw.
  assert (E2 : eqm N (r_tau2 rnd') (r_tau2 rnd + w * (t2 - t2'))).
    { unfold rnd', shift. cbn [r_tau2]. modn. rewrite <- (dlog_gen w Hw). reflexivity. }
    assert (E1 : eqm N (r_tau1 rnd') (r_tau1 rnd + w * (t1 - t1'))).
    { unfold rnd', shift. cbn [r_tau1]. modn. rewrite <- (dlog_gen w Hw). reflexivity. }
    assert (E0 : eqm N (r_gamma rnd') (r_gamma rnd + w * (v - v'))).
    { unfold rnd', shift. cbn [r_gamma]. modn. rewrite <- (dlog_gen w Hw). reflexivity. }
  assert (Htau : eqm N (r_tau2 rnd' * (x * x) + r_tau1 rnd' * x + z * z * r_gamma rnd') (r_tau2 rnd * (x * x) + r_tau1 rnd * x + z * z * r_gamma rnd)).
  { rewrite E0, E1, E2.
    transitivity ((r_tau2 rnd * (x * x) + r_tau1 rnd * x + z * z * r_gamma rnd) + w * (z * z * (v - v') + (t1 - t1') * x + (t2 - t2') * (x * x)));
      [apply eqm_of_eq; ring|]. rewrite Ht. apply eqm_of_eq. ring. }
  split.
  { unfold rnd', shift, RndInRange. cbn [r_gamma r_alpha r_rho r_tau1 r_tau2 r_sL r_sR].
    repeat (split; [apply Hm|]). split; intros; apply Hm. }
  split; [exact HA|]. split; [exact HS|]. split; [exact HT1|]. split; [exact HT2|].
  split; [unfold rnd', shift; cbn [r_gamma]; apply pc_shift|].
  split; [apply (proj1 (eqm_mod _ _ _)); exact Htau|].
  split; [apply (proj1 (eqm_mod _ _ _)); exact Hmu|].
  split; [apply tab_ext; intros; apply HlF|]. split; [apply tab_ext; intros; apply HrF|].
  intros (R1 & R2 & R3 & R4 & R5 & R6 & R7).
  unfold RndEq. unfold shift at 1 2 3 4 5 6 7. cbn [r_gamma r_alpha r_rho r_tau1 r_tau2 r_sL r_sR].
  rewrite HA, HS. fold y z t1' t2'. rewrite HT1, HT2. fold x. rewrite Hinv.
  assert (Hgd : eqm N (dlog H (gdiff v v') + dlog H (gdiff v' v)) 0).
  { apply dlog_opp. unfold gdiff. rewrite <- (gsum_add HL). rewrite <- (gsum_zero HL n). apply gsum_ext. intros j _. glin HL. }
  assert (HsL : forall j, (j < n)%nat -> shiftVec i (bitsL v') (bitsL v) (r_sL rnd') j = r_sL rnd j).
  { intros j Hj. apply (eqm_small N); [apply Hm|apply R6; exact Hj|]. unfold rnd', shift, shiftVec. cbn [r_sL].
    fold A S y z t1 t2 T1 T2 x. rewrite Hinv. modn. apply eqm_of_eq. ring. }
  assert (HsR : forall j, (j < n)%nat -> shiftVec i (bitsR v') (bitsR v) (r_sR rnd') j = r_sR rnd j).
  { intros j Hj. apply (eqm_small N); [apply Hm|apply R7; exact Hj|]. unfold rnd', shift, shiftVec. cbn [r_sR].
    fold A S y z t1 t2 T1 T2 x. rewrite Hinv. modn. apply eqm_of_eq. ring. }
  assert (Ht1 : t1Z n y z (bitsL v) (bitsR v) (shiftVec i (bitsL v') (bitsL v) (r_sL rnd')) (shiftVec i (bitsR v') (bitsR v) (r_sR rnd')) = t1).
  { unfold t1, t1Z. apply zsum_ext. intros j Hj. rewrite HsL, HsR by exact Hj. reflexivity. }
  assert (Ht2 : t2Z n y (shiftVec i (bitsL v') (bitsL v) (r_sL rnd')) (shiftVec i (bitsR v') (bitsR v) (r_sR rnd')) = t2).
  { unfold t2, t2Z. apply zsum_ext. intros j Hj. rewrite HsL, HsR by exact Hj. reflexivity. }
  rewrite Ht1, Ht2.
  split; [|split; [|split; [|split; [|split; [|split; assumption]]]]]; (apply (eqm_small N); [apply Hm|assumption|]).
  - unfold rnd', shift. cbn [r_gamma]. modn. rewrite !(dlog_gen w Hw). apply eqm_of_eq. ring.
  - unfold rnd', shift. cbn [r_alpha]. modn. rewrite <- Z.add_assoc, Hgd. apply eqm_of_eq. ring.
  - unfold rnd', shift. cbn [r_rho]. fold A S y z t1 t2 T1 T2 x. rewrite Hinv. modn.
    transitivity (r_rho rnd - i * (dlog H (gdiff v v') + dlog H (gdiff v' v))); [apply eqm_of_eq; ring|].
    rewrite Hgd. apply eqm_of_eq. ring.
  - modn. rewrite E1, (dlog_gen w Hw). apply eqm_of_eq. ring.
  - modn. rewrite E2, (dlog_gen w Hw). apply eqm_of_eq. ring.
Qed.
End Shift.
End ZK.

Lemma finish_inv : forall G HO params V A S T1 T2 y tauX mu gamma bl br pf gam,
  finish G HO params V A S T1 T2 y tauX mu gamma bl br = Ok (pf, gam) -> pT1 pf = T1 /\ pT2 pf = T2 /\ gam = gamma.
Proof.
  intros G HO params V A S T1 T2 y tauX mu gamma bl br pf gam H. unfold finish in H.
  destruct (updateGenerators _ _ _ _) as [?| | |]; try discriminate. cbn [bind] in H.
  destruct (setupInnerProduct _ _ _ _) as [?| | |]; try discriminate. cbn [bind] in H.
  destruct (commitInnerProduct _ _ _ _ _) as [?| | |]; try discriminate. cbn [bind] in H.
  destruct (proveInnerProduct _ _ _ _ _ _ _ _) as [?| | |]; try discriminate. cbn [bind] in H.
  assert (H1 : forall a b : res (BulletProof G * Z), a = b ->
     match a with Ok (p, c) => Some (pT1 p, pT2 p, c) | _ => None end = match b with Ok (p, c) => Some (pT1 p, pT2 p, c) | _ => None end)
    by (intros ? ? ->; reflexivity).
  specialize (H1 _ _ H). cbn [pT1 pT2] in H1.
  split; [|split]; congruence.
Qed.
Lemma finish_gamma : forall G HO params V A S T1 T2 y tauX mu gamma gamma' bl br pf gam,
  finish G HO params V A S T1 T2 y tauX mu gamma bl br = Ok (pf, gam) ->
  finish G HO params V A S T1 T2 y tauX mu gamma' bl br = Ok (pf, gamma').
Proof.
  intros G HO params V A S T1 T2 y tauX mu gamma gamma' bl br pf gam H. unfold finish in H |- *.
  destruct (updateGenerators _ _ _ _) as [?| | |]; try discriminate. cbn [bind] in H |- *.
  destruct (setupInnerProduct _ _ _ _) as [?| | |]; try discriminate. cbn [bind] in H |- *.
  destruct (commitInnerProduct _ _ _ _ _) as [?| | |]; try discriminate. cbn [bind] in H |- *.
  destruct (proveInnerProduct _ _ _ _ _ _ _ _) as [?| | |]; try discriminate. cbn [bind] in H |- *.
  assert (H1 : forall a b : res (BulletProof G * Z), a = b ->
     match a with Ok (p, c) => Ok p | _ => Panic end = match b with Ok (p, c) => Ok p | _ => Panic end)
    by (intros ? ? ->; reflexivity).
  specialize (H1 _ _ H). cbv beta iota in H1. f_equal. f_equal. congruence.
Qed.

Lemma Prove_bits : forall G HO n Gt H g h v rnd, GrpLaws G ->
  let params := mkBPParams (Z.of_nat n) Gt H (tab n g) (tab n h) in
  Prove G HO v params rnd =
  ProveVec G HO v (tab n (fun i => (v / 2 ^ Z.of_nat i) mod 2)) (tab n (fun i => (v / 2 ^ Z.of_nat i) mod 2 - 1)) params rnd.
Proof.
  intros G HO n Gt H g h v rnd HL params.
  rewrite (Prove_vec G HO _ _ _ (tab n (fun i => (v / 2 ^ Z.of_nat i) mod 2))) by first [exact (N_pos HL)|apply Decompose_tab].
  rewrite computeAR_tab by (intros; apply bit_01). reflexivity.
Qed.

Lemma shift_step : forall G HO n Gt H g h v v', forall HG : GrpPrime G, H <> gId G ->
  0 <= v < 2 ^ Z.of_nat n -> 0 <= v' < 2 ^ Z.of_nat n ->
  let params := mkBPParams (Z.of_nat n) Gt H (tab n g) (tab n h) in
  forall rnd pf gamma, RndInRange (gN G) n rnd -> Prove G HO v params rnd = Ok (pf, gamma) -> ChallengeNonzero G HO pf ->
  let rnd' := shift G HO n H g h v v' rnd in
  RndInRange (gN G) n rnd' /\ Prove G HO v' params rnd' = Ok (pf, r_gamma rnd') /\
  RndEq n (shift G HO n H g h v' v rnd') rnd.
Proof.
  intros G HO n Gt H g h v v' HG HH Hv Hv' params rnd pf gamma HR HP HC rnd'. pose proof (lp_laws G HG) as HL.
  subst params. rewrite Prove_bits in HP |- * by exact HL.
  rewrite (ProveVec_explicit G HO HG) in HP. cbv zeta in HP.
  rewrite (ProveVec_explicit G HO HG). cbv zeta.
  destruct (finish_inv _ _ _ _ _ _ _ _ _ _ _ _ _ _ _ _ HP) as (E1 & E2 & _).
  unfold ChallengeNonzero in HC. rewrite E1, E2 in HC.
  destruct (shift_run G HO HG n H g h HH Gt v v' rnd Hv Hv' HC) as (R & HA & HS & HT1 & HT2 & HV & Htau & Hmu & Hl & Hr & Hq).
  fold rnd' in R, HA, HS, HT1, HT2, HV, Htau, Hmu, Hl, Hr, Hq.
  split; [exact R|]. split; [|apply Hq; exact HR].
  rewrite HA, HS, HT1, HT2, HV, Htau, Hmu, Hl, Hr. eapply finish_gamma. exact HP.
Qed.

(** C40: for two secrets of the range there are maps between the prover's randomness, inverse to each
    other, that carry each run on one secret to a run on the other with the identical proof.  So each
    proof has as many preimages under the one secret as under the other. *)
Theorem C40_perfect_hiding : forall G HO nan64 b params v v',
  GrpPrime G -> nanConv nan64 -> is_int64 b = true -> Setup G nan64 b = Ok params -> bpH params <> gId G ->
  0 <= v < 2 ^ bpN params -> 0 <= v' < 2 ^ bpN params ->
  let n := Z.to_nat (bpN params) in
  exists f f' : BPRand -> BPRand,
    (forall rnd pf gamma, RndInRange (gN G) n rnd -> Prove G HO v params rnd = Ok (pf, gamma) -> ChallengeNonzero G HO pf ->
       RndInRange (gN G) n (f rnd) /\ Prove G HO v' params (f rnd) = Ok (pf, r_gamma (f rnd)) /\ RndEq n (f' (f rnd)) rnd) /\
    (forall rnd pf gamma, RndInRange (gN G) n rnd -> Prove G HO v' params rnd = Ok (pf, gamma) -> ChallengeNonzero G HO pf ->
       RndInRange (gN G) n (f' rnd) /\ Prove G HO v params (f' rnd) = Ok (pf, r_gamma (f' rnd)) /\ RndEq n (f (f' rnd)) rnd).
Proof.
  intros G HO nan64 b params v v' HG Hn Hb HS HH Hv Hv' n.
  destruct (Setup_tab G nan64 b params Hn Hb HS) as (k & g & h & _ & _ & Hp).
  assert (Hnk : n = (2 ^ k)%nat) by (unfold n; rewrite Hp; cbn [bpN]; lia).
  clearbody n. subst n. rewrite Hp in Hv, Hv' |- *. cbn [bpN] in Hv, Hv'.
  exists (shift G HO (2 ^ k) (bpH params) g h v v'), (shift G HO (2 ^ k) (bpH params) g h v' v).
  split; intros rnd pf gamma HR HP HC; apply (shift_step G HO (2 ^ k) (bpG params) (bpH params) g h) with (gamma := gamma); assumption.
Qed.

(** A run meeting the hypotheses: secrets 11 and 6 of [0,16), a prover over the group of order 101 *)
Example C40_case : exists pf,
  Setup toy 0 16 = Ok toyParams /\ (gEq toy (bpH toyParams) (gId toy) = false) /\ RndInRange (gN toy) 4 toyRnd /\
  Prove toy toyO 11 toyParams toyRnd = Ok (pf, 17) /\ ChallengeNonzero toy toyO pf /\
  exists rnd', Prove toy toyO 6 toyParams rnd' = Ok (pf, r_gamma rnd') /\ r_gamma rnd' <> 17.
Proof.
  assert (HR : RndInRange (gN toy) 4 toyRnd).
  { unfold RndInRange. cbn [toyRnd r_gamma r_alpha r_rho r_tau1 r_tau2 r_sL r_sR]. change (gN toy) with 101. repeat split; lia. }
  assert (HH : gEq toy (bpH toyParams) (gId toy) = false) by (vm_compute; reflexivity).
  assert (HH' : bpH toyParams <> gId toy).
  { intros He. rewrite He in HH. assert (gEq toy (gId toy) (gId toy) = true) by (apply (l_eq toy toy_laws); reflexivity). congruence. }
  assert (Hnan : nanConv 0) by (right; reflexivity).
  destruct (Prove toy toyO 11 toyParams toyRnd) as [[pf gam]| | |] eqn:HP; [|exfalso..].
  2,3,4: destruct (C01_prove_returns toy toyO 0 16 toyParams 11 toyRnd toy_laws Hnan eq_refl toyParams_ok toy_challenges (toy_map_total _)) as (pf & gam & HP'); congruence.
  assert (HC : ChallengeNonzero toy toyO pf).
  { intros Hz. pose proof (toy_challenges (pT1 pf) (pT2 pf)) as Hg. rewrite <- gcd_mod_l, Hz in Hg by reflexivity. discriminate. }
  destruct (C03_commitment_opens toy toyO toyParams 11 toyRnd pf gam HP) as [Hgam HV]. cbn [toyRnd r_gamma] in Hgam. subst gam.
  exists pf. split; [exact toyParams_ok|]. split; [exact HH|]. split; [exact HR|]. split; [reflexivity|]. split; [exact HC|].
  destruct (C40_perfect_hiding toy toyO 0 16 toyParams 11 6 toy_prime Hnan eq_refl toyParams_ok HH' ltac:(split; vm_compute; congruence) ltac:(split; vm_compute; congruence)) as (f & f' & Hf & _).
  destruct (Hf toyRnd pf 17 HR HP HC) as (_ & HP' & _). exists (f toyRnd). split; [exact HP'|].
  intros He. destruct (C03_commitment_opens toy toyO toyParams 6 (f toyRnd) pf _ HP') as [_ HV']. rewrite He in HV'. rewrite HV in HV'.
  assert (Hc : forall a b, a = b -> gEq toy a b = true) by (intros; apply (l_eq toy toy_laws); assumption).
  apply Hc in HV'. vm_compute in HV'. discriminate.
Qed.

Print Assumptions C40_perfect_hiding.
