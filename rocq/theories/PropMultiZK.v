(** C71: aggregated proofs hide the values perfectly. The counterpart of C40 for MultiProve, although its vector commitment A holds aR twice. *)
From Verif Require Import GoBase Json GroupIface Vector BIP BP MultiBP NumTh Alg VectorProofs BIPProofs BPProofs SetupProofs Toy PropBP PropMulti PropZK.

(** ** Specification *)
(** the prover draws one blinding for each of m values and the scalars of RndInRange (r_gamma is not drawn; it is carried along) *)
Definition MDraws : Type := (nat -> Z) * BPRand.
Definition MInRange (q : Z) (m n : nat) (r : MDraws) : Prop := (forall j, (j < m)%nat -> 0 <= fst r j < q) /\ RndInRange q n (snd r).
Definition MEq (m n : nat) (r s : MDraws) : Prop := (forall j, (j < m)%nat -> fst r j = fst s j) /\ RndEq n (snd r) (snd s).
Definition MChallengeNonzero (G : Grp) (HO : Oracles) (pf : MultiBulletProof G) : Prop :=
  fst (HashBP G HO (mT1 pf) (mT2 pf)) mod gN G <> 0.

Section MExplicit.
Context (G : Grp) (HO : Oracles) (HL : GrpLaws G).
Local Notation E := (E G).
Local Notation N := (gN G).

Definition t1M (n b : nat) (y z : Z) (aL aR sL sR : nat -> Z) : Z :=
  zsum n (fun j => sL j * (y ^ Z.of_nat j * (z + aR j) + wz z b j) + (aL j - z) * (y ^ Z.of_nat j * sR j)).
Definition rM (b : nat) (y z x : Z) (aR sR : nat -> Z) (i : nat) : Z := (y ^ Z.of_nat i * (z + aR i + sR i * x) + wz z b i) mod N.
Definition finishM (params : BPParams G) (Vs : list E) (A S T1 T2 : E) (y tauX mu : Z) (gammas bl br : list Z) : res (MultiBulletProof G * list Z) :=
  let th := ScalarProduct G bl br in
  hp <- updateGenerators G (bpHh params) y (bpN params) ;;
  ipp <- setupInnerProduct G (Some (bpGg params)) (Some hp) (bpN params) ;;
  commit <- commitInnerProduct G (bpGg params) hp bl br ;;
  ipProof <- proveInnerProduct G HO (length bl) bl br commit th ipp ;;
  Ok (mkMultiBulletProof Vs A S T1 T2 (Some tauX) (Some mu) th ipProof params, gammas).

(** ** What MultiProve computes, in closed form *)
Lemma MultiProve_explicit : forall m b Gt H g h s gam rnd, (0 < m)%nat -> (0 < b)%nat ->
  let n := (m * b)%nat in
  let aL := bitOf s b in let aR := fun i => bitOf s b i - 1 in
  let params := mkBPParams (Z.of_nat n) Gt H (tab n g) (tab n h) in
  MultiProve G HO (tab m s) params gam rnd =
  let A := Com G n H g h (r_alpha rnd) aR aR in
  let S := Com G n H g h (r_rho rnd) (r_sL rnd) (r_sR rnd) in
  let y := fst (HashBP G HO A S) in let z := snd (HashBP G HO A S) in
  let T1 := PedersenCommit G (t1M n b y z aL aR (r_sL rnd) (r_sR rnd)) (r_tau1 rnd) H in
  let T2 := PedersenCommit G (t2Z n y (r_sL rnd) (r_sR rnd)) (r_tau2 rnd) H in
  let x := fst (HashBP G HO T1 T2) in
  finishM params (tab m (fun j => PedersenCommit G (s j) (gam j) H)) A S T1 T2 y
    ((r_tau2 rnd * (x * x) + r_tau1 rnd * x + zsum m (fun j => gam j * z ^ (2 + Z.of_nat j))) mod N) ((r_rho rnd * x + r_alpha rnd) mod N)
    (tab m gam) (tab n (lF G z x aL (r_sL rnd))) (tab n (rM b y z x aR (r_sR rnd))).
Proof.
  intros m b Gt H g h s gam rnd Hm Hb n aL aR params. assert (En : n = (m * b)%nat) by reflexivity. clearbody n.
  remember (MultiProve G HO (tab m s) params gam rnd) as R eqn:HP.
  unfold MultiProve in HP. cbn [params bpN bpH bpGg bpHh] in HP. rewrite tab_length in HP.
  rewrite En in HP. rewrite goDiv_ok in HP by assumption. cbn [bind] in HP. rewrite make_len_nat in HP. cbn [bind] in HP.
  rewrite (randInt_pos _ _ (N_pos HL)) in HP. cbn [bind] in HP.
  rewrite concatBits_tab in HP by assumption. cbn [bind] in HP. rewrite !padTo_tab in HP. rewrite <- En in HP.
  rewrite (commitVector_tab G HL) in HP. cbn [bind] in HP.
  unfold sampleRandomVector in HP. rewrite make_len_nat in HP. cbn [bind] in HP.
  change (map (r_sL rnd) (seq 0 n)) with (tab n (r_sL rnd)) in HP.
  change (map (r_sR rnd) (seq 0 n)) with (tab n (r_sR rnd)) in HP.
  change (map gam (seq 0 m)) with (tab m gam) in HP.
  rewrite (commitVector_tab G HL) in HP. cbn [bind] in HP.
  fold aL in HP. change (fun i => aL i - 1) with aR in HP.
  fold (Com G n H g h (r_rho rnd) (r_sL rnd) (r_sR rnd)) in HP.
  match type of HP with context [HashBP G HO ?a _] => change a with (Com G n H g h (r_alpha rnd) aR aR) in HP end.
  cbv zeta. set (A := Com G n H g h (r_alpha rnd) aR aR) in *. set (S := Com G n H g h (r_rho rnd) (r_sL rnd) (r_sR rnd)) in *.
  destruct (HashBP G HO A S) as [y z] eqn:Hyz. cbn [fst snd].
  rewrite !(powerOf_tab _ HL) in HP. cbn [bind] in HP.
  replace (zPow2Vec G z (tab b (fun i => 2 ^ Z.of_nat i mod N)) m n) with
    (tab n (fun i => Some (((2 ^ Z.of_nat (i mod b) mod N) * (z ^ (2 + Z.of_nat (i / b)) mod N)) mod N))) in HP
    by (rewrite En; symmetry; apply zPow2Vec_tab; assumption).
  rewrite (mapM_tab deref n _ (fun i => ((2 ^ Z.of_nat (i mod b) mod N) * (z ^ (2 + Z.of_nat (i / b)) mod N)) mod N)) in HP by reflexivity.
  vnorm0 HL HP.
  match type of HP with context [PedersenCommit G (?t mod N) (r_tau1 rnd) H] => set (t1 := t mod N) in * end.
  match type of HP with context [PedersenCommit G ?t (r_tau2 rnd) H] => set (t2 := t) in * end.
  assert (H1 : eqm N t1 (t1M n b y z aL aR (r_sL rnd) (r_sR rnd))).
  { unfold t1, t1M. rewrite zsum_add, !Zmod_eqm. apply Zplus_eqm; apply zsum_eqm; intros j _; unfold wz, aR; modn; apply eqm_of_eq; ring. }
  assert (H2 : eqm N t2 (t2Z n y (r_sL rnd) (r_sR rnd))).
  { unfold t2, t2Z. rewrite !Zmod_eqm. apply zsum_eqm; intros j _; modn; apply eqm_of_eq; ring. }
  assert (HPC : forall a b c, eqm N a b -> PedersenCommit G a c H = PedersenCommit G b c H).
  { intros a b' c Hab. unfold PedersenCommit. rewrite !(base_scale HL), (scale_eqm HL _ _ _ Hab). reflexivity. }
  rewrite (HPC _ _ _ H1), (HPC _ _ _ H2) in HP. clearbody t1 t2. clear H1 H2 HPC t1 t2.
  set (T1 := PedersenCommit G _ (r_tau1 rnd) H) in *.
  set (T2 := PedersenCommit G _ (r_tau2 rnd) H) in *.
  set (x := fst (HashBP G HO T1 T2)) in *.
  match type of HP with context [ScalarProduct G (tab n ?f) (tab n ?f')] => set (l := f) in *; set (r := f') in * end.
  assert (Hl : tab n l = tab n (lF G z x aL (r_sL rnd))).
  { apply tab_ext. intros i _. unfold l, lF. apply (proj1 (eqm_mod _ _ _)). modn. apply eqm_of_eq. ring. }
  assert (Hr : tab n r = tab n (rM b y z x aR (r_sR rnd))).
  { apply tab_ext. intros i _. unfold r, rM, wz, aR. apply (proj1 (eqm_mod _ _ _)). modn. apply eqm_of_eq. ring. }
  assert (Ht : (r_tau2 rnd * (x * x) + r_tau1 rnd * x + randTotal G z (tab m gam)) mod N =
     (r_tau2 rnd * (x * x) + r_tau1 rnd * x + zsum m (fun j => gam j * z ^ (2 + Z.of_nat j))) mod N).
  { apply (proj1 (eqm_mod _ _ _)). rewrite (randTotal_tab G z m gam). reflexivity. }
  rewrite Hl, Hr, Ht, combine_tab, map_tab in HP. cbn [fst snd] in HP. rewrite HP. reflexivity.
Qed.

Lemma finishM_total : forall k Gt H g h Vs A S T1 T2 y tauX mu gammas bl br,
  (forall A B, Z.gcd (fst (HashBP G HO A B)) N = 1) -> Z.gcd y N = 1 -> (exists u, gMap G (str_bytes SEEDU) = Ok u) ->
  let n := (2 ^ k)%nat in
  exists pf, finishM (mkBPParams (Z.of_nat n) Gt H (tab n g) (tab n h)) Vs A S T1 T2 y tauX mu gammas (tab n bl) (tab n br) = Ok (pf, gammas).
Proof.
  intros k Gt H g h Vs A S T1 T2 y tauX mu gammas bl br Hinv Hy [u Hu] n. unfold finishM. cbn [bpN bpGg bpHh].
  destruct (modInverse_ex _ _ (l_order G HL) Hy) as (i & Hi & _).
  assert (Hn : n = Datatypes.S (pred n)) by (unfold n; pose proof (Nat.pow_nonzero 2 k); lia).
  assert (Hup : updateGenerators G (tab n h) y (Z.of_nat n) = Ok (tab n (fun j => gScale G (h j) (i ^ Z.of_nat j)))).
  { rewrite Hn. apply (updateGenerators_tab G HL). exact Hi. }
  rewrite Hup. cbn [bind].
  unfold setupInnerProduct. replace (Z.of_nat n <=? 0) with false by (symmetry; apply Z.leb_gt; lia). rewrite Hu. cbn [bind].
  unfold commitInnerProduct. rewrite !(VectorExp_tab G HL). cbn [bind deref]. rewrite (ScalarProduct_tab G HL), tab_length.
  edestruct (ip_total G HO HL Hinv k n) as [pf Hpf]; [|fold n in Hpf; erewrite Hpf; cbn [bind]; eexists; reflexivity].
  unfold n. apply Nat.lt_le_incl, Nat.pow_gt_lin_r. lia.
Qed.
End MExplicit.

Section MZK.
Context (G : Grp) (HO : Oracles) (HG : GrpPrime G).
Let HL : GrpLaws G := lp_laws G HG.
Local Notation E := (E G).
Local Notation N := (gN G).
Local Notation gs := (gsum (G:=G)).
Local Notation rM := (rM G).

(** ** The map between the two sets of draws *)
Section Shift.
Context (m b : nat) (H : E) (g h : nat -> E) (HH : H <> gId G).
Local Notation n := (m * b)%nat.
Local Notation bitsL s := (bitOf s b).
Local Notation bitsR s := (fun i => bitOf s b i - 1).

Definition mdiff (s s' : nat -> Z) : E :=
  gs n (fun i => gAdd G (gScale G (g i) (bitOf s b i - bitOf s' b i)) (gScale G (h i) (bitOf s b i - bitOf s' b i))).

Definition shiftM (s s' : nat -> Z) (d : MDraws) : MDraws :=
  let gam := fst d in let rnd := snd d in
  let A := Com G n H g h (r_alpha rnd) (bitsR s) (bitsR s) in
  let S := Com G n H g h (r_rho rnd) (r_sL rnd) (r_sR rnd) in
  let y := fst (HashBP G HO A S) in let z := snd (HashBP G HO A S) in
  let t1 := t1M n b y z (bitsL s) (bitsR s) (r_sL rnd) (r_sR rnd) in
  let t2 := t2Z n y (r_sL rnd) (r_sR rnd) in
  let T1 := PedersenCommit G t1 (r_tau1 rnd) H in
  let T2 := PedersenCommit G t2 (r_tau2 rnd) H in
  let x := fst (HashBP G HO T1 T2) in
  let xi := inv0 G x in
  let c := dlog G H (mdiff s s') in
  let sL' := shiftVec G xi (bitsL s) (bitsL s') (r_sL rnd) in
  let sR' := shiftVec G xi (bitsR s) (bitsR s') (r_sR rnd) in
  let t1' := t1M n b y z (bitsL s') (bitsR s') sL' sR' in
  let t2' := t2Z n y sL' sR' in
  (fun j => (gam j + dlog G H (gScale G (gGen G) (s j - s' j))) mod N,
   mkBPRand (r_gamma rnd) ((r_alpha rnd + c) mod N) sL' sR'
    ((r_rho rnd - xi * c) mod N)
    ((r_tau1 rnd + dlog G H (gScale G (gGen G) (t1 - t1'))) mod N)
    ((r_tau2 rnd + dlog G H (gScale G (gGen G) (t2 - t2'))) mod N)).

Lemma inner_productsM : forall y z x aL aR sL sR,
  eqm N (zsum n (fun j => lF G z x aL sL j * rM b y z x aR sR j))
        (zsum n (fun j => (aL j - z) * (y ^ Z.of_nat j * (z + aR j) + wz z b j)) + t1M n b y z aL aR sL sR * x + t2Z n y sL sR * (x * x)).
Proof.
  intros. transitivity (zsum n (fun j => (aL j - z + sL j * x) * (y ^ Z.of_nat j * (aR j + z + sR j * x) + wz z b j))).
  { apply zsum_eqm. intros j _. unfold lF, rM. modn. apply eqm_of_eq. ring. }
  apply eqm_of_eq. unfold t1M, t2Z. rewrite <- !zsum_mul, <- !zsum_add. apply zsum_ext. intros j _. ring.
Qed.
(** the constant term holds the values weighted by powers of z, and nothing else about them *)
Lemma const_term : forall y z s, (forall j, (j < m)%nat -> 0 <= s j < 2 ^ Z.of_nat b) ->
  zsum n (fun j => (bitsL s j - z) * (y ^ Z.of_nat j * (z + (bitsL s j - 1)) + wz z b j)) =
  zsum m (fun j => s j * z ^ (2 + Z.of_nat j)) + deltaMZ m b y z.
Proof.
  intros y z s Hs.
  transitivity (zsum n (fun j => (z - z * z) * y ^ Z.of_nat j) + zsum n (fun j => (bitsL s j - z) * wz z b j)).
  { rewrite <- zsum_add. apply zsum_ext. intros j _. unfold bitOf.
    destruct (bit_01 (s (j / b)%nat) (j mod b)) as [-> | ->]; ring. }
  unfold deltaMZ. rewrite zsum_mul_l.
  assert (Hw : zsum n (fun j => (bitsL s j - z) * wz z b j) =
    zsum m (fun j => s j * z ^ (2 + Z.of_nat j)) - zsum m (fun j => z ^ (3 + Z.of_nat j)) * zsum b (fun i => 2 ^ Z.of_nat i)).
  { rewrite zsum_blocks, <- zsum_mul, <- zsum_sub. apply zsum_ext. intros j Hj.
    rewrite <- (Z.mod_small (s j) (2 ^ Z.of_nat b)) at 1 by (apply Hs; assumption).
    rewrite <- (zsum_digits 2 b (s j)) by lia. replace (z ^ (3 + Z.of_nat j)) with (z * z ^ (2 + Z.of_nat j)).
    2:{ replace (3 + Z.of_nat j) with (Z.succ (2 + Z.of_nat j)) by lia. rewrite Z.pow_succ_r by lia. reflexivity. }
    rewrite <- zsum_mul, <- zsum_mul_l, <- zsum_sub. apply zsum_ext. intros ii Hii. unfold bitOf, wz.
    destruct (blk_ix b j ii Hii) as [-> ->]. ring. }
  rewrite Hw. ring.
Qed.

Lemma shiftM_run : forall s s' d,
  (forall j, (j < m)%nat -> 0 <= s j < 2 ^ Z.of_nat b) -> (forall j, (j < m)%nat -> 0 <= s' j < 2 ^ Z.of_nat b) ->
  let rnd := snd d in
  let A := Com G n H g h (r_alpha rnd) (bitsR s) (bitsR s) in
  let S := Com G n H g h (r_rho rnd) (r_sL rnd) (r_sR rnd) in
  let y := fst (HashBP G HO A S) in let z := snd (HashBP G HO A S) in
  let T1 := PedersenCommit G (t1M n b y z (bitsL s) (bitsR s) (r_sL rnd) (r_sR rnd)) (r_tau1 rnd) H in
  let T2 := PedersenCommit G (t2Z n y (r_sL rnd) (r_sR rnd)) (r_tau2 rnd) H in
  let x := fst (HashBP G HO T1 T2) in
  x mod N <> 0 -> RndInRange N n rnd ->
  let gam' := fst (shiftM s s' d) in let rnd' := snd (shiftM s s' d) in
  MInRange N m n (shiftM s s' d) /\
  Com G n H g h (r_alpha rnd') (bitsR s') (bitsR s') = A /\
  Com G n H g h (r_rho rnd') (r_sL rnd') (r_sR rnd') = S /\
  PedersenCommit G (t1M n b y z (bitsL s') (bitsR s') (r_sL rnd') (r_sR rnd')) (r_tau1 rnd') H = T1 /\
  PedersenCommit G (t2Z n y (r_sL rnd') (r_sR rnd')) (r_tau2 rnd') H = T2 /\
  (forall j, PedersenCommit G (s' j) (gam' j) H = PedersenCommit G (s j) (fst d j) H) /\
  (r_tau2 rnd' * (x * x) + r_tau1 rnd' * x + zsum m (fun j => gam' j * z ^ (2 + Z.of_nat j))) mod N =
  (r_tau2 rnd * (x * x) + r_tau1 rnd * x + zsum m (fun j => fst d j * z ^ (2 + Z.of_nat j))) mod N /\
  (r_rho rnd' * x + r_alpha rnd') mod N = (r_rho rnd * x + r_alpha rnd) mod N /\
  tab n (lF G z x (bitsL s') (r_sL rnd')) = tab n (lF G z x (bitsL s) (r_sL rnd)) /\
  tab n (rM b y z x (bitsR s') (r_sR rnd')) = tab n (rM b y z x (bitsR s) (r_sR rnd)) /\
  (MInRange N m n d -> MEq m n (shiftM s' s (shiftM s s' d)) d).
Proof.
  intros s s' d Hv Hv' rnd A S y z T1 T2 x Hx HRr gam' rnd'. pose proof (l_order G HL) as HN.
  assert (Hm : forall a, 0 <= a mod N < N) by (intros; apply Z.mod_pos_bound; lia).
  pose proof (prime_gcd1 _ _ (lp_prime G HG) Hx) as Hgx.
  destruct (modInverse_ex _ _ HN Hgx) as (i & Hi0 & Hi1 & Hi).
  apply eqm_inv1 in Hi; [|assumption].
  assert (Hinv : inv0 G x = i) by (unfold inv0; rewrite Hi0; reflexivity).
  assert (HA : Com G n H g h (r_alpha rnd') (bitsR s') (bitsR s') = A).
  { unfold A, Com, rnd', shiftM. cbn [snd r_alpha]. rewrite (scale_mod HL), (scale_plus HL), (proj2 (dlog_spec G HG H HH _)).
    unfold mdiff. rewrite <- (l_assoc G HL). f_equal. rewrite <- (gsum_add HL). apply gsum_ext. intros j _. glin HL. }
  assert (HS : Com G n H g h (r_rho rnd') (r_sL rnd') (r_sR rnd') = S).
  { unfold S, Com, rnd', shiftM. cbn [snd r_rho r_sL r_sR]. fold rnd. fold A S y z T1 T2 x. rewrite Hinv.
    rewrite (scale_mod HL).
    replace (r_rho rnd - i * dlog G H (mdiff s s')) with (r_rho rnd + dlog G H (mdiff s s') * (- i)) by ring.
    rewrite (scale_plus HL), <- (scale_mul HL), (proj2 (dlog_spec G HG H HH _)).
    rewrite <- (l_assoc G HL). f_equal. unfold mdiff. rewrite <- (gsum_scale HL), <- (gsum_add HL). apply gsum_ext. intros j _.
    unfold shiftVec. rewrite !(scale_mod HL). glin HL. }
  assert (HT1 : PedersenCommit G (t1M n b y z (bitsL s') (bitsR s') (r_sL rnd') (r_sR rnd')) (r_tau1 rnd') H = T1).
  { unfold rnd', shiftM. cbn [snd r_tau1 r_sL r_sR]. fold rnd. fold A S y z T1 T2 x. apply (pc_shift G HG H HH). }
  assert (HT2 : PedersenCommit G (t2Z n y (r_sL rnd') (r_sR rnd')) (r_tau2 rnd') H = T2).
  { unfold rnd', shiftM. cbn [snd r_tau2 r_sL r_sR]. fold rnd. fold A S y z T1 T2 x. apply (pc_shift G HG H HH). }
  assert (Hl : forall j, eqm N (bitsL s' j - z + r_sL rnd' j * x) (bitsL s j - z + r_sL rnd j * x)).
  { intros j. unfold rnd', shiftM. cbn [snd r_sL]. fold rnd. fold A S y z T1 T2 x. rewrite Hinv. unfold shiftVec. modn.
    set (a := bitOf s b j). set (a' := bitOf s' b j).
    replace (a' - z + (r_sL rnd j + (a - a') * i) * x) with (a' - z + r_sL rnd j * x + (a - a') * (x * i)) by ring.
    rewrite Hi. apply eqm_of_eq. ring. }
  assert (Hr : forall j, eqm N (y ^ Z.of_nat j * (z + (bitOf s' b j - 1) + r_sR rnd' j * x) + wz z b j)
                                (y ^ Z.of_nat j * (z + (bitOf s b j - 1) + r_sR rnd j * x) + wz z b j)).
  { intros j. unfold rnd', shiftM. cbn [snd r_sR]. fold rnd. fold A S y z T1 T2 x. rewrite Hinv. unfold shiftVec.
    set (a := bitOf s b j). set (a' := bitOf s' b j).
    assert (Hq : eqm N (z + (a' - 1) + ((r_sR rnd j + (a - 1 - (a' - 1)) * i) mod N) * x) (z + (a - 1) + r_sR rnd j * x)).
    { modn. replace (z + (a' - 1) + (r_sR rnd j + (a - 1 - (a' - 1)) * i) * x) with (z + (a' - 1) + r_sR rnd j * x + (a - a') * (x * i)) by ring.
      rewrite Hi. apply eqm_of_eq. ring. }
    rewrite Hq. reflexivity. }
  assert (HlF : forall j, lF G z x (bitsL s') (r_sL rnd') j = lF G z x (bitsL s) (r_sL rnd) j).
  { intros j. apply (proj1 (eqm_mod _ _ _)). apply Hl. }
  assert (HrF : forall j, rM b y z x (bitsR s') (r_sR rnd') j = rM b y z x (bitsR s) (r_sR rnd) j).
  { intros j. apply (proj1 (eqm_mod _ _ _)). apply Hr. }
  assert (Hmu : eqm N (r_rho rnd' * x + r_alpha rnd') (r_rho rnd * x + r_alpha rnd)).
  { unfold rnd', shiftM. cbn [snd r_rho r_alpha]. fold rnd. fold A S y z T1 T2 x. rewrite Hinv. modn.
    set (c := dlog G H (mdiff s s')).
    replace ((r_rho rnd - i * c) * x + (r_alpha rnd + c)) with (r_rho rnd * x - (x * i) * c + (r_alpha rnd + c)) by ring.
    rewrite Hi. apply eqm_of_eq. ring. }
  set (t1 := t1M n b y z (bitsL s) (bitsR s) (r_sL rnd) (r_sR rnd)) in *.
  set (t2 := t2Z n y (r_sL rnd) (r_sR rnd)) in *.
  set (t1' := t1M n b y z (bitsL s') (bitsR s') (r_sL rnd') (r_sR rnd')) in *.
  set (t2' := t2Z n y (r_sL rnd') (r_sR rnd')) in *.
  assert (Ht : eqm N (zsum m (fun j => s j * z ^ (2 + Z.of_nat j)) - zsum m (fun j => s' j * z ^ (2 + Z.of_nat j)) + (t1 - t1') * x + (t2 - t2') * (x * x)) 0).
  { pose proof (inner_productsM y z x (bitsL s) (bitsR s) (r_sL rnd) (r_sR rnd)) as P1.
    pose proof (inner_productsM y z x (bitsL s') (bitsR s') (r_sL rnd') (r_sR rnd')) as P2.
    cbv beta in P1, P2. rewrite (const_term y z s Hv) in P1. rewrite (const_term y z s' Hv') in P2.
    fold t1 t2 in P1. fold t1' t2' in P2.
    rewrite (zsum_ext n (fun j => lF G z x (bitsL s') _ j * _) (fun j => lF G z x (bitsL s) (r_sL rnd) j * rM b y z x (bitsR s) (r_sR rnd) j)) in P2
      by (intros j _; rewrite HlF, HrF; reflexivity).
    rewrite P1 in P2. apply eqm_sub0 in P2; [|lia].
    etransitivity; [|exact P2]. apply eqm_of_eq. ring. }
  destruct (dlog_spec G HG H HH (gGen G)) as [_ Hw]. set (w := dlog G H (gGen G)) in *. symmetry in Hw.
  pose proof (dlog_gen G HG H HH w Hw) as Hdg.
  assert (E2 : eqm N (r_tau2 rnd') (r_tau2 rnd + w * (t2 - t2'))).
  { unfold rnd', shiftM. cbn [snd r_tau2]. modn. rewrite <- Hdg. reflexivity. }
  assert (E1 : eqm N (r_tau1 rnd') (r_tau1 rnd + w * (t1 - t1'))).
  { unfold rnd', shiftM. cbn [snd r_tau1]. modn. rewrite <- Hdg. reflexivity. }
  assert (E0 : eqm N (zsum m (fun j => gam' j * z ^ (2 + Z.of_nat j)))
     (zsum m (fun j => fst d j * z ^ (2 + Z.of_nat j)) + w * (zsum m (fun j => s j * z ^ (2 + Z.of_nat j)) - zsum m (fun j => s' j * z ^ (2 + Z.of_nat j))))).
  { rewrite <- zsum_sub, <- zsum_mul_l, <- zsum_add. apply zsum_eqm. intros j _. unfold gam', shiftM. cbn [fst]. modn. rewrite Hdg. apply eqm_of_eq. ring. }
  assert (Htau : eqm N (r_tau2 rnd' * (x * x) + r_tau1 rnd' * x + zsum m (fun j => gam' j * z ^ (2 + Z.of_nat j)))
     (r_tau2 rnd * (x * x) + r_tau1 rnd * x + zsum m (fun j => fst d j * z ^ (2 + Z.of_nat j)))).
  { rewrite E0, E1, E2.
    match type of Ht with eqm _ (?P - ?P' + _ + _) _ => set (p := P) in *; set (p' := P') in * end.
    set (q := zsum m (fun j => fst d j * z ^ (2 + Z.of_nat j))).
    transitivity ((r_tau2 rnd * (x * x) + r_tau1 rnd * x + q) + w * (p - p' + (t1 - t1') * x + (t2 - t2') * (x * x)));
      [apply eqm_of_eq; ring|]. rewrite Ht. apply eqm_of_eq. ring. }
  split.
  { split; [intros; apply Hm|]. unfold shiftM, RndInRange. cbn [snd r_gamma r_alpha r_rho r_tau1 r_tau2 r_sL r_sR].
    split; [apply HRr|]. repeat (split; [apply Hm|]). split; intros; apply Hm. }
  split; [exact HA|]. split; [exact HS|]. split; [exact HT1|]. split; [exact HT2|].
  split; [intros j; unfold gam', shiftM; cbn [fst]; apply (pc_shift G HG H HH)|].
  split; [apply (proj1 (eqm_mod _ _ _)); exact Htau|].
  split; [apply (proj1 (eqm_mod _ _ _)); exact Hmu|].
  split; [apply tab_ext; intros; apply HlF|]. split; [apply tab_ext; intros; apply HrF|].
  intros (R1 & _ & R2 & R3 & R4 & R5 & R6 & R7). fold rnd in R2, R3, R4, R5, R6, R7.
  assert (Hgd : eqm N (dlog G H (mdiff s s') + dlog G H (mdiff s' s)) 0).
  { apply (dlog_opp G HG H HH). unfold mdiff. rewrite <- (gsum_add HL). rewrite <- (gsum_zero HL n). apply gsum_ext. intros j _. glin HL. }
  assert (HsL : forall j, (j < n)%nat -> shiftVec G i (bitsL s') (bitsL s) (r_sL rnd') j = r_sL rnd j).
  { intros j Hj. apply (eqm_small N); [apply Hm|apply R6; exact Hj|]. unfold rnd', shiftM, shiftVec. cbn [snd r_sL].
    fold rnd. fold A S y z t1 t2 T1 T2 x. rewrite Hinv. modn. apply eqm_of_eq. ring. }
  assert (HsR : forall j, (j < n)%nat -> shiftVec G i (bitsR s') (bitsR s) (r_sR rnd') j = r_sR rnd j).
  { intros j Hj. apply (eqm_small N); [apply Hm|apply R7; exact Hj|]. unfold rnd', shiftM, shiftVec. cbn [snd r_sR].
    fold rnd. fold A S y z t1 t2 T1 T2 x. rewrite Hinv. modn. apply eqm_of_eq. ring. }
  assert (Ht1 : t1M n b y z (bitsL s) (bitsR s) (shiftVec G i (bitsL s') (bitsL s) (r_sL rnd')) (shiftVec G i (bitsR s') (bitsR s) (r_sR rnd')) = t1).
  { unfold t1, t1M. apply zsum_ext. intros j Hj. rewrite HsL, HsR by exact Hj. reflexivity. }
  assert (Ht2 : t2Z n y (shiftVec G i (bitsL s') (bitsL s) (r_sL rnd')) (shiftVec G i (bitsR s') (bitsR s) (r_sR rnd')) = t2).
  { unfold t2, t2Z. apply zsum_ext. intros j Hj. rewrite HsL, HsR by exact Hj. reflexivity. }
  split.
  { intros j Hj. unfold shiftM at 1. cbn [fst]. fold gam'. apply (eqm_small N); [apply Hm|apply R1; exact Hj|].
    unfold gam', shiftM. cbn [fst]. modn. rewrite !Hdg. apply eqm_of_eq. ring. }
  unfold RndEq. unfold shiftM at 1 3 5 7 9 11 13. cbn [snd r_gamma r_alpha r_rho r_tau1 r_tau2 r_sL r_sR]. fold rnd'.
  rewrite HA, HS. fold y z t1' t2'. rewrite HT1, HT2. fold x. rewrite Hinv.
  rewrite Ht1, Ht2.
  split; [reflexivity|].
  split; [|split; [|split; [|split; [|split; assumption]]]]; (apply (eqm_small N); [apply Hm|assumption|]).
  - unfold rnd', shiftM. cbn [snd r_alpha]. fold rnd. modn. rewrite <- Z.add_assoc, Hgd. apply eqm_of_eq. ring.
  - unfold rnd', shiftM. cbn [snd r_rho]. fold rnd. fold A S y z t1 t2 T1 T2 x. rewrite Hinv. modn.
    transitivity (r_rho rnd - i * (dlog G H (mdiff s s') + dlog G H (mdiff s' s))); [apply eqm_of_eq; ring|].
    rewrite Hgd. apply eqm_of_eq. ring.
  - fold rnd. modn. rewrite E1, Hdg. apply eqm_of_eq. ring.
  - fold rnd. modn. rewrite E2, Hdg. apply eqm_of_eq. ring.
Qed.
End Shift.
End MZK.

Lemma finishM_inv : forall G HO params Vs A S T1 T2 y tauX mu gammas gammas' bl br pf gs,
  finishM G HO params Vs A S T1 T2 y tauX mu gammas bl br = Ok (pf, gs) ->
  mT1 pf = T1 /\ mT2 pf = T2 /\ finishM G HO params Vs A S T1 T2 y tauX mu gammas' bl br = Ok (pf, gammas').
Proof.
  intros G HO params Vs A S T1 T2 y tauX mu gammas gammas' bl br pf gs H. unfold finishM in H |- *.
  destruct (updateGenerators _ _ _ _) as [?| | |]; try discriminate. cbn [bind] in H |- *.
  destruct (setupInnerProduct _ _ _ _) as [?| | |]; try discriminate. cbn [bind] in H |- *.
  destruct (commitInnerProduct _ _ _ _ _) as [?| | |]; try discriminate. cbn [bind] in H |- *.
  destruct (proveInnerProduct _ _ _ _ _ _ _ _) as [?| | |]; try discriminate. cbn [bind] in H |- *.
  injection H as <- _. cbn [mT1 mT2]. auto.
Qed.
Lemma shiftM_step : forall G HO m b Gt H g h s s', forall HG : GrpPrime G, H <> gId G -> (0 < m)%nat -> (0 < b)%nat ->
  (forall j, (j < m)%nat -> 0 <= s j < 2 ^ Z.of_nat b) -> (forall j, (j < m)%nat -> 0 <= s' j < 2 ^ Z.of_nat b) ->
  let n := (m * b)%nat in
  let params := mkBPParams (Z.of_nat n) Gt H (tab n g) (tab n h) in
  forall d pf gs, MInRange (gN G) m n d -> MultiProve G HO (tab m s) params (fst d) (snd d) = Ok (pf, gs) -> MChallengeNonzero G HO pf ->
  let d' := shiftM G HO m b H g h s s' d in
  MInRange (gN G) m n d' /\ MultiProve G HO (tab m s') params (fst d') (snd d') = Ok (pf, tab m (fst d')) /\
  MEq m n (shiftM G HO m b H g h s' s d') d.
Proof.
  intros G HO m b Gt H g h s s' HG HH Hm Hb Hs Hs' n params d pf gs HR HP HC d'.
  unfold params, n in *. rewrite (MultiProve_explicit G HO (lp_laws G HG)) in HP |- * by assumption. cbv zeta in HP |- *.
  destruct (finishM_inv _ _ _ _ _ _ _ _ _ _ _ _ (tab m (fst d')) _ _ _ _ HP) as (E1 & E2 & HP').
  unfold MChallengeNonzero in HC. rewrite E1, E2 in HC.
  destruct (shiftM_run G HO HG m b H g h HH s s' d Hs Hs' HC (proj2 HR)) as (R & HA & HS & HT1 & HT2 & HV & Htau & Hmu & Hl & Hr & Hq).
  fold d' in R, HA, HS, HT1, HT2, HV, Htau, Hmu, Hl, Hr, Hq.
  split; [exact R|]. split; [|apply Hq; exact HR].
  rewrite HA, HS, HT1, HT2, Htau, Hmu, Hl, Hr. rewrite (tab_ext _ _ _ (fun j _ => HV j)). exact HP'.
Qed.

(** The commitments of an aggregated proof open to the values, in their order, with the blindings MultiProve returns; this holds for any integers. *)
Theorem C71_commitments_open : forall G HO params vs gam rnd pf gammas,
  MultiProve G HO vs params gam rnd = Ok (pf, gammas) ->
  gammas = map gam (seq 0 (length vs)) /\
  mVs pf = map (fun vg => gAdd G (gBase G (fst vg)) (gScale G (bpH params) (snd vg))) (combine vs gammas).
Proof.
  intros G HO params vs gam rnd pf gammas HP. unfold MultiProve in HP.
  repeat match type of HP with
  | bind ?e _ = Ok _ => destruct e; cbn [bind] in HP; try discriminate
  | (let '(_, _) := ?e in _) = Ok _ => destruct e
  end.
  injection HP as <- <-. split; reflexivity.
Qed.

(** MultiProve returns a proof for any integers whose number divides N. *)
Theorem C71_prove_returns : forall G HO nan64 e params vs gam rnd,
  GrpLaws G -> nanConv nan64 -> is_int64 e = true -> Setup G nan64 e = Ok params ->
  ChallengesInvertible G HO -> (exists u, gMap G (str_bytes SEEDU) = Ok u) ->
  vs <> [] -> bpN params mod Z.of_nat (length vs) = 0 ->
  exists pf gammas, MultiProve G HO vs params gam rnd = Ok (pf, gammas).
Proof.
  intros G HO nan64 e params vs gam rnd HL Hn He HS Hinv Hu Hvs Hd.
  destruct (Setup_tab G nan64 e params Hn He HS) as (k & g & h & _ & _ & Hp).
  assert (HbN : bpN params = Z.of_nat (2 ^ k)) by (rewrite Hp; reflexivity). rewrite HbN in Hd.
  set (m := length vs) in *. assert (Hm : m <> 0%nat) by (unfold m; destruct vs; [contradiction|discriminate]).
  rewrite <- Nat2Z.inj_mod in Hd. pose proof (Nat.div_mod (2 ^ k) m Hm) as Hdm. rewrite (Nat2Z.inj _ 0 Hd), Nat.add_0_r in Hdm.
  pose proof (Nat.pow_nonzero 2 k ltac:(lia)) as H2. set (b := (2 ^ k / m)%nat) in *. clearbody b.
  rewrite Hp. rewrite (tab_nth 0 vs). fold m. rewrite Hdm. rewrite (MultiProve_explicit G HO HL) by (destruct b; lia). cbv zeta. rewrite <- Hdm.
  edestruct (finishM_total G HO HL k) as [pf Hpf]; [exact Hinv|apply Hinv|exact Hu|]. eexists. eexists. exact Hpf.
Qed.

(** C71: for two lists of values of the same length and in range there are maps between the prover's draws, inverse to each other, that carry each
    run on one list to a run on the other with the identical proof. *)
Theorem C71_perfect_hiding : forall G HO nan64 e params vs vs',
  GrpPrime G -> nanConv nan64 -> is_int64 e = true -> Setup G nan64 e = Ok params -> bpH params <> gId G ->
  length vs' = length vs ->
  let m := length vs in let n := Z.to_nat (bpN params) in
  (forall v, In v (vs ++ vs') -> 0 <= v < 2 ^ (bpN params / Z.of_nat m)) ->
  exists f f' : MDraws -> MDraws,
    (forall d pf gs, MInRange (gN G) m n d -> MultiProve G HO vs params (fst d) (snd d) = Ok (pf, gs) -> MChallengeNonzero G HO pf ->
       MInRange (gN G) m n (f d) /\ MultiProve G HO vs' params (fst (f d)) (snd (f d)) = Ok (pf, map (fst (f d)) (seq 0 m)) /\ MEq m n (f' (f d)) d) /\
    (forall d pf gs, MInRange (gN G) m n d -> MultiProve G HO vs' params (fst d) (snd d) = Ok (pf, gs) -> MChallengeNonzero G HO pf ->
       MInRange (gN G) m n (f' d) /\ MultiProve G HO vs params (fst (f' d)) (snd (f' d)) = Ok (pf, map (fst (f' d)) (seq 0 m)) /\ MEq m n (f (f' d)) d).
Proof.
  intros G HO nan64 e params vs vs' HG Hn He HS HH Hlen m n Hv.
  destruct (Setup_tab G nan64 e params Hn He HS) as (k & g & h & _ & _ & Hp).
  set (N2 := (2 ^ k)%nat) in *. assert (HN2 : (0 < N2)%nat) by (unfold N2; pose proof (Nat.pow_nonzero 2 k); lia). clearbody N2.
  assert (HnN : n = N2) by (unfold n; rewrite Hp; cbn [bpN]; lia). clearbody n. subst n.
  assert (HbN : bpN params = Z.of_nat N2) by (rewrite Hp; reflexivity). rewrite HbN in Hv.
  destruct (Nat.eq_dec m 0) as [Hm0|Hm0].
  { exists (fun d => d), (fun d => d). split; intros d pf gs _ HP; exfalso;
      rewrite (C16_count_must_divide G HO) in HP; try discriminate; left; unfold m in Hm0; lia. }
  destruct (Nat.eq_dec (N2 mod m) 0) as [Hd|Hd].
  2:{ exists (fun d => d), (fun d => d). split; intros d pf gs _ HP; exfalso;
      rewrite (C16_count_must_divide G HO) in HP; try discriminate; right; rewrite ?Hlen; fold m; rewrite HbN, <- Nat2Z.inj_mod; lia. }
  pose proof (Nat.div_mod N2 m Hm0) as Hdm. rewrite Hd, Nat.add_0_r in Hdm. rewrite <- Nat2Z.inj_div in Hv. set (b := (N2 / m)%nat) in *.
  assert (Hb : (0 < b)%nat) by (destruct b; [lia|lia]). clearbody b. subst N2.
  set (s := fun j => nth j vs 0). set (s' := fun j => nth j vs' 0).
  assert (Es : vs = tab m s) by apply (tab_nth 0 vs).
  assert (Es' : vs' = tab m s') by (unfold m; rewrite <- Hlen; apply (tab_nth 0 vs')).
  assert (Hs : forall j, (j < m)%nat -> 0 <= s j < 2 ^ Z.of_nat b) by (intros j Hj; apply Hv, in_or_app; left; apply nth_In; exact Hj).
  assert (Hs' : forall j, (j < m)%nat -> 0 <= s' j < 2 ^ Z.of_nat b) by (intros j Hj; apply Hv, in_or_app; right; apply nth_In; rewrite Hlen; exact Hj).
  clearbody m s s'. rewrite Es, Es', Hp.
  exists (shiftM G HO m b (bpH params) g h s s'), (shiftM G HO m b (bpH params) g h s' s).
  split; intros d pf gs HR HP HC;
    [apply (shiftM_step G HO m b (bpG params) (bpH params) g h s s' HG HH ltac:(lia) Hb Hs Hs' d pf gs HR HP HC)
    |apply (shiftM_step G HO m b (bpG params) (bpH params) g h s' s HG HH ltac:(lia) Hb Hs' Hs d pf gs HR HP HC)].
Qed.

(** A run meeting the hypotheses: the values 1, 3 and 2, 0 of [0,4) over four generators *)
Example C71_case : exists pf gs d',
  MInRange (gN toy) 2 4 (fun j => 40 + Z.of_nat j, toyRnd) /\ MultiProve toy toyO [1; 3] toyParams (fun j => 40 + Z.of_nat j) toyRnd = Ok (pf, gs) /\
  MChallengeNonzero toy toyO pf /\ MultiProve toy toyO [2; 0] toyParams (fst d') (snd d') = Ok (pf, map (fst d') [0; 1]%nat) /\ fst d' 0%nat <> 40.
Proof.
  assert (HR : MInRange (gN toy) 2 4 (fun j => 40 + Z.of_nat j, toyRnd)).
  { unfold MInRange, RndInRange. cbn [fst snd toyRnd r_gamma r_alpha r_rho r_tau1 r_tau2 r_sL r_sR]. change (gN toy) with 101. repeat split; lia. }
  assert (HH : bpH toyParams <> gId toy).
  { intros He. apply (l_eq toy toy_laws) in He. vm_compute in He. discriminate. }
  destruct (C71_prove_returns toy toyO 0 16 toyParams [1; 3] (fun j => 40 + Z.of_nat j) toyRnd toy_laws (or_intror eq_refl) eq_refl toyParams_ok
    toy_challenges (toy_map_total _) ltac:(discriminate) eq_refl) as (pf & gs & HP).
  assert (HC : MChallengeNonzero toy toyO pf).
  { intros Hz. pose proof (toy_challenges (mT1 pf) (mT2 pf)) as Hg. rewrite <- gcd_mod_l, Hz in Hg by reflexivity. discriminate. }
  assert (Hv : forall v, In v ([1; 3] ++ [2; 0]) -> 0 <= v < 2 ^ (bpN toyParams / Z.of_nat 2)).
  { cbn [app In]. change (2 ^ (bpN toyParams / Z.of_nat 2)) with 4. lia. }
  destruct (C71_perfect_hiding toy toyO 0 16 toyParams [1; 3] [2; 0] toy_prime (or_intror eq_refl) eq_refl toyParams_ok HH eq_refl Hv) as (f & f' & Hf & _).
  destruct (Hf (fun j => 40 + Z.of_nat j, toyRnd) pf gs HR HP HC) as (_ & HP' & _).
  exists pf, gs, (f (fun j => 40 + Z.of_nat j, toyRnd)). split; [exact HR|]. split; [exact HP|]. split; [exact HC|]. split; [exact HP'|].
  set (d' := f _) in *. clearbody d'. intros He.
  destruct (C71_commitments_open _ _ _ _ _ _ _ _ HP) as [E1 H1]. destruct (C71_commitments_open _ _ _ _ _ _ _ _ HP') as [_ H2].
  rewrite E1 in H1. rewrite H2 in H1. apply (f_equal (hd (gId toy))) in H1. cbn [length seq map combine hd fst snd] in H1. rewrite He in H1.
  apply (l_eq toy toy_laws) in H1. vm_compute in H1. discriminate.
Qed.

Print Assumptions C71_commitments_open.
Print Assumptions C71_prove_returns.
Print Assumptions C71_perfect_hiding.
