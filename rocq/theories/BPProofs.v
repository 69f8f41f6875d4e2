(** Bulletproofs: what Verify answers on the output of a prover run with arbitrary bit vectors. *)
From Verif Require Import GoBase Json GroupIface Vector BIP NumTh Alg BP VectorProofs BIPProofs.
From Coq Require Import Setoid Morphisms.

Ltac vnorm0 HL HP :=
  repeat (first [ progress cbn [bind nil_slice deref] in HP
                | rewrite (powerOf_tab _ HL) in HP | rewrite VectorScalarMul_tab in HP
                | rewrite VectorConvertToBig_tab in HP | rewrite VectorCopy_tab in HP
                | rewrite VectorAddConst_tab in HP | rewrite VectorAdd_tab in HP | rewrite VectorMul_tab in HP
                | rewrite VectorInnerProduct_tab in HP ]).
Ltac vnorm HL HP :=
  repeat (first [ progress cbn [bind nil_slice deref] in HP
                | rewrite (powerOf_tab _ HL) in HP | rewrite VectorScalarMul_tab in HP
                | rewrite VectorConvertToBig_tab in HP | rewrite VectorCopy_tab in HP
                | rewrite VectorAddConst_tab in HP | rewrite VectorAdd_tab in HP | rewrite VectorMul_tab in HP
                | rewrite VectorInnerProduct_tab in HP | rewrite (ScalarProduct_tab _ HL) in HP
                | rewrite (VectorExp_tab _ HL) in HP | rewrite tab_length in HP ]).

Section BPProofs.
Context (G : Grp) (HO : Oracles) (HL : GrpLaws G).
Local Notation E := (E G).
Local Notation N := (gN G).
Local Notation gs := (gsum (G:=G)).

(** bp.go 104-243 with the vectors aL, aR supplied by the caller instead of being the bits of [secret]
    and the bits minus one. [Prove] is the instance of lines 117-118 (lemma [Prove_vec]). *)
Definition ProveVec (secret : Z) (aL aR : list Z) (params : BPParams G) (rnd : BPRand) : res (BulletProof G * Z) :=
  let m := gN G in
  let N := bpN params in
  let H := bpH params in
  let gamma := r_gamma rnd in
  let V := PedersenCommit G secret gamma H in
  A <- commitVector G aL aR (r_alpha rnd) H (bpGg params) (bpHh params) N ;;
  sL <- sampleRandomVector N (r_sL rnd) ;;
  sR <- sampleRandomVector N (r_sR rnd) ;;
  S <- commitVector G sL sR (r_rho rnd) H (bpGg params) (bpHh params) N ;;
  let '(y, z) := HashBP G HO A S in
  yPow <- powerOf G y N ;;
  powersOf2 <- powerOf G 2 N ;;
  let zSquared := z * z in
  powersOf2TimesZSquared <- VectorScalarMul powersOf2 (Some zSquared) m ;;
  aLb <- VectorConvertToBig aL N ;;
  aRb <- VectorConvertToBig aR N ;;
  let l0 := VectorAddConst aLb (- z) m in
  vecZ <- VectorCopy z N ;;
  let aRzn := nil_slice (VectorAdd vecZ aRb m) in
  let r0' := nil_slice (VectorMul yPow aRzn m) in
  let r0 := nil_slice (VectorAdd r0' powersOf2TimesZSquared m) in
  let r1 := nil_slice (VectorMul yPow sR m) in
  t1left <- VectorInnerProduct sL r0 m ;;
  t1right <- VectorInnerProduct l0 r1 m ;;
  let t1 := (t1left + t1right) mod m in
  t2 <- VectorInnerProduct sL r1 m ;;
  let T1 := PedersenCommit G t1 (r_tau1 rnd) H in
  let T2 := PedersenCommit G t2 (r_tau2 rnd) H in
  let x := fst (HashBP G HO T1 T2) in
  sLx <- VectorScalarMul sL (Some x) m ;;
  let bl := nil_slice (VectorAdd l0 sLx m) in
  sRx <- VectorScalarMul sR (Some x) m ;;
  let tmp := nil_slice (VectorAdd aRzn sRx m) in
  let tmp' := nil_slice (VectorMul yPow tmp m) in
  let br := nil_slice (VectorAdd tmp' powersOf2TimesZSquared m) in
  let th := ScalarProduct G bl br in
  let tauX := (r_tau2 rnd * (x * x) + r_tau1 rnd * x + zSquared * gamma) mod m in
  let mu := (r_rho rnd * x + r_alpha rnd) mod m in
  hp <- updateGenerators G (bpHh params) y N ;;
  ipp <- setupInnerProduct G (Some (bpGg params)) (Some hp) N ;;
  commit <- commitInnerProduct G (bpGg params) hp bl br ;;
  ipProof <- proveInnerProduct G HO (length bl) bl br commit th ipp ;;
  Ok (mkBulletProof V A S T1 T2 (Some tauX) (Some mu) th ipProof params, gamma).

Lemma Prove_vec : forall secret params rnd aL, 0 < gN G ->
  Decompose secret 2 (bpN params) = Ok aL ->
  Prove G HO secret params rnd = ProveVec secret aL (nil_slice (computeAR aL)) params rnd.
Proof. intros secret params rnd aL HN H. unfold Prove. rewrite (randInt_pos _ _ HN). cbn [bind]. rewrite H. reflexivity. Qed.

(** bp.go 352-367: y^-j h_j; for a single generator y need not be invertible *)
Lemma updateGenerators_ok : forall n h y hp,
  updateGenerators G (tab (S n) h) y (Z.of_nat (S n)) = Ok hp ->
  exists i, hp = tab (S n) (fun j => gScale G (h j) (i ^ Z.of_nat j)) /\
    (forall j, (j <= n)%nat -> eqm N (y ^ Z.of_nat j * i ^ Z.of_nat j) 1) /\
    (forall hp', updateGenerators G (tab (S n) hp') y (Z.of_nat (S n)) =
                 Ok (tab (S n) (fun j => gScale G (hp' j) (i ^ Z.of_nat j)))).
Proof.
  intros n h y hp H. destruct (modInverse y N) as [i|] eqn:Hi.
  - rewrite (updateGenerators_tab G HL n h y i Hi) in H. injection H as <-. exists i.
    split; [reflexivity|]. split; [|intros; apply (updateGenerators_tab G HL n hp' y i Hi)]. intros j _.
    pose proof (l_order G HL) as HN. destruct (modInverse_Some _ _ _ HN Hi) as [_ Hyi].
    apply eqm_inv_pow; [lia|]. apply eqm_inv1; assumption.
  - assert (Hz : forall X : E, X = gScale G X 1) by (intros; symmetry; apply (scale_1 HL)).
    unfold updateGenerators in H. rewrite make_len_nat in H. cbn [bind] in H. rewrite Hi, tab_S in H.
    destruct n as [|n]; [|rewrite tab_S in H; cbn in H; discriminate].
    cbn in H. injection H as <-. exists 0. split; [|split].
    + cbn. f_equal. apply Hz.
    + intros j Hj. assert (j = O) by lia. subst j. reflexivity.
    + intros. unfold updateGenerators. rewrite make_len_nat. cbn. f_equal. f_equal. apply Hz.
Qed.

(** delta(y,z) of the paper, over the integers *)
Definition deltaZ (n : nat) (y z : Z) : Z :=
  (z - z * z) * zsum n (fun i => y ^ Z.of_nat i) - z * z * z * zsum n (fun i => 2 ^ Z.of_nat i).
(** constant coefficient of <l(X), r(X)> *)
Definition t0Z (n : nat) (y z : Z) (aL aR : nat -> Z) : Z :=
  zsum n (fun j => (aL j - z) * (y ^ Z.of_nat j * (aR j + z) + z * z * 2 ^ Z.of_nat j)).


(** Right-hand side of (65) and (66) of the paper, as in bp.go 262-313 *)
Definition eq65 (n : nat) (y z x : Z) (H V T1 T2 : E) (tp tx : Z) : Prop :=
  gAdd G (gBase G tp) (gScale G H tx) =
  gAdd G (gAdd G (gAdd G (gScale G V (z * z)) (gBase G (deltaZ n y z))) (gScale G T1 x)) (gScale G T2 (x * x)).
Definition eq67 (n : nat) (y z x : Z) (H A Sg P : E) (g hp : nat -> E) (mu : Z) : Prop :=
  gAdd G (gScale G H mu) P =
  gAdd G (gAdd G (gAdd G A (gScale G Sg x)) (gs n (fun j => gScale G (g j) (- z))))
         (gs n (fun j => gScale G (hp j) (z * y ^ Z.of_nat j + z * z * 2 ^ Z.of_nat j))).

Lemma Verify_eqs : forall n Gt H g h hp (pf : BulletProof G) y z tp tx mu,
  pParams pf = mkBPParams (Z.of_nat n) Gt H (tab n g) (tab n h) ->
  HashBP G HO (pA pf) (pS pf) = (y, z) ->
  updateGenerators G (tab n h) y (Z.of_nat n) = Ok (tab n hp) ->
  pTprime pf = Some tp -> pTaux pf = Some tx -> pMu pf = Some mu ->
  let x := fst (HashBP G HO (pT1 pf) (pT2 pf)) in
  exists b65 b67,
    Verify G HO pf = (ok <- ipVerify G HO (pIPP pf) ;; Ok (b65 && b67 && ok)) /\
    (b65 = true <-> eq65 n y z x H (pV pf) (pT1 pf) (pT2 pf) tp tx) /\
    (b67 = true <-> eq67 n y z x H (pA pf) (pS pf) (ipP (pIPP pf)) g hp mu).
Proof.
  intros n Gt H g h hp pf y z tp tx mu Hpar Hyz Hhp Htp Htx Hmu x.
  destruct (delta_tab G HL n y z) as (d & Hd & Hdq).
  remember (Verify G HO pf) as V eqn:HV. unfold Verify in HV. rewrite Hpar in HV. cbn [bpN bpGg bpHh bpH] in HV.
  rewrite Hyz, Hhp, Htp, Htx, Hmu, Hd in HV. vnorm HL HV.
  do 2 eexists. split; [exact HV|]. split.
  - rewrite (l_eq G HL). unfold eq65, PedersenCommit. fold x. rewrite !(base_scale HL).
    rewrite !(scale_mod HL). rewrite (scale_eqm HL (gGen G) d (deltaZ n y z)) by exact Hdq.
    split; intros He; symmetry; exact He.
  - rewrite (l_isid G HL), (sub_0_iff HL). unfold eq67. fold x.
    rewrite (gsum_ext n (fun i => gScale G (g i) (N - z)) (fun j => gScale G (g j) (- z))).
    2:{ intros. apply (scale_eqm HL). apply eqm_sub0; [apply (N_pos HL)|].
        apply eqm_iff; [apply (N_pos HL)|]. exists 1. ring. }
    match goal with |- context [gs n (fun i => gScale G (hp i) (@?f i))] =>
      match f with fun i => z * _ + _ => fail 1 | _ =>
      rewrite (gsum_ext n (fun i => gScale G (hp i) (f i)) (fun j => gScale G (hp j) (z * y ^ Z.of_nat j + z * z * 2 ^ Z.of_nat j))) end end.
    2:{ intros. apply (scale_eqm HL). modn. apply eqm_of_eq. ring. }
    reflexivity.
Qed.

Lemma honest_vec : forall k Gt H g h v aL aR rnd pf gam,
  let n := (2 ^ k)%nat in
  let params := mkBPParams (Z.of_nat n) Gt H (tab n g) (tab n h) in
  ProveVec v (tab n aL) (tab n aR) params rnd = Ok (pf, gam) ->
  pParams pf = params /\ gam = r_gamma rnd /\ pV pf = PedersenCommit G v gam H /\
  pTprime pf = ipCc (pIPP pf) /\
  length (ipL (pIPP pf)) = k /\ length (ipR (pIPP pf)) = k /\
  pA pf = gAdd G (gScale G H (r_alpha rnd)) (gs n (fun i => gAdd G (gScale G (g i) (aL i)) (gScale G (h i) (aR i)))) /\
  pS pf = gAdd G (gScale G H (r_rho rnd)) (gs n (fun i => gAdd G (gScale G (g i) (r_sL rnd i)) (gScale G (h i) (r_sR rnd i)))) /\
  (exists hp u, ipGg (ipParams (pIPP pf)) = tab n g /\ ipHh (ipParams (pIPP pf)) = map Some hp /\
       updateGenerators G (tab n h) (fst (HashBP G HO (pA pf) (pS pf))) (Z.of_nat n) = Ok hp /\
       gMap G (str_bytes SEEDU) = Ok u /\ ipUu (ipParams (pIPP pf)) = u) /\
  exists res, Verify G HO pf = Ok res /\
    (res = true <-> let '(y, z) := HashBP G HO (pA pf) (pS pf) in
       gScale G (gGen G) (z * z * v + deltaZ n y z) = gScale G (gGen G) (t0Z n y z aL aR)).
Proof.
  intros k Gt H g h v aL aR rnd pf gam n params HP.
  assert (Hn : (0 < n)%nat) by (unfold n; pose proof (Nat.pow_nonzero 2 k); lia).
  assert (Hn' : exists n', n = S n') by (exists (pred n); lia). destruct Hn' as [n' Hn'].
  pose proof (l_order G HL) as HN.
  unfold ProveVec in HP. cbn [params bpN bpH bpGg bpHh] in HP.
  rewrite (commitVector_tab G HL) in HP. cbn [bind] in HP.
  unfold sampleRandomVector in HP. rewrite make_len_nat in HP. cbn [bind] in HP.
  change (map (r_sL rnd) (seq 0 n)) with (tab n (r_sL rnd)) in HP.
  change (map (r_sR rnd) (seq 0 n)) with (tab n (r_sR rnd)) in HP.
  rewrite (commitVector_tab G HL) in HP. cbn [bind] in HP.
  set (A := gAdd G (gScale G H (r_alpha rnd)) _) in *.
  set (Sg := gAdd G (gScale G H (r_rho rnd)) _) in *.
  destruct (HashBP G HO A Sg) as [y z] eqn:Hyz.
  vnorm0 HL HP.
  match type of HP with context [PedersenCommit G (?t mod N) (r_tau1 rnd) H] => set (t1 := t) in * end.
  match type of HP with context [PedersenCommit G ?t (r_tau2 rnd) H] => set (t2 := t) in * end.
  set (T1 := PedersenCommit G (t1 mod N) (r_tau1 rnd) H) in *.
  set (T2 := PedersenCommit G t2 (r_tau2 rnd) H) in *.
  set (x := fst (HashBP G HO T1 T2)) in *.
  match type of HP with context [ScalarProduct G (tab n ?f) (tab n ?f')] => set (l := f) in *; set (r := f') in * end.
  rewrite (ScalarProduct_tab G HL), tab_length in HP.
  destruct (updateGenerators G (tab n h) y (Z.of_nat n)) as [hp| | |] eqn:Hhp; try discriminate. cbn [bind] in HP.
  destruct (updateGenerators_ok n' h y hp) as (i & -> & Hyi & _); [rewrite <- Hn'; exact Hhp|].
  rewrite <- Hn' in Hhp, HP.
  unfold setupInnerProduct in HP. replace (Z.of_nat n <=? 0) with false in HP by (symmetry; apply Z.leb_gt; lia).
  cbn [bind] in HP. destruct (gMap G (str_bytes SEEDU)) as [u| | |] eqn:Hu; try discriminate. cbn [bind] in HP.
  unfold commitInnerProduct in HP. rewrite !(VectorExp_tab G HL) in HP. cbn [bind deref] in HP.
  destruct (proveInnerProduct _ _ _ _ _ _ _ _) as [ipf| | |] eqn:Hip; try discriminate. cbn [bind] in HP.
  apply (ip_honest G HO HL) in Hip.
  destruct Hip as (c' & xi & ires & Hc' & HipP & HipC & HipPar & HlL & HlR & Hxi & Hiv & Hires).
  fold n in Hc', HipP, HipC, HipPar, HlL, HlR, Hxi, Hires.
  injection HP as <- <-.
  cbn [pParams pV pA pS pIPP pTprime]. rewrite HipPar. cbn [ipGg ipHh ipUu].
  injection Hc' as <-.
  split; [reflexivity|]. split; [reflexivity|]. split; [reflexivity|]. split; [symmetry; exact HipC|].
  split; [exact HlL|]. split; [exact HlR|]. split; [reflexivity|]. split; [reflexivity|].
  split. { rewrite Hyz. eexists. exists u. repeat split. exact Hhp. }
  set (pf := mkBulletProof _ _ _ _ _ _ _ _ _ _).
  destruct (Verify_eqs n Gt H g h (fun j => gScale G (h j) (i ^ Z.of_nat j)) pf y z (zsum n (fun i => l i * r i) mod N)
     ((r_tau2 rnd * (x * x) + r_tau1 rnd * x + z * z * r_gamma rnd) mod N) ((r_rho rnd * x + r_alpha rnd) mod N)
     eq_refl Hyz Hhp eq_refl eq_refl eq_refl) as (b65 & b67 & Hver & H65 & H67).
  cbn [pf pT1 pT2 pA pS pV pIPP] in H65, H67, Hver. fold x in H65, H67. rewrite Hiv in Hver. cbn [bind] in Hver.
  exists (b65 && b67 && ires). split; [exact Hver|]. rewrite Hyz.
  assert (Hi1 : ires = true).
  { apply Hires. rewrite HipP in *. unfold ipCom. rewrite (scale_mod HL), (gsum_add HL). reflexivity. }
  assert (Hb67 : b67 = true).
  { apply H67. unfold eq67. rewrite HipP. unfold A, Sg.
    rewrite !(scale_mod HL). set (SA := gs n (fun i => gAdd G (gScale G (g i) (aL i)) _)).
    set (SS := gs n (fun i => gAdd G (gScale G (g i) (r_sL rnd i)) _)).
    set (Sl := gs n (fun i => gScale G (g i) (l i))). set (Sr := gs n (fun i => gScale G _ (r i))).
    set (Sz := gs n (fun i => gScale G (g i) (- z))). set (Sh := gs n (fun j => gScale G _ (z * _ + _))).
    assert (Hs : gAdd G Sl Sr = gAdd G SA (gAdd G (gScale G SS x) (gAdd G Sz Sh))).
    { unfold SA, SS, Sl, Sr, Sz, Sh. rewrite <- (gsum_scale HL), <- !(gsum_add HL). apply gsum_ext. intros j Hj.
      rewrite (scale_eqm HL (g j) (l j) (aL j - z + r_sL rnd j * x)) by (unfold l; modn; apply eqm_of_eq; ring).
      rewrite (scale_eqm HL _ (r j) (y ^ Z.of_nat j * (z + aR j + r_sR rnd j * x) + 2 ^ Z.of_nat j * (z * z)))
        by (unfold r; modn; reflexivity).
      glin HL. apply (eqm_diff1 G HL (y ^ Z.of_nat j * i ^ Z.of_nat j) (aR j + r_sR rnd j * x)).
      - apply Hyi. lia.
      - ring. }
    rewrite Hs. glin HL. }
  rewrite Hi1, Hb67, !andb_true_r. rewrite H65. unfold eq65. unfold T1, T2, PedersenCommit.
  assert (Hth : eqm N (zsum n (fun j => l j * r j)) (t0Z n y z aL aR + t1 * x + t2 * (x * x))).
  { transitivity (zsum n (fun j => (aL j - z + r_sL rnd j * x) *
                    (y ^ Z.of_nat j * (aR j + z + r_sR rnd j * x) + z * z * 2 ^ Z.of_nat j))).
    { apply zsum_eqm. intros j _. unfold l, r. modn. apply eqm_of_eq. ring. }
    assert (H1 : eqm N t1 (zsum n (fun j => r_sL rnd j * (y ^ Z.of_nat j * (z + aR j) + 2 ^ Z.of_nat j * (z * z)))
                           + zsum n (fun j => (aL j - z) * (y ^ Z.of_nat j * r_sR rnd j)))).
    { unfold t1. rewrite !Zmod_eqm. apply Zplus_eqm; apply zsum_eqm; intros j _; modn; apply eqm_of_eq; ring. }
    assert (H2 : eqm N t2 (zsum n (fun j => r_sL rnd j * (y ^ Z.of_nat j * r_sR rnd j)))).
    { unfold t2. rewrite !Zmod_eqm. apply zsum_eqm; intros j _; modn; apply eqm_of_eq; ring. }
    rewrite H1, H2. apply eqm_of_eq. unfold t0Z. rewrite <- zsum_add, <- !zsum_mul, <- !zsum_add.
    apply zsum_ext. intros j _. ring. }
  rewrite !(base_scale HL), !(scale_mod HL).
  rewrite (scale_eqm HL _ _ _ Hth).
  set (Q := gAdd G (gScale G (gGen G) (t1 * x + t2 * (x * x)))
                   (gScale G H (r_tau2 rnd * (x * x) + r_tau1 rnd * x + z * z * r_gamma rnd))).
  match goal with |- (?a = ?b) <-> _ =>
    replace a with (gAdd G (gScale G (gGen G) (t0Z n y z aL aR)) Q) by (unfold Q; glin HL);
    replace b with (gAdd G (gScale G (gGen G) (z * z * v + deltaZ n y z)) Q) by (unfold Q; glin HL) end.
  split.
  - intros He. apply (add_cancel_r HL) in He. symmetry. exact He.
  - intros ->. reflexivity.
Qed.

(** With invertible challenges and a mapped u the prover returns. *)
Lemma ProveVec_total : (forall A B, Z.gcd (fst (HashBP G HO A B)) N = 1) -> (exists u, gMap G (str_bytes SEEDU) = Ok u) ->
  forall k Gt H g h v aL aR rnd,
  let n := (2 ^ k)%nat in
  exists pf gam, ProveVec v (tab n aL) (tab n aR) (mkBPParams (Z.of_nat n) Gt H (tab n g) (tab n h)) rnd = Ok (pf, gam).
Proof.
  intros Hinv [u Hu] k Gt H g h v aL aR rnd n.
  assert (Hn : (0 < n)%nat) by (unfold n; pose proof (Nat.pow_nonzero 2 k); lia).
  assert (Hn' : exists n', n = S n') by (exists (pred n); lia). destruct Hn' as [n' Hn'].
  remember (ProveVec v (tab n aL) (tab n aR) (mkBPParams (Z.of_nat n) Gt H (tab n g) (tab n h)) rnd) as R eqn:HP.
  unfold ProveVec in HP. cbn [bpN bpH bpGg bpHh] in HP.
  rewrite (commitVector_tab G HL) in HP. cbn [bind] in HP.
  unfold sampleRandomVector in HP. rewrite make_len_nat in HP. cbn [bind] in HP.
  change (map (r_sL rnd) (seq 0 n)) with (tab n (r_sL rnd)) in HP.
  change (map (r_sR rnd) (seq 0 n)) with (tab n (r_sR rnd)) in HP.
  rewrite (commitVector_tab G HL) in HP. cbn [bind] in HP.
  match type of HP with context [HashBP G HO ?A ?B] =>
    pose proof (Hinv A B) as Hy; destruct (HashBP G HO A B) as [y z] eqn:Hyz end. cbn [fst] in Hy.
  vnorm0 HL HP. rewrite (ScalarProduct_tab G HL), tab_length in HP.
  destruct (modInverse_ex _ _ (l_order G HL) Hy) as (i & Hi & _).
  assert (Hg := updateGenerators_tab G HL n' h y i Hi). rewrite <- Hn' in Hg. rewrite Hg in HP. cbn [bind] in HP.
  unfold setupInnerProduct in HP. replace (Z.of_nat n <=? 0) with false in HP by (symmetry; apply Z.leb_gt; lia).
  rewrite Hu in HP. cbn [bind] in HP. unfold commitInnerProduct in HP. rewrite !(VectorExp_tab G HL) in HP.
  cbn [bind deref] in HP.
  match type of HP with context [proveInnerProduct G HO n (tab n ?a) (tab n ?b) ?P (Some ?c) (mkIPParams (tab n ?gg) (map Some (tab n ?hh)) u)] =>
    destruct (ip_total G HO HL Hinv k n a b gg hh u P c) as [ipf Hipf] end.
  { unfold n. pose proof (Nat.pow_gt_lin_r 2 k). lia. }
  fold n in Hipf. rewrite Hipf in HP. cbn [bind] in HP. subst R. eauto.
Qed.

(** Bits of the secret: the constant coefficient is z^2 (secret mod 2^n) + delta. *)
Lemma t0Z_bits : forall n y z v,
  t0Z n y z (fun i => (v / 2 ^ Z.of_nat i) mod 2) (fun i => (v / 2 ^ Z.of_nat i) mod 2 - 1) =
  z * z * (v mod 2 ^ Z.of_nat n) + deltaZ n y z.
Proof.
  intros. unfold t0Z, deltaZ. rewrite <- (zsum_digits 2 n v) by lia.
  rewrite <- !zsum_mul_l, <- zsum_sub, <- zsum_add. apply zsum_ext. intros j _.
  destruct (bit_01 v j) as [-> | ->]; ring.
Qed.

(** bp.go 104-332: the answer of Verify on the output of Prove, for every integer secret. *)
Lemma honest_run : forall k Gt H g h v rnd pf gam,
  let n := (2 ^ k)%nat in
  Prove G HO v (mkBPParams (Z.of_nat n) Gt H (tab n g) (tab n h)) rnd = Ok (pf, gam) ->
  exists res, Verify G HO pf = Ok res /\
    (res = true <-> let '(y, z) := HashBP G HO (pA pf) (pS pf) in
       gScale G (gGen G) (z * z * v) = gScale G (gGen G) (z * z * (v mod 2 ^ Z.of_nat n))).
Proof.
  intros k Gt H g h v rnd pf gam n HP.
  rewrite (Prove_vec _ _ _ (tab n (fun i => (v / 2 ^ Z.of_nat i) mod 2))) in HP by first [exact (N_pos HL)|apply Decompose_tab].
  rewrite computeAR_tab in HP by (intros; apply bit_01). cbn [nil_slice] in HP.
  apply honest_vec in HP. destruct HP as (_ & _ & _ & _ & _ & _ & _ & _ & _ & r & Hr & Hiff).
  exists r. split; [exact Hr|]. rewrite Hiff. destruct (HashBP G HO (pA pf) (pS pf)) as [y z].
  fold n. rewrite t0Z_bits. rewrite !(scale_plus HL).
  split; intros He; [apply (add_cancel_r HL) in He; exact He | rewrite He; reflexivity].
Qed.
End BPProofs.
