(** C15, C16: aggregated range proofs (multibp.go). *)
From Verif Require Import GoBase Out Json GroupIface Vector BIP BP MultiBP MultiPrint NumTh Alg VectorProofs BIPProofs BPProofs Toy PropBP PropZK Roots.
From Coq Require Import Setoid Morphisms Znumtheory.

(** ** C16: the number of values must divide N, for every group (no law needed), hash and draws *)
Lemma concatBits_cases : forall bits l, (exists a r, concatBits l bits = Ok (a, r) /\ length a = (length l * Z.to_nat bits)%nat) \/ concatBits l bits = Panic.
Proof.
  intros bits. induction l as [|s t IH]; cbn [concatBits]; [left; exists [], []; auto|].
  unfold Decompose, make_len. destruct (bits <? 0); [right; reflexivity|]. cbn [bind].
  set (d := decompose_loop (Z.to_nat bits) s 2).
  assert (Hd : forall n x u, length (decompose_loop n x u) = n) by (induction n; intros; cbn; auto).
  destruct (computeAR d); destruct IH as [(a & r & -> & Hl) | ->]; cbn [bind]; auto; left;
    eexists; eexists; (split; [reflexivity|]); rewrite app_length, ?repeat_length, Hl; unfold d; rewrite Hd; cbn [length]; lia.
Qed.
Lemma zPow2Vec_None : forall G z p m n, (length p * m < n)%nat -> In None (zPow2Vec G z p m n).
Proof.
  intros G z p m n Hlt. unfold zPow2Vec.
  assert (Hl : forall l, length (concat (map (zPow2Block G z p) l)) = (length p * length l)%nat).
  { induction l as [|j t IH]; cbn [map concat length]; [lia|]. rewrite app_length, IH. unfold zPow2Block. rewrite map_length. lia. }
  apply in_or_app. right. rewrite Hl, seq_length. destruct (n - length p * m)%nat eqn:En; [lia|]. left. reflexivity.
Qed.
Lemma mapM_deref_None : forall {A} (l : list (option A)), In None l -> mapM deref l = Panic.
Proof.
  induction l as [|[x|] t IH]; intros H; [destruct H| |reflexivity]. cbn [mapM deref bind].
  destruct H as [H|H]; [discriminate|]. rewrite IH by exact H. reflexivity.
Qed.
Lemma commitVector_cases : forall G n aL aR g h R, (exists X, commitVector_loop G n aL aR g h R = Ok X) \/ commitVector_loop G n aL aR g h R = Panic.
Proof.
  induction n as [|n IH]; intros; cbn [commitVector_loop]; [left; eauto|].
  destruct aL; [right; reflexivity|]. destruct aR; [right; reflexivity|]. destruct g; [right; reflexivity|].
  destruct h; [right; reflexivity|]. apply IH.
Qed.

Theorem C16_count_must_divide : forall G HO secrets params gam rnd,
  let m := Z.of_nat (length secrets) in
  (m = 0 \/ bpN params mod m <> 0) -> MultiProve G HO secrets params gam rnd = Panic.
Proof.
  intros G HO secrets params gam rnd m Hm. unfold MultiProve. fold m. unfold goDiv.
  destruct (m =? 0) eqn:E0; [reflexivity|]. apply Z.eqb_neq in E0. destruct Hm as [Hm|Hm]; [contradiction|]. cbn [bind].
  unfold make_len at 1. destruct (bpN params <? 0) eqn:En; [reflexivity|]. apply Z.ltb_ge in En. cbn [bind].
  unfold randInt at 1. destruct (gN G <=? 0); [reflexivity|]. cbn [bind].
  assert (Hmp : 0 < m) by (unfold m in *; lia).
  assert (Hq : Z.quot (bpN params) m = bpN params / m) by (apply Z.quot_div_nonneg; lia).
  destruct (concatBits_cases (Z.quot (bpN params) m) secrets) as [(a & r & -> & _) | ->]; [|reflexivity]. cbn [bind].
  unfold commitVector.
  match goal with |- context [commitVector_loop ?x1 ?x2 ?x3 ?x4 ?x5 ?x6 ?x7] =>
    destruct (commitVector_cases x1 x2 x3 x4 x5 x6 x7) as [[X ->] | ->]; [|reflexivity] end. cbn [bind].
  unfold sampleRandomVector, make_len. replace (bpN params <? 0) with false by (symmetry; apply Z.ltb_ge; lia). cbn [bind].
  match goal with |- context [commitVector_loop ?x1 ?x2 ?x3 ?x4 ?x5 ?x6 ?x7] =>
    destruct (commitVector_cases x1 x2 x3 x4 x5 x6 x7) as [[Y ->] | ->]; [|reflexivity] end. cbn [bind].
  destruct (HashBP G HO X Y) as [y z]. unfold powerOf, make_len.
  replace (bpN params <? 0) with false by (symmetry; apply Z.ltb_ge; lia). cbn [bind].
  rewrite Hq. assert (Hb : 0 <= bpN params / m) by (apply Z.div_pos; lia).
  replace (bpN params / m <? 0) with false by (symmetry; apply Z.ltb_ge; lia). cbn [bind].
  unfold VectorConvertToBig, make_len. replace (bpN params <? 0) with false by (symmetry; apply Z.ltb_ge; lia). cbn [bind].
  unfold slice_to. destruct (Nat.leb _ _); [|reflexivity]. cbn [bind]. destruct (Nat.leb _ _); [|reflexivity]. cbn [bind].
  unfold VectorCopy, make_len. replace (bpN params <? 0) with false by (symmetry; apply Z.ltb_ge; lia). cbn [bind].
  rewrite mapM_deref_None; [reflexivity|]. apply zPow2Vec_None.
  assert (Hpl : forall n c x M, length (powerOf_loop n c x M) = n) by (induction n; intros; cbn; auto).
  rewrite Hpl. pose proof (Z.div_mod (bpN params) m E0). pose proof (Z.mod_pos_bound (bpN params) m Hmp).
  assert (Hlt : bpN params / m * m < bpN params) by lia.
  apply Nat2Z.inj_lt. rewrite Nat2Z.inj_mul, !Z2Nat.id by lia. fold m. lia.
Qed.

(** ** C15 *)
Section Multi.
Context (G : Grp) (HO : Oracles) (HL : GrpLaws G).
Local Notation E := (E G).
Local Notation N := (gN G).
Local Notation gs := (gsum (G:=G)).

Lemma tab_app : forall {A} n m (f : nat -> A), tab (n + m) f = tab n f ++ tab m (fun i => f (n + i)%nat).
Proof.
  induction n as [|n IH]; intros; [reflexivity|]. cbn [plus]. rewrite !tab_S, IH. reflexivity.
Qed.
Lemma blk_hd : forall b i, (i < b)%nat -> (i / b = 0)%nat /\ (i mod b = i)%nat.
Proof. intros. split; [apply Nat.div_small|apply Nat.mod_small]; assumption. Qed.
Lemma blk_tl : forall b i, (0 < b)%nat -> ((b + i) / b = S (i / b))%nat /\ ((b + i) mod b = i mod b)%nat.
Proof.
  intros. replace (b + i)%nat with (i + 1 * b)%nat by lia. split; [rewrite Nat.div_add by lia; lia|apply Nat.mod_add; lia].
Qed.
Lemma concat_blocks : forall {A} b m (F : nat -> nat -> A), (0 < b)%nat ->
  concat (map (fun j => tab b (F j)) (seq 0 m)) = tab (m * b) (fun i => F (i / b)%nat (i mod b)%nat).
Proof.
  intros A b m F Hb. change (map (fun j => tab b (F j)) (seq 0 m)) with (tab m (fun j => tab b (F j))). revert F.
  induction m as [|m IH]; intros F; [reflexivity|]. rewrite tab_S. cbn [concat Nat.mul].
  rewrite tab_app. f_equal.
  - apply tab_ext. intros i Hi. destruct (blk_hd b i Hi) as [-> ->]. reflexivity.
  - rewrite (IH (fun j => F (S j))). apply tab_ext. intros i _. destruct (blk_tl b i Hb) as [-> ->]. reflexivity.
Qed.
Lemma gsum_blocks : forall b m (f : nat -> E),
  gs (m * b) f = gs m (fun j => gs b (fun i => f (j * b + i)%nat)).
Proof.
  induction m as [|m IH]; intros f; [reflexivity|]. cbn [gsum]. rewrite <- IH.
  replace (S m * b)%nat with (m * b + b)%nat by lia. apply (gsum_app HL).
Qed.
Lemma zsum_blocks : forall b m f, zsum (m * b) f = zsum m (fun j => zsum b (fun i => f (j * b + i)%nat)).
Proof.
  induction m as [|m IH]; intros f; [reflexivity|]. cbn [zsum]. rewrite <- IH.
  replace (S m * b)%nat with (m * b + b)%nat by lia. apply zsum_app.
Qed.
Lemma blk_ix : forall b j i, (i < b)%nat -> ((j * b + i) / b = j)%nat /\ ((j * b + i) mod b = i)%nat.
Proof.
  intros b j i Hi. rewrite Nat.add_comm. split.
  - rewrite Nat.div_add by lia. rewrite Nat.div_small by assumption. reflexivity.
  - rewrite Nat.mod_add by lia. apply Nat.mod_small. assumption.
Qed.

Definition bitOf (s : nat -> Z) (b i : nat) : Z := (s (i / b)%nat / 2 ^ Z.of_nat (i mod b)) mod 2.
Lemma concatBits_tab : forall b, (0 < b)%nat -> forall m s,
  concatBits (tab m s) (Z.of_nat b) = Ok (tab (m * b) (bitOf s b), tab (m * b) (fun i => bitOf s b i - 1)).
Proof.
  intros b Hb. induction m as [|m IH]; intros s; [reflexivity|]. rewrite tab_S. cbn [concatBits].
  rewrite Decompose_tab. cbn [bind]. rewrite computeAR_tab by (intros; apply bit_01). rewrite IH. cbn [bind].
  cbn [Nat.mul]. rewrite !tab_app. do 3 f_equal; try (apply tab_ext; intros i Hi; unfold bitOf; destruct (blk_hd b i Hi) as [-> ->]; reflexivity);
    apply tab_ext; intros i _; unfold bitOf; destruct (blk_tl b i Hb) as [-> ->]; reflexivity.
Qed.
Definition wz (z : Z) (b i : nat) : Z := z ^ (2 + Z.of_nat (i / b)) * 2 ^ Z.of_nat (i mod b).
Lemma zPow2Vec_tab : forall b m z, (0 < b)%nat ->
  zPow2Vec G z (tab b (fun i => 2 ^ Z.of_nat i mod N)) m (m * b) =
  tab (m * b) (fun i => Some (((2 ^ Z.of_nat (i mod b) mod N) * (z ^ (2 + Z.of_nat (i / b)) mod N)) mod N)).
Proof.
  intros b m z Hb. unfold zPow2Vec, zPow2Block. cbv zeta.
  assert (Hc : concat (map (fun j => map (fun p => Some ((p * (z ^ (2 + Z.of_nat j) mod N)) mod N)) (tab b (fun i => 2 ^ Z.of_nat i mod N))) (seq 0 m))
    = tab (m * b) (fun i => Some (((2 ^ Z.of_nat (i mod b) mod N) * (z ^ (2 + Z.of_nat (i / b)) mod N)) mod N))).
  { rewrite <- (concat_blocks b m (fun j i => Some (((2 ^ Z.of_nat i mod N) * (z ^ (2 + Z.of_nat j) mod N)) mod N)) Hb).
    f_equal. apply map_ext. intros j. rewrite map_tab. reflexivity. }
  rewrite Hc, tab_length, Nat.sub_diag. apply app_nil_r.
Qed.
Lemma padTo_tab : forall n f, padTo n (tab n f) = tab n f.
Proof. intros. unfold padTo. rewrite tab_length, Nat.sub_diag. apply app_nil_r. Qed.
Lemma randTotal_tab : forall z m g, eqm N (randTotal G z (tab m g)) (zsum m (fun j => g j * z ^ (2 + Z.of_nat j))).
Proof.
  intros z m g. unfold randTotal. rewrite tab_length.
  replace (seq 0 m) with (tab m (fun i => i)) by (unfold tab; apply map_id). rewrite combine_tab.
  induction m as [|m IH]; [reflexivity|].
  rewrite tab_snoc, fold_left_app. cbn [fold_left fst snd zsum]. modn. apply Zplus_eqm; [exact IH|reflexivity].
Qed.

Definition deltaMZ (m b : nat) (y z : Z) : Z :=
  (z - z * z) * zsum (m * b) (fun i => y ^ Z.of_nat i) - zsum m (fun j => z ^ (3 + Z.of_nat j)) * zsum b (fun i => 2 ^ Z.of_nat i).
Lemma goDiv_ok : forall m b, (0 < m)%nat -> goDiv (Z.of_nat (m * b)) (Z.of_nat m) = Ok (Z.of_nat b).
Proof.
  intros. unfold goDiv. replace (Z.of_nat m =? 0) with false by (symmetry; apply Z.eqb_neq; lia).
  rewrite Nat2Z.inj_mul, Z.mul_comm, Z.quot_mul by lia. reflexivity.
Qed.
Lemma deltaMul_tab : forall m b y z, (0 < m)%nat -> exists d, deltaMul G (Z.of_nat (m * b)) y z (Z.of_nat m) = Ok d /\ eqm N d (deltaMZ m b y z).
Proof.
  intros m b y z Hm. unfold deltaMul. rewrite goDiv_ok by assumption. cbn [bind].
  rewrite !VectorCopy_tab, !(powerOf_tab _ HL). cbn [bind]. rewrite !(ScalarProduct_tab _ HL). cbn [deref bind].
  eexists. split; [reflexivity|]. unfold deltaMZ. modn. rewrite Nat2Z.id. apply Zminus_eqm.
  - rewrite Z.mul_comm. apply Zmult_eqm; [reflexivity|]. apply zsum_eqm. intros. modn. apply eqm_of_eq. ring.
  - match goal with |- context [zsum b (fun i => ?f i) mod N] => idtac end || idtac.
    set (sp := zsum b (fun i => 1 * (2 ^ Z.of_nat i mod N)) mod N).
    assert (Hsp : eqm N sp (zsum b (fun i => 2 ^ Z.of_nat i))).
    { unfold sp. rewrite Zmod_eqm. apply zsum_eqm. intros. modn. apply eqm_of_eq. ring. }
    clear Hm. induction m as [|m IH]; [reflexivity|]. rewrite seq_S, fold_left_app. cbn [fold_left zsum Nat.add].
    modn. rewrite IH, Hsp. apply eqm_of_eq. replace (Z.of_nat m + 3) with (3 + Z.of_nat m) by lia. ring.
Qed.
Lemma multiProd_tab : forall b z m hp, (0 < b)%nat -> forall k, (k <= m)%nat -> forall prod,
  multiProd_loop G (tab (m * b) hp) b (tab b (fun i => 2 ^ Z.of_nat i mod N)) z (seq 0 k) prod =
  Ok (gAdd G prod (gs k (fun j => gs b (fun i => gScale G (hp (j * b + i)%nat) (2 ^ Z.of_nat i + z ^ (2 + Z.of_nat j)))))).
Proof.
  intros b z m hp Hb.
  assert (Hgen : forall k s prod, (s + k <= m)%nat ->
    multiProd_loop G (tab (m * b) hp) b (tab b (fun i => 2 ^ Z.of_nat i mod N)) z (seq s k) prod =
    Ok (gAdd G prod (gs k (fun j => gs b (fun i => gScale G (hp ((s + j) * b + i)%nat) (2 ^ Z.of_nat i + z ^ (2 + Z.of_nat (s + j)))))))).
  { induction k as [|k IH]; intros s prod Hk; cbn [seq multiProd_loop].
    - cbn [gsum]. rewrite (add_0_r HL). reflexivity.
    - replace (m * b)%nat with ((s + 1) * b + (m - (s + 1)) * b)%nat by nia. rewrite slice_to_tab. cbn [bind].
      replace ((s + 1) * b)%nat with (s * b + b)%nat by lia. rewrite skipn_tab.
      replace (s * b + b + (m - (s + 1)) * b)%nat with (m * b)%nat by nia.
      rewrite VectorAddConst_tab. rewrite (VectorExp_tab _ HL). cbn [deref bind]. rewrite IH by lia. f_equal.
      replace (S k) with (1 + k)%nat by lia. rewrite (gsum_app HL). cbn [gsum]. rewrite (add_0_l HL).
      rewrite <- (l_assoc G HL). f_equal. f_equal.
      + apply gsum_ext. intros i Hi. rewrite Nat.add_0_r. apply (scale_eqm HL). modn. reflexivity.
      + apply gsum_ext. intros j _. apply gsum_ext. intros i _. replace (S s + j)%nat with (s + (1 + j))%nat by lia. reflexivity. }
  intros k Hk prod. rewrite Hgen by lia. reflexivity.
Qed.

(** the three checks of Verify one by one; only used in proofs (MultiVerify_checks, MultiVerifyOut_checks) *)
Definition MultiChecks (proof : MultiBulletProof G) : res (bool * bool * bool) :=
  let params := mParams proof in
  let md := gN G in
  let N := bpN params in
  let m := length (mVs proof) in
  bits <- goDiv N (Z.of_nat m) ;;
  let x := fst (HashBP G HO (mT1 proof) (mT2 proof)) in
  let '(y, z) := HashBP G HO (mA proof) (mS proof) in
  let zSquared := (z * z) mod md in
  let xSquared := (x * x) mod md in
  hp <- updateGenerators G (bpHh params) y N ;;
  tp <- deref (mTprime proof) ;; tx <- deref (mTaux proof) ;;
  let lhs := PedersenCommit G tp tx (bpH params) in
  powersOfz <- powerOf G z (Z.of_nat m) ;;
  let rhs0 := fold_left (fun r vp => gAdd G r (gScale G (fst vp) (zSquared * snd vp)))
                        (combine (mVs proof) powersOfz) (gId G) in
  d <- deltaMul G N y z (Z.of_nat m) ;;
  let rhs1 := gAdd G rhs0 (gBase G d) in
  let T1x := gScale G (mT1 proof) x in
  let T2x2 := gScale G (mT2 proof) xSquared in
  let rhs := gAdd G (gAdd G rhs1 T1x) T2x2 in
  let c65 := gEq G rhs lhs in
  let Sx := gScale G (mS proof) x in
  let ASx := gAdd G (mA proof) Sx in
  let mz := md - z in
  vmz <- VectorCopy mz N ;;
  let gpmz := VectorExp G (bpGg params) vmz in
  vz <- VectorCopy z N ;;
  vy <- powerOf G y N ;;
  let zyn := nil_slice (VectorMul vy vz md) in
  hpExp <- deref (VectorExp G hp zyn) ;;
  powersOfTwo <- powerOf G 2 bits ;;
  prod <- multiProd_loop G hp (Z.to_nat bits) powersOfTwo z (seq 0 m) (gId G) ;;
  let tail := gAdd G hpExp prod in
  gpmz' <- deref gpmz ;;
  let lP := gAdd G (gAdd G ASx gpmz') tail in
  mu <- deref (mMu proof) ;;
  let rP0 := gScale G (bpH params) mu in
  let rP := gAdd G rP0 (ipP (mIPP proof)) in
  let c67 := gIsId G (gSub G rP lP) in
  ok <- ipVerify G HO (mIPP proof) ;;
  Ok (c65, c67, ok).
Lemma MultiVerify_checks : forall pf, MultiVerify G HO pf = ('(a, b, c) <- MultiChecks pf ;; Ok (a && b && c)).
Proof.
  intros pf. unfold MultiVerify, MultiChecks.
  destruct (goDiv _ _); try reflexivity. cbn [bind]. destruct (HashBP G HO (mA pf) (mS pf)) as [y z].
  destruct (updateGenerators _ _ _ _); try reflexivity. cbn [bind]. destruct (mTprime pf); try reflexivity. cbn [deref bind].
  destruct (mTaux pf); try reflexivity. cbn [deref bind]. destruct (powerOf _ z _); try reflexivity. cbn [bind].
  destruct (deltaMul _ _ _ _ _); try reflexivity. cbn [bind]. destruct (VectorCopy (_ - _) _); try reflexivity. cbn [bind].
  destruct (VectorCopy z _); try reflexivity. cbn [bind]. destruct (powerOf _ y _); try reflexivity. cbn [bind].
  destruct (deref _); try reflexivity. cbn [bind]. destruct (powerOf _ 2 _); try reflexivity. cbn [bind].
  destruct (multiProd_loop _ _ _ _ _ _ _); try reflexivity. cbn [bind]. destruct (deref _); try reflexivity. cbn [bind].
  destruct (mMu pf); try reflexivity. cbn [deref bind]. destruct (ipVerify _ _ _); reflexivity.
Qed.
Lemma MultiVerifyOut_checks : forall pf,
  snd (MultiVerifyOut G HO pf) = MultiVerify G HO pf /\
  (forall a b c, MultiChecks pf = Ok (a, b, c) <-> MultiVerifyOut G HO pf = ([Check65 a; Check67 b; Check68 c], Ok (a && b && c))) /\
  (forall r, snd (MultiVerifyOut G HO pf) = Ok r -> exists a b c, MultiChecks pf = Ok (a, b, c)) /\
  ((forall r, snd (MultiVerifyOut G HO pf) <> Ok r) -> fst (MultiVerifyOut G HO pf) = [] \/ (exists a, fst (MultiVerifyOut G HO pf) = [Check65 a]) \/
     (exists a b, fst (MultiVerifyOut G HO pf) = [Check65 a; Check67 b])).
Proof.
  assert (D : forall (o : list CheckLine) (q : res bool) (r : res (bool * bool * bool)), (o = [] \/ (exists a, o = [Check65 a]) \/ exists a b, o = [Check65 a; Check67 b]) ->
    (forall b, q <> Ok b) -> (forall b, r <> Ok b) -> q = bind r (fun '(a, b, c) => Ok (a && b && c)) ->
    q = bind r (fun '(a, b, c) => Ok (a && b && c)) /\ (forall a b c, r = Ok (a, b, c) <-> (o, q) = ([Check65 a; Check67 b; Check68 c], Ok (a && b && c))) /\
    (forall b, q = Ok b -> exists a b c, r = Ok (a, b, c)) /\ ((forall b, q <> Ok b) -> o = [] \/ (exists a, o = [Check65 a]) \/ exists a b, o = [Check65 a; Check67 b])).
  { intros o q r Ho Hq Hr He. split; [exact He|]. split; [|split; [intros b Hb; destruct (Hq b Hb)|intros _; exact Ho]].
    intros a b c. split; [intros H; destruct (Hr _ H)|intros H; injection H as _ H; destruct (Hq _ H)]. }
  Ltac die D := apply D; [first [left; reflexivity|right; left; eexists; reflexivity|right; right; do 2 eexists; reflexivity]|discriminate|discriminate|reflexivity].
  intros pf. rewrite MultiVerify_checks. unfold MultiVerifyOut, MultiChecks. 
  rewrite obind_quiet. destruct (goDiv _ _); try die D. cbn [bind]. destruct (HashBP G HO (mA pf) (mS pf)) as [y z].
  rewrite obind_quiet. destruct (updateGenerators _ _ _ _); try die D. cbn [bind]. rewrite obind_quiet. destruct (mTprime pf); try die D. cbn [deref bind].
  rewrite obind_quiet. destruct (mTaux pf); try die D. cbn [deref bind]. rewrite obind_quiet. destruct (powerOf _ z _); try die D. cbn [bind].
  rewrite obind_quiet. destruct (deltaMul _ _ _ _ _); try die D. cbn [bind]. unfold say at 1. rewrite obind_ok. cbn [app].
  rewrite obind_quiet. destruct (VectorCopy (_ - _) _); try die D. cbn [bind].
  rewrite obind_quiet. destruct (VectorCopy z _); try die D. cbn [bind]. rewrite obind_quiet. destruct (powerOf _ y _); try die D. cbn [bind].
  rewrite obind_quiet. destruct (deref (VectorExp _ _ (nil_slice _))); try die D. cbn [bind]. rewrite obind_quiet. destruct (powerOf _ 2 _); try die D. cbn [bind].
  rewrite obind_quiet. destruct (multiProd_loop _ _ _ _ _ _ _); try die D. cbn [bind]. rewrite obind_quiet. destruct (deref (VectorExp _ _ _)); try die D. cbn [bind].
  rewrite obind_quiet. destruct (mMu pf); try die D. cbn [deref bind]. unfold say at 1. rewrite obind_ok. cbn [app].
  rewrite obind_quiet. destruct (ipVerify _ _ _); try die D. cbn [bind say quiet obind app fst snd].
  split; [reflexivity|]. split; [|split].
  - intros ca cb cc. split; intros H; injection H; intros; subst; reflexivity.
  - intros r _. do 3 eexists. reflexivity.
  - intros H. destruct (H _ eq_refl).
Qed.

(** coefficient of the i-th (updated) H generator in the mismatch between prover and verifier *)
Definition defectCoef (z : Z) (b i : nat) : Z :=
  z ^ (2 + Z.of_nat (i / b)) * 2 ^ Z.of_nat (i mod b) - (2 ^ Z.of_nat (i mod b) + z ^ (2 + Z.of_nat (i / b))).

Lemma multi_honest : forall k m b Gt H g h s gam rnd pf gammas,
  (m * b = 2 ^ k)%nat -> (0 < m)%nat ->
  MultiProve G HO (tab m s) (mkBPParams (Z.of_nat (m * b)) Gt H (tab (m * b) g) (tab (m * b) h)) gam rnd = Ok (pf, gammas) ->
  (forall j, (j < m)%nat -> 0 <= s j < 2 ^ Z.of_nat b) ->
  let y := fst (HashBP G HO (mA pf) (mS pf)) in
  let z := snd (HashBP G HO (mA pf) (mS pf)) in
  exists yinv r, (forall j, (j < m * b)%nat -> eqm N (y ^ Z.of_nat j * yinv ^ Z.of_nat j) 1) /\
    MultiChecks pf = Ok (true, r, true) /\
    (r = true <-> gAdd G (gs (m * b) g) (gs (m * b) (fun i => gScale G (h i) (yinv ^ Z.of_nat i * defectCoef z b i))) = gId G).
Proof.
  intros k m b Gt H g h s gam rnd pf gammas Hmb Hm HP Hs.
  assert (Hn0 : (0 < m * b)%nat) by (rewrite Hmb; pose proof (Nat.pow_nonzero 2 k); lia).
  assert (Hb : (0 < b)%nat) by nia.
  remember (m * b)%nat as n eqn:En. rewrite En in Hn0.
  assert (Hn' : exists n', n = S n') by (exists (pred n); lia). destruct Hn' as [n' Hn'].
  pose proof (l_order G HL) as HN.
  unfold MultiProve in HP. cbn [bpN bpH bpGg bpHh] in HP. rewrite tab_length in HP.
  rewrite En in HP. rewrite goDiv_ok in HP by assumption. cbn [bind] in HP. rewrite make_len_nat in HP. cbn [bind] in HP.
  rewrite (randInt_pos _ _ (N_pos HL)) in HP. cbn [bind] in HP.
  rewrite concatBits_tab in HP by assumption. cbn [bind] in HP. rewrite !padTo_tab in HP. rewrite <- En in HP.
  rewrite (commitVector_tab G HL) in HP. cbn [bind] in HP.
  unfold sampleRandomVector in HP. rewrite make_len_nat in HP. cbn [bind] in HP.
  change (map (r_sL rnd) (seq 0 n)) with (tab n (r_sL rnd)) in HP.
  change (map (r_sR rnd) (seq 0 n)) with (tab n (r_sR rnd)) in HP.
  rewrite (commitVector_tab G HL) in HP. cbn [bind] in HP.
  set (aL := bitOf s b) in *.
  set (A := gAdd G (gScale G H (r_alpha rnd)) _) in *.
  set (Sg := gAdd G (gScale G H (r_rho rnd)) _) in *.
  destruct (HashBP G HO A Sg) as [y z] eqn:Hyz.
  rewrite !(powerOf_tab _ HL) in HP. cbn [bind] in HP.
  replace (zPow2Vec G z (tab b (fun i => 2 ^ Z.of_nat i mod N)) m n) with
    (tab n (fun i => Some (((2 ^ Z.of_nat (i mod b) mod N) * (z ^ (2 + Z.of_nat (i / b)) mod N)) mod N))) in HP
    by (rewrite En; symmetry; apply zPow2Vec_tab; assumption).
  rewrite (mapM_tab deref n _ (fun i => ((2 ^ Z.of_nat (i mod b) mod N) * (z ^ (2 + Z.of_nat (i / b)) mod N)) mod N)) in HP by reflexivity.
  vnorm0 HL HP.
  match type of HP with context [PedersenCommit G (?t mod N) (r_tau1 rnd) H] => set (t1 := t) in * end.
  match type of HP with context [PedersenCommit G ?t (r_tau2 rnd) H] => set (t2 := t) in * end.
  set (T1 := PedersenCommit G (t1 mod N) (r_tau1 rnd) H) in *.
  set (T2 := PedersenCommit G t2 (r_tau2 rnd) H) in *.
  set (x := fst (HashBP G HO T1 T2)) in *.
  match type of HP with context [ScalarProduct G (tab n ?f) (tab n ?f')] => set (l := f) in *; set (r := f') in * end.
  rewrite (ScalarProduct_tab G HL), tab_length in HP.
  destruct (updateGenerators G (tab n h) y (Z.of_nat n)) as [hp| | |] eqn:Hhp; try discriminate. cbn [bind] in HP.
  destruct (updateGenerators_ok G HL n' h y hp) as (i & -> & Hyi & _); [rewrite <- Hn'; exact Hhp|].
  rewrite <- Hn' in Hhp, HP.
  unfold setupInnerProduct in HP. replace (Z.of_nat n <=? 0) with false in HP by (symmetry; apply Z.leb_gt; lia).
  cbn [bind] in HP. destruct (gMap G (str_bytes SEEDU)) as [u| | |] eqn:Hu; try discriminate. cbn [bind] in HP.
  unfold commitInnerProduct in HP. rewrite !(VectorExp_tab G HL) in HP. cbn [bind deref] in HP.
  destruct (proveInnerProduct _ _ _ _ _ _ _ _) as [ipf| | |] eqn:Hip; try discriminate. cbn [bind] in HP.
  rewrite Hmb in Hip. apply (ip_honest G HO HL) in Hip.
  destruct Hip as (c' & xi & ires & Hc' & HipP & HipC & HipPar & HlL & HlR & Hxi & Hiv & Hires).
  rewrite <- Hmb in Hc', HipP, HipPar, Hxi, Hires.
  injection HP as <- _. injection Hc' as <-.
  cbn [mA mS]. rewrite Hyz. cbn [fst snd].
  set (pf := mkMultiBulletProof _ _ _ _ _ _ _ _ _ _).
  exists i.
  destruct (deltaMul_tab m b y z Hm) as (d & Hd & Hdq). rewrite <- En in Hd.
  remember (MultiChecks pf) as V eqn:HV. unfold MultiChecks in HV.
  cbn [pf mParams mVs mT1 mT2 mA mS mTprime mTaux mMu mIPP bpN bpGg bpHh bpH] in HV.
  replace (length (map (fun sg : Z * Z => PedersenCommit G (fst sg) (snd sg) H) (combine (tab m s) (map gam (seq 0 m))))) with m in HV
    by (rewrite map_length, combine_length, tab_length, map_length, seq_length; lia).
  rewrite En in HV. rewrite goDiv_ok in HV by assumption. rewrite <- En in HV. cbn [bind] in HV.
  rewrite Hyz, Hhp in HV. cbn [bind deref] in HV. rewrite Hd in HV. rewrite !(powerOf_tab _ HL) in HV. cbn [bind] in HV.
  rewrite !VectorCopy_tab in HV. cbn [bind] in HV.
  change (map gam (seq 0 m)) with (tab m gam) in HV.
  rewrite combine_tab, map_tab, combine_tab in HV. cbn [fst snd] in HV.
  rewrite (VectorMul_tab n) in HV. cbn [nil_slice] in HV. rewrite !(VectorExp_tab _ HL) in HV. cbn [deref bind] in HV.
  rewrite Nat2Z.id in HV. pose proof (multiProd_tab b z m (fun j => gScale G (h j) (i ^ Z.of_nat j)) Hb m (le_n m) (gId G)) as Hmp.
  rewrite <- En in Hmp. rewrite Hmp in HV. cbn [bind] in HV. fold x in HV.
  rewrite Hiv in HV. cbn [bind] in HV.
  match type of HV with _ = Ok (?u, ?v, ires) => set (c65 := u) in *; set (c67 := v) in * end.
  exists c67. split; [intros j Hj; apply Hyi; lia|].
  assert (Hi1 : ires = true).
  { apply Hires. unfold ipCom. rewrite (scale_mod HL), (gsum_add HL). reflexivity. }
  rewrite Hi1 in HV.
  (* the inner product *)
  set (w := fun j => z ^ (2 + Z.of_nat (j / b)) * 2 ^ Z.of_nat (j mod b)).
  assert (Hl : forall j, eqm N (l j) (aL j - z + r_sL rnd j * x)) by (intros; unfold l; modn; apply eqm_of_eq; ring).
  assert (Hr : forall j, eqm N (r j) (y ^ Z.of_nat j * (z + (aL j - 1) + r_sR rnd j * x) + w j)) by (intros; unfold r, w; modn; apply eqm_of_eq; ring).
  assert (H65 : c65 = true).
  { apply (l_eq G HL). rewrite (fold_left_gsum G HL (fun vp : E * Z => gScale G (fst vp) ((z * z) mod N * snd vp)) m). cbn [fst snd].
    assert (Hth : eqm N (zsum n (fun j => l j * r j))
       (zsum m (fun j => s j * z ^ (2 + Z.of_nat j)) + deltaMZ m b y z + t1 * x + t2 * (x * x))).
    { transitivity (zsum n (fun j => (aL j - z + r_sL rnd j * x) * (y ^ Z.of_nat j * (z + (aL j - 1) + r_sR rnd j * x) + w j))).
      { apply zsum_eqm. intros j _. rewrite Hl, Hr. reflexivity. }
      assert (H1 : eqm N t1 (zsum n (fun j => r_sL rnd j * (y ^ Z.of_nat j * (z + (aL j - 1)) + w j))
                             + zsum n (fun j => (aL j - z) * (y ^ Z.of_nat j * r_sR rnd j)))).
      { unfold t1. rewrite !Zmod_eqm. apply Zplus_eqm; apply zsum_eqm; intros j _; unfold w; modn; apply eqm_of_eq; ring. }
      assert (H2 : eqm N t2 (zsum n (fun j => r_sL rnd j * (y ^ Z.of_nat j * r_sR rnd j)))).
      { unfold t2. rewrite !Zmod_eqm. apply zsum_eqm; intros j _; modn; apply eqm_of_eq; ring. }
      assert (H0 : zsum n (fun j => (aL j - z) * (y ^ Z.of_nat j * (z + (aL j - 1)) + w j)) =
                   zsum m (fun j => s j * z ^ (2 + Z.of_nat j)) + deltaMZ m b y z).
      { transitivity (zsum n (fun j => (z - z * z) * y ^ Z.of_nat j) + zsum n (fun j => (aL j - z) * w j)).
        { rewrite <- zsum_add. apply zsum_ext. intros j _. unfold aL, bitOf.
          destruct (bit_01 (s (j / b)%nat) (j mod b)) as [-> | ->]; ring. }
        unfold deltaMZ. rewrite zsum_mul_l, <- En.
        assert (Hw : zsum n (fun j => (aL j - z) * w j) =
          zsum m (fun j => s j * z ^ (2 + Z.of_nat j)) - zsum m (fun j => z ^ (3 + Z.of_nat j)) * zsum b (fun i => 2 ^ Z.of_nat i)).
        { rewrite En, zsum_blocks, <- zsum_mul, <- zsum_sub. apply zsum_ext. intros j Hj.
          rewrite <- (Z.mod_small (s j) (2 ^ Z.of_nat b)) at 1 by (apply Hs; assumption).
          rewrite <- (zsum_digits 2 b (s j)) by lia. replace (z ^ (3 + Z.of_nat j)) with (z * z ^ (2 + Z.of_nat j)).
          2:{ replace (3 + Z.of_nat j) with (Z.succ (2 + Z.of_nat j)) by lia. rewrite Z.pow_succ_r by lia. reflexivity. }
          rewrite <- zsum_mul, <- zsum_mul_l, <- zsum_sub. apply zsum_ext. intros ii Hii. unfold aL, bitOf, w.
          destruct (blk_ix b j ii Hii) as [-> ->]. ring. }
        rewrite Hw. ring. }
      rewrite H1, H2, <- H0. apply eqm_of_eq. rewrite <- zsum_add, <- !zsum_mul, <- !zsum_add. apply zsum_ext. intros j _. ring. }
    unfold T1, T2, PedersenCommit.
    rewrite (gsum_ext m _ (fun j => gAdd G (gScale G (gGen G) (s j * z ^ (2 + Z.of_nat j))) (gScale G H (gam j * z ^ (2 + Z.of_nat j))))).
    2:{ intros j _. rewrite Z.pow_add_r by lia. change (z ^ 2) with (z * (z * 1)). glin HL; modn; apply eqm_of_eq; ring. }
    rewrite (gsum_add HL), !(gsum_base HL). rewrite !(base_scale HL), !(scale_mod HL).
    rewrite (scale_eqm HL _ _ _ Hth), (scale_eqm HL _ _ _ Hdq).
    pose proof (randTotal_tab z m gam) as Hrt.
    rewrite (scale_eqm HL H (r_tau2 rnd * (x * x) + r_tau1 rnd * x + randTotal G z (tab m gam))
      (r_tau2 rnd * (x * x) + r_tau1 rnd * x + zsum m (fun j => gam j * z ^ (2 + Z.of_nat j)))) by (rewrite Hrt; reflexivity).
    glin HL; modn; apply eqm_of_eq; ring. }
  rewrite H65 in HV. split; [exact HV|]. unfold c67. rewrite (l_isid G HL).
  assert (Hdef : gSub G (gAdd G (gScale G H ((r_rho rnd * x + r_alpha rnd) mod N)) (ipP ipf))
     (gAdd G (gAdd G (gAdd G A (gScale G Sg x)) (gs n (fun i0 => gScale G (g i0) (N - z))))
       (gAdd G (gs n (fun i0 => gScale G (gScale G (h i0) (i ^ Z.of_nat i0)) ((y ^ Z.of_nat i0 mod N * z) mod N)))
          (gAdd G (gId G) (gs m (fun j => gs b (fun i0 => gScale G (gScale G (h (j * b + i0)%nat) (i ^ Z.of_nat (j * b + i0))) (2 ^ Z.of_nat i0 + z ^ (2 + Z.of_nat j))))))))
   = gAdd G (gs n g) (gs n (fun i0 => gScale G (h i0) (i ^ Z.of_nat i0 * defectCoef z b i0)))).
  { rewrite HipP. unfold A, Sg.
    set (SA := gs n (fun i0 => gAdd G (gScale G (g i0) (aL i0 - 1)) _)).
    set (SS := gs n (fun i0 => gAdd G (gScale G (g i0) (r_sL rnd i0)) _)).
    set (Sl := gs n (fun i0 => gScale G (g i0) (l i0))). set (Sr := gs n (fun i0 => gScale G _ (r i0))).
    set (Sz := gs n (fun i0 => gScale G (g i0) (N - z))).
    set (Sh := gs n (fun j => gScale G _ ((y ^ Z.of_nat j mod N * z) mod N))).
    assert (HSb : gs m (fun j => gs b (fun i0 => gScale G (gScale G (h (j * b + i0)%nat) (i ^ Z.of_nat (j * b + i0))) (2 ^ Z.of_nat i0 + z ^ (2 + Z.of_nat j)))) =
       gs n (fun i0 => gScale G (gScale G (h i0) (i ^ Z.of_nat i0)) (2 ^ Z.of_nat (i0 mod b) + z ^ (2 + Z.of_nat (i0 / b))))).
    { rewrite En, gsum_blocks. apply gsum_ext. intros j Hj. apply gsum_ext. intros i0 Hi0. destruct (blk_ix b j i0 Hi0) as [-> ->]. reflexivity. }
    rewrite HSb. set (Sb := gs n (fun i0 => gScale G _ (2 ^ _ + _))).
    set (D1 := gs n g). set (D2 := gs n (fun i0 => gScale G (h i0) (_ * defectCoef z b i0))).
    assert (Hsum : gAdd G Sl Sr = gAdd G (gAdd G D1 D2) (gAdd G SA (gAdd G (gScale G SS x) (gAdd G Sz (gAdd G Sh Sb))))).
    { unfold SA, SS, Sl, Sr, Sz, Sh, Sb, D1, D2. rewrite <- (gsum_scale HL), <- !(gsum_add HL). apply gsum_ext. intros j Hj.
      rewrite (scale_eqm HL (g j) (l j) (aL j - z + r_sL rnd j * x)) by apply Hl.
      rewrite (scale_eqm HL _ (r j) _ (Hr j)). unfold w, defectCoef. cbv beta.
      rewrite (scale_eqm HL (g j) (N - z) (- z)).
      2:{ apply eqm_iff; [apply (N_pos HL)|]. exists 1. ring. }
      glin HL. modn.
      apply (eqm_diff1 G HL (y ^ Z.of_nat j * i ^ Z.of_nat j) ((aL j - 1) + r_sR rnd j * x)).
      - apply Hyi. lia.
      - ring. }
    rewrite Hsum. rewrite !(scale_mod HL). glin HL. }
  rewrite <- Hdef. reflexivity.
Qed.
End Multi.

Fixpoint gdot {G : Grp} (xs : list (E G)) (cs : list Z) : E G :=
  match xs, cs with
  | X :: xs', c :: cs' => gAdd G (gScale G X c) (gdot xs' cs')
  | _, _ => gId G
  end.
Lemma gdot_app : forall G (HL : GrpLaws G) n (g : nat -> E G) c m h d,
  gdot (tab n g ++ tab m h) (tab n c ++ tab m d) =
  gAdd G (gsum (G:=G) n (fun i => gScale G (g i) (c i))) (gsum (G:=G) m (fun i => gScale G (h i) (d i))).
Proof.
  intros G HL. assert (Hm : forall m h d, gdot (tab m h) (tab m d) = gsum (G:=G) m (fun i => gScale G (h i) (d i))).
  { induction m as [|m IH]; intros; [reflexivity|]. rewrite !tab_S. cbn [gdot]. rewrite IH.
    replace (S m) with (1 + m)%nat by lia. rewrite (gsum_app HL). cbn [gsum]. rewrite (add_0_l HL). reflexivity. }
  induction n as [|n IH]; intros.
  - cbn [app tab map seq gsum]. rewrite (add_0_l HL). apply Hm.
  - rewrite !tab_S. cbn [app gdot]. rewrite IH. replace (S n) with (1 + n)%nat by lia. rewrite (gsum_app HL). cbn [gsum].
    rewrite (add_0_l HL). apply (l_assoc G HL).
Qed.

(** The exact answer of MultiBulletProof.Verify on the output of MultiProve for in-range values: accepted iff a specific
    linear combination of the generators, in which every g_i has coefficient 1, is the identity. *)
Theorem C15_exact : forall G HO k bits Gt H Gg Hh secrets gam rnd pf gammas,
  GrpLaws G -> (length secrets * bits = 2 ^ k)%nat -> length Gg = (2 ^ k)%nat -> length Hh = (2 ^ k)%nat ->
  (forall s, In s secrets -> 0 <= s < 2 ^ Z.of_nat bits) ->
  MultiProve G HO secrets (mkBPParams (Z.of_nat (2 ^ k)) Gt H Gg Hh) gam rnd = Ok (pf, gammas) ->
  let y := fst (HashBP G HO (mA pf) (mS pf)) in
  let z := snd (HashBP G HO (mA pf) (mS pf)) in
  exists yinv r, (forall j, (j < 2 ^ k)%nat -> (y ^ Z.of_nat j * yinv ^ Z.of_nat j) mod gN G = 1) /\
    MultiVerify G HO pf = Ok r /\
    (r = true <-> gdot (Gg ++ Hh) (map (fun _ => 1) (seq 0 (2 ^ k)) ++
        map (fun i => yinv ^ Z.of_nat i * (z ^ (2 + Z.of_nat (i / bits)) * 2 ^ Z.of_nat (i mod bits) -
                       (2 ^ Z.of_nat (i mod bits) + z ^ (2 + Z.of_nat (i / bits))))) (seq 0 (2 ^ k))) = gId G).
Proof.
  intros G HO k bits Gt H Gg Hh secrets gam rnd pf gammas HL Hmb HlG HlH Hs HP y z.
  assert (Hm : (0 < length secrets)%nat).
  { destruct (length secrets); [pose proof (Nat.pow_nonzero 2 k); lia|lia]. }
  rewrite <- Hmb in HlG, HlH, HP.
  rewrite (tab_nth 0 secrets), (tab_nth' (gId G) Gg _ HlG), (tab_nth' (gId G) Hh _ HlH) in HP.
  rewrite tab_length in HP. rewrite <- Hmb. rewrite (tab_nth' (gId G) Gg _ HlG), (tab_nth' (gId G) Hh _ HlH).
  destruct (multi_honest G HO HL k (length secrets) bits Gt H _ _ _ gam rnd pf gammas Hmb Hm HP) as (yi & r & Hy & Hv & Hi).
  { intros j Hj. apply Hs. apply nth_In. exact Hj. }
  assert (Hv' : MultiVerify G HO pf = Ok r) by (rewrite MultiVerify_checks, Hv; cbn [bind andb]; rewrite andb_true_r; reflexivity).
  clear Hv. rename Hv' into Hv.
  exists yi, r. split.
  { intros j Hj. destruct (Hy j Hj) as [He]. rewrite Z.mod_1_l in He by apply (l_order G HL). exact He. }
  split; [exact Hv|]. rewrite Hi. clear Hi.
  match goal with |- _ <-> gdot (tab ?n ?g ++ tab ?n ?h) (map ?c (seq 0 ?n) ++ map ?d (seq 0 ?n)) = _ =>
    change (map c (seq 0 n)) with (tab n c); change (map d (seq 0 n)) with (tab n d);
    rewrite (gdot_app G HL n g c n h d) end.
  rewrite (gsum_ext _ (fun i => gScale G (nth i Gg (gId G)) 1) (fun i => nth i Gg (gId G))) by (intros; apply (scale_1 HL)).
  reflexivity.
Qed.

(** Hence the listed claim fails: for a fixed size, all but at most 2^k + 1 of the residues the challenge can take modulo the order
    make Verify reject what MultiProve returns, whatever the values, the randomness and the hash function are. The last generator
    must not be the identity. (The two challenges of HashBP are equal.) *)
Definition defectTerm (n b : nat) (hl : nat -> Z) (i : nat) (c : Z) : Z :=
  hl i * 2 ^ Z.of_nat (i mod b) * c ^ Z.of_nat (n - 1 - i + 2 + i / b) +
  (- hl i * 2 ^ Z.of_nat (i mod b)) * c ^ Z.of_nat (n - 1 - i) + (- hl i) * c ^ Z.of_nat (n - 1 - i + 2 + i / b).
Definition defectPoly (n b : nat) (gl hl : nat -> Z) (c : Z) : Z :=
  zsum n gl * c ^ Z.of_nat (n - 1) + zsum n (fun i => defectTerm n b hl i c).
Lemma defectPoly_poly : forall n b gl hl, (0 < b)%nat -> (0 < n)%nat -> PolyFun (n + 1) (defectPoly n b gl hl).
Proof.
  intros n b gl hl Hb Hn.
  apply (poly_add (n + 1) (fun c => zsum n gl * c ^ Z.of_nat (n - 1)) (fun c => zsum n (fun i => defectTerm n b hl i c))); [apply poly_mono; lia|].
  apply poly_zsum. intros i Hi. assert (i / b <= i)%nat by (apply Nat.div_le_upper_bound; nia).
  exact (poly_add _ _ _ (poly_add _ _ _ (poly_mono (n + 1) (n - 1 - i + 2 + i / b) (hl i * 2 ^ Z.of_nat (i mod b)) ltac:(lia))
    (poly_mono (n + 1) (n - 1 - i) (- hl i * 2 ^ Z.of_nat (i mod b)) ltac:(lia))) (poly_mono (n + 1) (n - 1 - i + 2 + i / b) (- hl i) ltac:(lia))).
Qed.
Lemma last_nth : forall A (l : list A) d, last l d = nth (length l - 1) l d.
Proof.
  induction l as [|x [|y t] IH]; intros d; [reflexivity|reflexivity|]. change (last (x :: y :: t) d) with (last (y :: t) d). rewrite IH.
  cbn [length]. replace (S (S (length t)) - 1)%nat with (S (length t)) by lia. replace (S (length t) - 1)%nat with (length t) by lia. reflexivity.
Qed.
Lemma pow0 : forall k, (0 < k)%nat -> 0 ^ Z.of_nat k = 0.
Proof. intros k Hk. apply Z.pow_0_l. lia. Qed.
Lemma defectPoly_0 : forall n b gl hl, (0 < b)%nat -> (1 < n)%nat ->
  defectPoly n b gl hl 0 = - hl (n - 1)%nat * 2 ^ Z.of_nat ((n - 1) mod b).
Proof.
  intros n b gl hl Hb Hn. unfold defectPoly. rewrite pow0, Z.mul_0_r by lia. destruct n as [|n]; [lia|].
  cbn [zsum]. rewrite (zsum_ext n _ (fun i => 0 * 0)).
  2:{ intros i Hi. unfold defectTerm. rewrite !pow0 by lia. ring. }
  unfold defectTerm. replace (S n - 1)%nat with n by lia. replace (n - n)%nat with O by lia.
  rewrite zsum_mul_l, pow0 by lia. change (0 ^ Z.of_nat 0) with 1. ring.
Qed.
Theorem C15_refuted : forall G k bits Gt H Gg Hh ys,
  GrpPrime G -> 2 < gN G -> (0 < k)%nat -> length Gg = (2 ^ k)%nat -> length Hh = (2 ^ k)%nat -> last Hh (gId G) <> gId G ->
  NoDup ys ->
  (forall y, In y ys -> 0 <= y < gN G /\ exists HO secrets gam rnd pf gammas,
     (length secrets * bits = 2 ^ k)%nat /\ (forall s, In s secrets -> 0 <= s < 2 ^ Z.of_nat bits) /\
     MultiProve G HO secrets (mkBPParams (Z.of_nat (2 ^ k)) Gt H Gg Hh) gam rnd = Ok (pf, gammas) /\
     fst (HashBP G HO (mA pf) (mS pf)) mod gN G = y /\ MultiVerify G HO pf = Ok true) ->
  (length ys <= 2 ^ k + 1)%nat.
Proof.
  intros G k bits Gt H Gg Hh ys HG HN2 Hk HlG HlH Hlast Hnd Hys. pose proof (lp_laws G HG) as HL.
  set (n := (2 ^ k)%nat) in *.
  assert (Hn : (1 < n)%nat) by (unfold n; destruct k; [lia|]; cbn [Nat.pow]; pose proof (Nat.pow_nonzero 2 k); lia).
  set (lg := fun X => dlog G (gGen G) X).
  assert (Hlg : forall X, gScale G (gGen G) (lg X) = X) by (intros X; apply (proj2 (dlog_spec G HG _ (lp_gen G HG) X))).
  destruct ys as [|y0 ys0]; [cbn; lia|].
  assert (Hb : (0 < bits)%nat).
  { destruct (Hys y0 (or_introl eq_refl)) as (_ & _ & secrets & _ & _ & _ & _ & Hmb & _). destruct bits; [|lia]. rewrite Nat.mul_0_r in Hmb. lia. }
  set (gl := fun i => lg (nth i Gg (gId G))). set (hl := fun i => lg (nth i Hh (gId G))).
  apply (few_roots (gN G) (n + 1) (defectPoly n bits gl hl) (y0 :: ys0) (lp_prime G HG)); [apply defectPoly_poly; lia| |exact Hnd|].
  - rewrite defectPoly_0 by lia. intros H0. apply eqm_mod0 in H0.
    assert (Hp2 : forall j, ~ eqm (gN G) (2 ^ Z.of_nat j) 0).
    { intros j Hj. assert (H2 : ~ eqm (gN G) 2 0) by (intros He; apply eqm_mod0 in He; rewrite Z.mod_small in He by lia; lia).
      induction j as [|j IH].
      - apply eqm_mod0 in Hj. change (2 ^ Z.of_nat 0) with 1 in Hj. rewrite Z.mod_small in Hj by lia. lia.
      - rewrite Nat2Z.inj_succ, Z.pow_succ_r in Hj by lia. destruct (eqm_prime_mul0 _ _ _ (lp_prime G HG) Hj); tauto. }
    destruct (eqm_prime_mul0 _ _ _ (lp_prime G HG) H0) as [H1|H1]; [|exact (Hp2 _ H1)].
    apply Hlast. assert (HZ : nth (n - 1) Hh (gId G) = gId G).
    { rewrite <- (Hlg (nth (n - 1) Hh (gId G))). transitivity (gScale G (gGen G) 0); [|apply (l_scale0 G HL)]. apply (scale_eqm HL). unfold hl in H1.
      set (t := lg (nth (n - 1) Hh (gId G))) in *. clearbody t. transitivity (0 - (- t)); [apply eqm_of_eq; ring|]. rewrite H1. apply eqm_of_eq. ring. }
    rewrite last_nth, HlH. exact HZ.
  - intros y Hy. destruct (Hys y Hy) as (By & HO & secrets & gam & rnd & pf & gammas & Hmb & Hs & HP & Hyh & Hv). split; [exact By|].
    destruct (C15_exact G HO k bits Gt H Gg Hh secrets gam rnd pf gammas HL Hmb HlG HlH Hs HP) as (yi & r & Hyi & Hv' & Hi).
    rewrite Hv in Hv'. injection Hv' as <-. destruct Hi as [Hi _]. specialize (Hi eq_refl).
    assert (Hyz : snd (HashBP G HO (mA pf) (mS pf)) = fst (HashBP G HO (mA pf) (mS pf))) by reflexivity. rewrite Hyz in Hi. clear Hyz.
    set (y1 := fst (HashBP G HO (mA pf) (mS pf))) in *. fold n in Hi, Hyi.
    rewrite (tab_nth' (gId G) Gg _ HlG), (tab_nth' (gId G) Hh _ HlH) in Hi.
    match type of Hi with gdot (tab ?n ?g ++ tab ?n ?h) (map ?c (seq 0 ?n) ++ map ?d (seq 0 ?n)) = _ =>
      change (map c (seq 0 n)) with (tab n c) in Hi; change (map d (seq 0 n)) with (tab n d) in Hi;
      rewrite (gdot_app G HL n g c n h d) in Hi end.
    rewrite (gsum_ext n (fun i => gScale G (nth i Gg (gId G)) 1) (fun i => gScale G (gGen G) (gl i))) in Hi.
    2:{ intros i _. unfold gl. rewrite Hlg. apply (scale_1 HL). }
    match type of Hi with gAdd G _ (gsum n (fun i => gScale G (nth i Hh (gId G)) (@?d i))) = _ =>
      rewrite (gsum_ext n (fun i => gScale G (nth i Hh (gId G)) (d i)) (fun i => gScale G (gGen G) (hl i * d i))) in Hi end.
    2:{ intros i _. unfold hl. rewrite <- (scale_mul HL (gGen G)), Hlg. reflexivity. }
    rewrite !(gsum_base HL), <- (scale_plus HL) in Hi. pose proof (eq_trans Hi (eq_sym (l_scale0 G HL (gGen G)))) as Hi0. clear Hi. rename Hi0 into Hi. apply (gen_inj G HG) in Hi. apply eqm_intro in Hi.
    apply (proj1 (eqm_mod0 _ _)). unfold defectPoly, defectTerm.
    assert (Hyy : forall e, eqm (gN G) (y ^ e) (y1 ^ e)) by (intros e; apply eqm_pow; rewrite <- Hyh; apply Zmod_eqm).
    transitivity (y1 ^ Z.of_nat (n - 1) * 0); [|apply eqm_of_eq; ring]. rewrite <- Hi, Z.mul_add_distr_l.
    apply Zplus_eqm; [rewrite Hyy; apply eqm_of_eq; ring|]. rewrite <- zsum_mul_l. apply zsum_eqm. intros i Hin.
    assert (Hpi : eqm (gN G) (y1 ^ Z.of_nat (n - 1) * yi ^ Z.of_nat i) (y1 ^ Z.of_nat (n - 1 - i))).
    { replace (Z.of_nat (n - 1)) with (Z.of_nat (n - 1 - i) + Z.of_nat i) by lia. rewrite Z.pow_add_r by lia.
      transitivity (y1 ^ Z.of_nat (n - 1 - i) * (y1 ^ Z.of_nat i * yi ^ Z.of_nat i)); [apply eqm_of_eq; ring|].
      rewrite (eqm_intro _ (y1 ^ Z.of_nat i * yi ^ Z.of_nat i) 1); [apply eqm_of_eq; ring|].
      rewrite (Hyi i Hin). rewrite Z.mod_1_l; [reflexivity|lia]. }
    rewrite !Hyy. symmetry. set (w := 2 ^ Z.of_nat (i mod bits)).
    replace (Z.of_nat (n - 1 - i + 2 + i / bits)) with (Z.of_nat (n - 1 - i) + (2 + Z.of_nat (i / bits))) by lia.
    rewrite (Z.pow_add_r y1 (Z.of_nat (n - 1 - i))) by lia. set (q := y1 ^ (2 + Z.of_nat (i / bits))).
    transitivity (hl i * (y1 ^ Z.of_nat (n - 1) * yi ^ Z.of_nat i) * (q * w - (w + q))); [apply eqm_of_eq; ring|].
    rewrite Hpi. apply eqm_of_eq. ring.
Qed.
(** With a single 1-bit value the challenge plays no role: the honest proof is accepted iff the two generators are equal. *)
Theorem C15_one_bit : forall G HO Gt H g h v gam rnd pf gammas, GrpLaws G -> 0 <= v < 2 ->
  MultiProve G HO [v] (mkBPParams 1 Gt H [g] [h]) gam rnd = Ok (pf, gammas) ->
  (MultiVerify G HO pf = Ok true <-> g = h).
Proof.
  intros G HO Gt H g h v gam rnd pf gammas HL Hv HP.
  destruct (C15_exact G HO 0 1 Gt H [g] [h] [v] gam rnd pf gammas HL eq_refl eq_refl eq_refl) as (yi & r & _ & Hr & Hi); [|exact HP|].
  { intros s [<-|[]]. exact Hv. }
  rewrite Hr. transitivity (r = true); [split; congruence|]. rewrite Hi. cbn [Nat.pow seq map app gdot]. change (Z.of_nat (0 / 1)) with 0. change (Z.of_nat (0 mod 1)) with 0.
  change (yi ^ Z.of_nat 0) with 1. set (q := _ ^ (2 + 0)). replace (1 * (q * 2 ^ 0 - (2 ^ 0 + q))) with (-1) by ring.
  transitivity (gSub G g h = gId G).
  - assert (He : gSub G g h = gAdd G (gScale G g 1) (gAdd G (gScale G h (-1)) (gId G))) by (glin HL). rewrite He. reflexivity.
  - apply (sub_0_iff HL).
Qed.

(** ** Concrete cases: two 2-bit values, four generators, group Z/101; the honest proof is rejected *)
Definition toyMulti (secrets : list Z) : res bool :=
  '(pf, _) <- MultiProve toy toyO secrets toyParams (fun j => 40 + Z.of_nat j) toyRnd ;; MultiVerify toy toyO pf.
Example C15_case : toyMulti [1; 3] = Ok false /\ toyMulti [2] = Ok false. Proof. vm_compute. auto. Qed.
(** generators for which the honest proof of [1; 3] is accepted under exactly the challenges 34 and 38 (of at most 5) *)
Definition oneHash (y : Z) : Oracles := mkOracles (fun _ => [y]) (fun b => 1 + os2ip b mod 100).
Definition rareParams : BPParams toy :=
  mkBPParams (G:=toy) 4 (gGen toy) (gBase toy 9) (map (gBase toy) [12; 2; 3; 4]) (map (gBase toy) [5; 6; 7; 8]).
Definition rareRun (y : Z) : bool :=
  match ('(pf, _) <- MultiProve toy (oneHash y) [1; 3] rareParams (fun j => 40 + Z.of_nat j) toyRnd ;; MultiVerify toy (oneHash y) pf) with
  | Ok b => b
  | _ => false
  end.
Example C15_refuted_case : filter rareRun [1; 2; 34; 35; 38; 50] = [34; 38] /\ fst (HashBP toy (oneHash 34) (gId toy) (gId toy)) = 34 /\
  zv _ (last (bpHh rareParams) (gId toy)) <> zv _ (gId toy).
Proof. split; [vm_compute; reflexivity|]. split; [vm_compute; reflexivity|vm_compute; discriminate]. Qed.
Example C15_one_bit_case : map (fun h => match ('(pf, _) <- MultiProve toy toyO [1] (mkBPParams (G:=toy) 1 (gGen toy) (gBase toy 9) [gBase toy 12] [gBase toy h])
  (fun j => 40) toyRnd ;; MultiVerify toy toyO pf) with Ok b => b | _ => false end) [12; 13] = [true; false].
Proof. vm_compute. reflexivity. Qed.
Example C16_case : match toyMulti [1; 3; 2] with Panic => true | _ => false end = true /\ match toyMulti [] with Panic => true | _ => false end = true.
Proof. vm_compute. auto. Qed.

Print Assumptions C15_exact.
Print Assumptions C15_refuted.
Print Assumptions C15_one_bit.
Print Assumptions C16_count_must_divide.
