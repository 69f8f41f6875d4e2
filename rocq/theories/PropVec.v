(** C12-C14, C41: bit decomposition, vector helpers, Pedersen commitments. *)
From Verif Require Import GoBase Json GroupIface Vector BIP BP NumTh Alg VectorProofs BIPProofs PropBP Toy.
From Coq Require Import Znumtheory.

(** C12 *)
Theorem C12_decompose : forall x u l, 2 <= u -> 0 <= l ->
  exists ds, Decompose x u l = Ok ds /\ Z.of_nat (length ds) = l /\
    (forall i, (i < length ds)%nat -> 0 <= nth i ds 0 < u) /\
    zsum (length ds) (fun i => nth i ds 0 * u ^ Z.of_nat i) = x mod u ^ l.
Proof.
  intros x u l Hu Hl. unfold Decompose, make_len. replace (l <? 0) with false by (symmetry; apply Z.ltb_ge; lia).
  cbn [bind]. eexists. split; [reflexivity|]. rewrite decompose_loop_tab by lia. rewrite tab_length.
  split; [lia|]. split.
  - intros i Hi. rewrite nth_tab by assumption. apply Z.mod_pos_bound. lia.
  - rewrite <- (Z2Nat.id l Hl) at 2. rewrite <- (zsum_digits u) by lia. apply zsum_ext. intros i Hi.
    rewrite nth_tab by assumption. reflexivity.
Qed.
(** The digits are the only ones with that weighted sum, so for 0 <= x < u^l the expansion of x is unique. *)
Theorem C12_unique : forall u n (f g : nat -> Z), 2 <= u ->
  (forall i, (i < n)%nat -> 0 <= f i < u) -> (forall i, (i < n)%nat -> 0 <= g i < u) ->
  zsum n (fun i => f i * u ^ Z.of_nat i) = zsum n (fun i => g i * u ^ Z.of_nat i) ->
  forall i, (i < n)%nat -> f i = g i.
Proof.
  intros u. induction n as [|n IH]; intros f g Hu Hf Hg Hs i Hi; [lia|]. cbn [zsum] in Hs.
  assert (Hb : forall f, (forall i, (i < n)%nat -> 0 <= f i < u) -> 0 <= zsum n (fun i => f i * u ^ Z.of_nat i) < u ^ Z.of_nat n).
  { clear -Hu. induction n as [|n IH]; intros f Hf; [cbn; lia|]. cbn [zsum].
    specialize (IH f (fun i Hi => Hf i (Nat.lt_lt_succ_r _ _ Hi))). specialize (Hf n (Nat.lt_succ_diag_r n)).
    rewrite Nat2Z.inj_succ, Z.pow_succ_r by lia.
    pose proof (Z.pow_pos_nonneg u (Z.of_nat n) ltac:(lia) ltac:(lia)). nia. }
  pose proof (Hb f (fun i Hi => Hf i (Nat.lt_lt_succ_r _ _ Hi))) as B1.
  pose proof (Hb g (fun i Hi => Hg i (Nat.lt_lt_succ_r _ _ Hi))) as B2.
  assert (Hn : f n = g n).
  { destruct (Z.lt_trichotomy (f n) (g n)) as [Hlt|[He|Hgt]]; [|assumption|]; exfalso; nia. }
  destruct (Nat.eq_dec i n) as [->|Hne]; [assumption|].
  apply (IH f g Hu); [intros; apply Hf; lia|intros; apply Hg; lia| |lia]. rewrite Hn in Hs. lia.
Qed.
Theorem C12_negative_length : forall x u l, l < 0 -> Decompose x u l = Panic.
Proof. intros x u l Hl. unfold Decompose, make_len. apply Z.ltb_lt in Hl. rewrite Hl. reflexivity. Qed.

(** C13 *)
Theorem C13_computeAR : forall xs,
  ((forall x, In x xs -> x = 0 \/ x = 1) -> computeAR xs = Some (map (fun x => x - 1) xs)) /\
  ((exists x, In x xs /\ x <> 0 /\ x <> 1) -> computeAR xs = None).
Proof.
  intros xs. split.
  - induction xs as [|x xs IH]; intros H; [reflexivity|]. cbn [computeAR map]. rewrite IH by (intros; apply H; right; assumption).
    destruct (H x (or_introl eq_refl)) as [-> | ->]; reflexivity.
  - induction xs as [|x xs IH]; intros (v & Hin & H0 & H1); [destruct Hin|]. cbn [computeAR].
    destruct Hin as [<-|Hin].
    + destruct (computeAR xs); [|reflexivity]. apply Z.eqb_neq in H0, H1. rewrite H0, H1. reflexivity.
    + rewrite IH; [reflexivity|]. exists v. auto.
Qed.
(** For every integer secret: a_R = a_L - 1 and a_L o a_R = 0. *)
Theorem C13_prover_vectors : forall x N, 0 <= N ->
  exists aL aR, Decompose x 2 N = Ok aL /\ computeAR aL = Some aR /\ length aR = length aL /\
    forall i, (i < length aL)%nat -> nth i aR 0 = nth i aL 0 - 1 /\ nth i aL 0 * nth i aR 0 = 0.
Proof.
  intros x N HN. destruct (C12_decompose x 2 N ltac:(lia) HN) as (aL & HD & Hl & Hb & _).
  exists aL, (map (fun x => x - 1) aL). split; [exact HD|]. split.
  - apply C13_computeAR. intros v Hin. apply (In_nth _ _ 0) in Hin. destruct Hin as (i & Hi & <-).
    specialize (Hb i Hi). lia.
  - split; [apply map_length|]. intros i Hi. rewrite (nth_indep _ 0 (0 - 1)) by (rewrite map_length; assumption).
    rewrite (map_nth (fun x => x - 1)). split; [reflexivity|]. specialize (Hb i Hi).
    assert (nth i aL 0 = 0 \/ nth i aL 0 = 1) as [-> | ->] by lia; reflexivity.
Qed.

(** C14 *)
(** Componentwise specification: [r] is the vector of f a_i b_i reduced into [0,m). *)
Definition cwise (f : Z -> Z -> Z) (m : Z) (a b r : list Z) : Prop :=
  length r = length a /\ forall i, (i < length a)%nat -> 0 <= nth i r 0 < m /\ (exists k, nth i r 0 = f (nth i a 0) (nth i b 0) + k * m).

Lemma cwise_tab : forall f m a b, 0 < m -> length a = length b ->
  cwise f m a b (map2 (fun x y => (f x y) mod m) a b).
Proof.
  intros f m a b Hm Hl. rewrite (tab_nth 0 a) at 2. rewrite (tab_nth' 0 b (length a)) at 2 by congruence. rewrite map2_tab.
  split; [apply tab_length|]. intros i Hi. rewrite nth_tab by assumption. split; [apply Z.mod_pos_bound; assumption|].
  exists (- (f (nth i a 0) (nth i b 0) / m)). pose proof (Z.div_mod (f (nth i a 0) (nth i b 0)) m). lia.
Qed.

Theorem C14_vector_ops : forall m a b, 0 < m ->
  (length a = length b ->
     (exists r, VectorAdd a b m = Some r /\ cwise Z.add m a b r) /\
     (exists r, VectorSub a b m = Some r /\ cwise Z.sub m a b r) /\
     (exists r, VectorMul a b m = Some r /\ cwise Z.mul m a b r)) /\
  (length a <> length b -> VectorAdd a b m = None /\ VectorSub a b m = None /\ VectorMul a b m = None).
Proof.
  intros m a b Hm. unfold VectorAdd, VectorSub, VectorMul. split; intros Hl.
  - apply Nat.eqb_eq in Hl as Hl'. rewrite Hl'.
    split; [|split]; eexists; (split; [reflexivity|]).
    + apply (cwise_tab Z.add); assumption.
    + apply (cwise_tab Z.sub); assumption.
    + apply (cwise_tab Z.mul); assumption.
  - apply Nat.eqb_neq in Hl. rewrite Hl. auto.
Qed.
Theorem C14_scalar_ops : forall m a c, 0 < m ->
  (exists r, VectorScalarMul a (Some c) m = Ok r /\ cwise Z.mul m a (repeat c (length a)) r) /\
  cwise Z.add m a (repeat c (length a)) (VectorAddConst a c m) /\
  (forall n, 0 <= n -> VectorCopy c n = Ok (repeat c (Z.to_nat n))).
Proof.
  intros m a c Hm.
  assert (Hrep : forall f : Z -> Z -> Z, map (fun x => f x c mod m) a = map2 (fun x y => f x y mod m) a (repeat c (length a))).
  { intros f. induction a as [|x a IH]; [reflexivity|]. cbn [length repeat map map2]. f_equal. exact IH. }
  split; [|split].
  - exists (map (fun x => (x * c) mod m) a). split.
    + unfold VectorScalarMul. apply mapM_Ok. reflexivity.
    + rewrite (Hrep Z.mul). apply (cwise_tab Z.mul); [assumption|]. rewrite repeat_length. reflexivity.
  - unfold VectorAddConst. rewrite (Hrep Z.add). apply (cwise_tab Z.add); [assumption|]. rewrite repeat_length. reflexivity.
  - intros n Hn. unfold VectorCopy, make_len. replace (n <? 0) with false by (symmetry; apply Z.ltb_ge; lia). reflexivity.
Qed.
Theorem C14_inner_products : forall G m a b, 0 < m -> GrpLaws G ->
  (length a = length b ->
     VectorInnerProduct a b m = Ok (zsum (length a) (fun i => nth i a 0 * nth i b 0) mod m) /\
     ScalarProduct G a b = Some (zsum (length a) (fun i => nth i a 0 * nth i b 0) mod gN G)) /\
  (length a <> length b -> ScalarProduct G a b = None).
Proof.
  intros G m a b Hm HL. split; intros Hl.
  - pose proof (tab_nth 0 a) as Ha. pose proof (tab_nth' 0 b (length a) (eq_sym Hl)) as Hb. split.
    + transitivity (VectorInnerProduct (tab (length a) (fun i => nth i a 0)) (tab (length a) (fun i => nth i b 0)) m);
        [f_equal; assumption|apply VectorInnerProduct_tab].
    + transitivity (ScalarProduct G (tab (length a) (fun i => nth i a 0)) (tab (length a) (fun i => nth i b 0)));
        [f_equal; assumption|apply (ScalarProduct_tab G HL)].
  - unfold ScalarProduct. apply Nat.eqb_neq in Hl. rewrite Hl. reflexivity.
Qed.
(** VectorInnerProduct has no error result: a shorter second vector panics, surplus entries of a longer one are ignored *)
Theorem C14_inner_product_lengths : forall m a b, 0 < m ->
  ((length b < length a)%nat -> VectorInnerProduct a b m = Panic) /\
  ((length a <= length b)%nat -> VectorInnerProduct a b m = VectorInnerProduct a (firstn (length a) b) m).
Proof.
  intros m a b _. unfold VectorInnerProduct. generalize 0 at 1 2 3 as acc. revert b.
  induction a as [|x a IH]; intros b acc; [split; [cbn; lia|reflexivity]|].
  destruct b as [|y b]; [split; [reflexivity|cbn; lia]|]. cbn [length vip_loop firstn]. split; intros H; apply IH; lia.
Qed.
Theorem C14_group_ops : forall G g g' a, GrpLaws G ->
  (length g = length a ->
     VectorExp G g a = Some (gsum (G:=G) (length g) (fun i => gScale G (nth i g (gId G)) (nth i a 0)))) /\
  (length g <> length a -> VectorExp G g a = None) /\
  (length g = length g' -> exists r, VectorECAdd G g g' = Some r /\ length r = length g /\
     forall i, (i < length g)%nat -> nth i r (gId G) = gAdd G (nth i g (gId G)) (nth i g' (gId G))) /\
  (length g <> length g' -> VectorECAdd G g g' = None).
Proof.
  intros G g g' a HL. split; [|split; [|split]]; intros Hl.
  - rewrite (tab_nth (gId G) g) at 1. rewrite (tab_nth' 0 a (length g)) at 1 by congruence. apply (VectorExp_tab G HL).
  - unfold VectorExp. apply Nat.eqb_neq in Hl. rewrite Hl. reflexivity.
  - exists (tab (length g) (fun i => gAdd G (nth i g (gId G)) (nth i g' (gId G)))).
    split; [|split; [apply tab_length|intros i Hi; exact (nth_tab (gId G) (length g) (fun i => gAdd G (nth i g (gId G)) (nth i g' (gId G))) i Hi)]].
    rewrite (tab_nth (gId G) g) at 1. rewrite (tab_nth' (gId G) g' (length g)) at 1 by congruence. apply VectorECAdd_tab.
  - unfold VectorECAdd. apply Nat.eqb_neq in Hl. rewrite Hl. reflexivity.
Qed.
Theorem C14_powerOf : forall G x n, GrpLaws G -> 0 <= n ->
  exists r, powerOf G x n = Ok r /\ Z.of_nat (length r) = n /\
    forall i, (i < length r)%nat -> nth i r 0 = x ^ Z.of_nat i mod gN G.
Proof.
  intros G x n HL Hn. exists (tab (Z.to_nat n) (fun i => x ^ Z.of_nat i mod gN G)).
  rewrite <- (Z2Nat.id n Hn) at 1. rewrite (powerOf_tab G HL), tab_length. split; [reflexivity|]. split; [lia|].
  intros i Hi. exact (nth_tab 0 _ (fun i => x ^ Z.of_nat i mod gN G) i Hi).
Qed.

(** C41 *)
Theorem C41_hiding : forall G H x r x', GrpPrime G -> H <> gId G ->
  exists r', 0 <= r' < gN G /\ PedersenCommit G x r H = PedersenCommit G x' r' H /\
    forall r'', 0 <= r'' < gN G -> PedersenCommit G x r H = PedersenCommit G x' r'' H -> r'' = r'.
Proof.
  intros G H x r x' HG HH. pose proof (lp_laws G HG) as HL. pose proof (l_order G HL) as HN.
  destruct (lp_cyclic G HG H) as [h Hh].
  assert (Hh0 : h mod gN G <> 0).
  { intros Hz. apply HH. rewrite Hh, <- (scale_mod HL), Hz. apply (l_scale0 G HL). }
  pose proof (prime_gcd1 _ _ (lp_prime G HG) Hh0) as Hg.
  destruct (modInverse_ex _ _ HN Hg) as (i & _ & _ & Hi). apply eqm_inv1 in Hi; [|assumption].
  assert (Hcom : forall a b c d, PedersenCommit G a b H = PedersenCommit G c d H <-> eqm (gN G) (a + h * b) (c + h * d)).
  { intros a b c d. unfold PedersenCommit. rewrite !(base_scale HL), Hh, !(scale_mul HL), <- !(scale_plus HL).
    rewrite (gen_inj G HG). rewrite eqm_mod. reflexivity. }
  exists ((r + i * (x - x')) mod gN G). split; [apply Z.mod_pos_bound; lia|]. split.
  - apply Hcom. modn. replace (x' + h * (r + i * (x - x'))) with (x' + h * r + (h * i) * (x - x')) by ring.
    rewrite Hi. apply eqm_of_eq. ring.
  - intros r'' Hr'' Hc. apply Hcom in Hc. apply (eqm_small (gN G)); [assumption|apply Z.mod_pos_bound; lia|].
    modn. apply (eqm_cancel _ h); [assumption|assumption|].
    replace (h * (r + i * (x - x'))) with (h * r + (h * i) * (x - x')) by ring. rewrite Hi.
    transitivity ((x' + h * r'') - x'); [apply eqm_of_eq; ring|]. rewrite <- Hc. apply eqm_of_eq. ring.
Qed.
(** Two different openings reveal the discrete logarithm of H; in particular it is then determined. *)
Theorem C41_binding : forall G H x r x' r', GrpPrime G ->
  PedersenCommit G x r H = PedersenCommit G x' r' H ->
  (x mod gN G = x' mod gN G /\ (r mod gN G = r' mod gN G \/ H = gId G)) \/
  (x mod gN G <> x' mod gN G /\ r mod gN G <> r' mod gN G /\
   exists i, ((r' - r) * i) mod gN G = 1 /\ H = gScale G (gGen G) ((x - x') * i)).
Proof.
  intros G H x r x' r' HG Hc. pose proof (lp_laws G HG) as HL. pose proof (l_order G HL) as HN.
  destruct (lp_cyclic G HG H) as [h Hh].
  assert (He : eqm (gN G) (x + h * r) (x' + h * r')).
  { unfold PedersenCommit in Hc. rewrite !(base_scale HL), Hh, !(scale_mul HL), <- !(scale_plus HL) in Hc.
    rewrite (gen_inj G HG) in Hc. constructor. exact Hc. }
  destruct (Z.eq_dec ((r' - r) mod gN G) 0) as [Hz|Hz].
  - left. apply eqm_mod0 in Hz. apply eqm_sub0 in Hz; [|lia].
    assert (Hx : eqm (gN G) x x').
    { transitivity ((x + h * r) - h * r); [apply eqm_of_eq; ring|]. rewrite He, Hz. apply eqm_of_eq. ring. }
    split; [destruct Hx; assumption|]. left. destruct Hz as [Hz]. symmetry. exact Hz.
  - pose proof (prime_gcd1 _ _ (lp_prime G HG) Hz) as Hg.
    destruct (modInverse_ex _ _ HN Hg) as (i & _ & _ & Hi).
    destruct (Z.eq_dec (x mod gN G) (x' mod gN G)) as [Hx|Hx].
    + left. split; [assumption|]. right. apply (eqm_intro (gN G)) in Hx.
      assert (Hh0 : eqm (gN G) h 0).
      { apply (eqm_cancel _ (r' - r)); [assumption|assumption|].
        transitivity ((x' + h * r') - (x + h * r) + (x - x')); [apply eqm_of_eq; ring|]. rewrite He, Hx. apply eqm_of_eq. ring. }
      rewrite Hh, (scale_eqm HL _ _ _ Hh0). apply (l_scale0 G HL).
    + right. split; [assumption|]. split.
      { intros Hr. apply Hz. apply eqm_mod0. apply eqm_sub0; [lia|]. symmetry. constructor. exact Hr. }
      exists i. split; [exact Hi|]. rewrite Hh. apply (scale_eqm HL). apply eqm_inv1 in Hi; [|assumption].
      transitivity (h * ((r' - r) * i)); [rewrite Hi; apply eqm_of_eq; ring|].
      transitivity (((x' + h * r') - (x + h * r) + (x - x')) * i); [apply eqm_of_eq; ring|]. rewrite He. apply eqm_of_eq. ring.
Qed.

(** ** Concrete cases *)
Example C12_case : Decompose (-3) 2 4 = Ok [1; 0; 1; 1] /\ (-3) mod 2 ^ 4 = 13. Proof. split; reflexivity. Qed.
Example C13_case : computeAR [1; 0; 1; 1] = Some [0; -1; 0; 0] /\ computeAR [1; 2] = None. Proof. split; reflexivity. Qed.
Example C14_case : VectorSub [1; 2] [3; 1] 7 = Some [5; 1] /\ ScalarProduct toy [1; 200] [5; 6] = Some (1205 mod 101) /\
  VectorAdd [1] [1; 2] 7 = None.
Proof. repeat split; vm_compute; reflexivity. Qed.
Example C41_case : gBase toy 7 <> gId toy /\
  PedersenCommit toy 5 9 (gBase toy 7) = PedersenCommit toy 12 8 (gBase toy 7).
Proof. split; [intros H; apply (f_equal (zv 101)) in H; vm_compute in H; discriminate | apply zq_eq; reflexivity]. Qed.

Print Assumptions C12_decompose.
Print Assumptions C12_unique.
Print Assumptions C12_negative_length.
Print Assumptions C13_computeAR.
Print Assumptions C13_prover_vectors.
Print Assumptions C14_vector_ops.
Print Assumptions C14_scalar_ops.
Print Assumptions C14_inner_products.
Print Assumptions C14_inner_product_lengths.
Print Assumptions C14_group_ops.
Print Assumptions C14_powerOf.
Print Assumptions C41_hiding.
Print Assumptions C41_binding.
