(** The inner product argument: the defect P - (g^a h^b u^<a,b>) is invariant under a folding round. *)
From Verif Require Import GoBase Json GroupIface Vector BIP NumTh Alg BP VectorProofs.
From Coq Require Import Setoid Morphisms.

Section BIPProofs.
Context (G : Grp) (HO : Oracles) (HL : GrpLaws G).
Local Notation E := (E G).
Local Notation N := (gN G).
Local Notation gs := (gsum (G:=G)).

(** g^a h^b u^<a,b> *)
Definition ipCom (m : nat) (g h : nat -> E) (u : E) (a b : nat -> Z) : E :=
  gAdd G (gs m (fun i => gAdd G (gScale G (g i) (a i)) (gScale G (h i) (b i))))
         (gScale G u (zsum m (fun i => a i * b i))).

Lemma ipCom_ext : forall m g h u a b g' h' a' b',
  (forall i, (i < m)%nat -> g i = g' i) -> (forall i, (i < m)%nat -> h i = h' i) ->
  (forall i, (i < m)%nat -> eqm N (a i) (a' i)) -> (forall i, (i < m)%nat -> eqm N (b i) (b' i)) ->
  ipCom m g h u a b = ipCom m g' h' u a' b'.
Proof.
  intros. unfold ipCom. f_equal.
  - apply gsum_ext. intros i Hi. rewrite H, H0 by assumption.
    f_equal; apply (scale_eqm HL); auto.
  - apply (scale_eqm HL). apply zsum_eqm. intros i Hi. rewrite H1, H2 by assumption. reflexivity.
Qed.

Lemma ipCom_gsum : forall m g h u a b,
  ipCom m g h u a b =
  gs m (fun i => gAdd G (gAdd G (gScale G (g i) (a i)) (gScale G (h i) (b i))) (gScale G u (a i * b i))).
Proof. intros. unfold ipCom. rewrite <- (gsum_base HL), <- (gsum_add HL). reflexivity. Qed.

Lemma ipCom_app : forall m k g h u a b,
  ipCom (m + k) g h u a b =
  gAdd G (ipCom m g h u a b) (ipCom k (fun i => g (m + i)%nat) (fun i => h (m + i)%nat) u
                                    (fun i => a (m + i)%nat) (fun i => b (m + i)%nat)).
Proof. intros. rewrite !ipCom_gsum. apply (gsum_app HL). Qed.

Definition exists_i2 {A} (o : option Z) (f : Z -> res A) : res A := i <- deref o ;; f i.

Lemma eqm_diff1 : forall a c l r, eqm N a 1 -> l - r = (a - 1) * c -> eqm N l r.
Proof.
  intros a c l r Ha Hd. apply eqm_sub0; [apply (N_pos HL)|]. rewrite Hd, Ha. apply eqm_of_eq. ring.
Qed.

(** bip.go 164-173: L and R for the two halves *)
Definition ipCross (m : nat) (g h : nat -> E) (u : E) (a b : nat -> Z) : E :=
  gAdd G (gAdd G (gs m (fun i => gScale G (g i) (a i))) (gs m (fun i => gScale G (h i) (b i))))
         (gScale G u (zsum m (fun i => a i * b i) mod N)).
Lemma ipCross_gsum : forall m g h u a b,
  ipCross m g h u a b =
  gs m (fun i => gAdd G (gAdd G (gScale G (g i) (a i)) (gScale G (h i) (b i))) (gScale G u (a i * b i))).
Proof.
  intros. unfold ipCross. rewrite (scale_mod HL), <- (gsum_base HL), <- !(gsum_add HL). reflexivity.
Qed.

Lemma round_identity : forall m (gl gh hl hh : nat -> E) (u : E) (al ah bl bh : nat -> Z) x i i2,
  eqm N (x * i) 1 -> eqm N i2 (i * i) ->
  ipCom m (fun j => gAdd G (gScale G (gl j) i) (gScale G (gh j) x))
          (fun j => gAdd G (gScale G (hl j) x) (gScale G (hh j) i)) u
          (fun j => al j * x + ah j * i) (fun j => bl j * i + bh j * x) =
  gAdd G (gAdd G (gAdd G (ipCom m gl hl u al bl) (ipCom m gh hh u ah bh))
                 (gScale G (ipCross m gh hl u al bh) (x * x)))
         (gScale G (ipCross m gl hh u ah bl) i2).
Proof.
  intros m gl gh hl hh u al ah bl bh x i i2 Hxi Hi2.
  rewrite !ipCom_gsum, !ipCross_gsum.
  rewrite <- !(gsum_scale HL), <- !(gsum_add HL).
  apply gsum_ext. intros j _. cbv beta.
  assert (Hix : eqm N (i * x) 1) by (rewrite Z.mul_comm; exact Hxi).
  glin HL; rewrite ?Hi2.
  - apply (eqm_diff1 (x * i) (al j * bl j + ah j * bh j)); [exact Hxi | ring].
  - apply (eqm_diff1 (x * i) (bh j)); [exact Hxi | ring].
  - apply (eqm_diff1 (x * i) (bl j)); [exact Hxi | ring].
  - apply (eqm_diff1 (x * i) (ah j)); [exact Hxi | ring].
  - apply (eqm_diff1 (x * i) (al j)); [exact Hxi | ring].
Qed.

(** The two challenges of a round, x^-1 and (x^2)^-1 *)
Lemma sq_inv : forall x i, modInverse x N = Some i ->
  exists i2, modInverse ((x * x) mod N) N = Some i2 /\ eqm N i2 (i * i).
Proof.
  intros x i Hi. pose proof (l_order G HL) as HN.
  destruct (modInverse_Some _ _ _ HN Hi) as [_ Hxi]. apply eqm_inv1 in Hxi; [|assumption].
  assert (Hs : eqm N ((x * x) mod N * (i * i)) 1).
  { modn. replace (x * x * (i * i)) with ((x * i) * (x * i)) by ring. rewrite Hxi. reflexivity. }
  destruct (modInverse_ex ((x * x) mod N) N HN) as (i2 & Hi2 & _ & H2).
  { apply (inv_gcd1 _ (i * i)); [assumption|]. destruct Hs as [Hs]. rewrite Hs. apply Z.mod_small. lia. }
  exists i2. split; [exact Hi2|]. apply eqm_inv1 in H2; [|assumption].
  transitivity (i2 * ((x * x) mod N * (i * i))); [rewrite Hs; apply eqm_of_eq; ring|].
  transitivity (((x * x) mod N * i2) * (i * i)); [apply eqm_of_eq; ring|]. rewrite H2. apply eqm_of_eq; ring.
Qed.

Lemma foldGens_tab : forall m (g : nat -> E) s t,
  foldGens G (tab (m + m) (fun i => Some (g i))) m (Some s) (Some t) =
  Ok (tab m (fun i => Some (gAdd G (gScale G (g i) s) (gScale G (g (m + i)%nat) t)))).
Proof.
  intros. unfold foldGens. rewrite slice_to_tab, slice_from_tab. cbn [bind].
  rewrite vectorScalarExp_tab. cbn [bind].
  rewrite (vectorScalarExp_tab G m (fun i => g (m + i)%nat)). cbn [bind].
  rewrite VectorECAdd_tab, map_tab. reflexivity.
Qed.
Lemma foldGens_None : forall m (g : nat -> E) t,
  foldGens G (tab (S m + S m) (fun i => Some (g i))) (S m) None t = Panic.
Proof.
  intros. unfold foldGens. rewrite slice_to_tab. cbn [bind]. rewrite tab_S. reflexivity.
Qed.

Lemma half_double : forall m, Nat.div (m + m) 2 = m.
Proof. intros. replace (m + m)%nat with (m * 2)%nat by lia. apply Nat.div_mul. lia. Qed.

(** bip.go 157-209: one round of the prover on vectors of length 2m *)
Lemma bip_step : forall fuel m a b g h u P Ls Rs, (0 < m)%nat ->
  let L := ipCross m (fun i => g (m + i)%nat) h u a (fun i => b (m + i)%nat) in
  let R := ipCross m g (fun i => h (m + i)%nat) u (fun i => a (m + i)%nat) b in
  let x := fst (HashBP G HO L R) in
  computeBipRecursive G HO (S fuel) (tab (m + m) a) (tab (m + m) b) (tab (m + m) g) (tab (m + m) h) u P (m + m) Ls Rs =
  match modInverse x N with
  | None => Panic
  | Some i =>
    exists_i2 (modInverse ((x * x) mod N) N) (fun i2 =>
    computeBipRecursive G HO fuel
      (tab m (fun j => ((a j * x) mod N + (a (m + j)%nat * i) mod N) mod N))
      (tab m (fun j => ((b j * i) mod N + (b (m + j)%nat * x) mod N) mod N))
      (tab m (fun j => gAdd G (gScale G (g j) i) (gScale G (g (m + j)%nat) x)))
      (tab m (fun j => gAdd G (gScale G (h j) x) (gScale G (h (m + j)%nat) i)))
      u (gAdd G (gAdd G (gScale G L ((x * x) mod N)) P) (gScale G R i2)) m (Ls ++ [L]) (Rs ++ [R]))
  end.
Proof.
  intros fuel m a b g h u P Ls Rs Hm L R x. cbn [computeBipRecursive].
  replace (Nat.eqb (m + m) 1) with false by (symmetry; apply Nat.eqb_neq; lia).
  rewrite half_double, !slice_to_tab, !slice_from_tab. cbn [bind].
  rewrite !(ScalarProduct_tab G HL), !(VectorExp_tab G HL). cbn [bind deref].
  change (gAdd G (gAdd G _ _) (gScale G u (zsum m (fun i => a i * b (m + i)%nat) mod N))) with L.
  change (gAdd G (gAdd G _ _) (gScale G u (zsum m (fun i => a (m + i)%nat * b i) mod N))) with R.
  fold x. rewrite !map_tab. destruct (modInverse x N) as [i|] eqn:Hi.
  - rewrite !foldGens_tab. cbn [bind].
    rewrite (mapM_tab deref m _ (fun j => gAdd G (gScale G (g j) i) (gScale G (g (m + j)%nat) x))) by reflexivity.
    rewrite (mapM_tab deref m _ (fun j => gAdd G (gScale G (h j) x) (gScale G (h (m + j)%nat) i))) by reflexivity.
    cbn [bind]. destruct (modInverse ((x * x) mod N) N) as [i2|]; [|reflexivity].
    cbn [deref bind exists_i2]. rewrite !VectorScalarMul_tab. cbn [bind].
    rewrite !VectorAdd_tab. reflexivity.
  - destruct m as [|m]; [lia|]. rewrite foldGens_None. reflexivity.
Qed.

Lemma loop_step : forall m g h L R Ls Rs P i i2,
  let x := fst (HashBP G HO L R) in
  modInverse x N = Some i -> modInverse ((x * x) mod N) N = Some i2 ->
  ipVerifyLoop G HO (L :: Ls) (Some R :: Rs) (tab (m + m) (fun i => Some (g i))) (tab (m + m) (fun i => Some (h i))) (m + m) P =
  ipVerifyLoop G HO Ls Rs
      (tab m (fun j => Some (gAdd G (gScale G (g j) i) (gScale G (g (m + j)%nat) x))))
      (tab m (fun j => Some (gAdd G (gScale G (h j) x) (gScale G (h (m + j)%nat) i)))) m
      (gAdd G (gAdd G P (gScale G L ((x * x) mod N))) (gScale G R i2)).
Proof.
  intros m g h L R Ls Rs P i i2 x Hi Hi2. cbn [ipVerifyLoop]. fold x. rewrite half_double, Hi, Hi2, !foldGens_tab.
  reflexivity.
Qed.

(** The defect of the verifier's accumulator against the committed vectors is the same before and after. *)
Lemma bip_rec_spec : forall k fuel a b g h u P Ls Rs ra rb rP rL rR,
  computeBipRecursive G HO fuel (tab (2 ^ k) a) (tab (2 ^ k) b) (tab (2 ^ k) g) (tab (2 ^ k) h) u P (2 ^ k) Ls Rs
    = Ok (ra, rb, rP, rL, rR) ->
  exists L R g0 h0,
    rL = Ls ++ L /\ rR = Rs ++ R /\ length L = k /\ length R = k /\
    forall Pv, exists Pv',
      ipVerifyLoop G HO L (map Some R) (tab (2 ^ k) (fun i => Some (g i))) (tab (2 ^ k) (fun i => Some (h i))) (2 ^ k) Pv
        = Ok ([Some g0], [Some h0], Pv') /\
      gAdd G Pv' (ipCom (2 ^ k) g h u a b) =
      gAdd G Pv (gAdd G (gAdd G (gScale G g0 ra) (gScale G h0 rb)) (gScale G u (ra * rb))).
Proof.
  induction k as [|k IH]; intros fuel a b g h u P Ls Rs ra rb rP rL rR H.
  - destruct fuel; cbn in H; injection H as <- <- <- <- <-;
      exists [], [], (g O), (h O); rewrite !app_nil_r; repeat split; intros Pv; exists Pv;
      (split; [reflexivity|]); unfold ipCom; cbn [Nat.pow gsum zsum]; glin HL.
  - assert (Hm : (0 < 2 ^ k)%nat) by (pose proof (Nat.pow_nonzero 2 k); lia).
    replace (2 ^ S k)%nat with (2 ^ k + 2 ^ k)%nat in * by (cbn [Nat.pow]; lia).
    destruct fuel as [|fuel].
    { cbn [computeBipRecursive] in H.
      replace (Nat.eqb (2 ^ k + 2 ^ k) 1) with false in H by (symmetry; apply Nat.eqb_neq; lia). discriminate. }
    rewrite bip_step in H by assumption. cbv zeta in H.
    set (L := ipCross (2 ^ k) (fun i => g (2 ^ k + i)%nat) h u a (fun i => b (2 ^ k + i)%nat)) in *.
    set (R := ipCross (2 ^ k) g (fun i => h (2 ^ k + i)%nat) u (fun i => a (2 ^ k + i)%nat) b) in *.
    set (x := fst (HashBP G HO L R)) in *.
    destruct (modInverse x N) as [i|] eqn:Hi; [|discriminate].
    destruct (sq_inv _ _ Hi) as (i2 & Hi2 & Hi2q). rewrite Hi2 in H. cbn [exists_i2] in H.
    apply IH in H. destruct H as (L' & R' & g0 & h0 & -> & -> & HLl & HRl & Hv).
    exists (L :: L'), (R :: R'), g0, h0. rewrite <- !app_assoc. cbn [length app]. repeat split; try lia.
    intros Pv. cbn [map].
    rewrite (loop_step (2 ^ k) g h L R L' (map Some R') Pv i i2 Hi Hi2). fold x.
    destruct (Hv (gAdd G (gAdd G Pv (gScale G L ((x * x) mod N))) (gScale G R i2))) as (Pv' & Hr & Hd).
    exists Pv'. split; [exact Hr|]. clear Hr Hv.
    pose proof (l_order G HL) as HN.
    destruct (modInverse_Some _ _ _ HN Hi) as [_ Hxi]. apply eqm_inv1 in Hxi; [|assumption].
    assert (Hr := round_identity (2 ^ k) g (fun i => g (2 ^ k + i)%nat) h (fun i => h (2 ^ k + i)%nat) u
              a (fun i => a (2 ^ k + i)%nat) b (fun i => b (2 ^ k + i)%nat) x i i2 Hxi Hi2q). fold L R in Hr.
    rewrite (ipCom_ext (2 ^ k) _ _ _ _ _ (fun j => gAdd G (gScale G (g j) i) (gScale G (g (2 ^ k + j)%nat) x))
          (fun j => gAdd G (gScale G (h j) x) (gScale G (h (2 ^ k + j)%nat) i))
          (fun j => a j * x + a (2 ^ k + j)%nat * i) (fun j => b j * i + b (2 ^ k + j)%nat * x)) in Hd
      by (intros; try reflexivity; modn; reflexivity).
    rewrite Hr in Hd. clear Hr. rewrite ipCom_app.
    rewrite (scale_mod HL) in Hd.
    set (C1 := ipCom (2 ^ k) g h u a b) in *.
    set (C2 := ipCom (2 ^ k) (fun i => g (2 ^ k + i)%nat) _ _ _ _) in *.
    apply (add_cancel_r HL (gAdd G (gScale G L (x * x)) (gScale G R i2))).
    transitivity (gAdd G Pv' (gAdd G (gAdd G (gAdd G C1 C2) (gScale G L (x * x))) (gScale G R i2))); [glin HL|].
    rewrite Hd. glin HL.
Qed.

(** bip.go 102-131 against bip.go 215-266: a proof from proveInnerProduct is decided by its relation. *)
Lemma ip_honest : forall k fuel a b g h u P c pf,
  proveInnerProduct G HO fuel (tab (2 ^ k) a) (tab (2 ^ k) b) P c
     (mkIPParams (tab (2 ^ k) g) (map Some (tab (2 ^ k) h)) u) = Ok pf ->
  exists c' x res, c = Some c' /\ ipP pf = P /\ ipCc pf = Some c' /\
    ipParams pf = mkIPParams (tab (2 ^ k) g) (map Some (tab (2 ^ k) h)) u /\
    length (ipL pf) = k /\ length (ipR pf) = k /\
    hashIP G HO (tab (2 ^ k) g) (map Some (tab (2 ^ k) h)) P c = Ok x /\
    ipVerify G HO pf = Ok res /\
    (res = true <-> gAdd G P (gScale G (gScale G u x) c') = ipCom (2 ^ k) g h (gScale G u x) a b).
Proof.
  intros k fuel a b g h u P c pf H. unfold proveInnerProduct in H.
  rewrite !tab_length, Nat.eqb_refl in H. cbn [negb ipGg ipHh ipUu] in H.
  destruct (hashIP G HO _ _ P c) as [x| | |] eqn:Hx; try discriminate. cbn [bind] in H.
  unfold computePP in H. destruct c as [c|]; cbn [deref bind] in H; [|discriminate].
  rewrite map_tab in H. rewrite (mapM_tab deref _ _ h) in H by reflexivity. cbn [bind] in H.
  destruct (computeBipRecursive _ _ _ _ _ _ _ _ _ _ _ _) as [[[[[ra rb] rP] rL] rR]| | |] eqn:Hr; try discriminate.
  cbn [bind] in H. injection H as <-.
  apply bip_rec_spec in Hr. destruct Hr as (L & R & g0 & h0 & -> & -> & HLl & HRl & Hv).
  destruct (Hv (gAdd G P (gScale G (gScale G u x) c))) as (Pv & Hloop & Hd).
  exists c, x, (gIsId G (gAdd G (gNeg G Pv) (gAdd G (gAdd G (gScale G g0 ra) (gScale G h0 rb))
                                        (gScale G (gScale G u x) ((ra * rb) mod N))))). cbn [ipP ipCc ipParams ipL ipR app]. rewrite map_length.
  rewrite map_tab in *. repeat split; try assumption; try reflexivity.
  - unfold ipVerify. cbn [ipParams ipGg ipHh ipP ipCc ipA ipB ipUu ipL ipR app].
    rewrite Hx. cbn [bind computePP deref]. unfold computePP. cbn [bind deref].
    rewrite map_tab, tab_length. rewrite Hloop. cbn. reflexivity.
  - intros Hi. apply (l_isid G HL) in Hi. apply (proj1 (negadd_0_iff HL _ _)) in Hi. rewrite (scale_mod HL) in Hi. rewrite <- Hi in Hd.
    rewrite (l_comm G HL) in Hd. apply (add_cancel_r HL) in Hd.
    symmetry. exact Hd.
  - intros Hi. apply (l_isid G HL). apply (negadd_0_iff HL). rewrite Hi in Hd.
    rewrite (l_comm G HL) in Hd. apply (add_cancel_l HL) in Hd. rewrite (scale_mod HL). exact Hd.
Qed.

(** hashIP on equal-length vectors *)
Lemma hashIP_elems_tab : forall n g h, exists s, hashIP_elems G (tab n g) (tab n (fun i => Some (h i))) = Ok s.
Proof.
  induction n as [|n IH]; intros; [eexists; reflexivity|]. rewrite !tab_S. cbn [hashIP_elems].
  destruct (IH (fun i => g (S i)) (fun i => h (S i))) as [s Hs]. rewrite Hs. eexists. reflexivity.
Qed.
Lemma hashIP_tab : forall n g h P c, exists x, hashIP G HO (tab n g) (map Some (tab n h)) P c = Ok x.
Proof.
  intros. rewrite map_tab. unfold hashIP, hashIP_input.
  destruct (hashIP_elems_tab n g h) as [s ->]. eexists. reflexivity.
Qed.

(** When every challenge is invertible the prover finishes. *)
Lemma bip_rec_total : (forall A B, Z.gcd (fst (HashBP G HO A B)) N = 1) ->
  forall k fuel a b g h u P Ls Rs, (k <= fuel)%nat ->
  exists r, computeBipRecursive G HO fuel (tab (2 ^ k) a) (tab (2 ^ k) b) (tab (2 ^ k) g) (tab (2 ^ k) h) u P (2 ^ k) Ls Rs
    = Ok r.
Proof.
  intros Hinv. induction k as [|k IH]; intros fuel a b g h u P Ls Rs Hf.
  - destruct fuel; eexists; reflexivity.
  - assert (Hm : (0 < 2 ^ k)%nat) by (pose proof (Nat.pow_nonzero 2 k); lia).
    replace (2 ^ S k)%nat with (2 ^ k + 2 ^ k)%nat in * by (cbn [Nat.pow]; lia).
    destruct fuel as [|fuel]; [lia|]. rewrite bip_step by assumption. cbv zeta.
    match goal with |- context [HashBP G HO ?A ?B] => pose proof (Hinv A B) as Hx; set (x := fst (HashBP G HO A B)) in * end.
    destruct (modInverse_ex _ _ (l_order G HL) Hx) as (i & Hi & _). rewrite Hi.
    destruct (sq_inv _ _ Hi) as (i2 & -> & _). cbn [exists_i2 bind deref]. apply IH. lia.
Qed.
Lemma ip_total : (forall A B, Z.gcd (fst (HashBP G HO A B)) N = 1) ->
  forall k fuel a b g h u P c, (k <= fuel)%nat ->
  exists pf, proveInnerProduct G HO fuel (tab (2 ^ k) a) (tab (2 ^ k) b) P (Some c)
     (mkIPParams (tab (2 ^ k) g) (map Some (tab (2 ^ k) h)) u) = Ok pf.
Proof.
  intros Hinv k fuel a b g h u P c Hf. unfold proveInnerProduct. rewrite !tab_length, Nat.eqb_refl.
  cbn [negb ipGg ipHh ipUu]. destruct (hashIP_tab (2 ^ k) g h P (Some c)) as [x ->]. cbn [bind].
  unfold computePP. cbn [deref bind]. rewrite map_tab. rewrite (mapM_tab deref _ _ h) by reflexivity. cbn [bind].
  destruct (bip_rec_total Hinv k fuel a b g h (gScale G u x) (gAdd G P (gScale G (gScale G u x) c)) [] [] Hf)
    as [[[[[ra rb] rP] rL] rR] ->].
  eexists. reflexivity.
Qed.

(** Odd lengths above one: the halves have different lengths, VectorExp returns nil and Add panics. *)
Lemma bip_odd : forall fuel m a b g h u P Ls Rs, (0 < m)%nat ->
  computeBipRecursive G HO (S fuel) (tab (m + S m) a) (tab (m + S m) b) (tab (m + S m) g) (tab (m + S m) h) u P (m + S m) Ls Rs
  = Panic.
Proof.
  intros. cbn [computeBipRecursive].
  replace (Nat.eqb (m + S m) 1) with false by (symmetry; apply Nat.eqb_neq; lia).
  replace (Nat.div (m + S m) 2) with m.
  2:{ replace (m + S m)%nat with (1 + m * 2)%nat by lia. rewrite Nat.div_add by lia. reflexivity. }
  rewrite !slice_to_tab, !slice_from_tab. cbn [bind].
  unfold VectorExp at 1. rewrite !tab_length.
  replace (Nat.eqb (S m) m) with false by (symmetry; apply Nat.eqb_neq; lia). reflexivity.
Qed.

Definition pow2 (n : nat) : Prop := exists k, n = (2 ^ k)%nat.

Lemma bip_not_pow2 : forall n, (0 < n)%nat -> ~ pow2 n -> forall fuel a b g h u P Ls Rs, (n <= fuel)%nat ->
  computeBipRecursive G HO fuel (tab n a) (tab n b) (tab n g) (tab n h) u P n Ls Rs = Panic.
Proof.
  induction n as [n IH] using lt_wf_ind. intros Hn Hp fuel a b g h u P Ls Rs Hf.
  destruct fuel as [|fuel]; [lia|].
  destruct (Nat.Even_or_Odd n) as [[m Hm]|[m Hm]].
  - assert (Hq : n = (m + m)%nat) by lia. clear Hm. subst n.
    rewrite bip_step by lia. cbv zeta. destruct (modInverse _ N) as [i|] eqn:Hi; [|reflexivity].
    destruct (sq_inv _ _ Hi) as (i2 & -> & _). cbn [exists_i2 bind deref].
    apply IH; [lia|lia| |lia]. intros [k Hk]. apply Hp. exists (S k). cbn [Nat.pow]. lia.
  - assert (Hq : n = (m + S m)%nat) by lia. clear Hm. subst n. destruct m as [|m].
    + exfalso. apply Hp. exists O. reflexivity.
    + apply bip_odd. lia.
Qed.

(** Empty vectors: no base case is ever reached. *)
Lemma bip_empty : forall fuel u P Ls Rs,
  computeBipRecursive G HO fuel [] [] [] [] u P 0 Ls Rs = OutOfFuel \/
  computeBipRecursive G HO fuel [] [] [] [] u P 0 Ls Rs = Panic.
Proof.
  induction fuel as [|fuel IH]; intros; [left; reflexivity|].
  cbn [computeBipRecursive Nat.eqb]. cbn -[HashBP modInverse computeBipRecursive].
  match goal with |- context [deref ?o] => destruct o as [i2|] end; [|right; reflexivity].
  cbn [deref bind]. unfold foldGens, slice_to, slice_from, vectorScalarExp. cbn -[HashBP modInverse computeBipRecursive].
  apply IH.
Qed.
End BIPProofs.
