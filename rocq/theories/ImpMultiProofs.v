(** The pointer-level aggregated range proof against its value-level model. *)
From Verif Require Import GoBase Json GroupIface Vector BIP BP MultiBP Imp ImpMulti ImpProofs ImpFuns ImpBP.

Section Multi.
Context (G : Grp) (HO : Oracles).
Local Notation heap := (heap G).
Local Notation eAt := (eAt G). Local Notation zAt := (zAt G).
Local Notation esAt := (esAt G). Local Notation zsAt := (zsAt G). Local Notation eosAt := (eosAt G).
Local Notation Pre := (Pre G). Local Notation eNew := (eNew G). Local Notation zNew := (zNew G).
Local Notation wp := (wp G).
Local Notation zPost := (zPost G).

Definition repMulti (h : heap) (q : MultiBulletProofP) (v : MultiBulletProof G) : Prop :=
  esAt h (sVs q) (mVs v) /\ eAt h (sA q) (Some (mA v)) /\ eAt h (sS q) (Some (mS v)) /\
  eAt h (sT1 q) (Some (mT1 v)) /\ eAt h (sT2 q) (Some (mT2 v)) /\
  zAt h (sTaux q) (mTaux v) /\ zAt h (sMu q) (mMu v) /\ zAt h (sTprime q) (mTprime v) /\
  repIPProof G h (sIPP q) (mIPP v) /\ repBPParams G h (sParams q) (mParams v).
Definition zosAt (h : heap) (ps : list ptr) (os : list (option Z)) : Prop := Forall2 (zAt h) ps os.

Lemma wp_skip : forall {A A' B B'} (c : M G A) (f : A -> M G A') (r1 : res B) (r : res B') h R Q,
  wp c r1 h R -> (forall u v h', R u v h' -> wp (f u) r h' Q) -> r = Panic -> r1 <> Err -> r1 <> OutOfFuel -> wp (mbind G c f) r h Q.
Proof.
  intros A A' B B' c f r1 r h R Q H K N N1 N2. unfold ImpProofs.wp, mbind in *. destruct (c h) as [[u h']| | |]; try contradiction.
  - destruct H as (v & _ & HR). exact (K u v h' HR).
  - exact N.
Qed.
Lemma powerOf_kind : forall b k, powerOf G b k <> Err /\ powerOf G b k <> OutOfFuel.
Proof. intros b k. unfold powerOf, make_len. destruct (k <? 0); cbn [bind]; split; discriminate. Qed.
Lemma multiProd_kind : forall js hp bits pow2 z pd, multiProd_loop G hp bits pow2 z js pd <> Err /\ multiProd_loop G hp bits pow2 z js pd <> OutOfFuel.
Proof.
  induction js as [|j js IH]; intros hp bits pow2 z pd; cbn [multiProd_loop]; [split; discriminate|].
  unfold slice_to. destruct (Nat.leb _ _); cbn [bind]; [|split; discriminate].
  destruct (VectorExp _ _ _); cbn [deref bind]; [apply IH|split; discriminate].
Qed.
Lemma mapM_deref_kind : forall {A} (l : list (option A)), mapM deref l <> Err /\ mapM deref l <> OutOfFuel.
Proof.
  intros A l. induction l as [|[a|] l (I1 & I2)]; cbn [mapM deref bind]; [split; discriminate| |split; discriminate].
  destruct (mapM deref l); cbn [bind]; split; congruence.
Qed.
Lemma op_zExp : forall h a k m u v n, zAt h a (Some u) -> zAt h k (Some v) -> zAt h m (Some n) ->
  opZ G (fun e => zExp G e a k m) h (Z.pow u v mod n).
Proof.
  intros h a k m u v n A B C e h' P. unfold zExp, mbind.
  rewrite (rdZ_ok _ h' a u (pre_z _ _ _ P _ _ A)), (rdZ_ok _ h' k v (pre_z _ _ _ P _ _ B)),
    (rdZ_ok _ h' m n (pre_z _ _ _ P _ _ C)). reflexivity.
Qed.
Ltac wx := eapply wp_bigInt; [eapply op_zExp; tr | intros ? ? ? ? ?].

Lemma zos_pre : forall h h' ps os, Pre h h' -> zosAt h ps os -> zosAt h' ps os.
Proof. intros h h' ps os P H. induction H; constructor; [exact (pre_z _ _ _ P _ _ H) | assumption]. Qed.
Lemma zos_app : forall h ps os ps' os', zosAt h ps os -> zosAt h ps' os' -> zosAt h (ps ++ ps') (os ++ os').
Proof. intros. apply Forall2_app; assumption. Qed.
Lemma zos_some : forall h ps zs, zsAt h ps zs -> zosAt h ps (map Some zs).
Proof. intros h ps zs H. induction H; cbn; constructor; assumption. Qed.
Lemma zos_deref : forall h ps os zs, zosAt h ps os -> mapM deref os = Ok zs -> zsAt h ps zs.
Proof.
  intros h ps os zs H. revert zs. induction H as [|p o ps os A B IH]; cbn [mapM]; intros zs K.
  - injection K as <-. constructor.
  - destruct o as [z|]; cbn [deref bind] in K; [|discriminate].
    destruct (mapM deref os) as [t| | |]; cbn [bind] in K; try discriminate. injection K as <-.
    constructor; [exact A | apply IH; reflexivity].
Qed.

(** VectorAdd with a nil entry among the second summands *)
Lemma iVectorAdd_nil : forall ps xs qs os N n h, zAt h N (Some n) -> zsAt h ps xs -> zosAt h qs os ->
  length xs = length os -> (forall zs, mapM deref os <> Ok zs) ->
  forall B (r : res B) Q, r = Panic -> wp (iVectorAdd G ps qs N) r h Q.
Proof.
  intros ps xs qs os N n h HN HP HQ EL HD B r Q HB. subst r. unfold iVectorAdd.
  rewrite (len2 _ _ _ HP), (len2 _ _ _ HQ), EL, Nat.eqb_refl.
  revert qs os h HN HP HQ EL HD Q. revert xs.
  induction ps as [|p ps IH]; intros xs qs os h HN HP HQ EL HD Q.
  - inversion HP; subst. destruct os; [|discriminate]. destruct (HD []). reflexivity.
  - inversion HP as [|? x ? xs' A HP' E1 E2]; subst. destruct os as [|o os]; [discriminate|].
    inversion HQ as [|q ? qs' ? A' HQ' E1 E2]; subst. cbn [combine mmap fst snd]. cbn [length] in EL. injection EL as EL.
    change (zsAt h ps xs') in HP'. change (zosAt h qs' os) in HQ'.
    destruct o as [y|].
    + eapply (wp_skip _ _ (Ok tt)) with (R := fun u v h' => Pre h h').
      * ws. ws. ws. pr.
      * intros u v h2 P2. apply wp_fail.
        apply (IH xs' qs' os h2); [tr | tr | exact (zos_pre _ _ _ _ P2 HQ') | exact EL |].
        intros zs K. apply (HD (y :: zs)). cbn [mapM deref bind]. rewrite K. reflexivity.
      * reflexivity.
      * discriminate.
      * discriminate.
    + cbn in A'. subst q. unfold ImpProofs.wp, mbind, bigInt, zAdd, mbind, newZ.
      destruct A as (rp & -> & A). cbn [rdZ hz]. rewrite nth_error_app1; [|apply nth_error_Some; congruence].
      rewrite A. reflexivity.
Qed.

Lemma imultiCommit_ok : forall ss vs gam j bits H vH h, zsAt h ss vs -> eAt h H (Some vH) ->
  wp (imultiCommit G gam j ss bits H) (concatBits vs bits) h
    (fun u v h' => Pre h h' /\ snd u = v /\
       esAt h' (fst (fst u)) (map (fun sg => PedersenCommit G (fst sg) (snd sg) vH) (combine vs (map gam (seq j (length vs))))) /\
       zsAt h' (snd (fst u)) (map gam (seq j (length vs)))).
Proof.
  induction ss as [|s ss IH]; intros vs gam j bits H vH h HS HH; inversion HS as [|? v ? vs' A HS' E1 E2]; subst;
    cbn [imultiCommit concatBits].
  - apply wp_ret. cbn. split; [apply Pre_refl|]. split; [reflexivity|]. split; constructor.
  - change (zsAt h ss vs') in HS'. ws.
    eapply wp_left; [eapply (iPedersenCommit_ok G s e H v (gam j) vH); tr|]. intros C h1 (P1 & C1 & _). cbv beta.
    eapply wp_bind; [apply iDecompose_ok; tr|]. intros aL vaL h2 (P2 & ->). cbv beta.
    destruct (match computeAR vaL with Some aR => _ | None => _ end) as [aL' aR'].
    eapply wp_bind; [eapply (IH vs' gam (S j)); tr|].
    intros [[Cs gs] [l rr]] [l' r'] h3 (P3 & E3 & C3 & G3). cbn [fst snd] in *. injection E3 as -> ->.
    apply wp_ret. cbn [fst snd length seq map combine]. split; [pr|]. split; [reflexivity|].
    split; (constructor; [tr | assumption]).
Qed.

Lemma izPow2_ok : forall js z vz pow2 vpow2 P h, zAt h z (Some vz) -> zsAt h pow2 vpow2 -> zAt h P (Some (gN G)) ->
  wp (izPow2 G z pow2 js P) (Ok (concat (map (zPow2Block G vz vpow2) js))) h
    (fun l v h' => Pre h h' /\ zosAt h' l v).
Proof.
  induction js as [|j js IH]; intros z vz pow2 vpow2 P h HZ HW HP; cbn [izPow2 map concat].
  - apply wp_ret. split; [apply Pre_refl | constructor].
  - ws. wx. set (zp := vz ^ (2 + Z.of_nat j) mod gN G) in *.
    eapply wp_left; [eapply (zmap_ok G _ (fun p => (p * zp) mod gN G) _ pow2 vpow2); [|tr]|].
    { intros h1 p x P1 A1. ws. ws. ws. split; [pr | tr]. }
    intros b h2 (P2 & Z2). cbv beta.
    eapply wp_left; [eapply (IH z vz pow2 vpow2 P); tr|]. intros r h3 (P3 & Z3). cbv beta.
    apply wp_ret. split; [pr|]. apply zos_app; [|exact Z3]. unfold zPow2Block. fold zp.
    rewrite <- map_map. apply zos_some. tr.
Qed.
Lemma izPow2Vec_ok : forall z vz pow2 vpow2 m n P h, zAt h z (Some vz) -> zsAt h pow2 vpow2 -> zAt h P (Some (gN G)) ->
  wp (izPow2Vec G z pow2 m n P) (Ok (zPow2Vec G vz vpow2 m n)) h (fun l v h' => Pre h h' /\ zosAt h' l v).
Proof.
  intros z vz pow2 vpow2 m n P h HZ HW HP. unfold izPow2Vec, zPow2Vec.
  eapply wp_left; [eapply (izPow2_ok (seq 0 m)); tr|]. intros l h1 (P1 & Z1). cbv beta. apply wp_ret.
  split; [exact P1|]. rewrite (len2 _ _ _ Z1). apply zos_app; [exact Z1|].
  match goal with |- zosAt _ (repeat _ ?k) _ => induction k; cbn; constructor; [reflexivity | assumption] end.
Qed.

Lemma irandTotal_ok : forall jgs jvs z vz P acc va h, zAt h z (Some vz) -> zAt h P (Some (gN G)) -> zAt h acc (Some va) ->
  Forall2 (fun a b => fst a = fst b /\ zAt h (snd a) (Some (snd b))) jgs jvs ->
  wp (irandTotal G z jgs P acc)
     (Ok (fold_left (fun acc jg => (acc + snd jg * (Z.pow vz (2 + Z.of_nat (fst jg)) mod gN G)) mod gN G) jvs va)) h
     (fun p v h' => Pre h h' /\ zAt h' p (Some v)).
Proof.
  induction jgs as [|[j g] jgs IH]; intros jvs z vz P acc va h HZ HP HA HF;
    inversion HF as [|? [j' vg] ? jvs' [EJ A] HF' E1 E2]; subst; cbn [irandTotal fold_left].
  - apply wp_ret. split; [apply Pre_refl | exact HA].
  - cbn [fst snd] in *. subst j'. ws. wx. ws. ws. ws.
    eapply wp_weaken; [apply (IH jvs' z vz P); [tr | tr | tr |]|].
    + clear - HF' H H2 H5 H8 H11. induction HF' as [|a b l l' [E1 A] F IH]; constructor; [|exact IH].
      split; [exact E1 | tr].
    + intros p v hf (P1 & A1). split; [pr | exact A1].
Qed.

Lemma it3_ok : forall js z vz sp vsp t3 v3 P h0 h, zAt h0 z (Some vz) -> zAt h0 sp (Some vsp) -> zAt h0 P (Some (gN G)) ->
  Pre h0 h -> zNew h0 t3 -> zAt h t3 (Some v3) ->
  wp (it3_loop G js z sp t3 P)
     (Ok (fold_left (fun acc j => (acc + ((Z.pow vz (Z.of_nat j + 3) mod gN G) * vsp) mod gN G) mod gN G) js v3)) h
     (fun _ v h' => Pre h0 h' /\ zAt h' t3 (Some v)).
Proof.
  induction js as [|j js IH]; intros z vz sp vsp t3 v3 P h0 h HZ HS HP P0 N3 A3; cbn [it3_loop fold_left].
  - apply wp_ret. split; [exact P0 | exact A3].
  - ws. wx. ws. ws. ws. ws. apply (IH z vz sp vsp t3 _ P h0); [tr | tr | tr | pr | exact N3 | tr].
Qed.

Lemma make_len_repeat : forall n k, make_len n = Ok k -> k = Z.to_nat n.
Proof. intros n k H. unfold make_len in H. destruct (n <? 0); [discriminate|]. injection H as <-. reflexivity. Qed.
Lemma VectorCopy_length : forall a n l, VectorCopy a n = Ok l -> length l = Z.to_nat n.
Proof.
  intros a n l H. unfold VectorCopy in H. destruct (make_len n) as [k| | |] eqn:E; cbn [bind] in H; try discriminate.
  injection H as <-. rewrite repeat_length. exact (make_len_repeat _ _ E).
Qed.
Lemma powerOf_length : forall a n l, powerOf G a n = Ok l -> length l = Z.to_nat n.
Proof.
  intros a n l H. unfold powerOf in H. destruct (make_len n) as [k| | |] eqn:E; cbn [bind] in H; try discriminate.
  injection H as <-. rewrite <- (make_len_repeat _ _ E). clear E. generalize 1 as c.
  induction k as [|k IH]; intros c; cbn; [reflexivity | rewrite IH; reflexivity].
Qed.
Lemma ScalarProduct_some : forall a b, length a = length b -> exists s, ScalarProduct G a b = Some s.
Proof. intros a b H. unfold ScalarProduct. rewrite H, Nat.eqb_refl. eexists. reflexivity. Qed.

Lemma wp_bind_eq : forall {A A' B B'} (c : M G A) (f : A -> M G A') (r : res B) (g : B -> res B') h R Q,
  wp c r h R -> (forall u v h', r = Ok v -> R u v h' -> wp (f u) (g v) h' Q) -> wp (mbind G c f) (bind r g) h Q.
Proof.
  intros A A' B B' c f r g h R Q H K. eapply wp_bind with (R := fun u v h' => r = Ok v /\ R u v h').
  - unfold ImpProofs.wp in *. destruct (c h) as [[u h']| | |]; try exact H. destruct H as (v & E & HR).
    exists v. auto.
  - intros u v h' (E & HR). apply K; assumption.
Qed.

Lemma ideltaMul_ok : forall N y vy z vz m P h, zAt h y (Some vy) -> zAt h z (Some vz) -> zAt h P (Some (gN G)) ->
  wp (ideltaMul G N y z m P) (deltaMul G N vy vz m) h (fun p v h' => Pre h h' /\ zAt h' p (Some v) /\ zNew h p).
Proof.
  intros N y vy z vz m P h HY HZ HP. unfold ideltaMul, deltaMul. ws.
  apply (wp_lift_bind G (goDiv N m) _ (goDiv N m) _ _ (fun u v => u = v)).
  { destruct (goDiv N m); auto. }
  intros nm vnm <-. ws.
  eapply wp_bind_eq; [apply iVectorCopy_ok; tr|]. intros onePow vone h1 L1 (P1 & Z1). cbv beta. ws.
  eapply wp_bind_eq; [apply ipowerOf_ok; tr|]. intros twoPow vtwo h2 L2 (P2 & Z2). cbv beta.
  ws. ws. ws. ws. ws.
  eapply wp_bind_eq; [apply iVectorCopy_ok; tr|]. intros oneNM voneNM h3 L3 (P3 & Z3). cbv beta.
  eapply wp_bind_eq; [apply ipowerOf_ok; tr|]. intros yPow vyp h4 L4 (P4 & Z4). cbv beta.
  apply VectorCopy_length in L1, L3. apply powerOf_length in L2, L4.
  eapply wp_left; [eapply (iScalarProduct_ok G oneNM voneNM yPow vyp P); tr|]. intros t2 h5 (P5 & Z5 & N5). cbv beta.
  eapply wp_left; [eapply (iScalarProduct_ok G onePow vone twoPow vtwo P); tr|]. intros sp h6 (P6 & Z6 & N6). cbv beta.
  destruct (ScalarProduct_some voneNM vyp) as (v2 & E2); [congruence|]. rewrite E2 in *.
  destruct (ScalarProduct_some vone vtwo) as (v12 & E12); [congruence|]. rewrite E12 in *.
  specialize (N5 ltac:(discriminate)). cbn [deref bind]. ws.
  eapply wp_left; [eapply (it3_ok (seq 0 (Z.to_nat m)) z vz sp v12 _ 0 P); [| | | | eassumption | tr]; [tr | tr | tr | pr]|].
  intros _ h7 (P7 & Z7). cbv beta.
  ws. ws. ws. ws. ws. split; [pr | split; [tr | nw]].
Qed.

Lemma irhs_ok : forall vps vvs zq vzq rhs vr h0 h, zAt h0 zq (Some vzq) ->
  Forall2 (fun a b => eAt h0 (fst a) (Some (fst b)) /\ zAt h0 (snd a) (Some (snd b))) vps vvs ->
  Pre h0 h -> eNew h0 rhs -> eAt h rhs (Some vr) ->
  wp (irhs_loop G vps zq rhs)
     (Ok (fold_left (fun r vp => gAdd G r (gScale G (fst vp) (vzq * snd vp))) vvs vr)) h
     (fun _ v h' => Pre h0 h' /\ eAt h' rhs (Some v)).
Proof.
  induction vps as [|[V p] vps IH]; intros vvs zq vzq rhs vr h0 h HZ HF P0 NR AR;
    inversion HF as [|? [vV vp] ? vvs' [AV AP] HF' E1 E2]; subst; cbn [irhs_loop fold_left].
  - apply wp_ret. split; [exact P0 | exact AR].
  - cbn [fst snd] in *. ws. ws. ws. apply (IH vvs' zq vzq rhs _ h0); [tr | exact HF' | pr | exact NR | tr].
Qed.

Lemma skipn2 : forall {A B} (R : A -> B -> Prop) l m n, Forall2 R l m -> Forall2 R (skipn n l) (skipn n m).
Proof. intros A B R l m n H. revert n. induction H; intros [|n]; cbn; try constructor; auto. Qed.
Lemma imultiProd_ok : forall js hp vhp bits pow2 vpow2 z vz prod vprod P h0 h,
  esAt h0 hp vhp -> zsAt h0 pow2 vpow2 -> zAt h0 z (Some vz) -> zAt h0 P (Some (gN G)) ->
  Pre h0 h -> eNew h0 prod -> eAt h prod (Some vprod) ->
  wp (imultiProd_loop G hp bits pow2 z js prod P) (multiProd_loop G vhp bits vpow2 vz js vprod) h
     (fun _ v h' => Pre h0 h' /\ eAt h' prod (Some v)).
Proof.
  induction js as [|j js IH]; intros hp vhp bits pow2 vpow2 z vz prod vprod P h0 h HH HW HZ HP P0 NP AP;
    cbn [imultiProd_loop multiProd_loop].
  - apply wp_ret. split; [exact P0 | exact AP].
  - eapply wp_lift_bind; [apply (slice_to2 (fun p v => eAt h0 p (Some v)) hp vhp); exact HH|]. intros up vup HU. cbv beta.
    apply (skipn2 _ _ _ (j * bits)) in HU. change (esAt h0 (skipn (j * bits) up) (skipn (j * bits) vup)) in HU.
    ws. wx.
    eapply wp_left; [eapply (iVectorAddConst_ok G pow2 vpow2); tr|]. intros ex h1 (P1 & Z1). cbv beta.
    eapply wp_left; [eapply (iVectorExp_ok G _ (skipn (j * bits) vup) ex); tr|]. intros val h2 (P2 & A2 & _). cbv beta.
    cbv zeta. match goal with |- context [deref ?o] => destruct o as [vval|] end; cbn [deref bind].
    2:{ cbn in A2. eapply (wp_set_nil G); [tr | right; exact A2 | reflexivity]. }
    ws. apply (IH hp vhp bits pow2 vpow2 z vz prod _ P h0); [tr | tr | tr | tr | pr | exact NP | tr].
Qed.

Theorem iMultiVerify_ok : forall q v P h, repMulti h q v -> zAt h P (Some (gN G)) ->
  wp (iMultiVerify G HO q P) (MultiVerify G HO v) h (fun r b h' => Pre h h' /\ r = b).
Proof.
  intros q v P h (HV & HA & HS & HT1 & HT2 & HTx & HMu & HTp & HI & EN & HG & HH & HGg & HHh) HP.
  unfold iMultiVerify, MultiVerify. rewrite EN, (len2 _ _ _ HV). cbv zeta. set (m := length (mVs v)).
  apply (wp_lift_bind G (goDiv (bpN (mParams v)) (Z.of_nat m)) _ (goDiv (bpN (mParams v)) (Z.of_nat m)) _ _ (fun u v => u = v)).
  { destruct (goDiv _ _); auto. }
  intros bits vbits <-.
  eapply wp_left; [eapply (iHashBP_ok G HO (sT1 q) (sT2 q) (mT1 v) (mT2 v)); tr|]. intros xx h1 (P1 & X1 & _). cbv beta zeta.
  eapply wp_left; [eapply (iHashBP_ok G HO (sA q) (sS q) (mA v) (mS v)); tr|]. intros [y z] h2 (P2 & Y2 & Z2). cbv beta.
  destruct (HashBP G HO (mT1 v) (mT2 v)) as [vx vx']. destruct (HashBP G HO (mA v) (mS v)) as [vy vz].
  cbn [fst snd] in *. ws. ws. ws. ws.
  eapply wp_bind; [apply iupdateGenerators_ok; tr|]. intros hp vhp h3 (P3 & HP3). cbv beta.
  destruct (mTprime v) as [tp|]; cbn [deref bind].
  2:{ unfold iPedersenCommit. apply wp_fail. eapply wp_eBase_nil; [tr | reflexivity]. }
  destruct (mTaux v) as [tx|]; cbn [deref bind].
  2:{ unfold iPedersenCommit. apply wp_fail. ws. eapply wp_eScale_nil; [tr | tr | right; reflexivity | reflexivity]. }
  eapply wp_left; [eapply (iPedersenCommit_ok G (sTprime q) (sTaux q) (rH (sParams q)) tp tx (bpH (mParams v))); tr|].
  intros lhs h4 (P4 & L4 & N4). cbv beta.
  eapply wp_bind; [apply ipowerOf_ok; tr|]. intros pz vpz h4' (P4' & Z4'). cbv beta.
  eapply wp_newE; intros rhs hr Pr Ar Nr. cbv beta.
  eapply wp_left.
  { eapply (irhs_ok (combine (sVs q) pz) (combine (mVs v) vpz)); [| | | exact Nr | exact Ar]; [tr | | pr].
    apply ez_combine; tr. }
  intros _ h4r (P4r & A4r). cbv beta.
  assert (Nr' : eNew h rhs) by nw.
  eapply wp_bind; [apply ideltaMul_ok; tr|]. intros d vd h5 (P5 & D5 & ND). cbv beta.
  ws. ws. ws. ws. ws. ws. ws. ws. ws. ws. ws.
  eapply wp_bind; [apply iVectorCopy_ok; tr|]. intros vmz vvmz h6 (P6 & Z6). cbv beta.
  eapply wp_left; [eapply (iVectorExp_ok G (rGg (sParams q)) (bpGg (mParams v)) vmz vvmz); tr|].
  intros gpmz h7 (P7 & G7 & N7). cbv beta.
  eapply wp_bind; [apply iVectorCopy_ok; tr|]. intros vzz vvz h8 (P8 & Z8). cbv beta.
  eapply wp_bind; [apply ipowerOf_ok; tr|]. intros vyy vvy h9 (P9 & Z9). cbv beta.
  eapply wp_left; [eapply (iVectorMul_ok G vyy vvy vzz vvz P (gN G)); tr|]. intros zyn h10 (P10 & Z10). cbv beta.
  eapply wp_left; [eapply (iVectorExp_ok G hp vhp zyn); tr|]. intros hpE h11 (P11 & G11 & N11). cbv beta. ws.
  match goal with |- context [deref (VectorExp G vhp ?l)] => destruct (VectorExp G vhp l) as [vhpE|] end; cbn [deref bind].
  2:{ eapply wp_skip; [apply ipowerOf_ok; tr | | reflexivity | apply powerOf_kind | apply powerOf_kind]. intros pw vpw h12 (P12 & Z12). cbv beta.
      eapply wp_newE; intros pd hd Pd Ad Nd. cbv beta.
      eapply wp_skip; [eapply (imultiProd_ok (seq 0 m) hp vhp (Z.to_nat bits) pw vpw z vz pd _ P); [| | | | | exact Nd | exact Ad]; [tr | tr | tr | tr | pr] | | reflexivity | apply multiProd_kind | apply multiProd_kind].
      intros _ vpd h13 (P13 & A13). cbv beta.
      eapply wp_eAdd_nil; [tr | tr | left; reflexivity | reflexivity]. }
  eapply wp_bind; [apply ipowerOf_ok; tr|]. intros pw vpw h12 (P12 & Z12). cbv beta.
  eapply wp_newE; intros pd hd Pd Ad Nd. cbv beta.
  eapply wp_bind.
  { eapply (imultiProd_ok (seq 0 m) hp vhp (Z.to_nat bits) pw vpw z vz pd _ P); [| | | | | exact Nd | exact Ad]; [tr | tr | tr | tr | pr]. }
  intros _ vpd h13 (P13 & A13). cbv beta. ws.
  destruct (VectorExp G (bpGg (mParams v)) vvmz) as [vgpmz|]; cbn [deref bind].
  2:{ eapply wp_eAdd_nil; [tr | tr | right; reflexivity | reflexivity]. }
  ws. ws.
  destruct (mMu v) as [mu|]; cbn [deref bind].
  2:{ eapply wp_eScale_nil; [tr | tr | right; reflexivity | reflexivity]. }
  pose proof HI as (HIP & _).
  ws. ws. ws. ws.
  eapply wp_bind; [apply iipVerify_ok; [|tr]|].
  { apply (repIPProof_pre G h); [pr | exact HI]. }
  intros ok vok h15 (P15 & ->). cbv beta. apply wp_ret. split; [pr | reflexivity].
Qed.

(** Lengths, to know that the first VectorAdd over zPowersTimesTwoVec reads every entry *)
Lemma VectorConvertToBig_length : forall l n r, VectorConvertToBig l n = Ok r -> length r = Z.to_nat n.
Proof.
  intros l n r H. unfold VectorConvertToBig in H. destruct (make_len n) as [k| | |] eqn:E; cbn [bind] in H; try discriminate.
  apply make_len_repeat in E. subst k. unfold slice_to in H. destruct (Nat.leb _ _) eqn:L; [|discriminate].
  injection H as <-. apply Nat.leb_le in L. apply firstn_length_le, L.
Qed.
Lemma map2_length : forall {A B C} (f : A -> B -> C) l m k, length l = k -> length m = k -> length (map2 f l m) = k.
Proof.
  intros A B C f l. induction l as [|a l IH]; intros [|b m] [|k] H K; cbn in *; try discriminate; try reflexivity.
  f_equal. apply IH; congruence.
Qed.
Lemma VectorAdd_length : forall a b n k, length a = k -> length b = k -> length (nil_slice (VectorAdd a b n)) = k.
Proof.
  intros a b n k H K. unfold VectorAdd. rewrite H, K, Nat.eqb_refl. cbn [nil_slice]. apply map2_length; assumption.
Qed.
Lemma VectorMul_length : forall a b n k, length a = k -> length b = k -> length (nil_slice (VectorMul a b n)) = k.
Proof.
  intros a b n k H K. unfold VectorMul. rewrite H, K, Nat.eqb_refl. cbn [nil_slice]. apply map2_length; assumption.
Qed.
Lemma zPow2Vec_length : forall z pow2 m n, (m * length pow2 <= n)%nat -> length (zPow2Vec G z pow2 m n) = n.
Proof.
  intros z pow2 m n H. unfold zPow2Vec. rewrite app_length, repeat_length.
  assert (L : forall js, length (concat (map (zPow2Block G z pow2) js)) = (length js * length pow2)%nat).
  { induction js as [|j js IH]; cbn [map concat length]; [reflexivity|]. rewrite app_length, IH.
    unfold zPow2Block. rewrite map_length. reflexivity. }
  rewrite L, seq_length. lia.
Qed.
Lemma goDiv_le : forall N m b, 0 <= N -> goDiv N (Z.of_nat m) = Ok b -> 0 <= b /\ (m * Z.to_nat b <= Z.to_nat N)%nat.
Proof.
  intros N m b HN H. unfold goDiv in H. destruct (Z.eqb_spec (Z.of_nat m) 0); [discriminate|]. injection H as <-.
  assert (0 <= N ÷ Z.of_nat m) by (apply Z.quot_pos; lia). split; [assumption|].
  assert (Z.of_nat m * (N ÷ Z.of_nat m) <= N) by (apply Z.mul_quot_le; lia). nia.
Qed.

Theorem iMultiProve_ok : forall xs vxs q v gam rnd P h, zsAt h xs vxs -> repBPParams G h q v -> zAt h P (Some (gN G)) ->
  wp (iMultiProve G HO xs q gam rnd P) (MultiProve G HO vxs v gam rnd) h
     (fun r w h' => Pre h h' /\ repMulti h' (fst r) (fst w) /\ zsAt h' (snd r) (snd w)).
Proof.
  intros xs vxs q v gam rnd P h HX HQ HP. pose proof HQ as (EN & HG & HH & HGg & HHh).
  unfold iMultiProve, MultiProve. rewrite EN, (len2 _ _ _ HX). cbv zeta. set (m := length vxs).
  set (N := bpN v) in *.
  destruct (goDiv N (Z.of_nat m)) as [bits| | |] eqn:EB; cbn [bind]; try (apply wp_fail; apply wp_stop; exact I).
  destruct (make_len N) as [n| | |] eqn:EL; cbn [bind];
    try (apply (wp_lift G (Ok bits)); [intros u _; apply wp_fail; apply wp_stop; exact I | intros K; destruct (K bits eq_refl)]).
  assert (HN : 0 <= N) by (unfold make_len in EL; destruct (Z.ltb_spec N 0); [discriminate | assumption]).
  apply make_len_repeat in EL. destruct (goDiv_le N m bits HN EB) as (Hb0 & Hb).
  apply (wp_lift G (Ok bits)); [intros u Eu; injection Eu as <- | intros K; destruct (K bits eq_refl)].
  apply (wp_lift G (Ok n)); [intros u Eu; injection Eu as <- | intros K; destruct (K n eq_refl)].
  ws. unfold randInt. destruct (gN G <=? 0); cbn [bind]; [reflexivity|]. apply wp_liftOk.
  eapply wp_bind; [eapply (imultiCommit_ok xs vxs gam 0 bits (rH q) (bpH v)); tr|].
  intros [[Cs gs] [aLc aRc]] w h0 (P0 & E0 & C0 & G0). cbn [fst snd] in *. subst w. fold m in C0, G0.
  set (vCs := map _ (combine vxs _)) in *. set (vgs := map gam (seq 0 m)) in *. ws.
  eapply wp_bind; [apply icommitVector_ok'; tr|]. intros A vA h3 (P3 & A3 & _). cbv beta.
  eapply wp_bind; [apply isample_ok|]. intros sL vsL h4 (P4 & L4). cbv beta.
  eapply wp_bind; [apply isample_ok|]. intros sR vsR h5 (P5 & L5). cbv beta. ws.
  eapply wp_bind; [apply icommitVectorBig_ok'; tr|]. intros S vS h6 (P6 & A6 & _). cbv beta.
  eapply wp_left; [eapply (iHashBP_ok G HO A S vA vS); tr|]. intros [y z] h7 (P7 & Y7 & Z7). cbv beta.
  destruct (HashBP G HO vA vS) as [vy vz]. cbn [fst snd] in *. ws. ws.
  eapply wp_bind_eq; [apply ipowerOf_ok; tr|]. intros yPow vyPow h8 EyP (P8 & L8). cbv beta. ws.
  eapply wp_bind_eq; [apply ipowerOf_ok; tr|]. intros pow2 vpow2 h9 Ep2 (P9 & L9). cbv beta.
  apply powerOf_length in EyP, Ep2.
  eapply wp_left; [eapply (izPow2Vec_ok z vz pow2 vpow2 m n P); tr|]. intros zv h10 (P10 & L10). cbv beta.
  assert (EZ : length (zPow2Vec G vz vpow2 m n) = n) by (apply zPow2Vec_length; rewrite Ep2; lia).
  set (vzv := zPow2Vec G vz vpow2 m n) in *. clearbody vzv.
  eapply wp_bind; [apply iVectorConvertToBig_ok|]. intros aLb vaLb h11 (P11 & L11). cbv beta.
  eapply wp_bind_eq; [apply iVectorConvertToBig_ok|]. intros aRb vaRb h12 EaR (P12 & L12). cbv beta. ws.
  eapply wp_left; [eapply (iVectorAddConst_ok G aLb vaLb); tr|]. intros l0 h13 (P13 & L13). cbv beta.
  eapply wp_bind_eq; [apply iVectorCopy_ok; tr|]. intros vecZ vvecZ h14 EvZ (P14 & L14). cbv beta.
  apply VectorConvertToBig_length in EaR. apply VectorCopy_length in EvZ.
  eapply wp_left; [eapply (iVectorAdd_ok G vecZ vvecZ aRb vaRb P (gN G)); tr|]. intros aRzn h15 (P15 & L15). cbv beta.
  eapply wp_left; [eapply (iVectorMul_ok G yPow vyPow aRzn _ P (gN G)); tr|]. intros r0' h16 (P16 & L16). cbv beta.
  assert (Er0 : length (nil_slice (VectorMul vyPow (nil_slice (VectorAdd vvecZ vaRb (gN G))) (gN G))) = n).
  { apply VectorMul_length; [congruence|]. apply VectorAdd_length; congruence. }
  assert (L10' : zosAt h16 zv vzv) by (apply (zos_pre h10); [pr | exact L10]).
  destruct (mapM_deref_kind vzv) as (MK1 & MK2). destruct (mapM deref vzv) as [zp2| | |] eqn:ED; cbn [bind]; try contradiction;
    try (apply wp_fail; eapply (iVectorAdd_nil r0' _ zv vzv P (gN G) h16); [tr | exact L16 | exact L10' | congruence | congruence | reflexivity]).
  pose proof (zos_deref _ _ _ _ L10' ED) as L10s.
  eapply wp_left; [eapply (iVectorAdd_ok G r0' _ zv zp2 P (gN G)); tr|]. intros r0 h17 (P17 & L17). cbv beta.
  eapply wp_left; [eapply (iVectorMul_ok G yPow vyPow sR vsR P (gN G)); tr|]. intros r1 h18 (P18 & L18). cbv beta.
  eapply wp_bind; [apply iVectorInnerProduct_ok; tr|]. intros t1l vt1l h19 (P19 & L19 & _). cbv beta.
  eapply wp_bind; [apply iVectorInnerProduct_ok; tr|]. intros t1r vt1r h20 (P20 & L20 & _). cbv beta. ws. ws.
  eapply wp_bind; [apply iVectorInnerProduct_ok; tr|]. intros t2 vt2 h21 (P21 & L21 & _). cbv beta.
  eapply wp_left; [eapply (iPedersenCommit_ok G); tr|]. intros T1 h22 (P22 & T22 & _). cbv beta.
  eapply wp_left; [eapply (iPedersenCommit_ok G); tr|]. intros T2 h23 (P23 & T23 & _). cbv beta.
  eapply wp_left; [eapply (iHashBP_ok G HO); tr|]. intros xx h24 (P24 & X24 & _). cbv beta zeta.
  match type of X24 with context [HashBP G HO ?a ?b] => set (hb := HashBP G HO a b) in * end.
  clearbody hb. destruct hb as [c c']. cbn [fst snd] in *.
  eapply wp_bind; [apply iVectorScalarMul_ok; tr|]. intros sLx vsLx h25 (P25 & L25). cbv beta.
  eapply wp_left; [eapply (iVectorAdd_ok G l0 _ sLx vsLx P (gN G)); tr|]. intros bl h26 (P26 & L26). cbv beta.
  eapply wp_bind; [apply iVectorScalarMul_ok; tr|]. intros sRx vsRx h27 (P27 & L27). cbv beta.
  eapply wp_left; [eapply (iVectorAdd_ok G aRzn _ sRx vsRx P (gN G)); tr|]. intros tmp h28 (P28 & L28). cbv beta.
  eapply wp_left; [eapply (iVectorMul_ok G yPow vyPow tmp _ P (gN G)); tr|]. intros tmp' h29 (P29 & L29). cbv beta.
  eapply wp_left; [eapply (iVectorAdd_ok G tmp' _ zv zp2 P (gN G)); tr|]. intros br h30 (P30 & L30). cbv beta.
  eapply wp_left; [eapply (iScalarProduct_ok G bl _ br _ P); tr|]. intros th h31 (P31 & T31 & _). cbv beta.
  ws. ws. ws. ws. ws.
  eapply wp_left.
  { eapply (irandTotal_ok (combine (seq 0 (length gs)) gs) (combine (seq 0 (length vgs)) vgs) z vz P); [tr | tr | tr |].
    rewrite (len2 _ _ _ G0). match goal with |- Forall2 ?R _ _ => assert (GG : zsAt ltac:(match R with context [ImpProofs.zAt _ ?hh _ _] => exact hh end) gs vgs) by tr end.
    clear - GG. generalize 0%nat as k. induction GG as [|a b l l' A B IH]; intros k; cbn [length seq combine]; constructor; auto. }
  intros tot htot (Ptot & Atot). cbv beta. fold (randTotal G vz vgs) in Atot.
  ws. ws. ws. ws. ws.
  eapply wp_bind; [apply iupdateGenerators_ok; tr|]. intros hp vhp h32 (P32 & HP32). cbv beta.
  eapply wp_bind; [apply isetup_ok; tr|]. intros ipp vipp h33 (P33 & I33 & E33 & F33). cbv beta.
  eapply wp_bind; [apply icommitInner_ok; tr|]. intros cm vcm h34 (P34 & C34 & _). cbv beta.
  rewrite (len2 _ _ _ L26).
  eapply wp_bind.
  { eapply (iproveInnerProduct_ok G HO _ bl _ br _ cm vcm th _ ipp vipp vhp P); [exact E33 | tr | tr | tr | tr | | tr].
    destruct I33 as (I1 & I2 & I3). repeat split; tr. }
  intros pf vpf h35 (P35 & R35). cbv beta. apply wp_ret. cbn [fst snd]. split; [pr|]. split; [|tr].
  assert (RQ : repBPParams G h35 q v) by (apply (repBPParams_pre G h); [pr | exact HQ]).
  unfold repMulti. cbn [sVs sA sS sT1 sT2 sTaux sMu sTprime sIPP sParams mVs mA mS mT1 mT2 mTaux mMu mTprime mIPP mParams].
  do 9 (split; [first [tr | assumption]|]). exact RQ.
Qed.
End Multi.
