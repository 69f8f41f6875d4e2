(** Each function of Imp.v against its value-level model: same result, objects that existed before unchanged. *)
From Verif Require Import GoBase Json GroupIface Vector BIP BP Imp ImpProofs.

Ltac ws := cbv beta; lazymatch goal with
  | |- wp _ (mbind _ (newE _ _) _) _ _ _ => eapply wp_newE; intros ? ? ? ? ?
  | |- wp _ (mbind _ (newZ _ _) _) _ _ _ => eapply wp_newZ; intros ? ? ? ? ?
  | |- wp _ (mbind _ (rdE _ _) _) _ _ _ => eapply wp_rdE; [tr|]
  | |- wp _ (mbind _ (rdZ _ _) _) _ _ _ => eapply wp_rdZ; [tr|]
  | |- wp _ (mbind _ (zInverse _ _ _) _) _ _ _ => eapply wp_zInverse; [tr | tr | intros ? ? ? ?]
  | |- wp _ (mbind _ (element _ (fun e => eAdd _ e ?a ?b)) _) _ ?h _ =>
      eapply wp_element; [eapply op_eAdd; tr | intros ? ? ? ? ?]
  | |- wp _ (mbind _ (element _ (fun e => eScale _ e ?a ?b)) _) _ _ _ =>
      eapply wp_element; [eapply op_eScale; tr | intros ? ? ? ? ?]
  | |- wp _ (mbind _ (element _ (fun e => eNeg _ e ?a)) _) _ _ _ =>
      eapply wp_element; [eapply op_eNeg; tr | intros ? ? ? ? ?]
  | |- wp _ (mbind _ (element _ (fun e => eBase _ e ?a)) _) _ _ _ =>
      eapply wp_element; [eapply op_eBase; tr | intros ? ? ? ? ?]
  | |- wp _ (mbind _ (bigInt _ (fun e => zAdd _ e ?a ?b)) _) _ _ _ =>
      eapply wp_bigInt; [eapply op_zAdd; tr | intros ? ? ? ? ?]
  | |- wp _ (mbind _ (bigInt _ (fun e => zSub _ e ?a ?b)) _) _ _ _ =>
      eapply wp_bigInt; [eapply op_zSub; tr | intros ? ? ? ? ?]
  | |- wp _ (mbind _ (bigInt _ (fun e => zMul _ e ?a ?b)) _) _ _ _ =>
      eapply wp_bigInt; [eapply op_zMul; tr | intros ? ? ? ? ?]
  | |- wp _ (mbind _ (bigInt _ (fun e => zMod _ e ?a ?b)) _) _ _ _ =>
      eapply wp_bigInt; [eapply op_zMod; tr | intros ? ? ? ? ?]
  | |- wp _ (mbind _ (bigInt _ (fun e => zDiv _ e ?a ?b)) _) _ _ _ =>
      eapply wp_bigInt; [eapply op_zDiv; tr | intros ? ? ? ? ?]
  | |- wp _ (mbind _ (bigInt _ (fun e => zNeg _ e ?a)) _) _ _ _ =>
      eapply wp_bigInt; [eapply op_zNeg; tr | intros ? ? ? ? ?]
  | |- wp _ (mbind _ (eAdd _ ?e ?a ?b) _) _ _ _ => eapply wp_setAdd; [tr | tr | tr | intros ? ?]
  | |- wp _ (mbind _ (eSub _ ?e ?a ?b) _) _ _ _ => eapply wp_setSub; [tr | tr | tr | intros ? ?]
  | |- wp _ (mbind _ (zAdd _ ?e ?a ?b) _) _ _ _ => eapply wp_setzAdd; [tr | tr | tr | intros ? ?]
  | |- wp _ (mbind _ (zSub _ ?e ?a ?b) _) _ _ _ => eapply wp_setzSub; [tr | tr | tr | intros ? ?]
  | |- wp _ (mbind _ (zMul _ ?e ?a ?b) _) _ _ _ => eapply wp_setzMul; [tr | tr | tr | intros ? ?]
  | |- wp _ (mbind _ (zMod _ ?e ?a ?b) _) _ _ _ => eapply wp_setzMod; [tr | tr | tr | intros ? ?]
  | |- wp _ (ret _ _) _ _ _ => apply wp_ret
  | |- wp _ (mbind _ _ _) _ _ _ => fail "no rule"
  | |- wp _ _ _ _ _ => apply wp_tail; ws
  end.
Section Funs.
Context (G : Grp) (HO : Oracles).
Local Notation heap := (heap G).
Local Notation eAt := (eAt G). Local Notation zAt := (zAt G).
Local Notation esAt := (esAt G). Local Notation zsAt := (zsAt G). Local Notation eosAt := (eosAt G).
Local Notation Pre := (Pre G). Local Notation eNew := (eNew G). Local Notation zNew := (zNew G).
Local Notation wp := (wp G).

(** A loop over a slice *)
Lemma mmap_ok : forall {A B X Y} (f : A -> M G B) (g : X -> res Y) (R : heap -> A -> X -> Prop)
    (S : heap -> B -> Y -> Prop) (F : heap -> B -> Prop),
  (forall h h' a x, Pre h h' -> R h a x -> R h' a x) ->
  (forall h h' b y, Pre h h' -> S h b y -> S h' b y) ->
  (forall h h' b, Pre h h' -> F h' b -> F h b) ->
  forall h, (forall h1 a x, Pre h h1 -> R h1 a x -> wp (f a) (g x) h1 (fun b y h2 => Pre h1 h2 /\ S h2 b y /\ F h1 b)) ->
  forall la lx, Forall2 (R h) la lx ->
  wp (mmap G f la) (mapM g lx) h (fun lb ly h' => Pre h h' /\ Forall2 (S h') lb ly /\ Forall (F h) lb).
Proof.
  intros A B X Y f g R S F HR HS HF h Hf la.
  assert (K : forall h0, Pre h h0 -> forall lx, Forall2 (R h0) la lx ->
    wp (mmap G f la) (mapM g lx) h0 (fun lb ly h' => Pre h0 h' /\ Forall2 (S h') lb ly /\ Forall (F h0) lb)).
  { induction la as [|a la IH]; intros h0 P0 lx HL; inversion HL; subst; cbn [mmap mapM].
    - apply wp_ret. split; [apply Pre_refl | split; constructor].
    - eapply wp_bind; [exact (Hf h0 a y P0 H1)|]. intros b v h1 (P1 & S1 & F1). cbv beta.
      eapply wp_bind.
      { apply (IH h1 (Pre_trans _ _ _ _ P0 P1)). clear - H3 HR P1.
        induction H3; constructor; [exact (HR _ _ _ _ P1 H) | assumption]. }
      intros lb ly h2 (P2 & S2 & F2). cbv beta. apply wp_ret. split; [pr|]. split.
      + constructor; [exact (HS _ _ _ _ P2 S1) | exact S2].
      + constructor; [exact F1|]. clear - F2 HF P1. induction F2; constructor; [exact (HF _ _ _ P1 H) | assumption]. }
  intros lx HL. exact (K h (Pre_refl _ h) lx HL).
Qed.
Lemma mapM_Ok : forall {A B} (f : A -> B) l, mapM (fun x => Ok (f x)) l = Ok (map f l).
Proof. intros A B f l. induction l as [|a l IH]; cbn; [reflexivity | rewrite IH; reflexivity]. Qed.
Lemma mapM_ext : forall {A B} (f g : A -> res B) l, (forall x, f x = g x) -> mapM f l = mapM g l.
Proof. intros A B f g l H. induction l as [|a l IH]; cbn; [reflexivity | rewrite H, IH; reflexivity]. Qed.

Lemma zs_combine : forall h ps xs qs ys, zsAt h ps xs -> zsAt h qs ys ->
  Forall2 (fun pq xy => zAt h (fst pq) (Some (fst xy)) /\ zAt h (snd pq) (Some (snd xy))) (combine ps qs) (combine xs ys).
Proof.
  intros h ps xs qs ys H. revert qs ys. induction H; intros qs ys K; cbn; [constructor|].
  inversion K; subst; constructor; [split; assumption | apply IHForall2; assumption].
Qed.
Lemma es_combine : forall h ps xs qs ys, esAt h ps xs -> esAt h qs ys ->
  Forall2 (fun pq xy => eAt h (fst pq) (Some (fst xy)) /\ eAt h (snd pq) (Some (snd xy))) (combine ps qs) (combine xs ys).
Proof.
  intros h ps xs qs ys H. revert qs ys. induction H; intros qs ys K; cbn; [constructor|].
  inversion K; subst; constructor; [split; assumption | apply IHForall2; assumption].
Qed.
Lemma ez_combine : forall h ps xs qs ys, esAt h ps xs -> zsAt h qs ys ->
  Forall2 (fun pq xy => eAt h (fst pq) (Some (fst xy)) /\ zAt h (snd pq) (Some (snd xy))) (combine ps qs) (combine xs ys).
Proof.
  intros h ps xs qs ys H. revert qs ys. induction H; intros qs ys K; cbn; [constructor|].
  inversion K; subst; constructor; [split; assumption | apply IHForall2; assumption].
Qed.
Lemma len2 : forall {A B} (R : A -> B -> Prop) l m, Forall2 R l m -> length l = length m.
Proof. intros A B R l m H. induction H; cbn; congruence. Qed.
Lemma map2_combine : forall {A B C} (f : A -> B -> C) l m,
  map2 f l m = map (fun ab => f (fst ab) (snd ab)) (combine l m).
Proof. intros A B C f l. induction l as [|a l IH]; intros [|b m]; cbn; try reflexivity. rewrite IH. reflexivity. Qed.

(** ** Integer vectors *)
Definition zPost (h : heap) (l : list ptr) (zs : list Z) (h' : heap) : Prop := Pre h h' /\ zsAt h' l zs.

Lemma iVectorCopy_ok : forall a z n h, zAt h a (Some z) ->
  wp (iVectorCopy G a n) (VectorCopy z n) h (zPost h).
Proof.
  intros a z n h A. unfold iVectorCopy, VectorCopy.
  apply (wp_lift_bind G (make_len n) _ (make_len n) _ h (fun u v => u = v)).
  - destruct (make_len n); auto.
  - intros u v <-. apply wp_ret. split; [apply Pre_refl|]. induction u; cbn; constructor; assumption.
Qed.
Lemma newZs_ok : forall l h, wp (mmap G (newZ G) l) (Ok l) h (zPost h).
Proof.
  intros l h. induction l as [|z l IH] in h |- *; cbn [mmap].
  - ws. split; [apply Pre_refl | constructor].
  - ws. eapply (wp_left G _ _ l); [apply IH|]. intros ps h2 (P2 & Z2). cbv beta. ws. split; [pr|].
    constructor; [tr | exact Z2].
Qed.
Lemma iVectorConvertToBig_ok : forall l n h, wp (iVectorConvertToBig G l n) (VectorConvertToBig l n) h (zPost h).
Proof.
  intros l n h. unfold iVectorConvertToBig, VectorConvertToBig.
  apply (wp_lift_bind G (make_len n) _ (make_len n) _ h (fun u v => u = v)).
  - destruct (make_len n); auto.
  - intros u v <-. destruct (slice_to l u) as [t| | |] eqn:E.
    + unfold lift, mbind. exact (newZs_ok t h).
    + reflexivity.
    + reflexivity.
    + reflexivity.
Qed.

Lemma zmap_ok : forall (f : ptr -> M G ptr) (g : Z -> Z) h ps zs,
  (forall h1 p z, Pre h h1 -> zAt h1 p (Some z) ->
     wp (f p) (Ok (g z)) h1 (fun q y h2 => Pre h1 h2 /\ zAt h2 q (Some y))) ->
  zsAt h ps zs -> wp (mmap G f ps) (Ok (map g zs)) h (zPost h).
Proof.
  intros f g h ps zs Hf HL. rewrite <- mapM_Ok.
  eapply wp_weaken.
  - apply (mmap_ok f (fun z => Ok (g z)) (fun h p z => zAt h p (Some z)) (fun h p z => zAt h p (Some z)) (fun _ _ => True)).
    + intros; tr.
    + intros; tr.
    + auto.
    + intros h1 p z P A. eapply wp_weaken; [apply (Hf h1 p z P A)|]. intros q y h2 (P2 & Z2). auto.
    + exact HL.
  - intros l ys h' (P & Z & _). split; assumption.
Qed.
Lemma zmap2_ok : forall (f : ptr * ptr -> M G ptr) (g : Z -> Z -> Z) h ps xs qs ys,
  (forall h1 p q x y, Pre h h1 -> zAt h1 p (Some x) -> zAt h1 q (Some y) ->
     wp (f (p, q)) (Ok (g x y)) h1 (fun r v h2 => Pre h1 h2 /\ zAt h2 r (Some v))) ->
  zsAt h ps xs -> zsAt h qs ys -> wp (mmap G f (combine ps qs)) (Ok (map2 g xs ys)) h (zPost h).
Proof.
  intros f g h ps xs qs ys Hf HP HQ. rewrite map2_combine, <- mapM_Ok.
  eapply wp_weaken.
  - apply (mmap_ok f (fun ab => Ok (g (fst ab) (snd ab)))
      (fun h pq xy => zAt h (fst pq) (Some (fst xy)) /\ zAt h (snd pq) (Some (snd xy)))
      (fun h p z => zAt h p (Some z)) (fun _ _ => True)).
    + intros h1 h2 pq xy P (A & B). split; tr.
    + intros; tr.
    + auto.
    + intros h1 (p, q) (x, y) P (A & B). eapply wp_weaken; [apply (Hf h1 p q x y P A B)|].
      intros r v h2 (P2 & Z2). auto.
    + exact (zs_combine h ps xs qs ys HP HQ).
  - intros l vs h' (P & Z & _). split; assumption.
Qed.
Lemma iVectorAdd_ok : forall ps xs qs ys N n h, zAt h N (Some n) -> zsAt h ps xs -> zsAt h qs ys ->
  wp (iVectorAdd G ps qs N) (Ok (nil_slice (VectorAdd xs ys n))) h (zPost h).
Proof.
  intros ps xs qs ys N n h HN HP HQ. unfold iVectorAdd, VectorAdd.
  rewrite (len2 _ _ _ HP), (len2 _ _ _ HQ). destruct (Nat.eqb (length xs) (length ys)); cbn [nil_slice].
  - apply zmap2_ok; [|assumption|assumption]. intros h1 p q x y P A B. cbn [fst snd].
    ws. ws. ws. split; [pr | tr].
  - ws. split; [apply Pre_refl | constructor].
Qed.
Lemma iVectorMul_ok : forall ps xs qs ys N n h, zAt h N (Some n) -> zsAt h ps xs -> zsAt h qs ys ->
  wp (iVectorMul G ps qs N) (Ok (nil_slice (VectorMul xs ys n))) h (zPost h).
Proof.
  intros ps xs qs ys N n h HN HP HQ. unfold iVectorMul, VectorMul.
  rewrite (len2 _ _ _ HP), (len2 _ _ _ HQ). destruct (Nat.eqb (length xs) (length ys)); cbn [nil_slice].
  - apply zmap2_ok; [|assumption|assumption]. intros h1 p q x y P A B. cbn [fst snd].
    ws. ws. ws. split; [pr | tr].
  - ws. split; [apply Pre_refl | constructor].
Qed.
Lemma iVectorAddConst_ok : forall ps xs c k N n h, zAt h N (Some n) -> zAt h c (Some k) -> zsAt h ps xs ->
  wp (iVectorAddConst G ps c N) (Ok (VectorAddConst xs k n)) h (zPost h).
Proof.
  intros ps xs c k N n h HN HC HP. unfold iVectorAddConst, VectorAddConst.
  apply (zmap_ok _ (fun x => (x + k) mod n)); [|assumption]. intros h1 p x P A.
  ws. ws. ws. split; [pr | tr].
Qed.
Lemma iVectorScalarMul_ok : forall ps xs b k N n h, zAt h N (Some n) -> zAt h b k -> zsAt h ps xs ->
  wp (iVectorScalarMul G ps b N) (VectorScalarMul xs k n) h (zPost h).
Proof.
  intros ps xs b k N n h HN HB HP. unfold iVectorScalarMul, VectorScalarMul.
  eapply wp_weaken.
  - apply (mmap_ok _ (fun x => s <- deref k ;; Ok ((x * s) mod n))
      (fun h p z => zAt h p (Some z)) (fun h p z => zAt h p (Some z)) (fun _ _ => True)).
    + intros; tr.
    + intros; tr.
    + auto.
    + intros h1 p x P A. destruct k as [k|]; cbn [deref bind].
      * ws. ws. ws. split; [pr | split; [tr | exact I]].
      * eapply wp_zMul_nil; [exact A | exact (pre_z _ _ _ P _ _ HB) | right; reflexivity | reflexivity].
    + exact HP.
  - intros l ys h' (P & Z & _). split; assumption.
Qed.
Lemma ivip_ok : forall ps xs qs ys N n result acc h0 h, zAt h N (Some n) -> zsAt h ps xs -> zsAt h qs ys ->
  zAt h result (Some acc) -> zNew h0 result -> zAt h0 N (Some n) -> zsAt h0 ps xs -> zsAt h0 qs ys -> Pre h0 h ->
  wp (ivip_loop G ps qs N result) (vip_loop xs ys n acc) h (fun _ v h' => Pre h0 h' /\ zAt h' result (Some v)).
Proof.
  intros ps xs qs ys N n result acc h0 h HN HP. revert qs ys acc h HN HP.
  revert xs. induction ps as [|p ps IH]; intros xs qs ys acc h HN HP HQ HR F N0 P0 Q0 PR.
  - inversion HP; subst. cbn [ivip_loop vip_loop]. ws. split; assumption.
  - inversion HP; subst. inversion P0; subst. destruct qs as [|q qs]; inversion HQ; subst.
    + cbn [ivip_loop vip_loop]. apply wp_stop; exact I.
    + cbn [ivip_loop vip_loop]. inversion Q0; subst. ws. ws. ws.
      apply IH; first [ tr | pr ].
Qed.
Lemma iVectorInnerProduct_ok : forall ps xs qs ys N n h, zAt h N (Some n) -> zsAt h ps xs -> zsAt h qs ys ->
  wp (iVectorInnerProduct G ps qs N) (VectorInnerProduct xs ys n) h
    (fun p v h' => Pre h h' /\ zAt h' p (Some v) /\ zNew h p).
Proof.
  intros ps xs qs ys N n h HN HP HQ. unfold iVectorInnerProduct, VectorInnerProduct. ws.
  eapply wp_bind.
  - apply (ivip_ok ps xs qs ys N n e 0 h h'); tr.
  - intros [] v h2 (P2 & Z2). ws. ws. split; [pr | split; [tr | nw]].
Qed.
Lemma ipowerOf_loop_ok : forall k cur c x X N h, zAt h cur (Some c) -> zAt h x (Some X) -> zAt h N (Some (gN G)) ->
  wp (ipowerOf_loop G k cur x N) (Ok (powerOf_loop k c X (gN G))) h (zPost h).
Proof.
  induction k as [|k IH]; intros cur c x X N h HC HX HN; cbn [ipowerOf_loop powerOf_loop].
  - ws. split; [apply Pre_refl | constructor].
  - ws. ws. eapply (wp_left G); [apply (IH e0 ((c * X) mod gN G) x X N); tr|].
    intros ps h2 (P2 & Z2). ws. split; [pr|]. constructor; [tr | exact Z2].
Qed.
Lemma ipowerOf_ok : forall x X n N h, zAt h x (Some X) -> zAt h N (Some (gN G)) ->
  wp (ipowerOf G x n N) (powerOf G X n) h (zPost h).
Proof.
  intros x X n N h HX HN. unfold ipowerOf, powerOf.
  apply (wp_lift_bind G (make_len n) _ (make_len n) _ h (fun u v => u = v)).
  - destruct (make_len n); auto.
  - intros u v <-. ws. eapply wp_weaken; [apply (ipowerOf_loop_ok u e 1 x X N); tr|].
    intros l zs h2 (P2 & Z2). split; [pr | exact Z2].
Qed.
Lemma iScalarProduct_ok : forall ps xs qs ys N h, zAt h N (Some (gN G)) -> zsAt h ps xs -> zsAt h qs ys ->
  wp (iScalarProduct G ps qs N) (Ok (ScalarProduct G xs ys)) h
    (fun p o h' => Pre h h' /\ zAt h' p o /\ (o <> None -> zNew h p)).
Proof.
  intros ps xs qs ys N h HN HP HQ. unfold iScalarProduct, ScalarProduct.
  rewrite (len2 _ _ _ HP), (len2 _ _ _ HQ). destruct (Nat.eqb (length xs) (length ys)).
  2:{ ws. split; [apply Pre_refl | split; [reflexivity | congruence]]. }
  ws.
  assert (K : forall l1 l2, Forall2 (fun pq xy => zAt h (fst pq) (Some (fst xy)) /\ zAt h (snd pq) (Some (snd xy))) l1 l2 ->
    forall result acc h1, Pre h h1 -> zAt h1 result (Some acc) -> zNew h result ->
    wp (iScalarProduct_loop G l1 N result)
       (Ok (Some (fold_left (fun r p => (r + fst p * snd p) mod gN G) l2 acc))) h1
       (fun p o h' => Pre h h' /\ zAt h' p o /\ (o <> None -> zNew h p))).
  { intros l1 l2 HL. induction HL as [|[a b] [x y] l1 l2 (HA & HB) HL IH]; intros result acc h1 PR HR NR;
      cbn [iScalarProduct_loop fold_left].
    - ws. split; [exact PR | split; [exact HR | intros _; exact NR]].
    - cbn [fst snd] in *. ws. ws. ws. apply IH; [pr | tr | nw]. }
  apply (K _ _ (zs_combine h ps xs qs ys HP HQ) e 0 h'); assumption.
Qed.
Lemma iDecompose_loop_ok : forall l x z u h, zAt h x (Some z) ->
  wp (iDecompose_loop G l x u) (Ok (decompose_loop l z u)) h (fun r v h' => Pre h h' /\ r = v).
Proof.
  induction l as [|l IH]; intros x z u h HX; cbn [iDecompose_loop decompose_loop].
  - ws. split; [apply Pre_refl | reflexivity].
  - ws. ws. ws. ws. ws. eapply (wp_left G); [apply (IH e2 (z / u) u); tr|].
    intros r h2 (P2 & ->). ws. split; [pr | reflexivity].
Qed.
Lemma iDecompose_ok : forall x z u l h, zAt h x (Some z) ->
  wp (iDecompose G x u l) (Decompose z u l) h (fun r v h' => Pre h h' /\ r = v).
Proof.
  intros x z u l h HX. unfold iDecompose, Decompose.
  apply (wp_lift_bind G (make_len l) _ (make_len l) _ h (fun u v => u = v)).
  - destruct (make_len l); auto.
  - intros n v <-. apply iDecompose_loop_ok, HX.
Qed.
Lemma isample_ok : forall N f h, wp (isampleRandomVector G N f) (sampleRandomVector N f) h (zPost h).
Proof.
  intros N f h. unfold isampleRandomVector, sampleRandomVector.
  apply (wp_lift_bind G (make_len N) _ (make_len N) _ h (fun u v => u = v)).
  - destruct (make_len N); auto.
  - intros n v <-. generalize (seq 0 n). intros l. induction l as [|i l IH] in h |- *; cbn [mmap map].
    + ws. split; [apply Pre_refl | constructor].
    + ws. eapply (wp_left G); [apply IH|]. intros ps h2 (P2 & Z2). ws. split; [pr|]. constructor; [tr | exact Z2].
Qed.

(** ** Elements *)
Lemma iPedersenCommit_ok : forall x r H vx vr vh h, zAt h x (Some vx) -> zAt h r (Some vr) -> eAt h H (Some vh) ->
  wp (iPedersenCommit G x r H) (Ok (PedersenCommit G vx vr vh)) h
    (fun p v h' => Pre h h' /\ eAt h' p (Some v) /\ eNew h p).
Proof.
  intros x r H vx vr vh h HX HR HH. unfold iPedersenCommit, PedersenCommit. ws. ws. ws. ws.
  split; [pr | split; [tr | nw]].
Qed.
Lemma iHashBP_ok : forall A S a s h, eAt h A (Some a) -> eAt h S (Some s) ->
  wp (iHashBP G HO A S) (Ok (HashBP G HO a s)) h
    (fun p v h' => Pre h h' /\ zAt h' (fst p) (Some (fst v)) /\ zAt h' (snd p) (Some (snd v))).
Proof.
  intros A S a s h HA HS. unfold iHashBP. ws. ws. ws. ws. ws. split; [pr | split; cbn [fst snd]; tr].
Qed.
Lemma iVectorExp_ok : forall ps vs qs ys h, esAt h ps vs -> zsAt h qs ys ->
  wp (iVectorExp G ps qs) (Ok (VectorExp G vs ys)) h
    (fun p o h' => Pre h h' /\ eAt h' p o /\ (o <> None -> eNew h p)).
Proof.
  intros ps vs qs ys h HP HQ. unfold iVectorExp, VectorExp.
  rewrite (len2 _ _ _ HP), (len2 _ _ _ HQ). destruct (Nat.eqb (length vs) (length ys)).
  2:{ ws. split; [apply Pre_refl | split; [reflexivity | congruence]]. }
  ws.
  assert (K : forall l1 l2, Forall2 (fun pq xy => eAt h (fst pq) (Some (fst xy)) /\ zAt h (snd pq) (Some (snd xy))) l1 l2 ->
    forall result acc h1, Pre h h1 -> eAt h1 result (Some acc) -> eNew h result ->
    wp (iVectorExp_loop G l1 result)
       (Ok (Some (fold_left (fun r p => gAdd G r (gScale G (fst p) (snd p))) l2 acc))) h1
       (fun p o h' => Pre h h' /\ eAt h' p o /\ (o <> None -> eNew h p))).
  { intros l1 l2 HL. induction HL as [|[a b] [x y] l1 l2 (HA & HB) HL IH]; intros result acc h1 PR HR NR;
      cbn [iVectorExp_loop fold_left].
    - ws. split; [exact PR | split; [exact HR | intros _; exact NR]].
    - cbn [fst snd] in *. ws. ws. apply IH; [pr | tr | nw]. }
  apply (K _ _ (ez_combine h ps vs qs ys HP HQ) e (gId G) h'); assumption.
Qed.
Lemma iVectorECAdd_ok : forall ps xs qs ys h, esAt h ps xs -> esAt h qs ys ->
  wp (iVectorECAdd G ps qs) (Ok (nil_slice (VectorECAdd G xs ys))) h
    (fun l vs h' => Pre h h' /\ esAt h' l vs /\ Forall (eNew h) l).
Proof.
  intros ps xs qs ys h HP HQ. unfold iVectorECAdd, VectorECAdd.
  rewrite (len2 _ _ _ HP), (len2 _ _ _ HQ). destruct (Nat.eqb (length xs) (length ys)); cbn [nil_slice].
  2:{ ws. split; [apply Pre_refl | split; constructor]. }
  rewrite map2_combine, <- mapM_Ok.
  apply (mmap_ok _ (fun ab => Ok (gAdd G (fst ab) (snd ab)))
      (fun h pq xy => eAt h (fst pq) (Some (fst xy)) /\ eAt h (snd pq) (Some (snd xy)))
      (fun h p z => eAt h p (Some z)) eNew).
  - intros h1 h2 pq xy P (A & B). split; tr.
  - intros; tr.
  - intros h1 h2 p P N. exact (eNew_mono _ _ _ _ P N).
  - intros h1 (p, q) (x, y) P (A & B). cbn [fst snd] in *. ws. ws. split; [pr | split; [tr | nw]].
  - exact (es_combine h ps xs qs ys HP HQ).
Qed.
Lemma ivectorScalarExp_ok : forall ps os s k h, eosAt h ps os -> zAt h s k ->
  wp (ivectorScalarExp G ps s) (vectorScalarExp G os k) h
    (fun l vs h' => Pre h h' /\ esAt h' l vs /\ Forall (eNew h) l).
Proof.
  intros ps os s k h HP HS. unfold ivectorScalarExp, vectorScalarExp.
  apply (mmap_ok _ (fun X => X' <- deref X ;; s' <- deref k ;; Ok (gScale G X' s'))
      eAt (fun h p z => eAt h p (Some z)) eNew).
  - intros; tr.
  - intros; tr.
  - intros h1 h2 p P N. exact (eNew_mono _ _ _ _ P N).
  - intros h1 p o P A. pose proof (pre_z _ _ _ P _ _ HS) as HS1.
    destruct o as [v|]; [destruct k as [k|]|]; cbn [deref bind].
    + ws. ws. split; [pr | split; [tr | nw]].
    + apply wp_tail. eapply wp_eScale_nil; [exact A | exact HS1 | right; reflexivity | reflexivity].
    + apply wp_tail. eapply wp_eScale_nil; [exact A | exact HS1 | left; reflexivity | reflexivity].
  - exact HP.
Qed.
End Funs.
