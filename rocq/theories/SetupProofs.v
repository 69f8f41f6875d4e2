(** bulletproofs.Setup: which range ends are accepted, and the shape of the parameters. *)
From Verif Require Import GoBase Json GroupIface Vector BIP BP NumTh Alg.

Lemma land_pow2_pos : forall x, 0 < x -> (Z.land x (x - 1) = 0 <-> exists k, 0 <= k /\ x = 2 ^ k).
Proof.
  intros x Hx. split.
  - intros H. exists (Z.log2 x). split; [apply Z.log2_nonneg|].
    pose proof (Z.log2_spec x Hx) as [Hl Hu].
    destruct (Z.eq_dec x (2 ^ Z.log2 x)) as [|Hne]; [assumption|exfalso].
    assert (Hb : Z.testbit (Z.land x (x - 1)) (Z.log2 x) = true).
    { rewrite Z.land_spec. apply andb_true_intro. split; [apply Z.bit_log2; lia|].
      assert (Hlog : Z.log2 (x - 1) = Z.log2 x) by (apply Z.log2_unique; [apply Z.log2_nonneg|lia]).
      rewrite <- Hlog. apply Z.bit_log2.
      pose proof (Z.pow_pos_nonneg 2 (Z.log2 x) ltac:(lia) (Z.log2_nonneg x)). lia. }
    rewrite H, Z.bits_0 in Hb. discriminate.
  - intros (k & Hk & ->). rewrite Z.sub_1_r, <- Z.ones_equiv, Z.land_ones by assumption.
    apply Z_mod_same_full.
Qed.

Lemma wrap64_id : forall x, is_int64 x = true -> wrap64 x = x.
Proof.
  intros x H. unfold is_int64, min_int64, max_int64 in H. apply andb_prop in H. rewrite !Z.leb_le in H.
  unfold wrap64. rewrite Z.mod_small; lia.
Qed.

(** bulletproofs/util.go 130-132 on every int64 *)
Lemma IsPowerOfTwo_spec : forall x, is_int64 x = true ->
  (IsPowerOfTwo x = true <-> (exists k, 0 <= k /\ x = 2 ^ k) \/ x = min_int64).
Proof.
  intros x Hx. assert (Hb := Hx). unfold is_int64, max_int64 in Hb. apply andb_prop in Hb. rewrite !Z.leb_le in Hb.
  unfold IsPowerOfTwo. rewrite andb_true_iff, negb_true_iff, Z.eqb_neq, Z.eqb_eq.
  destruct (Z.eq_dec x min_int64) as [->|Hmin].
  { split; [auto|]. intros _. split; [discriminate|reflexivity]. }
  rewrite wrap64_id.
  2:{ unfold is_int64, max_int64. apply andb_true_intro. rewrite !Z.leb_le. lia. }
  destruct (Z.lt_trichotomy x 0) as [Hneg|[Hz|Hpos]].
  - split.
    + intros [_ H]. exfalso. assert (Z.land x (x - 1) < 0) by (apply Z.land_neg; lia). lia.
    + intros [(k & Hk & He)|He]; [|lia]. pose proof (Z.pow_pos_nonneg 2 k ltac:(lia) Hk). lia.
  - subst x. split; [intros [H _]; congruence|]. intros [(k & Hk & He)|He]; [|discriminate].
    pose proof (Z.pow_pos_nonneg 2 k ltac:(lia) Hk). lia.
  - rewrite land_pow2_pos by assumption. split; [intros [_ H]; auto|]. intros [H|H]; [split; [lia|assumption]|lia].
Qed.

(** Which logarithms are accepted *)
Lemma log_accepted : forall N, 0 <= N < 64 ->
  (IsPowerOfTwo N = true /\ N <= 32 <-> In N [1; 2; 4; 8; 16; 32]).
Proof.
  intros N HN. rewrite IsPowerOfTwo_spec.
  2:{ unfold is_int64, min_int64, max_int64. apply andb_true_intro. rewrite !Z.leb_le. lia. }
  split.
  - intros [[(k & Hk & ->)|Hm] Hle]; [|unfold min_int64 in Hm; lia].
    assert (k <= 5) by (destruct (Z.le_gt_cases k 5); [assumption|]; pose proof (Z.pow_le_mono_r 2 6 k); lia).
    assert (k = 0 \/ k = 1 \/ k = 2 \/ k = 3 \/ k = 4 \/ k = 5) as [Hk0|[Hk0|[Hk0|[Hk0|[Hk0|Hk0]]]]] by lia; rewrite Hk0; cbn; tauto.
  - intros H. cbn in H. split; [|lia]. left.
    destruct H as [<-|[<-|[<-|[<-|[<-|[<-|[]]]]]]]; [exists 0|exists 1|exists 2|exists 3|exists 4|exists 5]; split; (lia || reflexivity).
Qed.

Section S.
Context (G : Grp).

(** What Setup returns for an accepted end *)
Definition setupShape (N : Z) (p : BPParams G) : Prop :=
  bpN p = N /\ bpG p = gBase G 1 /\ gMap G (str_bytes SEEDH) = Ok (bpH p) /\
  length (bpGg p) = Z.to_nat N /\ length (bpHh p) = Z.to_nat N /\
  (forall i, (i < Z.to_nat N)%nat ->
     gMap G (seed_bytes "g" i) = Ok (nth i (bpGg p) (gId G)) /\
     gMap G (seed_bytes "h" i) = Ok (nth i (bpHh p) (gId G))).

Lemma mapM_nth : forall {A B} (f : A -> res B) l r (d : B) d', mapM f l = Ok r ->
  length r = length l /\ forall i, (i < length l)%nat -> f (nth i l d') = Ok (nth i r d).
Proof.
  induction l as [|a l IH]; intros r d d' H; cbn [mapM] in H.
  - injection H as <-. split; [reflexivity|]. cbn. lia.
  - destruct (f a) as [b| | |] eqn:Hf; try discriminate. cbn [bind] in H.
    destruct (mapM f l) as [r'| | |] eqn:Hm; try discriminate. cbn [bind] in H. injection H as <-.
    destruct (IH r' d d' eq_refl) as [Hl Hn]. split; [cbn; lia|]. intros [|i] Hi; cbn in *; [assumption|]. apply Hn. lia.
Qed.

Definition okEnds : list Z := [2; 4; 16; 256; 65536; 2 ^ 32].

Lemma Setup_ok : forall nan64 b p, is_int64 b = true -> Setup G nan64 b = Ok p ->
  b = min_int64 \/ (In b okEnds /\ setupShape (Z.log2 b) p).
Proof.
  intros nan64 b p Hb H. unfold Setup in H.
  destruct (IsPowerOfTwo b) eqn:Hp; [|discriminate]. cbn [negb] in H.
  apply IsPowerOfTwo_spec in Hp; [|assumption]. destruct Hp as [(k & Hk & He)|Hm]; [|left; assumption]. right.
  destruct (gMap G (str_bytes SEEDH)) as [h| | |] eqn:Hh; try discriminate. cbn [bind] in H.
  assert (Hpos : 0 < b) by (rewrite He; apply Z.pow_pos_nonneg; lia).
  unfold goLog2 in H. replace (b <=? 0) with false in H by (symmetry; apply Z.leb_gt; lia).
  assert (Hlog : Z.log2 b = k) by (rewrite He; apply Z.log2_pow2; lia). rewrite Hlog in *.
  assert (Hk64 : k < 64).
  { destruct (Z.le_gt_cases 64 k) as [Hc|Hc]; [|lia]. unfold is_int64, max_int64 in Hb. apply andb_prop in Hb.
    rewrite !Z.leb_le in Hb. pose proof (Z.pow_le_mono_r 2 64 k). lia. }
  destruct (IsPowerOfTwo k) eqn:Hpk; [|discriminate]. cbn [negb] in H.
  destruct (32 <? k) eqn:Hk32; [discriminate|]. apply Z.ltb_ge in Hk32.
  assert (Hin : In k [1; 2; 4; 8; 16; 32]) by (apply log_accepted; [lia|split; assumption]).
  unfold make_len in H. replace (k <? 0) with false in H by (symmetry; apply Z.ltb_ge; lia). cbn [bind] in H.
  destruct (mapM _ _) as [gh| | |] eqn:Hm; try discriminate. cbn [bind] in H. injection H as <-.
  split.
  - subst b. cbn in Hin. unfold okEnds.
    destruct Hin as [<-|[<-|[<-|[<-|[<-|[<-|[]]]]]]]; cbn; tauto.
  - destruct (mapM_nth _ _ _ (gId G, gId G) O Hm) as [Hl Hn]. rewrite seq_length in Hl, Hn.
    unfold setupShape. cbn [bpN bpG bpH bpGg bpHh]. rewrite !map_length, Hl. repeat split; auto; specialize (Hn i H);
    rewrite seq_nth in Hn by assumption; cbn [Nat.add] in Hn;
    destruct (gMap G (seed_bytes "g" i)) as [X| | |]; try discriminate; cbn [bind] in Hn;
    destruct (gMap G (seed_bytes "h" i)) as [Y| | |]; try discriminate; cbn [bind] in Hn; injection Hn as Hn.
    + change (gId G) with (fst (gId G, gId G)). rewrite map_nth, <- Hn. reflexivity.
    + change (gId G) with (snd (gId G, gId G)) at 1. rewrite map_nth, <- Hn. reflexivity.
Qed.

Lemma mapM_total : forall {A B} (f : A -> res B), (forall a, exists b, f a = Ok b) -> forall l, exists r, mapM f l = Ok r.
Proof.
  intros A B f Hf. induction l as [|a l [r Hr]]; [eexists; reflexivity|]. cbn [mapM].
  destruct (Hf a) as [b ->]. cbn [bind]. rewrite Hr. eexists. reflexivity.
Qed.

Lemma Setup_total : (forall s, exists X, gMap G s = Ok X) -> forall nan64 b, In b okEnds ->
  exists p, Setup G nan64 b = Ok p.
Proof.
  intros Hmap nan64 b Hb. unfold Setup. destruct (Hmap (str_bytes SEEDH)) as [h Hh].
  assert (Hc : IsPowerOfTwo b = true /\ IsPowerOfTwo (goLog2 nan64 b) = true /\ (32 <? goLog2 nan64 b) = false /\
               make_len (goLog2 nan64 b) = Ok (Z.to_nat (Z.log2 b))).
  { unfold okEnds in Hb. cbn in Hb. destruct Hb as [<-|[<-|[<-|[<-|[<-|[<-|[]]]]]]]; vm_compute; auto. }
  destruct Hc as (-> & -> & -> & ->). cbn [negb]. rewrite Hh. cbn [bind].
  destruct (mapM_total (fun i => Gi <- gMap G (seed_bytes "g" i) ;; Hi <- gMap G (seed_bytes "h" i) ;; Ok (Gi, Hi)))
    with (l := seq 0 (Z.to_nat (Z.log2 b))) as [r ->].
  - intros i. destruct (Hmap (seed_bytes "g" i)) as [X ->]. destruct (Hmap (seed_bytes "h" i)) as [Y ->].
    eexists. reflexivity.
  - eexists. reflexivity.
Qed.

Lemma Setup_err : (forall s, exists X, gMap G s = Ok X) -> forall nan64 b, is_int64 b = true -> ~ In b okEnds ->
  b <> min_int64 -> Setup G nan64 b = Err.
Proof.
  intros Hmap nan64 b Hb Hin Hmin. destruct (Setup G nan64 b) as [p| | |] eqn:HS.
  - exfalso. apply Setup_ok in HS; [|assumption]. destruct HS as [|[H _]]; contradiction.
  - reflexivity.
  - exfalso. unfold Setup in HS. destruct (IsPowerOfTwo b) eqn:Hp; [|discriminate]. cbn [negb] in HS.
    apply IsPowerOfTwo_spec in Hp; [|assumption]. destruct Hp as [(k & Hk & He)|Hm]; [|contradiction].
    assert (Hpos : 0 < b) by (rewrite He; apply Z.pow_pos_nonneg; lia).
    destruct (Hmap (str_bytes SEEDH)) as [h Hh]. rewrite Hh in HS. cbn [bind] in HS.
    unfold goLog2 in HS. replace (b <=? 0) with false in HS by (symmetry; apply Z.leb_gt; lia).
    destruct (IsPowerOfTwo (Z.log2 b)); [|discriminate]. cbn [negb] in HS.
    destruct (32 <? Z.log2 b); [discriminate|]. unfold make_len in HS. pose proof (Z.log2_nonneg b).
    replace (Z.log2 b <? 0) with false in HS by (symmetry; apply Z.ltb_ge; lia). cbn [bind] in HS.
    destruct (mapM_total (fun i => Gi <- gMap G (seed_bytes "g" i) ;; Hi <- gMap G (seed_bytes "h" i) ;; Ok (Gi, Hi)))
      with (l := seq 0 (Z.to_nat (Z.log2 b))) as [r Hr].
    + intros i. destruct (Hmap (seed_bytes "g" i)) as [X ->]. destruct (Hmap (seed_bytes "h" i)) as [Y ->].
      eexists. reflexivity.
    + rewrite Hr in HS. discriminate.
  - exfalso. unfold Setup in HS. destruct (IsPowerOfTwo b); [|discriminate]. cbn [negb] in HS.
    destruct (Hmap (str_bytes SEEDH)) as [h Hh]. rewrite Hh in HS. cbn [bind] in HS.
    destruct (IsPowerOfTwo (goLog2 nan64 b)); [|discriminate]. cbn [negb] in HS.
    destruct (32 <? goLog2 nan64 b); [discriminate|]. unfold make_len in HS.
    destruct (goLog2 nan64 b <? 0); [discriminate|]. cbn [bind] in HS.
    destruct (mapM_total (fun i => Gi <- gMap G (seed_bytes "g" i) ;; Hi <- gMap G (seed_bytes "h" i) ;; Ok (Gi, Hi)))
      with (l := seq 0 (Z.to_nat (goLog2 nan64 b))) as [r Hr].
    + intros i. destruct (Hmap (seed_bytes "g" i)) as [X ->]. destruct (Hmap (seed_bytes "h" i)) as [Y ->].
      eexists. reflexivity.
    + rewrite Hr in HS. discriminate.
Qed.

Lemma Setup_min : (forall s, exists X, gMap G s = Ok X) ->
  Setup G min_int64 min_int64 = Panic /\ Setup G 0 min_int64 = Err.
Proof.
  intros Hmap. destruct (Hmap (str_bytes SEEDH)) as [h Hh].
  split; unfold Setup; change (IsPowerOfTwo min_int64) with true; cbn [negb]; rewrite Hh; reflexivity.
Qed.

(** Results of converting NaN to int64: amd64 gives the minimum, arm64 gives 0. *)
Definition nanConv (nan64 : Z) : Prop := nan64 = min_int64 \/ nan64 = 0.

Lemma Setup_min_not_ok : forall nan64 p, nanConv nan64 -> Setup G nan64 min_int64 <> Ok p.
Proof.
  intros nan64 p Hn H. unfold Setup in H. change (IsPowerOfTwo min_int64) with true in H. cbn [negb] in H.
  destruct (gMap G (str_bytes SEEDH)); try discriminate. cbn [bind] in H.
  destruct Hn as [Hn|Hn]; subst nan64; discriminate.
Qed.

(** Parameters made by Setup in the indexed form used by the proofs *)
Lemma Setup_tab : forall nan64 b p, nanConv nan64 -> is_int64 b = true -> Setup G nan64 b = Ok p ->
  exists k g h, (k <= 5)%nat /\ b = 2 ^ Z.of_nat (2 ^ k) /\
    p = mkBPParams (Z.of_nat (2 ^ k)) (bpG p) (bpH p) (tab (2 ^ k) g) (tab (2 ^ k) h).
Proof.
  intros nan64 b p Hn Hb H. destruct (Setup_ok nan64 b p Hb H) as [Hm|[Hin Hs]].
  - subst b. exfalso. eapply Setup_min_not_ok; eassumption.
  - destruct Hs as (HN & _ & _ & Hg & Hh & _).
    assert (Hk : exists k, (k <= 5)%nat /\ b = 2 ^ Z.of_nat (2 ^ k) /\ Z.log2 b = Z.of_nat (2 ^ k)).
    { unfold okEnds in Hin. cbn in Hin. destruct Hin as [<-|[<-|[<-|[<-|[<-|[<-|[]]]]]]];
      [exists 0%nat|exists 1%nat|exists 2%nat|exists 3%nat|exists 4%nat|exists 5%nat]; repeat split; lia. }
    destruct Hk as (k & Hk & He & Hl). rewrite Hl, Nat2Z.id in Hg, Hh. rewrite Hl in HN.
    exists k, (fun i => nth i (bpGg p) (gId G)), (fun i => nth i (bpHh p) (gId G)).
    split; [exact Hk|]. split; [exact He|].
    rewrite <- (tab_nth' (gId G) (bpGg p)), <- (tab_nth' (gId G) (bpHh p)), <- HN by assumption.
    destruct p; reflexivity.
Qed.
End S.
