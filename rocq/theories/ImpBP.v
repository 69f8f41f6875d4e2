(** The pointer-level inner product argument and range proof against their value-level models. *)
From Verif Require Import GoBase Json GroupIface Vector BIP BP Imp ImpProofs ImpFuns.

Section ImpBP.
Context (G : Grp) (HO : Oracles).
Local Notation heap := (heap G).
Local Notation eAt := (eAt G). Local Notation zAt := (zAt G).
Local Notation esAt := (esAt G). Local Notation zsAt := (zsAt G). Local Notation eosAt := (eosAt G).
Local Notation Pre := (Pre G). Local Notation eNew := (eNew G). Local Notation zNew := (zNew G).
Local Notation wp := (wp G).
Local Notation zPost := (zPost G).

(** What a structure of pointers denotes *)
Definition repIPParams (h : heap) (q : IPParamsP) (v : IPParams G) : Prop :=
  esAt h (qGg q) (ipGg v) /\ eosAt h (qHh q) (ipHh v) /\ eAt h (qUu q) (Some (ipUu v)).
Definition repIPProof (h : heap) (q : IPProofP) (v : IPProof G) : Prop :=
  eAt h (qP q) (Some (ipP v)) /\ zAt h (qCc q) (ipCc v) /\ zAt h (qA q) (ipA v) /\ zAt h (qB q) (ipB v) /\
  esAt h (qL q) (ipL v) /\ eosAt h (qR q) (ipR v) /\ repIPParams h (qParams q) (ipParams v).
Definition repBPParams (h : heap) (q : BPParamsP) (v : BPParams G) : Prop :=
  rN q = bpN v /\ eAt h (rG q) (Some (bpG v)) /\ eAt h (rH q) (Some (bpH v)) /\
  esAt h (rGg q) (bpGg v) /\ esAt h (rHh q) (bpHh v).
Definition repBP (h : heap) (q : BulletProofP) (v : BulletProof G) : Prop :=
  eAt h (rV q) (Some (pV v)) /\ eAt h (rA q) (Some (pA v)) /\ eAt h (rS q) (Some (pS v)) /\
  eAt h (rT1 q) (Some (pT1 v)) /\ eAt h (rT2 q) (Some (pT2 v)) /\
  zAt h (rTaux q) (pTaux v) /\ zAt h (rMu q) (pMu v) /\ zAt h (rTprime q) (pTprime v) /\
  repIPProof h (rIPP q) (pIPP v) /\ repBPParams h (rParams q) (pParams v).

Lemma slice_to2 : forall {A B} (R : A -> B -> Prop) l m n, Forall2 R l m ->
  match slice_to l n, slice_to m n with
  | Ok u, Ok v => Forall2 R u v | Err, Err | Panic, Panic | OutOfFuel, OutOfFuel => True | _, _ => False end.
Proof.
  intros A B R l m n H. unfold slice_to. rewrite (len2 R l m H). destruct (Nat.leb n (length m)); [|exact I].
  clear - H. revert n. induction H; intros [|n]; cbn; constructor; auto.
Qed.
Lemma slice_from2 : forall {A B} (R : A -> B -> Prop) l m n, Forall2 R l m ->
  match slice_from l n, slice_from m n with
  | Ok u, Ok v => Forall2 R u v | Err, Err | Panic, Panic | OutOfFuel, OutOfFuel => True | _, _ => False end.
Proof.
  intros A B R l m n H. unfold slice_from. rewrite (len2 R l m H). destruct (Nat.leb n (length m)); [|exact I].
  clear - H. revert n. induction H; intros [|n]; cbn; try constructor; auto.
Qed.
Lemma idx2 : forall {A B} (R : A -> B -> Prop) l m n, Forall2 R l m ->
  match idx l n, idx m n with
  | Ok u, Ok v => R u v | Err, Err | Panic, Panic | OutOfFuel, OutOfFuel => True | _, _ => False end.
Proof.
  intros A B R l m n H. unfold idx. revert n. induction H; intros [|n]; cbn; auto. apply IHForall2.
Qed.

Lemma ifoldGens_ok : forall ps os np s1 k1 s2 k2 h, eosAt h ps os -> zAt h s1 k1 -> zAt h s2 k2 ->
  wp (ifoldGens G ps np s1 s2) (foldGens G os np k1 k2) h
    (fun l vs h' => Pre h h' /\ eosAt h' l vs /\ Forall (eNew h) l).
Proof.
  intros ps os np s1 k1 s2 k2 h HP H1 H2. unfold ifoldGens, foldGens.
  eapply wp_lift_bind; [apply (slice_to2 (eAt h)); exact HP|]. intros lo vlo Hlo. cbv beta.
  eapply wp_bind; [apply ivectorScalarExp_ok; [exact Hlo | exact H1]|]. intros lo' vlo' h1 (P1 & E1 & N1). cbv beta.
  eapply wp_lift_bind; [apply (slice_from2 (eAt h)); exact HP|]. intros hi vhi Hhi. cbv beta.
  assert (Hhi1 : eosAt h1 hi vhi) by (apply (eos_pre _ h); [exact P1 | exact Hhi]).
  eapply wp_bind; [apply (ivectorScalarExp_ok G hi vhi s2 k2); [exact Hhi1 | tr]|]. intros hi' vhi' h2 (P2 & E2 & N2). cbv beta.
  apply wp_tail. eapply wp_left; [apply (iVectorECAdd_ok G lo' vlo' hi' vhi'); tr|].
  intros l h3 (P3 & E3 & N3). cbv beta. apply wp_ret. split; [pr|]. split; [|nw].
  destruct (VectorECAdd G vlo' vhi') as [vs|]; cbn [nil_slice] in E3; [apply eos_es; exact E3 | apply (eos_es G h3 l []); exact E3].
Qed.

Lemma ihashIP_elems_ok : forall gs vg hs vh h, esAt h gs vg -> eosAt h hs vh ->
  wp (ihashIP_elems G gs hs) (hashIP_elems G vg vh) h (fun b v h' => h' = h /\ b = v).
Proof.
  intros gs vg hs vh h HG. revert hs vh. induction HG as [|g v gs vg A HG IH]; intros hs vh HH.
  - cbn [ihashIP_elems hashIP_elems]. apply wp_ret. split; reflexivity.
  - inversion HH; subst; cbn [ihashIP_elems hashIP_elems].
    + apply wp_stop; exact I.
    + ws. destruct y as [w|].
      * ws. eapply wp_bind; [apply IH; assumption|]. intros b r h1 (-> & ->). apply wp_ret. split; reflexivity.
      * eapply wp_rdE_nil; [exact H | reflexivity].
Qed.
Lemma ihashIP_ok : forall gs vg hs vh P p c k h, esAt h gs vg -> eosAt h hs vh -> eAt h P (Some p) -> zAt h c k ->
  wp (ihashIP G HO gs hs P c) (hashIP G HO vg vh p k) h (fun x v h' => Pre h h' /\ zAt h' x (Some v)).
Proof.
  intros gs vg hs vh P p c k h HG HH HP HC.
  assert (E : hashIP G HO vg vh p k =
    (m <- hashIP_elems G vg vh ;; Ok (fromByteArray HO (sha256 HO (gStr G p ++ m ++ dec_str_opt k))))).
  { unfold hashIP, hashIP_input. destruct (hashIP_elems G vg vh); reflexivity. }
  rewrite E. unfold ihashIP. ws.
  eapply wp_bind; [apply ihashIP_elems_ok; eassumption|]. intros b m h1 (-> & ->). cbv beta.
  unfold decPtr. destruct k as [k|].
  - pose proof HC as (r & -> & _).
    eapply (wp_left G _ _ (dec_str k) _ h (fun u v h' => u = v /\ h' = h)).
    + apply wp_rdZ with (v := k); [exact HC|]. apply wp_ret. split; reflexivity.
    + intros u h2 (-> & ->). cbv beta. ws. ws. split; [pr | tr].
  - cbn in HC. subst c. eapply (wp_left G _ _ (dec_str_opt None) _ h (fun u v h' => u = v /\ h' = h)).
    + apply wp_ret. split; reflexivity.
    + intros u h2 (-> & ->). cbv beta. ws. ws. split; [pr | tr].
Qed.

Lemma icomputePP_ok : forall P c x u vp vc vx vu h, eAt h P (Some vp) -> zAt h c vc -> zAt h x (Some vx) ->
  eAt h u (Some vu) ->
  wp (icomputePP G P c x u) (computePP G vp vc vx vu) h
    (fun r v h' => eAt h' (fst r) (Some (fst v)) /\
       exists hb, Pre h hb /\ Pre hb h' /\ eAt hb (snd r) (Some (snd v)) /\ eNew hb (fst r)).
Proof.
  intros P c x u vp vc vx vu h HP HC HX HU. unfold icomputePP, computePP. ws.
  destruct vc as [k|]; cbn [deref bind].
  - ws. ws. ws. cbn [fst snd]. split; [tr|]. exists h'0. split; [pr|]. split; [pr|]. split; [tr | nw].
  - eapply (wp_eScale_nil G e c (Some (gScale G vu vx)) None); [tr | tr | right; reflexivity | reflexivity].
Qed.

Lemma iipVerifyLoop_ok : forall Ls vL Rs vR gs vg hs vh np Pp vP N h0 h,
  esAt h0 Ls vL -> eosAt h0 Rs vR -> zAt h0 N (Some (gN G)) -> Pre h0 h -> eNew h0 Pp ->
  eosAt h gs vg -> eosAt h hs vh -> other Pp gs -> other Pp hs -> eAt h Pp (Some vP) ->
  wp (iipVerifyLoop G HO Ls Rs gs hs np Pp N) (ipVerifyLoop G HO vL vR vg vh np vP) h
    (fun r v h' => Pre h0 h' /\ eosAt h' (fst r) (fst (fst v)) /\ eosAt h' (snd r) (snd (fst v)) /\
                   eAt h' Pp (Some (snd v))).
Proof.
  induction Ls as [|L Ls IH]; intros vL Rs vR gs vg hs vh np Pp vP N h0 h HL HR HN PR NP HG HH OG OH HP.
  - inversion HL; subst. cbn [iipVerifyLoop ipVerifyLoop]. apply wp_ret. cbn [fst snd]. auto.
  - inversion HL; subst. inversion HR; subst; cbn [iipVerifyLoop ipVerifyLoop]; [apply wp_stop; exact I|].
    destruct y0 as [R|].
    2:{ cbn in H. subst x. unfold iHashBP.
        assert (X : forall (B : Type) (f : ptr * ptr -> M G B) (Q : B -> _ -> _ -> Prop),
          wp (mbind G (mbind G (rdE G L) (fun a => mbind G (rdE G None) (fun s => mbind G (newZ G (fst (HashBP G HO a s)))
             (fun r1 => mbind G (newZ G (snd (HashBP G HO a s))) (fun r2 => ret G (r1, r2)))))) f)
             (@Panic (list (option (E G)) * list (option (E G)) * E G)) h Q).
        { intros B f Q. unfold ImpProofs.wp, mbind. rewrite (rdE_ok G h L y); [cbn; reflexivity | tr]. }
        apply X. }
    eapply wp_left; [apply (iHashBP_ok G HO L x y R); tr|]. intros xx h1 (P1 & X1 & _). cbv beta zeta.
    destruct (HashBP G HO y R) as [vx vx2]. cbn [fst snd] in *.
    ws. 
    eapply wp_bind; [apply (ifoldGens_ok gs vg (Nat.div np 2) e _ (fst xx) _); tr|]. intros g' vg' h2 (P2 & G2 & N2).
    cbv beta.
    eapply wp_bind; [apply (ifoldGens_ok hs vh (Nat.div np 2) (fst xx) _ e _); tr|]. intros h'' vh' h3 (P3 & G3 & N3).
    cbv beta. ws. ws. ws.
    destruct (modInverse ((vx * vx) mod gN G) (gN G)) as [x2i|] eqn:Ei; cbn [deref bind].
    + ws. ws. ws. ws.
      assert (OG' : other Pp g') by ne.
      assert (OH' : other Pp h'') by ne.
      apply IH; first [ tr | pr | exact OG' | exact OH' ].
    + ws. ws. eapply wp_eScale_nil; [tr | tr | right; reflexivity | reflexivity].
Qed.

Lemma iipVerify_ok : forall q v N h, repIPProof h q v -> zAt h N (Some (gN G)) ->
  wp (iipVerify G HO q N) (ipVerify G HO v) h (fun r b h' => Pre h h' /\ r = b).
Proof.
  intros q v N h (HP & HC & HA & HB & HL & HR & HGg & HHh & HU) HN. unfold iipVerify, ipVerify.
  eapply wp_bind; [apply ihashIP_ok; eassumption|]. intros x vx h1 (P1 & X1). cbv beta.
  eapply wp_bind; [apply icomputePP_ok; tr|]. intros [Pp ux] [vPp vux] h2 (A2 & hb & P2 & P2' & B2 & N2).
  cbn [fst snd] in *. cbv beta.
  assert (L0 : length (qGg (qParams q)) = length (ipGg (ipParams v))) by exact (len2 _ _ _ HGg).
  rewrite L0.
  assert (HG' : eosAt h (qGg (qParams q)) (map Some (ipGg (ipParams v)))) by (apply eos_es; exact HGg).
  eapply wp_bind.
  { apply (iipVerifyLoop_ok (qL q) (ipL v) (qR q) (ipR v) _ (map Some (ipGg (ipParams v))) _ (ipHh (ipParams v))
      (length (ipGg (ipParams v))) Pp vPp N hb h2); first [tr | ne | pr]. }
  intros [gp hp] [[vg vh] vP] h3 (P3 & G3 & H3 & A3). cbn [fst snd] in *. cbv beta.
  destruct (ipA v) as [pa|].
  2:{ cbn [deref bind]. eapply wp_zMul_nil; [tr | tr | left; reflexivity | reflexivity]. }
  destruct (ipB v) as [pb|].
  2:{ cbn [deref bind]. eapply wp_zMul_nil; [tr | tr | right; reflexivity | reflexivity]. }
  cbn [deref bind]. ws. ws.
  pose proof (idx2 (eAt h3) gp vg 0 G3) as IG. pose proof (idx2 (eAt h3) hp vh 0 H3) as IH.
  destruct (idx gp 0) as [g0| | |]; destruct (idx vg 0) as [vg0| | |]; try contradiction; cbn [bind];
    try (cbn; reflexivity).
  eapply wp_lift; [|intros X; destruct (X g0 eq_refl)]. intros u E. injection E as <-. cbv beta.
  destruct vg0 as [vg0|]; cbn [deref bind].
  2:{ eapply wp_eScale_nil; [tr | tr | left; reflexivity | reflexivity]. }
  ws.
  destruct (idx hp 0) as [h0| | |]; destruct (idx vh 0) as [vh0| | |]; try contradiction; cbn [bind];
    try (cbn; reflexivity).
  eapply wp_lift; [|intros X; destruct (X h0 eq_refl)]. intros u E. injection E as <-. cbv beta.
  destruct vh0 as [vh0|]; cbn [deref bind].
  2:{ eapply wp_eScale_nil; [tr | tr | left; reflexivity | reflexivity]. }
  ws. ws. ws. ws. ws. ws. ws. ws. split; [pr | reflexivity].
Qed.

Lemma ifoldGens_ok' : forall ps os np s1 k1 s2 k2 h, eosAt h ps os -> zAt h s1 k1 -> zAt h s2 k2 ->
  wp (ifoldGens G ps np s1 s2) (foldGens G os np k1 k2) h
    (fun l v h' => Pre h h' /\ (exists vs, v = map Some vs /\ esAt h' l vs) /\ Forall (eNew h) l).
Proof.
  intros ps os np s1 k1 s2 k2 h HP H1 H2.
  assert (W : forall l, foldGens G os np k1 k2 = Ok l -> exists vs, l = map Some vs).
  { intros l H. unfold foldGens in H.
    destruct (slice_to os np); cbn in H; try discriminate.
    destruct (vectorScalarExp G a k1); cbn in H; try discriminate.
    destruct (slice_from os np); cbn in H; try discriminate.
    destruct (vectorScalarExp G a1 k2); cbn in H; try discriminate.
    injection H as <-. destruct (VectorECAdd G a0 a2) as [vs|]; [exists vs | exists []]; reflexivity. }
  pose proof (ifoldGens_ok ps os np s1 k1 s2 k2 h HP H1 H2) as K. unfold ImpProofs.wp in *.
  destruct (ifoldGens G ps np s1 s2 h) as [[l h']| | |]; try exact K.
  destruct K as (v & Ev & P & A & N). exists v. split; [exact Ev|]. split; [exact P|]. split; [|exact N].
  destruct (W v Ev) as (vs & ->). exists vs. split; [reflexivity | apply eos_es; exact A].
Qed.
Lemma mapM_deref : forall {A} (l : list A), mapM deref (map Some l) = Ok l.
Proof. intros A l. induction l as [|x l IH]; cbn; [reflexivity | rewrite IH; reflexivity]. Qed.

Lemma icomputeBip_ok : forall fuel aa va bb vb gs vg hs vh u vu P vP n Ls vL Rs vR N h,
  zsAt h aa va -> zsAt h bb vb -> esAt h gs vg -> esAt h hs vh -> eAt h u (Some vu) -> eAt h P (Some vP) ->
  esAt h Ls vL -> esAt h Rs vR -> zAt h N (Some (gN G)) ->
  wp (icomputeBipRecursive G HO fuel aa bb gs hs u P n Ls Rs N)
     (computeBipRecursive G HO fuel va vb vg vh vu vP n vL vR) h
     (fun r v h' => Pre h h' /\
        let '(a', b', P', Ls', Rs') := r in let '(va', vb', vP', vL', vR') := v in
        zAt h' a' (Some va') /\ zAt h' b' (Some vb') /\ eAt h' P' (Some vP') /\ esAt h' Ls' vL' /\ esAt h' Rs' vR').
Proof.
  induction fuel as [|fuel IH]; intros aa va bb vb gs vg hs vh u vu P vP n Ls vL Rs vR N h Ha Hb Hg Hh Hu HP HL HR HN;
    cbn [icomputeBipRecursive computeBipRecursive]; destruct (Nat.eqb n 1).
  1, 3: eapply wp_lift_bind; [apply (idx2 _ aa va 0 Ha)|]; intros a0 va0 A0; cbv beta;
    eapply wp_lift_bind; [apply (idx2 _ bb vb 0 Hb)|]; intros b0 vb0 B0; cbv beta;
    apply wp_ret; split; [apply Pre_refl | auto].
  - apply wp_stop; exact I.
  - set (np := Nat.div n 2). cbv zeta.
    eapply wp_lift_bind; [apply (slice_to2 _ aa va np Ha)|]. intros alo valo Halo. cbv beta.
    eapply wp_lift_bind; [apply (slice_from2 _ aa va np Ha)|]. intros ahi vahi Hahi. cbv beta.
    eapply wp_lift_bind; [apply (slice_to2 _ bb vb np Hb)|]. intros blo vblo Hblo. cbv beta.
    eapply wp_lift_bind; [apply (slice_from2 _ bb vb np Hb)|]. intros bhi vbhi Hbhi. cbv beta.
    eapply wp_lift_bind; [apply (slice_to2 _ gs vg np Hg)|]. intros glo vglo Hglo. cbv beta.
    eapply wp_lift_bind; [apply (slice_from2 _ gs vg np Hg)|]. intros ghi vghi Hghi. cbv beta.
    eapply wp_lift_bind; [apply (slice_to2 _ hs vh np Hh)|]. intros hlo vhlo Hhlo. cbv beta.
    eapply wp_lift_bind; [apply (slice_from2 _ hs vh np Hh)|]. intros hhi vhhi Hhhi. cbv beta.
    change (zsAt h alo valo) in Halo. change (zsAt h ahi vahi) in Hahi.
    change (zsAt h blo vblo) in Hblo. change (zsAt h bhi vbhi) in Hbhi.
    change (esAt h glo vglo) in Hglo. change (esAt h ghi vghi) in Hghi.
    change (esAt h hlo vhlo) in Hhlo. change (esAt h hhi vhhi) in Hhhi.
    eapply wp_left; [apply (iScalarProduct_ok G alo valo bhi vbhi N); tr|]. intros cL h1 (P1 & C1 & _). cbv beta.
    eapply wp_left; [apply (iScalarProduct_ok G ahi vahi blo vblo N); tr|]. intros cR h2 (P2 & C2 & _). cbv beta.
    eapply wp_left; [apply (iVectorExp_ok G ghi vghi alo valo); tr|]. intros L h3 (P3 & L3 & NL). cbv beta.
    eapply wp_left; [apply (iVectorExp_ok G hlo vhlo bhi vbhi); tr|]. intros Lh h4 (P4 & L4 & NLh). cbv beta.
    destruct (VectorExp G vghi valo) as [vL0|]; cbn [deref bind].
    2:{ cbn in L3. eapply (wp_set_nil G L L Lh None); [tr | left; exact L3 | reflexivity]. }
    specialize (NL ltac:(discriminate)).
    destruct (VectorExp G vhlo vbhi) as [vLh|]; cbn [deref bind].
    2:{ cbn in L4. eapply (wp_set_nil G L L Lh (Some vL0)); [tr | right; exact L4 | reflexivity]. }
    specialize (NLh ltac:(discriminate)).
    ws.
    destruct (ScalarProduct G valo vbhi) as [vcL|]; cbn [deref bind].
    2:{ eapply (wp_eScale_nil G u cL (Some vu) None); [tr | tr | right; reflexivity | reflexivity]. }
    ws. ws.
    eapply wp_left; [apply (iVectorExp_ok G glo vglo ahi vahi); tr|]. intros R h5 (P5 & R5 & NR). cbv beta.
    eapply wp_left; [apply (iVectorExp_ok G hhi vhhi blo vblo); tr|]. intros Rh h6 (P6 & R6 & NRh). cbv beta.
    destruct (VectorExp G vglo vahi) as [vR0|]; cbn [deref bind].
    2:{ cbn in R5. eapply (wp_set_nil G R R Rh None); [tr | left; exact R5 | reflexivity]. }
    specialize (NR ltac:(discriminate)).
    destruct (VectorExp G vhhi vblo) as [vRh|]; cbn [deref bind].
    2:{ cbn in R6. eapply (wp_set_nil G R R Rh (Some vR0)); [tr | right; exact R6 | reflexivity]. }
    specialize (NRh ltac:(discriminate)).
    ws.
    destruct (ScalarProduct G vahi vblo) as [vcR|]; cbn [deref bind].
    2:{ eapply (wp_eScale_nil G u cR (Some vu) None); [tr | tr | right; reflexivity | reflexivity]. }
    ws. ws.
    eapply wp_left; [apply (iHashBP_ok G HO L R); tr|]. intros xx h7 (P7 & X7 & _). cbv beta zeta.
    set (xp := HashBP G HO _ _) in *. clearbody xp. destruct xp as [vx vx']. cbn [fst snd] in *.
    ws.
    assert (Hg' : eosAt h gs (map Some vg)) by (apply eos_es; exact Hg).
    assert (Hh' : eosAt h hs (map Some vh)) by (apply eos_es; exact Hh).
    eapply wp_bind; [apply ifoldGens_ok'; tr|]. intros gp vgp h8 (P8 & (vgp' & -> & G8) & N8). cbv beta.
    eapply wp_bind; [apply ifoldGens_ok'; tr|]. intros hp vhp h9 (P9 & (vhp' & -> & G9) & N9). cbv beta.
    rewrite !mapM_deref. cbn [bind]. ws. ws. ws.
    match goal with |- context [deref (modInverse ?y (gN G))] => destruct (modInverse y (gN G)) as [x2i|] end; cbn [deref bind].
    2:{ ws. ws. eapply wp_eScale_nil; [tr | tr | right; reflexivity | reflexivity]. }
    ws. ws. ws. ws.
    eapply wp_bind; [apply iVectorScalarMul_ok; tr|]. intros ap1 vap1 k1 (Q1 & Z1). cbv beta.
    eapply wp_bind; [apply iVectorScalarMul_ok; tr|]. intros ap2 vap2 k2 (Q2 & Z2). cbv beta.
    eapply wp_left; [apply (iVectorAdd_ok G ap1 vap1 ap2 vap2 N (gN G)); tr|]. intros ap k3 (Q3 & Z3). cbv beta.
    eapply wp_bind; [apply iVectorScalarMul_ok; tr|]. intros bp1 vbp1 k4 (Q4 & Z4). cbv beta.
    eapply wp_bind; [apply iVectorScalarMul_ok; tr|]. intros bp2 vbp2 k5 (Q5 & Z5). cbv beta.
    eapply wp_left; [apply (iVectorAdd_ok G bp1 vbp1 bp2 vbp2 N (gN G)); tr|]. intros bp k6 (Q6 & Z6). cbv beta.
    eapply wp_weaken.
    + apply (IH ap _ bp _ gp _ hp _ u _ _ _ np _ _ _ _ N); try tr.
      * apply Forall2_app; [change (esAt k6 Ls vL); tr | constructor; [tr | constructor]].
      * apply Forall2_app; [change (esAt k6 Rs vR); tr | constructor; [tr | constructor]].
    + intros r v hf (PP & K). split; [pr | exact K].
Qed.
Lemma iproveInnerProduct_ok : forall fuel aa va bb vb P vP c vc q v vh N h, ipHh v = map Some vh ->
  zsAt h aa va -> zsAt h bb vb -> eAt h P (Some vP) -> zAt h c vc -> repIPParams h q v ->
  zAt h N (Some (gN G)) ->
  wp (iproveInnerProduct G HO fuel aa bb P c q N) (proveInnerProduct G HO fuel va vb vP vc v) h
     (fun r w h' => Pre h h' /\ repIPProof h' r w).
Proof.
  intros fuel aa va bb vb P vP c vc q v vh N h Eh Ha Hb HP HC (HG & HH & HU) HN.
  unfold iproveInnerProduct, proveInnerProduct. rewrite (len2 _ _ _ Ha), (len2 _ _ _ Hb).
  destruct (negb _); [apply wp_stop; exact I|].
  eapply wp_bind; [apply ihashIP_ok; eassumption|]. intros x vx h1 (P1 & X1). cbv beta.
  eapply wp_bind; [apply icomputePP_ok; tr|]. intros [Pp ux] [vPp vux] h2 (A2 & hb & P2 & P2' & B2 & N2).
  cbn [fst snd] in *. cbv beta. rewrite Eh, mapM_deref. cbn [bind].
  assert (HH' : esAt h (qHh q) vh) by (apply eos_es; rewrite <- Eh; exact HH).
  eapply wp_bind.
  { apply (icomputeBip_ok fuel aa va bb vb (qGg q) (ipGg v) (qHh q) vh ux vux Pp vPp (length va) [] [] [] [] N); try tr;
      constructor. }
  intros [[[[a' b'] P'] Ls] Rs] [[[[va' vb'] vP'] vLs] vRs] h3 (P3 & A3 & B3 & C3 & D3 & E3). cbv beta iota.
  apply wp_ret. split; [pr|]. unfold repIPProof, repIPParams.
  cbn [qP qCc qA qB qL qR qParams ipP ipCc ipA ipB ipL ipR ipParams].
  repeat split; try tr. apply eos_es. exact E3.
Qed.

Lemma isetup_ok : forall gs vg hs vh N h, esAt h gs vg -> esAt h hs vh ->
  wp (isetupInnerProduct G gs hs N) (setupInnerProduct G (Some vg) (Some vh) N) h
     (fun r v h' => Pre h h' /\ repIPParams h' r v /\ ipHh v = map Some vh /\ ipGg v = vg).
Proof.
  intros gs vg hs vh N h HG HH. unfold isetupInnerProduct, setupInnerProduct.
  destruct (N <=? 0); [apply wp_stop; exact I|]. cbn [bind].
  eapply (wp_lift_bind G (gMap G (str_bytes SEEDU)) _ (gMap G (str_bytes SEEDU)) _ h (fun u v => u = v)).
  - destruct (gMap G (str_bytes SEEDU)); auto.
  - intros u w <-. ws. ws. split; [pr|]. unfold repIPParams. cbn [qGg qHh qUu ipGg ipHh ipUu].
    repeat split; try tr. apply eos_es. tr.
Qed.
Lemma icommitInner_ok : forall gs vg hs vh aa va bb vb h, esAt h gs vg -> esAt h hs vh -> zsAt h aa va -> zsAt h bb vb ->
  wp (icommitInnerProduct G gs hs aa bb) (commitInnerProduct G vg vh va vb) h
     (fun p v h' => Pre h h' /\ eAt h' p (Some v) /\ eNew h p).
Proof.
  intros gs vg hs vh aa va bb vb h HG HH HA HB. unfold icommitInnerProduct, commitInnerProduct.
  eapply wp_left; [apply (iVectorExp_ok G gs vg aa va); tr|]. intros ga h1 (P1 & A1 & _). cbv beta.
  eapply wp_left; [apply (iVectorExp_ok G hs vh bb vb); tr|]. intros hb h2 (P2 & A2 & _). cbv beta.
  destruct (VectorExp G vg va) as [vga|]; cbn [deref bind].
  2:{ apply wp_tail. eapply wp_eAdd_nil; [tr | tr | left; reflexivity | reflexivity]. }
  destruct (VectorExp G vh vb) as [vhb|]; cbn [deref bind].
  2:{ apply wp_tail. eapply wp_eAdd_nil; [tr | tr | right; reflexivity | reflexivity]. }
  ws. ws. split; [pr | split; [tr | nw]].
Qed.
Lemma iupdGen_ok : forall c hs vh yE ye yI yi h, esAt h hs vh -> zAt h yE ye -> zAt h yI yi ->
  wp (iupdGen_loop G c hs yE yI) (updGen_loop G c vh ye yi) h (fun l v h' => Pre h h' /\ esAt h' l v).
Proof.
  induction c as [|c IH]; intros hs vh yE ye yI yi h HH HE HI; cbn [iupdGen_loop updGen_loop].
  - apply wp_ret. split; [apply Pre_refl | constructor].
  - inversion HH as [|x v hs' vh' HX HT]; subst; [apply wp_stop; exact I|]. change (esAt h hs' vh') in HT.
    destruct ye as [e|]; cbn [deref bind].
    2:{ eapply wp_eScale_nil; [tr | tr | right; reflexivity | reflexivity]. }
    ws. destruct yi as [i|]; cbn [deref bind].
    2:{ eapply wp_zMul_nil; [tr | tr | right; reflexivity | reflexivity]. }
    ws. eapply wp_bind; [apply (IH hs' vh' _ (Some (e * i)) yI (Some i)); tr|]. intros r vr h2 (P2 & E2). cbv beta.
    apply wp_ret. split; [pr|]. constructor; [tr | exact E2].
Qed.
Lemma iupdateGenerators_ok : forall hs vh y vy N P h, esAt h hs vh -> zAt h y (Some vy) -> zAt h P (Some (gN G)) ->
  wp (iupdateGenerators G hs y N P) (updateGenerators G vh vy N) h (fun l v h' => Pre h h' /\ esAt h' l v).
Proof.
  intros hs vh y vy N P h HH HY HP. unfold iupdateGenerators, updateGenerators.
  apply (wp_lift_bind G (make_len N) _ (make_len N) _ h (fun u v => u = v)).
  - destruct (make_len N); auto.
  - intros n w <-. ws. destruct n as [|n]; [apply wp_stop; exact I|].
    inversion HH as [|x v hs' vh' HX HT]; subst; [apply wp_stop; exact I|]. change (esAt h hs' vh') in HT.
    eapply wp_bind; [apply iupdGen_ok; tr|]. intros r vr h2 (P2 & E2). cbv beta.
    apply wp_ret. split; [pr|]. constructor; [tr | exact E2].
Qed.
Lemma icommitVectorBig_ok : forall n aL vL aR vR gs vg hs vh R vRr h0 h,
  zsAt h0 aL vL -> zsAt h0 aR vR -> esAt h0 gs vg -> esAt h0 hs vh -> Pre h0 h -> eNew h0 R -> eAt h R (Some vRr) ->
  wp (icommitVectorBig_loop G n aL aR gs hs R) (commitVector_loop G n vL vR vg vh vRr) h
     (fun _ v h' => Pre h0 h' /\ eAt h' R (Some v)).
Proof.
  induction n as [|n IH]; intros aL vL aR vR gs vg hs vh R vRr h0 h HL HR HG HH PR NR A;
    cbn [icommitVectorBig_loop commitVector_loop].
  - apply wp_ret. split; assumption.
  - inversion HL as [|l vl aL' vL' L1 L2]; subst; [apply wp_stop; exact I|].
    inversion HR as [|r vr aR' vR' R1 R2]; subst; [apply wp_stop; exact I|].
    inversion HG as [|g vgi gs' vg' G1 G2]; subst; [apply wp_stop; exact I|].
    inversion HH as [|hi vhi hs' vh' H1 H2]; subst; [apply wp_stop; exact I|].
    ws. ws. ws. ws. apply IH; first [assumption | tr | pr].
Qed.
Lemma icommitVector_ok : forall n aL aR gs vg hs vh R vRr h0 h,
  esAt h0 gs vg -> esAt h0 hs vh -> Pre h0 h -> eNew h0 R -> eAt h R (Some vRr) ->
  wp (icommitVector_loop G n aL aR gs hs R) (commitVector_loop G n aL aR vg vh vRr) h
     (fun _ v h' => Pre h0 h' /\ eAt h' R (Some v)).
Proof.
  induction n as [|n IH]; intros aL aR gs vg hs vh R vRr h0 h HG HH PR NR A;
    cbn [icommitVector_loop commitVector_loop].
  - apply wp_ret. split; assumption.
  - destruct aL as [|l aL]; [apply wp_stop; exact I|].
    destruct aR as [|r aR]; [apply wp_stop; exact I|].
    inversion HG as [|g vgi gs' vg' G1 G2]; subst; [apply wp_stop; exact I|].
    inversion HH as [|hi vhi hs' vh' H1 H2]; subst; [apply wp_stop; exact I|].
    ws. ws. ws. ws. ws. ws. apply IH; first [assumption | tr | pr].
Qed.
Lemma wp_fail : forall {A A' B} (c : M G A) (f : A -> M G A') (r : res B) h Q,
  wp c r h (fun _ _ _ => False) -> wp (mbind G c f) r h Q.
Proof.
  intros A A' B c f r h Q H. unfold ImpProofs.wp, mbind in *. destruct (c h) as [[u h']| | |]; try exact H.
  destruct H as (v & _ & []).
Qed.
Lemma bind_Ok : forall {A} (r : res A), r = (v <- r ;; Ok v).
Proof. intros A [| | |]; reflexivity. Qed.
Definition ePost (h : heap) (p : ptr) (v : E G) (h' : heap) : Prop := Pre h h' /\ eAt h' p (Some v) /\ eNew h p.
Lemma icommitVectorBig_ok' : forall aL vL aR vR al val H vH gs vg hs vh n h,
  zsAt h aL vL -> zsAt h aR vR -> esAt h gs vg -> esAt h hs vh -> zAt h al (Some val) -> eAt h H (Some vH) ->
  wp (icommitVectorBig G aL aR al H gs hs n) (commitVector G vL vR val vH vg vh n) h (ePost h).
Proof.
  intros aL vL aR vR al val H vH gs vg hs vh n h HL HR HG HH HA HB. unfold icommitVectorBig, commitVector. ws.
  eapply wp_weaken with (R := fun p v h2 => p = e /\ Pre h h2 /\ eAt h2 e (Some v)).
  - rewrite (bind_Ok (commitVector_loop _ _ _ _ _ _ _)).
    eapply wp_bind; [apply (icommitVectorBig_ok _ aL vL aR vR gs vg hs vh e _ h); first [tr | pr]|].
    intros _ v h2 (P2 & A2). apply wp_ret. auto.
  - intros p v h2 (-> & P2 & A2). split; [exact P2 | split; [exact A2 | assumption]].
Qed.
Lemma icommitVector_ok' : forall aL aR al val H vH gs vg hs vh n h,
  esAt h gs vg -> esAt h hs vh -> zAt h al (Some val) -> eAt h H (Some vH) ->
  wp (icommitVector G aL aR al H gs hs n) (commitVector G aL aR val vH vg vh n) h (ePost h).
Proof.
  intros aL aR al val H vH gs vg hs vh n h HG HH HA HB. unfold icommitVector, commitVector. ws.
  eapply wp_weaken with (R := fun p v h2 => p = e /\ Pre h h2 /\ eAt h2 e (Some v)).
  - rewrite (bind_Ok (commitVector_loop _ _ _ _ _ _ _)).
    eapply wp_bind; [apply (icommitVector_ok _ aL aR gs vg hs vh e _ h); first [tr | pr]|].
    intros _ v h2 (P2 & A2). apply wp_ret. auto.
  - intros p v h2 (-> & P2 & A2). split; [exact P2 | split; [exact A2 | assumption]].
Qed.
Lemma idelta_ok : forall N y vy z vz P h, zAt h y (Some vy) -> zAt h z (Some vz) -> zAt h P (Some (gN G)) ->
  wp (idelta G N y z P) (delta G N vy vz) h (fun p v h' => Pre h h' /\ zAt h' p (Some v) /\ zNew h p).
Proof.
  intros N y vy z vz P h HY HZ HP. unfold idelta, delta. ws. ws.
  eapply wp_bind; [apply iVectorCopy_ok; tr|]. intros onePow vone h1 (P1 & Z1). cbv beta. ws.
  eapply wp_bind; [apply ipowerOf_ok; tr|]. intros twoPow vtwo h2 (P2 & Z2). cbv beta.
  eapply wp_bind; [apply ipowerOf_ok; tr|]. intros yPow vyp h3 (P3 & Z3). cbv beta.
  ws. ws. ws. ws. ws. ws.
  eapply wp_left; [apply (iScalarProduct_ok G onePow vone yPow vyp P); tr|]. intros t2 h4 (P4 & Z4 & N4). cbv beta.
  eapply wp_left; [apply (iScalarProduct_ok G onePow vone twoPow vtwo P); tr|]. intros sp h5 (P5 & Z5 & N5). cbv beta.
  destruct (ScalarProduct G vone vyp) as [v2|]; cbn [deref bind].
  2:{ destruct (ScalarProduct G vone vtwo) as [v12|].
      - ws. ws. cbn in Z4. subst t2. cbn. reflexivity.
      - eapply wp_zMul_nil; [tr | tr | right; reflexivity | reflexivity]. }
  specialize (N4 ltac:(discriminate)).
  destruct (ScalarProduct G vone vtwo) as [v12|]; cbn [deref bind].
  2:{ eapply wp_zMul_nil; [tr | tr | right; reflexivity | reflexivity]. }
  ws. ws. ws. ws. ws. ws. ws. split; [pr | split; [tr | nw]].
Qed.

Lemma repBPParams_pre : forall h h' q v, Pre h h' -> repBPParams h q v -> repBPParams h' q v.
Proof. intros h h' q v P (A & B & C & D & F). unfold repBPParams. repeat split; first [assumption | tr]. Qed.
Lemma repIPProof_pre : forall h h' q v, Pre h h' -> repIPProof h q v -> repIPProof h' q v.
Proof.
  intros h h' q v P (A & B & C & D & F & H & I & J & K). unfold repIPProof, repIPParams. repeat split; tr.
Qed.

Theorem iVerify_ok : forall q v P h, repBP h q v -> zAt h P (Some (gN G)) ->
  wp (iVerify G HO q P) (Verify G HO v) h (fun r b h' => Pre h h' /\ r = b).
Proof.
  intros q v P h (HV & HA & HS & HT1 & HT2 & HTx & HMu & HTp & HI & EN & HG & HH & HGg & HHh) HP.
  unfold iVerify, Verify. rewrite EN.
  eapply wp_left; [eapply (iHashBP_ok G HO (rT1 q) (rT2 q) (pT1 v) (pT2 v)); tr|]. intros xx h1 (P1 & X1 & _). cbv beta zeta.
  eapply wp_left; [eapply (iHashBP_ok G HO (rA q) (rS q) (pA v) (pS v)); tr|]. intros [y z] h2 (P2 & Y2 & Z2). cbv beta.
  destruct (HashBP G HO (pT1 v) (pT2 v)) as [vx vx']. destruct (HashBP G HO (pA v) (pS v)) as [vy vz].
  cbn [fst snd] in *. ws. ws. ws. ws.
  eapply wp_bind; [apply iupdateGenerators_ok; tr|]. intros hp vhp h3 (P3 & HP3). cbv beta.
  destruct (pTprime v) as [tp|]; cbn [deref bind].
  2:{ unfold iPedersenCommit. apply wp_fail. eapply wp_eBase_nil; [tr | reflexivity]. }
  destruct (pTaux v) as [tx|]; cbn [deref bind].
  2:{ unfold iPedersenCommit. apply wp_fail. ws. eapply wp_eScale_nil; [tr | tr | right; reflexivity | reflexivity]. }
  eapply wp_left; [eapply (iPedersenCommit_ok G (rTprime q) (rTaux q) (rH (rParams q)) tp tx (bpH (pParams v))); tr|].
  intros lhs h4 (P4 & L4 & N4). cbv beta. ws.
  eapply wp_bind; [apply idelta_ok; tr|]. intros d vd h5 (P5 & D5 & ND). cbv beta.
  ws. ws. ws. ws. ws. ws. ws. ws. ws. ws. ws.
  eapply wp_bind; [apply iVectorCopy_ok; tr|]. intros vmz vvmz h6 (P6 & Z6). cbv beta.
  eapply wp_left; [eapply (iVectorExp_ok G (rGg (rParams q)) (bpGg (pParams v)) vmz vvmz); tr|].
  intros gpmz h7 (P7 & G7 & N7). cbv beta.
  eapply wp_bind; [apply iVectorCopy_ok; tr|]. intros vzz vvz h8 (P8 & Z8). cbv beta.
  eapply wp_bind; [apply ipowerOf_ok; tr|]. intros vyy vvy h9 (P9 & Z9). cbv beta.
  eapply wp_left; [eapply (iVectorMul_ok G vyy vvy vzz vvz P (gN G)); tr|]. intros zyn h10 (P10 & Z10). cbv beta.
  ws.
  eapply wp_bind; [apply ipowerOf_ok; tr|]. intros p2n vp2n h11 (P11 & Z11). cbv beta.
  eapply wp_bind; [apply iVectorScalarMul_ok; tr|]. intros z22n vz22n h12 (P12 & Z12). cbv beta.
  eapply wp_left; [eapply (iVectorAdd_ok G zyn _ z22n vz22n P (gN G)); tr|]. intros zynz h13 (P13 & Z13). cbv beta.
  destruct (VectorExp G (bpGg (pParams v)) vvmz) as [vgpmz|]; cbn [deref bind].
  2:{ eapply wp_eAdd_nil; [tr | tr | right; reflexivity | reflexivity]. }
  ws.
  eapply wp_left; [eapply (iVectorExp_ok G hp vhp zynz _); tr|]. intros hpExp h14 (P14 & G14 & N14). cbv beta.
  match goal with |- context [deref (VectorExp G vhp ?l)] => destruct (VectorExp G vhp l) as [vhpE|] end; cbn [deref bind].
  2:{ cbn in G14. eapply (wp_set_nil G); [tr | right; exact G14 | reflexivity]. }
  ws.
  destruct (pMu v) as [mu|]; cbn [deref bind].
  2:{ eapply wp_eScale_nil; [tr | tr | right; reflexivity | reflexivity]. }
  pose proof HI as (HIP & _).
  ws. ws. ws. ws.
  eapply wp_bind; [apply iipVerify_ok; [|tr]|].
  { apply (repIPProof_pre h); [pr | exact HI]. }
  intros ok vok h15 (P15 & ->). cbv beta. apply wp_ret. split; [pr | reflexivity].
Qed.

Theorem iProve_ok : forall x vx q v rnd P h, zAt h x (Some vx) -> repBPParams h q v -> zAt h P (Some (gN G)) ->
  wp (iProve G HO x q rnd P) (Prove G HO vx v rnd) h
     (fun r w h' => Pre h h' /\ repBP h' (fst r) (fst w) /\ zAt h' (snd r) (Some (snd w))).
Proof.
  intros x vx q v rnd P h HX HQ HP. pose proof HQ as (EN & HG & HH & HGg & HHh).
  unfold iProve, Prove. rewrite EN. cbv zeta. ws.
  unfold randInt. destruct (gN G <=? 0); cbn [bind]; [reflexivity|]. apply wp_liftOk. ws.
  eapply wp_left; [eapply (iPedersenCommit_ok G x e (rH q) vx (r_gamma rnd) (bpH v)); tr|]. intros V h1 (P1 & V1 & _). cbv beta.
  eapply wp_bind; [apply iDecompose_ok; tr|]. intros aL vaL h2 (P2 & ->). cbv beta. ws.
  eapply wp_bind; [apply icommitVector_ok'; tr|]. intros A vA h3 (P3 & A3 & _). cbv beta.
  eapply wp_bind; [apply isample_ok|]. intros sL vsL h4 (P4 & L4). cbv beta.
  eapply wp_bind; [apply isample_ok|]. intros sR vsR h5 (P5 & L5). cbv beta. ws.
  eapply wp_bind; [apply icommitVectorBig_ok'; tr|]. intros S vS h6 (P6 & A6 & _). cbv beta.
  eapply wp_left; [eapply (iHashBP_ok G HO A S vA vS); tr|]. intros [y z] h7 (P7 & Y7 & Z7). cbv beta.
  destruct (HashBP G HO vA vS) as [vy vz]. cbn [fst snd] in *. ws. ws.
  eapply wp_bind; [apply ipowerOf_ok; tr|]. intros yPow vyPow h8 (P8 & L8). cbv beta. ws.
  eapply wp_bind; [apply ipowerOf_ok; tr|]. intros pow2 vpow2 h9 (P9 & L9). cbv beta. ws.
  eapply wp_bind; [apply iVectorScalarMul_ok; tr|]. intros p2z vp2z h10 (P10 & L10). cbv beta.
  eapply wp_bind; [apply iVectorConvertToBig_ok|]. intros aLb vaLb h11 (P11 & L11). cbv beta.
  eapply wp_bind; [apply iVectorConvertToBig_ok|]. intros aRb vaRb h12 (P12 & L12). cbv beta. ws.
  eapply wp_left; [eapply (iVectorAddConst_ok G aLb vaLb); tr|]. intros l0 h13 (P13 & L13). cbv beta.
  eapply wp_bind; [apply iVectorCopy_ok; tr|]. intros vecZ vvecZ h14 (P14 & L14). cbv beta.
  eapply wp_left; [eapply (iVectorAdd_ok G vecZ vvecZ aRb vaRb P (gN G)); tr|]. intros aRzn h15 (P15 & L15). cbv beta.
  eapply wp_left; [eapply (iVectorMul_ok G yPow vyPow aRzn _ P (gN G)); tr|]. intros r0' h16 (P16 & L16). cbv beta.
  eapply wp_left; [eapply (iVectorAdd_ok G r0' _ p2z vp2z P (gN G)); tr|]. intros r0 h17 (P17 & L17). cbv beta.
  eapply wp_left; [eapply (iVectorMul_ok G yPow vyPow sR vsR P (gN G)); tr|]. intros r1 h18 (P18 & L18). cbv beta.
  eapply wp_bind; [apply iVectorInnerProduct_ok; tr|]. intros t1l vt1l h19 (P19 & L19 & _). cbv beta.
  eapply wp_bind; [apply iVectorInnerProduct_ok; tr|]. intros t1r vt1r h20 (P20 & L20 & _). cbv beta. ws. ws.
  eapply wp_bind; [apply iVectorInnerProduct_ok; tr|]. intros t2 vt2 h21 (P21 & L21 & _). cbv beta.
  eapply wp_left; [eapply (iPedersenCommit_ok G); tr|]. intros T1 h22 (P22 & T22 & _). cbv beta.
  eapply wp_left; [eapply (iPedersenCommit_ok G); tr|]. intros T2 h23 (P23 & T23 & _). cbv beta.
  eapply wp_left; [eapply (iHashBP_ok G HO); tr|]. intros xx h24 (P24 & X24 & _). cbv beta zeta.
  match type of X24 with context [HashBP G HO ?a ?b] => set (hb := HashBP G HO a b) in * end.
  clearbody hb. destruct hb as [c c']. cbn [fst snd] in *.
  eapply wp_bind; [apply iVectorScalarMul_ok; tr|]. intros sLx vsLx h25 (P25 & L25). cbv beta.
  eapply wp_left; [eapply (iVectorAdd_ok G l0 _ sLx vsLx P (gN G)); tr|]. intros bl h26 (P26 & L26). cbv beta.
  eapply wp_bind; [apply iVectorScalarMul_ok; tr|]. intros sRx vsRx h27 (P27 & L27). cbv beta.
  eapply wp_left; [eapply (iVectorAdd_ok G aRzn _ sRx vsRx P (gN G)); tr|]. intros tmp h28 (P28 & L28). cbv beta.
  eapply wp_left; [eapply (iVectorMul_ok G yPow vyPow tmp _ P (gN G)); tr|]. intros tmp' h29 (P29 & L29). cbv beta.
  eapply wp_left; [eapply (iVectorAdd_ok G tmp' _ p2z vp2z P (gN G)); tr|]. intros br h30 (P30 & L30). cbv beta.
  eapply wp_left; [eapply (iScalarProduct_ok G bl _ br _ P); tr|]. intros th h31 (P31 & T31 & _). cbv beta.
  ws. ws. ws. ws. ws. ws. ws. ws. ws. ws.
  eapply wp_bind; [apply iupdateGenerators_ok; tr|]. intros hp vhp h32 (P32 & HP32). cbv beta.
  eapply wp_bind; [apply isetup_ok; tr|]. intros ipp vipp h33 (P33 & I33 & E33 & F33). cbv beta.
  eapply wp_bind; [apply icommitInner_ok; tr|]. intros cm vcm h34 (P34 & C34 & _). cbv beta.
  rewrite (len2 _ _ _ L26).
  eapply wp_bind.
  { eapply (iproveInnerProduct_ok _ bl _ br _ cm vcm th _ ipp vipp vhp P); [exact E33 | tr | tr | tr | tr | | tr].
    destruct I33 as (I1 & I2 & I3). repeat split; tr. }
  intros pf vpf h35 (P35 & R35). cbv beta. apply wp_ret. cbn [fst snd]. split; [pr|]. split; [|tr].
  assert (RQ : repBPParams h35 q v) by (apply (repBPParams_pre h); [pr | exact HQ]).
  unfold repBP. cbn [rV rA rS rT1 rT2 rTaux rMu rTprime rIPP rParams pV pA pS pT1 pT2 pTaux pMu pTprime pIPP pParams].
  do 9 (split; [first [tr | assumption]|]). exact RQ.
Qed.
End ImpBP.
