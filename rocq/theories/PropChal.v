(** C83: what a run of the prover depends on, and when it returns: a condition on the digests of that run only. *)
From Verif Require Import GoBase Json GroupIface Vector BIP BP VoteProof ModP App ECJson Marshal NumTh Alg VectorProofs BIPProofs BPProofs SetupProofs ModPProofs
  BytesProofs Toy Hom PropBP PropVote PropModP PropApp PropJson PropRead PropCopy Primes PrimeCerts PropPrime PropDeaf PropK1Sound PropReplay PropTally PropStrict
  Out P256k1 Curve Groups Pres PropEC PropCurve PropTransport PropGen PropK1 Main PropMain.
From Coq Require Import Znumtheory.

(** ** Specification *)
(** The byte strings hashed to check a range proof: the pair T1, T2; the pair A, S; the statement of the inner-product proof; the pair L, R of each round. *)
Fixpoint roundInputs {G : Grp} (Ls : list (E G)) (Rs : list (option (E G))) : list bytes :=
  match Ls, Rs with
  | L :: Ls', Some R :: Rs' => (gStr G L ++ gStr G R) :: roundInputs Ls' Rs'
  | _, _ => []
  end.
Fixpoint pairStrings {G : Grp} (gs : list (E G)) (hs : list (option (E G))) : option bytes :=
  match gs, hs with
  | [], _ => Some []
  | X :: gs', Some Y :: hs' => option_map (fun r => gStr G X ++ gStr G Y ++ r) (pairStrings gs' hs')
  | _, _ => None
  end.
(** P, the generators g1, h1, g2, h2, ... and the inner product in decimal; nothing is hashed if an h is missing *)
Definition statementInput {G : Grp} (ipf : IPProof G) : list bytes :=
  match pairStrings (ipGg (ipParams ipf)) (ipHh (ipParams ipf)) with
  | Some m => [gStr G (ipP ipf) ++ m ++ match ipCc ipf with Some c => dec_str c | None => str_bytes "<nil>" end]
  | None => []
  end.
Definition ipInputs {G : Grp} (ipf : IPProof G) : list bytes := statementInput ipf ++ roundInputs (ipL ipf) (ipR ipf).
Definition hashInputs {G : Grp} (pf : BulletProof G) : list bytes :=
  (gStr G (pT1 pf) ++ gStr G (pT2 pf)) :: (gStr G (pA pf) ++ gStr G (pS pf)) :: ipInputs (pIPP pf).
(** Two hash functions give the same digest on each of the given strings; the conversion FromByteArray is the same *)
Definition AgreeOn (H1 H2 : Oracles) (l : list bytes) : Prop :=
  fromByteArray H1 = fromByteArray H2 /\ forall b, In b l -> sha256 H1 b = sha256 H2 b.
(** the digest of b, as a number, is invertible modulo the order (for a prime order: not a multiple of it) *)
Definition digestInv (N : Z) (HO : Oracles) (b : bytes) : bool := Z.gcd (os2ip (sha256 HO b)) N =? 1.
Definition DigestsInvertible {G : Grp} (HO : Oracles) (pf : BulletProof G) : Prop := forall b, In b (hashInputs pf) -> digestInv (gN G) HO b = true.
(** the hash function with every digest that is not invertible replaced by the 32 bytes of the number 1 *)
Definition guarded (N : Z) (HO : Oracles) : Oracles :=
  mkOracles (fun b => if digestInv N HO b then sha256 HO b else repeat 0 31 ++ [1]) (fromByteArray HO).

(** ** The hash function enters through these strings only *)
Lemma guarded_inv : forall G HO, ChallengesInvertible G (guarded (gN G) HO).
Proof.
  intros G HO A B. unfold HashBP, guarded. cbn [sha256 fst]. destruct (digestInv (gN G) HO (gStr G A ++ gStr G B)) eqn:D.
  - unfold digestInv in D. apply Z.eqb_eq in D. exact D.
  - change (os2ip (repeat 0 31 ++ [1])) with 1. apply Z.gcd_1_l.
Qed.
Lemma guarded_agree : forall N HO l, (forall b, In b l -> digestInv N HO b = true) -> AgreeOn HO (guarded N HO) l.
Proof. intros N HO l H. split; [reflexivity|]. intros b Hb. cbn [guarded sha256]. rewrite (H b Hb). reflexivity. Qed.
Lemma HashBP_ext : forall G H1 H2 (A B : E G), sha256 H1 (gStr G A ++ gStr G B) = sha256 H2 (gStr G A ++ gStr G B) -> HashBP G H1 A B = HashBP G H2 A B.
Proof. intros G H1 H2 A B H. unfold HashBP. rewrite H. reflexivity. Qed.
Lemma roundInputs_some : forall G (Ls Rs : list (E G)) L R, roundInputs (L :: Ls) (map Some (R :: Rs)) = (gStr G L ++ gStr G R) :: roundInputs Ls (map Some Rs).
Proof. reflexivity. Qed.

Lemma Ok_pair : forall {A B} (a c : A) (b d : B), Ok (a, b) = Ok (c, d) -> c = a /\ d = b.
Proof. intros A B a c b d H. injection H as -> ->. split; reflexivity. Qed.

(** ProveVec (BPProofs.v) cut at its three uses of the hash function *)
Definition vecA (G : Grp) (aL aR : list Z) (params : BPParams G) (rnd : BPRand) : res (E G * E G * list Z * list Z) :=
  A <- commitVector G aL aR (r_alpha rnd) (bpH params) (bpGg params) (bpHh params) (bpN params) ;;
  sL <- sampleRandomVector (bpN params) (r_sL rnd) ;;
  sR <- sampleRandomVector (bpN params) (r_sR rnd) ;;
  S <- commitVector G sL sR (r_rho rnd) (bpH params) (bpGg params) (bpHh params) (bpN params) ;;
  Ok (A, S, sL, sR).
Definition vecT (G : Grp) (aL aR : list Z) (params : BPParams G) (rnd : BPRand) (sL sR : list Z) (yz : Z * Z)
  : res (E G * E G * (list Z * list Z * list Z * list Z)) :=
  let m := gN G in let N := bpN params in let '(y, z) := yz in
  yPow <- powerOf G y N ;;
  powersOf2 <- powerOf G 2 N ;;
  p2z <- VectorScalarMul powersOf2 (Some (z * z)) m ;;
  aLb <- VectorConvertToBig aL N ;;
  aRb <- VectorConvertToBig aR N ;;
  let l0 := VectorAddConst aLb (- z) m in
  vecZ <- VectorCopy z N ;;
  let aRzn := nil_slice (VectorAdd vecZ aRb m) in
  let r0 := nil_slice (VectorAdd (nil_slice (VectorMul yPow aRzn m)) p2z m) in
  let r1 := nil_slice (VectorMul yPow sR m) in
  t1left <- VectorInnerProduct sL r0 m ;;
  t1right <- VectorInnerProduct l0 r1 m ;;
  t2 <- VectorInnerProduct sL r1 m ;;
  Ok (PedersenCommit G ((t1left + t1right) mod m) (r_tau1 rnd) (bpH params), PedersenCommit G t2 (r_tau2 rnd) (bpH params), (yPow, p2z, l0, aRzn)).
Definition vecX (G : Grp) (params : BPParams G) (rnd : BPRand) (sL sR : list Z) (yz : Z * Z) (st : list Z * list Z * list Z * list Z) (x : Z)
  : res (list Z * list Z * E G * option Z * IPParams G * Z * Z) :=
  let m := gN G in let N := bpN params in let '(y, z) := yz in let '(yPow, p2z, l0, aRzn) := st in
  sLx <- VectorScalarMul sL (Some x) m ;;
  let bl := nil_slice (VectorAdd l0 sLx m) in
  sRx <- VectorScalarMul sR (Some x) m ;;
  let br := nil_slice (VectorAdd (nil_slice (VectorMul yPow (nil_slice (VectorAdd aRzn sRx m)) m)) p2z m) in
  hp <- updateGenerators G (bpHh params) y N ;;
  ipp <- setupInnerProduct G (Some (bpGg params)) (Some hp) N ;;
  commit <- commitInnerProduct G (bpGg params) hp bl br ;;
  Ok (bl, br, commit, ScalarProduct G bl br, ipp, (r_tau2 rnd * (x * x) + r_tau1 rnd * x + z * z * r_gamma rnd) mod m, (r_rho rnd * x + r_alpha rnd) mod m).
Lemma vec_split : forall G HO v aL aR params rnd, ProveVec G HO v aL aR params rnd =
  ('(A, B, sL, sR) <- vecA G aL aR params rnd ;;
   '(T1, T2, st) <- vecT G aL aR params rnd sL sR (HashBP G HO A B) ;;
   '(bl, br, commit, th, ipp, tauX, mu) <- vecX G params rnd sL sR (HashBP G HO A B) st (fst (HashBP G HO T1 T2)) ;;
   ipProof <- proveInnerProduct G HO (length bl) bl br commit th ipp ;;
   Ok (mkBulletProof (PedersenCommit G v (r_gamma rnd) (bpH params)) A B T1 T2 (Some tauX) (Some mu) th ipProof params, r_gamma rnd)).
Proof.
  intros G HO v aL aR params rnd. unfold ProveVec, vecA.
  destruct (commitVector G aL _ _ _ _ _ _) as [A| | |]; try reflexivity. cbn [bind].
  destruct (sampleRandomVector _ (r_sL rnd)) as [sL| | |]; try reflexivity. cbn [bind].
  destruct (sampleRandomVector _ (r_sR rnd)) as [sR| | |]; try reflexivity. cbn [bind].
  destruct (commitVector G sL _ _ _ _ _ _) as [S| | |]; try reflexivity. cbn [bind].
  generalize (HashBP G HO A S). intros [y z]. unfold vecT.
  repeat match goal with
  | |- bind (VectorScalarMul sL _ _) _ = _ => fail 1
  | |- bind ?e _ = _ => destruct e; cbn [bind]; [|reflexivity|reflexivity|reflexivity]
  end.
  match goal with |- context [HashBP G HO ?T1 ?T2] => generalize (fst (HashBP G HO T1 T2)) end. intros x. unfold vecX.
  repeat match goal with
  | |- bind (proveInnerProduct _ _ _ _ _ _ _ _) _ = _ => fail 1
  | |- bind ?e _ = _ => destruct e; cbn [bind]; [|reflexivity|reflexivity|reflexivity]
  end.
  reflexivity.
Qed.

Section Ext.
Context (G : Grp) (H1 H2 : Oracles).

Lemma loop_ext : forall Ls Rs g h np P, (forall b, In b (roundInputs Ls Rs) -> sha256 H1 b = sha256 H2 b) ->
  ipVerifyLoop G H1 Ls Rs g h np P = ipVerifyLoop G H2 Ls Rs g h np P.
Proof.
  induction Ls as [|L Ls IH]; intros Rs g h np P H; [reflexivity|]. destruct Rs as [|[R|] Rs]; try reflexivity. cbn [roundInputs] in H.
  cbn [ipVerifyLoop]. rewrite (HashBP_ext G H1 H2 L R) by (apply H; left; reflexivity).
  destruct (foldGens G g _ _ _) as [g'| | |]; try reflexivity. cbn [bind]. destruct (foldGens G h _ _ _) as [h'| | |]; try reflexivity. cbn [bind].
  destruct (deref _) as [i| | |]; try reflexivity. cbn [bind]. apply IH. intros b Hb. apply H. right. exact Hb.
Qed.
Lemma statement_hashed : forall ipf : IPProof G,
  statementInput ipf = match hashIP_input G (ipGg (ipParams ipf)) (ipHh (ipParams ipf)) (ipP ipf) (ipCc ipf) with Ok b => [b] | _ => [] end.
Proof using.
  intros ipf. unfold statementInput, hashIP_input.
  assert (HE : forall gs hs, hashIP_elems G gs hs = match pairStrings gs hs with Some m => Ok m | None => Panic end).
  { induction gs as [|X gs IH]; intros hs; [reflexivity|]. destruct hs as [|[Y|] hs]; try reflexivity. cbn [hashIP_elems pairStrings]. rewrite IH. destruct (pairStrings gs hs); reflexivity. }
  rewrite HE. destruct (pairStrings _ _); [|reflexivity]. cbn [bind]. destruct (ipCc ipf); reflexivity.
Qed.
Lemma hashIP_ext : forall ipf : IPProof G, AgreeOn H1 H2 (statementInput ipf) ->
  hashIP G H1 (ipGg (ipParams ipf)) (ipHh (ipParams ipf)) (ipP ipf) (ipCc ipf) = hashIP G H2 (ipGg (ipParams ipf)) (ipHh (ipParams ipf)) (ipP ipf) (ipCc ipf).
Proof.
  intros ipf [HF H]. unfold hashIP. rewrite statement_hashed in H. destruct (hashIP_input _ _ _ _ _) as [b| | |]; try reflexivity. cbn [bind].
  rewrite HF, (H b) by (left; reflexivity). reflexivity.
Qed.
Lemma ipVerify_ext : forall ipf : IPProof G, AgreeOn H1 H2 (ipInputs ipf) -> ipVerify G H1 ipf = ipVerify G H2 ipf.
Proof.
  intros ipf [HF H]. unfold ipVerify, ipInputs in *. rewrite (hashIP_ext ipf) by (split; [exact HF|intros b Hb; apply H, in_or_app; left; exact Hb]).
  destruct (hashIP _ _ _ _ _ _) as [x| | |]; try reflexivity. cbn [bind]. destruct (computePP _ _ _ _ _) as [[PP ux]| | |]; try reflexivity. cbn [bind].
  rewrite loop_ext; [reflexivity|]. intros b Hb. apply H, in_or_app. right. exact Hb.
Qed.
Theorem C83_verify_inputs : forall pf : BulletProof G, AgreeOn H1 H2 (hashInputs pf) -> Verify G H1 pf = Verify G H2 pf.
Proof.
  intros pf [HF H]. unfold hashInputs in H. unfold Verify.
  rewrite (HashBP_ext G H1 H2 (pT1 pf) (pT2 pf)) by (apply H; left; reflexivity).
  rewrite (HashBP_ext G H1 H2 (pA pf) (pS pf)) by (apply H; right; left; reflexivity).
  rewrite (ipVerify_ext (pIPP pf)) by (split; [exact HF|intros b Hb; apply H; right; right; exact Hb]). reflexivity.
Qed.

(** the prover: what it returned under H2 tells which strings it hashed *)
Lemma bip_ext : forall fuel a b g h u P n Ls Rs ra rb rP rL rR, 1 < gN G ->
  computeBipRecursive G H2 fuel a b g h u P n Ls Rs = Ok (ra, rb, rP, rL, rR) ->
  exists L' R', rL = Ls ++ L' /\ rR = Rs ++ R' /\
    (forall s, In s (roundInputs L' (map Some R')) -> digestInv (gN G) H2 s = true) /\
    ((forall s, In s (roundInputs L' (map Some R')) -> sha256 H1 s = sha256 H2 s) ->
     computeBipRecursive G H1 fuel a b g h u P n Ls Rs = Ok (ra, rb, rP, rL, rR)).
Proof.
  induction fuel as [|fuel IH]; intros a b g h u P n Ls Rs ra rb rP rL rR HN H.
  - cbn [computeBipRecursive] in *. destruct (Nat.eqb n 1); [|discriminate].
    destruct (idx a 0) as [a0| | |]; try discriminate. cbn [bind] in *. destruct (idx b 0) as [b0| | |]; try discriminate. cbn [bind] in *.
    injection H as <- <- <- <- <-. exists [], []. rewrite !app_nil_r. repeat split. intros s [].
  - cbn [computeBipRecursive] in *. destruct (Nat.eqb n 1).
    { destruct (idx a 0) as [a0| | |]; try discriminate. cbn [bind] in *. destruct (idx b 0) as [b0| | |]; try discriminate. cbn [bind] in *.
      injection H as <- <- <- <- <-. exists [], []. rewrite !app_nil_r. repeat split. intros s []. }
    destruct (slice_to a _) as [alo| | |]; try discriminate. cbn [bind] in *. destruct (slice_from a _) as [ahi| | |]; try discriminate. cbn [bind] in *.
    destruct (slice_to b _) as [blo| | |]; try discriminate. cbn [bind] in *. destruct (slice_from b _) as [bhi| | |]; try discriminate. cbn [bind] in *.
    destruct (slice_to g _) as [glo| | |]; try discriminate. cbn [bind] in *. destruct (slice_from g _) as [ghi| | |]; try discriminate. cbn [bind] in *.
    destruct (slice_to h _) as [hlo| | |]; try discriminate. cbn [bind] in *. destruct (slice_from h _) as [hhi| | |]; try discriminate. cbn [bind] in *.
    destruct (deref (VectorExp G ghi alo)) as [L0| | |]; try discriminate. cbn [bind] in *.
    destruct (deref (VectorExp G hlo bhi)) as [Lh| | |]; try discriminate. cbn [bind] in *.
    destruct (deref (ScalarProduct G alo bhi)) as [cL| | |]; try discriminate. cbn [bind] in *.
    destruct (deref (VectorExp G glo ahi)) as [R0| | |]; try discriminate. cbn [bind] in *.
    destruct (deref (VectorExp G hhi blo)) as [Rh| | |]; try discriminate. cbn [bind] in *.
    destruct (deref (ScalarProduct G ahi blo)) as [cR| | |]; try discriminate. cbn [bind] in *.
    set (L := gAdd G (gAdd G L0 Lh) (gScale G u cL)) in *. set (R := gAdd G (gAdd G R0 Rh) (gScale G u cR)) in *.
    set (K := fun x : Z => gp <- foldGens G (map Some g) (n / 2) (modInverse x (gN G)) (Some x) ;; hp <- foldGens G (map Some h) (n / 2) (Some x) (modInverse x (gN G)) ;;
      gp' <- mapM deref gp ;; hp' <- mapM deref hp ;; x2inv <- deref (modInverse ((x * x) mod gN G) (gN G)) ;;
      ap1 <- VectorScalarMul alo (Some x) (gN G) ;; ap2 <- VectorScalarMul ahi (modInverse x (gN G)) (gN G) ;;
      bp1 <- VectorScalarMul blo (modInverse x (gN G)) (gN G) ;; bp2 <- VectorScalarMul bhi (Some x) (gN G) ;;
      Ok (gp', hp', x2inv, match VectorAdd ap1 ap2 (gN G) with Some l => l | None => [] end, match VectorAdd bp1 bp2 (gN G) with Some l => l | None => [] end)).
    assert (HK : forall HO, (let x := fst (HashBP G HO L R) in
      gp <- foldGens G (map Some g) (n / 2) (modInverse x (gN G)) (Some x) ;; hp <- foldGens G (map Some h) (n / 2) (Some x) (modInverse x (gN G)) ;;
      gp' <- mapM deref gp ;; hp' <- mapM deref hp ;; x2inv <- deref (modInverse ((x * x) mod gN G) (gN G)) ;;
      ap1 <- VectorScalarMul alo (Some x) (gN G) ;; ap2 <- VectorScalarMul ahi (modInverse x (gN G)) (gN G) ;;
      bp1 <- VectorScalarMul blo (modInverse x (gN G)) (gN G) ;; bp2 <- VectorScalarMul bhi (Some x) (gN G) ;;
      computeBipRecursive G HO fuel match VectorAdd ap1 ap2 (gN G) with Some l => l | None => [] end match VectorAdd bp1 bp2 (gN G) with Some l => l | None => [] end
        gp' hp' u (gAdd G (gAdd G (gScale G L ((x * x) mod gN G)) P) (gScale G R x2inv)) (n / 2) (Ls ++ [L]) (Rs ++ [R])) =
      ('(gp', hp', x2inv, ap, bp) <- K (fst (HashBP G HO L R)) ;;
       computeBipRecursive G HO fuel ap bp gp' hp' u (gAdd G (gAdd G (gScale G L ((fst (HashBP G HO L R) * fst (HashBP G HO L R)) mod gN G)) P) (gScale G R x2inv)) (n / 2) (Ls ++ [L]) (Rs ++ [R]))).
    { intros HO. cbv zeta. unfold K.
      repeat match goal with |- bind ?e _ = _ => destruct e; cbn [bind]; try reflexivity end. }
    cbv zeta in HK. rewrite HK in H. rewrite HK. clear HK.
    destruct (K (fst (HashBP G H2 L R))) as [[[[[gp' hp'] x2inv] ap] bp]| | |] eqn:EK; try discriminate. cbn [bind] in H.
    destruct (IH _ _ _ _ _ _ _ _ _ _ _ _ _ _ HN H) as (L' & R' & -> & -> & Hi & He).
    exists (L :: L'), (R :: R'). rewrite <- !app_assoc. split; [reflexivity|]. split; [reflexivity|]. split.
    + intros s Hs. rewrite roundInputs_some in Hs. destruct Hs as [<-|Hs]; [|apply Hi; exact Hs].
      unfold digestInv. apply Z.eqb_eq. change (os2ip (sha256 H2 (gStr G L ++ gStr G R))) with (fst (HashBP G H2 L R)). unfold K in EK.
      destruct (foldGens _ _ _ _ _) as [?| | |]; try discriminate. cbn [bind] in EK. destruct (foldGens _ _ _ _ _) as [?| | |]; try discriminate. cbn [bind] in EK.
      destruct (mapM _ _) as [?| | |]; try discriminate. cbn [bind] in EK. destruct (mapM _ _) as [?| | |]; try discriminate. cbn [bind] in EK.
      destruct (modInverse ((_ * _) mod _) _) as [j|] eqn:Ej; [|discriminate]. destruct (modInverse_Some _ _ _ HN Ej) as [_ Hj].
      set (x := fst (HashBP G H2 L R)) in *. apply (inv_gcd1 _ ((x * j) mod gN G) _ HN). rewrite Z.mul_mod_idemp_r by lia. rewrite Z.mul_mod_idemp_l in Hj by lia.
      rewrite Z.mul_assoc. exact Hj.
    + intros Ha. rewrite (HashBP_ext G H1 H2 L R) by (apply Ha; left; reflexivity). rewrite EK. cbn [bind]. rewrite <- !app_assoc in He. apply He. intros s Hs. apply Ha. right. exact Hs.
Qed.

Lemma ip_ext : forall fuel a b P c params ipf, 1 < gN G -> proveInnerProduct G H2 fuel a b P c params = Ok ipf ->
  (forall s, In s (roundInputs (ipL ipf) (ipR ipf)) -> digestInv (gN G) H2 s = true) /\
  (AgreeOn H1 H2 (ipInputs ipf) -> proveInnerProduct G H1 fuel a b P c params = Ok ipf).
Proof.
  intros fuel a b P c params ipf HN H. unfold proveInnerProduct in *. destruct (negb _); [discriminate|].
  destruct (hashIP G H2 _ _ _ _) as [x| | |] eqn:Ex; try discriminate. cbn [bind] in H.
  destruct (computePP _ _ _ _ _) as [[PP ux]| | |] eqn:EP; try discriminate. cbn [bind] in H. destruct (mapM _ _) as [hh| | |] eqn:Eh; try discriminate. cbn [bind] in H.
  destruct (computeBipRecursive G H2 _ _ _ _ _ _ _ _ _ _) as [[[[[a' b'] P'] Ls] Rs]| | |] eqn:Eb; try discriminate. cbn [bind] in H. injection H as <-.
  destruct (bip_ext _ _ _ _ _ _ _ _ _ _ _ _ _ _ _ HN Eb) as (L' & R' & EL & ER & Hi & He). cbn [app] in EL, ER. subst Ls Rs.
  cbn [ipL ipR]. split; [exact Hi|]. intros Ha. 
  assert (Ex1 : hashIP G H1 (ipGg params) (ipHh params) P c = Ok x).
  { rewrite <- Ex. apply (hashIP_ext (mkIPProof P c (Some a') (Some b') L' (map Some R') params)). destruct Ha as [HF Ha]. split; [exact HF|].
    intros s Hs. apply Ha. apply in_or_app. left. exact Hs. }
  rewrite Ex1. cbn [bind]. rewrite EP. cbn [bind]. rewrite He; [reflexivity|].
  intros s Hs. apply Ha. apply in_or_app. right. exact Hs.
Qed.

Lemma vec_ext : forall v aL aR params rnd pf gam, 1 < gN G -> ProveVec G H2 v aL aR params rnd = Ok (pf, gam) ->
  (forall s, In s (roundInputs (ipL (pIPP pf)) (ipR (pIPP pf))) -> digestInv (gN G) H2 s = true) /\
  (AgreeOn H1 H2 (hashInputs pf) -> ProveVec G H1 v aL aR params rnd = Ok (pf, gam)).
Proof.
  intros v aL aR params rnd pf gam HN H. rewrite vec_split in *.
  destruct (vecA G aL aR params rnd) as [[[[A S] sL] sR]| | |]; try discriminate. cbn [bind] in *.
  destruct (vecT G aL aR params rnd sL sR (HashBP G H2 A S)) as [[[T1 T2] st]| | |] eqn:ET; try discriminate. cbn [bind] in H.
  destruct (vecX G params rnd sL sR (HashBP G H2 A S) st (fst (HashBP G H2 T1 T2))) as [[[[[[[bl br] cm] th] ipp] tx] mu]| | |] eqn:EX; try discriminate. cbn [bind] in H.
  destruct (proveInnerProduct G H2 _ _ _ _ _ _) as [ipf| | |] eqn:Eip; try discriminate. cbn [bind] in H. apply Ok_pair in H. destruct H as [-> ->].
  destruct (ip_ext _ _ _ _ _ _ _ HN Eip) as (Hi & He). cbn [pIPP]. split; [exact Hi|]. intros [HF Ha]. unfold hashInputs in Ha. cbn [pT1 pT2 pA pS pIPP] in Ha.
  assert (EAS : HashBP G H1 A S = HashBP G H2 A S) by (apply HashBP_ext; apply Ha; right; left; reflexivity).
  assert (ETT : HashBP G H1 T1 T2 = HashBP G H2 T1 T2) by (apply HashBP_ext; apply Ha; left; reflexivity).
  rewrite EAS, ET. cbn [bind]. rewrite ETT, EX. cbn [bind].
  rewrite He by (split; [exact HF|intros s Hs; apply Ha; right; right; exact Hs]). reflexivity.
Qed.
End Ext.

Lemma prove_ext : forall G H1 H2 params v rnd pf gamma, 1 < gN G -> Prove G H2 v params rnd = Ok (pf, gamma) ->
  (forall s, In s (roundInputs (ipL (pIPP pf)) (ipR (pIPP pf))) -> digestInv (gN G) H2 s = true) /\
  (AgreeOn H1 H2 (hashInputs pf) -> Prove G H1 v params rnd = Ok (pf, gamma)).
Proof.
  intros G H1 H2 params v rnd pf gamma HN HP. assert (Hp : 0 < gN G) by lia.
  destruct (Decompose v 2 (bpN params)) as [aL| | |] eqn:ED.
  2,3,4: exfalso; unfold Prove in HP; rewrite (randInt_pos _ _ Hp) in HP; cbn [bind] in HP; rewrite ED in HP; discriminate.
  rewrite (Prove_vec G H2 v params rnd aL Hp ED) in HP. rewrite (Prove_vec G H1 v params rnd aL Hp ED). exact (vec_ext G H1 H2 _ _ _ _ _ _ _ HN HP).
Qed.
(** C83. Proofs made with two hash functions are the same if the functions agree on the strings hashed for one of them: for any parameters and any group
    operations whatever. *)
Theorem C83_prove_inputs : forall G H1 H2 params v rnd pf gamma, 1 < gN G ->
  Prove G H2 v params rnd = Ok (pf, gamma) -> AgreeOn H1 H2 (hashInputs pf) -> Prove G H1 v params rnd = Ok (pf, gamma).
Proof. intros G H1 H2 params v rnd pf gamma HN HP. apply (prove_ext G H1 H2 params v rnd pf gamma HN HP). Qed.

(** Whatever the hash function, one proof is to be looked at for each secret and draws: if its own digests are invertible, it is what Prove returns. *)
Theorem C83_prove_returns : forall G HO nan64 b params v rnd, GrpLaws G -> nanConv nan64 -> is_int64 b = true -> Setup G nan64 b = Ok params ->
  (exists u, gMap G (str_bytes SEEDU) = Ok u) ->
  exists pf gamma, Prove G (guarded (gN G) HO) v params rnd = Ok (pf, gamma) /\
    (DigestsInvertible HO pf -> Prove G HO v params rnd = Ok (pf, gamma)).
Proof.
  intros G HO nan64 b params v rnd HL Hn Hb HS Hu.
  destruct (C01_prove_returns G (guarded (gN G) HO) nan64 b params v rnd HL Hn Hb HS (guarded_inv G HO) Hu) as (pf & gamma & HP).
  exists pf, gamma. split; [exact HP|]. intros HD. apply (C83_prove_inputs G HO _ params v rnd pf gamma (l_order G HL) HP). apply guarded_agree. exact HD.
Qed.

(** ... and a proof that is returned has invertible digests where they are used as such: the rounds, and the pair A, S *)
Theorem C83_necessary : forall G HO nan64 b params v rnd pf gamma, GrpLaws G -> nanConv nan64 -> is_int64 b = true -> Setup G nan64 b = Ok params ->
  Prove G HO v params rnd = Ok (pf, gamma) ->
  (forall s, In s (roundInputs (ipL (pIPP pf)) (ipR (pIPP pf))) -> digestInv (gN G) HO s = true) /\
  (2 <= bpN params -> digestInv (gN G) HO (gStr G (pA pf) ++ gStr G (pS pf)) = true).
Proof.
  intros G HO nan64 b params v rnd pf gamma HL Hn Hb HS HP.
  destruct (Setup_tab G nan64 b params Hn Hb HS) as (k & g & h & _ & _ & Hp). rewrite Hp in *.
  rewrite (Prove_vec G HO _ _ _ (tab (2 ^ k) (fun i => (v / 2 ^ Z.of_nat i) mod 2))) in HP by first [exact (N_pos HL)|apply Decompose_tab].
  split; [apply (vec_ext G HO HO _ _ _ _ _ _ _ (l_order G HL) HP)|]. intros H2. rewrite computeAR_tab in HP by (intros; apply bit_01). cbn [nil_slice] in HP.
  apply (honest_vec G HO HL) in HP. destruct HP as (_ & _ & _ & _ & _ & _ & _ & _ & (hp & u & _ & _ & Hup & _) & _).
  unfold digestInv. change (os2ip (sha256 HO (gStr G (pA pf) ++ gStr G (pS pf)))) with (fst (HashBP G HO (pA pf) (pS pf))).
  set (y := fst (HashBP G HO (pA pf) (pS pf))) in *. apply Z.eqb_eq. destruct (Z.eq_dec (Z.gcd y (gN G)) 1) as [E|E]; [exact E|exfalso].
  apply modInverse_None in E. cbn [bpN] in H2. destruct (2 ^ k)%nat as [|[|n]]; [cbn in H2; lia|cbn in H2; lia|].
  unfold updateGenerators in Hup. rewrite make_len_nat in Hup. cbn [bind] in Hup. rewrite E in Hup. discriminate.
Qed.

(** If it does not return a proof it panics: no error, no endless recursion. *)
Lemma bip_outcome : forall G HO k fuel a b g h u P Ls Rs, GrpLaws G -> (k <= fuel)%nat ->
  let r := computeBipRecursive G HO fuel (tab (2 ^ k) a) (tab (2 ^ k) b) (tab (2 ^ k) g) (tab (2 ^ k) h) u P (2 ^ k) Ls Rs in r = Panic \/ exists x, r = Ok x.
Proof.
  intros G HO. induction k as [|k IH]; intros fuel a b g h u P Ls Rs HL Hf; cbv zeta.
  - right. destruct fuel; cbn; eexists; reflexivity.
  - destruct fuel as [|fuel]; [lia|]. replace (2 ^ S k)%nat with (2 ^ k + 2 ^ k)%nat by (cbn [Nat.pow]; lia).
    rewrite (bip_step G HO HL) by (pose proof (Nat.pow_nonzero 2 k); lia). destruct (modInverse _ _) as [i|]; [|left; reflexivity].
    destruct (modInverse _ _) as [i2|]; cbn [exists_i2]; [|left; reflexivity]. apply IH; [exact HL|lia].
Qed.
Theorem C83_returns_or_panics : forall G HO nan64 b params v rnd, GrpLaws G -> nanConv nan64 -> is_int64 b = true -> Setup G nan64 b = Ok params ->
  (exists u, gMap G (str_bytes SEEDU) = Ok u) ->
  Prove G HO v params rnd = Panic \/ exists pf gamma, Prove G HO v params rnd = Ok (pf, gamma).
Proof.
  intros G HO nan64 b params v rnd HL Hn Hb HS [u Hu].
  destruct (Setup_tab G nan64 b params Hn Hb HS) as (k & g & h & _ & _ & Hp). rewrite Hp in *.
  rewrite (Prove_vec G _ _ _ _ (tab (2 ^ k) (fun i => (v / 2 ^ Z.of_nat i) mod 2))) by first [exact (N_pos HL)|apply Decompose_tab].
  rewrite computeAR_tab by (intros; apply bit_01). cbn [nil_slice].
  set (aL := fun i : nat => (v / 2 ^ Z.of_nat i) mod 2). set (n := (2 ^ k)%nat).
  assert (Hn0 : (0 < n)%nat) by (unfold n; pose proof (Nat.pow_nonzero 2 k); lia).
  match goal with |- context [ProveVec G HO v ?aL ?aR ?p rnd] => remember (ProveVec G HO v aL aR p rnd) as R eqn:HP end.
  unfold ProveVec in HP. cbn [bpN bpH bpGg bpHh] in HP.
  rewrite (commitVector_tab G HL) in HP. cbn [bind] in HP.
  unfold sampleRandomVector in HP. rewrite make_len_nat in HP. cbn [bind] in HP.
  change (map (r_sL rnd) (seq 0 n)) with (tab n (r_sL rnd)) in HP.
  change (map (r_sR rnd) (seq 0 n)) with (tab n (r_sR rnd)) in HP.
  rewrite (commitVector_tab G HL) in HP. cbn [bind] in HP.
  match type of HP with context [HashBP G HO ?A ?B] => destruct (HashBP G HO A B) as [y z] eqn:Hyz end.
  vnorm0 HL HP. rewrite (ScalarProduct_tab G HL), tab_length in HP.
  assert (Hup : updateGenerators G (tab n h) y (Z.of_nat n) = Panic \/ exists hp, updateGenerators G (tab n h) y (Z.of_nat n) = Ok (tab n hp)).
  { destruct n as [|[|n']]; [lia| |].
    - right. exists h. unfold updateGenerators. reflexivity.
    - destruct (modInverse y (gN G)) as [i|] eqn:Hi.
      + right. eexists. apply (updateGenerators_tab G HL). exact Hi.
      + left. unfold updateGenerators. rewrite make_len_nat. cbn [bind]. rewrite Hi. reflexivity. }
  destruct Hup as [Hup|[hp Hup]]; rewrite Hup in HP; cbn [bind] in HP; [left; exact HP|].
  unfold setupInnerProduct in HP. replace (Z.of_nat n <=? 0) with false in HP by (symmetry; apply Z.leb_gt; lia).
  rewrite Hu in HP. cbn [bind] in HP. unfold commitInnerProduct in HP. rewrite !(VectorExp_tab G HL) in HP. cbn [bind deref] in HP.
  match type of HP with context [proveInnerProduct G HO n (tab n ?a) (tab n ?b) ?P (Some ?c) (mkIPParams (tab n ?gg) (map Some (tab n ?hh)) u)] =>
    assert (Hip : proveInnerProduct G HO n (tab n a) (tab n b) P (Some c) (mkIPParams (tab n gg) (map Some (tab n hh)) u) = Panic \/
      exists ipf, proveInnerProduct G HO n (tab n a) (tab n b) P (Some c) (mkIPParams (tab n gg) (map Some (tab n hh)) u) = Ok ipf) end.
  { unfold proveInnerProduct. rewrite !tab_length, Nat.eqb_refl. cbn [negb ipGg ipHh ipUu].
    match goal with |- context [hashIP G HO (tab n ?g) (map Some (tab n ?h)) ?P (Some ?c)] => destruct (hashIP_tab G HO n g h P (Some c)) as [x Hx] end.
    rewrite Hx. cbn [bind]. unfold computePP. cbn [deref bind]. rewrite map_tab. rewrite (mapM_tab deref _ _ hp) by reflexivity. cbn [bind].
    assert (Hk : (k <= n)%nat) by (unfold n; pose proof (Nat.pow_gt_lin_r 2 k); lia).
    match goal with |- context [computeBipRecursive G HO n (tab n ?a) (tab n ?b) (tab n ?g) (tab n ?h) ?u ?P n ?Ls ?Rs] =>
      destruct (bip_outcome G HO k n a b g h u P Ls Rs HL Hk) as [Hb'|[[[[[ra rb] rP] rL] rR] Hb']] end; fold n in Hb'; rewrite Hb'; cbn [bind].
    - left. reflexivity.
    - right. eexists. reflexivity. }
  destruct Hip as [Hip|[ipf Hip]]; rewrite Hip in HP; cbn [bind] in HP; [left; exact HP|right; subst R; eauto].
Qed.

(** ** The ballot. For the candidate 101 + c, the two proofs to be looked at are those of c and 1899 - c. *)
Lemma cast_from : forall d (Hok : ModPOk d) GE HO nan64 (pp0 : PublicParameters (SubGrp d Hok) GE) cr B1 g1 B2 g2 dr, 0 < gN GE -> 2 < mpOrder d -> Digest32 HO ->
  Consistent nan64 pp0 -> vBx (ppRP pp0) = 16 -> vBc (ppRP pp0) = 224 -> ppMin pp0 = 101 -> ppMax pp0 = 2000 -> 0 <= cr_choice cr < 1899 ->
  In dr (cr_vp cr) -> 2 ^ 240 <= dk dr <= 2 ^ (vBg (ppRP pp0) - 1) - 2 ^ 240 ->
  Prove GE HO (cr_choice cr) (ppBP pp0) (cr_bp1 cr) = Ok (B1, g1) -> Prove GE HO (1899 - cr_choice cr) (ppBP pp0) (cr_bp2 cr) = Ok (B2, g2) ->
  exists ballot, castVote (ModPGrp d) GE HO (mapPub (emb d Hok) pp0) cr = Ok ballot /\ bdLower ballot = B1 /\ bdUpper ballot = B2.
Proof.
  intros d Hok GE HO nan64 pp0 cr B1 g1 B2 g2 dr HN Hq2 HDig C HBx HBc Hmin Hmax Hc Hin Hk D1 D2.
  assert (HE : exists ballot, castVote (SubGrp d Hok) GE HO pp0 cr = Ok ballot /\ bdLower ballot = B1 /\ bdUpper ballot = B2).
  { unfold castVote. unfold randInt at 1. rewrite Hmin, Hmax in *. change (wrap16 (2000 - 101) <=? 0) with false. cbn [bind].
    assert (Hch : wrap16 (wrap16 (cr_choice cr) + 101) = 101 + cr_choice cr).
    { unfold wrap16. rewrite (Z.mod_small (cr_choice cr)) by lia. rewrite Z.mod_small; lia. }
    assert (Hlo : wrap16 (101 + cr_choice cr - 101) = cr_choice cr) by (unfold wrap16; rewrite Z.mod_small; lia).
    assert (Hhi : wrap16 (2000 - (101 + cr_choice cr)) = 1899 - cr_choice cr) by (unfold wrap16; rewrite Z.mod_small; lia).
    rewrite Hch, Hlo, Hhi. unfold encryptVote, randInt. change (gN (SubGrp d Hok)) with (mpOrder d).
    replace (mpOrder d - 1 <=? 0) with false by (symmetry; apply Z.leb_gt; lia). cbn [bind]. rewrite D1. cbn [bind]. rewrite D2. cbn [bind].
    rewrite (cs_n _ _ C). cbn [deref bind].
    destruct (C46_progress (SubGrp d Hok) GE HO (ppRP pp0) (101 + cr_choice cr) (cr_eg cr + 1) g1 (gN GE - g2) (cr_vp cr) dr HDig ltac:(change (gN (SubGrp d Hok)) with (mpOrder d); lia) HN (cs_rp _ _ C)) as (pf & ->).
    - rewrite HBc. lia.
    - rewrite HBx. lia.
    - exact Hin.
    - rewrite HBx, HBc. exact Hk.
    - cbn [bind]. eexists. split; [reflexivity|]. split; reflexivity. }
  destruct HE as (ballot & Eb & El & Eu). rewrite (castVote_hom _ _ GE (emb d Hok) (emb_hom d Hok)), Eb. cbn [res_map].
  exists (mapBallot (emb d Hok) ballot). split; [reflexivity|]. split; [exact El|exact Eu].
Qed.
Theorem C83_cast_returns : forall d GE HO nan64 pp cr,
  ModPOk d -> GrpLaws GE -> nanConv nan64 -> bitLen (gN GE) < 65536 -> gN GE <= mpOrder d -> 2 < mpOrder d ->
  setup d GE nan64 = Ok pp -> CastDrawsOk pp cr -> Digest32 HO -> (exists u, gMap GE (str_bytes SEEDU) = Ok u) ->
  (exists dr, In dr (cr_vp cr) /\ 2 ^ 240 <= dk dr <= 2 ^ (vBg (ppRP pp) - 1) - 2 ^ 240) ->
  exists B1 g1 B2 g2,
    Prove GE (guarded (gN GE) HO) (cr_choice cr) (ppBP pp) (cr_bp1 cr) = Ok (B1, g1) /\
    Prove GE (guarded (gN GE) HO) (1899 - cr_choice cr) (ppBP pp) (cr_bp2 cr) = Ok (B2, g2) /\
    (DigestsInvertible HO B1 -> DigestsInvertible HO B2 ->
     exists ballot, castVote (ModPGrp d) GE HO pp cr = Ok ballot /\ bdLower ballot = B1 /\ bdUpper ballot = B2 /\
       verifyVote (ModPGrp d) GE HO ballot (ppRP pp) = Ok (true, 2%nat)).
Proof.
  intros d GE HO nan64 pp cr Hok LE Hn HB HQ Hq2 HS HD HDig Hu (dr & Hin & Hk). pose proof (l_order GE LE) as HN.
  assert (HQ2 : 2 ^ (bitLen (gN GE) - 1) <= mpOrder d).
  { unfold bitLen. replace (gN GE =? 0) with false by (symmetry; apply Z.eqb_neq; lia). rewrite Z.abs_eq by lia.
    replace (Z.log2 (gN GE) + 1 - 1) with (Z.log2 (gN GE)) by lia. pose proof (Z.log2_spec (gN GE) ltac:(lia)). lia. }
  pose proof (fun ballot => C25_end_to_end d GE HO nan64 pp cr ballot Hok LE Hn HB HQ HS HD) as HV.
  destruct (setup_consistent d GE nan64 pp Hok Hn ltac:(lia) HB HQ2 HS) as (pp0 & Epp & C & HR & HBx & HBc & Hmin & Hmax). rewrite Epp in *. clear Epp.
  change (ppBP (mapPub (emb d Hok) pp0)) with (ppBP pp0).
  destruct HD as [Hc Hd]. rewrite Hmin, Hmax in Hc. destruct (cs_bp _ _ C) as (b & Hb & HSb & _).
  destruct (C83_prove_returns GE HO nan64 b (ppBP pp0) (cr_choice cr) (cr_bp1 cr) LE Hn Hb HSb Hu) as (B1 & g1 & E1 & D1).
  destruct (C83_prove_returns GE HO nan64 b (ppBP pp0) (1899 - cr_choice cr) (cr_bp2 cr) LE Hn Hb HSb Hu) as (B2 & g2 & E2 & D2).
  exists B1, g1, B2, g2. split; [exact E1|]. split; [exact E2|]. intros I1 I2.
  destruct (cast_from d Hok GE HO nan64 pp0 cr B1 g1 B2 g2 dr (N_pos LE) Hq2 HDig C HBx HBc Hmin Hmax ltac:(lia) Hin Hk (D1 I1) (D2 I2)) as (ballot & Eb & El & Eu).
  exists ballot. split; [exact Eb|]. split; [exact El|]. split; [exact Eu|]. exact (HV ballot Eb).
Qed.
(** secp256k1, from ING's contract *)
Theorem C83_secp256k1 : forall ing A on abs d HO nan64 pp cr, IngOk ing A on abs -> SeedsFull ing 16 ->
  ModPOk d -> nanConv nan64 -> k1Order <= mpOrder d -> setup d (K1Grp ing) nan64 = Ok pp -> CastDrawsOk pp cr -> Digest32 HO ->
  (exists dr, In dr (cr_vp cr) /\ 2 ^ 240 <= dk dr <= 2 ^ 255 - 2 ^ 240) ->
  exists B1 g1 B2 g2,
    Prove (K1Grp ing) (guarded k1Order HO) (cr_choice cr) (ppBP pp) (cr_bp1 cr) = Ok (B1, g1) /\
    Prove (K1Grp ing) (guarded k1Order HO) (1899 - cr_choice cr) (ppBP pp) (cr_bp2 cr) = Ok (B2, g2) /\
    (DigestsInvertible HO B1 -> DigestsInvertible HO B2 ->
     exists ballot, castVote (ModPGrp d) (K1Grp ing) HO pp cr = Ok ballot /\ bdLower ballot = B1 /\ bdUpper ballot = B2 /\
       verifyVote (ModPGrp d) (K1Grp ing) HO ballot (ppRP pp) = Ok (true, 2%nat)).
Proof.
  intros ing A on abs d HO nan64 pp cr IO HF Hok Hn HQ HS HD HDig (dr & Hin & Hk).
  pose proof (fun ballot => C63_end_to_end ing A on abs d HO nan64 pp cr ballot IO HF Hok Hn HQ HS HD) as HV.
  assert (HBg : vBg (ppRP pp) = 256).
  { unfold setup in HS. destruct (Setup (K1Grp ing) nan64 65536) as [bp| | |]; try discriminate. cbn [bind] in HS.
    unfold vpSetup in HS. change (_ <? 1) with false in HS. cbn [bind] in HS. injection HS as <-. reflexivity. }
  destruct (k1_setup_consistent ing d nan64 pp Hok Hn HQ HS) as (pp0 & Epp & C & HBx & HBc & Hmin & Hmax & HN). rewrite Epp in *. clear Epp.
  change (vBg (ppRP pp0) = 256) in HBg. change (ppBP (mapPub (emb d Hok) pp0)) with (ppBP pp0).
  destruct HD as [Hc Hd]. change (0 <= cr_choice cr < ppMax pp0 - ppMin pp0) in Hc. rewrite Hmin, Hmax in Hc.
  destruct (cs_bp _ _ C) as (b & Hb & HSb & _). rewrite <- HN in HF.
  assert (HP : forall v rnd, exists B g, Prove (K1Grp ing) (guarded k1Order HO) v (ppBP pp0) rnd = Ok (B, g) /\ (DigestsInvertible HO B -> Prove (K1Grp ing) HO v (ppBP pp0) rnd = Ok (B, g))).
  { intros v rnd. destruct (C63_prove_returns ing A on abs (guarded k1Order HO) nan64 b (ppBP pp0) v rnd IO Hn Hb HSb HF (guarded_inv (K1Grp ing) HO)) as (B & g & E).
    exists B, g. split; [exact E|]. intros I. apply (C83_prove_inputs (K1Grp ing) HO (guarded k1Order HO) _ _ _ _ _ ltac:(reflexivity) E). apply guarded_agree. exact I. }
  destruct (HP (cr_choice cr) (cr_bp1 cr)) as (B1 & g1 & E1 & D1). destruct (HP (1899 - cr_choice cr) (cr_bp2 cr)) as (B2 & g2 & E2 & D2).
  exists B1, g1, B2, g2. split; [exact E1|]. split; [exact E2|]. intros I1 I2.
  destruct (cast_from d Hok (K1Grp ing) HO nan64 pp0 cr B1 g1 B2 g2 dr ltac:(reflexivity) ltac:(apply Z.lt_le_trans with k1Order; [reflexivity|exact HQ]) HDig C HBx HBc Hmin Hmax
    ltac:(lia) Hin ltac:(rewrite HBg; exact Hk) (D1 I1) (D2 I2)) as (ballot & Eb & El & Eu).
  exists ballot. split; [exact Eb|]. split; [exact El|]. split; [exact Eu|]. exact (HV ballot Eb).
Qed.

(** ** The program: what C64 says of main, with the condition on the 2000 range proofs of each group instead of on all pairs of elements *)
Definition RunInvertible (d : ModPDesc) (HO : Oracles) (nan64 : Z) (GE : Grp) (its : nat -> CastRand * Timing) : Prop :=
  forall pp j, setup d GE nan64 = Ok pp -> (j < 1000)%nat -> forall B g,
    Prove GE (guarded (gN GE) HO) (cr_choice (fst (its j))) (ppBP pp) (cr_bp1 (fst (its j))) = Ok (B, g) \/
    Prove GE (guarded (gN GE) HO) (1899 - cr_choice (fst (its j))) (ppBP pp) (cr_bp2 (fst (its j))) = Ok (B, g) -> DigestsInvertible HO B.
Lemma run_returns : forall d HO nan64 GE its, ModPOk d -> GrpLaws GE -> nanConv nan64 -> (forall s, exists X, gMap GE s = Ok X) ->
  In (gN GE) [r255Order; p256Order; p384Order] -> p384Order <= mpOrder d -> Digest32 HO -> RunInvertible d HO nan64 GE its ->
  DrawsGood (bitLen (gN GE)) (gN GE) (mpOrder d) its -> CastsReturn d HO nan64 GE its.
Proof.
  intros d HO nan64 GE its Hok LE Hn Hm Hi HQ HDig HI HG pp j HS Hj. destruct (HG j Hj) as (Hc & Hd & Hex).
  assert (HB : 242 <= bitLen (gN GE) < 65536 /\ gN GE <= p384Order /\ 2 < p384Order).
  { cbn [In] in Hi. destruct Hi as [<-|[<-|[<-|[]]]]; vm_compute; repeat split; congruence. }
  destruct (C43_setup_outcome d GE nan64 Hm ltac:(lia) ltac:(lia)) as [_ HS']. destruct (HS' ltac:(lia)) as (pp' & HSe & Hmin & Hmax & _ & _ & _ & _ & HBg & _).
  rewrite HS in HSe. injection HSe as <-.
  assert (HD : CastDrawsOk pp (fst (its j))).
  { split; [rewrite Hmin, Hmax; exact Hc|]. intros dr Hin. unfold DrawOk. rewrite HBg. apply Hd, Hin. }
  split; [exact HD|].
  destruct (C83_cast_returns d GE HO nan64 pp (fst (its j)) Hok LE Hn (proj2 (proj1 HB)) ltac:(lia) ltac:(lia) HS HD HDig (Hm _)) as (B1 & g1 & B2 & g2 & E1 & E2 & HR);
    [rewrite HBg; exact Hex|].
  destruct (HR (HI pp j HS Hj B1 g1 (or_introl E1)) (HI pp j HS Hj B2 g2 (or_intror E2))) as (ballot & Eb & _). exists ballot. exact Eb.
Qed.
Lemma run_returns_k1 : forall d HO nan64 ing A on abs its, ModPOk d -> IngOk ing A on abs -> SeedsFull ing 16 -> nanConv nan64 ->
  k1Order <= mpOrder d -> Digest32 HO -> RunInvertible d HO nan64 (K1Grp ing) its -> DrawsGood 256 k1Order (mpOrder d) its -> CastsReturn d HO nan64 (K1Grp ing) its.
Proof.
  intros d HO nan64 ing A on abs its Hok IO HF Hn HQ HDig HI HG pp j HS Hj. destruct (HG j Hj) as (Hc & Hd & Hex).
  destruct (C63_setup_returns ing A on abs d nan64 IO HF) as (pp' & HSe & Hmin & Hmax & HBg & _). rewrite HS in HSe. injection HSe as <-.
  assert (HD : CastDrawsOk pp (fst (its j))).
  { split; [rewrite Hmin, Hmax; exact Hc|]. intros dr Hin. unfold DrawOk. rewrite HBg. apply Hd, Hin. }
  split; [exact HD|].
  destruct (C83_secp256k1 ing A on abs d HO nan64 pp (fst (its j)) IO HF Hok Hn HQ HS HD HDig Hex) as (B1 & g1 & B2 & g2 & E1 & E2 & HR).
  destruct (HR (HI pp j HS Hj B1 g1 (or_introl E1)) (HI pp j HS Hj B2 g2 (or_intror E2))) as (ballot & Eb & _). exists ballot. exact Eb.
Qed.
Theorem C83_rfc3526 : forall HO nan64 ing A on abs c ri decomp256 ci256 decomp384 ci384 its1 its2 its3 its4,
  prime (mpField rfcDesc) -> prime (mpOrder rfcDesc) -> nanConv nan64 -> Digest32 HO ->
  IngOk ing A on abs -> SeedsFull ing 16 -> RistrettoOk c r255Order ri ->
  CirclOk (P256 decomp256) p256Order ci256 -> CirclOk (P384 decomp384) p384Order ci384 ->
  RunInvertible rfcDesc HO nan64 (K1Grp ing) its1 -> RunInvertible rfcDesc HO nan64 (R255Grp c ri) its2 ->
  RunInvertible rfcDesc HO nan64 (P256Grp decomp256 ci256) its3 -> RunInvertible rfcDesc HO nan64 (P384Grp decomp384 ci384) its4 ->
  DrawsGood 256 k1Order (mpOrder rfcDesc) its1 -> DrawsGood 253 r255Order (mpOrder rfcDesc) its2 ->
  DrawsGood 256 p256Order (mpOrder rfcDesc) its3 -> DrawsGood 384 p384Order (mpOrder rfcDesc) its4 ->
  ClockOk its1 -> ClockOk its2 -> ClockOk its3 -> ClockOk its4 ->
  goMain HO nan64 rfcDesc ing c ri decomp256 ci256 decomp384 ci384 its1 its2 its3 its4 =
    (report "secp256k1" true (abortsUpTo rfcDesc HO nan64 (K1Grp ing) its1 1000) its1 ++
     LBlank :: report "ristretto255" true (abortsUpTo rfcDesc HO nan64 (R255Grp c ri) its2 1000) its2 ++
     LBlank :: report "P-256" true (abortsUpTo rfcDesc HO nan64 (P256Grp decomp256 ci256) its3 1000) its3 ++
     LBlank :: report "P-384" true (abortsUpTo rfcDesc HO nan64 (P384Grp decomp384 ci384) its4 1000) its4, Ok tt).
Proof.
  intros HO nan64 ing A on abs c ri decomp256 ci256 decomp384 ci384 its1 its2 its3 its4 Hp Hq Hn HDig IO HF RO CO1 CO2 I1 I2 I3 I4 G1 G2 G3 G4 K1 K2 K3 K4.
  pose proof C49_rfc3526 as (_ & _ & _ & _ & _ & _ & _ & HSP). pose proof (safe_ok _ (HSP Hp Hq)) as Hok. destruct rfc_facts as (_ & _ & _ & HQ & _).
  assert (HQ1 : k1Order <= mpOrder rfcDesc) by (vm_compute; discriminate).
  apply (C64_main HO nan64 rfcDesc ing A on abs c ri decomp256 ci256 decomp384 ci384); try assumption.
  - apply (run_returns_k1 rfcDesc HO nan64 ing A on abs); assumption.
  - apply run_returns; try assumption; [apply (C51_ristretto_contract c r255Order ri RO)|intros s; eexists; reflexivity|left; reflexivity].
  - apply run_returns; try assumption; [apply (C51_curve_group_contract (P256 decomp256) "P-256" p256Order ci256 CO1)|intros s; eexists; reflexivity|right; left; reflexivity].
  - apply run_returns; try assumption; [apply (C51_curve_group_contract (P384 decomp384) "P-384" p384Order ci384 CO2)|intros s; eexists; reflexivity|right; right; left; reflexivity].
Qed.

(** ** The same for the false proofs of C47 and the ballots of C82 *)
Lemma forgeEqual_ext : forall G H1 H2 params v gamma pf, 1 < gN G -> forgeEqual G H2 params v gamma = Ok pf -> AgreeOn H1 H2 (hashInputs pf) ->
  forgeEqual G H1 params v gamma = Ok pf.
Proof.
  intros G H1 H2 params v gamma pf HN H Ha. unfold forgeEqual in *. apply bind_fst in H. destruct H as (gam & E).
  rewrite (proj2 (vec_ext G H1 H2 _ _ _ _ _ _ _ HN E) Ha). reflexivity.
Qed.
Theorem C83_false_range : forall G HO nan64 params v gamma, GrpLaws G -> Z.odd (gN G) = true -> nanConv nan64 ->
  (exists u, gMap G (str_bytes SEEDU) = Ok u) -> Setup G nan64 65536 = Ok params ->
  exists pf, forgeEqual G (guarded (gN G) HO) params v gamma = Ok pf /\
    (DigestsInvertible HO pf -> forgeEqual G HO params v gamma = Ok pf /\ StrictRange HO params pf /\
       pV pf = gAdd G (gBase G v) (gScale G (bpH params) gamma) /\ Verify G HO pf = Ok true).
Proof.
  intros G HO nan64 params v gamma HL Hodd Hn Hu HS.
  destruct (forged_range G (guarded (gN G) HO) nan64 params v gamma HL (guarded_inv G HO) Hodd Hn Hu HS) as (pf & F & S & V & W & A).
  exists pf. split; [exact F|]. intros HD. pose proof (guarded_agree (gN G) HO _ HD) as Ha.
  split; [apply (forgeEqual_ext G HO _ _ _ _ _ (l_order G HL) F Ha)|]. split; [|split; [exact V|rewrite <- A; apply C83_verify_inputs; exact Ha]].
  destruct S as (S1 & S2 & S3 & S4 & hp & u & S5 & S6). split; [exact S1|]. split; [exact S2|]. split; [exact S3|]. split; [exact S4|]. exists hp, u.
  rewrite (HashBP_ext G HO (guarded (gN G) HO) (pA pf) (pS pf)); [split; assumption|]. apply Ha. right. left. reflexivity.
Qed.
Theorem C83_any_number : forall d GE HO nan64 pp v r g1 g2 drs dr, SafePrime2 d -> GrpLaws GE -> Z.odd (gN GE) = true -> JsonRoundtrip GE -> nanConv nan64 ->
  Digest32 HO -> (exists u, gMap GE (str_bytes SEEDU) = Ok u) -> bitLen (gN GE) < 65536 -> gN GE <= mpOrder d -> 2 < mpOrder d ->
  setup d GE nan64 = Ok pp -> 0 <= v < 2 ^ 16 -> (forall dr', In dr' drs -> DrawOk (ppRP pp) dr') ->
  In dr drs -> 2 ^ 240 <= dk dr <= 2 ^ (vBg (ppRP pp) - 1) - 2 ^ 240 ->
  exists B1 B2,
    forgeEqual GE (guarded (gN GE) HO) (ppBP pp) (v - ppMin pp) g1 = Ok B1 /\ forgeEqual GE (guarded (gN GE) HO) (ppBP pp) (ppMax pp - v) g2 = Ok B2 /\
    (DigestsInvertible HO B1 -> DigestsInvertible HO B2 ->
     exists b, castAny (ModPGrp d) GE HO pp v r g1 g2 drs = Ok b /\ StrictBallot HO pp b /\ bdLower b = B1 /\ bdUpper b = B2 /\
       ReadsAs (mpField d) 2 13 (ctU (bdBallot b)) (ctV (bdBallot b)) v /\
       verifyVote (ModPGrp d) GE HO b (ppRP pp) = Ok (true, 2%nat) /\
       exists j, encBallotData (ModPGrp d) GE b = Ok j /\ BallotDataUnmarshalJSON (ModPGrp d) GE (Some j) pp = Ok b).
Proof.
  intros d GE HO nan64 pp v r g1 g2 drs dr HS0 LE Hodd JE Hn HDig Hu HB HQ Hq2 HS Hv Hd Hin Hk.
  assert (HSb : Setup GE nan64 65536 = Ok (ppBP pp)).
  { clear - HS. unfold setup in HS. destruct (Setup GE nan64 65536) as [bp| | |]; try discriminate. cbn [bind] in HS.
    unfold vpSetup in HS. destruct (_ <? 1); [discriminate|]. cbn [bind] in HS. injection HS as <-. reflexivity. }
  assert (HF : forall w g, exists B, forgeEqual GE (guarded (gN GE) HO) (ppBP pp) w g = Ok B /\ (DigestsInvertible HO B -> GoodRange HO (ppBP pp) w g B)).
  { intros w g. destruct (C83_false_range GE HO nan64 (ppBP pp) w g LE Hodd Hn Hu HSb) as (B & F & HB').
    destruct (forged_range GE (guarded (gN GE) HO) nan64 (ppBP pp) w g LE (guarded_inv GE HO) Hodd Hn Hu HSb) as (B' & F' & _ & _ & W & _).
    rewrite F in F'. injection F' as <-. exists B. split; [exact F|]. intros I. destruct (HB' I) as (F0 & S0 & V0 & A0). repeat split; try assumption; apply S0. }
  destruct (HF (v - ppMin pp) g1) as (B1 & F1 & G1). destruct (HF (ppMax pp - v) g2) as (B2 & F2 & G2).
  exists B1, B2. split; [exact F1|]. split; [exact F2|]. intros I1 I2.
  exact (castAny_good d GE HO nan64 pp v r g1 g2 drs dr B1 B2 HS0 LE JE Hn HDig HB HQ Hq2 HS Hv Hd Hin Hk (G1 I1) (G2 I2)).
Qed.

(** ** Concrete cases *)
(** A hash function that sends one string to 0. For the string of the pair (0, 1), which these proofs never hash, the challenges are not all invertible, yet Prove and
    the forger return what the theorems say; for the string of the proof's own pair A, S, and for that of its first round, Prove panics. *)
Definition hoBad (s : bytes) : Oracles := mkOracles (fun b => if list_eq_dec Z.eq_dec b s then repeat 0 32 else sha256 toyO b) (fromByteArray toyO).
Definition badUnused : bytes := gStr toy (gId toy) ++ gStr toy (gGen toy).
Definition dInvb (HO : Oracles) (pf : BulletProof toy) : bool := forallb (digestInv 101 HO) (hashInputs pf).
Lemma dInvb_ok : forall HO pf, dInvb HO pf = true -> DigestsInvertible (G:=toy) HO pf.
Proof. intros HO pf H b Hb. unfold dInvb in H. rewrite forallb_forall in H. exact (H b Hb). Qed.
Lemma res_one : forall {A} (o : res A) f, match o with Ok q => f q | _ => false end = true -> exists q, o = Ok q /\ f q = true.
Proof. intros A [q| | |] f H; try discriminate. exists q. split; [reflexivity|exact H]. Qed.
Lemma res_pair : forall {A B} (o : res (A * B)) f, match o with Ok (q, _) => f q | _ => false end = true -> exists q g, o = Ok (q, g) /\ f q = true.
Proof. intros A B [[q g]| | |] f H; try discriminate. exists q, g. split; [reflexivity|exact H]. Qed.
Example C83_case :
  ~ ChallengesInvertible toy (hoBad badUnused) /\
  (exists pf g, Prove toy (guarded 101 (hoBad badUnused)) 11 toyParams toyRnd = Ok (pf, g) /\ DigestsInvertible (G:=toy) (hoBad badUnused) pf /\
     Prove toy (hoBad badUnused) 11 toyParams toyRnd = Ok (pf, g) /\ length (hashInputs pf) = 5%nat) /\
  (exists pf, forgeEqual toy (guarded 101 (hoBad badUnused)) toyParams 77 5 = Ok pf /\ DigestsInvertible (G:=toy) (hoBad badUnused) pf /\
     (pf <- forgeEqual toy (hoBad badUnused) toyParams 77 5 ;; Verify toy (hoBad badUnused) pf) = Ok true) /\
  Prove toy (hoBad (gStr toy (pA toyPf) ++ gStr toy (pS toyPf))) 11 toyParams toyRnd = Panic /\
  map (fun s => match Prove toy (hoBad s) 11 toyParams toyRnd with Panic => true | _ => false end) (roundInputs (ipL (pIPP toyPf)) (ipR (pIPP toyPf))) = [true; true].
Proof.
  split; [intros H; specialize (H (gId toy) (gGen toy)); vm_compute in H; discriminate|]. split; [|split; [|split; vm_compute; reflexivity]].
  - destruct (res_pair (Prove toy (guarded 101 (hoBad badUnused)) 11 toyParams toyRnd) (fun q => dInvb (hoBad badUnused) q && Nat.eqb (length (hashInputs q)) 5)) as (pf & g & E & HD);
      [vm_compute; reflexivity|].
    exists pf, g. apply andb_prop in HD. destruct HD as [HD HL]. apply dInvb_ok in HD. apply Nat.eqb_eq in HL. split; [exact E|]. split; [exact HD|]. split; [|exact HL].
    apply (C83_prove_inputs toy (hoBad badUnused) (guarded 101 (hoBad badUnused)) toyParams 11 toyRnd pf g (l_order toy toy_laws) E).
    apply guarded_agree. exact HD.
  - destruct (res_one (forgeEqual toy (guarded 101 (hoBad badUnused)) toyParams 77 5) (dInvb (hoBad badUnused))) as (pf & E & HD); [vm_compute; reflexivity|].
    exists pf. split; [exact E|]. split; [apply dInvb_ok; exact HD|vm_compute; reflexivity].
Qed.

(** the condition of C83_rfc3526, for the hash function of C25_case *)
Example C83_run_case : forall its, RunInvertible dBig oneHO 0 gR its.
Proof. intros its pp j _ _ B g _ b _. vm_compute. reflexivity. Qed.

Print Assumptions C83_prove_inputs.
Print Assumptions C83_prove_returns.
Print Assumptions C83_necessary.
Print Assumptions C83_returns_or_panics.
Print Assumptions C83_cast_returns.
Print Assumptions C83_secp256k1.
Print Assumptions C83_rfc3526.
Print Assumptions C83_false_range.
Print Assumptions C83_any_number.
