(** C06, C08, C44: the inner product argument. *)
From Verif Require Import GoBase Json GroupIface Vector BIP BP NumTh Alg VectorProofs BIPProofs BPProofs SetupProofs Toy PropBP.
From Coq Require Import Setoid Morphisms.

(** C06: exact answer on an honest proof for any claimed P and c *)
Theorem C06_inner_product_completeness : forall G HO k fuel a b Gg Hh u P c pf,
  GrpLaws G ->
  length a = (2 ^ k)%nat -> length b = (2 ^ k)%nat -> length Gg = (2 ^ k)%nat -> length Hh = (2 ^ k)%nat ->
  proveInnerProduct G HO fuel a b P (Some c) (mkIPParams Gg (map Some Hh) u) = Ok pf ->
  exists x res, hashIP G HO Gg (map Some Hh) P (Some c) = Ok x /\
    ipVerify G HO pf = Ok res /\
    let ux := gScale G u x in
    (res = true <->
     gAdd G P (gScale G ux c) =
     gAdd G (gsum (G:=G) (2 ^ k) (fun i => gAdd G (gScale G (nth i Gg (gId G)) (nth i a 0)) (gScale G (nth i Hh (gId G)) (nth i b 0))))
            (gScale G ux (zsum (2 ^ k) (fun i => nth i a 0 * nth i b 0)))).
Proof.
  intros G HO k fuel a b Gg Hh u P c pf HL Ha Hb Hg Hh' H.
  rewrite (tab_nth' 0 a _ Ha), (tab_nth' 0 b _ Hb), (tab_nth' (gId G) Gg _ Hg), (tab_nth' (gId G) Hh _ Hh') in H.
  destruct (ip_honest G HO HL k _ _ _ _ _ _ _ _ _ H) as (c' & x & res & Hc & _ & _ & _ & _ & _ & Hx & Hv & Hiff).
  injection Hc as <-.
  rewrite <- (tab_nth' (gId G) Gg _ Hg), <- (tab_nth' (gId G) Hh _ Hh') in Hx.
  exists x, res. split; [exact Hx|]. split; [exact Hv|]. cbv zeta. exact Hiff.
Qed.

(** ... hence an honest P = g^a h^b and c = <a,b> (mod N) is accepted, with log2 many L and R *)
Theorem C06_honest_accepted : forall G HO k fuel a b Gg Hh u P c pf,
  GrpLaws G ->
  length a = (2 ^ k)%nat -> length b = (2 ^ k)%nat -> length Gg = (2 ^ k)%nat -> length Hh = (2 ^ k)%nat ->
  commitInnerProduct G Gg Hh a b = Ok P -> ScalarProduct G a b = Some c ->
  proveInnerProduct G HO fuel a b P (Some c) (mkIPParams Gg (map Some Hh) u) = Ok pf ->
  ipVerify G HO pf = Ok true /\ length (ipL pf) = k /\ length (ipR pf) = k.
Proof.
  intros G HO k fuel a b Gg Hh u P c pf HL Ha Hb Hg Hh' HP Hc H.
  rewrite (tab_nth' 0 a _ Ha), (tab_nth' 0 b _ Hb), (tab_nth' (gId G) Gg _ Hg), (tab_nth' (gId G) Hh _ Hh') in H, HP.
  rewrite (tab_nth' 0 a _ Ha), (tab_nth' 0 b _ Hb) in Hc.
  unfold commitInnerProduct in HP. rewrite !(VectorExp_tab G HL) in HP. cbn [bind deref] in HP. injection HP as HP.
  rewrite (ScalarProduct_tab G HL) in Hc. injection Hc as Hc.
  destruct (ip_honest G HO HL k _ _ _ _ _ _ _ _ _ H) as (c' & x & res & Hc' & _ & _ & _ & HlL & HlR & Hx & Hv & Hiff).
  injection Hc' as <-. split; [|split; assumption]. rewrite Hv. f_equal. apply Hiff. unfold ipCom.
  rewrite <- HP, <- Hc, (gsum_add HL), (scale_mod HL). reflexivity.
Qed.
(** C07, for every run of the inner-product prover: whatever commitment and value it is given *)
Theorem C07_inner_product_size : forall G HO k fuel a b Gg Hh u P c pf,
  GrpLaws G ->
  length a = (2 ^ k)%nat -> length b = (2 ^ k)%nat -> length Gg = (2 ^ k)%nat -> length Hh = (2 ^ k)%nat ->
  proveInnerProduct G HO fuel a b P c (mkIPParams Gg (map Some Hh) u) = Ok pf ->
  length (ipL pf) = k /\ length (ipR pf) = k.
Proof.
  intros G HO k fuel a b Gg Hh u P c pf HL Ha Hb Hg Hh' H.
  rewrite (tab_nth' 0 a _ Ha), (tab_nth' 0 b _ Hb), (tab_nth' (gId G) Gg _ Hg), (tab_nth' (gId G) Hh _ Hh') in H.
  destruct (ip_honest G HO HL k _ _ _ _ _ _ _ _ _ H) as (c' & x & res & _ & _ & _ & _ & HlL & HlR & _). split; assumption.
Qed.

(** ... and the prover returns when the challenges are invertible (fuel = recursion depth) *)
Theorem C06_prover_returns : forall G HO k fuel a b Gg Hh u P c,
  GrpLaws G -> ChallengesInvertible G HO -> (k <= fuel)%nat ->
  length a = (2 ^ k)%nat -> length b = (2 ^ k)%nat -> length Gg = (2 ^ k)%nat -> length Hh = (2 ^ k)%nat ->
  exists pf, proveInnerProduct G HO fuel a b P (Some c) (mkIPParams Gg (map Some Hh) u) = Ok pf.
Proof.
  intros G HO k fuel a b Gg Hh u P c HL Hinv Hf Ha Hb Hg Hh'.
  rewrite (tab_nth' 0 a _ Ha), (tab_nth' 0 b _ Hb), (tab_nth' (gId G) Gg _ Hg), (tab_nth' (gId G) Hh _ Hh').
  apply (ip_total G HO HL); assumption.
Qed.

(** ** C08 *)
(** Coefficient of generator j: one factor per round, x for the upper half and x^-1 for the lower half;
    round r (0-based, k rounds) looks at bit k-1-r of j. [chs]: pairs (x, x^-1). *)
Fixpoint sCoef (chs : list (Z * Z)) (j : nat) : Z :=
  match chs with
  | [] => 1
  | (x, xi) :: t => (if Nat.testbit j (length t) then x else xi) * sCoef t j
  end.
Definition swapCh (c : Z * Z) : Z * Z := (snd c, fst c).

(** Sum over the rounds of x^2 L + x^-2 R *)
Fixpoint roundSum (G : Grp) (chs : list (Z * Z)) (Ls Rs : list (E G)) : E G :=
  match chs, Ls, Rs with
  | (x, xi) :: t, L :: Ls', R :: Rs' =>
      gAdd G (gAdd G (gScale G L (x * x)) (gScale G R (xi * xi))) (roundSum G t Ls' Rs')
  | _, _, _ => gId G
  end.

(** The challenges of the rounds and their inverses *)
Inductive roundChallenges (G : Grp) (HO : Oracles) : list (E G) -> list (E G) -> list (Z * Z) -> Prop :=
| rc_nil : roundChallenges G HO [] [] []
| rc_cons : forall L R Ls Rs x xi t,
    x = fst (HashBP G HO L R) -> (x * xi) mod gN G = 1 ->
    roundChallenges G HO Ls Rs t ->
    roundChallenges G HO (L :: Ls) (R :: Rs) ((x, xi) :: t).

Lemma testbit_low : forall k j r, (r < k)%nat -> Nat.testbit (2 ^ k + j) r = Nat.testbit j r.
Proof.
  intros k j r Hr. rewrite !Nat.testbit_eqb. f_equal.
  replace (2 ^ k)%nat with (2 ^ (k - r) * 2 ^ r)%nat by (rewrite <- Nat.pow_add_r; f_equal; lia).
  rewrite Nat.div_add_l by (apply Nat.pow_nonzero; lia).
  replace (k - r)%nat with (S (k - r - 1)) by lia. cbn [Nat.pow].
  replace (2 * 2 ^ (k - r - 1) + j / 2 ^ r)%nat with (j / 2 ^ r + 2 ^ (k - r - 1) * 2)%nat by lia.
  rewrite Nat.mod_add by lia. reflexivity.
Qed.
Lemma testbit_top : forall k j, (j < 2 ^ k)%nat -> Nat.testbit (2 ^ k + j) k = true.
Proof.
  intros k j Hj. rewrite Nat.testbit_eqb. replace (2 ^ k + j)%nat with (1 * 2 ^ k + j)%nat by lia.
  rewrite Nat.div_add_l by lia. rewrite (Nat.div_small j) by assumption. reflexivity.
Qed.
Lemma testbit_top0 : forall k j, (j < 2 ^ k)%nat -> Nat.testbit j k = false.
Proof. intros k j Hj. rewrite Nat.testbit_eqb, Nat.div_small by assumption. reflexivity. Qed.
Lemma sCoef_low : forall chs k j, (length chs <= k)%nat -> sCoef chs (2 ^ k + j) = sCoef chs j.
Proof.
  induction chs as [|[x xi] t IH]; intros k j Hk; cbn [sCoef length] in *; [reflexivity|].
  rewrite testbit_low by lia. rewrite IH by lia. reflexivity.
Qed.

Section C08.
Context (G : Grp) (HO : Oracles) (HL : GrpLaws G).
Local Notation E := (E G).
Local Notation N := (gN G).

Lemma rc_length : forall Ls Rs chs, roundChallenges G HO Ls Rs chs -> length Ls = length chs /\ length Rs = length chs.
Proof. intros Ls Rs chs H. induction H; cbn; intuition. Qed.

Lemma fold_coef : forall x xi t (g : nat -> E), let m := (2 ^ length t)%nat in
  gsum (G:=G) m (fun j => gScale G (gAdd G (gScale G (g j) xi) (gScale G (g (m + j)%nat) x)) (sCoef t j)) =
  gsum (G:=G) (m + m) (fun j => gScale G (g j) (sCoef ((x, xi) :: t) j)).
Proof.
  intros x xi t g m. rewrite (gsum_app HL), <- (gsum_add HL). apply gsum_ext. intros j Hj. cbn [sCoef].
  unfold m. rewrite (testbit_top _ j Hj), (testbit_top0 _ j Hj), (sCoef_low t (length t) j (le_n _)). glin HL.
Qed.

Lemma loop_closed : forall Ls Rs chs, roundChallenges G HO Ls Rs chs -> forall g h P,
  let n := (2 ^ length chs)%nat in
  exists P', ipVerifyLoop G HO Ls (map Some Rs) (tab n (fun i => Some (g i))) (tab n (fun i => Some (h i))) n P =
    Ok ([Some (gsum (G:=G) n (fun j => gScale G (g j) (sCoef chs j)))],
        [Some (gsum (G:=G) n (fun j => gScale G (h j) (sCoef (map swapCh chs) j)))], P') /\
  P' = gAdd G P (roundSum G chs Ls Rs).
Proof.
  intros Ls Rs chs H. induction H as [|L R Ls Rs x xi t Hx Hxi H IH]; intros g h P; cbv zeta.
  - exists P. split; [|cbn; symmetry; apply (add_0_r HL)]. cbn. repeat f_equal; glin HL.
  - cbn [length map]. set (m := (2 ^ length t)%nat) in *.
    replace (2 ^ S (length t))%nat with (m + m)%nat by (unfold m; cbn [Nat.pow]; lia).
    pose proof (l_order G HL) as HN.
    destruct (modInverse_ex x N HN (inv_gcd1 _ _ _ HN Hxi)) as (i & Hi & _ & Hii).
    assert (Hix : eqm N i xi) by (constructor; apply (modInverse_unique x); assumption).
    destruct (sq_inv G HL x i Hi) as (i2 & Hi2 & Hi2q).
    rewrite Hx in Hi, Hi2.
    rewrite (loop_step G HO m g h L R Ls (map Some Rs) P i i2 Hi Hi2). rewrite <- Hx.
    destruct (IH (fun j => gAdd G (gScale G (g j) i) (gScale G (g (m + j)%nat) x))
                 (fun j => gAdd G (gScale G (h j) x) (gScale G (h (m + j)%nat) i))
                 (gAdd G (gAdd G P (gScale G L ((x * x) mod N))) (gScale G R i2))) as (P' & HP' & HPe).
    exists P'. fold m in HP'. rewrite HP'. split.
    + f_equal. f_equal. f_equal.
      * f_equal. f_equal. unfold m. rewrite <- fold_coef. fold m. apply gsum_ext. intros j _.
        rewrite (scale_eqm HL (g j) i xi Hix). reflexivity.
      * f_equal. f_equal.
        pose proof (fold_coef xi x (map swapCh t) h) as Hf. cbv zeta in Hf. rewrite map_length in Hf. fold m in Hf.
        change (swapCh (x, xi)) with (xi, x). rewrite <- Hf. apply gsum_ext. intros j _.
        rewrite (scale_eqm HL (h (m + j)%nat) i xi Hix). reflexivity.
    + rewrite HPe. cbn [roundSum]. rewrite (scale_mod HL).
      rewrite (scale_eqm HL R i2 (xi * xi)) by (rewrite Hi2q, Hix; reflexivity). glin HL.
Qed.
End C08.

(** C08: Verify decides one multi-exponentiation equation. *)
Theorem C08_closed_form : forall G HO (pf : IPProof G) k Gg Hh Rs u c pa pb x chs,
  GrpLaws G ->
  ipParams pf = mkIPParams Gg (map Some Hh) u -> length Gg = (2 ^ k)%nat -> length Hh = (2 ^ k)%nat ->
  ipR pf = map Some Rs -> length (ipL pf) = k ->
  ipCc pf = Some c -> ipA pf = Some pa -> ipB pf = Some pb ->
  hashIP G HO Gg (map Some Hh) (ipP pf) (Some c) = Ok x ->
  roundChallenges G HO (ipL pf) Rs chs ->
  exists res, ipVerify G HO pf = Ok res /\
  (res = true <->
     gAdd G (gAdd G (ipP pf) (gScale G u (x * c))) (roundSum G chs (ipL pf) Rs) =
     gAdd G (gsum (G:=G) (2 ^ k) (fun j => gAdd G (gScale G (nth j Gg (gId G)) (pa * sCoef chs j))
                                        (gScale G (nth j Hh (gId G)) (pb * sCoef (map swapCh chs) j))))
            (gScale G u (x * (pa * pb)))).
Proof.
  intros G HO pf k Gg Hh Rs u c pa pb x chs HL Hpar Hg Hh' HR Hk Hc Ha Hb Hx Hch.
  destruct (rc_length G HO _ _ _ Hch) as [Hl1 Hl2]. rewrite Hk in Hl1.
  unfold ipVerify. rewrite Hpar, Hc, Ha, Hb. cbn [ipGg ipHh ipUu]. rewrite Hx. cbn [bind]. unfold computePP. cbn [deref bind].
  set (g := fun j => nth j Gg (gId G)). set (h := fun j => nth j Hh (gId G)).
  destruct (loop_closed G HO HL _ _ _ Hch g h (gAdd G (ipP pf) (gScale G (gScale G u x) c))) as (P' & HP' & HPe).
  rewrite <- Hl1 in HP'. rewrite HR, Hg.
  assert (HG' : map Some Gg = tab (2 ^ k) (fun i => Some (g i)))
    by (rewrite (tab_nth' (gId G) Gg _ Hg) at 1; apply map_tab).
  assert (HH' : map Some Hh = tab (2 ^ k) (fun i => Some (h i)))
    by (rewrite (tab_nth' (gId G) Hh _ Hh') at 1; apply map_tab).
  rewrite HG', HH', HP'. cbn -[Nat.pow].
  eexists. split; [reflexivity|]. rewrite (l_isid G HL), (negadd_0_iff HL), HPe, (gsum_add HL), (scale_mod HL).
  rewrite (gsum_ext (2 ^ k) (fun j => gScale G (nth j Gg (gId G)) (pa * sCoef chs j))
             (fun j => gScale G (gScale G (g j) (sCoef chs j)) pa)) by (intros; unfold g; glin HL).
  rewrite (gsum_ext (2 ^ k) (fun j => gScale G (nth j Hh (gId G)) (pb * sCoef (map swapCh chs) j))
             (fun j => gScale G (gScale G (h j) (sCoef (map swapCh chs) j)) pb)) by (intros; unfold h; glin HL).
  rewrite !(gsum_scale HL), !(scale_mul HL). reflexivity.
Qed.

(** C44: equal-length vectors of length n with n generators on each side *)
Theorem C44_domain : forall G HO fuel a b Gg Hh u P c n,
  GrpLaws G ->
  length a = n -> length b = n -> length Gg = n -> length Hh = n -> (n <= fuel)%nat ->
  let run := proveInnerProduct G HO fuel a b P (Some c) (mkIPParams Gg (map Some Hh) u) in
  (~ (exists k, n = 2 ^ k)%nat -> n <> 0%nat -> run = Panic) /\
  (n = 0%nat -> run = OutOfFuel \/ run = Panic).
Proof.
  intros G HO fuel a b Gg Hh u P c n HL Ha Hb Hg Hh' Hf run. subst run.
  rewrite (tab_nth' 0 a _ Ha), (tab_nth' 0 b _ Hb), (tab_nth' (gId G) Gg _ Hg), (tab_nth' (gId G) Hh _ Hh').
  unfold proveInnerProduct. rewrite !tab_length, Nat.eqb_refl. cbn [negb ipGg ipHh ipUu].
  match goal with |- context [hashIP G HO (tab n ?g) (map Some (tab n ?h)) P (Some c)] =>
    destruct (hashIP_tab G HO n g h P (Some c)) as [x Hx] end.
  rewrite Hx. cbn [bind]. unfold computePP. cbn [deref bind].
  rewrite map_tab. rewrite (mapM_tab deref _ _ (fun i => nth i Hh (gId G))) by reflexivity. cbn [bind]. split.
  - intros Hp Hn. rewrite (bip_not_pow2 G HO HL); [reflexivity|lia|exact Hp|assumption].
  - intros ->. unfold tab. cbn [seq map].
    destruct (bip_empty G HO fuel (gScale G u x) (gAdd G P (gScale G (gScale G u x) c)) [] []) as [-> | ->]; cbn; auto.
Qed.

(** The recursion really never ends on empty vectors: when the one challenge it keeps deriving is
    invertible, no amount of fuel suffices. *)
Theorem C44_empty_diverges : forall G HO fuel u P c,
  GrpLaws G -> ChallengesInvertible G HO ->
  proveInnerProduct G HO fuel [] [] P (Some c) (mkIPParams [] [] u) = OutOfFuel.
Proof.
  intros G HO fuel u P c HL Hinv. unfold proveInnerProduct. cbn.
  set (x := fromByteArray HO _). generalize (gAdd G P (gScale G (gScale G u x) c)). generalize (gScale G u x).
  intros ux PP. enough (Hr : forall fuel PP Ls Rs, computeBipRecursive G HO fuel [] [] [] [] ux PP 0 Ls Rs = OutOfFuel)
    by (rewrite Hr; reflexivity).
  induction fuel0 as [|f IH]; intros; [reflexivity|].
  cbn [computeBipRecursive Nat.eqb]. cbn -[HashBP modInverse computeBipRecursive].
  match goal with |- context [HashBP G HO ?A ?B] => pose proof (Hinv A B) as Hx; set (y := fst (HashBP G HO A B)) in * end.
  destruct (modInverse_ex _ _ (l_order G HL) Hx) as (i & Hi & _).
  destruct (sq_inv G HL y i Hi) as (i2 & Hi2 & _). rewrite Hi2. cbn [deref bind].
  unfold foldGens, slice_to, slice_from, vectorScalarExp. cbn -[HashBP modInverse computeBipRecursive]. apply IH.
Qed.

(** ** Concrete cases *)
Definition toyIP (a b : list Z) (cShift : Z) : res (bool * nat) :=
  let n := length a in
  let g := map (fun i => gBase toy (3 + Z.of_nat i)) (seq 0 n) in
  let h := map (fun i => gBase toy (50 - Z.of_nat i)) (seq 0 n) in
  P <- commitInnerProduct toy g h a b ;;
  c <- deref (ScalarProduct toy a b) ;;
  pf <- proveInnerProduct toy toyO n a b P (Some (c + cShift)) (mkIPParams g (map Some h) (gBase toy 9)) ;;
  r <- ipVerify toy toyO pf ;; Ok (r, length (ipL pf)).
Example C06_case : toyIP [1;2;3;4] [5;6;7;100] 0 = Ok (true, 2%nat) /\ toyIP [1;2;3;4] [5;6;7;100] 1 = Ok (false, 2%nat).
Proof. split; vm_compute; reflexivity. Qed.
Example C44_case : toyIP [1;2;3] [5;6;7] 0 = Panic /\ toyIP [] [] 0 = OutOfFuel /\ toyIP [1;2;3;4;5;6] [1;2;3;4;5;6] 0 = Panic.
Proof. repeat split; vm_compute; reflexivity. Qed.
(** An accepted proof of the shape required by C08 (from C04's honest proof: 2 rounds, 4 generators). *)
Example C08_case : length (ipGg (ipParams (pIPP toyPf))) = 4%nat /\ length (ipL (pIPP toyPf)) = 2%nat /\
  exists Rs chs, ipR (pIPP toyPf) = map Some Rs /\ roundChallenges toy toyO (ipL (pIPP toyPf)) Rs chs.
Proof.
  split; [reflexivity|]. split; [reflexivity|].
  set (Rs := map (fun o => match o with Some R => R | None => gId toy end) (ipR (pIPP toyPf))). exists Rs.
  assert (Hrc : forall Ls Rs, length Ls = length Rs -> exists chs, roundChallenges toy toyO Ls Rs chs).
  { induction Ls as [|L Ls IH]; intros [|R Rs'] Hl; try discriminate; [exists []; constructor|].
    destruct (IH Rs') as [t Ht]; [injection Hl; auto|].
    destruct (modInverse_ex _ _ (l_order toy toy_laws) (toy_challenges L R)) as (i & _ & _ & Hi).
    exists ((fst (HashBP toy toyO L R), i) :: t). constructor; auto. }
  destruct (Hrc (ipL (pIPP toyPf)) Rs eq_refl) as [chs Hchs]. exists chs. split; [reflexivity|exact Hchs].
Qed.

Print Assumptions C06_inner_product_completeness.
Print Assumptions C06_honest_accepted.
Print Assumptions C06_prover_returns.
Print Assumptions C08_closed_form.
Print Assumptions C44_domain.
Print Assumptions C44_empty_diverges.
Print Assumptions C07_inner_product_size.
