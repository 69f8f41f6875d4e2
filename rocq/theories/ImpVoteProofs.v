(** The pointer-level functions of ImpVote.v compute what their value-level models compute, and change no object that existed
    before the call. *)
From Verif Require Import GoBase Json GroupIface Vector BIP BP VoteProof ModP App Imp ImpVote ImpProofs ImpFuns ImpBP.

Section ImpVoteProofs.
Context (GF GE : Grp) (HO : Oracles).
Local Notation heap2 := (heap2 GF GE).
Local Notation M2 := (M2 GF GE).
Local Notation mkH2 := (mkH2 GF GE).
Local Notation zAt := (zAt GE). Local Notation eAt := (eAt GE). Local Notation Pre := (Pre GE).
Implicit Types (F : list (E GF)) (W : list nat) (s : heap GE) (h : heap2) (p e a b : ptr).

(** What a pointer into the ElGamal group denotes *)
Definition fAt F p (o : option (E GF)) : Prop :=
  match o with Some v => exists r, p = Some r /\ nth_error F r = Some v | None => p = None end.
(** Objects are only added, and only new ones are written. *)
Definition PreF F W F' W' : Prop :=
  (exists l, F' = F ++ l) /\ exists w, W' = w ++ W /\ Forall (fun r => (length F <= r)%nat) w.
Lemma PreF_refl : forall F W, PreF F W F W.
Proof. intros F W. split; [exists []; symmetry; apply app_nil_r|]. exists []. split; [reflexivity|constructor]. Qed.
Lemma PreF_trans : forall F1 W1 F2 W2 F3 W3, PreF F1 W1 F2 W2 -> PreF F2 W2 F3 W3 -> PreF F1 W1 F3 W3.
Proof.
  intros F1 W1 F2 W2 F3 W3 [(l & ->) (w & -> & A)] [(l' & ->) (w' & -> & A')]. split.
  - exists (l ++ l'). symmetry. apply app_assoc.
  - exists (w' ++ w). split; [apply app_assoc|]. apply Forall_app. split; [|exact A].
    eapply Forall_impl; [|exact A']. intros r H. cbv beta in *. rewrite app_length in H. lia.
Qed.
Lemma fAt_pre : forall F W F' W' p o, PreF F W F' W' -> fAt F p o -> fAt F' p o.
Proof.
  intros F W F' W' p [v|] [(l & ->) _] H; [|exact H]. destruct H as (r & -> & H). exists r. split; [reflexivity|].
  rewrite nth_error_app1; [exact H|]. apply nth_error_Some. congruence.
Qed.

Definition wp2 {A B} (c : M2 A) (r : res B) h (Q : A -> B -> heap2 -> Prop) : Prop :=
  match c h with
  | Ok (u, h') => exists v, r = Ok v /\ Q u v h'
  | Err => r = Err
  | Panic => r = Panic
  | OutOfFuel => r = OutOfFuel
  end.
Lemma wp2_bind : forall {A A' B B'} (c : M2 A) (f : A -> M2 A') (r : res B) (g : B -> res B') h R Q,
  wp2 c r h R -> (forall u v h', R u v h' -> wp2 (f u) (g v) h' Q) -> wp2 (mbind2 GF GE c f) (bind r g) h Q.
Proof.
  intros A A' B B' c f r g h R Q H K. unfold wp2 in *. unfold mbind2.
  destruct (c h) as [[u h']| | |].
  - destruct H as (v & -> & HR). cbn. exact (K u v h' HR).
  - rewrite H. reflexivity.
  - rewrite H. reflexivity.
  - rewrite H. reflexivity.
Qed.
Lemma wp2_left : forall {A A' B B'} (c : M2 A) (f : A -> M2 A') (v : B) (r : res B') h R Q,
  wp2 c (Ok v) h R -> (forall u h', R u v h' -> wp2 (f u) r h' Q) -> wp2 (mbind2 GF GE c f) r h Q.
Proof.
  intros A A' B B' c f v r h R Q H K. unfold wp2 in H. unfold wp2, mbind2.
  destruct (c h) as [[u h']| | |].
  - destruct H as (v' & E & HR). injection E as <-. exact (K u h' HR).
  - discriminate H.
  - discriminate H.
  - discriminate H.
Qed.
Lemma wp2_ret : forall {A B} (u : A) (v : B) h (Q : A -> B -> heap2 -> Prop), Q u v h -> wp2 (ret2 GF GE u) (Ok v) h Q.
Proof. intros A B u v h Q H. exists v. split; [reflexivity | exact H]. Qed.
Lemma wp2_weaken : forall {A B} (c : M2 A) (r : res B) h (R Q : A -> B -> heap2 -> Prop),
  wp2 c r h R -> (forall u v h', R u v h' -> Q u v h') -> wp2 c r h Q.
Proof.
  intros A B c r h R Q H K. unfold wp2 in *. destruct (c h) as [[u h']| | |]; try exact H.
  destruct H as (v & E & HR). exists v. split; [exact E | exact (K u v h' HR)].
Qed.
Lemma wp2_tail : forall {A B} (c : M2 A) (r : res B) h Q, wp2 (mbind2 GF GE c (ret2 GF GE)) r h Q -> wp2 c r h Q.
Proof. intros A B c r h Q H. unfold wp2, mbind2 in *. destruct (c h) as [[u h']| | |]; exact H. Qed.
Lemma wp2_lift : forall {A A' B'} (r0 : res A) (f : A -> M2 A') (g : A -> res B') h Q,
  (forall u, r0 = Ok u -> wp2 (f u) (g u) h Q) -> wp2 (mbind2 GF GE (lift2 GF GE r0) f) (bind r0 g) h Q.
Proof. intros A A' B' r0 f g h Q H. unfold wp2, mbind2, lift2. destruct r0 as [u| | |]; cbn; try reflexivity. apply (H u eq_refl). Qed.
Lemma wp2_liftOk : forall A A' B' (u : A) (f : A -> M2 A') (g : res B') h Q,
  wp2 (f u) g h Q -> wp2 (mbind2 GF GE (lift2 GF GE (Ok u)) f) g h Q.
Proof. intros A A' B' u f g h Q Hw. exact Hw. Qed.

(** A statement on the curve group and integers, against its own specification *)
Lemma wp2_E : forall {A A' B B'} (c : M GE A) (f : A -> M2 A') (r : res B) (g : B -> res B') F W s R Q,
  wp GE c r s R -> (forall u v s', R u v s' -> wp2 (f u) (g v) (mkH2 F W s') Q) ->
  wp2 (mbind2 GF GE (onE GF GE c) f) (bind r g) (mkH2 F W s) Q.
Proof.
  intros A A' B B' c f r g F W s R Q H K. unfold wp in H. unfold wp2, mbind2, onE. cbn [sub fe fw].
  destruct (c s) as [[u s']| | |].
  - destruct H as (v & -> & HR). cbn [bind]. exact (K u v s' HR).
  - rewrite H. reflexivity.
  - rewrite H. reflexivity.
  - rewrite H. reflexivity.
Qed.
Lemma wp2_Eleft : forall {A A' B B'} (c : M GE A) (f : A -> M2 A') (v : B) (r : res B') F W s R Q,
  wp GE c (Ok v) s R -> (forall u s', R u v s' -> wp2 (f u) r (mkH2 F W s') Q) ->
  wp2 (mbind2 GF GE (onE GF GE c) f) r (mkH2 F W s) Q.
Proof.
  intros A A' B B' c f v r F W s R Q H K. unfold wp in H. unfold wp2, mbind2, onE. cbn [sub fe fw].
  destruct (c s) as [[u s']| | |].
  - destruct H as (v' & E & HR). injection E as <-. exact (K u s' HR).
  - discriminate H.
  - discriminate H.
  - discriminate H.
Qed.
(** single steps: a statement of Imp.v in front *)
Lemma wp2_step : forall {A A' B'} (c : M GE A) (f : A -> M2 A') (r : res B') F W s Q,
  wp GE (mbind GE c (ret GE)) (Ok tt) s (fun u _ s' => wp2 (f u) r (mkH2 F W s') Q) ->
  wp2 (mbind2 GF GE (onE GF GE c) f) r (mkH2 F W s) Q.
Proof.
  intros A A' B' c f r F W s Q H. unfold wp, mbind in H. unfold wp2 at 1. unfold mbind2, onE. cbn [sub fe fw].
  destruct (c s) as [[u s']| | |]; cbn [ret] in H.
  - unfold ret in H. destruct H as (v & _ & H). exact H.
  - discriminate H.
  - discriminate H.
  - discriminate H.
Qed.
(** a statement that panics *)
Lemma wp2_Estop : forall {A A' B'} (c : M GE A) (f : A -> M2 A') (r : res B') F W s Q,
  r = Panic -> wp2 (mbind2 GF GE (onE GF GE c) f) r (mkH2 F W s) (fun _ _ _ => True) ->
  wp2 (mbind2 GF GE (onE GF GE c) f) r (mkH2 F W s) Q.
Proof.
  intros A A' B' c f r F W s Q H K. unfold wp2 in *. destruct (mbind2 GF GE (onE GF GE c) f (mkH2 F W s)) as [[u h']| | |]; try exact K.
  destruct K as (v & E & _). congruence.
Qed.

(** Elements of the ElGamal group *)
Lemma wp2_rdF : forall {A B} p v (f : E GF -> M2 A) (r : res B) F W s Q,
  fAt F p (Some v) -> wp2 (f v) r (mkH2 F W s) Q -> wp2 (mbind2 GF GE (rdF GF GE p) f) r (mkH2 F W s) Q.
Proof. intros A B p v f r F W s Q (n & -> & H) K. unfold wp2, mbind2, rdF. cbn [fe]. rewrite H. exact K. Qed.
Definition opF (op : ptr -> M2 unit) F s (v : E GF) : Prop :=
  forall e l W, op e (mkH2 (F ++ l) W s) = wrF GF GE e v (mkH2 (F ++ l) W s).
Lemma wp2_elementF : forall {A B} op v (f : ptr -> M2 A) (r : res B) F W s Q,
  opF op F s v -> (forall e F' W', PreF F W F' W' -> fAt F' e (Some v) -> wp2 (f e) r (mkH2 F' W' s) Q) ->
  wp2 (mbind2 GF GE (elementF GF GE op) f) r (mkH2 F W s) Q.
Proof.
  intros A B op v f r F W s Q O K. unfold wp2, mbind2, elementF, mbind2, newF. cbn [fe fw sub]. rewrite O.
  unfold wrF. cbn [fe fw sub]. rewrite app_length, (proj2 (Nat.ltb_lt _ _)) by (cbn; lia). rewrite setNth_last. cbn [ret2].
  unfold ret2. apply K.
  - split; [exists [v]; reflexivity|]. exists [length F]. split; [reflexivity|]. repeat constructor.
  - exists (length F). split; [reflexivity|]. rewrite nth_error_app2, Nat.sub_diag; [reflexivity|lia].
Qed.
Lemma wp2_newF : forall {A B} v (f : ptr -> M2 A) (r : res B) F W s Q,
  (forall e F' W', PreF F W F' W' -> fAt F' e (Some v) -> wp2 (f e) r (mkH2 F' W' s) Q) ->
  wp2 (mbind2 GF GE (newF GF GE v) f) r (mkH2 F W s) Q.
Proof.
  intros A B v f r F W s Q K. unfold wp2, mbind2, newF. cbn [fe fw sub]. apply K.
  - split; [exists [v]; reflexivity|]. exists []. split; [reflexivity|constructor].
  - exists (length F). split; [reflexivity|]. rewrite nth_error_app2, Nat.sub_diag; [reflexivity|lia].
Qed.
Lemma rdF_app : forall F l W s p v, fAt F p (Some v) -> rdF GF GE p (mkH2 (F ++ l) W s) = Ok (v, mkH2 (F ++ l) W s).
Proof.
  intros F l W s p v (r & -> & H). unfold rdF. cbn [fe]. rewrite nth_error_app1, H; [reflexivity|]. apply nth_error_Some. congruence.
Qed.
Lemma rdS : forall F W s p v, zAt s p (Some v) -> onE GF GE (rdZ GE p) (mkH2 F W s) = Ok (v, mkH2 F W s).
Proof. intros F W s p v H. unfold onE. cbn [sub fe fw]. rewrite (rdZ_ok GE s p v H). reflexivity. Qed.
Lemma op_fAdd : forall F s a b u v, fAt F a (Some u) -> fAt F b (Some v) -> opF (fun e => fAdd GF GE e a b) F s (gAdd GF u v).
Proof. intros F s a b u v A B e l W. unfold fAdd, mbind2. rewrite (rdF_app F l W s a u A), (rdF_app F l W s b v B). reflexivity. Qed.
Lemma op_fScale : forall F s a k u v, fAt F a (Some u) -> zAt s k (Some v) -> opF (fun e => fScale GF GE e a k) F s (gScale GF u v).
Proof. intros F s a k u v A B e l W. unfold fScale, mbind2. rewrite (rdF_app F l W s a u A), (rdS _ W s k v B). reflexivity. Qed.
Lemma op_fBase : forall F s k v, zAt s k (Some v) -> opF (fun e => fBase GF GE e k) F s (gBase GF v).
Proof. intros F s k v B e l W. unfold fBase, mbind2. rewrite (rdS _ W s k v B). reflexivity. Qed.
Lemma op_zExp : forall s a b u v, zAt s a (Some u) -> zAt s b (Some v) -> opZ GE (fun e => zExp GE e a b) s (goExp u v).
Proof.
  intros s a b u v A B e h' P. unfold zExp, mbind.
  rewrite (rdZ_ok GE h' a u (pre_z _ _ _ P _ _ A)), (rdZ_ok GE h' b v (pre_z _ _ _ P _ _ B)). reflexivity.
Qed.
End ImpVoteProofs.

(** ** Automation *)
Ltac trF := first [ eassumption | match goal with
  | P : PreF _ ?F ?W ?F' ?W' |- fAt _ ?F' ?p ?o => apply (fAt_pre _ F W F' W' p o P); trF end ].
Ltac prF := lazymatch goal with
  | |- PreF _ ?F ?W ?F ?W => apply PreF_refl
  | |- PreF _ ?F ?W ?F' ?W' => match goal with
    | P : PreF _ F W F' W' |- _ => exact P
    | P : PreF _ ?G ?V F' W' |- _ => apply (PreF_trans _ F W G V F' W'); [prF | exact P] end
  end.
Ltac wstep := unfold newInt, int_, rdInt; lazymatch goal with
  | |- wp2 _ _ (mbind2 _ _ (onE _ _ (bigInt _ (fun e => zExp _ e ?a ?b))) _) _ _ _ =>
      apply wp2_step; eapply wp_bigInt; [eapply op_zExp; tr | intros ? ? ? ? ?; apply wp_ret; cbv beta]
  | |- wp2 _ _ (mbind2 _ _ (onE _ _ _) _) _ _ _ => apply wp2_step; ws; apply wp_ret; cbv beta
  | |- wp2 _ _ (mbind2 _ _ (rdF _ _ ?p) _) _ _ _ => eapply wp2_rdF; [trF|]
  | |- wp2 _ _ (mbind2 _ _ (elementF _ _ (fun e => fAdd _ _ e ?a ?b)) _) _ _ _ =>
      eapply wp2_elementF; [eapply op_fAdd; trF | intros ? ? ? ? ?]
  | |- wp2 _ _ (mbind2 _ _ (elementF _ _ (fun e => fScale _ _ e ?a ?b)) _) _ _ _ =>
      eapply wp2_elementF; [eapply op_fScale; [trF | tr] | intros ? ? ? ? ?]
  | |- wp2 _ _ (mbind2 _ _ (elementF _ _ (fun e => fBase _ _ e ?b)) _) _ _ _ =>
      eapply wp2_elementF; [eapply op_fBase; tr | intros ? ? ? ? ?]
  | |- wp2 _ _ (ret2 _ _ _) _ _ _ => apply wp2_ret
  | |- wp2 _ _ (mbind2 _ _ _ _) _ _ _ => fail "no rule"
  | |- wp2 _ _ _ _ _ _ => apply wp2_tail; wstep
  end.

Section Votes.
Context (GF GE : Grp) (HO : Oracles).
Local Notation heap2 := (heap2 GF GE).
Local Notation mkH2 := (mkH2 GF GE).
Local Notation zAt := (zAt GE). Local Notation eAt := (eAt GE). Local Notation Pre := (Pre GE).
Local Notation fAt := (fAt GF). Local Notation PreF := (PreF GF).
Local Notation wp2 := (wp2 GF GE).
Implicit Types (F : list (E GF)) (W : list nat) (s : heap GE) (h : heap2) (p e a b : ptr).

(** What the structures hold *)
Definition repGF F s (q : GroupParamsP) (v : GroupParams GF) : Prop :=
  fAt F (kG q) (Some (gpG v)) /\ fAt F (kH q) (Some (gpH v)) /\ zAt s (kN q) (gpN v) /\ zAt s (kF q) (gpF v).
Definition repGE s (q : GroupParamsP) (v : GroupParams GE) : Prop :=
  eAt s (kG q) (Some (gpG v)) /\ eAt s (kH q) (Some (gpH v)) /\ zAt s (kN q) (gpN v) /\ zAt s (kF q) (gpF v).
Definition repPP F s (q : ProofParamsP) (v : ProofParams GF GE) : Prop :=
  wBx q = vBx v /\ wBc q = vBc v /\ wBg q = vBg v /\ wBb q = vBb v /\ wLo q = vLo v /\ wHi q = vHi v /\
  repGF F s (wGFF q) (vGFF v) /\ repGE s (wGEC q) (vGEC v).
Definition repSP F s (q : SigmaProofP) (v : SigmaProof GF GE) : Prop :=
  fAt F (uW q) (Some (sW v)) /\ fAt F (uKp q) (Some (sKp v)) /\ eAt s (uKq1 q) (Some (sKq1 v)) /\ eAt s (uKq2 q) (Some (sKq2 v)) /\
  zAt s (uChal q) (sChal v) /\ zAt s (uZ q) (sZ v) /\ zAt s (uSp q) (sSp v) /\ zAt s (uSq1 q) (sSq1 v) /\ zAt s (uSq2 q) (sSq2 v) /\
  repPP F s (uParams q) (sParams v).
Definition repComm F s (q : VerCommitmentsP) (v : VerCommitments GF GE) : Prop :=
  fAt F (uY q) (Some (cY v)) /\ fAt F (uXp q) (Some (cXp v)) /\ eAt s (uXq1 q) (Some (cXq1 v)) /\ eAt s (uXq2 q) (Some (cXq2 v)).
Definition repCT F (q : CiphertextP) (v : Ciphertext GF) : Prop := fAt F (yU q) (Some (ctU v)) /\ fAt F (yV q) (Some (ctV v)).
Definition repBallot F s (q : BallotDataP) (v : BallotData GF GE) : Prop :=
  repCT F (yBallot q) (bdBallot v) /\ repBP GE s (yLower q) (bdLower v) /\ repBP GE s (yUpper q) (bdUpper v) /\ repSP F s (yVote q) (bdVote v).
Definition repPub F s (q : PublicParametersP) (v : PublicParameters GF GE) : Prop :=
  repGF F s (yFF q) (ppFF v) /\ repGE s (yEC q) (ppEC v) /\ fAt F (yEGPK q) (Some (ppEGPK v)) /\ yMin q = ppMin v /\ yMax q = ppMax v /\
  repBPParams GE s (yBP q) (ppBP v) /\ repPP F s (yRP q) (ppRP v).

(** Nothing that existed is changed *)
Definition Pre2 h h' : Prop := PreF (fe _ _ h) (fw _ _ h) (fe _ _ h') (fw _ _ h') /\ Pre (sub _ _ h) (sub _ _ h').

Lemma repGF_pre : forall F W s F' W' s' q v, PreF F W F' W' -> Pre s s' -> repGF F s q v -> repGF F' s' q v.
Proof. intros F W s F' W' s' q v PF P (A & B & C & D). repeat split; first [trF | tr]. Qed.
Lemma repGE_pre : forall s s' q v, Pre s s' -> repGE s q v -> repGE s' q v.
Proof. intros s s' q v P (A & B & C & D). repeat split; tr. Qed.
Lemma repPP_pre : forall F W s F' W' s' q v, PreF F W F' W' -> Pre s s' -> repPP F s q v -> repPP F' s' q v.
Proof.
  intros F W s F' W' s' q v PF P (A & B & C & D & E1 & E2 & H & I). do 6 (split; [assumption|]).
  split; [exact (repGF_pre _ _ _ _ _ _ _ _ PF P H) | exact (repGE_pre _ _ _ _ P I)].
Qed.
Lemma repSP_pre : forall F W s F' W' s' q v, PreF F W F' W' -> Pre s s' -> repSP F s q v -> repSP F' s' q v.
Proof.
  intros F W s F' W' s' q v PF P (A & B & C & D & E1 & E2 & H & I & J & K). do 2 (split; [trF|]). do 7 (split; [tr|]).
  exact (repPP_pre _ _ _ _ _ _ _ _ PF P K).
Qed.

Lemma iCommitF_ok : forall m r gp vm vr vh F W s, zAt s m (Some vm) -> zAt s r (Some vr) -> fAt F (kH gp) (Some vh) ->
  wp2 (iCommitF GF GE m r gp) (Ok (gAdd GF (gBase GF vm) (gScale GF vh vr))) (mkH2 F W s)
    (fun p v h' => exists F' W', h' = mkH2 F' W' s /\ PreF F W F' W' /\ fAt F' p (Some v)).
Proof.
  intros m r gp vm vr vh F W s HM HR HH. unfold iCommitF. wstep. wstep. wstep. wstep.
  eexists _, _. split; [reflexivity|]. split; [prF | trF].
Qed.
Lemma iCommitE_ok : forall {A B} m r gp vm vr vh (f : ptr -> M2 GF GE A) (k : res B) F W s Q,
  zAt s m (Some vm) -> zAt s r (Some vr) -> eAt s (kH gp) (Some vh) ->
  (forall p s', Pre s s' -> eAt s' p (Some (gAdd GE (gBase GE vm) (gScale GE vh vr))) -> wp2 (f p) k (mkH2 F W s') Q) ->
  wp2 (mbind2 GF GE (iCommitE GF GE m r gp) f) k (mkH2 F W s) Q.
Proof.
  intros A B m r gp vm vr vh f k F W s Q HM HR HH K. unfold iCommitE.
  eapply wp2_Eleft; [apply (iPedersenCommit_ok GE m r (kH gp) vm vr vh s HM HR HH)|]. intros p s' (P & X & _). exact (K p s' P X).
Qed.
Lemma iCheckF_ok : forall {A B} z sp c k x gp vz vs vc vk vx (vg : GroupParams GF) (f : bool -> M2 GF GE A) (r : res B) F W s Q,
  zAt s z (Some vz) -> zAt s sp (Some vs) -> zAt s c (Some vc) -> fAt F k (Some vk) -> fAt F x (Some vx) -> fAt F (kH gp) (Some (gpH vg)) ->
  (forall F' W', PreF F W F' W' -> wp2 (f (sigmaPedersenCheck GF vz vs vc vk vx vg)) r (mkH2 F' W' s) Q) ->
  wp2 (mbind2 GF GE (iCheckF GF GE z sp c k x gp) f) r (mkH2 F W s) Q.
Proof.
  intros A B z sp c k x gp vz vs vc vk vx vg f r F W s Q HZ HS HC HK HX HH K.
  eapply (wp2_left _ _ _ _ (sigmaPedersenCheck GF vz vs vc vk vx vg) _ _
    (fun (b b' : bool) h' => b = b' /\ exists F' W', h' = mkH2 F' W' s /\ PreF F W F' W')).
  2:{ intros u h' (-> & F' & W' & -> & P). exact (K F' W' P). }
  unfold iCheckF. eapply wp2_left; [apply (iCommitF_ok z sp gp vz vs (gpH vg)); first [assumption|trF]|].
  intros p h' (F1 & W1 & -> & P1 & X1). cbv beta. wstep. wstep. wstep. wstep. wstep.
  split; [reflexivity|]. eexists _, _. split; [reflexivity|prF].
Qed.
Lemma iCheckE_ok : forall {A B} z sp c k x gp vz vs vc vk vx (vg : GroupParams GE) (f : bool -> M2 GF GE A) (r : res B) F W s Q,
  zAt s z (Some vz) -> zAt s sp (Some vs) -> zAt s c (Some vc) -> eAt s k (Some vk) -> eAt s x (Some vx) -> eAt s (kH gp) (Some (gpH vg)) ->
  (forall s', Pre s s' -> wp2 (f (sigmaPedersenCheck GE vz vs vc vk vx vg)) r (mkH2 F W s') Q) ->
  wp2 (mbind2 GF GE (iCheckE GF GE z sp c k x gp) f) r (mkH2 F W s) Q.
Proof.
  intros A B z sp c k x gp vz vs vc vk vx vg f r F W s Q HZ HS HC HK HX HH K.
  eapply (wp2_left _ _ _ _ (sigmaPedersenCheck GE vz vs vc vk vx vg) _ _
    (fun (b b' : bool) h' => b = b' /\ exists s', h' = mkH2 F W s' /\ Pre s s')).
  2:{ intros u h' (-> & s' & -> & P). exact (K s' P). }
  unfold iCheckE. apply (iCommitE_ok z sp gp vz vs (gpH vg)); try assumption. intros p s1 P1 X1. cbv beta. wstep. wstep. wstep. wstep. wstep.
  split; [reflexivity|]. eexists. split; [reflexivity|pr].
Qed.
(** a nil response *)
Lemma iCheckE_nil : forall {A B} z sp c k x gp vz (f : bool -> M2 GF GE A) (r : res B) F W s vh Q,
  zAt s z (Some vz) -> zAt s sp None -> eAt s (kH gp) (Some vh) -> r = Panic ->
  wp2 (mbind2 GF GE (iCheckE GF GE z sp c k x gp) f) r (mkH2 F W s) Q.
Proof.
  intros A B z sp c k x gp vz f r F W s vh Q HZ HS HH N.
  assert (K : wp GE (iPedersenCommit GE z sp (kH gp)) (Panic : res unit) s (fun _ _ _ => True)).
  { unfold iPedersenCommit. ws. eapply wp_eScale_nil; [tr | tr | right; reflexivity | reflexivity]. }
  unfold wp in K.
  unfold wp2, mbind2, iCheckE, mbind2, iCommitE, onE. cbn [sub fe fw].
  destruct (iPedersenCommit GE z sp (kH gp) s) as [[u s']| | |]; try discriminate K; [|exact N]. destruct K as (v & K & _). discriminate.
Qed.
Lemma iFSChallenge_ok : forall {A B} w Kp K1 K2 bc vw vp v1 v2 (f : ptr -> M2 GF GE A) (g : Z -> res B) F W s Q,
  fAt F w (Some vw) -> fAt F Kp (Some vp) -> eAt s K1 (Some v1) -> eAt s K2 (Some v2) ->
  (forall p c s', Pre s s' -> zAt s' p (Some c) -> wp2 (f p) (g c) (mkH2 F W s') Q) ->
  wp2 (mbind2 GF GE (iFSChallenge GF GE HO w Kp K1 K2 bc) f) (bind (getFSChallenge GF GE HO vw vp v1 v2 bc) g) (mkH2 F W s) Q.
Proof.
  intros A B w Kp K1 K2 bc vw vp v1 v2 f g F W s Q H1 H2 H3 H4 K.
  eapply (wp2_bind _ _ _ _ (getFSChallenge GF GE HO vw vp v1 v2 bc) _ _ (fun p c h' => exists s', h' = mkH2 F W s' /\ Pre s s' /\ zAt s' p (Some c))).
  2:{ intros p c h' (s' & -> & P & Z). exact (K p c s' P Z). }
  unfold iFSChallenge. wstep. wstep. wstep. wstep.
  replace (getFSChallenge GF GE HO vw vp v1 v2 bc) with (bind (getFSChallenge GF GE HO vw vp v1 v2 bc) (fun c => Ok c)) at 2
    by (destruct (getFSChallenge GF GE HO vw vp v1 v2 bc); reflexivity).
  apply wp2_lift. intros c _. wstep. wstep. eexists. split; [reflexivity|]. split; [pr|tr].
Qed.
Lemma iBounds_ok : forall {A B} two q v (f : ptr * ptr -> M2 GF GE A) (r : res B) F W s Q,
  zAt s two (Some 2) -> repPP F s q v ->
  (forall lo up s', Pre s s' -> zAt s' lo (Some (zLowerBound GF GE v)) -> zAt s' up (Some (zUpperBound GF GE v)) -> wp2 (f (lo, up)) r (mkH2 F W s') Q) ->
  wp2 (mbind2 GF GE (iBounds GF GE two q) f) r (mkH2 F W s) Q.
Proof.
  intros A B two q v f r F W s Q HT HR K.
  eapply (wp2_left _ _ _ _ tt _ _ (fun (b : ptr * ptr) _ h' => exists s', h' = mkH2 F W s' /\ Pre s s' /\ zAt s' (fst b) (Some (zLowerBound GF GE v)) /\
    zAt s' (snd b) (Some (zUpperBound GF GE v)))).
  2:{ intros [lo up] h' (s' & -> & P & Z1 & Z2). exact (K lo up s' P Z1 Z2). }
  destruct HR as (E1 & E2 & _ & E4 & _). unfold iBounds, zLowerBound, zUpperBound, bigExp2. rewrite E1, E2, E4.
  change (if ?e <=? 0 then 1 else 2 ^ ?e) with (goExp 2 e). wstep. wstep. wstep. wstep. wstep. wstep.
  eexists. split; [reflexivity|]. split; [pr|]. cbn [fst snd]. split; tr.
Qed.

Ltac p2 := split; cbn [fe fw sub]; [prF|pr].
Ltac dnil := match goal with |- wp2 _ (bind (deref ?o) _) _ _ => destruct o; cbn [deref bind] end.
(** reading a nil integer *)
Lemma wp2_rdnil : forall {A B} p (f : Z -> M2 GF GE A) (r : res B) F W s Q, zAt s p None -> r = Panic ->
  wp2 (mbind2 GF GE (rdInt GF GE p) f) r (mkH2 F W s) Q.
Proof. intros A B p f r F W s Q H N. cbn in H. subst p. exact N. Qed.
Lemma wp2_opFnil : forall {A B} (op : ptr -> M2 GF GE unit) (f : ptr -> M2 GF GE A) (r : res B) F W s Q,
  (forall e l W, op e (mkH2 (F ++ l) W s) = Panic) -> r = Panic -> wp2 (mbind2 GF GE (elementF GF GE op) f) r (mkH2 F W s) Q.
Proof. intros A B op f r F W s Q O N. unfold wp2, mbind2, elementF, mbind2, newF. cbn [fe fw sub]. rewrite O. exact N. Qed.
Lemma wp2_Enil : forall {A A' B B'} (c : M GE A) (f : A -> M2 GF GE A') (r : res B) F W s Q,
  wp GE (mbind GE c (ret GE)) (Panic : res B') s (fun _ _ _ => True) -> r = Panic -> wp2 (mbind2 GF GE (onE GF GE c) f) r (mkH2 F W s) Q.
Proof.
  intros A A' B B' c f r F W s Q H N. unfold wp, mbind in H. unfold wp2, mbind2, onE. cbn [sub fe fw].
  destruct (c s) as [[u s']| | |]; try discriminate H; [|exact N]. destruct H as (v & E & _). discriminate.
Qed.

Lemma bind_bind : forall {A B C} (m : res A) (f : A -> res B) (k : B -> res C), bind (bind m f) k = bind m (fun x => bind (f x) k).
Proof. intros A B C m f k. destruct m; reflexivity. Qed.
Lemma wp_zMod_nil : forall {A B} a b (o : option Z) (f : ptr -> M GE A) (r : res B) s Q,
  zAt s a o -> b = None -> r = Panic -> wp GE (mbind GE (bigInt GE (fun e => zMod GE e a b)) f) r s Q.
Proof.
  intros A B a b o f r s Q X -> N. unfold wp, mbind, bigInt, zMod, mbind, newZ. cbn [rdZ]. destruct o as [v|].
  - destruct X as (n & -> & X). cbn. rewrite nth_error_app1, X; [exact N|]. apply nth_error_Some. congruence.
  - cbn in X. subst a. exact N.
Qed.

Theorem iVpVerify_ok : forall q v qc vc two F W s, repSP F s q v -> repComm F s qc vc -> zAt s two (Some 2) ->
  wp2 (iVpVerify GF GE HO q qc two) (vpVerify GF GE HO v vc) (mkH2 F W s) (fun (r x : bool) h' => Pre2 (mkH2 F W s) h' /\ r = x).
Proof.
  intros q v qc vc two F W s (H1 & H2 & H3 & H4 & H5 & H6 & H7 & H8 & H9 & HP) (C1 & C2 & C3 & C4) HT.
  pose proof HP as (_ & EBc & _ & _ & _ & _ & (_ & HHF & _) & (_ & HHE & _)).
  unfold iVpVerify, vpVerify. cbv zeta. rewrite EBc.
  apply (iBounds_ok two (uParams q) (sParams v)); [tr | exact HP|]. intros lo up s1 P1 Z1 Z2. cbv beta. cbn [fst snd].
  destruct (sZ v) as [z|]; cbn [deref bind]; [|apply wp2_rdnil; [tr|reflexivity]]. wstep. wstep. wstep.
  destruct ((z <? zLowerBound GF GE (sParams v)) || (zUpperBound GF GE (sParams v) <=? z)).
  { wstep. split; [p2|reflexivity]. }
  apply iFSChallenge_ok; try trF; try tr. intros ch c s2 P2 Z3. cbv beta. wstep.
  destruct (sChal v) as [c'|]; cbn [deref bind]; [|apply wp2_rdnil; [tr|reflexivity]]. wstep.
  destruct (c =? c'); cbn [negb]. 2:{ wstep. split; [p2|reflexivity]. }
  destruct (sSp v) as [sp|]; cbn [deref bind].
  2:{ cbn in H7. rewrite H7. apply wp2_opFnil; [reflexivity|reflexivity]. }
  wstep. wstep. wstep. wstep. wstep.
  match goal with |- context [gEq GF ?a ?b] => destruct (gEq GF a b) end; cbn [negb]. 2:{ wstep. split; [p2|reflexivity]. }
  eapply (iCheckF_ok (uZ q) (uSp q) (uChal q) (uKp q) (uXp qc) (wGFF (uParams q)) z sp c' (sKp v) (cXp vc) (vGFF (sParams v))); try trF; try tr.
  intros F4 W4 P4. destruct (sigmaPedersenCheck GF z sp c' (sKp v) (cXp vc) (vGFF (sParams v))); cbn [negb]. 2:{ wstep. split; [p2|reflexivity]. }
  destruct (sSq1 v) as [sq1|]; cbn [deref bind]; [|eapply iCheckE_nil; [tr|tr|tr|reflexivity]].
  eapply (iCheckE_ok (uZ q) (uSq1 q) (uChal q) (uKq1 q) (uXq1 qc) (wGEC (uParams q)) z sq1 c' (sKq1 v) (cXq1 vc) (vGEC (sParams v))); try tr.
  intros s5 P5. destruct (sigmaPedersenCheck GE z sq1 c' (sKq1 v) (cXq1 vc) (vGEC (sParams v))); cbn [negb]. 2:{ wstep. split; [p2|reflexivity]. }
  destruct (sSq2 v) as [sq2|]; cbn [deref bind]; [|eapply iCheckE_nil; [tr|tr|tr|reflexivity]].
  eapply (iCheckE_ok (uZ q) (uSq2 q) (uChal q) (uKq2 q) (uXq2 qc) (wGEC (uParams q)) z sq2 c' (sKq2 v) (cXq2 vc) (vGEC (sParams v))); try tr.
  intros s6 P6. destruct (sigmaPedersenCheck GE z sq2 c' (sKq2 v) (cXq2 vc) (vGEC (sParams v))); cbn [negb]; wstep; (split; [p2|reflexivity]).
Qed.

Lemma iVpLoop_ok : forall draws secret rp rq1 rq2 vs vrp v1 v2 q v lo up F W s,
  zAt s secret (Some vs) -> zAt s rp (Some vrp) -> zAt s rq1 (Some v1) -> zAt s rq2 (Some v2) -> repPP F s q v ->
  zAt s lo (Some (zLowerBound GF GE v)) -> zAt s up (Some (zUpperBound GF GE v)) ->
  wp2 (iVpLoop GF GE HO secret rp rq1 rq2 q lo up draws) (vpProve GF GE HO vs vrp v1 v2 v draws) (mkH2 F W s)
    (fun (sp : SigmaProofP) (pf : SigmaProof GF GE) h' => Pre2 (mkH2 F W s) h' /\ repSP (fe _ _ h') (sub _ _ h') sp pf).
Proof.
  induction draws as [|dr t IH]; intros secret rp rq1 rq2 vs vrp v1 v2 q v lo up F W s HS HRp HR1 HR2 HP HL HU; cbn [iVpLoop vpProve].
  { reflexivity. }
  pose proof HP as (_ & EBc & _ & _ & _ & _ & (_ & HHF & HNF & _) & (_ & HHE & HNE & _)).
  unfold vpIter, posN. rewrite EBc. wstep.
  destruct (gpN (vGFF v)) as [nf|]; cbn [deref bind].
  2:{ unfold int_. apply (wp2_Enil (B' := unit)); [|reflexivity]. eapply wp_zMod_nil; [tr|exact HNF|reflexivity]. }
  wstep. wstep. wstep.
  unfold randInt. destruct (nf <=? 0); cbn [bind]; [reflexivity|]. apply wp2_liftOk. wstep.
  destruct (gpN (vGEC v)) as [ne|]; cbn [deref bind]; [|apply wp2_rdnil; [tr|reflexivity]].
  wstep. unfold randInt. destruct (ne <=? 0); cbn [bind]; [reflexivity|]. apply wp2_liftOk. wstep. apply wp2_liftOk. wstep. wstep.
  eapply wp2_left; [eapply (iCommitF_ok _ _ (wGFF q)); first [trF|tr]|]. intros Kp hk (F1 & W1 & -> & P1 & X1). cbv beta.
  eapply (iCommitE_ok _ _ (wGEC q)); [tr|tr|tr|]. intros K1 s1 PE1 XE1. cbv beta.
  eapply (iCommitE_ok _ _ (wGEC q)); [tr|tr|tr|]. intros K2 s2 PE2 XE2. cbv beta.
  unfold vpCommit. rewrite !bind_bind.
  apply iFSChallenge_ok; try trF; try tr. intros ch c s3 P3 Z3. cbv beta zeta.
  wstep. wstep. wstep. wstep. wstep.
  match goal with |- context [(?a <? ?b) || (?c <=? ?d)] => destruct ((a <? b) || (c <=? d)) end; cbn [bind].
  - eapply wp2_weaken; [apply (IH secret rp rq1 rq2 vs vrp v1 v2 q v lo up); try tr|].
    + apply (repPP_pre F W s F1 W1); [prF|pr|exact HP].
    + intros u w hz ([PF PE] & R). split; [|exact R]. split; [eapply PreF_trans; [|exact PF]; cbn [fe fw]; prF|eapply Pre_trans; [|exact PE]; cbn [sub]; pr].
  - wstep. wstep. wstep. wstep. wstep. wstep. wstep. wstep. wstep. wstep.
    split; [split; cbn [fe fw sub]; [prF|pr]|]. cbn [fe sub]. unfold repSP.
    cbn [uW uKp uKq1 uKq2 uChal uZ uSp uSq1 uSq2 uParams sW sKp sKq1 sKq2 sChal sZ sSp sSq1 sSq2 sParams].
    do 2 (split; [trF|]). do 7 (split; [tr|]). apply (repPP_pre F W s F1 W1); [prF|pr|exact HP].
Qed.

Theorem iVpProve_ok : forall draws secret rp rq1 rq2 vs vrp v1 v2 q v two F W s,
  zAt s secret (Some vs) -> zAt s rp (Some vrp) -> zAt s rq1 (Some v1) -> zAt s rq2 (Some v2) -> repPP F s q v -> zAt s two (Some 2) ->
  wp2 (iVpProve GF GE HO secret rp rq1 rq2 q draws two) (vpProve GF GE HO vs vrp v1 v2 v draws) (mkH2 F W s)
    (fun (sp : SigmaProofP) (pf : SigmaProof GF GE) h' => Pre2 (mkH2 F W s) h' /\ repSP (fe _ _ h') (sub _ _ h') sp pf).
Proof.
  intros draws secret rp rq1 rq2 vs vrp v1 v2 q v two F W s HS HRp HR1 HR2 HP HT. unfold iVpProve.
  apply (iBounds_ok two q v); [tr | exact HP|]. intros lo up s1 P1 Z1 Z2. cbn [fst snd].
  eapply wp2_weaken; [apply (iVpLoop_ok draws secret rp rq1 rq2 vs vrp v1 v2 q v lo up); try tr|].
  - apply (repPP_pre F W s F W); [prF|pr|exact HP].
  - intros u w hz ([PF PE] & R). split; [|exact R]. split; [exact PF|]. eapply Pre_trans; [|exact PE]. cbn [sub]. pr.
Qed.

Theorem iEncryptVote_ok : forall choice pk vpk r N F W s, fAt F pk (Some vpk) -> zAt s N (Some (gN GF)) ->
  wp2 (iEncryptVote GF GE choice pk r N) (encryptVote GF choice vpk r) (mkH2 F W s)
    (fun (c : CiphertextP * ptr) (w : Ciphertext GF * Z) h' =>
       Pre2 (mkH2 F W s) h' /\ repCT (fe _ _ h') (fst c) (fst w) /\ zAt (sub _ _ h') (snd c) (Some (snd w))).
Proof.
  intros choice pk vpk r N F W s HK HN. unfold iEncryptVote, encryptVote. wstep. wstep. wstep.
  apply wp2_lift. intros r' _. wstep. wstep. wstep. wstep. wstep. wstep. wstep. wstep. wstep.
  split; [p2|]. cbn [fst snd fe sub]. split; [split; trF|tr].
Qed.

Lemma repBP_pre : forall s s' q v, Pre s s' -> repBP GE s q v -> repBP GE s' q v.
Proof.
  intros s s' q v P (H1 & H2 & H3 & H4 & H5 & H6 & H7 & H8 & H9 & H10).
  do 5 (split; [tr|]). do 3 (split; [tr|]). split; [exact (repIPProof_pre _ _ _ _ _ P H9) | exact (repBPParams_pre _ _ _ _ _ P H10)].
Qed.
Lemma repBallot_pre : forall h h' q v, Pre2 h h' -> repBallot (fe _ _ h) (sub _ _ h) q v -> repBallot (fe _ _ h') (sub _ _ h') q v.
Proof.
  intros h h' q v [PF PE] ((A & B) & L & U & V). split; [split; eapply fAt_pre; eassumption|].
  split; [exact (repBP_pre _ _ _ _ PE L)|]. split; [exact (repBP_pre _ _ _ _ PE U)|]. exact (repSP_pre _ _ _ _ _ _ _ _ PF PE V).
Qed.
Lemma repPub_pre : forall h h' q v, Pre2 h h' -> repPub (fe _ _ h) (sub _ _ h) q v -> repPub (fe _ _ h') (sub _ _ h') q v.
Proof.
  intros h h' q v [PF PE] (A & B & C & D & E1 & E2 & H). split; [exact (repGF_pre _ _ _ _ _ _ _ _ PF PE A)|].
  split; [exact (repGE_pre _ _ _ _ PE B)|]. split; [eapply fAt_pre; eassumption|]. do 2 (split; [assumption|]).
  split; [exact (repBPParams_pre _ _ _ _ _ PE E2) | exact (repPP_pre _ _ _ _ _ _ _ _ PF PE H)].
Qed.
Lemma Pre2_trans : forall h1 h2 h3, Pre2 h1 h2 -> Pre2 h2 h3 -> Pre2 h1 h3.
Proof. intros h1 h2 h3 [A B] [C D]. split; [eapply PreF_trans; eassumption | eapply Pre_trans; eassumption]. Qed.

Theorem iVerifyVote_ok : forall q v rp vrp N two F W s, repBallot F s q v -> repPP F s rp vrp -> zAt s N (Some (gN GE)) -> zAt s two (Some 2) ->
  wp2 (iVerifyVote GF GE HO q rp N two) (verifyVote GF GE HO v vrp) (mkH2 F W s) (fun (r x : bool * nat) h' => Pre2 (mkH2 F W s) h' /\ r = x).
Proof.
  intros q v rp vrp N two F W s ((HU & HV) & HL & HUp & HS) HP HN HT. unfold iVerifyVote, verifyVote.
  destruct HP as (_ & _ & _ & _ & ELo & EHi & _). rewrite ELo, EHi.
  eapply wp2_E; [apply (iVerify_ok GE HO (yLower q) (bdLower v) N s HL HN)|]. intros ok1 b1 s1 (P1 & ->). cbv beta.
  destruct b1; cbn [negb]. 2:{ wstep. split; [p2|reflexivity]. }
  eapply wp2_E; [apply (iVerify_ok GE HO (yUpper q) (bdUpper v) N s1); [apply (repBP_pre s); assumption|tr]|]. intros ok2 b2 s2 (P2 & ->). cbv beta.
  destruct b2; cbn [negb]. 2:{ wstep. split; [p2|reflexivity]. }
  pose proof (proj1 HL) as HVL. pose proof (proj1 HUp) as HVU.
  wstep. wstep. wstep. wstep. wstep. wstep. wstep. wstep. cbv zeta.
  eapply wp2_bind; [apply (iVpVerify_ok (yVote q) (bdVote v) _ (mkVerCommitments (ctU (bdBallot v)) (ctV (bdBallot v))
    (gAdd GE (gBase GE (vLo vrp)) (pV (bdLower v))) (gAdd GE (gBase GE (vHi vrp)) (gScale GE (pV (bdUpper v)) (-1)))))|].
  - eapply (repSP_pre F W s F W); [prF|pr|exact HS].
  - unfold repComm. cbn [uY uXp uXq1 uXq2 cY cXp cXq1 cXq2]. split; [trF|]. split; [trF|]. split; tr.
  - tr.
  - intros r x hk ([PF PE] & ->). cbv beta. wstep. split; [|reflexivity].
    split; [exact PF|]. eapply Pre_trans; [|exact PE]. cbn [sub]. pr.
Qed.

Theorem iCastVote_ok : forall q v cr NF NE two F W s, repPub F s q v -> zAt s NF (Some (gN GF)) -> zAt s NE (Some (gN GE)) -> zAt s two (Some 2) ->
  wp2 (iCastVote GF GE HO q cr NF NE two) (castVote GF GE HO v cr) (mkH2 F W s)
    (fun (r : BallotDataP) (x : BallotData GF GE) h' => Pre2 (mkH2 F W s) h' /\ repBallot (fe _ _ h') (sub _ _ h') r x).
Proof.
  intros q v cr NF NE two F W s HP HF HE HT. pose proof HP as (_ & (_ & _ & HNE & _) & HK & EMin & EMax & HB & HR).
  unfold iCastVote, castVote. rewrite EMin, EMax. apply wp2_lift. intros rb _. cbv zeta.
  eapply wp2_bind; [apply (iEncryptVote_ok _ (yEGPK q) (ppEGPK v) (cr_eg cr) NF F W s HK HF)|].
  intros [ct rp] [vct vrp] [F1 W1 s1] ([PF1 PE1] & HC & HZ). cbn [fe fw sub fst snd] in *.
  wstep. eapply wp2_E; [apply iProve_ok; [tr|eapply repBPParams_pre; [|exact HB]; pr|tr]|].
  intros [bp1 rq1] [vbp1 vrq1] s2 (PE2 & HB1 & HZ1). cbn [fst snd] in *.
  wstep. eapply wp2_E; [apply iProve_ok; [tr|eapply repBPParams_pre; [|exact HB]; pr|tr]|].
  intros [bp2 rq2] [vbp2 vrq2] s3 (PE3 & HB2 & HZ2). cbn [fst snd] in *.
  destruct (gpN (ppEC v)) as [ne|]; cbn [deref bind].
  2:{ unfold int_. apply (wp2_Enil (B' := unit)); [|reflexivity].
      unfold wp, mbind, bigInt, zSub, mbind, newZ. change (kN (yEC q) = None) in HNE. rewrite HNE. reflexivity. }
  wstep. wstep.
  eapply wp2_bind; [eapply iVpProve_ok; [tr|tr|tr|tr|apply (repPP_pre F W s F1 W1); [prF|pr|exact HR]|tr]|].
  intros sp pf [F4 W4 s4] ([PF4 PE4] & HSP). cbn [fe fw sub] in *. wstep. split.
  - split; cbn [fe fw sub]; [prF|pr].
  - cbn [fe sub]. destruct HC as [HC1 HC2]. split; [split; trF|]. split; [apply (repBP_pre s2); [pr|exact HB1]|].
    split; [apply (repBP_pre s3); [pr|exact HB2]|exact HSP].
Qed.

Lemma iMapTo_ok : forall {A B} str (f : ptr -> M GE A) (g : E GE -> res B) s Q,
  (forall p v s', Pre s s' -> eAt s' p (Some v) -> wp GE (f p) (g v) s' Q) -> wp GE (mbind GE (iMapTo GE str) f) (bind (gMap GE str) g) s Q.
Proof.
  intros A B str f g s Q K. unfold wp, mbind, iMapTo, mbind, lift. destruct (gMap GE str) as [v| | |]; cbn [bind]; try reflexivity.
  unfold newE. destruct (alloc_e GE s v [] (Forall_nil _)) as (H1 & H2 & H3). exact (K _ v _ H1 H2).
Qed.
Theorem iSetup_ok : forall (nan64 range : Z) s,
  wp GE (iSetup GE nan64 range) (Setup GE nan64 range) s (fun q v s' => Pre s s' /\ repBPParams GE s' q v).
Proof.
  intros nan64 range s. unfold iSetup, Setup. destruct (IsPowerOfTwo range); cbn [negb]; [|reflexivity].
  ws. ws. cbv zeta. apply iMapTo_ok. intros Hp vh s1 P1 X1. cbv beta.
  destruct (IsPowerOfTwo (goLog2 nan64 range)); cbn [negb]; [|reflexivity]. destruct (32 <? goLog2 nan64 range); [reflexivity|].
  apply (wp_lift_bind GE _ _ _ _ _ eq); [destruct (make_len (goLog2 nan64 range)); auto|]. intros n ? <-.
  eapply wp_bind.
  { apply (mmap_ok GE _ _ (fun _ (i j : nat) => i = j)
      (fun s (p : ptr * ptr) (v : E GE * E GE) => eAt s (fst p) (Some (fst v)) /\ eAt s (snd p) (Some (snd v))) (fun _ _ => True)).
    - intros. assumption.
    - intros t t' p y P [A B]. split; tr.
    - auto.
    - intros h1 i j P ->. apply iMapTo_ok. intros p1 v1 t1 Q1 Y1. cbv beta. apply iMapTo_ok. intros p2 v2 t2 Q2 Y2. cbv beta.
      apply wp_ret. split; [pr|]. split; [split; cbn [fst snd]; tr | exact I].
    - generalize (seq 0 n). intros l. induction l; constructor; auto. }
  intros gh vgh s2 (P2 & F2 & _). cbv beta. apply wp_ret. split; [pr|].
  unfold repBPParams. cbn [rN rG rH rGg rHh bpN bpG bpH bpGg bpHh]. split; [reflexivity|]. do 2 (split; [tr|]).
  split; clear - F2; induction F2 as [|x y l l' [A B] _ IH]; cbn; constructor; assumption.
Qed.
End Votes.

Section Run.
Context (d : ModPDesc) (GE : Grp) (HO : Oracles).
Let GF := ModPGrp d.

Theorem iMainSetup_ok : forall nan64 NF PF NE F W s,
  zAt GE s NF (Some (gN GF)) -> zAt GE s PF (Some (gP GF)) -> zAt GE s NE (Some (gN GE)) ->
  wp2 GF GE (iMainSetup GF GE nan64 NF PF NE) (setup d GE nan64) (mkH2 GF GE F W s)
    (fun q v h' => Pre2 GF GE (mkH2 GF GE F W s) h' /\ repPub GF GE (fe _ _ h') (sub _ _ h') q v).
Proof.
  intros nan64 NF PF NE F W s HF HP HE. unfold iMainSetup, setup. wstep.
  eapply wp2_E; [apply iSetup_ok|]. intros bp vbp s1 (P1 & HB). cbv beta zeta.
  apply wp2_newF. intros gF F2 W2 PF2 X2. cbv beta. wstep. wstep. wstep.
  unfold vpSetup. destruct (wrap16 (bitLen (gN GE)) - 1 - 16 - 224 <? 1); cbn [bind].
  { reflexivity. }
  wstep. split; [split; cbn [fe fw sub]; [prF|pr]|]. cbn [fe sub]. pose proof HB as (_ & _ & HH & _).
  unfold repPub, repPP, repGF, repGE.
  cbn [yFF yEC yEGPK yMin yMax yBP yRP ppFF ppEC ppEGPK ppMin ppMax ppBP ppRP kG kH kN kF gpG gpH gpN gpF wBx wBc wBg wBb wLo wHi wGFF wGEC vBx vBc vBg vBb vLo vHi vGFF vGEC].
  assert (HB' : repBPParams GE h'0 bp vbp) by (apply (repBPParams_pre GE s1); [pr|exact HB]).
  repeat first [exact HB' | match goal with |- _ /\ _ => split end]; first [reflexivity | trF | tr].
Qed.
End Run.
