(** The pointer-level functions of Imp.v compute what their value-level models compute, and change no object
    that existed before the call. *)
From Verif Require Import GoBase Json GroupIface Vector BIP BP Imp.

Section ImpProofs.
Context (G : Grp) (HO : Oracles).
Local Notation heap := (heap G).
Local Notation M := (M G).
Implicit Types (h : heap) (p q e a b s : ptr).

(** ** What a pointer denotes *)
Definition eAt h p (o : option (E G)) : Prop :=
  match o with Some v => exists r, p = Some r /\ nth_error (he G h) r = Some v | None => p = None end.
Definition zAt h p (o : option Z) : Prop :=
  match o with Some v => exists r, p = Some r /\ nth_error (hz G h) r = Some v | None => p = None end.

(** The access is to an object that does not exist in [h]. *)
Definition away h (w : access) : Prop :=
  match w with WrE r => (length (he G h) <= r)%nat | WrZ r => (length (hz G h) <= r)%nat end.
(** Every object of [h] has the same value in [h'], and no object of [h] is written on the way to [h']. *)
Record Pre h h' : Prop := mkPre {
  pre_w : exists l, hw G h' = l ++ hw G h /\ Forall (away h) l;
  pre_e : forall p o, eAt h p o -> eAt h' p o;
  pre_z : forall p o, zAt h p o -> zAt h' p o;
  pre_le : (length (he G h) <= length (he G h'))%nat;
  pre_lz : (length (hz G h) <= length (hz G h'))%nat
}.
(** [p] is an object that did not exist in [h]. *)
Definition eNew h p : Prop := exists r, p = Some r /\ (length (he G h) <= r)%nat.
Definition zNew h p : Prop := exists r, p = Some r /\ (length (hz G h) <= r)%nat.
(** One object is overwritten. *)
Record UpdE h h' p (v : E G) : Prop := mkUpdE {
  ue_w : exists r, p = Some r /\ hw G h' = WrE r :: hw G h;
  ue_eq : eAt h' p (Some v);
  ue_e : forall q o, q <> p -> eAt h q o -> eAt h' q o;
  ue_z : forall q o, zAt h q o -> zAt h' q o;
  ue_le : length (he G h) = length (he G h');
  ue_lz : length (hz G h) = length (hz G h')
}.
Record UpdZ h h' p (v : Z) : Prop := mkUpdZ {
  uz_w : exists r, p = Some r /\ hw G h' = WrZ r :: hw G h;
  uz_eq : zAt h' p (Some v);
  uz_z : forall q o, q <> p -> zAt h q o -> zAt h' q o;
  uz_e : forall q o, eAt h q o -> eAt h' q o;
  uz_le : length (he G h) = length (he G h');
  uz_lz : length (hz G h) = length (hz G h')
}.

Lemma Pre_refl : forall h, Pre h h.
Proof. intros h. constructor; auto. exists []. split; [reflexivity | constructor]. Qed.
Lemma away_mono : forall h h' l, (length (he G h) <= length (he G h'))%nat -> (length (hz G h) <= length (hz G h'))%nat ->
  Forall (away h') l -> Forall (away h) l.
Proof. intros h h' l L1 L2 H. induction H as [|[r|r] l A H IH]; constructor; try assumption; cbn in *; lia. Qed.
Lemma Pre_trans : forall h1 h2 h3, Pre h1 h2 -> Pre h2 h3 -> Pre h1 h3.
Proof.
  intros h1 h2 h3 [(l & W & F) A B C D] [(l' & W' & F') A' B' C' D']. constructor; eauto; try lia.
  exists (l' ++ l). split; [rewrite W', W; apply app_assoc|].
  apply Forall_app. split; [exact (away_mono h1 h2 l' C D F') | exact F].
Qed.
Lemma eNew_mono : forall h h' p, Pre h h' -> eNew h' p -> eNew h p.
Proof. intros h h' p [_ _ _ L _] (r & -> & H). exists r. split; [reflexivity | lia]. Qed.
Lemma zNew_mono : forall h h' p, Pre h h' -> zNew h' p -> zNew h p.
Proof. intros h h' p [_ _ _ _ L] (r & -> & H). exists r. split; [reflexivity | lia]. Qed.
Lemma ne_e : forall h p q o, eNew h q -> eAt h p o -> p <> q.
Proof.
  intros h p q o (r & -> & H) A E. destruct o as [v|]; cbn in A.
  - destruct A as (r' & -> & A). injection E as ->.
    assert (nth_error (he G h) r <> None) by congruence. apply nth_error_Some in H0. lia.
  - congruence.
Qed.
Lemma ne_z : forall h p q o, zNew h q -> zAt h p o -> p <> q.
Proof.
  intros h p q o (r & -> & H) A E. destruct o as [v|]; cbn in A.
  - destruct A as (r' & -> & A). injection E as ->.
    assert (nth_error (hz G h) r <> None) by congruence. apply nth_error_Some in H0. lia.
  - congruence.
Qed.
Lemma ne_e' : forall h p q o, eNew h p -> eAt h q o -> p <> q.
Proof. intros h p q o N A E. symmetry in E. revert E. exact (ne_e h q p o N A). Qed.
Lemma ne_z' : forall h p q o, zNew h p -> zAt h q o -> p <> q.
Proof. intros h p q o N A E. symmetry in E. revert E. exact (ne_z h q p o N A). Qed.
Lemma Pre_updE : forall h0 h h' p v, UpdE h h' p v -> Pre h0 h -> eNew h0 p -> Pre h0 h'.
Proof.
  intros h0 h h' p v U P N. constructor.
  - destruct (ue_w _ _ _ _ U) as (r & -> & W), (pre_w _ _ P) as (l & W' & F). exists (WrE r :: l).
    split; [rewrite W, W'; reflexivity|]. constructor; [|exact F]. destruct N as (r' & E & L). injection E as <-. exact L.
  - intros q o A. apply (ue_e _ _ _ _ U); [exact (ne_e h0 q p o N A) | exact (pre_e _ _ P q o A)].
  - intros q o A. apply (ue_z _ _ _ _ U), (pre_z _ _ P), A.
  - rewrite <- (ue_le _ _ _ _ U). apply (pre_le _ _ P).
  - rewrite <- (ue_lz _ _ _ _ U). apply (pre_lz _ _ P).
Qed.
Lemma Pre_updZ : forall h0 h h' p v, UpdZ h h' p v -> Pre h0 h -> zNew h0 p -> Pre h0 h'.
Proof.
  intros h0 h h' p v U P N. constructor.
  - destruct (uz_w _ _ _ _ U) as (r & -> & W), (pre_w _ _ P) as (l & W' & F). exists (WrZ r :: l).
    split; [rewrite W, W'; reflexivity|]. constructor; [|exact F]. destruct N as (r' & E & L). injection E as <-. exact L.
  - intros q o A. apply (uz_e _ _ _ _ U), (pre_e _ _ P), A.
  - intros q o A. apply (uz_z _ _ _ _ U); [exact (ne_z h0 q p o N A) | exact (pre_z _ _ P q o A)].
  - rewrite <- (uz_le _ _ _ _ U). apply (pre_le _ _ P).
  - rewrite <- (uz_lz _ _ _ _ U). apply (pre_lz _ _ P).
Qed.

(** ** Vectors of pointers *)
Definition esAt h (ps : list ptr) (vs : list (E G)) : Prop := Forall2 (fun p v => eAt h p (Some v)) ps vs.
Definition eosAt h (ps : list ptr) (os : list (option (E G))) : Prop := Forall2 (eAt h) ps os.
Definition zsAt h (ps : list ptr) (zs : list Z) : Prop := Forall2 (fun p z => zAt h p (Some z)) ps zs.
Definition other p (ps : list ptr) : Prop := Forall (fun q => q <> p) ps.

Lemma eos_es : forall h ps vs, esAt h ps vs <-> eosAt h ps (map Some vs).
Proof.
  intros h ps vs. unfold esAt, eosAt. split; intros H.
  - induction H; cbn [map]; constructor; assumption.
  - revert ps H. induction vs as [|v vs IH]; cbn [map]; intros ps H; inversion H; subst; constructor; auto.
Qed.
Lemma es_pre : forall h h' ps vs, Pre h h' -> esAt h ps vs -> esAt h' ps vs.
Proof. intros h h' ps vs P H. induction H; constructor; [exact (pre_e _ _ P _ _ H) | assumption]. Qed.
Lemma eos_pre : forall h h' ps vs, Pre h h' -> eosAt h ps vs -> eosAt h' ps vs.
Proof. intros h h' ps vs P H. induction H; constructor; [exact (pre_e _ _ P _ _ H) | assumption]. Qed.
Lemma zs_pre : forall h h' ps vs, Pre h h' -> zsAt h ps vs -> zsAt h' ps vs.
Proof. intros h h' ps vs P H. induction H; constructor; [exact (pre_z _ _ P _ _ H) | assumption]. Qed.
Lemma eos_updE : forall h h' p v ps vs, UpdE h h' p v -> other p ps -> eosAt h ps vs -> eosAt h' ps vs.
Proof.
  intros h h' p v ps vs U N H. induction H as [|q o ps vs A B IH]; constructor; inversion N; subst.
  - apply (ue_e _ _ _ _ U); assumption.
  - apply IH; assumption.
Qed.
Lemma es_updE : forall h h' p v ps vs, UpdE h h' p v -> other p ps -> esAt h ps vs -> esAt h' ps vs.
Proof. intros h h' p v ps vs U N H. apply eos_es. apply eos_es in H. exact (eos_updE _ _ _ _ _ _ U N H). Qed.
Lemma zs_updE : forall h h' p v ps vs, UpdE h h' p v -> zsAt h ps vs -> zsAt h' ps vs.
Proof. intros h h' p v ps vs U H. induction H; constructor; [exact (ue_z _ _ _ _ U _ _ H) | assumption]. Qed.
Lemma eos_updZ : forall h h' p v ps vs, UpdZ h h' p v -> eosAt h ps vs -> eosAt h' ps vs.
Proof. intros h h' p v ps vs U H. induction H; constructor; [exact (uz_e _ _ _ _ U _ _ H) | assumption]. Qed.
Lemma es_updZ : forall h h' p v ps vs, UpdZ h h' p v -> esAt h ps vs -> esAt h' ps vs.
Proof. intros h h' p v ps vs U H. induction H; constructor; [exact (uz_e _ _ _ _ U _ _ H) | assumption]. Qed.
Lemma zs_updZ : forall h h' p v ps vs, UpdZ h h' p v -> other p ps -> zsAt h ps vs -> zsAt h' ps vs.
Proof.
  intros h h' p v ps vs U N H. induction H as [|q o ps vs A B IH]; constructor; inversion N; subst.
  - apply (uz_z _ _ _ _ U); assumption.
  - apply IH; assumption.
Qed.
Lemma other_es : forall h q ps vs, eNew h q -> esAt h ps vs -> other q ps.
Proof. intros h q ps vs N H. induction H; constructor; [exact (ne_e h _ q _ N H) | assumption]. Qed.
Lemma other_eos : forall h q ps vs, eNew h q -> eosAt h ps vs -> other q ps.
Proof. intros h q ps vs N H. induction H; constructor; [exact (ne_e h _ q _ N H) | assumption]. Qed.
Lemma other_zs : forall h q ps vs, zNew h q -> zsAt h ps vs -> other q ps.
Proof. intros h q ps vs N H. induction H; constructor; [exact (ne_z h _ q _ N H) | assumption]. Qed.
Lemma other_new : forall h q o ps, eAt h q o -> Forall (eNew h) ps -> other q ps.
Proof. intros h q o ps A H. induction H; constructor; [exact (ne_e' h _ q o H A) | assumption]. Qed.
Lemma news_mono : forall h h' ps, Pre h h' -> Forall (eNew h') ps -> Forall (eNew h) ps.
Proof. intros h h' ps P H. induction H; constructor; [exact (eNew_mono _ _ _ P H) | assumption]. Qed.

(** ** Running a statement against its value-level model *)
Definition wp {A B} (c : M A) (r : res B) h (Q : A -> B -> heap -> Prop) : Prop :=
  match c h with
  | Ok (u, h') => exists v, r = Ok v /\ Q u v h'
  | Err => r = Err
  | Panic => r = Panic
  | OutOfFuel => r = OutOfFuel
  end.
(** both computations end without a result, in the same way *)
Definition sameFail {A B} (c : res A) (r : res B) : Prop :=
  match c, r with Err, Err | Panic, Panic | OutOfFuel, OutOfFuel => True | _, _ => False end.

Lemma wp_bind : forall {A A' B B'} (c : M A) (f : A -> M A') (r : res B) (g : B -> res B') h R Q,
  wp c r h R -> (forall u v h', R u v h' -> wp (f u) (g v) h' Q) -> wp (mbind G c f) (bind r g) h Q.
Proof.
  intros A A' B B' c f r g h R Q H K. unfold wp in *. unfold mbind.
  destruct (c h) as [[u h']| | |].
  - destruct H as (v & -> & HR). cbn. exact (K u v h' HR).
  - rewrite H. reflexivity.
  - rewrite H. reflexivity.
  - rewrite H. reflexivity.
Qed.
Lemma wp_left : forall {A A' B B'} (c : M A) (f : A -> M A') (v : B) (r : res B') h R Q,
  wp c (Ok v) h R -> (forall u h', R u v h' -> wp (f u) r h' Q) -> wp (mbind G c f) r h Q.
Proof.
  intros A A' B B' c f v r h R Q H K. unfold wp in H. unfold wp, mbind.
  destruct (c h) as [[u h']| | |].
  - destruct H as (v' & E & HR). injection E as <-. exact (K u h' HR).
  - discriminate H.
  - discriminate H.
  - discriminate H.
Qed.
Lemma wp_ret : forall {A B} (u : A) (v : B) h (Q : A -> B -> heap -> Prop), Q u v h -> wp (ret G u) (Ok v) h Q.
Proof. intros A B u v h Q H. exists v. split; [reflexivity | exact H]. Qed.
Lemma wp_weaken : forall {A B} (c : M A) (r : res B) h (R Q : A -> B -> heap -> Prop),
  wp c r h R -> (forall u v h', R u v h' -> Q u v h') -> wp c r h Q.
Proof.
  intros A B c r h R Q H K. unfold wp in *. destruct (c h) as [[u h']| | |]; try exact H.
  destruct H as (v & E & HR). exists v. split; [exact E | exact (K u v h' HR)].
Qed.
Lemma wp_tail : forall {A B} (c : M A) (r : res B) h Q, wp (mbind G c (ret G)) r h Q -> wp c r h Q.
Proof.
  intros A B c r h Q H. unfold wp, mbind in *. destruct (c h) as [[u h']| | |]; exact H.
Qed.
Lemma wp_lift : forall {A A' B'} (r0 : res A) (f : A -> M A') (r : res B') h Q,
  (forall u, r0 = Ok u -> wp (f u) r h Q) -> ((forall u, r0 <> Ok u) -> sameFail r0 r) ->
  wp (mbind G (lift G r0) f) r h Q.
Proof.
  intros A A' B' r0 f r h Q H K. unfold wp, mbind, lift. destruct r0 as [u| | |].
  - apply (H u eq_refl).
  - destruct r; destruct K; try discriminate; reflexivity.
  - destruct r; destruct K; try discriminate; reflexivity.
  - destruct r; destruct K; try discriminate; reflexivity.
Qed.
Lemma wp_liftOk : forall {A A' B'} (u : A) (f : A -> M A') (r : res B') h Q, wp (f u) r h Q -> wp (mbind G (lift G (Ok u)) f) r h Q.
Proof. intros A A' B' u f r h Q H. exact H. Qed.
Lemma wp_lift_bind : forall {A A' B B'} (c : res A) (f : A -> M A') (r : res B) (g : B -> res B') h
  (R : A -> B -> Prop) Q,
  match c, r with Ok u, Ok v => R u v | Err, Err | Panic, Panic | OutOfFuel, OutOfFuel => True | _, _ => False end ->
  (forall u v, R u v -> wp (f u) (g v) h Q) -> wp (mbind G (lift G c) f) (bind r g) h Q.
Proof.
  intros A A' B B' c f r g h R Q H K. unfold wp, mbind, lift.
  destruct c as [u| | |], r as [v| | |]; cbn; try contradiction; try reflexivity. apply K, H.
Qed.
Lemma wp_stop : forall {A B} (r0 : res A) (r : res B) h Q,
  sameFail r0 r -> wp (lift G r0) r h Q.
Proof.
  intros A B r0 r h Q H. unfold wp, lift. destruct r0 as [u| | |], r; try contradiction; reflexivity.
Qed.

(** ** The primitive statements *)
Lemma setNth_last : forall {A} (l : list A) (x y : A), setNth (l ++ [x]) (length l) y = l ++ [y].
Proof. intros A l x y. induction l as [|z l IH]; cbn; [reflexivity | rewrite IH; reflexivity]. Qed.
Lemma setNth_length : forall {A} (l : list A) i x, length (setNth l i x) = length l.
Proof. intros A l. induction l as [|z l IH]; intros [|i] x; cbn; congruence. Qed.
Lemma setNth_same : forall {A} (l : list A) i x, (i < length l)%nat -> nth_error (setNth l i x) i = Some x.
Proof.
  intros A l. induction l as [|z l IH]; intros [|i] x H; cbn in *; try lia; [reflexivity | apply IH; lia].
Qed.
Lemma setNth_other : forall {A} (l : list A) i j x, i <> j -> nth_error (setNth l i x) j = nth_error l j.
Proof.
  intros A l. induction l as [|z l IH]; intros [|i] [|j] x H; cbn; try reflexivity; try lia. apply IH. lia.
Qed.
Lemma alloc_e : forall h v l, Forall (away h) l -> let h' := mkHeap G (he G h ++ [v]) (hz G h) (l ++ hw G h) in
  Pre h h' /\ eAt h' (Some (length (he G h))) (Some v) /\ eNew h (Some (length (he G h))).
Proof.
  intros h v l F h'. split; [|split].
  - constructor; cbn.
    + exists l. split; [reflexivity | exact F].
    + intros p [w|] A; cbn in *; [|exact A]. destruct A as (r & -> & A). exists r. split; [reflexivity|].
      rewrite nth_error_app1; [exact A|]. apply nth_error_Some. congruence.
    + intros p o A. exact A.
    + rewrite app_length. lia.
    + lia.
  - exists (length (he G h)). split; [reflexivity|]. cbn. rewrite nth_error_app2, Nat.sub_diag; [reflexivity | lia].
  - exists (length (he G h)). split; [reflexivity | lia].
Qed.
Lemma alloc_z : forall h v l, Forall (away h) l -> let h' := mkHeap G (he G h) (hz G h ++ [v]) (l ++ hw G h) in
  Pre h h' /\ zAt h' (Some (length (hz G h))) (Some v) /\ zNew h (Some (length (hz G h))).
Proof.
  intros h v l F h'. split; [|split].
  - constructor; cbn.
    + exists l. split; [reflexivity | exact F].
    + intros p o A. exact A.
    + intros p [w|] A; cbn in *; [|exact A]. destruct A as (r & -> & A). exists r. split; [reflexivity|].
      rewrite nth_error_app1; [exact A|]. apply nth_error_Some. congruence.
    + lia.
    + rewrite app_length. lia.
  - exists (length (hz G h)). split; [reflexivity|]. cbn. rewrite nth_error_app2, Nat.sub_diag; [reflexivity | lia].
  - exists (length (hz G h)). split; [reflexivity | lia].
Qed.

Lemma rdE_ok : forall h p v, eAt h p (Some v) -> rdE G p h = Ok (v, h).
Proof. intros h p v (r & -> & H). cbn. rewrite H. reflexivity. Qed.
Lemma rdZ_ok : forall h p v, zAt h p (Some v) -> rdZ G p h = Ok (v, h).
Proof. intros h p v (r & -> & H). cbn. rewrite H. reflexivity. Qed.
Lemma wrE_ok : forall h p w v, eAt h p (Some w) -> exists h', wrE G p v h = Ok (tt, h') /\ UpdE h h' p v.
Proof.
  intros h p w v (r & -> & H). assert (L : (r < length (he G h))%nat) by (apply nth_error_Some; congruence).
  exists (mkHeap G (setNth (he G h) r v) (hz G h) (WrE r :: hw G h)). split.
  - unfold wrE, wrZ. rewrite (proj2 (Nat.ltb_lt _ _) L). reflexivity.
  - constructor; cbn.
    + exists r. split; reflexivity.
    + exists r. split; [reflexivity | apply setNth_same, L].
    + intros q [u|] N A; cbn in *; [|exact A]. destruct A as (r' & -> & A). exists r'. split; [reflexivity|].
      rewrite setNth_other; [exact A | congruence].
    + intros q o A. exact A.
    + symmetry. apply setNth_length.
    + reflexivity.
Qed.
Lemma wrZ_ok : forall h p w v, zAt h p (Some w) -> exists h', wrZ G p v h = Ok (tt, h') /\ UpdZ h h' p v.
Proof.
  intros h p w v (r & -> & H). assert (L : (r < length (hz G h))%nat) by (apply nth_error_Some; congruence).
  exists (mkHeap G (he G h) (setNth (hz G h) r v) (WrZ r :: hw G h)). split.
  - unfold wrE, wrZ. rewrite (proj2 (Nat.ltb_lt _ _) L). reflexivity.
  - constructor; cbn.
    + exists r. split; reflexivity.
    + exists r. split; [reflexivity | apply setNth_same, L].
    + intros q [u|] N A; cbn in *; [|exact A]. destruct A as (r' & -> & A). exists r'. split; [reflexivity|].
      rewrite setNth_other; [exact A | congruence].
    + intros q o A. exact A.
    + reflexivity.
    + symmetry. apply setNth_length.
Qed.

Lemma wp_rdE : forall {A B} p v (f : E G -> M A) (r : res B) h Q,
  eAt h p (Some v) -> wp (f v) r h Q -> wp (mbind G (rdE G p) f) r h Q.
Proof. intros A B p v f r h Q H K. unfold wp, mbind. rewrite (rdE_ok h p v H). exact K. Qed.
Lemma wp_rdZ : forall {A B} p v (f : Z -> M A) (r : res B) h Q,
  zAt h p (Some v) -> wp (f v) r h Q -> wp (mbind G (rdZ G p) f) r h Q.
Proof. intros A B p v f r h Q H K. unfold wp, mbind. rewrite (rdZ_ok h p v H). exact K. Qed.
Lemma wp_newE : forall {A B} v (f : ptr -> M A) (r : res B) h Q,
  (forall e h', Pre h h' -> eAt h' e (Some v) -> eNew h e -> wp (f e) r h' Q) -> wp (mbind G (newE G v) f) r h Q.
Proof. intros A B v f r h Q K. destruct (alloc_e h v [] (Forall_nil _)) as (H1 & H2 & H3). exact (K _ _ H1 H2 H3). Qed.
Lemma wp_newZ : forall {A B} v (f : ptr -> M A) (r : res B) h Q,
  (forall e h', Pre h h' -> zAt h' e (Some v) -> zNew h e -> wp (f e) r h' Q) -> wp (mbind G (newZ G v) f) r h Q.
Proof. intros A B v f r h Q K. destruct (alloc_z h v [] (Forall_nil _)) as (H1 & H2 & H3). exact (K _ _ H1 H2 H3). Qed.

(** A method on an existing receiver *)
Definition opE (op : ptr -> M unit) h (v : E G) : Prop := forall e h', Pre h h' -> op e h' = wrE G e v h'.
Definition opZ (op : ptr -> M unit) h (v : Z) : Prop := forall e h', Pre h h' -> op e h' = wrZ G e v h'.
Lemma wp_setE : forall {A B} op e v w (f : unit -> M A) (r : res B) h Q,
  opE op h v -> eAt h e (Some w) -> (forall h', UpdE h h' e v -> wp (f tt) r h' Q) -> wp (mbind G (op e) f) r h Q.
Proof.
  intros A B op e v w f r h Q O X K. unfold wp, mbind. rewrite (O e h (Pre_refl h)).
  destruct (wrE_ok h e w v X) as (h' & -> & U). exact (K h' U).
Qed.
Lemma wp_setZ : forall {A B} op e v w (f : unit -> M A) (r : res B) h Q,
  opZ op h v -> zAt h e (Some w) -> (forall h', UpdZ h h' e v -> wp (f tt) r h' Q) -> wp (mbind G (op e) f) r h Q.
Proof.
  intros A B op e v w f r h Q O X K. unfold wp, mbind. rewrite (O e h (Pre_refl h)).
  destruct (wrZ_ok h e w v X) as (h' & -> & U). exact (K h' U).
Qed.
(** A method on a new receiver *)
Lemma wp_element : forall {A B} op v (f : ptr -> M A) (r : res B) h Q,
  opE op h v -> (forall e h', Pre h h' -> eAt h' e (Some v) -> eNew h e -> wp (f e) r h' Q) ->
  wp (mbind G (element G op) f) r h Q.
Proof.
  intros A B op v f r h Q O K. destruct (alloc_e h (gNew G) [] (Forall_nil _)) as (P & X & N).
  assert (F : Forall (away h) [WrE (length (he G h))]) by (constructor; [cbn; lia | constructor]).
  destruct (alloc_e h v _ F) as (P' & X' & N'). unfold wp, mbind, element, mbind, newE.
  rewrite (O _ _ P). unfold wrE. cbn [he hz].
  rewrite app_length, (proj2 (Nat.ltb_lt _ _)) by (cbn; lia). rewrite setNth_last. cbn. exact (K _ _ P' X' N').
Qed.
Lemma wp_bigInt : forall {A B} op v (f : ptr -> M A) (r : res B) h Q,
  opZ op h v -> (forall e h', Pre h h' -> zAt h' e (Some v) -> zNew h e -> wp (f e) r h' Q) ->
  wp (mbind G (bigInt G op) f) r h Q.
Proof.
  intros A B op v f r h Q O K. destruct (alloc_z h 0 [] (Forall_nil _)) as (P & X & N).
  assert (F : Forall (away h) [WrZ (length (hz G h))]) by (constructor; [cbn; lia | constructor]).
  destruct (alloc_z h v _ F) as (P' & X' & N'). unfold wp, mbind, bigInt, mbind, newZ.
  rewrite (O _ _ P). unfold wrZ. cbn [he hz].
  rewrite app_length, (proj2 (Nat.ltb_lt _ _)) by (cbn; lia). rewrite setNth_last. cbn. exact (K _ _ P' X' N').
Qed.

(** The value each method writes *)
Ltac op_tac := intros e h' P; unfold mbind;
  repeat match goal with
  | H : eAt _ ?p (Some ?v) |- context [rdE G ?p h'] => rewrite (rdE_ok h' p v (pre_e _ _ P _ _ H))
  | H : zAt _ ?p (Some ?v) |- context [rdZ G ?p h'] => rewrite (rdZ_ok h' p v (pre_z _ _ P _ _ H))
  end; reflexivity.
Lemma op_eAdd : forall h a b u v, eAt h a (Some u) -> eAt h b (Some v) -> opE (fun e => eAdd G e a b) h (gAdd G u v).
Proof. intros h a b u v A B. unfold opE, eAdd. op_tac. Qed.
Lemma op_eSub : forall h a b u v, eAt h a (Some u) -> eAt h b (Some v) -> opE (fun e => eSub G e a b) h (gSub G u v).
Proof. intros h a b u v A B. unfold opE, eSub. op_tac. Qed.
Lemma op_eNeg : forall h a u, eAt h a (Some u) -> opE (fun e => eNeg G e a) h (gNeg G u).
Proof. intros h a u A. unfold opE, eNeg. op_tac. Qed.
Lemma op_eScale : forall h a s u k, eAt h a (Some u) -> zAt h s (Some k) -> opE (fun e => eScale G e a s) h (gScale G u k).
Proof. intros h a s u k A B. unfold opE, eScale. op_tac. Qed.
Lemma op_eBase : forall h s k, zAt h s (Some k) -> opE (fun e => eBase G e s) h (gBase G k).
Proof. intros h s k A. unfold opE, eBase. op_tac. Qed.
Lemma op_zAdd : forall h a b u v, zAt h a (Some u) -> zAt h b (Some v) -> opZ (fun e => zAdd G e a b) h (u + v).
Proof. intros h a b u v A B. unfold opZ, zAdd. op_tac. Qed.
Lemma op_zSub : forall h a b u v, zAt h a (Some u) -> zAt h b (Some v) -> opZ (fun e => zSub G e a b) h (u - v).
Proof. intros h a b u v A B. unfold opZ, zSub. op_tac. Qed.
Lemma op_zMul : forall h a b u v, zAt h a (Some u) -> zAt h b (Some v) -> opZ (fun e => zMul G e a b) h (u * v).
Proof. intros h a b u v A B. unfold opZ, zMul. op_tac. Qed.
Lemma op_zMod : forall h a b u v, zAt h a (Some u) -> zAt h b (Some v) -> opZ (fun e => zMod G e a b) h (u mod v).
Proof. intros h a b u v A B. unfold opZ, zMod. op_tac. Qed.
Lemma op_zDiv : forall h a b u v, zAt h a (Some u) -> zAt h b (Some v) -> opZ (fun e => zDiv G e a b) h (u / v).
Proof. intros h a b u v A B. unfold opZ, zDiv. op_tac. Qed.
Lemma op_zNeg : forall h a u, zAt h a (Some u) -> opZ (fun e => zNeg G e a) h (- u).
Proof. intros h a u A. unfold opZ, zNeg. op_tac. Qed.

(** In-place statements e.Op(a, b) *)
Lemma wp_setAdd : forall {A B} e a b w u v (f : unit -> M A) (r : res B) h Q,
  eAt h e (Some w) -> eAt h a (Some u) -> eAt h b (Some v) ->
  (forall h', UpdE h h' e (gAdd G u v) -> wp (f tt) r h' Q) -> wp (mbind G (eAdd G e a b) f) r h Q.
Proof. intros A B e a b w u v f r h Q X Y Z K. exact (wp_setE _ e _ w f r h Q (op_eAdd h a b u v Y Z) X K). Qed.
Lemma wp_setSub : forall {A B} e a b w u v (f : unit -> M A) (r : res B) h Q,
  eAt h e (Some w) -> eAt h a (Some u) -> eAt h b (Some v) ->
  (forall h', UpdE h h' e (gSub G u v) -> wp (f tt) r h' Q) -> wp (mbind G (eSub G e a b) f) r h Q.
Proof. intros A B e a b w u v f r h Q X Y Z K. exact (wp_setE _ e _ w f r h Q (op_eSub h a b u v Y Z) X K). Qed.
Lemma wp_setzAdd : forall {A B} e a b w u v (f : unit -> M A) (r : res B) h Q,
  zAt h e (Some w) -> zAt h a (Some u) -> zAt h b (Some v) ->
  (forall h', UpdZ h h' e (u + v) -> wp (f tt) r h' Q) -> wp (mbind G (zAdd G e a b) f) r h Q.
Proof. intros A B e a b w u v f r h Q X Y Z K. exact (wp_setZ _ e _ w f r h Q (op_zAdd h a b u v Y Z) X K). Qed.
Lemma wp_setzSub : forall {A B} e a b w u v (f : unit -> M A) (r : res B) h Q,
  zAt h e (Some w) -> zAt h a (Some u) -> zAt h b (Some v) ->
  (forall h', UpdZ h h' e (u - v) -> wp (f tt) r h' Q) -> wp (mbind G (zSub G e a b) f) r h Q.
Proof. intros A B e a b w u v f r h Q X Y Z K. exact (wp_setZ _ e _ w f r h Q (op_zSub h a b u v Y Z) X K). Qed.
Lemma wp_setzMul : forall {A B} e a b w u v (f : unit -> M A) (r : res B) h Q,
  zAt h e (Some w) -> zAt h a (Some u) -> zAt h b (Some v) ->
  (forall h', UpdZ h h' e (u * v) -> wp (f tt) r h' Q) -> wp (mbind G (zMul G e a b) f) r h Q.
Proof. intros A B e a b w u v f r h Q X Y Z K. exact (wp_setZ _ e _ w f r h Q (op_zMul h a b u v Y Z) X K). Qed.
Lemma wp_setzMod : forall {A B} e a b w u v (f : unit -> M A) (r : res B) h Q,
  zAt h e (Some w) -> zAt h a (Some u) -> zAt h b (Some v) ->
  (forall h', UpdZ h h' e (u mod v) -> wp (f tt) r h' Q) -> wp (mbind G (zMod G e a b) f) r h Q.
Proof. intros A B e a b w u v f r h Q X Y Z K. exact (wp_setZ _ e _ w f r h Q (op_zMod h a b u v Y Z) X K). Qed.

(** Nil arguments panic *)
Lemma wp_eScale_nil : forall {A B} a s (o : option (E G)) (k : option Z) (f : ptr -> M A) (r : res B) h Q,
  eAt h a o -> zAt h s k -> (o = None \/ k = None) -> r = Panic ->
  wp (mbind G (element G (fun e => eScale G e a s)) f) r h Q.
Proof.
  intros A B a s o k f r h Q X Y N K. unfold wp, mbind, element, eScale, mbind, newE.
  destruct N as [-> | ->].
  - cbn in X. subst a. cbn. exact K.
  - cbn in Y. subst s. cbn. destruct o as [v|].
    + destruct X as (n & -> & X). cbn. rewrite nth_error_app1, X; [exact K|]. apply nth_error_Some. congruence.
    + cbn in X. subst a. exact K.
Qed.
Lemma wp_eAdd_nil : forall {A B} a b (o o' : option (E G)) (f : ptr -> M A) (r : res B) h Q,
  eAt h a o -> eAt h b o' -> (o = None \/ o' = None) -> r = Panic ->
  wp (mbind G (element G (fun e => eAdd G e a b)) f) r h Q.
Proof.
  intros A B a b o o' f r h Q X Y N K. unfold wp, mbind, element, eAdd, mbind, newE.
  destruct N as [-> | ->].
  - cbn in X. subst a. cbn. exact K.
  - cbn in Y. subst b. cbn. destruct o as [v|].
    + destruct X as (n & -> & X). cbn. rewrite nth_error_app1, X; [exact K|]. apply nth_error_Some. congruence.
    + cbn in X. subst a. exact K.
Qed.
Lemma wp_set_nil : forall {A B} e a b (o : option (E G)) (f : unit -> M A) (r : res B) h Q,
  eAt h a o -> (a = None \/ b = None) -> r = Panic ->
  wp (mbind G (eAdd G e a b) f) r h Q.
Proof.
  intros A B e a b o f r h Q X N K. unfold wp, mbind, eAdd, mbind.
  destruct N as [-> | ->]; [exact K|]. destruct o as [v|].
  - rewrite (rdE_ok h a v X). exact K.
  - cbn in X. subst a. exact K.
Qed.
Lemma wp_zMul_nil : forall {A B} a b (o o' : option Z) (f : ptr -> M A) (r : res B) h Q,
  zAt h a o -> zAt h b o' -> (o = None \/ o' = None) -> r = Panic ->
  wp (mbind G (bigInt G (fun e => zMul G e a b)) f) r h Q.
Proof.
  intros A B a b o o' f r h Q X Y N K. unfold wp, mbind, bigInt, zMul, mbind, newZ.
  destruct N as [-> | ->].
  - cbn in X. subst a. cbn. exact K.
  - cbn in Y. subst b. cbn. destruct o as [v|].
    + destruct X as (n & -> & X). cbn. rewrite nth_error_app1, X; [exact K|]. apply nth_error_Some. congruence.
    + cbn in X. subst a. exact K.
Qed.
Lemma wp_eBase_nil : forall {A B} s (f : ptr -> M A) (r : res B) h Q,
  zAt h s None -> r = Panic -> wp (mbind G (element G (fun e => eBase G e s)) f) r h Q.
Proof. intros A B s f r h Q X K. cbn in X. subst s. exact K. Qed.
Lemma wp_rdE_nil : forall {A B} p (f : E G -> M A) (r : res B) h Q,
  eAt h p None -> r = Panic -> wp (mbind G (rdE G p) f) r h Q.
Proof. intros A B p f r h Q X K. cbn in X. subst p. exact K. Qed.

Lemma wp_zInverse : forall {A B} a m x n (f : ptr -> M A) (r : res B) h Q,
  zAt h a (Some x) -> zAt h m (Some n) ->
  (forall e h', Pre h h' -> zAt h' e (modInverse x n) -> wp (f e) r h' Q) -> wp (mbind G (zInverse G a m) f) r h Q.
Proof.
  intros A B a m x n f r h Q X Y K. unfold wp, mbind, zInverse, mbind.
  rewrite (rdZ_ok h a x X), (rdZ_ok h m n Y). destruct (modInverse x n) as [i|].
  - destruct (alloc_z h i [] (Forall_nil _)) as (H1 & H2 & H3). exact (K _ _ H1 H2).
  - exact (K None h (Pre_refl h) eq_refl).
Qed.
End ImpProofs.

(** ** Automation: every heap in the context has one hypothesis [Pre] or [Upd*] saying how it arose. *)
Ltac pr := lazymatch goal with
  | |- Pre _ ?h ?h => apply Pre_refl
  | |- Pre _ ?a ?b =>
    match goal with
    | P : Pre _ a b |- _ => exact P
    | P : Pre _ ?m b |- _ => apply (Pre_trans _ a m b); [pr | exact P]
    | U : UpdE _ ?m b ?e ?v |- _ => apply (Pre_updE _ a m b e v U); [pr | nw]
    | U : UpdZ _ ?m b ?e ?v |- _ => apply (Pre_updZ _ a m b e v U); [pr | nw]
    end
  end
with nw := lazymatch goal with
  | |- eNew _ ?a ?e => match goal with N : eNew _ ?m e |- _ => apply (eNew_mono _ a m e); [pr | exact N] end
  | |- zNew _ ?a ?e => match goal with N : zNew _ ?m e |- _ => apply (zNew_mono _ a m e); [pr | exact N] end
  | |- Forall (eNew _ ?a) ?l =>
      match goal with N : Forall (eNew _ ?m) l |- _ => apply (news_mono _ a m l); [pr | exact N] end
  end.
Ltac tr := first [ eassumption | lazymatch goal with
  | |- eAt _ ?h ?p ?o =>
    match goal with
    | P : Pre _ ?m h |- _ => apply (pre_e _ m h P p o); tr
    | U : UpdE _ ?m h ?e ?v |- _ =>
        first [ exact (ue_eq _ m h e v U) | apply (ue_e _ m h e v U p o); [ne | tr] ]
    | U : UpdZ _ ?m h ?e ?v |- _ => apply (uz_e _ m h e v U p o); tr
    end
  | |- zAt _ ?h ?p ?o =>
    match goal with
    | P : Pre _ ?m h |- _ => apply (pre_z _ m h P p o); tr
    | U : UpdE _ ?m h ?e ?v |- _ => apply (ue_z _ m h e v U p o); tr
    | U : UpdZ _ ?m h ?e ?v |- _ =>
        first [ exact (uz_eq _ m h e v U) | apply (uz_z _ m h e v U p o); [ne | tr] ]
    end
  | |- esAt _ ?h ?p ?o =>
    match goal with
    | P : Pre _ ?m h |- _ => apply (es_pre _ m h p o P); tr
    | U : UpdE _ ?m h ?e ?v |- _ => apply (es_updE _ m h e v p o U); [ne | tr]
    | U : UpdZ _ ?m h ?e ?v |- _ => apply (es_updZ _ m h e v p o U); tr
    end
  | |- eosAt _ ?h ?p ?o =>
    match goal with
    | P : Pre _ ?m h |- _ => apply (eos_pre _ m h p o P); tr
    | U : UpdE _ ?m h ?e ?v |- _ => apply (eos_updE _ m h e v p o U); [ne | tr]
    | U : UpdZ _ ?m h ?e ?v |- _ => apply (eos_updZ _ m h e v p o U); tr
    end
  | |- zsAt _ ?h ?p ?o =>
    match goal with
    | P : Pre _ ?m h |- _ => apply (zs_pre _ m h p o P); tr
    | U : UpdE _ ?m h ?e ?v |- _ => apply (zs_updE _ m h e v p o U); tr
    | U : UpdZ _ ?m h ?e ?v |- _ => apply (zs_updZ _ m h e v p o U); [ne | tr]
    end
  end ]
with ne := first [ eassumption | lazymatch goal with
  | |- ?p <> ?q =>
    match goal with
    | N : eNew _ ?h q |- _ => eapply (ne_e _ h p q _ N); tr
    | N : zNew _ ?h q |- _ => eapply (ne_z _ h p q _ N); tr
    | N : eNew _ ?h p |- _ => eapply (ne_e' _ h p q _ N); tr
    | N : zNew _ ?h p |- _ => eapply (ne_z' _ h p q _ N); tr
    end
  | |- other ?q ?ps =>
    match goal with
    | N : eNew _ ?h q |- _ => eapply (other_es _ h q ps _ N); tr
    | N : eNew _ ?h q |- _ => eapply (other_eos _ h q ps _ N); tr
    | N : zNew _ ?h q |- _ => eapply (other_zs _ h q ps _ N); tr
    | N : Forall (eNew _ ?h) ps |- _ => eapply (other_new _ h q _ ps); [tr | exact N]
    end
  end ].
