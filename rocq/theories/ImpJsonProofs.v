(** The pointer-level decoders and encoder of ImpJson.v compute what their value-level models compute, with the same errors and
    panics; a decoder makes new objects only, each used once. *)
From Coq Require Import Permutation.
From Verif Require Import GoBase Json GroupIface Vector BIP BP VoteProof ModP App Imp ImpVote Marshal ImpJson ImpProofs ImpFuns ImpBP ImpVoteProofs.

(** A statement against its value-level model: the same outcome *)
Definition wpx {S A B} (c : S -> res (A * S)) (r : res B) (h : S) (Q : A -> B -> S -> Prop) : Prop :=
  match r with
  | Ok v => exists u h', c h = Ok (u, h') /\ Q u v h'
  | Err => c h = Err | Panic => c h = Panic | OutOfFuel => c h = OutOfFuel
  end.
Lemma wpx_weaken : forall {S A B} (c : S -> res (A * S)) (r : res B) h (R Q : A -> B -> S -> Prop),
  wpx c r h R -> (forall u v h', R u v h' -> Q u v h') -> wpx c r h Q.
Proof. intros S A B c r h R Q H K. destruct r; try exact H. destruct H as (u & h' & E & HR). exists u, h'. split; [exact E|apply K, HR]. Qed.

(** The objects a list of pointers refers to *)
Definition objs (l : list ptr) : list nat := flat_map (fun p => match p with Some r => [r] | None => [] end) l.
Lemma objs_app : forall l m, objs (l ++ m) = objs l ++ objs m.
Proof. intros l m. apply flat_map_app. Qed.
Lemma in_objs : forall l r, In r (objs l) <-> In (Some r) l.
Proof.
  intros l r. unfold objs. rewrite in_flat_map. split.
  - intros ([x|] & I & J); [|destruct J]. destruct J as [->|[]]. exact I.
  - intros I. exists (Some r). split; [exact I|left; reflexivity].
Qed.
Lemma objs_perm : forall l m, Permutation l m -> Permutation (objs l) (objs m).
Proof. intros l m P. apply Permutation_flat_map, P. Qed.

Section OneGroup.
Context (G : Grp).
Local Notation heap := (heap G).
Local Notation M := (M G).
Local Notation eAt := (eAt G). Local Notation zAt := (zAt G). Local Notation Pre := (Pre G).
Local Notation eNew := (eNew G). Local Notation zNew := (zNew G).
Implicit Types (h s : heap) (e : ptr).
Notation elts := (list (ptr * option (E G))).
Notation ints := (list (ptr * option Z)).

Lemma wpx_bind : forall {A A' B B'} (c : M A) (f : A -> M A') (r : res B) (g : B -> res B') h R Q,
  wpx c r h R -> (forall u v h', R u v h' -> wpx (f u) (g v) h' Q) -> wpx (mbind G c f) (bind r g) h Q.
Proof.
  intros A A' B B' c f r g h R Q H K. unfold mbind. destruct r as [v| | |]; cbn [bind]; cbn in H.
  - destruct H as (u & h' & E & HR). specialize (K u v h' HR). unfold wpx in *. rewrite E. exact K.
  - cbn. rewrite H. reflexivity.
  - cbn. rewrite H. reflexivity.
  - cbn. rewrite H. reflexivity.
Qed.
Lemma wpx_left : forall {A A' B B'} (c : M A) (f : A -> M A') (v : B) (r : res B') h R Q,
  wpx c (Ok v) h R -> (forall u h', R u v h' -> wpx (f u) r h' Q) -> wpx (mbind G c f) r h Q.
Proof.
  intros A A' B B' c f v r h R Q (u & h' & E & HR) K. specialize (K u h' HR). unfold mbind, wpx in *. rewrite E. exact K.
Qed.
Lemma wpx_ret : forall {A B} (u : A) (v : B) h (Q : A -> B -> heap -> Prop), Q u v h -> wpx (ret G u) (Ok v) h Q.
Proof. intros A B u v h Q H. exists u, h. split; [reflexivity|exact H]. Qed.
Lemma wpx_lift : forall {A} (r : res A) h (Q : A -> A -> heap -> Prop), (forall v, r = Ok v -> Q v v h) -> wpx (lift G r) r h Q.
Proof. intros A r h Q H. destruct r as [v| | |]; cbn; try reflexivity. exists v, h. split; [reflexivity|apply H; reflexivity]. Qed.

(** Since [s0] nothing that existed is changed; the listed pointers are distinct new objects (or nil), with the listed values. *)
Record Own s0 s (oe : elts) (oz : ints) : Prop := mkOwn {
  own_pre : Pre s0 s;
  own_e : Forall (fun x => eAt s (fst x) (snd x)) oe;
  own_z : Forall (fun x => zAt s (fst x) (snd x)) oz;
  own_ne : Forall (fun r => (length (he G s0) <= r)%nat) (objs (map fst oe));
  own_nz : Forall (fun r => (length (hz G s0) <= r)%nat) (objs (map fst oz));
  own_de : NoDup (objs (map fst oe));
  own_dz : NoDup (objs (map fst oz))
}.
Lemma Own_nil : forall s, Own s s [] [].
Proof. intros s. constructor; try constructor; apply Pre_refl. Qed.
Lemma Own_perm : forall s0 s oe oe' oz, Permutation oe oe' -> Own s0 s oe oz -> Own s0 s oe' oz.
Proof.
  intros s0 s oe oe' oz P [A B C D E1 F H]. pose proof (objs_perm _ _ (Permutation_map fst P)) as PO. constructor; try assumption.
  - exact (Permutation_Forall P B).
  - exact (Permutation_Forall PO D).
  - exact (Permutation_NoDup PO F).
Qed.
Lemma own_ltE : forall s oe, Forall (fun x => eAt s (fst x) (snd x)) oe -> forall r, In r (objs (map fst oe)) -> (r < length (he G s))%nat.
Proof.
  intros s oe H r I. apply in_objs, in_map_iff in I. destruct I as ([p [v|]] & E & I); rewrite Forall_forall in H; apply H in I; cbn in *; subst.
  - destruct I as (r' & E' & I). injection E' as <-. apply nth_error_Some. congruence.
  - discriminate.
Qed.
Lemma own_ltZ : forall s oz, Forall (fun x => zAt s (fst x) (snd x)) oz -> forall r, In r (objs (map fst oz)) -> (r < length (hz G s))%nat.
Proof.
  intros s oe H r I. apply in_objs, in_map_iff in I. destruct I as ([p [v|]] & E & I); rewrite Forall_forall in H; apply H in I; cbn in *; subst.
  - destruct I as (r' & E' & I). injection E' as <-. apply nth_error_Some. congruence.
  - discriminate.
Qed.
Lemma Forall_pre_e : forall s s' (oe : elts), Pre s s' -> Forall (fun x => eAt s (fst x) (snd x)) oe -> Forall (fun x => eAt s' (fst x) (snd x)) oe.
Proof. intros s s' oe P H. eapply Forall_impl; [|exact H]. intros x. apply (pre_e _ _ _ P). Qed.
Lemma Forall_pre_z : forall s s' (oz : ints), Pre s s' -> Forall (fun x => zAt s (fst x) (snd x)) oz -> Forall (fun x => zAt s' (fst x) (snd x)) oz.
Proof. intros s s' oz P H. eapply Forall_impl; [|exact H]. intros x. apply (pre_z _ _ _ P). Qed.

Lemma own_newE : forall s0 s oe oz v, Own s0 s oe oz ->
  wpx (newE G v) (Ok tt) s (fun e _ s' => Own s0 s' ((e, Some v) :: oe) oz).
Proof.
  intros s0 s oe oz v [A B C D E1 F H]. destruct (alloc_e G s v [] (Forall_nil _)) as (P & X & r & Er & L). injection Er as <-.
  eexists _, _. split; [reflexivity|]. cbn [app] in P, X. constructor.
  - exact (Pre_trans _ _ _ _ A P).
  - constructor; [exact X|exact (Forall_pre_e _ _ _ P B)].
  - exact (Forall_pre_z _ _ _ P C).
  - cbn [map fst objs flat_map app]. constructor; [exact (Nat.le_trans _ _ _ (pre_le _ _ _ A) L)|exact D].
  - exact E1.
  - cbn [map fst objs flat_map app]. constructor; [|exact F]. intros I. apply (own_ltE _ _ B) in I. lia.
  - exact H.
Qed.
Lemma own_bigInt : forall s0 s oe z1 z2 v, Own s0 s oe (z1 ++ (None, None) :: z2) ->
  wpx (bigInt G (fun e => wrZ G e v)) (Ok tt) s (fun e _ s' => Own s0 s' oe (z1 ++ (e, Some v) :: z2)).
Proof.
  intros s0 s oe z1 z2 v [A B C D E1 F H].
  assert (W : Forall (away G s) [WrZ (length (hz G s))]) by (constructor; [cbn; lia | constructor]).
  destruct (alloc_z G s v _ W) as (P & X & r & Er & L). injection Er as <-.
  exists (Some (length (hz G s))). eexists. split.
  { unfold bigInt, mbind, newZ, wrZ. cbn [he hz]. rewrite app_length, (proj2 (Nat.ltb_lt _ _)) by (cbn; lia). rewrite setNth_last. reflexivity. }
  apply Forall_app in C. destruct C as [C1 C2]. inversion C2 as [|? ? _ C3]; subst.
  rewrite map_app, objs_app in E1, H. cbn [map fst objs flat_map app] in E1, H. change (flat_map _ (map fst z2)) with (objs (map fst z2)) in *.
  apply Forall_app in E1. destruct E1 as [E1 E2].
  assert (N : forall r, In r (objs (map fst z1) ++ objs (map fst z2)) -> (r < length (hz G s))%nat).
  { intros r I. apply in_app_or in I. destruct I as [I|I]; [exact (own_ltZ _ _ C1 r I)|exact (own_ltZ _ _ C3 r I)]. }
  constructor.
  - exact (Pre_trans _ _ _ _ A P).
  - exact (Forall_pre_e _ _ _ P B).
  - apply Forall_app. split; [exact (Forall_pre_z _ _ _ P C1)|]. constructor; [exact X|exact (Forall_pre_z _ _ _ P C3)].
  - exact D.
  - rewrite map_app, objs_app. cbn [map fst objs flat_map app]. apply Forall_app. split; [exact E1|].
    constructor; [exact (Nat.le_trans _ _ _ (pre_lz _ _ _ A) L)|exact E2].
  - exact F.
  - rewrite map_app, objs_app. cbn [map fst objs flat_map app]. change (flat_map _ (map fst z2)) with (objs (map fst z2)).
    apply NoDup_Add with (a := length (hz G s)) (l := objs (map fst z1) ++ objs (map fst z2)); [apply Add_app|].
    split; [exact H|]. intros I. apply N in I. lia.
Qed.
Lemma own_setZ : forall s0 s oe z1 z2 r w v, Own s0 s oe (z1 ++ (Some r, Some w) :: z2) ->
  wpx (wrZ G (Some r) v) (Ok tt) s (fun _ _ s' => Own s0 s' oe (z1 ++ (Some r, Some v) :: z2)).
Proof.
  intros s0 s oe z1 z2 r w v [A B C D E1 F H]. pose proof C as C0. apply Forall_app in C. destruct C as [C1 C2]. inversion C2 as [|? ? X C3]; subst.
  cbn [fst snd] in X. destruct (wrZ_ok G s (Some r) w v X) as (s' & EW & U). exists tt, s'. split; [exact EW|].
  rewrite map_app, objs_app in E1, H. cbn [map fst objs flat_map app] in E1, H. change (flat_map _ (map fst z2)) with (objs (map fst z2)) in *.
  assert (N : ~ In r (objs (map fst z1) ++ objs (map fst z2))) by (apply NoDup_remove_2; exact H).
  assert (K : forall z : ints, (forall t, In t (objs (map fst z)) -> t <> r) -> Forall (fun x => zAt s (fst x) (snd x)) z -> Forall (fun x => zAt s' (fst x) (snd x)) z).
  { intros z I Y. apply Forall_forall. intros [q o] J. rewrite Forall_forall in Y. cbn. apply (uz_z _ _ _ _ _ U); [|exact (Y _ J)].
    intros ->. apply (I r); [|reflexivity]. apply in_objs. apply in_map_iff. exists (Some r, o). split; [reflexivity|exact J]. }
  constructor.
  - apply (Pre_updZ _ _ _ _ _ _ U A). exists r. split; [reflexivity|]. apply Forall_app in E1. destruct E1 as [_ E2]. inversion E2; assumption.
  - eapply Forall_impl; [|exact B]. intros x. apply (uz_e _ _ _ _ _ U).
  - apply Forall_app. split; [|constructor; [exact (uz_eq _ _ _ _ _ U)|]].
    + apply K; [|exact C1]. intros q I ->. apply N, in_or_app. left. exact I.
    + apply K; [|exact C3]. intros q I ->. apply N, in_or_app. right. exact I.
  - exact D.
  - rewrite map_app, objs_app. exact E1.
  - exact F.
  - rewrite map_app, objs_app. exact H.
Qed.
Lemma own_nilZ : forall s0 s oe z1 z2 p w, Own s0 s oe (z1 ++ (p, w) :: z2) -> Own s0 s oe (z1 ++ (None, None) :: z2).
Proof.
  intros s0 s oe z1 z2 p w [A B C D E1 F H]. apply Forall_app in C. destruct C as [C1 C2]. inversion C2 as [|? ? X C3]; subst.
  rewrite map_app, objs_app in E1, H. cbn [map fst objs flat_map app] in E1, H. change (flat_map _ (map fst z2)) with (objs (map fst z2)) in *.
  constructor; try assumption.
  - apply Forall_app. split; [exact C1|]. constructor; [reflexivity|exact C3].
  - rewrite map_app, objs_app. cbn [map fst objs flat_map app]. apply Forall_app in E1. destruct E1 as [E1 E2]. apply Forall_app. split; [exact E1|].
    destruct p; [inversion E2; assumption|exact E2].
  - rewrite map_app, objs_app. cbn [map fst objs flat_map app]. destruct p; [|exact H]. exact (NoDup_remove_1 _ _ _ H).
Qed.
Lemma own_setE : forall s0 s l1 l2 oz e w v, Own s0 s (l1 ++ (e, Some w) :: l2) oz ->
  wpx (wrE G e v) (Ok tt) s (fun _ _ s' => Own s0 s' (l1 ++ (e, Some v) :: l2) oz).
Proof.
  intros s0 s l1 l2 oz e w v [A C B E1 D H F]. pose proof C as C0. apply Forall_app in C. destruct C as [C1 C2]. inversion C2 as [|? ? X C3]; subst.
  cbn [fst snd] in X. destruct (wrE_ok G s e w v X) as (s' & EW & U). exists tt, s'. split; [exact EW|].
  destruct X as (r & -> & X).
  rewrite map_app, objs_app in E1, H. cbn [map fst objs flat_map app] in E1, H. change (flat_map _ (map fst l2)) with (objs (map fst l2)) in *.
  assert (N : ~ In r (objs (map fst l1) ++ objs (map fst l2))) by (apply NoDup_remove_2; exact H).
  assert (K : forall z : elts, (forall t, In t (objs (map fst z)) -> t <> r) -> Forall (fun x => eAt s (fst x) (snd x)) z -> Forall (fun x => eAt s' (fst x) (snd x)) z).
  { intros z I Y. apply Forall_forall. intros [q o] J. rewrite Forall_forall in Y. cbn. apply (ue_e _ _ _ _ _ U); [|exact (Y _ J)].
    intros ->. apply (I r); [|reflexivity]. apply in_objs. apply in_map_iff. exists (Some r, o). split; [reflexivity|exact J]. }
  constructor.
  - apply (Pre_updE _ _ _ _ _ _ U A). exists r. split; [reflexivity|]. apply Forall_app in E1. destruct E1 as [_ E2]. inversion E2; assumption.
  - apply Forall_app. split; [|constructor; [exact (ue_eq _ _ _ _ _ U)|]].
    + apply K; [|exact C1]. intros q I ->. apply N, in_or_app. left. exact I.
    + apply K; [|exact C3]. intros q I ->. apply N, in_or_app. right. exact I.
  - eapply Forall_impl; [|exact B]. intros x. apply (ue_z _ _ _ _ _ U).
  - rewrite map_app, objs_app. exact E1.
  - exact D.
  - rewrite map_app, objs_app. exact H.
  - exact F.
Qed.

(** ** json.Unmarshal *)
Lemma own_wrBig : forall s0 s oe z1 z2 p v z, Own s0 s oe (z1 ++ (p, v) :: z2) ->
  wpx (iPutBig G p z) (Ok (Some z)) s (fun p' v' s' => Own s0 s' oe (z1 ++ (p', v') :: z2)).
Proof.
  intros s0 s oe z1 z2 p v z O. unfold iPutBig. destruct p as [r|].
  - assert (exists w, v = Some w) as [w ->].
      { pose proof (own_z _ _ _ _ O) as Z0. apply Forall_app in Z0. destruct Z0 as [_ Z0]. inversion Z0 as [|? ? X ?]; subst. cbn in X.
        destruct v as [w|]; [eexists; reflexivity|discriminate]. }
      eapply wpx_left; [exact (own_setZ _ _ _ _ _ _ _ z O)|]. intros u s' O'. apply wpx_ret. exact O'.
  - assert (v = None) as ->.
      { pose proof (own_z _ _ _ _ O) as Z0. apply Forall_app in Z0. destruct Z0 as [_ Z0]. inversion Z0 as [|? ? X ?]; subst. cbn in X.
        destruct v as [w|]; [destruct X as (r & X & _); discriminate|reflexivity]. }
      destruct (own_bigInt _ _ _ _ _ z O) as (e & s' & EE & O'). exists e, s'. split; [exact EE|exact O'].
Qed.
Lemma own_big : forall s0 s oe z1 z2 p v d, Own s0 s oe (z1 ++ (p, v) :: z2) ->
  wpx (iDecBig G p d) (orErr (dec_bigint d)) s (fun p' v' s' => Own s0 s' oe (z1 ++ (p', v') :: z2)).
Proof.
  intros s0 s oe z1 z2 p v d O. destruct d as [| |z| | | | |]; cbn [iDecBig dec_bigint orErr]; try reflexivity.
  - apply wpx_ret. exact (own_nilZ _ _ _ _ _ _ _ O).
  - exact (own_wrBig _ _ _ _ _ _ _ z O).
  - exact (own_wrBig _ _ _ _ _ _ _ 0 O).
Qed.
Lemma orErr_map : forall {A B} (o : option A) (f : A -> B), orErr (option_map f o) = bind (orErr o) (fun x => Ok (f x)).
Proof. intros A B [a|] f; reflexivity. Qed.
Lemma decStruct_ok : forall {SP S} (istep : string -> json -> SP -> M SP) (step : string -> json -> S -> option S) (I : SP -> S -> heap -> Prop),
  (forall k v jp j s, I jp j s -> wpx (istep k v jp) (orErr (step k v j)) s I) ->
  forall d jp j s, I jp j s -> wpx (iDecStruct G istep jp d) (orErr (dec_struct step j d)) s I.
Proof.
  intros SP S istep step I K d jp j s H. destruct d; cbn [iDecStruct dec_struct]; try reflexivity.
  - apply wpx_ret, H.
  - revert jp j s H. induction l as [|[k v] l IH]; intros jp j s H; cbn [iDecFields dec_fields].
    + apply wpx_ret, H.
    + specialize (K k v jp j s H). destruct (step k v j) as [j'|]; cbn [orErr] in *.
      * eapply wpx_left; [exact K|]. intros u s' H'. apply IH, H'.
      * cbn in K |- *. unfold mbind. rewrite K. reflexivity.
Qed.
Lemma unmarshal_ok : forall {SP S} (istep : string -> json -> SP -> M SP) (step : string -> json -> S -> option S) (I : SP -> S -> heap -> Prop),
  (forall k v jp j s, I jp j s -> wpx (istep k v jp) (orErr (step k v j)) s I) ->
  forall r jp j s, I jp j s -> wpx (iUnmarshal G istep jp r) (orErr (unmarshal step j r)) s I.
Proof. intros SP S istep step I K [d|] jp j s H; cbn [iUnmarshal unmarshal]; [apply (decStruct_ok _ _ I K), H|reflexivity]. Qed.

Ltac norm := repeat rewrite <- app_assoc; cbn [app].
Ltac stepbig l1 := rewrite orErr_map; eapply wpx_bind; [eapply (own_big _ _ _ l1); norm; eassumption|];
  let O := fresh "O" in intros ? ? ? O; cbv beta in O; apply wpx_ret.

Definition sameIP (p : IPProofJP) (j : IPProofJ) : Prop := xP p = jP j /\ xL p = jL j /\ xR p = jR j /\ xIPParams p = jIPParams j.
Definition intsIP (p : IPProofJP) (j : IPProofJ) : ints := [(xCc p, jCc j); (xa p, ja j); (xb p, jb j)].
Lemma stepIP_ok : forall s0 oe z1 z2 k v p j s, sameIP p j /\ Own s0 s oe (z1 ++ intsIP p j ++ z2) ->
  wpx (iStepIPProof G k v p) (orErr (stepIPProofJ k v j)) s (fun p' j' s' => sameIP p' j' /\ Own s0 s' oe (z1 ++ intsIP p' j' ++ z2)).
Proof.
  intros s0 oe z1 z2 k v [P Cc a b L R pr] [P' Cc' a' b' L' R' pr'] s [(E1 & E2 & E3 & E4) O]. cbn in E1, E2, E3, E4. subst P' L' R' pr'.
  unfold intsIP in O. cbn [xCc xa xb jCc ja jb app] in O.
  unfold iStepIPProof, stepIPProofJ.
  destruct (fold_eqb k "P"). { apply wpx_ret. split; [repeat split|exact O]. }
  destruct (fold_eqb k "Cc"). { unfold set1. stepbig z1. split; [repeat split|exact O0]. }
  destruct (fold_eqb k "a"). { unfold set1. stepbig (z1 ++ [(Cc, Cc')]). split; [repeat split|]. rewrite <- app_assoc in O0. exact O0. }
  destruct (fold_eqb k "b"). { unfold set1. stepbig (z1 ++ [(Cc, Cc'); (a, a')]). split; [repeat split|]. rewrite <- app_assoc in O0. exact O0. }
  destruct (fold_eqb k "L"). { unfold set1. rewrite orErr_map. eapply wpx_bind; [apply wpx_lift with (Q := fun u v s' => u = v /\ s' = s); auto|].
    intros u w s' [-> ->]. apply wpx_ret. split; [repeat split|exact O]. }
  destruct (fold_eqb k "R"). { unfold set1. rewrite orErr_map. eapply wpx_bind; [apply wpx_lift with (Q := fun u v s' => u = v /\ s' = s); auto|].
    intros u w s' [-> ->]. apply wpx_ret. split; [repeat split|exact O]. }
  destruct (fold_eqb k "Params"). { unfold set1. rewrite orErr_map. eapply wpx_bind; [apply wpx_lift with (Q := fun u v s' => u = v /\ s' = s); auto|].
    intros u w s' [-> ->]. apply wpx_ret. split; [repeat split|exact O]. }
  apply wpx_ret. split; [repeat split|exact O].
Qed.
Definition sameBP (p : BulletProofJP) (j : BulletProofJ) : Prop :=
  xV p = jV j /\ xA p = jA j /\ xS p = jS j /\ xT1 p = jT1 j /\ xT2 p = jT2 j /\ sameIP (xIPP p) (jIPP j).
Definition intsBP (p : BulletProofJP) (j : BulletProofJ) : ints :=
  [(xTaux p, jTaux j); (xMu p, jMu j); (xTprime p, jTprime j)] ++ intsIP (xIPP p) (jIPP j).
Lemma stepBP_ok : forall s0 oe oz k v p j s, sameBP p j /\ Own s0 s oe (intsBP p j ++ oz) ->
  wpx (iStepBulletProof G k v p) (orErr (stepBulletProofJ k v j)) s (fun p' j' s' => sameBP p' j' /\ Own s0 s' oe (intsBP p' j' ++ oz)).
Proof.
  intros s0 oe oz k v [V A S T1 T2 tx mu tp ip pr] [V' A' S' T1' T2' tx' mu' tp' ip' pr'] s [(E1 & E2 & E3 & E4 & E5 & E6) O].
  cbn in E1, E2, E3, E4, E5, E6. subst V' A' S' T1' T2'. unfold intsBP in O. cbn [xTaux xMu xTprime xIPP jTaux jMu jTprime jIPP app] in O.
  unfold iStepBulletProof, stepBulletProofJ.
  destruct (fold_eqb k "V"). { apply wpx_ret. split; [repeat split; apply E6|exact O]. }
  destruct (fold_eqb k "A"). { apply wpx_ret. split; [repeat split; apply E6|exact O]. }
  destruct (fold_eqb k "S"). { apply wpx_ret. split; [repeat split; apply E6|exact O]. }
  destruct (fold_eqb k "T1"). { apply wpx_ret. split; [repeat split; apply E6|exact O]. }
  destruct (fold_eqb k "T2"). { apply wpx_ret. split; [repeat split; apply E6|exact O]. }
  destruct (fold_eqb k "Taux"). { unfold set1. stepbig (@nil (ptr * option Z)). split; [repeat split; apply E6|exact O0]. }
  destruct (fold_eqb k "Mu"). { unfold set1. stepbig [(tx, tx')]. split; [repeat split; apply E6|exact O0]. }
  destruct (fold_eqb k "Tprime"). { unfold set1. stepbig [(tx, tx'); (mu, mu')]. split; [repeat split; apply E6|exact O0]. }
  destruct (fold_eqb k "InnerProductProof").
  { unfold set1. rewrite orErr_map. eapply wpx_bind.
    - apply (decStruct_ok _ _ (fun p' j' s' => sameIP p' j' /\ Own s0 s' oe ([(tx, tx'); (mu, mu'); (tp, tp')] ++ intsIP p' j' ++ oz))).
      + intros. apply stepIP_ok. assumption.
      + split; [exact E6|exact O].
    - intros u w s' [X Y]. apply wpx_ret. split; [repeat split; apply X|exact Y]. }
  destruct (fold_eqb k "Params"). { apply wpx_ret. split; [repeat split; apply E6|exact O]. }
  apply wpx_ret. split; [repeat split; apply E6|exact O].
Qed.

(** ** Elements *)
Lemma eUnmarshal_ok : forall s0 s l1 l2 oz e j, Own s0 s (l1 ++ (e, Some (gNew G)) :: l2) oz ->
  wpx (eUnmarshal G e j) (decElt G j) s (fun _ X s' => Own s0 s' (l1 ++ (e, Some X) :: l2) oz).
Proof.
  intros s0 s l1 l2 oz e j O. unfold eUnmarshal, decElt.
  assert (X : eAt s e (Some (gNew G))).
  { pose proof (own_e _ _ _ _ O) as Y. apply Forall_app in Y. destruct Y as [_ Y]. inversion Y as [|? ? X ?]; subst. exact X. }
  unfold mbind at 1. eapply wpx_left with (v := gNew G) (R := fun u v s' => u = v /\ s' = s) (c := rdE G e).
  { exists (gNew G), s. split; [exact (rdE_ok G s e _ X)|split; reflexivity]. }
  intros u s' [-> ->]. eapply wpx_bind; [apply wpx_lift with (Q := fun u v s' => u = v /\ s' = s); auto|].
  intros u [Y b] s' [-> ->]. cbn [fst]. destruct (own_setE _ _ _ _ _ _ _ Y O) as (t & s' & EW & O'). exists t, s'. split; [exact EW|exact O'].
Qed.
Definition pairsE (q : list ptr * list ptr) (v : list (E G) * list (option (E G))) : elts :=
  combine (fst q) (map Some (fst v)) ++ combine (snd q) (snd v).
Definition pairsLen (q : list ptr * list ptr) (v : list (E G) * list (option (E G))) : Prop :=
  length (fst q) = length (fst v) /\ length (snd q) = length (snd v).
Lemma iDecPairs_ok : forall js ks s0 s oe oz, Own s0 s oe oz ->
  wpx (iDecPairs G js ks) (decPairs G js ks) s (fun q v s' => pairsLen q v /\ Own s0 s' (pairsE q v ++ oe) oz).
Proof.
  induction js as [|j js IH]; intros ks s0 s oe oz O; cbn [iDecPairs decPairs].
  - apply wpx_ret. unfold pairsLen, pairsE. cbn [fst snd map combine app]. rewrite !map_length. split; [split; reflexivity|].
    assert (N : objs (map fst (combine (map (fun _ : json => (None : ptr)) ks) (map (fun _ : json => @None (E G)) ks))) = [])
      by (clear; induction ks as [|k ks IH]; [reflexivity|exact IH]).
    destruct O as [A B C D E1 F H]. constructor; try assumption.
    + apply Forall_app. split; [|exact B]. clear. induction ks; constructor; [reflexivity|assumption].
    + rewrite map_app, objs_app. apply Forall_app. split; [|exact D]. exact (eq_ind_r (fun l => Forall _ l) (Forall_nil _) N).
    + rewrite map_app, objs_app. apply (@eq_ind_r _ [] (fun l => NoDup (l ++ objs (map fst oe))) F _ N).
  - destruct ks as [|k ks]; [reflexivity|].
    eapply wpx_left; [apply own_newE, O|]. intros x s1 O1. eapply wpx_left; [apply own_newE, O1|]. intros y s2 O2. cbv beta in *.
    eapply wpx_bind; [exact (eUnmarshal_ok s0 s2 [(y, Some (gNew G))] oe oz x (Some j) O2)|]. intros ? X s3 O3; cbv beta in O3.
    eapply wpx_bind; [exact (eUnmarshal_ok s0 s3 [] ((x, Some X) :: oe) oz y (Some k) O3)|]. intros ? Y s4 O4; cbv beta in O4. cbn [app] in O4.
    eapply wpx_bind; [exact (IH ks s0 s4 _ oz O4)|]. intros [lq rq] [l r] s5 [[L1 L2] O5]. cbn [fst snd] in *. apply wpx_ret.
    unfold pairsLen, pairsE in *. cbn [fst snd map combine length] in *. split; [split; congruence|].
    eapply Own_perm; [|exact O5]. norm. etransitivity.
    + rewrite app_assoc. etransitivity; [symmetry; apply Permutation_middle|]. apply perm_skip. symmetry. apply Permutation_middle.
    + etransitivity; [apply perm_swap|]. apply perm_skip. norm. apply (Permutation_middle (combine lq (map Some l))).
Qed.

(** The objects of the decoded structures, with their values *)
Definition eltsIPParams (q : IPParamsP) (v : IPParams G) : elts :=
  pairsE (qGg q, qHh q) (ipGg v, ipHh v) ++ [(qUu q, Some (ipUu v))].
Definition lenIPParams (q : IPParamsP) (v : IPParams G) : Prop := pairsLen (qGg q, qHh q) (ipGg v, ipHh v).
Lemma iIPParamsFromRaw_ok : forall j s0 s oe oz, Own s0 s oe oz ->
  wpx (iIPParamsFromRaw G j) (ipParamsFromRaw G j) s (fun q v s' => lenIPParams q v /\ Own s0 s' (eltsIPParams q v ++ oe) oz).
Proof.
  intros j s0 s oe oz O. unfold iIPParamsFromRaw, ipParamsFromRaw.
  eapply wpx_left; [apply own_newE, O|]. intros u s1 O1. cbv beta in *.
  eapply wpx_bind; [exact (eUnmarshal_ok s0 s1 [] oe oz u (jUu j) O1)|]. intros ? U s2 O2; cbv beta in O2. cbn [app] in O2.
  eapply wpx_bind; [exact (iDecPairs_ok _ _ _ _ _ _ O2)|]. intros [lq rq] [l r] s3 [HL O3]. apply wpx_ret.
  split; [exact HL|]. unfold eltsIPParams. cbn [qGg qHh qUu ipGg ipHh ipUu fst snd]. norm. exact O3.
Qed.
Definition eltsIPProof (q : IPProofP) (v : IPProof G) : elts :=
  pairsE (qL q, qR q) (ipL v, ipR v) ++ eltsIPParams (qParams q) (ipParams v) ++ [(qP q, Some (ipP v))].
Definition lenIPProof (q : IPProofP) (v : IPProof G) : Prop := pairsLen (qL q, qR q) (ipL v, ipR v) /\ lenIPParams (qParams q) (ipParams v).
Definition intsIPProof (q : IPProofP) (v : IPProof G) : ints := [(qCc q, ipCc v); (qA q, ipA v); (qB q, ipB v)].
Lemma iIPProofFromRaw_ok : forall p j s0 s oe oz, sameIP p j -> Own s0 s oe oz ->
  wpx (iIPProofFromRaw G p) (ipProofFromRaw G j) s
    (fun q v s' => lenIPProof q v /\ intsIPProof q v = intsIP p j /\ Own s0 s' (eltsIPProof q v ++ oe) oz).
Proof.
  intros p j s0 s oe oz (E1 & E2 & E3 & E4) O. unfold iIPProofFromRaw, ipProofFromRaw. rewrite E1, E2, E3, E4.
  eapply wpx_left; [apply own_newE, O|]. intros P s1 O1. cbv beta in *.
  eapply wpx_bind; [exact (iIPParamsFromRaw_ok _ _ _ _ _ O1)|]. intros pr vpr s2 [HL2 O2].
  eapply wpx_bind; [exact (iDecPairs_ok _ _ _ _ _ _ O2)|]. intros [lq rq] [l r] s3 [HL3 O3].
  eapply wpx_bind.
  { eapply (eUnmarshal_ok s0 s3 (pairsE (lq, rq) (l, r) ++ eltsIPParams pr vpr) oe oz P (jP j)). norm. exact O3. }
  intros ? X s4 O4; cbv beta in O4. apply wpx_ret. split; [split; [exact HL3|exact HL2]|]. split; [reflexivity|].
  unfold eltsIPProof. cbn [qL qR qParams qP ipL ipR ipParams ipP fst snd]. norm. rewrite <- app_assoc in O4. exact O4.
Qed.
Definition eltsBulletProof (q : BulletProofP) (v : BulletProof G) : elts :=
  eltsIPProof (rIPP q) (pIPP v) ++
  [(rT2 q, Some (pT2 v)); (rT1 q, Some (pT1 v)); (rS q, Some (pS v)); (rA q, Some (pA v)); (rV q, Some (pV v))].
Definition intsBulletProof (q : BulletProofP) (v : BulletProof G) : ints :=
  [(rTaux q, pTaux v); (rMu q, pMu v); (rTprime q, pTprime v)] ++ intsIPProof (rIPP q) (pIPP v).
Lemma iBulletProof_ok : forall b qp vp s0 s oe oz, Own s0 s oe oz ->
  wpx (iBulletProofUnmarshalJSON G b qp) (BulletProofUnmarshalJSON G b vp) s
    (fun q v s' => lenIPProof (rIPP q) (pIPP v) /\ rParams q = qp /\ pParams v = vp /\
       Own s0 s' (eltsBulletProof q v ++ oe) (intsBulletProof q v ++ oz)).
Proof.
  intros b qp vp s0 s oe oz O. unfold iBulletProofUnmarshalJSON, BulletProofUnmarshalJSON.
  assert (O0 : Own s0 s oe (intsBP zeroBulletProofJP zeroBulletProofJ ++ oz)).
  { destruct O as [A B C D E1 F H]. constructor; try assumption. cbn. repeat (constructor; [reflexivity|]). exact C. }
  assert (Z0 : sameBP zeroBulletProofJP zeroBulletProofJ) by (repeat split).
  pose proof (unmarshal_ok _ _ _ (stepBP_ok s0 oe oz) b zeroBulletProofJP zeroBulletProofJ s (conj Z0 O0)) as H.
  destruct (unmarshal stepBulletProofJ zeroBulletProofJ b) as [t|]; cbn [orErr] in H.
  2:{ cbn in H |- *. unfold mbind at 1. rewrite H. reflexivity. }
  eapply wpx_left; [exact H|]. clear H O O0. intros p s1 [(E1 & E2 & E3 & E4 & E5 & E6) O1].
  rewrite E1, E2, E3, E4, E5.
  eapply wpx_left; [apply own_newE, O1|]. intros V s2 O2. cbv beta in *. clear O1.
  eapply wpx_left; [apply own_newE, O2|]. intros A s3 O3. cbv beta in *. clear O2.
  eapply wpx_left; [apply own_newE, O3|]. intros S s4 O4. cbv beta in *. clear O3.
  eapply wpx_left; [apply own_newE, O4|]. intros T1 s5 O5. cbv beta in *. clear O4.
  eapply wpx_left; [apply own_newE, O5|]. intros T2 s6 O6. cbv beta in *. clear O5.
  eapply wpx_bind; [exact (iIPProofFromRaw_ok _ _ _ _ _ _ E6 O6)|]. intros ip vip s7 (HL & EI & O7). clear O6.
  set (ge := Some (gNew G)) in *. set (L := eltsIPProof ip vip) in *.
  eapply wpx_bind; [eapply (eUnmarshal_ok s0 s7 (L ++ [(T2, ge); (T1, ge); (S, ge); (A, ge)]) oe _ V (jV t)); norm; exact O7|].
  intros ? vV s8 O8; cbv beta in O8. rewrite <- app_assoc in O8. cbn [app] in O8. clear O7.
  eapply wpx_bind; [eapply (eUnmarshal_ok s0 s8 (L ++ [(T2, ge); (T1, ge); (S, ge)]) ((V, Some vV) :: oe) _ A (jA t)); norm; exact O8|].
  intros ? vA s9 O9; cbv beta in O9. rewrite <- app_assoc in O9. cbn [app] in O9. clear O8.
  eapply wpx_bind; [eapply (eUnmarshal_ok s0 s9 (L ++ [(T2, ge); (T1, ge)]) ((A, Some vA) :: (V, Some vV) :: oe) _ S (jS t)); norm; exact O9|].
  intros ? vS s10 O10; cbv beta in O10. rewrite <- app_assoc in O10. cbn [app] in O10. clear O9.
  eapply wpx_bind; [eapply (eUnmarshal_ok s0 s10 (L ++ [(T2, ge)]) ((S, Some vS) :: (A, Some vA) :: (V, Some vV) :: oe) _ T1 (jT1 t)); norm; exact O10|].
  intros ? vT1 s11 O11; cbv beta in O11. rewrite <- app_assoc in O11. cbn [app] in O11. clear O10.
  eapply wpx_bind; [eapply (eUnmarshal_ok s0 s11 L ((T1, Some vT1) :: (S, Some vS) :: (A, Some vA) :: (V, Some vV) :: oe) _ T2 (jT2 t)); norm; exact O11|].
  intros ? vT2 s12 O12; cbv beta in O12. clear O11. apply wpx_ret. split; [exact HL|]. split; [reflexivity|]. split; [reflexivity|].
  unfold eltsBulletProof, intsBulletProof. cbn [rIPP rT1 rT2 rS rA rV rTaux rMu rTprime pIPP pT1 pT2 pS pA pV pTaux pMu pTprime].
  rewrite EI. norm. exact O12.
Qed.

(** voteproof: the intermediate structure *)
Definition sameGP (p : GroupParamsJP) (j : GroupParamsJ) : Prop := xG p = jG j /\ xH p = jH j.
Definition intsGP (p : GroupParamsJP) (j : GroupParamsJ) : ints := [(xN p, jN j); (xF p, jF j)].
Lemma stepGP_ok : forall s0 oe z1 z2 k v p j s, sameGP p j /\ Own s0 s oe (z1 ++ intsGP p j ++ z2) ->
  wpx (iStepGroupParams G k v p) (orErr (stepGroupParamsJ k v j)) s (fun p' j' s' => sameGP p' j' /\ Own s0 s' oe (z1 ++ intsGP p' j' ++ z2)).
Proof.
  intros s0 oe z1 z2 k v [g h n f i] [g' h' n' f' i'] s [(E1 & E2) O]. cbn in E1, E2. subst g' h'.
  unfold intsGP in O. cbn [xN xF jN jF app] in O. unfold iStepGroupParams, stepGroupParamsJ.
  destruct (fold_eqb k "G"). { apply wpx_ret. split; [repeat split|exact O]. }
  destruct (fold_eqb k "H"). { apply wpx_ret. split; [repeat split|exact O]. }
  destruct (fold_eqb k "N"). { unfold set1. stepbig z1. split; [repeat split|exact O0]. }
  destruct (fold_eqb k "F"). { unfold set1. stepbig (z1 ++ [(n, n')]). split; [repeat split|]. rewrite <- app_assoc in O0. exact O0. }
  destruct (fold_eqb k "I"). { apply wpx_ret. split; [repeat split|exact O]. }
  apply wpx_ret. split; [repeat split|exact O].
Qed.
Definition samePP (p : ProofParamsJP) (j : ProofParamsJ) : Prop :=
  xBx p = jBx j /\ xBc p = jBc j /\ xBg p = jBg j /\ xBb p = jBb j /\ xLo p = jLo j /\ xHi p = jHi j /\
  sameGP (xGFF p) (jGFF j) /\ sameGP (xGEC p) (jGEC j).
Definition intsPP (p : ProofParamsJP) (j : ProofParamsJ) : ints := intsGP (xGFF p) (jGFF j) ++ intsGP (xGEC p) (jGEC j).
Lemma stepPP_ok : forall s0 oe z1 z2 k v p j s, samePP p j /\ Own s0 s oe (z1 ++ intsPP p j ++ z2) ->
  wpx (iStepProofParams G k v p) (orErr (stepProofParamsJ k v j)) s (fun p' j' s' => samePP p' j' /\ Own s0 s' oe (z1 ++ intsPP p' j' ++ z2)).
Proof.
  intros s0 oe z1 z2 k v [bx bc bg bb lo hi ff ec] [bx' bc' bg' bb' lo' hi' ff' ec'] s [(E1 & E2 & E3 & E4 & E5 & E6 & E7 & E8) O].
  cbn in E1, E2, E3, E4, E5, E6, E7, E8. subst bx' bc' bg' bb' lo' hi'. unfold intsPP in O. cbn [xGFF xGEC jGFF jGEC] in O.
  unfold iStepProofParams, stepProofParamsJ, set1.
  Ltac num E7 E8 O := rewrite orErr_map; eapply wpx_bind;
    [match goal with |- wpx _ _ ?s _ => apply wpx_lift with (Q := fun u v s' => u = v /\ s' = s); auto end|];
    intros ? ? ? [-> ->]; apply wpx_ret; split; [repeat split; first [apply E7|apply E8]|exact O].
  destruct (fold_eqb k "Bx"). { num E7 E8 O. }
  destruct (fold_eqb k "Bc"). { num E7 E8 O. }
  destruct (fold_eqb k "Bg"). { num E7 E8 O. }
  destruct (fold_eqb k "Bb"). { num E7 E8 O. }
  destruct (fold_eqb k "RangeLo"). { num E7 E8 O. }
  destruct (fold_eqb k "RangeHi"). { num E7 E8 O. }
  destruct (fold_eqb k "GFF").
  { rewrite orErr_map. eapply wpx_bind.
    - apply (decStruct_ok _ _ (fun p' j' s' => sameGP p' j' /\ Own s0 s' oe (z1 ++ intsGP p' j' ++ intsGP ec ec' ++ z2))).
      + intros. apply stepGP_ok. assumption.
      + split; [exact E7|]. rewrite <- app_assoc in O. exact O.
    - intros u w s' [X Y]. apply wpx_ret. split; [repeat split; first [apply X|apply E8]|]. unfold intsPP. cbn [xGFF xGEC jGFF jGEC].
      rewrite <- app_assoc. exact Y. }
  destruct (fold_eqb k "GEC").
  { rewrite orErr_map. eapply wpx_bind.
    - apply (decStruct_ok _ _ (fun p' j' s' => sameGP p' j' /\ Own s0 s' oe ((z1 ++ intsGP ff ff') ++ intsGP p' j' ++ z2))).
      + intros. apply stepGP_ok. assumption.
      + split; [exact E8|]. rewrite <- app_assoc in O |- *. exact O.
    - intros u w s' [X Y]. apply wpx_ret. split; [repeat split; first [apply X|apply E7]|]. unfold intsPP. cbn [xGFF xGEC jGFF jGEC].
      rewrite <- app_assoc in Y |- *. exact Y. }
  apply wpx_ret. split; [repeat split; first [apply E7|apply E8]|exact O].
Qed.
Definition sameSP (p : SigmaProofJP) (j : SigmaProofJ) : Prop :=
  xW p = jW j /\ xKp p = jKp j /\ xKq1 p = jKq1 j /\ xKq2 p = jKq2 j /\ samePP (xPP p) (jPP j).
Definition intsSP (p : SigmaProofJP) (j : SigmaProofJ) : ints :=
  [(xChal p, jChal j); (xZ p, jZ j); (xSp p, jSp j); (xSq1 p, jSq1 j); (xSq2 p, jSq2 j)] ++ intsPP (xPP p) (jPP j).
Lemma stepSP_ok : forall s0 oe oz k v p j s, sameSP p j /\ Own s0 s oe (intsSP p j ++ oz) ->
  wpx (iStepSigmaProof G k v p) (orErr (stepSigmaProofJ k v j)) s (fun p' j' s' => sameSP p' j' /\ Own s0 s' oe (intsSP p' j' ++ oz)).
Proof.
  intros s0 oe oz k v [w kp k1 k2 ch z sp s1 s2 pp] [w' kp' k1' k2' ch' z' sp' s1' s2' pp'] s [(E1 & E2 & E3 & E4 & E5) O].
  cbn in E1, E2, E3, E4, E5. subst w' kp' k1' k2'. unfold intsSP in O. cbn [xChal xZ xSp xSq1 xSq2 xPP jChal jZ jSp jSq1 jSq2 jPP app] in O.
  unfold iStepSigmaProof, stepSigmaProofJ, set1.
  destruct (fold_eqb k "W"). { apply wpx_ret. split; [repeat split; apply E5|exact O]. }
  destruct (fold_eqb k "Kp"). { apply wpx_ret. split; [repeat split; apply E5|exact O]. }
  destruct (fold_eqb k "Kq1"). { apply wpx_ret. split; [repeat split; apply E5|exact O]. }
  destruct (fold_eqb k "Kq2"). { apply wpx_ret. split; [repeat split; apply E5|exact O]. }
  destruct (fold_eqb k "Challenge"). { stepbig (@nil (ptr * option Z)). split; [repeat split; apply E5|exact O0]. }
  destruct (fold_eqb k "Z"). { stepbig [(ch, ch')]. split; [repeat split; apply E5|exact O0]. }
  destruct (fold_eqb k "Sp"). { stepbig [(ch, ch'); (z, z')]. split; [repeat split; apply E5|exact O0]. }
  destruct (fold_eqb k "Sq1"). { stepbig [(ch, ch'); (z, z'); (sp, sp')]. split; [repeat split; apply E5|exact O0]. }
  destruct (fold_eqb k "Sq2"). { stepbig [(ch, ch'); (z, z'); (sp, sp'); (s1, s1')]. split; [repeat split; apply E5|exact O0]. }
  destruct (fold_eqb k "Params").
  { rewrite orErr_map. eapply wpx_bind.
    - apply (decStruct_ok _ _ (fun p' j' s' => samePP p' j' /\
        Own s0 s' oe ([(ch, ch'); (z, z'); (sp, sp'); (s1, s1'); (s2, s2')] ++ intsPP p' j' ++ oz))).
      + intros. apply stepPP_ok. assumption.
      + split; [exact E5|exact O].
    - intros u x s' [X Y]. apply wpx_ret. split; [repeat split; apply X|exact Y]. }
  apply wpx_ret. split; [repeat split; apply E5|exact O].
Qed.
End OneGroup.

(** ** Both groups *)
Section TwoGroups.
Context (GF GE : Grp).
Local Notation heap2 := (heap2 GF GE).
Local Notation M2 := (M2 GF GE).
Local Notation mkH2 := (mkH2 GF GE).
Local Notation zAt := (zAt GE). Local Notation eAt := (eAt GE). Local Notation Pre := (Pre GE).
Local Notation fAt := (fAt GF). Local Notation PreF := (PreF GF).
Local Notation onE := (onE GF GE).
Implicit Types (h : heap2) (F : list (E GF)) (s : heap GE).
Notation felts := (list (ptr * option (E GF))).
Notation elts := (list (ptr * option (E GE))).
Notation ints := (list (ptr * option Z)).

Lemma wpx2_bind : forall {A A' B B'} (c : M2 A) (f : A -> M2 A') (r : res B) (g : B -> res B') h R Q,
  wpx c r h R -> (forall u v h', R u v h' -> wpx (f u) (g v) h' Q) -> wpx (mbind2 GF GE c f) (bind r g) h Q.
Proof.
  intros A A' B B' c f r g h R Q H K. unfold mbind2. destruct r as [v| | |]; cbn [bind]; cbn in H.
  - destruct H as (u & h' & E & HR). specialize (K u v h' HR). unfold wpx in *. rewrite E. exact K.
  - cbn. rewrite H. reflexivity.
  - cbn. rewrite H. reflexivity.
  - cbn. rewrite H. reflexivity.
Qed.
Lemma wpx2_left : forall {A A' B B'} (c : M2 A) (f : A -> M2 A') (v : B) (r : res B') h R Q,
  wpx c (Ok v) h R -> (forall u h', R u v h' -> wpx (f u) r h' Q) -> wpx (mbind2 GF GE c f) r h Q.
Proof.
  intros A A' B B' c f v r h R Q (u & h' & E & HR) K. specialize (K u h' HR). unfold mbind2, wpx in *. rewrite E. exact K.
Qed.
Lemma wpx2_ret : forall {A B} (u : A) (v : B) h (Q : A -> B -> heap2 -> Prop), Q u v h -> wpx (ret2 GF GE u) (Ok v) h Q.
Proof. intros A B u v h Q H. exists u, h. split; [reflexivity|exact H]. Qed.
Lemma wpx2_lift : forall {A} (r : res A) h (Q : A -> A -> heap2 -> Prop), (forall v, r = Ok v -> Q v v h) -> wpx (lift2 GF GE r) r h Q.
Proof. intros A r h Q H. destruct r as [v| | |]; cbn; try reflexivity. exists v, h. split; [reflexivity|apply H; reflexivity]. Qed.
Lemma wpx2_E : forall {A B} (c : M GE A) (r : res B) h (Q : A -> B -> heap2 -> Prop),
  wpx c r (sub _ _ h) (fun u v s' => Q u v (mkH2 (fe _ _ h) (fw _ _ h) s')) -> wpx (onE c) r h Q.
Proof.
  intros A B c r [F W s] Q H. cbn [sub fe fw] in *. unfold wpx, ImpVote.onE in *. cbn [sub fe fw].
  destruct r as [v| | |]; try (rewrite H; reflexivity). destruct H as (u & s' & E & HQ). exists u, (mkH2 F W s'). rewrite E. split; [reflexivity|exact HQ].
Qed.

Record OwnF (h0 h : heap2) (of_ : felts) : Prop := mkOwnF {
  of_pre : PreF (fe _ _ h0) (fw _ _ h0) (fe _ _ h) (fw _ _ h);
  of_f : Forall (fun x => fAt (fe _ _ h) (fst x) (snd x)) of_;
  of_n : Forall (fun r => (length (fe _ _ h0) <= r)%nat) (objs (map fst of_));
  of_d : NoDup (objs (map fst of_))
}.
Definition Own2 (h0 h : heap2) (of_ : felts) (oe : elts) (oz : ints) : Prop := OwnF h0 h of_ /\ Own GE (sub _ _ h0) (sub _ _ h) oe oz.
Lemma Own2_nil : forall h, Own2 h h [] [] [].
Proof. intros h. split; [|apply Own_nil]. constructor; [apply PreF_refl|constructor|constructor|constructor]. Qed.
Lemma own_newF : forall h0 h of_ oe oz v, Own2 h0 h of_ oe oz ->
  wpx (newF GF GE v) (Ok tt) h (fun e _ h' => Own2 h0 h' ((e, Some v) :: of_) oe oz).
Proof.
  intros h0 [F W s] of_ oe oz v [[A B C D] O]. cbn [fe fw sub] in *. eexists _, _. split; [reflexivity|]. cbn [fe fw sub].
  assert (P : PreF F W (F ++ [v]) W). { split; [exists [v]; reflexivity|]. exists []. split; [reflexivity|constructor]. }
  split; [|exact O]. constructor; cbn [fe fw].
  - exact (PreF_trans _ _ _ _ _ _ _ A P).
  - constructor.
    + exists (length F). split; [reflexivity|]. rewrite nth_error_app2, Nat.sub_diag; [reflexivity|lia].
    + eapply Forall_impl; [|exact B]. intros x. apply (fAt_pre _ _ _ _ _ _ _ P).
  - cbn [map fst objs flat_map app]. constructor; [|exact C]. destruct A as [(l & ->) _]. rewrite app_length. lia.
  - cbn [map fst objs flat_map app]. constructor; [|exact D]. intros I. apply in_objs, in_map_iff in I. destruct I as ([p o] & E & I).
    rewrite Forall_forall in B. apply B in I. cbn in *. subst p. destruct o as [w|]; cbn in I; [|discriminate].
    destruct I as (r & E & I). injection E as <-. assert (nth_error F (length F) <> None) by congruence. apply nth_error_Some in H. lia.
Qed.
Lemma own_setF : forall h0 h l1 l2 oe oz e w v, Own2 h0 h (l1 ++ (e, Some w) :: l2) oe oz ->
  wpx (wrF GF GE e v) (Ok tt) h (fun _ _ h' => Own2 h0 h' (l1 ++ (e, Some v) :: l2) oe oz).
Proof.
  intros h0 [F W s] l1 l2 oe oz e w v [[A B C D] O]. cbn [fe fw sub] in *.
  apply Forall_app in B. destruct B as [B1 B2]. inversion B2 as [|? ? X B3]; subst. cbn [fst snd] in X. destruct X as (r & -> & X).
  assert (L : (r < length F)%nat) by (apply nth_error_Some; congruence).
  exists tt, (mkH2 (setNth F r v) (r :: W) s). split; [unfold wrF; cbn [fe fw sub]; rewrite (proj2 (Nat.ltb_lt _ _) L); reflexivity|].
  split; [|exact O].
  rewrite map_app, objs_app in C, D. cbn [map fst objs flat_map app] in C, D. change (flat_map _ (map fst l2)) with (objs (map fst l2)) in *.
  assert (N : ~ In r (objs (map fst l1) ++ objs (map fst l2))) by (apply NoDup_remove_2; exact D).
  assert (Lr : (length (fe _ _ h0) <= r)%nat). { apply Forall_app in C. destruct C as [_ C]. inversion C; assumption. }
  assert (K : forall z : felts, (forall t, In t (objs (map fst z)) -> t <> r) -> Forall (fun x => fAt F (fst x) (snd x)) z ->
    Forall (fun x => fAt (setNth F r v) (fst x) (snd x)) z).
  { intros z I Y. apply Forall_forall. intros [q o] J. rewrite Forall_forall in Y. pose proof (Y _ J) as Z. cbn in *.
    destruct o as [u|]; [|exact Z]. destruct Z as (r' & -> & Z). exists r'. split; [reflexivity|]. rewrite setNth_other; [exact Z|].
    intros <-. apply (I r); [|reflexivity]. apply in_objs, in_map_iff. exists (Some r, Some u). split; [reflexivity|exact J]. }
  constructor; cbn [fe fw].
  - destruct A as [(l & EF) (wl & EW & FW)]. split.
    + exists (setNth l (r - length (fe _ _ h0)) v). subst F. clear - Lr. revert r Lr. generalize (fe GF GE h0) as F0.
      induction F0 as [|x F0 IH]; intros r Lr; cbn [app length] in *; [f_equal; lia|].
      destruct r as [|r]; [lia|]. cbn [setNth app Nat.sub]. f_equal. apply IH. lia.
    + exists (r :: wl). split; [rewrite EW; reflexivity|]. constructor; assumption.
  - apply Forall_app. split; [|constructor].
    + apply K; [|exact B1]. intros t I ->. apply N, in_or_app. left. exact I.
    + exists r. split; [reflexivity|]. apply setNth_same, L.
    + apply K; [|exact B3]. intros t I ->. apply N, in_or_app. right. exact I.
  - rewrite map_app, objs_app. exact C.
  - rewrite map_app, objs_app. exact D.
Qed.
Lemma fUnmarshal_ok : forall h0 h l1 l2 oe oz e j, Own2 h0 h (l1 ++ (e, Some (gNew GF)) :: l2) oe oz ->
  wpx (fUnmarshal GF GE e j) (decElt GF j) h (fun _ X h' => Own2 h0 h' (l1 ++ (e, Some X) :: l2) oe oz).
Proof.
  intros h0 h l1 l2 oe oz e j O. unfold fUnmarshal, decElt.
  assert (X : fAt (fe _ _ h) e (Some (gNew GF))).
  { pose proof (of_f _ _ _ (proj1 O)) as Y. apply Forall_app in Y. destruct Y as [_ Y]. inversion Y as [|? ? X ?]; subst. exact X. }
  eapply wpx2_left with (v := gNew GF) (R := fun u v h' => u = v /\ h' = h) (c := rdF GF GE e).
  { exists (gNew GF), h. split; [|split; reflexivity]. destruct X as (r & -> & X). unfold rdF. rewrite X. reflexivity. }
  intros u h' [-> ->]. eapply wpx2_bind; [apply wpx2_lift with (Q := fun u v h' => u = v /\ h' = h); auto|].
  intros u [Y b] h' [-> ->]. cbn [fst]. destruct (own_setF _ _ _ _ _ _ _ _ Y O) as (t & h' & EW & O'). exists t, h'. split; [exact EW|exact O'].
Qed.
(** statements on the curve group *)
Lemma own_onE : forall {A B} (c : M GE A) (r : res B) h0 h of_ oe oz (Q : A -> B -> elts -> ints -> Prop),
  Own2 h0 h of_ oe oz ->
  (Own GE (sub _ _ h0) (sub _ _ h) oe oz -> wpx c r (sub _ _ h) (fun u v s' => exists oe' oz', Q u v oe' oz' /\ Own GE (sub _ _ h0) s' oe' oz')) ->
  wpx (onE c) r h (fun u v h' => exists oe' oz', Q u v oe' oz' /\ Own2 h0 h' of_ oe' oz').
Proof.
  intros A B c r h0 h of_ oe oz Q [OF O] K. apply wpx2_E. eapply wpx_weaken; [exact (K O)|].
  intros u v s' (oe' & oz' & HQ & O'). exists oe', oz'. split; [exact HQ|]. split; [|exact O'].
  destruct OF as [A1 A2 A3 A4]. constructor; assumption.
Qed.
Lemma own2_newE : forall {A B'} (f : ptr -> M2 A) (r : res B') v h0 h of_ oe oz Q, Own2 h0 h of_ oe oz ->
  (forall e h', Own2 h0 h' of_ ((e, Some v) :: oe) oz -> wpx (f e) r h' Q) -> wpx (mbind2 GF GE (onE (newE GE v)) f) r h Q.
Proof.
  intros A B' f r v h0 h of_ oe oz Q O K.
  eapply wpx2_left; [apply (own_onE (newE GE v) (Ok tt) h0 h of_ oe oz (fun e _ oe' oz' => oe' = (e, Some v) :: oe /\ oz' = oz) O)|].
  - intros O1. eapply wpx_weaken; [exact (own_newE GE _ _ _ _ v O1)|]. intros u w s' O2. eexists _, _. split; [split; reflexivity|exact O2].
  - intros u h' (oe' & oz' & [-> ->] & O'). exact (K u h' O').
Qed.
Lemma own2_eUnmarshal : forall {A B'} (f : unit -> M2 A) (g : E GE -> res B') h0 h of_ l1 l2 oz e j Q,
  Own2 h0 h of_ (l1 ++ (e, Some (gNew GE)) :: l2) oz ->
  (forall X h', Own2 h0 h' of_ (l1 ++ (e, Some X) :: l2) oz -> wpx (f tt) (g X) h' Q) ->
  wpx (mbind2 GF GE (onE (eUnmarshal GE e j)) f) (bind (decElt GE j) g) h Q.
Proof.
  intros A B' f g h0 h of_ l1 l2 oz e j Q O K.
  eapply wpx2_bind; [apply (own_onE (eUnmarshal GE e j) (decElt GE j) h0 h of_ _ oz
    (fun _ X oe' oz' => oe' = l1 ++ (e, Some X) :: l2 /\ oz' = oz) O)|].
  - intros O1. eapply wpx_weaken; [exact (eUnmarshal_ok GE _ _ _ _ _ e j O1)|]. intros u w s' O2. eexists _, _. split; [split; reflexivity|exact O2].
  - intros [] X h' (oe' & oz' & [-> ->] & O'). exact (K X h' O').
Qed.

Definition eltsCT (q : CiphertextP) (v : Ciphertext GF) : felts := [(yV q, Some (ctV v)); (yU q, Some (ctU v))].
Lemma iBallot_ok : forall b h0 h of_ oe oz, Own2 h0 h of_ oe oz ->
  wpx (iBallotUnmarshalJSON GF GE b) (BallotUnmarshalJSON GF b) h (fun q v h' => Own2 h0 h' (eltsCT q v ++ of_) oe oz).
Proof.
  intros b h0 h of_ oe oz O. unfold iBallotUnmarshalJSON, BallotUnmarshalJSON.
  destruct (unmarshal stepCiphertextJ (None, None) b) as [[u v]|]; [|reflexivity]. cbn [orErr].
  eapply wpx2_left; [apply (wpx2_lift (Ok (u, v)) h (fun x y h' => x = y /\ h' = h)); auto|]. intros t h' [-> ->]. cbn [fst snd].
  eapply wpx2_left; [apply own_newF, O|]. intros U h1 O1. cbv beta in O1.
  eapply wpx2_left; [apply own_newF, O1|]. intros V h2 O2. cbv beta in O2.
  eapply wpx2_bind; [apply (fUnmarshal_ok h0 h2 [(V, Some (gNew GF))] of_ oe oz U u O2)|]. intros ? X h3 O3; cbv beta in O3.
  eapply wpx2_bind; [apply (fUnmarshal_ok h0 h3 [] ((U, Some X) :: of_) oe oz V v O3)|]. intros ? Y h4 O4; cbv beta in O4.
  apply wpx2_ret. exact O4.
Qed.
Definition eltsSPf (q : SigmaProofP) (v : SigmaProof GF GE) : felts :=
  [(uKp q, Some (sKp v)); (uW q, Some (sW v)); (kH (wGFF (uParams q)), Some (gpH (vGFF (sParams v)))); (kG (wGFF (uParams q)), Some (gpG (vGFF (sParams v))))].
Definition eltsSPe (q : SigmaProofP) (v : SigmaProof GF GE) : elts :=
  [(uKq2 q, Some (sKq2 v)); (uKq1 q, Some (sKq1 v)); (kH (wGEC (uParams q)), Some (gpH (vGEC (sParams v)))); (kG (wGEC (uParams q)), Some (gpG (vGEC (sParams v))))].
Definition intsSigma (q : SigmaProofP) (v : SigmaProof GF GE) : ints :=
  [(uChal q, sChal v); (uZ q, sZ v); (uSp q, sSp v); (uSq1 q, sSq1 v); (uSq2 q, sSq2 v)] ++
  [(kN (wGFF (uParams q)), gpN (vGFF (sParams v))); (kF (wGFF (uParams q)), gpF (vGFF (sParams v)))] ++
  [(kN (wGEC (uParams q)), gpN (vGEC (sParams v))); (kF (wGEC (uParams q)), gpF (vGEC (sParams v)))].
Definition sameBits (q : ProofParamsP) (v : ProofParams GF GE) : Prop :=
  wBx q = vBx v /\ wBc q = vBc v /\ wBg q = vBg v /\ wBb q = vBb v /\ wLo q = vLo v /\ wHi q = vHi v.
Lemma iProof_ok : forall b h0 h of_ oe oz, Own2 h0 h of_ oe oz ->
  wpx (iProofUnmarshalJSON GF GE b) (ProofUnmarshalJSON GF GE b) h
    (fun q v h' => sameBits (uParams q) (sParams v) /\ Own2 h0 h' (eltsSPf q v ++ of_) (eltsSPe q v ++ oe) (intsSigma q v ++ oz)).
Proof.
  intros b h0 h of_ oe oz O. unfold iProofUnmarshalJSON, ProofUnmarshalJSON.
  pose proof (own_onE (iUnmarshal GE (iStepSigmaProof GE) zeroSigmaProofJP b) (orErr (unmarshal stepSigmaProofJ zeroSigmaProofJ b)) h0 h of_ oe oz
    (fun p j oe' oz' => sameSP p j /\ oe' = oe /\ oz' = intsSP p j ++ oz) O) as H.
  match type of H with ?P -> _ => assert (H0 : P) end.
  { intros O1. eapply wpx_weaken; [apply (unmarshal_ok GE _ _ _ (stepSP_ok GE (sub _ _ h0) oe oz))|].
    - split; [repeat split|]. destruct O1 as [A B C D E1 F1 H1]. constructor; try assumption. cbn. repeat (constructor; [reflexivity|]). exact C.
    - intros p j s' [X Y]. exists oe, (intsSP p j ++ oz). split; [split; [exact X|split; reflexivity]|exact Y]. }
  specialize (H H0). clear H0.
  destruct (unmarshal stepSigmaProofJ zeroSigmaProofJ b) as [t|]; cbn [orErr] in H.
  2:{ cbn in H |- *. unfold mbind2 at 1. rewrite H. reflexivity. }
  eapply wpx2_left; [exact H|]. clear H. intros p h1 (oe' & oz' & ((E1 & E2 & E3 & E4 & EP) & -> & ->) & O1). cbv zeta.
  destruct EP as (B1 & B2 & B3 & B4 & B5 & B6 & (F1 & F2) & (F3 & F4)).
  rewrite E1, E2, E3, E4, B1, B2, B3, B4, B5, B6, F1, F2, F3, F4.
  eapply wpx2_left; [apply own_newF, O1|]. intros gf h2 O2. cbv beta in O2. clear O1.
  eapply wpx2_left; [apply own_newF, O2|]. intros hf h3 O3. cbv beta in O3. clear O2.
  eapply own2_newE; [exact O3|]. intros ge h4 O4. clear O3.
  eapply own2_newE; [exact O4|]. intros he h5 O5. clear O4.
  eapply wpx2_bind; [apply (fUnmarshal_ok h0 h5 [(hf, Some (gNew GF))] of_ _ _ gf _ O5)|]. intros ? v1 h6 O6; cbv beta in O6. clear O5.
  eapply wpx2_bind; [apply (fUnmarshal_ok h0 h6 [] ((gf, Some v1) :: of_) _ _ hf _ O6)|]. intros ? v2 h7 O7; cbv beta in O7. clear O6.
  eapply (own2_eUnmarshal _ _ h0 h7 _ [(he, Some (gNew GE))] oe _ ge _); [exact O7|]. intros v3 h8 O8. clear O7.
  eapply (own2_eUnmarshal _ _ h0 h8 _ [] ((ge, Some v3) :: oe) _ he _); [exact O8|]. intros v4 h9 O9. clear O8.
  eapply wpx2_left; [apply own_newF, O9|]. intros w h10 O10. cbv beta in O10. clear O9.
  eapply wpx2_left; [apply own_newF, O10|]. intros kp h11 O11. cbv beta in O11. clear O10.
  eapply own2_newE; [exact O11|]. intros k1 h12 O12. clear O11.
  eapply own2_newE; [exact O12|]. intros k2 h13 O13. clear O12. cbn [app] in O13.
  eapply wpx2_bind; [apply (fUnmarshal_ok h0 h13 [(kp, Some (gNew GF))] _ _ _ w _ O13)|]. intros ? v5 h14 O14; cbv beta in O14. clear O13.
  eapply wpx2_bind; [apply (fUnmarshal_ok h0 h14 [] ((w, Some v5) :: _) _ _ kp _ O14)|]. intros ? v6 h15 O15; cbv beta in O15. clear O14.
  eapply (own2_eUnmarshal _ _ h0 h15 _ [(k2, Some (gNew GE))] _ _ k1 _); [exact O15|]. intros v7 h16 O16. clear O15.
  eapply (own2_eUnmarshal _ _ h0 h16 _ [] ((k1, Some v7) :: _) _ k2 _); [exact O16|]. intros v8 h17 O17. clear O16.
  apply wpx2_ret. split; [repeat split|]. exact O17.
Qed.

(** The objects of a decoded ballot *)
Definition eltsBallotF (q : BallotDataP) (v : BallotData GF GE) : felts := eltsSPf (yVote q) (bdVote v) ++ eltsCT (yBallot q) (bdBallot v).
Definition eltsBallotE (q : BallotDataP) (v : BallotData GF GE) : elts :=
  eltsSPe (yVote q) (bdVote v) ++ eltsBulletProof GE (yUpper q) (bdUpper v) ++ eltsBulletProof GE (yLower q) (bdLower v).
Definition intsBallot (q : BallotDataP) (v : BallotData GF GE) : ints :=
  intsSigma (yVote q) (bdVote v) ++ intsBulletProof GE (yUpper q) (bdUpper v) ++ intsBulletProof GE (yLower q) (bdLower v).
Definition shapeBallot (q : BallotDataP) (v : BallotData GF GE) : Prop :=
  lenIPProof GE (rIPP (yLower q)) (pIPP (bdLower v)) /\ lenIPProof GE (rIPP (yUpper q)) (pIPP (bdUpper v)) /\
  sameBits (uParams (yVote q)) (sParams (bdVote v)).
Lemma iBallotData_ok : forall b qpp vpp h,
  wpx (iBallotDataUnmarshalJSON GF GE b qpp) (BallotDataUnmarshalJSON GF GE b vpp) h
    (fun q v h' => shapeBallot q v /\ rParams (yLower q) = yBP qpp /\ rParams (yUpper q) = yBP qpp /\
       pParams (bdLower v) = ppBP vpp /\ pParams (bdUpper v) = ppBP vpp /\
       Own2 h h' (eltsBallotF q v) (eltsBallotE q v) (intsBallot q v)).
Proof.
  intros b qpp vpp h. unfold iBallotDataUnmarshalJSON, BallotDataUnmarshalJSON. cbv zeta.
  set (t := match unmarshal stepBallotDataJ zeroBallotDataJ b with Some t => t | None => zeroBallotDataJ end).
  eapply wpx2_bind; [exact (iBallot_ok (jBallot t) h h _ _ _ (Own2_nil h))|]. intros ct vct h1 O1; cbv beta in O1.
  assert (K : forall d h1 of_ oe oz, Own2 h h1 of_ oe oz -> wpx (onE (iBulletProofUnmarshalJSON GE d (yBP qpp))) (BulletProofUnmarshalJSON GE d (ppBP vpp)) h1
    (fun q v h' => exists oe' oz', (lenIPProof GE (rIPP q) (pIPP v) /\ rParams q = yBP qpp /\ pParams v = ppBP vpp /\
       oe' = eltsBulletProof GE q v ++ oe /\ oz' = intsBulletProof GE q v ++ oz) /\ Own2 h h' of_ oe' oz')).
  { intros d g of_ oe oz O. apply (own_onE _ _ h g of_ oe oz (fun q v oe' oz' => lenIPProof GE (rIPP q) (pIPP v) /\ rParams q = yBP qpp /\ pParams v = ppBP vpp /\
       oe' = eltsBulletProof GE q v ++ oe /\ oz' = intsBulletProof GE q v ++ oz) O).
    intros OE. eapply wpx_weaken; [exact (iBulletProof_ok GE d (yBP qpp) (ppBP vpp) _ _ _ _ OE)|].
    intros q v s' (X & Y & Z & OE'). eexists _, _. split; [repeat split; try assumption; apply X|exact OE']. }
  eapply wpx2_bind; [exact (K _ _ _ _ _ O1)|]. intros lo vlo h2 (oe2 & oz2 & (L1 & P1 & Q1 & -> & ->) & O2). clear O1.
  eapply wpx2_bind; [exact (K _ _ _ _ _ O2)|]. intros up vup h3 (oe3 & oz3 & (L2 & P2 & Q2 & -> & ->) & O3). clear O2 K.
  eapply wpx2_bind; [exact (iProof_ok (jVote t) h h3 _ _ _ O3)|]. intros vp vvp h4 [L3 O4]. clear O3.
  apply wpx2_ret. split; [repeat split; first [apply L1|apply L2|apply L3]|]. do 4 (split; [assumption|]).
  unfold eltsBallotF, eltsBallotE, intsBallot. cbn [yBallot yLower yUpper yVote bdBallot bdLower bdUpper bdVote].
  rewrite !app_nil_r in O4. exact O4.
Qed.

(** The structures hold their values *)
Lemma combine_es : forall s ps vs, length ps = length vs -> Forall (fun x => eAt s (fst x) (snd x)) (combine ps (map Some vs)) -> esAt GE s ps vs.
Proof.
  intros s ps. induction ps as [|p ps IH]; intros [|v vs] L H; try discriminate; [constructor|].
  cbn [map combine] in H. inversion H; subst. constructor; [assumption|]. apply IH; [cbn in L; lia|assumption].
Qed.
Lemma combine_eos : forall s ps vs, length ps = length vs -> Forall (fun x => eAt s (fst x) (snd x)) (combine ps vs) -> eosAt GE s ps vs.
Proof.
  intros s ps. induction ps as [|p ps IH]; intros [|v vs] L H; try discriminate; [constructor|].
  cbn [combine] in H. inversion H; subst. constructor; [assumption|]. apply IH; [cbn in L; lia|assumption].
Qed.
Ltac splitF := repeat match goal with
  | H : Forall _ (_ ++ _) |- _ => apply Forall_app in H; destruct H
  | H : Forall _ (_ :: _) |- _ => inversion H; clear H; subst
  end.
Lemma repIPProof_own : forall s q v, lenIPProof GE q v -> Forall (fun x => eAt s (fst x) (snd x)) (eltsIPProof GE q v) ->
  Forall (fun x => zAt s (fst x) (snd x)) (intsIPProof GE q v) -> repIPProof GE s q v.
Proof.
  intros s q v ((L1 & L2) & L3 & L4) HE HZ. unfold eltsIPProof, eltsIPParams, intsIPProof, pairsE in *. cbn [fst snd] in *. splitF. cbn [fst snd] in *.
  unfold repIPProof, repIPParams. do 4 (split; [assumption|]). split; [apply combine_es; assumption|]. split; [apply combine_eos; assumption|].
  split; [apply combine_es; assumption|]. split; [apply combine_eos; assumption|assumption].
Qed.
Lemma repBP_own : forall s q v, lenIPProof GE (rIPP q) (pIPP v) -> Forall (fun x => eAt s (fst x) (snd x)) (eltsBulletProof GE q v) ->
  Forall (fun x => zAt s (fst x) (snd x)) (intsBulletProof GE q v) -> repBPParams GE s (rParams q) (pParams v) -> repBP GE s q v.
Proof.
  intros s q v L HE HZ HP. unfold eltsBulletProof, intsBulletProof in *. apply Forall_app in HE, HZ. destruct HE as [HE HE'], HZ as [HZ HZ'].
  pose proof (repIPProof_own s _ _ L HE HZ') as R. clear HE HZ'. splitF. cbn [fst snd] in *.
  unfold repBP. repeat (split; [assumption|]). exact HP.
Qed.
Lemma repBallot_own : forall h0 h q v, shapeBallot q v -> Own2 h0 h (eltsBallotF q v) (eltsBallotE q v) (intsBallot q v) ->
  repBPParams GE (sub _ _ h) (rParams (yLower q)) (pParams (bdLower v)) -> repBPParams GE (sub _ _ h) (rParams (yUpper q)) (pParams (bdUpper v)) ->
  repBallot GF GE (fe _ _ h) (sub _ _ h) q v.
Proof.
  intros h0 h q v (L1 & L2 & B1 & B2 & B3 & B4 & B5 & B6) [OF O] P1 P2.
  pose proof (of_f _ _ _ OF) as HF. pose proof (own_e _ _ _ _ _ O) as HE. pose proof (own_z _ _ _ _ _ O) as HZ.
  unfold eltsBallotF, eltsSPf, eltsCT in HF. unfold eltsBallotE, eltsSPe in HE. unfold intsBallot, intsSigma in HZ.
  apply Forall_app in HE, HZ. destruct HE as [HE HE'], HZ as [HZ HZ']. apply Forall_app in HE', HZ'. destruct HE' as [HU HL], HZ' as [ZU ZL].
  pose proof (repBP_own _ _ _ L1 HL ZL P1) as R1. pose proof (repBP_own _ _ _ L2 HU ZU P2) as R2. clear HU HL ZU ZL OF O.
  splitF. cbn [fst snd] in *. unfold repBallot, repCT, repSP, repPP, repGF, repGE.
  split; [split; assumption|]. split; [exact R1|]. split; [exact R2|]. do 9 (split; [assumption|]). do 6 (split; [assumption|]).
  split; repeat split; assumption.
Qed.

(** ** json.Marshal *)
Definition Enc {S} (c : S -> res (json * S)) (r : res json) (h : S) : Prop := wpx c r h (fun u v (t : S) => u = v /\ t = h).
Lemma enc_opt : forall s p o, eAt s p o -> Enc (iEncElt GE p) (encOpt GE o) s.
Proof.
  intros s p [X|] H.
  - pose proof (rdE_ok GE s p X H) as RD. destruct H as (r & -> & H). unfold Enc, iEncElt, encOpt.
    eapply wpx_left with (v := X) (R := fun u v s' => u = v /\ s' = s); [exists X, s; split; [exact RD|split; reflexivity]|].
    intros u s' [-> ->]. apply wpx_lift. auto.
  - cbn in H. subst p. exists JNull, s. split; [reflexivity|split; reflexivity].
Qed.
Lemma enc_big : forall s p o, zAt s p o -> Enc (iEncBig GE p) (Ok (enc_bigint o)) s.
Proof.
  intros s p [z|] H.
  - pose proof (rdZ_ok GE s p z H) as RD. destruct H as (r & -> & H). exists (JInt z), s. split; [|split; reflexivity].
    unfold iEncBig, mbind. rewrite RD. reflexivity.
  - cbn in H. subst p. exists JNull, s. split; [reflexivity|split; reflexivity].
Qed.
Lemma enc_elts : forall s ps vs, eosAt GE s ps vs -> Enc (iEncElts GE ps) (encOptElts GE vs) s.
Proof.
  intros s ps vs H. unfold iEncElts, encOptElts.
  assert (K : wpx (mmap GE (iEncElt GE) ps) (mapM (encOpt GE) vs) s (fun u v s' => u = v /\ s' = s)).
  { induction H as [|p o ps vs H HT IH]; cbn [mmap mapM]; [apply wpx_ret; split; reflexivity|].
    eapply wpx_bind; [exact (enc_opt _ _ _ H)|]. intros u v s' [-> ->]. eapply wpx_bind; [exact IH|]. intros u' v' s' [-> ->].
    apply wpx_ret. split; reflexivity. }
  eapply wpx_bind; [exact K|]. intros u v s' [-> ->]. apply wpx_ret. split; reflexivity.
Qed.
Lemma encElts_opt : forall (G : Grp) (vs : list (E G)), encElts G vs = encOptElts G (map Some vs).
Proof.
  intros G vs. unfold encElts, encOptElts. f_equal. induction vs as [|v vs IH]; cbn [map mapM encOpt]; [reflexivity|]. rewrite IH. reflexivity.
Qed.
Lemma enc_some : forall s p X, eAt s p (Some X) -> Enc (iEncElt GE p) (gToJson GE X) s.
Proof. intros s p X H. exact (enc_opt s p (Some X) H). Qed.
Ltac ee := first [ eapply wpx_bind; [solve [eapply enc_some; eassumption | eapply enc_elts; eassumption]|]; intros ? ? ? [-> ->]
  | eapply wpx_left; [solve [eapply enc_big; eassumption]|]; intros ? ? [-> ->] ].
Lemma enc_IPParams : forall s q v, repIPParams GE s q v -> Enc (iEncIPParams GE q) (encIPParams GE v) s.
Proof.
  intros s q v (A & B & C). unfold iEncIPParams, encIPParams. rewrite encElts_opt. apply eos_es in A. ee. ee. ee. apply wpx_ret. split; reflexivity.
Qed.
Lemma enc_IPProof : forall s q v, repIPProof GE s q v -> Enc (iEncIPProof GE q) (encIPProof GE v) s.
Proof.
  intros s q v (A & B & C & D & E1 & F & H). unfold iEncIPProof, encIPProof. rewrite encElts_opt. apply eos_es in E1. ee. ee. ee. ee. ee. ee.
  eapply wpx_bind; [exact (enc_IPParams _ _ _ H)|]. intros ? ? ? [-> ->]. apply wpx_ret. split; reflexivity.
Qed.
Lemma enc_BPParams : forall s q v, repBPParams GE s q v -> Enc (iEncBPParams GE q) (encBPParams GE v) s.
Proof.
  intros s q v (A & B & C & D & E1). unfold iEncBPParams, encBPParams. rewrite !encElts_opt, A. apply eos_es in D, E1. ee. ee. ee. ee.
  apply wpx_ret. split; reflexivity.
Qed.
Lemma enc_BP : forall s q v, repBP GE s q v -> Enc (iEncBulletProof GE q) (encBulletProof GE v) s.
Proof.
  intros s q v (A & B & C & D & E1 & E2 & E3 & E4 & E5 & E6). unfold iEncBulletProof, encBulletProof. ee. ee. ee. ee. ee. ee. ee. ee.
  eapply wpx_bind; [exact (enc_IPProof _ _ _ E5)|]. intros ? ? ? [-> ->].
  eapply wpx_bind; [exact (enc_BPParams _ _ _ E6)|]. intros ? ? ? [-> ->]. apply wpx_ret. split; reflexivity.
Qed.
Lemma enc_GE : forall s q v, repGE GE s q v -> Enc (iEncGroupE GE q) (encGroupParams GE v) s.
Proof. intros s q v (A & B & C & D). unfold iEncGroupE, encGroupParams. ee. ee. ee. ee. apply wpx_ret. split; reflexivity. Qed.
Lemma enc_onE : forall (c : M GE json) r h, Enc c r (sub _ _ h) -> Enc (onE c) r h.
Proof. intros c r [F W s] H. apply wpx2_E. eapply wpx_weaken; [exact H|]. cbn [sub fe fw]. intros u v s' [-> ->]. split; reflexivity. Qed.
Lemma enc_F : forall h p X, fAt (fe _ _ h) p (Some X) -> Enc (iEncEltF GF GE p) (gToJson GF X) h.
Proof.
  intros h p X (r & -> & H). unfold Enc, iEncEltF.
  eapply wpx2_left with (v := X) (R := fun u v h' => u = v /\ h' = h).
  { exists X, h. split; [unfold rdF; rewrite H; reflexivity|split; reflexivity]. }
  intros u s' [-> ->]. apply wpx2_lift. auto.
Qed.
Ltac e2 := first [ eapply wpx2_bind; [solve [eapply enc_F; eassumption | eapply enc_onE, enc_some; eassumption
      | eapply enc_onE, enc_BP; eassumption | eapply enc_onE, enc_GE; eassumption]|]; intros ? ? ? [-> ->]
  | eapply wpx2_left; [solve [eapply enc_onE, enc_big; eassumption]|]; intros ? ? [-> ->] ].
Lemma enc_GF : forall h q v, repGF GF GE (fe _ _ h) (sub _ _ h) q v -> Enc (iEncGroupF GF GE q) (encGroupParams GF v) h.
Proof. intros h q v (A & B & C & D). unfold iEncGroupF, encGroupParams. e2. e2. e2. e2. apply wpx2_ret. split; reflexivity. Qed.
Lemma enc_PP : forall h q v, repPP GF GE (fe _ _ h) (sub _ _ h) q v -> Enc (iEncProofParams GF GE q) (encProofParams GF GE v) h.
Proof.
  intros h q v (A & B & C & D & E1 & E2 & H & I). unfold iEncProofParams, encProofParams. rewrite A, B, C, D, E1, E2.
  eapply wpx2_bind; [exact (enc_GF _ _ _ H)|]. intros ? ? ? [-> ->]. e2. apply wpx2_ret. split; reflexivity.
Qed.
Lemma enc_SP : forall h q v, repSP GF GE (fe _ _ h) (sub _ _ h) q v -> Enc (iEncSigmaProof GF GE q) (encSigmaProof GF GE v) h.
Proof.
  intros h q v (A & B & C & D & E1 & E2 & E3 & E4 & E5 & H). unfold iEncSigmaProof, encSigmaProof. e2. e2. e2. e2. e2. e2. e2. e2. e2.
  eapply wpx2_bind; [exact (enc_PP _ _ _ H)|]. intros ? ? ? [-> ->]. apply wpx2_ret. split; reflexivity.
Qed.
Lemma enc_Ballot : forall h q v, repBallot GF GE (fe _ _ h) (sub _ _ h) q v -> Enc (iEncBallotData GF GE q) (encBallotData GF GE v) h.
Proof.
  intros h q v ((A & B) & C & D & H). unfold iEncBallotData, encBallotData, iEncCiphertext, encCiphertext.
  eapply wpx2_bind.
  { e2. e2. apply wpx2_ret with (Q := fun u v h' => u = v /\ h' = h). split; reflexivity. }
  intros ? ? ? [-> ->]. e2. e2. eapply wpx2_bind; [exact (enc_SP _ _ _ H)|]. intros ? ? ? [-> ->]. apply wpx2_ret. split; reflexivity.
Qed.
End TwoGroups.
