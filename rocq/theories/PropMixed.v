(** C59: elements of different groups never mix, and an element stays in its group. *)
From Verif Require Import GoBase Json GroupIface ModP NumTh Alg ModPProofs Toy PropModP Mixed.
From Coq Require Import Znumtheory.

(** ** Vocabulary *)
Inductive tag : Type := TM (g : nat) | TC (c : nat).
Definition tagOf {cg} (o : obj cg) : tag := match o with OM g _ => TM g | OC c _ => TC c end.
(** "the same group": for mod-p groups the same prime and generator, whatever the pointer and the name *)
Definition SameGroup (mg : nat -> ModPDesc) (t u : tag) : Prop :=
  match t, u with
  | TM g, TM h => mpField (mg g) = mpField (mg h) /\ mpGen (mg g) = mpGen (mg h)
  | TC c, TC c' => c = c'
  | _, _ => False
  end.
Definition groupOf {cg} (s : st cg) (x : nat) : option tag := option_map tagOf (view cg s x).
(** receiver and arguments of the methods that take elements *)
Definition operands (k : call) : option (nat * list nat) :=
  match k with
  | Add r a b | Subtract r a b => Some (r, [a; b])
  | Negate r a | SetTo r a | Scale r a _ => Some (r, [a])
  | _ => None
  end.
Definition Compatible {cg} mg (s : st cg) (r : nat) (args : list nat) : Prop :=
  exists t, groupOf s r = Some t /\ forall a, In a args -> exists u, groupOf s a = Some u /\ SameGroup mg t u.

Section P.
Context (mg : nat -> ModPDesc) (cg : nat -> Grp) (cdec : forall c, E (cg c) -> bytes -> res (E (cg c))) (inPlace : nat -> bool).
Local Notation st := (st cg).
Local Notation exec := (exec mg cg cdec inPlace).
Local Notation run := (run mg cg cdec inPlace).

Lemma equals_spec : forall g h, equals mg g h = true <-> mpField (mg g) = mpField (mg h) /\ mpGen (mg g) = mpGen (mg h).
Proof.
  intros g h. unfold equals. rewrite orb_true_iff, andb_true_iff, Nat.eqb_eq, !Z.eqb_eq. split; [|tauto]. intros [->|H]; [split; reflexivity|exact H].
Qed.
Lemma checkM_spec : forall g o, (exists z, checkM mg cg g o = Ok z /\ SameGroup mg (TM g) (tagOf o)) \/
  (checkM mg cg g o = Panic /\ ~ SameGroup mg (TM g) (tagOf o)).
Proof.
  intros g [h z|c p]; cbn [checkM tagOf SameGroup].
  - destruct (equals mg g h) eqn:E.
    + left. exists z. split; [reflexivity|]. apply equals_spec. exact E.
    + right. split; [reflexivity|]. intros H. apply equals_spec in H. congruence.
  - right. split; [reflexivity|]. intros [].
Qed.
Lemma checkC_spec : forall c o, (exists p, checkC cg c o = Ok p /\ SameGroup mg (TC c) (tagOf o)) \/
  (checkC cg c o = Panic /\ ~ SameGroup mg (TC c) (tagOf o)).
Proof.
  intros c [h z|c' p]; cbn [checkC tagOf SameGroup].
  - right. split; [reflexivity|]. intros [].
  - destruct (Nat.eq_dec c' c) as [e|n].
    + left. eexists. split; [reflexivity|]. congruence.
    + right. split; [reflexivity|]. congruence.
Qed.
Lemma arg_spec : forall (s : st) x, match view cg s x with Some o => arg cg s x = Ok o | None => arg cg s x = Panic end.
Proof. intros s x. unfold arg, ref, load, view. destruct (env cg s x) as [i|]; cbn [deref bind]; [|reflexivity]. destruct (nth_error (obs cg s) i); reflexivity. Qed.

Definition ArgOk (s : st) (t : tag) (a : nat) : Prop := exists u, groupOf s a = Some u /\ SameGroup mg t u.
Lemma argM_spec : forall s g a, let m := (o <- arg cg s a ;; checkM mg cg g o) in
  (exists o z, arg cg s a = Ok o /\ checkM mg cg g o = Ok z /\ ArgOk s (TM g) a) \/ (m = Panic /\ ~ ArgOk s (TM g) a).
Proof.
  intros s g a m. unfold m, ArgOk, groupOf. pose proof (arg_spec s a) as Ha. destruct (view cg s a) as [o|]; rewrite Ha; cbn [bind option_map].
  - destruct (checkM_spec g o) as [(z & Hz & Hs)|[Hp Hs]].
    + left. exists o, z. split; [reflexivity|]. split; [exact Hz|]. eexists. split; [reflexivity|exact Hs].
    + right. split; [exact Hp|]. intros (u & Hu & Hc). injection Hu as <-. exact (Hs Hc).
  - right. split; [reflexivity|]. intros (u & Hu & _). discriminate.
Qed.
Lemma argC_spec : forall s c a, let m := (o <- arg cg s a ;; checkC cg c o) in
  (exists o z, arg cg s a = Ok o /\ checkC cg c o = Ok z /\ ArgOk s (TC c) a) \/ (m = Panic /\ ~ ArgOk s (TC c) a).
Proof.
  intros s c a m. unfold m, ArgOk, groupOf. pose proof (arg_spec s a) as Ha. destruct (view cg s a) as [o|]; rewrite Ha; cbn [bind option_map].
  - destruct (checkC_spec c o) as [(z & Hz & Hs)|[Hp Hs]].
    + left. exists o, z. split; [reflexivity|]. split; [exact Hz|]. eexists. split; [reflexivity|exact Hs].
    + right. split; [exact Hp|]. intros (u & Hu & Hc). injection Hu as <-. exact (Hs Hc).
  - right. split; [reflexivity|]. intros (u & Hu & _). discriminate.
Qed.
Lemma bind_panic : forall {A B} (m : res A) (f : A -> res B), m = Panic -> bind m f = Panic.
Proof. intros A B m f ->. reflexivity. Qed.
Lemma bind_assoc : forall {A B C} (m : res A) (f : A -> res B) (h : B -> res C), bind (bind m f) h = bind m (fun x => bind (f x) h).
Proof. intros A B C [] f h; reflexivity. Qed.

Lemma recv_spec : forall s r fm fc, match view cg s r with
  | None => method cg s r fm fc = Panic
  | Some o => exists i, env cg s r = Some i /\ nth_error (obs cg s) i = Some o /\
      method cg s r fm fc = match o with
        | OM g old => z <- fm g old ;; Ok (store cg s i (OM g z))
        | OC c old => p <- fc c old ;; Ok (store cg s i (OC c p))
        end
  end.
Proof.
  intros s r fm fc. unfold method, ref, load, view. destruct (env cg s r) as [i|]; cbn [deref bind]; [|reflexivity].
  destruct (nth_error (obs cg s) i) as [o|] eqn:E; cbn [deref bind]; [|reflexivity]. exists i. auto.
Qed.

(** a method whose value is computed from checked arguments *)
Lemma method_args : forall s r args fm fc,
  (forall g old, (forall a, In a args -> ArgOk s (TM g) a) -> exists z, fm g old = Ok z) ->
  (forall g old a, In a args -> ~ ArgOk s (TM g) a -> fm g old = Panic) ->
  (forall c old, (forall a, In a args -> ArgOk s (TC c) a) -> exists z, fc c old = Ok z) ->
  (forall c old a, In a args -> ~ ArgOk s (TC c) a -> fc c old = Panic) ->
  (forall t a, ArgOk s t a \/ ~ ArgOk s t a) ->
  (Compatible mg s r args -> exists s', method cg s r fm fc = Ok s') /\ (~ Compatible mg s r args -> method cg s r fm fc = Panic).
Proof.
  intros s r args fm fc M1 M2 C1 C2 Dec. pose proof (recv_spec s r fm fc) as Hr. unfold Compatible, groupOf at 1 3. split.
  - intros (t & Ht & Ha). destruct (view cg s r) as [o|]; [|discriminate]. injection Ht as <-. destruct Hr as (i & _ & _ & ->).
    destruct o as [g old|c old]; cbn [tagOf] in Ha.
    + destruct (M1 g old Ha) as [z ->]. eexists. reflexivity.
    + destruct (C1 c old Ha) as [z ->]. eexists. reflexivity.
  - intros Hn. destruct (view cg s r) as [o|]; [|exact Hr]. destruct Hr as (i & _ & _ & ->). cbn [option_map] in Hn.
    assert (Hbad : exists a, In a args /\ ~ ArgOk s (tagOf o) a).
    { assert (Hd : (forall a, In a args -> ArgOk s (tagOf o) a) \/ exists a, In a args /\ ~ ArgOk s (tagOf o) a).
      { clear -Dec. induction args as [|a l IH]; [left; intros a []|]. destruct IH as [IH|(b & Hb & Hn)].
        - destruct (Dec (tagOf o) a) as [H|H]; [left|right; exists a; split; [left; reflexivity|exact H]].
          intros b [<-|Hb]; [exact H|apply IH; exact Hb].
        - right. exists b. split; [right; exact Hb|exact Hn]. }
      destruct Hd as [Hd|Hd]; [|exact Hd]. exfalso. apply Hn. eexists. split; [reflexivity|exact Hd]. }
    destruct Hbad as (a & Hin & Ha). destruct o as [g old|c old]; cbn [tagOf] in Ha.
    + rewrite (M2 g old a Hin Ha). reflexivity.
    + rewrite (C2 c old a Hin Ha). reflexivity.
Qed.
Lemma argok_dec : forall s t a, ArgOk s t a \/ ~ ArgOk s t a.
Proof.
  intros s [g|c] a.
  - destruct (argM_spec s g a) as [(o & z & _ & _ & H)|[_ H]]; [left|right]; exact H.
  - destruct (argC_spec s c a) as [(o & z & _ & _ & H)|[_ H]]; [left|right]; exact H.
Qed.
Lemma badM : forall {B} s g a (f : Z -> res B), ~ ArgOk s (TM g) a -> (o <- arg cg s a ;; z <- checkM mg cg g o ;; f z) = Panic.
Proof. intros B s g a f H. rewrite <- bind_assoc. apply bind_panic. destruct (argM_spec s g a) as [(? & ? & _ & _ & Hk)|[Hk _]]; [contradiction|exact Hk]. Qed.
Lemma badM0 : forall s g a, ~ ArgOk s (TM g) a -> (o <- arg cg s a ;; checkM mg cg g o) = Panic.
Proof. intros s g a H. destruct (argM_spec s g a) as [(? & ? & _ & _ & Hk)|[Hk _]]; [contradiction|exact Hk]. Qed.
Lemma badC : forall {B} s c a (f : E (cg c) -> res B), ~ ArgOk s (TC c) a -> (o <- arg cg s a ;; z <- checkC cg c o ;; f z) = Panic.
Proof. intros B s c a f H. rewrite <- bind_assoc. apply bind_panic. destruct (argC_spec s c a) as [(? & ? & _ & _ & Hk)|[Hk _]]; [contradiction|exact Hk]. Qed.
Lemma badC0 : forall s c a, ~ ArgOk s (TC c) a -> (o <- arg cg s a ;; checkC cg c o) = Panic.
Proof. intros s c a H. destruct (argC_spec s c a) as [(? & ? & _ & _ & Hk)|[Hk _]]; [contradiction|exact Hk]. Qed.
Lemma goodM : forall {B} s g a (f : Z -> res B), ArgOk s (TM g) a -> exists o z, view cg s a = Some o /\ checkM mg cg g o = Ok z /\
  (o <- arg cg s a ;; z <- checkM mg cg g o ;; f z) = f z.
Proof.
  intros B s g a f H. pose proof (arg_spec s a) as Hv. destruct (argM_spec s g a) as [(o & z & Ha & Hc & Hk)|[_ Hk]]; [|contradiction].
  destruct (view cg s a) as [o'|]; [|congruence]. assert (o' = o) by congruence. subst o'. exists o, z. rewrite Ha. cbn [bind]. rewrite Hc. auto.
Qed.
Lemma goodC : forall {B} s c a (f : E (cg c) -> res B), ArgOk s (TC c) a -> exists o z, view cg s a = Some o /\ checkC cg c o = Ok z /\
  (o <- arg cg s a ;; z <- checkC cg c o ;; f z) = f z.
Proof.
  intros B s g a f H. pose proof (arg_spec s a) as Hv. destruct (argC_spec s g a) as [(o & z & Ha & Hc & Hk)|[_ Hk]]; [|contradiction].
  destruct (view cg s a) as [o'|]; [|congruence]. assert (o' = o) by congruence. subst o'. exists o, z. rewrite Ha. cbn [bind]. rewrite Hc. auto.
Qed.
Lemma bind_ret : forall {A} (m : res A), bind m (fun x => Ok x) = m. Proof. intros A []; reflexivity. Qed.
Lemma goodM0 : forall s g a, ArgOk s (TM g) a -> exists o z, view cg s a = Some o /\ checkM mg cg g o = Ok z /\ (o <- arg cg s a ;; checkM mg cg g o) = Ok z.
Proof.
  intros s g a H. destruct (goodM s g a (fun z => Ok z) H) as (o & z & H1 & H2 & H3). exists o, z. split; [exact H1|]. split; [exact H2|].
  rewrite <- H3. destruct (arg cg s a); cbn [bind]; try reflexivity. rewrite bind_ret. reflexivity.
Qed.
Lemma goodC0 : forall s c a, ArgOk s (TC c) a -> exists o z, view cg s a = Some o /\ checkC cg c o = Ok z /\ (o <- arg cg s a ;; checkC cg c o) = Ok z.
Proof.
  intros s g a H. destruct (goodC s g a (fun z => Ok z) H) as (o & z & H1 & H2 & H3). exists o, z. split; [exact H1|]. split; [exact H2|].
  rewrite <- H3. destruct (arg cg s a); cbn [bind]; try reflexivity. rewrite bind_ret. reflexivity.
Qed.

Theorem no_mixing : forall k r args s, operands k = Some (r, args) ->
  (Compatible mg s r args -> exists s', exec k s = Ok s') /\ (~ Compatible mg s r args -> exec k s = Panic).
Proof.
  intros k r args s Hk. destruct k; try discriminate; injection Hk as <- <-; cbn [Mixed.exec]; apply method_args; try (apply argok_dec).
  1, 5: intros g old H; destruct (goodM0 s g a (H a ltac:(cbn; auto))) as (oa & za & Va & Ca & _); destruct (goodM0 s g b (H b ltac:(cbn; auto))) as (ob & zb & Vb & Cb & _);
     pose proof (arg_spec s a) as Ra; rewrite Va in Ra; pose proof (arg_spec s b) as Rb; rewrite Vb in Rb; rewrite Ra, Rb; cbn [bind]; rewrite Ca, Cb; eexists; reflexivity.
  1, 4: intros g old x Hin Hx; destruct (argok_dec s (TM g) a) as [Ha|Ha]; destruct (argok_dec s (TM g) b) as [Hb|Hb];
     try (apply badM; assumption); try (destruct Hin as [<-|[<-|[]]]; contradiction).
  all: try (destruct (goodM0 s g a Ha) as (oa & za & Va & Ca & _); pose proof (arg_spec s a) as Ra; rewrite Va in Ra; rewrite Ra; cbn [bind]; rewrite Ca; cbn [bind]; apply badM; assumption).
  all: try (destruct (goodM0 s g b Hb) as (ob & zb & Vb & Cb & _); pose proof (arg_spec s b) as Rb; rewrite Vb in Rb; rewrite Rb; cbn [bind]; rewrite Cb; cbn [bind]; apply badM; assumption).
  1, 3: intros g old H; destruct (goodC0 s g a (H a ltac:(cbn; auto))) as (oa & za & Va & Ca & _); destruct (goodC0 s g b (H b ltac:(cbn; auto))) as (ob & zb & Vb & Cb & _);
     pose proof (arg_spec s a) as Ra; rewrite Va in Ra; pose proof (arg_spec s b) as Rb; rewrite Vb in Rb; rewrite Ra, Rb; cbn [bind]; rewrite Ca, Cb; eexists; reflexivity.
  1, 2: intros g old x Hin Hx; destruct (argok_dec s (TC g) a) as [Ha|Ha]; destruct (argok_dec s (TC g) b) as [Hb|Hb];
     try (apply badC; assumption); try (destruct Hin as [<-|[<-|[]]]; contradiction).
  all: try (destruct (goodC0 s g a Ha) as (oa & za & Va & Ca & _); pose proof (arg_spec s a) as Ra; rewrite Va in Ra; rewrite Ra; cbn [bind]; rewrite Ca; cbn [bind]; apply badC; assumption).
  all: try (destruct (goodC0 s g b Hb) as (ob & zb & Vb & Cb & _); pose proof (arg_spec s b) as Rb; rewrite Vb in Rb; rewrite Rb; cbn [bind]; rewrite Cb; cbn [bind]; apply badC; assumption).
  all: try (intros g old x [<-|[]] Hx; first [apply badM|apply badM0|apply badC|apply badC0]; exact Hx).
  all: try (intros g old H; destruct (goodM0 s g a (H a ltac:(cbn; auto))) as (oa & za & Va & Ca & Eq); try (rewrite Eq; eexists; reflexivity);
    pose proof (arg_spec s a) as Ra; rewrite Va in Ra; rewrite Ra; cbn [bind]; rewrite Ca; eexists; reflexivity).
  all: intros g old H; destruct (goodC0 s g a (H a ltac:(cbn; auto))) as (oa & za & Va & Ca & Eq); try (rewrite Eq; eexists; reflexivity);
    pose proof (arg_spec s a) as Ra; rewrite Va in Ra; rewrite Ra; cbn [bind]; rewrite Ca; eexists; reflexivity.
Qed.

Lemma isEqual_mixing : forall r a s,
  (Compatible mg s r [a] -> exists b, isEqual mg cg s r a = Ok b) /\ (~ Compatible mg s r [a] -> isEqual mg cg s r a = Panic).
Proof.
  intros r a s. unfold isEqual, Compatible, groupOf at 1 3. unfold ref, load, view.
  destruct (env cg s r) as [i|]; cbn [deref bind]; [|split; [intros (t & Ht & _); discriminate|reflexivity]].
  destruct (nth_error (obs cg s) i) as [o|]; cbn [deref bind option_map]; [|split; [intros (t & Ht & _); discriminate|reflexivity]].
  split.
  - intros (t & Ht & H). injection Ht as <-. specialize (H a (or_introl eq_refl)). destruct o as [g z|c p]; cbn [tagOf] in H.
    + destruct (goodM s g a (fun za => Ok (z =? za)) H) as (? & ? & _ & _ & ->). eexists. reflexivity.
    + destruct (goodC s c a (fun za => Ok (gEq (cg c) p za)) H) as (? & ? & _ & _ & ->). eexists. reflexivity.
  - intros Hn. assert (Ha : ~ ArgOk s (tagOf o) a).
    { intros Ha. apply Hn. eexists. split; [reflexivity|]. intros b [<-|[]]. exact Ha. }
    destruct o as [g z|c p]; [apply badM|apply badC]; exact Ha.
Qed.

(** ** An element stays in its group *)
Lemma nth_put : forall (l : list (obj cg)) i o j, nth_error (put cg l i o) j = if Nat.eqb j i && Nat.ltb i (length l) then Some o else nth_error l j.
Proof.
  induction l as [|x l IH]; intros i o j.
  - cbn [put length]. rewrite andb_false_r. destruct i; reflexivity.
  - destruct i as [|i]; destruct j as [|j]; cbn [put nth_error length]; try reflexivity. rewrite IH. cbn. destruct (Nat.eqb j i); [|reflexivity].
    cbn. destruct (length l); reflexivity.
Qed.
Lemma method_inv : forall s r fm fc s', method cg s r fm fc = Ok s' -> exists i o o', env cg s r = Some i /\ nth_error (obs cg s) i = Some o /\
  s' = store cg s i o' /\ tagOf o' = tagOf o /\
  match o with OM g old => exists z, fm g old = Ok z /\ o' = OM g z | OC c old => exists p, fc c old = Ok p /\ o' = OC c p end.
Proof.
  intros s r fm fc s' H. pose proof (recv_spec s r fm fc) as Hr. destruct (view cg s r) as [o|]; [|congruence].
  destruct Hr as (i & H1 & H2 & H3). rewrite H3 in H. destruct o as [g old|c old].
  - destruct (fm g old) as [z| | |] eqn:Ef; try discriminate. injection H as <-. exists i, (OM g old), (OM g z). repeat split; try assumption. exists z. auto.
  - destruct (fc c old) as [z| | |] eqn:Ef; try discriminate. injection H as <-. exists i, (OC c old), (OC c z). repeat split; try assumption. exists z. auto.
Qed.
(** the step on objects: at most one existing object changes, keeping its tag; at most one is added *)
Definition Keeps (s s' : st) : Prop :=
  forall i o, nth_error (obs cg s) i = Some o -> exists o', nth_error (obs cg s') i = Some o' /\ tagOf o' = tagOf o.
Lemma keeps_refl : forall s, Keeps s s. Proof. intros s i o H. exists o. auto. Qed.
Lemma keeps_trans : forall a b c, Keeps a b -> Keeps b c -> Keeps a c.
Proof. intros a b c H1 H2 i o H. destruct (H1 i o H) as (o' & H' & E1). destruct (H2 i o' H') as (o2 & H2' & E2). exists o2. split; [exact H2'|congruence]. Qed.
Lemma keeps_put : forall s e i o o', nth_error (obs cg s) i = Some o -> tagOf o' = tagOf o -> Keeps s (mkSt cg e (put cg (obs cg s) i o')).
Proof.
  intros s e i o o' Hi Ht j x Hj. cbn [obs]. rewrite nth_put. destruct (Nat.eqb_spec j i) as [->|]; cbn [andb]; [|exists x; auto].
  assert (i < length (obs cg s))%nat by (apply nth_error_Some; congruence). replace (Nat.ltb i _) with true by (symmetry; apply Nat.ltb_lt; assumption).
  exists o'. split; [reflexivity|]. congruence.
Qed.
Lemma keeps_new : forall s x o, Keeps s (new cg s x o).
Proof. intros s x o i y H. exists y. split; [|reflexivity]. cbn [new obs]. rewrite nth_error_app1; [exact H|]. apply nth_error_Some. congruence. Qed.
Lemma exec_keeps : forall k s s', exec k s = Ok s' -> Keeps s s'.
Proof.
  intros k s s' H. destruct k; cbn [Mixed.exec] in H;
    try (injection H as <-; first [apply keeps_new|intros i o Hi; exists o; auto]);
    try (apply method_inv in H; destruct H as (i & o & o' & _ & Hi & -> & Ht & _); apply (keeps_put _ _ i o o' Hi Ht)).
  unfold ref, load in H. destruct (env cg s r) as [i|]; [|discriminate]. cbn [deref bind] in H.
  destruct (nth_error (obs cg s) i) as [o|] eqn:Ei; [|discriminate]. cbn [deref bind] in H. destruct o as [|c p]; [discriminate|].
  destruct (gMap (cg c) m) as [p'| | |]; try discriminate. cbn [bind] in H. destruct (inPlace c); injection H as <-.
  - apply (keeps_put s _ i (OC c p)); [exact Ei|reflexivity].
  - apply keeps_new.
Qed.
Lemma run_keeps : forall prog s s', run prog s = Ok s' -> Keeps s s'.
Proof.
  induction prog as [|k t IH]; intros s s' H; cbn [Mixed.run] in H; [injection H as <-; apply keeps_refl|].
  destruct (exec k s) as [s1| | |] eqn:E; try discriminate. cbn [bind] in H. eapply keeps_trans; [apply (exec_keeps _ _ _ E)|apply IH; exact H].
Qed.

(** ** Mod-p values *)
Definition noDecode (k : call) : bool := match k with Decode _ _ => false | _ => true end.
Definition GoodObj (o : obj cg) : Prop := match o with OM g z => z = 0 \/ Member (mg g) z | OC _ _ => True end.
Definition GoodSt (s : st) : Prop := forall i o, nth_error (obs cg s) i = Some o -> GoodObj o.
Context (HS : forall g, SafePrime2 (mg g)).
Lemma same_member : forall g h z, equals mg g h = true -> Member (mg h) z -> Member (mg g) z.
Proof.
  intros g h z He Hm. apply equals_spec in He. destruct He as [Hp _]. unfold Member in *. destruct (HS g) as (_ & _ & Hog & _). destruct (HS h) as (_ & _ & Hoh & _).
  rewrite Hog, Hp, <- Hoh. exact Hm.
Qed.
Lemma good_arg : forall s g a z, GoodSt s -> (o <- arg cg s a ;; checkM mg cg g o) = Ok z -> z = 0 \/ Member (mg g) z.
Proof.
  intros s g a z Hg H. unfold arg, ref, load in H. destruct (env cg s a) as [i|]; [|discriminate]. cbn [deref bind] in H.
  destruct (nth_error (obs cg s) i) as [o|] eqn:Ei; [|discriminate]. cbn [deref bind] in H. specialize (Hg i o Ei).
  destruct o as [h y|]; [|discriminate]. cbn [checkM GoodObj] in *. destruct (equals mg g h) eqn:E; [|discriminate]. injection H as <-.
  destruct Hg as [->|Hm]; [left; reflexivity|right; apply (same_member g h); assumption].
Qed.
Lemma exp0 : forall m k, 1 < m -> 0 < k -> bigExp 0 k m = Some 0.
Proof.
  intros m k Hm Hk. unfold bigExp. replace (k <? 0) with false by (symmetry; apply Z.ltb_ge; lia). rewrite Zpow_mod_pow by lia.
  rewrite Z.pow_0_l by lia. rewrite Z.mod_0_l by lia. reflexivity.
Qed.
Lemma good_add : forall g x y, x = 0 \/ Member (mg g) x -> y = 0 \/ Member (mg g) y -> mpAdd (mg g) x y = 0 \/ Member (mg g) (mpAdd (mg g) x y).
Proof.
  intros g x y [->|Hx] [->|Hy]; try (left; unfold mpAdd; rewrite ?Z.mul_0_r, ?Z.mul_0_l; apply Zmod_0_l).
  right. apply (memb_add (mg g) (safe_ok _ (HS g))); assumption.
Qed.
Lemma good_neg : forall g old x, old = 0 \/ Member (mg g) old -> x = 0 \/ Member (mg g) x -> mpNegate (mg g) old x = 0 \/ Member (mg g) (mpNegate (mg g) old x).
Proof.
  intros g old x Ho [->|Hx]; [|right; apply (memb_neg (mg g) (safe_ok _ (HS g))); exact Hx].
  unfold mpNegate. replace (modInverse 0 (mpField (mg g))) with (@None Z); [exact Ho|]. symmetry. apply modInverse_None. rewrite Z.gcd_0_l.
  pose proof (okp (mg g) (safe_ok _ (HS g))). lia.
Qed.
Lemma good_scale : forall g old x k, old = 0 \/ Member (mg g) old -> x = 0 \/ Member (mg g) x -> mpScale (mg g) old x k = 0 \/ Member (mg g) (mpScale (mg g) old x k).
Proof.
  intros g old x k Ho [->|Hx]; [|right; apply (memb_scale (mg g) (safe_ok _ (HS g))); exact Hx]. pose proof (okp (mg g) (safe_ok _ (HS g))).
  unfold mpScale. destruct (Z.lt_total k 0) as [Hk|[->|Hk]].
  - unfold bigExp. replace (k <? 0) with true by (symmetry; apply Z.ltb_lt; exact Hk).
    replace (modInverse 0 (mpField (mg g))) with (@None Z); [exact Ho|]. symmetry. apply modInverse_None. rewrite Z.gcd_0_l. lia.
  - right. unfold bigExp. cbn [Z.ltb Z.compare or_old]. rewrite Zpow_mod_pow by lia. rewrite Z.pow_0_r, Z.mod_1_l by lia. apply (memb_1 (mg g) (safe_ok _ (HS g))).
  - left. rewrite exp0 by lia. reflexivity.
Qed.
Lemma good_base : forall g old k, Member (mg g) (mpBaseScale (mg g) old k).
Proof. intros g old k. change (Member (mg g) (mpScale (mg g) old (mpGen (mg g)) k)). apply (memb_scale (mg g) (safe_ok _ (HS g))), (memb_gen (mg g) (safe_ok _ (HS g))). Qed.

Lemma good_new : forall s x o, GoodSt s -> GoodObj o -> GoodSt (new cg s x o).
Proof.
  intros s x o Hs Ho i y H. cbn [new obs] in H. destruct (Nat.lt_ge_cases i (length (obs cg s))) as [Hl|Hl].
  - rewrite nth_error_app1 in H by exact Hl. apply (Hs i). exact H.
  - rewrite nth_error_app2 in H by exact Hl. destruct (i - length (obs cg s))%nat as [|n]; [injection H as <-; exact Ho|destruct n; discriminate].
Qed.
Lemma good_put : forall s e i o, GoodSt s -> GoodObj o -> GoodSt (mkSt cg e (put cg (obs cg s) i o)).
Proof.
  intros s e i o Hs Ho j y H. cbn [obs] in H. rewrite nth_put in H. destruct (_ && _); [injection H as <-; exact Ho|apply (Hs j); exact H].
Qed.
Lemma bindM_inv : forall {B} s g a (f : Z -> res B) y, (o <- arg cg s a ;; z <- checkM mg cg g o ;; f z) = Ok y ->
  exists z, (o <- arg cg s a ;; checkM mg cg g o) = Ok z /\ f z = Ok y.
Proof. intros B s g a f y H. destruct (arg cg s a) as [o| | |]; try discriminate. cbn [bind] in *. destruct (checkM mg cg g o) as [z| | |]; try discriminate. exists z. auto. Qed.
Lemma exec_good : forall k s s', noDecode k = true -> GoodSt s -> exec k s = Ok s' -> GoodSt s'.
Proof.
  intros k s s' Hk Hs H. pose proof (fun g => safe_ok _ (HS g)) as Hok.
  destruct k; try discriminate; cbn [Mixed.exec] in H;
    try (injection H as <-; try apply good_new; try exact Hs; cbn [GoodObj]; try exact I; try (left; reflexivity); right;
         first [apply (memb_1 _ (Hok g))|apply (memb_gen _ (Hok g))|apply good_base]).
  7:{ unfold ref, load in H. destruct (env cg s r) as [i|]; [|discriminate]. cbn [deref bind] in H.
      destruct (nth_error (obs cg s) i) as [o|] eqn:Ei; [|discriminate]. cbn [deref bind] in H. destruct o as [|c p]; [discriminate|].
      destruct (gMap (cg c) m) as [p'| | |]; try discriminate. cbn [bind] in H. destruct (inPlace c); injection H as <-.
      - apply good_put; [exact Hs|exact I].
      - apply good_new; [exact Hs|exact I]. }
  all: apply method_inv in H; destruct H as (i & o & o' & _ & Hi & -> & _ & Hf); apply good_put; [exact Hs|]; pose proof (Hs i o Hi) as Ho;
    destruct o as [g old|c old]; destruct Hf as (v & Hf & ->); cbn [GoodObj] in *; try exact I.
  - apply bindM_inv in Hf. destruct Hf as (za & Ha & Hf). apply bindM_inv in Hf. destruct Hf as (zb & Hb & Hf). injection Hf as <-.
    apply good_add; eapply good_arg; eassumption.
  - apply bindM_inv in Hf. destruct Hf as (zb & Hb & Hf). apply bindM_inv in Hf. destruct Hf as (za & Ha & Hf). injection Hf as <-.
    apply good_add; [eapply good_arg; eassumption|]. apply good_neg; [right; apply (memb_1 _ (Hok g))|eapply good_arg; eassumption].
  - apply bindM_inv in Hf. destruct Hf as (za & Ha & Hf). injection Hf as <-. apply good_neg; [exact Ho|eapply good_arg; eassumption].
  - eapply good_arg; eassumption.
  - apply bindM_inv in Hf. destruct Hf as (za & Ha & Hf). injection Hf as <-. apply good_scale; [exact Ho|eapply good_arg; eassumption].
  - injection Hf as <-. right. apply good_base.
Qed.
Lemma run_good : forall prog s s', forallb noDecode prog = true -> GoodSt s -> run prog s = Ok s' -> GoodSt s'.
Proof.
  induction prog as [|k t IH]; intros s s' Hn Hs H; cbn [Mixed.run forallb] in *; [injection H as <-; exact Hs|].
  apply andb_true_iff in Hn. destruct Hn as [Hk Hn]. destruct (exec k s) as [s1| | |] eqn:E; try discriminate. cbn [bind] in H.
  apply (IH s1); [exact Hn| |exact H]. apply (exec_good k s); assumption.
Qed.
End P.

(** ** C59 *)
(** In every state a method that takes elements succeeds when every argument is an element of the receiver's group, and
    panics otherwise (an argument of another group or type, or nil); IsEqual likewise. *)
Theorem C59_no_mixing : forall mg cg cdec inPlace k r args s, operands k = Some (r, args) ->
  (Compatible mg s r args -> exists s', exec mg cg cdec inPlace k s = Ok s') /\
  (~ Compatible mg s r args -> exec mg cg cdec inPlace k s = Panic).
Proof. intros mg cg cdec inPlace k r args s. apply no_mixing. Qed.
Theorem C59_is_equal : forall mg cg r a (s : st cg),
  (Compatible mg s r [a] -> exists b, isEqual mg cg s r a = Ok b) /\ (~ Compatible mg s r [a] -> isEqual mg cg s r a = Panic).
Proof. intros mg cg r a s. exact (isEqual_mixing mg cg (fun _ => true) r a s). Qed.
(** Whatever a program does, decoding included, a variable that is not rebound keeps its element's group. *)
Definition binds (k : call) : option nat :=
  match k with
  | NewM x _ | IdM x _ | GenM x _ | NewC x _ | IdC x _ | GenC x _ | RandM x _ _ | Assign x _ | MapToGroup x _ _ => Some x
  | _ => None
  end.
Theorem C59_group_fixed : forall mg cg cdec inPlace prog s s' x t, run mg cg cdec inPlace prog s = Ok s' ->
  (forall k, In k prog -> binds k <> Some x) -> groupOf s x = Some t -> groupOf s' x = Some t.
Proof.
  intros mg cg cdec inPlace prog. induction prog as [|k p IH]; intros s s' x t H Hb Hx; cbn [run] in H; [injection H as <-; exact Hx|].
  destruct (exec mg cg cdec inPlace k s) as [s1| | |] eqn:E; try discriminate. cbn [bind] in H.
  apply (IH s1 s' x t H); [intros k' Hk'; apply Hb; right; exact Hk'|].
  assert (He : env cg s1 x = env cg s x).
  { pose proof (Hb k (or_introl eq_refl)) as Hbk. destruct k; cbn [exec binds] in *;
      try (injection E as <-; cbn [new env]; destruct (Nat.eqb_spec x x0); [congruence|reflexivity]);
      try (apply method_inv in E; destruct E as (i & o & o' & _ & _ & -> & _ & _); reflexivity).
    unfold ref, load in E. destruct (env cg s r) as [i|]; [|discriminate]. cbn [deref bind] in E.
    destruct (nth_error (obs cg s) i) as [o|]; [|discriminate]. cbn [deref bind] in E. destruct o as [|c q]; [discriminate|].
    destruct (gMap (cg c) m) as [p'| | |]; try discriminate. cbn [bind] in E. destruct (inPlace c); injection E as <-; cbn [new env];
      destruct (Nat.eqb_spec x x0); congruence. }
  unfold groupOf, view in *. rewrite He. destruct (env cg s x) as [i|]; [|discriminate]. destruct (nth_error (obs cg s) i) as [o|] eqn:Ei; [|discriminate].
  destruct (exec_keeps mg cg cdec inPlace k s s1 E i o Ei) as (o' & -> & Ht). cbn [option_map] in *. rewrite Ht. exact Hx.
Qed.
(** Without decoding calls, every mod-p element a program can reach is a member of its own subgroup, or 0, the value
    of an Element() that was never written. *)
Theorem C59_membership : forall mg cg cdec inPlace prog s x g z, (forall g, SafePrime2 (mg g)) ->
  forallb noDecode prog = true -> run mg cg cdec inPlace prog (init cg) = Ok s -> view cg s x = Some (OM g z) ->
  z = 0 \/ Member (mg g) z.
Proof.
  intros mg cg cdec inPlace prog s x g z HS Hn Hr Hv. unfold view in Hv. destruct (env cg s x) as [i|]; [|discriminate].
  refine (run_good mg cg cdec inPlace HS prog _ _ Hn _ Hr i (OM g z) Hv). intros j o Hj. destruct j; discriminate.
Qed.

(** ** Concrete case: p = 8423 under two pointers (0 and 1), p = 23 (2), and the curve type Z/101 *)
Definition d23 : ModPDesc := mkModPDesc 2 23 11 "small".
Lemma d23_safe : SafePrime2 d23.
Proof. refine (conj _ (conj _ (conj _ (conj _ _)))); try reflexivity; apply prime_check_ok; vm_compute; reflexivity. Qed.
Definition mgToy (i : nat) : ModPDesc := match i with O => dToy | 1%nat => mkModPDesc 2 8423 4211 "other name" | _ => d23 end.
Lemma mgToy_safe : forall g, SafePrime2 (mgToy g).
Proof. intros [|[|g]]; [exact dToy_safe|exact dToy_safe|exact d23_safe]. Qed.
Definition cgToy (_ : nat) : Grp := toy.
Definition runToy (prog : list call) : res (list (option (tag * Z))) :=
  s <- run mgToy cgToy (fun c old _ => Ok old) (fun c => Nat.eqb c 0) prog (init cgToy) ;;
  Ok (map (fun x => match view cgToy s x with Some (OM g z) => Some (TM g, z) | Some (OC c p) => Some (TC c, zv 101 p) | None => None end) [0; 1; 2; 3]%nat).
Definition c59Prog : list call := [GenM 0 0; GenM 1 1; Add 0 0 1; GenM 2 2; NewM 3 2; Scale 3 2 (-3); Subtract 0 1 0].
Example C59_case : forallb noDecode c59Prog = true /\
  runToy c59Prog = Ok [Some (TM 0, 4212); Some (TM 1, 2); Some (TM 2, 2); Some (TM 2, 3)] /\
  runToy (c59Prog ++ [Add 0 1 2]) = Panic /\                               (* p = 8423 with p = 23 *)
  runToy (c59Prog ++ [GenC 3 0; Add 3 3 3; Negate 0 3]) = Panic /\         (* a curve element negated into a mod-p element *)
  runToy [GenC 0 0; GenC 1 1; Add 0 0 1] = Panic /\                        (* two curve types *)
  runToy (c59Prog ++ [Decode 2 [0; 5]]) = Ok [Some (TM 0, 4212); Some (TM 1, 2); Some (TM 2, 5); Some (TM 2, 3)] /\
  membb d23 5 = false.
Proof. repeat split; vm_compute; reflexivity. Qed.

Print Assumptions C59_no_mixing.
Print Assumptions C59_is_equal.
Print Assumptions C59_group_fixed.
Print Assumptions C59_membership.
