(** C42: the Element methods are alias-safe.  The memory model is Heap.v; the specification below speaks only
    of which variables hold the same element, and of the values they hold. *)
From Verif Require Import GoBase Json GroupIface ModP ECJson Heap Toy PropModP.

Section Spec.
Context (d : ModPDesc) (G : Grp) (L : nat) (unm : bytes -> option (E G)).
Local Notation cell := (cell G).

(** The variable a call assigns through (constructors and assignments bind a variable instead) *)
Definition receiver (c : call) : option nat :=
  match c with
  | CElement _ _ | CIdentity _ _ | CGenerator _ _ | Assign _ _ => None
  | Add r _ _ | Subtract r _ _ | Negate r _ | SetTo r _ | Scale r _ _ | BaseScale r _
  | SetBytes r _ | MapToGroup r _ | UnmarshalBinary r _ | UnmarshalJSON r _ => Some r
  end.

(** The value a method call gives its receiver, as a function of the values [w] the variables hold before *)
Definition pure (c : call) (w : nat -> option cell) : res cell :=
  match c with
  | Add r a b =>
      match w r, w a, w b with
      | Some (CZ _), Some (CZ x), Some (CZ y) => Ok (CZ (gAdd (ModPGrp d) x y))
      | Some (CP _), Some (CP X), Some (CP Y) => Ok (CP (gAdd G X Y))
      | _, _, _ => Panic
      end
  | Subtract r a b =>
      match w r, w a, w b with
      | Some (CZ _), Some (CZ x), Some (CZ y) => Ok (CZ (gSub (ModPGrp d) x y))
      | Some (CP _), Some (CP X), Some (CP Y) => Ok (CP (gAdd G X (gNeg G Y)))
      | _, _, _ => Panic
      end
  | Negate r a =>
      match w r, w a with
      | Some (CZ v), Some (CZ x) => Ok (CZ (mpNegate d v x))
      | Some (CP _), Some (CP X) => Ok (CP (gNeg G X))
      | _, _ => Panic
      end
  | SetTo r a =>
      match w r, w a with
      | Some (CZ _), Some (CZ x) => Ok (CZ x)
      | Some (CP _), Some (CP X) => Ok (CP X)
      | _, _ => Panic
      end
  | Scale r a k =>
      match w r, w a with
      | Some (CZ v), Some (CZ x) => Ok (CZ (mpScale d v x k))
      | Some (CP _), Some (CP X) => Ok (CP (gScale G X k))
      | _, _ => Panic
      end
  | BaseScale r k =>
      match w r with
      | Some (CZ v) => Ok (CZ (mpBaseScale d v k))
      | Some (CP _) => Ok (CP (gBase G k))
      | None => Panic
      end
  | SetBytes r b =>
      match w r with
      | Some (CZ _) => Ok (CZ (os2ip b))
      | Some (CP _) => Ok (CP (match unm b with Some p => p | None => gNew G end))
      | None => Panic
      end
  | MapToGroup r m =>
      match w r with
      | Some (CP _) => p <- gMap G m ;; Ok (CP p)
      | _ => Panic
      end
  | UnmarshalBinary r b =>
      match w r with
      | Some (CZ _) => Ok (CZ (os2ip b))
      | Some (CP X) => Ok (CP (match unm b with Some p => p | None => X end))
      | None => Panic
      end
  | UnmarshalJSON r j =>
      match w r with
      | Some (CZ v) => '(z, _) <- mpOfJson v j ;; Ok (CZ z)
      | Some (CP X) => '(p, _) <- pointUnmarshalJSON L unm X j ;; Ok (CP p)
      | None => Panic
      end
  | _ => Panic
  end.

(** What the constructors return *)
Definition fresh (c : call) : option (nat * cell) :=
  match c with
  | CElement x KMod => Some (x, CZ (gNew (ModPGrp d))) | CElement x KCirc => Some (x, CP (gNew G))
  | CIdentity x KMod => Some (x, CZ (gId (ModPGrp d))) | CIdentity x KCirc => Some (x, CP (gId G))
  | CGenerator x KMod => Some (x, CZ (gGen (ModPGrp d))) | CGenerator x KCirc => Some (x, CP (gGen G))
  | _ => None
  end.

(** ** The ownership invariant *)
Local Notation st := (st G).
Definition fits (k : kind) (c : cell) : Prop := match k, c with KMod, CZ _ | KCirc, CP _ => True | _, _ => False end.
Record Wf (s : st) : Prop := {
  w_gen : nth_error (cells G s) 0 = Some (CZ (mpGen d));
  w_field : nth_error (cells G s) 1 = Some (CZ (mpField d));
  w_env : forall x o, env G s x = Some o -> (o < length (obs G s))%nat;
  w_obj : forall i ob, nth_error (obs G s) i = Some ob ->
     (2 <= oVal ob)%nat /\ exists c, nth_error (cells G s) (oVal ob) = Some c /\ fits (oKind ob) c;
  w_inj : forall i j oi oj, nth_error (obs G s) i = Some oi -> nth_error (obs G s) j = Some oj -> oVal oi = oVal oj -> i = j
}.
Definition objval (s : st) (o : nat) : option cell :=
  match nth_error (obs G s) o with Some ob => nth_error (cells G s) (oVal ob) | None => None end.

Lemma view_objval : forall s x, view G s x = match env G s x with Some o => objval s o | None => None end.
Proof. reflexivity. Qed.

(** [s'] differs from [s] in the value of object [o], which became [c], and in new objects only *)
Definition Eff (s s' : st) (o : nat) (c : cell) : Prop :=
  Wf s' /\ env G s' = env G s /\ (length (obs G s) <= length (obs G s'))%nat /\
  forall i, (i < length (obs G s))%nat -> objval s' i = if Nat.eqb i o then Some c else objval s i.

Lemma nth_upd : forall {A} (l : list A) i a j,
  nth_error (upd l i a) j = if Nat.eqb j i && Nat.ltb i (length l) then Some a else nth_error l j.
Proof.
  induction l as [|x l IH]; intros i a j.
  - cbn. rewrite andb_false_r. reflexivity.
  - destruct i; destruct j; try reflexivity; cbn [upd nth_error]. rewrite IH.
    change (Nat.eqb (Datatypes.S j) (Datatypes.S i)) with (Nat.eqb j i).
    change (Nat.ltb (Datatypes.S i) (length (x :: l))) with (Nat.ltb i (length l)). reflexivity.
Qed.
Lemma length_upd : forall {A} (l : list A) i a, length (upd l i a) = length l.
Proof. induction l; intros [|i] a0; cbn; auto. Qed.
Lemma nth_app1 : forall {A} (l : list A) a j, nth_error (l ++ [a]) j = if Nat.eqb j (length l) then Some a else nth_error l j.
Proof.
  intros. destruct (Nat.eqb_spec j (length l)) as [->|Hn].
  - rewrite nth_error_app2, Nat.sub_diag by lia. reflexivity.
  - destruct (Nat.lt_ge_cases j (length l)); [apply nth_error_app1; assumption|].
    rewrite !(proj2 (nth_error_None _ _)); [reflexivity|lia|rewrite app_length; cbn; lia].
Qed.
Lemma nth_lt : forall {A} (l : list A) i a, nth_error l i = Some a -> (i < length l)%nat.
Proof. intros A l i a H. apply nth_error_Some. congruence. Qed.

Lemma Wf_init : Wf (init d G).
Proof.
  constructor; cbn; try reflexivity; try discriminate.
  - intros [|i] ob H; discriminate.
  - intros [|i] j oi oj H; discriminate.
Qed.

(** Writing the cell of an object *)
Lemma Eff_wr : forall s o ob c, Wf s -> nth_error (obs G s) o = Some ob -> fits (oKind ob) c -> Eff s (wr G s (oVal ob) c) o c.
Proof.
  intros s o ob c W Ho Hf. pose proof (w_obj s W o ob Ho) as (Hge & c0 & Hc0 & Hf0).
  assert (Hlt := nth_lt _ _ _ Hc0). assert (Hltb : Nat.ltb (oVal ob) (length (cells G s)) = true) by (apply Nat.ltb_lt; exact Hlt).
  assert (Hval : forall i, (i < length (obs G s))%nat -> objval (wr G s (oVal ob) c) i = if Nat.eqb i o then Some c else objval s i).
  { intros i Hi. unfold objval. cbn [wr obs cells]. destruct (nth_error (obs G s) i) as [oi|] eqn:Hoi.
    - rewrite nth_upd, Hltb, andb_true_r. destruct (Nat.eqb_spec i o) as [->|Hne].
      + rewrite Ho in Hoi. injection Hoi as <-. rewrite Nat.eqb_refl. reflexivity.
      + destruct (Nat.eqb_spec (oVal oi) (oVal ob)) as [He|]; [|reflexivity].
        exfalso. apply Hne. apply (w_inj s W i o oi ob); assumption.
    - apply nth_error_None in Hoi. lia. }
  split; [|split; [reflexivity|split; [cbn; lia|exact Hval]]].
  constructor; cbn [wr obs cells env].
  - rewrite nth_upd. destruct (Nat.eqb_spec 0 (oVal ob)); [lia|]. apply (w_gen s W).
  - rewrite nth_upd. destruct (Nat.eqb_spec 1 (oVal ob)); [lia|]. apply (w_field s W).
  - apply (w_env s W).
  - intros i oi Hoi. destruct (w_obj s W i oi Hoi) as (H2 & ci & Hci & Hfi). split; [exact H2|].
    rewrite nth_upd, Hltb, andb_true_r. destruct (Nat.eqb_spec (oVal oi) (oVal ob)) as [He|]; [|exists ci; auto].
    assert (i = o) by (apply (w_inj s W i o oi ob); assumption). subst i. rewrite Ho in Hoi. injection Hoi as <-. exists c. auto.
  - apply (w_inj s W).
Qed.

(** Nothing written *)
Lemma Eff_same : forall s o c, Wf s -> objval s o = Some c -> Eff s s o c.
Proof.
  intros s o c W Ho. split; [exact W|]. split; [reflexivity|]. split; [lia|]. intros i Hi.
  destruct (Nat.eqb_spec i o) as [->|]; [exact Ho|reflexivity].
Qed.

(** A new cell becomes the value of an object *)
Lemma Eff_newval : forall s o ob c, Wf s -> nth_error (obs G s) o = Some ob -> fits (oKind ob) c ->
  Eff s (mkSt G (env G s) (upd (obs G s) o (mkObj (oKind ob) (length (cells G s)))) (cells G s ++ [c])) o c.
Proof.
  intros s o ob c W Ho Hf. assert (Hlt := nth_lt _ _ _ Ho).
  assert (Hltb : Nat.ltb o (length (obs G s)) = true) by (apply Nat.ltb_lt; exact Hlt).
  assert (Hold : forall i oi, nth_error (obs G s) i = Some oi -> (oVal oi < length (cells G s))%nat).
  { intros i oi Hi. destruct (w_obj s W i oi Hi) as (_ & ci & Hci & _). exact (nth_lt _ _ _ Hci). }
  split; [|split; [reflexivity|split; [cbn; rewrite length_upd; lia|]]].
  - constructor; cbn [obs cells env].
    + rewrite nth_error_app1 by exact (nth_lt _ _ _ (w_gen s W)). apply (w_gen s W).
    + rewrite nth_error_app1 by exact (nth_lt _ _ _ (w_field s W)). apply (w_field s W).
    + intros x o' Hx. rewrite length_upd. exact (w_env s W x o' Hx).
    + intros i oi Hi. rewrite nth_upd, Hltb, andb_true_r in Hi. destruct (Nat.eqb_spec i o) as [->|].
      * injection Hi as <-. cbn [oVal oKind]. split; [pose proof (nth_lt _ _ _ (w_field s W)); lia|]. exists c.
        rewrite nth_app1, Nat.eqb_refl. auto.
      * destruct (w_obj s W i oi Hi) as (H2 & ci & Hci & Hfi). split; [exact H2|]. exists ci.
        rewrite nth_error_app1 by exact (nth_lt _ _ _ Hci). auto.
    + intros i j oi oj Hi Hj. rewrite nth_upd, Hltb, andb_true_r in Hi, Hj.
      destruct (Nat.eqb_spec i o); destruct (Nat.eqb_spec j o); intros He; try congruence.
      * injection Hi as <-. cbn [oVal] in He. apply Hold in Hj. lia.
      * injection Hj as <-. cbn [oVal] in He. apply Hold in Hi. lia.
      * apply (w_inj s W i j oi oj); assumption.
  - intros i Hi. unfold objval. cbn [obs cells]. rewrite nth_upd, Hltb, andb_true_r.
    destruct (Nat.eqb_spec i o) as [->|].
    + cbn [oVal]. rewrite nth_app1, Nat.eqb_refl. reflexivity.
    + destruct (nth_error (obs G s) i) as [oi|] eqn:Hoi; [|reflexivity]. apply nth_error_app1. exact (Hold _ _ Hoi).
Qed.

(** A new object with a new cell *)
Lemma new_obj : forall s k c, Wf s -> fits k c ->
  let s' := mkSt G (env G s) (obs G s ++ [mkObj k (length (cells G s))]) (cells G s ++ [c]) in
  Wf s' /\ length (obs G s') = Datatypes.S (length (obs G s)) /\ nth_error (obs G s') (length (obs G s)) = Some (mkObj k (length (cells G s))) /\
  objval s' (length (obs G s)) = Some c /\ (forall i, (i < length (obs G s))%nat -> objval s' i = objval s i) /\
  (forall i, (i < length (obs G s))%nat -> nth_error (obs G s') i = nth_error (obs G s) i).
Proof.
  intros s k c W Hf s'.
  assert (Hold : forall i oi, nth_error (obs G s) i = Some oi -> (oVal oi < length (cells G s))%nat).
  { intros i oi Hi. destruct (w_obj s W i oi Hi) as (_ & ci & Hci & _). exact (nth_lt _ _ _ Hci). }
  assert (Hnew : nth_error (obs G s') (length (obs G s)) = Some (mkObj k (length (cells G s)))).
  { cbn [s' obs]. rewrite nth_app1, Nat.eqb_refl. reflexivity. }
  assert (Holdo : forall i, (i < length (obs G s))%nat -> nth_error (obs G s') i = nth_error (obs G s) i).
  { intros i Hi. cbn [s' obs]. apply nth_error_app1. exact Hi. }
  split; [|split; [cbn [s' obs]; rewrite app_length; cbn; lia|split; [exact Hnew|split; [|split; [|exact Holdo]]]]].
  - constructor; cbn [s' obs cells env].
    + rewrite nth_error_app1 by exact (nth_lt _ _ _ (w_gen s W)). apply (w_gen s W).
    + rewrite nth_error_app1 by exact (nth_lt _ _ _ (w_field s W)). apply (w_field s W).
    + intros x o Hx. rewrite app_length. pose proof (w_env s W x o Hx). lia.
    + intros i oi Hi. rewrite nth_app1 in Hi. destruct (Nat.eqb_spec i (length (obs G s))) as [->|].
      * injection Hi as <-. cbn [oVal oKind]. split; [pose proof (nth_lt _ _ _ (w_field s W)); lia|]. exists c.
        rewrite nth_app1, Nat.eqb_refl. auto.
      * destruct (w_obj s W i oi Hi) as (H2 & ci & Hci & Hfi). split; [exact H2|]. exists ci.
        rewrite nth_error_app1 by exact (nth_lt _ _ _ Hci). auto.
    + intros i j oi oj Hi Hj. rewrite nth_app1 in Hi, Hj.
      destruct (Nat.eqb_spec i (length (obs G s))); destruct (Nat.eqb_spec j (length (obs G s))); intros He; try congruence.
      * injection Hi as <-. cbn [oVal] in He. apply Hold in Hj. lia.
      * injection Hj as <-. cbn [oVal] in He. apply Hold in Hi. lia.
      * apply (w_inj s W i j oi oj); assumption.
  - unfold objval. rewrite Hnew. cbn [oVal s' cells]. rewrite nth_app1, Nat.eqb_refl. reflexivity.
  - intros i Hi. unfold objval. rewrite Holdo by exact Hi. destruct (nth_error (obs G s) i) as [oi|] eqn:Hoi; [|reflexivity].
    cbn [s' cells]. apply nth_error_app1. exact (Hold _ _ Hoi).
Qed.

(** ** Each method has the effect of the pure operation on its receiver *)
Lemma check_spec : forall k s o, Wf s -> (o < length (obs G s))%nat ->
  (exists ob c, check G k s o = Ok (oVal ob) /\ nth_error (obs G s) o = Some ob /\ oKind ob = k /\
     nth_error (cells G s) (oVal ob) = Some c /\ objval s o = Some c /\ fits k c) \/
  (check G k s o = Panic /\ exists c, objval s o = Some c /\ ~ fits k c).
Proof.
  intros k s o W Ho. unfold check, objval. destruct (nth_error (obs G s) o) as [ob|] eqn:Hob.
  2:{ apply nth_error_None in Hob. lia. }
  destruct (w_obj s W o ob Hob) as (_ & c & Hc & Hf). cbn [deref bind]. rewrite Hc.
  destruct k, (oKind ob) eqn:Hk; [left|right|right|left];
    try (exists ob, c; repeat split; (reflexivity || assumption)); (split; [reflexivity|]; exists c; split; [reflexivity|]; destruct c; cbn in *; tauto).
Qed.

Definition Meets (s : st) (e : nat) (m : res st) (p : res cell) : Prop :=
  match p with
  | Ok c => exists s', m = Ok s' /\ Eff s s' e c
  | Err => m = Err
  | Panic => m = Panic
  | OutOfFuel => m = OutOfFuel
  end.

Lemma Eff_trans : forall s s1 s2 o c1 c2, Eff s s1 o c1 -> Eff s1 s2 o c2 -> Eff s s2 o c2.
Proof.
  intros s s1 s2 o c1 c2 (W1 & E1 & L1 & V1) (W2 & E2 & L2 & V2).
  split; [exact W2|]. split; [congruence|]. split; [lia|]. intros i Hi. rewrite V2 by lia. rewrite V1 by exact Hi.
  destruct (Nat.eqb i o); reflexivity.
Qed.
Lemma rdZ_ok : forall s a z, nth_error (cells G s) a = Some (CZ z) -> rdZ G s a = Ok z.
Proof. intros s a z H. unfold rdZ. rewrite H. reflexivity. Qed.
Lemma rdP_ok : forall s a z, nth_error (cells G s) a = Some (CP z) -> rdP G s a = Ok z.
Proof. intros s a z H. unfold rdP. rewrite H. reflexivity. Qed.
Lemma rd_field : forall s, Wf s -> rdZ G s fieldCell = Ok (mpField d).
Proof. intros s W. apply rdZ_ok. apply (w_field s W). Qed.
Lemma rd_gen : forall s, Wf s -> rdZ G s genCell = Ok (mpGen d).
Proof. intros s W. apply rdZ_ok. apply (w_gen s W). Qed.

Ltac chk k s o W Ho ob c Hob Hk Hc Hov :=
  let Hck := fresh "Hck" in let Hf := fresh "Hf" in let Hnf := fresh "Hnf" in
  destruct (check_spec k s o W Ho) as [(ob & c & Hck & Hob & Hk & Hc & Hov & Hf)|(Hck & c & Hov & Hnf)];
  rewrite ?Hck, ?Hov; cbn [bind];
  [destruct c; try contradiction; rewrite ?(rdZ_ok s _ _ Hc), ?(rdP_ok s _ _ Hc); cbn [bind]
  |destruct c; try (exfalso; apply Hnf; exact I); try reflexivity].
Tactic Notation "chk" constr(k) constr(s) constr(o) constr(W) constr(Ho) "as" ident(ob) ident(c) ident(Hob) ident(Hk) ident(Hc) ident(Hov) :=
  chk k s o W Ho ob c Hob Hk Hc Hov.

Ltac panics := repeat match goal with
  | |- Meets _ _ _ Panic => unfold Meets
  | |- match ?o with Some _ => _ | None => _ end = _ => destruct o
  | |- context [match objval ?s ?o with _ => _ end] => destruct (objval s o) as [[]|]
  end; try reflexivity.

Lemma mAdd_meets : forall s e a b, Wf s -> (e < length (obs G s))%nat -> (a < length (obs G s))%nat -> (b < length (obs G s))%nat ->
  Meets s e (mAdd G s e a b)
    (match objval s e, objval s a, objval s b with
     | Some (CZ _), Some (CZ x), Some (CZ y) => Ok (CZ (gAdd (ModPGrp d) x y)) | _, _, _ => Panic end).
Proof.
  intros s e a b W He Ha Hb. unfold mAdd.
  chk KMod s e W He as oe ce Hoe Hke Hce Hve.
  chk KMod s a W Ha as oa ca Hoa Hka Hca Hva.
  chk KMod s b W Hb as ob cb Hob Hkb Hcb Hvb.
  assert (E1 : Eff s (wr G s (oVal oe) (CZ (z0 * z1))) e (CZ (z0 * z1))).
  { apply Eff_wr; [exact W|exact Hoe|]. rewrite Hke. exact I. }
  set (s1 := wr G s (oVal oe) (CZ (z0 * z1))) in *. pose proof (proj1 E1) as W1.
  assert (Hoe1 : nth_error (obs G s1) e = Some oe) by exact Hoe.
  assert (Hc1 : nth_error (cells G s1) (oVal oe) = Some (CZ (z0 * z1))).
  { cbn [s1 wr cells]. rewrite nth_upd, Nat.eqb_refl. rewrite (proj2 (Nat.ltb_lt _ _) (nth_lt _ _ _ Hce)). reflexivity. }
  cbv zeta. rewrite (rdZ_ok _ _ _ Hc1). cbn [bind]. rewrite (rd_field s1 W1). cbn [bind].
  eexists. split; [reflexivity|]. eapply Eff_trans; [exact E1|].
  apply (Eff_wr s1 e oe); [exact W1|exact Hoe1|]. rewrite Hke. exact I.
Qed.

Lemma mNegate_meets : forall s e a, Wf s -> (e < length (obs G s))%nat -> (a < length (obs G s))%nat ->
  Meets s e (mNegate G s e a)
    (match objval s e, objval s a with Some (CZ v), Some (CZ x) => Ok (CZ (mpNegate d v x)) | _, _ => Panic end).
Proof.
  intros s e a W He Ha. unfold mNegate.
  chk KMod s e W He as oe ce Hoe Hke Hce Hve.
  chk KMod s a W Ha as oa ca Hoa Hka Hca Hva.
  rewrite (rd_field s W). cbn [bind]. unfold mpNegate. eexists. split; [reflexivity|].
  destruct (modInverse z0 (mpField d)); cbn [or_old].
  - apply Eff_wr; [exact W|exact Hoe|]. rewrite Hke. exact I.
  - apply Eff_same; assumption.
Qed.

Lemma mSet_meets : forall s e a, Wf s -> (e < length (obs G s))%nat -> (a < length (obs G s))%nat ->
  Meets s e (mSet G s e a)
    (match objval s e, objval s a with Some (CZ v), Some (CZ x) => Ok (CZ x) | _, _ => Panic end).
Proof.
  intros s e a W He Ha. unfold mSet.
  chk KMod s e W He as oe ce Hoe Hke Hce Hve.
  chk KMod s a W Ha as oa ca Hoa Hka Hca Hva.
  eexists. split; [reflexivity|]. apply Eff_wr; [exact W|exact Hoe|]. rewrite Hke. exact I.
Qed.

Lemma mScale_meets : forall s e a k, Wf s -> (e < length (obs G s))%nat -> (a < length (obs G s))%nat ->
  Meets s e (mScale G s e a k)
    (match objval s e, objval s a with Some (CZ v), Some (CZ x) => Ok (CZ (mpScale d v x k)) | _, _ => Panic end).
Proof.
  intros s e a k W He Ha. unfold mScale.
  chk KMod s e W He as oe ce Hoe Hke Hce Hve.
  chk KMod s a W Ha as oa ca Hoa Hka Hca Hva.
  rewrite (rd_field s W). cbn [bind]. unfold mpScale. eexists. split; [reflexivity|].
  destruct (bigExp z0 k (mpField d)); cbn [or_old].
  - apply Eff_wr; [exact W|exact Hoe|]. rewrite Hke. exact I.
  - apply Eff_same; assumption.
Qed.

Lemma mBaseScale_meets : forall s e k, Wf s -> (e < length (obs G s))%nat ->
  Meets s e (mBaseScale G s e k)
    (match objval s e with Some (CZ v) => Ok (CZ (mpBaseScale d v k)) | _ => Panic end).
Proof.
  intros s e k W He. unfold mBaseScale.
  chk KMod s e W He as oe ce Hoe Hke Hce Hve.
  rewrite (rd_gen s W). cbn [bind]. rewrite (rd_field s W). cbn [bind]. unfold mpBaseScale. eexists. split; [reflexivity|].
  destruct (bigExp (mpGen d) k (mpField d)); cbn [or_old].
  - apply Eff_wr; [exact W|exact Hoe|]. rewrite Hke. exact I.
  - apply Eff_same; assumption.
Qed.

Lemma mSetBytes_meets : forall s e b, Wf s -> (e < length (obs G s))%nat ->
  Meets s e (mSetBytes G s e b) (match objval s e with Some (CZ v) => Ok (CZ (os2ip b)) | _ => Panic end).
Proof.
  intros s e b W He. unfold mSetBytes. chk KMod s e W He as oe ce Hoe Hke Hce Hve.
  eexists. split; [reflexivity|]. apply Eff_wr; [exact W|exact Hoe|]. rewrite Hke. exact I.
Qed.
Lemma mUnmarshalBinary_meets : forall s e b, Wf s -> (e < length (obs G s))%nat ->
  Meets s e (mUnmarshalBinary G s e b) (match objval s e with Some (CZ v) => Ok (CZ (os2ip b)) | _ => Panic end).
Proof.
  intros s e b W He. unfold mUnmarshalBinary. chk KMod s e W He as oe ce Hoe Hke Hce Hve.
  eexists. split; [reflexivity|]. unfold setVal. cbn [env obs cells]. rewrite <- Hke. apply Eff_newval; [exact W|exact Hoe|].
  rewrite Hke. exact I.
Qed.
Lemma mUnmarshalJSON_meets : forall s e j, Wf s -> (e < length (obs G s))%nat ->
  Meets s e (mUnmarshalJSON G s e j) (match objval s e with Some (CZ v) => '(z, _) <- mpOfJson v j ;; Ok (CZ z) | _ => Panic end).
Proof.
  intros s e j W He. unfold mUnmarshalJSON. chk KMod s e W He as oe ce Hoe Hke Hce Hve.
  destruct (mpOfJson z j) as [[z' ok]| | |]; cbn [bind Meets]; try reflexivity.
  eexists. split; [reflexivity|]. apply Eff_wr; [exact W|exact Hoe|]. rewrite Hke. exact I.
Qed.

(** An operation on an object that existed before a new one was made *)
Lemma Meets_after_new : forall s s1 e m p, Wf s -> env G s1 = env G s ->
  (length (obs G s) <= length (obs G s1))%nat -> (e < length (obs G s))%nat ->
  (forall i, (i < length (obs G s))%nat -> objval s1 i = objval s i) ->
  Meets s1 e m p -> Meets s e m p.
Proof.
  intros s s1 e m p W He Hl Hlt Hv HM. unfold Meets in *. destruct p; auto.
  destruct HM as (s' & Hm & W' & E' & L' & V'). exists s'. split; [exact Hm|]. split; [exact W'|]. split; [congruence|]. split; [lia|].
  intros i Hi. rewrite V' by lia. rewrite Hv by exact Hi. reflexivity.
Qed.

Lemma mSubtract_meets : forall s e a b, Wf s -> (e < length (obs G s))%nat -> (a < length (obs G s))%nat -> (b < length (obs G s))%nat ->
  Meets s e (mSubtract G s e a b)
    (match objval s e, objval s a, objval s b with
     | Some (CZ _), Some (CZ x), Some (CZ y) => Ok (CZ (gSub (ModPGrp d) x y)) | _, _, _ => Panic end).
Proof.
  intros s e a b W He Ha Hb. unfold mSubtract, mIdentity, allocCell, allocObj. cbn [env obs cells].
  destruct (new_obj s KMod (CZ 1) W I) as (W1 & L1 & Ho1 & Hv1 & Hold & _).
  set (s1 := mkSt G (env G s) _ _) in *. set (t := length (obs G s)) in *.
  assert (Hb1 : objval s1 b = objval s b) by (apply Hold; exact Hb).
  pose proof (mNegate_meets s1 t b W1 ltac:(lia) ltac:(lia)) as HM. rewrite Hv1, Hb1 in HM.
  destruct (objval s b) as [[y|Y]|] eqn:Hvb; cbn [Meets] in HM.
  - destruct HM as (s2 & -> & W2 & E2 & L2 & V2). cbn [bind].
    assert (Hot : objval s2 t = Some (CZ (mpNegate d 1 y))) by (rewrite V2, Nat.eqb_refl by lia; reflexivity).
    assert (Hoth : forall i, (i < t)%nat -> objval s2 i = objval s i).
    { intros i Hi. rewrite V2 by lia. destruct (Nat.eqb_spec i t); [lia|]. apply Hold. exact Hi. }
    apply (Meets_after_new s s2); try assumption; [lia|].
    pose proof (mAdd_meets s2 e a t W2 ltac:(lia) ltac:(lia) ltac:(lia)) as HA.
    rewrite Hot, (Hoth e He), (Hoth a Ha) in HA.
    exact HA.
  - rewrite HM. cbn [bind]. panics.
  - rewrite HM. cbn [bind]. panics.
Qed.

(** circl wrappers *)
Lemma upd_app_last : forall {A} (l : list A) a b, upd (l ++ [a]) (length l) b = l ++ [b].
Proof. induction l as [|x l IH]; intros a b; [reflexivity|]. cbn. rewrite IH. reflexivity. Qed.
Lemma Eff_cFresh : forall s e ob p, Wf s -> nth_error (obs G s) e = Some ob -> oKind ob = KCirc -> Eff s (cFresh G s e p) e (CP p).
Proof.
  intros s e ob p W He Hk. unfold cFresh, allocCell, setVal, wr. cbn [env obs cells].
  rewrite upd_app_last. rewrite <- Hk. apply Eff_newval; [exact W|exact He|]. rewrite Hk. exact I.
Qed.

Lemma cAdd_meets : forall s e a b, Wf s -> (e < length (obs G s))%nat -> (a < length (obs G s))%nat -> (b < length (obs G s))%nat ->
  Meets s e (cAdd G s e a b)
    (match objval s e, objval s a, objval s b with
     | Some (CP _), Some (CP X), Some (CP Y) => Ok (CP (gAdd G X Y)) | _, _, _ => Panic end).
Proof.
  intros s e a b W He Ha Hb. unfold cAdd.
  chk KCirc s e W He as oe ce Hoe Hke Hce Hve.
  chk KCirc s a W Ha as oa ca Hoa Hka Hca Hva.
  chk KCirc s b W Hb as ob cb Hob Hkb Hcb Hvb.
  eexists. split; [reflexivity|]. eapply Eff_cFresh; eassumption.
Qed.
Lemma cNegate_meets : forall s e a, Wf s -> (e < length (obs G s))%nat -> (a < length (obs G s))%nat ->
  Meets s e (cNegate G s e a)
    (match objval s e, objval s a with Some (CP _), Some (CP X) => Ok (CP (gNeg G X)) | _, _ => Panic end).
Proof.
  intros s e a W He Ha. unfold cNegate.
  chk KCirc s e W He as oe ce Hoe Hke Hce Hve.
  chk KCirc s a W Ha as oa ca Hoa Hka Hca Hva.
  eexists. split; [reflexivity|]. eapply Eff_cFresh; eassumption.
Qed.
Lemma cSet_meets : forall s e a, Wf s -> (e < length (obs G s))%nat -> (a < length (obs G s))%nat ->
  Meets s e (cSet G s e a)
    (match objval s e, objval s a with Some (CP _), Some (CP X) => Ok (CP X) | _, _ => Panic end).
Proof.
  intros s e a W He Ha. unfold cSet.
  chk KCirc s e W He as oe ce Hoe Hke Hce Hve.
  chk KCirc s a W Ha as oa ca Hoa Hka Hca Hva.
  eexists. split; [reflexivity|]. eapply Eff_cFresh; eassumption.
Qed.
Lemma cScale_meets : forall s e a k, Wf s -> (e < length (obs G s))%nat -> (a < length (obs G s))%nat ->
  Meets s e (cScale G s e a k)
    (match objval s e, objval s a with Some (CP _), Some (CP X) => Ok (CP (gScale G X k)) | _, _ => Panic end).
Proof.
  intros s e a k W He Ha. unfold cScale.
  chk KCirc s e W He as oe ce Hoe Hke Hce Hve.
  chk KCirc s a W Ha as oa ca Hoa Hka Hca Hva.
  eexists. split; [reflexivity|]. eapply Eff_cFresh; eassumption.
Qed.
Lemma cBaseScale_meets : forall s e k, Wf s -> (e < length (obs G s))%nat ->
  Meets s e (cBaseScale G s e k) (match objval s e with Some (CP _) => Ok (CP (gBase G k)) | _ => Panic end).
Proof.
  intros s e k W He. unfold cBaseScale. chk KCirc s e W He as oe ce Hoe Hke Hce Hve.
  eexists. split; [reflexivity|]. eapply Eff_cFresh; eassumption.
Qed.
Lemma cSubtract_meets : forall s e a b, Wf s -> (e < length (obs G s))%nat -> (a < length (obs G s))%nat -> (b < length (obs G s))%nat ->
  Meets s e (cSubtract G s e a b)
    (match objval s e, objval s a, objval s b with
     | Some (CP _), Some (CP X), Some (CP Y) => Ok (CP (gAdd G X (gNeg G Y))) | _, _, _ => Panic end).
Proof.
  intros s e a b W He Ha Hb. unfold cSubtract, cNew, allocCell, allocObj. cbn [env obs cells].
  destruct (new_obj s KCirc (CP (gId G)) W I) as (W1 & L1 & Ho1 & Hv1 & Hold & _).
  set (s1 := mkSt G (env G s) _ _) in *. set (t := length (obs G s)) in *.
  assert (Hb1 : objval s1 b = objval s b) by (apply Hold; exact Hb).
  pose proof (cNegate_meets s1 t b W1 ltac:(lia) ltac:(lia)) as HM. rewrite Hv1, Hb1 in HM.
  destruct (objval s b) as [[y|Y]|] eqn:Hvb; cbn [Meets] in HM.
  - rewrite HM. cbn [bind]. panics.
  - destruct HM as (s2 & -> & W2 & E2 & L2 & V2). cbn [bind].
    assert (Hot : objval s2 t = Some (CP (gNeg G Y))) by (rewrite V2, Nat.eqb_refl by lia; reflexivity).
    assert (Hoth : forall i, (i < t)%nat -> objval s2 i = objval s i).
    { intros i Hi. rewrite V2 by lia. destruct (Nat.eqb_spec i t); [lia|]. apply Hold. exact Hi. }
    apply (Meets_after_new s s2); try assumption; [lia|].
    pose proof (cAdd_meets s2 e a t W2 ltac:(lia) ltac:(lia) ltac:(lia)) as HA.
    rewrite Hot, (Hoth e He), (Hoth a Ha) in HA.
    exact HA.
  - rewrite HM. cbn [bind]. panics.
Qed.
Lemma cMap_meets : forall s e m, Wf s -> (e < length (obs G s))%nat ->
  Meets s e (cMapToGroup G s e m) (match objval s e with Some (CP _) => p <- gMap G m ;; Ok (CP p) | _ => Panic end).
Proof.
  intros s e m W He. unfold cMapToGroup. chk KCirc s e W He as oe ce Hoe Hke Hce Hve.
  destruct (gMap G m) as [q| | |]; cbn [bind Meets]; try reflexivity.
  eexists. split; [reflexivity|]. unfold setVal. cbn [env obs cells]. rewrite <- Hke.
  apply Eff_newval; [exact W|exact Hoe|]. rewrite Hke. exact I.
Qed.
Lemma cUnmInto_eff : forall s e ob X b, Wf s -> nth_error (obs G s) e = Some ob -> oKind ob = KCirc ->
  nth_error (cells G s) (oVal ob) = Some (CP X) ->
  Eff s (cUnmInto G unm s (oVal ob) b) e (CP (match unm b with Some p => p | None => X end)).
Proof.
  intros s e ob X b W He Hk Hc. unfold cUnmInto. destruct (unm b).
  - apply Eff_wr; [exact W|exact He|]. rewrite Hk. exact I.
  - apply Eff_same; [exact W|]. unfold objval. rewrite He. exact Hc.
Qed.
Lemma cUnmarshalBinary_meets : forall s e b, Wf s -> (e < length (obs G s))%nat ->
  Meets s e (cUnmarshalBinary G unm s e b)
    (match objval s e with Some (CP X) => Ok (CP (match unm b with Some p => p | None => X end)) | _ => Panic end).
Proof.
  intros s e b W He. unfold cUnmarshalBinary. chk KCirc s e W He as oe ce Hoe Hke Hce Hve.
  eexists. split; [reflexivity|]. apply cUnmInto_eff; assumption.
Qed.
Lemma cSetBytes_meets : forall s e b, Wf s -> (e < length (obs G s))%nat ->
  Meets s e (cSetBytes G unm s e b)
    (match objval s e with Some (CP X) => Ok (CP (match unm b with Some p => p | None => gNew G end)) | _ => Panic end).
Proof.
  intros s e b W He. unfold cSetBytes, allocCell. chk KCirc s e W He as oe ce Hoe Hke Hce Hve.
  cbv zeta. eexists. split; [reflexivity|]. unfold setVal. cbn [env obs cells].
  assert (E1 : Eff s (mkSt G (env G s) (upd (obs G s) e (mkObj KCirc (length (cells G s)))) (cells G s ++ [CP (gNew G)])) e (CP (gNew G))).
  { pose proof (Eff_newval s e oe (CP (gNew G)) W Hoe) as H. rewrite Hke in H. apply H. exact I. }
  eapply Eff_trans; [exact E1|].
  set (s1 := mkSt G _ _ _) in *.
  assert (Ho1 : nth_error (obs G s1) e = Some (mkObj KCirc (length (cells G s)))).
  { cbn [s1 obs]. rewrite nth_upd, Nat.eqb_refl, (proj2 (Nat.ltb_lt _ _) He). reflexivity. }
  apply (cUnmInto_eff s1 e _ (gNew G) b (proj1 E1) Ho1 eq_refl). cbn [oVal s1 cells]. rewrite nth_app1, Nat.eqb_refl. reflexivity.
Qed.
Lemma cUnmarshalJSON_meets : forall s e j, Wf s -> (e < length (obs G s))%nat ->
  Meets s e (cUnmarshalJSON G L unm s e j)
    (match objval s e with Some (CP X) => '(p, _) <- pointUnmarshalJSON L unm X j ;; Ok (CP p) | _ => Panic end).
Proof.
  intros s e j W He. unfold cUnmarshalJSON, pointUnmarshalJSON. chk KCirc s e W He as oe ce Hoe Hke Hce Hve.
  destruct (pointJSONBytes L j) as [[b|]| | |]; cbn [bind Meets]; try reflexivity.
  - pose proof (cUnmInto_eff s e oe p b W Hoe Hke Hce) as HE. destruct (unm b); cbn [bind Meets]; eexists; (split; [reflexivity|exact HE]).
  - eexists. split; [reflexivity|]. apply Eff_same; assumption.
Qed.

Local Notation exec := (exec G L unm).
Local Notation run := (run G L unm).
Local Notation view := (view G).
Local Notation same := (same G).

Lemma kindOf_spec : forall s o, Wf s -> (o < length (obs G s))%nat ->
  (kindOf G s o = Ok KMod /\ exists z, objval s o = Some (CZ z)) \/ (kindOf G s o = Ok KCirc /\ exists X, objval s o = Some (CP X)).
Proof.
  intros s o W Ho. unfold kindOf, objval. destruct (nth_error (obs G s) o) as [ob|] eqn:Hob.
  2:{ apply nth_error_None in Hob. lia. }
  destruct (w_obj s W o ob Hob) as (_ & c & Hc & Hf). rewrite Hc. cbn [deref bind].
  destruct (oKind ob), c; try contradiction; [left|right]; (split; [reflexivity|eexists; reflexivity]).
Qed.

(** The effect seen through variables *)
Definition Effect (s : st) (r : nat) (m : res st) (p : res cell) : Prop :=
  match p with
  | Ok c => exists s', m = Ok s' /\ Wf s' /\ (forall x y, same s' x y = same s x y) /\
      forall x, view s' x = if same s x r then Some c else view s x
  | Err => m = Err
  | Panic => m = Panic
  | OutOfFuel => m = OutOfFuel
  end.

Lemma Meets_Effect : forall s r e m p, Wf s -> env G s r = Some e -> Meets s e m p -> Effect s r m p.
Proof.
  intros s r e m p W Hr HM. unfold Meets, Effect in *. destruct p; auto.
  destruct HM as (s' & Hm & W' & E' & L' & V'). exists s'. split; [exact Hm|]. split; [exact W'|]. split.
  - intros x y. unfold Heap.same. rewrite E'. reflexivity.
  - intros x. rewrite !view_objval. unfold Heap.same. rewrite E', Hr. destruct (env G s x) as [o|] eqn:Hx; [|reflexivity].
    apply V'. exact (w_env s W x o Hx).
Qed.

Lemma exec_method : forall c s r, Wf s -> receiver c = Some r -> Effect s r (exec c s) (pure c (view s)).
Proof.
  intros c s r W Hr.
  assert (Hnil : forall x, env G s x = None -> view s x = None) by (intros x H; rewrite view_objval, H; reflexivity).
  assert (Hv : forall x o, env G s x = Some o -> view s x = objval s o) by (intros x o H; rewrite view_objval, H; reflexivity).
  destruct c; try discriminate Hr; injection Hr as <-; cbn [Heap.exec pure]; unfold dispatch, ref;
  (destruct (env G s r0) as [e|] eqn:Hr; [|rewrite (Hnil _ Hr); reflexivity]);
  cbn [deref bind]; pose proof (w_env s W _ _ Hr) as He; rewrite (Hv _ _ Hr);
  (destruct (kindOf_spec s e W He) as [[-> (ve & Hve)]|[-> (ve & Hve)]]; rewrite Hve; cbn [bind]);
  repeat match goal with |- context [deref (env G s ?x)] =>
         let H := fresh "Hx" in destruct (env G s x) eqn:H;
         [cbn [deref bind]; rewrite (Hv _ _ H); pose proof (w_env s W _ _ H)
         |rewrite ?(Hnil _ H); cbn [deref bind]] end;
  try (repeat match goal with |- context [match view s ?x with _ => _ end] => destruct (view s x) as [[?|?]|]
              | |- context [match objval s ?x with _ => _ end] => destruct (objval s x) as [[?|?]|] end; reflexivity);
  (apply (Meets_Effect s _ e); [exact W|exact Hr|]).
  - pose proof (mAdd_meets s e _ _ W He H H0) as HM. rewrite Hve in HM. exact HM.
  - pose proof (cAdd_meets s e _ _ W He H H0) as HM. rewrite Hve in HM. exact HM.
  - pose proof (mSubtract_meets s e _ _ W He H H0) as HM. rewrite Hve in HM. exact HM.
  - pose proof (cSubtract_meets s e _ _ W He H H0) as HM. rewrite Hve in HM. exact HM.
  - pose proof (mNegate_meets s e _ W He H) as HM. rewrite Hve in HM. exact HM.
  - pose proof (cNegate_meets s e _ W He H) as HM. rewrite Hve in HM. exact HM.
  - pose proof (mSet_meets s e _ W He H) as HM. rewrite Hve in HM. exact HM.
  - pose proof (cSet_meets s e _ W He H) as HM. rewrite Hve in HM. exact HM.
  - pose proof (mScale_meets s e _ k W He H) as HM. rewrite Hve in HM. exact HM.
  - pose proof (cScale_meets s e _ k W He H) as HM. rewrite Hve in HM. exact HM.
  - pose proof (mBaseScale_meets s e k W He) as HM. rewrite Hve in HM. exact HM.
  - pose proof (cBaseScale_meets s e k W He) as HM. rewrite Hve in HM. exact HM.
  - pose proof (mSetBytes_meets s e b W He) as HM. rewrite Hve in HM. exact HM.
  - pose proof (cSetBytes_meets s e b W He) as HM. rewrite Hve in HM. exact HM.
  - pose proof (cMap_meets s e m W He) as HM. rewrite Hve in HM. exact HM.
  - pose proof (mUnmarshalBinary_meets s e b W He) as HM. rewrite Hve in HM. exact HM.
  - pose proof (cUnmarshalBinary_meets s e b W He) as HM. rewrite Hve in HM. exact HM.
  - pose proof (mUnmarshalJSON_meets s e j W He) as HM. rewrite Hve in HM. exact HM.
  - pose proof (cUnmarshalJSON_meets s e j W He) as HM. rewrite Hve in HM. exact HM.
Qed.

(** The effect of a constructor on the variables *)
Definition NewEffect (s s' : st) (x : nat) (v : cell) : Prop :=
  Wf s' /\ view s' x = Some v /\
  (forall y, y <> x -> view s' y = view s y /\ same s' y x = false) /\
  (forall y z, y <> x -> z <> x -> same s' y z = same s y z).

Lemma new_effect : forall s x k c, Wf s -> fits k c ->
  NewEffect s (bindVar G (mkSt G (env G s) (obs G s ++ [mkObj k (length (cells G s))]) (cells G s ++ [c])) x (length (obs G s))) x c.
Proof.
  intros s x k c W Hf. destruct (new_obj s k c W Hf) as (W1 & L1 & Ho1 & Hv1 & Hold & _).
  set (s1 := mkSt G (env G s) _ _) in *. set (t := length (obs G s)) in *.
  split; [|split; [|split]].
  - destruct W1 as [A1 A2 A3 A4 A5]. constructor; try assumption.
    intros y o. cbn [bindVar env obs]. destruct (Nat.eqb y x); [intros [= <-]; lia|]. intros H. exact (A3 y o H).
  - rewrite view_objval. cbn [bindVar env]. rewrite Nat.eqb_refl. exact Hv1.
  - intros y Hy. split.
    + rewrite !view_objval. cbn [bindVar env]. destruct (Nat.eqb_spec y x); [contradiction|]. cbn [s1 env].
      destruct (env G s y) as [o|] eqn:He; [|reflexivity]. apply Hold. exact (w_env s W y o He).
    + unfold Heap.same. cbn [bindVar env s1]. rewrite Nat.eqb_refl. destruct (Nat.eqb_spec y x); [contradiction|].
      destruct (env G s y) as [o|] eqn:He; [|reflexivity]. apply Nat.eqb_neq. pose proof (w_env s W y o He). unfold t. lia.
  - intros y z Hy Hz. unfold Heap.same. cbn [bindVar env s1].
    destruct (Nat.eqb_spec y x); [contradiction|]. destruct (Nat.eqb_spec z x); [contradiction|]. reflexivity.
Qed.

Lemma exec_new : forall c s x v, Wf s -> fresh c = Some (x, v) -> exists s', exec c s = Ok s' /\ NewEffect s s' x v.
Proof.
  intros c s x v W Hc.
  destruct c; try discriminate Hc; destruct k; injection Hc as <- <-; cbn [Heap.exec mNewElement mIdentity cNew allocCell allocObj].
  1,2,3,4,6: (eexists; split; [reflexivity|]; cbn [env obs cells]; apply new_effect; [exact W|exact I]).
  unfold mGenerator, allocCell.
  assert (Hg : rdZ G (mkSt G (env G s) (obs G s) (cells G s ++ [CZ 0])) genCell = Ok (mpGen d)).
  { apply rdZ_ok. cbn [cells]. rewrite nth_error_app1 by exact (nth_lt _ _ _ (w_gen s W)). apply (w_gen s W). }
  rewrite Hg. cbn [bind allocObj wr env obs cells]. eexists. split; [reflexivity|].
  rewrite upd_app_last. apply (new_effect s x0 KMod (CZ (mpGen d)) W I).
Qed.

Lemma exec_wf : forall c s s', Wf s -> exec c s = Ok s' -> Wf s'.
Proof.
  intros c s s' W H. destruct (receiver c) as [r|] eqn:Hr.
  - pose proof (exec_method c s r W Hr) as HE. unfold Effect in HE. destruct (pure c (view s)); rewrite H in HE; try discriminate.
    destruct HE as (s1 & [= <-] & W' & _). exact W'.
  - destruct (fresh c) as [[x v]|] eqn:Hf.
    + destruct (exec_new c s x v W Hf) as (s1 & H1 & HN). rewrite H in H1. injection H1 as <-. exact (proj1 HN).
    + destruct c as [x []|x []|x []| | | | | | | | | | |]; try discriminate. cbn [Heap.exec] in H. injection H as <-.
      destruct W as [A1 A2 A3 A4 A5]. constructor; cbn [env obs cells]; try assumption.
      intros z o. destruct (Nat.eqb z x); apply A3.
Qed.

Lemma run_wf : forall prog s s', Wf s -> run prog s = Ok s' -> Wf s'.
Proof.
  induction prog as [|c prog IH]; intros s s' W H; cbn [Heap.run] in H; [injection H as <-; exact W|].
  destruct (exec c s) as [s1| | |] eqn:Hc; try discriminate. cbn [bind] in H. eapply IH; [|exact H]. eapply exec_wf; eassumption.
Qed.
End Spec.

(** C42, methods.  At any point of any program, a method call either gives the element held by the receiver
    the value computed by the pure operation from the values before the call - seen through every variable
    holding that element - and leaves every other element and the sharing between variables as they were;
    or the pure operation has no value and the call panics (or, for a hash-to-group that fails, fails). *)
Theorem C42_methods_alias_safe : forall d G L unm prog s c r,
  run G L unm prog (init d G) = Ok s -> receiver c = Some r ->
  match pure d G L unm c (view G s) with
  | Ok v => exists s', exec G L unm c s = Ok s' /\ (forall x y, same G s' x y = same G s x y) /\
      forall x, view G s' x = if same G s x r then Some v else view G s x
  | Err => exec G L unm c s = Err
  | Panic => exec G L unm c s = Panic
  | OutOfFuel => exec G L unm c s = OutOfFuel
  end.
Proof.
  intros d G L unm prog s c r Hrun Hr. pose proof (run_wf d G L unm prog _ _ (Wf_init d G) Hrun) as W.
  pose proof (exec_method d G L unm c s r W Hr) as HE. unfold Effect in HE. destruct (pure d G L unm c (view G s)); try exact HE.
  destruct HE as (s' & H & _ & H1 & H2). exists s'. repeat split; assumption.
Qed.

(** Constructors return an element nobody else holds, with the right value, and change nothing else:
    in particular the generator handed out is a copy, and no program can change what Generator() returns. *)
Theorem C42_constructors_fresh : forall d G L unm prog s c x v,
  run G L unm prog (init d G) = Ok s -> fresh d G c = Some (x, v) ->
  exists s', exec G L unm c s = Ok s' /\ view G s' x = Some v /\
    (forall y, y <> x -> view G s' y = view G s y /\ same G s' y x = false) /\
    (forall y z, y <> x -> z <> x -> same G s' y z = same G s y z).
Proof.
  intros d G L unm prog s c x v Hrun Hf. pose proof (run_wf d G L unm prog _ _ (Wf_init d G) Hrun) as W.
  destruct (exec_new d G L unm c s x v W Hf) as (s' & H & _ & H1 & H2 & H3). exists s'. repeat split; try assumption; apply H2; assumption.
Qed.

(** So the pointers can be forgotten: as long as no two variables hold the same element - no assignment
    [x = y] between Element variables has been made - a program computes with pure values. *)
Fixpoint pureRun (d : ModPDesc) (G : Grp) (L : nat) (unm : bytes -> option (E G)) (prog : list call) (w : nat -> option (cell G))
  : res (nat -> option (cell G)) :=
  match prog with
  | [] => Ok w
  | c :: t =>
      match receiver c, fresh d G c with
      | Some r, _ => v <- pure d G L unm c w ;; pureRun d G L unm t (fun x => if Nat.eqb x r then Some v else w x)
      | None, Some (x, v) => pureRun d G L unm t (fun y => if Nat.eqb y x then Some v else w y)
      | None, None => OutOfFuel
      end
  end.
Definition noAssign (c : call) : bool := match c with Assign _ _ => false | _ => true end.

Lemma pure_ext : forall d G L unm c w w', (forall x, w x = w' x) -> pure d G L unm c w = pure d G L unm c w'.
Proof. intros d G L unm c w w' H. destruct c; cbn [pure]; rewrite <- ?H; reflexivity. Qed.

Theorem C42_value_semantics : forall d G L unm prog, forallb noAssign prog = true ->
  match pureRun d G L unm prog (fun _ => None) with
  | Ok w => exists s, run G L unm prog (init d G) = Ok s /\ forall x, view G s x = w x
  | Err => run G L unm prog (init d G) = Err
  | Panic => run G L unm prog (init d G) = Panic
  | OutOfFuel => run G L unm prog (init d G) = OutOfFuel
  end.
Proof.
  intros d G L unm prog Hna.
  assert (Hgen : forall prog s w, forallb noAssign prog = true -> Wf d G s -> (forall x, view G s x = w x) ->
    (forall x y, view G s x <> None -> same G s x y = true -> x = y) ->
    match pureRun d G L unm prog w with
    | Ok w' => exists s', run G L unm prog s = Ok s' /\ forall x, view G s' x = w' x
    | Err => run G L unm prog s = Err | Panic => run G L unm prog s = Panic | OutOfFuel => run G L unm prog s = OutOfFuel end).
  { clear prog Hna. induction prog as [|c prog IH]; intros s w Hna W Hw Hd; cbn [pureRun run].
    - exists s. split; [reflexivity|exact Hw].
    - cbn [forallb] in Hna. apply andb_prop in Hna. destruct Hna as [Hc Hna].
      destruct (receiver c) as [r|] eqn:Hr.
      + pose proof (exec_method d G L unm c s r W Hr) as HE. unfold Effect in HE.
        rewrite <- (pure_ext d G L unm c _ _ Hw).
        destruct (pure d G L unm c (view G s)) as [v| | |] eqn:Hp; cbn [bind]; [|rewrite HE; reflexivity..].
        destruct HE as (s1 & -> & W1 & Hs1 & Hv1). cbn [bind].
        assert (Hrn : view G s r <> None).
        { intros Hn. destruct c; try discriminate Hr; injection Hr as <-; cbn [pure] in Hp; rewrite Hn in Hp; discriminate. }
        assert (Hv : forall x, view G s1 x = if Nat.eqb x r then Some v else view G s x).
        { intros x. rewrite Hv1. destruct (Nat.eqb_spec x r) as [->|Hne].
          - replace (same G s r r) with true; [reflexivity|]. unfold same. destruct (env G s r); [symmetry; apply Nat.eqb_refl|reflexivity].
          - destruct (same G s x r) eqn:Hsx; [|reflexivity]. exfalso. apply Hne. symmetry. apply Hd; [exact Hrn|].
            revert Hsx. unfold same. destruct (env G s x), (env G s r); try discriminate; auto. intros H. rewrite Nat.eqb_sym. exact H. }
        apply IH; [exact Hna|exact W1| |].
        * intros x. rewrite Hv. destruct (Nat.eqb x r); [reflexivity|apply Hw].
        * intros x y Hx Hxy. rewrite Hs1 in Hxy. apply Hd; [|exact Hxy]. rewrite Hv in Hx. destruct (Nat.eqb_spec x r) as [->|]; assumption.
      + destruct (fresh d G c) as [[x v]|] eqn:Hf.
        * destruct (exec_new d G L unm c s x v W Hf) as (s1 & -> & W1 & Hx & Hoth & Hsm). cbn [bind].
          apply IH; [exact Hna|exact W1| |].
          -- intros y. destruct (Nat.eqb_spec y x) as [->|Hne]; [exact Hx|]. rewrite (proj1 (Hoth y Hne)). apply Hw.
          -- intros y z Hy Hyz. destruct (Nat.eqb_spec y x) as [->|Hyx].
             ++ destruct (Nat.eqb_spec z x) as [->|Hzx]; [reflexivity|].
                assert (Hzx' : same G s1 z x = true).
                { revert Hyz. unfold same. destruct (env G s1 x), (env G s1 z); try discriminate; auto. intros H. rewrite Nat.eqb_sym. exact H. }
                rewrite (proj2 (Hoth z Hzx)) in Hzx'. discriminate.
             ++ destruct (Nat.eqb_spec z x) as [->|Hzx]; [rewrite (proj2 (Hoth y Hyx)) in Hyz; discriminate|].
                rewrite Hsm in Hyz by assumption. apply Hd; [|exact Hyz]. rewrite <- (proj1 (Hoth y Hyx)). exact Hy.
        * destruct c as [x []|x []|x []| | | | | | | | | | |]; discriminate. }
  apply Hgen; [exact Hna|apply Wf_init|reflexivity|]. intros x y H. exfalso. apply H. reflexivity.
Qed.

(** A program with receivers, arguments and variables aliased every which way, in both kinds of group *)
Definition heapProg : list call :=
  [CGenerator 0 KMod; Assign 1 0; Add 0 0 1;            (* x1 = x0; x0.Add(x0, x1): both become g^2 *)
   CGenerator 2 KMod; Subtract 0 2 1;                   (* x0.Subtract(x2, x1), x1 the same element as x0: g^-1 *)
   SetTo 2 0; Negate 2 2;                               (* x2.Set(x0); x2.Negate(x2): g *)
   CIdentity 3 KCirc; BaseScale 3 5; Assign 4 3; Subtract 4 3 4].
Definition heapResult : res (list (option Z)) :=
  s <- run toy 32 (fun _ => None) heapProg (init dToy toy) ;;
  Ok (map (fun x => match view toy s x with Some (CZ z) => Some z | Some (CP p) => Some (zv 101 p) | None => None end) [0; 1; 2; 3; 4; 5]%nat).
Example C42_case : heapResult = Ok [Some 4212; Some 4212; Some 2; Some 0; Some 0; None]. Proof. vm_compute. reflexivity. Qed.
Example C42_case_pure : (exists s, run toy 32 (fun _ => None) (firstn 1 heapProg) (init dToy toy) = Ok s) /\
  forallb noAssign [CGenerator 0 KMod; CElement 1 KMod; Add 1 0 0] = true.
Proof. split; [eexists; reflexivity|reflexivity]. Qed.

Print Assumptions C42_methods_alias_safe.
Print Assumptions C42_constructors_fresh.
Print Assumptions C42_value_semantics.
