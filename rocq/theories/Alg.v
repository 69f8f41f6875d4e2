(** Algebra of a group satisfying GrpLaws: Scale as a Z-module action, a reflective tactic for linear
    identities, finite sums, tabulated vectors. *)
From Verif Require Import GoBase Json GroupIface NumTh.
From Coq Require Import Setoid Morphisms.

Section Alg.
Context {G : Grp} (HL : GrpLaws G).
Local Notation E := (E G).
Local Notation N := (gN G).

Lemma N_pos : 0 < N. Proof. pose proof (l_order G HL). lia. Qed.
Lemma add_0_l : forall X : E, gAdd G (gId G) X = X. Proof. apply (l_id G HL). Qed.
Lemma add_0_r : forall X : E, gAdd G X (gId G) = X.
Proof. intros. rewrite (l_comm G HL). apply add_0_l. Qed.
Lemma add_neg_l : forall X : E, gAdd G (gNeg G X) X = gId G.
Proof. intros. rewrite (l_comm G HL). apply (l_neg G HL). Qed.
Lemma add_cancel_l : forall X Y Z : E, gAdd G X Y = gAdd G X Z -> Y = Z.
Proof.
  intros X Y Z H. rewrite <- (add_0_l Y), <- (add_0_l Z), <- (add_neg_l X).
  rewrite <- !(l_assoc G HL). rewrite H. reflexivity.
Qed.
Lemma add_cancel_r : forall X Y Z : E, gAdd G Y X = gAdd G Z X -> Y = Z.
Proof.
  intros X Y Z H. apply (add_cancel_l X). rewrite (l_comm G HL X Y), (l_comm G HL X Z). exact H.
Qed.
Lemma neg_unique : forall X Y : E, gAdd G X Y = gId G -> Y = gNeg G X.
Proof. intros X Y H. apply (add_cancel_l X). rewrite H. symmetry. apply (l_neg G HL). Qed.
Lemma sub_0_iff : forall X Y : E, gSub G X Y = gId G <-> X = Y.
Proof.
  intros X Y. rewrite (l_sub G HL). split; intros H.
  - apply (add_cancel_r (gNeg G Y)). rewrite H, (l_neg G HL). reflexivity.
  - subst. apply (l_neg G HL).
Qed.
Lemma negadd_0_iff : forall X Y : E, gAdd G (gNeg G X) Y = gId G <-> X = Y.
Proof.
  intros X Y. split; intros H.
  - apply (add_cancel_l (gNeg G X)). rewrite H. apply add_neg_l.
  - subst. apply add_neg_l.
Qed.

Lemma scale_pred : forall X s, gAdd G (gScale G X (s - 1)) X = gScale G X s.
Proof. intros. rewrite <- (l_scaleS G HL). f_equal. lia. Qed.
Lemma scale_plus : forall X a b, gScale G X (a + b) = gAdd G (gScale G X a) (gScale G X b).
Proof.
  intros X a b. revert b.
  apply (Z.bi_induction (fun b => gScale G X (a + b) = gAdd G (gScale G X a) (gScale G X b))).
  - intros ? ? ->. reflexivity.
  - rewrite (l_scale0 G HL), add_0_r. f_equal. lia.
  - intros b. replace (a + Z.succ b) with (a + b + 1) by lia. replace (Z.succ b) with (b + 1) by lia.
    rewrite !(l_scaleS G HL), (l_assoc G HL). split; intros H.
    + rewrite H. reflexivity.
    + apply (add_cancel_r X). exact H.
Qed.
Lemma scale_1 : forall X, gScale G X 1 = X.
Proof. intros. rewrite <- (add_0_l X) at 2. rewrite <- (l_scale0 G HL X). apply (l_scaleS G HL X 0). Qed.
Lemma scale_opp : forall X a, gScale G X (- a) = gNeg G (gScale G X a).
Proof.
  intros. apply neg_unique. rewrite <- scale_plus.
  replace (a + - a) with 0 by lia. apply (l_scale0 G HL).
Qed.
Lemma scale_mul : forall X a b, gScale G (gScale G X a) b = gScale G X (a * b).
Proof.
  intros X a. apply (Z.bi_induction (fun b => gScale G (gScale G X a) b = gScale G X (a * b))).
  - intros ? ? ->. reflexivity.
  - rewrite Z.mul_0_r, !(l_scale0 G HL). reflexivity.
  - intros b. replace (a * Z.succ b) with (a * b + a) by lia. replace (Z.succ b) with (b + 1) by lia.
    rewrite (l_scaleS G HL), scale_plus. split; intros H.
    + rewrite H. reflexivity.
    + apply (add_cancel_r (gScale G X a)). exact H.
Qed.
Lemma scale_id : forall a, gScale G (gId G) a = gId G.
Proof. intros. rewrite <- (l_scale0 G HL (gId G)), scale_mul. f_equal. Qed.
Lemma scale_add : forall X Y a, gScale G (gAdd G X Y) a = gAdd G (gScale G X a) (gScale G Y a).
Proof.
  intros X Y.
  assert (Hsw : forall A B C D : E, gAdd G (gAdd G A B) (gAdd G C D) = gAdd G (gAdd G A C) (gAdd G B D)).
  { intros. rewrite <- !(l_assoc G HL). f_equal. rewrite !(l_assoc G HL). f_equal. apply (l_comm G HL). }
  apply (Z.bi_induction (fun a => gScale G (gAdd G X Y) a = gAdd G (gScale G X a) (gScale G Y a))).
  - intros ? ? ->. reflexivity.
  - rewrite !(l_scale0 G HL), add_0_l. reflexivity.
  - intros b. replace (Z.succ b) with (b + 1) by lia. rewrite !(l_scaleS G HL).
    rewrite Hsw. split; intros H.
    + rewrite H. reflexivity.
    + apply (add_cancel_r (gAdd G X Y)). exact H.
Qed.
Lemma neg_scale : forall X, gNeg G X = gScale G X (-1).
Proof. intros. change (-1) with (- (1)). rewrite scale_opp, scale_1. reflexivity. Qed.
Lemma scale_kN : forall X k, gScale G X (k * N) = gId G.
Proof. intros. rewrite Z.mul_comm, <- scale_mul, (l_scaleN G HL). apply scale_id. Qed.
Lemma scale_eqm : forall X a b, eqm N a b -> gScale G X a = gScale G X b.
Proof.
  intros X a b H. apply eqm_iff in H; [|apply N_pos]. destruct H as [k Hk].
  replace a with (b + k * N) by lia. rewrite scale_plus, scale_kN. apply add_0_r.
Qed.
Lemma scale_mod : forall X a, gScale G X (a mod N) = gScale G X a.
Proof. intros. apply scale_eqm. apply Zmod_eqm. Qed.
Lemma base_scale : forall a, gBase G a = gScale G (gGen G) a.
Proof. apply (l_base G HL). Qed.

(** ** Reflection *)
Inductive gexp : Type :=
| GAtom (n : nat)
| GZero
| GAdd (a b : gexp)
| GSub (a b : gexp)
| GNeg (a : gexp)
| GScale (a : gexp) (c : Z)
| GBase (c : Z).

Fixpoint gden (env : list E) (e : gexp) : E :=
  match e with
  | GAtom n => nth n env (gId G)
  | GZero => gId G
  | GAdd a b => gAdd G (gden env a) (gden env b)
  | GSub a b => gSub G (gden env a) (gden env b)
  | GNeg a => gNeg G (gden env a)
  | GScale a c => gScale G (gden env a) c
  | GBase c => gBase G c
  end.

Definition oz (o : option Z) : Z := match o with Some z => z | None => 0 end.
Definition oadd (a b : option Z) : option Z :=
  match a, b with
  | None, b => b
  | a, None => a
  | Some x, Some y => Some (x + y)
  end.
Definition oopp (a : option Z) : option Z := match a with Some x => Some (- x) | None => None end.
Definition omul (a : option Z) (c : Z) : option Z := match a with Some x => Some (x * c) | None => None end.
(** coefficient of atom i; atom 0 is the generator *)
Fixpoint gcoef (e : gexp) (i : nat) : option Z :=
  match e with
  | GAtom n => if Nat.eqb n i then Some 1 else None
  | GZero => None
  | GAdd a b => oadd (gcoef a i) (gcoef b i)
  | GSub a b => oadd (gcoef a i) (oopp (gcoef b i))
  | GNeg a => oopp (gcoef a i)
  | GScale a c => omul (gcoef a i) c
  | GBase c => if Nat.eqb i 0 then Some c else None
  end.

Fixpoint gcomb (env : list E) (i : nat) (f : nat -> Z) : E :=
  match env with
  | [] => gId G
  | X :: t => gAdd G (gScale G X (f i)) (gcomb t (S i) f)
  end.

Lemma add_swap4 : forall A B C D : E,
  gAdd G (gAdd G A B) (gAdd G C D) = gAdd G (gAdd G A C) (gAdd G B D).
Proof.
  intros. rewrite <- !(l_assoc G HL). f_equal. rewrite !(l_assoc G HL). f_equal. apply (l_comm G HL).
Qed.

Lemma gcomb_add : forall env i f g,
  gcomb env i (fun j => f j + g j) = gAdd G (gcomb env i f) (gcomb env i g).
Proof.
  induction env as [|X t IH]; intros; cbn [gcomb]; [rewrite add_0_l; reflexivity|].
  rewrite IH, scale_plus. apply add_swap4.
Qed.
Lemma gcomb_scale : forall env i f c,
  gcomb env i (fun j => f j * c) = gScale G (gcomb env i f) c.
Proof.
  induction env as [|X t IH]; intros; cbn [gcomb]; [rewrite scale_id; reflexivity|].
  rewrite IH, scale_add, scale_mul. reflexivity.
Qed.
Lemma gcomb_ext : forall env i f g,
  (forall j, (i <= j < i + length env)%nat -> eqm N (f j) (g j)) -> gcomb env i f = gcomb env i g.
Proof.
  induction env as [|X t IH]; intros i f g H; cbn [gcomb]; [reflexivity|].
  cbn [length] in H. f_equal.
  - apply scale_eqm. apply H. lia.
  - apply IH. intros. apply H. lia.
Qed.
Lemma gcomb_zero : forall env i, gcomb env i (fun _ => 0) = gId G.
Proof.
  induction env as [|X t IH]; intros; cbn [gcomb]; [reflexivity|].
  rewrite (l_scale0 G HL), IH. apply add_0_l.
Qed.
Lemma gcomb_atom : forall env i n,
  gcomb env i (fun j => oz (if Nat.eqb n j then Some 1 else None)) =
  if Nat.leb i n then nth (n - i) env (gId G) else gId G.
Proof.
  induction env as [|X t IH]; intros; cbn [gcomb].
  - destruct (Nat.leb i n); [|reflexivity]. destruct (n - i)%nat; reflexivity.
  - rewrite IH. destruct (Nat.eqb n i) eqn:En; cbn [oz].
    + apply Nat.eqb_eq in En. subst i. rewrite Nat.leb_refl, Nat.sub_diag. cbn [nth].
      replace (Nat.leb (S n) n) with false by (symmetry; apply Nat.leb_gt; lia).
      rewrite scale_1. apply add_0_r.
    + apply Nat.eqb_neq in En. rewrite (l_scale0 G HL), add_0_l.
      destruct (Nat.leb (S i) n) eqn:E1.
      * apply Nat.leb_le in E1. replace (Nat.leb i n) with true by (symmetry; apply Nat.leb_le; lia).
        replace (n - i)%nat with (S (n - S i)) by lia. reflexivity.
      * apply Nat.leb_gt in E1. replace (Nat.leb i n) with false by (symmetry; apply Nat.leb_gt; lia).
        reflexivity.
Qed.

Lemma oz_oadd : forall a b, oz (oadd a b) = oz a + oz b.
Proof. intros [a|] [b|]; cbn; lia. Qed.
Lemma oz_oopp : forall a, oz (oopp a) = oz a * (-1).
Proof. intros [a|]; cbn; lia. Qed.
Lemma oz_omul : forall a c, oz (omul a c) = oz a * c.
Proof. intros [a|] c; cbn; lia. Qed.

Lemma gden_comb : forall env e, nth 0 env (gId G) = gGen G ->
  gden env e = gcomb env 0 (fun i => oz (gcoef e i)).
Proof.
  intros env e Henv. induction e; cbn [gden gcoef].
  - rewrite gcomb_atom. cbn [Nat.leb]. rewrite Nat.sub_0_r. reflexivity.
  - cbn [oz]. rewrite gcomb_zero. reflexivity.
  - rewrite IHe1, IHe2, <- gcomb_add. apply gcomb_ext. intros. rewrite oz_oadd. reflexivity.
  - rewrite (l_sub G HL), neg_scale, IHe1, IHe2, <- gcomb_scale, <- gcomb_add. apply gcomb_ext.
    intros. rewrite oz_oadd, oz_oopp. reflexivity.
  - rewrite neg_scale, IHe, <- gcomb_scale. apply gcomb_ext. intros. rewrite oz_oopp. reflexivity.
  - rewrite IHe, <- gcomb_scale. apply gcomb_ext. intros. rewrite oz_omul. reflexivity.
  - rewrite base_scale. rewrite <- Henv.
    transitivity (gcomb env 0 (fun j => oz (if Nat.eqb 0 j then Some 1 else None) * c)).
    + rewrite gcomb_scale, gcomb_atom. reflexivity.
    + apply gcomb_ext. intros j _. destruct j; cbn [Nat.eqb oz]; [rewrite Z.mul_1_l|]; reflexivity.
Qed.

Fixpoint gcheck (e1 e2 : gexp) (n : nat) : Prop :=
  match n with
  | O => True
  | S O => eqm N (oz (gcoef e1 0)) (oz (gcoef e2 0))
  | S k => gcheck e1 e2 k /\ eqm N (oz (gcoef e1 k)) (oz (gcoef e2 k))
  end.
Lemma gcheck_all : forall e1 e2 n, gcheck e1 e2 n ->
  forall i, (i < n)%nat -> eqm N (oz (gcoef e1 i)) (oz (gcoef e2 i)).
Proof.
  induction n as [|n IH]; intros H i Hi; [lia|].
  destruct n as [|n].
  - cbn in H. replace i with 0%nat by lia. exact H.
  - destruct H as [H1 H2]. destruct (Nat.eq_dec i (S n)) as [->|Hne]; [exact H2|].
    apply IH; [exact H1|lia].
Qed.
Lemma glin_correct : forall env e1 e2,
  gcheck e1 e2 (S (length env)) -> gden (gGen G :: env) e1 = gden (gGen G :: env) e2.
Proof.
  intros env e1 e2 H. rewrite !gden_comb by reflexivity.
  apply gcomb_ext. intros j Hj. apply (gcheck_all _ _ _ H). cbn [length] in Hj. lia.
Qed.
End Alg.

Ltac g_in x l :=
  match l with
  | nil => constr:(false)
  | x :: _ => constr:(true)
  | _ :: ?t => g_in x t
  end.
Ltac g_addatom x l :=
  let b := g_in x l in
  match b with true => l | false => constr:(x :: l) end.
Ltac g_atoms G e l :=
  lazymatch e with
  | gId G => l
  | gAdd G ?a ?b => let l1 := g_atoms G a l in g_atoms G b l1
  | gSub G ?a ?b => let l1 := g_atoms G a l in g_atoms G b l1
  | gNeg G ?a => g_atoms G a l
  | gScale G ?a _ => g_atoms G a l
  | gBase G _ => l
  | gGen G => l
  | ?x => g_addatom x l
  end.
Ltac g_index x l :=
  match l with
  | x :: _ => constr:(O)
  | _ :: ?t => let n := g_index x t in constr:(S n)
  end.
Ltac g_reify G e l :=
  lazymatch e with
  | gId G => constr:(GZero)
  | gAdd G ?a ?b => let x := g_reify G a l in let y := g_reify G b l in constr:(GAdd x y)
  | gSub G ?a ?b => let x := g_reify G a l in let y := g_reify G b l in constr:(GSub x y)
  | gNeg G ?a => let x := g_reify G a l in constr:(GNeg x)
  | gScale G ?a ?c => let x := g_reify G a l in constr:(GScale x c)
  | gBase G ?c => constr:(GBase c)
  | gGen G => constr:(GAtom 0)
  | ?x => let n := g_index x l in constr:(GAtom (S n))
  end.
(** [glin HL]: reduce a group equality to congruences of coefficients; trivial ones are solved by ring *)
Ltac glin HL :=
  lazymatch goal with
  | |- @eq _ ?a ?b =>
      match type of HL with
      | GrpLaws ?G =>
          let l0 := g_atoms G a (@nil (E G)) in
          let l := g_atoms G b l0 in
          let e1 := g_reify G a l in
          let e2 := g_reify G b l in
          change (gden (G:=G) (gGen G :: l) e1 = gden (G:=G) (gGen G :: l) e2);
          apply (glin_correct HL);
          cbn [gcheck gcoef oz oadd oopp omul Nat.eqb length];
          repeat apply conj;
          try (apply eqm_of_eq; ring)
      end
  end.

Section Test.
Context {G : Grp} (HL : GrpLaws G).
Remark glin_test : forall X Y a b, gAdd G (gScale G (gAdd G X Y) (a + b)) (gBase G b) =
  gAdd G (gSub G (gBase G b) (gScale G X (- a))) (gAdd G (gScale G X b) (gScale G Y (b + a))).
Proof. intros. glin HL. Qed.
End Test.

(** ** Finite sums *)
Section Sums.
Context {G : Grp} (HL : GrpLaws G).
Local Notation E := (E G).
Local Notation N := (gN G).

Fixpoint gsum (n : nat) (f : nat -> E) : E :=
  match n with
  | O => gId G
  | S k => gAdd G (gsum k f) (f k)
  end.

Lemma gsum_ext : forall n f g, (forall i, (i < n)%nat -> f i = g i) -> gsum n f = gsum n g.
Proof.
  induction n as [|n IH]; intros f g H; cbn [gsum]; [reflexivity|].
  f_equal; [apply IH; intros; apply H; lia | apply H; lia].
Qed.
Lemma gsum_add : forall n f g, gsum n (fun i => gAdd G (f i) (g i)) = gAdd G (gsum n f) (gsum n g).
Proof.
  induction n as [|n IH]; intros; cbn [gsum]; [rewrite (add_0_l HL); reflexivity|].
  rewrite IH. apply (add_swap4 HL).
Qed.
Lemma gsum_scale : forall n f c, gsum n (fun i => gScale G (f i) c) = gScale G (gsum n f) c.
Proof.
  induction n as [|n IH]; intros; cbn [gsum]; [rewrite (scale_id HL); reflexivity|].
  rewrite IH, (scale_add HL). reflexivity.
Qed.
Lemma gsum_neg : forall n f, gsum n (fun i => gNeg G (f i)) = gNeg G (gsum n f).
Proof.
  intros. rewrite (neg_scale HL), <- gsum_scale. apply gsum_ext. intros. apply (neg_scale HL).
Qed.
Lemma gsum_zero : forall n, gsum n (fun _ => gId G) = gId G.
Proof. induction n as [|n IH]; cbn [gsum]; [reflexivity|]. rewrite IH. apply (add_0_l HL). Qed.
Lemma gsum_app : forall n m f, gsum (n + m) f = gAdd G (gsum n f) (gsum m (fun i => f (n + i)%nat)).
Proof.
  induction m as [|m IH]; intros f; cbn [gsum].
  - rewrite Nat.add_0_r, (add_0_r HL). reflexivity.
  - rewrite Nat.add_succ_r. cbn [gsum]. rewrite IH. symmetry. apply (l_assoc G HL).
Qed.

Fixpoint zsum (n : nat) (f : nat -> Z) : Z :=
  match n with
  | O => 0
  | S k => zsum k f + f k
  end.
Lemma zsum_ext : forall n f g, (forall i, (i < n)%nat -> f i = g i) -> zsum n f = zsum n g.
Proof.
  induction n as [|n IH]; intros f g H; cbn [zsum]; [reflexivity|].
  f_equal; [apply IH; intros; apply H; lia | apply H; lia].
Qed.
Lemma zsum_eqm : forall M n f g, (forall i, (i < n)%nat -> eqm M (f i) (g i)) -> eqm M (zsum n f) (zsum n g).
Proof.
  induction n as [|n IH]; intros f g H; cbn [zsum]; [reflexivity|].
  apply Zplus_eqm; [apply IH; intros; apply H; lia | apply H; lia].
Qed.
Lemma zsum_add : forall n f g, zsum n (fun i => f i + g i) = zsum n f + zsum n g.
Proof. induction n as [|n IH]; intros; cbn [zsum]; [reflexivity|]. rewrite IH. lia. Qed.
Lemma zsum_sub : forall n f g, zsum n (fun i => f i - g i) = zsum n f - zsum n g.
Proof. induction n as [|n IH]; intros; cbn [zsum]; [reflexivity|]. rewrite IH. lia. Qed.
Lemma zsum_mul : forall n f c, zsum n (fun i => f i * c) = zsum n f * c.
Proof. induction n as [|n IH]; intros; cbn [zsum]; [lia|]. rewrite IH. lia. Qed.
Lemma zsum_mul_l : forall n f c, zsum n (fun i => c * f i) = c * zsum n f.
Proof. induction n as [|n IH]; intros; cbn [zsum]; [lia|]. rewrite IH. lia. Qed.
Lemma zsum_zero : forall n, zsum n (fun _ => 0) = 0.
Proof. induction n as [|n IH]; cbn [zsum]; [reflexivity|]. rewrite IH. lia. Qed.
Lemma zsum_app : forall n m f, zsum (n + m) f = zsum n f + zsum m (fun i => f (n + i)%nat).
Proof.
  induction m as [|m IH]; intros f; cbn [zsum].
  - rewrite Nat.add_0_r. lia.
  - rewrite Nat.add_succ_r. cbn [zsum]. rewrite IH. lia.
Qed.
Lemma gsum_base : forall n X f, gsum n (fun i => gScale G X (f i)) = gScale G X (zsum n f).
Proof.
  induction n as [|n IH]; intros; cbn [gsum zsum]; [rewrite (l_scale0 G HL); reflexivity|].
  rewrite IH, (scale_plus HL). reflexivity.
Qed.
End Sums.

(** ** Tabulated vectors *)
Definition tab {A} (n : nat) (f : nat -> A) : list A := map f (seq 0 n).
Lemma tab_length : forall {A} n (f : nat -> A), length (tab n f) = n.
Proof. intros. unfold tab. rewrite map_length. apply seq_length. Qed.
Lemma tab_S : forall {A} n (f : nat -> A), tab (S n) f = f O :: tab n (fun i => f (S i)).
Proof. intros. unfold tab. cbn [seq map]. f_equal. rewrite <- seq_shift, map_map. reflexivity. Qed.
Lemma tab_snoc : forall {A} n (f : nat -> A), tab (S n) f = tab n f ++ [f n].
Proof. intros. unfold tab. rewrite seq_S, map_app. reflexivity. Qed.
Lemma tab_ext : forall {A} n (f g : nat -> A), (forall i, (i < n)%nat -> f i = g i) -> tab n f = tab n g.
Proof. intros A n f g H. unfold tab. apply map_ext_in. intros i Hi. apply in_seq in Hi. apply H. lia. Qed.
Lemma tab_nth : forall {A} (d : A) l, l = tab (length l) (fun i => nth i l d).
Proof.
  induction l as [|x t IH]; [reflexivity|]. cbn [length]. rewrite tab_S. cbn [nth]. f_equal. exact IH.
Qed.
Lemma tab_nth' : forall {A} (d : A) l n, length l = n -> l = tab n (fun i => nth i l d).
Proof. intros; subst; apply tab_nth. Qed.
Lemma nth_tab : forall {A} (d : A) n f i, (i < n)%nat -> nth i (tab n f) d = f i.
Proof.
  induction n as [|n IH]; intros f i Hi; [lia|]. rewrite tab_S. destruct i as [|i]; [reflexivity|].
  cbn [nth]. rewrite IH by lia. reflexivity.
Qed.
Lemma nth_error_tab : forall {A} n (f : nat -> A) i, (i < n)%nat -> nth_error (tab n f) i = Some (f i).
Proof.
  induction n as [|n IH]; intros f i Hi; [lia|]. rewrite tab_S. destruct i as [|i]; [reflexivity|].
  cbn [nth_error]. rewrite IH by lia. reflexivity.
Qed.
Lemma map_tab : forall {A B} (h : A -> B) n f, map h (tab n f) = tab n (fun i => h (f i)).
Proof. intros. unfold tab. apply map_map. Qed.
Lemma map2_tab : forall {A B C} (h : A -> B -> C) n f g, map2 h (tab n f) (tab n g) = tab n (fun i => h (f i) (g i)).
Proof.
  induction n as [|n IH]; intros; [reflexivity|]. rewrite !tab_S. cbn [map2]. f_equal. apply IH.
Qed.
Lemma repeat_tab : forall {A} (a : A) n, repeat a n = tab n (fun _ => a).
Proof. induction n as [|n IH]; [reflexivity|]. rewrite tab_S. cbn [repeat]. f_equal. exact IH. Qed.
Lemma firstn_tab : forall {A} k n (f : nat -> A), firstn k (tab (k + n) f) = tab k f.
Proof.
  induction k as [|k IH]; intros; [reflexivity|]. cbn [plus]. rewrite !tab_S. cbn [firstn]. f_equal. apply IH.
Qed.
Lemma skipn_tab : forall {A} k n (f : nat -> A), skipn k (tab (k + n) f) = tab n (fun i => f (k + i)%nat).
Proof.
  induction k as [|k IH]; intros; [reflexivity|]. cbn [plus]. rewrite tab_S. cbn [skipn]. apply IH.
Qed.
Lemma mapM_Ok : forall {A B} (h : A -> B) (k : A -> res B) l, (forall a, In a l -> k a = Ok (h a)) -> mapM k l = Ok (map h l).
Proof.
  induction l as [|x t IH]; intros H; [reflexivity|]. cbn [mapM map]. rewrite H by (left; reflexivity).
  cbn [bind]. rewrite IH by (intros; apply H; right; assumption). reflexivity.
Qed.
Lemma mapM_tab : forall {A B} (k : A -> res B) n f (h : nat -> B),
  (forall i, (i < n)%nat -> k (f i) = Ok (h i)) -> mapM k (tab n f) = Ok (tab n h).
Proof.
  induction n as [|n IH]; intros f h H; [reflexivity|]. rewrite !tab_S. cbn [mapM].
  rewrite H by lia. cbn [bind]. rewrite (IH (fun i => f (S i)) (fun i => h (S i))) by (intros; apply H; lia).
  reflexivity.
Qed.
