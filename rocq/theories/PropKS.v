(** C48: the inner-product argument is knowledge sound.  An extractor that sees only integers - the challenges
    and the final scalars of a tree of accepting proofs - computes an opening of the statement or a
    non-trivial relation between the generators. *)
From Verif Require Import GoBase Json GroupIface Vector BIP NumTh Alg VectorProofs BIPProofs Toy.
From Coq Require Import Znumtheory.

(** ** Specification *)
(** Proofs sharing a prefix of rounds, arranged in a tree: at each node the commitments (L, R) of the round and
    four continuations, one for each of four challenges; at a leaf the final scalars. *)
Inductive Tree (A : Type) : Type :=
| Leaf (a b : Z)
| Node (L R : A) (x1 : Z) (t1 : Tree A) (x2 : Z) (t2 : Tree A) (x3 : Z) (t3 : Tree A) (x4 : Z) (t4 : Tree A).
Arguments Leaf {A}. Arguments Node {A}.

(** The integers of a tree *)
Fixpoint erase {A} (t : Tree A) : Tree unit :=
  match t with
  | Leaf a b => Leaf a b
  | Node _ _ x1 t1 x2 t2 x3 t3 x4 t4 => Node tt tt x1 (erase t1) x2 (erase t2) x3 (erase t3) x4 (erase t4)
  end.

(** Perfect of depth k, challenges non-zero and with distinct squares modulo N *)
Fixpoint GoodTree {A} (N : Z) (k : nat) (t : Tree A) : Prop :=
  match k, t with
  | O, Leaf _ _ => True
  | S k', Node _ _ x1 t1 x2 t2 x3 t3 x4 t4 =>
      (x1 mod N <> 0 /\ x2 mod N <> 0 /\ x3 mod N <> 0 /\ x4 mod N <> 0) /\
      ((x1 * x1 - x2 * x2) mod N <> 0 /\ (x1 * x1 - x3 * x3) mod N <> 0 /\ (x1 * x1 - x4 * x4) mod N <> 0 /\
       (x2 * x2 - x3 * x3) mod N <> 0 /\ (x2 * x2 - x4 * x4) mod N <> 0 /\ (x3 * x3 - x4 * x4) mod N <> 0) /\
      GoodTree N k' t1 /\ GoodTree N k' t2 /\ GoodTree N k' t3 /\ GoodTree N k' t4
  | _, _ => False
  end.

(** The proofs in a tree: rounds (L, R, challenge) and final scalars *)
Fixpoint proofs {A} (t : Tree A) : list (list (A * A * Z) * (Z * Z)) :=
  match t with
  | Leaf a b => [([], (a, b))]
  | Node L R x1 t1 x2 t2 x3 t3 x4 t4 =>
      map (fun p => ((L, R, x1) :: fst p, snd p)) (proofs t1) ++ map (fun p => ((L, R, x2) :: fst p, snd p)) (proofs t2) ++
      map (fun p => ((L, R, x3) :: fst p, snd p)) (proofs t3) ++ map (fun p => ((L, R, x4) :: fst p, snd p)) (proofs t4)
  end.

(** Verify accepts the proof, for some hash functions that answer with the given challenges *)
Definition Accepted (G : Grp) (Gg Hh : list (E G)) (u P : E G) (c x : Z) (p : list (E G * E G * Z) * (Z * Z)) : Prop :=
  exists HO : Oracles,
    hashIP G HO Gg (map Some Hh) P (Some c) = Ok x /\
    (forall L R y, In (L, R, y) (fst p) -> fst (HashBP G HO L R) = y) /\
    ipVerify G HO (mkIPProof P (Some c) (Some (fst (snd p))) (Some (snd (snd p)))
                     (map (fun q => fst (fst q)) (fst p)) (map (fun q => Some (snd (fst q))) (fst p))
                     (mkIPParams Gg (map Some Hh) u)) = Ok true.

(** ** The extractor *)
Definition evec : Type := ((nat -> Z) * (nat -> Z) * Z)%type.
Definition inv0 (N x : Z) : Z := match modInverse x N with Some i => i | None => 0 end.
Definition ecomb3 (s1 : Z) (e1 : evec) (s2 : Z) (e2 : evec) (s3 : Z) (e3 : evec) : evec :=
  let '(g1, h1, c1) := e1 in let '(g2, h2, c2) := e2 in let '(g3, h3, c3) := e3 in
  ((fun j => s1 * g1 j + s2 * g2 j + s3 * g3 j), (fun j => s1 * h1 j + s2 * h2 j + s3 * h3 j), s1 * c1 + s2 * c2 + s3 * c3).
Definition esub (e1 e2 : evec) : evec :=
  let '(g1, h1, c1) := e1 in let '(g2, h2, c2) := e2 in ((fun j => g1 j - g2 j), (fun j => h1 j - h2 j), c1 - c2).
Definition ezero (N : Z) (n : nat) (e : evec) : bool :=
  let '(g, h, c) := e in
  forallb (fun j => (g j mod N =? 0) && (h j mod N =? 0)) (seq 0 n) && (c mod N =? 0).
(** exponents over the folded generators, as exponents over the original 2m ones *)
Definition unfoldE (N : Z) (m : nat) (x : Z) (e : evec) : evec :=
  let '(g, h, c) := e in let i := inv0 N x in
  ((fun j => if Nat.ltb j m then i * g j else x * g (j - m)%nat), (fun j => if Nat.ltb j m then x * h j else i * h (j - m)%nat), c).
Definition openE (m : nat) (ab : (nat -> Z) * (nat -> Z)) : evec := (fst ab, snd ab, zsum m (fun j => fst ab j * snd ab j)).

Definition nodeE (N : Z) (m : nat) (x1 x2 x3 x4 : Z) (w1 w2 w3 w4 : (nat -> Z) * (nat -> Z))
  : ((nat -> Z) * (nat -> Z)) + evec :=
  let e1 := unfoldE N m x1 (openE m w1) in let e2 := unfoldE N m x2 (openE m w2) in
  let e3 := unfoldE N m x3 (openE m w3) in let e4 := unfoldE N m x4 (openE m w4) in
  let X1 := x1 * x1 in let X2 := x2 * x2 in let X3 := x3 * x3 in
  let a := inv0 N (X1 - X2) in let b := inv0 N (X1 - X3) in let c := inv0 N (X2 - X3) in
  let d1 := a * b in let d2 := - (a * c) in let d3 := b * c in
  let eL := ecomb3 (d1 * X1) e1 (d2 * X2) e2 (d3 * X3) e3 in
  let eP := ecomb3 (- (d1 * X1 * (X2 + X3))) e1 (- (d2 * X2 * (X1 + X3))) e2 (- (d3 * X3 * (X1 + X2))) e3 in
  let eR := ecomb3 (d1 * X1 * (X2 * X3)) e1 (d2 * X2 * (X1 * X3)) e2 (d3 * X3 * (X1 * X2)) e3 in
  let i4 := inv0 N x4 in
  let rel := esub e4 (ecomb3 (x4 * x4) eL 1 eP (i4 * i4) eR) in
  if ezero N (m + m) rel then inl (fst (fst eP), snd (fst eP)) else inr rel.

Fixpoint extract (N : Z) (k : nat) (t : Tree unit) : ((nat -> Z) * (nat -> Z)) + evec :=
  match k, t with
  | S k', Node _ _ x1 t1 x2 t2 x3 t3 x4 t4 =>
      let m := (2 ^ k')%nat in
      match extract N k' t1, extract N k' t2, extract N k' t3, extract N k' t4 with
      | inl w1, inl w2, inl w3, inl w4 => nodeE N m x1 x2 x3 x4 w1 w2 w3 w4
      | inr r, _, _, _ => inr (unfoldE N m x1 r)
      | _, inr r, _, _ => inr (unfoldE N m x2 r)
      | _, _, inr r, _ => inr (unfoldE N m x3 r)
      | _, _, _, inr r => inr (unfoldE N m x4 r)
      end
  | _, Leaf a b => inl (fun _ => a, fun _ => b)
  | O, Node _ _ _ _ _ _ _ _ _ _ => inl (fun _ => 0, fun _ => 0)
  end.

Definition scaleU (x : Z) (e : evec) : evec := (fst e, x * snd e).
(** from two trees, for two answers x, x' of the first hash *)
Definition extractIP (N : Z) (k : nat) (c x x' : Z) (t t' : Tree unit) : ((nat -> Z) * (nat -> Z)) + evec :=
  let n := (2 ^ k)%nat in
  match extract N k t, extract N k t' with
  | inr r, _ => inr (scaleU x r)
  | _, inr r => inr (scaleU x' r)
  | inl w, inl w' =>
      let s := zsum n (fun j => fst w j * snd w j) in let s' := zsum n (fun j => fst w' j * snd w' j) in
      let rel := esub (fst w, snd w, x * s - x * c) (fst w', snd w', x' * s' - x' * c) in
      if ezero N n rel then inl w else inr rel
  end.

Section KS.
Context (G : Grp) (HL : GrpLaws G) (Hpr : prime (gN G)).
Local Notation E := (E G).
Local Notation N := (gN G).
Local Notation gs := (gsum (G:=G)).

Definition Com (n : nat) (g h : nat -> E) (u : E) (e : evec) : E :=
  gAdd G (gs n (fun j => gAdd G (gScale G (g j) (fst (fst e) j)) (gScale G (h j) (snd (fst e) j)))) (gScale G u (snd e)).
Definition ENonzero (n : nat) (e : evec) : Prop :=
  (exists j, (j < n)%nat /\ fst (fst e) j mod N <> 0) \/ (exists j, (j < n)%nat /\ snd (fst e) j mod N <> 0) \/ snd e mod N <> 0.

Lemma gcd1 : forall x, x mod N <> 0 -> Z.gcd x N = 1.
Proof. intros. apply prime_gcd1; assumption. Qed.
Lemma inv0_ok : forall x, x mod N <> 0 -> eqm N (x * inv0 N x) 1.
Proof.
  intros x Hx. pose proof (l_order G HL) as HN. destruct (modInverse_ex _ _ HN (gcd1 x Hx)) as (i & Hi & _ & H).
  unfold inv0. rewrite Hi. apply eqm_inv1; assumption.
Qed.
Lemma cancel : forall c a b, c mod N <> 0 -> eqm N (c * a) (c * b) -> eqm N a b.
Proof. intros c a b Hc. apply eqm_cancel; [apply (l_order G HL)|apply gcd1; exact Hc]. Qed.
Lemma cancel0 : forall c a, c mod N <> 0 -> eqm N (c * a) 0 -> eqm N a 0.
Proof. intros c a Hc H. apply (cancel c); [exact Hc|]. rewrite H. apply eqm_of_eq. ring. Qed.
Lemma mul_nz : forall a b, a mod N <> 0 -> b mod N <> 0 -> (a * b) mod N <> 0.
Proof.
  intros a b Ha Hb H. apply eqm_mod0 in H. apply (eqm_prime_mul0 _ _ _ Hpr) in H. destruct H as [H|H]; apply eqm_mod0 in H; contradiction.
Qed.

(** ** Interpolation *)
Section Lagrange.
Context (X1 X2 X3 a b c : Z) (Ha : eqm N ((X1 - X2) * a) 1) (Hb : eqm N ((X1 - X3) * b) 1) (Hc : eqm N ((X2 - X3) * c) 1).
Lemma lag : forall f1 f2 f3 r, f1 * (X2 - X3) - f2 * (X1 - X3) + f3 * (X1 - X2) = r * ((X1 - X2) * (X1 - X3) * (X2 - X3)) ->
  eqm N (f1 * (a * b) + f2 * (- (a * c)) + f3 * (b * c)) r.
Proof.
  intros f1 f2 f3 r Hr.
  transitivity (f1 * (a * b) * ((X2 - X3) * c) + f2 * (- (a * c)) * ((X1 - X3) * b) + f3 * (b * c) * ((X1 - X2) * a)).
  { rewrite Ha, Hb, Hc. apply eqm_of_eq. ring. }
  transitivity ((f1 * (X2 - X3) - f2 * (X1 - X3) + f3 * (X1 - X2)) * (a * b * c)); [apply eqm_of_eq; ring|].
  rewrite Hr. transitivity (r * (((X1 - X2) * a) * ((X1 - X3) * b) * ((X2 - X3) * c))); [apply eqm_of_eq; ring|].
  rewrite Ha, Hb, Hc. apply eqm_of_eq. ring.
Qed.
End Lagrange.

(** A cubic with four distinct roots modulo a prime is zero *)
Lemma cubic4 : forall X1 X2 X3 X4 c0 c1 c2 c3,
  (X1 - X2) mod N <> 0 -> (X1 - X3) mod N <> 0 -> (X1 - X4) mod N <> 0 ->
  (X2 - X3) mod N <> 0 -> (X2 - X4) mod N <> 0 -> (X3 - X4) mod N <> 0 ->
  (forall X, X = X1 \/ X = X2 \/ X = X3 \/ X = X4 -> eqm N (c3 * (X * X * X) + c2 * (X * X) + c1 * X + c0) 0) ->
  eqm N c0 0 /\ eqm N c1 0 /\ eqm N c2 0 /\ eqm N c3 0.
Proof.
  intros X1 X2 X3 X4 c0 c1 c2 c3 H12 H13 H14 H23 H24 H34 HP.
  pose proof (HP X1 ltac:(tauto)) as P1. pose proof (HP X2 ltac:(tauto)) as P2.
  pose proof (HP X3 ltac:(tauto)) as P3. pose proof (HP X4 ltac:(tauto)) as P4.
  assert (Hd : forall Y Z, (Y - Z) mod N <> 0 -> eqm N (c3 * (Y * Y * Y) + c2 * (Y * Y) + c1 * Y + c0) 0 ->
     eqm N (c3 * (Z * Z * Z) + c2 * (Z * Z) + c1 * Z + c0) 0 -> eqm N (c3 * (Y * Y + Y * Z + Z * Z) + c2 * (Y + Z) + c1) 0).
  { intros Y Z HYZ HY HZ. apply (cancel0 (Y - Z)); [exact HYZ|].
    transitivity ((c3 * (Y * Y * Y) + c2 * (Y * Y) + c1 * Y + c0) - (c3 * (Z * Z * Z) + c2 * (Z * Z) + c1 * Z + c0)); [apply eqm_of_eq; ring|].
    rewrite HY, HZ. reflexivity. }
  pose proof (Hd X1 X2 H12 P1 P2) as D12. pose proof (Hd X1 X3 H13 P1 P3) as D13. pose proof (Hd X1 X4 H14 P1 P4) as D14.
  assert (D123 : eqm N (c3 * (X1 + X2 + X3) + c2) 0).
  { apply (cancel0 (X2 - X3)); [exact H23|].
    transitivity ((c3 * (X1 * X1 + X1 * X2 + X2 * X2) + c2 * (X1 + X2) + c1) - (c3 * (X1 * X1 + X1 * X3 + X3 * X3) + c2 * (X1 + X3) + c1)); [apply eqm_of_eq; ring|].
    rewrite D12, D13. reflexivity. }
  assert (D124 : eqm N (c3 * (X1 + X2 + X4) + c2) 0).
  { apply (cancel0 (X2 - X4)); [exact H24|].
    transitivity ((c3 * (X1 * X1 + X1 * X2 + X2 * X2) + c2 * (X1 + X2) + c1) - (c3 * (X1 * X1 + X1 * X4 + X4 * X4) + c2 * (X1 + X4) + c1)); [apply eqm_of_eq; ring|].
    rewrite D12, D14. reflexivity. }
  assert (C3 : eqm N c3 0).
  { apply (cancel0 (X3 - X4)); [exact H34|].
    transitivity ((c3 * (X1 + X2 + X3) + c2) - (c3 * (X1 + X2 + X4) + c2)); [apply eqm_of_eq; ring|]. rewrite D123, D124. reflexivity. }
  assert (C2 : eqm N c2 0).
  { transitivity ((c3 * (X1 + X2 + X3) + c2) - c3 * (X1 + X2 + X3)); [apply eqm_of_eq; ring|]. rewrite D123, C3. apply eqm_of_eq. ring. }
  assert (C1 : eqm N c1 0).
  { transitivity ((c3 * (X1 * X1 + X1 * X2 + X2 * X2) + c2 * (X1 + X2) + c1) - (c3 * (X1 * X1 + X1 * X2 + X2 * X2) + c2 * (X1 + X2))); [apply eqm_of_eq; ring|].
    rewrite D12, C3, C2. apply eqm_of_eq. ring. }
  split; [|split; [exact C1|split; assumption]].
  transitivity ((c3 * (X1 * X1 * X1) + c2 * (X1 * X1) + c1 * X1 + c0) - (c3 * (X1 * X1 * X1) + c2 * (X1 * X1) + c1 * X1)); [apply eqm_of_eq; ring|].
  rewrite P1, C1, C2, C3. apply eqm_of_eq. ring.
Qed.

(** ** Linearity of commitments *)
Lemma Com_comb3 : forall n g h u s1 e1 s2 e2 s3 e3,
  Com n g h u (ecomb3 s1 e1 s2 e2 s3 e3) =
  gAdd G (gAdd G (gScale G (Com n g h u e1) s1) (gScale G (Com n g h u e2) s2)) (gScale G (Com n g h u e3) s3).
Proof.
  intros n g h u s1 [[g1 h1] c1] s2 [[g2 h2] c2] s3 [[g3 h3] c3]. unfold Com, ecomb3. cbn [fst snd].
  set (S1 := gs n (fun j => gAdd G (gScale G (g j) (g1 j)) _)). set (S2 := gs n (fun j => gAdd G (gScale G (g j) (g2 j)) _)).
  set (S3 := gs n (fun j => gAdd G (gScale G (g j) (g3 j)) _)).
  assert (HS : gs n (fun j => gAdd G (gScale G (g j) (s1 * g1 j + s2 * g2 j + s3 * g3 j)) (gScale G (h j) (s1 * h1 j + s2 * h2 j + s3 * h3 j)))
    = gAdd G (gAdd G (gScale G S1 s1) (gScale G S2 s2)) (gScale G S3 s3)).
  { unfold S1, S2, S3. rewrite <- !(gsum_scale HL), <- !(gsum_add HL). apply gsum_ext. intros j _. glin HL. }
  rewrite HS. glin HL.
Qed.
Lemma Com_sub : forall n g h u e1 e2, Com n g h u (esub e1 e2) = gSub G (Com n g h u e1) (Com n g h u e2).
Proof.
  intros n g h u [[g1 h1] c1] [[g2 h2] c2]. unfold Com, esub. cbn [fst snd].
  set (S1 := gs n (fun j => gAdd G (gScale G (g j) (g1 j)) _)). set (S2 := gs n (fun j => gAdd G (gScale G (g j) (g2 j)) _)).
  assert (HS : gs n (fun j => gAdd G (gScale G (g j) (g1 j - g2 j)) (gScale G (h j) (h1 j - h2 j))) = gSub G S1 S2).
  { unfold S1, S2. rewrite (l_sub G HL), <- (gsum_neg HL), <- (gsum_add HL). apply gsum_ext. intros j _. glin HL. }
  rewrite HS. glin HL.
Qed.

Lemma ezero_false : forall n e, ezero N n e = false -> ENonzero n e.
Proof.
  intros n [[g h] c] H. unfold ezero in H. unfold ENonzero. cbn [fst snd]. apply andb_false_iff in H. destruct H as [H|H].
  - assert (Hx : exists j, In j (seq 0 n) /\ (g j mod N =? 0) && (h j mod N =? 0) = false).
    { revert H. generalize (seq 0 n). induction l as [|j l IH]; intros H; [discriminate|]. cbn [forallb] in H.
      destruct ((g j mod N =? 0) && (h j mod N =? 0)) eqn:Hj; [|exists j; split; [left; reflexivity|exact Hj]].
      destruct (IH H) as (j' & Hin & Hj'). exists j'. split; [right; exact Hin|exact Hj']. }
    destruct Hx as (j & Hin & Hj). apply in_seq in Hin. apply andb_false_iff in Hj. destruct Hj as [Hj|Hj]; apply Z.eqb_neq in Hj.
    + left. exists j. split; [lia|exact Hj].
    + right. left. exists j. split; [lia|exact Hj].
  - apply Z.eqb_neq in H. right. right. exact H.
Qed.
Lemma ezero_true : forall n e, ezero N n e = true ->
  (forall j, (j < n)%nat -> eqm N (fst (fst e) j) 0) /\ (forall j, (j < n)%nat -> eqm N (snd (fst e) j) 0) /\ eqm N (snd e) 0.
Proof.
  intros n [[g h] c] H. unfold ezero in H. cbn [fst snd]. apply andb_prop in H. destruct H as [H Hc]. apply Z.eqb_eq in Hc.
  rewrite forallb_forall in H.
  assert (Hj : forall j, (j < n)%nat -> g j mod N = 0 /\ h j mod N = 0).
  { intros j Hj. specialize (H j ltac:(apply in_seq; lia)). apply andb_prop in H. rewrite !Z.eqb_eq in H. exact H. }
  split; [|split]; [intros j Hj'; apply eqm_mod0; apply Hj; exact Hj'..|apply eqm_mod0; exact Hc].
Qed.

(** ** Folded generators *)
Definition foldG (m : nat) (x : Z) (g : nat -> E) (j : nat) : E := gAdd G (gScale G (g j) (inv0 N x)) (gScale G (g (m + j)%nat) x).
Definition foldH (m : nat) (x : Z) (h : nat -> E) (j : nat) : E := gAdd G (gScale G (h j) x) (gScale G (h (m + j)%nat) (inv0 N x)).

Lemma Com_unfold : forall m x g h u e, Com (m + m) g h u (unfoldE N m x e) = Com m (foldG m x g) (foldH m x h) u e.
Proof.
  intros m x g h u [[ga ha] c]. unfold Com, unfoldE, foldG, foldH. cbn [fst snd]. f_equal.
  rewrite (gsum_app HL).
  rewrite (gsum_ext m _ (fun j => gAdd G (gScale G (g j) (inv0 N x * ga j)) (gScale G (h j) (x * ha j)))).
  2:{ intros j Hj. rewrite (proj2 (Nat.ltb_lt _ _) Hj). reflexivity. }
  rewrite (gsum_ext m (fun i => gAdd G (gScale G (g (m + i)%nat) _) _)
             (fun j => gAdd G (gScale G (g (m + j)%nat) (x * ga j)) (gScale G (h (m + j)%nat) (inv0 N x * ha j)))).
  2:{ intros j Hj. replace (Nat.ltb (m + j) m) with false by (symmetry; apply Nat.ltb_ge; lia).
      replace (m + j - m)%nat with j by lia. reflexivity. }
  rewrite <- (gsum_add HL). apply gsum_ext. intros j _. glin HL.
Qed.
Lemma ENonzero_unfold : forall m x e, x mod N <> 0 -> ENonzero m e -> ENonzero (m + m) (unfoldE N m x e).
Proof.
  intros m x [[ga ha] c] Hx H. unfold ENonzero, unfoldE in *. cbn [fst snd] in *. destruct H as [(j & Hj & H)|[(j & Hj & H)|H]].
  - left. exists (m + j)%nat. split; [lia|]. replace (Nat.ltb (m + j) m) with false by (symmetry; apply Nat.ltb_ge; lia).
    replace (m + j - m)%nat with j by lia. apply mul_nz; assumption.
  - right. left. exists j. split; [lia|]. rewrite (proj2 (Nat.ltb_lt _ _) Hj). apply mul_nz; assumption.
  - right. right. exact H.
Qed.

Definition Result (n : nat) (g h : nat -> E) (u P : E) (r : ((nat -> Z) * (nat -> Z)) + evec) : Prop :=
  match r with
  | inl w => P = Com n g h u (openE n w)
  | inr e => Com n g h u e = gId G /\ ENonzero n e
  end.

Lemma sq_nz : forall x, x mod N <> 0 -> eqm N (x * x * (inv0 N x * inv0 N x)) 1.
Proof.
  intros x Hx. transitivity ((x * inv0 N x) * (x * inv0 N x)); [apply eqm_of_eq; ring|]. rewrite (inv0_ok x Hx). reflexivity.
Qed.

Definition pts (x1 y1 x2 y2 x3 y3 x4 y4 : Z) : list (Z * Z) := [(x1, y1); (x2, y2); (x3, y3); (x4, y4)].
(** the value at challenge x is X L + P + 1/X R, times X = x^2 *)
Definition OnCurve (L P R : Z) (p : Z * Z) : Prop :=
  let X := fst p * fst p in eqm N (X * snd p) (X * X * L + X * P + R).

Section Node.
Context (x1 x2 x3 x4 : Z) (Z1 : x1 mod N <> 0) (Z2 : x2 mod N <> 0) (Z3 : x3 mod N <> 0) (Z4 : x4 mod N <> 0)
  (H12 : (x1 * x1 - x2 * x2) mod N <> 0) (H13 : (x1 * x1 - x3 * x3) mod N <> 0) (H14 : (x1 * x1 - x4 * x4) mod N <> 0)
  (H23 : (x2 * x2 - x3 * x3) mod N <> 0) (H24 : (x2 * x2 - x4 * x4) mod N <> 0) (H34 : (x3 * x3 - x4 * x4) mod N <> 0).
Local Notation a := (inv0 N (x1 * x1 - x2 * x2)).
Local Notation b := (inv0 N (x1 * x1 - x3 * x3)).
Local Notation c := (inv0 N (x2 * x2 - x3 * x3)).
Local Notation X1 := (x1 * x1). Local Notation X2 := (x2 * x2). Local Notation X3 := (x3 * x3).

Lemma quad4 : forall A B C A' B' C' (y1 y2 y3 y4 : Z),
  Forall (OnCurve A B C) (pts x1 y1 x2 y2 x3 y3 x4 y4) -> Forall (OnCurve A' B' C') (pts x1 y1 x2 y2 x3 y3 x4 y4) -> eqm N B B'.
Proof.
  intros A B C A' B' C' y1 y2 y3 y4 H H'. unfold pts in *.
  destruct (cubic4 X1 X2 X3 (x4 * x4) (C - C') (B - B') (A - A') 0) as (_ & A1 & _); try assumption.
  - inversion_clear H as [|? ? P1 H2]. inversion_clear H2 as [|? ? P2 H3]. inversion_clear H3 as [|? ? P3 H4]. inversion_clear H4 as [|? ? P4 _].
    inversion_clear H' as [|? ? P1' H2]. inversion_clear H2 as [|? ? P2' H3]. inversion_clear H3 as [|? ? P3' H4]. inversion_clear H4 as [|? ? P4' _].
    unfold OnCurve in *. cbn [fst snd] in *.
    assert (HX : forall X y, eqm N (X * y) (X * X * A + X * B + C) -> eqm N (X * y) (X * X * A' + X * B' + C') ->
      eqm N (0 * (X * X * X) + (A - A') * (X * X) + (B - B') * X + (C - C')) 0).
    { intros X y Q Q'. transitivity ((X * X * A + X * B + C) - (X * X * A' + X * B' + C')); [apply eqm_of_eq; ring|].
      rewrite <- Q, <- Q'. apply eqm_of_eq. ring. }
    intros X [->|[->|[->| ->]]]; eapply HX; eassumption.
  - transitivity ((B - B') + B'); [apply eqm_of_eq; ring|]. rewrite A1. reflexivity.
Qed.

(** Values before and after multiplication by X, both interpolated *)
Lemma coord : forall y1 y2 y3 y4 L1 P1 R1 L2 P2 R2,
  Forall (OnCurve L1 P1 R1) (pts x1 (inv0 N x1 * y1) x2 (inv0 N x2 * y2) x3 (inv0 N x3 * y3) x4 (inv0 N x4 * y4)) ->
  Forall (OnCurve L2 P2 R2) (pts x1 (x1 * y1) x2 (x2 * y2) x3 (x3 * y3) x4 (x4 * y4)) ->
  Forall (fun p => eqm N (snd p) (fst p * P1 + inv0 N (fst p) * P2)) (pts x1 y1 x2 y2 x3 y3 x4 y4).
Proof.
  intros y1 y2 y3 y4 L1 P1 R1 L2 P2 R2 H H'. unfold pts in *.
  inversion_clear H as [|? ? Q1 H2]. inversion_clear H2 as [|? ? Q2 H3]. inversion_clear H3 as [|? ? Q3 H4]. inversion_clear H4 as [|? ? Q4 _].
  inversion_clear H' as [|? ? Q1' H2]. inversion_clear H2 as [|? ? Q2' H3]. inversion_clear H3 as [|? ? Q3' H4]. inversion_clear H4 as [|? ? Q4' _].
  unfold OnCurve in *. cbn [fst snd] in *.
  assert (HX : forall x y, x mod N <> 0 -> eqm N (x * x * (inv0 N x * y)) (x * x * (x * x) * L1 + x * x * P1 + R1) ->
    eqm N (x * x * (x * y)) (x * x * (x * x) * L2 + x * x * P2 + R2) ->
    eqm N (L1 * (x * x * (x * x) * (x * x)) + (P1 - L2) * (x * x * (x * x)) + (R1 - P2) * (x * x) + - R2) 0).
  { intros x y Hz Ha Hb.
    transitivity (x * x * (x * x * (x * x) * L1 + x * x * P1 + R1) - (x * x * (x * x) * L2 + x * x * P2 + R2)); [apply eqm_of_eq; ring|].
    rewrite <- Ha, <- Hb.
    transitivity (x * x * x * y * (x * inv0 N x) - x * x * x * y); [apply eqm_of_eq; ring|]. rewrite (inv0_ok x Hz). apply eqm_of_eq. ring. }
  destruct (cubic4 X1 X2 X3 (x4 * x4) (- R2) (R1 - P2) (P1 - L2) L1) as (A0 & A1 & A2 & A3); try assumption.
  { intros X [->|[->|[->| ->]]]; eapply HX; eassumption. }
  assert (B1 : eqm N R1 P2) by (transitivity ((R1 - P2) + P2); [apply eqm_of_eq; ring|]; rewrite A1; reflexivity).
  assert (HY : forall x y, x mod N <> 0 -> eqm N (x * x * (inv0 N x * y)) (x * x * (x * x) * L1 + x * x * P1 + R1) ->
     eqm N y (x * P1 + inv0 N x * P2)).
  { intros x y Hz Ha. apply (cancel x); [exact Hz|].
    transitivity (x * y * (x * inv0 N x)); [rewrite (inv0_ok x Hz); apply eqm_of_eq; ring|].
    transitivity (x * x * (inv0 N x * y)); [apply eqm_of_eq; ring|]. rewrite Ha, A3, B1.
    transitivity (x * x * P1 + (x * inv0 N x) * P2); [rewrite (inv0_ok x Hz)|]; apply eqm_of_eq; ring. }
  repeat constructor; cbn [fst snd]; apply HY; assumption.
Qed.

Let d1 := a * b. Let d2 := - (a * c). Let d3 := b * c.
Definition cL y1 y2 y3 := d1 * X1 * y1 + d2 * X2 * y2 + d3 * X3 * y3.
Definition cP y1 y2 y3 := - (d1 * X1 * (X2 + X3)) * y1 + - (d2 * X2 * (X1 + X3)) * y2 + - (d3 * X3 * (X1 + X2)) * y3.
Definition cR y1 y2 y3 := d1 * X1 * (X2 * X3) * y1 + d2 * X2 * (X1 * X3) * y2 + d3 * X3 * (X1 * X2) * y3.

Lemma lagN : forall f1 f2 f3 r, f1 * (X2 - X3) - f2 * (X1 - X3) + f3 * (X1 - X2) = r * ((X1 - X2) * (X1 - X3) * (X2 - X3)) ->
  eqm N (f1 * d1 + f2 * d2 + f3 * d3) r.
Proof. intros. apply (lag X1 X2 X3 a b c); try (apply inv0_ok; assumption). assumption. Qed.

Lemma interp : forall y1 y2 y3 y4,
  eqm N (y4 - (x4 * x4 * cL y1 y2 y3 + 1 * cP y1 y2 y3 + inv0 N x4 * inv0 N x4 * cR y1 y2 y3)) 0 ->
  Forall (OnCurve (cL y1 y2 y3) (cP y1 y2 y3) (cR y1 y2 y3)) (pts x1 y1 x2 y2 x3 y3 x4 y4).
Proof.
  intros y1 y2 y3 y4 H4. unfold pts. constructor; [|constructor; [|constructor; [|constructor; [|constructor]]]]; unfold OnCurve; cbn [fst snd].
  - symmetry. transitivity ((X1 * y1 * (X1 * X1 - X1 * (X2 + X3) + X2 * X3)) * d1 + 0 * d2 + 0 * d3); [apply eqm_of_eq; unfold cL, cP, cR; ring|].
    apply lagN. ring.
  - symmetry. transitivity (0 * d1 + (X2 * y2 * (X2 * X2 - X2 * (X1 + X3) + X1 * X3)) * d2 + 0 * d3); [apply eqm_of_eq; unfold cL, cP, cR; ring|].
    apply lagN. ring.
  - symmetry. transitivity (0 * d1 + 0 * d2 + (X3 * y3 * (X3 * X3 - X3 * (X1 + X2) + X1 * X2)) * d3); [apply eqm_of_eq; unfold cL, cP, cR; ring|].
    apply lagN. ring.
  - generalize dependent (cL y1 y2 y3). generalize dependent (cP y1 y2 y3). generalize dependent (cR y1 y2 y3). intros R P L H4.
    transitivity (x4 * x4 * (y4 - (x4 * x4 * L + 1 * P + inv0 N x4 * inv0 N x4 * R)) + (x4 * x4 * (x4 * x4) * L + x4 * x4 * P + (x4 * x4 * (inv0 N x4 * inv0 N x4)) * R)); [apply eqm_of_eq; ring|].
    rewrite H4, (sq_nz x4 Z4). apply eqm_of_eq. ring.
Qed.

(** the statement of a child *)
Definition childP (P L R : E) (x : Z) : E := gAdd G (gAdd G P (gScale G L (x * x))) (gScale G R (inv0 N x * inv0 N x)).

Lemma comb_children : forall P L R s1 s2 s3 l p r,
  eqm N (s1 * X1 + s2 * X2 + s3 * X3) l -> eqm N (s1 + s2 + s3) p ->
  eqm N (s1 * (inv0 N x1 * inv0 N x1) + s2 * (inv0 N x2 * inv0 N x2) + s3 * (inv0 N x3 * inv0 N x3)) r ->
  gAdd G (gAdd G (gScale G (childP P L R x1) s1) (gScale G (childP P L R x2) s2)) (gScale G (childP P L R x3) s3)
  = gAdd G (gAdd G (gScale G P p) (gScale G L l)) (gScale G R r).
Proof.
  intros P L R s1 s2 s3 l p r Hl Hp Hr. rewrite <- (scale_eqm HL P _ _ Hp), <- (scale_eqm HL L _ _ Hl), <- (scale_eqm HL R _ _ Hr).
  unfold childP. glin HL.
Qed.

Lemma node_ok : forall m g h u P L R w1 w2 w3 w4,
  childP P L R x1 = Com m (foldG m x1 g) (foldH m x1 h) u (openE m w1) ->
  childP P L R x2 = Com m (foldG m x2 g) (foldH m x2 h) u (openE m w2) ->
  childP P L R x3 = Com m (foldG m x3 g) (foldH m x3 h) u (openE m w3) ->
  childP P L R x4 = Com m (foldG m x4 g) (foldH m x4 h) u (openE m w4) ->
  Result (m + m) g h u P (nodeE N m x1 x2 x3 x4 w1 w2 w3 w4).
Proof.
  intros m g h u P L R w1 w2 w3 w4 C1 C2 C3 C4. rewrite <- Com_unfold in C1, C2, C3, C4.
  unfold nodeE. cbn zeta. fold d1 d2 d3.
  set (e1 := unfoldE N m x1 (openE m w1)) in *. set (e2 := unfoldE N m x2 (openE m w2)) in *.
  set (e3 := unfoldE N m x3 (openE m w3)) in *. set (e4 := unfoldE N m x4 (openE m w4)) in *.
  set (eL := ecomb3 (d1 * X1) e1 (d2 * X2) e2 (d3 * X3) e3).
  set (eP := ecomb3 (- (d1 * X1 * (X2 + X3))) e1 _ e2 _ e3).
  set (eR := ecomb3 (d1 * X1 * (X2 * X3)) e1 _ e2 _ e3).
  assert (HXi : forall s1 s2 s3, eqm N (s1 * X1 * (inv0 N x1 * inv0 N x1) + s2 * X2 * (inv0 N x2 * inv0 N x2) + s3 * X3 * (inv0 N x3 * inv0 N x3)) (s1 + s2 + s3)).
  { intros s1 s2 s3. transitivity (s1 * (X1 * (inv0 N x1 * inv0 N x1)) + s2 * (X2 * (inv0 N x2 * inv0 N x2)) + s3 * (X3 * (inv0 N x3 * inv0 N x3))); [apply eqm_of_eq; ring|].
    rewrite !sq_nz by assumption. apply eqm_of_eq. ring. }
  assert (EL : Com (m + m) g h u eL = L).
  { unfold eL. rewrite Com_comb3, <- C1, <- C2, <- C3, (comb_children P L R _ _ _ 1 0 0); [glin HL| | |].
    - transitivity (X1 * X1 * d1 + X2 * X2 * d2 + X3 * X3 * d3); [apply eqm_of_eq; ring|]. apply lagN. ring.
    - transitivity (X1 * d1 + X2 * d2 + X3 * d3); [apply eqm_of_eq; ring|]. apply lagN. ring.
    - rewrite HXi. transitivity (1 * d1 + 1 * d2 + 1 * d3); [apply eqm_of_eq; ring|]. apply lagN. ring. }
  assert (EP : Com (m + m) g h u eP = P).
  { unfold eP. rewrite Com_comb3, <- C1, <- C2, <- C3, (comb_children P L R _ _ _ 0 1 0); [glin HL| | |].
    - transitivity ((- (X1 * (X2 + X3)) * X1) * d1 + (- (X2 * (X1 + X3)) * X2) * d2 + (- (X3 * (X1 + X2)) * X3) * d3); [apply eqm_of_eq; ring|]. apply lagN. ring.
    - transitivity (- (X1 * (X2 + X3)) * d1 + - (X2 * (X1 + X3)) * d2 + - (X3 * (X1 + X2)) * d3); [apply eqm_of_eq; ring|]. apply lagN. ring.
    - transitivity ((- (d1 * (X2 + X3))) * X1 * (inv0 N x1 * inv0 N x1) + (- (d2 * (X1 + X3))) * X2 * (inv0 N x2 * inv0 N x2) + (- (d3 * (X1 + X2))) * X3 * (inv0 N x3 * inv0 N x3)); [apply eqm_of_eq; ring|].
      rewrite HXi. transitivity (- (X2 + X3) * d1 + - (X1 + X3) * d2 + - (X1 + X2) * d3); [apply eqm_of_eq; ring|]. apply lagN. ring. }
  assert (ER : Com (m + m) g h u eR = R).
  { unfold eR. rewrite Com_comb3, <- C1, <- C2, <- C3, (comb_children P L R _ _ _ 0 0 1); [glin HL| | |].
    - transitivity ((X1 * (X2 * X3) * X1) * d1 + (X2 * (X1 * X3) * X2) * d2 + (X3 * (X1 * X2) * X3) * d3); [apply eqm_of_eq; ring|]. apply lagN. ring.
    - transitivity ((X1 * (X2 * X3)) * d1 + (X2 * (X1 * X3)) * d2 + (X3 * (X1 * X2)) * d3); [apply eqm_of_eq; ring|]. apply lagN. ring.
    - transitivity ((d1 * (X2 * X3)) * X1 * (inv0 N x1 * inv0 N x1) + (d2 * (X1 * X3)) * X2 * (inv0 N x2 * inv0 N x2) + (d3 * (X1 * X2)) * X3 * (inv0 N x3 * inv0 N x3)); [apply eqm_of_eq; ring|].
      rewrite HXi. transitivity ((X2 * X3) * d1 + (X1 * X3) * d2 + (X1 * X2) * d3); [apply eqm_of_eq; ring|]. apply lagN. ring. }
  set (rel := esub e4 _). destruct (ezero N (m + m) rel) eqn:Hz; cbn [Result].
  2:{ split; [|apply ezero_false; exact Hz]. unfold rel. rewrite Com_sub, Com_comb3, EL, EP, ER, <- C4. unfold childP. glin HL. }
  destruct (ezero_true _ _ Hz) as (ZG & ZH & ZU). clear Hz.
  assert (IG : forall j, (j < m + m)%nat -> Forall (OnCurve (fst (fst eL) j) (fst (fst eP) j) (fst (fst eR) j))
    (pts x1 (fst (fst e1) j) x2 (fst (fst e2) j) x3 (fst (fst e3) j) x4 (fst (fst e4) j))).
  { intros j Hj. apply interp. exact (ZG j Hj). }
  assert (IH : forall j, (j < m + m)%nat -> Forall (OnCurve (snd (fst eL) j) (snd (fst eP) j) (snd (fst eR) j))
    (pts x1 (snd (fst e1) j) x2 (snd (fst e2) j) x3 (snd (fst e3) j) x4 (snd (fst e4) j))).
  { intros j Hj. apply interp. exact (ZH j Hj). }
  assert (IU : Forall (OnCurve (snd eL) (snd eP) (snd eR)) (pts x1 (snd e1) x2 (snd e2) x3 (snd e3) x4 (snd e4))).
  { apply interp. exact ZU. }
  clear ZG ZH ZU rel.
  assert (Hlo : forall j, (j < m)%nat -> Nat.ltb j m = true) by (intros; apply Nat.ltb_lt; assumption).
  assert (Hhi : forall j, Nat.ltb (m + j) m = false) by (intros; apply Nat.ltb_ge; lia).
  assert (Hsub : forall j, (m + j - m)%nat = j) by (intros; lia).
  assert (WG : forall j, (j < m)%nat -> Forall (fun p => eqm N (snd p) (fst p * fst (fst eP) j + inv0 N (fst p) * fst (fst eP) (m + j)%nat))
     (pts x1 (fst w1 j) x2 (fst w2 j) x3 (fst w3 j) x4 (fst w4 j))).
  { intros j Hj. pose proof (IG j ltac:(lia)) as I1. pose proof (IG (m + j)%nat ltac:(lia)) as I2.
    unfold e1, e2, e3, e4, unfoldE, openE in I1, I2. cbn [fst snd] in I1, I2. rewrite (Hlo j Hj) in I1. rewrite (Hhi j), (Hsub j) in I2.
    exact (coord _ _ _ _ _ _ _ _ _ _ I1 I2). }
  assert (WH : forall j, (j < m)%nat -> Forall (fun p => eqm N (snd p) (fst p * snd (fst eP) (m + j)%nat + inv0 N (fst p) * snd (fst eP) j))
     (pts x1 (snd w1 j) x2 (snd w2 j) x3 (snd w3 j) x4 (snd w4 j))).
  { intros j Hj. pose proof (IH j ltac:(lia)) as I1. pose proof (IH (m + j)%nat ltac:(lia)) as I2.
    unfold e1, e2, e3, e4, unfoldE, openE in I1, I2. cbn [fst snd] in I1, I2. rewrite (Hlo j Hj) in I1. rewrite (Hhi j), (Hsub j) in I2.
    exact (coord _ _ _ _ _ _ _ _ _ _ I2 I1). }
  clearbody eL eP eR.
  assert (HU : Forall (OnCurve (zsum m (fun j => fst (fst eP) j * snd (fst eP) (m + j)%nat))
       (zsum (m + m) (fun j => fst (fst eP) j * snd (fst eP) j))
       (zsum m (fun j => fst (fst eP) (m + j)%nat * snd (fst eP) j)))
     (pts x1 (snd e1) x2 (snd e2) x3 (snd e3) x4 (snd e4))).
  { assert (HUx : forall x (w : (nat -> Z) * (nat -> Z)), x mod N <> 0 ->
      (forall j, (j < m)%nat -> eqm N (fst w j) (x * fst (fst eP) j + inv0 N x * fst (fst eP) (m + j)%nat)) ->
      (forall j, (j < m)%nat -> eqm N (snd w j) (x * snd (fst eP) (m + j)%nat + inv0 N x * snd (fst eP) j)) ->
      OnCurve (zsum m (fun j => fst (fst eP) j * snd (fst eP) (m + j)%nat)) (zsum (m + m) (fun j => fst (fst eP) j * snd (fst eP) j))
       (zsum m (fun j => fst (fst eP) (m + j)%nat * snd (fst eP) j)) (x, snd (openE m w))).
    { intros x w Hx Hg Hh. unfold OnCurve, openE. cbn [fst snd]. rewrite (zsum_app m m), <- zsum_add, <- !zsum_mul_l, <- !zsum_add.
      apply zsum_eqm. intros j Hj. rewrite (Hg j Hj), (Hh j Hj).
      transitivity (x * x * (x * x) * (fst (fst eP) j * snd (fst eP) (m + j)%nat) + x * x * (x * inv0 N x) * (fst (fst eP) j * snd (fst eP) j + fst (fst eP) (m + j)%nat * snd (fst eP) (m + j)%nat) + (x * x * (inv0 N x * inv0 N x)) * (fst (fst eP) (m + j)%nat * snd (fst eP) j)); [apply eqm_of_eq; ring|].
      rewrite (sq_nz x Hx), (inv0_ok x Hx). apply eqm_of_eq. ring. }
    unfold pts in *. constructor; [|constructor; [|constructor; [|constructor; [|constructor]]]].
    - apply HUx; [assumption| |]; intros j Hj; [specialize (WG j Hj)|specialize (WH j Hj)]; rewrite Forall_forall in *; [apply (WG (x1, _))|apply (WH (x1, _))]; cbn; auto.
    - apply HUx; [assumption| |]; intros j Hj; [specialize (WG j Hj)|specialize (WH j Hj)]; rewrite Forall_forall in *; [apply (WG (x2, _))|apply (WH (x2, _))]; cbn; auto.
    - apply HUx; [assumption| |]; intros j Hj; [specialize (WG j Hj)|specialize (WH j Hj)]; rewrite Forall_forall in *; [apply (WG (x3, _))|apply (WH (x3, _))]; cbn; auto.
    - apply HUx; [assumption| |]; intros j Hj; [specialize (WG j Hj)|specialize (WH j Hj)]; rewrite Forall_forall in *; [apply (WG (x4, _))|apply (WH (x4, _))]; cbn; auto 6. }
  pose proof (quad4 _ _ _ _ _ _ _ _ _ _ IU HU) as HB.
  rewrite <- EP at 1. destruct eP as [[gP' hP'] cP']. unfold Com, openE in *. cbn [fst snd] in *. f_equal. apply scale_eqm; assumption.
Qed.
End Node.

(** ** Trees *)
Fixpoint TreeEq (k : nat) (g h : nat -> E) (u P : E) (t : Tree E) : Prop :=
  match k, t with
  | O, Leaf a b => P = Com 1 g h u ((fun _ => a), (fun _ => b), a * b)
  | S k', Node L R x1 t1 x2 t2 x3 t3 x4 t4 =>
      let m := (2 ^ k')%nat in
      let sub x t := TreeEq k' (foldG m x g) (foldH m x h) u (childP P L R x) t in
      sub x1 t1 /\ sub x2 t2 /\ sub x3 t3 /\ sub x4 t4
  | _, _ => False
  end.

Lemma extract_ok : forall k g h u P t, GoodTree N k t -> TreeEq k g h u P t -> Result (2 ^ k) g h u P (extract N k (erase t)).
Proof.
  induction k as [|k IH]; intros g h u P t HG HT.
  - destruct t as [a b|]; [|contradiction]. cbn [erase extract Result]. cbn [TreeEq] in HT. rewrite HT at 1. unfold openE. cbn [fst snd].
    change (2 ^ 0)%nat with 1%nat. unfold Com. cbn [fst snd]. f_equal.
  - destruct t as [|L R x1 t1 x2 t2 x3 t3 x4 t4]; [contradiction|]. cbn [GoodTree] in HG. cbn [TreeEq] in HT.
    destruct HG as ((Z1 & Z2 & Z3 & Z4) & (H12 & H13 & H14 & H23 & H24 & H34) & G1 & G2 & G3 & G4). destruct HT as (T1 & T2 & T3 & T4).
    replace (2 ^ S k)%nat with (2 ^ k + 2 ^ k)%nat by (cbn; lia). cbn [erase extract]. cbn zeta.
    pose proof (IH _ _ _ _ _ G1 T1) as R1. pose proof (IH _ _ _ _ _ G2 T2) as R2.
    pose proof (IH _ _ _ _ _ G3 T3) as R3. pose proof (IH _ _ _ _ _ G4 T4) as R4. clear IH T1 T2 T3 T4.
    assert (Hlift : forall x e, x mod N <> 0 -> Result (2 ^ k) (foldG (2 ^ k) x g) (foldH (2 ^ k) x h) u (childP P L R x) (inr e) ->
       Result (2 ^ k + 2 ^ k) g h u P (inr (unfoldE N (2 ^ k) x e))).
    { intros x e Hx [He Hne]. cbn [Result]. rewrite Com_unfold. split; [exact He|apply ENonzero_unfold; assumption]. }
    destruct (extract N k (erase t1)) as [w1|r1]; [|apply Hlift; assumption].
    destruct (extract N k (erase t2)) as [w2|r2]; [|apply Hlift; assumption].
    destruct (extract N k (erase t3)) as [w3|r3]; [|apply Hlift; assumption].
    destruct (extract N k (erase t4)) as [w4|r4]; [|apply Hlift; assumption].
    cbn [Result] in R1, R2, R3, R4. eapply node_ok; eassumption.
Qed.

(** ** Accepting runs *)
Definition chal (HO : Oracles) (p : list (E * E * Z)) : Prop := forall L R y, In (L, R, y) p -> fst (HashBP G HO L R) = y.
Definition LoopAcc (HO : Oracles) (k : nat) (g h : nat -> E) (ux P : E) (p : list (E * E * Z) * (Z * Z)) : Prop :=
  exists gp hp Pp g0 h0,
    ipVerifyLoop G HO (map (fun q => fst (fst q)) (fst p)) (map (fun q => Some (snd (fst q))) (fst p))
      (tab (2 ^ k) (fun i => Some (g i))) (tab (2 ^ k) (fun i => Some (h i))) (2 ^ k) P = Ok (gp, hp, Pp) /\
    nth_error gp 0 = Some (Some g0) /\ nth_error hp 0 = Some (Some h0) /\
    Pp = gAdd G (gAdd G (gScale G g0 (fst (snd p))) (gScale G h0 (snd (snd p)))) (gScale G ux (fst (snd p) * snd (snd p))).

Lemma runs_tree : forall k g h ux P t, GoodTree N k t ->
  (forall p, In p (proofs t) -> exists HO, chal HO (fst p) /\ LoopAcc HO k g h ux P p) -> TreeEq k g h ux P t.
Proof.
  induction k as [|k IH]; intros g h ux P t HG H.
  - destruct t as [a b|]; [|contradiction]. destruct (H ([], (a, b)) (or_introl eq_refl)) as (HO & _ & gp & hp & Pp & g0 & h0 & HL1 & Hg & Hh & HP).
    cbn in HL1. injection HL1 as <- <- <-. cbn in Hg, Hh. injection Hg as <-. injection Hh as <-. cbn [fst snd] in HP.
    cbn [TreeEq]. rewrite HP. unfold Com. cbn. glin HL.
  - destruct t as [|L R x1 t1 x2 t2 x3 t3 x4 t4]; [contradiction|]. cbn [GoodTree] in HG.
    destruct HG as ((Z1 & Z2 & Z3 & Z4) & _ & G1 & G2 & G3 & G4).
    assert (HX : forall x t', x mod N <> 0 -> GoodTree N k t' ->
      (forall p, In p (proofs t') -> In ((L, R, x) :: fst p, snd p) (proofs (Node L R x1 t1 x2 t2 x3 t3 x4 t4))) ->
      TreeEq k (foldG (2 ^ k) x g) (foldH (2 ^ k) x h) ux (childP P L R x) t').
    { intros x t' Hx HG' Hin. apply IH; [exact HG'|]. intros p Hp. destruct (H _ (Hin p Hp)) as (HO & Hc & gp & hp & Pp & g0 & h0 & Hl & Hg & Hh & HP).
      exists HO. split; [intros L' R' y Hy; apply Hc; right; exact Hy|]. exists gp, hp, Pp, g0, h0. split; [|split; [exact Hg|split; [exact Hh|exact HP]]].
      assert (Hxe : fst (HashBP G HO L R) = x) by (apply Hc; left; reflexivity).
      assert (Hi : modInverse x N = Some (inv0 N x)).
      { destruct (modInverse_ex _ _ (l_order G HL) (gcd1 x Hx)) as (i & Hi & _). unfold inv0. rewrite Hi. reflexivity. }
      destruct (sq_inv G HL _ _ Hi) as (i2 & Hi2 & He2).
      replace (2 ^ S k)%nat with (2 ^ k + 2 ^ k)%nat in Hl by (cbn; lia). cbn [map fst snd] in Hl.
      rewrite (loop_step G HO _ _ _ _ _ _ _ _ (inv0 N x) i2) in Hl by (rewrite Hxe; assumption). rewrite Hxe in Hl.
      rewrite (scale_eqm HL R _ _ He2) in Hl. rewrite (scale_eqm HL L ((x * x) mod N) (x * x)) in Hl by (apply eqm_mod; apply Z.mod_mod; pose proof (l_order G HL); lia).
      exact Hl. }
    cbn [TreeEq]. cbn zeta. repeat split; apply HX; try assumption; intros p Hp; cbn [proofs]; rewrite !in_app_iff.
    + left. apply (in_map (fun p => ((L, R, x1) :: fst p, snd p))). exact Hp.
    + right. left. apply (in_map (fun p => ((L, R, x2) :: fst p, snd p))). exact Hp.
    + do 2 right. left. apply (in_map (fun p => ((L, R, x3) :: fst p, snd p))). exact Hp.
    + do 3 right. apply (in_map (fun p => ((L, R, x4) :: fst p, snd p))). exact Hp.
Qed.

Lemma accepted_run : forall k Gg Hh u P c x p, length Gg = (2 ^ k)%nat -> length Hh = (2 ^ k)%nat ->
  Accepted G Gg Hh u P c x p ->
  exists HO, chal HO (fst p) /\ LoopAcc HO k (fun i => nth i Gg (gId G)) (fun i => nth i Hh (gId G)) (gScale G u x) (gAdd G P (gScale G u (x * c))) p.
Proof.
  intros k Gg Hh u P c x [rs [a b]] LG LH (HO & Hx & Hc & HV). exists HO. split; [exact Hc|]. cbn [fst snd] in *.
  unfold ipVerify in HV. cbn [ipParams ipGg ipHh ipP ipCc ipUu ipL ipR ipA ipB] in HV. rewrite Hx in HV. cbn [bind] in HV.
  unfold computePP in HV. cbn [deref bind] in HV.
  rewrite LG in HV.
  remember (ipVerifyLoop G HO _ _ _ _ _ _) as lp eqn:Hlp in HV. destruct lp as [[[gp hp] Pp]| | |]; try discriminate HV. cbn [bind] in HV.
  unfold idx in HV. destruct (nth_error gp 0) as [[g0|]|] eqn:Hg; try discriminate HV. cbn [deref bind] in HV.
  destruct (nth_error hp 0) as [[h0|]|] eqn:Hh0; try discriminate HV. cbn [deref bind] in HV.
  injection HV as HV. apply (l_isid G HL) in HV.
  exists gp, hp, Pp, g0, h0. cbn [fst snd]. split; [|split; [exact Hg|split; [exact Hh0|]]].
  - rewrite Hlp, <- !(map_tab Some), <- (tab_nth' (gId G) Gg _ LG), <- (tab_nth' (gId G) Hh _ LH). f_equal. glin HL.
  - rewrite (scale_eqm HL _ ((a * b) mod N) (a * b)) in HV by (apply eqm_mod; apply Z.mod_mod; pose proof (l_order G HL); lia).
    transitivity (gAdd G Pp (gId G)); [glin HL|]. rewrite <- HV. glin HL.
Qed.
End KS.

(** P opens to (a, b) under generators Gg, Hh *)
Definition Opens (G : Grp) (Gg Hh : list (E G)) (P : E G) (a b : nat -> Z) : Prop :=
  P = gAdd G (gsum (G:=G) (length Gg) (fun j => gScale G (nth j Gg (gId G)) (a j)))
             (gsum (G:=G) (length Hh) (fun j => gScale G (nth j Hh (gId G)) (b j))).
(** a non-trivial way to write the identity over Gg, Hh, u *)
Definition Relation (G : Grp) (Gg Hh : list (E G)) (u : E G) (a b : nat -> Z) (c : Z) : Prop :=
  gAdd G (gAdd G (gsum (G:=G) (length Gg) (fun j => gScale G (nth j Gg (gId G)) (a j)))
                 (gsum (G:=G) (length Hh) (fun j => gScale G (nth j Hh (gId G)) (b j)))) (gScale G u c) = gId G /\
  ((exists j, (j < length Gg)%nat /\ a j mod gN G <> 0) \/ (exists j, (j < length Hh)%nat /\ b j mod gN G <> 0) \/ c mod gN G <> 0).

Theorem C48_knowledge_soundness : forall G k Gg Hh u P c x x' (t t' : Tree (E G)),
  GrpLaws G -> prime (gN G) -> length Gg = (2 ^ k)%nat -> length Hh = (2 ^ k)%nat ->
  x mod gN G <> 0 -> x' mod gN G <> 0 -> x mod gN G <> x' mod gN G ->
  GoodTree (gN G) k t -> GoodTree (gN G) k t' ->
  Forall (Accepted G Gg Hh u P c x) (proofs t) -> Forall (Accepted G Gg Hh u P c x') (proofs t') ->
  match extractIP (gN G) k c x x' (erase t) (erase t') with
  | inl (a, b) => Opens G Gg Hh P a b /\ zsum (length Gg) (fun j => a j * b j) mod gN G = c mod gN G
  | inr (a, b, r) => Relation G Gg Hh u a b r
  end.
Proof.
  intros G k Gg Hh u P c x x' t t' HL Hpr LG LH Hx Hx' Hxx HT HT' HA HA'.
  assert (Hpos : 0 < gN G) by (pose proof (l_order G HL); lia).
  set (g := fun i => nth i Gg (gId G)). set (h := fun i => nth i Hh (gId G)).
  assert (HR : forall y s, y mod gN G <> 0 -> GoodTree (gN G) k s -> Forall (Accepted G Gg Hh u P c y) (proofs s) ->
    Result G (2 ^ k) g h (gScale G u y) (gAdd G P (gScale G u (y * c))) (extract (gN G) k (erase s))).
  { intros y s Hy Hs Hacc. apply extract_ok; [assumption..|]. apply runs_tree; [assumption..|]. intros p Hp.
    rewrite Forall_forall in Hacc. apply accepted_run; auto. }
  assert (HC : forall a b r, Com G (2 ^ k) g h u (a, b, r) =
    gAdd G (gAdd G (gsum (G:=G) (length Gg) (fun j => gScale G (nth j Gg (gId G)) (a j)))
                 (gsum (G:=G) (length Hh) (fun j => gScale G (nth j Hh (gId G)) (b j)))) (gScale G u r)).
  { intros a b r. unfold Com. cbn [fst snd]. rewrite (gsum_add HL), LG, LH. reflexivity. }
  assert (HCr : forall y e, y mod gN G <> 0 -> Com G (2 ^ k) g h (gScale G u y) e = gId G /\ ENonzero G (2 ^ k) e ->
     let '(a, b, r) := scaleU y e in Relation G Gg Hh u a b r).
  { intros y [[a b] r] Hy [He Hn]. unfold scaleU. cbn [fst snd]. split.
    - rewrite <- HC, <- He. unfold Com. cbn [fst snd]. glin HL.
    - rewrite LG, LH. destruct Hn as [Hn|[Hn|Hn]]; [left; exact Hn|right; left; exact Hn|right; right]. apply mul_nz; assumption. }
  pose proof (HR x t Hx HT HA) as R1. pose proof (HR x' t' Hx' HT' HA') as R2. clear HR HT HT' HA HA'.
  unfold extractIP. destruct (extract (gN G) k (erase t)) as [[a b]|e].
  2:{ cbn [Result] in R1. exact (HCr x e Hx R1). }
  destruct (extract (gN G) k (erase t')) as [[a' b']|e].
  2:{ cbn [Result] in R2. exact (HCr x' e Hx' R2). }
  cbn [Result] in R1, R2. unfold openE in R1, R2. cbn [fst snd] in *. cbn zeta.
  set (s := zsum (2 ^ k) (fun j => a j * b j)) in *. set (s' := zsum (2 ^ k) (fun j => a' j * b' j)) in *.
  assert (P1 : P = Com G (2 ^ k) g h u (a, b, x * s - x * c)).
  { transitivity (gSub G (gAdd G P (gScale G u (x * c))) (gScale G u (x * c))); [glin HL|]. rewrite R1. unfold Com. cbn [fst snd]. glin HL. }
  assert (P2 : P = Com G (2 ^ k) g h u (a', b', x' * s' - x' * c)).
  { transitivity (gSub G (gAdd G P (gScale G u (x' * c))) (gScale G u (x' * c))); [glin HL|]. rewrite R2. unfold Com. cbn [fst snd]. glin HL. }
  set (rel := esub _ _). destruct (ezero (gN G) (2 ^ k) rel) eqn:Hz.
  - destruct (ezero_true G _ _ Hz) as (Ea & Eb & Ec). unfold rel, esub in Ea, Eb, Ec. cbn [fst snd] in Ea, Eb, Ec.
    assert (Ess : eqm (gN G) s s').
    { apply zsum_eqm. intros j Hj. specialize (Ea j Hj). specialize (Eb j Hj).
      apply (eqm_sub0 (gN G) _ _ Hpos) in Ea. apply (eqm_sub0 (gN G) _ _ Hpos) in Eb. rewrite Ea, Eb. reflexivity. }
    assert (Hs : eqm (gN G) s c).
    { apply (eqm_sub0 (gN G) _ _ Hpos). apply (cancel0 G HL Hpr (x - x')).
      - intros H. apply Hxx. apply eqm_mod. apply (eqm_sub0 (gN G) _ _ Hpos). apply eqm_mod0. exact H.
      - rewrite <- Ec. rewrite <- Ess. apply eqm_of_eq. ring. }
    split; [|rewrite LG; exact (proj1 (eqm_mod _ _ _) Hs)].
    unfold Opens. rewrite P1, HC. rewrite (scale_eqm HL u (x * s - x * c) 0); [glin HL|]. rewrite Hs. apply eqm_of_eq. ring.
  - pose proof (ezero_false G _ _ Hz) as Hn. destruct rel as [[ra rb] rc] eqn:Hrel. split.
    + rewrite <- HC, <- Hrel. unfold rel. rewrite (Com_sub G HL), <- P1, <- P2. glin HL.
    + rewrite LG, LH. exact Hn.
Qed.

(** ** Concrete case *)

(** a hash that answers x to the first hash and y to the hashes of the rounds *)
Definition fixO (x y : Z) : Oracles :=
  {| sha256 := fun b => if Nat.leb (length b) 2 then [y] else [x]; fromByteArray := os2ip |}.
Definition ksG := [gBase toy 3; gBase toy 20]. Definition ksH := [gBase toy 50; gBase toy 77]. Definition ksU := gBase toy 9.
Definition ksP := gBase toy (1 * 3 + 2 * 20 + 3 * 50 + 4 * 77).
(** the prover's round for a = (1, 2), b = (3, 4) and first challenge x, answered for challenges 1, 2, 3, 4 *)
Definition ksTree (x : Z) : Tree (E toy) :=
  let leaf y := Leaf ((y * 1 + inv0 101 y * 2) mod 101) ((inv0 101 y * 3 + y * 4) mod 101) in
  Node (gBase toy (1 * 20 + 4 * 50 + 9 * x * (1 * 4))) (gBase toy (2 * 3 + 3 * 77 + 9 * x * (2 * 3)))
    1 (leaf 1) 2 (leaf 2) 3 (leaf 3) 4 (leaf 4).
Lemma ks_acc : forall x, x = 7 \/ x = 8 -> Forall (Accepted toy ksG ksH ksU ksP 11 x) (proofs (ksTree x)).
Proof.
  intros x Hx. unfold ksTree. cbn [proofs map app fst snd].
  repeat (constructor; [match goal with |- Accepted _ _ _ _ _ _ _ ([(_, _, ?y)], _) => exists (fixO x y) end;
    split; [destruct Hx as [->| ->]; vm_compute; reflexivity|];
    split; [intros L R y [[= <- <- <-]|[]]; destruct Hx as [->| ->]; vm_compute; reflexivity|];
    destruct Hx as [->| ->]; vm_compute; reflexivity|]).
  constructor.
Qed.
Example C48_case : GoodTree 101 1 (ksTree 7) /\ GoodTree 101 1 (ksTree 8) /\
  Forall (Accepted toy ksG ksH ksU ksP 11 7) (proofs (ksTree 7)) /\ Forall (Accepted toy ksG ksH ksU ksP 11 8) (proofs (ksTree 8)) /\
  match extractIP 101 1 11 7 8 (erase (ksTree 7)) (erase (ksTree 8)) with
  | inl (a, b) => (a O mod 101, a 1%nat mod 101, b O mod 101, b 1%nat mod 101) = (1, 2, 3, 4)
  | inr _ => False
  end.
Proof.
  split; [|split; [|split; [apply ks_acc; auto|split; [apply ks_acc; auto|]]]].
  - cbn [GoodTree ksTree]. repeat split; vm_compute; discriminate.
  - cbn [GoodTree ksTree]. repeat split; vm_compute; discriminate.
  - vm_compute. reflexivity.
Qed.
Print Assumptions C48_knowledge_soundness.
