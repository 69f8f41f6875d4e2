(** Programs that ask a hash function, run against answers that are drawn one by one, and the forking lemma. Nothing here models code:
    it is the vocabulary of C75. *)
From Verif Require Import GoBase Vector Alg PropAbort.

(** A program outputs something or asks the hash of some bytes and goes on with the answer. *)
Inductive Prog (A : Type) : Type := Ret (a : A) | Ask (q : bytes) (k : bytes -> Prog A).
Arguments Ret {A}. Arguments Ask {A}.

(** its output when the hash function is [f] *)
Fixpoint runF {A} (f : bytes -> bytes) (p : Prog A) : A :=
  match p with Ret a => a | Ask q k => runF f (k (f q)) end.

(** after the program, one more question about what it put out *)
Fixpoint thenAsk {A} (p : Prog A) (q : A -> bytes) : Prog A :=
  match p with Ret a => Ask (q a) (fun _ => Ret a) | Ask b k => Ask b (fun h => thenAsk (k h) q) end.

(** The answers given so far *)
Definition Table : Type := list (bytes * bytes).
Fixpoint lookup (t : Table) (q : bytes) : option bytes :=
  match t with [] => None | (b, h) :: t => if list_eq_dec Z.eq_dec b q then Some h else lookup t q end.

(** The program's output when question number i that was not asked before is answered by the i-th element of [hs]; repeated questions get
    the same answer again. [None]: more than [length hs] different questions. *)
Fixpoint exec {A} (p : Prog A) (t : Table) (hs : list bytes) : option (A * Table) :=
  match p with
  | Ret a => Some (a, t)
  | Ask q k =>
      match lookup t q with
      | Some h => exec (k h) t hs
      | None => match hs with h :: hs => exec (k h) ((q, h) :: t) hs | [] => None end
      end
  end.

(** The hash function that gives the answers in [t], and those of [bg] everywhere else *)
Definition oracle (bg : bytes -> bytes) (t : Table) (q : bytes) : bytes := match lookup t q with Some h => h | None => bg q end.

(** ** What [exec] does *)
Lemma exec_mono : forall A (p : Prog A) t hs a t' q h, exec p t hs = Some (a, t') -> lookup t q = Some h -> lookup t' q = Some h.
Proof.
  intros A p. induction p as [a0|q0 k IH]; intros t hs a t' q h E L; cbn [exec] in E; [injection E as <- <-; exact L|].
  destruct (lookup t q0) as [h0|] eqn:E0; [exact (IH h0 t hs a t' q h E L)|]. destruct hs as [|h0 hs]; [discriminate|].
  apply (IH h0 _ hs a t' q h E). cbn [lookup]. destruct (list_eq_dec Z.eq_dec q0 q) as [->|]; [congruence|exact L].
Qed.
(** the run is the run against the hash function it leaves behind *)
Lemma exec_runF : forall A bg (p : Prog A) t hs a t', exec p t hs = Some (a, t') -> runF (oracle bg t') p = a.
Proof.
  intros A bg p. induction p as [a0|q0 k IH]; intros t hs a t' E; cbn [exec runF] in *; [injection E as <- _; reflexivity|].
  destruct (lookup t q0) as [h0|] eqn:E0.
  - unfold oracle at 2. rewrite (exec_mono _ _ _ _ _ _ _ _ E E0). exact (IH h0 t hs a t' E).
  - destruct hs as [|h0 hs]; [discriminate|].
    assert (L : lookup ((q0, h0) :: t) q0 = Some h0) by (cbn [lookup]; destruct (list_eq_dec Z.eq_dec q0 q0); [reflexivity|contradiction]).
    unfold oracle at 2. rewrite (exec_mono _ _ _ _ _ _ _ _ E L). exact (IH h0 _ hs a t' E).
Qed.
Lemma exec_then : forall A (p : Prog A) q t hs a t', exec (thenAsk p q) t hs = Some (a, t') ->
  lookup t' (q a) <> None /\ exists t1 hs1, exec p t hs1 = Some (a, t1).
Proof.
  intros A p q. induction p as [a0|q0 k IH]; intros t hs a t' E; cbn [thenAsk exec] in E.
  - destruct (lookup t (q a0)) eqn:E0; [injection E as <- <-; split; [congruence|exists t, []; reflexivity]|]. destruct hs as [|h hs]; [discriminate|].
    injection E as <- <-. split; [|exists t, []; reflexivity]. cbn [lookup]. destruct (list_eq_dec Z.eq_dec _ _); [discriminate|contradiction].
  - cbn [exec]. destruct (lookup t q0) eqn:E0; [exact (IH _ _ _ _ _ E)|]. destruct hs as [|h hs]; [discriminate|].
    destruct (IH _ _ _ _ _ E) as (L & t1 & hs1 & E1). split; [exact L|]. exists t1, (h :: hs1). exact E1.
Qed.
Lemma exec_digests : forall A (P : bytes -> Prop) (p : Prog A) t hs a t', exec p t hs = Some (a, t') -> Forall P hs ->
  (forall q h, lookup t q = Some h -> P h) -> forall q h, lookup t' q = Some h -> P h.
Proof.
  intros A P p. induction p as [a0|q0 k IH]; intros t hs a t' E F H; cbn [exec] in E; [injection E as _ <-; exact H|].
  destruct (lookup t q0) as [h0|]; [exact (IH h0 t hs a t' E F H)|]. destruct hs as [|h0 hs]; [discriminate|]. inversion_clear F.
  apply (IH h0 _ hs a t' E); [assumption|]. intros q h L. cbn [lookup] in L. destruct (list_eq_dec Z.eq_dec q0 q); [injection L as <-; assumption|exact (H q h L)].
Qed.

(** the [j]-th new question; it depends only on the first [j] answers *)
Fixpoint asked {A} (p : Prog A) (t : Table) (hs : list bytes) (j : nat) : option bytes :=
  match p with
  | Ret a => None
  | Ask q k =>
      match lookup t q with
      | Some h => asked (k h) t hs j
      | None => match j with O => Some q | S j => match hs with h :: hs => asked (k h) ((q, h) :: t) hs j | [] => None end end
      end
  end.
Lemma asked_prefix : forall A (p : Prog A) t hs hs' j, firstn j hs = firstn j hs' -> asked p t hs j = asked p t hs' j.
Proof.
  intros A p. induction p as [a0|q0 k IH]; intros t hs hs' j H; cbn [asked]; [reflexivity|].
  destruct (lookup t q0) as [h0|]; [apply IH; exact H|]. destruct j as [|j]; [reflexivity|].
  destruct hs as [|h hs], hs' as [|h' hs']; cbn [firstn] in H; try discriminate; [reflexivity|]. injection H as -> H. apply IH. exact H.
Qed.
Lemma asked_answer : forall A (p : Prog A) t hs a t' q h, exec p t hs = Some (a, t') -> lookup t q = None -> lookup t' q = Some h ->
  exists j, asked p t hs j = Some q /\ nth_error hs j = Some h.
Proof.
  intros A p. induction p as [a0|q0 k IH]; intros t hs a t' q h E N L; cbn [exec asked] in *; [injection E as _ <-; congruence|].
  destruct (lookup t q0) as [h0|] eqn:E0; [exact (IH h0 t hs a t' q h E N L)|]. destruct hs as [|h0 hs]; [discriminate|].
  destruct (list_eq_dec Z.eq_dec q0 q) as [->|Hne].
  - exists O. split; [reflexivity|]. cbn [nth_error]. rewrite <- L. symmetry. apply (exec_mono _ _ _ _ _ _ _ _ E).
    cbn [lookup]. destruct (list_eq_dec Z.eq_dec q q); [reflexivity|contradiction].
  - destruct (IH h0 ((q0, h0) :: t) hs a t' q h E) as (j & Hj & Hn); [|exact L|].
    + cbn [lookup]. destruct (list_eq_dec Z.eq_dec q0 q); [contradiction|exact N].
    + exists (S j). split; [exact Hj|exact Hn].
Qed.

(** ** Counting *)
Lemma list_choice : forall A B (R : A -> B -> Prop) l, (forall x, In x l -> exists y, R x y) -> exists m, Forall2 R l m.
Proof.
  intros A B R l. induction l as [|x l IH]; intros H; [exists []; constructor|].
  destruct (H x (or_introl eq_refl)) as [y Hy]. destruct IH as [m Hm]; [intros; apply H; right; assumption|]. exists (y :: m). constructor; assumption.
Qed.
Lemma pigeon : forall A B (R : A -> B -> Prop) (dec : forall x y : B, {x = y} + {x <> y}) l m, Forall2 R l m -> NoDup l ->
  NoDup m \/ exists x x' y, In x l /\ In x' l /\ x <> x' /\ R x y /\ R x' y.
Proof.
  intros A B R dec l m F. induction F as [|x y l m Hxy F IH]; intros ND; [left; constructor|]. inversion_clear ND.
  destruct IH as [N|(u & u' & w & I1 & I2 & Hne & R1 & R2)]; [assumption| |right; exists u, u', w; repeat split; try (right; assumption); assumption].
  destruct (in_dec dec y m) as [Hin|Hin]; [|left; constructor; assumption]. right.
  assert (Hx : exists x', In x' l /\ R x' y).
  { clear - F Hin. induction F as [|x0 y0 l m H0 F IH]; [destruct Hin|]. destruct Hin as [->|Hin]; [exists x0; split; [left; reflexivity|assumption]|].
    destruct (IH Hin) as (x' & I' & R'). exists x'. split; [right|]; assumption. }
  destruct Hx as (x' & I' & R'). exists x, x', y. repeat split; [left; reflexivity|right; exact I'| |exact Hxy|exact R']. intros ->. contradiction.
Qed.

Definition is_digest (h : bytes) : Prop := length h = 32%nat /\ Forall is_byte h.
Definition allBytes : list Z := zrange 0 256.
Lemma allBytes_in : forall b, is_byte b -> In b allBytes.
Proof. intros b H. apply zrange_in. unfold is_byte in H. lia. Qed.
Fixpoint tuples {A} (B : list A) (n : nat) : list (list A) :=
  match n with O => [[]] | S n => flat_map (fun k => map (cons k) (tuples B n)) B end.
Lemma tuples_in : forall A (B : list A) ks, (forall k, In k ks -> In k B) -> In ks (tuples B (length ks)).
Proof.
  intros A B. induction ks as [|k ks IH]; intros H; cbn [length tuples]; [left; reflexivity|]. apply in_flat_map. exists k.
  split; [apply H; left; reflexivity|]. apply in_map. apply IH. intros x Hx. apply H. right. exact Hx.
Qed.
Lemma tuples_len : forall A (B : list A) n, Z.of_nat (length (tuples B n)) = Z.of_nat (length B) ^ Z.of_nat n.
Proof.
  intros A B. induction n as [|n IH]; [reflexivity|]. cbn [tuples]. rewrite (flat_map_len _ _ _ (length (tuples B n))) by (intros; apply map_length).
  rewrite Nat2Z.inj_mul, IH, Nat2Z.inj_succ, Z.pow_succ_r by lia. reflexivity.
Qed.
Definition bytesOf (n : nat) : list bytes := tuples allBytes n.
Lemma bytesOf_in : forall b, Forall is_byte b -> In b (bytesOf (length b)).
Proof. intros b H. apply tuples_in. intros k Hk. apply allBytes_in. rewrite Forall_forall in H. exact (H k Hk). Qed.
Lemma bytesOf_len : forall n, Z.of_nat (length (bytesOf n)) = 256 ^ Z.of_nat n.
Proof. intros n. refine (eq_trans (tuples_len _ allBytes n) _). unfold allBytes. rewrite zrange_len by lia. reflexivity. Qed.

(** ** The forking lemma. [q a]: the question that matters for the output [a]; [lab a] < L: some label of it; [t] <= 32: the number of bytes
    of the answer that matter. Among the sequences of n digests, at most n L 256^(32n - t) can be such that the run gives an output whose
    question was asked, unless two of the runs answer the same question differently in the first t bytes and have outputs with the same label. *)
Theorem forking : forall A (p : Prog A) (q : A -> bytes) (lab : A -> nat) n L t (runs : list (list bytes)),
  (t <= 32)%nat -> NoDup runs ->
  (forall hs, In hs runs -> length hs = n /\ Forall is_digest hs /\
     exists a tb, exec p [] hs = Some (a, tb) /\ (lab a < L)%nat /\ lookup tb (q a) <> None) ->
  Z.of_nat (length runs) * 256 ^ Z.of_nat t <= Z.of_nat n * Z.of_nat L * 256 ^ (32 * Z.of_nat n) \/
  exists hs1 hs2 a1 a2 tb1 tb2 h1 h2, In hs1 runs /\ In hs2 runs /\
    exec p [] hs1 = Some (a1, tb1) /\ exec p [] hs2 = Some (a2, tb2) /\ q a1 = q a2 /\ lab a1 = lab a2 /\
    lookup tb1 (q a1) = Some h1 /\ lookup tb2 (q a2) = Some h2 /\ firstn t h1 <> firstn t h2.
Proof.
  intros A p q lab n L t runs Ht ND H.
  set (R := fun (hs : list bytes) (k : nat * nat * list bytes * bytes) =>
    exists a tb h, exec p [] hs = Some (a, tb) /\ lookup tb (q a) = Some h /\
      let '(j, l, rest, tail) := k in (j < n)%nat /\ (l < L)%nat /\ l = lab a /\ asked p [] hs j = Some (q a) /\ nth_error hs j = Some h /\
        rest = firstn j hs ++ skipn (S j) hs /\ tail = skipn t h /\ length rest = pred n /\ Forall is_digest rest /\ length tail = (32 - t)%nat /\ Forall is_byte tail).
  assert (HR : forall hs, In hs runs -> exists k, R hs k).
  { intros hs Hi. destruct (H hs Hi) as (Hl & HD & a & tb & E & HL & Hk). destruct (lookup tb (q a)) as [h|] eqn:Eh; [|contradiction].
    destruct (asked_answer _ _ _ _ _ _ _ _ E eq_refl Eh) as (j & Ha & Hn).
    exists (j, lab a, firstn j hs ++ skipn (S j) hs, skipn t h). exists a, tb, h. split; [exact E|]. split; [exact Eh|].
    assert (Hj : (j < n)%nat) by (rewrite <- Hl; apply nth_error_Some; congruence).
    assert (Hh : is_digest h) by (rewrite Forall_forall in HD; apply HD; apply (nth_error_In _ _ Hn)). destruct Hh as [Hh1 Hh2].
    repeat split; try assumption.
    - rewrite app_length, firstn_length, skipn_length. lia.
    - rewrite Forall_forall in *. intros x Hx. apply HD. apply in_app_or in Hx. rewrite <- (firstn_skipn j hs). apply in_or_app.
      destruct Hx as [Hx|Hx]; [left; exact Hx|right]. revert Hx. clear. revert j. induction hs as [|a hs IH]; intros [|j] Hx; cbn [skipn] in *; try assumption.
      + right. exact Hx.
      + apply IH. exact Hx.
    - rewrite skipn_length. lia.
    - rewrite <- (firstn_skipn t h) in Hh2. apply Forall_app in Hh2. apply Hh2. }
  destruct (list_choice _ _ R runs HR) as [ks F].
  assert (dec : forall x y : nat * nat * list bytes * bytes, {x = y} + {x <> y}) by (repeat decide equality).
  destruct (pigeon _ _ R dec runs ks F ND) as [N|(hs1 & hs2 & k & I1 & I2 & Hne & R1 & R2)].
  - left. set (all := list_prod (list_prod (list_prod (seq 0 n) (seq 0 L)) (tuples (bytesOf 32) (pred n))) (bytesOf (32 - t))).
    assert (Hincl : incl ks all).
    { intros k Hk. assert (Hx : exists hs, R hs k).
      { clear - F Hk. induction F as [|x0 y0 l m H0 F IH]; [destruct Hk|]. destruct Hk as [->|Hk]; [exists x0; assumption|exact (IH Hk)]. }
      destruct Hx as (hs & a & tb & h & _ & _ & HX). destruct k as [[[j l] rest] tail]. destruct HX as (Hj & Hl & _ & _ & _ & _ & _ & L1 & F1 & L2 & F2).
      unfold all. apply in_prod; [apply in_prod; [apply in_prod; apply in_seq; lia|]|].
      - rewrite <- L1. apply tuples_in. intros b Hb. rewrite Forall_forall in F1. destruct (F1 b Hb) as [Hb1 Hb2]. rewrite <- Hb1. apply bytesOf_in. exact Hb2.
      - rewrite <- L2. apply bytesOf_in. exact F2. }
    assert (Hlen : length runs = length ks) by (clear - F; induction F; cbn; congruence).
    pose proof (NoDup_incl_length N Hincl) as Hle. rewrite <- Hlen in Hle. apply Nat2Z.inj_le in Hle.
    unfold all in Hle. rewrite !prod_length, !seq_length, !Nat2Z.inj_mul, tuples_len, !bytesOf_len in Hle.
    destruct n as [|n].
    + destruct runs as [|hs runs]; [cbn; lia|]. exfalso. destruct ks as [|k ks]; [discriminate|]. inversion_clear F.
      destruct H0 as (a & tb & h & _ & _ & HX). destruct k as [[[j l] rest] tail]. destruct HX as (Hj & _). lia.
    + cbn [pred] in Hle. apply Z.le_trans with (Z.of_nat (S n) * Z.of_nat L * (256 ^ Z.of_nat 32) ^ Z.of_nat n * 256 ^ Z.of_nat (32 - t) * 256 ^ Z.of_nat t).
      * apply Z.mul_le_mono_nonneg_r; [apply Z.pow_nonneg; lia|exact Hle].
      * apply Z.eq_le_incl. rewrite <- Z.pow_mul_r by lia. rewrite <- !Z.mul_assoc, <- Z.pow_add_r, <- Z.pow_add_r by lia. do 3 f_equal. lia.
  - right. destruct k as [[[j l] rest] tail]. destruct R1 as (a1 & tb1 & h1 & E1 & L1 & Hj & _ & Hl1 & A1 & N1 & Hr1 & Ht1 & _).
    destruct R2 as (a2 & tb2 & h2 & E2 & L2 & _ & _ & Hl2 & A2 & N2 & Hr2 & Ht2 & _).
    destruct (H hs1 I1) as (Hn1 & _). destruct (H hs2 I2) as (Hn2 & _).
    assert (Hpre : firstn j hs1 = firstn j hs2 /\ skipn (S j) hs1 = skipn (S j) hs2).
    { rewrite Hr1 in Hr2. assert (Hf : length (firstn j hs1) = length (firstn j hs2)) by (rewrite !firstn_length; lia).
      revert Hr2 Hf. generalize (firstn j hs1) as u1, (firstn j hs2) as u2. induction u1 as [|x u1 IH]; intros [|y u2] Hr Hf; try discriminate; [split; [reflexivity|exact Hr]|].
      cbn [app length] in *. injection Hr as -> Hr. destruct (IH u2 Hr ltac:(lia)) as [-> ->]. split; reflexivity. }
    destruct Hpre as [Hf Hs].
    exists hs1, hs2, a1, a2, tb1, tb2, h1, h2. repeat split; try assumption; try congruence.
    + rewrite (asked_prefix _ p [] hs1 hs2 j Hf), A2 in A1. congruence.
    + intros Hh. apply Hne. assert (Heq : h1 = h2) by (rewrite <- (firstn_skipn t h1), <- (firstn_skipn t h2); congruence).
      assert (Hsplit : forall (u : list bytes) x, nth_error u j = Some x -> u = firstn j u ++ x :: skipn (S j) u).
      { clear. induction j as [|j IH]; intros [|y u] x Hx; try discriminate; cbn [nth_error firstn skipn app] in *; [congruence|]. f_equal. apply IH. exact Hx. }
      rewrite (Hsplit _ _ N1), (Hsplit _ _ N2), Hf, Hs, Heq. reflexivity.
Qed.
