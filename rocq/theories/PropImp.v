(** C61: range proofs are computed in place on shared objects, and still behave as functions of values. *)
From Verif Require Import GoBase Json GroupIface Vector BIP BP NumTh Alg SetupProofs Toy PropBP MultiBP Imp ImpMulti ImpProofs ImpFuns ImpBP ImpMultiProofs.

(** Between [h] and [h'] every object of [h] keeps its value, and every write goes to an object made meanwhile
    (so no object of [h] is written even temporarily). *)
Definition Unchanged (G : Grp) (h h' : heap G) : Prop :=
  (forall r v, nth_error (he G h) r = Some v -> nth_error (he G h') r = Some v) /\
  (forall r v, nth_error (hz G h) r = Some v -> nth_error (hz G h') r = Some v) /\
  exists l, hw G h' = l ++ hw G h /\
    forall r, (In (WrE r) l -> nth_error (he G h) r = None) /\ (In (WrZ r) l -> nth_error (hz G h) r = None).

Lemma Pre_Unchanged : forall G h h', Pre G h h' -> Unchanged G h h'.
Proof.
  intros G h h' P. split; [|split]; [intros r v H|intros r v H|].
  - destruct (pre_e G h h' P (Some r) (Some v)) as (r' & E & K).
    + exists r. split; [reflexivity | exact H].
    + injection E as <-. exact K.
  - destruct (pre_z G h h' P (Some r) (Some v)) as (r' & E & K).
    + exists r. split; [reflexivity | exact H].
    + injection E as <-. exact K.
  - destruct (pre_w G h h' P) as (l & W & F). exists l. split; [exact W|]. rewrite Forall_forall in F.
    intros r. split; intros I; apply F in I; cbn in I; apply nth_error_None, I.
Qed.

Lemma rep_pre : forall G h h' q pf, Pre G h h' -> repBP G h q pf -> repBP G h' q pf.
Proof.
  intros G h h' q pf P (H1 & H2 & H3 & H4 & H5 & H6 & H7 & H8 & H9 & H10).
  do 5 (split; [eapply (pre_e _ _ _ P); eassumption|]). do 3 (split; [eapply (pre_z _ _ _ P); eassumption|]).
  split; [exact (repIPProof_pre _ _ _ _ _ P H9) | exact (repBPParams_pre _ _ _ _ _ P H10)].
Qed.

(** Verify on a proof made of shared objects: it ends as the value-level Verify does, with the same answer, an error or a
    panic, and writes no object that existed before: the proof, its parameters and generators, the group order
    [N] that GP.N() returns, and everything else on the heap. Nothing is assumed about which of the pointers
    coincide. *)
Theorem C61_verify_on_shared_objects : forall G HO h q pf N,
  repBP G h q pf -> zAt G h N (Some (gN G)) ->
  match iVerify G HO q N h with
  | Ok (b, h') => Verify G HO pf = Ok b /\ Unchanged G h h' /\ repBP G h' q pf
  | Err => Verify G HO pf = Err
  | Panic => Verify G HO pf = Panic
  | OutOfFuel => Verify G HO pf = OutOfFuel
  end.
Proof.
  intros G HO h q pf N HR HN. pose proof (iVerify_ok G HO q pf N h HR HN) as W. unfold wp in W.
  destruct (iVerify G HO q N h) as [[b h']| | |]; try exact W.
  destruct W as (b' & HV & P & <-). split; [exact HV|]. split; [exact (Pre_Unchanged _ _ _ P)|].
  exact (rep_pre _ _ _ _ _ P HR).
Qed.

(** The same for the inner-product argument alone. *)
Theorem C61_inner_product_on_shared_objects : forall G HO h q ip N,
  repIPProof G h q ip -> zAt G h N (Some (gN G)) ->
  match iipVerify G HO q N h with
  | Ok (b, h') => ipVerify G HO ip = Ok b /\ Unchanged G h h'
  | Err => ipVerify G HO ip = Err
  | Panic => ipVerify G HO ip = Panic
  | OutOfFuel => ipVerify G HO ip = OutOfFuel
  end.
Proof.
  intros G HO h q ip N HR HN. pose proof (iipVerify_ok G HO q ip N h HR HN) as W. unfold wp in W.
  destruct (iipVerify G HO q N h) as [[b h']| | |]; try exact W.
  destruct W as (b' & HV & P & <-). split; [exact HV | exact (Pre_Unchanged _ _ _ P)].
Qed.

(** Prove: the objects it returns hold the proof and the blinding factor of the value-level Prove, and the
    secret, the parameters and the order are as before. *)
Theorem C61_prove_on_shared_objects : forall G HO h x v q params rnd N,
  zAt G h x (Some v) -> repBPParams G h q params -> zAt G h N (Some (gN G)) ->
  match iProve G HO x q rnd N h with
  | Ok ((pq, g), h') => exists pf gamma, Prove G HO v params rnd = Ok (pf, gamma) /\
      repBP G h' pq pf /\ zAt G h' g (Some gamma) /\ Unchanged G h h'
  | Err => Prove G HO v params rnd = Err
  | Panic => Prove G HO v params rnd = Panic
  | OutOfFuel => Prove G HO v params rnd = OutOfFuel
  end.
Proof.
  intros G HO h x v q params rnd N HX HR HN. pose proof (iProve_ok G HO x v q params rnd N h HX HR HN) as W.
  unfold wp in W. destruct (iProve G HO x q rnd N h) as [[[pq g] h']| | |]; try exact W.
  destruct W as ([pf gamma] & HV & P & H1 & H2). cbn [fst snd] in *.
  exists pf, gamma. split; [exact HV|]. split; [exact H1|]. split; [exact H2 | exact (Pre_Unchanged _ _ _ P)].
Qed.

(** Verifying a proof any number of times gives the answer of the first time. *)
Fixpoint verifyTimes G HO (k : nat) (q : BulletProofP) (N : ptr) : M G (list bool) :=
  match k with
  | O => ret G []
  | S k' => mbind G (iVerify G HO q N) (fun b => mbind G (verifyTimes G HO k' q N) (fun l => ret G (b :: l)))
  end.
Theorem C61_verify_repeatable : forall G HO k h q pf N b,
  repBP G h q pf -> zAt G h N (Some (gN G)) -> Verify G HO pf = Ok b ->
  exists h', verifyTimes G HO k q N h = Ok (repeat b k, h') /\ Unchanged G h h'.
Proof.
  intros G HO k h q pf N b HR HN HV.
  assert (K : exists h', verifyTimes G HO k q N h = Ok (repeat b k, h') /\ Pre G h h').
  { revert h HR HN. induction k as [|k IH]; intros h HR HN.
    - exists h. split; [reflexivity | apply Pre_refl].
    - cbn [verifyTimes repeat]. unfold mbind at 1. pose proof (iVerify_ok G HO q pf N h HR HN) as W. unfold wp in W.
      destruct (iVerify G HO q N h) as [[b1 h1]| | |]; try congruence.
      destruct W as (b' & HV' & P & <-). rewrite HV in HV'. injection HV' as <-.
      destruct (IH h1) as (h2 & E & P2).
      + exact (rep_pre _ _ _ _ _ P HR).
      + exact (pre_z _ _ _ P _ _ HN).
      + unfold mbind at 1. rewrite E. exists h2. split; [reflexivity | exact (Pre_trans _ _ _ _ P P2)]. }
  destruct K as (h' & E & P). exists h'. split; [exact E | exact (Pre_Unchanged _ _ _ P)].
Qed.

(** So C01 also holds on objects: what Prove returns for a secret in range, Verify accepts. *)
Theorem C61_prove_then_verify : forall G HO nan64 b params v rnd h x q N pq g h',
  GrpLaws G -> nanConv nan64 -> is_int64 b = true -> Setup G nan64 b = Ok params -> 0 <= v < 2 ^ bpN params ->
  zAt G h x (Some v) -> repBPParams G h q params -> zAt G h N (Some (gN G)) ->
  iProve G HO x q rnd N h = Ok ((pq, g), h') ->
  exists h'', iVerify G HO pq N h' = Ok (true, h'') /\ Unchanged G h' h''.
Proof.
  intros G HO nan64 b params v rnd h x q N pq g h' HL Hn Hb HS Hv HX HR HN HP.
  pose proof (iProve_ok G HO x v q params rnd N h HX HR HN) as W. unfold wp in W. rewrite HP in W.
  destruct W as ([pf gamma] & E & P & H1 & _). cbn [fst snd] in *.
  pose proof (C01_completeness G HO nan64 b params v rnd pf gamma HL Hn Hb HS Hv E) as A.
  pose proof (iVerify_ok G HO pq pf N h' H1 (pre_z _ _ _ P _ _ HN)) as W. unfold wp in W.
  destruct (iVerify G HO pq N h') as [[b1 h1]| | |]; try congruence.
  destruct W as (b' & HV' & P' & ->). rewrite A in HV'. injection HV' as <-.
  exists h1. split; [reflexivity | exact (Pre_Unchanged _ _ _ P')].
Qed.

(** ** Aggregated proofs *)
Theorem C61_multi_verify_on_shared_objects : forall G HO h q pf N,
  repMulti G h q pf -> zAt G h N (Some (gN G)) ->
  match iMultiVerify G HO q N h with
  | Ok (b, h') => MultiVerify G HO pf = Ok b /\ Unchanged G h h'
  | Err => MultiVerify G HO pf = Err
  | Panic => MultiVerify G HO pf = Panic
  | OutOfFuel => MultiVerify G HO pf = OutOfFuel
  end.
Proof.
  intros G HO h q pf N HR HN. pose proof (iMultiVerify_ok G HO q pf N h HR HN) as W. unfold wp in W.
  destruct (iMultiVerify G HO q N h) as [[b h']| | |]; try exact W.
  destruct W as (b' & HV & P & <-). split; [exact HV | exact (Pre_Unchanged _ _ _ P)].
Qed.
Theorem C61_multi_prove_on_shared_objects : forall G HO h xs vs q params gam rnd N,
  zsAt G h xs vs -> repBPParams G h q params -> zAt G h N (Some (gN G)) ->
  match iMultiProve G HO xs q gam rnd N h with
  | Ok ((pq, gs), h') => exists pf gammas, MultiProve G HO vs params gam rnd = Ok (pf, gammas) /\
      repMulti G h' pq pf /\ zsAt G h' gs gammas /\ Unchanged G h h'
  | Err => MultiProve G HO vs params gam rnd = Err
  | Panic => MultiProve G HO vs params gam rnd = Panic
  | OutOfFuel => MultiProve G HO vs params gam rnd = OutOfFuel
  end.
Proof.
  intros G HO h xs vs q params gam rnd N HX HR HN.
  pose proof (iMultiProve_ok G HO xs vs q params gam rnd N h HX HR HN) as W.
  unfold wp in W. destruct (iMultiProve G HO xs q gam rnd N h) as [[[pq gs] h']| | |]; try exact W.
  destruct W as ([pf gammas] & HV & P & H1 & H2). cbn [fst snd] in *.
  exists pf, gammas. split; [exact HV|]. split; [exact H1|]. split; [exact H2 | exact (Pre_Unchanged _ _ _ P)].
Qed.

(** ** A concrete run *)
(** Objects of the parameters for [0, 2): element 0 is G, 1 is H, 2 is both g_0 and h_0 (shared on purpose). *)
Definition heap0 : heap toy := mkHeap toy [gBase toy 1; gBase toy 42; gBase toy 9] [101; 1] [].
Definition params0 : BPParamsP := mkBPParamsP 1 (Some 0%nat) (Some 1%nat) [Some 2%nat] [Some 2%nat].
Definition values0 : BPParams toy := mkBPParams 1 (gBase toy 1) (gBase toy 42) [gBase toy 9] [gBase toy 9].
Example C61_case :
  repBPParams toy heap0 params0 values0 /\ zAt toy heap0 (Some 0%nat) (Some (gN toy)) /\
  zAt toy heap0 (Some 1%nat) (Some 1) /\
  match iProve toy toyO (Some 1%nat) params0 toyRnd (Some 0%nat) heap0 with
  | Ok ((pq, _), h') =>
      match iVerify toy toyO pq (Some 0%nat) h' with
      | Ok (b, h'') => b = true /\ firstn 3 (he toy h'') = he toy heap0 /\ firstn 2 (hz toy h'') = hz toy heap0 /\
                       (length (hw toy h') < length (hw toy h''))%nat /\
                       Nat.leb 120 (length (hw toy h'')) = true
      | _ => False
      end
  | _ => False
  end.
Proof.
  split; [|split; [|split]].
  - unfold repBPParams, esAt. cbn. repeat split; try (repeat constructor); eexists; split; reflexivity.
  - eexists. split; reflexivity.
  - eexists. split; reflexivity.
  - vm_compute. repeat split; try reflexivity. repeat constructor.
Qed.
(** The aggregated prover on one secret, and its verifier (which accepts because g_0 = h_0 here; see C15). *)
Example C61_multi_case :
  zsAt toy heap0 [Some 1%nat] [1] /\
  match iMultiProve toy toyO [Some 1%nat] params0 (fun _ => 17) toyRnd (Some 0%nat) heap0 with
  | Ok ((pq, _), h') =>
      match iMultiVerify toy toyO pq (Some 0%nat) h' with
      | Ok (b, h'') => b = true /\ firstn 3 (he toy h'') = he toy heap0 /\ firstn 2 (hz toy h'') = hz toy heap0
      | _ => False
      end
  | _ => False
  end.
Proof.
  split.
  - repeat constructor. eexists. split; reflexivity.
  - vm_compute. repeat split; reflexivity.
Qed.

Print Assumptions C61_multi_verify_on_shared_objects.
Print Assumptions C61_multi_prove_on_shared_objects.
Print Assumptions C61_verify_on_shared_objects.
Print Assumptions C61_inner_product_on_shared_objects.
Print Assumptions C61_prove_on_shared_objects.
Print Assumptions C61_verify_repeatable.
Print Assumptions C61_prove_then_verify.
