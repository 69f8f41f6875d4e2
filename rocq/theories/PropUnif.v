(** C55 for secp256k1: with the group law of C76, Random reaches every point of the curve, each for one draw. *)
From Verif Require Import GoBase Json GroupIface ModP ECJson P256k1 Groups NumTh Alg Pres PropEC PropK1 Curve Primes PrimeCerts PropPrime ECLaw ECPoints ECStd ECCert PropECLaw OrderCerts.

(** Whatever point of the curve (in affine coordinates, either representation of the identity): among the N draws exactly one gives it. *)
Theorem C55_secp256k1_uniform : forall ing P, IngStd ing -> IsPoint (K1 noDecomp) (ingXY P) ->
  exists r, 0 <= r < k1Order /\ (exists Y, kgRandom ing r = Ok Y /\ kgIsEqual Y P = true) /\
    forall r' Y', 0 <= r' < k1Order -> kgRandom ing r' = Ok Y' -> kgIsEqual Y' P = true -> r' = r.
Proof.
  intros ing P S HP. destruct (C76_secp256k1 ing S) as [IO GP].
  destruct (C55_random_secp256k1 ing _ _ _ IO (lp_gen _ GP)) as [HR HU].
  destruct (lp_cyclic _ GP (k1Abs P)) as [k Hk]. exists (k mod k1Order).
  assert (HB : 0 <= k mod k1Order < k1Order) by (apply Z.mod_pos_bound; reflexivity). split; [exact HB|].
  destruct (HR (k mod k1Order)) as (Y & HY & OY & EY).
  assert (EQ : kgIsEqual Y P = true).
  { apply (k1_eq ing _ _ _ IO Y P OY HP). rewrite EY, Hk. apply (scale_eqm (ig_laws _ _ _ _ IO)). rewrite (ig_order _ _ _ _ IO). apply Zmod_eqm. }
  split; [exists Y; split; assumption|]. intros r' Y' Hr' HY' E'. apply (HU r' (k mod k1Order) Y' Y Hr' HB HY' HY).
  destruct (HR r') as (Z' & HZ & OZ & _). rewrite HY' in HZ. injection HZ as <-.
  apply (k1_eq ing _ _ _ IO Y' Y OZ OY). apply (k1_eq ing _ _ _ IO Y' P OZ HP) in E'. apply (k1_eq ing _ _ _ IO Y P OY HP) in EQ. congruence.
Qed.
(** The implementation of C76's case, the generator, and the draw 1 *)
Example C55_uniform_case : IngStd stdIng /\ IsPoint (K1 noDecomp) (ingXY (Some k1Gen)) /\ IsPoint (K1 noDecomp) (ingXY None) /\
  exists Y, kgRandom stdIng 1 = Ok Y /\ kgIsEqual Y (Some k1Gen) = true.
Proof.
  split; [exact C76_secp256k1_case|]. split; [right; exact (cc_g _ _ _ (k1_cert noDecomp))|]. split; [left; reflexivity|].
  eexists. split; vm_compute; reflexivity.
Qed.
Print Assumptions C55_secp256k1_uniform.
