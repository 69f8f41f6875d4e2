(** Further concrete cases: the hypotheses of C03, C07, C10, C24, C26 and C28 met at once, over Z/101 and the group modulo 8423. *)
From Verif Require Import GoBase Json GroupIface Vector BIP BP VoteProof ModP App NumTh Alg VectorProofs BIPProofs BPProofs SetupProofs ModPProofs
  Toy Hom PropBP PropIP PropVote PropModP PropApp PropGen.

(** C03, C07, C10: the proof of 11 with blinding 17 and two rounds *)
Example C03_C07_C10_case : Setup toy 0 16 = Ok toyParams /\ Prove toy toyO 11 toyParams toyRnd = Ok (toyPf, 17) /\
  gAdd toy (gBase toy 11) (gScale toy (bpH toyParams) 17) = pV toyPf /\ bpN toyParams = 4 /\ length (ipL (pIPP toyPf)) = 2%nat /\ length (ipR (pIPP toyPf)) = 2%nat /\
  fst (HashBP toy toyO (pA toyPf) (pS toyPf)) = snd (HashBP toy toyO (pA toyPf) (pS toyPf)).
Proof. repeat split; vm_compute; reflexivity. Qed.
(** the inner product of [1;2;3;4] and [5;6;7;100] *)
Example C07_inner_product_case : length (bpGg toyParams) = (2 ^ 2)%nat /\ length (bpHh toyParams) = (2 ^ 2)%nat /\
  match proveInnerProduct toy toyO 4 [1;2;3;4] [5;6;7;100] (gBase toy 9) (Some 38) (mkIPParams (bpGg toyParams) (map Some (bpHh toyParams)) (gBase toy 3)) with
  | Ok pf => Some (length (ipL pf), length (ipR pf))
  | _ => None
  end = Some (2%nat, 2%nat).
Proof. split; [|split]; vm_compute; reflexivity. Qed.

(** C24: candidate 5 under the key 2^13 *)
Definition eRun (choice : Z) : res (Z * Z * Z * Z) :=
  '(ct, rnd) <- encryptVote (ModPGrp dToy) choice (gBase (ModPGrp dToy) 13) 77 ;;
  Ok (ctU ct, ctV ct, rnd, gSub (ModPGrp dToy) (ctV ct) (gScale (ModPGrp dToy) (ctU ct) 13)).
Example C24_case : ModPOk dToy /\ SafePrime2 dToy /\ eRun 5 = Ok (3917, 2327, 78, 2 ^ 5) /\ eRun 6 = Ok (3917, 4654, 78, 2 ^ 6).
Proof. split; [apply safe_ok; exact dToy_safe|]. split; [exact dToy_safe|]. split; vm_compute; reflexivity. Qed.

(** C26, with Z/101 for both groups: an election [3,6], draw 2, so candidate 5 *)
Definition sGff : GroupParams toy := mkGroupParams (gGen toy) (gBase toy 13) (Some 101) (Some 8423).
Definition sPP : PublicParameters toy toy := mkPublicParameters sGff aGec (gpH sGff) 3 6 aBP (mkProofParams 3 8 13 1 3 6 sGff aGec).
Definition isOk {A} (r : res A) : bool := match r with Ok _ => true | _ => false end.
Example C26_case : GrpPrime toy /\ 0 <= ppMin sPP <= ppMax sPP /\ ppMax sPP < gN toy /\ 0 <= cr_choice aCR < ppMax sPP - ppMin sPP /\
  isOk (castVote toy toy aHO sPP aCR) = true.
Proof. split; [exact toy_prime|]. split; [split; discriminate|]. split; [reflexivity|]. split; [split; [discriminate|reflexivity]|]. vm_compute. reflexivity. Qed.

(** C28: a candidate list [3,20] is too long for 2-bit range proofs: the ballot for candidate 3 + 2 is made, the second range proof is
    rejected, and the driver reads the missing timings. With [3,6] it does not. *)
Definition lPP (hi : Z) : PublicParameters (ModPGrp dToy) toy := mkPublicParameters aGff aGec (gpH aGff) 3 hi aBP (mkProofParams 3 8 13 1 3 hi aGff aGec).
Definition lRun (hi : Z) : res (bool * nat) := b <- castVote (ModPGrp dToy) toy aHO (lPP hi) aCR ;; verifyVote (ModPGrp dToy) toy aHO b (ppRP (lPP hi)).
Example C28_case : lRun 20 = Ok (false, 0%nat) /\ driverLoop (ModPGrp dToy) toy aHO (lPP 20) [aCR] true = Panic /\
  lRun 6 = Ok (true, 2%nat) /\ driverLoop (ModPGrp dToy) toy aHO (lPP 6) [aCR] true = Ok true.
Proof. repeat split; vm_compute; reflexivity. Qed.
