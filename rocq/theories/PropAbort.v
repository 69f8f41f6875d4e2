(** C46, whole runs: how many sequences of masks make voteproof.Prove abort n times in a row. *)
From Verif Require Import GoBase Json GroupIface Vector VoteProof NumTh Alg Toy PropVote.

(** the draws of n iterations: the masks and, for each, the three blinding draws *)
Definition draws (ks : list Z) (bl : list (Z * Z * Z)) : list Draw :=
  map (fun kb => mkDraw (fst kb) (fst (fst (snd kb))) (snd (fst (snd kb))) (snd (snd kb))) (combine ks bl).

Fixpoint sequences (B : list Z) (n : nat) : list (list Z) :=
  match n with O => [[]] | S n => flat_map (fun k => map (cons k) (sequences B n)) B end.
Lemma sequences_in : forall B ks, (forall k, In k ks -> In k B) -> In ks (sequences B (length ks)).
Proof.
  intros B. induction ks as [|k ks IH]; intros H; cbn [length sequences]; [left; reflexivity|]. apply in_flat_map. exists k. split; [apply H; left; reflexivity|].
  apply in_map. apply IH. intros x Hx. apply H. right. exact Hx.
Qed.
Lemma flat_map_len : forall A C (f : A -> list C) m l, (forall x, length (f x) = m) -> length (flat_map f l) = (length l * m)%nat.
Proof. intros A C f m l H. induction l as [|x l IH]; [reflexivity|]. cbn. rewrite app_length, H, IH. reflexivity. Qed.
Lemma sequences_len : forall B n, Z.of_nat (length (sequences B n)) = Z.of_nat (length B) ^ Z.of_nat n.
Proof.
  intros B. induction n as [|n IH]; [reflexivity|]. cbn [sequences]. rewrite (flat_map_len _ _ _ (length (sequences B n))) by (intros; apply map_length).
  rewrite Nat2Z.inj_mul, IH, Nat2Z.inj_succ, Z.pow_succ_r by lia. reflexivity.
Qed.
Definition zrange (lo n : Z) : list Z := map (fun i => lo + Z.of_nat i) (seq 0 (Z.to_nat n)).
Lemma zrange_in : forall lo n k, lo <= k < lo + n -> In k (zrange lo n).
Proof. intros lo n k H. apply in_map_iff. exists (Z.to_nat (k - lo)). split; [lia|]. apply in_seq. lia. Qed.
Lemma zrange_len : forall lo n, 0 <= n -> Z.of_nat (length (zrange lo n)) = n.
Proof. intros lo n H. unfold zrange. rewrite map_length, seq_length. lia. Qed.

(** whatever the hash function answers and whatever the blinding draws are: of the ub^n sequences of n masks, at most (2lb-1)^n do
    not lead to a proof, and that is at most one in 2^(n(Bb-1)) *)
Theorem C46_abort_runs : forall GF GE HO pr x rp rq1 rq2 bl (runs : list (list Z)),
  Digest32 HO -> 0 < gN GF -> 0 < gN GE -> SetupParams pr -> vBc pr <= 263 -> 0 <= x < 2 ^ vBx pr ->
  let n := Z.of_nat (length bl) in let lb := 2 ^ (vBx pr + vBc pr) in let ub := 2 ^ (vBg pr - 1) in
  NoDup runs ->
  (forall ks, In ks runs -> length ks = length bl /\ (forall k, In k ks -> 0 <= k < ub) /\
     forall pf, vpProve GF GE HO x rp rq1 rq2 pr (draws ks bl) <> Ok pf) ->
  Z.of_nat (length runs) <= (2 * lb - 1) ^ n /\ Z.of_nat (length runs) * 2 ^ (n * (vBb pr - 1)) <= ub ^ n.
Proof.
  intros GF GE HO pr x rp rq1 rq2 bl runs HD PF PE HS HB Hx n lb ub HN HR.
  destruct (setup_facts pr HS) as (HBx & HBc & HBg & _ & _ & _ & _ & Hb).
  assert (Hub : ub = lb * 2 ^ vBb pr) by (unfold ub, lb; rewrite <- Z.pow_add_r by lia; f_equal; lia).
  assert (Hlb : 0 < lb) by (unfold lb; apply Z.pow_pos_nonneg; lia).
  assert (Hb2 : 2 <= 2 ^ vBb pr) by (change 2 with (2 ^ 1) at 1; apply Z.pow_le_mono_r; lia).
  set (bad := zrange 0 lb ++ zrange (ub - lb + 1) (lb - 1)).
  assert (Hbad : Z.of_nat (length bad) = 2 * lb - 1) by (unfold bad; rewrite app_length, Nat2Z.inj_add, !zrange_len by lia; lia).
  assert (Hincl : incl runs (sequences bad (length bl))).
  { intros ks Hks. destruct (HR ks Hks) as (Hl & Hr & Hno). rewrite <- Hl. apply sequences_in. intros k Hk.
    destruct (Z.lt_ge_cases k lb) as [Hlt|Hge]; [apply in_or_app; left; apply zrange_in; specialize (Hr k Hk); lia|].
    destruct (Z.le_gt_cases k (ub - lb)) as [Hle|Hgt]; [|apply in_or_app; right; apply zrange_in; specialize (Hr k Hk); lia].
    exfalso. destruct (In_nth ks k 0 Hk) as (i & Hi & Ei).
    set (b := nth i bl (0, 0, 0)). set (dr := mkDraw k (fst (fst b)) (snd (fst b)) (snd b)).
    assert (Hin : In dr (draws ks bl)).
    { unfold draws. apply in_map_iff. exists (k, b). split; [reflexivity|]. unfold b. rewrite <- Ei, <- combine_nth by exact Hl. apply nth_In. rewrite combine_length. lia. }
    destruct (C46_progress GF GE HO pr x rp rq1 rq2 (draws ks bl) dr HD PF PE HS HB Hx Hin) as (pf & Hpf); [unfold dr; cbn [dk]; fold lb ub; lia|].
    exact (Hno pf Hpf). }
  pose proof (NoDup_incl_length HN Hincl) as Hlen. apply Nat2Z.inj_le in Hlen. rewrite sequences_len, Hbad in Hlen. fold n in Hlen.
  split; [exact Hlen|].
  assert (Hn : 0 <= n) by (unfold n; lia).
  assert (Hm : (2 * lb - 1) * 2 ^ (vBb pr - 1) <= ub).
  { assert (0 < 2 ^ (vBb pr - 1)) by (apply Z.pow_pos_nonneg; lia).
    assert (2 ^ vBb pr = 2 * 2 ^ (vBb pr - 1)) by (rewrite <- Z.pow_succ_r by lia; f_equal; lia). nia. }
  apply Z.le_trans with ((2 * lb - 1) ^ n * 2 ^ (n * (vBb pr - 1))); [apply Z.mul_le_mono_nonneg_r; [apply Z.pow_nonneg; lia|exact Hlen]|].
  rewrite Z.mul_comm with (n := n), Z.pow_mul_r, <- Z.pow_mul_l by lia. apply Z.pow_le_mono_l. split; [|exact Hm]. apply Z.mul_nonneg_nonneg; [lia|apply Z.pow_nonneg; lia].
Qed.

(** a run of two masks that both abort *)
Example C46_abort_runs_case : let bl := [(1, 2, 3); (4, 5, 6)] in
  SetupParams toyPr /\ (forall k, In k [3; 5] -> 0 <= k < 2 ^ (vBg toyPr - 1)) /\
  match vpProve toyF toyE (toyD 0) 1 44 55 66 toyPr (draws [3; 5] bl) with Ok _ => false | _ => true end = true.
Proof. cbv zeta. split; [apply toyPr_setup|]. split; [intros k [<-|[<-|[]]]; cbn; lia|]. vm_compute. reflexivity. Qed.
Print Assumptions C46_abort_runs.
