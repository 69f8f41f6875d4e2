(** A double-and-add chain on the twisted Edwards curve whose results and quotients come with the certificate and need not be trusted;
    and a cyclic group from an element of order n, an element of order 8 and a bound on the number of elements. Nothing here models
    code of /repo. *)
From Verif Require Import GoBase Json GroupIface ECJson Curve NumTh Mulw Toy PropEC PropCurve ECLaw ECPoints ECOrder EdLaw EdPoints.
From Coq Require Import Znumtheory.

(** ** Cyclic of order 8n *)
Section Cyclic.
Context (T : Type) (O : T) (add : T -> T -> T) (neg : T -> T).
Context (comm : forall a b, add a b = add b a) (assoc : forall a b c, add a (add b c) = add (add a b) c)
  (idl : forall a, add O a = a) (negr : forall a, add a (neg a) = O) (eq_dec : forall a b : T, {a = b} + {a <> b}).
Local Notation mul := (mul T O add).
Let mplus := mul_plus T O add assoc idl.
Let mO := mul_O T O add idl.
Let mmul := mul_mul T O add assoc idl.
Let mdist := mul_dist T O add comm assoc idl.
Let can := cancel T O add neg comm assoc idl negr.
(** an element of exact order m generates everything when there are fewer than 2m elements *)
Lemma few_elements : forall G m code M, (0 < m)%nat -> mul m G = O -> (forall e, mul e G = O -> (e mod m = 0)%nat) ->
  (forall a, 0 <= code a < M) -> (forall a b : T, code a = code b -> a = b) -> M < 2 * Z.of_nat m ->
  forall P, exists j, P = mul j G.
Proof.
  intros G m code M Hm HmG Hord Hr Hinj HM P.
  assert (Minj : forall i j, (i < m)%nat -> (j < m)%nat -> mul i G = mul j G -> i = j).
  { assert (W : forall i j, (i < m)%nat -> (j < m)%nat -> (i <= j)%nat -> mul i G = mul j G -> i = j).
    { intros i j Hi Hj Hij H. replace j with (i + (j - i))%nat in H by lia. rewrite mplus in H. rewrite <- (idr T O add comm idl (mul i G)) in H at 1.
      apply can in H. symmetry in H. apply Hord in H. rewrite Nat.mod_small in H; lia. }
    intros i j Hi Hj H. destruct (Nat.le_ge_cases i j); [apply W|symmetry; apply W; [..|symmetry]]; assumption. }
  set (L := map (fun j => mul j G) (seq 0 m)). destruct (in_dec eq_dec P L) as [HI|HN].
  - apply in_map_iff in HI. destruct HI as (j & <- & _). exists j. reflexivity.
  - exfalso. set (C := fun a => map (fun j => code (add a (mul j G))) (seq 0 m)).
    assert (ND : forall a, NoDup (C a)).
    { intros a. assert (W : forall l, NoDup l -> (forall i, In i l -> (i < m)%nat) -> NoDup (map (fun j => code (add a (mul j G))) l)).
      { induction l as [|i l IH]; intros HN' HL; [constructor|]. inversion HN'; subst. cbn [map]. constructor.
        - intros HI. apply in_map_iff in HI. destruct HI as (j & Hj & HI). apply Hinj, can in Hj. apply Minj in Hj; [subst; contradiction|apply HL; right; exact HI|apply HL; left; reflexivity].
        - apply IH; [assumption|]. intros; apply HL; right; assumption. }
      apply W; [apply seq_NoDup|]. intros i Hi. apply in_seq in Hi. lia. }
    assert (N2 : NoDup (C O ++ C P)).
    { apply nodup_app; [apply ND|apply ND|]. intros z Ha Hb. unfold C in *. apply in_map_iff in Ha, Hb. destruct Ha as (i & Ei & Hi), Hb as (j & Ej & Hj).
      rewrite <- Ej in Ei. apply Hinj in Ei. rewrite idl in Ei. apply HN. apply in_map_iff.
      (* P = (i + (m - j)) G *)
      apply in_seq in Hi, Hj. exists ((i + (m - j)) mod m)%nat. split; [|apply in_seq; pose proof (Nat.mod_upper_bound (i + (m - j)) m ltac:(lia)); lia].
      assert (EM : mul ((i + (m - j)) mod m) G = mul (i + (m - j)) G).
      { rewrite (Nat.div_mod (i + (m - j)) m) at 2 by lia. rewrite mplus, (Nat.mul_comm m), <- mmul, HmG, mO, idl. reflexivity. }
      rewrite EM, mplus, Ei, <- assoc, <- mplus. replace (j + (m - j))%nat with m by lia. rewrite HmG. apply (idr T O add comm idl). }
    assert (HI : incl (C O ++ C P) (map Z.of_nat (seq 0 (Z.to_nat M)))).
    { intros z Hz. assert (R : 0 <= z < M) by (rewrite in_app_iff in Hz; unfold C in Hz; rewrite !in_map_iff in Hz; destruct Hz as [(j & <- & _)|(j & <- & _)]; apply Hr).
      apply in_map_iff. exists (Z.to_nat z). split; [lia|]. apply in_seq. lia. }
    pose proof (NoDup_incl_length N2 HI) as HL. rewrite !app_length, map_length, seq_length in HL. unfold C in HL. rewrite !map_length, seq_length in HL. pose proof (Hr O). lia.
Qed.
(** orders n and 8 *)
Context (n : nat) (Hn : prime (Z.of_nat n)) (Hn2 : (2 < n)%nat) (B S : T) (HB : B <> O) (HnB : mul n B = O) (HS4 : mul 4 S <> O) (HS8 : mul 8 S = O).
Lemma S_order : forall e, mul e S = O -> (e mod 8 = 0)%nat.
Proof.
  intros e He. destruct (Nat.eq_dec (e mod 8) 0) as [|E]; [assumption|exfalso].
  assert (Hr : mul (e mod 8) S = O).
  { rewrite (Nat.div_mod e 8) in He by lia. rewrite mplus, (Nat.mul_comm 8), <- mmul, HS8, mO, idl in He. exact He. }
  pose proof (Nat.mod_upper_bound e 8 ltac:(lia)). generalize dependent (e mod 8)%nat. intros r E Hr Br. apply HS4.
  assert (K : forall q, mul (q * r) S = O) by (intros q; rewrite <- mmul, Hr; apply mO).
  assert (K8 : forall a, mul (8 + a) S = O -> mul a S = O) by (intros a Ha; rewrite mplus, HS8, idl in Ha; exact Ha).
  destruct r as [|[|[|[|[|[|[|[|r]]]]]]]]; try lia.
  - apply (K 4%nat).
  - apply (K 2%nat).
  - apply K8, (K 4%nat).
  - apply (K 1%nat).
  - apply K8, K8, (K 4%nat).
  - apply K8, (K 2%nat).
  - apply K8, K8, K8, (K 4%nat).
Qed.
Lemma order_8n : forall e, mul e (add B S) = O -> (e mod (8 * n) = 0)%nat.
Proof.
  intros e He.
  assert (E1 : mul (8 * e) B = O).
  { rewrite <- (idr T O add comm idl (mul (8 * e) B)). replace O with (mul (8 * e) S) at 2; [|rewrite Nat.mul_comm, <- mmul, HS8; apply mO].
    rewrite <- mdist, <- mmul, He. apply mO. }
  assert (E2 : mul (n * e) S = O).
  { rewrite <- (idl (mul (n * e) S)). replace O with (mul (n * e) B) at 1; [|rewrite Nat.mul_comm, <- mmul, HnB; apply mO].
    rewrite <- mdist, <- mmul, He. apply mO. }
  apply (mul_none T O add comm assoc idl n Hn B HB HnB) in E1. apply S_order in E2.
  assert (D1 : (Z.of_nat n | Z.of_nat e)).
  { assert (D : (Z.of_nat n | Z.of_nat (8 * e))) by (apply Z.mod_divide; [lia|]; rewrite <- Nat2Z.inj_mod; lia).
    rewrite Nat2Z.inj_mul in D. apply prime_mult in D; [|exact Hn]. destruct D as [D|D]; [exfalso|exact D].
    change (Z.of_nat 8) with (2 * (2 * 2)) in D. apply prime_mult in D; [|exact Hn]. destruct D as [D|D]; [apply Z.divide_pos_le in D; lia|].
    apply prime_mult in D; [|exact Hn]. destruct D as [D|D]; apply Z.divide_pos_le in D; lia. }
  assert (D2 : (8 | Z.of_nat e)).
  { assert (D : (8 | Z.of_nat n * Z.of_nat e)) by (rewrite <- Nat2Z.inj_mul; apply Z.mod_divide; [lia|]; change 8 with (Z.of_nat 8); rewrite <- Nat2Z.inj_mod; lia).
    apply Gauss in D; [exact D|]. apply rel_prime_sym. apply prime_rel_prime; [exact Hn|]. intros D'.
    change 8 with (2 * (2 * 2)) in D'. apply prime_mult in D'; [|exact Hn]. destruct D' as [D'|D']; [apply Z.divide_pos_le in D'; lia|].
    apply prime_mult in D'; [|exact Hn]. destruct D' as [D'|D']; apply Z.divide_pos_le in D'; lia. }
  assert (D : (Z.of_nat (8 * n) | Z.of_nat e)).
  { rewrite Nat2Z.inj_mul. destruct D1 as [q Hq]. rewrite Hq in *. apply Z.mul_divide_mono_r.
    rewrite Z.mul_comm in D2. apply Gauss in D2; [exact D2|]. apply rel_prime_sym. apply prime_rel_prime; [exact Hn|]. intros D'.
    change (Z.of_nat 8) with (2 * (2 * 2)) in *. change 8 with (2 * (2 * 2)) in D'. apply prime_mult in D'; [|exact Hn]. destruct D' as [D'|D']; [apply Z.divide_pos_le in D'; lia|].
    apply prime_mult in D'; [|exact Hn]. destruct D' as [D'|D']; apply Z.divide_pos_le in D'; lia. }
  apply Z.mod_divide in D; [|lia]. rewrite <- Nat2Z.inj_mod in D. lia.
Qed.
Lemma mul_8n : mul (8 * n) (add B S) = O.
Proof. rewrite mdist, <- mmul, HnB, mO, idl, Nat.mul_comm, <- mmul, HS8. apply mO. Qed.
Theorem cyclic_8n : forall code M, (forall a, 0 <= code a < M) -> (forall a b : T, code a = code b -> a = b) -> M < 16 * Z.of_nat n ->
  forall P, exists j, P = mul j (add B S).
Proof.
  intros code M Hr Hinj HM. apply (few_elements (add B S) (8 * n) code M); [lia|exact mul_8n|exact order_8n|exact Hr|exact Hinj|lia].
Qed.
(** each of them exactly once *)
Lemma unique_8n : forall P, (exists j, P = mul j (add B S)) -> exists j, (j < 8 * n)%nat /\ P = mul j (add B S) /\ forall j', (j' < 8 * n)%nat -> P = mul j' (add B S) -> j' = j.
Proof.
  assert (W : forall i j, (i < 8 * n)%nat -> (j < 8 * n)%nat -> (i <= j)%nat -> mul i (add B S) = mul j (add B S) -> i = j).
  { intros i j Hi Hj Hij H. replace j with (i + (j - i))%nat in H by lia. rewrite mplus in H. rewrite <- (idr T O add comm idl (mul i (add B S))) in H at 1.
    apply can in H. symmetry in H. apply order_8n in H. rewrite Nat.mod_small in H; lia. }
  intros P [j ->]. exists (j mod (8 * n))%nat. pose proof (Nat.mod_upper_bound j (8 * n) ltac:(lia)) as Bj.
  assert (EM : mul j (add B S) = mul (j mod (8 * n)) (add B S)).
  { rewrite (Nat.div_mod j (8 * n)) at 1 by lia. rewrite mplus, (Nat.mul_comm (8 * n)), <- mmul, mul_8n, mO, idl. reflexivity. }
  split; [exact Bj|]. split; [exact EM|]. rewrite EM. intros j' Bj' E. destruct (Nat.le_ge_cases j' (j mod (8 * n))); [apply W|symmetry; apply W]; try assumption. symmetry. exact E.
Qed.
End Cyclic.

(** ** Chains *)
Section Chain.
Context (A B gx gy e0 : Z).                          (* the field is A - B, the point (gx, gy), and e0 = d gx gy *)
Definition inF (x y : Z) : bool := (0 <=? x) && (x <? A - B) && (0 <=? y) && (y <? A - B).
Definition red (z q : Z) : Z := z - A * q + B * q.
Definition wit5 : Type := (Z * Z * Z * Z * Z)%type.
Definition wit6 : Type := (Z * Z * Z * Z * Z * Z)%type.
Definition dblStep (x y : Z) (w : wit5) : bool :=
  let '(x', y', k, q1, q2) := w in
  let x2 := Z.square x in let y2 := Z.square y in let u := red (y2 - x2) k in
  inF x' y' && (red (zmw x' u) q1 =? 2 * zmw x y) && (red (zmw y' (2 - u)) q2 =? y2 + x2).
Definition addStep (neg : bool) (x y : Z) (w : wit6) : bool :=
  let '(x', y', k1, k2, q1, q2) := w in
  let e := red (zmw e0 (red (zmw x y) k1)) k2 in
  if neg then
    inF x' y' && (red (zmw x' (1 - e)) q1 =? zmw x gy - zmw y gx) && (red (zmw y' (1 + e)) q2 =? zmw y gy - zmw x gx)
  else
    inF x' y' && (red (zmw x' (1 + e)) q1 =? zmw x gy + zmw y gx) && (red (zmw y' (1 - e)) q2 =? zmw y gy + zmw x gx).
Fixpoint edChain (l : list (wit5 * option (bool * wit6))) (x y s : Z) (fin : Z -> Z -> Z -> bool) : bool :=
  match l with
  | [] => fin x y s
  | (w, o) :: t =>
      if dblStep x y w then
        let '(x', y', _, _, _) := w in
        match o with
        | None => edChain t x' y' (2 * s) fin
        | Some (neg, v) =>
            if addStep neg x' y' v then
              let '(x'', y'', _, _, _, _) := v in edChain t x'' y'' (if neg : bool then 2 * s - 1 else 2 * s + 1) fin
            else false
        end
      else false
  end.
End Chain.

Section Spec.
Context (p d : Z) (OK : EdOk p d) (A B gx gy e0 : Z) (HAB : p = A - B) (He0 : eqm p e0 (d * gx * gy)) (HG : edPointb p d (gx, gy) = true).
Lemma red_eqm : forall z q, eqm p (red A B z q) z.
Proof. intros z q. pose proof (ed_p1 p d OK). apply eqm_iff; [lia|]. exists (- q). unfold red. rewrite HAB. ring. Qed.
Lemma via_red : forall z q t, red A B z q = t -> eqm p z t.
Proof. intros z q t <-. symmetry. apply red_eqm. Qed.
Lemma inF_iff : forall x y, inF A B x y = true -> inR p (x, y).
Proof. intros x y. unfold inF, inR. rewrite <- HAB, !andb_true_iff, !Z.leb_le, !Z.ltb_lt. cbn [fst snd]. lia. Qed.
Lemma dblStep_ok : forall x y x' y' k q1 q2, edPointb p d (x, y) = true -> dblStep A B x y (x', y', k, q1, q2) = true ->
  edAddZ p d (x, y) (x, y) = (x', y').
Proof.
  intros x y x' y' k q1 q2 HP H. unfold dblStep in H. rewrite !andb_true_iff, !Z.eqb_eq, !zmw_spec, !Z.square_spec in H. destruct H as [[HI E1] E2].
  apply (dbl_eqm p d OK x y x' y' (red A B (y * y - x * x) k)); [exact HP|apply inF_iff; exact HI|apply red_eqm| |].
  - apply (via_red _ q1). rewrite E1. ring.
  - apply (via_red _ q2). rewrite E2. ring.
Qed.
Lemma addStep_ok : forall neg x y x' y' k1 k2 q1 q2, edPointb p d (x, y) = true -> addStep A B gx gy e0 neg x y (x', y', k1, k2, q1, q2) = true ->
  edAddZ p d (x, y) (if neg : bool then edNegZ p (gx, gy) else (gx, gy)) = (x', y').
Proof.
  intros neg x y x' y' k1 k2 q1 q2 HP H. unfold addStep in H. set (e := red A B _ k2) in *.
  assert (Ee : eqm p e (d * x * gx * y * gy)).
  { unfold e. rewrite red_eqm, zmw_spec, red_eqm, zmw_spec, He0. apply eqm_of_eq. ring. }
  clearbody e. destruct neg; rewrite !andb_true_iff, !Z.eqb_eq, !zmw_spec in H; destruct H as [[HI E1] E2].
  - pose proof (neg_b p d OK _ HG) as HN. cbn [edNegZ] in *.
    apply (add_eqm p d OK x y ((- gx) mod p) gy x' y' (- e)); [exact HP|exact HN|apply inF_iff; exact HI| | |].
    + rewrite Ee, Zmod_eqm. apply eqm_of_eq. ring.
    + rewrite Zmod_eqm. replace (1 + - e) with (1 - e) by ring. apply (via_red _ q1). rewrite E1. ring.
    + rewrite Zmod_eqm. replace (1 - - e) with (1 + e) by ring. apply (via_red _ q2). rewrite E2. ring.
  - apply (add_eqm p d OK x y gx gy x' y' e); [exact HP|exact HG|apply inF_iff; exact HI|exact Ee| |].
    + apply (via_red _ q1). rewrite E1. ring.
    + apply (via_red _ q2). rewrite E2. ring.
Qed.
Local Notation T := (EPt p d). Local Notation O := (eId p d OK). Local Notation add := (eAdd p d OK). Local Notation neg := (eNeg p d OK).
Local Notation emul := (mul T O add).
Let G : T := mkEPt p d (gx, gy) HG.
Lemma edChain_spec : forall fin l x y s P, ev p d P = (x, y) -> 0 < s -> P = emul (Z.to_nat s) G ->
  edChain A B gx gy e0 l x y s fin = true ->
  exists P' x' y' s', ev p d P' = (x', y') /\ 0 < s' /\ P' = emul (Z.to_nat s') G /\ fin x' y' s' = true.
Proof.
  intros fin. induction l as [|[[[[[x' y'] k] q1] q2] o] l IH]; intros x y s P HP Hs HM H; [exists P, x, y, s; repeat (split; [assumption|]); assumption|].
  cbn [edChain] in H. destruct (dblStep A B x y _) eqn:E1; [|discriminate].
  assert (HPb : edPointb p d (x, y) = true) by (rewrite <- HP; apply eok).
  apply dblStep_ok in E1; [|exact HPb].
  assert (D : ev p d (add P P) = (x', y')) by (cbn [eAdd ev]; rewrite HP; exact E1).
  assert (M2 : add P P = emul (Z.to_nat (2 * s)) G).
  { replace (2 * s) with (s + s) by ring. rewrite Z2Nat.inj_add by lia. rewrite (mul_plus T O add (e_assoc p d OK) (e_id p d OK)), <- HM. reflexivity. }
  destruct o as [[ng [[[[[x'' y''] k1] k2] r1] r2]]|].
  - destruct (addStep A B gx gy e0 ng x' y' _) eqn:E2; [|discriminate].
    assert (HPb' : edPointb p d (x', y') = true) by (rewrite <- D; apply eok).
    apply addStep_ok in E2; [|exact HPb'].
    set (Q := if ng then neg G else G).
    assert (D' : ev p d (add (add P P) Q) = (x'', y'')).
    { cbn [eAdd ev]. cbn [eAdd ev] in D. rewrite D, <- E2. f_equal. unfold Q. destruct ng; reflexivity. }
    apply (IH x'' y'' _ (add (add P P) Q)) in H; [exact H|exact D'|destruct ng; lia|].
    rewrite M2. unfold Q. destruct ng.
    + replace (2 * s) with ((2 * s - 1) + 1) at 1 by ring. rewrite Z2Nat.inj_add by lia.
      rewrite (mul_plus T O add (e_assoc p d OK) (e_id p d OK)). change (emul (Z.to_nat 1) G) with (add G O).
      rewrite (e_comm p d OK G O), (e_id p d OK), <- (e_assoc p d OK), (e_neg p d OK), (e_comm p d OK), (e_id p d OK). reflexivity.
    + rewrite Z2Nat.inj_add by lia. rewrite (mul_plus T O add (e_assoc p d OK) (e_id p d OK)). change (emul (Z.to_nat 1) G) with (add G O).
      rewrite (e_comm p d OK G O), (e_id p d OK). reflexivity.
  - apply (IH x' y' _ (add P P)) in H; [exact H|exact D|lia|exact M2].
Qed.
(** (n - 1)(gx, gy) = (-gx, gy) *)
Definition ed_cert (n : Z) (l : list (wit5 * option (bool * wit6))) : bool :=
  edChain A B gx gy e0 l gx gy 1 (fun x y s => (x =? (- gx) mod p) && (y =? gy) && (s =? n - 1)).
Theorem ed_cert_ok : forall n l, ed_cert n l = true -> emul (Z.to_nat n) G = O.
Proof.
  intros n l H. unfold ed_cert in H. apply (edChain_spec _ l gx gy 1 G) in H; [|reflexivity|lia|].
  - destruct H as (P & x & y & s & HP & Hs & HM & H). rewrite !andb_true_iff, !Z.eqb_eq in H. destruct H as [[-> ->] ->].
    assert (E : P = neg G) by (apply ept_eq; rewrite HP; reflexivity).
    replace n with (1 + (n - 1)) by ring. rewrite Z2Nat.inj_add by lia. change (Z.to_nat 1) with 1%nat.
    change (add G (emul (Z.to_nat (n - 1)) G) = O) || rewrite (mul_plus T O add (e_assoc p d OK) (e_id p d OK)), (mul_1 T O add (e_comm p d OK) (e_id p d OK)).
    rewrite <- HM, E. apply (e_neg p d OK).
  - symmetry. apply (mul_1 T O add (e_comm p d OK) (e_id p d OK)).
Qed.
End Spec.
