(** C39, C51, C52: the P-256/P-384 groups (group/p256.go, p384.go) over circl's contract, and what is hashed. *)
From Verif Require Import GoBase Json GroupIface Vector BIP ECJson Curve NumTh BytesProofs ModPProofs Toy PropModP PropEC.
From Coq Require Import Znumtheory Eqdep_dec DecimalString.

(** ** C51: the Element contract *)
Lemma pt_eq : forall cv (a b : Pt cv), pv a = pv b -> a = b.
Proof. intros cv [a Ha] [b Hb]; cbn; intros ->. f_equal. apply UIP_dec. apply bool_dec. Qed.
Lemma isPointb_iff : forall cv P, isPointb cv P = true <-> IsPoint cv P.
Proof.
  intros cv [x y]. unfold isPointb, IsPoint, ecIsIdentity. cbn [fst snd]. rewrite orb_true_iff, andb_true_iff, !Z.eqb_eq. split.
  - intros [[-> ->]|H]; [left; reflexivity|right; exact H].
  - intros [H|H]; [injection H as -> ->; left; split; reflexivity|right; exact H].
Qed.
Lemma ptOf_pv : forall cv (a : Pt cv), ptOf cv (pv a) = Some a.
Proof.
  intros cv a. unfold ptOf. destruct (bool_dec (isPointb cv (pv a)) true) as [H|H]; [|destruct (H (pok a))].
  f_equal. apply pt_eq. reflexivity.
Qed.
Lemma ptOf_some : forall cv P, IsPoint cv P -> exists p, ptOf cv P = Some p /\ pv p = P.
Proof.
  intros cv P H. apply isPointb_iff in H. unfold ptOf. destruct (bool_dec (isPointb cv P) true) as [H'|H']; [|destruct (H' H)].
  eexists. split; reflexivity.
Qed.
Lemma cg_isid : forall cv (a : Pt cv), cgIsIdentity cv a = true <-> a = ptId cv.
Proof.
  intros cv a. unfold cgIsIdentity, ecIsIdentity. rewrite andb_true_iff, !Z.eqb_eq. split.
  - intros [H1 H2]. apply pt_eq. destruct (pv a). cbn in *. congruence.
  - intros ->. split; reflexivity.
Qed.

Section Laws.
Context (cv : Curve) (name : string) (n : Z) (ci : Circl cv) (CO : CirclOk cv n ci).
Let G := CurveGrp cv name n ci.

Theorem C51_curve_group_contract : GrpLaws G.
Proof.
  pose proof (co_order _ _ _ CO) as Hn. constructor; cbn [G CurveGrp gN gAdd gSub gNeg gScale gBase gEq gIsId gId gGen].
  - exact Hn.
  - intros. apply (co_comm _ _ _ CO).
  - intros. apply (co_assoc _ _ _ CO).
  - intros. apply (co_id _ _ _ CO).
  - intros. apply (co_neg _ _ _ CO).
  - reflexivity.
  - intros. unfold cgScale. rewrite Zmod_0_l. apply (co_mul0 _ _ _ CO).
  - intros X s. unfold cgScale, cgAdd. pose proof (Z.mod_pos_bound s n ltac:(lia)).
    rewrite <- (Zplus_mod_idemp_l s 1 n). destruct (Z.eq_dec (s mod n + 1) n) as [e|e].
    + rewrite e, Z_mod_same_full, (co_mul0 _ _ _ CO). replace (s mod n) with (n - 1) by lia. symmetry. apply (co_exp _ _ _ CO).
    + rewrite (Z.mod_small (s mod n + 1)) by lia. apply (co_mulS _ _ _ CO); lia.
  - intros. unfold cgScale. rewrite Z_mod_same_full. apply (co_mul0 _ _ _ CO).
  - intros. apply (co_gen _ _ _ CO). apply Z.mod_pos_bound. lia.
  - intros X Y. unfold cgIsEqual. rewrite andb_true_iff, !Z.eqb_eq. split.
    + intros [H1 H2]. apply pt_eq. destruct (pv X), (pv Y). cbn in *. congruence.
    + intros ->. split; reflexivity.
  - intros. apply cg_isid.
Qed.
(** prime order: then every non-identity point generates *)
Theorem C51_prime : prime n -> ciGen ci <> ptId cv -> (forall P, exists s, P = ciMul ci (ciGen ci) s /\ 0 <= s < n) -> GrpPrime G.
Proof.
  intros Hp Hg Hc. constructor; [apply C51_curve_group_contract|exact Hp|exact Hg|].
  intros X. destruct (Hc X) as [s [-> Hs]]. exists s. cbn. unfold cgScale. rewrite Z.mod_small by exact Hs. reflexivity.
Qed.

(** ** JSON of elements: decoding what was encoded gives the element back, whatever the receiver was *)
Lemma cg_json_point : forall old j P, ecUnmarshalJSON cv old j = Ok (P, true) -> (0 < cvL cv)%nat -> exists p, ptOf cv P = Some p /\ pv p = P.
Proof. intros old j P H HL. apply ptOf_some. apply (C31_decoded_is_point cv old j P true HL H). reflexivity. Qed.
Theorem C31_element_json : GoodCurve cv -> forall X old, exists j, gToJson G X = Ok j /\ gOfJson G old (Some j) = Ok (X, true).
Proof.
  intros GC X old. destruct (C31_json_roundtrip cv (pv X) (pv old) GC) as [j [H1 H2]]; [apply isPointb_iff; apply pok|].
  exists j. split; [exact H1|]. cbn [G CurveGrp gOfJson]. unfold cgUnmarshalJSON. rewrite H2. cbn [bind]. rewrite ptOf_pv. reflexivity.
Qed.

(** ** C52: SetBytes has no way to report a bad encoding *)
Theorem C52_setbytes_exact : forall b, GoodCurve cv ->
  (forall c P, cvDecomp cv c = Some P -> IsPoint cv P) ->
  match ecUnmarshalBinary cv b with
  | Some P => pv (cgSetBytes cv b) = P
  | None => cgSetBytes cv b = ptId cv      (* silently the identity *)
  end.
Proof.
  intros b GC Hd. unfold cgSetBytes. destruct (ecUnmarshalBinary cv b) as [P|] eqn:E; [|reflexivity].
  destruct (ptOf_some cv P) as [p [-> Hp]]; [|exact Hp]. unfold ecUnmarshalBinary in E. destruct b as [|t r]; [discriminate|].
  destruct (_ && _); [injection E as <-; left; reflexivity|]. destruct (_ && _); [eapply Hd; exact E|].
  destruct (_ && _); [|discriminate]. destruct (onCurve cv _ _) eqn:EC; [|discriminate]. injection E as <-. right. exact EC.
Qed.
Theorem C52_roundtrip : forall X, GoodCurve cv -> cgSetBytes cv (cgString cv X) = X /\ cgUnmarshalBinary cv (ptId cv) (cgString cv X) = (X, true).
Proof.
  intros X GC. unfold cgSetBytes, cgUnmarshalBinary, cgString, ecString. rewrite C31_binary_roundtrip; [|exact GC|apply isPointb_iff; apply pok].
  rewrite ptOf_pv. split; reflexivity.
Qed.

(** ** C39 *)
(** element encodings: a self-delimiting code whose first byte is 0 or 4 *)
Lemma cg_str_shape : forall X : Pt cv, cgString cv X = [0] \/ exists r, cgString cv X = 4 :: r /\ length r = (2 * cvL cv)%nat.
Proof.
  intros X. unfold cgString, ecString, ecMarshalBinary. destruct (ecIsIdentity (pv X)); [left; reflexivity|right].
  eexists. split; [reflexivity|]. rewrite app_length, !i2osp_length. lia.
Qed.
Lemma app_len_inj : forall (a b c e : bytes), length a = length b -> a ++ c = b ++ e -> a = b /\ c = e.
Proof.
  induction a as [|x a IH]; intros [|y b] c e Hab He; try discriminate; [auto|]. cbn in *. injection He as -> He. injection Hab as Hab.
  destruct (IH b c e Hab He) as [-> ->]. auto.
Qed.
Lemma cg_str_inj : forall (X Y : Pt cv) r s, GoodCurve cv -> cgString cv X ++ r = cgString cv Y ++ s -> X = Y /\ r = s.
Proof.
  intros X Y r s GC H. assert (Hs : cgString cv X = cgString cv Y /\ r = s).
  { destruct (cg_str_shape X) as [HX|[bx [HX Lx]]], (cg_str_shape Y) as [HY|[by_ [HY Ly]]]; rewrite HX, HY in H |- *; cbn [app] in H; try discriminate.
    - injection H as ->. auto.
    - injection H as H. apply app_len_inj in H; [|lia]. destruct H as [-> ->]. auto. }
  destruct Hs as [Hs ->]. split; [|reflexivity].
  rewrite <- (proj1 (C52_roundtrip X GC)), Hs. apply (C52_roundtrip Y GC).
Qed.
(** the decimal that ends hashIP's input starts with a digit, '-' or '<' *)
Lemma str_hd : forall s x r, str_bytes s = x :: r -> exists c t, s = String c t /\ x = Z.of_nat (nat_of_ascii c).
Proof. intros [|c t] x r H; [discriminate|]. injection H as <- _. exists c, t. split; reflexivity. Qed.
Lemma uint_hd : forall u c t, NilZero.string_of_uint u = String c t -> 48 <= Z.of_nat (nat_of_ascii c) <= 57.
Proof. intros u c t H. destruct u; cbn in H; injection H as <- _; cbn; lia. Qed.
Lemma dec_opt_hd : forall c x r, dec_str_opt c = x :: r -> 45 <= x <= 60.
Proof.
  intros [z|] x r H; cbn [dec_str_opt] in H; [|injection H as <- _; cbn; lia].
  unfold dec_str in H. apply str_hd in H. destruct H as [c [t [H ->]]]. destruct (Z.to_int z) as [u|u]; cbn [NilZero.string_of_int] in H.
  - apply uint_hd in H. lia.
  - injection H as <- _. cbn. lia.
Qed.
Lemma dec_opt_nonnil : forall c, dec_str_opt c <> [].
Proof.
  intros [z|] H; [|discriminate]. cbn [dec_str_opt] in H. unfold dec_str in H. apply (f_equal (@length Z)) in H.
  unfold str_bytes in H. rewrite map_length in H. destruct (Z.to_int z) as [u|u]; cbn [NilZero.string_of_int] in H; [|discriminate].
  destruct u; discriminate.
Qed.
Lemma dec_str_opt_inj : forall a b, dec_str_opt a = dec_str_opt b -> a = b.
Proof.
  assert (Hn : forall z, dec_str z <> str_bytes "<nil>"%string).
  { intros z H. unfold dec_str in H. apply str_bytes_inj in H. destruct (Z.to_int z) as [u|u]; cbn in H; [|discriminate].
    apply (uint_hd u) in H. vm_compute in H. destruct H as [_ H]. apply H. reflexivity. }
  intros [a|] [b|] H; cbn [dec_str_opt] in H; [f_equal; apply dec_str_inj; exact H| | |reflexivity].
  - destruct (Hn _ H).
  - symmetry in H. destruct (Hn _ H).
Qed.
Lemma hashIP_elems_inj : GoodCurve cv -> forall (g g' : list (E G)) h h' m m' c c', length h = length g -> length h' = length g' ->
  hashIP_elems G g h = Ok m -> hashIP_elems G g' h' = Ok m' -> m ++ dec_str_opt c = m' ++ dec_str_opt c' -> g = g' /\ h = h' /\ c = c'.
Proof.
  intros GC.
  assert (Hno : forall (X : E G) r c, cgString cv X ++ r <> dec_str_opt c).
  { intros X r c H. destruct (cg_str_shape X) as [HX|[b [HX _]]]; rewrite HX in H; symmetry in H; apply dec_opt_hd in H; lia. }
  induction g as [|X g IH]; intros g' h h' m m' c c' Hl Hl' Hm Hm' He.
  - destruct h; [|discriminate]. injection Hm as <-. destruct g' as [|X' g'].
    + destruct h'; [|discriminate]. injection Hm' as <-. repeat split. apply dec_str_opt_inj. exact He.
    + destruct h' as [|[Y'|] h']; try discriminate. cbn [hashIP_elems] in Hm'. destruct (hashIP_elems G g' h'); try discriminate. injection Hm' as <-.
      cbn [app] in He. rewrite <- !app_assoc in He. symmetry in He. destruct (Hno _ _ _ He).
  - destruct h as [|[Y|] h]; try discriminate. cbn [hashIP_elems] in Hm. destruct (hashIP_elems G g h) as [m1| | | ] eqn:E1; try discriminate. injection Hm as <-.
    destruct g' as [|X' g'].
    + destruct h'; [|discriminate]. injection Hm' as <-. cbn [app] in He. rewrite <- !app_assoc in He. destruct (Hno _ _ _ He).
    + destruct h' as [|[Y'|] h']; try discriminate. cbn [hashIP_elems] in Hm'. destruct (hashIP_elems G g' h') as [m2| | | ] eqn:E2; try discriminate. injection Hm' as <-.
      rewrite <- !app_assoc in He. apply cg_str_inj in He; [|exact GC]. destruct He as [-> He]. apply cg_str_inj in He; [|exact GC]. destruct He as [-> He].
      cbn in Hl, Hl'. destruct (IH g' h h' m1 m2 c c' (eq_add_S _ _ Hl) (eq_add_S _ _ Hl') E1 E2 He) as [-> [-> ->]]. repeat split.
Qed.

(** an indicator hash function: the challenge is 1 exactly on the given input *)
Definition eqBytes (a b : bytes) : bool := if list_eq_dec Z.eq_dec a b then true else false.
Definition indicator (b0 : bytes) : Oracles := mkOracles (fun b => if eqBytes b b0 then [1] else [0]) (fun d => hd 0 d).
Lemma eqBytes_refl : forall b, eqBytes b b = true.
Proof. intros. unfold eqBytes. destruct (list_eq_dec _ _ _); [reflexivity|contradiction]. Qed.
Lemma eqBytes_eq : forall a b, eqBytes a b = true -> a = b.
Proof. intros a b H. unfold eqBytes in H. destruct (list_eq_dec _ _ _); [assumption|discriminate]. Qed.

(** Challenges that agree for every hash function are challenges for the same elements. *)
Theorem C39_HashBP_injective : forall A S A' S' : E G, GoodCurve cv ->
  (forall HO, HashBP G HO A S = HashBP G HO A' S') -> A = A' /\ S = S'.
Proof.
  intros A S A' S' GC H. specialize (H (indicator (gStr G A ++ gStr G S))). unfold HashBP in H. cbn [indicator sha256] in H.
  rewrite eqBytes_refl in H. destruct (eqBytes (gStr G A' ++ gStr G S') (gStr G A ++ gStr G S)) eqn:E; [|discriminate].
  apply eqBytes_eq in E. cbn [G CurveGrp gStr] in E. apply cg_str_inj in E; [|exact GC]. destruct E as [-> E].
  split; [reflexivity|]. assert (Ha : cgString cv S' ++ [] = cgString cv S ++ []) by (rewrite !app_nil_r; exact E).
  apply cg_str_inj in Ha; [|exact GC]. symmetry. apply Ha.
Qed.
Theorem C39_hashIP_injective : forall (g g' : list (E G)) h h' (P P' : E G) c c', GoodCurve cv ->
  length h = length g -> length h' = length g' -> (forall HO, exists x, hashIP G HO g (map Some h) P c = Ok x /\ hashIP G HO g' (map Some h') P' c' = Ok x) ->
  P = P' /\ g = g' /\ h = h' /\ c = c'.
Proof.
  intros g g' h h' P P' c c' GC Hl Hl' H.
  assert (Hin : exists b, hashIP_input G g (map Some h) P c = Ok b).
  { destruct (H (indicator [])) as [x [H1 _]]. unfold hashIP in H1. destruct (hashIP_input G g (map Some h) P c); try discriminate. eexists; reflexivity. }
  destruct Hin as [b Hb]. destruct (H (indicator b)) as [x [H1 H2]]. unfold hashIP in H1, H2. rewrite Hb in H1. cbn [bind indicator sha256 fromByteArray] in H1.
  rewrite eqBytes_refl in H1. cbn [hd] in H1. injection H1 as <-.
  destruct (hashIP_input G g' (map Some h') P' c') as [b'| | | ] eqn:Hb'; try discriminate. cbn [bind indicator sha256 fromByteArray] in H2.
  destruct (eqBytes b' b) eqn:E; [|discriminate]. apply eqBytes_eq in E. subst b'.
  unfold hashIP_input in Hb, Hb'. destruct (hashIP_elems G g (map Some h)) as [m| | | ] eqn:Em; try discriminate.
  destruct (hashIP_elems G g' (map Some h')) as [m'| | | ] eqn:Em'; try discriminate. cbn [bind] in Hb, Hb'. injection Hb as Hb. injection Hb' as Hb'.
  rewrite <- Hb' in Hb. cbn [G CurveGrp gStr] in Hb. apply cg_str_inj in Hb; [|exact GC]. destruct Hb as [-> Hb].
  destruct (hashIP_elems_inj GC g g' (map Some h) (map Some h') m m' c c') as [Hg [Hh Hc]]; try assumption; try (rewrite map_length; assumption).
  repeat split; try assumption. clear - Hh. revert h' Hh. induction h as [|a h IH]; intros [|b h'] Hh; try discriminate; [reflexivity|].
  cbn [map] in Hh. injection Hh as -> Hh. f_equal. apply IH. exact Hh.
Qed.
End Laws.

(** ** Concrete case: y^2 = x^3 + 3 over F_7 has 13 points, all multiples of (1,2) *)
Definition mult7 : list (Z * Z) := [(0,0); (1,2); (6,3); (2,2); (4,5); (3,3); (5,3); (5,4); (3,4); (4,2); (2,5); (6,4); (1,5)].
Definition pt7 (k : Z) : Pt cv7 := match ptOf cv7 (nth (Z.to_nat (k mod 13)) mult7 (0, 0)) with Some p => p | None => ptId cv7 end.
Definition log7 (P : Pt cv7) : Z :=
  (fix find (l : list (Z * Z)) (i : Z) := match l with [] => 0 | Q :: t => if (fst Q =? fst (pv P)) && (snd Q =? snd (pv P)) then i else find t (i + 1) end) mult7 0.
Definition ci7 : Circl cv7 := mkCircl cv7 (fun P Q => pt7 (log7 P + log7 Q)) (fun P => pt7 (- log7 P)) (fun P s => pt7 (s * log7 P)) (fun s => pt7 s)
  (pt7 1) (fun b => pt7 (1 + os2ip b mod 12)).
Lemma range_cases : forall n z, 0 <= z < Z.of_nat n -> In z (map Z.of_nat (seq 0 n)).
Proof. intros n z H. apply in_map_iff. exists (Z.to_nat z). split; [lia|]. apply in_seq. lia. Qed.
Lemma log7_pt7 : forall k, log7 (pt7 k) = k mod 13.
Proof.
  intros k. assert (Hk : pt7 k = pt7 (k mod 13)) by (unfold pt7; rewrite Zmod_mod; reflexivity). rewrite Hk.
  pose proof (range_cases 13 (k mod 13) ltac:(apply Z.mod_pos_bound; lia)) as Hin. cbn in Hin.
  repeat (destruct Hin as [Hin|Hin]; [rewrite <- Hin; vm_compute; reflexivity|]). destruct Hin.
Qed.
Lemma pt7_log7 : forall P, pt7 (log7 P) = P.
Proof.
  intros [[x y] H]. apply pt_eq. cbn [pv]. pose proof (proj1 (isPointb_iff _ _) H) as HP.
  assert (Hr : 0 <= x < 7 /\ 0 <= y < 7) by (destruct HP as [HP|HP]; [injection HP as -> ->; lia|apply (onCurve_bounds cv7); exact HP]).
  clear HP. destruct Hr as [Hx Hy]. pose proof (range_cases 7 x Hx) as Ix. pose proof (range_cases 7 y Hy) as Iy. clear Hx Hy. cbn in Ix, Iy.
  revert H. repeat (destruct Ix as [Ix|Ix]; [subst x; repeat (destruct Iy as [Iy|Iy]; [subst y; intros H; first [discriminate H|vm_compute; reflexivity]|]); destruct Iy|]). destruct Ix.
Qed.
Lemma log7_inj : forall P Q, log7 P = log7 Q -> P = Q.
Proof. intros P Q H. rewrite <- (pt7_log7 P), <- (pt7_log7 Q), H. reflexivity. Qed.
Lemma log7_bnd : forall P, log7 P mod 13 = log7 P.
Proof. intros P. rewrite <- (pt7_log7 P) at 2. symmetry. apply log7_pt7. Qed.
Lemma ci7_ok : CirclOk cv7 13 ci7.
Proof.
  assert (H0 : log7 (ptId cv7) = 0) by reflexivity.
  constructor; cbn [ci7 ciAdd ciNeg ciMul ciMulGen ciGen]; [lia|..]; intros; apply log7_inj; rewrite ?log7_pt7, ?H0.
  - rewrite Z.add_comm. reflexivity.
  - rewrite Zplus_mod_idemp_r, Zplus_mod_idemp_l. f_equal. ring.
  - apply log7_bnd.
  - rewrite Zplus_mod_idemp_r. rewrite Z.add_opp_diag_r. reflexivity.
  - reflexivity.
  - rewrite Zplus_mod_idemp_l. f_equal. ring.
  - rewrite Zplus_mod_idemp_l. replace ((13 - 1) * log7 P + log7 P) with (log7 P * 13) by ring. apply Z_mod_mult.
  - rewrite Zmult_mod_idemp_r. f_equal. ring.
Qed.
Example C51_case : GoodCurve cv7 /\ GrpPrime (CurveGrp cv7 "toy" 13 ci7) /\ pv (gScale (CurveGrp cv7 "toy" 13 ci7) (pt7 1) (-3)) = (2, 5) /\
  pv (gSub (CurveGrp cv7 "toy" 13 ci7) (pt7 3) (pt7 5)) = (6, 4).
Proof.
  split; [constructor; cbn; lia|]. split; [|split; vm_compute; reflexivity].
  apply C51_prime; [apply ci7_ok|apply prime_check_ok; vm_compute; reflexivity|intros H; apply (f_equal pv) in H; vm_compute in H; discriminate|].
  intros P. exists (log7 P). cbn [ci7 ciMul ciGen]. rewrite log7_pt7. change (1 mod 13) with 1. rewrite Z.mul_1_r, pt7_log7. split; [reflexivity|].
  rewrite <- log7_bnd. apply Z.mod_pos_bound. lia.
Qed.
Example C52_case : pv (cgSetBytes cv7 [4; 1; 2]) = (1, 2) /\ pv (cgSetBytes cv7 [4; 1; 3]) = (0, 0) /\ pv (cgSetBytes cv7 [7]) = (0, 0).
Proof. repeat split; vm_compute; reflexivity. Qed.
Example C39_case : forall HO, hashIP (CurveGrp cv7 "toy" 13 ci7) HO [pt7 1; pt7 0] [Some (pt7 2); Some (pt7 3)] (pt7 4) (Some (-12))
  = Ok (fromByteArray HO (sha256 HO [4; 4; 5; 4; 1; 2; 4; 6; 3; 0; 4; 2; 2; 45; 49; 50])).
Proof. intros. vm_compute. reflexivity. Qed.

Print Assumptions C51_curve_group_contract.
Print Assumptions C51_prime.
Print Assumptions C31_element_json.
Print Assumptions C52_setbytes_exact.
Print Assumptions C52_roundtrip.
Print Assumptions C39_HashBP_injective.
Print Assumptions C39_hashIP_injective.
