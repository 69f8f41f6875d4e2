(** C37: which proofs get an answer from the verifiers. *)
From Verif Require Import GoBase Json GroupIface Vector BIP BP VoteProof ModP App ECJson Curve Marshal NumTh Alg VectorProofs BIPProofs BPProofs
  SetupProofs ModPProofs BytesProofs Toy Hom PropBP PropVote PropModP PropApp PropEC PropCurve PropJson.

Section IP.
Context (G : Grp) (HO : Oracles) (HL : GrpLaws G).
Local Notation N := (gN G).

(** the challenge of one round has an inverse modulo the group order *)
Definition RoundOk (L R : E G) : Prop := Z.gcd (fst (HashBP G HO L R)) N = 1.
(** everything an inner-product proof must contain for Verify to answer *)
Definition IPReadable (pf : IPProof G) : Prop :=
  let n := length (ipGg (ipParams pf)) in
  let k := length (ipL pf) in
  ipCc pf <> None /\ ipA pf <> None /\ ipB pf <> None /\ (0 < n)%nat /\ Nat.divide (2 ^ k) n /\
  (exists hs rest, ipHh (ipParams pf) = map Some hs ++ rest /\ length hs = n /\ (k = 0%nat \/ rest = [])) /\
  (exists rs rest, ipR pf = map Some rs ++ rest /\ Forall2 RoundOk (ipL pf) rs).

Lemma mapM_len : forall A B (f : A -> res B) l r, mapM f l = Ok r -> length r = length l.
Proof.
  induction l as [|a l IH]; cbn [mapM]; intros r H; [injection H as <-; reflexivity|].
  destruct (f a); try discriminate. cbn [bind] in H. destruct (mapM f l) as [t| | |]; try discriminate. cbn [bind] in H.
  injection H as <-. cbn. f_equal. apply IH. reflexivity.
Qed.
Lemma vse_cases : forall v e, vectorScalarExp G v e = Panic \/ exists l, vectorScalarExp G v e = Ok l /\ length l = length v.
Proof.
  intros v e. destruct (vectorScalarExp G v e) as [l| | |] eqn:H; [right; exists l; split; [reflexivity|apply (mapM_len _ _ _ _ _ H)]| | |]; auto; exfalso;
  unfold vectorScalarExp in H; revert H; induction v as [|[X|] v IH]; cbn [mapM]; try discriminate;
  destruct e; cbn [deref bind]; try discriminate; destruct (mapM _ v); cbn [bind]; auto; discriminate.
Qed.
Lemma map2_len : forall A B C (f : A -> B -> C) a b, length a = length b -> length (map2 f a b) = length a.
Proof. induction a as [|x a IH]; intros [|y b] H; try discriminate; [reflexivity|]. cbn. f_equal. apply IH. injection H as H. exact H. Qed.
Lemma foldGens_len : forall v np e1 e2, foldGens G v np e1 e2 = Panic \/
  exists l, foldGens G v np e1 e2 = Ok l /\ length l = if Nat.eqb (length v) (np + np) then np else 0%nat.
Proof.
  intros v np e1 e2. unfold foldGens, slice_to, slice_from. destruct (Nat.leb np (length v)) eqn:Hl; [|left; reflexivity]. cbn [bind].
  apply Nat.leb_le in Hl.
  destruct (vse_cases (firstn np v) e1) as [->|(l1 & -> & H1)]; [left; reflexivity|]. cbn [bind].
  destruct (vse_cases (skipn np v) e2) as [->|(l2 & -> & H2)]; [left; reflexivity|]. cbn [bind].
  right. eexists. split; [reflexivity|]. rewrite firstn_length_le in H1 by exact Hl. rewrite skipn_length in H2. unfold VectorECAdd.
  rewrite H1, H2. destruct (Nat.eqb np (length v - np)) eqn:He.
  - apply Nat.eqb_eq in He. rewrite map_length, map2_len by congruence. rewrite (proj2 (Nat.eqb_eq _ _)) by lia. exact H1.
  - apply Nat.eqb_neq in He. rewrite (proj2 (Nat.eqb_neq _ _)) by lia. reflexivity.
Qed.

Definition dead (r : res (list (option (E G)) * list (option (E G)) * E G)) : Prop :=
  r = Panic \/ exists g h P, r = Ok (g, h, P) /\ (g = [] \/ h = []).
Lemma len0 : forall A (l : list A), length l = 0%nat -> l = []. Proof. intros A [|a l]; [reflexivity|discriminate]. Qed.
Lemma loop_cons : forall L R Ls Rs g h np P,
  (length g <> Nat.div np 2 + Nat.div np 2)%nat \/ (length h <> Nat.div np 2 + Nat.div np 2)%nat \/ g = [] \/ h = [] ->
  (forall g' h' P', g' = [] \/ h' = [] -> dead (ipVerifyLoop G HO Ls Rs g' h' (Nat.div np 2) P')) ->
  dead (ipVerifyLoop G HO (L :: Ls) (Some R :: Rs) g h np P).
Proof.
  intros L R Ls Rs g h np P Hc IH. cbn [ipVerifyLoop].
  destruct (foldGens_len g (Nat.div np 2) (modInverse (fst (HashBP G HO L R)) N) (Some (fst (HashBP G HO L R)))) as [->|(g' & -> & Hg)]; [left; reflexivity|].
  cbn [bind].
  destruct (foldGens_len h (Nat.div np 2) (Some (fst (HashBP G HO L R))) (modInverse (fst (HashBP G HO L R)) N)) as [->|(h' & -> & Hh)]; [left; reflexivity|].
  cbn [bind]. destruct (modInverse ((_ * _) mod N) N); [|left; reflexivity]. cbn [deref bind]. apply IH.
  destruct Hc as [Hc|[Hc|[->| ->]]].
  - left. apply len0. rewrite Hg, (proj2 (Nat.eqb_neq _ _)) by exact Hc. reflexivity.
  - right. apply len0. rewrite Hh, (proj2 (Nat.eqb_neq _ _)) by exact Hc. reflexivity.
  - left. apply len0. rewrite Hg. cbn [length]. destruct (Nat.eqb 0 (Nat.div np 2 + Nat.div np 2)) eqn:He; [apply Nat.eqb_eq in He; lia|reflexivity].
  - right. apply len0. rewrite Hh. cbn [length]. destruct (Nat.eqb 0 (Nat.div np 2 + Nat.div np 2)) eqn:He; [apply Nat.eqb_eq in He; lia|reflexivity].
Qed.
Lemma loop_dead : forall Ls Rs g h np P, g = [] \/ h = [] -> dead (ipVerifyLoop G HO Ls Rs g h np P).
Proof.
  induction Ls as [|L Ls IH]; intros Rs g h np P Hd.
  - right. exists g, h, P. split; [reflexivity|exact Hd].
  - destruct Rs as [|[R|] Rs]; [left; reflexivity| |left; reflexivity].
    apply loop_cons; [destruct Hd as [Hd|Hd]; auto|]. intros g' h' P'. apply IH.
Qed.

Definition LoopOk (Ls : list (E G)) (Rs : list (option (E G))) (n : nat) (h : list (option (E G))) : Prop :=
  Nat.divide (2 ^ length Ls) n /\ (exists rs rest, Rs = map Some rs ++ rest /\ Forall2 RoundOk Ls rs) /\ (Ls = [] \/ length h = n).
Lemma divide_even : forall k m, Nat.divide (2 ^ Datatypes.S k) (m + m) <-> Nat.divide (2 ^ k) m.
Proof.
  intros k m. cbn [Nat.pow]. replace (m + m)%nat with (2 * m)%nat by lia.
  split; [|intros H; apply Nat.mul_divide_mono_l; exact H]. intros [q Hq]. exists q. lia.
Qed.
(** the loop over all-present generators *)
Lemma loop_exact : forall Ls Rs n (g h : nat -> E G) P, (0 < n)%nat ->
  let r := ipVerifyLoop G HO Ls Rs (tab n (fun i => Some (g i))) (tab n (fun i => Some (h i))) n P in
  let ok := Nat.divide (2 ^ length Ls) n /\ exists rs rest, Rs = map Some rs ++ rest /\ Forall2 RoundOk Ls rs in
  (ok /\ exists m g' h' P', (0 < m)%nat /\ r = Ok (tab m (fun i => Some (g' i)), tab m (fun i => Some (h' i)), P')) \/ (~ ok /\ dead r).
Proof.
  induction Ls as [|L Ls IH]; intros Rs n g h P Hn r ok.
  - left. split. { split; [exists n; cbn; lia|]. exists [], Rs. split; [reflexivity|constructor]. }
    exists n, g, h, P. split; [exact Hn|reflexivity].
  - assert (Hrs : forall rs rest, Rs = map Some rs ++ rest -> Forall2 RoundOk (L :: Ls) rs -> exists R Rs', Rs = Some R :: Rs' /\ RoundOk L R /\
      exists rs', Rs' = map Some rs' ++ rest /\ Forall2 RoundOk Ls rs').
    { intros rs rest -> HF. inversion HF as [|? R ? rs' H1 H2]; subst. exists R, (map Some rs' ++ rest). split; [reflexivity|]. split; [exact H1|]. exists rs'. auto. }
    destruct Rs as [|[R|] Rs].
    + right. split; [|left; reflexivity]. intros (_ & rs & rest & H1 & H2). destruct (Hrs _ _ H1 H2) as (? & ? & H & _). discriminate.
    + destruct (Nat.Even_or_Odd n) as [[m Hm]|[m Hm]].
      * assert (En : n = (m + m)%nat) by lia. clear Hm. subst n. assert (Hm : (0 < m)%nat) by lia.
        destruct (Z.eq_dec (Z.gcd (fst (HashBP G HO L R)) N) 1) as [Hg|Hg].
        -- destruct (modInverse_ex _ _ (l_order G HL) Hg) as (i & Hi & _). destruct (sq_inv G HL _ _ Hi) as (i2 & Hi2 & _).
           unfold r. rewrite (loop_step G HO m g h L R Ls Rs P i i2 Hi Hi2).
           match goal with |- context [ipVerifyLoop G HO Ls Rs (tab m (fun _i => Some (@?g1 _i))) (tab m (fun _j => Some (@?h1 _j))) m ?P1] =>
             destruct (IH Rs m g1 h1 P1 Hm) as [(Hok & m' & g' & h' & P' & Hm' & Hr)|(Hok & Hd)] end.
           ++ left. split; [|exists m', g', h', P'; split; [exact Hm'|exact Hr]]. destruct Hok as (Hdv & rs & rest & H1 & H2).
              split; [cbn [length]; apply (proj2 (divide_even _ _)); exact Hdv|]. exists (R :: rs), rest. split; [cbn; rewrite H1; reflexivity|constructor; assumption].
           ++ right. split; [|exact Hd]. intros (Hdv & rs & rest & H1 & H2). apply Hok. destruct (Hrs _ _ H1 H2) as (R' & Rs' & HR & _ & rs' & H3 & H4).
              injection HR as <- <-. cbn [length] in Hdv. apply (proj1 (divide_even _ _)) in Hdv. split; [exact Hdv|]. exists rs', rest. auto.
        -- right. split.
           ++ intros (_ & rs & rest & H1 & H2). destruct (Hrs _ _ H1 H2) as (R' & Rs' & HR & Hro & _). injection HR as <- <-. contradiction.
           ++ left. unfold r. cbn [ipVerifyLoop]. rewrite half_double. destruct m as [|m]; [lia|]. apply modInverse_None in Hg. rewrite Hg, foldGens_None. reflexivity.
      * right. split.
        -- intros ([q Hq] & _). cbn [length Nat.pow] in Hq. lia.
        -- unfold r. apply loop_cons; [|intros; apply loop_dead; assumption]. left. rewrite tab_length. lia.
    + right. split; [|left; reflexivity]. intros (_ & rs & rest & H1 & H2). destruct (Hrs _ _ H1 H2) as (? & ? & H & _). discriminate.
Qed.

Lemma idx_nil : forall A (l : list A) , l = [] -> idx l 0 = Panic. Proof. intros A l ->. reflexivity. Qed.
Lemma hashIP_elems_exact : forall g h,
  ((exists hs rest, h = map Some hs ++ rest /\ length hs = length g) /\ exists s, hashIP_elems G g h = Ok s) \/
  (~ (exists hs rest, h = map Some hs ++ rest /\ length hs = length g) /\ hashIP_elems G g h = Panic).
Proof.
  induction g as [|X g IH]; intros h.
  - left. split; [exists [], h; split; reflexivity|exists []; reflexivity].
  - destruct h as [|[Y|] h].
    + right. split; [|reflexivity]. intros (hs & rest & H & Hl). destruct hs; [discriminate|discriminate].
    + cbn [hashIP_elems]. destruct (IH h) as [((hs & rest & H & Hl) & s & Hs)|(Hn & Hs)]; rewrite Hs; cbn [bind].
      * left. split; [|eexists; reflexivity]. exists (Y :: hs), rest. subst h. split; [reflexivity|cbn; f_equal; exact Hl].
      * right. split; [|reflexivity]. intros (hs & rest & H & Hl). destruct hs as [|Z0 hs]; [discriminate|]. injection H as _ H. apply Hn. exists hs, rest.
        split; [exact H|cbn in Hl; congruence].
    + right. split; [|reflexivity]. intros (hs & rest & H & Hl). destruct hs; discriminate.
Qed.

(** InnerProductProof.Verify answers exactly on readable proofs, and panics on all others *)
Theorem C37_inner_product_exact : forall pf,
  (IPReadable pf /\ exists b, ipVerify G HO pf = Ok b) \/ (~ IPReadable pf /\ ipVerify G HO pf = Panic).
Proof.
  intros [P Cc a b L R [g h u]]. unfold ipVerify, IPReadable. cbn [ipParams ipGg ipHh ipUu ipP ipCc ipA ipB ipL ipR].
  unfold hashIP, hashIP_input. destruct (hashIP_elems_exact g h) as [(Hh & s & Hs)|(Hh & Hs)]; rewrite Hs; cbn [bind].
  2:{ right. split; [|reflexivity]. intros (_ & _ & _ & _ & _ & (hs & rest & H1 & H2 & _) & _). apply Hh. exists hs, rest. auto. }
  unfold computePP. destruct Cc as [c|]; cbn [deref bind]. 2:{ right. split; [|reflexivity]. intros (H & _). congruence. }
  destruct (Nat.eq_dec (length g) 0) as [Hg0|Hg0].
  { right. split; [intros (_ & _ & _ & H & _); lia|]. apply len0 in Hg0. subst g. cbn [map length].
    match goal with |- bind ?l _ = _ => destruct (loop_dead L R [] h 0 _ (or_introl eq_refl) : dead l) as [->|(g' & h' & P' & -> & Hd)] end; [reflexivity|].
    cbn [bind]. destruct a; [|reflexivity]. destruct b; [|reflexivity]. cbn [deref bind]. destruct Hd as [->| ->]; [reflexivity|].
    destruct (idx g' 0) as [[?|]| | |] eqn:Hi; try reflexivity; unfold idx in Hi; destruct (nth_error g' 0); discriminate. }
  assert (Hdead : forall l, dead l -> (v <- l;; (let '(gp, hp, Pp) := v in pa <- deref a;; pb <- deref b;; g0 <- idx gp 0;; g0' <- deref g0;; h0 <- idx hp 0;; h0' <- deref h0;;
      Ok (gIsId G (gAdd G (gNeg G Pp) (gAdd G (gAdd G (gScale G g0' pa) (gScale G h0' pb)) (gScale G (gScale G u (fromByteArray HO (sha256 HO (gStr G P ++ s ++ dec_str_opt (Some c))))) ((pa * pb) mod N))))))) = Panic).
  { intros l [->|(g' & h' & P' & -> & Hd)]; [reflexivity|]. cbn [bind]. destruct a; [|reflexivity]. destruct b; [|reflexivity]. cbn [deref bind].
    destruct Hd as [->| ->]; [reflexivity|]. unfold idx. destruct (nth_error g' 0) as [[?|]|]; reflexivity. }
  destruct Hh as (hs & rest & Hh & Hl). destruct L as [|L0 L].
  - (* no rounds *) cbn [ipVerifyLoop bind]. destruct a as [pa|]. 2:{ right. split; [|reflexivity]. intros (_ & H & _). congruence. }
    destruct b as [pb|]. 2:{ right. split; [|reflexivity]. intros (_ & _ & H & _). congruence. }
    cbn [deref bind]. left. split.
    + repeat apply conj; try discriminate; [lia| | |].
      * exists (length g). cbn. lia.
      * exists hs, rest. auto.
      * exists [], R. split; [reflexivity|constructor].
    + destruct g as [|g0 g]; [cbn in Hg0; lia|]. destruct hs as [|h0 hs]; [discriminate|]. subst h. cbn [map app idx nth_error deref bind]. eexists. reflexivity.
  - destruct (Nat.eq_dec (length h) (length g)) as [Hhl|Hhl].
    + assert (Hr : rest = []). { apply len0. rewrite Hh, app_length, map_length in Hhl. lia. } subst rest. rewrite app_nil_r in Hh.
      assert (Eg : g = tab (length g) (fun i => nth i g u)) by (apply tab_nth). assert (Eh : hs = tab (length g) (fun i => nth i hs u)) by (apply tab_nth'; exact Hl).
      match goal with |- context [ipVerifyLoop G HO (L0 :: L) R (map Some g) h (length g) ?P0] =>
        destruct (loop_exact (L0 :: L) R (length g) (fun i => nth i g u) (fun i => nth i hs u) P0) as [(Hok & m & g' & h' & P' & Hm & Hr)|(Hok & Hd)]; [lia| |] end;
      rewrite <- (map_tab Some _ (fun i => nth i g u)), <- Eg, <- (map_tab Some _ (fun i => nth i hs u)), <- Eh, <- Hh in *.
      * rewrite Hr. cbn [bind]. destruct a as [pa|]. 2:{ right. split; [|reflexivity]. intros (_ & H & _). congruence. }
        destruct b as [pb|]. 2:{ right. split; [|reflexivity]. intros (_ & _ & H & _). congruence. }
        left. destruct Hok as [Hdv Hrs]. split.
        -- repeat apply conj; try discriminate; [lia|exact Hdv| |exact Hrs]. exists hs, []. rewrite app_nil_r. auto.
        -- destruct m as [|m]; [lia|]. rewrite !tab_S. cbn [deref bind idx nth_error]. eexists. reflexivity.
      * right. split; [|apply Hdead; exact Hd]. intros (_ & _ & _ & _ & Hdv & _ & Hrs). apply Hok. auto.
    + right. split.
      * intros (_ & _ & _ & _ & _ & (hs' & rest' & H1 & H2 & [H3|H3]) & _); [discriminate|]. subst rest'. rewrite app_nil_r in H1. apply Hhl. rewrite H1, map_length. exact H2.
      * apply Hdead. destruct R as [|[R0|] R]; [left; reflexivity| |left; reflexivity]. apply loop_cons; [|intros; apply loop_dead; assumption].
        rewrite map_length. destruct (Nat.eq_dec (length g) (Nat.div (length g) 2 + Nat.div (length g) 2)) as [He|He]; [|left; exact He]. right. left. lia.
Qed.
End IP.

Section BPR.
Context (G : Grp) (HO : Oracles) (HL : GrpLaws G).
Local Notation N := (gN G).
Definition BPReadable (pf : BulletProof G) : Prop :=
  pTprime pf <> None /\ pTaux pf <> None /\ pMu pf <> None /\
  (bpN (pParams pf) = 1 \/ Z.gcd (fst (HashBP G HO (pA pf) (pS pf))) N = 1) /\ IPReadable G HO (pIPP pf).
Definition BPAnswers (pf : BulletProof G) : Prop := exists b, Verify G HO pf = Ok b.
Lemma bp_exact : forall n Gt H g h pf, (0 < n)%nat -> pParams pf = mkBPParams (Z.of_nat n) Gt H (tab n g) (tab n h) ->
  (BPReadable pf /\ BPAnswers pf) \/ (~ BPReadable pf /\ Verify G HO pf = Panic).
Proof.
  intros n Gt H g h pf Hn Hpar. destruct n as [|n]; [lia|]. clear Hn.
  destruct (HashBP G HO (pA pf) (pS pf)) as [y z] eqn:Hyz.
  assert (Hup : (exists i, (Datatypes.S n = 1%nat \/ Z.gcd y N = 1) /\ updateGenerators G (tab (Datatypes.S n) h) y (Z.of_nat (Datatypes.S n)) = Ok (tab (Datatypes.S n) (fun j => gScale G (h j) (i ^ Z.of_nat j)))) \/
    (~ (Datatypes.S n = 1%nat \/ Z.gcd y N = 1) /\ updateGenerators G (tab (Datatypes.S n) h) y (Z.of_nat (Datatypes.S n)) = Panic)).
  { destruct (Z.eq_dec (Z.gcd y N) 1) as [Hg|Hg].
    - destruct (modInverse_ex _ _ (l_order G HL) Hg) as (i & Hi & _). left. exists i. split; [right; exact Hg|]. apply (updateGenerators_tab G HL n h y i Hi).
    - pose proof Hg as Hg'. apply modInverse_None in Hg. unfold updateGenerators. rewrite make_len_nat. cbn [bind]. rewrite Hg, tab_S. destruct n as [|n].
      + left. exists 0. split; [left; reflexivity|]. cbn [updGen_loop bind]. rewrite tab_S. cbn [Z.of_nat]. rewrite Z.pow_0_r, (scale_1 HL). reflexivity.
      + right. split; [intros [?|?]; [discriminate|contradiction]|]. rewrite tab_S. reflexivity. }
  unfold BPReadable, BPAnswers. rewrite Hpar, Hyz. cbn [bpN fst].
  assert (E1 : Z.of_nat (Datatypes.S n) = 1 <-> Datatypes.S n = 1%nat) by lia. rewrite E1. clear E1.
  destruct Hup as [(i & Hi & Hup)|(Hi & Hup)].
  2:{ right. split; [tauto|]. unfold Verify. rewrite Hpar. cbn [bpN bpHh]. rewrite Hyz, Hup. reflexivity. }
  destruct (pTprime pf) as [tp|] eqn:Htp.
  2:{ right. split; [intros (? & _); congruence|]. unfold Verify. rewrite Hpar. cbn [bpN bpHh]. rewrite Hyz, Hup. cbn [bind]. rewrite Htp. reflexivity. }
  destruct (pTaux pf) as [tx|] eqn:Htx.
  2:{ right. split; [intros (_ & ? & _); congruence|]. unfold Verify. rewrite Hpar. cbn [bpN bpHh]. rewrite Hyz, Hup. cbn [bind]. rewrite Htp, Htx. reflexivity. }
  destruct (pMu pf) as [mu|] eqn:Hmu.
  2:{ right. split; [intros (_ & _ & ? & _); congruence|]. destruct (delta_tab G HL (Datatypes.S n) y z) as (d & Hd & _).
      remember (Verify G HO pf) as V eqn:HV. unfold Verify in HV. rewrite Hpar in HV. cbn [bpN bpGg bpHh bpH] in HV.
      rewrite Hyz, Hup, Htp, Htx, Hmu, Hd in HV. vnorm HL HV. exact HV. }
  destruct (Verify_eqs G HO HL (Datatypes.S n) Gt H g h _ pf y z tp tx mu Hpar Hyz Hup Htp Htx Hmu) as (b65 & b67 & HV & _).
  rewrite HV. destruct (C37_inner_product_exact G HO HL (pIPP pf)) as [(Hr & b & Hb)|(Hr & Hb)]; rewrite Hb; cbn [bind].
  - left. split; [|eexists; reflexivity]. split; [discriminate|]. split; [discriminate|]. split; [discriminate|]. split; [exact Hi|exact Hr].
  - right. split; [|reflexivity]. tauto.
Qed.
End BPR.

(** BulletProof.Verify over parameters from Setup: an answer exactly for readable proofs, a panic for all others *)
Theorem C37_bulletproof_exact : forall G HO nan64 b params (pf : BulletProof G), GrpLaws G -> nanConv nan64 -> is_int64 b = true ->
  Setup G nan64 b = Ok params -> pParams pf = params ->
  (BPReadable G HO pf /\ exists r, Verify G HO pf = Ok r) \/ (~ BPReadable G HO pf /\ Verify G HO pf = Panic).
Proof.
  intros G HO nan64 b params pf HL Hn Hb HS Hp. destruct (Setup_tab G nan64 b params Hn Hb HS) as (k & g & h & _ & _ & Hp').
  rewrite Hp' in Hp. refine (bp_exact G HO HL _ _ _ _ _ pf _ Hp). pose proof (Nat.pow_nonzero 2 k). lia.
Qed.

Section Sigma.
Context (GF GE : Grp) (HO : Oracles).
(** The vote-proof verifier reads its integers one after another and stops at the first check that fails. *)
Definition SigmaReadable (pf : SigmaProof GF GE) : Prop :=
  sZ pf <> None /\ sChal pf <> None /\ sSp pf <> None /\ sSq1 pf <> None /\ sSq2 pf <> None /\
  vBc (sParams pf) / 8 <= Z.of_nat (length (sha256 HO (fsInput GF GE (sW pf) (sKp pf) (sKq1 pf) (sKq2 pf)))).
Theorem C37_sigma_answers : forall pf comm, SigmaReadable pf -> exists b, vpVerify GF GE HO pf comm = Ok b.
Proof.
  intros pf comm (Hz & Hc & Hp & H1 & H2 & Hl). unfold vpVerify.
  destruct (sZ pf); [|congruence]. destruct (sChal pf); [|congruence]. destruct (sSp pf); [|congruence]. destruct (sSq1 pf); [|congruence]. destruct (sSq2 pf); [|congruence].
  cbn [deref bind]. destruct (_ || _); [eexists; reflexivity|]. unfold getFSChallenge, slice_to. rewrite (proj2 (Nat.leb_le _ _)) by lia. cbn [bind].
  repeat match goal with |- context [if ?c then _ else _] => destruct c; [eexists; reflexivity|] end. eexists. reflexivity.
Qed.
(** it never returns an error, a missing Z always panics, and no proof with a missing integer is accepted *)
Theorem C37_sigma_unreadable : forall pf comm,
  ((exists b, vpVerify GF GE HO pf comm = Ok b) \/ vpVerify GF GE HO pf comm = Panic) /\
  (sZ pf = None -> vpVerify GF GE HO pf comm = Panic) /\
  (~ SigmaReadable pf -> vpVerify GF GE HO pf comm = Panic \/ vpVerify GF GE HO pf comm = Ok false).
Proof.
  intros pf comm. unfold SigmaReadable, vpVerify. split; [|split; [intros ->; reflexivity|]].
  - destruct (sZ pf) as [z|]; [|right; reflexivity]. cbn [deref bind]. destruct (_ || _); [left; eexists; reflexivity|].
    unfold getFSChallenge, slice_to. destruct (Nat.leb _ _); [|right; reflexivity]. cbn [bind].
    destruct (sChal pf); [|right; reflexivity]. cbn [deref bind]. destruct (negb _); [left; eexists; reflexivity|].
    destruct (sSp pf); [|right; reflexivity]. cbn [deref bind]. destruct (negb _); [left; eexists; reflexivity|]. destruct (negb _); [left; eexists; reflexivity|].
    destruct (sSq1 pf); [|right; reflexivity]. cbn [deref bind]. destruct (negb _); [left; eexists; reflexivity|].
    destruct (sSq2 pf); [|right; reflexivity]. cbn [deref bind]. destruct (negb _); left; eexists; reflexivity.
  - intros Hr. destruct (sZ pf) as [z|]; [|left; reflexivity]. cbn [deref bind]. destruct (_ || _); [right; reflexivity|].
    unfold getFSChallenge, slice_to. destruct (Nat.leb _ _) eqn:Hl; [|left; reflexivity]. cbn [bind]. apply Nat.leb_le in Hl.
    destruct (sChal pf); [|left; reflexivity]. cbn [deref bind]. destruct (negb _); [right; reflexivity|].
    destruct (sSp pf); [|left; reflexivity]. cbn [deref bind]. destruct (negb _); [right; reflexivity|]. destruct (negb _); [right; reflexivity|].
    destruct (sSq1 pf); [|left; reflexivity]. cbn [deref bind]. destruct (negb _); [right; reflexivity|].
    destruct (sSq2 pf); [|left; reflexivity]. cbn [deref bind]. exfalso. apply Hr. repeat apply conj; try discriminate. lia.
Qed.
End Sigma.

(** verifyVote on a ballot whose proofs carry the server's parameters, as the decoder makes them *)
Theorem C37_ballot : forall GF GE HO nan64 b (ballot : BallotData GF GE) params rp, GrpLaws GE -> nanConv nan64 -> is_int64 b = true ->
  Setup GE nan64 b = Ok params -> pParams (bdLower ballot) = params -> pParams (bdUpper ballot) = params ->
  (* it returns true or false, or panics *)
  ((exists a, verifyVote GF GE HO ballot rp = Ok a) \/ verifyVote GF GE HO ballot rp = Panic) /\
  (* it returns if everything is there *)
  (BPReadable GE HO (bdLower ballot) -> BPReadable GE HO (bdUpper ballot) -> SigmaReadable GF GE HO (bdVote ballot) -> exists a, verifyVote GF GE HO ballot rp = Ok a) /\
  (* it panics if the first proof is unreadable *)
  (~ BPReadable GE HO (bdLower ballot) -> verifyVote GF GE HO ballot rp = Panic) /\
  (* and accepts nothing unreadable *)
  (forall t, verifyVote GF GE HO ballot rp = Ok (true, t) -> BPReadable GE HO (bdLower ballot) /\ BPReadable GE HO (bdUpper ballot) /\ SigmaReadable GF GE HO (bdVote ballot)).
Proof.
  intros GF GE HO nan64 b ballot params rp HL Hn Hb HS H1 H2. unfold verifyVote. cbv zeta.
  destruct (C37_bulletproof_exact GE HO nan64 b params _ HL Hn Hb HS H1) as [(R1 & r1 & V1)|(R1 & V1)]; rewrite V1; cbn [bind].
  2:{ split; [right; reflexivity|]. split; [contradiction|]. split; [reflexivity|discriminate]. }
  destruct r1; cbn [negb].
  2:{ split; [left; eexists; reflexivity|]. split; [intros; eexists; reflexivity|]. split; [contradiction|discriminate]. }
  destruct (C37_bulletproof_exact GE HO nan64 b params _ HL Hn Hb HS H2) as [(R2 & r2 & V2)|(R2 & V2)]; rewrite V2; cbn [bind].
  2:{ split; [right; reflexivity|]. split; [contradiction|]. split; [contradiction|discriminate]. }
  destruct r2; cbn [negb].
  2:{ split; [left; eexists; reflexivity|]. split; [intros; eexists; reflexivity|]. split; [contradiction|discriminate]. }
  set (comm := mkVerCommitments _ _ _ _). destruct (C37_sigma_unreadable GF GE HO (bdVote ballot) comm) as (Hd & _ & Hf).
  split; [|split; [|split; [contradiction|]]].
  - destruct Hd as [[r ->]| ->]; [left; eexists; reflexivity|right; reflexivity].
  - intros _ _ HR. destruct (C37_sigma_answers GF GE HO _ comm HR) as [r ->]. eexists. reflexivity.
  - intros t Ht. split; [exact R1|]. split; [exact R2|].
    assert (Dn : forall o : option Z, o = None \/ o <> None) by (intros [?|]; [right; discriminate|left; reflexivity]).
    assert (Hcl : SigmaReadable GF GE HO (bdVote ballot) \/ ~ SigmaReadable GF GE HO (bdVote ballot)).
    { unfold SigmaReadable. destruct (Dn (sZ (bdVote ballot))), (Dn (sChal (bdVote ballot))), (Dn (sSp (bdVote ballot))), (Dn (sSq1 (bdVote ballot))), (Dn (sSq2 (bdVote ballot))); try tauto.
      match goal with |- context [?x <= ?y] => destruct (Z_le_gt_dec x y); [tauto|] end. right. intros (_ & _ & _ & _ & _ & Hx). lia. }
    destruct Hcl as [Hcl|Hcl]; [exact Hcl|]. destruct (Hf Hcl) as [Hx|Hx]; rewrite Hx in Ht; discriminate.
Qed.

(** The all-default ballot, decoded from four empty objects, crashes the server under every hash function. *)
Theorem C37_blank_ballot_panics : forall GF GE HO nan64 b (pp : PublicParameters GF GE), NilKeepsDefault GF -> NilKeepsDefault GE ->
  GrpLaws GE -> nanConv nan64 -> is_int64 b = true -> Setup GE nan64 b = Ok (ppBP pp) ->
  (ballot <- BallotDataUnmarshalJSON GF GE (Some blankDoc) pp ;; verifyVote GF GE HO ballot (ppRP pp)) = Panic.
Proof.
  intros GF GE HO nan64 b pp HF HE HL Hn Hb HS. rewrite C36_blank_accepted by assumption. cbn [bind].
  apply (C37_ballot GF GE HO nan64 b (blankBallot pp) (ppBP pp) (ppRP pp) HL Hn Hb HS eq_refl eq_refl).
  intros (H & _). apply H. reflexivity.
Qed.
(** A ballot in which any one of the six integers of the first Bulletproof is null travels and crashes the server. *)
Theorem C37_null_integer_panics : forall GF GE HO nan64 b (pp : PublicParameters GF GE) ballot, JsonRoundtrip GF -> JsonRoundtrip GE ->
  GrpLaws GE -> nanConv nan64 -> is_int64 b = true -> Setup GE nan64 b = Ok (ppBP pp) ->
  pParams (bdLower ballot) = ppBP pp -> pParams (bdUpper ballot) = ppBP pp ->
  WFLists (bdLower ballot) -> WFLists (bdUpper ballot) -> WFInts (sParams (bdVote ballot)) ->
  let p := bdLower ballot in
  pTprime p = None \/ pTaux p = None \/ pMu p = None \/ ipCc (pIPP p) = None \/ ipA (pIPP p) = None \/ ipB (pIPP p) = None ->
  exists j, encBallotData GF GE ballot = Ok j /\
    (ballot' <- BallotDataUnmarshalJSON GF GE (Some j) pp ;; verifyVote GF GE HO ballot' (ppRP pp)) = Panic.
Proof.
  intros GF GE HO nan64 b pp ballot JF JE HL Hn Hb HS Hlo Hup Wlo Wup Wi p Hnone.
  destruct (C35_ballot_roundtrip GF GE JF JE ballot pp Hlo Hup Wlo Wup Wi) as (j & H1 & H2). exists j. split; [exact H1|]. rewrite H2. cbn [bind].
  apply (C37_ballot GF GE HO nan64 b ballot (ppBP pp) (ppRP pp) HL Hn Hb HS Hlo Hup).
  intros (K1 & K2 & K3 & _ & K4 & K5 & K6 & _). fold p in K1, K2, K3, K4, K5, K6. tauto.
Qed.
(** The forged ballot of C27 can be sent: some document decodes to it and is accepted, for every pair of integers as ciphertext. *)
Theorem C27_over_json : forall d GE HO nan64 pp U V A S,
  ModPOk d -> GrpLaws GE -> JsonRoundtrip GE -> nanConv nan64 -> setup d GE nan64 = Ok pp ->
  Z.gcd (fst (HashBP GE HO A S)) (gN GE) = 1 ->
  exists j ballot, BallotDataUnmarshalJSON (ModPGrp d) GE (Some j) pp = Ok ballot /\ bdBallot ballot = mkCiphertext (G:=ModPGrp d) U V /\
    verifyVote (ModPGrp d) GE HO ballot (ppRP pp) = Ok (true, 2%nat).
Proof.
  intros d GE HO nan64 pp U V A S Hok LE JE Hn HS Hy.
  destruct (forged_ballot d GE HO nan64 pp U V A S Hok LE Hn HS Hy) as (b & HbE & H1 & H2 & H3 & _ & _ & H6 & H7 & X1 & X2 & X3 & X4 & Hsame & Hlg & (HL & HR & X & HH) & H).
  assert (W : WFLists (bdLower b)). { exists [X], []. rewrite HH, Hlg, HR, HL. repeat split; reflexivity. }
  destruct (C35_ballot_roundtrip (ModPGrp d) GE (C35_modp_elements d) JE b pp H2 H3 W ltac:(rewrite Hsame; exact W)) as (j & Hj & Hd).
  { unfold WFInts. rewrite H6, H7, X1, X2, X3, X4. lia. }
  exists j, b. auto.
Qed.

(** ** Concrete cases *)
Lemma toy_json : forall q Hq, JsonRoundtrip (ToyGrp q Hq).
Proof.
  intros q Hq X. exists (JInt (zv q X)). split; [reflexivity|]. intros old. cbn [ToyGrp gOfJson toyOfJson].
  assert (HX : zqm q (Hq:=Hq) (zv q X) = X) by (apply zq_eq; cbn [zqm zv]; apply Z.mod_small; apply zq_bnd). rewrite HX. reflexivity.
Qed.
(** the ballot of C25_case, cast with the constants of main.go, travels *)
Example C35_case : exists pp ballot j, setup dBig gR 0 = Ok pp /\ encBallotData (ModPGrp dBig) gR ballot = Ok j /\
  BallotDataUnmarshalJSON (ModPGrp dBig) gR (Some j) pp = Ok ballot /\ verifyVote (ModPGrp dBig) gR oneHO ballot (ppRP pp) = Ok (true, 2%nat).
Proof.
  destruct C25_case as (pp & ballot & HS & _ & HC & HV). assert (HB : bitLen (gN gR) = 253) by reflexivity.
  destruct (C35_cast_roundtrip dBig gR oneHO 0 pp bCR ballot (toy_json _ _) (toyLaws _ _) (or_intror eq_refl) ltac:(rewrite HB; reflexivity) HS HC) as (j & H1 & H2).
  exists pp, ballot, j. auto.
Qed.
(** (1,1) is not on y^2 = x^3 + 3 over F_7; and a list R shorter than L *)
Example C36_case : onCurve cv7 1 1 = false /\
  (exists pf, BulletProofUnmarshalJSON (CurveGrp cv7 "toy" 13 ci7) (Some (JObj [("V"%string, encECPoint 1 1)])) (mkBPParams (G:=CurveGrp cv7 "toy" 13 ci7) 0 (ptId cv7) (ptId cv7) [] []) = Ok pf /\ pv (pV pf) = (0, 0)) /\
  BulletProofUnmarshalJSON (ModPGrp dToy) (Some (JObj [("InnerProductProof", JObj [("L", JArr [JInt 4; JInt 5]); ("R", JArr [JInt 6])])]%string)) (mkBPParams (G:=ModPGrp dToy) 0 0 0 [] []) = Panic /\
  BallotDataUnmarshalJSON (ModPGrp dToy) toy (Some (JObj [("Ballott"%string, JNull)])) aPP = Err.
Proof.
  split; [reflexivity|]. split; [|split].
  - destruct (C36_curve_garbage cv7 "toy" 13 ci7 1 1 (mkBPParams (G:=CurveGrp cv7 "toy" 13 ci7) 0 (ptId cv7) (ptId cv7) [] [])) as (pf & H1 & H2);
      [apply C51_case|split; [discriminate|reflexivity]|split; [discriminate|reflexivity]|discriminate|reflexivity|].
    exists pf. split; [exact H1|]. rewrite H2. reflexivity.
  - eapply C36_ragged_panics; [reflexivity| |left; cbn; lia]. intros [j|]; left; [destruct j|]; do 2 eexists; reflexivity.
  - apply C36_top_level; [exact None|]. intros k v [H|[]]. injection H as <- <-. reflexivity.
Qed.
Example C37_case : (ballot <- BallotDataUnmarshalJSON (ModPGrp dToy) toy (Some blankDoc) aPP ;; verifyVote (ModPGrp dToy) toy aHO ballot (ppRP aPP)) = Panic /\
  BPReadable toy toyO toyPf /\ length (ipL (pIPP toyPf)) = 2%nat /\
  ~ IPReadable toy toyO (mkIPProof (gId toy) (Some 1) (Some 1) (Some 1) [gId toy] [Some (gId toy)] (mkIPParams [gId toy] [Some (gId toy)] (gId toy))).
Proof.
  split; [|split; [|split; [vm_compute; reflexivity|]]].
  - apply (C37_blank_ballot_panics (ModPGrp dToy) toy aHO 0 4 aPP eq_refl eq_refl toy_laws (or_intror eq_refl) eq_refl). vm_compute. reflexivity.
  - destruct (C37_bulletproof_exact toy toyO 0 16 toyParams toyPf toy_laws (or_intror eq_refl) eq_refl toyParams_ok eq_refl) as [(H & _)|(_ & H)]; [exact H|].
    vm_compute in H. discriminate.
  - intros (_ & _ & _ & _ & [q Hq] & _). cbn in Hq. lia.
Qed.

Print Assumptions C35_cast_roundtrip.
Print Assumptions C35_same_answer.
Print Assumptions C35_ballot_roundtrip.
Print Assumptions C36_blank_accepted.
Print Assumptions C36_accepts_exactly.
Print Assumptions C36_curve_garbage.
Print Assumptions C36_ragged_panics.
Print Assumptions C36_shipped_decoders.
Print Assumptions C36_top_level.
Print Assumptions C37_inner_product_exact.
Print Assumptions C37_bulletproof_exact.
Print Assumptions C37_sigma_answers.
Print Assumptions C37_sigma_unreadable.
Print Assumptions C37_ballot.
Print Assumptions C37_blank_ballot_panics.
Print Assumptions C37_null_integer_panics.
Print Assumptions C27_over_json.
