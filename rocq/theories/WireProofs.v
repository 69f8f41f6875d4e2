(** The scanner of Wire.v reads exactly the documents of WireSpec.v. *)
From Verif Require Import GoBase Json Wire WireSpec.
Open Scope char_scope.
Open Scope Z_scope.
Open Scope list_scope.

(** ** Bytes *)
Lemma code_range : forall c, 0 <= code c < 256.
Proof. intros c. unfold code. pose proof (N_ascii_bounded c). lia. Qed.
Lemma code_inj : forall a b, code a = code b -> a = b.
Proof. intros a b H. unfold code in H. apply N2Z.inj in H. rewrite <- (ascii_N_embedding a), <- (ascii_N_embedding b), H. reflexivity. Qed.
Lemma code_chr : forall n, 0 <= n < 256 -> code (chr n) = n.
Proof. intros n H. unfold code, chr. rewrite N_ascii_embedding by lia. lia. Qed.
Lemma eqbT : forall a, Ascii.eqb a a = true. Proof. intros. apply Ascii.eqb_refl. Qed.
Lemma eqbF : forall a b, a <> b -> Ascii.eqb a b = false. Proof. intros. apply Ascii.eqb_neq. assumption. Qed.
Lemma code_neq : forall a b, code a <> code b -> a <> b. Proof. intros a b H ->. apply H. reflexivity. Qed.

(** ** White space *)
Lemma isSpace_iff : forall c, isSpace c = true <-> In c [" "; "009"; "010"; "013"].
Proof. intros c. unfold isSpace. rewrite !orb_true_iff, !Ascii.eqb_eq. cbn. intuition congruence. Qed.
Lemma Ws_nil : Ws []. Proof. intros c []. Qed.
Lemma Ws_cons : forall c t, isSpace c = true -> Ws t -> Ws (c :: t).
Proof. intros c t H1 H2 x [<-|H]; [apply isSpace_iff; exact H1|apply H2; exact H]. Qed.
Lemma Ws_inv : forall c t, Ws (c :: t) -> isSpace c = true /\ Ws t.
Proof. intros c t H. split; [apply isSpace_iff; apply H; left; reflexivity|]. intros x Hx. apply H. right. exact Hx. Qed.
Lemma Ws_app : forall a b, Ws a -> Ws b -> Ws (a ++ b).
Proof. intros a b Ha Hb c H. apply in_app_or in H. destruct H; auto. Qed.
Lemma skip_spec : forall t, exists w, t = w ++ skipWs t /\ Ws w /\ (forall c r, skipWs t = c :: r -> isSpace c = false).
Proof.
  induction t as [|c t (w & H1 & H2 & H3)]; [exists []; split; [reflexivity|]; split; [apply Ws_nil|discriminate]|].
  cbn [skipWs]. destruct (isSpace c) eqn:E.
  - exists (c :: w). split; [cbn; congruence|]. split; [apply Ws_cons; assumption|exact H3].
  - exists []. split; [reflexivity|]. split; [apply Ws_nil|]. intros x r H. injection H as <- _. exact E.
Qed.
Lemma skip_ws : forall w t, Ws w -> skipWs (w ++ t) = skipWs t.
Proof. induction w as [|c w IH]; intros t H; [reflexivity|]. apply Ws_inv in H. destruct H as [H1 H2]. cbn [app skipWs]. rewrite H1. apply IH. exact H2. Qed.
Lemma skip_all : forall w, Ws w -> skipWs w = [].
Proof. intros w H. rewrite <- (app_nil_r w). rewrite skip_ws by exact H. reflexivity. Qed.
Lemma skip_non : forall c t, isSpace c = false -> skipWs (c :: t) = c :: t.
Proof. intros c t H. cbn. rewrite H. reflexivity. Qed.
Lemma skip_nil : forall t, skipWs t = [] -> Ws t.
Proof. intros t H. destruct (skip_spec t) as (w & Hw & H2 & _). rewrite H, app_nil_r in Hw. rewrite Hw. exact H2. Qed.

(** ** Numbers *)
Lemma isDigit_iff : forall c, isDigit c = true <-> exists v, Digit c v.
Proof.
  intros c. unfold isDigit, Digit. rewrite andb_true_iff, !Z.leb_le. split.
  - intros [H1 H2]. exists (code c - 48). lia.
  - intros (v & H1 & H2). lia.
Qed.
Lemma Digit_val : forall c v, Digit c v -> code c - 48 = v. Proof. unfold Digit. intros. lia. Qed.
Definition AllDigits (l : text) : Prop := forall c, In c l -> isDigit c = true.
Lemma decVal_snoc : forall l c, decVal (l ++ [c]) = 10 * decVal l + (code c - 48).
Proof. intros. unfold decVal. rewrite fold_left_app. reflexivity. Qed.
Lemma Digits_iff : forall l x, Digits l x <-> l <> [] /\ AllDigits l /\ x = decVal l.
Proof.
  intros l x. split.
  - induction 1 as [c v H|l x c v H (H1 & H2 & H3) Hc].
    + split; [discriminate|]. split; [intros d [<-|[]]; apply isDigit_iff; eauto|]. unfold decVal. cbn. apply Digit_val in H. lia.
    + split; [destruct l; discriminate|]. split.
      * intros d Hd. apply in_app_or in Hd. destruct Hd as [Hd|[<-|[]]]; [auto|apply isDigit_iff; eauto].
      * rewrite decVal_snoc, <- H3. apply Digit_val in Hc. lia.
  - intros (H1 & H2 & ->). revert H1 H2. induction l as [|c l IH] using rev_ind; [contradiction|]. intros _ H2.
    assert (Hc : isDigit c = true) by (apply H2; apply in_or_app; right; left; reflexivity). apply isDigit_iff in Hc. destruct Hc as (v & Hv).
    rewrite decVal_snoc, (Digit_val _ _ Hv). destruct l as [|a l].
    + change (decVal []) with 0. replace (10 * 0 + v) with v by lia. apply dg_one. exact Hv.
    + apply dg_more; [apply IH; [discriminate|]|exact Hv]. intros d Hd. apply H2. apply in_or_app. left. exact Hd.
Qed.
Lemma span_spec : forall t, let '(ds, r) := span t in t = ds ++ r /\ AllDigits ds /\ (forall c r', r = c :: r' -> isDigit c = false).
Proof.
  induction t as [|c t IH]; cbn [span]; [split; [reflexivity|]; split; [intros c []|discriminate]|].
  destruct (isDigit c) eqn:E.
  - destruct (span t) as [ds r]. destruct IH as (H1 & H2 & H3). split; [cbn; congruence|]. split; [|exact H3]. intros d [<-|Hd]; auto.
  - split; [reflexivity|]. split; [intros d []|]. intros d r' H. injection H as <- _. exact E.
Qed.
Definition NoDigit (r : text) : Prop := forall c r', r = c :: r' -> isDigit c = false.
Lemma span_app : forall ds r, AllDigits ds -> NoDigit r -> span (ds ++ r) = (ds, r).
Proof.
  induction ds as [|c ds IH]; intros r H1 H2.
  - destruct r as [|c r]; [reflexivity|]. cbn. rewrite (H2 c r eq_refl). reflexivity.
  - cbn [app span]. rewrite (H1 c (or_introl eq_refl)), IH; [reflexivity| |exact H2]. intros d Hd. apply H1. right. exact Hd.
Qed.
Lemma pDigits_iff : forall t r, pDigits t = Some r <-> exists l x, t = l ++ r /\ Digits l x /\ NoDigit r.
Proof.
  intros t r. unfold pDigits. pose proof (span_spec t) as H. destruct (span t) as [ds r0] eqn:E. destruct H as (H1 & H2 & H3). split.
  - destruct ds as [|c ds]; [discriminate|]. intros H. injection H as <-. exists (c :: ds), (decVal (c :: ds)). split; [exact H1|]. split; [|exact H3].
    apply Digits_iff. split; [discriminate|]. split; [exact H2|reflexivity].
  - intros (l & x & -> & Hl & Hr). apply Digits_iff in Hl. destruct Hl as (Hl & Ha & _). rewrite span_app in E by assumption. injection E as <- <-.
    destruct l; [contradiction|reflexivity].
Qed.

Lemma Digits_first : forall l x c r, Digits l x -> l = c :: r -> isDigit c = true.
Proof. intros l x c r H ->. apply Digits_iff in H. destruct H as (_ & H & _). apply H. left. reflexivity. Qed.
Lemma digit_code : forall c, isDigit c = true -> 48 <= code c <= 57.
Proof. intros c H. unfold isDigit in H. rewrite andb_true_iff, !Z.leb_le in H. exact H. Qed.
Lemma IntPart_val : forall l x, IntPart l x -> x = decVal l.
Proof. intros l x [H _]. apply Digits_iff in H. apply H. Qed.
Lemma pInt_sound : forall t ds r, pInt t = Some (ds, r) -> t = ds ++ r /\ IntPart ds (decVal ds).
Proof.
  intros t ds r. unfold pInt. destruct t as [|c t]; [discriminate|]. destruct (Ascii.eqb_spec c "0") as [->|Hc].
  - intros H. injection H as <- <-. split; [reflexivity|]. split; [|left; reflexivity]. apply Digits_iff. split; [discriminate|]. split; [|reflexivity]. intros c [<-|[]]; reflexivity.
  - pose proof (span_spec (c :: t)) as Hs. destruct (span (c :: t)) as [ds0 r0]. destruct Hs as (H1 & H2 & H3). destruct ds0 as [|a ds0]; [discriminate|].
    intros H. injection H as <- <-. split; [exact H1|]. split; [apply Digits_iff; split; [discriminate|]; split; [exact H2|reflexivity]|].
    right. intros r' E. cbn in H1. congruence.
Qed.
Lemma pInt_complete : forall l x r, IntPart l x -> l = ["0"] \/ NoDigit r -> pInt (l ++ r) = Some (l, r).
Proof.
  intros l x r [H1 H2] H3. destruct H2 as [->|H2]; [reflexivity|]. destruct H3 as [->|H3]; [exfalso; apply (H2 []); reflexivity|].
  apply Digits_iff in H1. destruct H1 as (Hn & Ha & _). pose proof (span_app l r Ha H3) as Hs. destruct l as [|c l]; [contradiction|]. unfold pInt. cbn [app] in *.
  rewrite eqbF, Hs; [reflexivity|]. intros ->. apply (H2 l). reflexivity.
Qed.
Lemma pFrac_iff : forall t f, pFrac t = Some (Some f) <-> exists v, t = v ++ f /\ Fraction v /\ NoDigit f.
Proof.
  intros t f. unfold pFrac. split.
  - destruct t as [|c t]; [discriminate|]. destruct (Ascii.eqb_spec c "."); [|discriminate]. subst c. destruct (pDigits t) as [r|] eqn:E; [|discriminate].
    intros H. injection H as <-. apply pDigits_iff in E. destruct E as (l & x & -> & H1 & H2). exists ("." :: l). split; [reflexivity|]. split; [|exact H2]. exists l, x. split; [reflexivity|exact H1].
  - intros (v & -> & (l & x & -> & H1) & H2). cbn [app]. rewrite eqbT. rewrite (proj2 (pDigits_iff (l ++ f) f)); [reflexivity|]. exists l, x. repeat split; assumption.
Qed.
Lemma pFrac_none : forall t, (forall c r, t = c :: r -> c <> ".") -> pFrac t = Some None.
Proof. intros [|c t] H; [reflexivity|]. unfold pFrac. rewrite eqbF by (apply (H c t); reflexivity). reflexivity. Qed.
Lemma pExp_iff : forall t f, pExp t = Some (Some f) <-> exists v, t = v ++ f /\ Exponent v /\ NoDigit f.
Proof.
  intros t f. unfold pExp. split.
  - destruct t as [|c t]; [discriminate|]. destruct (Ascii.eqb c "e" || Ascii.eqb c "E") eqn:Ec; [|discriminate].
    assert (Hc : In c ["e"; "E"]). { rewrite orb_true_iff, !Ascii.eqb_eq in Ec. cbn. intuition congruence. }
    cbv zeta. destruct (pDigits _) as [r|] eqn:E; [|discriminate]. intros H. injection H as <-. apply pDigits_iff in E. destruct E as (l & x & E & H1 & H2).
    destruct t as [|s t].
    + destruct l; [|discriminate]. apply Digits_iff in H1. destruct H1 as [H1 _]. contradiction.
    + destruct (Ascii.eqb s "+" || Ascii.eqb s "-") eqn:Es.
      * subst t. exists (c :: [s] ++ l). split; [reflexivity|]. split; [|exact H2]. exists c, [s], l, x. split; [reflexivity|]. split; [exact Hc|]. split; [|exact H1].
        rewrite orb_true_iff, !Ascii.eqb_eq in Es. destruct Es as [->| ->]; cbn; auto.
      * exists (c :: [] ++ l). split; [cbn; congruence|]. split; [|exact H2]. exists c, [], l, x. split; [reflexivity|]. split; [exact Hc|]. split; [left; reflexivity|exact H1].
  - intros (v & -> & (e & sg & l & x & -> & He & Hs & H1) & H2). cbn [app].
    replace (Ascii.eqb e "e" || Ascii.eqb e "E") with true by (destruct He as [<-|[<-|[]]]; reflexivity). cbv zeta.
    replace (pDigits _) with (Some f); [reflexivity|]. symmetry.
    assert (Hd : pDigits (l ++ f) = Some f). { apply pDigits_iff. exists l, x. repeat split; assumption. }
    destruct Hs as [<-|[<-|[<-|[]]]]; cbn [app]; [|exact Hd|exact Hd].
    destruct l as [|a l]; [apply Digits_iff in H1; destruct H1 as [H1 _]; contradiction|]. cbn [app]. pose proof (Digits_first _ _ a l H1 eq_refl) as Ha. apply digit_code in Ha.
    rewrite (eqbF a "+"), (eqbF a "-"); [exact Hd|intros ->; cbn in Ha; lia|intros ->; cbn in Ha; lia].
Qed.
Lemma pExp_none : forall t, (forall c r, t = c :: r -> c <> "e" /\ c <> "E") -> pExp t = Some None.
Proof. intros [|c t] H; [reflexivity|]. unfold pExp. destruct (H c t eq_refl) as [H1 H2]. rewrite (eqbF _ _ H1), (eqbF _ _ H2). reflexivity. Qed.

Definition neg0 (t : text) : bool := match t with [a; b] => Ascii.eqb a "-" && Ascii.eqb b "0" | _ => false end.
Lemma neg0_iff : forall t, neg0 t = true <-> t = ["-"; "0"].
Proof.
  intros t. split; [|intros ->; reflexivity]. destruct t as [|a [|b [|c t]]]; try discriminate. cbn. rewrite andb_true_iff, !Ascii.eqb_eq. intros [-> ->]. reflexivity.
Qed.
Lemma neg0_minus : forall l, neg0 ("-" :: l) = isZero l. Proof. intros [|a [|b l]]; reflexivity. Qed.
Lemma neg0_plain : forall l x, IntPart l x -> neg0 l = false.
Proof.
  intros l x [H _]. apply not_true_is_false. rewrite neg0_iff. intros E. pose proof (Digits_first _ _ _ _ H E). discriminate.
Qed.
Lemma pNum_sound : forall t j r, pNum t = Some (j, r) -> exists v, t = v ++ r /\ Number j v.
Proof.
  intros t j r H. unfold pNum in H.
  assert (HI : exists neg t1, pSign t = (neg, t1) /\
    forall l x, IntPart l x -> forall u, t1 = l ++ u -> exists i, t = i ++ u /\ Integer i (if neg : bool then - x else x) /\ neg && isZero l = neg0 i).
  { unfold pSign. destruct t as [|c t]; [exists false, []; split; [reflexivity|]; intros l x Hl u E; exists l; split; [exact E|]; split; [apply in_plain; exact Hl|symmetry; apply (neg0_plain l x Hl)]|].
    destruct (Ascii.eqb_spec c "-") as [->|Hc].
    - exists true, t. split; [reflexivity|]. intros l x Hl u ->. exists ("-" :: l). split; [reflexivity|]. split; [apply in_minus; exact Hl|symmetry; apply neg0_minus].
    - exists false, (c :: t). split; [reflexivity|]. intros l x Hl u E. exists l. split; [exact E|]. split; [apply in_plain; exact Hl|symmetry; apply (neg0_plain l x Hl)]. }
  destruct HI as (neg & t1 & E & HI). rewrite E in H. clear E.
  destruct (pInt t1) as [[ds t2]|] eqn:Ei; [|discriminate]. apply pInt_sound in Ei. destruct Ei as (-> & Hp). destruct (HI ds _ Hp t2 eq_refl) as (i & -> & Hi & Hz). rewrite Hz in H.
  set (z := if neg then - decVal ds else decVal ds) in *. clearbody z. clear HI Hp Hz.
  destruct (pFrac t2) as [[f|]|] eqn:Ef; [| |discriminate].
  - apply pFrac_iff in Ef. destruct Ef as (vf & -> & Hf & _). destruct (pExp f) as [[g|]|] eqn:Ee; [| |discriminate].
    + injection H as <- <-. apply pExp_iff in Ee. destruct Ee as (ve & -> & He & _). exists (i ++ vf ++ ve). split; [rewrite <- !app_assoc; reflexivity|]. apply nm_frac; auto.
    + injection H as <- <-. exists (i ++ vf ++ []). split; [rewrite app_nil_r, <- app_assoc; reflexivity|]. apply nm_frac; auto.
  - destruct (pExp t2) as [[g|]|] eqn:Ee; [| |discriminate].
    + injection H as <- <-. apply pExp_iff in Ee. destruct Ee as (ve & -> & He & _). exists (i ++ ve). split; [rewrite <- app_assoc; reflexivity|]. apply nm_exp; assumption.
    + injection H as <- <-. exists i. split; [reflexivity|]. destruct (neg0 i) eqn:E; [apply neg0_iff in E; subst i; apply nm_neg0|].
      apply nm_int; [exact Hi|]. intros E'. apply neg0_iff in E'. congruence.
Qed.

(** what may follow a number *)
Definition NumStop (r : text) : Prop := forall c r', r = c :: r' -> isDigit c = false /\ c <> "." /\ c <> "e" /\ c <> "E".
Lemma stop_nodigit : forall r, NumStop r -> NoDigit r. Proof. intros r H c r' E. apply (H c r' E). Qed.
Lemma Integer_first : forall t z, Integer t z -> exists c r, t = c :: r /\ (c = "-" \/ isDigit c = true).
Proof.
  assert (HP : forall l x, IntPart l x -> exists c r, l = c :: r /\ isDigit c = true).
  { intros l x [H _]. destruct l as [|c l]; [apply Digits_iff in H; destruct H as [H _]; contradiction|]. exists c, l. split; [reflexivity|]. apply (Digits_first _ _ c l H eq_refl). }
  intros t z [l x H|l x H]; [destruct (HP l x H) as (c & r & -> & Hc); exists c, r; auto|exists "-", l; auto].
Qed.
Lemma pNum_int : forall t z u, Integer t z -> NoDigit u ->
  pNum (t ++ u) = match pFrac u with
      | None => None
      | Some f =>
          match pExp (match f with Some r => r | None => u end) with
          | None => None
          | Some (Some r) => Some (JFrac z, r)
          | Some None => match f with Some r => Some (JFrac z, r) | None => Some (if neg0 t then JNegZero else JInt z, u) end
          end
      end.
Proof.
  intros t z u [l x H|l x H] Hu; unfold pNum.
  - destruct (Integer_first l x (in_plain l x H)) as (c & r & E & [->|Hc]).
    + exfalso. destruct H as [H _]. apply (Digits_first _ _ _ _ H) in E. discriminate.
    + replace (pSign (l ++ u)) with (false, l ++ u).
      2:{ rewrite E. cbn [app pSign]. rewrite eqbF; [reflexivity|]. intros ->. discriminate. }
      cbv beta iota. rewrite (pInt_complete l x u H (or_intror Hu)), <- (IntPart_val l x H), (neg0_plain l x H). reflexivity.
  - cbn [app pSign]. rewrite eqbT, neg0_minus. cbv beta iota. rewrite (pInt_complete l x u H (or_intror Hu)), <- (IntPart_val l x H). reflexivity.
Qed.
Lemma pNum_complete : forall j v r, Number j v -> NumStop r -> pNum (v ++ r) = Some (j, r).
Proof.
  intros j v r H Hr. pose proof (stop_nodigit r Hr) as Hd.
  assert (HF : pFrac r = Some None) by (apply pFrac_none; intros c r' E; apply (Hr c r' E)).
  assert (HE : pExp r = Some None) by (apply pExp_none; intros c r' E; destruct (Hr c r' E) as (_ & _ & H1 & H2); split; assumption).
  assert (HX : forall e, Exponent e -> NoDigit (e ++ r) /\ pFrac (e ++ r) = Some None).
  { intros e (c & sg & l & x & -> & Hc & _). split.
    - intros d r' E. injection E as <- _. destruct Hc as [<-|[<-|[]]]; reflexivity.
    - apply pFrac_none. intros d r' E. injection E as <- _. destruct Hc as [<-|[<-|[]]]; discriminate. }
  destruct H as [t z Hi Hz| |t z f e Hi Hf He|t z e Hi He].
  - rewrite (pNum_int t z r Hi Hd), HF, HE. replace (neg0 t) with false; [reflexivity|]. symmetry. apply not_true_is_false. rewrite neg0_iff. exact Hz.
  - rewrite (pNum_int ["-"; "0"] 0 r), HF, HE; [reflexivity| |exact Hd]. apply (in_minus ["0"] 0). split; [|left; reflexivity]. apply (dg_one "0" 0). split; [lia|reflexivity].
  - rewrite <- !app_assoc, (pNum_int t z (f ++ e ++ r) Hi).
    2:{ destruct Hf as (l & x & -> & _). intros c r' E. injection E as <- _. reflexivity. }
    assert (HN : NoDigit (e ++ r)) by (destruct He as [->|He]; [exact Hd|apply (HX e He)]).
    rewrite (proj2 (pFrac_iff (f ++ e ++ r) (e ++ r))) by (exists f; repeat split; assumption).
    destruct He as [->|He]; [cbn [app]; rewrite HE; reflexivity|]. rewrite (proj2 (pExp_iff (e ++ r) r)) by (exists e; repeat split; assumption). reflexivity.
  - rewrite <- app_assoc. destruct (HX e He) as [H1 H2]. rewrite (pNum_int t z (e ++ r) Hi H1), H2.
    rewrite (proj2 (pExp_iff (e ++ r) r)) by (exists e; repeat split; assumption). reflexivity.
Qed.

(** ** Strings *)
Lemma hexVal_iff : forall c v, hexVal c = Some v <-> HexDigit c v.
Proof.
  intros c v. unfold hexVal, HexDigit. cbv zeta. pose proof (code_range c).
  destruct (Z.leb_spec 48 (code c)), (Z.leb_spec (code c) 57), (Z.leb_spec 97 (code c)), (Z.leb_spec (code c) 102), (Z.leb_spec 65 (code c)), (Z.leb_spec (code c) 70);
    cbn [andb]; (split; [intros E; first [discriminate E|injection E as <-; lia]|intros E; first [f_equal; lia|exfalso; lia]]).
Qed.
Lemma hex4_iff : forall t n r, hex4 t = Some (n, r) <-> exists h, t = h ++ r /\ Hex4 h n.
Proof.
  intros t n r. split.
  - destruct t as [|a [|b [|c [|d t]]]]; try discriminate. unfold hex4.
    destruct (hexVal a) as [x|] eqn:Ea; [|discriminate]. destruct (hexVal b) as [y|] eqn:Eb; [|discriminate]. destruct (hexVal c) as [z|] eqn:Ec; [|discriminate].
    destruct (hexVal d) as [w|] eqn:Ed; [|discriminate]. intros H. injection H as <- <-. apply hexVal_iff in Ea, Eb, Ec, Ed. exists [a; b; c; d]. split; [reflexivity|].
    exists a, b, c, d, x, y, z, w. repeat (split; [first [reflexivity|assumption]|]). ring.
  - intros (h & -> & a & b & c & d & x & y & z & w & -> & Ha & Hb & Hc & Hd & ->). apply hexVal_iff in Ha, Hb, Hc, Hd. cbn [app hex4]. rewrite Ha, Hb, Hc, Hd. do 2 f_equal. ring.
Qed.
Lemma Hex4_range : forall h n, Hex4 h n -> 0 <= n < 65536 /\ length h = 4%nat.
Proof. intros h n (a & b & c & d & x & y & z & w & -> & Ha & Hb & Hc & Hd & ->). unfold HexDigit in *. split; [lia|reflexivity]. Qed.
Lemma map_code_inj : forall a b, map code a = map code b -> a = b.
Proof. induction a as [|x a IH]; intros [|y b] H; try discriminate; [reflexivity|]. cbn in H. injection H as H1 H2. f_equal; [apply code_inj; exact H1|apply IH; exact H2]. Qed.
Lemma utf8_spec : forall n, 0 <= n < 0x110000 -> Utf8 n (utf8 n).
Proof.
  intros n Hn. unfold Utf8, utf8.
  destruct (Z.ltb_spec n 128); [left; split; [lia|]; cbn [map]; rewrite code_chr by lia; reflexivity|].
  destruct (Z.ltb_spec n 2048).
  { right. left. split; [lia|]. exists (n / 64), (n mod 64). pose proof (Z.div_mod n 64 ltac:(lia)). pose proof (Z.mod_pos_bound n 64 ltac:(lia)).
    split; [lia|]. split; [lia|]. cbn [map]. rewrite !code_chr by lia. reflexivity. }
  destruct (Z.ltb_spec n 65536).
  { right. right. left. split; [lia|]. exists (n / 4096), (n / 64 mod 64), (n mod 64). pose proof (Z.div_mod n 64 ltac:(lia)). pose proof (Z.mod_pos_bound n 64 ltac:(lia)).
    pose proof (Z.div_mod (n / 64) 64 ltac:(lia)). pose proof (Z.mod_pos_bound (n / 64) 64 ltac:(lia)). rewrite Z.div_div in * by lia. change (64 * 64) with 4096 in *.
    split; [lia|]. split; [lia|]. split; [lia|]. cbn [map]. rewrite !code_chr by lia. reflexivity. }
  right. right. right. split; [lia|]. exists (n / 262144), (n / 4096 mod 64), (n / 64 mod 64), (n mod 64).
  pose proof (Z.div_mod n 64 ltac:(lia)). pose proof (Z.mod_pos_bound n 64 ltac:(lia)).
  pose proof (Z.div_mod (n / 64) 64 ltac:(lia)). pose proof (Z.mod_pos_bound (n / 64) 64 ltac:(lia)).
  pose proof (Z.div_mod (n / 64 / 64) 64 ltac:(lia)). pose proof (Z.mod_pos_bound (n / 64 / 64) 64 ltac:(lia)).
  rewrite !Z.div_div in * by lia. change (64 * 64 * 64) with 262144 in *. change (64 * 64) with 4096 in *.
  split; [lia|]. split; [lia|]. split; [lia|]. split; [lia|]. cbn [map]. rewrite !code_chr by lia. reflexivity.
Qed.
Lemma Utf8_fun : forall n s t, Utf8 n s -> Utf8 n t -> s = t.
Proof.
  intros n s t Hs Ht. apply map_code_inj. unfold Utf8 in *.
  destruct Hs as [[R1 E1]|[(R1 & a1 & b1 & H1 & H2 & E1)|[(R1 & a1 & b1 & c1 & H1 & H2 & H3 & E1)|(R1 & a1 & b1 & c1 & d1 & H1 & H2 & H3 & H4 & E1)]]];
  destruct Ht as [[R2 E2]|[(R2 & a2 & b2 & K1 & K2 & E2)|[(R2 & a2 & b2 & c2 & K1 & K2 & K3 & E2)|(R2 & a2 & b2 & c2 & d2 & K1 & K2 & K3 & K4 & E2)]]];
  try (exfalso; lia); rewrite E1, E2; repeat (f_equal; try lia).
Qed.
Lemma pairRune_iff : forall a b p, pairRune a b = Some p <-> High a /\ Low b /\ p = 0x10000 + (a - 0xD800) * 0x400 + (b - 0xDC00).
Proof.
  intros a b p. unfold pairRune, High, Low. destruct (Z.leb_spec 55296 a), (Z.ltb_spec a 56320), (Z.leb_spec 56320 b), (Z.ltb_spec b 57344); cbn [andb];
    (split; [intros E; first [discriminate E|injection E as <-; lia]|intros E; first [f_equal; lia|exfalso; lia]]).
Qed.
Lemma isSurrogate_iff : forall n, isSurrogate n = true <-> High n \/ Low n.
Proof. intros n. unfold isSurrogate, High, Low. rewrite andb_true_iff, Z.leb_le, Z.ltb_lt. lia. Qed.
Lemma simpleEsc_iff : forall c x, simpleEsc c = Some x <-> In (c, x) Escapes.
Proof.
  intros c x. unfold simpleEsc, Escapes. split.
  - repeat (match goal with |- context [Ascii.eqb c ?k] => destruct (Ascii.eqb_spec c k) as [->|?] end; [intros H; injection H as <-; cbn; tauto|]). discriminate.
  - intros H. cbn in H. repeat (destruct H as [H|H]; [injection H as <- <-; reflexivity|]). destruct H.
Qed.
Lemma isCtl_iff : forall c, isCtl c = false <-> 32 <= code c. Proof. intros. unfold isCtl. apply Z.ltb_ge. Qed.

Lemma inR_iff : forall lo hi c, inR lo hi c = true <-> lo <= code c <= hi.
Proof. intros. unfold inR. rewrite andb_true_iff, !Z.leb_le. tauto. Qed.
Lemma Rune_bytes : forall u, Rune u -> (exists a r, u = a :: r) /\ forall c, In c u -> 128 <= code c.
Proof.
  assert (K : forall u l, map code u = l -> (exists a r, l = a :: r) -> (forall x, In x l -> 128 <= x) -> (exists a r, u = a :: r) /\ forall c, In c u -> 128 <= code c).
  { intros u l <- (a & r & E) H. split; [destruct u; [discriminate|eauto]|]. intros c Hc. apply H, in_map, Hc. }
  intros u (n & Hn & _ & _ & H). unfold Utf8 in H.
  destruct H as [[R1 _]|[(R1 & a & b & H1 & H2 & E)|[(R1 & a & b & c & H1 & H2 & H3 & E)|(R1 & a & b & c & d & H1 & H2 & H3 & H4 & E)]]]; [lia|..];
    (eapply K; [exact E|eauto|]; intros x Hx; cbn [In] in Hx; lia).
Qed.
Lemma cons_eq : forall (a b : Z) l m, a :: l = b :: m -> a = b /\ l = m. Proof. intros a b l m H. split; congruence. Qed.
Lemma Rune_two : forall a b, Rune [a; b] <-> 0xC2 <= code a <= 0xDF /\ 0x80 <= code b <= 0xBF.
Proof.
  intros a b. split.
  - intros (n & Hn & _ & _ & H). unfold Utf8 in H.
    destruct H as [[R1 E]|[(R1 & x & y & H1 & H2 & E)|[(R1 & x & y & z & H1 & H2 & H3 & E)|(R1 & x & y & z & w & H1 & H2 & H3 & H4 & E)]]]; try discriminate E.
    cbn [map] in E. apply cons_eq in E. destruct E as [E1 E]. apply cons_eq in E. destruct E as [E2 E]. clear E. lia.
  - intros [H1 H2]. exists ((code a - 0xC0) * 64 + (code b - 0x80)). unfold High, Low. split; [lia|]. split; [lia|]. split; [lia|].
    right. left. split; [lia|]. exists (code a - 0xC0), (code b - 0x80). split; [lia|]. split; [lia|]. cbn [map]. repeat (f_equal; try lia).
Qed.
Lemma Rune_three : forall a b c, Rune [a; b; c] <-> 0xE0 <= code a <= 0xEF /\
  (if code a =? 0xE0 then 0xA0 else 0x80) <= code b <= (if code a =? 0xED then 0x9F else 0xBF) /\ 0x80 <= code c <= 0xBF.
Proof.
  intros a b c. split.
  - intros (n & Hn & Hh & Hl & H). unfold Utf8, High, Low in *.
    destruct H as [[R1 E]|[(R1 & x & y & H1 & H2 & E)|[(R1 & x & y & z & H1 & H2 & H3 & E)|(R1 & x & y & z & w & H1 & H2 & H3 & H4 & E)]]]; try discriminate E.
    cbn [map] in E. apply cons_eq in E. destruct E as [E1 E]. apply cons_eq in E. destruct E as [E2 E]. apply cons_eq in E. destruct E as [E3 E]. clear E. destruct (Z.eqb_spec (code a) 0xE0), (Z.eqb_spec (code a) 0xED); lia.
  - intros (H1 & H2 & H3). exists (((code a - 0xE0) * 64 + (code b - 0x80)) * 64 + (code c - 0x80)). unfold High, Low.
    assert (K : 0x800 <= ((code a - 0xE0) * 64 + (code b - 0x80)) * 64 + (code c - 0x80) < 0x10000 /\
      ~ (0xD800 <= ((code a - 0xE0) * 64 + (code b - 0x80)) * 64 + (code c - 0x80) <= 0xDFFF) /\ 0 <= code b - 0x80 < 64)
      by (destruct (Z.eqb_spec (code a) 0xE0), (Z.eqb_spec (code a) 0xED); lia).
    clear H2. split; [lia|]. split; [lia|]. split; [lia|]. right. right. left. split; [lia|]. exists (code a - 0xE0), (code b - 0x80), (code c - 0x80).
    split; [lia|]. split; [lia|]. split; [lia|]. cbn [map]. repeat (f_equal; try lia).
Qed.
Lemma Rune_four : forall a b c d, Rune [a; b; c; d] <-> 0xF0 <= code a <= 0xF4 /\
  (if code a =? 0xF0 then 0x90 else 0x80) <= code b <= (if code a =? 0xF4 then 0x8F else 0xBF) /\ 0x80 <= code c <= 0xBF /\ 0x80 <= code d <= 0xBF.
Proof.
  intros a b c d. split.
  - intros (n & Hn & Hh & Hl & H). unfold Utf8, High, Low in *.
    destruct H as [[R1 E]|[(R1 & x & y & H1 & H2 & E)|[(R1 & x & y & z & H1 & H2 & H3 & E)|(R1 & x & y & z & w & H1 & H2 & H3 & H4 & E)]]]; try discriminate E.
    cbn [map] in E. apply cons_eq in E. destruct E as [E1 E]. apply cons_eq in E. destruct E as [E2 E]. apply cons_eq in E. destruct E as [E3 E]. apply cons_eq in E. destruct E as [E4 E]. clear E. destruct (Z.eqb_spec (code a) 0xF0), (Z.eqb_spec (code a) 0xF4); lia.
  - intros (H1 & H2 & H3 & H4). exists ((((code a - 0xF0) * 64 + (code b - 0x80)) * 64 + (code c - 0x80)) * 64 + (code d - 0x80)). unfold High, Low.
    assert (K : 0x10000 <= (((code a - 0xF0) * 64 + (code b - 0x80)) * 64 + (code c - 0x80)) * 64 + (code d - 0x80) < 0x110000 /\ 0 <= code b - 0x80 < 64)
      by (destruct (Z.eqb_spec (code a) 0xF0), (Z.eqb_spec (code a) 0xF4); lia).
    clear H2. split; [lia|]. split; [lia|]. split; [lia|]. right. right. right. split; [lia|]. exists (code a - 0xF0), (code b - 0x80), (code c - 0x80), (code d - 0x80).
    split; [lia|]. split; [lia|]. split; [lia|]. split; [lia|]. cbn [map]. repeat (f_equal; try lia).
Qed.
Lemma Rune_shape : forall u, Rune u -> (exists a b, u = [a; b]) \/ (exists a b c, u = [a; b; c]) \/ (exists a b c d, u = [a; b; c; d]).
Proof.
  intros u (n & Hn & _ & _ & H). unfold Utf8 in H.
  destruct H as [[R1 E]|[(R1 & x & y & H1 & H2 & E)|[(R1 & x & y & z & H1 & H2 & H3 & E)|(R1 & x & y & z & w & H1 & H2 & H3 & H4 & E)]]]; [lia|..];
    destruct u as [|a [|b [|c [|d [|e u]]]]]; try discriminate E; eauto 10.
Qed.
Lemma pRune_iff : forall t u r, pRune t = Some (u, r) <-> t = u ++ r /\ Rune u.
Proof.
  intros t u r. split.
  - destruct t as [|a [|b r1]]; try discriminate. unfold pRune. destruct (inR 0xC2 0xDF a) eqn:E2.
    { destruct (inR 0x80 0xBF b) eqn:Eb; [|discriminate]. intros H. injection H as <- <-. apply inR_iff in E2, Eb. split; [reflexivity|]. apply Rune_two. split; assumption. }
    destruct (inR 0xE0 0xEF a) eqn:E3.
    { destruct r1 as [|c r2]; [discriminate|]. destruct (_ && _) eqn:E; [|discriminate]. intros H. injection H as <- <-. apply andb_prop in E. destruct E as [Eb Ec].
      apply inR_iff in E3, Eb, Ec. split; [reflexivity|]. apply Rune_three. split; [assumption|]. split; assumption. }
    destruct (inR 0xF0 0xF4 a) eqn:E4; [|discriminate]. destruct r1 as [|c [|d r3]]; try discriminate. destruct (_ && _) eqn:E; [|discriminate].
    intros H. injection H as <- <-. apply andb_prop in E. destruct E as [E Ed]. apply andb_prop in E. destruct E as [Eb Ec]. apply inR_iff in E4, Eb, Ec, Ed.
    split; [reflexivity|]. apply Rune_four. split; [assumption|]. split; [assumption|]. split; assumption.
  - intros [-> H].
    assert (N : forall lo hi c, ~ (lo <= code c <= hi) -> inR lo hi c = false) by (intros lo hi c K; apply not_true_is_false; rewrite inR_iff; exact K).
    destruct (Rune_shape u H) as [(a & b & ->)|[(a & b & c & ->)|(a & b & c & d & ->)]]; unfold pRune; cbn [app].
    + apply Rune_two in H. destruct H as [H1 H2]. rewrite (proj2 (inR_iff _ _ a) H1), (proj2 (inR_iff _ _ b) H2). reflexivity.
    + apply Rune_three in H. destruct H as (H1 & H2 & H3). rewrite (N 0xC2 0xDF a) by lia. rewrite (proj2 (inR_iff _ _ a) H1), (proj2 (inR_iff _ _ b) H2), (proj2 (inR_iff _ _ c) H3). reflexivity.
    + apply Rune_four in H. destruct H as (H1 & H2 & H3 & H4). rewrite (N 0xC2 0xDF a), (N 0xE0 0xEF a) by lia.
      rewrite (proj2 (inR_iff _ _ a) H1), (proj2 (inR_iff _ _ b) H2), (proj2 (inR_iff _ _ c) H3), (proj2 (inR_iff _ _ d) H4). reflexivity.
Qed.

Local Opaque utf8 pRune.
Lemma pStr_sound : forall f t s r, pStr f t = Some (s, r) -> exists b, t = b ++ """" :: r /\ Chars b s.
Proof.
  induction f as [|f IH]; intros t s r H; [discriminate|]. cbn [pStr] in H. destruct t as [|c t]; [discriminate|].
  destruct (Ascii.eqb_spec c """") as [->|Hq]; [injection H as <- <-; exists []; split; [reflexivity|constructor]|].
  destruct (Ascii.eqb_spec c "\") as [->|Hb].
  - destruct t as [|e t]; [discriminate|]. destruct (Ascii.eqb_spec e "u") as [->|Hu].
    + destruct (hex4 t) as [[n r2]|] eqn:Eh; [|discriminate]. apply hex4_iff in Eh. destruct Eh as (h & -> & Hh). pose proof (Hex4_range h n Hh) as [Hn _].
      destruct (isSurrogate n) eqn:Es.
      * assert (HL : (match pStr f r2 with Some (s, r') => Some (utf8 65533 ++ s, r') | None => None end) = Some (s, r) ->
          (forall h' n' t', r2 = "\" :: "u" :: h' ++ t' -> Hex4 h' n' -> pairRune n n' = None) -> exists b, "\" :: "u" :: h ++ r2 = b ++ """" :: r /\ Chars b s).
        { clear H. intros E Hno. destruct (pStr f r2) as [[s' r']|] eqn:E2; [|discriminate]. injection E as <- <-. apply IH in E2. destruct E2 as (b & -> & Hc).
          exists ("\" :: "u" :: h ++ b). split; [cbn; rewrite <- app_assoc; reflexivity|]. apply (ch_lone h n); try assumption; [apply isSurrogate_iff; exact Es| |apply utf8_spec; lia].
          intros (Hhi & h' & n' & t' & -> & Hh' & Hlo). specialize (Hno h' n' (t' ++ """" :: r')).
          rewrite (proj2 (pairRune_iff n n' _) (conj Hhi (conj Hlo eq_refl))) in Hno. discriminate Hno; [|assumption]. cbn. rewrite <- app_assoc. reflexivity. }
        destruct r2 as [|b1 [|u1 r3]]; [apply HL; [exact H|discriminate]|apply HL; [exact H|discriminate]|].
        destruct (Ascii.eqb b1 "\" && Ascii.eqb u1 "u") eqn:Eb.
        -- apply andb_prop in Eb. rewrite !Ascii.eqb_eq in Eb. destruct Eb as [-> ->]. destruct (hex4 r3) as [[n2 r4]|] eqn:Eh2; [|discriminate].
           destruct (pairRune n n2) as [p|] eqn:Ep.
           ++ destruct (pStr f r4) as [[s' r']|] eqn:E4; [|discriminate]. injection H as <- <-. apply IH in E4. destruct E4 as (b & -> & Hc).
              apply hex4_iff in Eh2. destruct Eh2 as (h2 & -> & Hh2). apply pairRune_iff in Ep. destruct Ep as (Hhi & Hlo & ->).
              exists ("\" :: "u" :: h ++ "\" :: "u" :: h2 ++ b). split; [cbn; rewrite <- !app_assoc; cbn; rewrite <- app_assoc; reflexivity|].
              apply (ch_pair h n h2 n2); try assumption. apply utf8_spec. unfold High, Low in *. lia.
           ++ apply HL; [exact H|]. intros h' n' t' E Hh'. injection E as ->. rewrite (proj2 (hex4_iff _ n' t')) in Eh2 by (exists h'; split; [reflexivity|assumption]).
              injection Eh2 as <- <-. exact Ep.
        -- apply HL; [exact H|]. intros h' n' t' E Hh'. injection E as -> -> _. discriminate Eb.
      * destruct (pStr f r2) as [[s' r']|] eqn:E2; [|discriminate]. injection H as <- <-. apply IH in E2. destruct E2 as (b & -> & Hc).
        exists ("\" :: "u" :: h ++ b). split; [cbn; rewrite <- app_assoc; reflexivity|].
        assert (Hns : ~ (High n \/ Low n)) by (rewrite <- isSurrogate_iff; congruence).
        apply (ch_u h n); try assumption; [tauto|tauto|]. apply utf8_spec. lia.
    + destruct (simpleEsc e) as [x|] eqn:Ex; [|discriminate]. apply simpleEsc_iff in Ex. destruct (pStr f t) as [[s' r']|] eqn:E2; [|discriminate]. injection H as <- <-.
      apply IH in E2. destruct E2 as (b & -> & Hc). exists ("\" :: e :: b). split; [reflexivity|]. apply ch_esc; assumption.
  - destruct (isCtl c) eqn:Ec; [discriminate|]. apply isCtl_iff in Ec. destruct (Z.leb_spec 128 (code c)) as [H128|H128].
    { destruct (pRune (c :: t)) as [[u r1]|] eqn:Er.
      - destruct (pStr f r1) as [[s' r']|] eqn:E2; [|discriminate]. injection H as <- <-. apply IH in E2. destruct E2 as (b & -> & Hc).
        apply pRune_iff in Er. destruct Er as [-> Hr]. exists (u ++ b). split; [rewrite <- app_assoc; reflexivity|]. apply ch_rune; assumption.
      - destruct (pStr f t) as [[s' r']|] eqn:E2; [|discriminate]. injection H as <- <-. apply IH in E2. destruct E2 as (b & -> & Hc).
        exists (c :: b). split; [reflexivity|]. apply ch_bad; try assumption; [|apply utf8_spec; lia].
        intros (v & t' & E & Hv). rewrite (proj2 (pRune_iff _ v (t' ++ """" :: r'))) in Er; [discriminate|]. split; [|exact Hv].
        change (c :: b ++ """" :: r') with ((c :: b) ++ """" :: r'). rewrite E, <- app_assoc. reflexivity. }
    destruct (pStr f t) as [[s' r']|] eqn:E2; [|discriminate]. injection H as <- <-. apply IH in E2. destruct E2 as (b & -> & Hc).
    exists (c :: b). split; [reflexivity|]. apply ch_plain; try assumption. lia.
Qed.
Lemma Escapes_u : forall x, ~ In ("u", x) Escapes.
Proof. intros x H. apply simpleEsc_iff in H. discriminate. Qed.
Lemma Chars_esc : forall t s, Chars ("\" :: t) s -> (exists c x t', t = c :: t' /\ In (c, x) Escapes) \/ exists h n t', t = "u" :: h ++ t' /\ Hex4 h n.
Proof.
  intros t s H. remember ("\" :: t) as b eqn:E. destruct H as [|c b s Hq Hb Hc H|u b s Hu H|c u b s Hc Hn Hu H|c x b s Hx H|h n u b s Hh Hhi Hlo Hu H|h n h' n' u b s Hh Hhi Hh' Hlo Hu H|h n u b s Hh Hs Hno Hu H].
  - discriminate.
  - injection E as -> _. contradiction.
  - exfalso. destruct (Rune_bytes u Hu) as ((a & r & ->) & HB). injection E as -> _. specialize (HB "\" (or_introl eq_refl)). cbn in HB. lia.
  - injection E as -> _. cbn in Hc. lia.
  - injection E as <-. left. exists c, x, b. split; [reflexivity|exact Hx].
  - injection E as <-. right. exists h, n, b. split; [reflexivity|exact Hh].
  - injection E as <-. right. exists h, n. eexists. split; [reflexivity|exact Hh].
  - injection E as <-. right. exists h, n, b. split; [reflexivity|exact Hh].
Qed.
Lemma pStr_complete : forall b s, Chars b s -> forall f r, (length b < f)%nat -> pStr f (b ++ """" :: r) = Some (s, r).
Proof.
  induction 1 as [|c t s Hq Hb Hc H IH|u t s Hu H IH|c u t s Hc Hn Hu H IH|c x t s Hx H IH|h n u t s Hh Hhi Hlo Hu H IH|h n h' n' u t s Hh Hhi Hh' Hlo Hu H IH|h n u t s Hh Hs Hno Hu H IH];
    intros f r Hf; (destruct f as [|f]; [lia|]); cbn [app pStr].
  - reflexivity.
  - cbn [length] in Hf. rewrite (eqbF _ _ Hq), (eqbF _ _ Hb), (proj2 (isCtl_iff c) (proj1 Hc)) by assumption. destruct (Z.leb_spec 128 (code c)); [lia|]. rewrite IH by lia. reflexivity.
  - pose proof (proj2 (pRune_iff (u ++ t ++ """" :: r) u (t ++ """" :: r)) (conj eq_refl Hu)) as HR.
    destruct (Rune_bytes u Hu) as ((a & u' & E) & HB). assert (Ha : 128 <= code a) by (apply HB; rewrite E; left; reflexivity).
    rewrite app_length in Hf. rewrite <- app_assoc. rewrite E in HR, Hf |- *. cbn [app length] in HR, Hf |- *.
    rewrite !(eqbF a) by (intros ->; cbn in Ha; lia). rewrite (proj2 (isCtl_iff a)) by lia. destruct (Z.leb_spec 128 (code a)); [|lia].
    rewrite HR, IH by lia. reflexivity.
  - cbn [length] in Hf. rewrite !(eqbF c) by (intros ->; cbn in Hc; lia). rewrite (proj2 (isCtl_iff c)) by lia. destruct (Z.leb_spec 128 (code c)); [|lia].
    destruct (pRune (c :: t ++ """" :: r)) as [[v r1]|] eqn:Er.
    + exfalso. apply pRune_iff in Er. destruct Er as [E Hv]. apply Hn. exists v. change (c :: t ++ """" :: r) with ((c :: t) ++ """" :: r) in E.
      destruct (app_eq_app _ _ _ _ E) as (x & [[-> Ex]|[Ev Ex]]); [exists x; split; [reflexivity|exact Hv]|].
      destruct x as [|y x]; [exists []; split; [rewrite app_nil_r in *; congruence|exact Hv]|]. cbn in Ex. injection Ex as <- _.
      exfalso. destruct (Rune_bytes v Hv) as [_ HB]. assert (K : 128 <= code """") by (apply HB; rewrite Ev; apply in_or_app; right; left; reflexivity). cbn in K. lia.
    + rewrite IH by lia. do 3 f_equal. apply (Utf8_fun 65533); [apply utf8_spec; lia|exact Hu].
  - cbn [length] in Hf. cbn [Ascii.eqb Bool.eqb]. rewrite eqbF by (intros ->; apply (Escapes_u x Hx)). rewrite (proj2 (simpleEsc_iff c x) Hx), IH by lia. reflexivity.
  - cbn [Ascii.eqb Bool.eqb]. rewrite <- app_assoc, (proj2 (hex4_iff (h ++ t ++ """" :: r) n (t ++ """" :: r))) by (exists h; split; [reflexivity|assumption]).
    replace (isSurrogate n) with false by (symmetry; apply not_true_is_false; rewrite isSurrogate_iff; tauto).
    cbn [length] in Hf. rewrite app_length in Hf. rewrite IH by lia. do 2 f_equal. f_equal. apply (Utf8_fun n); [|exact Hu]. apply utf8_spec. pose proof (Hex4_range h n Hh). lia.
  - cbn [Ascii.eqb Bool.eqb]. rewrite <- app_assoc. cbn [app]. rewrite <- app_assoc.
    rewrite (proj2 (hex4_iff (h ++ "\" :: "u" :: h' ++ t ++ """" :: r) n ("\" :: "u" :: h' ++ t ++ """" :: r))) by (exists h; split; [reflexivity|assumption]).
    rewrite (proj2 (isSurrogate_iff n) (or_introl Hhi)). cbn [Ascii.eqb Bool.eqb andb].
    rewrite (proj2 (hex4_iff (h' ++ t ++ """" :: r) n' (t ++ """" :: r))) by (exists h'; split; [reflexivity|assumption]).
    rewrite (proj2 (pairRune_iff n n' _) (conj Hhi (conj Hlo eq_refl))).
    cbn [length] in Hf. rewrite app_length in Hf. cbn [length] in Hf. rewrite app_length in Hf. rewrite IH by lia. do 2 f_equal. f_equal.
    eapply Utf8_fun; [|exact Hu]. apply utf8_spec. unfold High, Low in *. lia.
  - cbn [Ascii.eqb Bool.eqb]. rewrite <- app_assoc, (proj2 (hex4_iff (h ++ t ++ """" :: r) n (t ++ """" :: r))) by (exists h; split; [reflexivity|assumption]).
    rewrite (proj2 (isSurrogate_iff n) Hs). cbn [length] in Hf. rewrite app_length in Hf. rewrite IH by lia.
    assert (HL : Some (utf8 65533 ++ s, r) = Some (u ++ s, r)) by (do 2 f_equal; f_equal; apply (Utf8_fun _ _ _ (utf8_spec 65533 ltac:(lia)) Hu)).
    destruct t as [|b1 [|u1 t]]; cbn [app].
    + destruct r; [exact HL|]. cbn [Ascii.eqb Bool.eqb andb]. exact HL.
    + cbn [app] in *. destruct (Ascii.eqb_spec b1 "\") as [->|_]; [|cbn [andb]; exact HL]. exfalso. destruct (Chars_esc _ _ H) as [(? & ? & ? & E & _)|(? & ? & ? & E & _)]; discriminate E.
    + cbn [app] in *. destruct (Ascii.eqb b1 "\" && Ascii.eqb u1 "u") eqn:E; [|exact HL]. apply andb_prop in E. rewrite !Ascii.eqb_eq in E. destruct E as [-> ->].
      assert (HX : exists h' n' t', "\" :: "u" :: t = "\" :: "u" :: h' ++ t' /\ Hex4 h' n').
      { destruct (Chars_esc _ _ H) as [(c & x & t' & E & Hx)|(hh & nn & t' & E & Hh2)].
        - injection E as <- _. exfalso. exact (Escapes_u x Hx).
        - injection E as ->. exists hh, nn, t'. split; [reflexivity|exact Hh2]. }
      destruct HX as (h' & n' & t' & Et & Hh'). injection Et as ->. rewrite <- app_assoc.
      rewrite (proj2 (hex4_iff (h' ++ t' ++ """" :: r) n' (t' ++ """" :: r))) by (exists h'; split; [reflexivity|assumption]).
      destruct (pairRune n n') as [p|] eqn:Ep; [|exact HL]. exfalso. apply pairRune_iff in Ep. destruct Ep as (K1 & K2 & _). apply Hno. split; [exact K1|].
      exists h', n', t'. split; [reflexivity|]. split; assumption.
Qed.
Lemma pString_sound : forall t s r, pString t = Some (s, r) -> exists q, """" :: t = q ++ r /\ Quoted s q.
Proof.
  intros t s r H. unfold pString in H. destruct (pStr _ t) as [[l r']|] eqn:E; [|discriminate]. injection H as <- <-. apply pStr_sound in E. destruct E as (b & -> & Hc).
  exists ("""" :: b ++ [""""]). split; [cbn; rewrite <- app_assoc; reflexivity|]. exists b. split; [reflexivity|]. rewrite list_ascii_of_string_of_list_ascii. exact Hc.
Qed.
Lemma pString_complete : forall s q r, Quoted s q -> exists t, q ++ r = """" :: t /\ pString t = Some (s, r).
Proof.
  intros s q r (b & -> & Hc). exists (b ++ """" :: r). split; [cbn; rewrite <- app_assoc; reflexivity|]. unfold pString.
  rewrite (pStr_complete b _ Hc) by (rewrite app_length; lia). rewrite string_of_list_ascii_of_string. reflexivity.
Qed.

(** ** Values *)
Lemma litRest_iff : forall w t r, litRest w t = Some r <-> t = w ++ r.
Proof.
  induction w as [|a w IH]; intros t r; cbn [litRest app]; [split; [congruence|intros ->; reflexivity]|].
  destruct t as [|b t]; [split; discriminate|]. destruct (Ascii.eqb_spec a b) as [->|H].
  - rewrite IH. split; [intros ->; reflexivity|intros E; injection E as ->; reflexivity].
  - split; [discriminate|]. intros E. injection E as -> _. contradiction.
Qed.
Lemma lit_sound : forall s v t j r, lit s v t = Some (j, r) -> j = v /\ t = list_ascii_of_string s ++ r.
Proof. intros s v t j r H. unfold lit in H. destruct (litRest _ t) as [r'|] eqn:E; [|discriminate]. injection H as <- <-. apply litRest_iff in E. auto. Qed.
Lemma lit_complete : forall s v r, lit s v (list_ascii_of_string s ++ r) = Some (v, r).
Proof. intros s v r. unfold lit. rewrite (proj2 (litRest_iff _ _ r) eq_refl). reflexivity. Qed.
Lemma Number_first : forall j t, Number j t -> exists c r, t = c :: r /\ (c = "-" \/ isDigit c = true).
Proof. intros j t [t' z H _| |t' z f e H _ _|t' z e H _]; [|exists "-", ["0"]; split; [reflexivity|left; reflexivity]|..]; destruct (Integer_first _ _ H) as (c & r & -> & Hc); (eexists; eexists; split; [reflexivity|exact Hc]). Qed.
Lemma Val_first : forall j t, Val j t -> exists c r, t = c :: r /\ isSpace c = false /\ c <> "]" /\ c <> "}" /\ c <> ",".
Proof.
  intros j t H. destruct H as [| | |j t H|s t H|w _|l t _|w _|l t _];
    try (eexists; eexists; split; [reflexivity|]; repeat split; first [reflexivity|discriminate]).
  - destruct (Number_first j t H) as (c & r & -> & Hc). exists c, r. split; [reflexivity|].
    destruct Hc as [->|Hc]; [repeat split; first [reflexivity|discriminate]|]. apply digit_code in Hc. split.
    + unfold isSpace. rewrite !eqbF; [reflexivity|..]; intros ->; cbn in Hc; lia.
    + repeat split; intros ->; cbn in Hc; lia.
  - destruct H as (b & -> & _). eexists; eexists; split; [reflexivity|]; repeat split; first [reflexivity|discriminate].
Qed.
Definition adepth (l : list json) : Z := fold_right (fun v m => Z.max (depth v) m) 0 l.
Definition odepth (l : list (string * json)) : Z := fold_right (fun kv m => Z.max (depth (snd kv)) m) 0 l.
Lemma depth_arr : forall l, depth (JArr l) = 1 + adepth l. Proof. reflexivity. Qed.
Lemma depth_obj : forall l, depth (JObj l) = 1 + odepth l. Proof. reflexivity. Qed.
Lemma pNum_depth : forall t j r, pNum t = Some (j, r) -> depth j = 0.
Proof. intros t j r H. apply pNum_sound in H. destruct H as (v & _ & []); reflexivity. Qed.

Lemma values_sound : forall f,
  (forall d t j r, 0 <= d -> pVal f d t = Some (j, r) -> exists w v, t = w ++ v ++ r /\ Ws w /\ Val j v /\ depth j <= d) /\
  (forall d t l r, 0 <= d -> pElems f d t = Some (l, r) -> exists e, t = e ++ "]" :: r /\ Elems l e /\ adepth l <= d) /\
  (forall d t l r, 0 <= d -> pMembers f d t = Some (l, r) -> exists e, t = e ++ "}" :: r /\ Members l e /\ odepth l <= d).
Proof.
  induction f as [|f (IHv & IHe & IHm)]; [split; [|split]; discriminate|]. split; [|split].
  - intros d t j r Hd H. cbn [pVal] in H. destruct (skip_spec t) as (w & Et & Hw & _). destruct (skipWs t) as [|c r0]; [discriminate|].
    enough (HG : exists v, c :: r0 = v ++ r /\ Val j v /\ depth j <= d).
    { destruct HG as (v & Ev & HV & HD). exists w, v. rewrite <- Ev. auto. }
    clear t w Et Hw.
    destruct (Ascii.eqb_spec c "{") as [->|_].
    { destruct (Z.leb_spec d 0) as [|Hd']; [discriminate|]. destruct (skip_spec r0) as (w & Er & Hw & _). destruct (skipWs r0) as [|e r'] eqn:Es; [discriminate|].
      destruct (Ascii.eqb_spec e "}") as [->|_].
      - injection H as <- <-. exists ("{" :: w ++ ["}"]). split; [cbn; rewrite <- app_assoc; cbn; congruence|]. split; [apply v_obj0; exact Hw|cbn; lia].
      - destruct (pMembers f (d - 1) r0) as [[l r1]|] eqn:E; [|discriminate]. injection H as <- <-. apply IHm in E; [|lia]. destruct E as (m & -> & HM & HD).
        exists ("{" :: m ++ ["}"]). split; [cbn; rewrite <- app_assoc; reflexivity|]. split; [apply v_obj; exact HM|rewrite depth_obj; lia]. }
    destruct (Ascii.eqb_spec c "[") as [->|_].
    { destruct (Z.leb_spec d 0) as [|Hd']; [discriminate|]. destruct (skip_spec r0) as (w & Er & Hw & _). destruct (skipWs r0) as [|e r'] eqn:Es; [discriminate|].
      destruct (Ascii.eqb_spec e "]") as [->|_].
      - injection H as <- <-. exists ("[" :: w ++ ["]"]). split; [cbn; rewrite <- app_assoc; cbn; congruence|]. split; [apply v_arr0; exact Hw|cbn; lia].
      - destruct (pElems f (d - 1) r0) as [[l r1]|] eqn:E; [|discriminate]. injection H as <- <-. apply IHe in E; [|lia]. destruct E as (m & -> & HM & HD).
        exists ("[" :: m ++ ["]"]). split; [cbn; rewrite <- app_assoc; reflexivity|]. split; [apply v_arr; exact HM|rewrite depth_arr; lia]. }
    destruct (Ascii.eqb_spec c """") as [->|_].
    { destruct (pString r0) as [[s r']|] eqn:E; [|discriminate]. injection H as <- <-. apply pString_sound in E. destruct E as (q & Eq & HQ). exists q. split; [exact Eq|]. split; [apply v_str; exact HQ|exact Hd]. }
    destruct (Ascii.eqb_spec c "t") as [->|_]; [apply lit_sound in H; destruct H as [-> ->]; exists ["t"; "r"; "u"; "e"]; split; [reflexivity|]; split; [constructor|exact Hd]|].
    destruct (Ascii.eqb_spec c "f") as [->|_]; [apply lit_sound in H; destruct H as [-> ->]; exists ["f"; "a"; "l"; "s"; "e"]; split; [reflexivity|]; split; [constructor|exact Hd]|].
    destruct (Ascii.eqb_spec c "n") as [->|_]; [apply lit_sound in H; destruct H as [-> ->]; exists ["n"; "u"; "l"; "l"]; split; [reflexivity|]; split; [constructor|exact Hd]|].
    pose proof (pNum_depth _ _ _ H) as HD. apply pNum_sound in H. destruct H as (v & Ev & HN). exists v. split; [exact Ev|]. split; [apply v_num; exact HN|lia].
  - intros d t l r Hd H. cbn [pElems] in H. destruct (pVal f d t) as [[v r0]|] eqn:Ev; [|discriminate]. apply IHv in Ev; [|exact Hd]. destruct Ev as (w & tv & -> & Hw & HV & HD).
    destruct (skip_spec r0) as (w' & Er & Hw' & _). destruct (skipWs r0) as [|c r1]; [discriminate|]. subst r0.
    destruct (Ascii.eqb_spec c ",") as [->|_].
    + destruct (pElems f d r1) as [[l' r2]|] eqn:E; [|discriminate]. injection H as <- <-. apply IHe in E; [|exact Hd]. destruct E as (e & -> & HE & HA).
      exists (w ++ tv ++ w' ++ "," :: e). split; [rewrite <- !app_assoc; reflexivity|]. split; [apply e_more; assumption|]. cbn [adepth fold_right] in *. fold (adepth l'). lia.
    + destruct (Ascii.eqb_spec c "]") as [->|_]; [|discriminate]. injection H as <- <-. exists (w ++ tv ++ w'). split; [rewrite <- !app_assoc; reflexivity|].
      split; [apply e_one; assumption|]. cbn [adepth fold_right]. lia.
  - intros d t l r Hd H. cbn [pMembers] in H. destruct (skip_spec t) as (w1 & Et & Hw1 & _). destruct (skipWs t) as [|q0 r0]; [discriminate|]. subst t.
    destruct (Ascii.eqb_spec q0 """") as [->|_]; [|discriminate]. destruct (pString r0) as [[k r1]|] eqn:Eq; [|discriminate]. apply pString_sound in Eq. destruct Eq as (q & Eq & HQ). rewrite Eq. clear Eq r0.
    destruct (skip_spec r1) as (w2 & E1 & Hw2 & _). destruct (skipWs r1) as [|col r2]; [discriminate|]. subst r1. destruct (Ascii.eqb_spec col ":") as [->|_]; [|discriminate].
    destruct (pVal f d r2) as [[v r3]|] eqn:Ev; [|discriminate]. apply IHv in Ev; [|exact Hd]. destruct Ev as (w3 & tv & -> & Hw3 & HV & HD).
    destruct (skip_spec r3) as (w4 & Er & Hw4 & _). destruct (skipWs r3) as [|c r4]; [discriminate|]. subst r3.
    destruct (Ascii.eqb_spec c ",") as [->|_].
    + destruct (pMembers f d r4) as [[l' r5]|] eqn:E; [|discriminate]. injection H as <- <-. apply IHm in E; [|exact Hd]. destruct E as (e & -> & HE & HA).
      exists (w1 ++ q ++ w2 ++ ":" :: w3 ++ tv ++ w4 ++ "," :: e). split; [rewrite <- !app_assoc; cbn; rewrite <- !app_assoc; reflexivity|]. split; [apply m_more; assumption|].
      cbn [odepth fold_right snd] in *. fold (odepth l'). lia.
    + destruct (Ascii.eqb_spec c "}") as [->|_]; [|discriminate]. injection H as <- <-. exists (w1 ++ q ++ w2 ++ ":" :: w3 ++ tv ++ w4).
      split; [rewrite <- !app_assoc; cbn; rewrite <- !app_assoc; reflexivity|]. split; [apply m_one; assumption|]. cbn [odepth fold_right snd]. lia.
Qed.

Lemma adepth_nonneg : forall l, 0 <= adepth l. Proof. induction l; cbn [adepth fold_right]; [lia|]. fold (adepth l). lia. Qed.
Lemma odepth_nonneg : forall l, 0 <= odepth l. Proof. induction l; cbn [odepth fold_right]; [lia|]. fold (odepth l). lia. Qed.
Lemma pVal_ws : forall f d w t, Ws w -> pVal f d (w ++ t) = pVal f d t.
Proof. intros [|f] d w t H; [reflexivity|]. cbn [pVal]. rewrite skip_ws by exact H. reflexivity. Qed.
Lemma stop_ws : forall w c r, Ws w -> NumStop (c :: r) -> NumStop (w ++ c :: r).
Proof.
  intros [|a w] c r Hw H; [exact H|]. intros x r' E. injection E as <- _. apply Ws_inv in Hw. destruct Hw as [Ha _]. apply isSpace_iff in Ha. cbn in Ha.
  destruct Ha as [<-|[<-|[<-|[<-|[]]]]]; (split; [reflexivity|]); repeat split; discriminate.
Qed.
Lemma stop_nil : NumStop []. Proof. intros c r' H. discriminate. Qed.
Lemma stop_ws_nil : forall w, Ws w -> NumStop w.
Proof. intros [|a w] H; [apply stop_nil|]. apply Ws_inv in H. destruct H as [H1 H2]. apply (stop_ws [] a w Ws_nil). intros x r' E. injection E as <- _. apply isSpace_iff in H1. cbn in H1.
  destruct H1 as [<-|[<-|[<-|[<-|[]]]]]; (split; [reflexivity|]); repeat split; discriminate. Qed.
Ltac stop1 := let K := fresh in intros ? ? K; injection K as <- _; split; [reflexivity|repeat split; discriminate].
Lemma Elems_first : forall l t, Elems l t -> forall r, exists c r', skipWs (t ++ r) = c :: r' /\ c <> "]".
Proof.
  intros l t [w v t0 w' Hw HV _|w v t0 w' l' t' Hw HV _ _] r; destruct (Val_first _ _ HV) as (c & r' & -> & Hs & Hc & _);
    rewrite <- app_assoc, skip_ws by exact Hw; cbn [app]; rewrite skip_non by exact Hs; eauto.
Qed.
Lemma Members_first : forall l t, Members l t -> forall r, exists r', skipWs (t ++ r) = """" :: r'.
Proof.
  intros l t H r. destruct H as [w1 k q w2 w3 v t0 w4 Hw HQ _ _ _ _|w1 k q w2 w3 v t0 w4 l' t' Hw HQ _ _ _ _ _]; destruct HQ as (b & -> & _);
    rewrite <- app_assoc, skip_ws by exact Hw; cbn [app]; rewrite skip_non by reflexivity; eauto.
Qed.
Lemma Val_length : forall j t, Val j t -> (1 <= length t)%nat.
Proof. intros j t H. destruct (Val_first j t H) as (c & r & -> & _). cbn. lia. Qed.

Lemma values_complete :
  (forall j t, Val j t -> forall f d r, (2 * length t <= f)%nat -> depth j <= d -> (Number j t -> NumStop r) -> pVal f d (t ++ r) = Some (j, r)) /\
  (forall l t, Elems l t -> forall f d r, (2 * length t + 1 <= f)%nat -> adepth l <= d -> pElems f d (t ++ "]" :: r) = Some (l, r)) /\
  (forall l t, Members l t -> forall f d r, (2 * length t + 1 <= f)%nat -> odepth l <= d -> pMembers f d (t ++ "}" :: r) = Some (l, r)).
Proof.
  apply Val_mut.
  - intros f d r Hf _ _. destruct f as [|f]; [cbn in Hf; lia|]. reflexivity.
  - intros f d r Hf _ _. destruct f as [|f]; [cbn in Hf; lia|]. reflexivity.
  - intros f d r Hf _ _. destruct f as [|f]; [cbn in Hf; lia|]. reflexivity.
  - intros j t H f d r Hf _ Hr. pose proof (pNum_complete j t r H (Hr H)) as HP. pose proof (Val_length _ _ (v_num j t H)) as HL. destruct f as [|f]; [lia|].
    destruct (Number_first j t H) as (c & r' & -> & Hc). cbn [app] in *. cbn [pVal].
    assert (HS : isSpace c = false) by (destruct (Val_first _ _ (v_num _ _ H)) as (c' & r'' & E & Hs & _); injection E as <- _; exact Hs). rewrite skip_non by exact HS.
    rewrite !eqbF; [exact HP|..]; (destruct Hc as [->|Hc]; [discriminate|]; intros ->; discriminate Hc).
  - intros s t H f d r Hf _ _. pose proof (Val_length _ _ (v_str s t H)) as HL. destruct f as [|f]; [lia|]. destruct (pString_complete s t r H) as (t' & E & HP). rewrite E. cbn [pVal].
    rewrite skip_non by reflexivity. cbn [Ascii.eqb Bool.eqb]. rewrite HP. reflexivity.
  - intros w Hw f d r Hf Hd _. destruct f as [|f]; [cbn in Hf; lia|]. cbn [app pVal]. rewrite skip_non by reflexivity. cbn [Ascii.eqb Bool.eqb].
    rewrite <- app_assoc, skip_ws by exact Hw. cbn in Hd. replace (d <=? 0) with false by (symmetry; apply Z.leb_gt; lia). reflexivity.
  - intros l t HE IH f d r Hf Hd _. destruct f as [|f]; [cbn in Hf; lia|]. cbn [app pVal]. rewrite skip_non by reflexivity. cbn [Ascii.eqb Bool.eqb].
    rewrite depth_arr in Hd. pose proof (adepth_nonneg l). replace (d <=? 0) with false by (symmetry; apply Z.leb_gt; lia).
    rewrite <- app_assoc. cbn [app]. destruct (Elems_first l t HE ("]" :: r)) as (c & r' & Es & Hc). rewrite Es. cbv beta iota. rewrite (eqbF _ _ Hc).
    cbn [length] in Hf. rewrite app_length in Hf. cbn [length] in Hf. rewrite IH by lia. reflexivity.
  - intros w Hw f d r Hf Hd _. destruct f as [|f]; [cbn in Hf; lia|]. cbn [app pVal]. rewrite skip_non by reflexivity. cbn [Ascii.eqb Bool.eqb].
    rewrite <- app_assoc, skip_ws by exact Hw. cbn in Hd. replace (d <=? 0) with false by (symmetry; apply Z.leb_gt; lia). reflexivity.
  - intros l t HE IH f d r Hf Hd _. destruct f as [|f]; [cbn in Hf; lia|]. cbn [app pVal]. rewrite skip_non by reflexivity. cbn [Ascii.eqb Bool.eqb].
    rewrite depth_obj in Hd. pose proof (odepth_nonneg l). replace (d <=? 0) with false by (symmetry; apply Z.leb_gt; lia).
    rewrite <- app_assoc. cbn [app]. destruct (Members_first l t HE ("}" :: r)) as (r' & Es). rewrite Es. cbn [Ascii.eqb Bool.eqb].
    cbn [length] in Hf. rewrite app_length in Hf. cbn [length] in Hf. rewrite IH by lia. reflexivity.
  - intros w v t w' Hw HV IH Hw' f d r Hf Hd. rewrite !app_length in Hf. destruct f as [|f]; [lia|]. cbn [pElems]. rewrite <- !app_assoc, pVal_ws by exact Hw.
    cbn [adepth fold_right] in Hd. rewrite IH; [|lia|lia|intros _; apply stop_ws; [exact Hw'|stop1]]. rewrite skip_ws by exact Hw'. reflexivity.
  - intros w v t w' l t' Hw HV IH Hw' HE IHE f d r Hf Hd. rewrite !app_length in Hf. cbn [length] in Hf. destruct f as [|f]; [lia|]. cbn [pElems]. rewrite <- !app_assoc, pVal_ws by exact Hw.
    cbn [adepth fold_right] in Hd. fold (adepth l) in Hd. cbn [app]. rewrite IH; [|lia|lia|intros _; apply stop_ws; [exact Hw'|stop1]]. rewrite skip_ws by exact Hw'. rewrite skip_non by reflexivity. cbn [Ascii.eqb Bool.eqb].
    rewrite IHE by lia. reflexivity.
  - intros w1 k q w2 w3 v t w4 Hw1 HQ Hw2 Hw3 HV IH Hw4 f d r Hf Hd. repeat (rewrite !app_length in Hf; cbn [length] in Hf). destruct f as [|f]; [lia|]. cbn [pMembers].
    rewrite <- !app_assoc, skip_ws by exact Hw1. cbn [app]. rewrite <- !app_assoc.
    destruct (pString_complete k q (w2 ++ ":" :: w3 ++ t ++ w4 ++ "}" :: r) HQ) as (t1 & E & HP). rewrite E, skip_non by reflexivity. cbn [Ascii.eqb Bool.eqb]. rewrite HP.
    rewrite skip_ws by exact Hw2. rewrite skip_non by reflexivity. cbn [Ascii.eqb Bool.eqb]. rewrite pVal_ws by exact Hw3. cbn [odepth fold_right snd] in Hd.
    rewrite IH; [|lia|lia|intros _; apply stop_ws; [exact Hw4|stop1]]. rewrite skip_ws by exact Hw4. reflexivity.
  - intros w1 k q w2 w3 v t w4 l t' Hw1 HQ Hw2 Hw3 HV IH Hw4 HM IHM f d r Hf Hd. repeat (rewrite !app_length in Hf; cbn [length] in Hf). destruct f as [|f]; [lia|]. cbn [pMembers].
    rewrite <- !app_assoc, skip_ws by exact Hw1. cbn [app]. rewrite <- !app_assoc. cbn [app].
    destruct (pString_complete k q (w2 ++ ":" :: w3 ++ t ++ w4 ++ "," :: t' ++ "}" :: r) HQ) as (t1 & E & HP). rewrite E, skip_non by reflexivity. cbn [Ascii.eqb Bool.eqb]. rewrite HP.
    rewrite skip_ws by exact Hw2. rewrite skip_non by reflexivity. cbn [Ascii.eqb Bool.eqb]. rewrite pVal_ws by exact Hw3. cbn [odepth fold_right snd] in Hd. fold (odepth l) in Hd.
    rewrite IH; [|lia|lia|intros _; apply stop_ws; [exact Hw4|stop1]]. rewrite skip_ws by exact Hw4. rewrite skip_non by reflexivity. cbn [Ascii.eqb Bool.eqb]. rewrite IHM by lia. reflexivity.
Qed.

(** ** Documents *)
Theorem parse_iff : forall t j, parse t = Some j <-> Doc j t.
Proof.
  intros t j. unfold parse, Doc. split.
  - destruct (pVal _ _ t) as [[j' r]|] eqn:E; [|discriminate]. intros H. destruct (skipWs r) eqn:Es; [|discriminate]. injection H as <-.
    apply values_sound in E; [|unfold maxNesting; lia]. destruct E as (w & v & -> & Hw & HV & HD). exists w, v, r. split; [reflexivity|]. split; [exact Hw|]. split; [exact HV|].
    split; [apply skip_nil; exact Es|exact HD].
  - intros (w & v & w' & -> & Hw & HV & Hw' & HD). rewrite pVal_ws by exact Hw. rewrite !app_length.
    rewrite (proj1 values_complete j v HV) by (lia || exact HD || (intros _; apply stop_ws_nil, Hw')). rewrite skip_all by exact Hw'. reflexivity.
Qed.
(** the bytes of an array or object end with its closing bracket *)
Definition Bracketed (j : json) : Prop := match j with JArr _ | JObj _ => True | _ => False end.
Lemma bracketed_not_number : forall j t, Bracketed j -> ~ Number j t.
Proof. intros j t H HN. destruct HN; destruct H. Qed.
Lemma Val_prefix : forall i j v v' x, Bracketed i -> Val i v -> Bracketed j -> Val j v' -> v = v' ++ x -> i = j /\ x = [].
Proof.
  intros i j v v' x Hi HV Hj HV' E. destruct values_complete as [HC _]. set (f := (2 * length v + 2 * length v')%nat). set (d := Z.max (depth i) (depth j)).
  pose proof (HC i v HV f d [] ltac:(unfold f; lia) ltac:(unfold d; lia) ltac:(intros HN; destruct (bracketed_not_number i v Hi HN))) as H1.
  pose proof (HC j v' HV' f d x ltac:(unfold f; lia) ltac:(unfold d; lia) ltac:(intros HN; destruct (bracketed_not_number j v' Hj HN))) as H2.
  rewrite app_nil_r, E, H2 in H1. injection H1 as -> ->. split; reflexivity.
Qed.
Lemma Bracketed_first : forall j v, Val j v -> Bracketed j <-> exists r, v = "[" :: r \/ v = "{" :: r.
Proof.
  intros j v H. destruct H as [| | |j t H|s t H|w Hw|l t Hl|w Hw|l t Hl]; cbn; try (split; [intros []|intros (r & [E|E]); discriminate]).
  - split; [intros HB; destruct (bracketed_not_number j t HB H)|]. destruct (Number_first j t H) as (c & r0 & -> & Hc).
    intros (r & [E|E]); injection E as -> _; destruct Hc as [Hc|Hc]; discriminate.
  - split; [intros []|]. destruct H as (b & -> & _). intros (r & [E|E]); discriminate.
  - split; eauto.
  - split; eauto.
  - split; eauto.
  - split; eauto.
Qed.
Lemma Doc_fun : forall t i j, Doc i t -> Doc j t -> i = j.
Proof. intros t i j Hi Hj. apply parse_iff in Hi, Hj. congruence. Qed.
