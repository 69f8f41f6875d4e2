(** What [print] of Wire.v writes is a document of WireSpec.v. *)
From Verif Require Import GoBase Json Wire WireSpec WireProofs.
From Coq Require Import DecimalString.
From Coq Require DecimalZ.
Open Scope char_scope.
Open Scope Z_scope.
Open Scope list_scope.

(** ** Integers *)
Local Notation stepDec := (fun v c => 10 * v + (code c - 48)).
Lemma acc_val : forall d p, Zpos (Pos.of_uint_acc d p) = fold_left stepDec (list_ascii_of_string (NilEmpty.string_of_uint d)) (Zpos p).
Proof.
  induction d; intros p; cbn [Pos.of_uint_acc NilEmpty.string_of_uint list_ascii_of_string fold_left]; [reflexivity|..]; rewrite IHd; clear IHd;
    match goal with |- fold_left _ _ ?a = fold_left _ _ ?b => replace b with a; [reflexivity|] end;
    match goal with |- context [code ?c] => let v := eval vm_compute in (code c) in change (code c) with v end; lia.
Qed.
Lemma uint_val : forall d, Z.of_N (Pos.of_uint d) = decVal (list_ascii_of_string (NilEmpty.string_of_uint d)).
Proof.
  unfold decVal. induction d; cbn [Pos.of_uint NilEmpty.string_of_uint list_ascii_of_string fold_left]; [reflexivity|exact IHd|..]; cbn [Z.of_N]; rewrite acc_val; reflexivity.
Qed.
Lemma uint_digits : forall d, AllDigits (list_ascii_of_string (NilEmpty.string_of_uint d)).
Proof. induction d; intros c; cbn [NilEmpty.string_of_uint list_ascii_of_string In]; [intros []|..]; intros [<-|H]; [reflexivity|apply IHd; exact H| ..]; first [reflexivity|apply IHd; exact H]. Qed.
Lemma nzhead_head : forall d d', Decimal.nzhead d <> Decimal.D0 d'.
Proof. induction d; intros d'; cbn [Decimal.nzhead]; try discriminate. apply IHd. Qed.
Lemma uint_norm : forall d, d = Decimal.unorm d -> d = Decimal.D0 Decimal.Nil \/ (d <> Decimal.Nil /\ forall d', d <> Decimal.D0 d').
Proof.
  intros d H. unfold Decimal.unorm in H. destruct (Decimal.nzhead d) eqn:E; [left; exact H|exfalso; exact (nzhead_head d _ E)|..]; right; rewrite H; split; discriminate.
Qed.
Lemma uint_part : forall d, d = Decimal.unorm d ->
  IntPart (list_ascii_of_string (NilZero.string_of_uint d)) (Z.of_N (Pos.of_uint d)).
Proof.
  intros d H. destruct (uint_norm d H) as [->|[H1 H2]].
  - split; [|left; reflexivity]. apply (dg_one "0" 0). split; [lia|reflexivity].
  - replace (NilZero.string_of_uint d) with (NilEmpty.string_of_uint d) by (destruct d; [contradiction|reflexivity..]). split.
    + apply Digits_iff. split; [|split; [apply uint_digits|apply uint_val]]. destruct d; [contradiction|discriminate..].
    + right. intros r E. destruct d; cbn in E; try discriminate. exact (H2 d eq_refl).
Qed.
Lemma to_int_norm : forall z, Z.to_int z = Decimal.norm (Z.to_int z).
Proof. intros z. rewrite <- DecimalZ.to_of, DecimalZ.of_to. reflexivity. Qed.
Lemma printInt_spec : forall z, Integer (printInt z) z.
Proof.
  intros z. unfold printInt. pose proof (to_int_norm z) as HN. pose proof (DecimalZ.of_to z) as HO. destruct (Z.to_int z) as [d|d].
  - cbn [NilZero.string_of_int]. cbn in HN. injection HN as HN. rewrite <- HO. apply in_plain. apply uint_part. exact HN.
  - cbn [NilZero.string_of_int list_ascii_of_string]. rewrite <- HO. apply (in_minus _ (Z.of_N (Pos.of_uint d))). apply uint_part.
    cbn in HN. unfold Decimal.unorm. destruct (Decimal.nzhead d); [discriminate|injection HN as HN; exact HN..].
Qed.

Lemma printInt_neg0 : forall z, printInt z <> ["-"; "0"].
Proof.
  intros z E. assert (Hz : z = 0).
  { pose proof (printInt_spec z) as H. rewrite E in H. inversion H as [l x Hp|l x Hp]; subst.
    - exfalso. destruct Hp as [Hp _]. pose proof (Digits_first _ _ _ _ Hp eq_refl). discriminate.
    - rewrite (IntPart_val _ _ Hp). reflexivity. }
  subst z. discriminate E.
Qed.

(** ** Strings *)
Lemma hexChar_spec : forall v, 0 <= v < 16 -> HexDigit (hexChar v) v.
Proof. intros v H. unfold hexChar, HexDigit. destruct (Z.ltb_spec v 10); rewrite code_chr by lia; lia. Qed.
Lemma quoteChar_spec : forall c t s, code c < 128 -> Chars t s -> Chars (quoteChar c ++ t) (c :: s).
Proof.
  intros c t s Hc H. pose proof (code_range c) as HR. unfold quoteChar. cbv zeta.
  destruct (Ascii.eqb_spec c """") as [->|Hq]; [apply ch_esc; [cbn; tauto|exact H]|].
  destruct (Ascii.eqb_spec c "\") as [->|Hb]; [apply ch_esc; [cbn; tauto|exact H]|].
  destruct (Z.eqb_spec (code c) 10) as [E|_]; [apply (code_inj c "010") in E; subst c; apply ch_esc; [cbn; tauto|exact H]|].
  destruct (Z.eqb_spec (code c) 13) as [E|_]; [apply (code_inj c "013") in E; subst c; apply ch_esc; [cbn; tauto|exact H]|].
  destruct (Z.eqb_spec (code c) 9) as [E|_]; [apply (code_inj c "009") in E; subst c; apply ch_esc; [cbn; tauto|exact H]|].
  destruct ((code c <? 32) || Ascii.eqb c "<" || Ascii.eqb c ">" || Ascii.eqb c "&") eqn:E.
  - pose proof (Z.div_mod (code c) 16 ltac:(lia)) as HD. pose proof (Z.mod_pos_bound (code c) 16 ltac:(lia)) as HM.
    apply (ch_u ["0"; "0"; hexChar (code c / 16); hexChar (code c mod 16)] (code c) [c]); [|unfold High; lia|unfold Low; lia|left; split; [lia|reflexivity]|exact H].
    exists "0", "0", (hexChar (code c / 16)), (hexChar (code c mod 16)), 0, 0, (code c / 16), (code c mod 16). split; [reflexivity|].
    split; [left; split; [lia|reflexivity]|]. split; [left; split; [lia|reflexivity]|]. split; [apply hexChar_spec; lia|]. split; [apply hexChar_spec; lia|]. lia.
  - rewrite !orb_false_iff in E. destruct E as [[[E _] _] _]. apply Z.ltb_ge in E. apply ch_plain; [assumption|assumption|lia|assumption].
Qed.
Lemma quote_spec : forall s, Ascii7 s -> Quoted s (quote s).
Proof.
  intros s H. exists (flat_map quoteChar (list_ascii_of_string s)). split; [reflexivity|]. unfold Ascii7 in H. induction (list_ascii_of_string s) as [|c l IH]; cbn [flat_map]; [constructor|].
  apply quoteChar_spec; [apply H; left; reflexivity|]. apply IH. intros d Hd. apply H. right. exact Hd.
Qed.

(** ** Values *)
Section JsonInd.
Context (P : json -> Prop) (Hnull : P JNull) (Hbool : forall b, P (JBool b)) (Hint : forall z, P (JInt z)) (Hneg0 : P JNegZero) (Hfrac : forall z, P (JFrac z)) (Hstr : forall s, P (JStr s))
  (Harr : forall l, Forall P l -> P (JArr l)) (Hobj : forall l, Forall (fun kv => P (snd kv)) l -> P (JObj l)).
Fixpoint json_tree_ind (j : json) : P j :=
  match j with
  | JNull => Hnull
  | JBool b => Hbool b
  | JInt z => Hint z
  | JNegZero => Hneg0
  | JFrac z => Hfrac z
  | JStr s => Hstr s
  | JArr l => Harr l ((fix go l : Forall P l := match l with [] => Forall_nil _ | v :: t => Forall_cons _ (json_tree_ind v) (go t) end) l)
  | JObj l => Hobj l ((fix go l : Forall (fun kv => P (snd kv)) l := match l with [] => Forall_nil _ | kv :: t => Forall_cons _ (json_tree_ind (snd kv)) (go t) end) l)
  end.
End JsonInd.
Lemma commas_cons : forall a b l, commas (a :: b :: l) = a ++ "," :: commas (b :: l).
Proof. intros. cbn. reflexivity. Qed.
Lemma print_val : forall j, Plain j -> Val j (print j).
Proof.
  induction j as [|b|z| |z|s|l IH|l IH] using json_tree_ind; intros HP.
  - apply v_null.
  - destruct b; [apply v_true|apply v_false].
  - apply v_num, nm_int; [apply printInt_spec|apply printInt_neg0].
  - apply v_num, nm_neg0.
  - apply v_num. change (print (JFrac z)) with (printInt z ++ ["."; "0"] ++ []). apply nm_frac; [apply printInt_spec| |left; reflexivity].
    exists ["0"], 0. split; [reflexivity|]. apply dg_one. split; [lia|reflexivity].
  - apply v_str, quote_spec. exact HP.
  - cbn [print]. destruct l as [|v l]; [apply (v_arr0 []), Ws_nil|]. apply v_arr. revert v IH HP. induction l as [|u l IHl]; intros v IH HP; inversion IH as [|? ? H1 H2]; subst; destruct HP as [HP1 HP2].
    + apply (e_one [] v (print v) []); [apply Ws_nil|apply H1; exact HP1|apply Ws_nil].
    + cbn [map]. rewrite commas_cons. apply (e_more [] v (print v) [] (u :: l)); [apply Ws_nil|apply H1; exact HP1|apply Ws_nil|]. apply IHl; assumption.
  - cbn [print]. destruct l as [|[k v] l]; [apply (v_obj0 []), Ws_nil|]. apply v_obj. revert k v IH HP. induction l as [|[k2 u] l IHl]; intros k v IH HP; inversion IH as [|? ? H1 H2]; subst; destruct HP as [[HK HP1] HP2]; cbn [fst snd] in *.
    + cbn [map commas flat_map fst snd]. rewrite app_nil_r. rewrite <- (app_nil_r (print v)). apply (m_one [] k (quote k) [] [] v (print v) []); try apply Ws_nil; [apply quote_spec; exact HK|apply H1; exact HP1].
    + cbn [map]. rewrite commas_cons. cbn [fst snd]. rewrite <- app_assoc. cbn [app].
      apply (m_more [] k (quote k) [] [] v (print v) [] ((k2, u) :: l)); try apply Ws_nil; [apply quote_spec; exact HK|apply H1; exact HP1|]. apply IHl; assumption.
Qed.
Theorem parse_print : forall j w w', Plain j -> depth j <= 10000 -> Ws w -> Ws w' -> parse (w ++ print j ++ w') = Some j.
Proof. intros j w w' HP HD Hw Hw'. apply parse_iff. exists w, (print j), w'. split; [reflexivity|]. split; [exact Hw|]. split; [apply print_val; exact HP|]. split; assumption. Qed.
