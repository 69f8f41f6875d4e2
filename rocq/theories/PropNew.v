(** C57: which texts NewModPGroup accepts, and the group they denote. *)
From Verif Require Import GoBase Json GroupIface ModP NumTh ModPProofs PropModP.
From Coq Require Import Znumtheory.

(** ** Specification: hexadecimal numerals, written independently of the parser *)
(** the digit characters, by listing *)
Definition digitChars : list (ascii * Z) :=
  [("0", 0); ("1", 1); ("2", 2); ("3", 3); ("4", 4); ("5", 5); ("6", 6); ("7", 7); ("8", 8); ("9", 9);
   ("a", 10); ("b", 11); ("c", 12); ("d", 13); ("e", 14); ("f", 15);
   ("A", 10); ("B", 11); ("C", 12); ("D", 13); ("E", 14); ("F", 15)]%char.
(** a non-empty digit string and its value: one digit, or the value of the front times 16 plus the last digit *)
Inductive Digits : list ascii -> Z -> Prop :=
| D1 : forall c v, In (c, v) digitChars -> Digits [c] v
| DS : forall l x c v, Digits l x -> In (c, v) digitChars -> Digits (l ++ [c]) (16 * x + v).
(** with an optional sign *)
Inductive Numeral : list ascii -> Z -> Prop :=
| NPlain : forall l x, Digits l x -> Numeral l x
| NPlus : forall l x, Digits l x -> Numeral ("+"%char :: l) x
| NMinus : forall l x, Digits l x -> Numeral ("-"%char :: l) (- x).
(** the white space of ASCII: \t \n \v \f \r and blank *)
Definition spaceChars : list ascii := ["009"; "010"; "011"; "012"; "013"; " "]%char.
Definition noSpace (c : ascii) : bool := if in_dec ascii_dec c spaceChars then false else true.
Definition chars (s : string) : list ascii := list_ascii_of_string s.

(** ** Proofs *)
Lemma hexDigit_spec : forall c v, hexDigit c = Some v <-> In (c, v) digitChars.
Proof.
  intros [b0 b1 b2 b3 b4 b5 b6 b7] v. split.
  - destruct b0, b1, b2, b3, b4, b5, b6, b7; intros H; vm_compute in H; try discriminate; injection H as <-; cbn; tauto.
  - intros H. cbn [digitChars In] in H.
    repeat match type of H with _ \/ _ => destruct H as [H|H] end; try contradiction; injection H as <- <- <- <- <- <- <- <- <-; reflexivity.
Qed.
Lemma isSpace_spec : forall c, is_space c = negb (noSpace c).
Proof. intros [b0 b1 b2 b3 b4 b5 b6 b7]. destruct b0, b1, b2, b3, b4, b5, b6, b7; vm_compute; reflexivity. Qed.
Lemma strip_spec : forall s, chars (stripSpaces s) = filter noSpace (chars s).
Proof.
  induction s as [|c s IH]; [reflexivity|]. cbn [stripSpaces chars list_ascii_of_string filter]. rewrite isSpace_spec. unfold chars in *.
  destruct (noSpace c); cbn [negb list_ascii_of_string]; [f_equal|]; exact IH.
Qed.
Lemma hexDigits_app : forall l1 l2 acc, hexDigits (string_of_list_ascii (l1 ++ l2)) acc =
  match hexDigits (string_of_list_ascii l1) acc with Some x => hexDigits (string_of_list_ascii l2) x | None => None end.
Proof.
  induction l1 as [|c l1 IH]; intros l2 acc; [reflexivity|]. cbn [app string_of_list_ascii hexDigits]. destruct (hexDigit c); [apply IH|reflexivity].
Qed.
Lemma digits_sound : forall l x, Digits l x -> hexDigits (string_of_list_ascii l) 0 = Some x.
Proof.
  induction 1 as [c v H|l x c v _ IH H].
  - cbn [string_of_list_ascii hexDigits]. apply hexDigit_spec in H. rewrite H. f_equal; lia.
  - rewrite hexDigits_app, IH. cbn [string_of_list_ascii hexDigits]. apply hexDigit_spec in H. rewrite H. f_equal. lia.
Qed.
Lemma digits_complete : forall l x, l <> [] -> hexDigits (string_of_list_ascii l) 0 = Some x -> Digits l x.
Proof.
  intros l. induction l as [|c l IH] using rev_ind; intros x Hn H; [contradiction|]. rewrite hexDigits_app in H.
  destruct l as [|c' l].
  - cbn in *. destruct (hexDigit c) as [v|] eqn:E; [|discriminate]. injection H as <-. apply hexDigit_spec in E. constructor. exact E.
  - destruct (hexDigits (string_of_list_ascii (c' :: l)) 0) as [y|] eqn:Ey; [|discriminate]. cbn [string_of_list_ascii hexDigits] in H.
    destruct (hexDigit c) as [v|] eqn:E; [|discriminate]. injection H as <-. apply hexDigit_spec in E. rewrite (Z.mul_comm y).
    apply DS; [apply IH; [discriminate|reflexivity]|exact E].
Qed.
Lemma digits_ne : forall l x, Digits l x -> l <> [] /\ hd "0"%char l <> "+"%char /\ hd "0"%char l <> "-"%char.
Proof.
  assert (Hc : forall c v, In (c, v) digitChars -> c <> "+"%char /\ c <> "-"%char).
  { intros c v H. apply hexDigit_spec in H. split; intros ->; discriminate. }
  induction 1 as [c v H|l x c v _ (Hn & IH) H].
  - split; [discriminate|]. cbn. apply (Hc c v H).
  - destruct l as [|c' l]; [contradiction|]. split; [discriminate|]. exact IH.
Qed.
Lemma digits_nonneg : forall l x, Digits l x -> 0 <= x.
Proof.
  assert (Hc : forall c v, In (c, v) digitChars -> 0 <= v).
  { intros c v H. cbn [digitChars In] in H. repeat match type of H with _ \/ _ => destruct H as [H|H] end; try contradiction; injection H; intros; lia. }
  induction 1 as [c v H|l x c v _ IH H]; pose proof (Hc c v H); lia.
Qed.
Lemma setString_spec : forall s x, setString16 s = Some x <-> Numeral (chars s) x.
Proof.
  intros s x. split.
  - destruct s as [|c t]; [discriminate|]. cbn [setString16]. destruct (Ascii.eqb_spec c "-") as [->|Hm]; [|destruct (Ascii.eqb_spec c "+") as [->|Hp]].
    + destruct t as [|c' t]; [discriminate|]. destruct (hexDigits (String c' t) 0) as [y|] eqn:E; [|discriminate]. cbn [option_map]. intros H. injection H as <-.
      apply NMinus. apply digits_complete; [discriminate|]. change (hexDigits (string_of_list_ascii (list_ascii_of_string (String c' t))) 0 = Some y). rewrite string_of_list_ascii_of_string. exact E.
    + destruct t as [|c' t]; [discriminate|]. intros E. apply NPlus. apply digits_complete; [discriminate|].
      change (hexDigits (string_of_list_ascii (list_ascii_of_string (String c' t))) 0 = Some x). rewrite string_of_list_ascii_of_string. exact E.
    + intros E. apply NPlain. apply digits_complete; [discriminate|]. unfold chars. rewrite string_of_list_ascii_of_string. exact E.
  - intros H. rewrite <- (string_of_list_ascii_of_string s). change (list_ascii_of_string s) with (chars s). destruct H as [l x H|l x H|l x H];
      pose proof (digits_sound _ _ H) as Hs; destruct (digits_ne _ _ H) as (Hn & Hp & Hm); (destruct l as [|c l]; [contradiction|]); cbn [hd] in *; cbn [string_of_list_ascii setString16].
    + destruct (Ascii.eqb_spec c "-"); [contradiction|]. destruct (Ascii.eqb_spec c "+"); [contradiction|]. exact Hs.
    + exact Hs.
    + cbn [Ascii.eqb Bool.eqb]. change (option_map Z.opp (hexDigits (string_of_list_ascii (c :: l)) 0) = Some (- x)). rewrite Hs. reflexivity.
Qed.

(** ** C57 *)
(** NewModPGroup succeeds exactly when the field order with its white space removed and the generator as it is are hexadecimal
    numerals, and then has those values, order (p-1)/2 rounded down and the given name; otherwise it panics. *)
Theorem C57_accepts : forall name f g,
  (forall d, NewModPGroup name f g = Ok d <-> exists p gen, Numeral (filter noSpace (chars f)) p /\ Numeral (chars g) gen /\
     mpField d = p /\ mpGen d = gen /\ mpOrder d = (p - 1) / 2 /\ mpName d = name) /\
  (NewModPGroup name f g = Panic <-> ~ exists p gen, Numeral (filter noSpace (chars f)) p /\ Numeral (chars g) gen).
Proof.
  intros name f g. unfold NewModPGroup. rewrite <- strip_spec.
  destruct (setString16 (stripSpaces f)) as [p|] eqn:Ep; cbn [deref bind].
  - destruct (setString16 g) as [gen|] eqn:Eg; cbn [deref bind].
    + split.
      * intros d. split.
        -- intros H. injection H as <-. exists p, gen. rewrite <- !setString_spec. repeat split; assumption.
        -- intros (p' & gen' & H1 & H2 & H3 & H4 & H5 & H6). apply setString_spec in H1. apply setString_spec in H2. assert (p' = p) by congruence. assert (gen' = gen) by congruence.
           destruct d. cbn in *. congruence.
      * split; [discriminate|]. intros H. exfalso. apply H. exists p, gen. rewrite <- !setString_spec. auto.
    + split.
      * intros d. split; [discriminate|]. intros (p' & gen' & _ & H2 & _). apply setString_spec in H2. congruence.
      * split; [|reflexivity]. intros _ (p' & gen' & _ & H2). apply setString_spec in H2. congruence.
  - split.
    + intros d. split; [discriminate|]. intros (p' & gen' & H1 & _). apply setString_spec in H1. congruence.
    + split; [|reflexivity]. intros _ (p' & gen' & H1 & _). apply setString_spec in H1. congruence.
Qed.
(** White space is allowed anywhere in the field order, and nowhere in the generator. *)
Theorem C57_white_space : forall name f f' g, filter noSpace (chars f) = filter noSpace (chars f') ->
  NewModPGroup name f g = NewModPGroup name f' g.
Proof.
  intros name f f' g H. unfold NewModPGroup. rewrite <- !strip_spec in H. apply (f_equal string_of_list_ascii) in H.
  unfold chars in H. rewrite !string_of_list_ascii_of_string in H. rewrite H. reflexivity.
Qed.
Theorem C57_generator_white_space : forall name f g c, In c spaceChars -> In c (chars g) -> NewModPGroup name f g = Panic.
Proof.
  intros name f g c Hc Hin. apply (proj2 (C57_accepts name f g)). intros (p & gen & _ & Hg).
  assert (Hd : forall l x, Digits l x -> forall a, In a l -> exists v, In (a, v) digitChars).
  { induction 1 as [c0 v H|l x c0 v _ IH H]; intros a Ha.
    - destruct Ha as [<-|[]]. exists v. exact H.
    - apply in_app_or in Ha. destruct Ha as [Ha|[<-|[]]]; [apply IH; exact Ha|exists v; exact H]. }
  assert (Hne : forall v, ~ In (c, v) digitChars).
  { intros v H. apply hexDigit_spec in H. cbn [spaceChars In] in Hc. repeat match type of Hc with _ \/ _ => destruct Hc as [Hc|Hc] end; try contradiction; subst c; discriminate. }
  assert (Hs : c <> "+"%char /\ c <> "-"%char).
  { cbn [spaceChars In] in Hc. repeat match type of Hc with _ \/ _ => destruct Hc as [Hc|Hc] end; try contradiction; subst c; split; discriminate. }
  remember (chars g) as cs eqn:Ec. clear Ec. destruct Hg as [l x H|l x H|l x H];
    try (destruct Hin as [Hin|Hin]; [destruct Hs; congruence|]); destruct (Hd l x H c Hin) as [v Hv]; exact (Hne v Hv).
Qed.
(** Every non-negative number has a numeral, so every safe prime p = 7 mod 8 can be used with generator "2", which gives a
    group of prime order (p-1)/2 generated by 2. *)
Lemma digits_exist : forall x, 0 <= x -> exists l, Digits l x.
Proof.
  assert (Hd : forall v, 0 <= v < 16 -> exists c, In (c, v) digitChars).
  { intros v Hv. assert (Hn : v = 0 \/ v = 1 \/ v = 2 \/ v = 3 \/ v = 4 \/ v = 5 \/ v = 6 \/ v = 7 \/ v = 8 \/ v = 9 \/ v = 10 \/ v = 11 \/ v = 12 \/ v = 13 \/ v = 14 \/ v = 15) by lia.
    repeat match type of Hn with _ \/ _ => destruct Hn as [Hn|Hn] end; subst v; eexists; cbn [digitChars In]; tauto. }
  intros x Hx. pattern x. apply (Zlt_0_ind (fun x => exists l, Digits l x)); [|exact Hx]. clear x Hx. intros x IH Hx.
  destruct (Z.lt_ge_cases x 16) as [Hs|Hb].
  - destruct (Hd x ltac:(lia)) as [c Hc]. exists [c]. constructor. exact Hc.
  - assert (Hq : 0 <= x / 16 < x) by (split; [apply Z.div_pos; lia|apply Z.div_lt; lia]). destruct (IH (x / 16) Hq) as [l Hl].
    destruct (Hd (x mod 16) (Z.mod_pos_bound x 16 ltac:(lia))) as [c Hc]. exists (l ++ [c]). rewrite (Z.div_mod x 16) by lia. apply DS; assumption.
Qed.
Theorem C57_safe_prime : forall name p, prime p -> prime ((p - 1) / 2) -> p mod 8 = 7 ->
  (exists f, Digits (chars f) p) /\
  forall f, Digits (chars f) p -> exists d, NewModPGroup name f "2" = Ok d /\ SafePrime2 d /\ mpField d = p.
Proof.
  intros name p Hp Hq H8. split.
  - destruct Hp as [Hp _]. destruct (digits_exist p ltac:(lia)) as [l Hl]. exists (string_of_list_ascii l). unfold chars. rewrite list_ascii_of_string_of_list_ascii. exact Hl.
  - intros f Hf. exists (mkModPDesc 2 p ((p - 1) / 2) name). split; [|split; [|reflexivity]].
    + apply (proj2 (proj1 (C57_accepts name f "2") _)). exists p, 2. split; [|split; [|repeat split]].
      * replace (filter noSpace (chars f)) with (chars f); [apply NPlain; exact Hf|]. symmetry. generalize dependent (chars f). intros l Hl. clear -Hl.
        assert (Hc : forall c v, In (c, v) digitChars -> noSpace c = true).
        { intros c v H. pose proof (isSpace_spec c) as Hs. apply hexDigit_spec in H. destruct (noSpace c) eqn:E; [reflexivity|]. exfalso. unfold noSpace in E.
          destruct (in_dec ascii_dec c spaceChars) as [Hi|]; [|discriminate]. cbn [spaceChars In] in Hi.
          repeat match type of Hi with _ \/ _ => destruct Hi as [Hi|Hi] end; try contradiction; subst c; discriminate. }
        induction Hl as [c v H|l x c v _ IH H]; [cbn [filter]; rewrite (Hc c v H); reflexivity|].
        assert (Ha : forall a b, filter noSpace (a ++ b) = filter noSpace a ++ filter noSpace b) by (intros a b; apply filter_app).
        rewrite Ha, IH. cbn [filter]. rewrite (Hc c v H). reflexivity.
      * apply NPlain. apply (D1 "2"%char 2). cbn. tauto.
    + exact (conj Hp (conj Hq (conj eq_refl (conj H8 eq_refl)))).
Qed.

(** ** Concrete case *)
Example C57_case :
  NewModPGroup "toy" (String "009" " 20e
 7 ") "2" = Ok dToy /\ NewModPGroup "toy" "-20E7" "+2" = Ok (mkModPDesc 2 (-8423) (-4212) "toy") /\
  map (fun fg => NewModPGroup "toy" (fst fg) (snd fg)) [("", "2"); ("20e7", " 2"); ("0x20e7", "2"); ("20g7", "2"); ("20e7", "-")]%string = repeat Panic 5 /\
  Digits (chars "20e7") 8423.
Proof.
  repeat split; try reflexivity. apply (digits_complete (chars "20e7")); [discriminate|reflexivity].
Qed.

Print Assumptions C57_accepts.
Print Assumptions C57_white_space.
Print Assumptions C57_generator_white_space.
Print Assumptions C57_safe_prime.
