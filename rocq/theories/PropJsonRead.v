(** C66: what the ballot decoder reads out of a JSON document, member by member. *)
From Verif Require Import GoBase Json GroupIface Vector BIP BP VoteProof App ECJson Curve ModP P256k1 Groups Marshal BytesProofs Toy PropEC PropJson.

(** ** Specification *)

(** when a key is taken for a field name: letters up to ASCII case, plus the two runes that Unicode folds to K and S *)
Definition upperCase : string := "ABCDEFGHIJKLMNOPQRSTUVWXYZ".
Definition lowerCase : string := "abcdefghijklmnopqrstuvwxyz".
Definition SameLetter (c d : ascii) : Prop :=
  c = d \/ exists i, (String.get i upperCase = Some c /\ String.get i lowerCase = Some d) \/ (String.get i lowerCase = Some c /\ String.get i upperCase = Some d).
Inductive SameName : string -> string -> Prop :=
| sn_end : SameName "" ""
| sn_letter : forall c d k f, SameLetter c d -> SameName k f -> SameName (String c k) (String d f)
| sn_kelvin : forall d k f, SameLetter "k" d -> SameName k f -> SameName (String "226" (String "132" (String "170" k))) (String d f)
| sn_long_s : forall d k f, SameLetter "s" d -> SameName k f -> SameName (String "197" (String "191" k)) (String d f).

(** the values under the keys that are taken for [f], in document order *)
Inductive Values (f : string) : list (string * json) -> list json -> Prop :=
| vs_end : Values f [] []
| vs_hit : forall k v l vs, SameName k f -> Values f l vs -> Values f ((k, v) :: l) (v :: vs)
| vs_miss : forall k v l vs, ~ SameName k f -> Values f l vs -> Values f ((k, v) :: l) vs.

Definition asInt (j : json) : option Z := match j with JInt z => Some z | JNegZero => Some 0 | _ => None end.
(** a literal for the integer [z]: its digits; 0 may also be written -0 *)
Definition IntLit (j : json) (z : Z) : Prop := j = JInt z \/ (j = JNegZero /\ z = 0).
Definition asList (j : json) : list json := match j with JArr l => l | _ => [] end.
Definition asMembers (j : json) : list (string * json) := match j with JObj l => l | _ => [] end.
Fixpoint integers (vs : list json) : list Z :=
  match vs with [] => [] | JInt z :: t => z :: integers t | JNegZero :: t => 0 :: integers t | _ :: t => integers t end.

(** for a type without negative numbers a sign is an error *)
Definition SizedLit (lo : Z) (j : json) (z : Z) : Prop := j = JInt z \/ (j = JNegZero /\ z = 0 /\ lo < 0).

(** an uninterpreted field is the last value *)
Definition RawField (l : list (string * json)) (f : string) (r : raw) : Prop :=
  exists vs, Values f l vs /\ r = last (map Some vs) None.
(** a big integer field: every value is an integer or null, the last one counts *)
Definition BigField (l : list (string * json)) (f : string) (x : option Z) : Prop :=
  exists vs, Values f l vs /\ (forall v, In v vs -> v = JNull \/ exists z, IntLit v z) /\ x = last (map asInt vs) None.
(** a machine integer field: every value is null or an integer of the type; the last integer counts, 0 if there is none *)
Definition NumField (lo hi : Z) (l : list (string * json)) (f : string) (x : Z) : Prop :=
  exists vs, Values f l vs /\ (forall v, In v vs -> v = JNull \/ exists z, SizedLit lo v z /\ lo <= z <= hi) /\ x = last (integers vs) 0.
(** a list field: every value is null or a list, the last one counts *)
Definition ListField (l : list (string * json)) (f : string) (x : list json) : Prop :=
  exists vs, Values f l vs /\ (forall v, In v vs -> v = JNull \/ exists m, v = JArr m) /\ x = last (map asList vs) [].
(** a nested object: every value is null or an object; their members count together *)
Definition ObjField (l : list (string * json)) (f : string) (m : list (string * json)) : Prop :=
  exists vs, Values f l vs /\ (forall v, In v vs -> v = JNull \/ exists m, v = JObj m) /\ m = concat (map asMembers vs).
(** a whole document: an object or null *)
Definition Document (d : raw) (m : list (string * json)) : Prop := d = Some (JObj m) \/ d = Some JNull /\ m = [].

(** an element, whatever the element decoder says about its validity *)
Definition EltField (G : Grp) (l : list (string * json)) (f : string) (X : E G) : Prop :=
  exists r ok, RawField l f r /\ gOfJson G (gNew G) r = Ok (X, ok).
Definition EltRead (G : Grp) (j : json) (X : E G) : Prop := exists ok, gOfJson G (gNew G) (Some j) = Ok (X, ok).
(** two parallel lists of elements; what the second has in excess is read as nil *)
Definition PairFields (G : Grp) (l : list (string * json)) (f g : string) (xs : list (E G)) (ys : list (option (E G))) : Prop :=
  exists js ks ks' ys', ListField l f js /\ ListField l g (ks ++ ks') /\ length ks = length js /\
    Forall2 (EltRead G) js xs /\ Forall2 (EltRead G) ks ys' /\ ys = map Some ys' ++ repeat None (length ks').

Definition ReadsCiphertext (G : Grp) (d : raw) (c : Ciphertext G) : Prop :=
  exists m, Document d m /\ EltField G m "u" (ctU c) /\ EltField G m "v" (ctV c).

Definition ReadsIPParams (G : Grp) (m : list (string * json)) (p : IPParams G) : Prop :=
  EltField G m "Uu" (ipUu p) /\ PairFields G m "Gg" "Hh" (ipGg p) (ipHh p).
Definition ReadsIPProof (G : Grp) (m : list (string * json)) (p : IPProof G) : Prop :=
  EltField G m "P" (ipP p) /\ BigField m "Cc" (ipCc p) /\ BigField m "a" (ipA p) /\ BigField m "b" (ipB p) /\
  PairFields G m "L" "R" (ipL p) (ipR p) /\ exists n, ObjField m "Params" n /\ ReadsIPParams G n (ipParams p).
(** the parameters of a Bulletproof are the caller's, not the document's *)
Definition ReadsBulletProof (G : Grp) (d : raw) (params : BPParams G) (p : BulletProof G) : Prop :=
  exists m, Document d m /\
    EltField G m "V" (pV p) /\ EltField G m "A" (pA p) /\ EltField G m "S" (pS p) /\ EltField G m "T1" (pT1 p) /\ EltField G m "T2" (pT2 p) /\
    BigField m "Taux" (pTaux p) /\ BigField m "Mu" (pMu p) /\ BigField m "Tprime" (pTprime p) /\
    (exists n, ObjField m "InnerProductProof" n /\ ReadsIPProof G n (pIPP p)) /\ pParams p = params.

Definition ReadsGroupParams (G : Grp) (m : list (string * json)) (p : GroupParams G) : Prop :=
  EltField G m "G" (gpG p) /\ EltField G m "H" (gpH p) /\ BigField m "N" (gpN p) /\ BigField m "F" (gpF p).
Definition ReadsProofParams (GF GE : Grp) (m : list (string * json)) (p : ProofParams GF GE) : Prop :=
  NumField 0 255 m "Bx" (vBx p) /\ NumField 0 65535 m "Bc" (vBc p) /\ NumField 0 65535 m "Bg" (vBg p) /\
  NumField (-9223372036854775808) 9223372036854775807 m "Bb" (vBb p) /\ NumField 0 65535 m "RangeLo" (vLo p) /\ NumField 0 65535 m "RangeHi" (vHi p) /\
  (exists n, ObjField m "GFF" n /\ ReadsGroupParams GF n (vGFF p)) /\ (exists n, ObjField m "GEC" n /\ ReadsGroupParams GE n (vGEC p)).
Definition ReadsSigmaProof (GF GE : Grp) (d : raw) (p : SigmaProof GF GE) : Prop :=
  exists m, Document d m /\
    EltField GF m "W" (sW p) /\ EltField GF m "Kp" (sKp p) /\ EltField GE m "Kq1" (sKq1 p) /\ EltField GE m "Kq2" (sKq2 p) /\
    BigField m "Challenge" (sChal p) /\ BigField m "Z" (sZ p) /\ BigField m "Sp" (sSp p) /\ BigField m "Sq1" (sSq1 p) /\ BigField m "Sq2" (sSq2 p) /\
    exists n, ObjField m "Params" n /\ ReadsProofParams GF GE n (sParams p).

Definition ReadsBallot (GF GE : Grp) (d : raw) (pp : PublicParameters GF GE) (b : BallotData GF GE) : Prop :=
  exists m rc rl ru rv, Document d m /\ RawField m "ballot" rc /\ RawField m "lbProof" rl /\ RawField m "ubProof" ru /\ RawField m "voteProof" rv /\
    ReadsCiphertext GF rc (bdBallot b) /\ ReadsBulletProof GE rl (ppBP pp) (bdLower b) /\ ReadsBulletProof GE ru (ppBP pp) (bdUpper b) /\
    ReadsSigmaProof GF GE rv (bdVote b).

(** ** Keys *)
Lemma get_case : forall i c d, String.get i upperCase = Some c -> String.get i lowerCase = Some d ->
  (i < 26)%nat /\ nat_of_ascii c = (65 + i)%nat /\ nat_of_ascii d = (97 + i)%nat.
Proof.
  intros i c d. do 26 (destruct i as [|i]; [cbn; intros H1 H2; injection H1 as <-; injection H2 as <-; vm_compute; lia|]).
  cbn. discriminate.
Qed.
Lemma get_case' : forall i, (i < 26)%nat -> String.get i upperCase = Some (ascii_of_nat (65 + i)) /\ String.get i lowerCase = Some (ascii_of_nat (97 + i)).
Proof. intros i Hi. do 26 (destruct i as [|i]; [split; reflexivity|]). lia. Qed.
Lemma upper_nat : forall c, nat_of_ascii (upper c) = if Nat.leb 97 (nat_of_ascii c) && Nat.leb (nat_of_ascii c) 122 then (nat_of_ascii c - 32)%nat else nat_of_ascii c.
Proof.
  intros c. unfold upper. destruct (_ && _) eqn:E; [|reflexivity]. apply nat_ascii_embedding. apply Bool.andb_true_iff in E. destruct E as [_ E]. apply Nat.leb_le in E. lia.
Qed.
Lemma nat_of_ascii_inj : forall c d, nat_of_ascii c = nat_of_ascii d -> c = d.
Proof. intros c d H. rewrite <- (ascii_nat_embedding c), <- (ascii_nat_embedding d), H. reflexivity. Qed.
Lemma upper_spec : forall c d, upper c = upper d <-> SameLetter c d.
Proof.
  intros c d. split.
  - intros H. apply (f_equal nat_of_ascii) in H. rewrite !upper_nat in H.
    destruct (Nat.leb 97 (nat_of_ascii c) && Nat.leb (nat_of_ascii c) 122) eqn:Ec;
    destruct (Nat.leb 97 (nat_of_ascii d) && Nat.leb (nat_of_ascii d) 122) eqn:Ed;
    rewrite ?Bool.andb_true_iff, ?Nat.leb_le in Ec; rewrite ?Bool.andb_true_iff, ?Nat.leb_le in Ed.
    + left. apply nat_of_ascii_inj. lia.
    + right. exists (nat_of_ascii c - 97)%nat. right. destruct (get_case' (nat_of_ascii c - 97)) as [H1 H2]; [lia|]. rewrite H1, H2.
      split; f_equal; [rewrite <- (ascii_nat_embedding c) at 2|rewrite <- (ascii_nat_embedding d)]; f_equal; lia.
    + right. exists (nat_of_ascii d - 97)%nat. left. destruct (get_case' (nat_of_ascii d - 97)) as [H1 H2]; [lia|]. rewrite H1, H2.
      split; f_equal; [rewrite <- (ascii_nat_embedding c)|rewrite <- (ascii_nat_embedding d) at 2]; f_equal; lia.
    + left. apply nat_of_ascii_inj. exact H.
  - intros [->|(i & [[H1 H2]|[H2 H1]])]; [reflexivity| |]; destruct (get_case i _ _ H1 H2) as (Hi & Hc & Hd); apply nat_of_ascii_inj; rewrite !upper_nat, Hc, Hd;
    (replace (Nat.leb 97 (65 + i)) with false by (symmetry; apply Nat.leb_gt; lia));
    (replace (Nat.leb 97 (97 + i)) with true by (symmetry; apply Nat.leb_le; lia));
    (replace (Nat.leb (97 + i) 122) with true by (symmetry; apply Nat.leb_le; lia)); cbn [andb]; lia.
Qed.
(** a name of 7-bit characters *)
Fixpoint ascii7 (s : string) : bool := match s with EmptyString => true | String c t => Nat.ltb (nat_of_ascii c) 128 && ascii7 t end.
Fixpoint upperAll (s : string) : string := match s with EmptyString => EmptyString | String c t => String (upper c) (upperAll t) end.
Lemma small_not : forall c d, Nat.ltb (nat_of_ascii c) 128 = true -> Nat.ltb (nat_of_ascii d) 128 = false -> Ascii.eqb c d = false.
Proof. intros c d H1 H2. destruct (Ascii.eqb_spec c d); [subst; congruence|reflexivity]. Qed.
Lemma foldName7 : forall f, ascii7 f = true -> foldName f = upperAll f.
Proof.
  induction f as [|c f IH]; [reflexivity|]. intros H. cbn [ascii7] in H. apply andb_prop in H. destruct H as [Hc Hf]. specialize (IH Hf).
  cbn [foldName upperAll]. rewrite <- IH. destruct f as [|d f]; [reflexivity|].
  rewrite (small_not c "197" Hc eq_refl), (small_not c "226" Hc eq_refl). cbn [andb]. destruct f; reflexivity.
Qed.
Lemma foldName_spec : forall n k f, (String.length k <= n)%nat -> ascii7 f = true -> foldName k = upperAll f <-> SameName k f.
Proof.
  induction n as [|n IH]; intros k f Hn Hf.
  - destruct k; [|cbn in Hn; lia]. destruct f as [|d f]; [split; [constructor|reflexivity]|]. split; [discriminate|intros H; inversion H].
  - destruct k as [|c k]; [destruct f as [|d f]; [split; [constructor|reflexivity]|split; [discriminate|intros H; inversion H]]|].
    destruct f as [|d f].
    { split; [|intros H; inversion H]. cbn [foldName upperAll]. destruct k as [|c1 [|c2 k]]; [discriminate|destruct (_ && _); discriminate|].
      destruct (_ && _); [discriminate|]. destruct (_ && _); discriminate. }
    cbn [ascii7] in Hf. apply andb_prop in Hf. destruct Hf as [Hd Hf]. cbn in Hn.
    assert (Hl : forall c', nat_of_ascii c' = 197%nat \/ nat_of_ascii c' = 226%nat -> ~ SameLetter c' d).
    { intros c' Hc' H. apply upper_spec in H. apply (f_equal nat_of_ascii) in H. rewrite !upper_nat in H. apply Nat.ltb_lt in Hd.
      destruct Hc' as [E|E]; rewrite E in H; cbn [Nat.leb andb] in H; destruct (_ && _); lia. }
    assert (Hlet : foldName k = upperAll f <-> SameName k f) by (apply IH; [lia|exact Hf]).
    cbn [foldName upperAll].
    (* an ordinary first letter *)
    assert (Hord : (forall k', c = "197"%char -> k <> String "191" k') -> (forall k', c = "226"%char -> k <> String "132" (String "170" k')) ->
       (String (upper c) (foldName k) = String (upper d) (upperAll f) <-> SameName (String c k) (String d f))).
    { intros N1 N2. split.
      - intros H. injection H as H1 H2. constructor; [apply upper_spec, H1|apply Hlet, H2].
      - intros H. inversion H as [|c0 d0 k0 f0 HL HS|d0 k0 f0 HL HS|d0 k0 f0 HL HS]; subst.
        + f_equal; [apply upper_spec, HL|apply Hlet, HS].
        + exfalso. apply (N2 k0); reflexivity.
        + exfalso. apply (N1 k0); reflexivity. }
    destruct k as [|c1 k1].
    { apply Hord; discriminate. }
    destruct (Ascii.eqb c "197" && Ascii.eqb c1 "191") eqn:E1.
    { apply andb_prop in E1. destruct E1 as [E1 E2]. apply Ascii.eqb_eq in E1, E2. subst c c1. cbn in Hn.
      assert (Hk : foldName k1 = upperAll f <-> SameName k1 f) by (apply IH; [lia|exact Hf]). split.
      - intros H. injection H as H1 H2. apply sn_long_s; [apply upper_spec; exact H1|apply Hk, H2].
      - intros H. inversion H as [|c0 d0 k0 f0 HL HS|d0 k0 f0 HL HS|d0 k0 f0 HL HS]; subst.
        + exfalso. apply (Hl "197"%char); [left; reflexivity|exact HL].
        + f_equal; [apply upper_spec in HL; exact HL|apply Hk, HS]. }
    assert (N1 : forall k', c = "197"%char -> String c1 k1 <> String "191" k').
    { intros k' -> H. injection H as -> _. discriminate E1. }
    destruct k1 as [|c2 k2]; [apply Hord; [exact N1|discriminate]|].
    destruct (Ascii.eqb c "226" && Ascii.eqb c1 "132" && Ascii.eqb c2 "170") eqn:E2; [|apply Hord; [exact N1|]].
    + apply andb_prop in E2. destruct E2 as [E2 E4]. apply andb_prop in E2. destruct E2 as [E2 E3]. apply Ascii.eqb_eq in E2, E3, E4. subst c c1 c2. cbn in Hn.
      assert (Hk : foldName k2 = upperAll f <-> SameName k2 f) by (apply IH; [lia|exact Hf]). split.
      * intros H. injection H as H1 H2. apply sn_kelvin; [apply upper_spec; exact H1|apply Hk, H2].
      * intros H. inversion H as [|c0 d0 k0 f0 HL HS|d0 k0 f0 HL HS|d0 k0 f0 HL HS]; subst.
        -- exfalso. apply (Hl "226"%char); [right; reflexivity|exact HL].
        -- f_equal; [apply upper_spec in HL; exact HL|apply Hk, HS].
    + intros k' -> H. injection H as -> -> _. discriminate E2.
Qed.
Lemma fold_eqb_spec : forall k f, ascii7 f = true -> fold_eqb k f = true <-> SameName k f.
Proof. intros k f Hf. unfold fold_eqb. rewrite (foldName7 f Hf), String.eqb_eq. apply (foldName_spec (String.length k)); [lia|exact Hf]. Qed.

(** ** Fields *)
Definition vals (f : string) (l : list (string * json)) : list json := map snd (filter (fun p => fold_eqb (fst p) f) l).
Lemma Values_vals : forall f l vs, ascii7 f = true -> Values f l vs <-> vs = vals f l.
Proof.
  intros f l vs Hf. split.
  - intros H. induction H as [|k v l vs Hk H IH|k v l vs Hk H IH]; [reflexivity| |]; unfold vals in *; cbn [filter fst].
    + rewrite (proj2 (fold_eqb_spec k f Hf) Hk). cbn [map snd]. congruence.
    + destruct (fold_eqb k f) eqn:E; [exfalso; apply Hk, fold_eqb_spec; assumption|exact IH].
  - intros ->. induction l as [|[k v] l IH]; [constructor|]. unfold vals in *. cbn [filter fst].
    destruct (fold_eqb k f) eqn:E; [constructor; [apply fold_eqb_spec; assumption|exact IH]|].
    apply vs_miss; [|exact IH]. intros H. apply (fold_eqb_spec k f Hf) in H. congruence.
Qed.
(** storing the values of one field one after the other *)
Fixpoint store {A} (dec : A -> json -> option A) (c : A) (vs : list json) : option A :=
  match vs with
  | [] => Some c
  | v :: t => match dec c v with Some c' => store dec c' t | None => None end
  end.
Definition decRaw (_ : raw) (v : json) : option raw := Some (Some v).
Definition decBig (_ : option Z) (v : json) := dec_bigint v.
Definition decList (_ : list json) (v : json) := dec_rawlist v.
Lemma last_cons_map : forall A B (f : A -> B) v vs c, last (map f (v :: vs)) c = last (map f vs) (f v).
Proof. intros A B f v vs c. revert v c. induction vs as [|w vs IH]; intros v c; [reflexivity|]. change (last (map f (w :: vs)) c = last (map f (w :: vs)) (f v)). rewrite !IH. reflexivity. Qed.
Lemma last_cons : forall A (v : A) vs c, last (v :: vs) c = last vs v.
Proof. intros A v vs c. rewrite <- (map_id (v :: vs)), last_cons_map, map_id. reflexivity. Qed.
Lemma store_raw : forall vs c r, store decRaw c vs = Some r <-> r = last (map Some vs) c.
Proof.
  induction vs as [|v vs IH]; intros c r; [cbn; split; congruence|]. cbn [store]. unfold decRaw at 1. rewrite IH, last_cons_map. reflexivity.
Qed.
Lemma store_big : forall vs c x, store decBig c vs = Some x <-> (forall v, In v vs -> v = JNull \/ exists z, IntLit v z) /\ x = last (map asInt vs) c.
Proof.
  induction vs as [|v vs IH]; intros c x; [cbn; split; [intros H; split; [tauto|congruence]|intros [_ ->]; reflexivity]|]. cbn [store]. rewrite last_cons_map.
  assert (Hv : forall r, decBig c v = r -> (v = JNull \/ exists z, IntLit v z) /\ r = Some (asInt v) \/ ~ (v = JNull \/ exists z, IntLit v z) /\ r = None).
  { intros r <-. destruct v; cbn; try (left; split; [unfold IntLit; eauto|reflexivity]); right; (split; [|reflexivity]); intros [H|[? [H|[H _]]]]; discriminate. }
  destruct (Hv _ eq_refl) as [[Ha ->]|[Ha ->]].
  - rewrite IH. split; (intros [H1 H2]; split; [|exact H2]).
    + intros w [<-|Hw]; [exact Ha|apply H1, Hw].
    + intros w Hw. apply H1. right. exact Hw.
  - split; [discriminate|]. intros [H1 _]. exfalso. apply Ha, H1. left. reflexivity.
Qed.
Lemma store_list : forall vs c x, store decList c vs = Some x <-> (forall v, In v vs -> v = JNull \/ exists m, v = JArr m) /\ x = last (map asList vs) c.
Proof.
  induction vs as [|v vs IH]; intros c x; [cbn; split; [intros H; split; [tauto|congruence]|intros [_ ->]; reflexivity]|]. cbn [store]. rewrite last_cons_map.
  assert (Hv : forall r, decList c v = r -> (v = JNull \/ exists m, v = JArr m) /\ r = Some (asList v) \/ ~ (v = JNull \/ exists m, v = JArr m) /\ r = None).
  { intros r <-. destruct v; cbn; try (left; split; [eauto|reflexivity]); right; (split; [|reflexivity]); intros [H|[? H]]; discriminate. }
  destruct (Hv _ eq_refl) as [[Ha ->]|[Ha ->]].
  - rewrite IH. split; (intros [H1 H2]; split; [|exact H2]).
    + intros w [<-|Hw]; [exact Ha|apply H1, Hw].
    + intros w Hw. apply H1. right. exact Hw.
  - split; [discriminate|]. intros [H1 _]. exfalso. apply Ha, H1. left. reflexivity.
Qed.
Lemma store_num : forall lo hi vs c x, store (dec_num lo hi) c vs = Some x <->
  (forall v, In v vs -> v = JNull \/ exists z, SizedLit lo v z /\ lo <= z <= hi) /\ x = last (integers vs) c.
Proof.
  intros lo hi. induction vs as [|v vs IH]; intros c x; [cbn; split; [intros H; split; [tauto|congruence]|intros [_ ->]; reflexivity]|]. cbn [store integers].
  assert (Hv : forall r, dec_num lo hi c v = r -> v = JNull /\ r = Some c \/ (exists z, SizedLit lo v z /\ lo <= z <= hi /\ r = Some z) \/
     ~ (v = JNull \/ exists z, SizedLit lo v z /\ lo <= z <= hi) /\ r = None).
  { intros r <-. destruct v; cbn [dec_num]; try (left; split; reflexivity); try (right; right; split; [|reflexivity]; intros [H|(? & [H|[H _]] & _)]; discriminate).
    - right. destruct ((lo <=? z) && (z <=? hi)) eqn:E.
      + left. exists z. split; [left; reflexivity|]. apply andb_prop in E. split; [lia|reflexivity].
      + right. split; [|reflexivity]. intros [H|(w & [H|[H _]] & Hw)]; [discriminate| |discriminate]. injection H as <-. apply andb_false_iff in E. lia.
    - right. destruct ((lo <? 0) && (0 <=? hi)) eqn:E.
      + left. exists 0. apply andb_prop in E. split; [right; repeat split; lia|]. split; [lia|reflexivity].
      + right. split; [|reflexivity]. intros [H|(w & [H|(_ & -> & H)] & Hw)]; [discriminate|discriminate|]. apply andb_false_iff in E. lia. }
  destruct (Hv _ eq_refl) as [[-> ->]|[(z & Hl & Hz & ->)|[Ha ->]]].
  - rewrite IH. split; (intros [H1 H2]; split; [|exact H2]).
    + intros w [<-|Hw]; [left; reflexivity|apply H1, Hw].
    + intros w Hw. apply H1. right. exact Hw.
  - rewrite IH. replace (last (match v with JInt z0 => z0 :: integers vs | JNegZero => 0 :: integers vs | _ => integers vs end) c) with (last (integers vs) z).
    2:{ destruct Hl as [->|(-> & -> & _)]; rewrite last_cons; reflexivity. }
    split; (intros [H1 H2]; split; [|exact H2]).
    + intros w [<-|Hw]; [right; exists z; split; [exact Hl|exact Hz]|apply H1, Hw].
    + intros w Hw. apply H1. right. exact Hw.
  - split; [discriminate|]. intros [H1 _]. exfalso. apply Ha, H1. left. reflexivity.
Qed.
Lemma dec_fields_app : forall S (step : string -> json -> S -> option S) l l' c,
  dec_fields step c (l ++ l') = match dec_fields step c l with Some c' => dec_fields step c' l' | None => None end.
Proof. intros S step. induction l as [|[k v] l IH]; intros l' c; [reflexivity|]. cbn [dec_fields app]. destruct (step k v c); [apply IH|reflexivity]. Qed.
Lemma store_obj : forall S (step : string -> json -> S -> option S) vs c x, store (dec_struct step) c vs = Some x <->
  (forall v, In v vs -> v = JNull \/ exists m, v = JObj m) /\ dec_fields step c (concat (map asMembers vs)) = Some x.
Proof.
  intros S step. induction vs as [|v vs IH]; intros c x; [cbn; split; [intros H; split; [tauto|exact H]|intros [_ H]; exact H]|]. cbn [store map concat]. rewrite dec_fields_app.
  assert (Hv : (v = JNull \/ exists m, v = JObj m) /\ dec_struct step c v = dec_fields step c (asMembers v) \/ ~ (v = JNull \/ exists m, v = JObj m) /\ dec_struct step c v = None).
  { destruct v; cbn; try (left; split; [eauto|reflexivity]); right; (split; [|reflexivity]); intros [H|[? H]]; discriminate. }
  destruct Hv as [[Ha ->]|[Ha ->]].
  - destruct (dec_fields step c (asMembers v)) as [c'|].
    2:{ split; [discriminate|intros [_ H]; discriminate]. }
    rewrite IH. split; (intros [H1 H2]; split; [|exact H2]).
    + intros w [<-|Hw]; [exact Ha|apply H1, Hw].
    + intros w Hw. apply H1. right. exact Hw.
  - split; [discriminate|]. intros [H1 _]. exfalso. apply Ha, H1. left. reflexivity.
Qed.
Lemma vals_cons : forall f k v l, vals f ((k, v) :: l) = if fold_eqb k f then v :: vals f l else vals f l.
Proof. intros f k v l. unfold vals. cbn [filter fst]. destruct (fold_eqb k f); reflexivity. Qed.
(** a key is taken for at most one of two names that fold differently *)
Lemma fold_eqb_excl : forall k f g, fold_eqb k f = true -> fold_eqb k g = String.eqb (foldName f) (foldName g).
Proof. intros k f g H. unfold fold_eqb in *. apply String.eqb_eq in H. rewrite H. reflexivity. Qed.
Ltac hit k :=
  match goal with
  | H : fold_eqb k ?f = true |- context [fold_eqb k ?g] =>
      lazymatch g with f => rewrite H | _ => rewrite (fold_eqb_excl k f g H); change (String.eqb (foldName f) (foldName g)) with false end
  | H : fold_eqb k ?f = false |- context [fold_eqb k ?f] => rewrite H
  end.
Ltac prj := cbn [fst snd jUu jGg jHh jGP jP jCc ja jb jL jR jIPParams jV jA jS jT1 jT2 jTaux jMu jTprime jIPP jBPParams jG jH jN jF jI
  jBx jBc jBg jBb jLo jHi jGFF jGEC jW jKp jKq1 jKq2 jChal jZ jSp jSq1 jSq2 jPP jBallot jLower jUpper jVote].
Ltac fields step :=
  let c := fresh "c" in let t := fresh "t" in let k := fresh "k" in let v := fresh "v" in let IH := fresh "IH" in
  intros l; induction l as [|[k v] l IH]; intros c t;
  [ destruct c, t; cbn; split; [intros H; injection H; intros; subst; repeat split|intros H; decompose [and] H; congruence]
  | cbn [dec_fields]; destruct c; unfold step; cbv beta iota; rewrite !vals_cons;
    repeat match goal with |- context [if fold_eqb k ?f then _ else _] => let E := fresh "E" in destruct (fold_eqb k f) eqn:E; repeat hit k; cbv iota end;
    cbn [store]; unfold decRaw, decBig, decList, set1; prj;
    try match goal with |- context [option_map _ ?d] => destruct d; cbn [option_map] end;
    try (rewrite IH; prj; reflexivity); try (split; [discriminate|intuition discriminate]) ].
Lemma fieldsBallotData : forall l c t, dec_fields stepBallotDataJ c l = Some t <->
  store decRaw (jBallot c) (vals "ballot" l) = Some (jBallot t) /\ store decRaw (jLower c) (vals "lbProof" l) = Some (jLower t) /\
  store decRaw (jUpper c) (vals "ubProof" l) = Some (jUpper t) /\ store decRaw (jVote c) (vals "voteProof" l) = Some (jVote t).
Proof. fields stepBallotDataJ. Qed.

Lemma fieldsCiphertext : forall l c t, dec_fields stepCiphertextJ c l = Some t <->
  store decRaw (fst c) (vals "u" l) = Some (fst t) /\ store decRaw (snd c) (vals "v" l) = Some (snd t).
Proof. fields stepCiphertextJ. Qed.
Lemma fieldsIPParams : forall l c t, dec_fields stepIPParamsJ c l = Some t <->
  store decRaw (jUu c) (vals "Uu" l) = Some (jUu t) /\ store decList (jGg c) (vals "Gg" l) = Some (jGg t) /\
  store decList (jHh c) (vals "Hh" l) = Some (jHh t) /\ store decRaw (jGP c) (vals "GP" l) = Some (jGP t).
Proof. fields stepIPParamsJ. Qed.
Lemma fieldsIPProof : forall l c t, dec_fields stepIPProofJ c l = Some t <->
  store decRaw (jP c) (vals "P" l) = Some (jP t) /\ store decBig (jCc c) (vals "Cc" l) = Some (jCc t) /\
  store decBig (ja c) (vals "a" l) = Some (ja t) /\ store decBig (jb c) (vals "b" l) = Some (jb t) /\
  store decList (jL c) (vals "L" l) = Some (jL t) /\ store decList (jR c) (vals "R" l) = Some (jR t) /\
  store (dec_struct stepIPParamsJ) (jIPParams c) (vals "Params" l) = Some (jIPParams t).
Proof. fields stepIPProofJ. Qed.
Lemma fieldsBulletProof : forall l c t, dec_fields stepBulletProofJ c l = Some t <->
  store decRaw (jV c) (vals "V" l) = Some (jV t) /\ store decRaw (jA c) (vals "A" l) = Some (jA t) /\
  store decRaw (jS c) (vals "S" l) = Some (jS t) /\ store decRaw (jT1 c) (vals "T1" l) = Some (jT1 t) /\ store decRaw (jT2 c) (vals "T2" l) = Some (jT2 t) /\
  store decBig (jTaux c) (vals "Taux" l) = Some (jTaux t) /\ store decBig (jMu c) (vals "Mu" l) = Some (jMu t) /\ store decBig (jTprime c) (vals "Tprime" l) = Some (jTprime t) /\
  store (dec_struct stepIPProofJ) (jIPP c) (vals "InnerProductProof" l) = Some (jIPP t) /\ store decRaw (jBPParams c) (vals "Params" l) = Some (jBPParams t).
Proof. fields stepBulletProofJ. Qed.
Lemma fieldsGroupParams : forall l c t, dec_fields stepGroupParamsJ c l = Some t <->
  store decRaw (jG c) (vals "G" l) = Some (jG t) /\ store decRaw (jH c) (vals "H" l) = Some (jH t) /\
  store decBig (jN c) (vals "N" l) = Some (jN t) /\ store decBig (jF c) (vals "F" l) = Some (jF t) /\ store decRaw (jI c) (vals "I" l) = Some (jI t).
Proof. fields stepGroupParamsJ. Qed.
Lemma fieldsProofParams : forall l c t, dec_fields stepProofParamsJ c l = Some t <->
  store dec_uint8 (jBx c) (vals "Bx" l) = Some (jBx t) /\ store dec_uint16 (jBc c) (vals "Bc" l) = Some (jBc t) /\
  store dec_uint16 (jBg c) (vals "Bg" l) = Some (jBg t) /\ store dec_int (jBb c) (vals "Bb" l) = Some (jBb t) /\
  store dec_uint16 (jLo c) (vals "RangeLo" l) = Some (jLo t) /\ store dec_uint16 (jHi c) (vals "RangeHi" l) = Some (jHi t) /\
  store (dec_struct stepGroupParamsJ) (jGFF c) (vals "GFF" l) = Some (jGFF t) /\ store (dec_struct stepGroupParamsJ) (jGEC c) (vals "GEC" l) = Some (jGEC t).
Proof. fields stepProofParamsJ. Qed.
Lemma fieldsSigmaProof : forall l c t, dec_fields stepSigmaProofJ c l = Some t <->
  store decRaw (jW c) (vals "W" l) = Some (jW t) /\ store decRaw (jKp c) (vals "Kp" l) = Some (jKp t) /\
  store decRaw (jKq1 c) (vals "Kq1" l) = Some (jKq1 t) /\ store decRaw (jKq2 c) (vals "Kq2" l) = Some (jKq2 t) /\
  store decBig (jChal c) (vals "Challenge" l) = Some (jChal t) /\ store decBig (jZ c) (vals "Z" l) = Some (jZ t) /\ store decBig (jSp c) (vals "Sp" l) = Some (jSp t) /\
  store decBig (jSq1 c) (vals "Sq1" l) = Some (jSq1 t) /\ store decBig (jSq2 c) (vals "Sq2" l) = Some (jSq2 t) /\
  store (dec_struct stepProofParamsJ) (jPP c) (vals "Params" l) = Some (jPP t).
Proof. fields stepSigmaProofJ. Qed.

Lemma raw_field : forall f l r, ascii7 f = true -> store decRaw None (vals f l) = Some r <-> RawField l f r.
Proof.
  intros f l r Hf. rewrite store_raw. unfold RawField. split.
  - intros H. exists (vals f l). split; [apply Values_vals; [exact Hf|reflexivity]|exact H].
  - intros (vs & Hv & H). apply Values_vals in Hv; [|exact Hf]. subst vs. exact H.
Qed.
Lemma big_field : forall f l r, ascii7 f = true -> store decBig None (vals f l) = Some r <-> BigField l f r.
Proof.
  intros f l r Hf. rewrite store_big. unfold BigField. split.
  - intros H. exists (vals f l). split; [apply Values_vals; [exact Hf|reflexivity]|exact H].
  - intros (vs & Hv & H). apply Values_vals in Hv; [|exact Hf]. subst vs. exact H.
Qed.
Lemma list_field : forall f l r, ascii7 f = true -> store decList [] (vals f l) = Some r <-> ListField l f r.
Proof.
  intros f l r Hf. rewrite store_list. unfold ListField. split.
  - intros H. exists (vals f l). split; [apply Values_vals; [exact Hf|reflexivity]|exact H].
  - intros (vs & Hv & H). apply Values_vals in Hv; [|exact Hf]. subst vs. exact H.
Qed.
Lemma num_field : forall lo hi f l r, ascii7 f = true -> store (dec_num lo hi) 0 (vals f l) = Some r <-> NumField lo hi l f r.
Proof.
  intros lo hi f l r Hf. rewrite store_num. unfold NumField. split.
  - intros H. exists (vals f l). split; [apply Values_vals; [exact Hf|reflexivity]|exact H].
  - intros (vs & Hv & H). apply Values_vals in Hv; [|exact Hf]. subst vs. exact H.
Qed.
Lemma obj_field : forall S (step : string -> json -> S -> option S) zero f l t, ascii7 f = true ->
  store (dec_struct step) zero (vals f l) = Some t <-> exists m, ObjField l f m /\ dec_fields step zero m = Some t.
Proof.
  intros S step zero f l t Hf. rewrite store_obj. unfold ObjField. split.
  - intros [H1 H2]. eexists. split; [|exact H2]. exists (vals f l). split; [apply Values_vals; [exact Hf|reflexivity]|]. split; [exact H1|reflexivity].
  - intros (m & (vs & Hv & H1 & ->) & H2). apply Values_vals in Hv; [|exact Hf]. subst vs. split; [exact H1|exact H2].
Qed.
Lemma raw_total : forall f l, exists r, store decRaw None (vals f l) = Some r.
Proof. intros f l. eexists. apply store_raw. reflexivity. Qed.

Lemma unmarshal_doc : forall S (step : string -> json -> S -> option S) zero d t,
  unmarshal step zero d = Some t <-> exists m, Document d m /\ dec_fields step zero m = Some t.
Proof.
  intros S step zero d t. unfold unmarshal, Document. split.
  - destruct d as [[]|]; cbn [dec_struct]; try discriminate; intros H; [exists []|eexists]; (split; [|exact H]); [right; split; reflexivity|left; reflexivity].
  - intros (m & [->|[-> ->]] & H); cbn [dec_struct]; [exact H|]. exact H.
Qed.

Lemma bind_Ok : forall A B (e : res A) (f : A -> res B) y, bind e f = Ok y <-> exists x, e = Ok x /\ f x = Ok y.
Proof. intros A B e f y. destruct e; cbn [bind]; split; try discriminate; try (intros (? & H & _); discriminate); [eauto|intros (x & H & H2)]. injection H as <-. exact H2. Qed.
Lemma decElt_Ok : forall G r X, decElt G r = Ok X <-> exists ok, gOfJson G (gNew G) r = Ok (X, ok).
Proof.
  intros G r X. unfold decElt. rewrite bind_Ok. split.
  - intros ([Y ok] & H & H2). injection H2 as <-. eauto.
  - intros [ok H]. exists (X, ok). split; [exact H|reflexivity].
Qed.
Lemma elt_field : forall G f l X, ascii7 f = true -> EltField G l f X <-> exists r, store decRaw None (vals f l) = Some r /\ decElt G r = Ok X.
Proof.
  intros G f l X Hf. unfold EltField. split.
  - intros (r & ok & Hr & H). exists r. split; [apply raw_field; assumption|apply decElt_Ok; eauto].
  - intros (r & Hr & H). apply decElt_Ok in H. destruct H as [ok H]. exists r, ok. split; [apply raw_field; assumption|exact H].
Qed.
Lemma decPairs_Ok : forall G js kk xs ys, decPairs G js kk = Ok (xs, ys) <->
  exists ks ks' ys', kk = ks ++ ks' /\ length ks = length js /\ Forall2 (EltRead G) js xs /\ Forall2 (EltRead G) ks ys' /\ ys = map Some ys' ++ repeat None (length ks').
Proof.
  intros G. induction js as [|j js IH]; intros kk xs ys.
  - cbn [decPairs]. split.
    + intros H. injection H as <- <-. exists [], kk, []. split; [reflexivity|]. split; [reflexivity|]. split; [constructor|]. split; [constructor|]. cbn [map app].
      clear. induction kk; cbn; congruence.
    + intros (ks & ks' & ys' & -> & Hl & Hx & Hy & ->). destruct ks; [|discriminate Hl]. inversion Hx; subst. inversion Hy; subst. cbn [app map]. f_equal. f_equal.
      clear. induction ks'; cbn; congruence.
  - destruct kk as [|k kk]; cbn [decPairs].
    + split; [discriminate|]. intros (ks & ks' & ys' & H & Hl & _). destruct ks; [discriminate Hl|discriminate H].
    + rewrite bind_Ok. split.
      * intros (X & HX & H). apply bind_Ok in H. destruct H as (Y & HY & H). apply bind_Ok in H. destruct H as ([l r] & Hlr & H). injection H as <- <-.
        apply IH in Hlr. destruct Hlr as (ks & ks' & ys' & -> & Hl & Hx & Hy & ->). apply decElt_Ok in HX, HY.
        exists (k :: ks), ks', (Y :: ys'). split; [reflexivity|]. split; [cbn; congruence|]. split; [constructor; assumption|]. split; [constructor; assumption|]. reflexivity.
      * intros (ks & ks' & ys' & H & Hl & Hx & Hy & ->). destruct ks as [|k' ks]; [discriminate Hl|]. injection H as <- ->.
        inversion Hx as [|? X ? xs' HX Hxs]; subst. inversion Hy as [|? Y ? ys'' HY Hys]; subst. cbn in Hl. injection Hl as Hl.
        exists X. split; [apply decElt_Ok; exact HX|]. apply bind_Ok. exists Y. split; [apply decElt_Ok; exact HY|]. apply bind_Ok.
        exists (xs', map Some ys'' ++ repeat None (length ks')). split; [|reflexivity]. apply IH. exists ks, ks', ys''. auto 8.
Qed.
Lemma pair_fields : forall G f g l xs ys, ascii7 f = true -> ascii7 g = true -> PairFields G l f g xs ys <->
  exists js kk, store decList [] (vals f l) = Some js /\ store decList [] (vals g l) = Some kk /\ decPairs G js kk = Ok (xs, ys).
Proof.
  intros G f g l xs ys Hf Hg. unfold PairFields. split.
  - intros (js & ks & ks' & ys' & H1 & H2 & H3). exists js, (ks ++ ks'). split; [apply list_field; assumption|]. split; [apply list_field; assumption|].
    apply decPairs_Ok. exists ks, ks', ys'. split; [reflexivity|exact H3].
  - intros (js & kk & H1 & H2 & H3). apply decPairs_Ok in H3. destruct H3 as (ks & ks' & ys' & -> & H3). exists js, ks, ks', ys'.
    split; [apply list_field; assumption|]. split; [apply list_field; assumption|exact H3].
Qed.

(** ** Messages *)
Lemma readsIPParams : forall G m p, (exists t, dec_fields stepIPParamsJ zeroIPParamsJ m = Some t /\ ipParamsFromRaw G t = Ok p) <-> ReadsIPParams G m p.
Proof.
  intros G m p. unfold ReadsIPParams. rewrite (elt_field G "Uu"), (pair_fields G "Gg" "Hh") by reflexivity. split.
  - intros (t & Ht & Hp). apply fieldsIPParams in Ht. destruct Ht as (H1 & H2 & H3 & _). cbn [zeroIPParamsJ jUu jGg jHh] in *. unfold ipParamsFromRaw in Hp.
    apply bind_Ok in Hp. destruct Hp as (u & Hu & Hp). apply bind_Ok in Hp. destruct Hp as ([gg hh] & Hgh & Hp). injection Hp as <-. cbn [ipUu ipGg ipHh].
    split; [eauto|]. exists (jGg t), (jHh t). auto.
  - intros ((r & Hr & HX) & (js & kk & Hj & Hk & HP)). destruct (raw_total "GP" m) as [gp Hgp].
    exists (mkIPParamsJ r js kk gp). split; [apply fieldsIPParams; cbn [zeroIPParamsJ jUu jGg jHh jGP]; auto|].
    unfold ipParamsFromRaw. cbn [jUu jGg jHh]. rewrite HX. cbn [bind]. rewrite HP. cbn [bind]. destruct p; reflexivity.
Qed.
Lemma readsIPProof : forall G m p, (exists t, dec_fields stepIPProofJ zeroIPProofJ m = Some t /\ ipProofFromRaw G t = Ok p) <-> ReadsIPProof G m p.
Proof.
  intros G m p. unfold ReadsIPProof. rewrite (elt_field G "P"), (pair_fields G "L" "R"), <- (big_field "Cc"), <- (big_field "a"), <- (big_field "b") by reflexivity. split.
  - intros (t & Ht & Hp). apply fieldsIPProof in Ht. destruct Ht as (H1 & H2 & H3 & H4 & H5 & H6 & H7). cbn [zeroIPProofJ jP jCc ja jb jL jR jIPParams] in *. unfold ipProofFromRaw in Hp.
    apply bind_Ok in Hp. destruct Hp as (pr & Hpr & Hp). apply bind_Ok in Hp. destruct Hp as ([l r] & Hlr & Hp). apply bind_Ok in Hp. destruct Hp as (P & HP & Hp). injection Hp as <-.
    cbn [ipP ipCc ipA ipB ipL ipR ipParams]. apply obj_field in H7; [|reflexivity]. destruct H7 as (n & Hn & H7).
    split; [eauto|]. split; [exact H2|]. split; [exact H3|]. split; [exact H4|]. split; [exists (jL t), (jR t); auto|]. exists n. split; [exact Hn|]. apply readsIPParams. eauto.
  - intros ((r & Hr & HX) & H2 & H3 & H4 & (js & kk & Hj & Hk & HP) & (n & Hn & H7)). apply readsIPParams in H7. destruct H7 as (t & Ht & Hpr).
    exists (mkIPProofJ r (ipCc p) (ipA p) (ipB p) js kk t). split.
    + apply fieldsIPProof. cbn [zeroIPProofJ jP jCc ja jb jL jR jIPParams]. do 6 (split; [assumption|]). apply obj_field; [reflexivity|]. eauto.
    + unfold ipProofFromRaw. cbn [jP jCc ja jb jL jR jIPParams]. rewrite Hpr. cbn [bind]. rewrite HP. cbn [bind]. rewrite HX. cbn [bind]. destruct p; reflexivity.
Qed.
Lemma readsBulletProof : forall G d params p, BulletProofUnmarshalJSON G d params = Ok p <-> ReadsBulletProof G d params p.
Proof.
  intros G d params p. unfold BulletProofUnmarshalJSON, ReadsBulletProof. split.
  - destruct (unmarshal _ _ d) as [t|] eqn:E; [|discriminate]. intros Hp. apply unmarshal_doc in E. destruct E as (m & Hm & Ht). exists m. split; [exact Hm|].
    rewrite !elt_field, <- !big_field by reflexivity. apply fieldsBulletProof in Ht. destruct Ht as (H1 & H2 & H3 & H4 & H5 & H6 & H7 & H8 & H9 & _).
    cbn [zeroBulletProofJ jV jA jS jT1 jT2 jTaux jMu jTprime jIPP] in *.
    apply bind_Ok in Hp. destruct Hp as (ip & Hip & Hp). repeat (apply bind_Ok in Hp; let HX := fresh "HX" in destruct Hp as (? & HX & Hp)). injection Hp as <-.
    cbn [pV pA pS pT1 pT2 pTaux pMu pTprime pIPP pParams]. apply obj_field in H9; [|reflexivity]. destruct H9 as (n & Hn & H9).
    do 5 (split; [eauto|]). do 3 (split; [assumption|]). split; [|reflexivity]. exists n. split; [exact Hn|]. apply readsIPProof. eauto.
  - intros (m & Hm & H). rewrite !elt_field, <- !big_field in H by reflexivity.
    destruct H as ((r1 & H1 & X1) & (r2 & H2 & X2) & (r3 & H3 & X3) & (r4 & H4 & X4) & (r5 & H5 & X5) & H6 & H7 & H8 & (n & Hn & H9) & HP).
    apply readsIPProof in H9. destruct H9 as (t & Ht & Hip). destruct (raw_total "Params" m) as [rp Hrp].
    rewrite (proj2 (unmarshal_doc _ stepBulletProofJ zeroBulletProofJ d (mkBulletProofJ r1 r2 r3 r4 r5 (pTaux p) (pMu p) (pTprime p) t rp))).
    + prj. rewrite Hip. cbn [bind]. rewrite X1. cbn [bind]. rewrite X2. cbn [bind]. rewrite X3. cbn [bind]. rewrite X4. cbn [bind]. rewrite X5. cbn [bind]. rewrite <- HP. destruct p; reflexivity.
    + exists m. split; [exact Hm|]. apply fieldsBulletProof. cbn [zeroBulletProofJ jBPParams]. prj. do 8 (split; [assumption|]). split; [|assumption]. apply obj_field; [reflexivity|]. eauto.
Qed.
Lemma readsCiphertext : forall G d c, BallotUnmarshalJSON G d = Ok c <-> ReadsCiphertext G d c.
Proof.
  intros G d c. unfold BallotUnmarshalJSON, ReadsCiphertext. split.
  - destruct (unmarshal _ _ d) as [[u v]|] eqn:E; [|discriminate]. intros Hp. apply unmarshal_doc in E. destruct E as (m & Hm & Ht). exists m. split; [exact Hm|].
    rewrite !elt_field by reflexivity. apply fieldsCiphertext in Ht. destruct Ht as (H1 & H2). cbn [fst snd] in *.
    repeat (apply bind_Ok in Hp; let HX := fresh "HX" in destruct Hp as (? & HX & Hp)). injection Hp as <-. cbn [ctU ctV]. split; eauto.
  - intros (m & Hm & H). rewrite !elt_field in H by reflexivity. destruct H as ((u & H1 & X1) & (v & H2 & X2)).
    rewrite (proj2 (unmarshal_doc _ stepCiphertextJ (None, None) d (u, v))); [|exists m; split; [exact Hm|apply fieldsCiphertext; auto]].
    rewrite X1. cbn [bind]. rewrite X2. cbn [bind]. destruct c; reflexivity.
Qed.
Lemma readsGroupParams : forall G m p, (exists t g h, dec_fields stepGroupParamsJ zeroGroupParamsJ m = Some t /\ decElt G (jG t) = Ok g /\ decElt G (jH t) = Ok h /\
  p = mkGroupParams g h (jN t) (jF t)) <-> ReadsGroupParams G m p.
Proof.
  intros G m p. unfold ReadsGroupParams. rewrite !elt_field, <- !big_field by reflexivity. split.
  - intros (t & g & h & Ht & Hg & Hh & ->). apply fieldsGroupParams in Ht. destruct Ht as (H1 & H2 & H3 & H4 & _). cbn [zeroGroupParamsJ] in *. revert H1 H2 H3 H4. prj. intros H1 H2 H3 H4. cbn [gpG gpH gpN gpF]. eauto 8.
  - intros ((r1 & H1 & X1) & (r2 & H2 & X2) & H3 & H4). destruct (raw_total "I" m) as [i Hi].
    exists (mkGroupParamsJ r1 r2 (gpN p) (gpF p) i), (gpG p), (gpH p). prj. split; [apply fieldsGroupParams; cbn [zeroGroupParamsJ]; prj; auto 8|]. split; [exact X1|]. split; [exact X2|]. destruct p; reflexivity.
Qed.
Lemma readsProofParams : forall GF GE m p, (exists t gf hf ge he, dec_fields stepProofParamsJ zeroProofParamsJ m = Some t /\
  decElt GF (jG (jGFF t)) = Ok gf /\ decElt GF (jH (jGFF t)) = Ok hf /\ decElt GE (jG (jGEC t)) = Ok ge /\ decElt GE (jH (jGEC t)) = Ok he /\
  p = mkProofParams (jBx t) (jBc t) (jBg t) (jBb t) (jLo t) (jHi t) (mkGroupParams gf hf (jN (jGFF t)) (jF (jGFF t))) (mkGroupParams ge he (jN (jGEC t)) (jF (jGEC t)))) <-> ReadsProofParams GF GE m p.
Proof.
  intros GF GE m p. unfold ReadsProofParams. rewrite <- !num_field by reflexivity. split.
  - intros (t & gf & hf & ge & he & Ht & X1 & X2 & X3 & X4 & ->). apply fieldsProofParams in Ht. destruct Ht as (H1 & H2 & H3 & H4 & H5 & H6 & H7 & H8).
    cbn [zeroProofParamsJ] in *. revert H1 H2 H3 H4 H5 H6 H7 H8. prj. intros H1 H2 H3 H4 H5 H6 H7 H8. cbn [vBx vBc vBg vBb vLo vHi vGFF vGEC].
    do 6 (split; [assumption|]). apply obj_field in H7; [|reflexivity]. apply obj_field in H8; [|reflexivity]. destruct H7 as (n & Hn & H7). destruct H8 as (n' & Hn' & H8). split.
    + exists n. split; [exact Hn|]. apply readsGroupParams. exists (jGFF t), gf, hf. auto.
    + exists n'. split; [exact Hn'|]. apply readsGroupParams. exists (jGEC t), ge, he. auto.
  - intros (H1 & H2 & H3 & H4 & H5 & H6 & (n & Hn & H7) & (n' & Hn' & H8)). apply readsGroupParams in H7, H8. destruct H7 as (tf & gf & hf & Hf & X1 & X2 & Ef). destruct H8 as (te & ge & he & He & X3 & X4 & Ee).
    exists (mkProofParamsJ (vBx p) (vBc p) (vBg p) (vBb p) (vLo p) (vHi p) tf te), gf, hf, ge, he. prj. split; [apply fieldsProofParams; cbn [zeroProofParamsJ]; prj|].
    + do 6 (split; [assumption|]). split; (apply obj_field; [reflexivity|eauto]).
    + do 4 (split; [assumption|]). rewrite <- Ef, <- Ee. destruct p; reflexivity.
Qed.
Lemma readsSigmaProof : forall GF GE d p, ProofUnmarshalJSON GF GE d = Ok p <-> ReadsSigmaProof GF GE d p.
Proof.
  intros GF GE d p. unfold ProofUnmarshalJSON, ReadsSigmaProof. split.
  - destruct (unmarshal _ _ d) as [t|] eqn:E; [|discriminate]. cbv zeta. intros Hp. apply unmarshal_doc in E. destruct E as (m & Hm & Ht). exists m. split; [exact Hm|].
    rewrite !elt_field, <- !big_field by reflexivity. apply fieldsSigmaProof in Ht. destruct Ht as (H1 & H2 & H3 & H4 & H5 & H6 & H7 & H8 & H9 & H10).
    cbn [zeroSigmaProofJ] in *. revert H1 H2 H3 H4 H5 H6 H7 H8 H9 H10. prj. intros H1 H2 H3 H4 H5 H6 H7 H8 H9 H10.
    repeat (apply bind_Ok in Hp; let HX := fresh "HX" in destruct Hp as (? & HX & Hp)). injection Hp as <-.
    cbn [sW sKp sKq1 sKq2 sChal sZ sSp sSq1 sSq2 sParams]. apply obj_field in H10; [|reflexivity]. destruct H10 as (n & Hn & H10).
    do 4 (split; [eauto|]). do 5 (split; [assumption|]). exists n. split; [exact Hn|]. apply readsProofParams. exists (jPP t). do 4 eexists. split; [exact H10|]. do 4 (split; [eassumption|]). reflexivity.
  - intros (m & Hm & H). rewrite !elt_field, <- !big_field in H by reflexivity.
    destruct H as ((r1 & H1 & X1) & (r2 & H2 & X2) & (r3 & H3 & X3) & (r4 & H4 & X4) & H5 & H6 & H7 & H8 & H9 & (n & Hn & H10)).
    apply readsProofParams in H10. destruct H10 as (t & gf & hf & ge & he & Ht & Y1 & Y2 & Y3 & Y4 & EP).
    rewrite (proj2 (unmarshal_doc _ stepSigmaProofJ zeroSigmaProofJ d (mkSigmaProofJ r1 r2 r3 r4 (sChal p) (sZ p) (sSp p) (sSq1 p) (sSq2 p) t))).
    + prj. cbv zeta. rewrite Y1. cbn [bind]. rewrite Y2. cbn [bind]. rewrite Y3. cbn [bind]. rewrite Y4. cbn [bind]. rewrite X1. cbn [bind]. rewrite X2. cbn [bind]. rewrite X3. cbn [bind]. rewrite X4. cbn [bind].
      rewrite <- EP. destruct p; reflexivity.
    + exists m. split; [exact Hm|]. apply fieldsSigmaProof. cbn [zeroSigmaProofJ]. prj. do 9 (split; [assumption|]). apply obj_field; [reflexivity|]. eauto.
Qed.

(** ** C66 *)
(** A ballot document decodes to a ballot exactly when the ballot is what the document says, member by member. *)
Theorem C66_decoded_ballot : forall GF GE d (pp : PublicParameters GF GE) b,
  BallotDataUnmarshalJSON GF GE d pp = Ok b <-> ReadsBallot GF GE d pp b.
Proof.
  intros GF GE d pp b. unfold BallotDataUnmarshalJSON, ReadsBallot. cbv zeta. split.
  - intros H. apply bind_Ok in H. destruct H as (c & Hc & H). apply bind_Ok in H. destruct H as (lo & Hlo & H). apply bind_Ok in H. destruct H as (up & Hup & H).
    apply bind_Ok in H. destruct H as (vp & Hvp & H). injection H as <-. cbn [bdBallot bdLower bdUpper bdVote].
    destruct (unmarshal stepBallotDataJ zeroBallotDataJ d) as [t|] eqn:E; [|discriminate Hc]. apply unmarshal_doc in E. destruct E as (m & Hm & Ht).
    apply fieldsBallotData in Ht. destruct Ht as (H1 & H2 & H3 & H4). cbn [zeroBallotDataJ] in *. revert H1 H2 H3 H4. prj. intros H1 H2 H3 H4.
    exists m, (jBallot t), (jLower t), (jUpper t), (jVote t). rewrite <- !raw_field by reflexivity. do 5 (split; [assumption|]).
    split; [apply readsCiphertext, Hc|]. split; [apply readsBulletProof, Hlo|]. split; [apply readsBulletProof, Hup|apply readsSigmaProof, Hvp].
  - intros (m & rc & rl & ru & rv & Hm & H1 & H2 & H3 & H4 & Hc & Hlo & Hup & Hvp). apply raw_field in H1, H2, H3, H4; try reflexivity.
    rewrite (proj2 (unmarshal_doc _ stepBallotDataJ zeroBallotDataJ d (mkBallotDataJ rc rl ru rv))).
    + prj. apply readsCiphertext in Hc. apply readsBulletProof in Hlo, Hup. apply readsSigmaProof in Hvp. rewrite Hc. cbn [bind]. rewrite Hlo. cbn [bind]. rewrite Hup. cbn [bind]. rewrite Hvp. cbn [bind].
      destruct b; reflexivity.
    + exists m. split; [exact Hm|]. apply fieldsBallotData. cbn [zeroBallotDataJ]. prj. auto.
Qed.

(** *** Errors *)
(** the members that are not group elements have the types the decoder expects *)
Definition GroupTyped (m : list (string * json)) : Prop := (exists x, BigField m "N" x) /\ (exists x, BigField m "F" x).
Definition ProofParamsTyped (m : list (string * json)) : Prop :=
  (exists x, NumField 0 255 m "Bx" x) /\ (exists x, NumField 0 65535 m "Bc" x) /\ (exists x, NumField 0 65535 m "Bg" x) /\
  (exists x, NumField (-9223372036854775808) 9223372036854775807 m "Bb" x) /\ (exists x, NumField 0 65535 m "RangeLo" x) /\ (exists x, NumField 0 65535 m "RangeHi" x) /\
  (exists n, ObjField m "GFF" n /\ GroupTyped n) /\ (exists n, ObjField m "GEC" n /\ GroupTyped n).
Definition SigmaTyped (m : list (string * json)) : Prop :=
  (exists x, BigField m "Challenge" x) /\ (exists x, BigField m "Z" x) /\ (exists x, BigField m "Sp" x) /\ (exists x, BigField m "Sq1" x) /\ (exists x, BigField m "Sq2" x) /\
  exists n, ObjField m "Params" n /\ ProofParamsTyped n.
Definition IPTyped (m : list (string * json)) : Prop :=
  (exists x, BigField m "Cc" x) /\ (exists x, BigField m "a" x) /\ (exists x, BigField m "b" x) /\ (exists x, ListField m "L" x) /\ (exists x, ListField m "R" x) /\
  exists n, ObjField m "Params" n /\ (exists x, ListField n "Gg" x) /\ (exists x, ListField n "Hh" x).
Definition BPTyped (m : list (string * json)) : Prop :=
  (exists x, BigField m "Taux" x) /\ (exists x, BigField m "Mu" x) /\ (exists x, BigField m "Tprime" x) /\ exists n, ObjField m "InnerProductProof" n /\ IPTyped n.

Ltac unex := repeat match goal with H : exists _, _ |- _ => destruct H | H : _ /\ _ |- _ => destruct H end.
Lemma groupTyped : forall m, (exists t, dec_fields stepGroupParamsJ zeroGroupParamsJ m = Some t) <-> GroupTyped m.
Proof.
  intros m. unfold GroupTyped. split.
  - intros [t Ht]. apply fieldsGroupParams in Ht. destruct Ht as (_ & _ & H3 & H4 & _). cbn [zeroGroupParamsJ] in *. apply big_field in H3, H4; try reflexivity. eauto.
  - intros [[x Hx] [y Hy]]. apply big_field in Hx, Hy; try reflexivity. destruct (raw_total "G" m) as [g Hg]. destruct (raw_total "H" m) as [h Hh]. destruct (raw_total "I" m) as [i Hi].
    exists (mkGroupParamsJ g h x y i). apply fieldsGroupParams. cbn [zeroGroupParamsJ]. prj. auto 8.
Qed.
Lemma ppTyped : forall m, (exists t, dec_fields stepProofParamsJ zeroProofParamsJ m = Some t) <-> ProofParamsTyped m.
Proof.
  intros m. unfold ProofParamsTyped. split.
  - intros [t Ht]. apply fieldsProofParams in Ht. destruct Ht as (H1 & H2 & H3 & H4 & H5 & H6 & H7 & H8). cbn [zeroProofParamsJ] in *.
    apply num_field in H1, H2, H3, H4, H5, H6; try reflexivity. apply obj_field in H7, H8; try reflexivity. destruct H7 as (n & Hn & H7). destruct H8 as (n' & Hn' & H8).
    do 6 (split; [eexists; eassumption|]). split; [exists n; split; [exact Hn|]|exists n'; split; [exact Hn'|]]; apply groupTyped; [exists (jGFF t)|exists (jGEC t)]; assumption.
  - intros H. destruct H as ((x1 & H1) & (x2 & H2) & (x3 & H3) & (x4 & H4) & (x5 & H5) & (x6 & H6) & (n & Hn & H7) & (n' & Hn' & H8)).
    apply groupTyped in H7, H8. destruct H7 as [tf H7]. destruct H8 as [te H8]. apply num_field in H1, H2, H3, H4, H5, H6; try reflexivity.
    exists (mkProofParamsJ x1 x2 x3 x4 x5 x6 tf te). apply fieldsProofParams. cbn [zeroProofParamsJ]. prj. do 6 (split; [assumption|]). split; (apply obj_field; [reflexivity|eauto]).
Qed.
Lemma sigmaTyped : forall d, (exists t, unmarshal stepSigmaProofJ zeroSigmaProofJ d = Some t) <-> exists m, Document d m /\ SigmaTyped m.
Proof.
  intros d. unfold SigmaTyped. split.
  - intros [t Ht]. apply unmarshal_doc in Ht. destruct Ht as (m & Hm & Ht). exists m. split; [exact Hm|]. apply fieldsSigmaProof in Ht.
    destruct Ht as (_ & _ & _ & _ & H5 & H6 & H7 & H8 & H9 & H10). cbn [zeroSigmaProofJ] in *. apply big_field in H5, H6, H7, H8, H9; try reflexivity.
    apply obj_field in H10; [|reflexivity]. destruct H10 as (n & Hn & H10). do 5 (split; [eexists; eassumption|]). exists n. split; [exact Hn|]. apply ppTyped. eauto.
  - intros (m & Hm & (x1 & H1) & (x2 & H2) & (x3 & H3) & (x4 & H4) & (x5 & H5) & (n & Hn & H6)). apply big_field in H1, H2, H3, H4, H5; try reflexivity. apply ppTyped in H6. destruct H6 as [t Ht].
    destruct (raw_total "W" m) as [w Hw]. destruct (raw_total "Kp" m) as [kp Hkp]. destruct (raw_total "Kq1" m) as [k1 Hk1]. destruct (raw_total "Kq2" m) as [k2 Hk2].
    exists (mkSigmaProofJ w kp k1 k2 x1 x2 x3 x4 x5 t). apply unmarshal_doc. exists m. split; [exact Hm|]. apply fieldsSigmaProof. cbn [zeroSigmaProofJ]. prj.
    do 9 (split; [assumption|]). apply obj_field; [reflexivity|eauto].
Qed.
Lemma bpTyped : forall d, (exists t, unmarshal stepBulletProofJ zeroBulletProofJ d = Some t) <-> exists m, Document d m /\ BPTyped m.
Proof.
  intros d. unfold BPTyped, IPTyped. split.
  - intros [t Ht]. apply unmarshal_doc in Ht. destruct Ht as (m & Hm & Ht). exists m. split; [exact Hm|]. apply fieldsBulletProof in Ht.
    destruct Ht as (_ & _ & _ & _ & _ & H6 & H7 & H8 & H9 & _). cbn [zeroBulletProofJ] in *. apply big_field in H6, H7, H8; try reflexivity.
    apply obj_field in H9; [|reflexivity]. destruct H9 as (n & Hn & H9). do 3 (split; [eexists; eassumption|]). exists n. split; [exact Hn|].
    apply fieldsIPProof in H9. destruct H9 as (_ & H2 & H3 & H4 & H5 & H10 & H11). cbn [zeroIPProofJ] in *. apply big_field in H2, H3, H4; try reflexivity. apply list_field in H5, H10; try reflexivity.
    apply obj_field in H11; [|reflexivity]. destruct H11 as (k & Hk & H11). do 5 (split; [eexists; eassumption|]). exists k. split; [exact Hk|].
    apply fieldsIPParams in H11. destruct H11 as (_ & H12 & H13 & _). cbn [zeroIPParamsJ] in *. apply list_field in H12, H13; try reflexivity. eauto.
  - intros (m & Hm & (x1 & H1) & (x2 & H2) & (x3 & H3) & (n & Hn & (y1 & I1) & (y2 & I2) & (y3 & I3) & (y4 & I4) & (y5 & I5) & (k & Hk & (z1 & J1) & (z2 & J2)))).
    apply big_field in H1, H2, H3, I1, I2, I3; try reflexivity. apply list_field in I4, I5, J1, J2; try reflexivity.
    destruct (raw_total "V" m) as [v Hv]. destruct (raw_total "A" m) as [a Ha]. destruct (raw_total "S" m) as [s Hs]. destruct (raw_total "T1" m) as [t1 Ht1]. destruct (raw_total "T2" m) as [t2 Ht2].
    destruct (raw_total "Params" m) as [rp Hrp]. destruct (raw_total "P" n) as [rP HrP]. destruct (raw_total "Uu" k) as [u Hu]. destruct (raw_total "GP" k) as [g Hg].
    exists (mkBulletProofJ v a s t1 t2 x1 x2 x3 (mkIPProofJ rP y1 y2 y3 y4 y5 (mkIPParamsJ u z1 z2 g)) rp). apply unmarshal_doc. exists m. split; [exact Hm|].
    apply fieldsBulletProof. cbn [zeroBulletProofJ]. prj. do 8 (split; [assumption|]). split; [|assumption]. apply obj_field; [reflexivity|]. exists n. split; [exact Hn|].
    apply fieldsIPProof. cbn [zeroIPProofJ]. prj. do 6 (split; [assumption|]). apply obj_field; [reflexivity|]. exists k. split; [exact Hk|].
    apply fieldsIPParams. cbn [zeroIPParamsJ]. prj. auto.
Qed.
(** An error is reported exactly when a member that is not a group element is mistyped (numbers out of range included) or the document is not an object;
    group elements never cause one. *)
Theorem C66_ciphertext_error : forall G d, AnswersOrPanics G -> BallotUnmarshalJSON G d = Err <-> ~ exists m, Document d m.
Proof.
  intros G d HA. unfold BallotUnmarshalJSON.
  assert (HT : (exists t, unmarshal stepCiphertextJ (None, None) d = Some t) <-> exists m, Document d m).
  { split; [intros [t Ht]; apply unmarshal_doc in Ht; destruct Ht as (m & Hm & _); eauto|]. intros [m Hm].
    destruct (raw_total "u" m) as [u Hu]. destruct (raw_total "v" m) as [v Hv]. exists (u, v). apply unmarshal_doc. exists m. split; [exact Hm|]. apply fieldsCiphertext. auto. }
  destruct (unmarshal _ _ d) as [[u v]|].
  - split; [|intros H; exfalso; apply H, HT; eauto]. intros H. exfalso.
    destruct (decElt_ap G u HA) as [[X E]|E]; rewrite E in H; cbn [bind] in H; [|discriminate]. destruct (decElt_ap G v HA) as [[Y E']|E']; rewrite E' in H; discriminate.
  - split; [|reflexivity]. intros _ H. apply HT in H. destruct H; discriminate.
Qed.
Theorem C66_bulletproof_error : forall G d params, AnswersOrPanics G -> BulletProofUnmarshalJSON G d params = Err <-> ~ exists m, Document d m /\ BPTyped m.
Proof.
  intros G d params HA. unfold BulletProofUnmarshalJSON. pose proof (bpTyped d) as HT. destruct (unmarshal _ _ d) as [t|].
  - split; [|intros H; exfalso; apply H, HT; eauto]. intros H. exfalso. unfold ipProofFromRaw, ipParamsFromRaw in H.
    repeat match type of H with
    | context [decElt G ?x] => let E := fresh "E" in destruct (decElt_ap G x HA) as [[? E]|E]; rewrite E in H; cbn [bind] in H; try discriminate H
    | context [decPairs G ?x ?y] => let E := fresh "E" in destruct (decPairs_ap G x y HA) as [[[? ?] E]|E]; rewrite E in H; cbn [bind] in H; try discriminate H
    end.
  - split; [|reflexivity]. intros _ H. apply HT in H. destruct H; discriminate.
Qed.
Theorem C66_vote_proof_error : forall GF GE d, AnswersOrPanics GF -> AnswersOrPanics GE -> ProofUnmarshalJSON GF GE d = Err <-> ~ exists m, Document d m /\ SigmaTyped m.
Proof.
  intros GF GE d HF HE. unfold ProofUnmarshalJSON. pose proof (sigmaTyped d) as HT. destruct (unmarshal _ _ d) as [t|].
  - split; [|intros H; exfalso; apply H, HT; eauto]. cbv zeta. intros H. exfalso.
    repeat match type of H with
    | context [decElt GF ?x] => let E := fresh "E" in destruct (decElt_ap GF x HF) as [[? E]|E]; rewrite E in H; cbn [bind] in H; try discriminate H
    | context [decElt GE ?x] => let E := fresh "E" in destruct (decElt_ap GE x HE) as [[? E]|E]; rewrite E in H; cbn [bind] in H; try discriminate H
    end.
  - split; [|reflexivity]. intros _ H. apply HT in H. destruct H; discriminate.
Qed.
(** the hypothesis holds for all shipped groups (the mod-p group and the NIST curves are C36_shipped_decoders) *)
Theorem C66_other_decoders : (forall c n ri, AnswersOrPanics (RistGrp c n ri)) /\ forall ing, AnswersOrPanics (K1Grp ing).
Proof.
  split.
  - intros c n ri r. unfold DecOk. cbn [RistGrp gOfJson gNew]. unfold r255UnmarshalJSON, pointUnmarshalJSON, pointJSONBytes.
    destruct (decECPoint r) as [[[x|] [y|]]|]; cbn [deref bind]; try (right; reflexivity); try (left; do 2 eexists; reflexivity).
    destruct (_ && _); cbn [bind]; [left; destruct (rUnmarshalBinary c _); do 2 eexists; reflexivity|]. cbv zeta. destruct (Nat.ltb _ _); [right; reflexivity|].
    destruct (Nat.ltb _ _); [right; reflexivity|]. left. cbn [bind]. destruct (rUnmarshalBinary c _); do 2 eexists; reflexivity.
  - intros ing r. left. do 2 eexists. reflexivity.
Qed.

(** *** Points of P-256, P-384 and ristretto255 *)
Lemma fieldsECPoint : forall l c t, dec_fields ecPointStep c l = Some t <->
  store decBig (fst c) (vals "x" l) = Some (fst t) /\ store decBig (snd c) (vals "y" l) = Some (snd t).
Proof.
  intros l. induction l as [|[k v] l IH]; intros c t.
  - destruct c, t; cbn; split; [intros H; injection H as -> ->; split; reflexivity|intros [H1 H2]; congruence].
  - cbn [dec_fields]. rewrite !vals_cons. destruct c as [a b]. unfold ecPointStep at 1. cbn [fst snd].
    destruct (fold_eqb k "x") eqn:E1; [hit k|destruct (fold_eqb k "y") eqn:E2]; cbn [store]; unfold decBig.
    + destruct (dec_bigint v); [rewrite IH; reflexivity|split; [discriminate|intros [H _]; discriminate]].
    + destruct (dec_bigint v); [rewrite IH; reflexivity|split; [discriminate|intros [_ H]; discriminate]].
    + rewrite IH. reflexivity.
Qed.
(** a point document is read through its two coordinates; if one is missing or null the decoder panics, and a mistyped document leaves the receiver alone *)
Theorem C66_point_document : forall P L (ub : bytes -> option P) old d,
  (forall m x y, Document d m -> BigField m "x" (Some x) -> BigField m "y" (Some y) ->
     pointUnmarshalJSON L ub old d = pointUnmarshalJSON L ub old (Some (encECPoint x y))) /\
  (forall m ox oy, Document d m -> BigField m "x" ox -> BigField m "y" oy -> ox = None \/ oy = None -> pointUnmarshalJSON L ub old d = Panic) /\
  ((~ exists m ox oy, Document d m /\ BigField m "x" ox /\ BigField m "y" oy) -> pointUnmarshalJSON L ub old d = Ok (old, false)).
Proof.
  intros P L ub old d.
  assert (HD : forall ox oy, decECPoint d = Some (ox, oy) <-> exists m, Document d m /\ BigField m "x" ox /\ BigField m "y" oy).
  { intros ox oy. change (decECPoint d) with (unmarshal ecPointStep (None, None) d). rewrite unmarshal_doc. split; intros (m & Hm & H); exists m; (split; [exact Hm|]).
    - apply fieldsECPoint in H. cbn [fst snd] in H. rewrite !big_field in H by reflexivity. exact H.
    - apply fieldsECPoint. cbn [fst snd]. rewrite !big_field by reflexivity. exact H. }
  unfold pointUnmarshalJSON, pointJSONBytes. split; [|split].
  - intros m x y Hm Hx Hy. rewrite (proj2 (HD (Some x) (Some y))) by eauto. rewrite decECPoint_int. reflexivity.
  - intros m ox oy Hm Hx Hy H. rewrite (proj2 (HD ox oy)) by eauto. destruct ox; [|reflexivity]. destruct oy; [|reflexivity]. destruct H; discriminate.
  - intros H. destruct (decECPoint d) as [[ox oy]|] eqn:E; [|reflexivity]. exfalso. apply H. destruct (proj1 (HD ox oy) eq_refl) as (m & E'). exists m, ox, oy. exact E'.
Qed.

(** *** Elements of the mod-p group *)
(** an integer is taken as it is, also when it is not a member of the group; null leaves the receiver alone and is no error; nothing
    else is accepted, but a number with a fraction or an exponent leaves its integer part behind, and other values leave 0 *)
Theorem C66_modp_document : forall d old,
  (forall z, gOfJson (ModPGrp d) old (Some (JInt z)) = Ok (z, true)) /\
  gOfJson (ModPGrp d) old (Some JNegZero) = Ok (0, true) /\
  gOfJson (ModPGrp d) old (Some JNull) = Ok (old, true) /\
  gOfJson (ModPGrp d) old None = Ok (old, false) /\
  (forall z, gOfJson (ModPGrp d) old (Some (JFrac z)) = Ok (z, false)) /\
  (forall v, (forall z, v <> JInt z /\ v <> JFrac z) -> v <> JNegZero -> v <> JNull -> gOfJson (ModPGrp d) old (Some v) = Ok (0, false)).
Proof.
  intros d old. cbn [ModPGrp gOfJson]. do 5 (split; [reflexivity|]). intros v H H0 Hn. destruct v as [|?|z| |z|?|?|?]; try reflexivity; exfalso;
    first [apply Hn; reflexivity|apply H0; reflexivity|apply (proj1 (H z)); reflexivity|apply (proj2 (H z)); reflexivity].
Qed.

(** *** Unknown and repeated members *)
(** members under keys that are no field name make no difference, wherever they stand *)
Theorem C66_unknown_members : forall GF GE l1 k v l2 (pp : PublicParameters GF GE),
  (forall f, In f ["ballot"; "lbProof"; "ubProof"; "voteProof"]%string -> ~ SameName k f) ->
  BallotDataUnmarshalJSON GF GE (Some (JObj (l1 ++ (k, v) :: l2))) pp = BallotDataUnmarshalJSON GF GE (Some (JObj (l1 ++ l2))) pp.
Proof.
  intros GF GE l1 k v l2 pp H. unfold BallotDataUnmarshalJSON. cbv zeta.
  enough (K : unmarshal stepBallotDataJ zeroBallotDataJ (Some (JObj (l1 ++ (k, v) :: l2))) = unmarshal stepBallotDataJ zeroBallotDataJ (Some (JObj (l1 ++ l2)))) by (rewrite K; reflexivity).
  cbn [unmarshal dec_struct]. rewrite !dec_fields_app. destruct (dec_fields stepBallotDataJ zeroBallotDataJ l1) as [c|]; [|reflexivity]. cbn [dec_fields]. destruct c as [b lo up vp]. unfold stepBallotDataJ at 1.
  assert (Hf : forall f, ascii7 f = true -> ~ SameName k f -> fold_eqb k f = false).
  { intros f Hf Hn. destruct (fold_eqb k f) eqn:E; [|reflexivity]. exfalso. apply Hn, fold_eqb_spec; assumption. }
  rewrite (Hf "ballot"%string eq_refl), (Hf "lbProof"%string eq_refl), (Hf "ubProof"%string eq_refl), (Hf "voteProof"%string eq_refl) by (apply H; cbn; tauto). reflexivity.
Qed.
(** a later member replaces an earlier one of the same name, in whatever spelling: appended to an acceptable ballot it swaps the ciphertext *)
Theorem C66_later_member_wins : forall GF GE l k c (pp : PublicParameters GF GE) b c',
  SameName k "ballot" -> BallotDataUnmarshalJSON GF GE (Some (JObj l)) pp = Ok b -> BallotUnmarshalJSON GF (Some c) = Ok c' ->
  BallotDataUnmarshalJSON GF GE (Some (JObj (l ++ [(k, c)]))) pp = Ok (mkBallotData c' (bdLower b) (bdUpper b) (bdVote b)).
Proof.
  intros GF GE l k c pp b c' Hk Hb Hc. apply (fold_eqb_spec k "ballot" eq_refl) in Hk. unfold BallotDataUnmarshalJSON in *. cbv zeta in *. cbn [unmarshal dec_struct] in *. rewrite dec_fields_app.
  destruct (dec_fields stepBallotDataJ zeroBallotDataJ l) as [t|]; [|discriminate Hb]. cbn [dec_fields]. destruct t as [tb tl tu tv]. unfold stepBallotDataJ. rewrite Hk. prj.
  cbn [jBallot jLower jUpper jVote] in Hb. rewrite Hc. cbn [bind].
  apply bind_Ok in Hb. destruct Hb as (c0 & _ & Hb). apply bind_Ok in Hb. destruct Hb as (lo & Hlo & Hb). apply bind_Ok in Hb. destruct Hb as (up & Hup & Hb).
  apply bind_Ok in Hb. destruct Hb as (vp & Hvp & Hb). injection Hb as <-. rewrite Hlo. cbn [bind]. rewrite Hup. cbn [bind]. rewrite Hvp. reflexivity.
Qed.

(** a document with other spellings, repeated and unknown members, and what is read out of it; one that is refused for a number out of range *)
Definition oddBallot (bx : json) : json :=
  JObj [("BALLOT", JObj [("U", JInt 3); ("v", JInt 5); ("u", JInt 4); ("w", JStr "x")]); ("lbProof", JNull); ("ubproof", JObj []); ("comment", JNull);
        ("VoteProof", JObj [("Params", JObj [("bx", bx); ("BX", JNull)]); (String "197" (String "191" "p"), JInt (-7)); ("params", JObj [("RANGEHI", JInt 9)])])]%string.
Example C66_case : forall d (pp : PublicParameters (ModPGrp d) (ModPGrp d)),
  (exists b, BallotDataUnmarshalJSON _ _ (Some (oddBallot (JInt 255))) pp = Ok b /\ ctU (bdBallot b) = 4 /\ ctV (bdBallot b) = 5 /\ sSp (bdVote b) = Some (-7) /\
     vBx (sParams (bdVote b)) = 255 /\ vHi (sParams (bdVote b)) = 9 /\ vLo (sParams (bdVote b)) = 0 /\ bdLower b = blankBP (ppBP pp)) /\
  BallotDataUnmarshalJSON _ _ (Some (oddBallot (JInt 256))) pp = Err /\ BallotDataUnmarshalJSON _ _ (Some (oddBallot JNegZero)) pp = Err.
Proof. intros d pp. split; [eexists; split; [reflexivity|repeat split]|split; reflexivity]. Qed.
Example C66_case_names : SameName "vOTEproof" "voteProof" /\ ~ SameName "vote" "voteProof".
Proof. split; [apply (fold_eqb_spec _ "voteProof"); reflexivity|]. intros H. apply (fold_eqb_spec _ "voteProof" eq_refl) in H. discriminate. Qed.
