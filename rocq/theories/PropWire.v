(** C69: ballots on the wire. The bytes json.Marshal writes and BallotDataUnmarshalJSON reads. *)
From Verif Require Import GoBase Json GroupIface Vector BIP BP VoteProof ModP App ECJson P256k1 Curve Groups Marshal NumTh Alg BPProofs SetupProofs ModPProofs Hom Toy PropBP PropVote PropModP PropApp PropEC PropCurve PropJson PropTransport PropGen Wire WireSpec WireProofs WirePrint.
From Coq Require Import Znumtheory.
Open Scope char_scope.
Open Scope Z_scope.
Open Scope list_scope.

(** ** Reading *)
(** the bytes are read as the one tree the JSON grammar gives them, and refused when there is none *)
Theorem C69_documents : forall GF GE t (pp : PublicParameters GF GE),
  (exists j, Doc j t /\ (forall i, Doc i t -> i = j) /\ UnmarshalBallot GF GE t pp = BallotDataUnmarshalJSON GF GE (Some j) pp) \/
  ((forall j, ~ Doc j t) /\ UnmarshalBallot GF GE t pp = Err).
Proof.
  intros GF GE t pp. unfold UnmarshalBallot. destruct (parse t) as [j|] eqn:E.
  - left. exists j. apply parse_iff in E. split; [exact E|]. split; [|reflexivity]. intros i Hi. exact (Doc_fun t i j Hi E).
  - right. split; [intros j Hj; apply parse_iff in Hj; congruence|reflexivity].
Qed.
(** spaces, the spelling of strings and other details of the text do not matter *)
Theorem C69_spelling : forall GF GE t t' j (pp : PublicParameters GF GE), Doc j t -> Doc j t' -> UnmarshalBallot GF GE t pp = UnmarshalBallot GF GE t' pp.
Proof. intros GF GE t t' j pp H H'. apply parse_iff in H, H'. unfold UnmarshalBallot. rewrite H, H'. reflexivity. Qed.

(** ** Cut or extended text *)
Lemma doc_prefix : forall j v x i, Bracketed j -> Val j v -> Doc i (v ++ x) -> i = j /\ Ws x.
Proof.
  intros j v x i HB HV (w & u & w' & E & Hw & HU & Hw' & _).
  destruct (proj1 (Bracketed_first j v HV) HB) as (r & Hr).
  assert (Hw0 : w = []). { destruct w as [|c w]; [reflexivity|]. apply Ws_inv in Hw. destruct Hw as [Hc _]. destruct Hr as [->| ->]; cbn in E; injection E as <- _; discriminate Hc. }
  subst w. cbn [app] in E.
  assert (HBi : Bracketed i). { apply (Bracketed_first i u HU). destruct (Val_first i u HU) as (c & u' & -> & _). exists u'. cbn in E. destruct Hr as [->| ->]; injection E as <- _; auto. }
  destruct (app_eq_app v x u w' E) as (l & [[E1 E2]|[E1 E2]]).
  - destruct (Val_prefix j i v u l HB HV HBi HU E1) as [-> ->]. split; [reflexivity|]. cbn in E2. rewrite <- E2. exact Hw'.
  - destruct (Val_prefix i j u v l HBi HU HB HV E1) as [-> ->]. split; [reflexivity|]. cbn in E2. rewrite E2. exact Hw'.
Qed.
Lemma doc_cut : forall j p x i, Bracketed j -> Val j (p ++ x) -> x <> [] -> ~ Doc i p.
Proof.
  intros j p x i HB HV Hx (w & u & w' & -> & Hw & HU & _ & _). apply Hx.
  destruct (proj1 (Bracketed_first j _ HV) HB) as (r & Hr).
  assert (Hw0 : w = []). { destruct w as [|c w]; [reflexivity|]. apply Ws_inv in Hw. destruct Hw as [Hc _]. destruct Hr as [Hr|Hr]; cbn in Hr; injection Hr as -> _; discriminate Hc. }
  subst w. cbn [app] in *.
  assert (HBi : Bracketed i). { apply (Bracketed_first i u HU). destruct (Val_first i u HU) as (c & u' & -> & _). exists u'. destruct Hr as [Hr|Hr]; cbn in Hr; injection Hr as -> _; auto. }
  destruct (Val_prefix j i _ u (w' ++ x) HB HV HBi HU) as [_ H]; [rewrite <- app_assoc; reflexivity|]. apply app_eq_nil in H. apply H.
Qed.

(** ** Writing *)
(** the group writes 7-bit names and shallow documents *)
Definition PlainGrp (G : Grp) : Prop := Ascii7 (gName G) /\ forall X j, gToJson G X = Ok j -> Plain j /\ depth j <= 1.
Definition ascii7b (s : string) : bool := forallb (fun c => code c <? 128) (list_ascii_of_string s).
Lemma ascii7b_ok : forall s, ascii7b s = true -> Ascii7 s.
Proof. intros s H c Hc. unfold ascii7b in H. rewrite forallb_forall in H. apply Z.ltb_lt. apply H. exact Hc. Qed.
Theorem C69_modp_plain : forall d, ascii7b (mpName d) = true -> PlainGrp (ModPGrp d).
Proof. intros d H. split; [apply ascii7b_ok; exact H|]. intros X j E. injection E as <-. split; [exact I|cbn; lia]. Qed.
Lemma point_plain : forall L b j, pointMarshalJSON L b = Ok j -> Plain j /\ depth j <= 1.
Proof.
  intros L b j H. unfold pointMarshalJSON in H. destruct (idx b 0) as [t0| | |]; [|discriminate..]. cbn [bind] in H.
  assert (HP : forall x y, Plain (encECPoint x y) /\ depth (encECPoint x y) <= 1).
  { intros x y. split; [|cbn; lia]. cbn. split; [split; [apply ascii7b_ok; reflexivity|exact I]|]. split; [split; [apply ascii7b_ok; reflexivity|exact I]|exact I]. }
  destruct (t0 =? 0); [injection H as <-; apply HP|]. destruct (slice_to b _) as [up| | |]; [|discriminate..]. cbn [bind] in H. destruct (slice_from b _) as [yb| | |]; [|discriminate..]. cbn [bind] in H.
  destruct (_ || _); [discriminate|]. injection H as <-. apply HP.
Qed.
Theorem C69_curve_plain : forall cv name n ci, ascii7b name = true -> PlainGrp (CurveGrp cv name n ci).
Proof. intros cv name n ci H. split; [apply ascii7b_ok; exact H|]. intros X j E. exact (point_plain _ _ _ E). Qed.
Theorem C69_other_plain : (forall c n ri, PlainGrp (RistGrp c n ri)) /\ forall ing, PlainGrp (K1Grp ing).
Proof.
  split.
  - intros c n ri. split; [apply ascii7b_ok; reflexivity|]. intros X j E. exact (point_plain _ _ _ E).
  - intros ing. split; [apply ascii7b_ok; reflexivity|]. intros X j E. cbn in E. unfold kgMarshalJSON, k1MarshalJSON in E. injection E as <-.
    split; [|destruct (ingPtrs X) as [[x|] [y|]]; cbn; lia].
    cbn. split; [split; [apply ascii7b_ok; reflexivity|destruct (fst (ingPtrs X)); exact I]|]. split; [split; [apply ascii7b_ok; reflexivity|destruct (snd (ingPtrs X)); exact I]|exact I].
Qed.

Definition Fits (d : Z) (j : json) : Prop := Plain j /\ depth j <= d.
Lemma fits_arr : forall d l, 1 <= d -> Forall (Fits (d - 1)) l -> Fits d (JArr l).
Proof.
  intros d l Hd H. unfold Fits. rewrite depth_arr. induction H as [|v l [H1 H2] _ [IH1 IH2]]; [split; [exact I|cbn; lia]|].
  split; [split; assumption|]. cbn [adepth fold_right]. fold (adepth l). lia.
Qed.
Lemma fits_obj : forall d l, 1 <= d -> Forall (fun kv => ascii7b (fst kv) = true /\ Fits (d - 1) (snd kv)) l -> Fits d (JObj l).
Proof.
  intros d l Hd H. unfold Fits. rewrite depth_obj. induction H as [|v l [H0 [H1 H2]] _ [IH1 IH2]]; [split; [exact I|cbn; lia]|].
  split; [split; [split; [apply ascii7b_ok; exact H0|exact H1]|exact IH1]|]. cbn [odepth fold_right]. fold (odepth l). lia.
Qed.
Lemma fits_le : forall d d' j, Fits d j -> d <= d' -> Fits d' j. Proof. intros d d' j [H1 H2] H. split; [exact H1|lia]. Qed.
Lemma fits_int : forall d z, 0 <= d -> Fits d (JInt z). Proof. intros. split; [exact I|cbn; lia]. Qed.
Lemma fits_big : forall d x, 0 <= d -> Fits d (enc_bigint x). Proof. intros d [z|] H; (split; [exact I|cbn; lia]). Qed.
Lemma mapM_forall : forall A B (f : A -> res B) (P : B -> Prop) l, (forall x y, f x = Ok y -> P y) -> forall r, mapM f l = Ok r -> Forall P r.
Proof.
  intros A B f P l Hf. induction l as [|x l IH]; cbn [mapM]; intros r H; [injection H as <-; constructor|].
  destruct (f x) as [y| | |] eqn:E; [|discriminate..]. cbn [bind] in H. destruct (mapM f l) as [ys| | |]; [|discriminate..]. cbn [bind] in H. injection H as <-. constructor; [apply (Hf x); exact E|apply IH; reflexivity].
Qed.
Ltac unb H := repeat match type of H with bind ?a _ = Ok _ => let E := fresh "E" in destruct a eqn:E; [cbn [bind] in H|discriminate H..] end; injection H as <-.
Section One.
Context (G : Grp) (PG : PlainGrp G).
Lemma fits_elt : forall d X j, 1 <= d -> gToJson G X = Ok j -> Fits d j. Proof. intros d X j Hd H. destruct (proj2 PG X j H). split; [assumption|lia]. Qed.
Lemma fits_group : forall d, 1 <= d -> Fits d (encGroup G).
Proof. intros d H. split; [cbn; split; [split; [apply ascii7b_ok; reflexivity|apply PG]|exact I]|cbn; lia]. Qed.
Lemma fits_elts : forall d l j, 2 <= d -> encElts G l = Ok j -> Fits d j.
Proof. intros d l j Hd H. unfold encElts in H. unb H. apply fits_arr; [lia|]. eapply mapM_forall; [|eassumption]. intros X e HX. apply (fits_elt _ X); [lia|exact HX]. Qed.
Lemma fits_optelts : forall d l j, 2 <= d -> encOptElts G l = Ok j -> Fits d j.
Proof.
  intros d l j Hd H. unfold encOptElts in H. unb H. apply fits_arr; [lia|]. eapply mapM_forall; [|eassumption]. intros [X|] e HX; [apply (fits_elt _ X); [lia|exact HX]|].
  injection HX as <-. split; [exact I|cbn; lia].
Qed.
Ltac fields := apply fits_obj; [lia|]; repeat (apply Forall_cons; [split; [reflexivity|cbn [snd]]|]); [..|apply Forall_nil];
  try (apply fits_int; lia); try (apply fits_big; lia); try (apply fits_group; lia); try (eapply fits_elt; [lia|eassumption]); try (eapply fits_elts; [lia|eassumption]); try (eapply fits_optelts; [lia|eassumption]).
Lemma fits_IPParams : forall p j, encIPParams G p = Ok j -> Fits 3 j. Proof. intros p j H. unfold encIPParams in H. unb H. fields. Qed.
Lemma fits_IPProof : forall p j, encIPProof G p = Ok j -> Fits 4 j. Proof. intros p j H. unfold encIPProof in H. unb H. fields. eapply fits_IPParams. eassumption. Qed.
Lemma fits_BPParams : forall p j, encBPParams G p = Ok j -> Fits 3 j. Proof. intros p j H. unfold encBPParams in H. unb H. fields. Qed.
Lemma fits_BulletProof : forall p j, encBulletProof G p = Ok j -> Fits 5 j.
Proof. intros p j H. unfold encBulletProof in H. unb H. fields; [eapply fits_IPProof; eassumption|]. eapply fits_le; [eapply fits_BPParams; eassumption|lia]. Qed.
Lemma fits_GroupParams : forall p j, encGroupParams G p = Ok j -> Fits 2 j. Proof. intros p j H. unfold encGroupParams in H. unb H. fields. Qed.
Lemma fits_Ciphertext : forall p j, encCiphertext G p = Ok j -> Fits 2 j. Proof. intros p j H. unfold encCiphertext in H. unb H. fields. Qed.
End One.
Section Two.
Context (GF GE : Grp) (PF : PlainGrp GF) (PE : PlainGrp GE).
Lemma fits_ballot : forall b j, encBallotData GF GE b = Ok j -> Fits 6 j /\ Bracketed j.
Proof.
  intros b j H. unfold encBallotData in H. unb H. split; [|exact I]. apply fits_obj; [lia|]. repeat (apply Forall_cons; [split; [reflexivity|cbn [snd]]|]); [..|apply Forall_nil].
  - eapply fits_le; [eapply (fits_Ciphertext GF PF); eassumption|lia].
  - eapply (fits_BulletProof GE PE); eassumption.
  - eapply (fits_BulletProof GE PE); eassumption.
  - match goal with H : encSigmaProof _ _ _ = Ok _ |- _ => unfold encSigmaProof in H; unb H end.
    match goal with H : encProofParams _ _ _ = Ok _ |- _ => unfold encProofParams in H; unb H end.
    apply fits_obj; [lia|]. repeat (apply Forall_cons; [split; [reflexivity|cbn [snd]]|]); [..|apply Forall_nil]; try (apply fits_big; lia);
      try (eapply (fits_elt GF PF); [lia|eassumption]); try (eapply (fits_elt GE PE); [lia|eassumption]).
    apply fits_obj; [lia|]. repeat (apply Forall_cons; [split; [reflexivity|cbn [snd]]|]); [..|apply Forall_nil]; try (apply fits_int; lia);
      [eapply fits_le; [eapply (fits_GroupParams GF PF); eassumption|lia]|eapply fits_le; [eapply (fits_GroupParams GE PE); eassumption|lia]].
Qed.

(** the bytes of a ballot: printable or DEL, so no line break; and none of < > & *)
Definition Safe (t : text) : Prop := forall c, In c t -> 32 <= code c < 128 /\ ~ In c ["<"; ">"; "&"].
Lemma safe_app : forall a b, Safe a -> Safe b -> Safe (a ++ b). Proof. intros a b Ha Hb c H. apply in_app_or in H. destruct H; auto. Qed.
Lemma safe_cons : forall a t, Safe [a] -> Safe t -> Safe (a :: t). Proof. intros a t. apply (safe_app [a] t). Qed.
Lemma safe_lit : forall l, forallb (fun c => (32 <=? code c) && (code c <? 128) && negb (Ascii.eqb c "<" || Ascii.eqb c ">" || Ascii.eqb c "&")) l = true -> Safe l.
Proof.
  intros l H c Hc. rewrite forallb_forall in H. specialize (H c Hc). rewrite !andb_true_iff, negb_true_iff, !orb_false_iff, !Ascii.eqb_neq, Z.leb_le, Z.ltb_lt in H.
  destruct H as [[H1 H2] [[H3 H4] H5]]. split; [lia|]. intros [<-|[<-|[<-|[]]]]; contradiction.
Qed.
Lemma safe_digit : forall c, isDigit c = true -> Safe [c].
Proof. intros c H x [<-|[]]. apply digit_code in H. split; [lia|]. intros [<-|[<-|[<-|[]]]]; cbn in H; lia. Qed.
Lemma safe_int : forall z, Safe (printInt z).
Proof.
  intros z. assert (HP : forall l x, IntPart l x -> Safe l).
  { intros l x [H _] c Hc. apply Digits_iff in H. destruct H as (_ & H & _). apply (safe_digit c (H c Hc)). left. reflexivity. }
  destruct (printInt_spec z) as [l x H|l x H]; [apply (HP l x H)|]. apply safe_cons; [apply safe_lit; reflexivity|apply (HP l x H)].
Qed.
Lemma safe_quote : forall s, Ascii7 s -> Safe (quote s).
Proof.
  intros s H. apply safe_cons; [apply safe_lit; reflexivity|]. apply safe_app; [|apply safe_lit; reflexivity]. unfold Ascii7 in H. induction (list_ascii_of_string s) as [|c l IH]; [intros x []|].
  cbn [flat_map]. apply safe_app; [|apply IH; intros x Hx; apply H; right; exact Hx]. specialize (H c (or_introl eq_refl)). pose proof (code_range c) as HR. unfold quoteChar. cbv zeta.
  destruct (Ascii.eqb c """"); [apply safe_lit; reflexivity|]. destruct (Ascii.eqb c "\"); [apply safe_lit; reflexivity|]. destruct (code c =? 10); [apply safe_lit; reflexivity|].
  destruct (code c =? 13); [apply safe_lit; reflexivity|]. destruct (code c =? 9); [apply safe_lit; reflexivity|].
  destruct (_ || _) eqn:E.
  - change (Safe (["\"; "u"; "0"; "0"] ++ [hexChar (code c / 16); hexChar (code c mod 16)])). apply safe_app; [apply safe_lit; reflexivity|].
    assert (HX : forall v, 0 <= v < 16 -> Safe [hexChar v]).
    { intros v Hv x [<-|[]]. pose proof (hexChar_spec v Hv) as HS. unfold HexDigit in HS. split; [lia|]. intros [K|[K|[K|[]]]]; apply (f_equal code) in K;
        [change (code "<") with 60 in K|change (code ">") with 62 in K|change (code "&") with 38 in K]; lia. }
    pose proof (Z.div_mod (code c) 16 ltac:(lia)). pose proof (Z.mod_pos_bound (code c) 16 ltac:(lia)). apply safe_cons; apply HX; lia.
  - rewrite !orb_false_iff, !Ascii.eqb_neq in E. destruct E as [[[E1 E2] E3] E4]. apply Z.ltb_ge in E1. intros x [<-|[]]. split; [lia|]. intros [<-|[<-|[<-|[]]]]; contradiction.
Qed.
Lemma safe_commas : forall l, Forall Safe l -> Safe (commas l).
Proof.
  intros l H. destruct H as [|a l Ha H]; [intros x []|]. cbn [commas]. apply safe_app; [exact Ha|]. induction H as [|b l Hb H IH]; [intros x []|]. cbn [flat_map].
  apply safe_cons; [apply safe_lit; reflexivity|]. apply safe_app; assumption.
Qed.
Lemma safe_print : forall j, Plain j -> Safe (print j).
Proof.
  induction j as [|b|z| |z|s|l IH|l IH] using json_tree_ind; intros HP.
  - apply safe_lit. reflexivity.
  - destruct b; apply safe_lit; reflexivity.
  - apply safe_int.
  - apply safe_lit. reflexivity.
  - apply safe_app; [apply safe_int|apply safe_lit; reflexivity].
  - apply safe_quote. exact HP.
  - cbn [print]. apply safe_cons; [apply safe_lit; reflexivity|]. apply safe_app; [|apply safe_lit; reflexivity]. apply safe_commas. apply Forall_map.
    cbn [Plain] in HP. induction IH as [|v l Hv _ IHl]; [constructor|]. destruct HP as [HP1 HP2]. constructor; [apply Hv; exact HP1|apply IHl; exact HP2].
  - cbn [print]. apply safe_cons; [apply safe_lit; reflexivity|]. apply safe_app; [|apply safe_lit; reflexivity]. apply safe_commas. apply Forall_map.
    cbn [Plain] in HP. induction IH as [|v l Hv _ IHl]; [constructor|]. destruct HP as [[HP0 HP1] HP2]. constructor; [|apply IHl; exact HP2].
    apply safe_app; [apply safe_quote; exact HP0|]. apply safe_cons; [apply safe_lit; reflexivity|apply Hv; exact HP1].
Qed.
(** what is written is a document for the tree of C67, on one line *)
Theorem C69_written : forall b t, MarshalBallot GF GE b = Ok t -> exists j, encBallotData GF GE b = Ok j /\ Doc j t /\ Safe t.
Proof.
  intros b t H. unfold MarshalBallot in H. destruct (encBallotData GF GE b) as [j| | |] eqn:E; [|discriminate..]. cbn [bind] in H. injection H as <-.
  destruct (fits_ballot b j E) as [[HP HD] _]. exists j. split; [reflexivity|]. split; [|apply safe_print; exact HP]. exists [], (print j), []. split; [rewrite app_nil_r; reflexivity|].
  split; [apply Ws_nil|]. split; [apply print_val; exact HP|]. split; [apply Ws_nil|lia].
Qed.
Lemma marshal_val : forall b t, MarshalBallot GF GE b = Ok t -> exists j, encBallotData GF GE b = Ok j /\ Bracketed j /\ Val j t /\ depth j <= 10000.
Proof.
  intros b t H. unfold MarshalBallot in H. destruct (encBallotData GF GE b) as [j| | |] eqn:E; [|discriminate..]. cbn [bind] in H. injection H as <-.
  destruct (fits_ballot b j E) as [[HP HD] HB]. exists j. split; [reflexivity|]. split; [exact HB|]. split; [apply print_val; exact HP|lia].
Qed.
(** no shorter text is taken for a ballot: whatever the parameters, a text cut off before its end is refused *)
Theorem C69_truncated : forall b p x pp, MarshalBallot GF GE b = Ok (p ++ x) -> x <> [] -> UnmarshalBallot GF GE p pp = Err.
Proof.
  intros b p x pp H Hx. destruct (marshal_val b _ H) as (j & _ & HB & HV & _). destruct (C69_documents GF GE p pp) as [(i & Hi & _)|[_ HE]]; [|exact HE].
  exfalso. exact (doc_cut j p x i HB HV Hx Hi).
Qed.
(** and text followed by anything but white space is refused; white space is ignored *)
Theorem C69_trailing : forall b t x pp, MarshalBallot GF GE b = Ok t ->
  (Ws x -> UnmarshalBallot GF GE (t ++ x) pp = UnmarshalBallot GF GE t pp) /\ (~ Ws x -> UnmarshalBallot GF GE (t ++ x) pp = Err).
Proof.
  intros b t x pp H. destruct (marshal_val b _ H) as (j & _ & HB & HV & HD). split.
  - intros Hx. apply (C69_spelling GF GE _ _ j).
    + exists [], t, x. split; [reflexivity|]. split; [apply Ws_nil|]. auto.
    + exists [], t, []. split; [rewrite app_nil_r; reflexivity|]. split; [apply Ws_nil|]. split; [exact HV|]. split; [apply Ws_nil|exact HD].
  - intros Hx. destruct (C69_documents GF GE (t ++ x) pp) as [(i & Hi & _)|[_ HE]]; [|exact HE]. exfalso. apply Hx. apply (doc_prefix j t x i HB HV Hi).
Qed.
(** ** Round trip *)
Context (JF : JsonRoundtrip GF) (JE : JsonRoundtrip GE).
Theorem C69_roundtrip : forall (b : BallotData GF GE) pp,
  pParams (bdLower b) = ppBP pp -> pParams (bdUpper b) = ppBP pp ->
  WFLists (bdLower b) -> WFLists (bdUpper b) -> WFInts (sParams (bdVote b)) ->
  exists t, MarshalBallot GF GE b = Ok t /\ forall w w', Ws w -> Ws w' -> UnmarshalBallot GF GE (w ++ t ++ w') pp = Ok b.
Proof.
  intros b pp H1 H2 H3 H4 H5. destruct (C35_ballot_roundtrip GF GE JF JE b pp H1 H2 H3 H4 H5) as (j & HE & HD). exists (print j).
  split; [unfold MarshalBallot; rewrite HE; reflexivity|]. intros w w' Hw Hw'. destruct (fits_ballot b j HE) as [[HP HX] _].
  unfold UnmarshalBallot. rewrite (parse_print j w w' HP ltac:(lia) Hw Hw'). exact HD.
Qed.
(** ballots of one election with the same bytes are the same *)
Theorem C69_same_bytes : forall (b b' : BallotData GF GE) (pp : PublicParameters GF GE) t,
  (forall x, x = b \/ x = b' -> pParams (bdLower x) = ppBP pp /\ pParams (bdUpper x) = ppBP pp /\ WFLists (bdLower x) /\ WFLists (bdUpper x) /\ WFInts (sParams (bdVote x))) ->
  MarshalBallot GF GE b = Ok t -> MarshalBallot GF GE b' = Ok t -> b = b'.
Proof.
  intros b b' pp t H Hb Hb'. destruct (H b (or_introl eq_refl)) as (A1 & A2 & A3 & A4 & A5). destruct (H b' (or_intror eq_refl)) as (B1 & B2 & B3 & B4 & B5).
  destruct (C69_roundtrip b pp A1 A2 A3 A4 A5) as (t1 & E1 & R1). destruct (C69_roundtrip b' pp B1 B2 B3 B4 B5) as (t2 & E2 & R2).
  rewrite Hb in E1. injection E1 as <-. rewrite Hb' in E2. injection E2 as <-. specialize (R1 [] [] Ws_nil Ws_nil). specialize (R2 [] [] Ws_nil Ws_nil). congruence.
Qed.
End Two.

(** ** From castVote to verifyVote over the wire *)
Theorem C69_curve_path : forall d cv name n ci HO nan64 pp cr ballot,
  ascii7b (mpName d) = true -> ascii7b name = true ->
  ModPOk d -> GoodCurve cv -> CirclOk cv n ci -> nanConv nan64 -> bitLen n < 65536 -> n <= mpOrder d ->
  setup d (CurveGrp cv name n ci) nan64 = Ok pp -> CastDrawsOk pp cr ->
  castVote (ModPGrp d) (CurveGrp cv name n ci) HO pp cr = Ok ballot ->
  exists t ballot', MarshalBallot (ModPGrp d) (CurveGrp cv name n ci) ballot = Ok t /\
    UnmarshalBallot (ModPGrp d) (CurveGrp cv name n ci) t pp = Ok ballot' /\
    verifyVote (ModPGrp d) (CurveGrp cv name n ci) HO ballot' (ppRP pp) = Ok (true, 2%nat).
Proof.
  intros d cv name n ci HO nan64 pp cr ballot Nd Nc Hok GC CO Hn HB HQ HS HD HC.
  destruct (C58_curve_path d cv name n ci HO nan64 pp cr ballot Hok GC CO Hn HB HQ HS HD HC) as (j & b' & H1 & H2 & H3).
  exists (print j), b'. split; [unfold MarshalBallot; rewrite H1; reflexivity|]. split; [|exact H3].
  destruct (fits_ballot _ _ (C69_modp_plain d Nd) (C69_curve_plain cv name n ci Nc) ballot j H1) as [[HP HX] _].
  unfold UnmarshalBallot. pose proof (parse_print j [] [] HP ltac:(lia) Ws_nil Ws_nil) as HPP. cbn [app] in HPP. rewrite app_nil_r in HPP. rewrite HPP. exact H2.
Qed.
Theorem C69_shipped_curves : forall HO nan64, prime (mpField rfcDesc) -> prime (mpOrder rfcDesc) -> nanConv nan64 ->
  (forall decomp ci, CirclOk (P256 decomp) p256Order ci -> exists pp, setup rfcDesc (P256Grp decomp ci) nan64 = Ok pp /\
    forall cr ballot, CastDrawsOk pp cr -> castVote (ModPGrp rfcDesc) (P256Grp decomp ci) HO pp cr = Ok ballot ->
    exists t ballot', MarshalBallot (ModPGrp rfcDesc) (P256Grp decomp ci) ballot = Ok t /\
      UnmarshalBallot (ModPGrp rfcDesc) (P256Grp decomp ci) t pp = Ok ballot' /\
      verifyVote (ModPGrp rfcDesc) (P256Grp decomp ci) HO ballot' (ppRP pp) = Ok (true, 2%nat)) /\
  (forall decomp ci, CirclOk (P384 decomp) p384Order ci -> exists pp, setup rfcDesc (P384Grp decomp ci) nan64 = Ok pp /\
    forall cr ballot, CastDrawsOk pp cr -> castVote (ModPGrp rfcDesc) (P384Grp decomp ci) HO pp cr = Ok ballot ->
    exists t ballot', MarshalBallot (ModPGrp rfcDesc) (P384Grp decomp ci) ballot = Ok t /\
      UnmarshalBallot (ModPGrp rfcDesc) (P384Grp decomp ci) t pp = Ok ballot' /\
      verifyVote (ModPGrp rfcDesc) (P384Grp decomp ci) HO ballot' (ppRP pp) = Ok (true, 2%nat)).
Proof.
  intros HO nan64 Hp Hq Hn.
  assert (HG : forall GE b j pp b' r, PlainGrp GE -> encBallotData (ModPGrp rfcDesc) GE b = Ok j -> BallotDataUnmarshalJSON (ModPGrp rfcDesc) GE (Some j) pp = Ok b' ->
    verifyVote (ModPGrp rfcDesc) GE HO b' (ppRP pp) = r ->
    exists t ballot', MarshalBallot (ModPGrp rfcDesc) GE b = Ok t /\ UnmarshalBallot (ModPGrp rfcDesc) GE t pp = Ok ballot' /\ verifyVote (ModPGrp rfcDesc) GE HO ballot' (ppRP pp) = r).
  { intros GE b j pp b' r PE H1 H2 H3. exists (print j), b'. split; [unfold MarshalBallot; rewrite H1; reflexivity|]. split; [|exact H3].
    destruct (fits_ballot _ _ (C69_modp_plain rfcDesc eq_refl) PE b j H1) as [[HP HX] _].
    unfold UnmarshalBallot. pose proof (parse_print j [] [] HP ltac:(lia) Ws_nil Ws_nil) as HPP. cbn [app] in HPP. rewrite app_nil_r in HPP. rewrite HPP. exact H2. }
  split; intros decomp ci CO.
  - destruct (C58_p256 decomp ci HO nan64 Hp Hq CO Hn) as (pp & HS & HV). exists pp. split; [exact HS|]. intros cr b HD HC. destruct (HV cr b HD HC) as (j & b' & H1 & H2 & H3).
    eapply HG; [apply C69_curve_plain; reflexivity|exact H1|exact H2|exact H3].
  - destruct (C58_p384 decomp ci HO nan64 Hp Hq CO Hn) as (pp & HS & HV). exists pp. split; [exact HS|]. intros cr b HD HC. destruct (HV cr b HD HC) as (j & b' & H1 & H2 & H3).
    eapply HG; [apply C69_curve_plain; reflexivity|exact H1|exact H2|exact H3].
Qed.

(** ** Concrete cases *)
Definition txt (s : string) : text := list_ascii_of_string s.
Example C69_document_case : Doc (JArr [JInt (-12); JFrac 3; JStr "a/b"; JObj [("k"%string, JNull)]; JArr []]) (txt " [-12, 3.50e+1 ,""a\/b"",{""k"":null},[ ] ]").
Proof. apply parse_iff. vm_compute. reflexivity. Qed.
Example C69_surrogates_case : parse (txt """\uD83D\uDE00\uD83Dx""") = Some (JStr (string_of_list_ascii [chr 240; chr 159; chr 152; chr 128; chr 239; chr 191; chr 189; "x"])).
Proof. vm_compute. reflexivity. Qed.
(** -0 is told apart from 0; bytes that are not UTF-8 are replaced one by one, UTF-8 characters are kept *)
Example C69_neg_zero_case : Doc (JArr [JInt 0; JNegZero; JFrac 0]) (txt "[0,-0,-0.0]").
Proof. apply parse_iff. vm_compute. reflexivity. Qed.
Example C69_utf8_case : parse ("""" :: map chr [0xC3; 0xA9; 0xFF; 0xC3; 0x41; 0xED; 0xA0] ++ [""""])
  = Some (JStr (string_of_list_ascii (map chr [0xC3; 0xA9; 0xEF; 0xBF; 0xBD; 0xEF; 0xBF; 0xBD; 0x41; 0xEF; 0xBF; 0xBD; 0xEF; 0xBF; 0xBD]))).
Proof. vm_compute. reflexivity. Qed.
Example C69_no_document_case : parse (txt "[01]") = None /\ parse (txt "[1,]") = None /\ parse (txt "{""a""}") = None /\ parse (txt "[1] 2") = None /\ parse (txt "") = None.
Proof. vm_compute. repeat split. Qed.
(** a hand-written text for four empty objects *)
Example C69_blank_case : forall pp : PublicParameters (ModPGrp dToy) (ModPGrp dToy),
  UnmarshalBallot _ _ (txt "{""ballot"": {}, ""LBPROOF"":{}, ""ubProof"":{}, ""voteProof"" :{}}") pp = Ok (blankBallot pp).
Proof.
  intros pp. unfold UnmarshalBallot. replace (parse _) with (Some (JObj [("ballot", JObj []); ("LBPROOF", JObj []); ("ubProof", JObj []); ("voteProof", JObj [])]%string)) by (vm_compute; reflexivity).
  reflexivity.
Qed.
(** the text of a small ciphertext, and of a ballot whose hypotheses for the round trip hold *)
Example C69_text_case : print (JObj [("u"%string, JInt 0); ("v"%string, JInt (-270))]) = txt "{""u"":0,""v"":-270}".
Proof. vm_compute. reflexivity. Qed.
Example C69_roundtrip_case : let b := mkBallotData (mkCiphertext (G:=ModPGrp dToy) 2 4) (blankBP (G:=ModPGrp dToy) (mkBPParams (G:=ModPGrp dToy) 2 1 1 [2; 4] [8; 16]))
    (blankBP (G:=ModPGrp dToy) (mkBPParams (G:=ModPGrp dToy) 2 1 1 [2; 4] [8; 16])) (blankSigma (ModPGrp dToy) (ModPGrp dToy)) in
  PlainGrp (ModPGrp dToy) /\ WFLists (bdLower b) /\ WFInts (sParams (bdVote b)) /\
  exists t, MarshalBallot _ _ b = Ok t /\ firstn 29 t = txt "{""ballot"":{""u"":2,""v"":4},""lbPr".
Proof.
  cbv zeta. split; [apply C69_modp_plain; reflexivity|]. split; [exists [], []; repeat split|]. split; [unfold WFInts; cbn; lia|]. eexists. split; [reflexivity|]. vm_compute. reflexivity.
Qed.

Print Assumptions C69_documents.
Print Assumptions C69_spelling.
Print Assumptions C69_modp_plain.
Print Assumptions C69_curve_plain.
Print Assumptions C69_other_plain.
Print Assumptions C69_written.
Print Assumptions C69_truncated.
Print Assumptions C69_trailing.
Print Assumptions C69_roundtrip.
Print Assumptions C69_same_bytes.
Print Assumptions C69_curve_path.
Print Assumptions C69_shipped_curves.
