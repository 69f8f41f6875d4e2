(** C67: what the encoder writes, as a table of paths into the document. *)
From Verif Require Import GoBase Json GroupIface Vector BIP BP VoteProof App ModP Marshal PropJson.

(** ** Specification *)
(** the value at a path of keys, and the keys of the object there, in order *)
Fixpoint member (f : string) (l : list (string * json)) : option json :=
  match l with [] => None | (k, v) :: t => if String.eqb k f then Some v else member f t end.
Fixpoint at_path (j : json) (path : list string) : option json :=
  match path with
  | [] => Some j
  | f :: rest => match j with JObj l => match member f l with Some v => at_path v rest | None => None end | _ => None end
  end.
Definition Keys (j : json) (path : list string) (ks : list string) : Prop := exists l, at_path j path = Some (JObj l) /\ map fst l = ks.

(** an element as its group writes it, an integer (null for nil), a group by its name *)
Definition EltAt (G : Grp) (j : json) (path : list string) (X : E G) : Prop := exists e, gToJson G X = Ok e /\ at_path j path = Some e.
Definition IntAt (j : json) (path : list string) (x : Z) : Prop := at_path j path = Some (JInt x).
Definition BigAt (j : json) (path : list string) (x : option Z) : Prop :=
  at_path j path = Some (match x with Some z => JInt z | None => JNull end).
Definition GroupAt (G : Grp) (j : json) (path : list string) : Prop :=
  Keys j path ["group"%string] /\ at_path j (path ++ ["group"%string]) = Some (JStr (gName G)).
Definition EltsAt (G : Grp) (j : json) (path : list string) (l : list (E G)) : Prop :=
  exists es, at_path j path = Some (JArr es) /\ Forall2 (fun X e => gToJson G X = Ok e) l es.
Definition OptEltsAt (G : Grp) (j : json) (path : list string) (l : list (option (E G))) : Prop :=
  exists es, at_path j path = Some (JArr es) /\ Forall2 (fun o e => match o with Some X => gToJson G X = Ok e | None => e = JNull end) l es.

Local Open Scope string_scope.
Local Open Scope list_scope.
Definition WritesIPParams (G : Grp) (j : json) (r : list string) (p : IPParams G) : Prop :=
  Keys j r ["Gg"; "Hh"; "Uu"; "GP"] /\ EltsAt G j (r ++ ["Gg"]) (ipGg p) /\ OptEltsAt G j (r ++ ["Hh"]) (ipHh p) /\
  EltAt G j (r ++ ["Uu"]) (ipUu p) /\ GroupAt G j (r ++ ["GP"]).
Definition WritesIPProof (G : Grp) (j : json) (r : list string) (p : IPProof G) : Prop :=
  Keys j r ["P"; "Cc"; "a"; "b"; "L"; "R"; "Params"] /\ EltAt G j (r ++ ["P"]) (ipP p) /\ BigAt j (r ++ ["Cc"]) (ipCc p) /\
  BigAt j (r ++ ["a"]) (ipA p) /\ BigAt j (r ++ ["b"]) (ipB p) /\ EltsAt G j (r ++ ["L"]) (ipL p) /\ OptEltsAt G j (r ++ ["R"]) (ipR p) /\
  WritesIPParams G j (r ++ ["Params"]) (ipParams p).
Definition WritesBPParams (G : Grp) (j : json) (r : list string) (p : BPParams G) : Prop :=
  Keys j r ["N"; "G"; "H"; "Gg"; "Hh"; "GP"] /\ IntAt j (r ++ ["N"]) (bpN p) /\ EltAt G j (r ++ ["G"]) (bpG p) /\ EltAt G j (r ++ ["H"]) (bpH p) /\
  EltsAt G j (r ++ ["Gg"]) (bpGg p) /\ EltsAt G j (r ++ ["Hh"]) (bpHh p) /\ GroupAt G j (r ++ ["GP"]).
Definition WritesBulletProof (G : Grp) (j : json) (r : list string) (p : BulletProof G) : Prop :=
  Keys j r ["V"; "A"; "S"; "T1"; "T2"; "Taux"; "Mu"; "Tprime"; "InnerProductProof"; "Params"] /\
  EltAt G j (r ++ ["V"]) (pV p) /\ EltAt G j (r ++ ["A"]) (pA p) /\ EltAt G j (r ++ ["S"]) (pS p) /\ EltAt G j (r ++ ["T1"]) (pT1 p) /\ EltAt G j (r ++ ["T2"]) (pT2 p) /\
  BigAt j (r ++ ["Taux"]) (pTaux p) /\ BigAt j (r ++ ["Mu"]) (pMu p) /\ BigAt j (r ++ ["Tprime"]) (pTprime p) /\
  WritesIPProof G j (r ++ ["InnerProductProof"]) (pIPP p) /\ WritesBPParams G j (r ++ ["Params"]) (pParams p).
Definition WritesGroupParams (G : Grp) (j : json) (r : list string) (p : GroupParams G) : Prop :=
  Keys j r ["G"; "H"; "N"; "F"; "I"] /\ EltAt G j (r ++ ["G"]) (gpG p) /\ EltAt G j (r ++ ["H"]) (gpH p) /\
  BigAt j (r ++ ["N"]) (gpN p) /\ BigAt j (r ++ ["F"]) (gpF p) /\ GroupAt G j (r ++ ["I"]).
Definition WritesSigmaProof (GF GE : Grp) (j : json) (r : list string) (p : SigmaProof GF GE) : Prop :=
  Keys j r ["W"; "Kp"; "Kq1"; "Kq2"; "Challenge"; "Z"; "Sp"; "Sq1"; "Sq2"; "Params"] /\
  EltAt GF j (r ++ ["W"]) (sW p) /\ EltAt GF j (r ++ ["Kp"]) (sKp p) /\ EltAt GE j (r ++ ["Kq1"]) (sKq1 p) /\ EltAt GE j (r ++ ["Kq2"]) (sKq2 p) /\
  BigAt j (r ++ ["Challenge"]) (sChal p) /\ BigAt j (r ++ ["Z"]) (sZ p) /\ BigAt j (r ++ ["Sp"]) (sSp p) /\ BigAt j (r ++ ["Sq1"]) (sSq1 p) /\ BigAt j (r ++ ["Sq2"]) (sSq2 p) /\
  let q := r ++ ["Params"] in let pp := sParams p in
  Keys j q ["Bx"; "Bc"; "Bg"; "Bb"; "RangeLo"; "RangeHi"; "GFF"; "GEC"] /\
  IntAt j (q ++ ["Bx"]) (vBx pp) /\ IntAt j (q ++ ["Bc"]) (vBc pp) /\ IntAt j (q ++ ["Bg"]) (vBg pp) /\ IntAt j (q ++ ["Bb"]) (vBb pp) /\
  IntAt j (q ++ ["RangeLo"]) (vLo pp) /\ IntAt j (q ++ ["RangeHi"]) (vHi pp) /\
  WritesGroupParams GF j (q ++ ["GFF"]) (vGFF pp) /\ WritesGroupParams GE j (q ++ ["GEC"]) (vGEC pp).
Definition WritesBallot (GF GE : Grp) (j : json) (b : BallotData GF GE) : Prop :=
  Keys j [] ["ballot"; "lbProof"; "ubProof"; "voteProof"] /\ Keys j ["ballot"] ["u"; "v"] /\
  EltAt GF j ["ballot"; "u"] (ctU (bdBallot b)) /\ EltAt GF j ["ballot"; "v"] (ctV (bdBallot b)) /\
  WritesBulletProof GE j ["lbProof"] (bdLower b) /\ WritesBulletProof GE j ["ubProof"] (bdUpper b) /\ WritesSigmaProof GF GE j ["voteProof"] (bdVote b).

(** ** Proofs *)
Lemma at_app : forall r j q v, at_path j r = Some v -> at_path j (r ++ q)%list = at_path v q.
Proof.
  induction r as [|f r IH]; intros j q v H; [cbn in *; congruence|]. cbn [at_path app] in *. destruct j; try discriminate.
  destruct (member f l); [|discriminate]. apply IH, H.
Qed.
Lemma bind_Ok' : forall A B (e : res A) (f : A -> res B) y, bind e f = Ok y -> exists x, e = Ok x /\ f x = Ok y.
Proof. intros A B e f y H. destruct e; try discriminate. eauto. Qed.
Lemma mapM_ok : forall A B (f : A -> res B) l ys, mapM f l = Ok ys -> Forall2 (fun x y => f x = Ok y) l ys.
Proof.
  intros A B f. induction l as [|x l IH]; intros ys H; cbn [mapM] in H; [injection H as <-; constructor|].
  apply bind_Ok' in H. destruct H as (y & Hy & H). apply bind_Ok' in H. destruct H as (ys' & Hys & H). injection H as <-. constructor; auto.
Qed.
Lemma encElts_ok : forall G l j, encElts G l = Ok j -> exists es, j = JArr es /\ Forall2 (fun X e => gToJson G X = Ok e) l es.
Proof. intros G l j H. unfold encElts in H. apply bind_Ok' in H. destruct H as (es & He & H). injection H as <-. exists es. split; [reflexivity|apply mapM_ok, He]. Qed.
Lemma encOptElts_ok : forall G l j, encOptElts G l = Ok j -> exists es, j = JArr es /\ Forall2 (fun o e => match o with Some X => gToJson G X = Ok e | None => e = JNull end) l es.
Proof.
  intros G l j H. unfold encOptElts in H. apply bind_Ok' in H. destruct H as (es & He & H). injection H as <-. exists es. split; [reflexivity|].
  apply mapM_ok in He. induction He as [|o e l es Ho _ IH]; constructor; [|exact IH]. destruct o; cbn [encOpt] in Ho; [exact Ho|injection Ho as <-; reflexivity].
Qed.
Ltac unb H := repeat (apply bind_Ok' in H; let X := fresh "X" in let HX := fresh "HX" in destruct H as (X & HX & H)); injection H as <-.
Ltac here Hr := first [
    exact I | eexists; split; [exact Hr|reflexivity]
  | eexists; split; [eassumption|rewrite (at_app _ _ _ _ Hr); reflexivity]
  | unfold IntAt, BigAt; rewrite (at_app _ _ _ _ Hr); reflexivity
  | split; [eexists; split; [rewrite (at_app _ _ _ _ Hr); reflexivity|reflexivity]|rewrite <- app_assoc, (at_app _ _ _ _ Hr); reflexivity]
  | match goal with H : encElts _ _ = Ok _ |- EltsAt _ _ _ _ => let es := fresh "es" in let He := fresh in destruct (encElts_ok _ _ _ H) as (es & -> & He); exists es; split; [rewrite (at_app _ _ _ _ Hr); reflexivity|exact He] end
  | match goal with H : encOptElts _ _ = Ok _ |- OptEltsAt _ _ _ _ => let es := fresh "es" in let He := fresh in destruct (encOptElts_ok _ _ _ H) as (es & -> & He); exists es; split; [rewrite (at_app _ _ _ _ Hr); reflexivity|exact He] end ].
Ltac splits := repeat match goal with |- _ /\ _ => split end.
Lemma writesIPParams : forall G j r p v, encIPParams G p = Ok v -> at_path j r = Some v -> WritesIPParams G j r p.
Proof. intros G j r p v H Hr. unfold encIPParams in H. unb H. unfold WritesIPParams. splits; here Hr. Qed.
Lemma writesIPProof : forall G j r p v, encIPProof G p = Ok v -> at_path j r = Some v -> WritesIPProof G j r p.
Proof.
  intros G j r p v H Hr. unfold encIPProof in H. unb H. unfold WritesIPProof. splits; try here Hr.
  eapply writesIPParams; [eassumption|]. rewrite (at_app _ _ _ _ Hr). reflexivity.
Qed.
Lemma writesBPParams : forall G j r p v, encBPParams G p = Ok v -> at_path j r = Some v -> WritesBPParams G j r p.
Proof.
  intros G j r p v H Hr. unfold encBPParams in H. unb H. unfold WritesBPParams. splits; try here Hr.
Qed.
Lemma writesBulletProof : forall G j r p v, encBulletProof G p = Ok v -> at_path j r = Some v -> WritesBulletProof G j r p.
Proof.
  intros G j r p v H Hr. unfold encBulletProof in H. unb H. unfold WritesBulletProof. splits; try here Hr.
  - eapply writesIPProof; [eassumption|]. rewrite (at_app _ _ _ _ Hr). reflexivity.
  - eapply writesBPParams; [eassumption|]. rewrite (at_app _ _ _ _ Hr). reflexivity.
Qed.
Lemma writesGroupParams : forall G j r p v, encGroupParams G p = Ok v -> at_path j r = Some v -> WritesGroupParams G j r p.
Proof. intros G j r p v H Hr. unfold encGroupParams in H. unb H. unfold WritesGroupParams. splits; here Hr. Qed.
Lemma writesSigmaProof : forall GF GE j r p v, encSigmaProof GF GE p = Ok v -> at_path j r = Some v -> WritesSigmaProof GF GE j r p.
Proof.
  intros GF GE j r p v H Hr. unfold encSigmaProof in H. unb H. unfold WritesSigmaProof. cbv zeta.
  match goal with H : encProofParams _ _ _ = Ok ?x |- _ => rename H into HP; assert (Hq : at_path j (r ++ ["Params"])%list = Some x) by (rewrite (at_app _ _ _ _ Hr); reflexivity) end.
  unfold encProofParams in HP. unb HP. splits; try here Hr; try here Hq.
  - eapply writesGroupParams; [eassumption|]. rewrite (at_app _ _ _ _ Hq). reflexivity.
  - eapply writesGroupParams; [eassumption|]. rewrite (at_app _ _ _ _ Hq). reflexivity.
Qed.

(** ** C67 *)
(** the document written for a ballot holds every field of the ballot, at these paths, and nothing else *)
Theorem C67_written_ballot : forall GF GE b j, encBallotData GF GE b = Ok j -> WritesBallot GF GE j b.
Proof.
  intros GF GE b j H. unfold encBallotData in H. unb H. unfold WritesBallot.
  match goal with H : encCiphertext _ _ = Ok _ |- _ => rename H into HC end. unfold encCiphertext in HC. unb HC.
  splits; try (eexists; split; [reflexivity|reflexivity]); try (eexists; split; [eassumption|reflexivity]).
  - eapply writesBulletProof; [eassumption|reflexivity].
  - eapply writesBulletProof; [eassumption|reflexivity].
  - eapply writesSigmaProof; [eassumption|reflexivity].
Qed.
(** it is written exactly when every element of the ballot can be *)
Definition Writable (G : Grp) (X : E G) : Prop := exists e, gToJson G X = Ok e.
Definition given {A} (l : list (option A)) : list A := concat (map (fun o => match o with Some x => [x] | None => [] end) l).
Definition bpElements {G : Grp} (p : BulletProof G) : list (E G) :=
  [pV p; pA p; pS p; pT1 p; pT2 p; ipP (pIPP p); ipUu (ipParams (pIPP p)); bpG (pParams p); bpH (pParams p)] ++
  ipL (pIPP p) ++ given (ipR (pIPP p)) ++ ipGg (ipParams (pIPP p)) ++ given (ipHh (ipParams (pIPP p))) ++ bpGg (pParams p) ++ bpHh (pParams p).
Definition elementsF {GF GE : Grp} (b : BallotData GF GE) : list (E GF) :=
  [ctU (bdBallot b); ctV (bdBallot b); sW (bdVote b); sKp (bdVote b); gpG (vGFF (sParams (bdVote b))); gpH (vGFF (sParams (bdVote b)))].
Definition elementsE {GF GE : Grp} (b : BallotData GF GE) : list (E GE) :=
  [sKq1 (bdVote b); sKq2 (bdVote b); gpG (vGEC (sParams (bdVote b))); gpH (vGEC (sParams (bdVote b)))] ++ bpElements (bdLower b) ++ bpElements (bdUpper b).

Lemma ok_bind : forall A B (e : res A) (f : A -> res B), (exists y, bind e f = Ok y) <-> exists x, e = Ok x /\ exists y, f x = Ok y.
Proof. exact bind_ok. Qed.
Lemma ok_bind_const : forall A B (e : res A) (f : A -> res B) (Q : Prop), (forall x, (exists y, f x = Ok y) <-> Q) -> (exists y, bind e f = Ok y) <-> (exists x, e = Ok x) /\ Q.
Proof.
  intros A B e f Q H. rewrite ok_bind. split.
  - intros (x & Hx & Hy). split; [eauto|apply (H x), Hy].
  - intros [[x Hx] HQ]. exists x. split; [exact Hx|apply H, HQ].
Qed.
Lemma ok_ret : forall A (x : A), (exists y, Ok x = Ok y) <-> True.
Proof. split; eauto. Qed.
Lemma mapM_writable : forall A B (f : A -> res B) l, (exists y, mapM f l = Ok y) <-> Forall (fun x => exists y, f x = Ok y) l.
Proof.
  intros A B f. induction l as [|x l IH]; cbn [mapM]; [split; [constructor|eauto]|].
  rewrite (ok_bind_const _ _ _ _ (Forall (fun x => exists y, f x = Ok y) l)).
  - split; [intros [H1 H2]; constructor; assumption|intros H; inversion H; auto].
  - intros y. rewrite (ok_bind_const _ _ _ _ True) by (intros; apply ok_ret). rewrite IH. tauto.
Qed.
Lemma encElts_writable : forall G l, (exists y, encElts G l = Ok y) <-> Forall (Writable G) l.
Proof. intros G l. unfold encElts. rewrite (ok_bind_const _ _ _ _ True) by (intros; apply ok_ret). rewrite mapM_writable. unfold Writable. tauto. Qed.
Lemma encOptElts_writable : forall G l, (exists y, encOptElts G l = Ok y) <-> Forall (Writable G) (given l).
Proof.
  intros G l. unfold encOptElts. rewrite (ok_bind_const _ _ _ _ True) by (intros; apply ok_ret). rewrite mapM_writable.
  induction l as [|o l IH]; [cbn; split; [intros _; constructor|intros _; split; [constructor|exact I]]|].
  unfold given in *. cbn [map concat]. rewrite Forall_app, <- IH. destruct o as [X|].
  - split; [intros [H _]; inversion H; subst; split; [constructor; [assumption|constructor]|split; [assumption|exact I]]|].
    intros [H1 [H2 _]]. split; [|exact I]. constructor; [|exact H2]. inversion H1; assumption.
  - split; [intros [H _]; inversion H; subst; split; [constructor|split; [assumption|exact I]]|].
    intros [_ [H2 _]]. split; [|exact I]. constructor; [cbn; eauto|exact H2].
Qed.
Ltac okb := repeat first [ rewrite (ok_bind_const _ _ _ _ True) by (intros; apply ok_ret) | erewrite ok_bind_const; [|intros; okb; reflexivity] ].
Lemma encIPParams_writable : forall G p, (exists y, encIPParams G p = Ok y) <-> Forall (Writable G) (ipGg p ++ given (ipHh p) ++ [ipUu p]).
Proof.
  intros G p. unfold encIPParams. okb. rewrite encElts_writable, encOptElts_writable, !Forall_app, Forall_cons_iff. unfold Writable.
  pose proof (Forall_nil (Writable G)). intuition auto.
Qed.
Lemma encIPProof_writable : forall G p, (exists y, encIPProof G p = Ok y) <->
  Forall (Writable G) (ipP p :: ipL p ++ given (ipR p) ++ ipGg (ipParams p) ++ given (ipHh (ipParams p)) ++ [ipUu (ipParams p)]).
Proof.
  intros G p. unfold encIPProof. okb. rewrite encElts_writable, encOptElts_writable, encIPParams_writable, !Forall_cons_iff, !Forall_app, Forall_cons_iff. unfold Writable. tauto.
Qed.
Lemma encBPParams_writable : forall G p, (exists y, encBPParams G p = Ok y) <-> Forall (Writable G) (bpG p :: bpH p :: bpGg p ++ bpHh p).
Proof. intros G p. unfold encBPParams. okb. rewrite !encElts_writable, !Forall_cons_iff, !Forall_app. unfold Writable. tauto. Qed.
Lemma encBulletProof_writable : forall G p, (exists y, encBulletProof G p = Ok y) <-> Forall (Writable G) (bpElements p).
Proof.
  intros G p. unfold encBulletProof, bpElements. okb. rewrite encIPProof_writable, encBPParams_writable. cbn [app].
  rewrite !Forall_cons_iff, !Forall_app, !Forall_cons_iff. unfold Writable. pose proof (Forall_nil (fun X => exists e, gToJson G X = Ok e)). tauto.
Qed.
Lemma encGroupParams_writable : forall G p, (exists y, encGroupParams G p = Ok y) <-> Forall (Writable G) [gpG p; gpH p].
Proof. intros G p. unfold encGroupParams. okb. rewrite !Forall_cons_iff. pose proof (Forall_nil (Writable G)). unfold Writable in *. tauto. Qed.
Theorem C67_writable : forall GF GE (b : BallotData GF GE),
  (exists j, encBallotData GF GE b = Ok j) <-> Forall (Writable GF) (elementsF b) /\ Forall (Writable GE) (elementsE b).
Proof.
  intros GF GE b. unfold encBallotData, encCiphertext, encSigmaProof, encProofParams, elementsF, elementsE. okb.
  rewrite !encBulletProof_writable, !encGroupParams_writable. cbn [app]. rewrite !Forall_cons_iff, !Forall_app. unfold Writable.
  pose proof (Forall_nil (fun X => exists e, gToJson GF X = Ok e)). pose proof (Forall_nil (fun X => exists e, gToJson GE X = Ok e)). tauto.
Qed.
(** so over groups whose elements survive JSON every ballot is written, and over the mod-p group too *)
Theorem C67_always_written : forall GF GE (b : BallotData GF GE), JsonRoundtrip GF -> JsonRoundtrip GE -> exists j, encBallotData GF GE b = Ok j.
Proof.
  intros GF GE b HF HE. apply C67_writable. split; (apply Forall_forall; intros X _); [destruct (HF X) as (e & He & _)|destruct (HE X) as (e & He & _)]; exists e; exact He.
Qed.
Theorem C67_modp_writable : forall d (b : BallotData (ModPGrp d) (ModPGrp d)), exists j, encBallotData _ _ b = Ok j.
Proof.
  intros d b. apply C67_writable. split; (apply Forall_forall; intros X _; exists (JInt X); reflexivity).
Qed.
Example C67_case : forall d (pp : PublicParameters (ModPGrp d) (ModPGrp d)), let b := blankBallot pp in
  exists j, encBallotData _ _ b = Ok j /\ at_path j ["ballot"; "u"] = Some (JInt 0) /\ at_path j ["voteProof"; "Params"; "GFF"; "I"; "group"] = Some (JStr (mpName d)) /\
    at_path j ["lbProof"; "Params"; "N"] = Some (JInt (bpN (ppBP pp))) /\ at_path j ["ubProof"; "Taux"] = Some JNull.
Proof.
  intros d pp b. destruct (C67_modp_writable d b) as [j Hj]. exists j. split; [exact Hj|].
  pose proof (C67_written_ballot _ _ _ _ Hj) as (_ & _ & (e & He & H) & _ & HL & HU & HV). split; [rewrite H; injection He as <-; reflexivity|].
  unfold WritesSigmaProof, WritesGroupParams in HV. cbv zeta in HV. decompose [and] HV. split; [|split].
  - match goal with H : GroupAt _ _ (_ ++ ["I"]) |- _ => destruct H as [_ H]; exact H end.
  - unfold WritesBulletProof, WritesBPParams in HL. decompose [and] HL. assumption.
  - unfold WritesBulletProof in HU. decompose [and] HU. assumption.
Qed.
