(** C31-C34, C39: encodings of the curve groups (group/p256.go, p384.go, ristretto255.go, p256k1.go) and what is hashed. *)
From Verif Require Import GoBase Json GroupIface Vector BIP ECJson P256k1 NumTh BytesProofs ModPProofs PropModP.

(** ** P-256 and P-384 *)
(** coordinates fit [cvL] bytes and (0,0), which encodes the identity, is not on the curve *)
Record GoodCurve (cv : Curve) : Prop := {
  gc_L : (0 < cvL cv)%nat;
  gc_p : 0 < cvP cv <= 256 ^ Z.of_nat (cvL cv);
  gc_b : cvB cv mod cvP cv <> 0
}.
(** the elements of the group: the identity (0,0) and the points of the curve *)
Definition IsPoint (cv : Curve) (P : Z * Z) : Prop := P = (0, 0) \/ onCurve cv (fst P) (snd P) = true.

Lemma onCurve_bounds : forall cv x y, onCurve cv x y = true -> 0 <= x < cvP cv /\ 0 <= y < cvP cv.
Proof. intros cv x y H. unfold onCurve in H. rewrite !andb_true_iff, !Z.leb_le, !Z.ltb_lt in H. lia. Qed.
Lemma onCurve_not0 : forall cv x y, GoodCurve cv -> onCurve cv x y = true -> ecIsIdentity (x, y) = false.
Proof.
  intros cv x y GC H. destruct (ecIsIdentity (x, y)) eqn:E; [|reflexivity]. unfold ecIsIdentity in E. cbn [fst snd] in E.
  apply andb_prop in E. rewrite !Z.eqb_eq in E. destruct E as [-> ->]. unfold onCurve in H. rewrite !andb_true_iff in H.
  destruct H as [_ H]. apply Z.eqb_eq in H. exfalso. apply (gc_b cv GC). replace (0 * 0 - (0 * 0 * 0 + cvA cv * 0 + cvB cv)) with (- cvB cv) in H by ring.
  pose proof (gc_p cv GC). apply Z.mod_divide in H; [|lia]. apply Z.mod_divide; [lia|]. apply Z.divide_opp_r. exact H.
Qed.

Lemma unmarshal_uncompressed : forall cv x y, GoodCurve cv -> onCurve cv x y = true ->
  ecUnmarshalBinary cv (4 :: i2osp (cvL cv) x ++ i2osp (cvL cv) y) = Some (x, y).
Proof.
  intros cv x y GC H. pose proof (onCurve_bounds cv x y H). pose proof (gc_p cv GC).
  unfold ecUnmarshalBinary. cbn [Z.eqb Pos.eqb andb orb].
  replace (Nat.eqb _ _) with true.
  2:{ symmetry. apply Nat.eqb_eq. rewrite app_length, !i2osp_length. lia. }
  rewrite firstn_app, skipn_app, i2osp_length, Nat.sub_diag, firstn_O, app_nil_r.
  rewrite firstn_all2 by (rewrite i2osp_length; lia). rewrite skipn_all2 by (rewrite i2osp_length; lia). cbn [app skipn].
  rewrite !os2ip_i2osp_small by lia. rewrite H. reflexivity.
Qed.
Theorem C31_binary_roundtrip : forall cv P, GoodCurve cv -> IsPoint cv P -> ecUnmarshalBinary cv (ecMarshalBinary cv P) = Some P.
Proof.
  intros cv [x y] GC [H|H]; [injection H as -> ->; reflexivity|]. cbn [fst snd] in H. unfold ecMarshalBinary.
  rewrite (onCurve_not0 cv x y GC H). apply unmarshal_uncompressed; assumption.
Qed.

Lemma overwrite_coord : forall (pre : bytes) L rest x, 0 <= x < 256 ^ Z.of_nat L ->
  overwrite (pre ++ repeat 0%Z L ++ rest) (length pre + L - length (bigBytes x)) (bigBytes x) = pre ++ i2osp L x ++ rest.
Proof.
  intros pre L rest x Hx. assert (Hl : (byteLen x <= L)%nat) by (apply byteLen_spec; lia).
  rewrite bigBytes_length. unfold overwrite. rewrite <- (pad_bigBytes L x Hx), bigBytes_length.
  replace (length pre + L - byteLen x + byteLen x)%nat with (length pre + L)%nat by lia.
  replace (repeat 0%Z L) with (repeat 0%Z (L - byteLen x) ++ repeat 0%Z (byteLen x)) by (rewrite <- repeat_app; f_equal; lia).
  rewrite !app_assoc. rewrite firstn_app. rewrite firstn_app.
  rewrite (firstn_all2 (n:=length pre + L - byteLen x) (pre ++ repeat 0%Z (L - byteLen x))).
  2:{ rewrite app_length, repeat_length. lia. }
  replace (length pre + L - byteLen x - length (pre ++ repeat 0%Z (L - byteLen x)))%nat with O by (rewrite app_length, repeat_length; lia).
  rewrite !app_length, !repeat_length.
  replace (length pre + L - byteLen x - (length pre + (L - byteLen x) + byteLen x))%nat with O by lia.
  rewrite !firstn_O, !app_nil_r. rewrite <- !app_assoc. do 3 f_equal.
  rewrite !skipn_app, !repeat_length. rewrite (skipn_all2 pre) by lia.
  rewrite (skipn_all2 (repeat 0%Z (L - byteLen x))) by (rewrite repeat_length; lia).
  rewrite (skipn_all2 (repeat 0%Z (byteLen x))) by (rewrite repeat_length; lia). cbn [app].
  replace (length pre + L - length pre - (L - byteLen x) - byteLen x)%nat with O by lia. reflexivity.
Qed.

(** decoding an object with exactly the two integer coordinates *)
Lemma decECPoint_int : forall x y, decECPoint (Some (encECPoint x y)) = Some (Some x, Some y).
Proof. reflexivity. Qed.
Lemma pointBytes_small : forall L x y, 0 <= x < 256 ^ Z.of_nat L -> 0 <= y < 256 ^ Z.of_nat L -> (x =? 0) && (y =? 0) = false ->
  pointJSONBytes L (Some (encECPoint x y)) = Ok (Some (4 :: i2osp L x ++ i2osp L y)).
Proof.
  intros L x y Hx Hy H0. unfold pointJSONBytes. rewrite decECPoint_int. cbn [deref bind]. rewrite H0.
  assert (Hlx : (byteLen x <= L)%nat) by (apply byteLen_spec; lia). assert (Hly : (byteLen y <= L)%nat) by (apply byteLen_spec; lia).
  replace (Nat.ltb (1 + L) (length (bigBytes x))) with false by (symmetry; apply Nat.ltb_ge; rewrite bigBytes_length; lia).
  replace (Nat.ltb (1 + 2 * L) (length (bigBytes y))) with false by (symmetry; apply Nat.ltb_ge; rewrite bigBytes_length; lia).
  do 2 f_equal. replace (4 :: repeat 0%Z (2 * L)) with ([4] ++ repeat 0%Z L ++ repeat 0%Z L) by (rewrite <- repeat_app; replace (L + L)%nat with (2 * L)%nat by lia; reflexivity).
  pose proof (overwrite_coord [4] L (repeat 0%Z L) x Hx) as Hf. cbn [length] in Hf. rewrite Hf.
  pose proof (overwrite_coord ([4] ++ i2osp L x) L [] y Hy) as Ho. rewrite !app_nil_r, <- !app_assoc in Ho.
  rewrite app_length, i2osp_length in Ho. cbn [length] in Ho. replace (1 + L + L)%nat with (1 + 2 * L)%nat in Ho by lia. exact Ho.
Qed.

Theorem C31_json_roundtrip : forall cv P old, GoodCurve cv -> IsPoint cv P ->
  exists j, ecMarshalJSON cv P = Ok j /\ ecUnmarshalJSON cv old (Some j) = Ok (P, true).
Proof.
  intros cv [x y] old GC HP. pose proof (gc_p cv GC). pose proof (gc_L cv GC). destruct HP as [HP|HP].
  - injection HP as -> ->. exists (encECPoint 0 0). split; reflexivity.
  - cbn [fst snd] in HP. pose proof (onCurve_bounds cv x y HP). pose proof (onCurve_not0 cv x y GC HP) as Hn.
    exists (encECPoint x y). split.
    + unfold ecMarshalJSON, ecMarshalBinary. rewrite Hn. cbn [fst snd]. unfold pointMarshalJSON. cbn [idx nth_error deref bind Z.eqb Pos.eqb].
      unfold slice_to, slice_from. cbn [length]. rewrite app_length, !i2osp_length.
      replace (Nat.leb (cvL cv + 1) _) with true by (symmetry; apply Nat.leb_le; lia).
      replace (Nat.leb (1 + cvL cv) _) with true by (symmetry; apply Nat.leb_le; lia). cbn [bind].
      rewrite Nat.add_1_r. cbn [firstn skipn Nat.add].
      rewrite firstn_app, skipn_app, i2osp_length, Nat.sub_diag, firstn_O, app_nil_r.
      rewrite firstn_all2 by (rewrite i2osp_length; lia). rewrite skipn_all2 by (rewrite i2osp_length; lia). cbn [app skipn].
      rewrite !i2osp_length, !Nat.eqb_refl. cbn [negb orb]. rewrite !os2ip_i2osp_small by lia. reflexivity.
    + unfold ecUnmarshalJSON, pointUnmarshalJSON. rewrite pointBytes_small by (assumption || lia). cbn [bind].
      rewrite unmarshal_uncompressed by assumption. reflexivity.
Qed.
(** everything the decoders accept without error is a point of the group; a failed decoding leaves the receiver as it was *)
Lemma pointBytes_len : forall L j b, pointJSONBytes L j = Ok (Some b) -> b = [0] \/ length b = (1 + 2 * L)%nat.
Proof.
  intros L j b H. unfold pointJSONBytes in H. destruct (decECPoint j) as [[ox oy]|]; [|discriminate].
  destruct ox as [x|]; [|discriminate]. destruct oy as [y|]; [|discriminate]. cbn [deref bind] in H.
  destruct (_ && _); [injection H as <-; left; reflexivity|]. right.
  destruct (Nat.ltb (1 + L) _) eqn:E1; [discriminate|]. destruct (Nat.ltb (1 + 2 * L) _) eqn:E2; [discriminate|].
  apply Nat.ltb_ge in E1. apply Nat.ltb_ge in E2.
  apply (f_equal (fun r => match r with Ok (Some v) => v | _ => b end)) in H. cbv beta iota in H. rewrite <- H. clear H.
  assert (Hlen : forall buf lo src, (lo + length src <= length buf)%nat -> length (overwrite buf lo src) = length buf).
  { intros. unfold overwrite. rewrite !app_length, firstn_length, skipn_length. lia. }
  assert (H4 : length (4 :: repeat 0%Z (2 * L)) = (1 + 2 * L)%nat) by (cbn [length]; rewrite repeat_length; reflexivity).
  rewrite Hlen; [rewrite Hlen|rewrite Hlen]; rewrite ?H4; lia.
Qed.
Theorem C31_decoded_is_point : forall cv old j P ok, (0 < cvL cv)%nat -> ecUnmarshalJSON cv old j = Ok (P, ok) ->
  (ok = true -> IsPoint cv P) /\ (ok = false -> P = old).
Proof.
  intros cv old j P ok HL H. unfold ecUnmarshalJSON, pointUnmarshalJSON in H.
  destruct (pointJSONBytes (cvL cv) j) as [ob| | | ] eqn:E; try discriminate. cbn [bind] in H.
  destruct ob as [b|]; [|injection H as <- <-; split; [discriminate|reflexivity]].
  destruct (ecUnmarshalBinary cv b) as [Q|] eqn:EU; injection H as <- <-; [|split; [discriminate|reflexivity]].
  split; [intros _|discriminate]. destruct (pointBytes_len _ _ _ E) as [->|Hl].
  - injection EU as <-. left. reflexivity.
  - unfold ecUnmarshalBinary in EU. destruct b as [|t r]; [discriminate|]. cbn [length] in Hl.
    replace (Nat.eqb (length r) 0) with false in EU by (symmetry; apply Nat.eqb_neq; lia). rewrite andb_false_r in EU.
    replace (Nat.eqb (length r) (cvL cv)) with false in EU by (symmetry; apply Nat.eqb_neq; lia). rewrite andb_false_r in EU.
    destruct (_ && _); [|discriminate]. destruct (onCurve cv _ _) eqn:EC; [|discriminate]. injection EU as <-. right. exact EC.
Qed.
Theorem C31_shipped_curves : forall decomp, GoodCurve (P256 decomp) /\ GoodCurve (P384 decomp).
Proof.
  intros decomp. split; refine (Build_GoodCurve _ _ _ _).
  - apply Nat.lt_0_succ.
  - split; [reflexivity|]. vm_compute. discriminate.
  - vm_compute. discriminate.
  - apply Nat.lt_0_succ.
  - split; [reflexivity|]. vm_compute. discriminate.
  - vm_compute. discriminate.
Qed.

(** ** C32 *)
(** in the range of honest encoders decoding is exact, hence injective *)
Theorem C32_injective_in_range : forall cv old x y P,
  0 <= x < 256 ^ Z.of_nat (cvL cv) -> 0 <= y < 256 ^ Z.of_nat (cvL cv) ->
  ecUnmarshalJSON cv old (Some (encECPoint x y)) = Ok (P, true) -> P = (x, y).
Proof.
  intros cv old x y P Hx Hy H. unfold ecUnmarshalJSON, pointUnmarshalJSON in H.
  destruct ((x =? 0) && (y =? 0)) eqn:E0.
  - apply andb_prop in E0. rewrite !Z.eqb_eq in E0. destruct E0 as [-> ->]. change (Ok ((0, 0), true) = Ok (P, true)) in H. congruence.
  - rewrite pointBytes_small in H by assumption. cbn [bind] in H.
    unfold ecUnmarshalBinary in H. cbn [Z.eqb Pos.eqb andb orb] in H.
    destruct (Nat.eqb _ _); [|discriminate].
    rewrite firstn_app, skipn_app, i2osp_length, Nat.sub_diag, firstn_O, app_nil_r in H.
    rewrite firstn_all2 in H by (rewrite i2osp_length; lia). rewrite skipn_all2 in H by (rewrite i2osp_length; lia). cbn [app skipn] in H.
    rewrite !os2ip_i2osp_small in H by assumption. destruct (onCurve cv x y); [|discriminate]. congruence.
Qed.
(** ... but outside it several objects decode to the same point *)
Theorem C32_refuted_sign : forall cv old x y, ecUnmarshalJSON cv old (Some (encECPoint (- x) (- y))) = ecUnmarshalJSON cv old (Some (encECPoint x y)) /\
  ecUnmarshalJSON cv old (Some (encECPoint x (- y))) = ecUnmarshalJSON cv old (Some (encECPoint x y)).
Proof.
  intros cv old x y. assert (H0 : forall z, (- z =? 0) = (z =? 0)).
  { intros z. destruct (z =? 0) eqn:E; [apply Z.eqb_eq in E; apply Z.eqb_eq; lia|apply Z.eqb_neq in E; apply Z.eqb_neq; lia]. }
  split; unfold ecUnmarshalJSON, pointUnmarshalJSON, pointJSONBytes; rewrite !decECPoint_int; cbn [deref bind];
    rewrite ?H0, ?bigBytes_opp; reflexivity.
Qed.
Theorem C32_refuted_oversized : forall cv old x y x', GoodCurve cv -> onCurve cv x y = true -> 0 <= x' < 256 ^ Z.of_nat (1 + cvL cv) ->
  let k := 256 ^ Z.of_nat (cvL cv) in
  (* a 33-byte X whose top byte replaces the tag byte *)
  ecUnmarshalJSON cv old (Some (encECPoint (4 * k + x) y)) = Ok ((x, y), true) /\
  (* a long Y that replaces the tag and X as well, whatever X was *)
  ecUnmarshalJSON cv old (Some (encECPoint x' ((4 * k + x) * k + y))) = Ok ((x, y), true).
Proof.
  intros cv old x y x' GC HC Hx' k. pose proof (gc_p cv GC). pose proof (gc_L cv GC). pose proof (onCurve_bounds cv x y HC) as [Hx Hy].
  set (L := cvL cv) in *. assert (Hk : 0 < k) by (unfold k; apply Z.pow_pos_nonneg; lia).
  assert (Hxk : 0 <= x < k) by (unfold k; lia). assert (Hyk : 0 <= y < k) by (unfold k; lia).
  assert (Hly : (byteLen y <= L)%nat) by (apply byteLen_spec; fold k; lia).
  assert (Hlx : (byteLen x <= L)%nat) by (apply byteLen_spec; fold k; lia).
  assert (Hlx' : (byteLen x' <= 1 + L)%nat) by (apply byteLen_spec; lia).
  assert (HB : bigBytes (4 * k + x) = 4 :: i2osp L x) by (unfold k; rewrite bigBytes_mul by (lia || exact Hxk); reflexivity).
  assert (Hfin : forall b, b = 4 :: i2osp L x ++ i2osp L y -> match ecUnmarshalBinary cv b with Some p => Ok (p, true) | None => Ok (old, false) end = Ok ((x, y), true)).
  { intros b ->. unfold L. rewrite unmarshal_uncompressed by assumption. reflexivity. }
  assert (Hsnd : forall pre, length pre = (1 + L)%nat -> overwrite (pre ++ repeat 0%Z L) (1 + 2 * L - length (bigBytes y)) (bigBytes y) = pre ++ i2osp L y).
  { intros pre Hp. pose proof (overwrite_coord pre L [] y Hyk) as Ho. rewrite !app_nil_r, Hp in Ho.
    replace (1 + L + L)%nat with (1 + 2 * L)%nat in Ho by lia. exact Ho. }
  assert (Hfull : forall (buf src : bytes), length buf = length src -> overwrite buf 0 src = src).
  { intros buf src Hl. unfold overwrite. cbn [firstn app Nat.add]. rewrite <- Hl, skipn_all. apply app_nil_r. }
  split; unfold ecUnmarshalJSON, pointUnmarshalJSON, pointJSONBytes; rewrite decECPoint_int; cbn [deref bind]; fold L.
  - replace (4 * k + x =? 0) with false by (symmetry; apply Z.eqb_neq; lia). cbn [andb].
    rewrite HB. cbn [length]. rewrite i2osp_length, bigBytes_length.
    replace (Nat.ltb (1 + L) (Datatypes.S L)) with false by (symmetry; apply Nat.ltb_ge; lia).
    replace (Nat.ltb (1 + 2 * L) (byteLen y)) with false by (symmetry; apply Nat.ltb_ge; lia). cbn [bind]. apply Hfin.
    replace (1 + L - Datatypes.S L)%nat with O by lia.
    assert (Ho1 : overwrite (4 :: repeat 0%Z (2 * L)) 0 (4 :: i2osp L x) = (4 :: i2osp L x) ++ repeat 0%Z L).
    { unfold overwrite. cbn [firstn app Nat.add length]. rewrite i2osp_length. cbn [skipn]. do 2 f_equal.
      replace (2 * L)%nat with (L + L)%nat by lia. rewrite repeat_app, skipn_app, repeat_length, Nat.sub_diag.
      rewrite skipn_all2 by (rewrite repeat_length; lia). reflexivity. }
    rewrite Ho1, <- (bigBytes_length y). rewrite Hsnd; [reflexivity|]. cbn [length]. rewrite i2osp_length. lia.
  - assert (Hb0 : (4 * k + x) * k + y <> 0) by nia. replace ((4 * k + x) * k + y =? 0) with false by (symmetry; apply Z.eqb_neq; exact Hb0).
    rewrite andb_false_r. rewrite (bigBytes_length x'). replace (Nat.ltb (1 + L) (byteLen x')) with false by (symmetry; apply Nat.ltb_ge; lia).
    assert (HY : bigBytes ((4 * k + x) * k + y) = 4 :: i2osp L x ++ i2osp L y).
    { unfold k at 2. fold L. rewrite bigBytes_mul by (lia || exact Hyk). rewrite HB. reflexivity. }
    rewrite HY. cbn [length]. rewrite app_length, !i2osp_length.
    replace (Nat.ltb (1 + 2 * L) (Datatypes.S (L + L))) with false by (symmetry; apply Nat.ltb_ge; lia). cbn [bind]. apply Hfin.
    replace (1 + 2 * L - Datatypes.S (L + L))%nat with O by lia. apply Hfull.
    unfold overwrite. rewrite !app_length, firstn_length, skipn_length, bigBytes_length. cbn [length]. rewrite !app_length, repeat_length, !i2osp_length. lia.
Qed.
(** a longer coordinate, or a missing one, is a panic rather than an error *)
Theorem C32_panics : forall cv old x y, 256 ^ Z.of_nat (1 + cvL cv) <= Z.abs x \/ 256 ^ Z.of_nat (1 + 2 * cvL cv) <= Z.abs y ->
  ecUnmarshalJSON cv old (Some (encECPoint x y)) = Panic /\
  ecUnmarshalJSON cv old (Some (JObj [("x"%string, JInt x)])) = Panic /\ ecUnmarshalJSON cv old (Some (JObj [])) = Panic /\
  ecUnmarshalJSON cv old (Some JNull) = Panic.
Proof.
  intros cv old x y H. split; [|repeat split; reflexivity].
  unfold ecUnmarshalJSON, pointUnmarshalJSON, pointJSONBytes. rewrite decECPoint_int. cbn [deref bind].
  assert (Hp : forall n, 0 < 256 ^ Z.of_nat n) by (intros; apply Z.pow_pos_nonneg; lia).
  pose proof (Hp (1 + cvL cv)%nat). pose proof (Hp (1 + 2 * cvL cv)%nat).
  replace ((x =? 0) && (y =? 0)) with false.
  2:{ symmetry. apply andb_false_iff. rewrite !Z.eqb_neq. lia. }
  rewrite !bigBytes_length. destruct (Nat.ltb (1 + cvL cv) (byteLen x)) eqn:E1; [reflexivity|].
  destruct H as [H|H].
  - exfalso. apply Nat.ltb_ge in E1. apply byteLen_spec in E1. lia.
  - destruct (Nat.ltb (1 + 2 * cvL cv) (byteLen y)) eqn:E2; [reflexivity|].
    exfalso. apply Nat.ltb_ge in E2. apply byteLen_spec in E2. lia.
Qed.

(** ** C33: ristretto255 reuses the P-256 code on 32-byte encodings *)
Theorem C33_encode : forall c P, R255Contract c ->
  (hd 0 (rMarshalBinary c P) = 0 -> r255MarshalJSON c P = Ok (encECPoint 0 0)) /\
  (hd 0 (rMarshalBinary c P) <> 0 -> r255MarshalJSON c P = Panic).
Proof.
  intros c P [Hl _]. specialize (Hl P). unfold r255MarshalJSON, pointMarshalJSON.
  destruct (rMarshalBinary c P) as [|t b]; [discriminate|]. cbn [hd idx nth_error deref bind]. split; intros H0.
  - rewrite (proj2 (Z.eqb_eq t 0) H0). reflexivity.
  - rewrite (proj2 (Z.eqb_neq t 0) H0). unfold slice_to. rewrite Hl. reflexivity.
Qed.
Theorem C33_decode_fails : forall c old j, R255Contract c ->
  r255UnmarshalJSON c old j = Ok (old, false) \/ r255UnmarshalJSON c old j = Panic.
Proof.
  intros c old j [_ Hu]. unfold r255UnmarshalJSON, pointUnmarshalJSON.
  destruct (pointJSONBytes 32 j) as [ob| | | ] eqn:E; cbn [bind].
  - destruct ob as [b|]; [|left; reflexivity]. rewrite Hu; [left; reflexivity|].
    destruct (pointBytes_len _ _ _ E) as [Hb|Hb]; [subst b|rewrite Hb]; discriminate.
  - exfalso. unfold pointJSONBytes in E. destruct (decECPoint j) as [ [ [x| ] [y| ] ] | ]; try discriminate. cbn [deref bind] in E.
    destruct (_ && _); [discriminate|]. destruct (Nat.ltb _ _); [discriminate|]. destruct (Nat.ltb _ _); discriminate.
  - right; reflexivity.
  - exfalso. unfold pointJSONBytes in E. destruct (decECPoint j) as [ [ [x| ] [y| ] ] | ]; try discriminate. cbn [deref bind] in E.
    destruct (_ && _); [discriminate|]. destruct (Nat.ltb _ _); [discriminate|]. destruct (Nat.ltb _ _); discriminate.
Qed.
(** what an honest encoder sends, when it sends anything, is refused by every receiver *)
Theorem C33_refuted : forall c P old j, R255Contract c -> r255MarshalJSON c P = Ok j -> r255UnmarshalJSON c old (Some j) = Ok (old, false).
Proof.
  intros c P old j HC H. destruct (C33_encode c P HC) as [H0 H1].
  destruct (Z.eq_dec (hd 0 (rMarshalBinary c P)) 0) as [e|e]; [|rewrite (H1 e) in H; discriminate].
  rewrite (H0 e) in H. injection H as <-. unfold r255UnmarshalJSON, pointUnmarshalJSON.
  change (pointJSONBytes 32 (Some (encECPoint 0 0))) with (Ok (Some [0])). cbn [bind].
  rewrite (proj2 HC); [reflexivity|discriminate].
Qed.

(** ** C34: secp256k1 *)
Definition k1Full (x : Z) : Prop := 256 ^ 31 <= x < 256 ^ 32.
Lemma k1Full_len : forall x, 0 <= x -> (k1Full x <-> byteLen x = 32%nat).
Proof.
  intros x Hx. unfold k1Full. pose proof (byteLen_spec x 31) as H1. pose proof (byteLen_spec x 32) as H2. rewrite Z.abs_eq in * by assumption.
  change (Z.of_nat 31) with 31 in H1. change (Z.of_nat 32) with 32 in H2. lia.
Qed.
Lemma k1_set_iff : forall x y, 0 <= x -> 0 <= y -> (k1SetBytes (bigBytes x ++ bigBytes y) = Ok (Some x, Some y) <-> k1Full x).
Proof.
  intros x y Hx Hy. rewrite k1Full_len by assumption. unfold k1SetBytes, slice_to, slice_from. split.
  - intros H. destruct (Nat.leb 32 (length (bigBytes x ++ bigBytes y))) eqn:E; [|discriminate]. cbn [bind] in H. apply Nat.leb_le in E.
    remember (firstn 32 (bigBytes x ++ bigBytes y)) as u eqn:Eu. remember (skipn 32 (bigBytes x ++ bigBytes y)) as v eqn:Ev.
    injection H as H1 H2. rewrite Eu in H1. rewrite Ev in H2. clear u Eu v Ev. rewrite app_length, !bigBytes_length in E.
    assert (Hall : Forall is_byte (bigBytes x ++ bigBytes y)) by (apply Forall_app; split; apply bigBytes_bytes).
    assert (Hx32 : (byteLen x <= 32)%nat).
    { apply byteLen_spec. rewrite Z.abs_eq by assumption. rewrite <- H1.
      eapply Z.lt_le_trans; [apply os2ip_bound; rewrite <- (firstn_skipn 32 (bigBytes x ++ bigBytes y)) in Hall; apply Forall_app in Hall; apply Hall|].
      rewrite firstn_length, app_length, !bigBytes_length. apply Z.pow_le_mono_r; lia. }
    destruct (Nat.eq_dec (byteLen x) 32) as [e|e]; [exact e|exfalso].
    rewrite firstn_app, firstn_all2, os2ip_app, os2ip_bigBytes in H1 by (rewrite bigBytes_length; lia). rewrite Z.abs_eq in H1 by assumption.
    rewrite skipn_app, skipn_all2 in H2 by (rewrite bigBytes_length; lia). cbn [app] in H2.
    assert (Hb2 : forall k, Forall is_byte (firstn k (bigBytes y)) /\ Forall is_byte (skipn k (bigBytes y))).
    { intros k. pose proof (bigBytes_bytes y) as Hf. rewrite <- (firstn_skipn k (bigBytes y)) in Hf. apply Forall_app in Hf. exact Hf. }
    destruct (Hb2 (32 - length (bigBytes x))%nat) as [Hb3 Hb4]. apply os2ip_bound in Hb3, Hb4. rewrite H2 in Hb4.
    rewrite firstn_length in H1, Hb3. rewrite skipn_length in Hb4. rewrite bigBytes_length in *.
    set (w := os2ip (firstn (32 - byteLen x) (bigBytes y))) in *. rewrite bigBytes_length in *.
    assert (Hk : 256 <= 256 ^ Z.of_nat (Nat.min (32 - byteLen x) (byteLen y))).
    { change 256 with (256 ^ 1) at 1. apply Z.pow_le_mono_r; lia. }
    assert (x = 0) by nia. assert (byteLen x = O) by (subst; reflexivity).
    assert (Hly : (byteLen y <= byteLen y - (32 - byteLen x))%nat) by (apply byteLen_spec; rewrite Z.abs_eq by assumption; lia). lia.
  - intros He. assert (Hll : length (bigBytes x) = 32%nat) by (rewrite bigBytes_length; exact He).
    replace (Nat.leb 32 (length (bigBytes x ++ bigBytes y))) with true by (symmetry; apply Nat.leb_le; rewrite app_length; lia). cbn [bind].
    rewrite <- Hll, firstn_app, skipn_app, Nat.sub_diag, firstn_O, app_nil_r, firstn_all, skipn_all. cbn [app skipn].
    rewrite !os2ip_bigBytes, !Z.abs_eq by assumption. reflexivity.
Qed.
Theorem C34_binary_exact : forall x y, 0 <= x -> 0 <= y ->
  (k1UnmarshalBinary (k1MarshalBinary (Some x, Some y)) = Ok (Some x, Some y) <-> k1Full x).
Proof. intros x y Hx Hy. unfold k1UnmarshalBinary, k1MarshalBinary. cbn [fst snd]. apply k1_set_iff; assumption. Qed.
(** the hash-to-curve step used by the setup corrupts the same points *)
Theorem C34_map_exact : forall x y, 0 <= x -> 0 <= y -> (k1MapToGroup x y = Ok (Some x, Some y) <-> k1Full x).
Proof. intros x y Hx Hy. apply k1_set_iff; assumption. Qed.
Theorem C34_identity : exists Q, k1UnmarshalBinary (k1MarshalBinary k1Infinity) = Ok Q /\ k1IsEqual Q k1Infinity = true /\ k1IsIdentity Q = Ok true.
Proof. exists (Some 0, Some 0). repeat split; vm_compute; reflexivity. Qed.
(** ... but the identity that just came out of the decoder cannot be encoded and decoded again *)
Theorem C34_identity_twice_panics : k1UnmarshalBinary (k1MarshalBinary (Some 0, Some 0)) = Panic.
Proof. reflexivity. Qed.
Lemma bigBytes_head : forall x, hd 1 (bigBytes x) <> 0.
Proof.
  intros x H. pose proof (bigBytes_length x) as Hl. pose proof (os2ip_bigBytes x) as Ho. pose proof (bigBytes_bytes x) as Hb.
  destruct (bigBytes x) as [|b l]; [discriminate H|]. cbn [hd] in H. subst b. inversion Hb as [|? ? _ Hb']; subst.
  change (0 :: l) with ([0] ++ l) in Ho. rewrite os2ip_app in Ho. apply os2ip_bound in Hb'. change (os2ip [0]) with 0 in Ho.
  rewrite Z.mul_0_l in Ho. cbn [length] in Hl. assert ((byteLen x <= length l)%nat) by (apply byteLen_spec; lia). lia.
Qed.
(** what is written: the significant bytes of the two coordinates one after the other, 32 zero bytes standing for a nil one; so the
    identity is 64 zero bytes, but the same identity as (0,0) is no bytes at all *)
Definition k1Bytes (c : option Z) (l : bytes) : Prop :=
  match c with Some v => Forall is_byte l /\ os2ip l = Z.abs v /\ hd 1 l <> 0 | None => l = repeat 0 32 end.
Theorem C34_written_bytes : forall P, exists bx by', k1MarshalBinary P = bx ++ by' /\ k1Bytes (fst P) bx /\ k1Bytes (snd P) by'.
Proof.
  assert (H : forall c, k1Bytes c (match c with Some v => bigBytes v | None => repeat 0 32 end)).
  { intros [v|]; [|reflexivity]. split; [apply bigBytes_bytes|]. split; [apply os2ip_bigBytes|apply bigBytes_head]. }
  intros P. do 2 eexists. split; [reflexivity|]. split; apply H.
Qed.
Theorem C34_identity_bytes : k1MarshalBinary k1Infinity = repeat 0 64 /\ k1MarshalBinary (Some 0, Some 0) = [].
Proof. split; reflexivity. Qed.
(** the JSON of a point is an object of its two coordinates *)
Theorem C34_written_json : forall P, exists jx jy, k1MarshalJSON P = Ok (JObj [("X"%string, jx); ("Y"%string, jy)]) /\
  jx = match fst P with Some x => JInt x | None => JNull end /\ jy = match snd P with Some y => JInt y | None => JNull end.
Proof. intros P. do 2 eexists. split; [reflexivity|]. split; destruct P as [[x|] [y|]]; reflexivity. Qed.
(** JSON: the receiver keeps whatever it was, so decoding into a fresh element yields the identity for every point *)
Theorem C34_json_refuted : forall P old, exists j, k1MarshalJSON P = Ok j /\ k1UnmarshalJSON old (Some j) = Ok (old, true).
Proof. intros. eexists. split; reflexivity. Qed.

(** IsEqual compares the coordinates, reading nil as 0 *)
Definition k1Coord (c : option Z) : Z := match c with Some v => v | None => 0 end.
Theorem C34_is_equal_exact : forall P Q, k1IsEqual P Q = true <-> k1Coord (fst P) = k1Coord (fst Q) /\ k1Coord (snd P) = k1Coord (snd Q).
Proof.
  assert (H : forall a b, k1CoordEq a b = true <-> k1Coord a = k1Coord b).
  { intros [x|] [y|]; unfold k1CoordEq, k1ZeroOrNil, k1Coord; try destruct (Z.eqb_spec x 0); try destruct (Z.eqb_spec y 0); rewrite ?Z.eqb_eq; split; intros; try discriminate; try reflexivity; try lia. }
  intros P Q. unfold k1IsEqual. rewrite andb_true_iff, !H. reflexivity.
Qed.

(** ** Concrete cases *)
Definition p256Gx : Z := 0x6b17d1f2e12c4247f8bce6e563a440f277037d812deb33a0f4a13945d898c296.
Definition p256Gy : Z := 0x4fe342e2fe1a7f9b8ee7eb4a7c0f9e162bce33576b315ececbb6406837bf51f5.
Example C31_case : forall decomp, IsPoint (P256 decomp) (p256Gx, p256Gy) /\ IsPoint (P256 decomp) (0, 0) /\ ~ IsPoint (P256 decomp) (1, 1).
Proof.
  intros. split; [right; vm_compute; reflexivity|]. split; [left; reflexivity|].
  intros [H|H]; [discriminate|revert H; vm_compute; discriminate].
Qed.
(** a smaller curve, y^2 = x^3 + 3 over F_7 with one byte per coordinate: three objects, one point; and a fourth that panics *)
Definition cv7 : Curve := mkCurve 1 7 0 3 (fun _ => None).
Definition dec7 (x y : Z) : res (Z * Z * bool) := ecUnmarshalJSON cv7 (0, 0) (Some (encECPoint x y)).
Example C32_case : GoodCurve cv7 /\ onCurve cv7 1 2 = true /\
  dec7 1 2 = Ok ((1, 2), true) /\ dec7 (-1) 2 = Ok ((1, 2), true) /\ dec7 1025 2 = Ok ((1, 2), true) /\
  dec7 77 262402 = Ok ((1, 2), true) /\ dec7 65536 2 = Panic /\ dec7 1 3 = Ok ((0, 0), false).
Proof.
  split; [|repeat split; reflexivity]. constructor; cbn; lia.
Qed.
Definition r255Toy : R255Codec := mkR255 bool (fun b : bool => (if b then 1 else 0) :: repeat 0 31)
  (fun l => if Nat.eqb (length l) 32 then Some (negb (hd 0 l =? 0)) else None).
Example C33_case : R255Contract r255Toy /\ rUnmarshalBinary r255Toy (rMarshalBinary r255Toy true) = Some true /\ r255MarshalJSON r255Toy true = Panic /\ r255MarshalJSON r255Toy false = Ok (encECPoint 0 0) /\ r255UnmarshalJSON r255Toy true (Some (encECPoint 0 0)) = Ok (true, false).
Proof.
  split; [|repeat split; reflexivity]. split; [intros []; reflexivity|]. intros b Hb. cbn. destruct (Nat.eqb_spec (length b) 32); [contradiction|reflexivity].
Qed.
Definition k1X1Y : Z := 0x4218f20ae6c646b363db68605822fb14264ca8d2587fdd6fbc750d587e76a7ee.
Example C34_case : k1Full 0x79be667ef9dcbbac55a06295ce870b07029bfcdb2dce28d959f2815b16f81798 /\
  (k1X1Y * k1X1Y - (1 + 7)) mod k1Field = 0 /\ ~ k1Full 1 /\
  k1UnmarshalBinary (k1MarshalBinary (Some 1, Some k1X1Y)) <> Ok (Some 1, Some k1X1Y).
Proof.
  assert (H1 : ~ k1Full 1) by (unfold k1Full; intros [H _]; revert H; vm_compute; congruence).
  split; [split; [vm_compute; congruence|reflexivity]|]. split; [vm_compute; reflexivity|]. split; [exact H1|].
  intros H. apply H1. revert H. apply C34_binary_exact; [discriminate|]. vm_compute. congruence.
Qed.

Print Assumptions C31_binary_roundtrip.
Print Assumptions C31_json_roundtrip.
Print Assumptions C31_decoded_is_point.
Print Assumptions C31_shipped_curves.
Print Assumptions C32_injective_in_range.
Print Assumptions C32_refuted_sign.
Print Assumptions C32_refuted_oversized.
Print Assumptions C32_panics.
Print Assumptions C33_encode.
Print Assumptions C33_decode_fails.
Print Assumptions C33_refuted.
Print Assumptions C34_binary_exact.
Print Assumptions C34_map_exact.
Print Assumptions C34_identity.
Print Assumptions C34_identity_twice_panics.
Print Assumptions C34_json_refuted.
Print Assumptions C34_written_bytes.
Print Assumptions C34_identity_bytes.
Print Assumptions C34_written_json.
Print Assumptions C34_is_equal_exact.
