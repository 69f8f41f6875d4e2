(** Byte and JSON encodings of the circl-backed curve groups: group/p256.go, p384.go (identical but for the
    coordinate length) and ristretto255.go (the same JSON code over a 32-byte binary format).
    circl's own MarshalBinary/UnmarshalBinary are modelled by their documented formats. *)
From Verif Require Import GoBase Json GroupIface.

(** ** The JSON code shared by p256.go, p384.go and ristretto255.go; [L] is the literal 32 or 48 *)

(** group/types.go 6-9: json.Marshal of an ECPoint *)
Definition encECPoint (x y : Z) : json := JObj [("x"%string, JInt x); ("y"%string, JInt y)].

(** p256.go 158-180 MarshalJSON, given tmp = val.MarshalBinary() (capacity = length) *)
Definition pointMarshalJSON (L : nat) (tmp : bytes) : res json :=
  t0 <- idx tmp 0 ;;
  if t0 =? 0 then Ok (encECPoint 0 0) else
  up <- slice_to tmp (L + 1) ;;
  let xBytes := skipn 1 up in
  yBytes <- slice_from tmp (1 + L) ;;
  if negb (Nat.eqb (length xBytes) L) || negb (Nat.eqb (length xBytes) (length yBytes)) then Err
  else Ok (encECPoint (os2ip xBytes) (os2ip yBytes)).

(** json.Unmarshal into ECPoint{}; [None]: error *)
Definition ecPointStep (k : string) (v : json) (c : option Z * option Z) : option (option Z * option Z) :=
  if fold_eqb k "x" then match dec_bigint v with Some x => Some (x, snd c) | None => None end
  else if fold_eqb k "y" then match dec_bigint v with Some y => Some (fst c, y) | None => None end
  else Some c.
Definition decECPoint (j : raw) : option (option Z * option Z) :=
  match j with
  | None => None                      (* empty input: unexpected end of JSON input *)
  | Some d => dec_struct ecPointStep (None, None) d
  end.

(** copy(buf[lo:], src) for lo + len(src) <= len(buf) *)
Definition overwrite (buf : bytes) (lo : nat) (src : bytes) : bytes :=
  firstn lo buf ++ src ++ skipn (lo + length src) buf.

(** p256.go 182-207 UnmarshalJSON up to the call of val.UnmarshalBinary: the bytes passed to it, or [None]
    when json.Unmarshal failed. Nil coordinates, and slice bounds 1+L-len(x) < 0 or 1+2L-len(y) < 0, panic. *)
Definition pointJSONBytes (L : nat) (j : raw) : res (option bytes) :=
  match decECPoint j with
  | None => Ok None
  | Some (ox, oy) =>
      x <- deref ox ;;
      y <- deref oy ;;
      if (x =? 0) && (y =? 0) then Ok (Some [0]) else
      let xBytes := bigBytes x in
      let yBytes := bigBytes y in
      let tmp := 4 :: repeat 0 (2 * L) in
      if Nat.ltb (1 + L) (length xBytes) then Panic else
      let tmp1 := overwrite tmp (1 + L - length xBytes) xBytes in
      if Nat.ltb (1 + 2 * L) (length yBytes) then Panic else
      Ok (Some (overwrite tmp1 (1 + 2 * L - length yBytes) yBytes))
  end.

(** UnmarshalJSON with a given val.UnmarshalBinary; a failed UnmarshalBinary leaves val unchanged.
    The bool is "no error". *)
Definition pointUnmarshalJSON {P} (L : nat) (unmarshalBinary : bytes -> option P) (old : P) (j : raw)
  : res (P * bool) :=
  ob <- pointJSONBytes L j ;;
  match ob with
  | None => Ok (old, false)
  | Some b => match unmarshalBinary b with Some p => Ok (p, true) | None => Ok (old, false) end
  end.

(** ** Short Weierstrass curves y^2 = x^3 + a x + b over F_p, coordinates of [cvL] bytes *)
Record Curve : Type := mkCurve {
  cvL : nat;
  cvP : Z;
  cvA : Z;
  cvB : Z;
  cvDecomp : bytes -> option (Z * Z)     (* elliptic.UnmarshalCompressed: arbitrary *)
}.

Section Weierstrass.
Context (cv : Curve).

Definition onCurve (x y : Z) : bool :=
  (0 <=? x) && (x <? cvP cv) && (0 <=? y) && (y <? cvP cv) &&
  ((y * y - (x * x * x + cvA cv * x + cvB cv)) mod cvP cv =? 0).

(** A circl point: affine coordinates, (0,0) being the point at infinity *)
Definition ecIsIdentity (P : Z * Z) : bool := (fst P =? 0) && (snd P =? 0).

(** circl wElt.MarshalBinary: one zero byte for the identity, else the uncompressed SEC 1 form *)
Definition ecMarshalBinary (P : Z * Z) : bytes :=
  if ecIsIdentity P then [0] else 4 :: i2osp (cvL cv) (fst P) ++ i2osp (cvL cv) (snd P).

(** circl wElt.UnmarshalBinary: [None] = error, receiver unchanged *)
Definition ecUnmarshalBinary (b : bytes) : option (Z * Z) :=
  match b with
  | [] => None
  | t :: r =>
      if (t =? 0) && Nat.eqb (length r) 0 then Some (0, 0)
      else if ((t =? 2) || (t =? 3)) && Nat.eqb (length r) (cvL cv) then cvDecomp cv b
      else if (t =? 4) && Nat.eqb (length r) (2 * cvL cv) then
        let x := os2ip (firstn (cvL cv) r) in
        let y := os2ip (skipn (cvL cv) r) in
        if onCurve x y then Some (x, y) else None
      else None
  end.

(** p256.go 140-143, 149-156, 158-207 *)
Definition ecString (P : Z * Z) : bytes := ecMarshalBinary P.
Definition ecMarshalJSON (P : Z * Z) : res json := pointMarshalJSON (cvL cv) (ecMarshalBinary P).
Definition ecUnmarshalJSON (old : Z * Z) (j : raw) : res (Z * Z * bool) :=
  pointUnmarshalJSON (cvL cv) ecUnmarshalBinary old j.
End Weierstrass.

(** NIST P-256 and P-384: field orders as in p256.go 210, p384.go 210; coefficients of the standard curves *)
Definition p256Field : Z := 0xffffffff00000001000000000000000000000000ffffffffffffffffffffffff.
Definition p256Order : Z := 0xffffffff00000000ffffffffffffffffbce6faada7179e84f3b9cac2fc632551.
Definition p256B : Z := 0x5ac635d8aa3a93e7b3ebbd55769886bc651d06b0cc53b0f63bce3c3e27d2604b.
Definition p384Field : Z :=
  0xfffffffffffffffffffffffffffffffffffffffffffffffffffffffffffffffeffffffff0000000000000000ffffffff.
Definition p384Order : Z :=
  0xffffffffffffffffffffffffffffffffffffffffffffffffc7634d81f4372ddf581a0db248b0a77aecec196accc52973.
Definition p384B : Z :=
  0xb3312fa7e23ee7e4988e056be3f82d19181d9c6efe8141120314088f5013875ac656398d8a2ed19d2a85c8edd3ec2aef.
Definition P256 (decomp : bytes -> option (Z * Z)) : Curve := mkCurve 32 p256Field (-3) p256B decomp.
Definition P384 (decomp : bytes -> option (Z * Z)) : Curve := mkCurve 48 p384Field (-3) p384B decomp.
(** ristretto255.go 210-211, p256k1.go 200-201 *)
Definition r255Field : Z := 0x7fffffffffffffffffffffffffffffffffffffffffffffffffffffffffffffed.
Definition r255Order : Z := 0x1000000000000000000000000000000014def9dea2f79cd65812631a5cf5d3ed.
Definition k1Field : Z := 0xfffffffffffffffffffffffffffffffffffffffffffffffffffffffefffffc2f.
Definition k1Order : Z := 0xfffffffffffffffffffffffffffffffebaaedce6af48a03bbfd25e8cd0364141.

(** ** ristretto255.go 158-207: the P-256 code over circl's Ristretto encoding, whose MarshalBinary always
    yields 32 bytes and whose UnmarshalBinary rejects every other length. *)
Record R255Codec : Type := mkR255 {
  rPt : Type;
  rMarshalBinary : rPt -> bytes;
  rUnmarshalBinary : bytes -> option rPt
}.
Definition R255Contract (c : R255Codec) : Prop :=
  (forall P, length (rMarshalBinary c P) = 32%nat) /\
  (forall b, length b <> 32%nat -> rUnmarshalBinary c b = None).
Definition r255MarshalJSON (c : R255Codec) (P : rPt c) : res json := pointMarshalJSON 32 (rMarshalBinary c P).
Definition r255UnmarshalJSON (c : R255Codec) (old : rPt c) (j : raw) : res (rPt c * bool) :=
  pointUnmarshalJSON 32 (rUnmarshalBinary c) old j.
