(** group/p256k1.go: encodings and predicates of the ING-backed secp256k1 group. A point is the pair of
    pointers X, Y of ING's p256.P256; nil, nil is the point at infinity (SetInfinity, and Element()). The
    arithmetic methods are ING's and not modelled here. *)
From Verif Require Import GoBase Json.

Definition k1pt : Type := (option Z * option Z)%type.
Definition k1Infinity : k1pt := (None, None).

Definition k1ZeroOrNil (c : option Z) : bool := match c with None => true | Some v => v =? 0 end.
(** p256k1.go 97-114, one coordinate *)
Definition k1CoordEq (a b : option Z) : bool :=
  if k1ZeroOrNil a then k1ZeroOrNil b
  else if k1ZeroOrNil b then k1ZeroOrNil a
  else match a, b with Some x, Some y => x =? y | _, _ => false end.
(** p256k1.go 93-117 IsEqual *)
Definition k1IsEqual (P Q : k1pt) : bool := k1CoordEq (fst P) (fst Q) && k1CoordEq (snd P) (snd Q).

(** p256k1.go 165-170 IsIdentity: panics when exactly one coordinate is nil (and reached) *)
Definition k1IsIdentity (P : k1pt) : res bool :=
  match P with
  | (None, None) => Ok true
  | (ox, oy) => x <- deref ox ;; if x =? 0 then y <- deref oy ;; Ok (y =? 0) else Ok false
  end.

(** p256k1.go 125-132 SetBytes *)
Definition k1SetBytes (b : bytes) : res k1pt :=
  xb <- slice_to b 32 ;;
  yb <- slice_from b 32 ;;
  Ok (Some (os2ip xb), Some (os2ip yb)).

(** p256k1.go 172-184 MarshalBinary: big.Int.Bytes, not padded *)
Definition k1MarshalBinary (P : k1pt) : bytes :=
  match fst P with Some x => bigBytes x | None => repeat 0 32 end ++
  match snd P with Some y => bigBytes y | None => repeat 0 32 end.
(** p256k1.go 186-189 *)
Definition k1UnmarshalBinary (b : bytes) : res k1pt := k1SetBytes b.

(** p256k1.go 191-193: json.Marshal of the ING struct *)
Definition k1MarshalJSON (P : k1pt) : res json :=
  Ok (JObj [("X"%string, enc_bigint (fst P)); ("Y"%string, enc_bigint (snd P))]).
(** p256k1.go 195-197: does nothing and reports success *)
Definition k1UnmarshalJSON (old : k1pt) (j : raw) : res (k1pt * bool) := Ok (old, true).

(** p256k1.go 153-159 MapToGroup, given ING's result point (non-nil coordinates) *)
Definition k1MapToGroup (x y : Z) : res k1pt := k1SetBytes (bigBytes x ++ bigBytes y).
