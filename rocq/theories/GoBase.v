(** Go runtime and math/big fragments used by the model.
    Nothing here models a function of /repo; it fixes the contract of the Go
    language and of math/big that the models of /repo are written against. *)
From Coq Require Export String Ascii List Arith ZArith Lia Bool.
From Coq Require Import Zpow_facts Znumtheory Zeuclid.
From Coq Require Import DecimalString DecimalZ.
Export ListNotations.
Open Scope Z_scope.
Open Scope list_scope.

(** Outcome of a Go call: normal return, return of a non-nil error (values
    discarded by the caller), run-time panic, or - model only - recursion/loop
    that did not finish within the supplied fuel or random draws. *)
Inductive res (A : Type) : Type :=
| Ok (a : A)
| Err
| Panic
| OutOfFuel.
Arguments Ok {A} a.
Arguments Err {A}.
Arguments Panic {A}.
Arguments OutOfFuel {A}.

Definition bind {A B} (x : res A) (f : A -> res B) : res B :=
  match x with
  | Ok a => f a
  | Err => Err
  | Panic => Panic
  | OutOfFuel => OutOfFuel
  end.

Notation "x <- e ;; k" := (bind e (fun x => k))
  (at level 61, e at next level, right associativity).
Notation "' p <- e ;; k" := (bind e (fun x => let p := x in k))
  (at level 61, p pattern, e at next level, right associativity).

(** Dereferencing a possibly-nil pointer or interface value. *)
Definition deref {A} (x : option A) : res A :=
  match x with Some a => Ok a | None => Panic end.

(** l[i]: panics when out of range. *)
Definition idx {A} (l : list A) (i : nat) : res A := deref (nth_error l i).

(** l[:n] and l[n:]. Simplification: capacity = length (every slice in the
    modelled code is built by make, so this is exact there). *)
Definition slice_to {A} (l : list A) (n : nat) : res (list A) :=
  if Nat.leb n (length l) then Ok (firstn n l) else Panic.
Definition slice_from {A} (l : list A) (n : nat) : res (list A) :=
  if Nat.leb n (length l) then Ok (skipn n l) else Panic.

(** make([]T, n): panics for a negative length. Returns the length. *)
Definition make_len (n : Z) : res nat :=
  if n <? 0 then Panic else Ok (Z.to_nat n).

Fixpoint mapM {A B} (f : A -> res B) (l : list A) : res (list B) :=
  match l with
  | [] => Ok []
  | a :: t => b <- f a ;; r <- mapM f t ;; Ok (b :: r)
  end.

Fixpoint map2 {A B C} (f : A -> B -> C) (l : list A) (m : list B) : list C :=
  match l, m with
  | a :: l', b :: m' => f a b :: map2 f l' m'
  | _, _ => []
  end.

(** ** Machine integers *)
Definition wrap64 (x : Z) : Z := (x + 2 ^ 63) mod 2 ^ 64 - 2 ^ 63.
Definition wrap16 (x : Z) : Z := x mod 2 ^ 16.
Definition min_int64 : Z := - 2 ^ 63.
Definition max_int64 : Z := 2 ^ 63 - 1.
Definition is_int64 (x : Z) : bool := (min_int64 <=? x) && (x <=? max_int64).

(** ** math/big *)
(** Bezout coefficients by Euclid's algorithm; [egcd_fuel] steps always suffice (lemma [egcd_spec]). *)
Fixpoint egcd (fuel : nat) (a b : Z) : Z * Z :=
  match fuel with
  | O => (1, 0)
  | S f => if b =? 0 then (1, 0)
           else let '(s, t) := egcd f b (a mod b) in (t, s - (a / b) * t)
  end.
Definition egcd_fuel (b : Z) : nat := S (2 * S (Z.to_nat (Z.log2 b))).

(** (Int).ModInverse(a, n) for n > 0: nil when a is not invertible, else the inverse in [0,n). *)
Definition modInverse (a n : Z) : option Z :=
  if Z.gcd a n =? 1
  then Some (fst (egcd (egcd_fuel n) (a mod n) n) mod n)
  else None.

(** (Int).Exp(x, y, m) for m > 0: x^y mod m; for y < 0 the power of the inverse,
    nil (receiver unchanged) when x is not invertible. *)
Definition bigExp (x y m : Z) : option Z :=
  if y <? 0 then
    match modInverse x m with
    | Some i => Some (Zpow_mod i (- y) m)
    | None => None
    end
  else Some (Zpow_mod x y m).

(** (Int).Exp(2, e, nil): 1 for e <= 0, 2^e otherwise. *)
Definition bigExp2 (e : Z) : Z := if e <=? 0 then 1 else 2 ^ e.

(** ** Bytes (values 0..255 as Z, big-endian) *)
Definition bytes := list Z.
Definition is_byte (b : Z) : Prop := 0 <= b < 256.

(** (Int).SetBytes *)
Definition os2ip (l : bytes) : Z := fold_left (fun acc b => acc * 256 + b) l 0.

(** n low-order bytes of x, big-endian, zero padded (FillBytes on an n byte buffer). *)
Fixpoint i2osp (n : nat) (x : Z) : bytes :=
  match n with
  | O => []
  | S k => i2osp k (x / 256) ++ [x mod 256]
  end.

(** Number of bytes of |x| without leading zeros. *)
Definition byteLen (x : Z) : nat :=
  if x =? 0 then O else S (Z.to_nat (Z.log2 (Z.abs x) / 8)).
(** (Int).Bytes: big-endian absolute value without leading zeros. *)
Definition bigBytes (x : Z) : bytes := i2osp (byteLen x) (Z.abs x).

(** (Int).BitLen *)
Definition bitLen (x : Z) : Z := if x =? 0 then 0 else Z.log2 (Z.abs x) + 1.

(** Go string of ASCII characters as bytes. *)
Definition str_bytes (s : string) : bytes :=
  map (fun c => Z.of_nat (nat_of_ascii c)) (list_ascii_of_string s).

(** (Int).String: decimal; a nil pointer prints "<nil>". *)
Definition dec_str (x : Z) : bytes := str_bytes (NilZero.string_of_int (Z.to_int x)).
Definition dec_str_opt (x : option Z) : bytes :=
  match x with Some v => dec_str v | None => str_bytes "<nil>"%string end.

(** crypto/rand.Int(rand.Reader, max) panics for max <= 0; [r] is the draw, in [0,max) *)
Definition randInt (max r : Z) : res Z := if max <=? 0 then Panic else Ok r.
Lemma randInt_pos : forall max r, 0 < max -> randInt max r = Ok r.
Proof. intros max r H. unfold randInt. destruct (Z.leb_spec max 0); [lia|reflexivity]. Qed.
