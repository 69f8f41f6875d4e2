(** bulletproofs/vector.go, bulletproofs/util.go and util/util.go.
    [mod] arguments are the group order N() > 0 (math/big panics for 0, which no caller passes). *)
From Verif Require Import GoBase Json GroupIface.

(** ** util/util.go *)
(** util.go 29-38 Decompose. u <> 0 as in all callers (u = 2). big.Int Mod/Div are Euclidean;
    for u > 0 these are Z.modulo and Z.div. A negative l panics in make. *)
Fixpoint decompose_loop (l : nat) (x u : Z) : list Z :=
  match l with
  | O => []
  | S l' => x mod u :: decompose_loop l' (x / u) u
  end.
Definition Decompose (x u l : Z) : res (list Z) :=
  n <- make_len l ;; Ok (decompose_loop n x u).

Section WithGroup.
Context (G : Grp).
Local Notation E := (E G).

(** util.go 41-46 PedersenCommit *)
Definition PedersenCommit (x r : Z) (h : E) : E :=
  gAdd G (gBase G x) (gScale G h r).

(** ** bulletproofs/vector.go *)
(** vector.go 31-43 VectorCopy *)
Definition VectorCopy (a n : Z) : res (list Z) :=
  k <- make_len n ;; Ok (repeat a k).

(** vector.go 48-60 VectorConvertToBig *)
Definition VectorConvertToBig (a : list Z) (n : Z) : res (list Z) :=
  k <- make_len n ;; slice_to a k.

(** vector.go 65-83 VectorAdd; [None]: nil slice and an error *)
Definition VectorAdd (a b : list Z) (m : Z) : option (list Z) :=
  if Nat.eqb (length a) (length b) then Some (map2 (fun x y => (x + y) mod m) a b) else None.

(** vector.go 88-106 VectorSub *)
Definition VectorSub (a b : list Z) (m : Z) : option (list Z) :=
  if Nat.eqb (length a) (length b) then Some (map2 (fun x y => (x - y) mod m) a b) else None.

(** vector.go 108-115 VectorAddConst *)
Definition VectorAddConst (a : list Z) (c m : Z) : list Z :=
  map (fun x => (x + c) mod m) a.

(** vector.go 120-134 VectorScalarMul (never returns an error). The scalar may be nil
    (a failed ModInverse); it is dereferenced once per component. *)
Definition VectorScalarMul (a : list Z) (b : option Z) (m : Z) : res (list Z) :=
  mapM (fun x => s <- deref b ;; Ok ((x * s) mod m)) a.

(** vector.go 139-157 VectorMul *)
Definition VectorMul (a b : list Z) (m : Z) : option (list Z) :=
  if Nat.eqb (length a) (length b) then Some (map2 (fun x y => (x * y) mod m) a b) else None.

(** vector.go 159-167 VectorInnerProduct: ranges over a and indexes b *)
Fixpoint vip_loop (a b : list Z) (m acc : Z) : res Z :=
  match a, b with
  | [], _ => Ok acc
  | x :: a', y :: b' => vip_loop a' b' m (acc + (x * y) mod m)
  | _ :: _, [] => Panic
  end.
Definition VectorInnerProduct (a b : list Z) (m : Z) : res Z :=
  r <- vip_loop a b m 0 ;; Ok (r mod m).

(** vector.go 172-190 VectorECAdd *)
Definition VectorECAdd (a b : list E) : option (list E) :=
  if Nat.eqb (length a) (length b) then Some (map2 (gAdd G) a b) else None.

(** ** bulletproofs/util.go *)
(** util.go 34-49 powerOf *)
Fixpoint powerOf_loop (n : nat) (cur x m : Z) : list Z :=
  match n with
  | O => []
  | S n' => cur :: powerOf_loop n' ((cur * x) mod m) x m
  end.
Definition powerOf (x n : Z) : res (list Z) :=
  k <- make_len n ;; Ok (powerOf_loop k 1 x (gN G)).

(** util.go 81-100 VectorExp; [None]: nil element and an error *)
Definition VectorExp (a : list E) (b : list Z) : option E :=
  if Nat.eqb (length a) (length b)
  then Some (fold_left (fun r p => gAdd G r (gScale G (fst p) (snd p))) (combine a b) (gId G))
  else None.

(** util.go 105-124 ScalarProduct *)
Definition ScalarProduct (a b : list Z) : option Z :=
  if Nat.eqb (length a) (length b)
  then Some (fold_left (fun r p => (r + fst p * snd p) mod gN G) (combine a b) 0)
  else None.

(** util.go 130-132 IsPowerOfTwo on int64: x-1 wraps at the minimum int64 *)
Definition IsPowerOfTwo (x : Z) : bool :=
  negb (x =? 0) && (Z.land x (wrap64 (x - 1)) =? 0).

(** bip.go 300-307 vectorScalarExp. Entries may be nil (undecoded tail of Hh, bulletproofs/marshal.go 48-53):
    Scale on a nil element panics in check(). A nil scalar panics too; neither is touched for an empty vector. *)
Definition vectorScalarExp (a : list (option E)) (b : option Z) : res (list E) :=
  mapM (fun X => X' <- deref X ;; s <- deref b ;; Ok (gScale G X' s)) a.
End WithGroup.

(** SHA-256 (32-byte digest) and ING's byteconversion.FromByteArray: arbitrary functions. *)
Record Oracles : Type := mkOracles {
  sha256 : bytes -> bytes;
  fromByteArray : bytes -> Z
}.

(** bulletproofs/util.go 54-76 HashBP. The second digest is fed [buffer], not [buffer2] (line 70);
    buffer2, which would append result1, is never hashed. *)
Definition HashBP (G : Grp) (HO : Oracles) (A S : E G) : Z * Z :=
  let buffer := gStr G A ++ gStr G S in
  let result1 := os2ip (sha256 HO buffer) in
  let buffer2 := gStr G A ++ gStr G S ++ dec_str result1 in
  let result2 := os2ip (sha256 HO buffer) in
  (result1, result2).
