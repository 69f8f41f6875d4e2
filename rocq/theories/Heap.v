(** Pointers: group elements as heap objects, as the Element methods of group/modsafeprime.go and of the
    circl-backed wrappers (group/p256.go, p384.go, ristretto255.go) read and write them.  The rest of the
    model treats elements as values; PropHeap.v shows that this is a faithful abstraction.
    Not modelled: the pointers returned by P(), N(), GroupOrder(), FieldOrder(), which share the group's own
    integers (no caller in /repo writes through them), and secp256k1. *)
From Verif Require Import GoBase Json GroupIface ModP ECJson.

Section Heap.
(** One mod-p group, and one circl group given by its pure operations, coordinate length and
    UnmarshalBinary ([None]: error, receiver unchanged). *)
Context (d : ModPDesc) (G : Grp) (L : nat) (unm : bytes -> option (E G)).

(** What a val pointer points to: a big.Int or a circl element *)
Inductive cell : Type := CZ (z : Z) | CP (p : E G).
(** The dynamic type of a group.Element *)
Inductive kind : Type := KMod | KCirc.
(** modsafeprime.go 10-13 ModPElement, p256.go 17-21 p256Point: the val pointer *)
Record obj : Type := mkObj { oKind : kind; oVal : nat }.
(** The memory: Go variables of interface type Element (nil or an object), objects, cells *)
Record st : Type := mkSt { env : nat -> option nat; obs : list obj; cells : list cell }.

Fixpoint upd {A} (l : list A) (i : nat) (a : A) : list A :=
  match l, i with
  | [], _ => []
  | _ :: t, O => a :: t
  | x :: t, S j => x :: upd t j a
  end.

Definition allocCell (s : st) (c : cell) : st * nat := (mkSt (env s) (obs s) (cells s ++ [c]), length (cells s)).
Definition allocObj (s : st) (o : obj) : st * nat := (mkSt (env s) (obs s ++ [o]) (cells s), length (obs s)).
Definition wr (s : st) (a : nat) (c : cell) : st := mkSt (env s) (obs s) (upd (cells s) a c).
Definition setVal (s : st) (o : nat) (k : kind) (a : nat) : st := mkSt (env s) (upd (obs s) o (mkObj k a)) (cells s).
Definition bindVar (s : st) (x o : nat) : st := mkSt (fun y => if Nat.eqb y x then Some o else env s y) (obs s) (cells s).

Definition rdZ (s : st) (a : nat) : res Z := match nth_error (cells s) a with Some (CZ z) => Ok z | _ => Panic end.
Definition rdP (s : st) (a : nat) : res (E G) := match nth_error (cells s) a with Some (CP p) => Ok p | _ => Panic end.

(** The group's generator and field order are integers of their own (modsafeprime.go 15-20, 190-195) *)
Definition genCell : nat := 0.
Definition fieldCell : nat := 1.
Definition init : st := mkSt (fun _ => None) [] [CZ (mpGen d); CZ (mpField d)].

(** check (modsafeprime.go 77-86, p256.go 67-73): the type assertion; comparing the groups succeeds as there
    is one group of each type *)
Definition check (k : kind) (s : st) (o : nat) : res nat :=
  ob <- deref (nth_error (obs s) o) ;;
  match k, oKind ob with
  | KMod, KMod | KCirc, KCirc => Ok (oVal ob)
  | _, _ => Panic
  end.

(** ** Mod-p methods; arguments are object addresses *)
(** modsafeprime.go 70-75, 56-61, 49-54 *)
Definition mNewElement (s : st) : st * nat := let '(s1, a) := allocCell s (CZ 0) in allocObj s1 (mkObj KMod a).
Definition mIdentity (s : st) : st * nat := let '(s1, a) := allocCell s (CZ 1) in allocObj s1 (mkObj KMod a).
Definition mGenerator (s : st) : res (st * nat) :=
  let '(s1, a) := allocCell s (CZ 0) in                  (* new(big.Int) *)
  g <- rdZ s1 genCell ;;
  Ok (allocObj (wr s1 a (CZ g)) (mkObj KMod a)).         (* .Set(g.gen) *)
(** modsafeprime.go 88-94 *)
Definition mAdd (s : st) (e a b : nat) : res st :=
  pe <- check KMod s e ;; pa <- check KMod s a ;; pb <- check KMod s b ;;
  za <- rdZ s pa ;; zb <- rdZ s pb ;;
  let s1 := wr s pe (CZ (za * zb)) in
  z1 <- rdZ s1 pe ;; f <- rdZ s1 fieldCell ;;
  Ok (wr s1 pe (CZ (z1 mod f))).
(** modsafeprime.go 103-107; ModInverse leaves its receiver alone when there is no inverse *)
Definition mNegate (s : st) (e a : nat) : res st :=
  pe <- check KMod s e ;; pa <- check KMod s a ;;
  za <- rdZ s pa ;; f <- rdZ s fieldCell ;;
  Ok (match modInverse za f with Some v => wr s pe (CZ v) | None => s end).
(** modsafeprime.go 96-101 *)
Definition mSubtract (s : st) (e a b : nat) : res st :=
  let '(s1, tmp) := mIdentity s in
  s2 <- mNegate s1 tmp b ;;
  mAdd s2 e a tmp.
(** modsafeprime.go 114-118 *)
Definition mSet (s : st) (e a : nat) : res st :=
  pe <- check KMod s e ;; pa <- check KMod s a ;; za <- rdZ s pa ;; Ok (wr s pe (CZ za)).
(** modsafeprime.go 120-123 *)
Definition mSetBytes (s : st) (e : nat) (b : bytes) : res st :=
  pe <- check KMod s e ;; Ok (wr s pe (CZ (os2ip b))).
(** modsafeprime.go 125-129 *)
Definition mScale (s : st) (e a : nat) (k : Z) : res st :=
  pe <- check KMod s e ;; pa <- check KMod s a ;;
  za <- rdZ s pa ;; f <- rdZ s fieldCell ;;
  Ok (match bigExp za k f with Some v => wr s pe (CZ v) | None => s end).
(** modsafeprime.go 131-134 *)
Definition mBaseScale (s : st) (e : nat) (k : Z) : res st :=
  pe <- check KMod s e ;;
  g <- rdZ s genCell ;; f <- rdZ s fieldCell ;;
  Ok (match bigExp g k f with Some v => wr s pe (CZ v) | None => s end).
(** modsafeprime.go 160-163: a new big.Int *)
Definition mUnmarshalBinary (s : st) (e : nat) (b : bytes) : res st :=
  _ <- check KMod s e ;;
  let '(s1, a) := allocCell s (CZ (os2ip b)) in Ok (setVal s1 e KMod a).
(** modsafeprime.go 169-172: in place *)
Definition mUnmarshalJSON (s : st) (e : nat) (j : raw) : res st :=
  pe <- check KMod s e ;; z <- rdZ s pe ;;
  '(z', _) <- mpOfJson z j ;; Ok (wr s pe (CZ z')).

(** ** circl wrappers *)
(** p256.go 39-44, 46-51, 60-65: circl's constructors return new elements *)
Definition cNew (s : st) (p : E G) : st * nat := let '(s1, a) := allocCell s (CP p) in allocObj s1 (mkObj KCirc a).
(** e.val = group.P256.NewElement().Op(...): a new element, written by Op, becomes the val of e *)
Definition cFresh (s : st) (e : nat) (p : E G) : st :=
  let '(s1, a) := allocCell s (CP (gNew G)) in setVal (wr s1 a (CP p)) e KCirc a.
(** p256.go 75-80 *)
Definition cAdd (s : st) (e a b : nat) : res st :=
  _ <- check KCirc s e ;; pa <- check KCirc s a ;; pb <- check KCirc s b ;;
  X <- rdP s pa ;; Y <- rdP s pb ;; Ok (cFresh s e (gAdd G X Y)).
(** p256.go 89-93 *)
Definition cNegate (s : st) (e a : nat) : res st :=
  _ <- check KCirc s e ;; pa <- check KCirc s a ;; X <- rdP s pa ;; Ok (cFresh s e (gNeg G X)).
(** p256.go 82-87 *)
Definition cSubtract (s : st) (e a b : nat) : res st :=
  let '(s1, tmp) := cNew s (gId G) in
  s2 <- cNegate s1 tmp b ;;
  cAdd s2 e a tmp.
(** p256.go 100-104 *)
Definition cSet (s : st) (e a : nat) : res st :=
  _ <- check KCirc s e ;; pa <- check KCirc s a ;; X <- rdP s pa ;; Ok (cFresh s e X).
(** UnmarshalBinary on a circl element, in place *)
Definition cUnmInto (s : st) (a : nat) (b : bytes) : st := match unm b with Some p => wr s a (CP p) | None => s end.
(** p256.go 106-110 *)
Definition cSetBytes (s : st) (e : nat) (b : bytes) : res st :=
  _ <- check KCirc s e ;;
  let '(s1, a) := allocCell s (CP (gNew G)) in Ok (cUnmInto (setVal s1 e KCirc a) a b).
(** p256.go 112-117 *)
Definition cScale (s : st) (e a : nat) (k : Z) : res st :=
  _ <- check KCirc s e ;; pa <- check KCirc s a ;; X <- rdP s pa ;; Ok (cFresh s e (gScale G X k)).
(** p256.go 119-123 *)
Definition cBaseScale (s : st) (e : nat) (k : Z) : res st :=
  _ <- check KCirc s e ;; Ok (cFresh s e (gBase G k)).
(** p256.go 133-138 *)
Definition cMapToGroup (s : st) (e : nat) (m : bytes) : res st :=
  _ <- check KCirc s e ;; p <- gMap G m ;;
  let '(s1, a) := allocCell s (CP p) in Ok (setVal s1 e KCirc a).
(** p256.go 153-156: in place *)
Definition cUnmarshalBinary (s : st) (e : nat) (b : bytes) : res st :=
  pe <- check KCirc s e ;; Ok (cUnmInto s pe b).
(** p256.go 182-207: in place *)
Definition cUnmarshalJSON (s : st) (e : nat) (j : raw) : res st :=
  pe <- check KCirc s e ;;
  ob <- pointJSONBytes L j ;;
  Ok (match ob with Some b => cUnmInto s pe b | None => s end).

(** ** Client programs: calls on variables; [Assign x y] is the Go assignment x = y of interface values *)
Inductive call : Type :=
| CElement (x : nat) (k : kind) | CIdentity (x : nat) (k : kind) | CGenerator (x : nat) (k : kind)
| Assign (x y : nat)
| Add (r a b : nat) | Subtract (r a b : nat) | Negate (r a : nat) | SetTo (r a : nat)
| Scale (r a : nat) (k : Z) | BaseScale (r : nat) (k : Z)
| SetBytes (r : nat) (b : bytes) | MapToGroup (r : nat) (m : bytes)
| UnmarshalBinary (r : nat) (b : bytes) | UnmarshalJSON (r : nat) (j : raw).

(** A call on a nil interface panics; a nil argument fails the type assertion of check *)
Definition ref (s : st) (x : nat) : res nat := deref (env s x).
(** Method dispatch on the dynamic type of the receiver *)
Definition kindOf (s : st) (o : nat) : res kind := ob <- deref (nth_error (obs s) o) ;; Ok (oKind ob).
Definition dispatch (s : st) (r : nat) (m c : nat -> res st) : res st :=
  e <- ref s r ;; k <- kindOf s e ;; match k with KMod => m e | KCirc => c e end.

Definition exec (c : call) (s : st) : res st :=
  match c with
  | CElement x KMod => let '(s1, o) := mNewElement s in Ok (bindVar s1 x o)
  | CElement x KCirc => let '(s1, o) := cNew s (gNew G) in Ok (bindVar s1 x o)
  | CIdentity x KMod => let '(s1, o) := mIdentity s in Ok (bindVar s1 x o)
  | CIdentity x KCirc => let '(s1, o) := cNew s (gId G) in Ok (bindVar s1 x o)
  | CGenerator x KMod => '(s1, o) <- mGenerator s ;; Ok (bindVar s1 x o)
  | CGenerator x KCirc => let '(s1, o) := cNew s (gGen G) in Ok (bindVar s1 x o)
  | Assign x y => Ok (mkSt (fun z => if Nat.eqb z x then env s y else env s z) (obs s) (cells s))
  | Add r a b => dispatch s r (fun e => oa <- ref s a ;; ob <- ref s b ;; mAdd s e oa ob)
                              (fun e => oa <- ref s a ;; ob <- ref s b ;; cAdd s e oa ob)
  | Subtract r a b => dispatch s r (fun e => oa <- ref s a ;; ob <- ref s b ;; mSubtract s e oa ob)
                                   (fun e => oa <- ref s a ;; ob <- ref s b ;; cSubtract s e oa ob)
  | Negate r a => dispatch s r (fun e => oa <- ref s a ;; mNegate s e oa) (fun e => oa <- ref s a ;; cNegate s e oa)
  | SetTo r a => dispatch s r (fun e => oa <- ref s a ;; mSet s e oa) (fun e => oa <- ref s a ;; cSet s e oa)
  | Scale r a k => dispatch s r (fun e => oa <- ref s a ;; mScale s e oa k) (fun e => oa <- ref s a ;; cScale s e oa k)
  | BaseScale r k => dispatch s r (fun e => mBaseScale s e k) (fun e => cBaseScale s e k)
  | SetBytes r b => dispatch s r (fun e => mSetBytes s e b) (fun e => cSetBytes s e b)
  | MapToGroup r m => dispatch s r (fun e => Panic) (fun e => cMapToGroup s e m)
  | UnmarshalBinary r b => dispatch s r (fun e => mUnmarshalBinary s e b) (fun e => cUnmarshalBinary s e b)
  | UnmarshalJSON r j => dispatch s r (fun e => mUnmarshalJSON s e j) (fun e => cUnmarshalJSON s e j)
  end.

Fixpoint run (prog : list call) (s : st) : res st :=
  match prog with [] => Ok s | c :: t => s1 <- exec c s ;; run t s1 end.

(** What a variable holds: nil, or the value of its element *)
Definition view (s : st) (x : nat) : option cell :=
  match env s x with
  | None => None
  | Some o => match nth_error (obs s) o with Some ob => nth_error (cells s) (oVal ob) | None => None end
  end.
(** Do two variables hold the same element (Go's x == y on interface values)? *)
Definition same (s : st) (x y : nat) : bool :=
  match env s x, env s y with
  | Some o, Some o' => Nat.eqb o o'
  | None, None => true
  | _, _ => false
  end.
End Heap.
Arguments CZ {G}. Arguments CP {G}.
