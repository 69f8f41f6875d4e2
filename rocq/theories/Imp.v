(** bulletproofs/{vector,util,bip,bp}.go and util/util.go once more, at the level of Go pointers: group elements
    and big integers are objects on a heap, vectors are slices of pointers, and every method call writes its
    receiver in place where the Go code does. Vector.v, BIP.v and BP.v model the same functions on values.

    Objects hold a value each. That a method of an element writes no object but its receiver, also when
    receiver and arguments coincide, is C42 (Heap.v). A slice is a list of pointers: no slice of the modelled
    functions is written after the loop that fills it. Randomness is an argument. Scale on a receiver that
    is not a new element does not occur in the modelled functions. *)
From Verif Require Import GoBase Json GroupIface Vector BIP BP.

Section Imp.
Context (G : Grp) (HO : Oracles).

(** A write access, to an element or to an integer. *)
Inductive access : Type := WrE (r : nat) | WrZ (r : nat).
(** The heap: element objects and big.Int objects; and the write accesses so far, latest first. *)
Record heap : Type := mkHeap { he : list (E G); hz : list Z; hw : list access }.
(** A pointer to an object, possibly nil. *)
Definition ptr : Type := option nat.

(** A Go statement: from the heap to a result and the heap after. *)
Definition M (A : Type) : Type := heap -> res (A * heap).
Definition ret {A} (a : A) : M A := fun h => Ok (a, h).
Definition mbind {A B} (m : M A) (f : A -> M B) : M B :=
  fun h => match m h with
           | Ok (a, h') => f a h'
           | Err => Err | Panic => Panic | OutOfFuel => OutOfFuel
           end.
Definition lift {A} (r : res A) : M A :=
  fun h => match r with Ok a => Ok (a, h) | Err => Err | Panic => Panic | OutOfFuel => OutOfFuel end.
Local Notation "x <~ m ;; k" := (mbind m (fun x => k)) (at level 61, m at next level, right associativity).
Local Notation "m ;;; k" := (mbind m (fun _ => k)) (at level 61, right associativity).

Fixpoint mmap {A B} (f : A -> M B) (l : list A) : M (list B) :=
  match l with
  | [] => ret []
  | a :: t => b <~ f a ;; r <~ mmap f t ;; ret (b :: r)
  end.

Fixpoint setNth {A} (l : list A) (i : nat) (x : A) : list A :=
  match l, i with
  | [], _ => []
  | _ :: t, O => x :: t
  | a :: t, S j => a :: setNth t j x
  end.

(** Reading, writing and allocating objects; nil pointers panic. Writes are recorded. *)
Definition rdE (p : ptr) : M (E G) := fun h =>
  match p with
  | Some r => match nth_error (he h) r with Some v => Ok (v, h) | None => Panic end
  | None => Panic
  end.
Definition wrE (p : ptr) (v : E G) : M unit := fun h =>
  match p with
  | Some r => if Nat.ltb r (length (he h)) then Ok (tt, mkHeap (setNth (he h) r v) (hz h) (WrE r :: hw h)) else Panic
  | None => Panic
  end.
Definition newE (v : E G) : M ptr := fun h => Ok (Some (length (he h)), mkHeap (he h ++ [v]) (hz h) (hw h)).
Definition rdZ (p : ptr) : M Z := fun h =>
  match p with
  | Some r => match nth_error (hz h) r with Some v => Ok (v, h) | None => Panic end
  | None => Panic
  end.
Definition wrZ (p : ptr) (v : Z) : M unit := fun h =>
  match p with
  | Some r => if Nat.ltb r (length (hz h)) then Ok (tt, mkHeap (he h) (setNth (hz h) r v) (WrZ r :: hw h)) else Panic
  | None => Panic
  end.
Definition newZ (v : Z) : M ptr := fun h => Ok (Some (length (hz h)), mkHeap (he h) (hz h ++ [v]) (hw h)).

(** Element methods e.Op(args): the receiver e is written (group/group.go 9-53). *)
Definition eAdd (e a b : ptr) : M unit := x <~ rdE a ;; y <~ rdE b ;; wrE e (gAdd G x y).
Definition eSub (e a b : ptr) : M unit := x <~ rdE a ;; y <~ rdE b ;; wrE e (gSub G x y).
Definition eNeg (e a : ptr) : M unit := x <~ rdE a ;; wrE e (gNeg G x).
Definition eScale (e a s : ptr) : M unit := x <~ rdE a ;; k <~ rdZ s ;; wrE e (gScale G x k).
Definition eBase (e s : ptr) : M unit := k <~ rdZ s ;; wrE e (gBase G k).
(** SP.Element().Op(args) *)
Definition element (op : ptr -> M unit) : M ptr := e <~ newE (gNew G) ;; op e ;;; ret e.

(** math/big methods e.Op(args): the receiver e is written. *)
Definition zAdd (e a b : ptr) : M unit := x <~ rdZ a ;; y <~ rdZ b ;; wrZ e (x + y).
Definition zSub (e a b : ptr) : M unit := x <~ rdZ a ;; y <~ rdZ b ;; wrZ e (x - y).
Definition zMul (e a b : ptr) : M unit := x <~ rdZ a ;; y <~ rdZ b ;; wrZ e (x * y).
Definition zMod (e a m : ptr) : M unit := x <~ rdZ a ;; y <~ rdZ m ;; wrZ e (x mod y).
Definition zDiv (e a m : ptr) : M unit := x <~ rdZ a ;; y <~ rdZ m ;; wrZ e (x / y).
Definition zNeg (e a : ptr) : M unit := x <~ rdZ a ;; wrZ e (- x).
(** new(big.Int).Op(args); bn.Add, bn.Multiply, bn.Mod, bn.Sub of github.com/ing-bank/zkrp/util/bn *)
Definition bigInt (op : ptr -> M unit) : M ptr := e <~ newZ 0 ;; op e ;;; ret e.
(** new(big.Int).ModInverse, bn.ModInverse: nil when there is no inverse *)
Definition zInverse (a m : ptr) : M ptr :=
  x <~ rdZ a ;; n <~ rdZ m ;;
  match modInverse x n with Some v => newZ v | None => ret None end.

(** ** util/util.go *)
(** util.go 29-38 Decompose: the loop variable x is a new integer after each division *)
Fixpoint iDecompose_loop (l : nat) (x : ptr) (u : Z) : M (list Z) :=
  match l with
  | O => ret []
  | S l' =>
      u1 <~ newZ u ;; d <~ bigInt (fun e => zMod e x u1) ;; digit <~ rdZ d ;;
      u2 <~ newZ u ;; x' <~ bigInt (fun e => zDiv e x u2) ;;
      r <~ iDecompose_loop l' x' u ;; ret (digit :: r)
  end.
Definition iDecompose (x : ptr) (u l : Z) : M (list Z) :=
  n <~ lift (make_len l) ;; iDecompose_loop n x u.

(** util.go 41-46 PedersenCommit *)
Definition iPedersenCommit (x r h : ptr) : M ptr :=
  C <~ element (fun e => eBase e x) ;;
  Hr <~ element (fun e => eScale e h r) ;;
  element (fun e => eAdd e C Hr).

(** ** bulletproofs/vector.go. An ignored error leaves a nil slice, here the empty list. *)
(** vector.go 31-43 VectorCopy: n times the same pointer *)
Definition iVectorCopy (a : ptr) (n : Z) : M (list ptr) :=
  k <~ lift (make_len n) ;; ret (repeat a k).
(** vector.go 48-60 VectorConvertToBig *)
Definition iVectorConvertToBig (a : list Z) (n : Z) : M (list ptr) :=
  k <~ lift (make_len n) ;; l <~ lift (slice_to a k) ;; mmap newZ l.
(** vector.go 65-83 VectorAdd *)
Definition iVectorAdd (a b : list ptr) (mod_ : ptr) : M (list ptr) :=
  if Nat.eqb (length a) (length b)
  then mmap (fun ab => t <~ bigInt (fun e => zAdd e (fst ab) (snd ab)) ;; bigInt (fun e => zMod e t mod_)) (combine a b)
  else ret [].
(** vector.go 139-157 VectorMul *)
Definition iVectorMul (a b : list ptr) (mod_ : ptr) : M (list ptr) :=
  if Nat.eqb (length a) (length b)
  then mmap (fun ab => t <~ bigInt (fun e => zMul e (fst ab) (snd ab)) ;; bigInt (fun e => zMod e t mod_)) (combine a b)
  else ret [].
(** vector.go 108-115 VectorAddConst: result[i] is reduced in place *)
Definition iVectorAddConst (a : list ptr) (c mod_ : ptr) : M (list ptr) :=
  mmap (fun x => t <~ bigInt (fun e => zAdd e x c) ;; zMod t t mod_ ;;; ret t) a.
(** vector.go 120-134 VectorScalarMul *)
Definition iVectorScalarMul (a : list ptr) (b mod_ : ptr) : M (list ptr) :=
  mmap (fun x => t <~ bigInt (fun e => zMul e x b) ;; bigInt (fun e => zMod e t mod_)) a.
(** vector.go 159-167 VectorInnerProduct: result and tmp are updated in place *)
Fixpoint ivip_loop (a b : list ptr) (mod_ result : ptr) : M unit :=
  match a, b with
  | [], _ => ret tt
  | x :: a', y :: b' =>
      tmp <~ bigInt (fun e => zMul e x y) ;;
      zMod tmp tmp mod_ ;;; zAdd result result tmp ;;;
      ivip_loop a' b' mod_ result
  | _ :: _, [] => lift Panic
  end.
Definition iVectorInnerProduct (a b : list ptr) (mod_ : ptr) : M ptr :=
  result <~ newZ 0 ;; ivip_loop a b mod_ result ;;; zMod result result mod_ ;;; ret result.
(** vector.go 172-190 VectorECAdd *)
Definition iVectorECAdd (a b : list ptr) : M (list ptr) :=
  if Nat.eqb (length a) (length b)
  then mmap (fun ab => element (fun e => eAdd e (fst ab) (snd ab))) (combine a b)
  else ret [].

(** ** bulletproofs/util.go. [N] is the pointer returned by SP.N(), the order stored in the group. *)
(** util.go 34-49 powerOf *)
Fixpoint ipowerOf_loop (n : nat) (current x N : ptr) : M (list ptr) :=
  match n with
  | O => ret []
  | S n' =>
      t <~ bigInt (fun e => zMul e current x) ;; current' <~ bigInt (fun e => zMod e t N) ;;
      r <~ ipowerOf_loop n' current' x N ;; ret (current :: r)
  end.
Definition ipowerOf (x : ptr) (n : Z) (N : ptr) : M (list ptr) :=
  k <~ lift (make_len n) ;; current <~ newZ 1 ;; ipowerOf_loop k current x N.
(** util.go 54-76 HashBP *)
Definition iHashBP (A S : ptr) : M (ptr * ptr) :=
  a <~ rdE A ;; s <~ rdE S ;;
  r1 <~ newZ (fst (HashBP G HO a s)) ;; r2 <~ newZ (snd (HashBP G HO a s)) ;; ret (r1, r2).
(** util.go 81-100 VectorExp; nil on an error *)
Fixpoint iVectorExp_loop (l : list (ptr * ptr)) (result : ptr) : M ptr :=
  match l with
  | [] => ret result
  | (a, b) :: t =>
      s <~ element (fun e => eScale e a b) ;; r <~ element (fun e => eAdd e result s) ;; iVectorExp_loop t r
  end.
Definition iVectorExp (a b : list ptr) : M ptr :=
  if Nat.eqb (length a) (length b)
  then result <~ newE (gId G) ;; iVectorExp_loop (combine a b) result
  else ret None.
(** util.go 105-124 ScalarProduct: result is added to in place, then replaced; nil on an error *)
Fixpoint iScalarProduct_loop (l : list (ptr * ptr)) (N result : ptr) : M ptr :=
  match l with
  | [] => ret result
  | (a, b) :: t =>
      ab <~ bigInt (fun e => zMul e a b) ;; zAdd result result ab ;;;
      r <~ bigInt (fun e => zMod e result N) ;; iScalarProduct_loop t N r
  end.
Definition iScalarProduct (a b : list ptr) (N : ptr) : M ptr :=
  if Nat.eqb (length a) (length b)
  then result <~ newZ 0 ;; iScalarProduct_loop (combine a b) N result
  else ret None.

(** ** bulletproofs/bip.go *)
(** bip.go 37-42 InnerProductParams and 47-55 InnerProductProof *)
Record IPParamsP : Type := mkIPParamsP { qGg : list ptr; qHh : list ptr; qUu : ptr }.
Record IPProofP : Type := mkIPProofP {
  qP : ptr; qCc : ptr; qA : ptr; qB : ptr; qL : list ptr; qR : list ptr; qParams : IPParamsP
}.

(** bip.go 300-307 vectorScalarExp *)
Definition ivectorScalarExp (a : list ptr) (b : ptr) : M (list ptr) :=
  mmap (fun X => element (fun e => eScale e X b)) a.

(** bip.go 61-89 setupInnerProduct, called with non-nil slices *)
Definition isetupInnerProduct (g h : list ptr) (N : Z) : M IPParamsP :=
  if N <=? 0 then lift Err else
  u <~ lift (gMap G (str_bytes SEEDU)) ;; Uu <~ newE u ;; ret (mkIPParamsP g h Uu).

(** bip.go 271-286 hashIP; String of a nil big.Int prints "<nil>" *)
Fixpoint ihashIP_elems (g h : list ptr) : M bytes :=
  match g, h with
  | [], _ => ret []
  | X :: g', Y :: h' =>
      x <~ rdE X ;; y <~ rdE Y ;; r <~ ihashIP_elems g' h' ;; ret (gStr G x ++ gStr G y ++ r)
  | _ :: _, [] => lift Panic
  end.
Definition decPtr (c : ptr) : M bytes :=
  match c with None => ret (dec_str_opt None) | Some _ => v <~ rdZ c ;; ret (dec_str v) end.
Definition ihashIP (g h : list ptr) (P c : ptr) : M ptr :=
  p <~ rdE P ;; m <~ ihashIP_elems g h ;; s <~ decPtr c ;;
  newZ (fromByteArray HO (sha256 HO (gStr G p ++ m ++ s))).

(** bip.go 92-97 computePP *)
Definition icomputePP (P c x u : ptr) : M (ptr * ptr) :=
  ux <~ element (fun e => eScale e u x) ;;
  uxc <~ element (fun e => eScale e ux c) ;;
  PP <~ element (fun e => eAdd e P uxc) ;;
  ret (PP, ux).

(** bip.go 180-186, 236-243 *)
Definition ifoldGens (v : list ptr) (np : nat) (e1 e2 : ptr) : M (list ptr) :=
  lo <~ lift (slice_to v np) ;; lo' <~ ivectorScalarExp lo e1 ;;
  hi <~ lift (slice_from v np) ;; hi' <~ ivectorScalarExp hi e2 ;;
  iVectorECAdd lo' hi'.

(** bip.go 136-210 computeBipRecursive: L, R and P' are accumulated in place *)
Fixpoint icomputeBipRecursive (fuel : nat) (a b : list ptr) (g h : list ptr) (u P : ptr) (n : nat)
    (Ls Rs : list ptr) (N : ptr) : M (ptr * ptr * ptr * list ptr * list ptr) :=
  if Nat.eqb n 1 then
    a0 <~ lift (idx a 0) ;; b0 <~ lift (idx b 0) ;; ret (a0, b0, P, Ls, Rs)
  else
  match fuel with
  | O => lift OutOfFuel
  | S fuel' =>
    let np := Nat.div n 2 in
    alo <~ lift (slice_to a np) ;; ahi <~ lift (slice_from a np) ;;
    blo <~ lift (slice_to b np) ;; bhi <~ lift (slice_from b np) ;;
    glo <~ lift (slice_to g np) ;; ghi <~ lift (slice_from g np) ;;
    hlo <~ lift (slice_to h np) ;; hhi <~ lift (slice_from h np) ;;
    cL <~ iScalarProduct alo bhi N ;;                               (* 160 *)
    cR <~ iScalarProduct ahi blo N ;;                               (* 162 *)
    L <~ iVectorExp ghi alo ;; Lh <~ iVectorExp hlo bhi ;;          (* 164-165 *)
    eAdd L L Lh ;;;                                                 (* 166 *)
    ucL <~ element (fun e => eScale e u cL) ;; eAdd L L ucL ;;;     (* 167 *)
    R <~ iVectorExp glo ahi ;; Rh <~ iVectorExp hhi blo ;;          (* 170-171 *)
    eAdd R R Rh ;;;                                                 (* 172 *)
    ucR <~ element (fun e => eScale e u cR) ;; eAdd R R ucR ;;;     (* 173 *)
    xx <~ iHashBP L R ;; let x := fst xx in                         (* 176 *)
    xinv <~ zInverse x N ;;                                         (* 177 *)
    gp <~ ifoldGens g np xinv x ;;                                  (* 180-182 *)
    hp <~ ifoldGens h np x xinv ;;                                  (* 184-186 *)
    xsq <~ bigInt (fun e => zMul e x x) ;; x2 <~ bigInt (fun e => zMod e xsq N) ;;   (* 189 *)
    x2inv <~ zInverse x2 N ;;                                       (* 190 *)
    Pp <~ element (fun e => eScale e L x2) ;;                       (* 191 *)
    eAdd Pp Pp P ;;;                                                (* 192 *)
    Rx <~ element (fun e => eScale e R x2inv) ;; eAdd Pp Pp Rx ;;;  (* 193 *)
    ap1 <~ iVectorScalarMul alo x N ;; ap2 <~ iVectorScalarMul ahi xinv N ;; ap <~ iVectorAdd ap1 ap2 N ;;
    bp1 <~ iVectorScalarMul blo xinv N ;; bp2 <~ iVectorScalarMul bhi x N ;; bp <~ iVectorAdd bp1 bp2 N ;;
    icomputeBipRecursive fuel' ap bp gp hp u Pp np (Ls ++ [L]) (Rs ++ [R]) N
  end.

(** bip.go 102-131 proveInnerProduct *)
Definition iproveInnerProduct (fuel : nat) (a b : list ptr) (P c : ptr) (params : IPParamsP) (N : ptr) : M IPProofP :=
  if negb (Nat.eqb (length a) (length b)) then lift Err else
  x <~ ihashIP (qGg params) (qHh params) P c ;;
  PPux <~ icomputePP P c x (qUu params) ;;
  r <~ icomputeBipRecursive fuel a b (qGg params) (qHh params) (snd PPux) (fst PPux) (length a) [] [] N ;;
  let '(a', b', _, Ls, Rs) := r in
  ret (mkIPProofP P c a' b' Ls Rs params).

(** bip.go 232-249: the loop of Verify; Pprime is updated in place *)
Fixpoint iipVerifyLoop (Ls Rs : list ptr) (g h : list ptr) (np : nat) (Pp N : ptr) : M (list ptr * list ptr) :=
  match Ls with
  | [] => ret (g, h)
  | L :: Ls' =>
      match Rs with
      | [] => lift Panic
      | R :: Rs' =>
        let np' := Nat.div np 2 in
        xx <~ iHashBP L R ;; let x := fst xx in
        xinv <~ zInverse x N ;;
        g' <~ ifoldGens g np' xinv x ;;
        h' <~ ifoldGens h np' x xinv ;;
        xsq <~ bigInt (fun e => zMul e x x) ;; x2 <~ bigInt (fun e => zMod e xsq N) ;;
        x2inv <~ zInverse x2 N ;;
        Lx <~ element (fun e => eScale e L x2) ;; eAdd Pp Pp Lx ;;;
        Rx <~ element (fun e => eScale e R x2inv) ;; eAdd Pp Pp Rx ;;;
        iipVerifyLoop Ls' Rs' g' h' np' Pp N
      end
  end.

(** bip.go 215-266 InnerProductProof.Verify *)
Definition iipVerify (pf : IPProofP) (N : ptr) : M bool :=
  let params := qParams pf in
  x <~ ihashIP (qGg params) (qHh params) (qP pf) (qCc pf) ;;
  PPux <~ icomputePP (qP pf) (qCc pf) x (qUu params) ;;
  let '(Pp, ux) := PPux in
  gh <~ iipVerifyLoop (qL pf) (qR pf) (qGg params) (qHh params) (length (qGg params)) Pp N ;;
  ab0 <~ bigInt (fun e => zMul e (qA pf) (qB pf)) ;; ab <~ bigInt (fun e => zMod e ab0 N) ;;
  g0 <~ lift (idx (fst gh) 0) ;; rhs0 <~ element (fun e => eScale e g0 (qA pf)) ;;
  h0 <~ lift (idx (snd gh) 0) ;; hb <~ element (fun e => eScale e h0 (qB pf)) ;;
  rhs1 <~ element (fun e => eAdd e rhs0 hb) ;;
  uab <~ element (fun e => eScale e ux ab) ;; rhs <~ element (fun e => eAdd e rhs1 uab) ;;
  nP <~ element (fun e => eNeg e Pp) ;;
  eAdd nP nP rhs ;;;
  v <~ rdE nP ;; ret (gIsId G v).

(** bip.go 291-295 commitInnerProduct *)
Definition icommitInnerProduct (g h a b : list ptr) : M ptr :=
  ga <~ iVectorExp g a ;; hb <~ iVectorExp h b ;; element (fun e => eAdd e ga hb).

(** ** bulletproofs/bp.go *)
(** bp.go 35-50 BulletProofSetupParams and 56-67 BulletProof *)
Record BPParamsP : Type := mkBPParamsP { rN : Z; rG : ptr; rH : ptr; rGg : list ptr; rHh : list ptr }.
Record BulletProofP : Type := mkBulletProofP {
  rV : ptr; rA : ptr; rS : ptr; rT1 : ptr; rT2 : ptr; rTaux : ptr; rMu : ptr; rTprime : ptr;
  rIPP : IPProofP; rParams : BPParamsP
}.

(** bp.go 337-343 sampleRandomVector *)
Definition isampleRandomVector (N : Z) (f : nat -> Z) : M (list ptr) :=
  n <~ lift (make_len N) ;; mmap (fun i => newZ (f i)) (seq 0 n).

(** bp.go 352-367 updateGenerators: the first entry is the pointer Hh[0] itself *)
Fixpoint iupdGen_loop (cnt : nat) (hs : list ptr) (yExp yInv : ptr) : M (list ptr) :=
  match cnt with
  | O => ret []
  | S c =>
      match hs with
      | [] => lift Panic
      | h :: t =>
          e <~ element (fun e => eScale e h yExp) ;;
          yExp' <~ bigInt (fun e => zMul e yExp yInv) ;;
          r <~ iupdGen_loop c t yExp' yInv ;; ret (e :: r)
      end
  end.
Definition iupdateGenerators (Hh : list ptr) (y : ptr) (N : Z) (GPN : ptr) : M (list ptr) :=
  n <~ lift (make_len N) ;;
  yInv <~ zInverse y GPN ;;
  match n, Hh with
  | S n', h0 :: Ht => r <~ iupdGen_loop n' Ht yInv yInv ;; ret (h0 :: r)
  | _, _ => lift Panic
  end.

(** bp.go 386-396 commitVectorBig: R is accumulated in place *)
Fixpoint icommitVectorBig_loop (n : nat) (aL aR g h : list ptr) (R : ptr) : M unit :=
  match n with
  | O => ret tt
  | S n' =>
      match aL, aR, g, h with
      | l :: aL', r :: aR', gi :: g', hi :: h' =>
          gl <~ element (fun e => eScale e gi l) ;; eAdd R R gl ;;;
          hr <~ element (fun e => eScale e hi r) ;; eAdd R R hr ;;;
          icommitVectorBig_loop n' aL' aR' g' h' R
      | _, _, _, _ => lift Panic
      end
  end.
Definition icommitVectorBig (aL aR : list ptr) (alpha H : ptr) (g h : list ptr) (n : Z) : M ptr :=
  R <~ element (fun e => eScale e H alpha) ;;
  icommitVectorBig_loop (Z.to_nat n) aL aR g h R ;;; ret R.

(** bp.go 399-411 commitVector: int64 vectors *)
Fixpoint icommitVector_loop (n : nat) (aL aR : list Z) (g h : list ptr) (R : ptr) : M unit :=
  match n with
  | O => ret tt
  | S n' =>
      match aL, aR, g, h with
      | l :: aL', r :: aR', gi :: g', hi :: h' =>
          lp <~ newZ l ;; gaL <~ element (fun e => eScale e gi lp) ;;
          rp <~ newZ r ;; haR <~ element (fun e => eScale e hi rp) ;;
          eAdd R R gaL ;;; eAdd R R haR ;;;
          icommitVector_loop n' aL' aR' g' h' R
      | _, _, _, _ => lift Panic
      end
  end.
Definition icommitVector (aL aR : list Z) (alpha H : ptr) (g h : list ptr) (n : Z) : M ptr :=
  R <~ element (fun e => eScale e H alpha) ;;
  icommitVector_loop (Z.to_nat n) aL aR g h R ;;; ret R.

(** bp.go 414-441 delta: t2 and result are overwritten in place *)
Definition idelta (N : Z) (y z mod_ : ptr) : M ptr :=
  result <~ newZ 0 ;;
  one <~ newZ 1 ;; onePow <~ iVectorCopy one N ;;
  two <~ newZ 2 ;; twoPow <~ ipowerOf two N mod_ ;;
  yPow <~ ipowerOf y N mod_ ;;
  zz <~ bigInt (fun e => zMul e z z) ;; zSquared <~ bigInt (fun e => zMod e zz mod_) ;;
  zzz <~ bigInt (fun e => zMul e zSquared z) ;; zCubed <~ bigInt (fun e => zMod e zzz mod_) ;;
  d <~ bigInt (fun e => zSub e z zSquared) ;; t1 <~ bigInt (fun e => zMod e d mod_) ;;
  t2 <~ iScalarProduct onePow yPow mod_ ;;
  sp12 <~ iScalarProduct onePow twoPow mod_ ;;
  t30 <~ bigInt (fun e => zMul e zCubed sp12) ;; t3 <~ bigInt (fun e => zMod e t30 mod_) ;;
  zMul t2 t2 t1 ;;; zMod result t2 mod_ ;;;
  zSub result result t3 ;;; zMod result result mod_ ;;;
  ret result.

(** bp.go 104-243 Prove. The random draws become objects in the order of the code. *)
Definition iProve (secret : ptr) (params : BPParamsP) (rnd : BPRand) (mod_ : ptr) : M (BulletProofP * ptr) :=
  let N := rN params in
  let H := rH params in
  md <~ rdZ mod_ ;; vgamma <~ lift (randInt md (r_gamma rnd)) ;; gamma <~ newZ vgamma ;;
  V <~ iPedersenCommit secret gamma H ;;
  aL <~ iDecompose secret 2 N ;;
  let aR := nil_slice (computeAR aL) in
  alpha <~ newZ (r_alpha rnd) ;;
  A <~ icommitVector aL aR alpha H (rGg params) (rHh params) N ;;
  sL <~ isampleRandomVector N (r_sL rnd) ;;
  sR <~ isampleRandomVector N (r_sR rnd) ;;
  rho <~ newZ (r_rho rnd) ;;
  S <~ icommitVectorBig sL sR rho H (rGg params) (rHh params) N ;;
  yz <~ iHashBP A S ;; let '(y, z) := yz in
  tau1 <~ newZ (r_tau1 rnd) ;; tau2 <~ newZ (r_tau2 rnd) ;;
  yPow <~ ipowerOf y N mod_ ;;
  two <~ newZ 2 ;; powersOf2 <~ ipowerOf two N mod_ ;;
  zSquared <~ bigInt (fun e => zMul e z z) ;;
  powersOf2TimesZSquared <~ iVectorScalarMul powersOf2 zSquared mod_ ;;
  aLb <~ iVectorConvertToBig aL N ;; aRb <~ iVectorConvertToBig aR N ;;
  mz <~ bigInt (fun e => zNeg e z) ;; l0 <~ iVectorAddConst aLb mz mod_ ;;
  vecZ <~ iVectorCopy z N ;; aRzn <~ iVectorAdd vecZ aRb mod_ ;;
  r0' <~ iVectorMul yPow aRzn mod_ ;; r0 <~ iVectorAdd r0' powersOf2TimesZSquared mod_ ;;
  r1 <~ iVectorMul yPow sR mod_ ;;
  t1left <~ iVectorInnerProduct sL r0 mod_ ;;
  t1right <~ iVectorInnerProduct l0 r1 mod_ ;;
  t1s <~ bigInt (fun e => zAdd e t1left t1right) ;; t1 <~ bigInt (fun e => zMod e t1s mod_) ;;
  t2 <~ iVectorInnerProduct sL r1 mod_ ;;
  T1 <~ iPedersenCommit t1 tau1 H ;; T2 <~ iPedersenCommit t2 tau2 H ;;
  xx <~ iHashBP T1 T2 ;; let x := fst xx in
  sLx <~ iVectorScalarMul sL x mod_ ;; bl <~ iVectorAdd l0 sLx mod_ ;;
  sRx <~ iVectorScalarMul sR x mod_ ;; tmp <~ iVectorAdd aRzn sRx mod_ ;;
  tmp' <~ iVectorMul yPow tmp mod_ ;; br <~ iVectorAdd tmp' powersOf2TimesZSquared mod_ ;;
  th <~ iScalarProduct bl br mod_ ;;
  xsq <~ bigInt (fun e => zMul e x x) ;; tauX <~ bigInt (fun e => zMul e tau2 xsq) ;;
  t1x <~ bigInt (fun e => zMul e tau1 x) ;; zAdd tauX tauX t1x ;;;
  zg <~ bigInt (fun e => zMul e zSquared gamma) ;; zAdd tauX tauX zg ;;;
  zMod tauX tauX mod_ ;;;
  mu <~ bigInt (fun e => zMul e rho x) ;; zAdd mu mu alpha ;;; zMod mu mu mod_ ;;;
  hp <~ iupdateGenerators (rHh params) y N mod_ ;;
  ipp <~ isetupInnerProduct (rGg params) hp N ;;
  commit <~ icommitInnerProduct (rGg params) hp bl br ;;
  ipProof <~ iproveInnerProduct (length bl) bl br commit th ipp mod_ ;;
  ret (mkBulletProofP V A S T1 T2 tauX mu th ipProof params, gamma).

(** bp.go 248-332 Verify: rhs, lP and rP are accumulated in place *)
Definition iVerify (proof : BulletProofP) (mod_ : ptr) : M bool :=
  let params := rParams proof in
  let N := rN params in
  xx <~ iHashBP (rT1 proof) (rT2 proof) ;; let x := fst xx in
  yz <~ iHashBP (rA proof) (rS proof) ;; let '(y, z) := yz in
  zz <~ bigInt (fun e => zMul e z z) ;; zSquared <~ bigInt (fun e => zMod e zz mod_) ;;
  xsq <~ bigInt (fun e => zMul e x x) ;; xSquared <~ bigInt (fun e => zMod e xsq mod_) ;;
  hp <~ iupdateGenerators (rHh params) y N mod_ ;;
  lhs <~ iPedersenCommit (rTprime proof) (rTaux proof) (rH params) ;;
  rhs <~ element (fun e => eScale e (rV proof) zSquared) ;;
  d <~ idelta N y z mod_ ;;
  gDelta <~ element (fun e => eBase e d) ;;
  eAdd rhs rhs gDelta ;;;
  T1x <~ element (fun e => eScale e (rT1 proof) x) ;;
  T2x2 <~ element (fun e => eScale e (rT2 proof) xSquared) ;;
  eAdd rhs rhs T1x ;;; eAdd rhs rhs T2x2 ;;;
  vr <~ rdE rhs ;; vl <~ rdE lhs ;; let c65 := gEq G vr vl in
  Sx <~ element (fun e => eScale e (rS proof) x) ;;
  ASx <~ element (fun e => eAdd e (rA proof) Sx) ;;
  mz <~ bigInt (fun e => zSub e mod_ z) ;;
  vmz <~ iVectorCopy mz N ;; gpmz <~ iVectorExp (rGg params) vmz ;;
  vz <~ iVectorCopy z N ;; vy <~ ipowerOf y N mod_ ;; zyn <~ iVectorMul vy vz mod_ ;;
  two <~ newZ 2 ;; p2n <~ ipowerOf two N mod_ ;; z22n <~ iVectorScalarMul p2n zSquared mod_ ;;
  zynz22n <~ iVectorAdd zyn z22n mod_ ;;
  lP <~ element (fun e => eAdd e ASx gpmz) ;;
  hpExp <~ iVectorExp hp zynz22n ;;
  eAdd lP lP hpExp ;;;
  rP <~ element (fun e => eScale e (rH params) (rMu proof)) ;;
  eAdd rP rP (qP (rIPP proof)) ;;;
  eSub rP rP lP ;;;
  v <~ rdE rP ;; let c67 := gIsId G v in
  ok <~ iipVerify (rIPP proof) mod_ ;;
  ret (c65 && c67 && ok).
End Imp.
