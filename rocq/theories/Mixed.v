(** Elements of several groups in one program: the run-time checks that keep them apart.  Unlike Heap.v, which
    has one mod-p group and follows the val pointers, this model has any number of mod-p groups and of curve
    types, and stores the value in the object (PropHeap.v shows that no two objects share a value). *)
From Verif Require Import GoBase Json GroupIface ModP.

Section Mixed.
(** The memory behind *ModPGroup pointers (modsafeprime.go 15-20); no method writes to it. *)
Context (mg : nat -> ModPDesc).
(** The other element types (p256Point, p384Point, r255Point, p256k1Point): the group each stands for, the effect
    of the decoding methods (SetBytes, UnmarshalBinary, UnmarshalJSON) on the receiver, and whether MapToGroup
    writes to the receiver and returns it (p256.go 133-138, ristretto255.go 133-138) or returns a new element
    (p256k1.go 153-159). *)
Context (cg : nat -> Grp) (cdec : forall c, E (cg c) -> bytes -> res (E (cg c))) (inPlace : nat -> bool).

(** modsafeprime.go 10-13, p256.go 17-21, p256k1.go 16-19: an element knows its group *)
Inductive obj : Type := OM (g : nat) (z : Z) | OC (c : nat) (p : E (cg c)).
Record st : Type := mkSt { env : nat -> option nat; obs : list obj }.
Definition init : st := mkSt (fun _ => None) [].

Fixpoint put (l : list obj) (i : nat) (o : obj) : list obj :=
  match l, i with
  | [], _ => []
  | _ :: t, O => o :: t
  | x :: t, S j => x :: put t j o
  end.
Definition store (s : st) (i : nat) (o : obj) : st := mkSt (env s) (put (obs s) i o).
Definition new (s : st) (x : nat) (o : obj) : st :=
  mkSt (fun y => if Nat.eqb y x then Some (length (obs s)) else env s y) (obs s ++ [o]).
Definition ref (s : st) (x : nat) : res nat := deref (env s x).
Definition load (s : st) (i : nat) : res obj := deref (nth_error (obs s) i).
Definition arg (s : st) (x : nat) : res obj := i <- ref s x ;; load s i.

(** modsafeprime.go 30-39 equals: same pointer, or same field order and generator *)
Definition equals (g h : nat) : bool :=
  Nat.eqb g h || ((mpField (mg g) =? mpField (mg h)) && (mpGen (mg g) =? mpGen (mg h))).
(** modsafeprime.go 77-86 check, for a receiver of group [g] *)
Definition checkM (g : nat) (o : obj) : res Z :=
  match o with OM h z => if equals g h then Ok z else Panic | OC _ _ => Panic end.
(** p256.go 67-73, p384.go 67-73, ristretto255.go 67-73, p256k1.go 65-71 check: the type assertion *)
Definition checkC (c : nat) (o : obj) : res (E (cg c)) :=
  match o with
  | OM _ _ => Panic
  | OC c' p => match Nat.eq_dec c' c with left e => Ok (eq_rect c' (fun k => E (cg k)) p c e) | right _ => Panic end
  end.

Inductive call : Type :=
| NewM (x g : nat) | IdM (x g : nat) | GenM (x g : nat)             (* Element(), Identity(), Generator() *)
| NewC (x c : nat) | IdC (x c : nat) | GenC (x c : nat)
| RandM (x g : nat) (r : Z)                                         (* Random(), 63-68; r the draw *)
| Assign (x y : nat)
| Add (r a b : nat) | Subtract (r a b : nat) | Negate (r a : nat) | SetTo (r a : nat)
| Scale (r a : nat) (k : Z) | BaseScale (r : nat) (k : Z)
| MapToGroup (x r : nat) (m : bytes)                                (* x, _ = r.MapToGroup(m) *)
| Decode (r : nat) (b : bytes).                                     (* SetBytes, UnmarshalBinary, UnmarshalJSON *)

(** Method dispatch on the receiver: modsafeprime.go 88-134, 152-172; p256.go 75-138; p256k1.go 73-159 *)
Definition method (s : st) (r : nat) (fm : nat -> Z -> res Z) (fc : forall c, E (cg c) -> res (E (cg c))) : res st :=
  i <- ref s r ;; o <- load s i ;;
  match o with
  | OM g old => z <- fm g old ;; Ok (store s i (OM g z))
  | OC c old => p <- fc c old ;; Ok (store s i (OC c p))
  end.

Definition exec (k : call) (s : st) : res st :=
  match k with
  | NewM x g => Ok (new s x (OM g 0))
  | IdM x g => Ok (new s x (OM g 1))
  | GenM x g => Ok (new s x (OM g (mpGen (mg g))))
  | NewC x c => Ok (new s x (OC c (gNew (cg c))))
  | IdC x c => Ok (new s x (OC c (gId (cg c))))
  | GenC x c => Ok (new s x (OC c (gGen (cg c))))
  | RandM x g r => Ok (new s x (OM g (mpBaseScale (mg g) 1 r)))
  | Assign x y => Ok (mkSt (fun z => if Nat.eqb z x then env s y else env s z) (obs s))
  | Add r a b => method s r
      (fun g _ => oa <- arg s a ;; za <- checkM g oa ;; ob <- arg s b ;; zb <- checkM g ob ;; Ok (mpAdd (mg g) za zb))
      (fun c _ => oa <- arg s a ;; pa <- checkC c oa ;; ob <- arg s b ;; pb <- checkC c ob ;; Ok (gAdd (cg c) pa pb))
  | Subtract r a b => method s r                              (* tmp has the receiver's group; Negate(b) comes first *)
      (fun g _ => ob <- arg s b ;; zb <- checkM g ob ;; oa <- arg s a ;; za <- checkM g oa ;; Ok (mpSub (mg g) za zb))
      (fun c _ => ob <- arg s b ;; pb <- checkC c ob ;; oa <- arg s a ;; pa <- checkC c oa ;; Ok (gSub (cg c) pa pb))
  | Negate r a => method s r
      (fun g old => oa <- arg s a ;; za <- checkM g oa ;; Ok (mpNegate (mg g) old za))
      (fun c _ => oa <- arg s a ;; pa <- checkC c oa ;; Ok (gNeg (cg c) pa))
  | SetTo r a => method s r
      (fun g _ => oa <- arg s a ;; checkM g oa)
      (fun c _ => oa <- arg s a ;; checkC c oa)
  | Scale r a k => method s r
      (fun g old => oa <- arg s a ;; za <- checkM g oa ;; Ok (mpScale (mg g) old za k))
      (fun c _ => oa <- arg s a ;; pa <- checkC c oa ;; Ok (gScale (cg c) pa k))
  | BaseScale r k => method s r (fun g old => Ok (mpBaseScale (mg g) old k)) (fun c _ => Ok (gBase (cg c) k))
  | MapToGroup x r m =>
      i <- ref s r ;; o <- load s i ;;
      match o with
      | OM _ _ => Panic
      | OC c _ => p <- gMap (cg c) m ;;
          if inPlace c then Ok (mkSt (fun z => if Nat.eqb z x then Some i else env s z) (put (obs s) i (OC c p)))
          else Ok (new s x (OC c p))
      end
  | Decode r b => method s r (fun _ _ => Ok (os2ip b)) (fun c old => cdec c old b)
  end.

(** IsEqual: modsafeprime.go 109-112, p256.go 95-98, p256k1.go 93-117 *)
Definition isEqual (s : st) (r a : nat) : res bool :=
  i <- ref s r ;; o <- load s i ;;
  match o with
  | OM g z => oa <- arg s a ;; za <- checkM g oa ;; Ok (z =? za)
  | OC c p => oa <- arg s a ;; pa <- checkC c oa ;; Ok (gEq (cg c) p pa)
  end.

Fixpoint run (prog : list call) (s : st) : res st :=
  match prog with [] => Ok s | c :: t => s1 <- exec c s ;; run t s1 end.

(** What a variable holds *)
Definition view (s : st) (x : nat) : option obj := match env s x with Some i => nth_error (obs s) i | None => None end.
End Mixed.
Arguments OM {cg}. Arguments OC {cg}.
