(** marshal.go, bulletproofs/marshal.go and voteproof/marshal.go, and json.Marshal of a ballot, once more at the level of Go
    pointers (Imp.v, ImpVote.v): elements are made by Element() and filled in place by UnmarshalJSON; integers of the
    intermediate structures are pointers, which encoding/json allocates when nil and reuses otherwise. Marshal.v models the
    same functions on values. *)
From Verif Require Import GoBase Json GroupIface Vector BIP BP VoteProof ModP App Imp ImpVote Marshal.

Section ImpJsonE.
Context (G : Grp).
Local Notation M := (M G).
Local Notation "x <~ m ;; k" := (mbind G m (fun x => k)) (at level 61, m at next level, right associativity).
Local Notation "m ;;; k" := (mbind G m (fun _ => k)) (at level 61, right associativity).

(** ** json.Unmarshal into a struct with pointer fields. After a type error encoding/json goes on and reports it at the end;
    the callers then drop the struct, so the error is returned at once here. *)
Fixpoint iDecFields {S} (step : string -> json -> S -> M S) (cur : S) (l : list (string * json)) : M S :=
  match l with
  | [] => ret G cur
  | (k, v) :: t => cur' <~ step k v cur ;; iDecFields step cur' t
  end.
Definition iDecStruct {S} (step : string -> json -> S -> M S) (cur : S) (j : json) : M S :=
  match j with
  | JNull => ret G cur
  | JObj l => iDecFields step cur l
  | _ => lift G Err
  end.
Definition iUnmarshal {S} (step : string -> json -> S -> M S) (zero : S) (j : raw) : M S :=
  match j with None => lift G Err | Some d => iDecStruct step zero d end.
(** A field of type *big.Int holding [p]: null stores nil; an integer is written to the object, a new one if there is none *)
Definition iPutBig (p : ptr) (z : Z) : M ptr :=
  match p with
  | None => bigInt G (fun e => wrZ G e z)
  | Some _ => wrZ G p z ;;; ret G p
  end.
Definition iDecBig (p : ptr) (j : json) : M ptr :=
  match j with
  | JNull => ret G None
  | JInt z => iPutBig p z
  | JNegZero => iPutBig p 0
  | _ => lift G Err
  end.
(** Fields without pointers to integers: as in Marshal.v *)
Definition orErr {A} (o : option A) : res A := match o with Some a => Ok a | None => Err end.

(** _ = e.UnmarshalJSON(data): writes the receiver, the error is dropped *)
Definition eUnmarshal (e : ptr) (j : raw) : M unit := old <~ rdE G e ;; r <~ lift G (gOfJson G old j) ;; wrE G e (fst r).

(** ** bulletproofs/marshal.go *)
(** 16-24 *)
Record IPProofJP := mkIPProofJP {
  xP : raw; xCc : ptr; xa : ptr; xb : ptr; xL : list json; xR : list json; xIPParams : IPParamsJ }.
Definition iStepIPProof (k : string) (v : json) (c : IPProofJP) : M IPProofJP :=
  let '(mkIPProofJP P Cc a b L R pr) := c in
  if fold_eqb k "P" then ret G (mkIPProofJP (Some v) Cc a b L R pr)
  else if fold_eqb k "Cc" then x <~ iDecBig Cc v ;; ret G (mkIPProofJP P x a b L R pr)
  else if fold_eqb k "a" then x <~ iDecBig a v ;; ret G (mkIPProofJP P Cc x b L R pr)
  else if fold_eqb k "b" then x <~ iDecBig b v ;; ret G (mkIPProofJP P Cc a x L R pr)
  else if fold_eqb k "L" then x <~ lift G (orErr (dec_rawlist v)) ;; ret G (mkIPProofJP P Cc a b x R pr)
  else if fold_eqb k "R" then x <~ lift G (orErr (dec_rawlist v)) ;; ret G (mkIPProofJP P Cc a b L x pr)
  else if fold_eqb k "Params" then x <~ lift G (orErr (dec_struct stepIPParamsJ pr v)) ;; ret G (mkIPProofJP P Cc a b L R x)
  else ret G c.
Definition zeroIPProofJP := mkIPProofJP None None None None [] [] zeroIPParamsJ.
(** 26-37 *)
Record BulletProofJP := mkBulletProofJP {
  xV : raw; xA : raw; xS : raw; xT1 : raw; xT2 : raw; xTaux : ptr; xMu : ptr; xTprime : ptr; xIPP : IPProofJP; xBPParams : raw }.
Definition iStepBulletProof (k : string) (v : json) (c : BulletProofJP) : M BulletProofJP :=
  let '(mkBulletProofJP V A Sg T1 T2 tx mu tp ip pr) := c in
  if fold_eqb k "V" then ret G (mkBulletProofJP (Some v) A Sg T1 T2 tx mu tp ip pr)
  else if fold_eqb k "A" then ret G (mkBulletProofJP V (Some v) Sg T1 T2 tx mu tp ip pr)
  else if fold_eqb k "S" then ret G (mkBulletProofJP V A (Some v) T1 T2 tx mu tp ip pr)
  else if fold_eqb k "T1" then ret G (mkBulletProofJP V A Sg (Some v) T2 tx mu tp ip pr)
  else if fold_eqb k "T2" then ret G (mkBulletProofJP V A Sg T1 (Some v) tx mu tp ip pr)
  else if fold_eqb k "Taux" then x <~ iDecBig tx v ;; ret G (mkBulletProofJP V A Sg T1 T2 x mu tp ip pr)
  else if fold_eqb k "Mu" then x <~ iDecBig mu v ;; ret G (mkBulletProofJP V A Sg T1 T2 tx x tp ip pr)
  else if fold_eqb k "Tprime" then x <~ iDecBig tp v ;; ret G (mkBulletProofJP V A Sg T1 T2 tx mu x ip pr)
  else if fold_eqb k "InnerProductProof" then
    x <~ iDecStruct iStepIPProof ip v ;; ret G (mkBulletProofJP V A Sg T1 T2 tx mu tp x pr)
  else if fold_eqb k "Params" then ret G (mkBulletProofJP V A Sg T1 T2 tx mu tp ip (Some v))
  else ret G c.
Definition zeroBulletProofJP := mkBulletProofJP None None None None None None None None zeroIPProofJP None.

(** 48-53, 69-74: both elements are made, then both are filled; the second slice may be too short, or have more entries, which
    stay nil *)
Fixpoint iDecPairs (js ks : list json) : M (list ptr * list ptr) :=
  match js, ks with
  | [], _ => ret G ([], map (fun _ => None) ks)
  | _ :: _, [] => lift G Panic
  | j :: js', k :: ks' =>
      x <~ newE G (gNew G) ;; y <~ newE G (gNew G) ;;
      eUnmarshal x (Some j) ;;; eUnmarshal y (Some k) ;;;
      r <~ iDecPairs js' ks' ;; ret G (x :: fst r, y :: snd r)
  end.
(** 39-56 *)
Definition iIPParamsFromRaw (j : IPParamsJ) : M IPParamsP :=
  u <~ newE G (gNew G) ;;
  eUnmarshal u (jUu j) ;;;
  r <~ iDecPairs (jGg j) (jHh j) ;;
  ret G (mkIPParamsP (fst r) (snd r) u).
(** 58-78 *)
Definition iIPProofFromRaw (j : IPProofJP) : M IPProofP :=
  P <~ newE G (gNew G) ;;
  pr <~ iIPParamsFromRaw (xIPParams j) ;;
  r <~ iDecPairs (xL j) (xR j) ;;
  eUnmarshal P (xP j) ;;;
  ret G (mkIPProofP P (xCc j) (xa j) (xb j) (fst r) (snd r) pr).
(** 80-107 *)
Definition iBulletProofUnmarshalJSON (b : raw) (params : BPParamsP) : M BulletProofP :=
  t <~ iUnmarshal iStepBulletProof zeroBulletProofJP b ;;
  V <~ newE G (gNew G) ;; A <~ newE G (gNew G) ;; S <~ newE G (gNew G) ;; T1 <~ newE G (gNew G) ;; T2 <~ newE G (gNew G) ;;
  ip <~ iIPProofFromRaw (xIPP t) ;;
  eUnmarshal V (xV t) ;;; eUnmarshal A (xA t) ;;; eUnmarshal S (xS t) ;;; eUnmarshal T1 (xT1 t) ;;; eUnmarshal T2 (xT2 t) ;;;
  ret G (mkBulletProofP V A S T1 T2 (xTaux t) (xMu t) (xTprime t) ip params).

(** ** voteproof/marshal.go *)
(** 9-15 *)
Record GroupParamsJP := mkGroupParamsJP { xG : raw; xH : raw; xN : ptr; xF : ptr; xI : raw }.
Definition iStepGroupParams (k : string) (v : json) (c : GroupParamsJP) : M GroupParamsJP :=
  let '(mkGroupParamsJP g h n f i) := c in
  if fold_eqb k "G" then ret G (mkGroupParamsJP (Some v) h n f i)
  else if fold_eqb k "H" then ret G (mkGroupParamsJP g (Some v) n f i)
  else if fold_eqb k "N" then x <~ iDecBig n v ;; ret G (mkGroupParamsJP g h x f i)
  else if fold_eqb k "F" then x <~ iDecBig f v ;; ret G (mkGroupParamsJP g h n x i)
  else if fold_eqb k "I" then ret G (mkGroupParamsJP g h n f (Some v))
  else ret G c.
Definition zeroGroupParamsJP := mkGroupParamsJP None None None None None.
(** 17-30 *)
Record ProofParamsJP := mkProofParamsJP {
  xBx : Z; xBc : Z; xBg : Z; xBb : Z; xLo : Z; xHi : Z; xGFF : GroupParamsJP; xGEC : GroupParamsJP }.
Definition iStepProofParams (k : string) (v : json) (c : ProofParamsJP) : M ProofParamsJP :=
  let '(mkProofParamsJP bx bc bg bb lo hi ff ec) := c in
  if fold_eqb k "Bx" then x <~ lift G (orErr (dec_uint8 bx v)) ;; ret G (mkProofParamsJP x bc bg bb lo hi ff ec)
  else if fold_eqb k "Bc" then x <~ lift G (orErr (dec_uint16 bc v)) ;; ret G (mkProofParamsJP bx x bg bb lo hi ff ec)
  else if fold_eqb k "Bg" then x <~ lift G (orErr (dec_uint16 bg v)) ;; ret G (mkProofParamsJP bx bc x bb lo hi ff ec)
  else if fold_eqb k "Bb" then x <~ lift G (orErr (dec_int bb v)) ;; ret G (mkProofParamsJP bx bc bg x lo hi ff ec)
  else if fold_eqb k "RangeLo" then x <~ lift G (orErr (dec_uint16 lo v)) ;; ret G (mkProofParamsJP bx bc bg bb x hi ff ec)
  else if fold_eqb k "RangeHi" then x <~ lift G (orErr (dec_uint16 hi v)) ;; ret G (mkProofParamsJP bx bc bg bb lo x ff ec)
  else if fold_eqb k "GFF" then
    x <~ iDecStruct iStepGroupParams ff v ;; ret G (mkProofParamsJP bx bc bg bb lo hi x ec)
  else if fold_eqb k "GEC" then
    x <~ iDecStruct iStepGroupParams ec v ;; ret G (mkProofParamsJP bx bc bg bb lo hi ff x)
  else ret G c.
Definition zeroProofParamsJP := mkProofParamsJP 0 0 0 0 0 0 zeroGroupParamsJP zeroGroupParamsJP.
(** 32-44 *)
Record SigmaProofJP := mkSigmaProofJP {
  xW : raw; xKp : raw; xKq1 : raw; xKq2 : raw;
  xChal : ptr; xZ : ptr; xSp : ptr; xSq1 : ptr; xSq2 : ptr; xPP : ProofParamsJP }.
Definition iStepSigmaProof (k : string) (v : json) (c : SigmaProofJP) : M SigmaProofJP :=
  let '(mkSigmaProofJP w kp k1 k2 ch z sp s1 s2 pp) := c in
  if fold_eqb k "W" then ret G (mkSigmaProofJP (Some v) kp k1 k2 ch z sp s1 s2 pp)
  else if fold_eqb k "Kp" then ret G (mkSigmaProofJP w (Some v) k1 k2 ch z sp s1 s2 pp)
  else if fold_eqb k "Kq1" then ret G (mkSigmaProofJP w kp (Some v) k2 ch z sp s1 s2 pp)
  else if fold_eqb k "Kq2" then ret G (mkSigmaProofJP w kp k1 (Some v) ch z sp s1 s2 pp)
  else if fold_eqb k "Challenge" then x <~ iDecBig ch v ;; ret G (mkSigmaProofJP w kp k1 k2 x z sp s1 s2 pp)
  else if fold_eqb k "Z" then x <~ iDecBig z v ;; ret G (mkSigmaProofJP w kp k1 k2 ch x sp s1 s2 pp)
  else if fold_eqb k "Sp" then x <~ iDecBig sp v ;; ret G (mkSigmaProofJP w kp k1 k2 ch z x s1 s2 pp)
  else if fold_eqb k "Sq1" then x <~ iDecBig s1 v ;; ret G (mkSigmaProofJP w kp k1 k2 ch z sp x s2 pp)
  else if fold_eqb k "Sq2" then x <~ iDecBig s2 v ;; ret G (mkSigmaProofJP w kp k1 k2 ch z sp s1 x pp)
  else if fold_eqb k "Params" then
    x <~ iDecStruct iStepProofParams pp v ;; ret G (mkSigmaProofJP w kp k1 k2 ch z sp s1 s2 x)
  else ret G c.
Definition zeroSigmaProofJP := mkSigmaProofJP None None None None None None None None None zeroProofParamsJP.

(** ** json.Marshal: elements and integers are read, nothing is written. A nil element prints as null. *)
Definition iEncElt (p : ptr) : M json := match p with None => ret G JNull | Some _ => X <~ rdE G p ;; lift G (gToJson G X) end.
Definition iEncBig (p : ptr) : M json := match p with None => ret G JNull | Some _ => x <~ rdZ G p ;; ret G (JInt x) end.
Definition iEncElts (l : list ptr) : M json := js <~ mmap G iEncElt l ;; ret G (JArr js).
(** bip.go 37-42 *)
Definition iEncIPParams (p : IPParamsP) : M json :=
  gg <~ iEncElts (qGg p) ;; hh <~ iEncElts (qHh p) ;; uu <~ iEncElt (qUu p) ;;
  ret G (JObj [("Gg", gg); ("Hh", hh); ("Uu", uu); ("GP", encGroup G)]%string).
(** bip.go 47-55 *)
Definition iEncIPProof (p : IPProofP) : M json :=
  jp <~ iEncElt (qP p) ;; cc <~ iEncBig (qCc p) ;; a <~ iEncBig (qA p) ;; b <~ iEncBig (qB p) ;;
  l <~ iEncElts (qL p) ;; r <~ iEncElts (qR p) ;; pr <~ iEncIPParams (qParams p) ;;
  ret G (JObj [("P", jp); ("Cc", cc); ("a", a); ("b", b); ("L", l); ("R", r); ("Params", pr)]%string).
(** bp.go 35-50 *)
Definition iEncBPParams (p : BPParamsP) : M json :=
  g <~ iEncElt (rG p) ;; h <~ iEncElt (rH p) ;; gg <~ iEncElts (rGg p) ;; hh <~ iEncElts (rHh p) ;;
  ret G (JObj [("N", JInt (rN p)); ("G", g); ("H", h); ("Gg", gg); ("Hh", hh); ("GP", encGroup G)]%string).
(** bp.go 56-67 *)
Definition iEncBulletProof (p : BulletProofP) : M json :=
  v <~ iEncElt (rV p) ;; a <~ iEncElt (rA p) ;; s <~ iEncElt (rS p) ;; t1 <~ iEncElt (rT1 p) ;; t2 <~ iEncElt (rT2 p) ;;
  tx <~ iEncBig (rTaux p) ;; mu <~ iEncBig (rMu p) ;; tp <~ iEncBig (rTprime p) ;;
  ip <~ iEncIPProof (rIPP p) ;; pr <~ iEncBPParams (rParams p) ;;
  ret G (JObj [("V", v); ("A", a); ("S", s); ("T1", t1); ("T2", t2); ("Taux", tx); ("Mu", mu); ("Tprime", tp);
            ("InnerProductProof", ip); ("Params", pr)]%string).
(** voteproof.go 16-22, over the curve group *)
Definition iEncGroupE (p : GroupParamsP) : M json :=
  g <~ iEncElt (kG p) ;; h <~ iEncElt (kH p) ;; n <~ iEncBig (kN p) ;; f <~ iEncBig (kF p) ;;
  ret G (JObj [("G", g); ("H", h); ("N", n); ("F", f); ("I", encGroup G)]%string).
End ImpJsonE.

Section ImpJson.
Context (GF GE : Grp).
Local Notation M2 := (M2 GF GE).
Local Notation onE := (onE GF GE).
Local Notation "x <~ m ;; k" := (mbind2 GF GE m (fun x => k)) (at level 61, m at next level, right associativity).
Local Notation "m ;;; k" := (mbind2 GF GE m (fun _ => k)) (at level 61, right associativity).

(** _ = e.UnmarshalJSON(data), e an element of the ElGamal group *)
Definition fUnmarshal (e : ptr) (j : raw) : M2 unit := old <~ rdF GF GE e ;; r <~ lift2 GF GE (gOfJson GF old j) ;; wrF GF GE e (fst r).

(** marshal.go 22-37. The intermediate structure holds no pointers. *)
Definition iBallotUnmarshalJSON (b : raw) : M2 CiphertextP :=
  t <~ lift2 GF GE (orErr (unmarshal stepCiphertextJ (None, None) b)) ;;
  U <~ newF GF GE (gNew GF) ;; V <~ newF GF GE (gNew GF) ;;
  fUnmarshal U (fst t) ;;; fUnmarshal V (snd t) ;;;
  ret2 GF GE (mkCiphertextP U V).

(** voteproof/marshal.go 46-97 *)
Definition iProofUnmarshalJSON (b : raw) : M2 SigmaProofP :=
  t <~ onE (iUnmarshal GE (iStepSigmaProof GE) zeroSigmaProofJP b) ;;
  let ff := xGFF (xPP t) in
  let ec := xGEC (xPP t) in
  gf <~ newF GF GE (gNew GF) ;; hf <~ newF GF GE (gNew GF) ;;
  ge <~ onE (newE GE (gNew GE)) ;; he <~ onE (newE GE (gNew GE)) ;;
  fUnmarshal gf (xG ff) ;;; fUnmarshal hf (xH ff) ;;;
  onE (eUnmarshal GE ge (xG ec)) ;;; onE (eUnmarshal GE he (xH ec)) ;;;
  let pp := mkProofParamsP (xBx (xPP t)) (xBc (xPP t)) (xBg (xPP t)) (xBb (xPP t)) (xLo (xPP t)) (xHi (xPP t))
              (mkGroupParamsP gf hf (xN ff) (xF ff)) (mkGroupParamsP ge he (xN ec) (xF ec)) in
  w <~ newF GF GE (gNew GF) ;; kp <~ newF GF GE (gNew GF) ;;
  k1 <~ onE (newE GE (gNew GE)) ;; k2 <~ onE (newE GE (gNew GE)) ;;
  fUnmarshal w (xW t) ;;; fUnmarshal kp (xKp t) ;;;
  onE (eUnmarshal GE k1 (xKq1 t)) ;;; onE (eUnmarshal GE k2 (xKq2 t)) ;;;
  ret2 GF GE (mkSigmaProofP w kp k1 k2 (xChal t) (xZ t) (xSp t) (xSq1 t) (xSq2 t) pp).

(** marshal.go 39-71. The error of the first json.Unmarshal (line 41) is overwritten at line 43. *)
Definition iBallotDataUnmarshalJSON (b : raw) (pp : PublicParametersP) : M2 BallotDataP :=
  let t := match unmarshal stepBallotDataJ zeroBallotDataJ b with Some t => t | None => zeroBallotDataJ end in
  ballot <~ iBallotUnmarshalJSON (jBallot t) ;;
  lo <~ onE (iBulletProofUnmarshalJSON GE (jLower t) (yBP pp)) ;;
  up <~ onE (iBulletProofUnmarshalJSON GE (jUpper t) (yBP pp)) ;;
  vp <~ iProofUnmarshalJSON (jVote t) ;;
  ret2 GF GE (mkBallotDataP ballot lo up vp).

(** json.Marshal *)
Definition iEncEltF (p : ptr) : M2 json := match p with None => ret2 GF GE JNull | Some _ => X <~ rdF GF GE p ;; lift2 GF GE (gToJson GF X) end.
(** voteproof.go 16-22, over the ElGamal group *)
Definition iEncGroupF (p : GroupParamsP) : M2 json :=
  g <~ iEncEltF (kG p) ;; h <~ iEncEltF (kH p) ;; n <~ onE (iEncBig GE (kN p)) ;; f <~ onE (iEncBig GE (kF p)) ;;
  ret2 GF GE (JObj [("G", g); ("H", h); ("N", n); ("F", f); ("I", encGroup GF)]%string).
(** elgamal.go 9-12 *)
Definition iEncCiphertext (c : CiphertextP) : M2 json :=
  u <~ iEncEltF (yU c) ;; v <~ iEncEltF (yV c) ;; ret2 GF GE (JObj [("u", u); ("v", v)]%string).
(** voteproof.go 25-39 *)
Definition iEncProofParams (p : ProofParamsP) : M2 json :=
  ff <~ iEncGroupF (wGFF p) ;; ec <~ onE (iEncGroupE GE (wGEC p)) ;;
  ret2 GF GE (JObj [("Bx", JInt (wBx p)); ("Bc", JInt (wBc p)); ("Bg", JInt (wBg p)); ("Bb", JInt (wBb p));
            ("RangeLo", JInt (wLo p)); ("RangeHi", JInt (wHi p)); ("GFF", ff); ("GEC", ec)]%string).
(** voteproof.go 50-77 *)
Definition iEncSigmaProof (p : SigmaProofP) : M2 json :=
  w <~ iEncEltF (uW p) ;; kp <~ iEncEltF (uKp p) ;; k1 <~ onE (iEncElt GE (uKq1 p)) ;; k2 <~ onE (iEncElt GE (uKq2 p)) ;;
  ch <~ onE (iEncBig GE (uChal p)) ;; z <~ onE (iEncBig GE (uZ p)) ;; sp <~ onE (iEncBig GE (uSp p)) ;;
  s1 <~ onE (iEncBig GE (uSq1 p)) ;; s2 <~ onE (iEncBig GE (uSq2 p)) ;; pr <~ iEncProofParams (uParams p) ;;
  ret2 GF GE (JObj [("W", w); ("Kp", kp); ("Kq1", k1); ("Kq2", k2); ("Challenge", ch); ("Z", z); ("Sp", sp);
            ("Sq1", s1); ("Sq2", s2); ("Params", pr)]%string).
(** voter.go 12-17 *)
Definition iEncBallotData (b : BallotDataP) : M2 json :=
  c <~ iEncCiphertext (yBallot b) ;; l <~ onE (iEncBulletProof GE (yLower b)) ;;
  u <~ onE (iEncBulletProof GE (yUpper b)) ;; v <~ iEncSigmaProof (yVote b) ;;
  ret2 GF GE (JObj [("ballot", c); ("lbProof", l); ("ubProof", u); ("voteProof", v)]%string).
End ImpJson.
