(** JSON encoding (json.Marshal on the exported structs) and decoding (marshal.go, bulletproofs/marshal.go,
    voteproof/marshal.go). Simplification: a nil slice (printed null) is encoded like an empty one; both decode alike. *)
From Verif Require Import GoBase Json GroupIface Vector BIP BP VoteProof App.

(** ** Encoding *)
Section Enc.
Context (G : Grp).
(** group/types.go 12-14 via MarshalJSON of each Group, e.g. p256.go 27-29 *)
Definition encGroup : json := JObj [("group"%string, JStr (gName G))].
Definition encElts (l : list (E G)) : res json := js <- mapM (gToJson G) l ;; Ok (JArr js).
Definition encOpt (o : option (E G)) : res json := match o with Some X => gToJson G X | None => Ok JNull end.
Definition encOptElts (l : list (option (E G))) : res json := js <- mapM encOpt l ;; Ok (JArr js).

(** bip.go 37-42 *)
Definition encIPParams (p : IPParams G) : res json :=
  gg <- encElts (ipGg p) ;; hh <- encOptElts (ipHh p) ;; uu <- gToJson G (ipUu p) ;;
  Ok (JObj [("Gg", gg); ("Hh", hh); ("Uu", uu); ("GP", encGroup)]%string).
(** bip.go 47-55 *)
Definition encIPProof (p : IPProof G) : res json :=
  jp <- gToJson G (ipP p) ;; l <- encElts (ipL p) ;; r <- encOptElts (ipR p) ;;
  pr <- encIPParams (ipParams p) ;;
  Ok (JObj [("P", jp); ("Cc", enc_bigint (ipCc p)); ("a", enc_bigint (ipA p)); ("b", enc_bigint (ipB p));
            ("L", l); ("R", r); ("Params", pr)]%string).
(** bp.go 35-50 *)
Definition encBPParams (p : BPParams G) : res json :=
  g <- gToJson G (bpG p) ;; h <- gToJson G (bpH p) ;; gg <- encElts (bpGg p) ;; hh <- encElts (bpHh p) ;;
  Ok (JObj [("N", JInt (bpN p)); ("G", g); ("H", h); ("Gg", gg); ("Hh", hh); ("GP", encGroup)]%string).
(** bp.go 56-67 *)
Definition encBulletProof (p : BulletProof G) : res json :=
  v <- gToJson G (pV p) ;; a <- gToJson G (pA p) ;; s <- gToJson G (pS p) ;;
  t1 <- gToJson G (pT1 p) ;; t2 <- gToJson G (pT2 p) ;;
  ip <- encIPProof (pIPP p) ;; pr <- encBPParams (pParams p) ;;
  Ok (JObj [("V", v); ("A", a); ("S", s); ("T1", t1); ("T2", t2);
            ("Taux", enc_bigint (pTaux p)); ("Mu", enc_bigint (pMu p)); ("Tprime", enc_bigint (pTprime p));
            ("InnerProductProof", ip); ("Params", pr)]%string).
(** voteproof.go 16-22 *)
Definition encGroupParams (p : GroupParams G) : res json :=
  g <- gToJson G (gpG p) ;; h <- gToJson G (gpH p) ;;
  Ok (JObj [("G", g); ("H", h); ("N", enc_bigint (gpN p)); ("F", enc_bigint (gpF p)); ("I", encGroup)]%string).
(** elgamal.go 9-12 *)
Definition encCiphertext (c : Ciphertext G) : res json :=
  u <- gToJson G (ctU c) ;; v <- gToJson G (ctV c) ;; Ok (JObj [("u", u); ("v", v)]%string).
End Enc.

Section Enc2.
Context (GF GE : Grp).
(** voteproof.go 25-39; the embedded AlgebraicParameters is flattened *)
Definition encProofParams (p : ProofParams GF GE) : res json :=
  ff <- encGroupParams GF (vGFF p) ;; ec <- encGroupParams GE (vGEC p) ;;
  Ok (JObj [("Bx", JInt (vBx p)); ("Bc", JInt (vBc p)); ("Bg", JInt (vBg p)); ("Bb", JInt (vBb p));
            ("RangeLo", JInt (vLo p)); ("RangeHi", JInt (vHi p)); ("GFF", ff); ("GEC", ec)]%string).
(** voteproof.go 50-77; embedded structs are flattened *)
Definition encSigmaProof (p : SigmaProof GF GE) : res json :=
  w <- gToJson GF (sW p) ;; kp <- gToJson GF (sKp p) ;;
  k1 <- gToJson GE (sKq1 p) ;; k2 <- gToJson GE (sKq2 p) ;; pr <- encProofParams (sParams p) ;;
  Ok (JObj [("W", w); ("Kp", kp); ("Kq1", k1); ("Kq2", k2); ("Challenge", enc_bigint (sChal p));
            ("Z", enc_bigint (sZ p)); ("Sp", enc_bigint (sSp p)); ("Sq1", enc_bigint (sSq1 p));
            ("Sq2", enc_bigint (sSq2 p)); ("Params", pr)]%string).
(** voter.go 12-17 *)
Definition encBallotData (b : BallotData GF GE) : res json :=
  c <- encCiphertext GF (bdBallot b) ;; l <- encBulletProof GE (bdLower b) ;;
  u <- encBulletProof GE (bdUpper b) ;; v <- encSigmaProof (bdVote b) ;;
  Ok (JObj [("ballot", c); ("lbProof", l); ("ubProof", u); ("voteProof", v)]%string).
End Enc2.

(** ** Decoding *)

(** json.Unmarshal(b, &tmp) for a struct: [None] = error; nil input is an error *)
Definition unmarshal {S} (step : string -> json -> S -> option S) (zero : S) (j : raw) : option S :=
  match j with None => None | Some d => dec_struct step zero d end.

Definition set1 {A S} (o : option A) (f : A -> S) : option S := option_map f o.

(** bulletproofs/marshal.go 9-14 *)
Record IPParamsJ := mkIPParamsJ { jUu : raw; jGg : list json; jHh : list json; jGP : raw }.
Definition stepIPParamsJ (k : string) (v : json) (c : IPParamsJ) : option IPParamsJ :=
  if fold_eqb k "Uu" then Some (mkIPParamsJ (Some v) (jGg c) (jHh c) (jGP c))
  else if fold_eqb k "Gg" then set1 (dec_rawlist v) (fun l => mkIPParamsJ (jUu c) l (jHh c) (jGP c))
  else if fold_eqb k "Hh" then set1 (dec_rawlist v) (fun l => mkIPParamsJ (jUu c) (jGg c) l (jGP c))
  else if fold_eqb k "GP" then Some (mkIPParamsJ (jUu c) (jGg c) (jHh c) (Some v))
  else Some c.
Definition zeroIPParamsJ := mkIPParamsJ None [] [] None.

(** bulletproofs/marshal.go 16-24 *)
Record IPProofJ := mkIPProofJ {
  jP : raw; jCc : option Z; ja : option Z; jb : option Z; jL : list json; jR : list json; jIPParams : IPParamsJ }.
Definition stepIPProofJ (k : string) (v : json) (c : IPProofJ) : option IPProofJ :=
  let '(mkIPProofJ P Cc a b L R pr) := c in
  if fold_eqb k "P" then Some (mkIPProofJ (Some v) Cc a b L R pr)
  else if fold_eqb k "Cc" then set1 (dec_bigint v) (fun x => mkIPProofJ P x a b L R pr)
  else if fold_eqb k "a" then set1 (dec_bigint v) (fun x => mkIPProofJ P Cc x b L R pr)
  else if fold_eqb k "b" then set1 (dec_bigint v) (fun x => mkIPProofJ P Cc a x L R pr)
  else if fold_eqb k "L" then set1 (dec_rawlist v) (fun x => mkIPProofJ P Cc a b x R pr)
  else if fold_eqb k "R" then set1 (dec_rawlist v) (fun x => mkIPProofJ P Cc a b L x pr)
  else if fold_eqb k "Params" then
    set1 (dec_struct stepIPParamsJ pr v) (fun x => mkIPProofJ P Cc a b L R x)
  else Some c.
Definition zeroIPProofJ := mkIPProofJ None None None None [] [] zeroIPParamsJ.

(** bulletproofs/marshal.go 26-37 *)
Record BulletProofJ := mkBulletProofJ {
  jV : raw; jA : raw; jS : raw; jT1 : raw; jT2 : raw;
  jTaux : option Z; jMu : option Z; jTprime : option Z; jIPP : IPProofJ; jBPParams : raw }.
Definition stepBulletProofJ (k : string) (v : json) (c : BulletProofJ) : option BulletProofJ :=
  let '(mkBulletProofJ V A Sg T1 T2 tx mu tp ip pr) := c in
  if fold_eqb k "V" then Some (mkBulletProofJ (Some v) A Sg T1 T2 tx mu tp ip pr)
  else if fold_eqb k "A" then Some (mkBulletProofJ V (Some v) Sg T1 T2 tx mu tp ip pr)
  else if fold_eqb k "S" then Some (mkBulletProofJ V A (Some v) T1 T2 tx mu tp ip pr)
  else if fold_eqb k "T1" then Some (mkBulletProofJ V A Sg (Some v) T2 tx mu tp ip pr)
  else if fold_eqb k "T2" then Some (mkBulletProofJ V A Sg T1 (Some v) tx mu tp ip pr)
  else if fold_eqb k "Taux" then set1 (dec_bigint v) (fun x => mkBulletProofJ V A Sg T1 T2 x mu tp ip pr)
  else if fold_eqb k "Mu" then set1 (dec_bigint v) (fun x => mkBulletProofJ V A Sg T1 T2 tx x tp ip pr)
  else if fold_eqb k "Tprime" then set1 (dec_bigint v) (fun x => mkBulletProofJ V A Sg T1 T2 tx mu x ip pr)
  else if fold_eqb k "InnerProductProof" then
    set1 (dec_struct stepIPProofJ ip v) (fun x => mkBulletProofJ V A Sg T1 T2 tx mu tp x pr)
  else if fold_eqb k "Params" then Some (mkBulletProofJ V A Sg T1 T2 tx mu tp ip (Some v))
  else Some c.
Definition zeroBulletProofJ := mkBulletProofJ None None None None None None None None zeroIPProofJ None.

Section Dec.
Context (G : Grp).

(** e := g.Element(); _ = e.UnmarshalJSON(data): the error is dropped *)
Definition decElt (j : raw) : res (E G) := '(X, _) <- gOfJson G (gNew G) j ;; Ok X.

(** Decoding two parallel lists by the indices of the first: the second panics when shorter, and keeps nil
    entries when longer (bulletproofs/marshal.go 48-53, 69-74). *)
Fixpoint decPairs (js ks : list json) : res (list (E G) * list (option (E G))) :=
  match js, ks with
  | [], _ => Ok ([], map (fun _ => None) ks)
  | _ :: _, [] => Panic
  | j :: js', k :: ks' =>
      X <- decElt (Some j) ;;
      Y <- decElt (Some k) ;;
      '(l, r) <- decPairs js' ks' ;;
      Ok (X :: l, Some Y :: r)
  end.

(** bulletproofs/marshal.go 39-56 *)
Definition ipParamsFromRaw (j : IPParamsJ) : res (IPParams G) :=
  u <- decElt (jUu j) ;;
  '(gg, hh) <- decPairs (jGg j) (jHh j) ;;
  Ok (mkIPParams gg hh u).

(** bulletproofs/marshal.go 58-78 *)
Definition ipProofFromRaw (j : IPProofJ) : res (IPProof G) :=
  pr <- ipParamsFromRaw (jIPParams j) ;;
  '(l, r) <- decPairs (jL j) (jR j) ;;
  P <- decElt (jP j) ;;
  Ok (mkIPProof P (jCc j) (ja j) (jb j) l r pr).

(** bulletproofs/marshal.go 80-107: Params come from the caller *)
Definition BulletProofUnmarshalJSON (b : raw) (params : BPParams G) : res (BulletProof G) :=
  match unmarshal stepBulletProofJ zeroBulletProofJ b with
  | None => Err
  | Some t =>
      ip <- ipProofFromRaw (jIPP t) ;;
      V <- decElt (jV t) ;; A <- decElt (jA t) ;; S <- decElt (jS t) ;;
      T1 <- decElt (jT1 t) ;; T2 <- decElt (jT2 t) ;;
      Ok (mkBulletProof V A S T1 T2 (jTaux t) (jMu t) (jTprime t) ip params)
  end.

(** marshal.go 10-13, 22-37 *)
Definition stepCiphertextJ (k : string) (v : json) (c : raw * raw) : option (raw * raw) :=
  if fold_eqb k "u" then Some (Some v, snd c)
  else if fold_eqb k "v" then Some (fst c, Some v)
  else Some c.
Definition BallotUnmarshalJSON (b : raw) : res (Ciphertext G) :=
  match unmarshal stepCiphertextJ (None, None) b with
  | None => Err
  | Some (u, v) => U <- decElt u ;; V <- decElt v ;; Ok (mkCiphertext U V)
  end.
End Dec.

(** voteproof/marshal.go 9-15 *)
Record GroupParamsJ := mkGroupParamsJ { jG : raw; jH : raw; jN : option Z; jF : option Z; jI : raw }.
Definition stepGroupParamsJ (k : string) (v : json) (c : GroupParamsJ) : option GroupParamsJ :=
  let '(mkGroupParamsJ g h n f i) := c in
  if fold_eqb k "G" then Some (mkGroupParamsJ (Some v) h n f i)
  else if fold_eqb k "H" then Some (mkGroupParamsJ g (Some v) n f i)
  else if fold_eqb k "N" then set1 (dec_bigint v) (fun x => mkGroupParamsJ g h x f i)
  else if fold_eqb k "F" then set1 (dec_bigint v) (fun x => mkGroupParamsJ g h n x i)
  else if fold_eqb k "I" then Some (mkGroupParamsJ g h n f (Some v))
  else Some c.
Definition zeroGroupParamsJ := mkGroupParamsJ None None None None None.

(** voteproof/marshal.go 17-30; the embedded struct is flattened *)
Record ProofParamsJ := mkProofParamsJ {
  jBx : Z; jBc : Z; jBg : Z; jBb : Z; jLo : Z; jHi : Z; jGFF : GroupParamsJ; jGEC : GroupParamsJ }.
Definition stepProofParamsJ (k : string) (v : json) (c : ProofParamsJ) : option ProofParamsJ :=
  let '(mkProofParamsJ bx bc bg bb lo hi ff ec) := c in
  if fold_eqb k "Bx" then set1 (dec_uint8 bx v) (fun x => mkProofParamsJ x bc bg bb lo hi ff ec)
  else if fold_eqb k "Bc" then set1 (dec_uint16 bc v) (fun x => mkProofParamsJ bx x bg bb lo hi ff ec)
  else if fold_eqb k "Bg" then set1 (dec_uint16 bg v) (fun x => mkProofParamsJ bx bc x bb lo hi ff ec)
  else if fold_eqb k "Bb" then set1 (dec_int bb v) (fun x => mkProofParamsJ bx bc bg x lo hi ff ec)
  else if fold_eqb k "RangeLo" then set1 (dec_uint16 lo v) (fun x => mkProofParamsJ bx bc bg bb x hi ff ec)
  else if fold_eqb k "RangeHi" then set1 (dec_uint16 hi v) (fun x => mkProofParamsJ bx bc bg bb lo x ff ec)
  else if fold_eqb k "GFF" then
    set1 (dec_struct stepGroupParamsJ ff v) (fun x => mkProofParamsJ bx bc bg bb lo hi x ec)
  else if fold_eqb k "GEC" then
    set1 (dec_struct stepGroupParamsJ ec v) (fun x => mkProofParamsJ bx bc bg bb lo hi ff x)
  else Some c.
Definition zeroProofParamsJ := mkProofParamsJ 0 0 0 0 0 0 zeroGroupParamsJ zeroGroupParamsJ.

(** voteproof/marshal.go 32-44 *)
Record SigmaProofJ := mkSigmaProofJ {
  jW : raw; jKp : raw; jKq1 : raw; jKq2 : raw;
  jChal : option Z; jZ : option Z; jSp : option Z; jSq1 : option Z; jSq2 : option Z; jPP : ProofParamsJ }.
Definition stepSigmaProofJ (k : string) (v : json) (c : SigmaProofJ) : option SigmaProofJ :=
  let '(mkSigmaProofJ w kp k1 k2 ch z sp s1 s2 pp) := c in
  if fold_eqb k "W" then Some (mkSigmaProofJ (Some v) kp k1 k2 ch z sp s1 s2 pp)
  else if fold_eqb k "Kp" then Some (mkSigmaProofJ w (Some v) k1 k2 ch z sp s1 s2 pp)
  else if fold_eqb k "Kq1" then Some (mkSigmaProofJ w kp (Some v) k2 ch z sp s1 s2 pp)
  else if fold_eqb k "Kq2" then Some (mkSigmaProofJ w kp k1 (Some v) ch z sp s1 s2 pp)
  else if fold_eqb k "Challenge" then set1 (dec_bigint v) (fun x => mkSigmaProofJ w kp k1 k2 x z sp s1 s2 pp)
  else if fold_eqb k "Z" then set1 (dec_bigint v) (fun x => mkSigmaProofJ w kp k1 k2 ch x sp s1 s2 pp)
  else if fold_eqb k "Sp" then set1 (dec_bigint v) (fun x => mkSigmaProofJ w kp k1 k2 ch z x s1 s2 pp)
  else if fold_eqb k "Sq1" then set1 (dec_bigint v) (fun x => mkSigmaProofJ w kp k1 k2 ch z sp x s2 pp)
  else if fold_eqb k "Sq2" then set1 (dec_bigint v) (fun x => mkSigmaProofJ w kp k1 k2 ch z sp s1 x pp)
  else if fold_eqb k "Params" then
    set1 (dec_struct stepProofParamsJ pp v) (fun x => mkSigmaProofJ w kp k1 k2 ch z sp s1 s2 x)
  else Some c.
Definition zeroSigmaProofJ :=
  mkSigmaProofJ None None None None None None None None None zeroProofParamsJ.

(** marshal.go 15-20 *)
Record BallotDataJ := mkBallotDataJ { jBallot : raw; jLower : raw; jUpper : raw; jVote : raw }.
Definition stepBallotDataJ (k : string) (v : json) (c : BallotDataJ) : option BallotDataJ :=
  let '(mkBallotDataJ b l u vp) := c in
  if fold_eqb k "ballot" then Some (mkBallotDataJ (Some v) l u vp)
  else if fold_eqb k "lbProof" then Some (mkBallotDataJ b (Some v) u vp)
  else if fold_eqb k "ubProof" then Some (mkBallotDataJ b l (Some v) vp)
  else if fold_eqb k "voteProof" then Some (mkBallotDataJ b l u (Some v))
  else Some c.
Definition zeroBallotDataJ := mkBallotDataJ None None None None.

Section Dec2.
Context (GF GE : Grp).

(** voteproof/marshal.go 46-97 *)
Definition ProofUnmarshalJSON (b : raw) : res (SigmaProof GF GE) :=
  match unmarshal stepSigmaProofJ zeroSigmaProofJ b with
  | None => Err
  | Some t =>
      let ff := jGFF (jPP t) in
      let ec := jGEC (jPP t) in
      gf <- decElt GF (jG ff) ;; hf <- decElt GF (jH ff) ;;
      ge <- decElt GE (jG ec) ;; he <- decElt GE (jH ec) ;;
      let pp := mkProofParams (jBx (jPP t)) (jBc (jPP t)) (jBg (jPP t)) (jBb (jPP t)) (jLo (jPP t)) (jHi (jPP t))
                  (mkGroupParams gf hf (jN ff) (jF ff)) (mkGroupParams ge he (jN ec) (jF ec)) in
      w <- decElt GF (jW t) ;; kp <- decElt GF (jKp t) ;;
      k1 <- decElt GE (jKq1 t) ;; k2 <- decElt GE (jKq2 t) ;;
      Ok (mkSigmaProof w kp k1 k2 (jChal t) (jZ t) (jSp t) (jSq1 t) (jSq2 t) pp)
  end.

(** marshal.go 39-71. The error of the first json.Unmarshal (line 41) is overwritten at line 43; then all four
    messages are nil. *)
Definition BallotDataUnmarshalJSON (b : raw) (pp : PublicParameters GF GE) : res (BallotData GF GE) :=
  let t := match unmarshal stepBallotDataJ zeroBallotDataJ b with Some t => t | None => zeroBallotDataJ end in
  ballot <- BallotUnmarshalJSON GF (jBallot t) ;;
  lo <- BulletProofUnmarshalJSON GE (jLower t) (ppBP pp) ;;
  up <- BulletProofUnmarshalJSON GE (jUpper t) (ppBP pp) ;;
  vp <- ProofUnmarshalJSON (jVote t) ;;
  Ok (mkBallotData ballot lo up vp).
End Dec2.
