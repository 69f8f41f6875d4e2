(** bulletproofs/bip.go: the inner product argument. *)
From Verif Require Import GoBase Json GroupIface Vector.

Definition SEEDH : string := "BulletproofsDoesNotNeedTrustedSetupH".   (* bulletproofs.go 27 *)
Definition SEEDU : string := "BulletproofsDoesNotNeedTrustedSetupU".   (* bip.go 31 *)

(** bip.go 37-42 InnerProductParams. The group GP is the ambient [G]. Entries of Hh can be nil
    after decoding (bulletproofs/marshal.go 48-53). *)
Record IPParams (G : Grp) : Type := mkIPParams {
  ipGg : list (E G);
  ipHh : list (option (E G));
  ipUu : E G
}.
Arguments mkIPParams {G}.
Arguments ipGg {G}. Arguments ipHh {G}. Arguments ipUu {G}.

(** bip.go 47-55 InnerProductProof. Integers can be nil after decoding; R can have nil entries beyond
    the length of L (bulletproofs/marshal.go 69-74). *)
Record IPProof (G : Grp) : Type := mkIPProof {
  ipP : E G;
  ipCc : option Z;
  ipA : option Z;
  ipB : option Z;
  ipL : list (E G);
  ipR : list (option (E G));
  ipParams : IPParams G
}.
Arguments mkIPProof {G}.
Arguments ipP {G}. Arguments ipCc {G}. Arguments ipA {G}. Arguments ipB {G}.
Arguments ipL {G}. Arguments ipR {G}. Arguments ipParams {G}.

Section BIP.
Context (G : Grp) (HO : Oracles).
Local Notation E := (E G).

(** fmt.Sprint(i) of a non-negative index *)
Definition seed_bytes (tag : string) (i : nat) : bytes :=
  str_bytes SEEDH ++ str_bytes tag ++ dec_str (Z.of_nat i).

(** bip.go 61-89 setupInnerProduct, called with non-nil g and h by Prove/MultiProve; [None] is a nil slice
    (only the unit test passes nil). MapToGroup errors are ignored by the code; a panic is not. *)
Definition setupInnerProduct (g h : option (list E)) (N : Z) : res (IPParams G) :=
  if N <=? 0 then Err else
  g' <- match g with
        | None => mapM (fun i => gMap G (seed_bytes "g" i)) (seq 0 (Z.to_nat N))
        | Some l => Ok l
        end ;;
  h' <- match h with
        | None => mapM (fun i => gMap G (seed_bytes "h" i)) (seq 0 (Z.to_nat N))
        | Some l => Ok l
        end ;;
  u <- gMap G (str_bytes SEEDU) ;;
  Ok (mkIPParams g' (map Some h') u).

(** bip.go 271-286 hashIP: indexes h by the range of g; c may be nil (String prints "<nil>") *)
Fixpoint hashIP_elems (g : list E) (h : list (option E)) : res bytes :=
  match g, h with
  | [], _ => Ok []
  | X :: g', Some Y :: h' => r <- hashIP_elems g' h' ;; Ok (gStr G X ++ gStr G Y ++ r)
  | _ :: _, _ => Panic
  end.
Definition hashIP_input (g : list E) (h : list (option E)) (P : E) (c : option Z) : res bytes :=
  m <- hashIP_elems g h ;; Ok (gStr G P ++ m ++ dec_str_opt c).
Definition hashIP (g : list E) (h : list (option E)) (P : E) (c : option Z) : res Z :=
  b <- hashIP_input g h P c ;; Ok (fromByteArray HO (sha256 HO b)).

(** bip.go 92-97 computePP: returns (P', u^x); a nil c panics in Scale *)
Definition computePP (P : E) (c : option Z) (x : Z) (u : E) : res (E * E) :=
  let ux := gScale G u x in
  c' <- deref c ;;
  let uxc := gScale G ux c' in
  Ok (gAdd G P uxc, ux).

(** One folding step of the generators, shared by prover (bip.go 179-186) and verifier (bip.go 236-243):
    g' = g[:n']^(x^-1) * g[n':]^x and h' = h[:n']^x * h[n':]^(x^-1).
    VectorECAdd's error is ignored: a length mismatch leaves a nil (empty) slice. *)
Definition foldGens (v : list (option E)) (np : nat) (e1 e2 : option Z) : res (list (option E)) :=
  lo <- slice_to v np ;;
  lo' <- vectorScalarExp G lo e1 ;;
  hi <- slice_from v np ;;
  hi' <- vectorScalarExp G hi e2 ;;
  Ok (match VectorECAdd G lo' hi' with Some l => map Some l | None => [] end).

(** bip.go 136-210 computeBipRecursive. Fuel bounds the recursion depth; [n] is the int64 argument.
    g and h have no nil entries here. *)
Fixpoint computeBipRecursive (fuel : nat) (a b : list Z) (g h : list E) (u P : E) (n : nat)
    (Ls Rs : list E) : res (Z * Z * E * list E * list E) :=
  if Nat.eqb n 1 then                                        (* 145-153 *)
    a0 <- idx a 0 ;; b0 <- idx b 0 ;; Ok (a0, b0, P, Ls, Rs)
  else
  match fuel with
  | O => OutOfFuel
  | S fuel' =>
    let np := Nat.div n 2 in                                 (* 157 *)
    alo <- slice_to a np ;; ahi <- slice_from a np ;;
    blo <- slice_to b np ;; bhi <- slice_from b np ;;
    glo <- slice_to g np ;; ghi <- slice_from g np ;;
    hlo <- slice_to h np ;; hhi <- slice_from h np ;;
    let cL := ScalarProduct G alo bhi in                     (* 160 *)
    let cR := ScalarProduct G ahi blo in                     (* 162 *)
    L0 <- deref (VectorExp G ghi alo) ;;                     (* 164, used at 166 *)
    Lh <- deref (VectorExp G hlo bhi) ;;                     (* 165 *)
    cL' <- deref cL ;;
    let L := gAdd G (gAdd G L0 Lh) (gScale G u cL') in       (* 166-167 *)
    R0 <- deref (VectorExp G glo ahi) ;;                     (* 170 *)
    Rh <- deref (VectorExp G hhi blo) ;;                     (* 171 *)
    cR' <- deref cR ;;
    let R := gAdd G (gAdd G R0 Rh) (gScale G u cR') in       (* 172-173 *)
    let x := fst (HashBP G HO L R) in                         (* 176 *)
    let xinv := modInverse x (gN G) in                       (* 177 *)
    gp <- foldGens (map Some g) np xinv (Some x) ;;          (* 180-182 *)
    hp <- foldGens (map Some h) np (Some x) xinv ;;          (* 184-186 *)
    gp' <- mapM deref gp ;; hp' <- mapM deref hp ;;
    let x2 := (x * x) mod gN G in                            (* 189 *)
    x2inv <- deref (modInverse x2 (gN G)) ;;                 (* 190, used at 193 *)
    let Pp := gAdd G (gAdd G (gScale G L x2) P) (gScale G R x2inv) in   (* 191-193 *)
    ap1 <- VectorScalarMul alo (Some x) (gN G) ;;            (* 196 *)
    ap2 <- VectorScalarMul ahi xinv (gN G) ;;                (* 197 *)
    let ap := match VectorAdd ap1 ap2 (gN G) with Some l => l | None => [] end in
    bp1 <- VectorScalarMul blo xinv (gN G) ;;                (* 200 *)
    bp2 <- VectorScalarMul bhi (Some x) (gN G) ;;            (* 201 *)
    let bp := match VectorAdd bp1 bp2 (gN G) with Some l => l | None => [] end in
    computeBipRecursive fuel' ap bp gp' hp' u Pp np (Ls ++ [L]) (Rs ++ [R])
  end.

(** bip.go 102-131 proveInnerProduct. The proof's Params are those passed in. *)
Definition proveInnerProduct (fuel : nat) (a b : list Z) (P : E) (c : option Z) (params : IPParams G)
  : res (IPProof G) :=
  if negb (Nat.eqb (length a) (length b)) then Err else
  x <- hashIP (ipGg params) (ipHh params) P c ;;
  '(PP, ux) <- computePP P c x (ipUu params) ;;
  hh <- mapM deref (ipHh params) ;;
  '(a', b', _, Ls, Rs) <- computeBipRecursive fuel a b (ipGg params) hh ux PP (length a) [] [] ;;
  Ok (mkIPProof P c (Some a') (Some b') Ls (map Some Rs) params).

(** bip.go 232-249: the verification loop over the rounds; [np] is the variable nprime. *)
Fixpoint ipVerifyLoop (Ls : list E) (Rs : list (option E)) (g h : list (option E)) (np : nat) (Pp : E)
  : res (list (option E) * list (option E) * E) :=
  match Ls with
  | [] => Ok (g, h, Pp)
  | L :: Ls' =>
      match Rs with
      | Some R :: Rs' =>
        let np' := Nat.div np 2 in
        let x := fst (HashBP G HO L R) in
        let xinv := modInverse x (gN G) in
        g' <- foldGens g np' xinv (Some x) ;;
        h' <- foldGens h np' (Some x) xinv ;;
        let x2 := (x * x) mod gN G in
        x2inv <- deref (modInverse x2 (gN G)) ;;
        let Pp' := gAdd G (gAdd G Pp (gScale G L x2)) (gScale G R x2inv) in
        ipVerifyLoop Ls' Rs' g' h' np' Pp'
      | _ => Panic                                     (* proof.R[i] out of range or nil *)
      end
  end.

(** bip.go 215-266 InnerProductProof.Verify *)
Definition ipVerify (pf : IPProof G) : res bool :=
  let params := ipParams pf in
  x <- hashIP (ipGg params) (ipHh params) (ipP pf) (ipCc pf) ;;
  '(PP, ux) <- computePP (ipP pf) (ipCc pf) x (ipUu params) ;;
  '(gp, hp, Pp) <- ipVerifyLoop (ipL pf) (ipR pf) (map Some (ipGg params)) (ipHh params)
                                (length (ipGg params)) PP ;;
  pa <- deref (ipA pf) ;; pb <- deref (ipB pf) ;;           (* 252 *)
  let ab := (pa * pb) mod gN G in
  g0 <- idx gp 0 ;; g0' <- deref g0 ;;                       (* 255 *)
  h0 <- idx hp 0 ;; h0' <- deref h0 ;;                       (* 256 *)
  let rhs := gAdd G (gAdd G (gScale G g0' pa) (gScale G h0' pb)) (gScale G ux ab) in
  let nP := gAdd G (gNeg G Pp) rhs in                        (* 260-261 *)
  Ok (gIsId G nP).

(** bip.go 291-295 commitInnerProduct; a nil VectorExp result panics in Add *)
Definition commitInnerProduct (g h : list E) (a b : list Z) : res E :=
  ga <- deref (VectorExp G g a) ;;
  hb <- deref (VectorExp G h b) ;;
  Ok (gAdd G ga hb).
End BIP.
