(** Go functions that print: the lines printed so far stay printed when the function panics. *)
From Verif Require Import GoBase.

(** [L]: what a single fmt.Print/Println call writes *)
Definition Out (L A : Type) : Type := (list L * res A)%type.
Definition quiet {L A} (r : res A) : Out L A := ([], r).
Definition say {L} (l : list L) : Out L unit := (l, Ok tt).
Definition obind {L A B} (m : Out L A) (f : A -> Out L B) : Out L B :=
  match m with
  | (o, Ok a) => let '(o', r) := f a in (o ++ o', r)
  | (o, Err) => (o, Err)
  | (o, Panic) => (o, Panic)
  | (o, OutOfFuel) => (o, OutOfFuel)
  end.
Notation "x <~ m ;; f" := (obind m (fun x => f)) (at level 61, m at next level, right associativity).
Notation "' pat <~ m ;; f" := (obind m (fun x => match x with pat => f end)) (at level 61, pat pattern, m at next level, right associativity).

Lemma obind_quiet : forall L A B (r : res A) (f : A -> Out L B), obind (quiet r) f = match r with Ok a => f a | Err => quiet Err | Panic => quiet Panic | OutOfFuel => quiet OutOfFuel end.
Proof. intros L A B [a| | |] f; try reflexivity. unfold quiet, obind. destruct (f a) as [o r]. reflexivity. Qed.
Lemma obind_snd : forall L A B (m : Out L A) (f : A -> Out L B), snd (obind m f) = bind (snd m) (fun a => snd (f a)).
Proof. intros L A B [o [a| | |]] f; try reflexivity. cbn. destruct (f a); reflexivity. Qed.
Lemma obind_ok : forall L A B o a (f : A -> Out L B), obind (o, Ok a) f = (o ++ fst (f a), snd (f a)).
Proof. intros L A B o a f. cbn. destruct (f a); reflexivity. Qed.
