# Formal model of takakv/msc-poc in Rocq (Coq 8.16.1)

`properties.jsonl` states the properties in English, `MANIFEST.json` maps each to its theorems,
`seeded/LOG.jsonl` records which theorems fail when the model is edited the way a bug would.
Build: `cd rocq && coq_makefile -f _CoqProject -o Makefile && make -j4`. Only the standard library is used.

## Layout (rocq/theories)

Model of the code (each definition cites file and lines of /repo):

| File | Contents | Models |
|---|---|---|
| `GoBase.v` | result monad (`Ok`/`Err`/`Panic`/`OutOfFuel`), slices, bytes, `big.Int` primitives | Go runtime and math/big contract |
| `Json.v` | JSON syntax trees, field matching, decoding of integers | encoding/json contract |
| `GroupIface.v` | the interface `group.Group`/`group.Element` as a record of operations; its laws as separate predicates | group/group.go |
| `ModP.v` | the mod-p group over `Z`, `NewModPGroup` | group/modsafeprime.go |
| `Curve.v` | P-256/P-384 group methods over circl's operations | group/p256.go, p384.go |
| `Groups.v` | ristretto255 and secp256k1 as instances of the interface | group/ristretto255.go, p256k1.go |
| `ECJson.v`, `P256k1.v` | byte and JSON encodings of the curve groups | the same files |
| `Vector.v` | Decompose, PedersenCommit, vector helpers, HashBP | util/util.go, bulletproofs/util.go, vector.go |
| `BIP.v`, `BP.v`, `MultiBP.v` | inner product argument, range proofs, aggregated range proofs | bulletproofs/bip.go, bp.go, multibp.go |
| `VoteProof.v` | sigma protocol with aborts | voteproof/voteproof.go |
| `App.v` | ElGamal, castVote, verifyVote, setup, driver loop of one group | elgamal.go, voter.go, server.go, main.go |
| `NilScale.v` | the verifiers again, with an arbitrary behaviour of Scale on nil scalars | bp.go, bip.go, multibp.go, voteproof.go, server.go: Verify |
| `Limit.v` | verification on a machine that cannot hold numbers above a given size | voteproof.go:Verify, server.go:verifyVote |
| `Out.v` | functions that print: a writer monad | fmt.Println calls |
| `Main.v` | `main`: the loop over the groups, the lines it prints, where it dies | main.go, voter.go, voteproof.go:154 |
| `MultiPrint.v` | the lines `MultiBulletProof.Verify` prints | multibp.go |
| `Marshal.v` | JSON encoders and decoders of proofs and ballots | marshal.go, bulletproofs/marshal.go, voteproof/marshal.go |
| `Heap.v` | Element methods on pointers (receiver, arguments and their `val` fields) | receivers in group/*.go |
| `Mixed.v` | elements of several groups in one program, `check` and `equals` | check/equals in group/*.go |
| `Imp.v`, `ImpMulti.v` | the bulletproofs package again, with elements and integers as shared, mutable objects | bulletproofs/{vector,util,bip,bp,multibp}.go, util/util.go |
| `ImpVote.v` | the sigma protocol and package main again, on objects of both groups | voteproof/voteproof.go, elgamal.go, voter.go, server.go, main.go, bp.go:Setup |
| `Wire.v` | the bytes of JSON documents: scanner, number and string syntax, printer | encoding/json contract, as used by marshal.go |
| `ImpJson.v` | the JSON encoders and decoders again, on objects | marshal.go, bulletproofs/marshal.go, voteproof/marshal.go |

Lemmas: `NumTh` (inverses, congruences), `Alg` (the Z-module of a lawful group, reflective `glin` tactic, sums),
`VectorProofs`, `BIPProofs`, `BPProofs`, `SetupProofs`, `BytesProofs`, `ModPProofs`, `Hom` (transfer along
homomorphisms), `Pres` (groups lawful up to IsEqual), `Toy` (a lawful group for the concrete cases), `ImpProofs`/`ImpFuns`/`ImpBP`/`ImpMultiProofs`/`ImpVoteProofs`/`ImpJsonProofs`
(refinement of the pointer-level model), `ECLaw`/`ECPoints`/`ECOrder`/`ECStd`/`ECCert`, `EdLaw`/`EdPoints`/`EdCert` (the group of points of a curve), `Mulw`, `Primes`, `PrimeCerts`, `FieldCerts*`, `OrderCerts*`, `EdField`, `EdChain` (certificates), `WireProofs`/`WirePrint` (scanner and printer against the grammar of `WireSpec`).

Property theorems, with vocabulary of the statements, `Print Assumptions` and a concrete case: the files `Prop*.v`.

## Modelling decisions

* Group: the code is generic in an interface. The model functions take a record of operations without laws;
  theorems assume `GrpLaws` (abelian group, Scale = iterated Add over all integers, N*X = 0, IsEqual decides
  equality), and `GrpPrime` (order prime, cyclic, non-trivial generator) only where needed. The laws are proved for the
  members of the mod-p group (C29) and, from circl's contract, for P-256, P-384 and ristretto255 (C51). secp256k1 has two
  representations of the identity, so its laws hold up to IsEqual only; `Pres.v` redoes completeness for such groups (C63).
* Hash: SHA-256 is an arbitrary function on byte lists (universally quantified), so theorems hold for every hash
  function. `byteconversion.FromByteArray` is an arbitrary function too. Theorems that need 32-byte digests or
  invertible challenges say so.
* Randomness: every `rand.Int` draw is an explicit argument. The abort loop consumes a list of draws.
* nil: `*big.Int` fields of decoded structures are `option Z`, list entries a decoder may leave nil are
  `option E`; using `None` where Go dereferences is `Panic`. Passing a nil integer to Scale is `Panic` too; ING's library (secp256k1) does not
  look at the scalar when the point is the identity, so there the model panics more often than the code. `NilScale.v` has the verifiers with an
  arbitrary behaviour instead, and C84 says what this changes.
* `big.Int` is `Z`; int64/uint16 arithmetic is wrapped explicitly where the code does machine arithmetic.
* Float conversions in bulletproofs.Setup (log2 of the range end): exact on the accepted inputs; the value of converting a NaN
  or an infinity to int64 is an arbitrary argument `nan64`.
* Errors ignored by callers (`x, _ := f()`) stay ignored: the callee returns `option`, `None` being the nil value.
* Values or objects: most of the model treats elements and integers as values. That this is faithful is itself proved:
  C42 (methods write only their receiver, under any aliasing), C59 (several groups), C61 (the range-proof code, which accumulates
  in place, computes the value-level result and writes no object that existed before the call), C65 (the same for casting, verifying and setup), C68 (JSON).

## Properties: what is modelled and how it is proved

* C01-C04, C47: `BP.v`. One lemma about the honest run with *arbitrary* vectors aL, aR: Verify accepts iff
  z^2 v + delta(y,z) = <aL - z, y^n o (aR+z) + z^2 2^n> mod N. C01, C02 and C47 are instances.
  Vectors are tabulated functions; a reflective normaliser proves linear identities in the group.
* C05, C09, C22, C23, C27, C54: forging theorems - explicit adversarial proofs, accepted for every hash function
  (`_refuted`: the security property one would expect is false of the code).
* C06, C07, C08, C44: `BIP.v`, induction on the recursion. The defect P - g^a h^b u^<a,b> is invariant.
* C10-C14: direct; int64 wrap-around explicit; C11 covers every int64 range end.
* C15, C16: `MultiBP.v`, exact acceptance condition for honest runs; written in discrete logarithms it is a polynomial in the challenge, and `Roots.v` counts its roots.
* C17-C21, C45, C46, C50: `VoteProof.v`; C21 over two different hash functions (forking form); C20 by a bijection
  between the accepting draws; C46 counts the aborting draws, and (`PropAbort.v`) the aborting runs of n draws.
* C24-C28, C43: `App.v`. C25 transfers from the group of subgroup members to the integers the code computes with (`Hom.v`).
* C29, C30, C49, C55, C57: `ModP.v`; C49 by Gauss's lemma for 2 (p = 7 mod 8), no primality test of the RFC prime is run:
  primality of p and q is a hypothesis. C57 against an independent grammar of hexadecimal numerals. C55 for secp256k1 (`PropUnif.v`) uses that the points are cyclic (C76).
* C31-C34, C52: byte-level models of the encodings.
* C35-C37, C53, C58: `Marshal.v`. C35: decoding after encoding is the identity on every ballot castVote returns, if the curve group's own
  JSON round-trips (proved for P-256 and P-384). C58: cast, encode, decode, verify over P-256 and P-384; over ristretto255 only cast
  and verify, without JSON. C53: a secp256k1 ballot is sent and read without error but loses its curve elements; encoding a
  ristretto255 ballot panics if the generator's encoding starts with a non-zero byte. C36 characterises the accepted documents; C37 the proofs on which the verifiers answer.
* C38, C39: injectivity/non-injectivity of the hashed byte strings.
* C40: `PropZK.v`: a bijection between the draws leading to a given proof for one secret and for another. C41 likewise.
* C42: `Heap.v`, simulation between the pointer-level semantics and a store of values, by induction over call sequences.
* C48: `PropKS.v`: extraction from transcript trees by induction on the size; the extractor sees only integers.
* C51: laws of the curve groups from circl's contract (`CirclOk`, `RistrettoOk`) and ING's (`IngOk`).
* C56: the seed strings of the generators are pairwise different, for every number of generators.
* C59: `Mixed.v`, invariant over call sequences in programs with any number of groups.
* C60: `PropModSound.v`: soundness of the vote proof when the "elements" are arbitrary integers, by the structure of Z_p^* = {1,-1} x subgroup.
* C61: `Imp.v`, `ImpMulti.v`: refinement proof. `wp c r h Q` says the statement c returns from heap h exactly when the value-level
  computation r does, with related results; heaps only grow, and every write is recorded and shown to hit an object made during the call.
* C62: `Primes.v` proves Pocklington's criterion; `PrimeCerts.v` holds certificates of the four orders (and of a 259-bit safe prime used in
  the case of C60), checked by evaluation in the kernel.
* C63: `Pres.v`, `PropK1.v`: every operation respects a relation to a lawful group. The honest prover and the verifier are
  followed through the relation, so the hash may depend on the representation.
* C64: `Main.v`, `PropMain.v`: `main` as a function from draws and clock readings to the printed lines and the way it ends, in a writer monad (`Out.v`); induction over the
  iterations and over the draws of the abort loop (for the number of 'Aborted' lines). That honest ballots are accepted comes from C25 and C63, that castVote returns from the same.
* C65: `ImpVote.v`, `ImpVoteProofs.v`: the refinement of C61 over a heap with objects of two groups; then induction over the voters and
  over the ballots verified, using C25 for acceptance.
* C66: `PropJsonRead.v`: a declarative reading of documents (which keys match, last value, merged objects) proved equivalent to the decoders by
  induction over the members of each object. C67: `PropJsonWrite.v`: a table of paths.
* C68: `ImpJson.v`, `ImpJsonProofs.v`: a refinement with exact outcomes, whose invariant lists the objects made so far with their values, that they are
  new and that they are pairwise different; then induction over the ballots sent.
* C69: `Wire.v` against the grammar of `WireSpec.v` (RFC 8259 as inductive relations between trees and texts): soundness of the scanner by induction on its
  fuel, completeness by mutual induction on the grammar; hence the grammar is unambiguous, and bracketed texts are prefix-free.
* C70: `PropMultiVerify.v`: the verifier computed symbolically (sums over blocks of generators, any remainder); the forgery picks l and r to meet the second
  equation and t', taux to meet the first.
* C71: `PropMultiZK.v`: as C40, with a closed form of MultiProve; A holds aR twice, but two bit vectors differ as their shifts by one do, so the same
  bijection of draws works.
* C72: `PropPrivacy.v`: C40 for the two range proofs composed with C20 for the vote proof (the witness of the vote statement uses the blindings of the range
  proofs, so the bijection of draws and the simulated vote proof must fit together), then lifted to the raw mod-p group along the subgroup embedding.
* C73: `PropCopy.v`: both sides of the two mod-p checks are multiplied by the same invertible element; directly on the raw mod-p group, so that ballots with
  integers outside the subgroup are covered; for honest ballots by induction over the abort loop.
* C74: `MultiPrint.v`, `PropMultiPrint.v`: Verify with its prints in the writer monad of `Out.v`, shown to agree with `MultiVerify`; the honest run is the
  computation of C15, which also yields the two other checks.
* C75: `Fork.v`, `PropFork.v`: provers are trees of hash questions (`Prog`), run against answers drawn one by one (`exec`; shown to be the run against an
  ordinary hash function). The forking lemma is proved by counting: to a winning sequence assign the position of the decisive question, the label of the
  output and all answers but the first t bytes of the decisive one; if no two sequences get the same code they are few, otherwise the two runs coincide up
  to the decisive question and C21, C60 or C62 apply to their outputs.
* C76: `ECLaw.v` proves the chord-and-tangent law associative over any field of characteristic not 2, by mapping a point to the class of its maximal ideal in the
  coordinate ring (injective because no function has a norm of degree 1); `ECPoints.v` has the textbook formulas on coordinates modulo p and carries the law over;
  `FieldCerts.v`, `FieldCerts384.v` certify the primality of the fields; `OrderCerts.v`, `OrderCerts384.v` certify N * G = 0 by double-and-add chains (checker in `ECCert.v`);
  `ECOrder.v` concludes that there are no other points: there are at most 2p + 1 < 3N of them, so fewer than three cosets of <G>, and the square root of the
  discriminant rules out a point of order 2. `CirclStd`, `IngStd` in `PropECLaw.v` are the remaining assumptions.
* C77: `PropK1Sound.v`: both accepted vote proofs are mapped along `IngOk`'s abstraction to the lawful group behind ING; since String of the image is not String of the
  original, the hash is replaced by one that answers with the challenge actually got; then C60 applies and its conclusion is mapped back. The forking lemma is
  used in the version that identifies first messages up to IsEqual.
* C78: `PropDeaf.v`: with V, A, S, T1, T2, P blank, condition (67) is a statement about Mu alone; with h, Kq1, Kq2, V1, V2 blank the two curve checks of the vote proof
  read z = 101 c and z = 2000 c. The forger's ballot is `blankBallot`.
* C79: `EdLaw.v` proves the addition law of -x^2 + y^2 = 1 + d x^2 y^2 total (d is not a square, -1 is) and associative, by polynomial identities whose cofactors were
  computed by a program; `EdPoints.v` carries it to coordinates modulo p and shows that the test of RFC 9496 says 4P = 4Q; `EdField.v` certifies p and that d is not a
  square (Euler's criterion); `EdCert.v`, `EdChain.v` certify the order of the base point and of a point of order 8; their sum has order 8l, and there are at most
  2p < 16l points, so it generates. An element is then 4 times a point standing for it: a point of the subgroup of order l. `RistStd` in `PropRist.v` is the remaining assumption.
* C80: `PropReplay.v`: verifyVote uses of its parameters only the ends of the range, each in one curve check of the vote proof; subtracting the check for one range from
  that for another leaves c * (shift) * G = 0. `SameFor` is that condition; for secp256k1 the checks are mapped along `IngOk` as in C77.
* C81: `PropTally.v`, `PropTallyU.v`: reading is specified by `ReadsAs` (the code has no decryption). Uniqueness is the order of 2 (C49); p - V enters the server's checks as
  (p - V)^c = +-V^c only, and -1 is not a power of 2 since q is odd.
* C82: `PropStrict.v`: the ballot is castVote's with the range proofs replaced by those of C47 (for v - 101 and 2000 - v, both possibly negative); the vote proof is
  honest, so C18 applies. `StrictBallot` states which parameters agree with the election's.
* C83: `PropChal.v`: the provers are cut at their uses of the hash function (`vec_split`, `bip_ext`); a run is compared with the one under `guarded`, the hash function
  with the non-invertible digests replaced by 1, for which the theorems with `ChallengesInvertible` apply. `ChallengesInvertible` itself (all pairs of group elements) is
  surely false for SHA-256 and a group of 2^256 elements; where C01, C05, C06, C25, C44, C47, C63, C64, C65, C68, C70, C71 and C82 assume it, C83 (`PropChal.v`, `PropRun.v`) states the same for the digests of the run.
* C84: `PropNil.v`: the two verifiers are compared call by call (`le_res`: an answer of one is the answer of the other). For secp256k1 the inner-product
  argument of an accepted blank proof is exchanged for the complete blank one (`withIPP`), which brings C78's lemma to bear.
* C85: `PropLimit.v`: the server is run with a bound M on the exponents of the two powers of two it builds (`verifyVoteM`). Raising Bb touches the upper bound for Z only, so
  acceptance is kept; the text is that of C69's printer with the digits of one number exchanged.
* C86: `PropDDH.v`: a hybrid argument with counts (`tot`) in place of probabilities. The one-time pad step is a rotation of a sum over all exponents (`tot_rot`);
  the order of the votes and the tests at each place are explicit (`testOf`, `TestsBelow`), so the conclusion is not about unspecified "efficient" adversaries.
* C87: `PropShift.v`, `PropShiftK1.v` (secp256k1, up to IsEqual), `PropShiftM.v` (aggregated proofs; the missing comparison): a transformation of ballots (`shiftBallot`) under which each of the verifier's equations gains the same element on both sides (`eq_plus`, and for integers mod p
  `movable_modp`); `verify_move` walks through verifyVote. The range proofs' answer is unchanged for every proof because only condition (65) sees V and t'.
* C88: `PropBlind.v`, `PropBlindK1.v` (secp256k1): a transformation of ballots (`reblindBallot`) under which the first equation of each range proof and the checks of the vote proof gain the same multiple of H on
  both sides; for honest ballots `Prove` and the abort loop are unfolded with the other draw and compared field by field. With `rerandomise` (C73) for the ciphertext.

None of the listed properties is "not applicable", and none is partial *as now worded*. An audit of the English against the theorems
found statements wider than what is proved; these were narrowed (C05, C09, C11, C14, C19, C20, C21, C25, C27, C35, C40, C43, C46, C54, C58) and the
hypotheses are in the quantifiers and in the notes of MANIFEST.json. In particular the original C35 (every ballot survives JSON) is false
for two of the four shipped curve groups (C53).

## Parts of the code not modelled

* The text `main` and `MultiBulletProof.Verify` print is modelled as one constructor per print call; how fmt renders durations is not. Clock readings are arguments.
* Tests.
* The external libraries. Assumed contracts: math/big, crypto/rand (draws are arguments; theorems say when they must be in range),
  crypto/sha256 as a function, encoding/json (as in `Json.v` and `Wire.v`; keys are compared after case folding; the printer is that of Go 1.21 on 7-bit strings),
  circl's P-256/P-384/Ristretto255 (`Circl`, `CirclOk`, `RistrettoOk`), ING's p256 package (`Ing`, `IngOk`;
  by C76 and C79 it is enough that circl and ING compute the textbook formulas: `CirclStd`, `IngStd`, `RistStd`),
  `byteconversion.FromByteArray` (an arbitrary function to the integers; the recorded ballots below fit only big-endian two's complement, so it can be negative).
* Memory exhaustion (except by the two powers of two in `SigmaProof.Verify`: C85), int overflow of slice lengths (a 64-bit `int` is assumed), goroutines (the code starts none), running time, side channels.
* Slices have capacity = length: no modelled function appends to a slice that is shared.
* Computational hardness assumptions: where the code's security rests on discrete logarithms the theorem names the coefficients of the relation, as a formula in
  the integers of the given proofs and openings (`Relation2`, `relLow`, `relHigh` in `PropVote.v`). That *some* relation exists would be an empty conclusion: in a group of
  prime order there always is one. For the same reason the forgeries of range proofs are given as functions (`forgeAnyValue`, `forgeOneGen`, `forgeEqual` in `PropBP.v`):
  every element is a commitment to every value, so that an accepted proof *exists* would say little.

## A run of the model on recorded ballots

This is a test, not a proof, and not part of the build. Outside this tree the model (setup, ballot decoding, BulletProof.Verify, verifyVote, ballot encoding) was
extracted to an executable and run on the two ballots in /repo/testdata (P256rp.json, P384rp.json), to all appearance written by an earlier version of the Go code. Curve operations were the formulas of
`ECPoints.v`; SHA-256 and hash-to-curve (RFC 9380, empty domain tag) came from a script.

* All four Bulletproofs are accepted, and both ballots are accepted for the range 101 to 1000 with the lengths recorded in them.
* Both are rejected for 101 to 2000, the range in `setup` at the pinned commit (the vote proofs in the files name a range of 101 to 1000).
* The generators computed by `Setup` are those in the files, and the proofs verify with y = z (C10).
* Encoding the decoded ballot gives the file again, with the same order of keys, except for a key "Commit" that the pinned code no longer has.
* The run works only if FromByteArray reads two's complement.

secp256k1, ristretto255, castVote and the aggregated proofs have no recorded data and were not run.

## Trusted base

* Coq 8.16.1 kernel (`coqc`, re-checked by `coqchk`), including `vm_compute` in the concrete cases and in C43, C49, C62, C76, C79.
* Axioms: `Print Assumptions` answers "Closed under the global context" for every theorem named in MANIFEST.json.
  (The listing of the whole build also names seven constants of the library file Coq.ssr.ssrunder, loaded by `lia`; no theorem uses them.)
  No axiom, variable or hypothesis outside a section is declared, no kernel check is switched off.
* That the model reads the Go code correctly, and the contracts above.
