{"id": "C01", "title": "Bulletproof completeness", "statement": "For every parameter set produced by bulletproofs.Setup and every secret in [0, 2^N), a proof returned by Prove is accepted by Verify (Verify returns true, never false and never panics).", "quantifier": "all prime-order groups meeting the Element contract, all hash functions, all accepted range ends, all secrets in range, all values of every random draw", "why_tests_cant": "The secret and the 2N+5 scalars drawn by the prover range over an astronomically large set; a test samples a few draws and one group.", "anchors": ["bulletproofs/bp.go:Prove", "bulletproofs/bp.go:Verify", "bulletproofs/bip.go"]}
{"id": "C02", "title": "Prove/Verify rejects out-of-range secrets", "statement": "If Prove is run on an integer secret that is negative or at least 2^N, and that is not congruent to its own low N bits modulo the group order, then the resulting proof is rejected by Verify.", "quantifier": "all integers outside the range, all randomness, all groups and hash functions for which the challenge z is non-zero modulo the order", "why_tests_cant": "The unit tests probe -1, 2^32 and 2^32+1 only; the claim is about every out-of-range integer and every random draw.", "anchors": ["bulletproofs/bp.go:Prove", "bulletproofs/bp.go:Verify", "bulletproofs/bp_test.go"]}
{"id": "C03", "title": "The commitment inside a Bulletproof opens to the secret", "statement": "The V component of the proof returned by Prove is exactly secret*G + gamma*H, where gamma is the blinding factor that Prove returns.", "quantifier": "all secrets, parameters and randomness", "why_tests_cant": "Callers (castVote) rely on the returned blinding factor for every draw; a test cannot enumerate draws.", "anchors": ["bulletproofs/bp.go:Prove", "util/util.go:PedersenCommit", "voter.go:castVote"]}
{"id": "C04", "title": "Bulletproof Verify decides exactly the published equations", "statement": "BulletProof.Verify returns true if and only if (65) t'*G + tau_x*H = z^2*V + delta(y,z)*G + x*T1 + x^2*T2, (66-67) mu*H + P = A + x*S - z*sum(g_i) + sum((z*y^i + z^2*2^i) * y^-i * h_i), and the attached inner-product proof verifies, where delta(y,z) = (z - z^2)*sum y^i - z^3*sum 2^i.", "quantifier": "all well-shaped proofs, honest or adversarial", "why_tests_cant": "Requires quantifying over all adversarial proofs and comparing two algebraic expressions for all values.", "anchors": ["bulletproofs/bp.go:Verify", "bulletproofs/bp.go:delta", "bulletproofs/bp.go:updateGenerators"]}
{"id": "C05", "title": "Bulletproof Verify does not tie t' to the inner product: range soundness fails", "statement": "Even over the verifier's own parameters and honest inner-product generators, for every integer v and every blinding gamma a forger that only uses the group operations and the hash computes, from v and gamma, a proof accepted by BulletProof.Verify whose V is v*G + gamma*H. So an accepted range proof says nothing about the range (Verify never compares the inner product Cc with Tprime).", "quantifier": "all committed values v and blindings, all groups meeting the Element contract, power-of-two sizes, all hash functions whose challenges are invertible modulo the order", "why_tests_cant": "Soundness is a statement about all adversarial proofs; tests only produce proofs with the honest prover.", "anchors": ["bulletproofs/bp.go:Verify", "bulletproofs/bip.go:Verify"]}
{"id": "C06", "title": "Inner-product argument completeness", "statement": "For vectors of any power-of-two length, an inner-product proof built by proveInnerProduct from a commitment P = g^a h^b and c = <a,b> is accepted by InnerProductProof.Verify; for arbitrary P and c it is accepted if and only if P + c*u^x = g^a h^b u^(x<a,b>).", "quantifier": "all power-of-two lengths, all vectors, all generators, all hash functions", "why_tests_cant": "The test has one 4-element example; the claim is by induction over the recursion depth.", "anchors": ["bulletproofs/bip.go:proveInnerProduct", "bulletproofs/bip.go:computeBipRecursive", "bulletproofs/bip.go:Verify"]}
{"id": "C07", "title": "Inner-product proof size is logarithmic", "statement": "The proof produced for vectors of length 2^k carries exactly k left and k right elements.", "quantifier": "all k and all vectors", "why_tests_cant": "Unbounded in k.", "anchors": ["bulletproofs/bip.go:computeBipRecursive"]}
{"id": "C08", "title": "InnerProductProof.Verify decides the closed-form multi-exponentiation equation", "statement": "For generators of length 2^k and k rounds, Verify returns true iff P + Cc*x*u + sum(x_i^2 L_i + x_i^-2 R_i) = sum_j (a*s_j g_j + b*s_j^-1 h_j) + a*b*x*u with s_j the product of x_i^{+1/-1} selected by the bits of j.", "quantifier": "all proofs, honest or adversarial, of any size", "why_tests_cant": "Needs all sizes and all adversarial values.", "anchors": ["bulletproofs/bip.go:Verify"]}
{"id": "C09", "title": "Bulletproof Verify takes the inner-product generators from the proof", "statement": "For every parameter set and every integer v one can compute, with group operations and the hash only, an accepted BulletProof for v*G + gamma*H whose inner-product argument uses a single generator of the prover's choice and no rounds: BulletProof.Verify never compares the generators in the proof with its own.", "quantifier": "all parameter sets, values and blindings, and all A, S whose challenge is invertible modulo the order", "why_tests_cant": "Concerns every adversarially decoded proof.", "anchors": ["bulletproofs/bip.go:Verify", "bulletproofs/marshal.go:ipParamsFromRawMessage"]}
{"id": "C10", "title": "The two challenges y and z of HashBP always coincide", "statement": "For every group, hash function and pair of elements the two integers returned by HashBP are equal (the second digest hashes the first buffer again).", "quantifier": "all pairs of elements and all hash functions", "why_tests_cant": "Equality for all inputs cannot be sampled.", "anchors": ["bulletproofs/util.go:HashBP"]}
{"id": "C11", "title": "Bulletproof Setup accepts exactly the supported range ends", "statement": "bulletproofs.Setup(b) succeeds iff b is one of 2, 4, 16, 256, 65536, 2^32, returning N = log2 b and N generators in each vector; every other int64 yields an error (except the minimum int64, which slips through the power-of-two test).", "quantifier": "all 2^64 values of b, all groups whose MapToGroup returns an element for every string", "why_tests_cant": "2^64 inputs and wrap-around at the minimum int64.", "anchors": ["bulletproofs/bp.go:Setup", "bulletproofs/util.go:IsPowerOfTwo"]}
{"id": "C12", "title": "Decompose is the base-u expansion", "statement": "Decompose(x,u,l) returns l digits in [0,u) whose weighted sum is x mod u^l, for every integer x (also negative).", "quantifier": "all integers x, all u >= 2, all lengths l", "why_tests_cant": "Unbounded integers and lengths.", "anchors": ["util/util.go:Decompose"]}
{"id": "C13", "title": "computeAR maps bits to bits minus one", "statement": "computeAR succeeds exactly on 0/1 vectors and returns the componentwise x-1; together with Decompose this gives the prover's a_R for every secret, with a_L o a_R = 0.", "quantifier": "all vectors", "why_tests_cant": "Unbounded lengths and int64 contents.", "anchors": ["bulletproofs/bp.go:computeAR"]}
{"id": "C14", "title": "Vector helpers are the componentwise operations modulo the order", "statement": "VectorAdd/Sub/Mul/ScalarMul/AddConst, ScalarProduct, VectorInnerProduct, VectorExp, VectorECAdd, VectorCopy, powerOf compute the componentwise / inner-product / multi-exponentiation result reduced into [0,mod). Of the helpers on two vectors, VectorAdd/Sub/Mul, ScalarProduct, VectorExp and VectorECAdd report an error exactly when lengths differ; VectorInnerProduct reports none: it panics when the second vector is shorter and ignores its surplus entries when it is longer.", "quantifier": "all vectors of all lengths and all moduli > 0", "why_tests_cant": "Unbounded lengths and integers.", "anchors": ["bulletproofs/vector.go", "bulletproofs/util.go"]}
{"id": "C15", "title": "Honest aggregated proofs are rejected", "statement": "MultiBulletProof.Verify accepts the proof returned by MultiProve for in-range values if and only if one specific linear combination of the generators, with coefficient 1 at every g_i, is the identity. Over a group of prime order, if the last generator is not the identity, at most 2^k + 1 of the residues the challenge can take modulo the order (2^k > 1 being the number of generators) lead to acceptance, whatever the values, the randomness and the hash function: honest aggregated proofs are rejected for all other challenges. With a single 1-bit value the challenge plays no role and the proof is accepted iff the two generators are equal.", "quantifier": "all value vectors, all randomness, all groups", "why_tests_cant": "The exact condition quantifies over all randomness and generators.", "anchors": ["bulletproofs/multibp.go:MultiProve", "bulletproofs/multibp.go:Verify"]}
{"id": "C16", "title": "MultiProve needs the number of values to divide N", "statement": "MultiProve returns normally only if the number of values is non-zero and divides N; otherwise it panics.", "quantifier": "all list lengths and all N", "why_tests_cant": "Unbounded.", "anchors": ["bulletproofs/multibp.go:MultiProve"]}
{"id": "C17", "title": "voteproof.Setup parameter check", "statement": "voteproof.Setup returns an error iff groupOrderLog <= 1 + lenSecret + lenChallenge; otherwise Bb = groupOrderLog-1-lenSecret-lenChallenge and the 16-bit sum Bx+Bc used by Prove and Verify never wraps.", "quantifier": "all uint8/uint16 parameters", "why_tests_cant": "2^40 parameter combinations with 16-bit wrap-around.", "anchors": ["voteproof/voteproof.go:Setup", "voteproof/voteproof.go:Prove", "voteproof/voteproof.go:Verify"]}
{"id": "C18", "title": "Vote-proof completeness", "statement": "A SigmaProof returned by voteproof.Prove for a secret x and blinding factors rp, rq1, rq2 is accepted by Verify for the commitments Y = rp*G, Xp = x*G + rp*H (ElGamal group) and Xqi = x*G + rqi*H (curve group), whenever the ElGamal group order is at least 2^(Bx+Bc+Bb).", "quantifier": "all secrets, all randomness streams, all hash functions, both groups abstract", "why_tests_cant": "All random draws and abort histories.", "anchors": ["voteproof/voteproof.go:Prove", "voteproof/voteproof.go:Verify"]}
{"id": "C19", "title": "Setup accepts parameter sets for which honest vote proofs fail", "statement": "voteproof.Setup accepts parameter sets whose ElGamal group order lies below the mask range (with a margin of 2^(Bx+Bc) on both sides, and coprime to the curve order); for each of them and every true statement, the draw k = that order makes Prove return a proof that Verify rejects. So the order condition of C18, which Setup does not check, is needed.", "quantifier": "all parameter sets accepted by Setup with Bc <= 263 and ElGamal order between 2^(Bx+Bc) and 2^(Bg-1) - 2^(Bx+Bc), coprime to the prime curve order", "why_tests_cant": "The failing parameter combination lies outside the configurations anyone tests.", "anchors": ["voteproof/voteproof.go:Prove"]}
{"id": "C20", "title": "The vote-proof response z leaks nothing about the secret", "statement": "For every challenge and every secret in range, each z in the accepted interval is reached from exactly one mask k, and every complete response (z,sp,sq1,sq2) from exactly one choice of masks, whose commitments are determined by the statement, challenge and response alone.", "quantifier": "all secrets, challenges and responses, for parameter sets whose ElGamal order is at least 2^(Bg-1), 32-byte digests", "why_tests_cant": "A bijection over a 2^255-sized set.", "anchors": ["voteproof/voteproof.go:Prove"]}
{"id": "C21", "title": "Vote-proof special soundness", "statement": "From two accepting transcripts with the same commitments and different challenges, where Xq1 opens to a value v < 2^Bx, either the ElGamal ciphertext (Y,Xp) encrypts exactly v, with randomness the quotient of the differences of responses and challenges, or two integers computed from the differences of the responses and challenges and the given opening are the coefficients of a non-trivial discrete-log relation between G and H of the curve group.", "quantifier": "all pairs of accepting transcripts, any prover, both group orders at least 2^(Bg-1), ElGamal order prime", "why_tests_cant": "All adversarial proofs.", "anchors": ["voteproof/voteproof.go:Verify", "voteproof/voteproof.go:sigmaPedersenCheck"]}
{"id": "C22", "title": "SigmaProof.Verify takes Bx, Bc, Bb from the proof", "statement": "From the parameters alone one computes one SigmaProof over the verifier's groups, H elements, Bg and range that Verify accepts for every statement, true or false, and every hash function; only the lengths Bx, Bc, Bb are chosen by the forger.", "quantifier": "all statements", "why_tests_cant": "For all statements there exists a proof: a forall-exists claim.", "anchors": ["voteproof/voteproof.go:Verify", "voteproof/marshal.go:ProofUnmarshalJSON"]}
{"id": "C23", "title": "The Fiat-Shamir challenge does not bind the statement", "statement": "Under honest parameters, for every value x in the curve commitments and every offset d not divisible by the order, a prover computes, after seeing the challenge c, a ciphertext of x - d/c, which differs from x, and a proof that Verify accepts for it (the challenge hashes only W, Kp, Kq1, Kq2).", "quantifier": "all hash functions with invertible challenge", "why_tests_cant": "Adversarial provers for all hash functions.", "anchors": ["voteproof/voteproof.go:getFSChallenge", "voteproof/voteproof.go:Verify"]}
{"id": "C24", "title": "ElGamal encryption is correct and binding", "statement": "Decrypting the pair returned by encryptVote with the secret key yields choice*G; the blinding factor is in [1,N-1]; equal ciphertexts come from choices congruent modulo the order.", "quantifier": "all choices, keys, randomness", "why_tests_cant": "All randomness.", "anchors": ["elgamal.go:encryptVote"]}
{"id": "C25", "title": "End-to-end completeness", "statement": "For every public parameter set built by setup and every randomness, verifyVote accepts the ballot returned by castVote.", "quantifier": "all randomness, all hash functions, all curve groups that meet the Element contract, are accepted by setup and have an order of fewer than 65536 bits not above the ElGamal order", "why_tests_cant": "All random draws of all sub-protocols at once.", "anchors": ["voter.go:castVote", "server.go:verifyVote", "main.go:setup"]}
{"id": "C26", "title": "castVote picks a valid candidate", "statement": "The choice encrypted by castVote lies in [candidateMin, candidateMax]; more precisely in [candidateMin, candidateMax-1], the last candidate is never chosen, and a single-candidate election makes castVote panic.", "quantifier": "all random draws and all uint16 bounds", "why_tests_cant": "All draws and bounds with 16-bit arithmetic.", "anchors": ["voter.go:castVote"]}
{"id": "C27", "title": "verifyVote accepts a ballot for every ciphertext", "statement": "For the parameters returned by setup and every pair of integers (U,V), also ones encrypting no candidate or outside the group, one computes, with group operations and the hash only, a ballot with ciphertext (U,V) that verifyVote accepts.", "quantifier": "all ciphertexts, all hash functions with at least one invertible challenge", "why_tests_cant": "forall ciphertext exists ballot.", "anchors": ["server.go:verifyVote", "marshal.go:BallotDataUnmarshalJSON"]}
{"id": "C28", "title": "verifyVote needs all three proofs", "statement": "verifyVote returns true only if both Bulletproofs verify and the vote proof verifies against the shifted commitments RangeLo*G + V1 and RangeHi*G - V2; if a Bulletproof fails it returns a nil timing slice, and the driver loop then panics.", "quantifier": "all ballots", "why_tests_cant": "All ballots.", "anchors": ["server.go:verifyVote", "main.go:main"]}
{"id": "C29", "title": "The mod-p group implements the group contract", "statement": "For p = 2q+1, Add/Negate/Subtract/Scale/BaseScale/IsEqual/IsIdentity on subgroup members satisfy the abelian group laws with Scale as iterated Add for every integer exponent (also negative), exponents act modulo q, and the results stay in the subgroup.", "quantifier": "all members, all integer exponents", "why_tests_cant": "Unbounded exponents and 3072-bit members.", "anchors": ["group/modsafeprime.go"]}
{"id": "C30", "title": "A vote proof determines the ciphertext only among canonical subgroup members", "statement": "If Verify accepts a proof for ciphertext (U,V) then it accepts it for (U + i*p, V + j*p) for all i,j, and, when the challenge is even, for the non-member p-V in place of V; among canonical members of the subgroup the ciphertext is unique when the challenge is invertible.", "quantifier": "all accepted proofs", "why_tests_cant": "All accepted proofs.", "anchors": ["group/modsafeprime.go:UnmarshalJSON", "voteproof/voteproof.go:Verify"]}
{"id": "C31", "title": "P-256/P-384 JSON round trip", "statement": "UnmarshalJSON(MarshalJSON(P)) = P for every curve point including the identity.", "quantifier": "all points (about 2^256 / 2^384)", "why_tests_cant": "Leading-zero coordinates occur with probability 2^-8 per byte; deep cases are unreachable by sampling.", "anchors": ["group/p256.go:MarshalJSON", "group/p256.go:UnmarshalJSON", "group/p384.go"]}
{"id": "C32", "title": "P-256/P-384 JSON decoding is canonical exactly for in-range coordinates", "statement": "An object with coordinates in [0, 256^L) decodes, if at all, to exactly those coordinates; but flipping signs never changes the outcome, every point also decodes from an X of L+1 bytes with top byte 4, and from a Y of 2L+1 bytes whatever X is; longer or missing coordinates panic.", "quantifier": "all coordinates", "why_tests_cant": "All integers as coordinates.", "anchors": ["group/p256.go:UnmarshalJSON"]}
{"id": "C33", "title": "ristretto255 JSON never round-trips", "statement": "MarshalJSON panics when the first byte of the 32-byte encoding is non-zero and returns the object (0,0) otherwise; UnmarshalJSON never decodes anything: on every input it returns an error leaving the receiver unchanged, or panics.", "quantifier": "all elements", "why_tests_cant": "All elements.", "anchors": ["group/ristretto255.go:MarshalJSON", "group/ristretto255.go:UnmarshalJSON"]}
{"id": "C34", "title": "secp256k1 encodings round-trip exactly for full-length X", "statement": "UnmarshalBinary(MarshalBinary(P)) = P for a point with non-nil coordinates iff X has exactly 32 significant bytes (same condition for MapToGroup returning the hashed point); the nil identity decodes to (0,0), which IsEqual accepts but which cannot be re-encoded; IsEqual holds exactly when the coordinates agree, nil counting as 0; JSON decoding never changes the receiver and reports success. MarshalBinary writes the significant bytes of X and then of Y, 32 zero bytes for a nil one; MarshalJSON writes an object of X and Y.", "quantifier": "all coordinates", "why_tests_cant": "Short coordinates are rare.", "anchors": ["group/p256k1.go:MarshalBinary", "group/p256k1.go:SetBytes", "group/p256k1.go:UnmarshalJSON"]}
{"id": "C35", "title": "Ballot JSON round trip", "statement": "If the JSON of single elements round-trips, decoding the JSON of a ballot produced under pp, with the same pp, succeeds and returns the same ballot, hence verifyVote gives the same answer before and after transport. The mod-p group and the P-256 and P-384 groups meet the condition.", "quantifier": "all ballots cast under parameters from setup, and all ballots with complete lists and in-range lengths, over curve groups whose element JSON round-trips (P-256 and P-384; not secp256k1 or ristretto255, see C53)", "why_tests_cant": "All field values.", "anchors": ["marshal.go", "bulletproofs/marshal.go", "voteproof/marshal.go"]}
{"id": "C36", "title": "The ballot decoder drops element errors and panics on ragged lists", "statement": "BallotDataUnmarshalJSON does not reject every malformed ballot: an element field that is missing or undecodable is silently replaced by the default element, unknown and missing fields are ignored, and a list R or Hh shorter than L or Gg panics.", "quantifier": "all JSON values", "why_tests_cant": "All JSON documents.", "anchors": ["marshal.go", "bulletproofs/marshal.go:ipProofFromRawMessage", "voteproof/marshal.go"]}
{"id": "C37", "title": "Which decoded ballots make verification panic", "statement": "BulletProof.Verify over parameters from Setup answers true or false exactly when Tprime, Taux, Mu, Cc, a, b are present, the generator and R lists are complete, 2^|L| divides the number of generators and the challenges are invertible, and panics on every other proof; verifyVote then answers on every complete ballot. A decoded ballot of empty objects, or one with a null integer in the first Bulletproof, makes verifyVote panic; no incomplete ballot is accepted.", "quantifier": "all decoded ballots", "why_tests_cant": "All decoded ballots.", "anchors": ["server.go:verifyVote", "voteproof/voteproof.go:Verify", "bulletproofs/bp.go:Verify"]}
{"id": "C38", "title": "The Fiat-Shamir input is ambiguous for the mod-p group", "statement": "There are two different pairs of subgroup elements (W,Kp) with the same challenge under every hash function, because decimal strings are concatenated without separator; pairs whose first elements print with equally many digits are not confused.", "quantifier": "all hash functions", "why_tests_cant": "For all hash functions.", "anchors": ["voteproof/voteproof.go:getFSChallenge", "group/modsafeprime.go:String"]}
{"id": "C39", "title": "HashBP and hashIP inputs are injective on curve elements", "statement": "With the P-256/P-384 encodings, the byte strings hashed by HashBP and hashIP determine the hashed elements (and, for hashIP, the scalar) uniquely.", "quantifier": "all element lists of any length", "why_tests_cant": "Unbounded lists.", "anchors": ["bulletproofs/util.go:HashBP", "bulletproofs/bip.go:hashIP"]}
{"id": "C40", "title": "Bulletproofs hide the secret perfectly", "statement": "For any two secrets in range there are maps between the prover's random choices, inverse to each other, that turn every run on one secret into a run on the other that outputs the identical proof; so a proof is exactly as likely for one secret as for the other, whatever the hash functions.", "quantifier": "all pairs of secrets, all randomness, all prime-order groups with H not the identity, all hash functions with non-zero challenges", "why_tests_cant": "A bijection between exponentially large sets.", "anchors": ["bulletproofs/bp.go:Prove"]}
{"id": "C41", "title": "Pedersen commitments hide perfectly and bind up to discrete log", "statement": "For all values x, x' and all r there is exactly one r' in [0,N) with Commit(x,r)=Commit(x',r'); two different openings of one commitment give a non-trivial relation between G and H.", "quantifier": "all values and randomness", "why_tests_cant": "Exponential.", "anchors": ["util/util.go:PedersenCommit", "voteproof/voteproof.go:pedersenCommit"]}
{"id": "C42", "title": "Element operations are alias-safe", "statement": "Any sequence of Element method calls with receivers and arguments aliased in any way has the effect of the pure group operations on the receiver only; no other element changes.", "quantifier": "all call sequences and aliasing patterns", "why_tests_cant": "All histories and aliasings.", "anchors": ["group/modsafeprime.go", "group/p256.go"]}
{"id": "C43", "title": "setup yields consistent parameters for the shipped curves", "statement": "setup succeeds for secp256k1, ristretto255, P-256 and P-384, with Bb = BitLen(N)-241, mask range 2^(Bx+Bc+Bb) = 2^(BitLen(N)-1) below both group orders, and 16 Bulletproof generators.", "quantifier": "the four shipped curve orders, with any group operations whose MapToGroup returns an element for every string", "why_tests_cant": "Ties constants, wrap-around and inequalities that completeness rests on.", "anchors": ["main.go:setup", "group/p256.go", "group/p384.go", "group/ristretto255.go", "group/p256k1.go"]}
{"id": "C44", "title": "The inner-product prover's domain", "statement": "proveInnerProduct on equal-length vectors terminates normally only for power-of-two lengths; it panics for other positive lengths (>1) and never terminates on empty vectors.", "quantifier": "all lengths", "why_tests_cant": "All lengths; non-termination.", "anchors": ["bulletproofs/bip.go:computeBipRecursive"]}
{"id": "C45", "title": "An accepted vote proof binds its statement", "statement": "If one SigmaProof is accepted for two statements and the challenge is invertible modulo both orders then the statements are equal.", "quantifier": "all proofs and statements", "why_tests_cant": "All.", "anchors": ["voteproof/voteproof.go:Verify"]}
{"id": "C46", "title": "The abort loop makes progress", "statement": "In each iteration at least ub-2lb+1 of the ub possible masks k are accepted whatever the hash function answers, for every secret below 2^Bx; so at most a 2^(1-Bb) fraction aborts, and of all sequences of n masks at most a 2^(n(1-Bb)) fraction aborts n times in a row, whatever the blinding draws are.", "quantifier": "all secrets, all hash functions with 32-byte digests, challenge lengths up to 263 bits (longer ones panic)", "why_tests_cant": "A counting claim over 2^255 masks.", "anchors": ["voteproof/voteproof.go:Prove"]}
{"id": "C47", "title": "Equal challenges y = z break range soundness on their own", "statement": "Even if Verify compared Cc with Tprime and used the honest generators, for N >= 4 every integer v has an accepted proof, because y = z lets non-binary vectors satisfy the polynomial identity.", "quantifier": "all v, all hash functions with non-zero challenge, odd order", "why_tests_cant": "Adversarial proofs for all v.", "anchors": ["bulletproofs/util.go:HashBP", "bulletproofs/bp.go:Verify"]}
{"id": "C48", "title": "Inner-product argument is knowledge sound", "statement": "Given accepting inner-product proofs for one statement (P, c) that form two trees, one for each of two different non-zero answers of the first hash, with four challenges of distinct squares at every round, a procedure that looks only at the integers in the proofs (challenges and final scalars) computes either vectors a, b with P = g^a h^b and <a,b> = c modulo the group order, or exponents, not all zero, that combine g, h and u to the identity.", "quantifier": "all prime-order groups, all generators, all power-of-two sizes, all trees of accepted proofs, whoever made them", "why_tests_cant": "Ranges over all adversarial provers and all hash answers; needs induction on the number of rounds.", "anchors": ["bulletproofs/bip.go:Verify", "bulletproofs/bip.go:hashIP"]}
{"id": "C49", "title": "The mod-p generator has order q", "statement": "With p = 2q+1, p and q prime and p = 7 mod 8 (which holds of the RFC 3526 modulus in setup), BaseScale(a) = BaseScale(b) iff a = b mod q.", "quantifier": "all integer exponents, all such primes", "why_tests_cant": "Unbounded exponents.", "anchors": ["group/modsafeprime.go:NewModPGroup", "main.go:setup"]}
{"id": "C50", "title": "An accepted ballot holds a candidate in range", "statement": "Let two ballots with the same ciphertext, the same range commitments V1, V2 and the same first message of the vote proof, but different challenges, be accepted by verifyVote (under two hash functions), and let V1 and V2 open to N-bit values. Then the ElGamal ciphertext encrypts RangeLo plus the value in V1, which lies in [RangeLo, RangeHi], or one of two pairs of integers given by explicit formulas in the responses, challenges and openings is a non-trivial discrete-log relation between G and H of the curve group.", "quantifier": "all parameter sets, all groups of prime order, all accepting transcripts", "why_tests_cant": "All adversarial provers.", "anchors": ["voteproof/voteproof.go:Verify", "server.go:verifyVote"]}
{"id": "C51", "title": "The curve groups implement the group contract", "statement": "If circl's points form an abelian group of exponent N with identity (0,0) and Mul by a reduced scalar is repeated addition, then Add/Subtract/Negate/Scale/BaseScale/IsEqual/IsIdentity of the P-256 and P-384 elements satisfy the documented contract of Element for every integer scalar, also negative or larger than N, and an element that is encoded to JSON and decoded into any receiver comes back unchanged. The ristretto255 elements satisfy the same contract, without the JSON part, if circl's Ristretto255 operations do for scalars reduced modulo the order. The secp256k1 elements satisfy the contract, without the JSON part, with IsEqual in place of equality (an equivalence that every method respects), on the points ING's package works with, if that package meets its own contract.", "quantifier": "all points, all integer scalars, all circl implementations meeting their contract", "why_tests_cant": "Unbounded scalars, all points.", "anchors": ["group/p256.go", "group/p384.go", "group/group.go"]}
{"id": "C52", "title": "SetBytes never reports a bad encoding", "statement": "SetBytes on a P-256/P-384 element returns the decoded point for every valid binary encoding, and the identity, without any error, for every other byte string.", "quantifier": "all byte strings", "why_tests_cant": "All byte strings.", "anchors": ["group/p256.go:SetBytes", "group/p384.go:SetBytes"]}
{"id": "C53", "title": "Ballots over secp256k1 or ristretto255 do not survive JSON", "statement": "Of a ballot whose curve elements live in the secp256k1 group, encoding to JSON and decoding again succeeds without an error but replaces every curve element in both range proofs by a fresh element, whatever it was; only the integers and the ElGamal part survive. Over ristretto255, encoding a ballot returned by castVote panics whenever the encoding of the generator starts with a non-zero byte, as it does in RFC 9496.", "quantifier": "all ballots, all parameter sets, all random draws of castVote", "why_tests_cant": "The loss happens silently; a test would need every ballot, and the repository's tests only use P-256 and P-384.", "anchors": ["group/p256k1.go:UnmarshalJSON", "group/ristretto255.go:MarshalJSON", "marshal.go:BallotDataUnmarshalJSON"]}
{"id": "C54", "title": "Accepted proofs are malleable: integer fields count only modulo the group order", "statement": "The answers of BulletProof.Verify, SigmaProof.Verify and verifyVote do not change when scalar fields of the proof are replaced by integers congruent modulo the order of the group they are used in. So for every accepted ballot there are infinitely many other ballots, different as data and in their JSON encodings, that are also accepted for the same ciphertext.", "quantifier": "all ballots, honest or adversarial, all congruent replacements; the JSON part for groups whose element JSON round-trips", "why_tests_cant": "Quantifies over all proofs and an infinite set of replacements.", "anchors": ["bulletproofs/bp.go:Verify", "bulletproofs/bip.go:Verify", "voteproof/voteproof.go:Verify", "server.go:verifyVote"]}
{"id": "C55", "title": "Random of the mod-p group and of secp256k1 is uniform", "statement": "For a safe prime with generator 2, Random never fails, returns a member of the subgroup of order N for every draw, and every member is returned for exactly one of the N possible draws. Random of secp256k1 (over any implementation of the point operations meeting its contract) answers on every draw with that multiple of the generator, and the N draws give N pairwise different elements; if the library computes the textbook formulas, every point of the curve comes up for exactly one draw.", "quantifier": "all safe primes p = 7 mod 8, all draws, all subgroup members; for secp256k1 all draws and all points of the curve", "why_tests_cant": "Uniformity is a statement about all N draws at once.", "anchors": ["group/modsafeprime.go:Random", "group/modsafeprime.go:BaseScale", "group/p256k1.go:Random"]}
{"id": "C56", "title": "No generator is derived twice from the same string", "statement": "The strings hashed to H, U, g_0..g_(n-1) and h_0..h_(n-1) are pairwise different for every n, and the generators returned by Setup (with the U of the inner-product argument) are exactly their images; so two generators coincide if and only if MapToGroup collides on two of these strings.", "quantifier": "all groups, all accepted range ends, all n", "why_tests_cant": "Quantifies over all sizes and all groups; independence of generators is the binding assumption of the range proofs.", "anchors": ["bulletproofs/bp.go:Setup", "bulletproofs/bip.go:setupInnerProduct", "bulletproofs/bulletproofs.go:SEEDH"]}
{"id": "C58", "title": "A cast ballot survives the whole path over P-256 and P-384", "statement": "Over RFC 3526 group 15 (if p and q are prime) and P-256 or P-384 (if circl meets its contract) setup succeeds, and every ballot returned by castVote can be encoded to JSON, decoded with the same public parameters and is then accepted by verifyVote with both timings reported. Over ristretto255 the ballot is accepted when it is not sent as JSON; for secp256k1 see C63.", "quantifier": "all circl implementations meeting the contract, all hash functions, all draws", "why_tests_cant": "The composition of five components for all draws.", "anchors": ["main.go:setup", "voter.go:castVote", "marshal.go:BallotDataUnmarshalJSON", "server.go:verifyVote", "group/p256.go", "group/p384.go", "group/ristretto255.go"]}
{"id": "C57", "title": "NewModPGroup accepts exactly hexadecimal numerals", "statement": "NewModPGroup succeeds exactly when the field order, after removing white space, and the generator, as given, are hexadecimal numerals with optional sign; the group then has exactly these values, order (p-1)/2 and the given name. Otherwise it panics. White space anywhere in the field order makes no difference; any white space in the generator panics. No other check is made, but for a safe prime p = 7 mod 8 and generator 2 the result is a prime-order group.", "quantifier": "all strings", "why_tests_cant": "Quantifies over all strings and all safe primes.", "anchors": ["group/modsafeprime.go:NewModPGroup"]}
{"id": "C59", "title": "Elements of different groups never mix", "statement": "In every program state, a method taking elements (Add, Subtract, Negate, Set, Scale, IsEqual) succeeds when every argument belongs to the receiver's group (same type; for mod-p groups same prime and generator) and panics otherwise. No call changes the group of an element. In programs without decoding calls, every mod-p element is a member of its own subgroup, or the 0 of an Element() never written.", "quantifier": "all programs over any number of groups, all states", "why_tests_cant": "Quantifies over all call sequences and aliasings.", "anchors": ["group/modsafeprime.go:check", "group/modsafeprime.go:equals", "group/p256.go:check", "group/p384.go:check", "group/ristretto255.go:check", "group/p256k1.go:check"]}
{"id": "C60", "title": "Vote-proof soundness over the mod-p group holds up to sign", "statement": "Verify does not check that the elements of a ballot are subgroup members. For arbitrary integers as elements, two ballots accepted by verifyVote with the same ciphertext, range commitments and first message of the vote proof and different challenges still give, if the range commitments open to N-bit values, an in-range value that the ciphertext (U, V) encrypts, up to the signs of U and V modulo p, or a discrete-log relation on the curve with coefficients given by explicit formulas in the responses, challenges and openings; with the parameters of setup the value lies in [101, 2000]. If the two challenges differ in parity the ciphertext modulo p is exactly an encryption of that value; if both are even the sign cannot be excluded.", "quantifier": "all safe primes p = 7 mod 8, all integers as ballot elements, all hash functions", "why_tests_cant": "Quantifies over adversarial integers outside the subgroup and over pairs of transcripts.", "anchors": ["voteproof/voteproof.go:Verify", "voteproof/voteproof.go:sigmaPedersenCheck", "group/modsafeprime.go:Scale", "group/modsafeprime.go:UnmarshalJSON", "server.go:verifyVote"]}
{"id": "C61", "title": "Range proofs leave shared objects alone", "statement": "BulletProof Prove and Verify, MultiProve and its Verify, and the inner-product Prove and Verify they call, update group elements and integers in place and hand pointers around. Whichever of the pointers in the proof and the parameters coincide, they end as the computation on values does, with the same result, error or panic, and every element and integer that existed before the call (proof, parameters, generators, the order returned by N()) is never written by the call and so has the same value afterwards. So verifying repeatedly always gives the same answer, and a proof of an in-range secret is accepted when verified on the objects Prove returned.", "quantifier": "all heaps, all aliasings, all proofs, parameters, secrets and draws, all groups and hash functions", "why_tests_cant": "Aliasing damage shows only for particular sharings and only in later calls; tests run one call on freshly made objects.", "anchors": ["bulletproofs/bp.go:Prove", "bulletproofs/bp.go:Verify", "bulletproofs/bip.go:Verify", "bulletproofs/bip.go:proveInnerProduct", "bulletproofs/vector.go", "bulletproofs/util.go", "util/util.go", "bulletproofs/multibp.go:MultiProve", "bulletproofs/multibp.go:Verify"]}
{"id": "C62", "title": "The curve groups have prime order", "statement": "The orders returned by N() of the P-256, P-384, ristretto255 and secp256k1 groups are prime. So over the first three (given their libraries' contracts) Scale of an element other than the identity determines the scalar modulo N(), and over all four a challenge has an inverse modulo N() unless it is 0 modulo N(); so over the first three Prove returns a range proof unless a challenge is 0 modulo N().", "quantifier": "all elements, all scalars, all challenges", "why_tests_cant": "Primality of 252- to 384-bit numbers cannot be settled by trial; probabilistic tests give no proof. Then a statement over all scalars.", "anchors": ["group/p256.go:N", "group/p384.go:N", "group/ristretto255.go:N", "group/p256k1.go:N", "bulletproofs/bp.go:Prove", "bulletproofs/util.go"]}
{"id": "C63", "title": "Elections over secp256k1 work whatever represents the identity", "statement": "The secp256k1 group has two representations of the identity (nil coordinates and 0,0), which IsEqual identifies but String, and so the hash, tells apart. Still, if the ING package meets its contract and the hashed generator seeds have an X of exactly 32 significant bytes: setup succeeds; Verify accepts every range proof Prove returns for an in-range value; Prove returns if the challenges are invertible; verifyVote accepts every ballot castVote returns; castVote returns once a mask does not abort; and main's loop over secp256k1 reports success if the calls to castVote return. The last four need an ElGamal group of order at least secp256k1's.", "quantifier": "all hash functions, all randomness, all implementations of ING's p256 package meeting the contract, all values in range", "why_tests_cant": "All draws and hash outputs, including those that make an intermediate element the identity in either representation.", "anchors": ["group/p256k1.go", "bulletproofs/bp.go:Verify", "voter.go:castVote", "server.go:verifyVote", "main.go:setup"]}
{"id": "C64", "title": "What the program prints", "statement": "main runs secp256k1, ristretto255, P-256 and P-384 in this order, a thousand ballots each. With the RFC 3526 modulus, if the libraries meet their contracts and no draw is bad and no challenge is zero modulo a group's order, it prints for every group one line 'Aborted' per draw of a vote proof that was thrown away (the number is stated exactly: per ballot, the draws before the first whose response lies in [2^240, 2^(bg-1))) and then 'Votes were correctly formed: true' with the truncated averages of the measured times, and ends normally. For any group whatever, if a line 'Votes were correctly formed: b' is printed then setup succeeded, all thousand ballots were cast and passed both range checks, and b says whether every vote proof was accepted too. A ballot whose range proof is rejected never leads to 'false': main then dies on an empty slice, having printed nothing more about that group than the 'Aborted' lines of the ballots cast so far, and does not run the groups after it. A group setup refuses is reported as skipped, always for the reason given by voteproof.Setup, and the next one runs.", "quantifier": "all hash functions, all draws, all clock readings of at most 2^53 ns, all library implementations meeting their contracts (p and q of RFC 3526 prime); the last three claims for all groups", "why_tests_cant": "A thousand random ballots per group, each a different execution; and the behaviour on rejected proofs is never reached by honest runs.", "anchors": ["main.go:main", "main.go:setup", "voter.go:castVote", "server.go:verifyVote"]}
{"id": "C65", "title": "Casting and verifying ballots on shared objects", "statement": "setup makes one set of parameter objects (the same key object is EGPK and H of the ElGamal group, the H of the curve group is that of the range proofs), which every castVote and verifyVote of the election use, together with the groups' order integers and the package variable BigTwo, through pointers and with methods that write their receiver. castVote, verifyVote, the sigma protocol's Prove and Verify, setup and main's loop end as they would on values, with the same result, error or panic, and never write an object that existed before the call. So after setup any number of ballots can be cast and then verified in any order, any number of times: all are accepted, and neither the parameters nor earlier ballots change.", "quantifier": "all heaps and all ways in which pointers may coincide, all ballots (also malformed ones), all randomness, all hash functions; acceptance for curve groups meeting the Element contract", "why_tests_cant": "A test sees the aliasing of one call sequence; an in-place update of a shared parameter would show up only in later calls.", "anchors": ["voter.go:castVote", "server.go:verifyVote", "elgamal.go:encryptVote", "main.go:setup", "main.go:main", "voteproof/voteproof.go:Prove", "voteproof/voteproof.go:Verify"]}
{"id": "C66", "title": "What the ballot decoder reads", "statement": "BallotDataUnmarshalJSON returns a ballot exactly when the ballot is what the document says member by member: a key counts as a field name up to letter case (including the Kelvin sign for K and the long s for S), of several members of one name the last counts (objects of one name are merged, nulls do not reset lengths), unknown members are ignored, absent members give default elements, nil integers and zero lengths, lengths are integers of their Go types, and the Bulletproof parameters are the caller's. An error is reported exactly when a document is not an object or a non-element member is mistyped or out of range; group elements never cause one. An element of the mod-p group is any integer of the document, null leaves it alone, and any other value leaves an error that the decoders drop together with the leading integer or 0. So appending a second ciphertext under another spelling to an acceptable document swaps the ciphertext.", "quantifier": "all documents, all groups, all public parameters; the error part for element decoders that answer or panic (all shipped ones)", "why_tests_cant": "Documents are an infinite tree type; tests decode what the encoder wrote, never repeated, misspelt, missing or mistyped members.", "anchors": ["marshal.go:BallotDataUnmarshalJSON", "marshal.go:BallotUnmarshalJSON", "bulletproofs/marshal.go:BulletProofUnmarshalJSON", "voteproof/marshal.go:ProofUnmarshalJSON", "group/p256.go:UnmarshalJSON"]}
{"id": "C67", "title": "What the ballot encoder writes", "statement": "The JSON of a ballot holds every field of the ballot under its Go field name or tag, in declaration order and with nothing else: elements as their group writes them, integers as numbers or null, groups by name, embedded structs flattened. It is written exactly when every element in it can be written; over the mod-p group and over groups whose elements survive JSON that is always.", "quantifier": "all ballots, all groups", "why_tests_cant": "A round-trip test passes when encoder and decoder agree on a wrong name; fields the decoder ignores are never looked at.", "anchors": ["voter.go:BallotData", "bulletproofs/bp.go:BulletProof", "bulletproofs/bip.go:InnerProductProof", "voteproof/voteproof.go:SigmaProof", "group/types.go"]}
{"id": "C68", "title": "Sending ballots as JSON on shared objects", "statement": "BallotDataUnmarshalJSON, working on pointers (encoding/json allocates integers, reuses the integer of a repeated key and drops it on null; elements are allocated and then overwritten), ends on every document as it would on values: with the same ballot, an error or a panic. Every element and integer of a ballot it returns was allocated by that call and belongs to one field only, except that both range proofs refer to the caller's Bulletproof parameters; nothing that existed is written. Hence two decoded ballots never share an object, and the decoder, unlike castVote, never aliases two fields. json.Marshal of a ballot only reads. An election in which every ballot is marshalled, unmarshalled (any number of times, in any order) and then verified accepts every ballot and changes nothing that was there before.", "quantifier": "all documents, all heaps and pointer coincidences, all ballots; the election for curve groups meeting the Element contract whose elements survive JSON", "why_tests_cant": "Which objects two decoded ballots share cannot be seen from their values; it only shows when one of them is later modified.", "anchors": ["marshal.go:BallotDataUnmarshalJSON", "marshal.go:BallotUnmarshalJSON", "bulletproofs/marshal.go:BulletProofUnmarshalJSON", "voteproof/marshal.go:ProofUnmarshalJSON", "main_test.go"]}
{"id": "C69", "title": "Ballots on the wire", "statement": "BallotDataUnmarshalJSON reads bytes exactly by the JSON grammar: a text is refused unless it is one JSON value between white space, nested at most 10000 deep, and the result depends only on the tree the grammar gives the text, which is unique. json.Marshal of a ballot is such a text for the tree of C67, on a single line of 7-bit characters without <, > and &. Decoding it (with any white space around) gives the ballot back; two ballots of one election with the same bytes are equal; a text cut off anywhere before its end, or followed by anything but white space, is refused whatever the parameters. Over P-256 and P-384 every cast ballot, sent as bytes and read back, is accepted by verifyVote.", "quantifier": "all byte strings, all ballots, all public parameters; the writing part for groups with 7-bit names and element documents of depth at most 1 (all shipped ones), the round trip for groups whose elements survive JSON", "why_tests_cant": "Byte strings are unbounded; tests read what the encoder wrote in one spelling, complete and undamaged.", "anchors": ["marshal.go:BallotDataUnmarshalJSON", "marshal.go:BallotUnmarshalJSON", "main_test.go:unmarshalAndVerify", "voter.go:BallotData"]}
{"id": "C70", "title": "What MultiBulletProof.Verify accepts", "statement": "Verify of an aggregated proof over n generators and m commitments answers true exactly when the inner-product argument verifies and two group equations hold, with b = n/m rounded down: t'*G + taux*H equals the sum of z^(2+j)*V_j plus delta*G + x*T1 + x^2*T2, where delta = (z - z^2)*sum of y^i over all n generators - (sum of z^(3+j))*(2^b - 1 in the group order); and mu*H + P equals A + x*S - z*sum of the g_i + z*sum of y^i h'_i + the sum over j < m, i < b of (2^i + z^(2+j))*h'_(j*b+i). It panics without commitments, and for n at least 2 when y is not invertible. Hence, for every nonempty list of integers (in range or not, of any length, dividing n or not) and blindings, one computes with group operations and the hash only an aggregated proof over the given generators whose commitments open to them and which Verify accepts.", "quantifier": "all groups meeting the Element contract, all hash functions, all proofs with their integers present and as many generators as n; the forgeries for n a power of two and invertible challenges", "why_tests_cant": "Every proof and every hash function is meant; tests see proofs that Prove made, which says nothing about others.", "anchors": ["bulletproofs/multibp.go:MultiBulletProof.Verify", "bulletproofs/multibp.go:deltaMul", "bulletproofs/multibp.go:MultiBulletProof"]}
{"id": "C71", "title": "Aggregated proofs hide the values perfectly", "statement": "MultiProve returns a proof for any integers whose number divides N; its commitments open to the values, in order, with the blindings it returns. For any two lists of values in range of the same length there are maps between the prover's random choices, inverse to each other, that turn every run on one list into a run on the other that outputs the identical proof; so a proof is exactly as likely for one list as for the other, whatever the hash functions, although the vector commitment A holds the bits minus one on both sides.", "quantifier": "all lists of values, all randomness, all groups (for hiding: prime-order groups with H not the identity), all hash functions with non-zero (for termination: invertible) challenges", "why_tests_cant": "A distribution over all randomness and all pairs of lists; a test sees one proof.", "anchors": ["bulletproofs/multibp.go:MultiProve", "bulletproofs/multibp.go:MultiBulletProof"]}
{"id": "C72", "title": "A ballot reveals nothing about the vote beyond its ciphertext", "statement": "For every candidate v that castVote can choose, every encryption randomness and every fixed candidate v0: given the ciphertext, the random draws of castVote for v that give a ballot without aborting are in one-to-one correspondence with the ballots made by somebody who knows only the ciphertext, namely the range proofs for v0 with any draws and any vote proof, with responses in their ranges, for which verifyVote accepts the whole. Corresponding draws give the identical ballot, including the probability that an iteration is aborted. So nothing in a ballot but the ElGamal ciphertext depends on the vote.", "quantifier": "all candidates v and v0, all encryption randomness, all draws, the parameters setup makes for any prime-order curve group with H not the identity and any mod-p group whose order is at least the curve's, all hash functions with 32-byte digests for which the range proofs' challenges are not zero", "why_tests_cant": "An equality of distributions over all randomness and all hash functions; a test sees single ballots.", "anchors": ["voter.go:castVote", "server.go:verifyVote", "elgamal.go:encryptVote", "voteproof/voteproof.go:Prove", "bulletproofs/bp.go:Prove"]}
{"id": "C73", "title": "Anyone can turn a ballot into another ballot for the same vote", "statement": "From a ballot and the public key alone, for every integer delta: adding delta*G to U and delta*pk to V and challenge*delta to the response Sp leaves the answer of verifyVote unchanged, whatever the ballot (the challenge hashes neither the ciphertext nor the voter). If the ciphertext encrypts v then so does the new one, with randomness increased by delta; it is a different ciphertext unless delta is a multiple of the order. Applied to what castVote returned it gives exactly what castVote returns with the other encryption randomness and the same draws otherwise, so a copy cannot be told from a fresh ballot.", "quantifier": "all ballots (honest or not), all integers delta, all hash functions, every mod-p group and every group meeting the contract; the proof's H must be the public key", "why_tests_cant": "It concerns every ballot and every delta; a test that re-verifies the ballots it made never sees a derived ballot.", "anchors": ["server.go:verifyVote", "voteproof/voteproof.go:Verify", "voteproof/voteproof.go:getFSChallenge", "voter.go:castVote", "elgamal.go:encryptVote"]}
{"id": "C74", "title": "The checks an aggregated proof's Verify prints", "statement": "MultiBulletProof.Verify prints three lines, 'Check 65', 'Check 67' and 'Check 68', in this order; all three are printed whenever it returns, a failed check does not stop the later ones, and the answer is their conjunction; if it panics, only some first lines were printed, never the third. Check 65 is the equation for the t commitments, Check 67 the equation for the committed vector (with the exponents the code really uses), Check 68 the answer of the inner-product verifier. On the output of the honest prover for values in range Check 65 and Check 68 are true, so the rejection of honest proofs (C15) is due to Check 67 alone: over a group of prime order it is false for all but at most 2^k + 1 residues of the challenge.", "quantifier": "all proofs and all hash functions; the meaning of the lines for all well-formed proofs over lawful groups with an invertible challenge y; the last claim for all honest runs", "why_tests_cant": "A test shows the lines of a few proofs; that the three lines always tell the whole story, and which of them fails on every honest aggregated proof, is a statement about all runs.", "anchors": ["bulletproofs/multibp.go:Verify", "bulletproofs/multibp.go:MultiProve"]}
{"id": "C75", "title": "A prover who only asks the hash cannot do better than guessing, unless the vote is as committed", "statement": "Take any program, however clever, that asks SHA-256 for digests and outputs a vote proof for fixed parameters, a fixed ciphertext and fixed range commitments whose openings lie in range. Consider all sequences of n digests as possible answers to its successive different questions (and the verifier's). Either it convinces Verify on at most the fraction n*L/2^(8*floor(Bc/8)) of the sequences (L bounds the length of the text of W, whose end is not marked in what is hashed), or two of its own convincing runs give, by the formulas of C21, a relation between G and H or the encryption randomness showing that the ciphertext encrypts the committed value in [lo, hi] (over the mod-p group up to the signs of C60). With main's parameters the fraction is n*L/2^224. The honest Prove is such a program and convinces on every sequence.", "quantifier": "all programs asking any number of questions, adaptively; all lists of answer sequences; all parameters from Setup within the group orders; lawful groups, and the mod-p group with the shipped curves (P-256, P-384 and, if its encodings are distinct, Ristretto255) as implemented; the ciphertext and commitments are fixed before the run (C23 shows this is needed) and the proof carries the verifier's parameters (C22)", "why_tests_cant": "It quantifies over all provers and over the space of all hash answers; no test can exercise an arbitrary adversary, let alone count the answers for which it succeeds.", "anchors": ["voteproof/voteproof.go:Verify", "voteproof/voteproof.go:getFSChallenge", "voteproof/voteproof.go:Prove", "server.go:verifyVote"]}
{"id": "C76", "title": "P-256, P-384 and secp256k1 elements are all multiples of the generator: no small-order points", "statement": "Every element of the P-256 and P-384 groups - computed, hashed to the curve or decoded from JSON - is Scale(Generator(), k) for exactly one k in [0, N()), and a multiple of an element other than the identity is the identity only if the scalar is 0 modulo N(); so decoding needs no subgroup check, and the interface's promise of a prime-order group holds. The same is true of the points of secp256k1, where the contract that C51 and C63 assume of the library follows. Nothing is assumed but that the libraries compute the textbook addition formulas on affine coordinates with the standard parameters: that the formulas are associative, that the fields are prime, that the generators have the stated orders and that the curves have no other points is proved. The soundness of the server's answer (C62) and the bound on hash-asking provers (C75) then hold over P-256 and P-384 with no assumption on the group.", "quantifier": "all points of the three curves; all implementations of the formulas; the first theorem for every nonsingular curve over a prime field with b <> 0; the last two for all ballots and provers as in C62 and C75", "why_tests_cant": "The curves have about 2^256 and 2^384 points, and associativity is a statement about all triples of them.", "anchors": ["group/p256.go:Element", "group/p384.go:Element", "group/p256k1.go:Element", "group/group.go:Element", "server.go:verifyVote"]}
{"id": "C77", "title": "Over secp256k1 too an accepted ballot holds a candidate in range", "statement": "secp256k1 elements have several representations (nil, (0,0)) that IsEqual identifies but String and Go's equality do not, so the soundness statements for groups with one representation per element (C60, C62, C75) do not cover it. With equality replaced by IsEqual they hold: two ballots accepted by verifyVote over secp256k1 with the same ciphertext and range commitments, IsEqual-equal first messages of the vote proof and different challenges give an in-range candidate that the ciphertext encrypts up to the signs of its elements, or one of two explicit relations between the generator and the commitment key; and a program that only asks SHA-256 convinces the server on at most the fraction n*L/2^224 of the digest sequences unless two of its runs give just that. The points in the ballot must be points of the curve or nil, which every ballot decoded from JSON satisfies, as does the commitment key when MapToGroup returns the hashed points.", "quantifier": "all pairs of accepted ballots with points of the curve, all safe primes at least as large as the secp256k1 order, all openings of the range commitments to 16-bit values, all provers and digest sequences; all implementations of ING's operations meeting the contract, in particular of the textbook formulas", "why_tests_cant": "Soundness quantifies over all provers, and which representation a point has depends on how it was computed.", "anchors": ["server.go:verifyVote", "voteproof/voteproof.go:Verify", "group/p256k1.go:IsEqual", "group/p256k1.go:String"]}
{"id": "C78", "title": "Over secp256k1 and ristretto255 a JSON ballot is accepted by whoever knows one discrete logarithm, and by nobody else", "statement": "Decoding leaves the curve elements of a ballot blank for these two groups (C53). Let b be any ballot decoded from any JSON document that verifyVote accepts: then the number Mu of each of its Bulletproofs is the discrete logarithm, to the base of the commitment key, of one point that depends on the public parameters and on SHA-256 alone, the hash of two blank elements is not 0 modulo the order, and the challenge of the vote proof is a multiple of the order. Conversely, given this logarithm, an explicit ballot with the given ciphertext - any integers, also such that encrypt nothing - is accepted, for every ciphertext, and there is a JSON document that decodes to it.", "quantifier": "all JSON documents, all ciphertexts, all hash functions, all implementations of the two libraries meeting their contracts", "why_tests_cant": "The statement is about every document an attacker may send.", "anchors": ["server.go:verifyVote", "marshal.go:BallotDataUnmarshalJSON", "bulletproofs/bp.go:Verify", "group/p256k1.go:UnmarshalJSON", "group/ristretto255.go:UnmarshalJSON"]}
{"id": "C79", "title": "ristretto255 is a group of prime order if circl computes the formulas of RFC 9496", "statement": "The points of edwards25519 under the addition formulas of RFC 8032 are an abelian group and the denominators of the formulas are never 0 modulo the field order; the field order and the group order returned by P and N are prime; the base point has exactly this order, and the curve has exactly 8 times as many points, all multiples of one point. The equality test of RFC 9496 on points is an equivalence that addition, negation and multiplication respect. So, if every element stands for a double of a curve point, IsEqual is that test and the operations are the formulas, the group meets the Element contract, every element is a multiple of the generator by one scalar modulo the order, and no element but the identity is of smaller order, although the curve has points of order 2, 4 and 8. With this the soundness of the server (C62, C75) and the characterisation of accepted JSON ballots (C78) hold over ristretto255 with nothing else assumed of its group operations.", "quantifier": "all points of the curve; all implementations of Ristretto255 that compute the formulas on some representation; all ballots, provers, hash functions and documents", "why_tests_cant": "That a curve of 2^255 points has one subgroup of prime order and that a quotient by torsion is sound is about all points.", "anchors": ["group/ristretto255.go:Add", "group/ristretto255.go:Scale", "group/ristretto255.go:BaseScale", "group/ristretto255.go:IsEqual", "group/ristretto255.go:N", "group/ristretto255.go:P", "group/group.go:Element"]}
{"id": "C80", "title": "A ballot is accepted for one range of candidates only, and in every election with that range", "statement": "Take a ballot that verifyVote accepts for some parameters. For any other parameters verifyVote also answers, with the same number of timings, and accepts exactly if the challenge in the ballot times the shift of the lower end of the range, and times that of the upper end, are multiples of the curve order; the key, generators and lengths in the parameters given to it do not matter. So for a prime order of at least 2^16 no ballot is accepted for two different 16-bit ranges unless its challenge is a multiple of the order. A ballot returned by castVote under parameters from setup is accepted under all parameters with the range 101 to 2000, so in any other election with these candidate numbers, and rejected under every other range unless its challenge is 0. A ballot that names a challenge length below 8 bits and is accepted once is accepted for every range. Over secp256k1 the first statement holds for ballots whose points are on the curve.", "quantifier": "all ballots, honest or adversarial, all pairs of parameter sets, all hash functions, all prime-order curve groups, any ElGamal group; castVote's ballots: all randomness in range and all 32-byte digests", "why_tests_cant": "Whether a ballot for one election counts in another depends on all pairs of parameters and on every challenge, including the negligible set that accepts two ranges.", "anchors": ["server.go:verifyVote", "voter.go:castVote", "main.go:setup", "voteproof/voteproof.go:Verify"]}
{"id": "C81", "title": "Anyone can read the votes of this program, and a voter can make an accepted ballot that nobody can read", "statement": "A ciphertext (U, V) reads as the vote v with the secret key sk if V = 2^v * U^sk modulo p. setup derives the election key from the constant 13, so trying the 1900 candidates with sk = 13 on the ciphertext of a ballot returned by castVote finds exactly the vote cast; no secret is needed. Replacing V by p - V in an accepted ballot (whose V and first message are not 0 modulo p) gives a ballot that verifyVote accepts exactly if the challenge is even, with the same timings; and if the original reads as some vote with a key sk, the new one reads as no number at all with that key. The same holds for p - U in place of U, except that then the ballot reads as nothing if the key is odd (13 is) and as the same vote if it is even; with both signs changed it is the other way round. In particular every ballot of castVote with an even challenge can be turned into an accepted ballot without a vote in it, and this ballot survives JSON over curve groups whose element JSON does.", "quantifier": "all ballots of castVote, all randomness and (for acceptance) all hash functions with 32-byte digests; the sign change for all accepted ballots, honest or not; all safe primes p = 7 mod 8 with generator 2, all secret keys and all votes v >= 0", "why_tests_cant": "Readability of a ballot is about all candidate numbers and keys, and the attack is about all accepted ballots.", "anchors": ["main.go:setup", "voter.go:castVote", "elgamal.go:encryptVote", "server.go:verifyVote", "voteproof/voteproof.go:Verify", "group/modsafeprime.go:Scale", "group/modsafeprime.go:UnmarshalJSON"]}
{"id": "C82", "title": "Comparing every parameter of a ballot would not help: a ballot for any 16-bit number is accepted", "statement": "C27 forges ballots with parameters of the forger's choice. Here every parameter the ballot carries is the election's: the Bulletproof parameters, the number of rounds, the inner-product generators (the g_i, the h_i scaled by powers of 1/y, the U derived from its fixed string), the claimed inner product (equal to t') and the vote-proof parameters. For every v from 0 to 65535, candidate or not, and all draws of the voter, a voter computes with the group operations and the hash such a ballot; it reads as v, verifyVote accepts it, and it survives JSON over curve groups whose element JSON does. If v is not one of the 1900 candidates, trying all of them finds no vote in it; trying any list of 16-bit numbers containing v finds v.", "quantifier": "all 16-bit numbers v, all encryption randomness and blindings, all lists of vote-proof draws one of which lies in the non-aborting zone, all curve groups of odd order, all safe primes p = 7 mod 8 with generator 2 and order at least the curve's, all hash functions with 32-byte digests and invertible range-proof challenges", "why_tests_cant": "A test can show that one altered ballot is refused; that no comparison of parameters saves the server is about all numbers and all hash functions.", "anchors": ["voter.go:castVote", "server.go:verifyVote", "bulletproofs/bp.go:Verify", "bulletproofs/util.go:HashBP", "voteproof/voteproof.go:Prove", "marshal.go:UnmarshalJSON"]}
{"id": "C83", "title": "Whether a range proof or a ballot is produced depends on the digests of its own run only", "statement": "BulletProof.Verify and Prove use the hash function through a list of strings that can be read off the proof (the pairs T1,T2 and A,S, the statement of the inner-product proof, the pair L,R of each round): two hash functions agreeing on them give the same answer and the same proof. Prove either returns a proof or panics, and a returned proof has invertible challenges in all rounds and, above one bit, for A,S. Conversely for every hash function, secret and draws there is one proof to look at (the one made with non-invertible digests replaced by 1): if its own digests are invertible modulo the order, Prove returns it. The same for castVote (both range proofs; the ballot is then accepted), also over secp256k1, for the report main prints (C64), for the false range proofs of C05 and C47 and the ballots of C82, for the inner-product prover (C06), for aggregated proofs, honest and forged (C70, C71), and for elections on shared objects, also by mail (C65, C68): none of these needs a hash function that is never 0 modulo the order.", "quantifier": "all groups of order above 1, all hash functions, all parameters from Setup, all secrets and draws; for ballots all curve groups of order at most the ElGamal order and all draws one of which lies in the non-aborting zone", "why_tests_cant": "A digest that is 0 modulo the order cannot be met by running the code; that nothing else can make the prover fail, and that strings hashed in other runs do not matter, is about all hash functions.", "anchors": ["bulletproofs/bp.go:Prove", "bulletproofs/bp.go:Verify", "bulletproofs/bip.go:proveInnerProduct", "bulletproofs/bip.go:computeBipRecursive", "bulletproofs/bip.go:Verify", "bulletproofs/util.go:HashBP", "voter.go:castVote"]}
{"id": "C84", "title": "Numbers left out of a proof or ballot, whatever the group library does with a missing scalar", "statement": "A number missing from a decoded proof reaches Scale as a nil pointer. Whatever the group library does then (panic, or return some element): every answer BulletProof.Verify, MultiBulletProof.Verify or verifyVote gives in the model where Scale panics on nil is given unchanged; where no such number is missing and the round challenges are invertible the two agree on panics as well. Over secp256k1 with a library that ignores a nil scalar for the identity only (ING's does), each accepted JSON ballot still contains both numbers Mu, equal to the one logarithm of C78, and a challenge that vanishes modulo the order; but the numbers Cc, Sq1 and Sq2 can be left out: whoever has the logarithm has, for every ciphertext, a document without them that verifyVote accepts. An accepted ballot from which Sq1 is left out makes verifyVote panic if H is a proper point, and is still accepted if H is the identity.", "quantifier": "all groups and hash functions, all behaviours of Scale on nil, all proofs and ballots; for the last part all parameters from setup, all JSON documents and all ciphertexts", "why_tests_cant": "What happens on a nil scalar is decided inside a library, point by point; that it cannot change any answer is about all proofs and all such behaviours.", "anchors": ["bulletproofs/bp.go:Verify", "bulletproofs/bip.go:Verify", "bulletproofs/bip.go:computePP", "bulletproofs/multibp.go:Verify", "voteproof/voteproof.go:Verify", "server.go:verifyVote", "group/p256k1.go:Scale"]}
{"id": "C85", "title": "A ballot decides how large a number verification builds", "statement": "SigmaProof.Verify computes 2^(Bx+Bc) and 2^(Bx+Bc+Bb) from the parameters in the proof, after the range proofs and before it looks at anything else of the vote proof. On a machine that can hold these two numbers, finite memory makes no difference to verifyVote; on one that cannot, verifyVote gives no answer, or the refusal of a range proof. With the parameters of setup the two exponents stay below the bit length of the curve order, so ballots of castVote need no more. But an accepted ballot (numbers without limit) stays accepted when its Bb is raised, whatever its other contents; and for every ballot of castVote and every n from the bit length of the order to 2^63 - 1, replacing that one number in its JSON text by n gives a text at most 18 bytes longer that decodes without an error and that no machine unable to hold a number of n bits answers.", "quantifier": "all groups, hash functions, ballots and machine sizes; for the text all ballots of castVote over all curve groups (shown also for P-256 and P-384 with the constants of main.go) and all n below 2^63", "why_tests_cant": "Each n is its own document and no test can run the large ones; that one edit works on every ballot is about all ballots.", "anchors": ["voteproof/voteproof.go:Verify", "voteproof/marshal.go:UnmarshalJSON", "server.go:verifyVote", "marshal.go:UnmarshalJSON", "main.go:setup"]}
{"id": "C86", "title": "Whoever tells votes apart from their ciphertexts decides Diffie-Hellman triples", "statement": "A spy is any function of the election key and the ciphertexts, in order, of any number of votes encrypted by encryptVote under it. Over all secret keys and all draws of encryptVote, the numbers of cases where it says yes for two lists of votes of equal length n differ, as probabilities, by at most 2n times the advantage that explicit tests achieve at telling (g^a, g^b, g^ab) from (g^a, g^b, g^c), b not 0; such a test encrypts all votes but one itself, puts the triple in the place of this one and runs the spy once. For one vote the difference is exactly the difference of the two tests' advantages. Conversely every test of triples gives a spy that tells a vote from a random exponent exactly as well. So with a random key (the program's own is 13: C81) the ciphertexts hide the votes as well as Diffie-Hellman triples are hard to decide, and no better.", "quantifier": "all spies and tests, all lists of votes, all mod-p groups with a generator of order dividing q; for the program's group under the primality of its two numbers", "why_tests_cant": "A statement about all distinguishers and an average over all keys and draws.", "anchors": ["elgamal.go:encryptVote", "voter.go:castVote", "group/modsafeprime.go:Scale", "group/modsafeprime.go:BaseScale", "group/modsafeprime.go:Add"]}
{"id": "C87", "title": "Anyone can add a number of their choice to the vote in a cast ballot", "statement": "From an accepted ballot alone, without the secret key and without knowing the vote v, anyone computes for every integer k a ballot that decrypts to v + k; only V of the ciphertext, the two commitments, the two numbers Tprime and the number Z change, all parameters stay. Both range proofs get the same answer from Verify as before, for every k and every proof. verifyVote accepts the new ballot if and only if Z + challenge * k is in the interval Z has to be in. For the ballots castVote makes under setup's parameters this is so for every |k| <= 2^16 unless Z is within 2^240 of an end of its interval [2^240, 2^(bits-1)); the new ballot survives JSON, and is read as candidate v + k, or is accepted though v + k is no candidate. The commitments of an aggregated range proof can be moved in the same way. Comparing Tprime with the Cc of the inner-product argument would stop this: in a moved proof they differ unless z^2 k is a multiple of the order.", "quantifier": "all accepted ballots (also with integers outside the ElGamal group), all k, all curve groups satisfying the group laws and secp256k1 for points on the curve (there without the JSON part), all hash functions; for the program: all ballots of castVote under setup's parameters", "why_tests_cant": "The defect is in what the challenges do not hash; each test's ballots are made by castVote, and an altered one must be computed on purpose.", "anchors": ["server.go:verifyVote", "voteproof/voteproof.go:Verify", "bulletproofs/bp.go:Verify", "bulletproofs/multibp.go:Verify", "bulletproofs/util.go:HashBP", "voteproof/voteproof.go:getFSChallenge"]}
{"id": "C88", "title": "Anyone can change the blinding of the commitments in a ballot", "statement": "From a ballot alone, for all integers d1 and d2: adding d1*H and d2*H to the two commitments of the range proofs, z^2*d1 and z^2*d2 to the two numbers Taux, challenge*d1 to the response Sq1 and -challenge*d2 to Sq2 leaves the answer and the timings of verifyVote unchanged, whatever the ballot (its three proofs must carry the same H); the same holds for Verify of a single range proof. The commitments open to the same values with blindings increased by d1 and d2; they are new elements unless d1 or d2 is a multiple of the order. Applied to what Prove or castVote returned this gives exactly what they return for other blinding draws and the same draws otherwise. Together with C73 a copy of a ballot of castVote is obtained in which the ciphertext and both commitments are those of fresh draws, so duplicate votes are found neither by comparing ciphertexts nor by comparing commitments.", "quantifier": "all ballots and range proofs (honest or not), all integers d1, d2, all hash functions, all curve groups satisfying the group laws and secp256k1 for points on the curve; for the program all ballots of castVote under setup's parameters", "why_tests_cant": "A test can change one ballot; that no ballot and no pair of numbers changes the answer, and that the result is the same as with other draws, is a statement about all of them.", "anchors": ["bulletproofs/bp.go:Prove,Verify", "voteproof/voteproof.go:Prove,Verify", "voter.go:castVote", "server.go:verifyVote"]}
