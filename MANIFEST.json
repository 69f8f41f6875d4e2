{
 "claims": [
  {
   "property": "C01",
   "status": "proved",
   "theorems": [
    "C01_completeness",
    "C01_prove_returns"
   ],
   "note": "Returning proofs are accepted for every hash function; that Prove returns needs invertible challenges."
  },
  {
   "property": "C02",
   "status": "proved",
   "theorems": [
    "C02_out_of_range",
    "C02_rejects"
   ],
   "note": ""
  },
  {
   "property": "C03",
   "status": "proved",
   "theorems": [
    "C03_commitment_opens"
   ],
   "note": ""
  },
  {
   "property": "C04",
   "status": "proved",
   "theorems": [
    "C04_verify_equations",
    "C04_noninvertible_panics"
   ],
   "note": ""
  },
  {
   "property": "C05",
   "status": "proved",
   "theorems": [
    "C05_refuted"
   ],
   "note": "The expected property (range soundness) is false; the theorem forges a proof for every value. Assumes invertible challenges."
  },
  {
   "property": "C06",
   "status": "proved",
   "theorems": [
    "C06_inner_product_completeness",
    "C06_honest_accepted",
    "C06_prover_returns"
   ],
   "note": ""
  },
  {
   "property": "C07",
   "status": "proved",
   "theorems": [
    "C07_proof_size",
    "C07_inner_product_size"
   ],
   "note": ""
  },
  {
   "property": "C08",
   "status": "proved",
   "theorems": [
    "C08_closed_form"
   ],
   "note": ""
  },
  {
   "property": "C09",
   "status": "proved",
   "theorems": [
    "C09_refuted"
   ],
   "note": "The expected property is false; assumes the challenge of the chosen A, S is invertible."
  },
  {
   "property": "C10",
   "status": "proved",
   "theorems": [
    "C10_challenges_equal"
   ],
   "note": ""
  },
  {
   "property": "C11",
   "status": "proved",
   "theorems": [
    "C11_setup_accepts"
   ],
   "note": "Assumes MapToGroup never fails. For the minimum int64 the outcome depends on the platform's NaN conversion; both values are covered."
  },
  {
   "property": "C12",
   "status": "proved",
   "theorems": [
    "C12_decompose",
    "C12_unique",
    "C12_negative_length"
   ],
   "note": ""
  },
  {
   "property": "C13",
   "status": "proved",
   "theorems": [
    "C13_computeAR",
    "C13_prover_vectors"
   ],
   "note": ""
  },
  {
   "property": "C14",
   "status": "proved",
   "theorems": [
    "C14_vector_ops",
    "C14_scalar_ops",
    "C14_inner_products",
    "C14_inner_product_lengths",
    "C14_group_ops",
    "C14_powerOf"
   ],
   "note": "VectorInnerProduct reports no error on different lengths (C14_inner_product_lengths); the statement was narrowed accordingly."
  },
  {
   "property": "C15",
   "status": "proved",
   "theorems": [
    "C15_exact",
    "C15_refuted",
    "C15_one_bit"
   ],
   "note": "Shape assumption: number of values times bits is the (power-of-two) number of generators."
  },
  {
   "property": "C16",
   "status": "proved",
   "theorems": [
    "C16_count_must_divide"
   ],
   "note": ""
  },
  {
   "property": "C17",
   "status": "proved",
   "theorems": [
    "C17_setup"
   ],
   "note": ""
  },
  {
   "property": "C18",
   "status": "proved",
   "theorems": [
    "C18_completeness"
   ],
   "note": ""
  },
  {
   "property": "C19",
   "status": "proved",
   "theorems": [
    "C19_refuted"
   ],
   "note": "Narrowed: margin of 2^(Bx+Bc) around the order, Bc <= 263."
  },
  {
   "property": "C20",
   "status": "proved",
   "theorems": [
    "C20_perfect_zero_knowledge"
   ],
   "note": "Assumes the ElGamal order is at least 2^(Bg-1), as in C18."
  },
  {
   "property": "C21",
   "status": "proved",
   "theorems": [
    "C21_special_soundness"
   ],
   "note": "Assumes both orders are at least 2^(Bg-1) and the ElGamal order is prime."
  },
  {
   "property": "C22",
   "status": "proved",
   "theorems": [
    "C22_refuted"
   ],
   "note": ""
  },
  {
   "property": "C23",
   "status": "proved",
   "theorems": [
    "C23_refuted"
   ],
   "note": ""
  },
  {
   "property": "C24",
   "status": "proved",
   "theorems": [
    "C24_decrypts",
    "C24_binding",
    "C24_small_order_panics",
    "C24_modp",
    "C24_binding_modp"
   ],
   "note": ""
  },
  {
   "property": "C25",
   "status": "proved",
   "theorems": [
    "C25_consistent_params",
    "C25_end_to_end",
    "C25_cast_returns",
    "C25_driver_succeeds"
   ],
   "note": "Assumes the curve group meets the Element contract. That is proved for P-256, P-384 and ristretto255 from the contract of circl (C51). secp256k1 meets it only up to IsEqual and is treated in C63."
  },
  {
   "property": "C26",
   "status": "proved",
   "theorems": [
    "C26_choice_in_range",
    "C26_last_candidate_never",
    "C26_single_candidate_panics",
    "C26_last_candidate_modp"
   ],
   "note": ""
  },
  {
   "property": "C27",
   "status": "proved",
   "theorems": [
    "C27_refuted",
    "C27_over_json"
   ],
   "note": "The expected property is false. Assumes some A, S have an invertible challenge; the JSON form needs element JSON that round-trips."
  },
  {
   "property": "C28",
   "status": "proved",
   "theorems": [
    "C28_all_proofs_checked",
    "C28_parameters_ignored",
    "C28_driver_panics"
   ],
   "note": ""
  },
  {
   "property": "C29",
   "status": "proved",
   "theorems": [
    "C29_group_contract",
    "C29_cyclic",
    "C29_prime_order"
   ],
   "note": ""
  },
  {
   "property": "C30",
   "status": "proved",
   "theorems": [
    "C30_refuted_noncanonical",
    "C30_refuted_nonmember",
    "C30_unique_among_members"
   ],
   "note": ""
  },
  {
   "property": "C31",
   "status": "proved",
   "theorems": [
    "C31_binary_roundtrip",
    "C31_json_roundtrip",
    "C31_decoded_is_point",
    "C31_shipped_curves",
    "C31_element_json"
   ],
   "note": ""
  },
  {
   "property": "C32",
   "status": "proved",
   "theorems": [
    "C32_injective_in_range",
    "C32_refuted_sign",
    "C32_refuted_oversized",
    "C32_panics"
   ],
   "note": ""
  },
  {
   "property": "C33",
   "status": "proved",
   "theorems": [
    "C33_encode",
    "C33_decode_fails",
    "C33_refuted"
   ],
   "note": ""
  },
  {
   "property": "C34",
   "status": "proved",
   "theorems": [
    "C34_binary_exact",
    "C34_map_exact",
    "C34_identity",
    "C34_identity_twice_panics",
    "C34_written_bytes",
    "C34_identity_bytes",
    "C34_written_json",
    "C34_json_refuted",
    "C34_is_equal_exact"
   ],
   "note": ""
  },
  {
   "property": "C35",
   "status": "proved",
   "theorems": [
    "C35_modp_elements",
    "C35_curve_elements",
    "C35_ballot_roundtrip",
    "C35_cast_roundtrip",
    "C35_same_answer"
   ],
   "note": "The unconditional statement of earlier revisions is false for secp256k1 and ristretto255 (C53); it was narrowed to groups whose element JSON round-trips."
  },
  {
   "property": "C36",
   "status": "proved",
   "theorems": [
    "C36_modp_default",
    "C36_curve_default",
    "C36_blank_accepted",
    "C36_element_errors_dropped",
    "C36_modp_garbage",
    "C36_curve_garbage",
    "C36_accepts_exactly",
    "C36_ragged_panics",
    "C36_shipped_decoders",
    "C36_top_level"
   ],
   "note": "The list-length panic is proved for decoders that answer or panic, which C36_shipped_decoders proves of the mod-p, P-256 and P-384 groups."
  },
  {
   "property": "C37",
   "status": "proved",
   "theorems": [
    "C37_inner_product_exact",
    "C37_bulletproof_exact",
    "C37_sigma_answers",
    "C37_sigma_unreadable",
    "C37_ballot",
    "C37_blank_ballot_panics",
    "C37_null_integer_panics"
   ],
   "note": ""
  },
  {
   "property": "C38",
   "status": "proved",
   "theorems": [
    "C38_refuted",
    "C38_equal_length_injective"
   ],
   "note": ""
  },
  {
   "property": "C39",
   "status": "proved",
   "theorems": [
    "C39_HashBP_injective",
    "C39_hashIP_injective"
   ],
   "note": ""
  },
  {
   "property": "C40",
   "status": "proved",
   "theorems": [
    "C40_perfect_hiding"
   ],
   "note": ""
  },
  {
   "property": "C41",
   "status": "proved",
   "theorems": [
    "C41_hiding",
    "C41_binding"
   ],
   "note": ""
  },
  {
   "property": "C42",
   "status": "proved",
   "theorems": [
    "C42_methods_alias_safe",
    "C42_constructors_fresh",
    "C42_value_semantics"
   ],
   "note": ""
  },
  {
   "property": "C43",
   "status": "proved",
   "theorems": [
    "C43_setup_outcome",
    "C43_shipped_curves"
   ],
   "note": "Assumes MapToGroup never fails; secp256k1's panics if ING's point has fewer than 32 significant bytes in total."
  },
  {
   "property": "C44",
   "status": "proved",
   "theorems": [
    "C44_domain",
    "C44_empty_diverges"
   ],
   "note": ""
  },
  {
   "property": "C45",
   "status": "proved",
   "theorems": [
    "C45_binds_statement"
   ],
   "note": ""
  },
  {
   "property": "C46",
   "status": "proved",
   "theorems": [
    "C46_progress",
    "C46_abort_fraction",
    "C46_long_challenge_panics",
    "C46_abort_runs"
   ],
   "note": "Bc <= 263; for longer challenges Prove panics (C46_long_challenge_panics)."
  },
  {
   "property": "C47",
   "status": "proved",
   "theorems": [
    "C47_equal_challenges_unsound"
   ],
   "note": ""
  },
  {
   "property": "C48",
   "status": "proved",
   "theorems": [
    "C48_knowledge_soundness"
   ],
   "note": "Special-soundness form: the transcript tree is given; no rewinding or probability is modelled."
  },
  {
   "property": "C49",
   "status": "proved",
   "theorems": [
    "C49_generator_order",
    "C49_rfc3526"
   ],
   "note": "Primality of the RFC 3526 p and q is a hypothesis, not proved."
  },
  {
   "property": "C50",
   "status": "proved",
   "theorems": [
    "C50_sound_ballot_in_range",
    "C50_verified_ballots"
   ],
   "note": "Assumes the range commitments open to N-bit values: by C05 an accepted Bulletproof does not guarantee this."
  },
  {
   "property": "C51",
   "status": "proved",
   "theorems": [
    "C51_curve_group_contract",
    "C51_prime",
    "C51_ristretto_contract",
    "C51_secp256k1_contract"
   ],
   "note": "From the contract of circl (CirclOk, RistrettoOk), and, for secp256k1, from the contract of ING's package (IngOk); both are assumed here. C76 proves CirclOk for P-256 and P-384 and IngOk from the textbook formulas, C79 RistrettoOk."
  },
  {
   "property": "C52",
   "status": "proved",
   "theorems": [
    "C52_setbytes_exact",
    "C52_roundtrip"
   ],
   "note": ""
  },
  {
   "property": "C53",
   "status": "proved",
   "theorems": [
    "C53_curve_elements_lost",
    "C53_secp256k1_deaf",
    "C53_ristretto_deaf",
    "C53_secp256k1_transport",
    "C53_secp256k1_refuted",
    "C53_ristretto_encode_panics",
    "C53_ristretto_refuted"
   ],
   "note": "ristretto255: assumes the generator's encoding starts with a non-zero byte."
  },
  {
   "property": "C54",
   "status": "proved",
   "theorems": [
    "C54_bulletproof",
    "C54_voteproof",
    "C54_ballot",
    "C54_refuted",
    "C54_json"
   ],
   "note": ""
  },
  {
   "property": "C55",
   "status": "proved",
   "theorems": [
    "C55_random_modp",
    "C55_random_secp256k1",
    "C55_secp256k1_uniform"
   ],
   "note": ""
  },
  {
   "property": "C56",
   "status": "proved",
   "theorems": [
    "C56_seeds_distinct",
    "C56_generators_distinct"
   ],
   "note": ""
  },
  {
   "property": "C58",
   "status": "proved",
   "theorems": [
    "C58_curve_path",
    "C58_p256",
    "C58_p384",
    "C58_ristretto"
   ],
   "note": "Narrowed from 'the shipped groups': JSON over P-256 and P-384 only; ristretto255 without JSON; secp256k1 is C63. Primality of p and q and circl's contract are hypotheses."
  },
  {
   "property": "C57",
   "status": "proved",
   "theorems": [
    "C57_accepts",
    "C57_white_space",
    "C57_generator_white_space",
    "C57_safe_prime"
   ],
   "note": ""
  },
  {
   "property": "C59",
   "status": "proved",
   "theorems": [
    "C59_no_mixing",
    "C59_is_equal",
    "C59_group_fixed",
    "C59_membership"
   ],
   "note": ""
  },
  {
   "property": "C60",
   "status": "proved",
   "theorems": [
    "C60_sound_up_to_sign",
    "C60_exact_other_parity",
    "C60_server",
    "C60_sign_needed"
   ],
   "note": "Assumes the range commitments open to N-bit values, as in C50."
  },
  {
   "property": "C61",
   "status": "proved",
   "theorems": [
    "C61_verify_on_shared_objects",
    "C61_inner_product_on_shared_objects",
    "C61_prove_on_shared_objects",
    "C61_verify_repeatable",
    "C61_prove_then_verify",
    "C61_multi_verify_on_shared_objects",
    "C61_multi_prove_on_shared_objects"
   ],
   "note": "The rest of the program is C65."
  },
  {
   "property": "C62",
   "status": "proved",
   "theorems": [
    "C62_orders_prime",
    "C62_exact_order",
    "C62_invertible",
    "C62_prove_returns",
    "C62_prime_group",
    "C62_server_sound"
   ],
   "note": "From the contracts of circl where group laws are used (exact order); primality itself is unconditional, by Pocklington certificates."
  },
  {
   "property": "C63",
   "status": "proved",
   "theorems": [
    "C63_range_proofs",
    "C63_prove_returns",
    "C63_setup_returns",
    "C63_end_to_end",
    "C63_cast_returns",
    "C63_driver_succeeds",
    "C63_rfc3526"
   ],
   "note": "From the contract of ING's package (IngOk: an abstract group, which points it works with, which element each stands for; Multiply, ScalarMult and ScalarBaseMult respect this for all integers). That the seeds meet the 32-byte condition is a hypothesis: the real hashes are not computed."
  },
  {
   "property": "C64",
   "status": "proved",
   "theorems": [
    "C64_group_succeeds",
    "C64_main",
    "C64_rfc3526",
    "C64_answer_exact",
    "C64_rejected_range_proof_dies",
    "C64_skip"
   ],
   "note": "C64_rfc3526 is the shipped program; C64_main the same over any ElGamal group of sufficient order. Bad draw: outside the range asked of rand.Int, or no accepted mask among those supplied. That the secp256k1 seeds meet the 32-byte condition is a hypothesis (C63)."
  },
  {
   "property": "C65",
   "status": "proved",
   "theorems": [
    "C65_verify_on_shared_objects",
    "C65_cast_on_shared_objects",
    "C65_sigma_verify_on_shared_objects",
    "C65_sigma_prove_on_shared_objects",
    "C65_setup_on_shared_objects",
    "C65_election",
    "C65_driver_on_shared_objects"
   ],
   "note": "Objects hold a value each: that a method of an element writes no object but its receiver is C42, for the groups modelled there. Order pointers of the two groups are arguments."
  },
  {
   "property": "C66",
   "status": "proved",
   "theorems": [
    "C66_decoded_ballot",
    "C66_ciphertext_error",
    "C66_bulletproof_error",
    "C66_vote_proof_error",
    "C66_other_decoders",
    "C66_point_document",
    "C66_modp_document",
    "C66_unknown_members",
    "C66_later_member_wins"
   ],
   "note": ""
  },
  {
   "property": "C67",
   "status": "proved",
   "theorems": [
    "C67_written_ballot",
    "C67_writable",
    "C67_always_written",
    "C67_modp_writable"
   ],
   "note": ""
  },
  {
   "property": "C68",
   "status": "proved",
   "theorems": [
    "C68_decode_on_shared_objects",
    "C68_decoded_ballot_is_fresh",
    "C68_two_ballots_apart",
    "C68_encode_on_shared_objects",
    "C68_sent_ballot_verifies_alike",
    "C68_election_by_mail"
   ],
   "note": "The intermediate structures of the decoders (json.RawMessage, slices) are values; the slices they hold are not shared."
  },
  {
   "property": "C69",
   "status": "proved",
   "theorems": [
    "C69_documents",
    "C69_spelling",
    "C69_modp_plain",
    "C69_curve_plain",
    "C69_other_plain",
    "C69_written",
    "C69_truncated",
    "C69_trailing",
    "C69_roundtrip",
    "C69_same_bytes",
    "C69_curve_path",
    "C69_shipped_curves"
   ],
   "note": "encoding/json is library code, modelled from its documented behaviour in Wire.v."
  },
  {
   "property": "C70",
   "status": "proved",
   "theorems": [
    "C70_equations",
    "C70_panics",
    "C70_forged"
   ],
   "note": ""
  },
  {
   "property": "C71",
   "status": "proved",
   "theorems": [
    "C71_commitments_open",
    "C71_prove_returns",
    "C71_perfect_hiding"
   ],
   "note": "Hiding assumes a prime-order group, H not the identity and a non-zero challenge x."
  },
  {
   "property": "C72",
   "status": "proved",
   "theorems": [
    "C72_ballot_hides_vote",
    "C72_program"
   ],
   "note": "Says nothing about ElGamal itself (a ciphertext hides the vote only computationally) nor about how many iterations abort (C46). H not the identity is a hypothesis; C72_program is the statement for the parameters of setup."
  },
  {
   "property": "C73",
   "status": "proved",
   "theorems": [
    "C73_same_answer",
    "C73_same_answer_modp",
    "C73_same_vote",
    "C73_new_ciphertext",
    "C73_honest",
    "C73_program"
   ],
   "note": "freshDraw is the new encryption randomness, reduced; it is one of castVote's draws unless r + 1 + delta is a multiple of the order."
  },
  {
   "property": "C74",
   "status": "proved",
   "theorems": [
    "C74_lines",
    "C74_meaning",
    "C74_honest",
    "C74_check67_fails"
   ],
   "note": "C74_meaning uses the notation of C70_equations; C74_honest is over any lawful group (prime order is not needed)."
  },
  {
   "property": "C75",
   "status": "proved",
   "theorems": [
    "C75_knowledge",
    "C75_ballot",
    "C75_server",
    "C75_hash_reads",
    "C75_honest_is_prove",
    "C75_honest_wins"
   ],
   "note": "The count is over sequences of digests (uniform answers); no probability theory is used. FSReads (what is hashed determines the first message, given the length of W's text) is proved for the shipped curves in C75_hash_reads."
  },
  {
   "property": "C76",
   "status": "proved",
   "theorems": [
    "C76_formulas",
    "C76_cofactor_one",
    "C76_prime_group",
    "C76_no_small_subgroup",
    "C76_server_sound",
    "C76_forking",
    "C76_secp256k1"
   ],
   "note": "Assumed of the libraries: that Add, Neg, Mul and MulGen compute the textbook affine formulas (CirclStd, IngStd). Ristretto255 is C79."
  },
  {
   "property": "C77",
   "status": "proved",
   "theorems": [
    "C77_server_sound",
    "C77_forking",
    "C77_textbook",
    "C77_key_on",
    "C77_received_on"
   ],
   "note": "IngOk (ING meets its contract) is assumed, and IngStringReads (String starts with no digit and can be split off what follows) for the forking statement; for the textbook formulas nothing is assumed of the group."
  },
  {
   "property": "C78",
   "status": "proved",
   "theorems": [
    "C78_secp256k1",
    "C78_secp256k1_forger",
    "C78_ristretto",
    "C78_ristretto_forger"
   ],
   "note": "The vote-proof part of the forged ballot needs nothing but the challenge length 0, which the ballot itself names (C22). The document gives every curve element as the pair 0, 0."
  },
  {
   "property": "C79",
   "status": "proved",
   "theorems": [
    "C79_formulas",
    "C79_quotient",
    "C79_cofactor_8",
    "C79_prime_group",
    "C79_no_small_subgroup",
    "C79_server_sound",
    "C79_forking",
    "C79_json_ballots"
   ],
   "note": "Assumed of circl (RistStd): elements stand for doubles of points of edwards25519, IsEqual is the test of RFC 9496, 4.3.3, and Add, Neg, Mul and MulGen compute the affine Edwards formulas on such points; for the forking statement also that different elements have different encodings of 32 bytes."
  },
  {
   "property": "C80",
   "status": "proved",
   "theorems": [
    "C80_exact",
    "C80_one_range",
    "C80_no_challenge",
    "C80_program",
    "C80_secp256k1"
   ],
   "note": "C80_program takes a curve group of prime order (C76, C79 for the shipped ones) not above the ElGamal order; for secp256k1 C80_secp256k1 takes ballots whose points are on the curve (IngOk)."
  },
  {
   "property": "C81",
   "status": "proved",
   "theorems": [
    "C81_anyone_reads",
    "C81_sign",
    "C81_unreadable",
    "C81_spoiled",
    "C81_sign_U",
    "C81_unreadable_U",
    "C81_both_signs"
   ],
   "note": "The program has no decryption: ReadsAs is the specification of it. For the RFC 3526 group the primality of p and q is a hypothesis (SafePrime2). The key 13 is the placeholder of main.go, line 71."
  },
  {
   "property": "C82",
   "status": "proved",
   "theorems": [
    "C82_any_number",
    "C82_not_a_candidate"
   ],
   "note": "castAny uses the forged range proof of C47 (equal challenges y = z). StrictBallot lists the parameters compared."
  },
  {
   "property": "C83",
   "status": "proved",
   "theorems": [
    "C83_verify_inputs",
    "C83_prove_inputs",
    "C83_prove_returns",
    "C83_necessary",
    "C83_returns_or_panics",
    "C83_cast_returns",
    "C83_secp256k1",
    "C83_rfc3526",
    "C83_false_range",
    "C83_any_number",
    "C83_inner_product",
    "C83_empty_diverges",
    "C83_false_value",
    "C83_multi_verify_inputs",
    "C83_multi_returns",
    "C83_false_values",
    "C83_election",
    "C83_election_by_mail"
   ],
   "note": "ChallengesInvertible, assumed where C01, C05, C06, C25, C44, C47, C63, C64, C65, C68, C70, C71 and C82 say that something is returned, asks for invertible digests of all pairs of elements; with SHA-256 some pair surely has none. C83 replaces it by the digests of the run in each of these places. C83_secp256k1 and C83_rfc3526 take IngOk, RistrettoOk, CirclOk; RFC 3526 primality is a hypothesis."
  },
  {
   "property": "C84",
   "status": "proved",
   "theorems": [
    "C84_strict",
    "C84_answers_stay",
    "C84_complete",
    "C84_server",
    "C84_aggregated",
    "C84_secp256k1",
    "C84_secp256k1_left_out",
    "C84_left_out_panics"
   ],
   "note": "NilScale.v has the verification functions with Scale on a missing scalar given by an arbitrary function; C84_strict/C84_server: with one that always panics they are the functions of the other files, so all other theorems are about this choice. ING's behaviour (ingNil) is recalled from the published library, which is not in the repository."
  },
  {
   "property": "C85",
   "status": "proved",
   "theorems": [
    "C85_enough",
    "C85_dies",
    "C85_setup",
    "C85_raise",
    "C85_text",
    "C85_cast",
    "C85_shipped_curves"
   ],
   "note": "Limit.v limits the two powers of two of SigmaProof.Verify only; a number that cannot be built is written Panic (Go: makeslice panics or the runtime is out of memory). C85_text holds for every accepted sendable ballot, C85_cast for those of castVote."
  },
  {
   "property": "C86",
   "status": "proved",
   "theorems": [
    "C86_ciphertexts_hide_votes",
    "C86_one_vote",
    "C86_no_better",
    "C86_rfc3526"
   ],
   "note": "A reduction with exact counts: probabilities are numbers of cases among all keys and draws. Hardness of the Diffie-Hellman problem is not assumed anywhere; TestsBelow bounds the tests built from the given spy only. By C72 the rest of a ballot is distributed as a function of its ciphertext; making it without the vote needs control over the hash function, as usual for Fiat-Shamir, so C86 is stated for ciphertexts."
  },
  {
   "property": "C87",
   "status": "proved",
   "theorems": [
    "C87_range",
    "C87_ballot",
    "C87_zone",
    "C87_vote",
    "C87_reads",
    "C87_program",
    "C87_secp256k1",
    "C87_secp256k1_program",
    "C87_aggregated",
    "C87_comparison_helps"
   ],
   "note": "Negative claim. The shift is a function of the ballot and k (shiftBallot); C87_ballot is an equivalence for any ballot accepted, C87_program adds the parameters, the reading of the vote and JSON. secp256k1, where the identity has two representations, is C87_secp256k1 and C87_secp256k1_program (in memory only: by C53 its points do not survive JSON)."
  },
  {
   "property": "C88",
   "status": "proved",
   "theorems": [
    "C88_range",
    "C88_opens",
    "C88_new_commitment",
    "C88_ballot",
    "C88_prove",
    "C88_honest",
    "C88_program",
    "C88_secp256k1",
    "C88_secp256k1_program"
   ],
   "note": "Negative claim (malleability). The change is a function of the ballot (reblindBallot); C88_ballot is an equality of answers for every ballot with one H, C88_honest and C88_prove equalities of results. secp256k1: C88_secp256k1 and C88_secp256k1_program, for points on the curve."
  }
 ]
}