{"claims": [
{"property": "C01", "status": "proved", "theorems": ["C01_signatures_verify", "C01_randomised_signatures_verify", "C01_generated_keys_sign"], "note": "For every XOF that returns the requested number of bytes; messages and rho shorter than 2^32 - 168 bytes (longer ones: C42)."},
{"property": "C02", "status": "proved", "theorems": ["C02_keygen", "C02_generated_pair_is_valid", "C02_null_arguments"], "note": "Any number of iterations of the rejection loop; that signing accepts the generated key is C01_generated_keys_sign."},
{"property": "C03", "status": "proved", "theorems": ["C03_classification", "C03_null_arguments"], "note": ""},
{"property": "C04", "status": "proved", "theorems": ["C04_bad_arguments", "C04_invalid_key", "C04_success"], "note": ""},
{"property": "C05", "status": "proved", "theorems": ["C05_function_of_key_message_rho", "C05_sign_uses_system_randomness"], "note": ""},
{"property": "C06", "status": "proved", "theorems": ["C06_bad_arguments", "C06_accepted_length"], "note": ""},
{"property": "C07", "status": "proved", "theorems": ["C07_verify_defined", "C07_acceptance", "C07_reads"], "note": "Messages shorter than 2^32 - 168 bytes; the longer ones are property C42."},
{"property": "C08", "status": "proved", "theorems": ["C08_sign_is_defined"], "note": "Definedness of the 32-bit arithmetic of the sponge for longer messages is C42."},
{"property": "C09", "status": "proved", "theorems": ["C09_contiguous", "C09_disjoint", "C09_cover", "C09_indices", "C09_parse", "C09_determined"], "note": "All 12 parameter sets; signer and verifier use the same offset helpers in the model because the two C copies are textually identical."},
{"property": "C10", "status": "proved", "theorems": ["C10_round_trip"], "note": "One memory array, any overlap of message and output; the key is not in that memory."},
{"property": "C11", "status": "proved", "theorems": ["C11_open"], "note": ""},
{"property": "C12", "status": "proved", "theorems": ["C12_open_reconstruct", "C12_open_verifies"], "note": "vc.c; XOF abstract (only its output length is used); depths 1..29 (the shifts of the code are undefined beyond)"},
{"property": "C13", "status": "proved", "theorems": ["C13_opening_is_copath", "C13_sibling_not_ancestor", "C13_opening_hides_path"], "note": "syntactic non-dependence, not a computational hiding claim"},
{"property": "C14", "status": "proved", "theorems": ["C14_vole_correlation", "C14_verifier_corrects"], "note": "For every XOF returning the requested number of bytes; the correction by c is the verifier's code in faest.c."},
{"property": "C15", "status": "proved", "theorems": ["C15_chunks", "C15_out_of_range"], "note": ""},
{"property": "C16", "status": "proved", "theorems": ["C16_bitdec_numrec", "C16_bitdec_fails", "C16_numrec_bitdec"], "note": ""},
{"property": "C17", "status": "proved", "theorems": ["C17_node_count", "C17_bijection", "C17_children"], "note": ""},
{"property": "C18", "status": "proved", "theorems": ["C18_mul_is_product_mod_f", "C18_commutative_ring", "C18_special_multiplications"], "note": "all five fields"},
{"property": "C19", "status": "proved", "theorems": ["C19_inverses_exist", "C19_no_zero_divisors", "C19_moduli_irreducible"], "note": "all five fields"},
{"property": "C20", "status": "proved", "theorems": ["C20_bf8_inv"], "note": ""},
{"property": "C21", "status": "proved", "theorems": ["C21_embedding", "C21_byte_combine"], "note": "three big fields"},
{"property": "C22", "status": "proved", "theorems": ["C22_block_ciphers"], "note": "five variants, independent FIPS 197 specification with the published S-box table"},
{"property": "C23", "status": "proved", "theorems": ["C23_owf"], "note": "all twelve parameter sets"},
{"property": "C24", "status": "proved", "theorems": ["C24_prg_is_ctr", "C24_prefix"], "note": "the portable build (no OpenSSL)"},
{"property": "C25", "status": "proved", "theorems": ["C25_increment"], "note": ""},
{"property": "C26", "status": "proved", "theorems": ["C26_vole_hash_computes", "C26_vole_hash_linear"], "note": "all seeds, inputs, lengths that are a multiple of 8 bits, three levels"},
{"property": "C27", "status": "proved", "theorems": ["C27_zk_hash_computes", "C27_zk_hash_linear"], "note": "all sequences and seeds, three levels; one theorem gives additivity and scalar multiples"},
{"property": "C28", "status": "proved", "theorems": ["C28_witness_satisfies"], "note": "claims and defects are defined in Spec/ConstraintSpec.v and Spec/ConstraintMap.v; C30 ties them to what prover and verifier evaluate."},
{"property": "C29", "status": "proved", "theorems": ["C29_only_preimages"], "note": "for witnesses of any content; the constraint list is the one of C28 and C30."},
{"property": "C30", "status": "proved", "theorems": ["C30_polynomials_agree", "C30_three_challenges", "C30_honest_passes"], "note": "aes_prove/aes_verify for all 12 parameter sets; the leading coefficient multiplies D^2 + D, as in the code (a1 contains the defect)"},
{"property": "C31", "status": "proved", "theorems": ["C31_one_signature_one_statement"], "note": ""},
{"property": "C32", "status": "proved", "theorems": ["C32_queries", "C32_separated", "C32_mu", "C32_challenge_1", "C32_challenge_2", "C32_challenge_3", "C32_challenges_apart"], "note": ""},
{"property": "C33", "status": "proved", "theorems": ["C33_incremental", "C33_four", "C33_contexts"], "note": "For the code of the build without OQS and without the SIMD Keccak; pieces and outputs of at most 2^32 - 200 bytes (longer ones: C42). C33_contexts ties the contexts used in the rest of the model to the sponge, for pieces of every length."},
{"property": "C34", "status": "proved", "theorems": ["C34_consistent", "C34_published_sizes"], "note": ""},
{"property": "C35", "status": "proved", "theorems": ["C35_unknown", "C35_known"], "note": ""},
{"property": "C36", "status": "proved", "theorems": ["C36_clear_private_key", "C36_bcmp", "C36_bcmp_defined"], "note": "portable branches of compat.c"},
{"property": "C37", "status": "proved", "theorems": ["C37_keygen_refuted", "C37_sign_refuted"], "note": "The property is false of the code: the theorems exhibit a source whose every call fails while keygen and sign return 0."},
{"property": "C38", "status": "proved", "theorems": ["C38_transposed"], "note": ""},
{"property": "C39", "status": "proved", "theorems": ["C39_commitment_leaves", "C39_reconstruction_leaves"], "note": "generic (non-AVX2) x4 hashing"},
{"property": "C40", "status": "proved", "theorems": ["C40_challenge_binds"], "note": "Covers also different keys and messages."},
{"property": "C41", "status": "proved", "theorems": ["C41_permutation", "C41_shake", "C41_sized"], "note": "SHAKE of FIPS 202 transcribed on bit strings in Spec/KeccakSpec.v; the model of KeccakP-1600-opt64.c and KeccakSponge.inc is proved equal to it."},
{"property": "C42", "status": "proved", "theorems": ["C42_verify_refuted", "C42_sign_refuted", "C42_sponge_refuted", "C42_verify_exact", "C42_sign_exact"], "note": "The property is false of the code (the overflow of CVE-2022-37454 in KeccakSponge.inc:187-189): messages of 2^32 - 32 bytes are a witness; the _exact theorems say precisely which message lengths are handled."},
{"property": "C43", "status": "proved", "theorems": ["C43_signature_is_specified"], "note": ""},
{"property": "C44", "status": "proved", "theorems": ["C44_multiplication", "C44_operations", "C44_combinations", "C44_load_store", "C44_builds_agree", "C44_small_fields"], "note": "The word-level code of fields.c and fields.h (Model/Limbs.v), for the build with and without vector types, refines the arithmetic of Model/Fields.v that the rest of the model uses. Little-endian targets."},
{"property": "C45", "status": "proved", "theorems": ["C45_builds_agree", "C45_shake"], "note": "Four-way sponge over the serial permutation (opt64); the SIMD permutations are not modelled."},
{"property": "C46", "status": "proved", "theorems": ["C46_success", "C46_failure", "C46_returns", "C46_waits", "C46_getrandom"], "note": "Histories of system-call results as lists; the two branches that loop or check are modelled."},
{"property": "C47", "status": "proved", "theorems": ["C47_rotations", "C47_clz", "C47_ceil_log2", "C47_parity", "C47_sub_overflow", "C47_byte_order", "C47_bswap", "C47_alloc", "C47_alloc_null", "C47_alloc_rejects", "C47_alloc_refuted", "C47_posix", "C47_posix_rejects"], "note": "C47_alloc_refuted: without the bound on the size the request of faest_aligned_alloc wraps around (no caller reaches it)."},
{"property": "C48", "status": "proved", "theorems": ["C48_extraction", "C48_honest"], "note": "Special soundness of the whole verifier, as used by the forking lemma."},
{"property": "C49", "status": "proved", "theorems": ["C49_vole_hash", "C49_zk_hash", "C49_witness_missed", "C49_wrong_witness"], "note": "Counts are over all seeds (byte strings of the length the code reads); at_most is defined in Spec/CountSpec.v."},
{"property": "C50", "status": "proved", "theorems": ["C50_view", "C50_rest_of_the_view", "C50_simulation"], "note": "The masks are arbitrary strings here; that the masks a signer derives from its seeds look uniform is the pseudorandomness of AES-CTR and SHAKE, which is assumed in the literature and not formalised."},
{"property": "C51", "status": "proved", "theorems": ["C51_state", "C51_shake", "C51_shake_x4", "C51_same"], "note": "KeccakP1600_Permute_Nrounds for other numbers of rounds, and the Overwrite and ExtractAndAdd functions, which FAEST does not call, are not modelled."},
{"property": "C52", "status": "proved", "theorems": ["C52_sign", "C52_sign_with_randomness", "C52_keygen", "C52_validate_keypair", "C52_clear_private_key", "C52_published"], "note": "About a mechanical translation of the C text (tools/ctc) under the leakage model of Model/CtLang; what the compiler makes of the C code and OpenSSL/AVX2 back ends are not covered."},
{"property": "C53", "status": "proved", "theorems": ["C53_keygen", "C53_sign", "C53_sign_with_randomness", "C53_verify", "C53_validate_keypair", "C53_clear_private_key", "C53_no_race"], "note": "About the machine translation of the C text; the random source itself (getrandom) is a stand-in."},
{"property": "C54", "status": "proved", "theorems": ["C54_keygen", "C54_keygen_null", "C54_validate_keypair", "C54_validate_keypair_null", "C54_clear_private_key"], "note": "Refinement of the machine translation of the C text against Spec/AesSpec, OwfSpec and KeySpec: total correctness, memory safety and frame. The random source is a stand-in that reads a tape."},
{"property": "C55", "status": "proved", "theorems": ["C55_multiplication", "C55_multiplication_by_word", "C55_multiplication_of_words", "C55_vole_hash", "C55_zk_hash_init", "C55_zk_hash_update", "C55_zk_hash_kept", "C55_zk_hash_finalize"], "note": "About the mechanical translation of the C text (tools/ctc), in total correctness; the default build without AVX2 and OpenSSL."},
{"property": "C56", "status": "proved", "theorems": ["C56_prg", "C56_increment"], "note": "About the mechanical translation of the C text (tools/ctc), in total correctness; the build without OpenSSL."},
{"property": "C57", "status": "proved", "theorems": ["C57_hash", "C57_H0", "C57_H1", "C57_H2", "C57_H3", "C57_H0_x4"], "note": "About the machine-translated C text (portable 64-bit permutation, and for the four-way oracle the fallback that runs four of them), for every context, sequence of pieces and sequence of outputs in memory. Pieces and outputs are below 2^32 - 200 bytes each, as in C30; the outputs of the four-way oracle are not empty."},
{"property": "C58", "status": "proved", "theorems": ["C58_commit", "C58_open"], "note": "About the machine-translated C text, for the three security levels and depths 1 to 24 (the parameter sets use 7 to 12). The iv is not one of the library's constants and is not part of the structure; the output buffer of the opening is not in the blocks that are read. That the reconstruction gives the same hash is C59."},
{"property": "C59", "status": "proved", "theorems": ["C59_reconstruct", "C59_roundtrip"], "note": "About the machine-translated C text, for the three security levels and depths 1 to 24. The four buffers are in blocks of their own, as vole_reconstruct allocates them; the inputs may share blocks. The hash equality is for the opening that C58_open writes; that other openings give another hash rests on collision resistance and is not claimed."},
{"property": "C60", "status": "proved", "theorems": ["C60_convert", "C60_decode", "C60_no_tree"], "note": "About the machine-translated C text, for the three security levels and depths 1 to 24, with two times 2^depth times the column length below 2^32 (the size of the working buffer; the parameter sets stay below 2^25)."},
{"property": "C61", "status": "proved", "theorems": ["C61_commit"], "note": "About the translated C text of vole_commit and everything it calls; the bounds exclude only sizes that overflow 32-bit arithmetic. Every parameter set meets them."},
{"property": "C62", "status": "proved", "theorems": ["C62_reconstruct", "C62_roundtrip"], "note": "About the translated C text of vole_reconstruct and everything it calls; depths up to 12 and sizes that do not overflow 32-bit arithmetic, which every parameter set meets."},
{"property": "C63", "status": "proved", "theorems": ["C63_mu", "C63_challenge_1", "C63_challenge_2", "C63_challenge_3"], "note": "For the machine translation of the C text (Model/CtFaest). Inputs are limited to 2^32 - 200 bytes, as in C57. Case: C63_case."},
{"property": "C64", "status": "proved", "theorems": ["C64_places"], "note": "For the machine translation of the C text (Model/CtFaest), all sixteen functions. The format is Spec/FormatSpec. Case: C64_case."},
{"property": "C65", "status": "proved", "theorems": ["C65_get_paramset", "C65_unknown", "C65_used"], "note": "For the machine translation of the C text (Model/CtFaest). The padding of the structure is not part of the claim. Case: C65_case."},
{"property": "C66", "status": "proved", "theorems": ["C66_sign", "C66_sign_with_randomness", "C66_verify", "C66_invalid_key_with_randomness", "C66_invalid_key"], "note": "For the machine translation of the C text (Model/CtApi). The order of the checks shows in the hypotheses: a length pointer that is not NULL is read. Cases: C66_case_arguments, C66_case_key."}
]}
