{"id": "C01", "title": "Every honestly produced signature verifies", "statement": "For each of the 12 parameter sets: if the private key is one the signer accepts, then sign_with_randomness returns 0 and verify, called with the matching public key, the same message and the bytes it produced, returns 0.", "quantifier": "all 12 parameter sets, all private keys accepted by the OWF, all messages and all rho shorter than 2^32 - 168 bytes (rho may be absent; longer inputs are property C42), all previous contents of the signature buffer", "why_tests_cant": "The key, message and randomness spaces are astronomically large; the tests sign a handful of random messages per parameter set, and a completeness failure hitting a 2^-20 fraction of challenges would be missed.", "anchors": ["faest_param.c.in: sign_with_randomness, verify", "faest.c: faest_sign, faest_verify", "faest_aes.c: aes_prove, aes_verify", "vole.c: vole_commit, vole_reconstruct"]}
{"id": "C02", "title": "Key generation returns a valid key pair", "statement": "Whenever keygen returns 0 and the random source did not fail, validate_keypair(pk, sk) returns 0, the public key is OWF-input || OWF-output of the private key, and the private key is accepted by sign.", "quantifier": "all parameter sets and all infinite sequences of random bytes for which the rejection loop stops", "why_tests_cant": "The rejection loop depends on the whole history of random draws; rejected keys occur with a probability that depends on the parameter set and tests see only accepted keys.", "anchors": ["faest_param.c.in: keygen, validate_keypair", "owf.c"]}
{"id": "C03", "title": "validate_keypair classifies every pair exactly", "statement": "validate_keypair returns -1 iff an argument is NULL, 1 iff evaluating the OWF on the private key feeds a zero byte to an S-box, 0 iff it does not and the public key equals OWF-input || OWF-output, and 2 in all other cases.", "quantifier": "all parameter sets, all byte strings pk and sk of the right sizes, NULL or not", "why_tests_cant": "The 'no zero byte' condition ranges over all keys; tests cannot enumerate them and only check one valid and one invalid pair.", "anchors": ["faest_param.c.in: validate_keypair", "owf.c", "compat.c: faest_timingsafe_bcmp"]}
{"id": "C04", "title": "Argument contract of sign", "statement": "sign_with_randomness returns -1 and changes neither the signature buffer nor *signature_len when a pointer is NULL, the buffer is shorter than SIGNATURE_SIZE, rho is NULL with nonzero length, or the private key is invalid; otherwise it returns 0, sets *signature_len to SIGNATURE_SIZE, overwrites exactly the first SIGNATURE_SIZE bytes of the buffer and leaves the rest unchanged.", "quantifier": "all arguments, all buffer sizes and previous buffer contents", "why_tests_cant": "Covers every buffer length and content, and the absence of writes on every failing path.", "anchors": ["faest_param.c.in: sign_with_randomness, sign", "faest.c: faest_sign"]}
{"id": "C05", "title": "Signing is a function of key, message and rho only", "statement": "The bytes produced by sign_with_randomness depend only on the private key, the message and rho: not on the previous contents of the signature buffer, nor on the contents of uninitialised or recycled working memory.", "quantifier": "all pairs of runs that agree on key, message and rho", "why_tests_cant": "A two-run (hyper-)property over all memory contents; a test sees one memory state.", "anchors": ["faest_param.c.in: sign_with_randomness", "faest.c: faest_sign", "vole.c: vole_commit, ConvertToVole", "aes.c: aes_extend_witness"]}
{"id": "C06", "title": "verify accepts only full-length signatures", "statement": "verify returns -1 when pk or signature is NULL or signature_len differs from SIGNATURE_SIZE, without reading the signature; when it returns 0 the length was exactly SIGNATURE_SIZE.", "quantifier": "all lengths, pointers and messages", "why_tests_cant": "All lengths, including sizes for which tests have no vector.", "anchors": ["faest_param.c.in: verify"]}
{"id": "C07", "title": "verify never leaves its buffers on any input", "statement": "For every public key, message and signature of the right size, however malformed, verify terminates with 0 or -1 and performs no out-of-bounds or uninitialised read, no out-of-bounds write and no overflowing shift.", "quantifier": "all parameter sets, all public keys, all messages shorter than 2^32 - 168 bytes (longer ones are property C42) and all 2^(8*SIGNATURE_SIZE) signature byte strings", "why_tests_cant": "An attacker chooses the signature; the challenge bytes inside it steer all indices. Fuzzing samples the space only.", "anchors": ["faest.c: faest_verify", "vole.c: vole_reconstruct, ChalDec, ConvertToVole", "vc.c: vector_reconstruction", "faest_aes.c: aes_verify"]}
{"id": "C08", "title": "sign never leaves its buffers", "statement": "For every valid private key, message and rho, sign_with_randomness performs no out-of-bounds or uninitialised read, no out-of-bounds write and no overflowing shift.", "quantifier": "all parameter sets, valid keys, messages and rho shorter than 2^32 - 168 bytes (longer ones are property C42)", "why_tests_cant": "The indices used to open the vector commitments depend on the hash of everything.", "anchors": ["faest.c: faest_sign", "vole.c: vole_commit", "vc.c: vector_commitment, vector_open", "faest_aes.c: aes_prove"]}
{"id": "C09", "title": "The signature format is a partition of the signature", "statement": "The fields of a signature (corrections, u_tilde, d, a_tilde, per-repetition opening and commitment, last challenge, IV) are pairwise disjoint, contiguous and together cover exactly SIGNATURE_SIZE bytes, for signer and verifier alike; parsing a serialised signature gives the fields back.", "quantifier": "all parameter sets, all field indices", "why_tests_cant": "An off-by-one overlap can be invisible to sign-then-verify tests because signer and verifier share the offsets.", "anchors": ["faest.c: signature_c .. signature_iv, dsignature_*", "instances.c"]}
{"id": "C10", "title": "crypto_sign / crypto_sign_open round trip", "statement": "After a successful crypto_sign, *smlen = mlen + SIGNATURE_SIZE, and crypto_sign_open on the result under the matching public key returns 0 and delivers exactly the original message and length, also when the message buffer overlaps the signed-message buffer.", "quantifier": "all messages, all keys, all relative positions of the message and output buffers, all random draws", "why_tests_cant": "All overlap offsets and all messages.", "anchors": ["crypto_sign.c.in: crypto_sign, crypto_sign_open"]}
{"id": "C11", "title": "crypto_sign_open delivers nothing unless the signature verifies", "statement": "crypto_sign_open returns -1 and leaves *mlen and the message buffer unchanged when the input is shorter than SIGNATURE_SIZE or verification fails; if it returns 0, the delivered message is the prefix of the input and verify accepts that message with the remaining bytes.", "quantifier": "all inputs and lengths", "why_tests_cant": "Quantifies over every forged or truncated input.", "anchors": ["crypto_sign.c.in: crypto_sign_open"]}
{"id": "C12", "title": "Opening a vector commitment reveals all seeds but one, consistently", "statement": "Reconstructing from the opening of a commitment at any index reproduces the commitment digest and every seed except the one at the opened index.", "quantifier": "all root keys, IVs, depths and indices, any previous contents of the reconstruction buffers, all security levels", "why_tests_cant": "Number of (key, index, depth) triples; tests try a few.", "anchors": ["vc.c: vector_commitment, vector_open, vector_reconstruction"]}
{"id": "C13", "title": "An opening contains nothing about the hidden seed", "statement": "The opening at an index consists only of tree nodes that are not ancestors of the hidden leaf, one per level, plus the commitment of the hidden leaf; it is unchanged if all nodes on the path to the hidden leaf are replaced by anything else.", "quantifier": "all depths and indices, all trees", "why_tests_cant": "A leak is not observable by functional tests.", "anchors": ["vc.c: vector_open, getNodeIndex, BitDec"]}
{"id": "C14", "title": "VOLE correlation", "statement": "For every challenge, the verifier's reconstructed matrix Q and the prover's u and V satisfy Q[j] = V[j] xor delta_j * u for each of the lambda columns j, where delta_j is bit j of the challenge, and both sides compute the same commitment digest.", "quantifier": "all root keys, IVs, challenges, all 12 parameter sets", "why_tests_cant": "2^lambda challenges; every column must hold.", "anchors": ["vole.c: vole_commit, vole_reconstruct, ConvertToVole"]}
{"id": "C15", "title": "The challenge is split into disjoint, exhaustive chunks", "statement": "The per-repetition chunks of the challenge, concatenated in order, are exactly the lambda challenge bits in order; each chunk has the depth of the corresponding tree; asking for a chunk that does not exist fails and writes nothing.", "quantifier": "all challenges, all repetition indices including out-of-range ones, all parameter sets", "why_tests_cant": "All challenges and out-of-range indices.", "anchors": ["vole.c: ChalDec"]}
{"id": "C16", "title": "Leaf index and its bit decomposition are inverse", "statement": "Decomposing an index into depth bits and recomposing gives the index back, for indices below 2^depth; decomposing fails (writing nothing) for larger ones; recomposing any bit string and decomposing it gives the bit string back.", "quantifier": "all depths up to 31, all indices", "why_tests_cant": "All depths and indices.", "anchors": ["vc.c: BitDec, NumRec"]}
{"id": "C17", "title": "Tree node numbering", "statement": "Node numbering of the GGM tree is a bijection between (level, position) pairs and 0 .. nodecount-1, with children of node n at 2n+1 and 2n+2.", "quantifier": "all depths for which the C shifts are defined (the library uses at most 12)", "why_tests_cant": "All depths and positions.", "anchors": ["vc.c: getNodeIndex, getBinaryTreeNodeCount, is_left_child, get_parent"]}
{"id": "C18", "title": "Finite-field multiplication is polynomial multiplication modulo the field polynomial", "statement": "For each of the fields with 2^8, 2^64, 2^128, 2^192, 2^256 elements, mul(a,b) is the unique polynomial of degree < n congruent to the carry-less product of a and b modulo the field polynomial; with xor as addition this makes a commutative ring with one; multiplication by a 64-bit value or by a bit agrees with the general multiplication.", "quantifier": "all pairs and triples of field elements", "why_tests_cant": "2^512 pairs; tests use random samples against NTL.", "anchors": ["fields.c: bf8_mul, bf64_mul, bf128_mul, bf192_mul, bf256_mul, *_mul_64, *_dbl, *_sum_poly", "fields.h"]}
{"id": "C19", "title": "The fields are fields", "statement": "In the fields with 2^8, 2^64, 2^128, 2^192, 2^256 elements every nonzero element has a multiplicative inverse and there are no zero divisors.", "quantifier": "all nonzero field elements", "why_tests_cant": "Irreducibility of the modulus cannot be sampled.", "anchors": ["fields.c: moduli, bf*_mul"]}
{"id": "C20", "title": "bf8_inv is inversion", "statement": "bf8_inv(0) = 0 and a * bf8_inv(a) = 1 for every nonzero a.", "quantifier": "all 256 elements", "why_tests_cant": "Needed as a lemma for all of the S-box properties; stated for every element.", "anchors": ["fields.c: bf8_inv"]}
{"id": "C21", "title": "GF(2^8) embeds in the big fields", "statement": "The map from bytes to the fields with 2^128, 2^192, 2^256 elements used by prover and verifier is injective and preserves 0, 1, addition and multiplication; combining eight field elements with the same constants is the linear extension of that map.", "quantifier": "all pairs of bytes, all 8-tuples of field elements, all three fields", "why_tests_cant": "The embedding constants are literal tables: one wrong bit breaks the homomorphism on a subset of inputs.", "anchors": ["fields.c: bf128_byte_combine(_bits), bf192_, bf256_, bf*_alpha"]}
{"id": "C22", "title": "The block ciphers are AES / Rijndael", "statement": "For each key and plaintext the block encryption functions compute the FIPS-197 cipher (Nk,Nr) = (4,10),(6,12),(8,14) with Nb = 4, and Rijndael with Nb = Nk = 6 and 8, including key expansion.", "quantifier": "all keys and all plaintext blocks, all five variants", "why_tests_cant": "2^256 key/plaintext pairs; tests use a few known-answer vectors.", "anchors": ["aes.c: expand_key, aes_encrypt, compute_sbox, shift_row, mix_column, *_encrypt_block"]}
{"id": "C23", "title": "The OWF rejects exactly the keys with a zero S-box input", "statement": "owf returns true iff no byte entering an S-box during the key expansion (AES variants) or the block encryptions is zero, and its output is the block encryption (AES variants: of the input blocks under the key; EM variants: of the key under the input, xored with the key).", "quantifier": "all keys and inputs, all six OWFs", "why_tests_cant": "All keys; rejected ones are a thin set.", "anchors": ["owf.c", "aes.c: contains_zero, expand_key, aes_encrypt"]}
{"id": "C24", "title": "The PRG is AES in counter mode, independent of the requested length", "statement": "prg with key, IV and length n returns n bytes whose i-th byte is byte i mod 16 of the block encryption of IV + i div 16 (big-endian, modulo 2^128), with AES-128/192/256 selected by the security level; so a shorter request is a prefix of a longer one.", "quantifier": "all keys, IVs (including wrap-around) and lengths", "why_tests_cant": "All lengths and IVs; IV wrap-around never occurs in tests.", "anchors": ["aes.c: prg, aes_increment_iv"]}
{"id": "C25", "title": "Counter increment", "statement": "aes_increment_iv adds one to the 128-bit big-endian value modulo 2^128.", "quantifier": "all 2^128 counters", "why_tests_cant": "Carry chains of every length.", "anchors": ["aes.c: aes_increment_iv"]}
{"id": "C26", "title": "The VOLE hash is linear and computes its specification", "statement": "vole_hash equals the specified polynomial hash of the zero-padded input for every input length that is a multiple of 8 bits, and is GF(2)-linear in its input for a fixed seed.", "quantifier": "all seeds, inputs, lengths, three security levels", "why_tests_cant": "All input lengths, in particular those that are not a multiple of lambda.", "anchors": ["universal_hashing.c: vole_hash_128/192/256, compute_h1"]}
{"id": "C27", "title": "The ZK hash is linear and independent of how it is fed", "statement": "Initialising, updating with x_1..x_n and finalising with x_0 gives r0*sum x_i s^(n-i) + r1*sum x_i t^(n-i) + x_0; it is linear over the big field in (x_i).", "quantifier": "all sequences of any length, all seeds, three security levels", "why_tests_cant": "All lengths and values.", "anchors": ["universal_hashing.c: zk_hash_*_init, _update, _finalize"]}
{"id": "C28", "title": "The prover's constraints hold for every valid key", "statement": "For every key accepted by the OWF, the extended witness has the length announced in the parameters, its first lambda bits are the key and all multiplication constraints evaluated by prover hold (product of the two factors is 1).", "quantifier": "all valid keys and inputs, all 12 parameter sets", "why_tests_cant": "All keys.", "anchors": ["aes.c: aes_extend_witness", "faest_aes.c: aes_*_constraints, em_enc_*"]}
{"id": "C29", "title": "Only a preimage satisfies the constraints", "statement": "Any witness for which all multiplication constraints hold for public input x and output y starts with a key k such that owf(k, x) succeeds with output y, and is the extended witness of k.", "quantifier": "all witnesses of the right length, all public keys", "why_tests_cant": "Soundness of the arithmetisation speaks about all (malicious) witnesses; no test does.", "anchors": ["faest_aes.c: aes_key_schedule_constraints_*, aes_enc_constraints_*, em_enc_constraints_*"]}
{"id": "C30", "title": "Prover and verifier polynomials agree for every witness, and three challenges determine it", "statement": "For every witness w (valid or not), tags V, VOLE mask u, global key D and value a sent in place of the prover's, if Q = V + D*u then the verifier's aggregated value equals a0 + (a1 + a)*D + h*(D^2 + D) with a0, a1 the prover's values and h the hash of the constraint defects; hence if the verifier's check passes for three different D with the same a, h is zero and a is the prover's value; and if h is zero every D passes.", "quantifier": "all witnesses, tags, global keys, hash seeds", "why_tests_cant": "Algebraic identity over fields with up to 2^256 elements.", "anchors": ["faest_aes.c: aes_prove_*, aes_verify_*"]}
{"id": "C31", "title": "The same signature cannot serve two messages or two keys without a hash collision", "statement": "If verify accepts the same signature bytes for (pk, m) and (pk', m') with (pk, m) different from (pk', m'), then two different inputs to H1 or H2 with the same digest can be read off the two verification runs.", "quantifier": "all public keys, messages, signatures, all parameter sets, any hash function", "why_tests_cant": "A statement about all adversarial inputs.", "anchors": ["faest.c: faest_verify, hash_mu, hash_challenge_1, hash_challenge_2, hash_challenge_3"]}
{"id": "C32", "title": "Random oracles are domain separated and their inputs uniquely decodable", "statement": "No input given to the extendable-output function by one of H0, H1, H2, H3 equals an input given by another; the concatenations hashed for mu and the three challenges determine their components.", "quantifier": "all inputs", "why_tests_cant": "All pairs of inputs.", "anchors": ["random_oracle.c: domain_sep_H0..H3", "faest.c: hash_mu, hash_challenge_*"]}
{"id": "C33", "title": "Incremental hashing equals one-shot hashing", "statement": "For the SHAKE sponge, absorbing a message in any sequence of pieces and squeezing output in any sequence of pieces yields the same bytes as absorbing and squeezing at once; the four-way parallel version equals four independent instances.", "quantifier": "all messages, all ways of splitting input and output", "why_tests_cant": "All splittings, including those hitting block boundaries.", "anchors": ["sha3/KeccakSponge.inc", "sha3/KeccakHash.c", "hash_shake.h"]}
{"id": "C34", "title": "Parameter sets are consistent", "statement": "For every parameter set: k0*t0 + k1*t1 = lambda, tau = t0 + t1, depths are at most MAX_DEPTH and tau at most MAX_TAU, l = Lke + beta*Lenc and is a multiple of 8, the signature size formula equals the published size, and every value fits its 16-bit field.", "quantifier": "all 12 parameter sets and all unused identifiers", "why_tests_cant": "Buffer safety depends on all the relations at once; a test checks sizes only.", "anchors": ["instances.c", "instances.h", "meson.build"]}
{"id": "C35", "title": "Unknown parameter identifiers give the invalid parameter set", "statement": "faest_get_paramset returns the all-zero set tagged PARAMETER_SET_INVALID for each identifier that is not one of the 12, and faest_get_param_name returns its fallback name.", "quantifier": "all integers", "why_tests_cant": "All identifiers.", "anchors": ["instances.c: faest_get_paramset, faest_get_param_name"]}
{"id": "C36", "title": "Clearing a private key, comparing in constant structure", "statement": "clear_private_key zeroes exactly PRIVATE_KEY_SIZE bytes and nothing else; the library's constant-time comparison returns 0 iff the buffers are equal.", "quantifier": "all buffers", "why_tests_cant": "All contents and sizes.", "anchors": ["faest_param.c.in: clear_private_key", "compat.c: faest_explicit_bzero, faest_timingsafe_bcmp"]}
{"id": "C37", "title": "Key generation and signing report a failing random source", "statement": "If the operating system's random source fails, keygen and sign return a nonzero value.", "quantifier": "all failure patterns of the random source", "why_tests_cant": "The random source does not fail in tests.", "anchors": ["faest_param.c.in: keygen, sign", "randomness.c: rand_bytes"]}
{"id": "C38", "title": "Transposing the VOLE matrix", "statement": "Element i of the row-major vector is the field element whose bit j is bit i of column j, for the prover's and the verifier's matrix.", "quantifier": "all matrices and indices, three security levels", "why_tests_cant": "All matrices.", "anchors": ["faest_aes.c: column_to_row_major_and_shrink_V_128/192/256"]}
{"id": "C39", "title": "Batched leaf commitments equal sequential ones", "statement": "Computing the leaf seeds and commitments four at a time, and on the verifier's side with the gap at the hidden leaf, evaluates H0 exactly once on every leaf (except the hidden one) and stores each result at its own index.", "quantifier": "all depths, all hidden positions (all residues modulo 4)", "why_tests_cant": "All positions and depths.", "anchors": ["vc.c: vector_commitment, vector_reconstruction", "random_oracle.c: H0_x4_*"]}
{"id": "C40", "title": "Signature bytes are bound by the last challenge", "statement": "If two different signatures with the same last challenge are both accepted for the same public key and message, then a collision of one of the hash functions or of the length-doubling PRG can be read off the two verification runs.", "quantifier": "all pairs of signatures, public keys, messages", "why_tests_cant": "A statement about all adversarial signatures (non-malleability).", "anchors": ["faest.c: faest_verify", "vole.c: vole_reconstruct", "vc.c: vector_reconstruction"]}
{"id": "C41", "title": "The hash function is the standardised SHAKE", "statement": "Hashing with a context of security parameter 128 yields the output of SHAKE128 of FIPS 202 on the bytes absorbed, with any other parameter that of SHAKE256; the permutation is KECCAK-p[1600, 24] of the standard.", "quantifier": "all inputs, all output lengths, all states", "why_tests_cant": "Test vectors cover a few messages; padding and block boundaries depend on every length.", "anchors": ["sha3/KeccakP-1600-opt64.c: KeccakP1600_Permute_24rounds", "sha3/KeccakSponge.inc", "sha3/KeccakHash.c", "hash_shake.h"]}
{"id": "C42", "title": "Messages and rho of any length are hashed", "statement": "sign_with_randomness and verify are defined (no out-of-bounds access) for every message and every rho whose length fits size_t.", "quantifier": "all message lengths below 2^64", "why_tests_cant": "Needs messages of 4 GiB and more, and exact boundary lengths.", "anchors": ["sha3/KeccakSponge.inc: SpongeAbsorb", "faest.c: faest_sign, faest_verify"]}
{"id": "C43", "title": "The signature is the one the specification prescribes", "statement": "For every valid key, message and rho, the bytes sign_with_randomness writes are the parts the specification lists, in order: corrections, hashes, masked witness, constraint polynomial, openings, third challenge and IV, each computed from the key, message and rho alone.", "quantifier": "all parameter sets, valid keys, messages, rho", "why_tests_cant": "Test vectors fix one key and message per parameter set.", "anchors": ["faest.c: faest_sign", "vole.c: vole_commit", "vc.c: vector_open", "faest_param.c.in: sign_with_randomness"]}
{"id": "C44", "title": "Machine-word field arithmetic is exact in both builds", "statement": "On every input the field code working on arrays of 64-bit words computes the field operation: addition, multiplication, doubling, multiplication by a 64-bit value or a bit, the byte and polynomial combinations, loading and storing. It never reads outside the arrays, keeps the unused fourth word of 192-bit elements zero, and gives the same bytes with and without compiler vector types.", "quantifier": "all operands of each field, both build configurations", "why_tests_cant": "Operands range over up to 2^512 pairs per field and errors in a carry or mask show only for particular bit patterns; one test run covers only the build it was compiled for.", "anchors": ["fields.h: bf128_t, bf192_t, bf256_t, bf128_load, bf128_store", "fields.c: bf128_mul, bf192_mul, bf256_mul, bf128_mul_64, bf128_sum_poly, bf128_byte_combine, bf8_mul, bf64_mul"]}
{"id": "C45", "title": "The four-way hash of the default build is four hashes", "statement": "A context of four hashes (hash_init_x4, hash_update_x4, hash_final_x4, hash_squeeze_x4) gives in each lane exactly the bytes a single hash of that lane's input gives, however input and output are cut; the build with the interleaved four-way sponge and the build with four separate contexts agree on every input.", "quantifier": "all permutations, both rates, all sequences of updates (four strings of one length) and squeezes", "why_tests_cant": "The lanes share one position counter and one loop; an error shows only for particular lengths modulo the block size and particular lane contents.", "anchors": ["hash_shake.h: hash_init_x4, hash_update_x4, hash_update_x4_4, hash_update_x4_1, hash_final_x4, hash_squeeze_x4", "sha3/KeccakSpongetimes4.inc: SpongeAbsorb, SpongeAbsorbLastFewBits, SpongeSqueeze", "sha3/KeccakHashtimes4.c"]}
{"id": "C46", "title": "rand_bytes succeeds only with a buffer filled by the operating system", "statement": "rand_bytes returns 0 only if every byte of the buffer was delivered by the system call, in order and for this call; otherwise it returns -1. It survives interrupted and short calls, never writes outside the buffer, closes the device exactly once on every path, and fails to return only as long as the system neither delivers bytes nor reports an error.", "quantifier": "all histories of results of open, ioctl, read and getrandom allowed by POSIX, all buffers", "why_tests_cant": "Short reads, EINTR at each call and failing ioctls cannot be provoked systematically in a test; the histories are unbounded.", "anchors": ["randomness.c: rand_bytes (getrandom branch, /dev/urandom branch)"]}
{"id": "C47", "title": "Portable replacements and byte order do not change behaviour", "statement": "On every input the portable versions of rotation, leading-zero count, rounding up of logarithms, parity, checked subtraction and byte swapping compute the function they replace; loads and stores give the same value on little- and big-endian machines; aligned allocation returns a pointer with the alignment asked for inside the block obtained and frees exactly that block.", "quantifier": "all inputs, both byte orders, all results of malloc", "why_tests_cant": "A test binary runs on one machine with the builtins its compiler has; the replacements and the other byte order are not even compiled there.", "anchors": ["compat.h: parity, rotl8, rotr8, clz, ceil_log2, sub_overflow_size_t", "compat.c: faest_aligned_alloc, faest_aligned_free", "endian_compat.h: bswap16, bswap32, bswap64, htole64, le64toh", "fields.h: bf64_load, bf64_store"]}
{"id": "C48", "title": "Answering three last challenges for one run means knowing the private key", "statement": "Suppose three byte strings are accepted as signatures of one message under one public key, by runs of verify that agree on everything before the last call of the random oracle and receive three different answers from it. Then an explicit, efficient extractor computes from two of them a private key for which validate_keypair accepts the public key, unless one of the named bad events occurred: a collision between inputs of the hash, or a universal hash that vanishes on a nonzero input. For honest signatures the extractor returns the signer's key.", "quantifier": "all parameter sets, hash functions, public keys, messages and triples of accepted strings with a common last query", "why_tests_cant": "It speaks about every forger's output, not about signatures the library makes; a test has no forgeries to look at.", "anchors": ["faest.c: faest_verify", "vc.c: vector_reconstruction, vector_verify", "vole.c: vole_reconstruct", "faest_aes.c: aes_verify", "universal_hashing.c: vole_hash, zk_hash_*", "faest_param.c.in: verify, validate_keypair"]}
{"id": "C49", "title": "Universal hashes collide rarely and a wrong witness rarely passes", "statement": "Two different inputs of the VOLE hash collide for at most one in 2^(lambda+15) of all seeds, two different inputs of the ZK hash for at most one in 2^(lambda-1). A witness that violates a constraint is missed by the aggregated constraints for at most one in 2^(lambda-1) of all second challenges, and however a prover with such a witness answers the second challenge, the verifier's computation agrees with its answer for at most one in 2^(lambda-2) of all pairs of second and third challenges.", "quantifier": "all three security levels, all pairs of different inputs (up to 2^29 bits and 2^32 field elements), all parameter sets, wrong witnesses, masks and response strategies", "why_tests_cant": "The statement counts seeds in sets of more than 2^448 elements; a test that never sees a collision says nothing about the fraction.", "anchors": ["universal_hashing.c: vole_hash, zk_hash_*_init, zk_hash_*_update, zk_hash_*_finalize", "faest_aes.c: aes_prove, aes_verify", "fields.c: bf64_mul, bf128_mul, bf192_mul, bf256_mul"]}
{"id": "C50", "title": "A signature's values carry no information about the witness", "statement": "For every witness, right or wrong, and all fixed challenges, every combination of masked witness, mask hash, proof value and opened matrix is shown for exactly one choice of the prover's masks: with uniform masks what the verifier sees is uniform and independent of the witness. The remaining values the prover hashes are determined by what it shows. And for every public key, message and byte string of the size of a signature there is one oracle query such that verify accepts the string under exactly those changes of the answer to that query that make it the challenge in the string: no key is needed to simulate signatures.", "quantifier": "all parameter sets, witnesses, challenges and views; all hash functions, public keys, messages and byte strings of the signature size", "why_tests_cant": "It is a statement about the distribution of signatures over all masks; runs of the signer show single points of it.", "anchors": ["faest.c: faest_sign, faest_verify", "faest_aes.c: aes_prove, aes_verify", "universal_hashing.c: vole_hash, zk_hash_*_finalize", "vole.c: vole_commit, vole_reconstruct"]}
{"id": "C51", "title": "The hash is SHAKE on 64-bit and 32-bit builds and for both byte orders", "statement": "Whichever of the two portable Keccak implementations a build uses (64-bit lanes, or 32-bit bit-interleaved halves) and whatever the byte order of the target, any history of additions, extractions and permutations within the state returns what FIPS 202 describes, and the bytes squeezed from a hash context, or from each lane of a four-way context, are those of SHAKE128 / SHAKE256 of the bytes absorbed. Signatures and keys are therefore the same on all of them.", "quantifier": "both implementations, both byte orders, all histories of in-range operations; all sequences of pieces absorbed and lengths squeezed (each below 2^32 - 200)", "why_tests_cant": "A test runs on one word size and one byte order, and on some inputs and offsets only; the unused branches are not even compiled.", "anchors": ["sha3/opt64/KeccakP-1600-opt64.c: KeccakP1600_AddByte, KeccakP1600_AddBytes, KeccakP1600_ExtractBytes, KeccakP1600_Permute_24rounds, KeccakF1600_FastLoop_Absorb", "sha3/plain32/KeccakP-1600-inplace32BI.c: KeccakP1600_AddByte, KeccakP1600_AddBytes, KeccakP1600_ExtractBytes, KeccakP1600_Permute_24rounds", "sha3/SnP-Relaned.h: SnP_AddBytes, SnP_ExtractBytes", "hash_shake.h: hash_init, hash_update, hash_final, hash_squeeze"]}
{"id": "C52", "title": "Timing and memory accesses do not depend on secrets", "statement": "Two calls of keygen, sign, sign_with_randomness, validate_keypair or clear_private_key that differ only in secrets (private key, message, randomness, old contents of the output) take the same branches, access the same addresses, divide the same numbers, allocate the same sizes and call the same functions, up to the first published value in which they differ. Published are only: whether the key is valid, whether the key pair matches, and the iv and the third challenge of the signature. Calls that publish the same values show the same events throughout, return the same result and leave the same in all memory that is not secret; clear_private_key publishes nothing.", "quantifier": "twelve parameter sets; all pairs of memories that agree outside secret blocks; all pointers (also null or out of bounds), lengths and numbers of steps", "why_tests_cant": "A test measures some keys on one machine; a leak may show for few values of the secret only. Dynamic taint checks cover the executed paths.", "anchors": ["faest_param.c.in: keygen, sign, sign_with_randomness, validate_keypair, clear_private_key", "faest.c: faest_sign", "faest_aes.c: aes_prove", "aes.c: prg, aes_extend_witness", "fields.c", "vc.c: vector_commitment, vector_open", "vole.c: vole_commit", "universal_hashing.c", "sha3/KeccakSponge.inc", "compat.c: faest_timingsafe_bcmp"]}
{"id": "C53", "title": "A call touches only its arguments, the constants and its own memory", "statement": "keygen, sign, sign_with_randomness, verify, validate_keypair and clear_private_key write only to their output buffers and to memory they allocate themselves; they read only their arguments, the constants of the library and memory they allocated. When the call returns, everything else in memory, in particular its inputs, is as before. Only keygen and sign use the random source. Hence calls in different threads that share nothing but inputs do not race, and no call leaves state behind for the next one.", "quantifier": "twelve parameter sets; all memories, contents, lengths and pointers (also null or out of bounds) of which no input points into the same object as an output; all numbers of steps, also when the call is cut off or fails; all pairs of calls", "why_tests_cant": "A test sees the paths it runs; a write to an input or a static buffer may happen only for some keys, lengths or schedules, and race detectors report only the interleavings that occurred.", "anchors": ["faest_param.c.in", "faest.c: faest_sign, faest_verify", "randomness.c: rand_bytes", "vc.c", "vole.c", "faest_aes.c", "aes.c", "sha3/KeccakSponge.inc"]}
{"id": "C54", "title": "The C text of the key functions computes the specified keys, ends, and stays in bounds", "statement": "keygen, run on any memory with room for the two keys, returns 0 after the first attempt whose random bytes are a valid private key; the private key buffer then holds exactly these bytes, the public key buffer holds input and one-way function of the private key, and nothing else in memory has changed but the position in the random source, which has advanced by the bytes of the attempts. validate_keypair returns 0, 1 or 2 according to whether the private key is valid and the public key is its public key, and changes nothing. clear_private_key leaves zeros in the buffer and changes nothing else. NULL arguments give -1. None of these calls runs forever, divides by zero or accesses memory outside the buffers it is given, the constants and what it allocates.", "quantifier": "twelve parameter sets; all memories, positions of the buffers in their objects, contents, and contents of the random source in which some attempt is valid", "why_tests_cant": "Test vectors fix a few keys; an index out of bounds or a wrong byte for some other key, round constant or alignment stays unseen, and sanitizers watch only the runs made.", "anchors": ["faest_param.c.in: keygen, validate_keypair, clear_private_key", "owf.c: owf_128, owf_192, owf_256, owf_em_128, owf_em_192, owf_em_256", "aes.c: expand_key, aes_encrypt, sub_bytes, shift_row, mix_column, load_state, store_state", "fields.c: bf8_inv, bf8_mul", "compat.c: faest_timingsafe_bcmp, faest_explicit_bzero"]}
{"id": "C55", "title": "The C text of field multiplication and universal hashing computes the specified values, ends, and stays in bounds", "statement": "The multiplications of the library write the product in GF(2^128), GF(2^192), GF(2^256) or GF(2^64) of their arguments. vole_hash writes the VOLE hash of the specification for its key, data and length. A ZK-hash object that was initialised with a key and then updated with elements x_1 .. x_n, with anything in between that does not write to the object, yields on finalize the ZK hash of x_1 .. x_n and the last element, for every n. Each of these calls ends, writes only to its result (or to the object), and reads and writes only within the buffers it is given and what it allocates.", "quantifier": "three security levels; all memories, positions of the buffers, keys, elements, data, lengths (multiples of 8 bits, below 2^32) and numbers of updates", "why_tests_cant": "Tests hash a few fixed lengths with fixed keys; an error in the last partial block, in a carry of the reduction or in an index for another length is not seen, and the number of updates and of field elements is unbounded.", "anchors": ["fields.c: bf64_mul, bf128_mul, bf192_mul, bf256_mul, bf128_mul_64, bf192_mul_64, bf256_mul_64", "universal_hashing.c: vole_hash, vole_hash_128, vole_hash_192, vole_hash_256, compute_h1, zk_hash_128_init, zk_hash_128_update, zk_hash_128_finalize and the copies for 192 and 256"]}
{"id": "C56", "title": "The C text of the pseudorandom generator writes AES in counter mode, ends, and stays in bounds", "statement": "A call of prg with a key of the security level and a 16-byte iv writes the requested number of bytes, and byte i of them is byte i of AES(key, iv) AES(key, iv + 1) AES(key, iv + 2) ..., where the iv is a big-endian counter modulo 2^128, for every length, also one that is no multiple of 16, and wherever the counter wraps. The call returns 0, ends, writes only to the output buffer, and reads and writes only within the buffers it is given. It does so also if the buffers overlap.", "quantifier": "three security levels; all memories, positions of the buffers, keys, ivs and lengths below 2^64", "why_tests_cant": "Tests expand a few seeds to a few lengths; a counter that carries wrongly into a byte, or a wrong last block, shows only for certain ivs and lengths.", "anchors": ["aes.c: prg, aes_increment_iv, aes128_init_round_keys, aes192_init_round_keys, aes256_init_round_keys"]}
{"id": "C57", "title": "The C text of the hash functions and random oracles writes SHAKE of what was fed, ends, and stays in bounds", "statement": "Starting a hash context, feeding it any number of byte strings in any pieces, finishing, and asking for any number of outputs writes to the output buffers consecutive parts of SHAKE128 (security level 128) or SHAKE256 (all others) of the pieces put together, as FIPS 202 defines it. The random oracles H0 to H3 write the same with one byte appended to the message that tells them apart (0 to 3); H0 writes its second output, and H3 its iv, from where the first output ended. The four-way form of H0 writes for each of its four inputs what H0 writes for it alone. All calls end, write only to the context and the output buffers, and read and write only within the buffers they are given.", "quantifier": "all memories, contexts, security levels, sequences of pieces and of outputs (each below 2^32 - 200 bytes)", "why_tests_cant": "Tests hash a few lengths in one piece; a piece that ends at the edge of a block, an empty piece, an output that starts in the middle of a lane or crosses a block, or a read one byte past a buffer, shows only for certain lengths.", "anchors": ["hash_shake.h: hash_init, hash_update, hash_final, hash_squeeze", "random_oracle.c: H0_init, H0_update, H0_final, H1_final, H2_final, H3_final", "sha3/KeccakHash.c: Keccak_HashInitialize, Keccak_HashUpdate, Keccak_HashFinal, Keccak_HashSqueeze", "sha3/KeccakSponge.inc", "sha3/opt64/KeccakP-1600-opt64.c", "sha3/KeccakHashtimes4.c, sha3/KeccakSpongetimes4.inc, random_oracle.c: H0_x4_init, H0_x4_update, H0_x4_final"]}
{"id": "C58", "title": "The C text of the vector commitment writes the tree, seeds, commitments and hash that FAEST specifies, and its opening the sibling path", "statement": "Committing to a root key and iv gives the structure four new buffers: all nodes of the tree that grows from the root key by AES-CTR, in breadth-first order; for each leaf the seed and the commitment that H0 gives for it; and H1 of all commitments in order, with H0 and H1 the SHAKE of FIPS 202. Opening at a leaf writes for every level the sibling of the node on the path to the leaf, and the commitment of the leaf. Both end, write nowhere else, and read and write only within the buffers.", "quantifier": "all memories, security levels, depths from 1 to 24, root keys, ivs and leaves", "why_tests_cant": "Tests commit to one root key at the depths of the parameter sets; a node whose index wraps, a leaf left out by the loop that hashes four leaves at a time, or a sibling taken from the wrong side for some bit pattern of the leaf, shows only for certain depths and leaves.", "anchors": ["vc.c: vector_commitment, vector_open, generate_seeds, expand_seeds, create_tree, get_parent, is_left_child, getBinaryTreeNodeCount, getNodeIndex, NumRec", "vc.h: vec_com_t"]}
{"id": "C59", "title": "The C text of the reconstruction rebuilds from an opening the tree, the seeds of all other leaves and the hash of the commitment", "statement": "Given an iv, a leaf, the nodes and the commitment of an opening at that leaf, the reconstruction fills the four buffers of the receiver: every node of the tree, where the children of the nodes on the path are the received one and a cleared one and all others grow from their parents by AES-CTR; the seeds that H0 gives for all leaves but the hidden one; the commitments of these leaves with the received commitment in place of the hidden one; and H1 of all commitments in order. If the opening is the one written for a commitment, the seeds and the hash are those of the commitment. It ends, writes nowhere else, and reads and writes only within the buffers.", "quantifier": "all memories, security levels, depths from 1 to 24, ivs, leaves, received nodes and received commitments (also ones that no sender would produce)", "why_tests_cant": "Tests open a few leaves of one commitment; a leaf in a group of four that is hashed although it is hidden, a group skipped because the hidden leaf is at its border, or a stale node of an earlier use of the buffers, shows only for certain leaves and buffer contents.", "anchors": ["vc.c: vector_reconstruction, vector_open, get_parent, is_left_child, getNodeIndex, NumRec", "vc.h: vec_com_rec_t"]}
{"id": "C60", "title": "The C text of the seed conversion writes the columns and the mask that FAEST specifies, and the C text of the challenge decoding the bits of each tree", "statement": "Converting the seeds of a tree writes in column k the exclusive or of the AES-CTR outputs of the seeds of all leaves whose number has bit k, and, if asked, the exclusive or over all leaves. When the seed of leaf 0 is not known it is not read, and the columns are the same formula. Decoding a challenge for a tree writes the bits that belong to it, one in a byte, and returns 1; for a tree that does not exist it writes nothing and returns 0. Both end, write nowhere else, and read and write only within the buffers.", "quantifier": "all memories, security levels, depths from 1 to 24, column lengths, ivs, seeds, challenges, tree numbers and splits of the challenge", "why_tests_cant": "Tests convert seeds at the depths and lengths of the parameter sets; a row read after it was overwritten by the next level, a column accumulated from the wrong half of the buffer at odd depths, or a bit of the challenge taken from the neighbouring byte, shows only for certain depths, lengths and trees.", "anchors": ["vole.c: ConvertToVole, ChalDec", "utils.h: xor_u8_array", "aes.c: prg"]}
{"id": "C61", "title": "The C text of the VOLE commitment writes the trees, columns, masks, corrections and hash that FAEST specifies", "statement": "Committing with a root key and an iv derives one root for each tree from the AES-CTR output of the root key, commits to each tree, and leaves each commitment (tree, leaf seeds, leaf commitments, hash) in freshly allocated memory that the caller's structure points to. The columns of tree t, converted from its seeds, stand one after the other behind those of the trees before it; the mask of the first tree is u; correction t is the exclusive or of the mask of tree t with that of the first tree; the digest is the hash of the hashes of all trees in order. The call ends, writes nowhere else, and reads and writes only within the buffers.", "quantifier": "all memories, security levels, numbers of trees, splits into deeper and shallower trees, depths from 1 to 24, lengths, root keys and ivs within the stated 32-bit bounds", "why_tests_cant": "Tests run the parameter sets of the standard with a few root keys; a column written at the offset of another tree where the depth changes, a correction against the wrong mask, a root taken from the wrong part of the expanded key, or a buffer overrun at the last tree, shows only for certain splits and lengths.", "anchors": ["vole.c: vole_commit, ConvertToVole", "vc.c: vector_commitment", "aes.c: prg", "random_oracle.h: H1_init, H1_update, H1_final"]}
{"id": "C62", "title": "The C text of the VOLE reconstruction rebuilds the receiver's columns and the digest of the commitment from the openings", "statement": "Given a challenge and, for each tree, the opened nodes and the commitment of the hidden leaf, reconstruction rebuilds every tree at the leaf whose number the challenge bits of that tree spell. Column k of tree t is the exclusive or of the AES-CTR outputs of the rebuilt seeds of all leaves whose number differs from the hidden one in bit k, and the digest is the hash of the hashes of all trees in order, whatever openings were received. If the openings are those of a VOLE commitment, the digest is the digest of that commitment and each column is the sender's column, plus the mask of the tree exactly where the challenge bit is set. The call ends, writes only the columns and the digest, and reads and writes only within the buffers.", "quantifier": "all memories, security levels, numbers of trees, splits into deeper and shallower trees, depths from 1 to 12, lengths, ivs, challenges, opened nodes and commitments within the stated 32-bit bounds", "why_tests_cant": "Tests reconstruct from honest openings for a few challenges; a seed taken at the wrong side of the exclusive or with the hidden leaf, a scratch buffer too small for the deeper trees, a stale seed of an earlier tree left in the place of the hidden one, or a column at the wrong offset, shows only for certain challenges and splits, and dishonest openings are not tested at all.", "anchors": ["vole.c: vole_reconstruct, ConvertToVole, ChalDec", "vc.c: vector_reconstruction, NumRec, vec_com_rec_clear", "random_oracle.h: H1_init, H1_update, H1_final"]}
{"id": "C63", "title": "The C text of the hashes of the transcript absorbs every input in the specified order and at its full length", "statement": "The digest of the message is H1 of the two halves of the public key and the message; the first challenge is H2 of that digest, the digest of the commitments, all corrections and the iv; the second is H2 of the first challenge, the hashed mask, the hash of the hashed columns and the masked witness; the third is H2 of the second challenge and the two coefficients of the proof. Each is read at its full length, in this order, and the output has the length the next step expects. The calls end, write only the output, and read and write only within the buffers.", "quantifier": "all memories, security levels, message lengths up to the 32-bit limit of the sponge, public keys, numbers of corrections, witness lengths and contents of the inputs", "why_tests_cant": "Signer and verifier call the same functions, so a buffer left out or cut short passes every round trip, and known-answer tests only fix one length each; that every byte of every input enters the challenge, which soundness rests on, is a statement about all inputs.", "anchors": ["faest.c: hash_mu, hash_challenge_1, hash_challenge_2, hash_challenge_3", "random_oracle.h: H1_init, H1_update, H1_final, H2_init, H2_update, H2_final"]}
{"id": "C64", "title": "The C text finds every part of a signature where the format puts it", "statement": "For each parameter set and each part of a signature (corrections, hashed mask, masked witness, proof coefficient, opening and commitment of each tree, challenge, iv), the function the signer uses to write it and the function the verifier uses to read it both return the address that is behind all parts before it, counted from the beginning, and the parts at the end, which are addressed from the end, follow without a gap. The functions end, change nothing, and read only the parameters.", "quantifier": "all twelve parameter sets, all parts and indices, all places of signature and parameters in memory", "why_tests_cant": "An offset that is wrong in the same way for signer and verifier passes all round trips and may overlap another part or the end of the buffer only for some index of some parameter set; tests compare whole signatures for a few sets.", "anchors": ["faest.c: signature_c, signature_u_tilde, signature_d, signature_a_tilde, signature_pdec, signature_com, signature_chall_3, signature_iv, and the dsignature_ counterparts", "instances.h: faest_param_t"]}
{"id": "C65", "title": "The C text of the choice of a parameter set writes exactly the parameters of the identifier", "statement": "Given one of the twelve identifiers and a place for the result, the function writes all fifteen parameters and the identifier to their places in the structure, whatever was there before, and nothing else; given any other number it writes the invalid set, all members zero. The structure then has what the VOLE layer reads, and with it every function for the places in a signature returns the place the format prescribes.", "quantifier": "all twelve identifiers, all other numbers, all memories and places of the structure", "why_tests_cant": "Tests use only valid identifiers and fresh structures; a member left over from old contents, or a wrong value in a member that only some paths read, shows up only for some memory contents or parameter set.", "anchors": ["instances.c: faest_get_paramset", "instances.h: faest_param_t, faest_paramset_t, faest_paramid_t"]}
{"id": "C66", "title": "The C text of sign and verify refuses wrong arguments and invalid keys without writing anything", "statement": "sign and sign_with_randomness return -1 and leave memory as it is if the key, the signature or the length pointer is NULL or the length is smaller than a signature; sign takes no random bytes then. sign_with_randomness does so also if the randomness is NULL but its length is not 0. verify returns -1 and changes nothing if the key or the signature is NULL or the length is not that of a signature, smaller or larger. If the private key is not valid, both signing functions return -1, and neither the buffer for the signature nor the length is changed; sign may have advanced the random source.", "quantifier": "all twelve parameter sets, all memories, all combinations of the other arguments (pointers or NULL, any lengths), all invalid private keys", "why_tests_cant": "Combinations of wrong arguments are many, and that nothing at all is written or read out of bounds on the way to the error cannot be seen from the return value.", "anchors": ["faest_param.c.in: sign, sign_with_randomness, verify", "owf.c: owf_128, owf_192, owf_256, owf_em_128, owf_em_192, owf_em_256"]}
