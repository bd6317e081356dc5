# Formal model of faest-ref in Rocq (Coq 8.16.1)

## Approach

* `rocq/theories/` contains an executable Gallina model of the C code, small independent
  specifications, proofs, and property files that hold only theorem statements.
* C undefined behaviour is an explicit outcome: every modelled array access goes through
  a checked accessor which returns `UB` when it is out of bounds, when it reads an
  uninitialised cell, or when a shift overflows.  A theorem that says a function returns
  `Ok r` therefore also says that no undefined behaviour happens.
* Byte = `N` (well-formedness `< 256` is a stated hypothesis); byte string = `list N`;
  sizes and indices = `N`.
* Field elements of GF(2^n) = `N` below 2^n (bit i = coefficient of X^i).  A separate file
  models the 64-bit-limb code and proves that it refines the `N` version.
* The three copies (128/192/256) of each routine in `fields.c`, `universal_hashing.c`,
  `faest_aes.c` are modelled by one definition parameterised by the field and the
  parameter set wherever the copies are textually equal up to constants; where they
  differ (key schedule of AES-256, ShiftRows of Rijndael-256) the difference is a branch.
* The hash (SHAKE) is a parameter `xof` of the model of everything above it; the sponge code is
  modelled separately, and the final theorems are instantiated with it.

## Layers

| layer | model of | 
|---|---|
| Base | checked arrays, loops |
| Params | `instances.c`, `meson.build` |
| Fields, Limbs | `fields.c`, `fields.h` |
| Aes, Owf | `aes.c`, `owf.c` |
| Sponge, Keccak, Hash | `sha3/KeccakSponge.inc`, `sha3/KeccakHash.c`, `hash_shake.h`, `random_oracle.c` |
| Vc, Vole | `vc.c`, `vole.c` |
| UHash | `universal_hashing.c` |
| FaestAes | `faest_aes.c` |
| Faest | `faest.c` |
| Api | `faest_param.c.in`, `crypto_sign.c.in`, `compat.c`, `randomness.c` (interface) |

## Plan per property

* C01 completeness: composition of C12, C14, C15, C18, C21, C26, C27, C28, C30, C09.
* C02, C03, C04, C05, C06: API model on top of sign/verify; case analysis, plus "sign equals a pure
  function blitted over the buffer".
* C07, C08: the model returns `Ok` for all inputs (UB is a distinct outcome).
* C09: parse/serialise round trip over the offsets.
* C10, C11: flat-memory model of crypto_sign with memmove; any overlap.
* C12, C13, C16, C17, C39: induction on tree depth / levels.
* C14: from C12 plus an xor-fold argument for the seed permutation j -> j xor idx.
* C15: list arithmetic, all indices.
* C18: carry-less product on `N` (ring laws by induction on bits), congruence modulo f.
* C19: Frobenius argument: a^(2^n) = a for all a (linear, check on basis) and only 0 and 1 are idempotent
  (Berlekamp: left inverse of a -> a^2 + a checked on a basis), hence every nonzero a has an inverse.
* C20, C21: finite domain or linearity plus check on basis.
* C22, C23: independent FIPS-197 style spec, equality for all inputs.
* C24, C25: induction on length; big-endian integer arithmetic.
* C26, C27: Horner folds, linearity.
* C28, C29, C30: algebra over the field; correspondence between witness bits and AES trace.
* C31, C40: verify accepts => equalities of hash outputs; case split on equality of the inputs.
* C32: lists of fixed-length pieces.
* C33: state-machine refinement of the sponge to "pad, absorb, squeeze".
* C34, C35: finite domain, all integers.
* C36: list lemmas.
* C37: expected to be false of the code (results of `rand_bytes` are ignored): `_refuted`.
* C38: list/bit lemmas.
* C41: transcribe FIPS 202 on bit strings; step mappings by bit extensionality, sponge by blocks.
* C42: expected to be false (32-bit arithmetic of the sponge): `_refuted` plus exact length conditions.
* C43: closed forms of all parts of the signature from the key, message and rho.
* C44: refinement of word arrays to numbers; the carry chain by induction, loops by simulation.
* C45: lockstep simulation: the shared index of the four-way sponge against four separate sponges.
* C46: induction over histories of system-call results.
* C47: bit extensionality; byte order as a parameter of memory accesses; `malloc` as a parameter.
* C48: three accepting runs with a common last query; the pigeonhole finds a fully opened tree, consistency of the
  opened masks comes from the VOLE hash, and the constraint polynomial, of degree 2 with three roots, is zero.
* C49: counting: a nonzero polynomial of degree d over a field has at most d roots, by division; bad seeds are covered
  by the image of a smaller set (a linear equation determines one of its coefficients, or both polynomials vanish).
* C50: solve for the masks from the view, one segment after the other; the last oracle query of verify is too short to
  be any of the earlier ones, so changing its answer leaves the run as it is.
* C51: an interface (record of functions) for the state of the permutation, two instances with the byte order as a
  parameter, and a relation of each to the 200 bytes: lanes as little-endian numbers, resp. as pairs of words with the even
  and the odd bits.  Each round of the in-place 32-bit code permutes the places of the lanes; one relation per round modulo
  4.  The sponge over the interface simulates the sponge over bytes.
* C52: the C text is translated mechanically into a small language whose semantics records what an observer sees; a
  checker of secrecy types, proved sound once, accepts the whole program (one computation in the kernel).
* C53: the same translation; a second checker infers for each pointer whether it is written through, also proved sound;
  memory that is not written is kept, by induction on the run.
* C54: the same translation; a program logic for it (total correctness: a statement ends, without an access out of
  bounds, in a state with a given property) and one contract per function, from the byte operations up to the API, each
  against FIPS 197 and the key specification.
* C55: the same translation and logic.  Straight-line code over words and bytes is run by a symbolic executor written in
  Gallina and proved sound against the logic (`Proof/RefSe`, `RefSx`, `RefWord`): it maps a symbolic state (variables,
  blocks cut into pieces, no two of them overlapping) to the state after the code.  Field multiplications (`RefFields`)
  become summaries that the executor uses at calls.  Arrays of symbolic length are read through windows (`RefWin`), and
  loops are closed by induction over a state with symbolic words (`RefUHash`, `RefVoleHash`, `RefZkHash`).  The
  results are the values of `Model/UHash`, which C27 ties to the specification.
* C56: the same logic; the loop over blocks is closed by induction over the blocks written so far (`Proof/RefPrg`), on top
  of the contracts of the key schedule and the cipher of C54.
* C57: the same logic.  The permutation is 24 unrolled rounds over 25 words in variables: a second symbolic executor, proved
  sound, checks each round's segment against the terms of one round (`Proof/RefReg`, `RefKeccak`); the byte accesses of a lane-organised state
  (`RefSnp`, `RefFast`) and the loops of the sponge (`RefSponge`) are closed by induction over the bytes absorbed or
  squeezed so far; contexts and sequences of calls in `RefHash`, `RefShakeProps`.  The state of a context is that of the
  sponge of `Model/Sponge`, which C30 ties to FIPS 202.  The four-way functions run the same way over four states one
  after the other in one block, with the list of four pointers they advance in memory (`RefSponge4`, `RefHash4`, `RefShakeProps4`).
* C58: the same logic, with contracts of the small tree functions (`RefFresh`, `RefTree`), induction over the nodes expanded
  (`RefTree2`), one lemma for the hash of one leaf and one for four at a time (`RefLeaf`), and induction over the leaves hashed
  (`RefVc`) or the levels opened (`RefOpen`).
* C59: induction over the levels rebuilt, with the nodes on the path cleared (`RefRec`), over the leaves hashed one or four at a
  time (`RefRec2`), put together in `RefRec3`; the round trip from the nodes and the opening in `RefRecProps`.
* C60: induction over the rows folded at a level and over the levels, with rows, columns and their bytes in memory as the invariant (`RefConv`),
  over the bits decoded (`RefChal`), and the closed forms as sums in `RefConvProps`.
* C61: induction over the trees with everything that is already written as the invariant (commitments in fresh blocks, columns, corrections, absorbed hashes), each step by
  the contracts of C58 and C60 and of the hash (`RefVoleCommit`), then a bridge to `Spec/RefVoleSpec` (`RefCommitProps`).
* C62: the same induction for the receiver, whose buffers are reused by every tree: each step is the decoding of the challenge (C60), the reconstruction of C59, the copy of the seeds to the
  places exclusive-ored with the hidden leaf, the conversion with an unknown seed at leaf 0 (C60) and one hash update. The columns are restated as a sum over leaves by a permutation; the
  round trip with C61 replaces the rebuilt seeds by those of the committed trees.
* C63: one lemma for a new hash context that is fed a list of buffers and gives one output (`RefTranscript`, induction over the list, from the contracts of C57), used for mu and the three
  challenges; the rest is that no length wraps around.
* C64: symbolic execution of the sixteen functions with no overflow for the sizes of the twelve sets, then the layout theorem of C09 (`RefParts`).
* C65: induction over the stores that fill a new structure, then over the cases of the switch (`RefParam`); the tables are compared with `param_of` by computation. The result meets the
  hypotheses of C61, C62 and C64 on the parameters.
* C66: case distinction over the arguments for the checks; the one-way function of C54 for keys that are not valid (`RefRefuse`).
  C66 says which arguments are refused, not that all others are accepted; acceptance is C04 and C05, of the functional model (see m442 in the log).

## Trusted base

* The kernel of Coq 8.16.1 (`coqc`, and `coqchk` for the recheck) with its bytecode virtual machine:
  `vm_compute` is used for finite facts (parameter tables, field polynomials, S-box, examples).
  `native_compute` is not used.
* Axioms: none.  `Print Assumptions` beneath every property theorem (all theorems of
  `theories/Props/*.v`, the ones named in `MANIFEST.json`) prints
  "Closed under the global context".  No axiom of the standard library is used either
  (no functional extensionality, no proof irrelevance, no classical logic, no real numbers).
  `coqchk` lists `Coq.ssr.ssrunder.Under_rel.*` because the library file is loaded; no theorem
  depends on it.
* No plugins beyond the ones loaded by the standard library (`lia`, `ring`); no functor, module type, `Declare
  Module`, `Admitted`, or disabled check; mathcomp, std++, Iris and the others are not imported.
* The reading of C by hand: `theories/Model/*.v` is a manual transcription; each definition cites the
  lines it models.  It was validated by extraction (below), which is a test, not part of the proofs.
* For C52 to C66 instead the translator `tools/ctc` (Python; its output is `Model/CtNames`, `CtFields`, `CtAes`, `CtKeccakP`,
  `CtKeccak`, `CtZkHash`, `CtVole`, `CtProve`, `CtFaest`, `CtApi`, `CtProgram`, committed).  `prep.py` runs the C
  preprocessor on the sources of the default x86-64 build without OpenSSL and AVX2, against the stub headers in `inc`,
  and `c2v.py` translates the result.  The types it infers (`Proof/CtEntries.v`, `Proof/FpEntries.v`) are not trusted: the
  checkers of `Proof/CtCheck.v` and `Proof/FpCheck.v`, which are proved sound, verify them in the kernel.  `memcmp`
  (`inc/libc_stub.c`), the random source and explicit zeroing are stand-ins; `memcpy`, `memset` and allocation are
  statements of the language; memory is a set of blocks, and an access out of the bounds of its block stops the run.  Also trusted for C52: the leakage model
  (`Model/CtLang`: branches, addresses, lengths, operands of divisions; comparisons, multiplications and shifts whose result
  is used as a value are taken to be free of leaks, as is what the C compiler makes of the code), and the places where a
  value is published (PATCHES in `prep.py`, listed by `C52_case_published`).
* The specifications in `theories/Spec/*.v`, which give the theorems their meaning: polynomial
  arithmetic over GF(2) (`Poly`, `FieldSpec`), FIPS 197 with the published S-box (`AesSpec`), FIPS 202 on
  bit strings (`KeccakSpec`), and the FAEST-level vocabulary (`VcSpec`, `VoleSpec`, `UHashSpec`, `ConstraintSpec`,
  `ProofSpec`, `RunSpec`, `SignSpec`, `FormatSpec`, `KeySpec`, `OwfSpec`, `WordSpec`,
  `RandomSpec`, `SoundSpec`, `CountSpec`, `ViewSpec`, `StateSpec`, `CtSpec`, `FpSpec`).  `Spec/*Map.v` only translate
  between the flat arrays of the code and the objects of the specification.

## What is modelled

| file of /repo | model | remarks |
|---|---|---|
| `instances.c`, `instances.h`, constants of `meson.build` | `Params` | complete |
| `fields.c`, `fields.h` | `Fields`, `Limbs` | complete; `Fields` on numbers, `Limbs` on 64-bit words for the builds with and without vector types |
| `aes.c`, `owf.c` | `Aes`, `Owf` | portable code: AES-128/192/256, Rijndael-192/256, PRG, witness expansion |
| `random_oracle.c`, `hash_shake.h` | `Hash`, `Sponge` | |
| `sha3/KeccakSponge.inc`, `sha3/KeccakHash.c` | `Sponge` | with the 32-bit wrap-around of `partialBlock` |
| `sha3/KeccakSpongetimes4.inc`, `sha3/KeccakHashtimes4.c`, `PlSnP-Fallback.inc`, `hash_shake.h` with `WITH_KECCAK_X4` | `Sponge4` | the four-way hash of the default build, permutations one after the other |
| `sha3/opt64/KeccakP-1600-opt64.c` and its macros | `Keccak` | assignment by assignment, 24 rounds |
| `sha3/opt64/KeccakP-1600-opt64.c` (access to the state, fast loop), `SnP-Relaned.h` | `Snp` | lanes as 64-bit words, both byte orders; not Overwrite*, ExtractAndAdd* (unused) |
| `sha3/plain32/KeccakP-1600-inplace32BI.c` | `Keccak32` | bit-interleaved 32-bit words, in place, both byte orders; 24 rounds; not Overwrite*, ExtractAndAdd* (unused) |
| `KeccakSponge.inc`, `KeccakSpongetimes4.inc` again, over the interface of the two | `SpongeOn` | |
| `vc.c` | `Vc` | complete |
| `vole.c` | `Vole` | complete |
| `universal_hashing.c` | `UHash` | complete |
| `faest_aes.c` | `FaestAes` | complete; the copies per security level are one definition |
| `faest.c` | `Faest` | complete |
| `faest_param.c.in`, `crypto_sign.c.in`, `compat.c` (portable branches), interface of `randomness.c` | `Api` | random source = stream of results, each success or failure with arbitrary bytes |
| `randomness.c` | `Random` | the getrandom and /dev/urandom branches over histories of system-call results; the arc4random, BCrypt and similar branches are one call |
| `compat.c`, `compat.h`, `endian_compat.h`, byte swaps of `fields.h` and `aes.c` | `Compat` | portable branches, both byte orders |
| everything reachable from keygen, sign, sign_with_randomness, verify, validate_keypair and clear_private_key | `CtFields` ... `CtApi` | machine translation, 338 functions, for C52 to C66 |

## What is not modelled

* Code outside C's control: OpenSSL's EVP in `aes.c` (`HAVE_OPENSSL`), libc and the operating system,
  OQS/PQClean/S390 hash back ends, assembly and AVX2/NEON Keccak.
* Memory allocation: `malloc`/`calloc` always succeed; `free` has no effect.  (The code does not check
  the results: a failing allocation is undefined behaviour.)
* Aliasing of buffers inside one call, except `crypto_sign`/`crypto_sign_open`, which are modelled in one
  memory with any overlap of message and output.
* Alignment: `KeccakP-1600-opt64.c` reads user data through `uint64_t *` casts (unless `NO_MISALIGNED_ACCESSES`).
* Timing and caches beyond C52's events, `verify` in C52 (it handles no secrets), and zeroisation of stack memory (`explicit_bzero` of the private key *is* modelled).
* Computational security: nothing is proved about the probability that an adversary forges; the theorems
  reduce to explicit collisions or to algebra (C29, C30, C31, C40, C48).  C48 is the deterministic part of the
  forking argument; the probabilistic part (how often a forger can be rewound) is not formalised.  C49 bounds the
  probability of its two algebraic bad events over a uniform challenge, as a count of challenges.  C50 is the algebraic part of zero knowledge; that masks derived from
  seeds look uniform (pseudorandomness of AES and SHAKE) is not formalised.
* Sizes of 2^61 bytes and more, where `size << 3` in `hash_shake.h` wraps.

## Findings

1. **Hashing long inputs (C42).** `KeccakSponge.inc:187-189` (and the copy `KeccakSpongetimes4.inc`) computes
   `partialBlock = (unsigned int)(dataByteLen - i)` and adds `byteIOIndex` in 32 bits: the pattern of
   CVE-2022-37454.  Signing or verifying hashes the public key first, so byteIOIndex is pk_size when the message is
   absorbed.  A message whose length modulo 2^32 is at least 2^32 - pk_size wraps the sum and writes outside the
   200-byte state; a length of at least 2^32 whose low 32 bits do not fill the current block makes
   no progress: an endless loop.  `C42_*_refuted` give witnesses, `C42_*_exact` the exact set of lengths.
   Reachable from the public API on 64-bit systems with messages of about 4 GiB.
2. **Failure of the random source is ignored (C37).** `keygen` and `sign` (faest_param.c.in) ignore the result of
   `rand_bytes`; on Linux it calls `getrandom(.., GRND_NONBLOCK)`, which can fail or return fewer bytes.
   Keys and rho then come from uninitialised memory while 0 is returned.
3. `crypto_sign` moves the message and sets `*smlen` even when signing fails (only the return value tells).
4. `clear_private_key(NULL)` dereferences NULL (documented as a requirement nowhere); C36 assumes an object.
5. `hash_init_prefix_x4` of the OQS branch of `hash_shake.h:142-156` names its argument `security_parameter` but
   uses `security_param`: that configuration does not compile.
6. `faest_aes.c` allocates more than it uses for the Even-Mansour `x` buffer (harmless).
7. Shifts in `vc.c` are undefined for trees of depth 30 and more (unreachable with the twelve parameter sets; the
   hypothesis depth <= 29 appears in C12).
8. `faest_aligned_alloc` without system support (`compat.c:78`) adds alignment to size without a check: for sizes near
   2^64 the request wraps and a byte is written outside the block (`C47_alloc_refuted`; no caller comes near).
9. The /dev/urandom loop of `rand_bytes` repeats `read` for as long as it returns 0 (`C46_waits`).
10. `meson.build:528` defines `DISABLE_MISALIGNED_ACCESS` for 32-bit ARM, but the Keccak code tests
    `NO_MISALIGNED_ACCESSES`: the guard against unaligned 64-bit reads never takes effect.
11. The big-endian branch of `KeccakP1600_ExtractAndAddLanes` in plain32 xors the first word of the input into both
    words of the output (FAEST does not call it).
12. The code marks public data for its own constant-time tests with `faest_declassify`, but not all of it.  `sign` branches on
    whether the key is valid (`faest_param.c.in`), `aes_increment_iv` branches on the bytes of the iv, which comes out of
    a hash of the key, and `vector_open` indexes with the third challenge.  All three are part of
    the result (return value or signature), so nothing secret leaks; C52 treats them as published.

## Validation by extraction

The model (`Model/*.v`) was extracted to OCaml (outside /verif) and run on the test vectors of
`/repo/tests`.  For all twelve parameter sets (128s, 128f, 192s, 192f, 256s, 256f and the six EM sets)
key generation output, signature bytes and verification (true for
the vector, false for a modified one) were identical.  This checks the transcription; the theorems do not use it.
The machine translation (`Model/Ct*.v`) was run the same way with its interpreter for 128f: the one-way function and
the bytes of the signature are those of the test vector.

## Wrong programs

`seeded/LOG.jsonl` has one line per edit of the model: a scratch copy is edited the way a bug would change the C
code, rebuilt, proofs that fail are replaced by `Admitted`, and a property theorem counts as failed when
`Print Assumptions` then shows that it rests on one of those.

## Status per property

All statements are theorems in `theories/Props/Cxx.v`; `MANIFEST.json` lists them.  None is partial.  C37 and
C42 are false of the code and are recorded as refutations, as is the unbounded form of C47's allocation.  Restrictions that appear as hypotheses:

* C01, C07, C08: messages and rho shorter than 2^32 - 168 bytes (longer ones are C42).
* C12, C14, C39: for every XOF returning the requested number of bytes; tree depth at most 29.
* C13: syntactic (the opening is computed from the co-path only), not a hiding theorem.
* C22-C24: the portable build.
* C33: pieces and outputs of at most 2^32 - 200 bytes.
* C44: little-endian targets (the byte swaps for the others are C47).
