{"id": "C01", "title": "PCG64 advance is the same as drawing", "statement": "For PCG64, PCG64DXSM and LCG128Mix, advance(delta) puts the generator in exactly the state reached by drawing delta raw 64-bit values (delta taken modulo 2**128), so every value drawn afterwards is the same. advance(-n) undoes n draws, and advance(a); advance(b) equals advance(a+b).", "quantifier": "every 128-bit state, every increment and multiplier (odd or even), every integer delta of any sign and size", "why_tests_cant": "2**128 states times 2**128 deltas; large deltas cannot be compared with that many draws", "anchors": ["randomgen/pcg64.pyx: PCG64.advance, LCG128Mix.advance, jump_inplace", "randomgen/src/pcg64/pcg64-common.c: pcg_advance_lcg_128", "randomgen/src/pcg64/pcg64-v2.c: pcg64_advance", "randomgen/common.pyx: wrap_int"]}
{"id": "C02", "title": "PCG32 advance is the same as drawing", "statement": "PCG32.advance(delta) puts the generator in exactly the state reached by delta 32-bit draws (delta modulo 2**64); advance(-n) undoes n draws.", "quantifier": "every state, stream and integer delta", "why_tests_cant": "the domain is 2**64 x 2**64 and delta draws cannot be executed", "anchors": ["randomgen/pcg32.pyx: PCG32.advance", "randomgen/src/pcg32/pcg32.c: pcg_advance_lcg_64", "randomgen/src/pcg32/pcg32.h: pcg32_random_r"]}
{"id": "C03", "title": "PCG generators visit every state before repeating", "statement": "A PCG32, PCG64 or PCG64DXSM generator created by any seed and stream returns to a previously visited state after exactly 2**64 (resp. 2**128) draws and never earlier, and visits every state in between.", "quantifier": "every seed and stream accepted by the constructor", "why_tests_cant": "the period is 2**64 or 2**128", "anchors": ["randomgen/src/pcg32/pcg32.h", "randomgen/src/pcg64/pcg64-v2.h", "randomgen/src/pcg64/pcg64-common.h: PCG_DEFAULT_MULTIPLIER_128, PCG_CHEAP_MULTIPLIER_128"]}
{"id": "C04", "title": "PCG64 gives the same stream with and without native 128-bit integers", "statement": "On platforms without a 128-bit integer type PCG64, PCG64DXSM and LCG128Mix use emulated 128-bit arithmetic; streams, advance and seeding are identical to the native ones.", "quantifier": "every state, increment, multiplier and delta", "why_tests_cant": "a CI platform compiles only one of the two variants and cannot compare all 2**256 operand pairs", "anchors": ["randomgen/src/pcg64/pcg64-common.h: pcg128_add, pcg128_mult, _pcg_mult64", "randomgen/src/pcg64/pcg64-common.c", "randomgen/src/pcg64/lcg128mix.c"]}
{"id": "C05", "title": "AESCounter advance is the same as drawing", "statement": "AESCounter.advance(delta) leaves the generator producing exactly the values it would produce after delta 64-bit draws, from any point within a block; delta is taken modulo 2**129.", "quantifier": "every key, every counter value, every position inside the buffer, every integer delta", "why_tests_cant": "delta up to 2**129 and 2**128 counters, every buffer position", "anchors": ["randomgen/aes.pyx: AESCounter.advance", "randomgen/src/aesctr/aesctr.c: aesctr_advance", "randomgen/src/aesctr/aesctr.h: aesctr_next64"]}
{"id": "C06", "title": "SPECK128 advance is the same as drawing", "statement": "SPECK128.advance(delta) leaves the generator producing exactly the values it would produce after delta 64-bit draws (delta modulo 2**129).", "quantifier": "every key, number of rounds, counter, position in the buffer and integer delta", "why_tests_cant": "delta up to 2**129 and 2**128 counters, every buffer position", "anchors": ["randomgen/speck128.pyx: SPECK128.advance", "randomgen/src/speck-128/speck-128.c: speck_advance", "randomgen/src/speck-128/speck-128.h"]}
{"id": "C07", "title": "Philox advance is the same as drawing", "statement": "Philox.advance(delta, counter=False) leaves the generator producing exactly the values it would produce after delta draws; with counter=True it skips delta whole blocks. Both hold for 2x32, 4x32, 2x64 and 4x64 and all integer delta (modulo the period N*2**(N*W)).", "quantifier": "every width and number of words, key, counter, buffer position and integer delta", "why_tests_cant": "counter space is 2**64 to 2**256; carries between words happen once in 2**W blocks", "anchors": ["randomgen/philox.pyx: Philox.advance, jump_inplace", "randomgen/src/philox/philox.c: philox*_advance", "randomgen/src/philox/philox.h: philox*_next"]}
{"id": "C08", "title": "ThreeFry advance is the same as drawing", "statement": "ThreeFry.advance(delta, counter=False) leaves the generator producing exactly the values it would produce after delta draws; with counter=True it skips delta whole blocks, for all four sizes and all integer delta.", "quantifier": "every width and number of words, key, counter, buffer position and integer delta", "why_tests_cant": "counter space is 2**64 to 2**256; carries between words happen once in 2**W blocks", "anchors": ["randomgen/threefry.pyx: ThreeFry.advance", "randomgen/src/threefry/threefry.c: threefry*_advance"]}
{"id": "C09", "title": "Squares advance is the same as drawing", "statement": "Squares.advance(delta) leaves the generator producing exactly the values it would produce after delta raw draws, for both variants.", "quantifier": "every key, counter, variant and delta in [0, 2**64)", "why_tests_cant": "2**64 counters and deltas", "anchors": ["randomgen/squares.pyx: Squares.advance", "randomgen/src/squares/squares.h"]}
{"id": "C10", "title": "Xoshiro256.jumped(iter) is iter * 2**128 draws", "statement": "Xoshiro256.jumped(iter) returns a generator whose stream is the original's stream with iter * 2**128 values skipped.", "quantifier": "every 256-bit state and every iter", "why_tests_cant": "2**128 draws cannot be executed", "anchors": ["randomgen/xoshiro256.pyx: jump_inplace, jumped", "randomgen/src/xoshiro256/xoshiro256.c: xoshiro256_jump"]}
{"id": "C11", "title": "Xoshiro512.jumped(iter) is iter * 2**256 draws", "statement": "Xoshiro512.jumped(iter) returns a generator whose stream is the original's stream with iter * 2**256 values skipped.", "quantifier": "every 512-bit state and every iter", "why_tests_cant": "2**256 draws cannot be executed", "anchors": ["randomgen/xoshiro512.pyx: jump_inplace, jumped", "randomgen/src/xoshiro512/xoshiro512.c: xoshiro512_jump"]}
{"id": "C12", "title": "Xoroshiro128.jumped(iter) is iter * 2**64 draws", "statement": "Xoroshiro128(plusplus=False or True).jumped(iter) returns a generator whose stream is the original's stream with iter * 2**64 values skipped.", "quantifier": "every 128-bit state, both variants, every iter", "why_tests_cant": "2**64 draws cannot be executed", "anchors": ["randomgen/xoroshiro128.pyx: jump_inplace, jumped", "randomgen/src/xoroshiro128/xoroshiro128.c", "randomgen/src/xoroshiro128/xoroshiro128plusplus.c"]}
{"id": "C13", "title": "Xorshift1024.jumped(iter) is iter * 2**512 draws", "statement": "Xorshift1024.jumped(iter) returns a generator whose stream is the original's stream with iter * 2**512 values skipped, whatever the position of the circular index.", "quantifier": "every 1024-bit state, every position and every iter", "why_tests_cant": "2**512 draws cannot be executed", "anchors": ["randomgen/xorshift1024.pyx: jump_inplace, jumped", "randomgen/src/xorshift1024/xorshift1024.c: xorshift1024_jump"]}
{"id": "C14", "title": "LXM.jumped(iter) is iter * 2**128 draws", "statement": "LXM.jumped(iter) returns a generator whose stream is the original's stream with iter * 2**128 values skipped, even though the jump leaves the congruential component untouched.", "quantifier": "every state (both components), every additive constant and every iter", "why_tests_cant": "2**128 draws cannot be executed", "anchors": ["randomgen/lxm.pyx: jump_inplace, jumped", "randomgen/src/lxm/lxm.c: lxm_jump", "randomgen/src/lxm/lxm.h: lxm_next64"]}
{"id": "C15", "title": "MT19937.jumped(iter) is iter * 2**128 draws", "statement": "MT19937.jumped(iter) returns a generator whose stream is the original's stream with iter * 2**128 values skipped (docstring: 'as-if 2**(128*iter) random numbers have been drawn'), from any position inside the block.", "quantifier": "every state and every position in the block", "why_tests_cant": "2**128 draws cannot be executed", "anchors": ["randomgen/mt19937.pyx: jump_inplace, jumped", "randomgen/src/mt19937/mt19937-jump.c: mt19937_jump_state", "randomgen/src/mt19937/mt19937.c: mt19937_jump_n"]}
{"id": "C16", "title": "SFMT and DSFMT jumps do not depend on unread buffered values being thrown away", "statement": "SFMT.jumped() and DSFMT.jumped() behave as if a fixed number of values had been drawn, whatever the number of values already consumed from the internal buffer: two generators k draws apart are still k draws apart after both jump.", "quantifier": "every state, every position in the buffer", "why_tests_cant": "2**128 draws cannot be executed and there are hundreds of buffer positions", "anchors": ["randomgen/sfmt.pyx: jump_inplace, _reset_state_variables", "randomgen/dsfmt.pyx: jump_inplace", "randomgen/src/sfmt/sfmt.h: sfmt_next64"]}
{"id": "C17", "title": "jumped(iter) composes", "statement": "For every generator with a fixed jump length, jumped(a).jumped(b) has the same stream as jumped(a+b), and jumped never modifies the generator it is called on.", "quantifier": "all states and all a, b", "why_tests_cant": "infinitely many iteration counts", "anchors": ["randomgen/*.pyx: jump_inplace, jumped"]}
{"id": "C18", "title": "Getting and setting state is a perfect save/restore", "statement": "For each bit generator, assigning to any generator of the same class a state dictionary previously read from a generator makes the two produce identical values under every later sequence of draws of any width, advance and jump.", "quantifier": "every state of both generators (including buffered 32-bit halves and partly consumed blocks) and every later operation sequence", "why_tests_cant": "tests compare a handful of draws from a handful of states", "anchors": ["randomgen/*.pyx: state getter and setter", "randomgen/squares.pyx: state", "randomgen/pcg64.pyx: LCG128Mix.state"]}
{"id": "C19", "title": "A rejected state assignment leaves the generator unchanged", "statement": "If assigning to state raises ValueError or TypeError, the generator's later output is the same as if the assignment had not been attempted.", "quantifier": "every generator class, prior state and invalid state dictionary", "why_tests_cant": "the set of malformed dictionaries is infinite", "anchors": ["randomgen/romu.pyx: state", "randomgen/squares.pyx: state", "randomgen/philox.pyx: state", "randomgen/pcg64.pyx: state"]}
{"id": "C20", "title": "No memory outside the generator is touched", "statement": "Every draw, advance and jump indexes the internal buffers within bounds, for every generator obtained by construction, seeding and any sequence of operations, and for every state dictionary the setter accepts.", "quantifier": "every operation sequence and every accepted state dictionary", "why_tests_cant": "out-of-bounds reads need not crash and states are unbounded", "anchors": ["randomgen/philox.pyx", "randomgen/aes.pyx", "randomgen/speck128.pyx", "randomgen/hc128.pyx", "randomgen/mt19937.pyx", "randomgen/mt64.pyx", "randomgen/xorshift1024.pyx", "randomgen/sfmt.pyx", "randomgen/rdrand.pyx"]}
{"id": "C21", "title": "Seeding is reproducible regardless of history", "statement": "Calling seed(s) on a generator that has already been used gives the same stream as seed(s) on a freshly made one.", "quantifier": "every generator class, history and seed", "why_tests_cant": "histories are unbounded and the defect appears only at some buffer positions", "anchors": ["randomgen/hc128.pyx: seed", "randomgen/src/hc-128/hc-128.c: hc128_init, hc128_seed", "randomgen/xorshift1024.pyx: seed", "randomgen/philox.pyx: seed, _reset_state_variables", "randomgen/threefry.pyx: seed", "randomgen/src/mt19937/mt19937.c: mt19937_init_by_array", "randomgen/src/mt64/mt64.c: mt64_init_by_array"]}
{"id": "C22", "title": "32-bit draws are the halves of 64-bit draws", "statement": "For 64-bit generators, drawing 32-bit values consumes one 64-bit value per pair and returns its low then its high half; 64-bit draws in between neither lose nor duplicate any bits.", "quantifier": "every interleaving of 32-bit and 64-bit draws from every state", "why_tests_cant": "interleavings are unbounded", "anchors": ["randomgen/src/*/*.h: *_next32", "randomgen/common.pxd"]}
{"id": "C23", "title": "Drawing in batches equals drawing one at a time", "statement": "random_raw(n) followed by random_raw(m) returns the same values and leaves the same state as random_raw(n+m); random_raw(size, output=False) advances the generator by the same number of values as random_raw(size).", "quantifier": "every generator, every n, m and every shape tuple", "why_tests_cant": "shapes and counts are unbounded", "anchors": ["randomgen/common.pyx: BitGenerator.random_raw, random_raw"]}
{"id": "C24", "title": "Stepping never merges two states", "statement": "For SFC64, JSF (32 and 64 bit, any rotations), Romu (both variants), Tyche (both variants), EFIIX64, LXM, Xoshiro256/512, Xoroshiro128 (both) and Xorshift1024, two generators in different states are still in different states after the same number of draws, so streams cannot coalesce.", "quantifier": "all pairs of states and all numbers of draws", "why_tests_cant": "state spaces are 2**128 to 2**3000", "anchors": ["randomgen/src/sfc/sfc.h", "randomgen/src/jsf/jsf.h", "randomgen/src/romu/romu.h", "randomgen/src/tyche/tyche.h", "randomgen/src/efiix64/efiix64.h", "randomgen/src/xoshiro256/xoshiro256.h"]}
{"id": "C25", "title": "Distinct seeds give distinct generator states", "statement": "For the generators that expand a fixed number of seed words by mixing rounds (SFC64, JSF, Tyche, Romu, PCG32, PCG64, HC128, MT19937, MT64), different seed words give different states after seeding. For MT19937 and MT64: how many seed arrays give each state, which states can be reached by seeding, and whether arrays with the same first word give different outputs.", "quantifier": "all pairs of seed word vectors", "why_tests_cant": "2**64 to 2**256 seeds", "anchors": ["randomgen/sfc.pyx: _seed_from_seq, sfc_seed", "randomgen/src/jsf/jsf.c: jsf_seed", "randomgen/src/tyche/tyche.c", "randomgen/src/pcg32/pcg32.c: pcg32_srandom_r", "randomgen/src/pcg64/pcg64-v2.c: pcg64_set_seed", "randomgen/src/mt19937/mt19937.c: init_by_array", "randomgen/src/mt64/mt64.c: mt64_init_by_array", "randomgen/src/hc-128/hc-128.c: hc128_init"]}
{"id": "C26", "title": "Linear generators never fall into the all-zero state", "statement": "Starting from any state that is not all zero, no sequence of draws and jumps brings Xoshiro256/512, Xoroshiro128, Xorshift1024 or the xor-shift part of LXM to the all-zero state (from which every later value would be constant).", "quantifier": "every non-zero state and every sequence of draws and jumps", "why_tests_cant": "state spaces are 2**128 to 2**1024 and sequences unbounded", "anchors": ["randomgen/src/xoshiro256/xoshiro256.h", "randomgen/src/xorshift1024/xorshift1024.h", "randomgen/src/lxm/lxm.h"]}
{"id": "C27", "title": "Counter-carrying generators cannot have short cycles", "statement": "SFC64 with an odd Weyl increment, EFIIX64 and LXM with an odd additive constant return to an earlier state only after a multiple of 2**64 draws.", "quantifier": "every state", "why_tests_cant": "cycle lengths of at least 2**64 cannot be observed", "anchors": ["randomgen/src/sfc/sfc.h: sfc_next", "randomgen/src/efiix64/efiix64.h", "randomgen/src/lxm/lxm.h"]}
{"id": "C28", "title": "SeedSequence integer coercion is lossless", "statement": "Converting a non-negative integer of any size to 32-bit words and back returns the integer, the words are canonical (no superfluous high zero word), and distinct integers give distinct word lists.", "quantifier": "all non-negative integers", "why_tests_cant": "integers are unbounded", "anchors": ["randomgen/_seed_sequence.pyx: _int_to_uint32_array, _coerce_to_uint32_array"]}
{"id": "C29", "title": "SeedSequence keeps all of the entropy it is given", "statement": "With the default pool size, two different entropies of at most 128 bits give different pools, and therefore different generated states of four or more words.", "quantifier": "all pairs of integers below 2**128 (and all pairs of lists of at most pool_size words of the same length, for every pool size)", "why_tests_cant": "2**256 pairs", "anchors": ["randomgen/_seed_sequence.pyx: mix_entropy, hashmix, mix, generate_state"]}
{"id": "C30", "title": "SeedSequence.generate_state is consistent across sizes and dtypes", "statement": "generate_state(n) is a prefix of generate_state(m) for n <= m; generate_state(n, uint64) is the little-endian pairing of generate_state(2n, uint32); it does not change the SeedSequence.", "quantifier": "every pool, pool size and n, m", "why_tests_cant": "n and m are unbounded", "anchors": ["randomgen/_seed_sequence.pyx: SeedSequence.generate_state"]}
{"id": "C31", "title": "spawn never reuses a child", "statement": "All children and further descendants obtained from one root SeedSequence by any sequence of spawn calls have distinct spawn keys; spawn(a) followed by spawn(b) returns the same children as spawn(a+b); distinct keys feed distinct entropy words to the mixer.", "quantifier": "every history of spawn calls over the whole tree (fewer than 2**32 children per node)", "why_tests_cant": "spawn trees are unbounded", "anchors": ["randomgen/_seed_sequence.pyx: SeedSequence.spawn, get_assembled_entropy"]}
{"id": "C32", "title": "SeedSequence never seeds a generator with the all-zero state", "statement": "A SeedSequence with the default pool never generates eight or more 32-bit words that are all zero, so Xoshiro256, Xoshiro512, Xorshift1024, LXM and Romu never start in their fixed point.", "quantifier": "all entropies and spawn keys", "why_tests_cant": "2**128 pools", "anchors": ["randomgen/_seed_sequence.pyx: generate_state", "randomgen/xoshiro256.pyx: _seed_from_seq", "randomgen/lxm.pyx: _seed_from_seq", "randomgen/romu.pyx"]}
{"id": "C33", "title": "Integer arguments are reduced exactly", "statement": "advance and jump reduce their (arbitrarily large or negative) argument to the unique representative modulo the generator's period bits, and integers written to / read from word arrays (keys, counters, states) round-trip exactly.", "quantifier": "all integers and bit widths", "why_tests_cant": "integers are unbounded", "anchors": ["randomgen/common.pyx: wrap_int, object_to_int, int_to_array, view_little_endian"]}
{"id": "C34", "title": "Doubles are uniform on [0, 1)", "statement": "Every double produced from 64 raw bits, or from two 32-bit draws, lies in [0,1) and is exactly k/2**53 for the k formed from the top bits, so each of the 2**53 values has equally many pre-images; float32 and long double likewise. DSFMT's doubles, made without a conversion, are k/2**52 in [0,1) from every seed and after any number of draws.", "quantifier": "all 2**64 raw values; every seed and every number of draws of DSFMT", "why_tests_cant": "2**64 inputs, and rounding to 1.0 would show for a handful of them", "anchors": ["randomgen/common.pxd: uint64_to_double", "randomgen/src/mt19937/mt19937.h: mt19937_next_double", "randomgen/src/distributions/rg-distributions.h: rg_next_float", "randomgen/src/distributions/rg-distributions.c: rg_next_long_double", "randomgen/wrapper.pyx: raw_64_to_double, raw_32_to_double", "randomgen/src/dsfmt/dsfmt.h: dsfmt_next_double"]}
{"id": "C35", "title": "Counter-based block functions are permutations", "statement": "For a fixed key, Philox (all sizes), ThreeFry (all sizes and rounds) and SPECK128 (any number of rounds) map different counters to different blocks, so no block repeats within a period.", "quantifier": "every key and every pair of counters", "why_tests_cant": "2**64 to 2**256 counters", "anchors": ["randomgen/src/philox/philox.h: philox*_R", "randomgen/src/threefry/threefry.h: threefry*_R", "randomgen/src/speck-128/speck-128-common.h: ER64"]}
{"id": "C36", "title": "SPECK128 gives the same stream with and without SIMD", "statement": "use_sse41=True and False produce the same values and states.", "quantifier": "every key schedule, counter, round count and draw sequence", "why_tests_cant": "2**128 counters", "anchors": ["randomgen/src/speck-128/speck-128.h: generate_block_fast", "randomgen/src/speck-128/speck-128-sse.h: generate_block_ssse3"]}
{"id": "C37", "title": "SFC64.weyl_increments returns usable increments", "statement": "weyl_increments(n) returns n distinct odd 64-bit integers whose number of non-zero bits lies in the requested range, and terminates.", "quantifier": "all n and all values the internal generator can draw", "why_tests_cant": "depends on the random draws; the bad draw is rare", "anchors": ["randomgen/sfc.pyx: SFC64.weyl_increments, choosek, generate_bits"]}
{"id": "C38", "title": "Squares.generate_keys returns valid keys", "statement": "Every generated key is odd, its eight low hexadecimal digits are distinct, each upper digit differs from the digit below it, every digit is in 1..15 as documented, the requested number of keys is returned (distinct when unique=True), and no memory outside the sampler's buffer is read.", "quantifier": "all seeds and all values the seed sequence can deliver, all n", "why_tests_cant": "depends on the random draws", "anchors": ["randomgen/squares.pyx: generate_key, generate_keys, _SequenceSampler"]}
{"id": "C39", "title": "JSF accepts only well-defined rotations", "statement": "Every (p, q, r) accepted by JSF gives shift counts below the word size, so the stream does not depend on the compiler.", "quantifier": "all accepted p, q, r", "why_tests_cant": "undefined behaviour is invisible to a single compiler", "anchors": ["randomgen/jsf.pyx: JSF.__init__, setup", "randomgen/src/jsf/jsf.h"]}
{"id": "C40", "title": "RDRAND never silently returns non-random data", "statement": "A value is returned as random only if it came from a successful hardware read; otherwise RuntimeError is raised, and no buffer is read out of bounds.", "quantifier": "every pattern of hardware successes and failures and every retry setting", "why_tests_cant": "hardware failures cannot be provoked", "anchors": ["randomgen/rdrand.pyx: rdrand_next_raw, rdrand_fill_buffer, RDRAND.random_raw"]}
{"id": "C41", "title": "Concurrent users of one bit generator see one serial stream", "statement": "When several threads call random_raw, uintegers, random and the state property on generators sharing one bit generator, the results are those of some serial order of the calls.", "quantifier": "every number of threads and every interleaving", "why_tests_cant": "schedules are unbounded and races are rare", "anchors": ["randomgen/common.pyx: random_raw (lock)", "randomgen/generator.pyx: uintegers, random, complex_normal", "randomgen/*.pyx: state"]}
{"id": "C42", "title": "Wishart variates are symmetric positive semi-definite", "statement": "standard_wishart with df >= dim returns, in exact arithmetic, T' T for an upper-triangular T built from the chi-square and normal draws, hence a symmetric positive semi-definite matrix, and reads no uninitialised workspace.", "quantifier": "every df, dim and every value of the underlying draws", "why_tests_cant": "all dimensions and real values", "anchors": ["randomgen/src/distributions/rg-distributions.c: random_wishart_large_df"]}
{"id": "C43", "title": "Shape broadcasting follows the NumPy rule", "statement": "The broadcasting used by multivariate_normal and multivariate_complex_normal accepts two shapes exactly when NumPy does and gives the NumPy result shape.", "quantifier": "all pairs of shapes", "why_tests_cant": "shapes are unbounded", "anchors": ["randomgen/generator.pyx: broadcast_shape"]}
{"id": "C44", "title": "seed_by_array does not confuse seeds", "statement": "Different seed arrays of the same length give different initial states whenever the array is no longer than the state.", "quantifier": "all pairs of seed arrays of the same length at most n", "why_tests_cant": "2**(64 n) seeds", "anchors": ["randomgen/entropy.pyx: seed_by_array", "randomgen/src/splitmix64/splitmix64.h"]}
{"id": "C45", "title": "random_entropy returns the requested shape", "statement": "random_entropy(size) returns an array of shape size for every non-None size.", "quantifier": "all sizes", "why_tests_cant": "sizes are unbounded; zero is easily overlooked", "anchors": ["randomgen/entropy.pyx: random_entropy, compute_numel"]}
{"id": "C46", "title": "UserBitGenerator derives all widths from one raw function", "statement": "With bits=64 the derived 64-bit, 32-bit and double functions each consume exactly one raw value and with bits=32 two, one and two, and combine them as documented. A function that is given is used for its own width only, every function receives the given state pointer, and integer results are in range whatever the callables return. from_ctypes and from_cfunc accept exactly four functions with the documented return types, use them unchanged, and raise TypeError otherwise. The state property passes through the given getter and setter and raises NotImplementedError without them.", "quantifier": "every raw, 64-bit, 32-bit and double function, pointer, getter and setter, and call sequence", "why_tests_cant": "raw functions are arbitrary", "anchors": ["randomgen/wrapper.pyx:12-36", "randomgen/wrapper.pyx:102-203", "randomgen/wrapper.pyx:205-345"]}
{"id": "C47", "title": "ChaCha draws follow the counter", "statement": "ChaCha's stream is the keystream words indexed by the 128-bit word counter: after seeding with counter c and drawing k words, the next word is word c+k (modulo 2**128), and setting a saved state resumes exactly there.", "quantifier": "every key, nonce, rounds, counter and number of draws", "why_tests_cant": "2**128 counters", "anchors": ["randomgen/src/chacha/chacha.h: chacha_next32", "randomgen/src/chacha/chacha.c: chacha_advance", "randomgen/chacha.pyx"]}
{"id": "C48", "title": "MT19937.jumped applies each requested jump exactly once", "statement": "jumped(iter) decomposes iter into the available jump polynomials with total weight exactly iter and terminates, for every iter.", "quantifier": "every iter >= 0", "why_tests_cant": "iter is unbounded", "anchors": ["randomgen/src/mt19937/mt19937.c: mt19937_jump_n", "randomgen/src/sfmt/sfmt-jump.c: sfmt_jump_n", "randomgen/src/dsfmt/dSFMT-jump.c"]}
{"id": "C49", "title": "Output functions lose no state information they need not", "statement": "The output scramblers of LXM (murmur mix), SplitMix64, MT19937 (tempering), MT64 (tempering) and Xoshiro (multiply-rotate-multiply) are bijections of the word they scramble, so every output value is equally likely over the scrambled word.", "quantifier": "all 2**32 or 2**64 words", "why_tests_cant": "2**64 words", "anchors": ["randomgen/src/lxm/lxm.h: murmur_hash3", "randomgen/src/splitmix64/splitmix64.h", "randomgen/src/mt19937/mt19937.h", "randomgen/src/mt64/mt64.h", "randomgen/src/xoshiro256/xoshiro256.h"]}
{"id": "C50", "title": "HC128 is the published HC-128 cipher, within bounds and reversible", "statement": "The words HC128(key=k) produces are the keystream of the published HC-128 cipher with key = low and IV = high 128 bits of k; every draw from every reachable state reads tables within bounds, the tables are updated reversibly, and draws of different sizes concatenate.", "quantifier": "every key, IV and number of draws", "why_tests_cant": "tables hold 1024 words", "anchors": ["randomgen/src/hc-128/hc-128.h", "randomgen/src/hc-128/hc-128.c"]}
{"id": "C51", "title": "AESCounter gives the same stream with and without AES-NI", "statement": "The hardware path (aesenc, aeskeygenassist, vector counters) and the software path (tiny AES) of AESCounter produce the same expanded key, values and states.", "quantifier": "every key, every counter, every draw", "why_tests_cant": "2**128 keys and 2**128 counters", "anchors": ["randomgen/src/aesctr/aesctr.h: aesctr_next", "randomgen/src/aesctr/aesctr.c: aesctr_seed", "randomgen/src/aesctr/tiny-aes.c"]}
{"id": "C52", "title": "State assignment depends on array values, not on memory layout", "statement": "Assigning a state dictionary whose arrays are equal, element by element, to those of a saved state restores that state, whether or not the arrays are contiguous in memory.", "quantifier": "every 1-d uint64 array, stride and offset accepted by check_state_array", "why_tests_cant": "all strides and memory contents", "anchors": ["randomgen/common.pyx: check_state_array", "randomgen/speck128.pyx: SPECK128.state", "randomgen/hc128.pyx: HC128.state"]}
{"id": "C53", "title": "ChaCha gives the same numbers with and without SIMD", "statement": "For one seed, key and counter, ChaCha produces the same random numbers whether use_simd is on or off, whether the build has SSE2 or SSSE3 or neither, and when use_simd is switched between draws.", "quantifier": "every key, counter, number of rounds, number of draws, and every choice of code path at every draw", "why_tests_cant": "2**512 block inputs and a choice of code path per draw; a test compares a few thousand outputs on the machine it runs on, which has one instruction set", "anchors": ["randomgen/src/chacha/chacha.h:generate_block", "randomgen/src/chacha/chacha.h:chacha_core_ssse3", "randomgen/src/chacha/chacha.h:chacha_core", "randomgen/chacha.pyx:use_simd"]}
{"id": "C54", "title": "A fixed seed gives the same 64-bit stream with every conforming C compiler", "statement": "The 64-bit (and random_raw) stream of a bit generator with a fixed seed is determined by the source: it does not depend on choices the C standard leaves to the compiler, such as which of two calls in one expression is made first.", "quantifier": "every bit generator, every state, every conforming evaluation order", "why_tests_cant": "a test suite is compiled by one compiler, which makes one choice; the other choice is never run", "anchors": ["randomgen/src/chacha/chacha.h:chacha_next64", "randomgen/src/hc-128/hc-128.h:hc128_next64", "randomgen/src/mt19937/mt19937.h:mt19937_next64", "randomgen/src/tyche/tyche.h:tyche_next64", "randomgen/src/jsf/jsf.h:jsf32_next64", "randomgen/src/philox/philox.h:philox4x32_next64"]}
{"id": "C55", "title": "jumped() moves by the documented number of draws", "statement": "For every generator with jumped(), the new generator is where the original would be after exactly the number of draws that the documentation of jumped() states, times the number of jumps.", "quantifier": "every state and every number of jumps", "why_tests_cant": "the documented distances are 2**64 draws or more; no test can make them one by one", "anchors": ["randomgen/squares.pyx:jumped", "randomgen/philox.pyx:jumped", "randomgen/threefry.pyx:jumped", "randomgen/aes.pyx:jumped", "randomgen/speck128.pyx:jumped", "randomgen/mt19937.pyx:jumped"]}
{"id": "C56", "title": "SFC64's Weyl increment is odd", "statement": "SFC64 always runs with an odd Weyl increment k: one generated from the seed sequence is odd, an odd k passed by the user is used unchanged, and 1 is added to an even k as the documentation says.", "quantifier": "every constructor argument w and k and every seed", "why_tests_cant": "the tests use k=1 and k from the seed sequence; an even k silently loses the documented minimum cycle length of 2**64, which no finite stream shows", "anchors": ["randomgen/sfc.pyx: SFC64.__init__, _seed_from_seq", "randomgen/src/sfc/sfc.c: sfc_seed"]}
{"id": "C57", "title": "Seeding never leaves a chaotic generator in a state it cannot leave", "statement": "After seeding, Romu (either variant) and JSF are never in, and never reach, a state that the step maps to itself.", "quantifier": "every vector of seed words and every number of draws", "why_tests_cant": "the bad seed words are a handful among 2**192 or more, so no sampled seed meets them", "anchors": ["randomgen/romu.pyx: _seed_from_seq", "randomgen/src/romu/romu.c: romu_seed", "randomgen/src/jsf/jsf.c"]}
{"id": "C59", "title": "MT19937 is the published Mersenne Twister", "statement": "After any seeding or state assignment with 624 words and a position from 0 to 624, the n values drawn are, for every n, the tempered words number pos, pos+1, ... of the sequence that the recurrence of Matsumoto and Nishimura (1998) gives from those 624 words; this sequence exists and is unique.", "quantifier": "every array of 624 32-bit words, every position 0..624, every number of draws", "why_tests_cant": "2^19968 states and unbounded streams; known-answer tests look at one seed", "anchors": ["randomgen/src/mt19937/mt19937.c: mt19937_gen, init_by_array", "randomgen/src/mt19937/mt19937.h: mt19937_next", "randomgen/mt19937.pyx: MT19937"]}
{"id": "C61", "title": "random fills the whole output array", "statement": "random(size, dtype=longdouble) writes exactly one value into every element of the result and nothing outside it, whatever the number of elements.", "quantifier": "every number of elements", "why_tests_cant": "the failing sizes need 32 GB of memory", "anchors": ["randomgen/src/distributions/rg-distributions.c:54-58", "randomgen/generator.pyx:335-372"]}
{"id": "C62", "title": "random_entropy reports a failing entropy source", "statement": "random_entropy never returns words that the requested source did not supply: when the operating system's source cannot be opened or delivers fewer bytes than asked for, it raises RuntimeError.", "quantifier": "every size and every behaviour of the source", "why_tests_cant": "the operating system's source does not fail on a test machine", "anchors": ["randomgen/src/entropy/entropy.c:80-150", "randomgen/entropy.pyx:114-190"]}
{"id": "C63", "title": "The fallback entropy source stays inside its buffer", "statement": "random_entropy with source='fallback' writes exactly the requested number of bytes, for every requested size.", "quantifier": "every size and every clock value", "why_tests_cant": "sizes of 2 GiB and more are out of reach of a test", "anchors": ["randomgen/src/entropy/entropy.c:155-166", "randomgen/entropy.pyx:150-190"]}
{"id": "C60", "title": "SFMT and DSFMT are the published SIMD-oriented Mersenne Twisters", "statement": "From every state the values handed out by SFMT are the 64-bit halves, low first, of the 128-bit words of the published SFMT19937 recurrence continued from the state array; for DSFMT they are the halves of the words of the dSFMT19937 recurrence with its lung. The sequence is the same at every position in the buffer and across any number of refills.", "quantifier": "every state array, every position in the buffer, every number of draws", "why_tests_cant": "the state has 19968 bits and each test draws a few hundred values from two seeds", "anchors": ["randomgen/src/sfmt/sfmt.c: gen_rand_array", "randomgen/src/sfmt/sfmt.h: sfmt_next_buffer", "randomgen/src/dsfmt/dsfmt.c: gen_rand_array_c1o2", "randomgen/src/dsfmt/dsfmt.h: dsfmt_next_buffer"]}
{"id": "C64", "title": "SFMT and DSFMT give the same stream with and without SIMD", "statement": "The SSE2 recursion computes the same word as the portable one for all inputs, so a build with SIMD and a build without it hand out the same values from the same state.", "quantifier": "every state, every number of draws", "why_tests_cant": "a build has one of the two recursions, so no test run compares them", "anchors": ["randomgen/src/sfmt/sfmt-sse2.h: mm_recursion", "randomgen/src/sfmt/sfmt-common.h: do_recursion", "randomgen/src/dsfmt/dSFMT-common.h: do_recursion"]}
{"id": "C65", "title": "multivariate_normal and multivariate_complex_normal return an array of the size asked for", "statement": "multivariate_normal(mean, cov, size) returns an array of shape size + (N,), for every size that the broadcast shape of the leading dimensions of mean and cov broadcasts to; without size, of that broadcast shape + (N,). multivariate_complex_normal(loc, gamma, relation, size) returns the shape that multivariate_normal would for the broadcast of gamma and relation.", "quantifier": "all shapes of mean and cov and all sizes", "why_tests_cant": "shapes are unbounded", "anchors": ["randomgen/generator.pyx: multivariate_normal", "randomgen/generator.pyx:1130-1241"]}
{"id": "C66", "title": "Each vector of multivariate_normal is made from its own normals", "statement": "multivariate_normal draws exactly as many standard normals as its result has elements, so that no two vectors of the result are computed from the same normals.", "quantifier": "all shapes of mean and cov and all accepted sizes", "why_tests_cant": "shapes are unbounded", "anchors": ["randomgen/generator.pyx: multivariate_normal"]}
{"id": "C67", "title": "The covariance or scale matrix used is the one asked for", "statement": "In exact arithmetic the factor F that multivariate_normal multiplies a row of standard normals by satisfies F'F = cov, and the factor F that wishart multiplies a standard Wishart matrix by on both sides satisfies FF' = scale, for every method and rank.", "quantifier": "every dimension, covariance matrix and exact decomposition", "why_tests_cant": "all dimensions and real values; the tests use multiples of the identity", "anchors": ["randomgen/generator.pyx: _factorize, multivariate_normal, wishart"]}
{"id": "C58", "title": "An ExtendedGenerator survives pickling", "statement": "pickle.loads(pickle.dumps(g)) of an ExtendedGenerator gives a generator over a bit generator of the same class whose state is equal field by field, for every class of the package and every reachable state, whatever entropy the freshly constructed object was seeded with; a state whose class name the registry does not hold raises ValueError.", "quantifier": "all 26 bit generator classes, all states of each, all freshly constructed objects", "why_tests_cant": "The tests pickle a handful of freshly seeded generators per class; they cannot cover every state (buffered halves, positions, non-default parameters) or every entropy of the new object.", "anchors": ["randomgen/_pickle.py:32-110", "randomgen/generator.pyx:189-200", "randomgen/common.pyx:487-502"]}
{"id": "C68", "title": "A state that belongs to another class is rejected and changes nothing", "statement": "Assigning to .state a value that is not a dict, or a dict whose bit_generator entry is neither the class name nor its fully qualified name, raises TypeError or ValueError and leaves the generator unchanged; so does the state of a generator of any other class. The short and the qualified name are interchangeable.", "quantifier": "all 26 classes, all values, all target objects, all pairs of distinct classes", "why_tests_cant": "Tests try one or two wrong names per class; there are 650 ordered pairs of classes and unboundedly many values.", "anchors": ["randomgen/common.pyx:487-502", "randomgen/pcg64.pyx:328-338", "randomgen/philox.pyx:369-376", "randomgen/rdrand.pyx:455-466"]}
{"id": "C69", "title": "complex_normal draws from the distribution its parameters describe", "statement": "complex_normal(loc, gamma, relation) returns loc plus a linear function of two independent standard normals whose real and imaginary parts have variances 0.5 Re(gamma + relation) and 0.5 Re(gamma - relation) and covariance 0.5 Im(relation); parameters for which no such distribution exists raise ValueError, and scalar and array arguments are treated alike.", "quantifier": "all complex gamma, relation and loc (exact real arithmetic)", "why_tests_cant": "A test fixes a few parameters and compares one stream of numbers; the covariance is a property of the linear map for every parameter, and degenerate parameters have measure zero.", "anchors": ["randomgen/generator.pyx:630-650", "randomgen/generator.pyx:678-694", "randomgen/common.pxd:49-64"]}
{"id": "C70", "title": "multivariate_complex_normal uses the covariance its gamma and relation describe", "statement": "The real covariance matrix that multivariate_complex_normal hands to multivariate_normal is the one matrix whose complex gamma E[ZZ^H] and relation E[ZZ^T] are those given, with real and imaginary parts interleaved as the complex view of the result expects; it is symmetric exactly when gamma is Hermitian and relation symmetric; stacked matrices are used one by one in C order.", "quantifier": "all dimensions, all complex matrices gamma and relation, all leading dimensions", "why_tests_cant": "Tests use small real matrices and call for shape only; the placing of four blocks with signs and an interleaving permutation is right for all dimensions or wrong in ways symmetric examples hide.", "anchors": ["randomgen/generator.pyx:1186-1240"]}
{"id": "C71", "title": "Every element of complex_normal's result uses its own broadcast parameters", "statement": "With array arguments complex_normal returns an array of the broadcast shape (or of size, if the parameters broadcast to it), element k of which is made from the k-th pair of normals and the elements of loc, gamma and relation that broadcast to it; parameters that do not broadcast to size are rejected.", "quantifier": "all shapes of loc, gamma, relation and size", "why_tests_cant": "The combinations of shapes are unbounded, and tests use equal shapes or scalars.", "anchors": ["randomgen/generator.pyx:674-720"]}
{"id": "C72", "title": "Scalars and arrays of parameters are checked by the same rule", "statement": "For every constraint, an array of parameters is accepted exactly when every element would be accepted as a scalar; a finite number is accepted exactly when it satisfies the inequality the constraint is named after; only ValueError is raised.", "quantifier": "all constraints, all arrays of doubles including NaN, infinities and signed zeros", "why_tests_cant": "Ten constraints, two code paths and IEEE special values at every position of arrays of any length.", "anchors": ["randomgen/broadcasting.pyx:10-78"]}
{"id": "C73", "title": "uintegers and random draw in order and fill exactly the array", "statement": "uintegers and random take exactly as many numbers from the bit generator as the result has elements, in order, whatever the shape; two calls give what one call for both gives; an output array is used exactly when it is contiguous, writable, aligned, native, of the right type and of the size given, and then holds the same numbers as a new array.", "quantifier": "all shapes, types, output arrays and bit generators", "why_tests_cant": "Sizes and shapes are unbounded and the equality is between different calls on every generator.", "anchors": ["randomgen/generator.pyx:236-373", "randomgen/broadcasting.pyx:80-187", "randomgen/src/distributions/rg-distributions.c:14-58"]}
{"id": "C74", "title": "Broadcast sampling functions give every element its own parameters", "statement": "cont, cont_f and disc draw element k of the result with the elements of the parameters that broadcast to it; constant arrays give the same numbers as scalars; a scalar call gives the first element of an array call; the output array is used if given; parameters that break a constraint raise before anything is drawn.", "quantifier": "all samplers, numbers of parameters, shapes, sizes and output arrays", "why_tests_cant": "Unbounded combinations of shapes; tests try equal shapes and scalars.", "anchors": ["randomgen/broadcasting.pyx:189-795"]}
{"id": "C75", "title": "Aligned memory is aligned, big enough and freed as obtained", "statement": "PyArray_malloc_aligned(n), calloc and realloc return a multiple of 64 with n bytes inside the block obtained from Python's allocator; the block released by PyArray_free_aligned is that block whatever the owner wrote into its n bytes; calloc returns zeros; realloc keeps the contents.", "quantifier": "all sizes, all addresses the allocator may return", "why_tests_cant": "The addresses depend on the allocator; an error shows for some residues modulo 64 only, as memory corruption.", "anchors": ["randomgen/src/aligned_malloc/aligned_malloc.h:9-52"]}
{"id": "C76", "title": "A counter given with a seed or key is the position the stream starts at", "statement": "AESCounter, SPECK128, ChaCha, Philox, ThreeFry and Squares accept seed, counter and key. A seed alone installs the key made of the SeedSequence words and counter 0; with a counter, that counter is installed; this equals giving that key directly. Seed and key together raise ValueError, and so does a counter outside the generator's range. The stream from counter c is the stream from counter 0 with the first 2c (AESCounter, SPECK128), n*c (Philox, ThreeFry), c 32-bit (ChaCha) or c (Squares) numbers removed.", "quantifier": "All classes and variants, all seeds (as arbitrary SeedSequence words), keys, counters and numbers of draws", "why_tests_cant": "Tests compare a few counters with stored data and never combine a seed with a counter in every mode; the position law ranges over 2^128 counters", "anchors": ["randomgen/common.pyx:28-90", "randomgen/philox.pyx:231-319", "randomgen/threefry.pyx:228-310", "randomgen/aes.pyx:182-246", "randomgen/speck128.pyx:174-230", "randomgen/chacha.pyx:158-247", "randomgen/squares.pyx:432-513"]}
{"id": "C77", "title": "Generators jumped a different number of times do not overlap", "statement": "Take one generator and make copies jumped i and j times. As long as each copy draws fewer values than one jump skips, no state (position in the cycle) reached by the first copy is ever reached by the second, unless i = j and the same number of values was drawn.", "quantifier": "every valid state, all pairs of jump counts up to the number that fits into the cycle, all numbers of draws below the jump length", "why_tests_cant": "the streams have at least 2**64 values each; only a proof about positions can compare them", "anchors": ["randomgen/philox.pyx:jumped", "randomgen/threefry.pyx:jumped", "randomgen/aes.pyx:jumped", "randomgen/speck128.pyx:jumped", "randomgen/lxm.pyx:jumped", "randomgen/xorshift1024.pyx:jumped"]}
{"id": "C78", "title": "Over a full period every output word occurs equally often", "statement": "Draw one full period of raw values. For the congruential generators (PCG64 in all output variants, PCG32, LCG128Mix, LXM) every word occurs exactly the same number of times. For Xoshiro256, Xoshiro512, Xoroshiro128 (both variants) and Xorshift1024 the same holds except that the word 0 occurs once less; moreover each list of 4 (Xoshiro256), 8 (Xoshiro512) or 16 (Xorshift1024) consecutive values occurs exactly once, except the list of zeros, which never occurs. In one cycle of the counter of Philox, ThreeFry, AESCounter and SPECK128 every word occurs equally often.", "quantifier": "every valid state (not all zero for the xor-shift generators, odd increment for the congruential ones), every starting position, every word, every list of consecutive words, and every set of words", "why_tests_cant": "the periods are at least 2**64 values; the statement is about counts over all of them", "anchors": ["randomgen/src/pcg64/pcg64-v2.h: pcg64_next64, pcg64_cm_dxsm_next64", "randomgen/src/pcg64/lcg128mix.h: lcg128mix_next", "randomgen/src/pcg32/pcg32.h: pcg32_next64", "randomgen/src/lxm/lxm.h: lxm_next64", "randomgen/src/xoshiro256/xoshiro256.h: xoshiro256_next", "randomgen/src/xoshiro512/xoshiro512.h: xoshiro512_next", "randomgen/src/xoroshiro128/xoroshiro128.h: xoroshiro128_next, xoroshiro128plusplus_next", "randomgen/src/xorshift1024/xorshift1024.h: xorshift1024_next", "randomgen/src/philox/philox.h: philox*_next", "randomgen/src/threefry/threefry.h: threefry*_next", "randomgen/src/aesctr/aesctr.h: aes_next64", "randomgen/src/speck-128/speck-128.h: speck_next64"]}
{"id": "C79", "title": "Constructor and seed() arguments mode, numpy_seed, variant and inc do what is documented", "statement": "A mode is accepted exactly when absent or a string naming a supported mode in any case, otherwise ValueError; numpy-compatible seeding is on exactly when numpy_seed or mode asks for it. PCG64's documented variant values select the documented variants and no others are accepted. seed(seed, inc) of PCG64, PCG32 and LCG128Mix uses the given inc in the documented range as the stream selector, takes it from the seed sequence when it is None, and rejects everything else without changing the state. jumped() keeps the seeding mode and the seed sequence, so that reseeding the jumped generator gives what reseeding the original gives.", "quantifier": "all mode arguments, seeds (any words from the seed sequence), all increments of every Python type considered, all variant arguments, all states", "why_tests_cant": "The tests try a handful of invalid arguments. They do not test the boundary 2**128 and 2**64, inc without a seed, negative variant numbers, mode=None, jumped() after a state assignment in numpy mode, or reseeding after unpickling.", "anchors": ["randomgen/common.pyx:32-87", "randomgen/pcg64.pyx:157-296", "randomgen/pcg64.pyx:459-491", "randomgen/pcg64.pyx:633-767", "randomgen/pcg32.pyx:104-151", "randomgen/mt19937.pyx:120-178", "randomgen/mt19937.pyx:255-276", "randomgen/_pickle.py:86-110"]}
{"id": "C80", "title": "The legacy tuple form of the MT19937 state is accepted exactly as documented", "statement": "Assigning a 3- or 5-tuple ('MT19937', key, pos[, has_gauss, cached_gaussian]) to MT19937.state has the effect of assigning the dictionary with that key and pos; the tuple of any legal state installs exactly that state. Every other tuple is refused with ValueError and the state is unchanged.", "quantifier": "all tuples, all states", "why_tests_cant": "The tests assign one valid tuple and two invalid ones.", "anchors": ["randomgen/mt19937.pyx:297-313"]}
{"id": "C81", "title": "The counter-based generators compute the published block functions", "statement": "After seed(key, counter), value i of Philox and ThreeFry (each of the four sizes) is word i mod n of the block function of Salmon et al. (Philox with 10 rounds and Weyl-sequence round keys; Threefry as Threefish with 20 rounds) at counter + 1 + i/n; value i of AESCounter is the half i mod 2 of FIPS-197 AES-128 of counter + i/2; value i of SPECK128 is the half i mod 2 of SPECK128/256 of counter + i/2, with the first T round keys when T rounds are asked for; 32-bit value i of ChaCha is a word of Bernstein's ChaCha with the 128-bit block number (counter + i)/16. The software and the vector code paths compute the same.", "quantifier": "all keys, counters and numbers of draws; all sizes; 1 to 34 SPECK rounds; every even number of ChaCha rounds; all code paths", "why_tests_cant": "The repository's tests compare the first thousand outputs for two seeds with stored files produced by the same library; they compare nothing with the standards, and cannot cover all keys and counters.", "anchors": ["randomgen/src/philox/philox.h:231-349", "randomgen/src/threefry/threefry.h:68-435", "randomgen/src/aesctr/softaes.h:22-215", "randomgen/src/aesctr/aesctr.h:54-74", "randomgen/src/speck-128/speck-128.h:22-103", "randomgen/src/chacha/chacha.h:144-201"]}
{"id": "C82", "title": "Every Wishart variate has its own degrees of freedom, scale matrix and draw, in an array of the shape asked for", "statement": "wishart(df, scale, size) returns an array of shape size + (N, N), or of the broadcast shape of df and scale's leading dimensions + (N, N) without a size; the matrix at index ix is made with the degrees of freedom and the scale matrix that broadcast to ix, and with a standard variate that no other element uses; arguments that do not fit raise an exception, and a call that raises draws nothing.", "quantifier": "all shapes of df and scale (any number of dimensions), all df values, all sizes (none, int, tuple, list), all dimensions N", "why_tests_cant": "the index arithmetic between the iterator over df and scale, the rows of repeated draws and the reshaped output only goes wrong for particular combinations of shapes; tests use a handful, and a wrong pairing of matrices and degrees of freedom gives plausible random matrices", "anchors": ["randomgen/generator.pyx:728-808", "randomgen/generator.pyx:810-990"]}
{"id": "C83", "title": "Bounded integers are exactly uniform: rejection sampling from the stream of words, whatever the range, method and width", "statement": "random_bounded_uint64 and the buffered 32-, 16- and 8-bit versions return off + k, wrapped to the width, where k is the value of the first word of the generator's stream that is accepted; every k from 0 to rng comes from exactly the same number of words, more than half of all words are accepted, and the words after the accepted one are left for the next call. This holds for the masked and for Lemire's method, with and without 128-bit integers (which give identical numbers), at the boundaries rng = 2^32-1 and 2^64-1 and for random_interval. rng = 0 draws nothing. The small-integer sources are the digits of successive 32-bit words, lowest first. A fill of cnt values is cnt single draws, and 32- and 64-bit fills can be split in two calls.", "quantifier": "all ranges, offsets, both methods, all widths, all generators and states, any number of rejected words", "why_tests_cant": "a threshold that is off by one, a mask that is too short or a carry lost in the emulated product biases a few values out of up to 2^64 by one part in 2^64, or shows only for words that come once in 2^32 draws", "anchors": ["randomgen/src/distributions/distributions.orig.h:93-203", "randomgen/src/distributions/distributions.orig.c:1127-1660"]}
{"id": "C84", "title": "hypergeometric_sample follows the hypergeometric law exactly, and random_multinomial hands out exactly n", "statement": "Over all equally likely answers of random_interval, the number of those for which hypergeometric_sample(good, bad, sample) returns k is proportional to choose(good, k) * choose(bad, sample - k), with the total choose(good + bad, sample); each result lies between max(0, sample - bad) and min(good, sample). random_multinomial on a zeroed array writes non-negative counts that sum to n.", "quantifier": "all good, bad and sample with sample at most good + bad (in the model's unbounded integers), all results k; all n and numbers of categories, all binomial samplers with values from 0 to the number of trials", "why_tests_cant": "a test can compare a histogram with the law for a few parameters to within sampling error; the early exits and the switch at half of the population act on particular parameters only", "anchors": ["randomgen/src/distributions/hypergeometric.c:46-89", "randomgen/src/distributions/distributions.orig.c:1662-1679"]}
{"id": "C85", "title": "SFC64: the arguments w, k, numpy_seed and mode decide every seeding of the object, and nothing else does", "statement": "SFC64(seed, w, k) starts the three words of the seed sequence with the Weyl start w and increment k as given; what is None is the next word of the seed sequence, made odd for k. Numbers outside uint64 and other objects are rejected. numpy_seed=True takes w = k = 1 only and gives the default generator. A later seed(x) gives the generator that constructing with x and the same arguments gives, whatever the state was; a seed() that raises keeps the state. One seed with other w or k gives another state, and with another k a stream that never meets the first. A generator restored by assigning its state is seeded like the original.", "quantifier": "all seed sequences, all integer, None, float and other arguments w and k, all modes, all previous states", "why_tests_cant": "the tests construct a few combinations and compare the first values with stored ones; they do not reseed restored objects, and cannot cover all pairs of increments", "anchors": ["randomgen/sfc.pyx:124-161", "randomgen/sfc.pyx:310-368", "randomgen/common.pyx:32-51", "randomgen/common.pyx:79-87"]}
{"id": "C86", "title": "A SeedSequence means the same whichever way its entropy is written, and is rebuilt exactly from its state", "statement": "A string of decimal digits, or of hexadecimal digits after 0x, gives the SeedSequence of the integer it writes; no string is given another meaning, and strings that start with neither, negative integers, floats and objects of other types raise. Nested sequences mean the flat sequence. Without entropy, the integer drawn is recorded in .entropy and alone rebuilds the sequence, and different draws generate different words. For every SeedSequence obtained by construction and any number of spawn calls, SeedSequence(**s.state) has the same pool and spawns the same children; spawn(n) gives n children with the next n numbers.", "quantifier": "all strings, integers and nested sequences, all pool sizes and spawn keys, all histories of construction and spawn", "why_tests_cant": "the tests parse a handful of literals and never rebuild a sequence from its state after spawning; the strings and histories are infinitely many", "anchors": ["randomgen/_seed_sequence.pyx:56", "randomgen/_seed_sequence.pyx:69-152", "randomgen/_seed_sequence.pyx:232-248", "randomgen/_seed_sequence.pyx:292-335", "randomgen/_seed_sequence.pyx:373-477"]}
{"id": "C87", "title": "Filling an array with SFMT or dSFMT gives the continuation of the sequence for every size", "statement": "sfmt_fill_array32/64 and the four dsfmt_fill_array functions, called with an array of any size that meets their documented requirements, write exactly the next words of the generator's recurrence and leave as state the last 156 (SFMT) or 191 (dSFMT) words reached, whatever the array held before and with or without assertions. The values are those that the same number of single draws gives from an empty buffer. Filling twice is the same as filling once with the combined size; 32-bit and 64-bit filling write the same bytes. The variants of dSFMT for [0,1), (0,1] and (0,1) convert the array of the [1,2) variant element by element (m, 2^52 - m, and m with its last bit set, over 2^52), and leave the same state. Requests that are too small, not a multiple, or made inside a block are refused by the assertions; without them a smaller array is written past its end.", "quantifier": "all states of the two generators, all array sizes (no bound), all previous contents of the array, both assertion settings, all conversions", "why_tests_cant": "The filling functions have six loops whose boundaries depend on the size relative to N and 2N (including sizes between N and 2N, where the state is assembled partly from a copy and partly from new words); tests try one or two sizes and only from freshly seeded states.", "anchors": ["randomgen/src/sfmt/sfmt.c:97-134", "randomgen/src/sfmt/sfmt.c:290-345", "randomgen/src/dsfmt/dsfmt.c:65-294", "randomgen/src/dsfmt/dsfmt.c:444-502"]}
{"id": "C88", "title": "The inline generating functions of sfmt.h and dsfmt.h walk the same sequence", "statement": "Any series of sfmt_genrand_uint32 and sfmt_genrand_uint64 calls, from any place of a block and across refills, returns the consecutive 32-bit and 64-bit pieces of the sequence of 128-bit words; the assertion fails exactly when a 64-bit call comes at an odd place (compiled without it, such a call repeats the bits just returned). From a fresh state the 64-bit calls are the draws of the Python class's buffer; sfmt_genrand_res53_mix uses exactly the number one 64-bit call gives. The dsfmt_genrand functions return the consecutive doubles of the sequence, their low 32 bits, or the conversions to [0,1), (0,1] and (0,1). sfmt_to_real2, real3 and res53 are exact in every rounding mode and lie in [0,1), (0,1) and [0,1); real1 lies in [0,1] for every monotone rounding.", "quantifier": "all states and positions in the block, all interleavings and lengths of calls, both assertion settings, all roundings that fix the doubles", "why_tests_cant": "These functions are not called by the Python classes at all, and an error at a block boundary or in one conversion would show only for particular interleavings or rare values (0, the largest number).", "anchors": ["randomgen/src/sfmt/sfmt.h:146-305", "randomgen/src/dsfmt/dsfmt.h:246-374"]}
{"id": "C89", "title": "HC128 uses exactly the key or seed it is given", "statement": "HC128(key=k) and seed(key=k) install the 256-bit integer k (or the one to four 64-bit words of it, least significant first) as the 128-bit key and 128-bit initialisation vector of the published cipher, whatever the byte order of the machine, and a new generator returns its keystream from the first word. A seed gives four 64-bit words of its SeedSequence as the key, and that SeedSequence is kept; a key leaves the earlier SeedSequence in place. A seed together with a key, a key out of range, an array of two dimensions, without elements or of another element type, and a mode other than \"sequence\" in any case raise an exception.", "quantifier": "all keys and seeds, all objects passed as key, both byte orders, all stream lengths, all earlier states", "why_tests_cant": "256-bit keys cannot be enumerated and big-endian machines are not tested.", "anchors": ["randomgen/hc128.pyx:114-166", "randomgen/common.pyx:32-87"]}
{"id": "C90", "title": "Constructors of counter-based generators accept exactly the valid parameters", "statement": "SPECK128 accepts rounds exactly when equal to an integer from 1 to 34; ChaCha exactly for the positive even integers of a C int; Philox and ThreeFry exactly for number 2 or 4 and width 32 or 64 (floats equal to these where Cython converts floats). Whatever the arguments, a constructor that does not raise makes a generator of an existing kind, with rounds in range and a key and counter of the kind's number of bits, and its numbers are those of the cipher with this key from this counter on. mode=\"numpy\" is refused by all classes but Philox, which takes it for 4x64 only.", "quantifier": "all integer, float and None parameters, all key, counter and seed objects, all stream lengths", "why_tests_cant": "Parameters have unbounded type and value; tests try a few bad ones and check only that an exception is raised.", "anchors": ["randomgen/speck128.pyx:141-164", "randomgen/chacha.pyx:136-152", "randomgen/philox.pyx:178-215", "randomgen/threefry.pyx:148-191", "randomgen/aes.pyx:131-143"]}
{"id": "C91", "title": "Special instructions are used only where they exist, never change the numbers, and the switches do what they say", "statement": "feature_flags gives the bits of the CPUID register for GCC, clang and MSVC. Whatever objects of AESCounter, SPECK128 and ChaCha are made, seeded or jumped and whatever is assigned to use_aesni, use_sse41 and use_simd, in any order, special instructions are executed only in a build that has them on a processor that announces them, and every generator gives the numbers of the portable code. Assigning True where they cannot be used raises ValueError and leaves the portable code; assigning True or False otherwise is read back and obeyed. An assignment stays in force until the next assignment, any true value switches on, and an assignment that raises changes nothing.", "quantifier": "all processors, builds, event histories, assigned values, states and stream lengths", "why_tests_cant": "A test runs on one processor with one build, and the switches are global, so that results depend on everything done before.", "anchors": ["randomgen/src/common/cpu_features.c:3-54", "randomgen/src/aesctr/aesctr.c:4-19", "randomgen/src/aesctr/aesctr.h:49-100", "randomgen/src/speck-128/speck-128.c:4-34", "randomgen/src/speck-128/speck-128.h:105-122", "randomgen/src/chacha/chacha.c:10-34", "randomgen/src/chacha/chacha.h:182-190", "randomgen/src/rdrand/rdrand.c:4-17", "randomgen/aes.pyx:153-180", "randomgen/speck128.pyx:232-259", "randomgen/chacha.pyx:162-189"]}
{"id": "C92", "title": "random_hypergeometric returns possible values only, by the exact ratio-of-uniforms test", "statement": "random_hypergeometric(good, bad, sample) returns only k with max(0, sample - bad) <= k <= min(good, sample). In hypergeometric_hrua the fast acceptance and fast rejection never change the decision of the exact test; a pair (U, V) gives k exactly when X = a + h(V - 1/2)/U falls in the cell of k (one cell for each possible value, also after the two reflections) and U^2 is at most the probability of k divided by the largest probability; the constants D1, D2 are 2 sqrt(2/e) and 3 - 2 sqrt(3/e) to 15 decimals. No pair of doubles leads to undefined behaviour, and every possible value can be returned.", "quantifier": "all good, bad, sample, all sequences of doubles and of bounded integers", "why_tests_cant": "Tests compare moments of samples; U = 0 with V = 1/2 has probability 2^-106, the shortcuts agree with the exact test only by an inequality over the reals.", "anchors": ["randomgen/src/distributions/hypergeometric.c:94-95", "randomgen/src/distributions/hypergeometric.c:119-236", "randomgen/src/distributions/hypergeometric.c:246-260", "randomgen/src/distributions/logfactorial.c:142-158"]}
{"id": "C93", "title": "The samplers by inversion follow their distribution functions", "statement": "In distributions.orig.c, the number returned for a uniform U is at most x exactly when U is at most F(x), F the distribution function of the exponential, uniform, Pareto, Weibull, power, Laplace, Gumbel, logistic, Rayleigh and triangular distribution. The geometric search ends, and it and the geometric inversion return the same number, the first whose distribution function reaches U. Poisson by multiplication counts the uniforms whose product exceeds exp(-lam). Binomial inversion returns the first number whose distribution function reaches U. The logarithmic series sampler returns the k with q^k < V <= q^(k-1).", "quantifier": "every valid parameter and every uniform number, over the real numbers; every length of the search", "why_tests_cant": "statistical tests see frequencies of a sample; that the transform is the inverse of the distribution function at every point needs a proof", "anchors": ["randomgen/src/distributions/distributions.orig.c:random_pareto", "randomgen/src/distributions/distributions.orig.c:random_triangular", "randomgen/src/distributions/distributions.orig.c:random_geometric", "randomgen/src/distributions/distributions.orig.c:random_poisson_mult", "randomgen/src/distributions/distributions.orig.c:random_binomial_inversion", "randomgen/src/distributions/distributions.orig.c:random_logseries"]}
{"id": "C94", "title": "The text shown for a SeedSequence is a Python expression for it", "statement": "repr(s) of a SeedSequence with integer entropy and spawn key, evaluated as a Python call, gives a SeedSequence with the same pool, spawn key and children; so two such objects with the same text are equal. Lines are left out only for default values.", "quantifier": "every SeedSequence constructed, spawned or spawned from, all entropies, spawn keys of any length, pool sizes, numbers of children and limits on digits", "why_tests_cant": "the keys and integers have unbounded size; a test evaluates a few texts", "anchors": ["randomgen/_seed_sequence.pyx:__repr__"]}
{"id": "C95", "title": "random_zipf and random_wald draw from the distributions they are named after", "statement": "random_zipf proposes k with probability k^(1-a) - (k+1)^(1-a) and accepts it with a probability of at most 1; the product is k^(-a) times a constant. random_wald returns one of the two positive solutions x of scale (x - mean)^2 = n^2 mean^2 x, n the normal number drawn, the smaller one exactly when U <= mean / (mean + x).", "quantifier": "every parameter a > 1, mean > 0, scale > 0 and every number drawn, over the real numbers", "why_tests_cant": "statistical tests bound the error of finitely many frequencies; the law for every k is an identity with an inequality (the acceptance probability never exceeds 1)", "anchors": ["randomgen/src/distributions/distributions.orig.c:random_zipf", "randomgen/src/distributions/distributions.orig.c:random_wald"]}
{"id": "C96", "title": "random_vonmises and random_beta", "statement": "random_vonmises proposes an angle with density sqrt(s^2-1)/(pi (s - cos t)), accepts it with probability Y exp(1-Y) (both tests of the code together), and the product is a constant times exp(kappa cos t), the von Mises density. The number returned lies in [-pi, pi] and differs from mu plus or minus the accepted angle by a multiple of 2 pi. random_beta for a, b <= 1 returns X/(X+Y) of the first pair with 0 < X+Y <= 1, a number in [0, 1], and returns for all parameters.", "quantifier": "every kappa > 0, mu, a, b and every sequence of uniform numbers, over the real numbers; every length of the loop", "why_tests_cant": "statistical tests bound finitely many frequencies; the law is an identity between densities at every angle, and the loop of random_beta runs for ever only for extreme parameters", "anchors": ["randomgen/src/distributions/distributions.orig.c:random_vonmises", "randomgen/src/distributions/distributions.orig.c:random_beta"]}
{"id": "C97", "title": "The gamma sampler draws from the gamma distribution", "statement": "For shape >= 1 standard_gamma_zig returns b (1 + c X)^3 for the normal number X exactly when U is below a probability p(X) <= 1: the quick test (1 - 0.0331 X^4) never accepts what the exact test rejects. The normal density times p equals, up to a constant, the gamma density of the value times the derivative of the value. For 0 < shape < 1 the proposal has the distribution function F, is accepted when the exponential number V reaches x - lead(x) >= 0, and F'(x) exp(-(x - lead(x))) = shape x^(shape-1) exp(-x).", "quantifier": "every shape, every normal, exponential and uniform number, over the real numbers", "why_tests_cant": "the quick test and the exact test differ by less than 0.3 percent near X = -0.88 / c for shape 1; a sample does not see a wrong digit of the constant", "anchors": ["randomgen/src/distributions/distributions.orig.c:standard_gamma_zig"]}
{"id": "C98", "title": "random_binomial_btpe accepts by the ratio of binomial probabilities and stays in range", "statement": "The product computed at Step50 is the ratio of the binomial probabilities of y and of the mode m, so y is accepted exactly when v is at most this ratio; the test of Step52 for distant y accepts the same v up to rounding. A number returned lies between 0 and n. Outside the triangle the proposed point is the image of (w, v) under maps that keep areas, and the points of the two tails are exactly those under c exp(-lam |x - end|), each given once.", "quantifier": "every n and p with p <= 1/2 and n p > 30 (the calls random_binomial makes), every y and every uniform number, over the real numbers", "why_tests_cant": "the error of Step52 is about 0.3 percent of the acceptance probability in a region that few samples reach; range and ratio hold for unbounded n", "anchors": ["randomgen/src/distributions/distributions.orig.c:random_binomial_btpe"]}
{"id": "C99", "title": "random_poisson proposes and accepts so that a round returns k with the Poisson probability, and never a negative number", "statement": "For lam >= 10 the number proposed by random_poisson_ptrs is a strictly increasing function of U whose derivative is a / us^2 + b, and the last test accepts exactly when V is at most P(k) (a / us^2 + b) / invalpha, where P(k) is the Poisson probability of k; so density times acceptance probability is P(k) / invalpha. A round returns k exactly when k is the floor of the proposed number and either us >= 0.07 and V <= vr, or k >= 0, not (us < 0.013 and V > us), and the last test accepts. Every number a round returns is non-negative, although the first test does not look at the sign of k. Every round is free of undefined behaviour.", "quantifier": "every lam >= 10, every U in (-1/2, 1/2), every V in [0, 1) and every k, over the real numbers", "why_tests_cant": "lam is unbounded and a wrong constant in the acceptance test changes the law by amounts that a test on samples does not resolve; a first uniform number that is exactly 0 has probability 2^-53", "anchors": ["randomgen/src/distributions/distributions.orig.c:random_poisson_ptrs", "randomgen/src/distributions/distributions.orig.c:random_poisson"]}
{"id": "C100", "title": "The polar method for normal numbers gives the standard normal density and uses each accepted point for two calls", "statement": "legacy_gauss and random_gauss use the first point (x1, x2) strictly inside the unit circle and not its centre, return f x2 and keep f x1; the next call returns the kept number and takes nothing from the generator. The map from the points of the open disc without its centre to the pairs of numbers other than (0, 0) is one-to-one and onto, and the determinant of its partial derivatives is -2 / r2, so that the density exp(-(g^2 + h^2) / 2) / (2 pi) of two standard normal numbers pulls back to the density 1 / pi of the point.", "quantifier": "every list of uniform numbers, every number of rejected points, every point of the disc and every pair of numbers, over the real numbers", "why_tests_cant": "a test on samples does not separate nearby laws and does not reach the tails; the number of rejected points is unbounded", "anchors": ["randomgen/src/legacy/legacy-distributions.c:legacy_gauss", "randomgen/src/distributions/distributions.orig.c:random_gauss"]}
