{
 "C01": [
  "proved",
  "all variants of PCG64/PCG64DXSM and LCG128Mix, every integer delta"
 ],
 "C02": [
  "proved",
  "every integer delta"
 ],
 "C03": [
  "proved",
  "seeded generators; a state dictionary with an even increment is refuted"
 ],
 "C04": [
  "proved",
  "portable (non-MSVC) emulation"
 ],
 "C10": [
  "proved",
  "every state; also the exact period and disjointness of jumped streams; the docstring's 2**(128*iter) is refuted"
 ],
 "C11": [
  "proved",
  "every state; also the exact period and disjointness of jumped streams; the docstring's 2**(256*iter) is refuted"
 ],
 "C12": [
  "proved",
  "both variants; also the exact period and disjointness of jumped streams; the docstring's 2**(64*iter) is refuted"
 ],
 "C13": [
  "proved",
  "every state with 0 <= p < 16; also the exact period"
 ],
 "C14": [
  "proved",
  "every state; also the exact period for odd b"
 ],
 "C26": [
  "proved",
  "any sequence of draws and jumps; Xorshift1024 via draws, a jump being a number of draws by C13"
 ],
 "C28": [
  "proved",
  "every non-negative integer; nested sequences are concatenated, so a sequence and an integer can coincide (refuted as injectivity)"
 ],
 "C29": [
  "proved",
  "every pool size; also one differing word beyond the pool; the collisions of trailing zeros and of long entropies with spawn keys are exhibited as refuted"
 ],
 "C30": [
  "proved",
  ""
 ],
 "C31": [
  "proved",
  "every history of spawn calls with non-negative counts; siblings have distinct pools; spawn with a negative count reuses keys (refuted)"
 ],
 "C32": [
  "proved",
  "for more words than the pool holds; Xoroshiro128 takes exactly as many and has an all-zero seed (refuted)"
 ],
 "C05": [
  "proved",
  "every live state, every integer delta; the remark that advance resets the buffered half is refuted for delta = 0 mod 2**129"
 ],
 "C06": [
  "proved",
  "every live state and 1..34 rounds, every integer delta; same remark refuted"
 ],
 "C35": [
  "proved",
  "Philox and ThreeFry (all sizes), SPECK128 (any rounds) and also AES"
 ],
 "C36": [
  "proved",
  "every expanded key, with use_sse41 toggled at will; a state dictionary with unequal halves in round_key is refuted"
 ],
 "C51": [
  "proved",
  "AES-NI instructions as specified by FIPS-197 and Intel's manual"
 ],
 "C47": [
  "proved",
  "ChaCha class: stream, counter and restore proved. The exported but unused C function chacha_advance is refuted (block boundary; wrap of idx+delta[0]) and proved on the remaining domain; the class documents advance/jump but has neither."
 ],
 "C53": [
  "proved",
  ""
 ],
 "C54": [
  "partial",
  "refuted for ChaCha, HC128, Tyche, JSF32, MT19937, PCG32, the 32-bit Squares variant and Philox/ThreeFry with 32-bit words (two unsequenced calls in one expression, the state afterwards is the same); proved order-free for the others"
 ],
 "C09": [
  "partial",
  "64-bit variant: every state and delta. 32-bit variant: advance(n) is n 32-bit draws (proved), so it is not n raw draws (refuted)"
 ],
 "C38": [
  "partial",
  "keys proved valid for every seed up to the zero digit and the sampler overrun, both of which are refuted; documented key list reproduced"
 ],
 "C55": [
  "partial",
  "true: AESCounter, SPECK128, PCG32, PCG64.jump; refuted and actual length proved: Squares, Philox, ThreeFry, PCG64/PCG64DXSM/LCG128Mix.jumped, LXM, Xorshift1024 (two jumps; the xoshiro classes are C10-C12 _docstring_refuted), SFMT and DSFMT (2^129 values at the end of a block, not 2^128)"
 ],
 "C17": [
  "partial",
  "composition proved for Philox, ThreeFry, AES, SPECK128, PCG32, PCG64, PCG64DXSM, LCG128Mix, Squares, xoshiro256/512, xoroshiro128, Xorshift1024, LXM, SFMT and DSFMT (with the stored polynomials); refuted for MT19937 (the 16-bit buffer), for negative iter, and RDRAND forgets retries. The other classes have no jumped()."
 ],
 "C24": [
  "proved",
  "all generators named; JSF for defined rotations (see C39); also Philox, ThreeFry, AESCounter, SPECK128, Squares, HC128, MT19937 and PCG"
 ],
 "C25": [
  "partial",
  "proved for SFC64, JSF, Tyche, PCG, HC128 and for Romu except that the all-zero words and (0,0,0,1) are seeded alike (refuted). MT19937 and MT64 seed different arrays alike (refuted): every state with the fixed first word comes from exactly one array for each value of the first array word, so arrays that share the first word are told apart, by the first 624 numbers for MT19937"
 ],
 "C27": [
  "proved",
  "SFC64, EFIIX64, LXM; an even increment, which the constructor and setters accept, is refuted (C56)"
 ],
 "C37": [
  "partial",
  "what is returned is right when no draw equals the end point total; with the end point, the value 1 is returned outside the range, and a second one never returns (refuted); the counts wrap for 30..35 bits (refuted)"
 ],
 "C39": [
  "partial",
  "proved for p, q not 0 and all built-in parameters; p=0 or q=0 is accepted and undefined, the setter checks nothing (refuted)"
 ],
 "C56": [
  "partial",
  "proved for generated and odd k; an even k is used as it is (refuted)"
 ],
 "C57": [
  "partial",
  "Romu quad for all words, trio for every default SeedSequence, JSF for one seed word (no fixed point); trio with other seed words refuted; JSF with two or three seed words not shown"
 ],
 "C50": [
  "proved",
  "refinement of the 16-way unrolled code to Wu's one-step specification, key schedule included; checked against tests/data/hc128-testset-1.csv"
 ],
 "C59": [
  "proved",
  "MT19937 and MT64, each against its recurrence; the seeding by init_by_array is checked against the published output files; the double-precision and 64-bit readings are C22/C34/C54"
 ],
 "C15": [
  "partial",
  "refuted as stated for every jump polynomial of the code and every distance: the jumped array is a ring starting at pos but is drawn from as a block starting at 0; and for three of the five polynomials the first output depends on bits that are otherwise unused (C15_mt19937_dead_bits_refuted). Proved: the stored polynomials are x^(2^k) modulo the characteristic polynomial, so that the jumped ring holds the sequence 2^k words on (all but those bits), and the first 624-pos' outputs"
 ],
 "C48": [
  "proved",
  "MT19937, SFMT and DSFMT: weights, termination and total shift of iter * 2^128 words, with the polynomials stored in the source"
 ],
 "C40": [
  "partial",
  "random_raw and the Generator path return exactly the successful hardware reads, failures raise and are sticky until _reset; refuted for retries = INT_MAX (overflow), for more than 256 draws with a failed refill (out-of-bounds read) and for calls after a failure (fallback values without an error)"
 ],
 "C23": [
  "partial",
  "batches and shapes proved for any generator; output=False uses the sum of the shape tuple instead of the product: refuted for (2,3), proved where they agree"
 ],
 "C33": [
  "partial",
  "wrap_int, int_to_array, word arrays and byte-order views exact for all inputs; refuted for lists mixing elements below and above 2^63 (numpy turns them into doubles)"
 ],
 "C34": [
  "proved",
  "for every rounding function that is the identity on the format, hence every IEEE mode. A state that was assigned may hold anything: the DSFMT setter does not check the doubles (refuted)"
 ],
 "C61": [
  "partial",
  "proved below 2^31 elements, refuted from 2^31 on (int counter overflows)"
 ],
 "C44": [
  "partial",
  "arrays and Python integers: distinct seeds give distinct words; lists mixing values below and above 2**63, trailing zeros and all-zero arrays are refuted"
 ],
 "C45": [
  "partial",
  "proved for sizes with at least one element; a size with a zero axis raises IndexError (refuted)"
 ],
 "C46": [
  "proved",
  "both widths and all functions that do not raise; the unchecked bits argument and argument types are refuted"
 ],
 "C49": [
  "partial",
  "all integer output functions modelled; LCG128Mix with an even dxsm multiplier is refuted"
 ],
 "C62": [
  "partial",
  "Unix path proved, and Windows when a provider is acquired; failure to acquire one is ignored on Windows (refuted)"
 ],
 "C63": [
  "partial",
  "below 2**31 bytes; from there the int counter overflows (refuted)"
 ],
 "C16": [
  "partial",
  "the property fails for SFMT and for DSFMT: jump() forgets how much of the buffer was used, so that no number of draws describes it (refuted for every jump polynomial). At the end of a block the jump is 2^129 values: the stored strings are proved to be x^(2^128), ..., x^(2^144) on every sequence of the recurrence (for DSFMT, of doubles in [1, 2), which is what seeding gives)."
 ],
 "C60": [
  "proved",
  "both generators, at the end of a block and at every position inside one; the published recurrences are stated on 128-bit words"
 ],
 "C64": [
  "proved",
  "SSE2 recursion against the portable one; the Altivec and NEON versions are not modelled"
 ],
 "C41": [
  "partial",
  "calls that all hold the lock of the bit generator, or all hold the interpreter lock, serialise, for every number of threads and every interleaving; the state property and complex_normal of one value take no lock and race with array fills (refuted)"
 ],
 "C42": [
  "proved",
  "real arithmetic in place of doubles; the chi-square and normal draws are arbitrary values, chi-square ones not negative"
 ],
 "C43": [
  "partial",
  "exact for shapes without empty dimensions, the only ones that reach it from gamma, relation and loc; a pair of dimensions 0 and 1 is turned down (refuted)"
 ],
 "C52": [
  "partial",
  "the setters that read elements satisfy it; SPECK128, HC128 and EFIIX64 read the data pointer: proved for contiguous arrays, refuted for strided and reversed ones"
 ],
 "C65": [
  "partial",
  "proved for positive sizes that do not start with 1 when there is one mean and one matrix; otherwise a leading 1 is dropped and a size of 0 becomes 1 (refuted), in multivariate_complex_normal as well; its shape, defaults, rejections and number of factors are proved"
 ],
 "C66": [
  "partial",
  "proved without size and with a size that is not (); with size=() one vector of normals serves every mean (refuted)"
 ],
 "C67": [
  "partial",
  "multivariate_normal proved for svd, eigh and Cholesky of full rank; wishart uses the transposed factor, the pivots of the reduced-rank Cholesky are dropped, and an integer scale truncates the factor (refuted)"
 ],
 "C58": [
  "partial",
  "Proved for 23 classes with every field equal (C58_round_trip_partial; Squares only without a buffered half), and stream equality for LCG128Mix. Refuted: Squares loses a buffered half, LCG128Mix reseeds with the default multiplier, the state of numpy's SFC64 cannot be loaded. RDRAND keeps the retries only, as documented."
 ],
 "C68": [
  "proved",
  ""
 ],
 "C07": [
  "partial",
  "all four sizes, every key, counter and buffer position: proved for 0 <= delta < 2^(N*W) from a position inside a block, with the exact position reached for every delta, and for counter=True; refuted for negative delta (delta is reduced modulo 2^(N*W) where N*2^(N*W) is needed), for -1, and for a fresh 2-word generator (its position 4 lies past the block)"
 ],
 "C08": [
  "partial",
  "all four sizes, every key, counter and buffer position: proved for 0 <= delta < 2^(N*W) from a position inside a block, with the exact position reached for every delta, and for counter=True; refuted for negative delta (delta is reduced modulo 2^(N*W) where N*2^(N*W) is needed), for -1, and for a fresh 2-word generator (its position 4 lies past the block)"
 ],
 "C18": [
  "partial",
  "every field restored for all classes except: Squares keeps the target's buffered half (refuted), LCG128Mix is restored as a stream but not its multiplier and output function (refuted), MT64 at position 313 (refuted), RDRAND restores retries only (documented)"
 ],
 "C19": [
  "partial",
  "proved for PCG64, PCG64DXSM and RDRAND; refuted for every other class (fields are written before the later ones are checked)"
 ],
 "C20": [
  "partial",
  "construction, seeding, draws, advance and jump stay in bounds for every class with a buffer; the setters of Philox, ThreeFry, AES, SPECK128, MT19937, MT64, HC128, SFMT, DSFMT and Xorshift1024 accept positions outside (refuted)"
 ],
 "C21": [
  "partial",
  "proved for AES, SPECK128, ChaCha, Philox, ThreeFry, PCG32, PCG64, LCG128Mix, LXM, EFIIX64, Romu, JSF, Squares, MT19937 (both seeding modes), MT64, Xoshiro256, Xoshiro512, Xoroshiro128, SFMT, DSFMT (state), SFC64 halves; refuted for HC128 (stale words), Xorshift1024 (position kept), Tyche and Philox (after a rejected state assignment), and the stale buffers of SFMT and DSFMT"
 ],
 "C22": [
  "partial",
  "every interleaving, for every class with a 64-bit output, and the 64-from-32 rule for the classes with a 32-bit output; refuted for RDRAND, which drops the high half of every 32-bit draw"
 ],
 "C69": [
  "partial",
  "The array version accepts exactly the parameters with a positive semi-definite covariance and has the documented variances and covariance; the scalar version agrees with it wherever that accepts. Refuted for the scalar version at degenerate parameters: with one variance 0 and Im(relation) != 0 it returns numbers (with covariance 0) where the array version raises ValueError. Arithmetic is exact."
 ],
 "C70": [
  "partial",
  "Covariance, uniqueness, symmetry and views hold for every dimension. Matrices are selected rightly for one leading dimension. Refuted for stacks with a later leading dimension over 1: garr[i] indexes the first dimension only, so the call raises. The tolerance of np.allclose and the factorization are not modelled."
 ],
 "C71": [
  "partial",
  "Holds without size, and with a size the parameters broadcast to, when relation has as many elements as gamma + relation. Refuted: an array gamma of more than one element with a scalar relation (the default) always raises IndexError; and a size that the parameters do not broadcast to is accepted when it broadcasts with them, giving elements the parameters of other positions."
 ],
 "C72": [
  "partial",
  "Scalar and array checks agree for all constraints and values; accepted sets characterised for finite numbers, NaN and infinities. Refuted for -0.0, which the non-negative constraint rejects as \"< 0\" although it equals 0. Doubles are modelled as signed rationals, infinities and NaN; POISSON_LAM_MAX is taken as evaluated."
 ],
 "C73": [
  "partial",
  "Counts, order, splitting and the conditions on out hold for all shapes. Refuted: a Fortran-ordered out is filled in memory order, so out[i, j] is not random(size)[i, j]; an out that is no ndarray is cast unchecked (undefined behaviour); long double arrays of 2^31 elements or more overflow an int counter."
 ],
 "C74": [
  "partial",
  "Holds for parameters that broadcast to size, for constant arrays, scalars and constraints. Refuted: out is ignored when two or three parameters are arrays; a size the parameters do not broadcast to is accepted; an empty parameter with a size of one element is read out of bounds."
 ],
 "C75": [
  "partial",
  "Holds for every n with n + 71 < 2^64 and every address. Refuted at the end of the range: n + 71 and n * s wrap and a block that is too small is returned. That callers do not check for NULL is not modelled."
 ],
 "C76": [
  "partial",
  "Philox in NumPy-compatible seeding mode ignores the counter, in range or not (C76_philox_numpy_counter_refuted). Squares takes a seed and a key together without an error (C76_squares_seed_and_key_refuted) and a float counter only with a key (C76_squares_float_counter_refuted)."
 ],
 "C77": [
  "proved",
  "Philox, ThreeFry, AESCounter, SPECK128, LXM, Xorshift1024; the xoshiro classes are C10-C12 _jumped_streams_disjoint"
 ],
 "C78": [
  "proved",
  "Not claimed for the generators whose period is not known to be full or whose state is not visited entirely (MT19937, SFMT, DSFMT, JSF, SFC64, EFIIX64, HC128, ChaCha, Squares)."
 ],
 "C79": [
  "partial",
  "proved for accepted and rejected arguments and the mode of jumped generators; refuted: mode=None is documented but rejected; variant -1 and -2 are accepted (the sign is removed as a dash); PCG64 ignores inc, valid or not, when no seed is given; inc=2**128 (PCG64) and 2**64 (PCG32, documented as allowed) pass the check and raise OverflowError after the seed sequence has been replaced; the documented default inc=0 is not what is used; the aliases of xsl-rr are rejected with numpy_seed; LCG128Mix truncates non-integer inc; jumped() raises after a state with another variant was assigned in numpy mode; an unpickled MT19937 loses its numpy mode"
 ],
 "C80": [
  "partial",
  "proved for both layouts and for refusal of the others; refuted: the empty tuple raises IndexError, and a bad position leaves the new key with the old position"
 ],
 "C81": [
  "proved",
  "the published definitions are written in PubSpec.v independently of the code and checked on the published test vectors"
 ],
 "C82": [
  "partial",
  "Shapes, parameters and the one-to-one use of variates hold for all shapes with sizes given as int or tuple, and everything else raises. Refuted: a size given as a list is turned down when df or scale is an array; a scale that is not an ndarray then raises AttributeError; a matrix refused by check_valid='raise' with one df raises after the whole sample has been drawn; the first row of a larger sample is not the smaller sample; standard_wishart takes zero degrees of freedom (and divides 0 by 0). The factorization itself is C67."
 ],
 "C83": [
  "partial",
  "These sources are in the tree but setup.py does not compile them (the package links NumPy's copies). Refuted parts: 8-, 16- and 1-bit fills cannot be split (C83_split_refuted); a source without accepted words never returns (C83_stuck_refuted). The counts of words are exact numbers, not probabilities."
 ],
 "C84": [
  "partial",
  "hypergeometric.c and distributions.orig.c are in the tree but not compiled. The answers of random_interval are a list; C83 gives that they are uniform. Refuted: the array of random_multinomial must be zeroed by the caller and not empty (C84_multinomial_stale_refuted, C84_multinomial_empty_refuted)."
 ],
 "C85": [
  "partial",
  "Refuted part: the state does not carry the arguments w and k, so a restored (copied, unpickled) generator is seeded differently (C85_restored_reseed_refuted). Array arguments are not modelled."
 ],
 "C86": [
  "partial",
  "Proved for entropy that the caller does not change afterwards; C86_alias_refuted: a list or array is kept by reference, and changing it makes children and state disagree with the pool."
 ],
 "C87": [
  "proved",
  "gen_rand_array for every size, with the conversion loops (FillArr.v, FillC.v); a smaller array without assertions is shown to be written past its end. Little-endian only; the SIMD versions differ in the recursion only, which C60 relates to the scalar one."
 ],
 "C88": [
  "partial",
  "all claims proved; the misaligned 64-bit call without the assertion is shown to repeat bits (C88_sfmt_misaligned_refuted). Little-endian only; the gv_ functions, which do the same on a global state, are not modelled separately."
 ],
 "C89": [
  "proved",
  ""
 ],
 "C90": [
  "proved",
  "Objects other than numbers and None as parameters are not modelled."
 ],
 "C91": [
  "partial",
  "All but the last sentence is proved. The last sentence is refuted: the switches are global and seeding or making any object of the class turns them on again; use_sse41 = 2 is read as True but the portable code runs and 0.5 switches off; use_sse41 = None raises and switches on. A class whose false object has int() 1 is excluded by sv_ok (shown necessary)."
 ],
 "C92": [
  "partial",
  "In exact real arithmetic with exact log-factorials. All but the last sentence is proved. The last sentence is refuted: U = 0 with V = 1/2 gives nan, whose conversion to int64_t is undefined (shown to be the only case), and values more than 16 standard deviations above the mean are never returned. That the rectangle of the method covers the whole region (the choice of h) is not proved. The source file is not compiled by setup.py."
 ],
 "C93": [
  "partial",
  "exact reals instead of doubles, source not compiled by setup.py; refuted: geometric inversion returns 0 for U = 0, logseries converts infinity to an integer for V = 0 (undefined), binomial inversion never returns numbers above its bound"
 ],
 "C94": [
  "partial",
  "Python ints only (the text of bools, numpy integers and arrays is not modelled); refuted: a str entropy is shown without quotes (\"007\" gives no valid expression), and an integer with more digits than sys.get_int_max_str_digits() makes repr raise ValueError"
 ],
 "C95": [
  "partial",
  "exact reals instead of doubles, source not compiled by setup.py; refuted: X = 2^63 is not rejected by random_zipf and its conversion to int64_t is undefined"
 ],
 "C96": [
  "partial",
  "C96_beta_hangs_refuted: with powers below 2^-1075 rounded to 0, random_beta never returns for a, b <= 1e-20; the branch meant for this case is dead (C96_beta_dead). That accepted pairs have the beta law is not proved."
 ],
 "C97": [
  "proved",
  "Over the real numbers; the normal and exponential numbers are taken to have their distributions."
 ],
 "C98": [
  "partial",
  "C98_stirling_refuted: the Stirling corrections of y! and (n-y)! are added instead of subtracted, so Step52 accepts v above the ratio (n = 200, p = 1/2, y = 121). C98_undefined_refuted: minus infinity is converted to an integer when v = 0. Proved about the proposal: the maps of the parallelograms and the tails keep areas, and parallelograms and tails are covered once (C98_area, C98_parallelograms, C98_left_tail, C98_right_tail). C98_digits_refuted: the first Stirling coefficient has 13680 for 13860. Not proved: the law in the triangle, and that the hat lies above the binomial probabilities. C98_setup and the constants in C98_step52 only repeat the constants of the source, as a check of the transcription."
 ],
 "C99": [
  "partial",
  "C99_undefined_refuted: when the first uniform number is 0, minus infinity is converted to an integer. Proved for the last test, with loggam taken as exact; that the two quick tests (lines 685 and 688) leave the law unchanged and that the acceptance bound is at most 1 are not proved."
 ],
 "C100": [
  "proved",
  "Over the reals; the law is stated by the determinant of the partial derivatives (C100_partials, C100_law) with C100_injective and C100_onto. The theorem on change of variables in integrals itself is not formalised."
 ]
}