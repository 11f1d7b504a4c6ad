# Formal model of randomgen: design

Source: `/repo` (bashtage/randomgen, pinned commit), read as text, never built
or run. Proof assistant: Coq 8.16.1, standard library only. Everything is in
`rocq/theories`, listed in `rocq/_CoqProject`. `properties.jsonl` states the
properties, `MANIFEST.json` says which theorems claim which property,
`seeded/LOG.jsonl` records wrong programs the theorems were tried on.
There `caught` means that the build failed with the edited model, and `failed` lists the first item that failed in each file (the
compiler stops there). A proof script can fail although the statement is still true of the edited model; whether that was so
was not examined entry by entry, only where a note says so. `dependent_theorems` follows names in the sources from the
failed items and is an estimate. `survived` means that everything still compiled; the note gives the reason.

## 1. Conventions of the model

* An unsigned machine word of `w` bits is an `N` below `2^w` (`wf w x`); every
  operation that can wrap is written with an explicit `mod 2^w` (`trunc`,
  `wadd`, `wmul`, `wshl`, ...). 128-bit words are `N` below `2^128`.
* A C struct is a Coq record; a function that mutates through a pointer
  returns the new record with its result. C arrays are lists, read with
  `rd l i : option N` (`i : Z`).
* Python integers are `Z`, Python objects a small datatype `pyval` (`Py.v`),
  property setters are programs in a state-and-exception monad: when they
  raise, the fields assigned so far stay assigned.
* An index out of bounds, a shift by the width, a signed overflow, a failed
  `assert` and a division by zero in C are the distinct outcome `None` (or
  `UB`), never a default value. Running out of fuel is an error value too.
* A Python exception is the distinct outcome `Raise e`.
* Where C leaves the order of evaluation open (`next() << 32 | next()`) the
  order is a parameter `lr : bool`; theorems hold for both or say for which.
* `Prop*.v` hold the theorems (short proofs), `Example`s showing that the
  hypotheses can be met, and `Print Assumptions`. Names are
  `Cnn_subject_claim`. `..._refuted`: proved counterexample, the code
  violates the property there. `..._partial`: the proved part of a property.
* Statements use their own definitions (`published`, `starts`, `moves`, ...)
  rather than the model's helpers whenever that is possible.

## 2. Files

| model | /repo | facts and properties |
|---|---|---|
| `Word` `Arr` `MultiWord` | C words, arrays, little-endian multi-word numbers | same files |
| `Py` `PyLoop` `Half` | dictionaries, exceptions, C conversions, setters shared by the classes | same files |
| `Buffer32` `OptBuffer` | the 32-bit half buffer copied into each header | refinement to a bit queue, for any generator |
| `Common` `Convert` | common.pyx: `wrap_int`, `object_to_int`, `int_to_array`, `check_state_array`, `random_raw` | `PropConvert` |
| `Doubles` | double, float, long double conversion, for every rounding function that fixes the format's numbers | `PropConvert` |
| `SeedSeq` | _seed_sequence.pyx | `SeedSeqFacts`, `SeedSpawn`, `PropSeedSeq`, `PropSeed` |
| `SSeqPy` | SeedSequence as a Python object: kinds of entropy, strings, None, state, spawn; SeedlessSeedSequence | `SSeqPyLem`, `PropSSeqPy` |
| `SSeqRepr` | SeedSequence.__repr__ for Python ints and strings | `PropSSeqRepr` |
| `FillArr` `FillC` `GenRand` | gen_rand_array and the fill_array functions of SFMT and dSFMT, every size; the inline functions of sfmt.h and dsfmt.h | `PropFillArr`, `PropGenRand` |
| `Lcg` `Pcg` `Emul128` | src/pcg32, src/pcg64, lcg128mix, pcg*.pyx; the emulated 128-bit arithmetic | `PcgFacts`, `PcgSeed`, `LcgMixFacts`, `PropPcg`, `PropJumpLin`, `PropOut` |
| `Ctr` `CtrPy` `Blocks` `MulHilo` | src/philox, src/threefry and their classes | `CtrFacts`, `PropCtr`, `PropJumpDoc` |
| `LaneCtr` `Aes` `AesPy` `Speck` | src/aesctr, src/speck-128 (scalar, SSE/AVX, AES-NI) | `PropLane` |
| `ChaCha` | src/chacha, scalar and SIMD | `PropChaCha` |
| `Xoshiro` | xoshiro256, xoshiro512, xoroshiro128, xorshift1024, LXM | `Gf2`, `XoshiroLin`, `BitSlice`, `Limb`, `Period*`, `Order`, `Primes`, `XoshiroFacts`, `Xorshift*`, `PropXoshiro` |
| `Sfc` `Weyl` `Jsf` `Romu` `Efiix` `Tyche` `Squares` | the small generators and their classes | `SfcFacts`, `SquaresFacts`, `PropSfc`, `PropSmall`, `PropSquares` |
| `Hc128` `Hc128Py` | src/hc-128, hc128.pyx | `Hc128Facts`, `PropHc128`, `PropHc128Py` |
| `Mt19937` `Mt19937Poly` `Mt64` | src/mt19937, src/mt64 | `Mt19937Facts`, `MtChar`, `MtJump`, `Mt64Facts`, `PropMt19937`, `PropMtJump`, `PropMt64` |
| `Lagged` `LaggedBuf` `JumpN` `SfmtSeed` `Lanes` `Sfmt` `Dsfmt` | src/sfmt, src/dsfmt, scalar and SSE2 | `SfmtFacts`, `DsfmtFacts`, `PropSfmt`, `PropDsfmt` |
| `PolyText` `SfmtPoly` `DsfmtPoly` | the strings of sfmt-poly.h and dSFMT-poly.h and the loops that read them | `Poly63`, `PolyK` (arithmetic), `LinCert` (method), `SfmtCert`, `DsfmtCert` (data), `SfmtChk`, `DsfmtChk` (checks), `SfmtJump`, `DsfmtJump`, `PropSfmtJump`, `PropDsfmtJump` |
| `Rdrand` | src/rdrand, the instruction as an oracle | `PropRdrand` |
| `Entropy` `Wrapper` `WrapPy` | entropy.pyx, src/entropy, wrapper.pyx | `PropEntropy`, `PropWrapper`, `PropWrapPy` |
| `Shape` `Mcn` | broadcasting of shapes, `size` of multivariate_normal and multivariate_complex_normal | `PropShape` |
| `SfcPy` | SFC64: constructor arguments, seed() and state on the object | `PropSfcPy` |
| `WishPy` | wishart and standard_wishart: arguments, shapes, which df, matrix and variate each element gets | `PropWishPy` |
| `Bounded` `BoundedLem` `HyperLem` | bounded integers, hypergeometric_sample and random_multinomial of the uncompiled `distributions.orig.*` and `hypergeometric.c` | `PropBounded` `PropHyper` |
| `Hrua` | hypergeometric_hrua and random_hypergeometric of the same, over the reals | `PropHrua` |
| `InvDist` | samplers by inversion or search of `distributions.orig.c`, over the reals | `PropInvDist` |
| `Zipf` | random_zipf and random_wald of the same, over the reals | `PropZipf` |
| `Reject` | random_vonmises, random_beta (Johnk) and random_binomial of the same, over the reals | `PropReject` |
| `Gamma` | standard_gamma_zig of the same, over the reals | `PropGamma` |
| `Btpe` | random_binomial_btpe of the same, over the reals | `PropBtpe`, `PropBtpeLaw` |
| `Ptrs` | random_poisson_ptrs and random_poisson of the same, over the reals | `PropPtrs` |
| `Polar` | legacy_gauss and random_gauss (polar method), over the reals | `PropPolar` |
| `Bench` | BitGenerator._benchmark of common.pyx | `PropBench` |
| `Wishart` | generator.pyx: wishart, standard_wishart, multivariate_normal, over the reals | `PropWishart` |
| `Complex` | generator.pyx: complex_normal, multivariate_complex_normal, over the reals | `PropComplex` |
| `BCast` | common.pyx/generator.pyx: parameter checks, `uintegers`, `random`, `cont`, `disc` and their fills | `PropBCast` |
| `Align` | src/aligned_malloc | `PropAlign` |
| `Count` | nothing of the code: how many numbers below n satisfy a predicate | `PropEqui`, `PropEquiLin`, `PropEquiBlk` |
| `Conc` | locks and the interpreter lock, any interleaving of threads | `PropConc` |
| `Layout` | strides of arrays in state dictionaries | `PropLayout` |
| `Pickle` | the class registry, `__reduce__`, `__getstate__`, foreign states | `PropPickle` |
| `MtSeed` | the seeding loops of MT19937 and MT64 in closed form, with their inverse | `PropMtSeed` |
| `SqSeed` | seed(seed, counter, key) and construction of Squares | `PropSqSeed` |
| `Reseed` | the writes of seed() into the memory of a used object: Philox, ThreeFry, the Mersenne twisters, PCG, xoshiro | `PropReseed` |
| `PubSpec` `PubFacts` | nothing of the code: Philox, Threefry, AES-128, SPECK128/256 and ChaCha as published; the model computes them | `PropPub` |
| `PcgInit` | mode, numpy_seed, variant and inc arguments of the constructors and of seed(); the tuple form of the MT19937 state | `PropPcgInit` |
| `Simd` | src/common/cpu_features.c and the switches use_aesni, use_sse41, use_simd | `PropSimd` |
| `SeedPy` `CtorPy` | seed(seed, counter, key) and the constructors of the counter generators | `PropSeedPy`, `PropCtor` |
| `CtrDraw` `HalfFacts` | 32- and 64-bit draws of the counter generators; half buffers | `PropHalf` |
| `Kat` | tests/data | first values of the test data by computation: checks of the transcription, not claims |

## 3. How the properties are proved

* Advance (C01, C02, C05-C09, C47): the square-and-multiply loop or the carry
  chain is related to `n`-fold iteration by an invariant; the buffered
  generators refine a position in an abstract stream.
* Full period (C03): Hull-Dobell for power-of-two moduli, by induction on the
  width. Linear generators: 2^n - 1 is factored, every factor proved prime by a
  checked certificate, and x^(F/q) compared with 1 modulo an annihilating
  polynomial that is checked on a basis.
* Equidistribution (C78): the states (or tuples of consecutive values, or blocks
  with one word moved to the front) of one period are numbered; the numbering is
  a permutation (or misses only 0), so a count over the period is a count over
  an interval, and that factors into words.
* Jumps (C10-C14): jump polynomial = x^(2^k) modulo the annihilating
  polynomial, by computation; lifted to every state by linearity.
* C15, C48 for MT19937: the characteristic polynomial is obtained from the
  recurrence by elimination (`MtJump.elim`); polynomials are kept in powers of
  T = x^624 + x^397, in which it has 16 terms, and the stored strings are
  compared with x^(2^k) by repeated squaring. What a jump does to the array is
  proved for every polynomial.
* C16, C17, C48, C55 for SFMT and DSFMT: what a jump does to the array is proved for every
  polynomial, and what the code does not do is refuted for every polynomial and distance.
  The stored strings: `SfmtCert` gives a polynomial chi of degree 19968 (156 * 128) and 128
  polynomials h_k; `SfmtChk` checks that the words whose bit k is h_k(shift) applied to a sequence of
  bits annihilated by chi satisfy the recurrence. h_0 = 1, so the map from such sequences to
  the first 156 words is injective; both sides have 19968 bits, so it is onto
  (`LinCert.ann_onto`): every sequence of the recurrence is of this form. Then x^(2^128)
  modulo chi is reached by 114 squarings with given quotients, compared with the string, and so on.
  DSFMT: degree 19993 = 191 * 104 + 128 + 1; the constant exponent bits are the extra bit.
  The certificates were made outside Coq; nothing but the checks depends on them.
* State (C18-C21): the setter is run on the getter's dictionary; counterexamples
  are concrete dictionaries or families of them.
* C24, C35, C49: explicit inverses. C36, C51, C53, C64: the SIMD programs are
  modelled with the vendor's definition of each instruction.
* C22, C23: refinement to a queue by induction over the list of requests.
* C28-C32: the hash steps are inverted; induction over spawn histories.
* C59, C60, C50: refinement of the block programs to the published one-step
  recurrence, stated on infinite sequences.

## 4. Modelled and not modelled

Modelled: every bit generator of the package: step, output functions, 32- and
64-bit draws, doubles, seeding from the words of a SeedSequence, state getter and setter, advance,
jump and jumped, `SeedSequence`, `random_raw`, `UserBitGenerator`,
`entropy.pyx`, the conversions in `common.pyx`; of the distribution sources that setup.py does not compile
(`distributions.orig.c`, `distributions.orig.h`, `hypergeometric.c`) the integer algorithms: bounded integers, random_interval,
hypergeometric_sample, random_multinomial; and over the reals hypergeometric_hrua and the samplers by inversion (exponential,
uniform, Pareto, Weibull, power, Laplace, Gumbel, logistic, Rayleigh, triangular, geometric, Poisson by multiplication,
binomial by inversion, logarithmic series), random_zipf, random_wald, random_vonmises, random_beta for a, b <= 1, standard_gamma_zig, random_binomial_btpe, random_poisson_ptrs and random_gauss. Simplifications are noted at each definition.

Not modelled: of `generator.pyx` the ufunc-like distribution code that calls into
NumPy's C library, rounding in the real-valued functions (exact real arithmetic
instead), `multivariate_normal`'s factorizations (any factor with the defining
property); `mtrand.pyx` (stubs that raise); big-endian machines; Altivec, NEON and MSVC intrinsics; the
deprecation warnings and text of exceptions; of the uncompiled sources the real-valued samplers
not named above (ziggurat normals, noncentral distributions, loggam and others); `repr` other than SeedSequence's; ctypes and CFFI
interfaces; memory allocation
failure. NumPy is taken at its documented behaviour (dtypes of
`np.array`, wrapping of fixed-width arithmetic, `astype` with `casting`).

## 5. Trusted base

* Coq's kernel, including its virtual machine (`vm_compute`); `coqchk`
  re-checks everything without it.
* `Print Assumptions`: 'Closed under the global context' for all theorems but
  three groups. (1) Those about the linear generators Xoshiro256, Xoshiro512, Xoroshiro128,
  Xorshift1024 and LXM (C10-C14 and their C24 and C26 theorems) list
  the machine integers `PrimInt63.int`, `add`, `sub`, `lsl`, `lsr`, `land`,
  `lor`, `lxor`, `eqb`, `ltb`, `leb` and the standard library's
  specification of them (`Uint63.of_to_Z`, `eqb_refl`, `eqb_correct`, `ltb_spec`,
  `leb_spec`, `add_spec`, `sub_spec`, `lsl_spec`, `lsr_spec`, `land_spec`,
  `lor_spec`, `lxor_spec`). (2) Those that use the stored polynomials of SFMT and DSFMT
  (C16, C17, C48, C55 in `PropSfmtJump` and `PropDsfmtJump`) list these without `add`, and `addmuldiv` with
  `Uint63.addmuldiv_def_spec`, and the persistent arrays of the standard library: `PArray.array`, `make`,
  `get`, `set`, `length` with `get_set_same`, `get_set_other`, `length_set`, `length_make`. (3) Theorems over the reals in C42, C67, C69, C70, C71, C92, C93 and C95 to C100
  list some or all of `ClassicalDedekindReals.sig_not_dec`, `sig_forall_dec`,
  `FunctionalExtensionality.functional_extensionality_dep`; those of C92, C93 and C95 to C100 that use logarithms or square roots also
  `Classical_Prop.classic`.
  The other axioms in the gate's list (`ssr` rewriting, further `Uint63`
  lemmas, the interface of the reals) come with the library files that are loaded and are not used
  by any theorem.
* The reading of the C and Cython source in the comment above each definition.
* The statements themselves, in the `Prop*.v` files.

## 6. Findings

Each is proved; the theorem is in parentheses.

Advance and jump
* Philox and ThreeFry: `advance` of a negative number, of -1 to a counter of 0,
  and on a fresh generator of the 2-word variants do not move to the right
  place (C07_*_refuted, C08_*_refuted).
* AESCounter and SPECK128 keep the buffered 32-bit half on `advance(0)`, against
  the documentation (C05/C06_*_advance_zero_keeps_half_refuted).
* Squares, 32-bit variant: `advance(n)` is n 32-bit draws, not n raw draws; the
  documented jump length is wrong (C09_squares32_advance_refuted,
  C55_squares_documented_jump_refuted).
* `chacha_advance` in C is wrong at block boundaries and when
  `idx + delta` wraps (C47_chacha_c_advance_*_refuted); the class documents
  advance and jump but has neither.
* MT19937: `jumped()` reads the ring that it computed as if it started at
  position 0; no distance describes it (C15_mt19937_jumped_refuted,
  C17_mt19937_jumped_16_refuted). With three of the five polynomials the first output
  after the jump depends on bits of the array that are otherwise unused
  (C15_mt19937_dead_bits_refuted): equal generators differ after a jump.
* SFMT, DSFMT: `jump` forgets the position in the buffer, so generators k
  draws apart are together after a jump (C16_*_refuted); with the stored
  polynomials the length is 2^129 values, not 2^128 (C55_*_jump_length).
* Docstrings `2**(128*iter)` should be `iter * 2**128` (C10-C12
  `_docstring_refuted`, C17_pcg64_jumped_docstring_refuted, C55_lxm_*, C55_xorshift1024_*).
* Philox and ThreeFry: a jump skips N * 2^(W*N/2) values; `jump` documents 2^(W*N/2) and
  `jumped` 2^(2*W) (C55_philox_documented_jump_refuted, C55_threefry_documented_jump_refuted).
* RDRAND: `jumped` loses `retries` (C17_rdrand_jumped_retries_refuted).
* LCG128Mix: `jumped` and re-seeding after a restore use the wrong multiplier
  or increment (C18_lcg128mix_*_refuted).

Memory safety, through a state dictionary that the setter accepts (C20)
* Philox, ThreeFry `buffer_pos` and `number`; AESCounter and SPECK128 `offset`; SPECK128
  `rounds`; Xorshift1024 `p`; MT19937 and MT64 `pos`; HC128 position; SFMT
  and DSFMT `buffer_loc`; SFMT `idx` with assertions on.
* RDRAND buffer overrun (C40_out_of_bounds_refuted).
* JSF with p = 0 or q = 0 shifts by the word size (C39_*_refuted).

State
* No setter of the 64-bit classes is atomic: a rejected dictionary leaves a
  mixture (C19_*_refuted, 21 classes).
* Squares does not restore the half buffer (C18_squares_half_refuted); MT64
  drops pos 313 (C18_mt64_position_313_refuted).
* SPECK128 with unequal key halves and DSFMT with numbers outside [1, 2) are
  accepted (C36_speck_state_halves_refuted, C34_dsfmt_setter_unchecked_refuted).
* Re-seeding: HC128 and Tyche keep old data, SFMT and DSFMT keep the old
  buffer in the state dictionary, Xorshift1024 keeps p (C21_*_refuted).

Seeds and parameters
* PCG, LXM, SFC64 accept even increments (C03, C27, C56 `_refuted`); LCG128Mix
  accepts an even DXSM multiplier, which merges states (C49_dxsm_even_refuted).
* MT19937 and MT64 are seeded by a 2^32 to 1 (2^64 to 1) map: the array word 0 is mixed into word 1 of the state, which the last step of the same loop mixes again with the last array word (C25 `_refuted`).
* Romu seeds two inputs alike and trio has a dead seed (C25, C57 `_refuted`).
* Xoroshiro128 can be seeded with zeros (C32_xoroshiro128_zero_refuted).
* SeedSequence: trailing zeros, long entropy equal to a child's, negative
  `spawn`, wide spawn keys (C28, C29, C31 `_refuted`).
* `weyl_increments`: end point, non-termination, counts (C37_*_refuted);
  Squares `generate_keys`: zero digit, sampler overrun (C38_*_refuted).
* `seed_by_array`: lists that mix small and large numbers are rounded, n = 0 (C44_*_refuted).
* Lists of integers as counter or key are rounded (C33_list_argument*_refuted).

Other
* Unsequenced draws: ChaCha, HC128, Tyche, JSF32, MT19937, Squares32 give
  compiler-dependent 64-bit values (C54_*_refuted).
* `random_raw(size, output=False)` draws sum(size), not prod(size) values
  (C23_no_output_refuted).
* `random_entropy`: empty size, failure on Windows gives zeros, fallback
  overflows (C45, C62, C63 `_refuted`).
* `UserBitGenerator` does not check that draws fit (C46_bits_unchecked_refuted), and from_ctypes not the arguments of
  the functions (C46_argtypes_refuted).
* The long double fill counts in an `int`: undefined from 2^31 elements on
  (C61_long_double_fill_refuted).
* RDRAND retries and fallback values (C40_*_refuted).
* RDRAND drops the high half of every 32-bit draw (C22); 64-bit numbers of PCG32 and of Philox and
  ThreeFry with 32-bit words depend on the compiler (C54_*_refuted).
* The setters of SPECK128, HC128 and EFIIX64 read the data pointer of a strided array (C52_*_refuted).
* Pickling loses Squares' half, LCG128Mix's multiplier; NumPy's SFC64 state is turned down (C58_*_refuted).
* Philox seeded in NumPy's way ignores `counter` (C76_philox_numpy_counter_refuted).
* Squares takes a seed and a key together, takes a float counter with a key only, and a seed() that raises has moved
  the counter (C76_squares_*_refuted, C21_squares_failed_seed_refuted).
* A rejected state assignment changes the variant Philox is later seeded as (C21_counter_reseed_refuted).
* `mode=None` is rejected, variants -1 and -2 are accepted; PCG64 ignores `inc` without a seed; `inc` = 2^128 (PCG64)
  and 2^64 (PCG32) raise OverflowError after the seed sequence was replaced; the default `inc` is not 0; LCG128Mix truncates
  `inc`; aliases of xsl-rr are rejected with `numpy_seed`; jumped() can raise; an unpickled MT19937 is seeded
  another way (C79_*_refuted).
* MT19937's tuple form: empty tuple, half-written state (C80_*_refuted).
* wishart with an array of df or scale refuses a list as size and, with AttributeError, a scale that is no
  ndarray; with one df and one matrix it draws the whole sample before it refuses the matrix;
  standard_wishart takes df=0 (C82_*_refuted).
* In the uncompiled distribution sources: small-integer fills drop the rest of their buffer, random_multinomial
  leaves old counts in an array that is not zeroed and writes before an empty one (C83_*_refuted, C84_*_refuted).
* hypergeometric_hrua (also not compiled) converts nan to an integer when U = 0 and V = 1/2 are drawn together, and cuts
  the upper tail off at 16 standard deviations (C92_*_refuted).
* random_geometric_inversion (also not compiled) returns 0, outside the support, when the uniform number is 0
  (C93_geometric_zero_refuted).
* random_logseries (also not compiled) tests V == 0 only after converting log(0)/log(q) to an integer
  (C93_logseries_zero_refuted).
* random_binomial_inversion (also not compiled) never returns numbers above its bound, which have positive probability
  (C93_binomial_tail_refuted).
* random_zipf (also not compiled) rejects X > (double)RAND_INT_MAX, which is 2^63: X = 2^63 itself is converted to int64_t,
  which is undefined (C95_zipf_undefined_refuted).
* `random_beta` (distributions.orig.c:535-556) for a, b <= 1 retries when X + Y = 0, so the branch with logarithms
  for that case is never taken (C96_beta_dead); for a, b <= 1e-20 the powers of all doubles underflow and the function never returns
  (C96_beta_hangs_refuted). The comment at line 541 speaks of U and V being 0, the test is on their powers.
* `random_binomial_btpe` (distributions.orig.c:836-846): the last test compares log v with an approximation of
  log (f(y) / f(m)) in which the Stirling corrections for y! and (n - y)! have the wrong sign, so too large v are accepted
  (C98_stirling_refuted: 0.3 percent for n = 200, p = 1/2, y = 121). Lines 784 and 792 convert an infinity to an integer
  before v = 0 is rejected, which is undefined (C98_undefined_refuted).
  The correction term itself has 13680 for 13860 = 166320 / 12, so it differs from the Stirling series by 1 / (924 z)
  (C98_digits_refuted); the other coefficients agree with the series.
* `random_poisson_ptrs` (distributions.orig.c:684) divides by us, which is 0 when the first uniform number is 0, and converts
  minus infinity to an integer, which is undefined (C99_undefined_refuted). The comment at line 692 only considers the logarithm.
* A copied or unpickled SFC64 is seeded without the w and k of the original (C85_restored_reseed_refuted).
* repr() of a SeedSequence shows a string entropy without quotes, which may not be a valid expression, and raises
  ValueError for integers with more digits than `sys.get_int_max_str_digits()` (C94_*_refuted).
* A list or array given to SeedSequence as entropy is kept by reference: if the caller changes it, the children
  spawned later and the state property no longer belong to the pool (C86_alias_refuted).
* Without assertions sfmt_genrand_uint64 after an odd number of 32-bit calls returns bits already given (C88_sfmt_misaligned_refuted).
* use_aesni, use_sse41 and use_simd are global and seeding or making any object turns them on again; use_sse41=2 is read
  as True but not obeyed, None raises TypeError and switches on (C91_*_refuted).
* Aligned allocation wraps for sizes near 2^64 (C75_*_refuted).

Generator
* The state property and complex_normal of one value take no lock (C41_*_refuted).
* Shapes with dimensions 0 and 1 are turned down (C43); multivariate_normal drops a leading 1 of
  `size` and turns 0 into 1 (C65), and uses one vector for all means with size=() (C66).
* wishart uses the transposed factor, drops the pivots of the reduced-rank Cholesky and truncates
  with an integer scale (C67_*_refuted).
* complex_normal: the scalar version accepts degenerate parameters the array version rejects
  (C69); an array gamma with a scalar relation always raises IndexError, an unsuitable
  size is not turned down (C71); multivariate version indexes only the first dimension (C70).
* -0.0 is rejected as negative (C72); a Fortran-ordered `out` is filled in memory order, an `out`
  that is no array is undefined (C73); `out` is ignored with two or three array parameters,
  and an empty parameter is read out of bounds (C74).
