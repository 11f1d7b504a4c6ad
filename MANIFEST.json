{
 "claims": [
  {
   "property": "C01",
   "status": "proved",
   "theorems": [
    "C01_pcg64_advance_is_draws",
    "C01_pcg64_advance_any_int",
    "C01_pcg64_advance_negative_undoes_draws",
    "C01_pcg64_advance_composes",
    "C01_lcg128mix_advance_any_int",
    "C01_lcg128mix_advance_composes"
   ],
   "note": "all variants of PCG64/PCG64DXSM and LCG128Mix, every integer delta"
  },
  {
   "property": "C02",
   "status": "proved",
   "theorems": [
    "C02_pcg32_advance_is_draws",
    "C02_pcg32_advance_any_int",
    "C02_pcg32_advance_negative_undoes_draws",
    "C02_pcg32_advance_composes"
   ],
   "note": "every integer delta"
  },
  {
   "property": "C03",
   "status": "proved",
   "theorems": [
    "C03_pcg64_full_period",
    "C03_pcg32_full_period",
    "C03_pcg64_full_period_odd_inc",
    "C03_even_increment_refuted"
   ],
   "note": "seeded generators; a state dictionary with an even increment is refuted"
  },
  {
   "property": "C04",
   "status": "proved",
   "theorems": [
    "C04_emulated_add",
    "C04_emulated_mult",
    "C04_emulated_mult64",
    "C04_emulated_advance",
    "C04_emulated_stream_is_native_stream"
   ],
   "note": "portable (non-MSVC) emulation"
  },
  {
   "property": "C05",
   "status": "proved",
   "theorems": [
    "C05_aes_seeded_stream",
    "C05_aes_advance_is_drawing",
    "C05_aes_advance_negative",
    "C05_aes_advance_position",
    "C05_aes_advance_zero_keeps_half_refuted"
   ],
   "note": "every live state, every integer delta; the remark that advance resets the buffered half is refuted for delta = 0 mod 2**129"
  },
  {
   "property": "C06",
   "status": "proved",
   "theorems": [
    "C06_speck_seeded_stream",
    "C06_speck_advance_is_drawing",
    "C06_speck_advance_negative",
    "C06_speck_advance_position",
    "C06_speck_advance_zero_keeps_half_refuted"
   ],
   "note": "every live state and 1..34 rounds, every integer delta; same remark refuted"
  },
  {
   "property": "C07",
   "status": "partial",
   "theorems": [
    "C07_philox_seeded_stream",
    "C07_philox_advance_partial",
    "C07_philox_advance_clears",
    "C07_philox_advance_position",
    "C07_philox_advance_negative_refuted",
    "C07_philox_advance_minus_one_refuted",
    "C07_philox2_fresh_advance_refuted",
    "C07_philox_advance_counter_partial",
    "C07_philox_advance_counter_minus_one_refuted"
   ],
   "note": "all four sizes, every key, counter and buffer position: proved for 0 <= delta < 2^(N*W) from a position inside a block, with the exact position reached for every delta, and for counter=True; refuted for negative delta (delta is reduced modulo 2^(N*W) where N*2^(N*W) is needed), for -1, and for a fresh 2-word generator (its position 4 lies past the block)"
  },
  {
   "property": "C08",
   "status": "partial",
   "theorems": [
    "C08_threefry_seeded_stream",
    "C08_threefry_advance_partial",
    "C08_threefry_advance_clears",
    "C08_threefry_advance_position",
    "C08_threefry_advance_negative_refuted",
    "C08_threefry_advance_minus_one_refuted",
    "C08_threefry2_fresh_advance_refuted",
    "C08_threefry_advance_counter_partial",
    "C08_threefry_advance_counter_minus_one_refuted"
   ],
   "note": "all four sizes, every key, counter and buffer position: proved for 0 <= delta < 2^(N*W) from a position inside a block, with the exact position reached for every delta, and for counter=True; refuted for negative delta (delta is reduced modulo 2^(N*W) where N*2^(N*W) is needed), for -1, and for a fresh 2-word generator (its position 4 lies past the block)"
  },
  {
   "property": "C09",
   "status": "partial",
   "theorems": [
    "C09_squares64_advance",
    "C09_squares_advance_adds",
    "C09_squares32_advance_partial",
    "C09_squares32_advance_refuted",
    "C09_squares_counters_distinct"
   ],
   "note": "64-bit variant: every state and delta. 32-bit variant: advance(n) is n 32-bit draws (proved), so it is not n raw draws (refuted)"
  },
  {
   "property": "C10",
   "status": "proved",
   "theorems": [
    "C10_xoshiro256_jumped",
    "C10_xoshiro256_jump_inplace",
    "C10_xoshiro256_period",
    "C10_xoshiro256_jumped_streams_disjoint",
    "C10_xoshiro256_jumped_docstring_refuted"
   ],
   "note": "every state; also the exact period and disjointness of jumped streams; the docstring's 2**(128*iter) is refuted"
  },
  {
   "property": "C11",
   "status": "proved",
   "theorems": [
    "C11_xoshiro512_jumped",
    "C11_xoshiro512_jump_inplace",
    "C11_xoshiro512_period",
    "C11_xoshiro512_jumped_streams_disjoint",
    "C11_xoshiro512_jumped_docstring_refuted"
   ],
   "note": "every state; also the exact period and disjointness of jumped streams; the docstring's 2**(256*iter) is refuted"
  },
  {
   "property": "C12",
   "status": "proved",
   "theorems": [
    "C12_xoroshiro128_jumped",
    "C12_xoroshiro128_jump_inplace",
    "C12_xoroshiro128_period",
    "C12_xoroshiro128_jumped_streams_disjoint",
    "C12_xoroshiro128_jumped_docstring_refuted"
   ],
   "note": "both variants; also the exact period and disjointness of jumped streams; the docstring's 2**(64*iter) is refuted"
  },
  {
   "property": "C13",
   "status": "proved",
   "theorems": [
    "C13_xorshift1024_jump_inplace",
    "C13_xorshift1024_period",
    "C13_xorshift1024_value_from_window",
    "C13_xorshift1024_state_period"
   ],
   "note": "every state with 0 <= p < 16; also the exact period"
  },
  {
   "property": "C14",
   "status": "proved",
   "theorems": [
    "C14_lxm_lcg_jump_is_identity",
    "C14_lxm_jumped",
    "C14_lxm_jump_inplace",
    "C14_lxm_period"
   ],
   "note": "every state; also the exact period for odd b"
  },
  {
   "property": "C15",
   "status": "partial",
   "theorems": [
    "C15_mt19937_jump_is_polynomial",
    "C15_mt19937_jumped_refuted",
    "C15_mt19937_first_outputs_partial",
    "C15_mt19937_polynomials",
    "C15_mt19937_polynomials_132_136",
    "C15_mt19937_dead_bits_refuted",
    "C15_mt19937_jumped_outputs_partial"
   ],
   "note": "refuted as stated for every jump polynomial of the code and every distance: the jumped array is a ring starting at pos but is drawn from as a block starting at 0; and for three of the five polynomials the first output depends on bits that are otherwise unused (C15_mt19937_dead_bits_refuted). Proved: the stored polynomials are x^(2^k) modulo the characteristic polynomial, so that the jumped ring holds the sequence 2^k words on (all but those bits), and the first 624-pos' outputs"
  },
  {
   "property": "C16",
   "status": "partial",
   "theorems": [
    "C16_dsfmt_jump_ignores_position",
    "C16_dsfmt_draws_within_a_block",
    "C16_dsfmt_jump_is_no_number_of_draws_refuted",
    "C16_dsfmt_jump_any_polynomial",
    "C16_dsfmt_stored_polynomials",
    "C16_dsfmt_strings_are_hexadecimal",
    "C16_dsfmt_jump_at_block_end",
    "C16_sfmt_jump_ignores_position",
    "C16_sfmt_draws_within_a_block",
    "C16_sfmt_jump_is_no_number_of_draws_refuted",
    "C16_sfmt_jump_any_polynomial",
    "C16_sfmt_stored_polynomials",
    "C16_sfmt_strings_are_hexadecimal",
    "C16_sfmt_jump_at_block_end"
   ],
   "note": "the property fails for SFMT and for DSFMT: jump() forgets how much of the buffer was used, so that no number of draws describes it (refuted for every jump polynomial). At the end of a block the jump is 2^129 values: the stored strings are proved to be x^(2^128), ..., x^(2^144) on every sequence of the recurrence (for DSFMT, of doubles in [1, 2), which is what seeding gives)."
  },
  {
   "property": "C17",
   "status": "partial",
   "theorems": [
    "C17_philox_jump",
    "C17_threefry_jump",
    "C17_philox_jump_composes",
    "C17_threefry_jump_composes",
    "C17_dsfmt_jumps_add_any_polynomials",
    "C17_dsfmt_jumps_add",
    "C17_dsfmt_seeded_jumps_add",
    "C17_aes_jumped",
    "C17_speck_jumped",
    "C17_aes_jumps_compose",
    "C17_speck_jumps_compose",
    "C17_mt19937_jumped_16_refuted",
    "C17_mt19937_jumped_small",
    "C17_pcg64_jumped",
    "C17_dxsm_jumped",
    "C17_pcg64_jumps_compose",
    "C17_pcg32_jumped",
    "C17_pcg32_jumps_compose",
    "C17_lcg128mix_jumped",
    "C17_lcg128mix_jumps_compose",
    "C17_pcg64_jumped_docstring_refuted",
    "C17_rdrand_jumped_retries_refuted",
    "C17_sfmt_jumps_add_any_polynomials",
    "C17_sfmt_jumps_add",
    "C17_sfmt_jumps_commute",
    "C17_squares_jumped",
    "C17_squares_jumps_add",
    "C17_xoshiro256_negative_iter",
    "C17_xoshiro256_jump_composes",
    "C17_xoshiro512_jump_composes",
    "C17_xoroshiro128_jump_composes",
    "C17_lxm_jump_composes",
    "C17_xorshift1024_jump_composes",
    "C17_jump_composes_negative_refuted"
   ],
   "note": "composition proved for Philox, ThreeFry, AES, SPECK128, PCG32, PCG64, PCG64DXSM, LCG128Mix, Squares, xoshiro256/512, xoroshiro128, Xorshift1024, LXM, SFMT and DSFMT (with the stored polynomials); refuted for MT19937 (the 16-bit buffer), for negative iter, and RDRAND forgets retries. The other classes have no jumped()."
  },
  {
   "property": "C18",
   "status": "partial",
   "theorems": [
    "C18_chacha_restore",
    "C18_philox_restores",
    "C18_threefry_restores",
    "C18_dsfmt_restores",
    "C18_hc128_restores",
    "C18_aes_restores",
    "C18_speck_restores",
    "C18_mt19937_restores",
    "C18_mt64_position_313_refuted",
    "C18_mt64_restores",
    "C18_pcg32_state_restores",
    "C18_pcg64_state_restores",
    "C18_dxsm_state_restores",
    "C18_lcg128mix_restored_stream",
    "C18_lcg128mix_save_again_partial",
    "C18_lcg128mix_save_again_refuted",
    "C18_lcg128mix_jumped_after_restore_refuted",
    "C18_lcg128mix_reseed_after_restore_refuted",
    "C18_rdrand_saved",
    "C18_rdrand_restore",
    "C18_sfc_restores",
    "C18_sfmt_restores",
    "C18_jsf_restores",
    "C18_romu_restores",
    "C18_tyche_restores",
    "C18_efiix_restores",
    "C18_squares_restores_partial",
    "C18_squares_half_refuted",
    "C18_xoshiro256_restores",
    "C18_xoshiro512_restores",
    "C18_xoroshiro128_restores",
    "C18_xorshift1024_restores",
    "C18_lxm_restores"
   ],
   "note": "every field restored for all classes except: Squares keeps the target's buffered half (refuted), LCG128Mix is restored as a stream but not its multiplier and output function (refuted), MT64 at position 313 (refuted), RDRAND restores retries only (documented)"
  },
  {
   "property": "C19",
   "status": "partial",
   "theorems": [
    "C19_chacha_not_atomic_refuted",
    "C19_philox_set_refuted",
    "C19_philox_set_contents_refuted",
    "C19_threefry_set_refuted",
    "C19_dsfmt_not_atomic_refuted",
    "C19_hc128_not_atomic_refuted",
    "C19_aes_not_atomic_refuted",
    "C19_speck_not_atomic_refuted",
    "C19_mt19937_not_atomic_refuted",
    "C19_mt64_not_atomic_refuted",
    "C19_pcg64_rejected_state_changes_nothing",
    "C19_dxsm_rejected_state_changes_nothing",
    "C19_pcg32_rejected_state_refuted",
    "C19_lcg128mix_rejected_state_refuted",
    "C19_rdrand_set_atomic",
    "C19_sfc_not_atomic_refuted",
    "C19_sfmt_not_atomic_refuted",
    "C19_jsf_not_atomic_refuted",
    "C19_romu_not_atomic_refuted",
    "C19_tyche_not_atomic_refuted",
    "C19_efiix_not_atomic_refuted",
    "C19_squares_not_atomic_refuted",
    "C19_xoshiro256_atomic_refuted",
    "C19_xoshiro512_atomic_refuted",
    "C19_xoroshiro128_atomic_refuted",
    "C19_xorshift1024_atomic_refuted",
    "C19_lxm_atomic_refuted"
   ],
   "note": "proved for PCG64, PCG64DXSM and RDRAND; refuted for every other class (fields are written before the later ones are checked)"
  },
  {
   "property": "C20",
   "status": "partial",
   "theorems": [
    "C20_chacha_draws_safe",
    "C20_chacha_any_state_safe",
    "C20_philox_seeded",
    "C20_philox_draws",
    "C20_philox_advance",
    "C20_threefry_seeded",
    "C20_threefry_draws",
    "C20_threefry_advance",
    "C20_philox_buffer_pos_refuted",
    "C20_philox_number_refuted",
    "C20_threefry_buffer_pos_refuted",
    "C20_threefry_number_refuted",
    "C20_dsfmt_draws_safe",
    "C20_dsfmt_seeded",
    "C20_dsfmt_new",
    "C20_dsfmt_accepted_states",
    "C20_dsfmt_setter_unchecked_refuted",
    "C20_hc128_draws_safe",
    "C20_hc128_seeded",
    "C20_hc128_accepted_states_partial",
    "C20_hc128_setter_unchecked_refuted",
    "C20_aes_seed_safe",
    "C20_aes_draws_safe",
    "C20_aes_advance_safe",
    "C20_speck_seed_safe",
    "C20_speck_draws_safe",
    "C20_speck_advance_safe",
    "C20_aes_state_offset_refuted",
    "C20_speck_state_offset_refuted",
    "C20_speck_state_rounds_refuted",
    "C20_mt19937_draws_safe",
    "C20_mt19937_seeded",
    "C20_mt19937_jump_safe",
    "C20_mt19937_accepted_states_partial",
    "C20_mt19937_setter_unchecked_refuted",
    "C20_mt64_draws_safe",
    "C20_mt64_seeded",
    "C20_mt64_accepted_states",
    "C20_mt64_setter_unchecked_refuted",
    "C20_sfmt_draws_safe",
    "C20_sfmt_seeded",
    "C20_sfmt_new",
    "C20_sfmt_accepted_states",
    "C20_sfmt_setter_unchecked_refuted",
    "C20_sfmt_idx_unchecked_refuted",
    "C20_efiix_in_bounds",
    "C20_efiix_seeded",
    "C20_xorshift1024_in_bounds",
    "C20_xorshift1024_seeded_in_bounds",
    "C20_xorshift1024_setter_refuted"
   ],
   "note": "construction, seeding, draws, advance and jump stay in bounds for every class with a buffer; the setters of Philox, ThreeFry, AES, SPECK128, MT19937, MT64, HC128, SFMT, DSFMT and Xorshift1024 accept positions outside (refuted)"
  },
  {
   "property": "C21",
   "status": "partial",
   "theorems": [
    "C21_dsfmt_seed_resets",
    "C21_dsfmt_stale_buffer_refuted",
    "C21_hc128_reseed_stale_words",
    "C21_hc128_reseed_refuted",
    "C21_hc128_reseed_partial",
    "C21_mt64_seed_resets",
    "C21_romu_variant_case",
    "C21_romu_variant_upper",
    "C21_counter_reseed",
    "C21_counter_reseed_refuted",
    "C21_mt19937_reseed",
    "C21_mt19937_numpy_reseed",
    "C21_mt64_reseed",
    "C21_pcg_reseed",
    "C21_xoshiro_reseed",
    "C21_aes_reseed",
    "C21_speck_reseed",
    "C21_chacha_reseed",
    "C21_lcg128mix_reseed",
    "C21_xorshift1024_reseed_partial",
    "C21_seed_drops_half",
    "C21_sfmt_seed_resets",
    "C21_sfmt_stale_buffer_refuted",
    "C21_efiix_reseed",
    "C21_romu_reseed",
    "C21_jsf_reseed",
    "C21_tyche_reseed_partial",
    "C21_tyche_reseed_refuted",
    "C21_squares_pyseed",
    "C21_squares_failed_seed_refuted",
    "C21_squares_reseed",
    "C21_lxm_seed_history",
    "C21_xorshift1024_seed_history_refuted"
   ],
   "note": "proved for AES, SPECK128, ChaCha, Philox, ThreeFry, PCG32, PCG64, LCG128Mix, LXM, EFIIX64, Romu, JSF, Squares, MT19937 (both seeding modes), MT64, Xoshiro256, Xoshiro512, Xoroshiro128, SFMT, DSFMT (state), SFC64 halves; refuted for HC128 (stale words), Xorshift1024 (position kept), Tyche and Philox (after a rejected state assignment), and the stale buffers of SFMT and DSFMT"
  },
  {
   "property": "C22",
   "status": "partial",
   "theorems": [
    "C22_chacha_64_from_32",
    "C22_dsfmt_any_order",
    "C22_xoshiro256_any_order",
    "C22_xoshiro512_any_order",
    "C22_xoroshiro128_any_order",
    "C22_xorshift1024_any_order",
    "C22_lxm_any_order",
    "C22_pcg64_any_order",
    "C22_lcg128mix_any_order",
    "C22_aes_any_order",
    "C22_speck_any_order",
    "C22_counter64_any_order",
    "C22_counter32_64_from_32",
    "C22_pcg32_64_from_32",
    "C22_rdrand_drops_halves_refuted",
    "C22_rdrand_low_half",
    "C22_hc128_64_from_32",
    "C22_mt19937_64_is_two_32",
    "C22_mt64_any_order",
    "C22_squares32_64_from_32",
    "C22_tyche_64_from_32",
    "C22_sfc_halves",
    "C22_sfc_any_order",
    "C22_sfmt_any_order",
    "C22_romu_halves",
    "C22_romu_any_order",
    "C22_efiix_halves",
    "C22_efiix_any_order",
    "C22_jsf64_buffered",
    "C22_jsf64_any_order",
    "C22_squares64_halves",
    "C22_squares64_any_order"
   ],
   "note": "every interleaving, for every class with a 64-bit output, and the 64-from-32 rule for the classes with a 32-bit output; refuted for RDRAND, which drops the high half of every 32-bit draw"
  },
  {
   "property": "C23",
   "status": "partial",
   "theorems": [
    "C23_benchmark_raw",
    "C23_benchmark_split",
    "C23_benchmark_nothing",
    "C23_batches",
    "C23_scalar",
    "C23_shape",
    "C23_no_output_partial",
    "C23_no_output_refuted"
   ],
   "note": "batches and shapes proved for any generator; output=False uses the sum of the shape tuple instead of the product: refuted for (2,3), proved where they agree"
  },
  {
   "property": "C24",
   "status": "proved",
   "theorems": [
    "C24_philox_no_merge",
    "C24_threefry_no_merge",
    "C24_dsfmt_block_injective",
    "C24_hc128_never_merges",
    "C24_aes_never_merges",
    "C24_speck_never_merges",
    "C24_mt19937_block_injective",
    "C24_mt19937_unused_bits",
    "C24_mt64_block_injective",
    "C24_mt64_unused_bits",
    "C24_pcg64_draw_injective",
    "C24_pcg32_draw_injective",
    "C24_sfc_never_merges",
    "C24_sfmt_block_injective",
    "C24_sfmt_recursion_injective",
    "C24_jsf_never_merges",
    "C24_romu_never_merges",
    "C24_tyche_never_merges",
    "C24_efiix_never_merges",
    "C24_squares_never_merges",
    "C24_xoshiro256_no_merge",
    "C24_xoshiro512_no_merge",
    "C24_xoroshiro128_no_merge",
    "C24_xorshift1024_no_merge",
    "C24_lxm_no_merge"
   ],
   "note": "all generators named; JSF for defined rotations (see C39); also Philox, ThreeFry, AESCounter, SPECK128, Squares, HC128, MT19937 and PCG"
  },
  {
   "property": "C25",
   "status": "partial",
   "theorems": [
    "C25_hc128_distinct_keys",
    "C25_mt19937_seed_arrays",
    "C25_mt19937_seeds_distinct_refuted",
    "C25_mt19937_same_first_word_partial",
    "C25_mt19937_numpy",
    "C25_mt64_seed_arrays",
    "C25_mt64_seeds_distinct_refuted",
    "C25_mt64_same_first_word_partial",
    "C25_pcg64_seed_words",
    "C25_pcg32_seed_words",
    "C25_pcg64_inc_refuted",
    "C25_sfc_seeds_distinct",
    "C25_jsf_seeds_distinct",
    "C25_tyche_seeds_distinct",
    "C25_tyche_idx_accepted",
    "C25_tyche_idx_rejected",
    "C25_tyche_idx_distinct",
    "C25_romu_seeds_distinct_partial",
    "C25_romu_seeds_distinct_refuted"
   ],
   "note": "proved for SFC64, JSF, Tyche, PCG, HC128 and for Romu except that the all-zero words and (0,0,0,1) are seeded alike (refuted). MT19937 and MT64 seed different arrays alike (refuted): every state with the fixed first word comes from exactly one array for each value of the first array word, so arrays that share the first word are told apart, by the first 624 numbers for MT19937"
  },
  {
   "property": "C26",
   "status": "proved",
   "theorems": [
    "C26_dsfmt_certified",
    "C26_dsfmt_words_not_zero",
    "C26_mt19937_never_all_zero",
    "C26_mt19937_numpy_never_all_zero",
    "C26_mt64_never_all_zero",
    "C26_sfmt_never_all_zero",
    "C26_xoshiro256_never_zero",
    "C26_xoshiro512_never_zero",
    "C26_xoroshiro128_never_zero",
    "C26_xorshift1024_never_zero",
    "C26_lxm_never_zero",
    "C26_lxm_seed_nonzero"
   ],
   "note": "any sequence of draws and jumps; Xorshift1024 via draws, a jump being a number of draws by C13"
  },
  {
   "property": "C27",
   "status": "proved",
   "theorems": [
    "C27_hc128_cycles",
    "C27_sfc_cycles",
    "C27_sfc_streams_apart",
    "C27_sfc_increments_apart",
    "C27_sfc_even_increment_refuted",
    "C27_efiix_cycles",
    "C27_efiix_streams_apart",
    "C27_lxm_no_short_cycle",
    "C27_lxm_new_odd",
    "C27_lxm_setter_refuted"
   ],
   "note": "SFC64, EFIIX64, LXM; an even increment, which the constructor and setters accept, is refuted (C56)"
  },
  {
   "property": "C28",
   "status": "proved",
   "theorems": [
    "C28_int_round_trip",
    "C28_int_injective",
    "C28_negative_rejected",
    "C28_sequence_injective_refuted"
   ],
   "note": "every non-negative integer; nested sequences are concatenated, so a sequence and an integer can coincide (refuted as injectivity)"
  },
  {
   "property": "C29",
   "status": "proved",
   "theorems": [
    "C29_int_entropy",
    "C29_int_entropy_states",
    "C29_word_entropy",
    "C29_tail_entropy",
    "C29_trailing_zero_refuted",
    "C29_long_entropy_is_child_refuted"
   ],
   "note": "every pool size; also one differing word beyond the pool; the collisions of trailing zeros and of long entropies with spawn keys are exhibited as refuted"
  },
  {
   "property": "C30",
   "status": "proved",
   "theorems": [
    "C30_prefix32",
    "C30_prefix64",
    "C30_length",
    "C30_pairing",
    "C30_words"
   ],
   "note": ""
  },
  {
   "property": "C31",
   "status": "proved",
   "theorems": [
    "C31_spawn_keys_distinct",
    "C31_spawn_splits",
    "C31_sibling_pools_distinct",
    "C31_wide_key_refuted",
    "C31_negative_spawn_refuted"
   ],
   "note": "every history of spawn calls with non-negative counts; siblings have distinct pools; spawn with a negative count reuses keys (refuted)"
  },
  {
   "property": "C32",
   "status": "proved",
   "theorems": [
    "C32_never_all_zero",
    "C32_never_all_zero_64",
    "C32_xoroshiro128_zero_refuted",
    "C32_bound_is_sharp"
   ],
   "note": "for more words than the pool holds; Xoroshiro128 takes exactly as many and has an all-zero seed (refuted)"
  },
  {
   "property": "C33",
   "status": "partial",
   "theorems": [
    "C33_wrap_int",
    "C33_int_argument",
    "C33_int_to_array",
    "C33_int_to_array_elements",
    "C33_array_argument",
    "C33_list_argument_partial",
    "C33_list_argument_refuted",
    "C33_list_argument_collision_refuted",
    "C33_list_range",
    "C33_array_rejected",
    "C33_view_byte_order",
    "C33_view_halves"
   ],
   "note": "wrap_int, int_to_array, word arrays and byte-order views exact for all inputs; refuted for lists mixing elements below and above 2^63 (numpy turns them into doubles)"
  },
  {
   "property": "C34",
   "status": "proved",
   "theorems": [
    "C34_double_64",
    "C34_double_64_uniform",
    "C34_double_32",
    "C34_double_32_uniform",
    "C34_float32",
    "C34_float32_uniform",
    "C34_long_double_x87",
    "C34_long_double_ibm",
    "C34_long_double_binary128",
    "C34_pcg32",
    "C34_dsfmt_seeded_units",
    "C34_dsfmt_doubles",
    "C34_dsfmt_setter_unchecked_refuted"
   ],
   "note": "for every rounding function that is the identity on the format, hence every IEEE mode. A state that was assigned may hold anything: the DSFMT setter does not check the doubles (refuted)"
  },
  {
   "property": "C35",
   "status": "proved",
   "theorems": [
    "C35_philox2x64_permutes",
    "C35_philox4x64_permutes",
    "C35_philox2x32_permutes",
    "C35_philox4x32_permutes",
    "C35_threefry2x64_permutes",
    "C35_threefry4x64_permutes",
    "C35_threefry2x32_permutes",
    "C35_threefry4x32_permutes",
    "C35_philox_c99_mulhi",
    "C35_aes_block_permutation",
    "C35_speck_block_permutation"
   ],
   "note": "Philox and ThreeFry (all sizes), SPECK128 (any rounds) and also AES"
  },
  {
   "property": "C36",
   "status": "proved",
   "theorems": [
    "C36_speck_sse_is_scalar",
    "C36_speck_seed_twin",
    "C36_speck_state_halves_refuted"
   ],
   "note": "every expanded key, with use_sse41 toggled at will; a state dictionary with unequal halves in round_key is refuted"
  },
  {
   "property": "C37",
   "status": "partial",
   "theorems": [
    "C37_weyl_increments_partial",
    "C37_weyl_end_point_refuted",
    "C37_weyl_terminates_refuted",
    "C37_counts_partial",
    "C37_counts_refuted"
   ],
   "note": "what is returned is right when no draw equals the end point total; with the end point, the value 1 is returned outside the range, and a second one never returns (refuted); the counts wrap for 30..35 bits (refuted)"
  },
  {
   "property": "C38",
   "status": "partial",
   "theorems": [
    "C38_keys_valid",
    "C38_seeded_key_valid",
    "C38_no_zero_digit_refuted",
    "C38_sampler_safe_partial",
    "C38_seed_sampler_safe_partial",
    "C38_sampler_overrun_refuted"
   ],
   "note": "keys proved valid for every seed up to the zero digit and the sampler overrun, both of which are refuted; documented key list reproduced"
  },
  {
   "property": "C39",
   "status": "partial",
   "theorems": [
    "C39_jsf_rotations_partial",
    "C39_jsf_parameters_safe",
    "C39_jsf_zero_rotation_refuted",
    "C39_jsf_setter_refuted"
   ],
   "note": "proved for p, q not 0 and all built-in parameters; p=0 or q=0 is accepted and undefined, the setter checks nothing (refuted)"
  },
  {
   "property": "C40",
   "status": "partial",
   "theorems": [
    "C40_random_raw_values",
    "C40_random_raw1_value",
    "C40_random_raw_raises",
    "C40_random_raw1_raises",
    "C40_random_raw_no_output_raises",
    "C40_random_raw_failure_is_sticky",
    "C40_random_raw_no_output",
    "C40_random_raw_terminates",
    "C40_max_retries_refuted",
    "C40_generator_values",
    "C40_generator_history",
    "C40_generator_raises",
    "C40_generator_safe_partial",
    "C40_after_failure",
    "C40_reset",
    "C40_reset_good",
    "C40_out_of_bounds_refuted",
    "C40_fallback_values_refuted"
   ],
   "note": "random_raw and the Generator path return exactly the successful hardware reads, failures raise and are sticky until _reset; refuted for retries = INT_MAX (overflow), for more than 256 draws with a failed refill (out-of-bounds read) and for calls after a failure (fallback values without an error)"
  },
  {
   "property": "C41",
   "status": "partial",
   "theorems": [
    "C41_calls_holding_one_lock_serialise",
    "C41_idle_states_are_serial",
    "C41_no_deadlock",
    "C41_draw_is_the_step",
    "C41_fills_serialise",
    "C41_raw_and_state_serialise",
    "C41_torn_state_refuted",
    "C41_unlocked_draws_refuted"
   ],
   "note": "calls that all hold the lock of the bit generator, or all hold the interpreter lock, serialise, for every number of threads and every interleaving; the state property and complex_normal of one value take no lock and race with array fills (refuted)"
  },
  {
   "property": "C42",
   "status": "proved",
   "theorems": [
    "C42_wishart_is_a_gram_matrix",
    "C42_triangle",
    "C42_wishart_psd",
    "C42_wishart_degrees",
    "C42_small_df_psd",
    "C42_rescaled_psd",
    "C42_scaled_psd"
   ],
   "note": "real arithmetic in place of doubles; the chi-square and normal draws are arbitrary values, chi-square ones not negative"
  },
  {
   "property": "C43",
   "status": "partial",
   "theorems": [
    "C43_broadcast_shape_is_numpy_partial",
    "C43_broadcast_shape_sound",
    "C43_broadcast_shape_commutes",
    "C43_empty_dimension_refuted",
    "C43_strict_is_equal_tails"
   ],
   "note": "exact for shapes without empty dimensions, the only ones that reach it from gamma, relation and loc; a pair of dimensions 0 and 1 is turned down (refuted)"
  },
  {
   "property": "C44",
   "status": "partial",
   "theorems": [
    "C44_distinct_seeds",
    "C44_distinct_integers",
    "C44_defined",
    "C44_no_words",
    "C44_trailing_zero",
    "C44_list_partial",
    "C44_list_refuted",
    "C44_integer_not_zero",
    "C44_array_zero_refuted"
   ],
   "note": "arrays and Python integers: distinct seeds give distinct words; lists mixing values below and above 2**63, trailing zeros and all-zero arrays are refuted"
  },
  {
   "property": "C45",
   "status": "partial",
   "theorems": [
    "C45_shape_partial",
    "C45_empty_refuted"
   ],
   "note": "proved for sizes with at least one element; a size with a zero axis raises IndexError (refuted)"
  },
  {
   "property": "C46",
   "status": "proved",
   "theorems": [
    "C46_given",
    "C46_pointer",
    "C46_in_range",
    "C46_ctypes",
    "C46_ctypes_error",
    "C46_argtypes_refuted",
    "C46_cfunc",
    "C46_state_missing",
    "C46_state_restore",
    "C46_bits_64",
    "C46_bits_32",
    "C46_raw_reduced",
    "C46_bits_unchecked_refuted"
   ],
   "note": "both widths and all functions that do not raise; the unchecked bits argument and argument types are refuted"
  },
  {
   "property": "C47",
   "status": "proved",
   "theorems": [
    "C47_chacha_seeded_stream",
    "C47_chacha_counter_after_draws",
    "C47_chacha_restore_resumes",
    "C47_chacha_c_advance_partial",
    "C47_chacha_c_advance_boundary_refuted",
    "C47_chacha_c_advance_wrap_refuted"
   ],
   "note": "ChaCha class: stream, counter and restore proved. The exported but unused C function chacha_advance is refuted (block boundary; wrap of idx+delta[0]) and proved on the remaining domain; the class documents advance/jump but has neither."
  },
  {
   "property": "C48",
   "status": "proved",
   "theorems": [
    "C48_dsfmt_jump_any_polynomials",
    "C48_dsfmt_jump_applies_each_once",
    "C48_mt19937_weights",
    "C48_mt19937_jump_n_shifts",
    "C48_mt19937_jumped_moves",
    "C48_sfmt_jump_any_polynomials",
    "C48_sfmt_jump_applies_each_once"
   ],
   "note": "MT19937, SFMT and DSFMT: weights, termination and total shift of iter * 2^128 words, with the polynomials stored in the source"
  },
  {
   "property": "C49",
   "status": "partial",
   "theorems": [
    "C49_splitmix64_bijective",
    "C49_entropy_hash_32_injective",
    "C49_mt19937_temper_bijective",
    "C49_mt64_temper_bijective",
    "C49_pcg_rotr_64",
    "C49_pcg_rotr_32",
    "C49_xsl_rr_bijective",
    "C49_dxsm_bijective",
    "C49_pcg_cheap_multiplier_odd",
    "C49_dxsm_even_refuted",
    "C49_murmur3_injective",
    "C49_xsh_rr_injective",
    "C49_starstar_bijective",
    "C49_xoshiro_outputs",
    "C49_murmur_hash3_injective"
   ],
   "note": "all integer output functions modelled; LCG128Mix with an even dxsm multiplier is refuted"
  },
  {
   "property": "C50",
   "status": "proved",
   "theorems": [
    "C50_hc128_is_published_cipher",
    "C50_hc128_array_exists",
    "C50_hc128_in_bounds",
    "C50_hc128_steps_reversible",
    "C50_hc128_draws_concatenate"
   ],
   "note": "refinement of the 16-way unrolled code to Wu's one-step specification, key schedule included; checked against tests/data/hc128-testset-1.csv"
  },
  {
   "property": "C51",
   "status": "proved",
   "theorems": [
    "C51_aes_ni_next",
    "C51_aes_ni_key_expansion"
   ],
   "note": "AES-NI instructions as specified by FIPS-197 and Intel's manual"
  },
  {
   "property": "C52",
   "status": "partial",
   "theorems": [
    "C52_element_setters",
    "C52_xoshiro",
    "C52_speck_contiguous_partial",
    "C52_hc128_contiguous_partial",
    "C52_efiix_contiguous_partial",
    "C52_efiix_strided_refuted",
    "C52_efiix_reversed_refuted",
    "C52_speck_strided_refuted",
    "C52_hc128_strided_refuted"
   ],
   "note": "the setters that read elements satisfy it; SPECK128, HC128 and EFIIX64 read the data pointer: proved for contiguous arrays, refuted for strided and reversed ones"
  },
  {
   "property": "C53",
   "status": "proved",
   "theorems": [
    "C53_chacha_simd_same_stream",
    "C53_chacha_simd_core"
   ],
   "note": ""
  },
  {
   "property": "C54",
   "status": "partial",
   "theorems": [
    "C54_chacha_order_dependent_refuted",
    "C54_chacha_order_same_state",
    "C54_pcg32_order_dependent_refuted",
    "C54_pcg32_order_same_state",
    "C54_counter64_order_free",
    "C54_counter_raw_order_free",
    "C54_counter_raw_next",
    "C54_counter32_order_same_state",
    "C54_counter32_order_dependent_refuted",
    "C54_hc128_order_dependent_refuted",
    "C54_hc128_order_same_state",
    "C54_mt19937_order_dependent_refuted",
    "C54_mt19937_order_same_state",
    "C54_tyche_order_dependent_refuted",
    "C54_jsf32_order_dependent_refuted",
    "C54_tyche_state_order_free",
    "C54_jsf64_order_free",
    "C54_squares32_order_dependent_refuted",
    "C54_squares64_order_free"
   ],
   "note": "refuted for ChaCha, HC128, Tyche, JSF32, MT19937, PCG32, the 32-bit Squares variant and Philox/ThreeFry with 32-bit words (two unsequenced calls in one expression, the state afterwards is the same); proved order-free for the others"
  },
  {
   "property": "C55",
   "status": "partial",
   "theorems": [
    "C55_dsfmt_jump_length_any_polynomials",
    "C55_dsfmt_negative_jumps",
    "C55_dsfmt_jump_length",
    "C55_philox_jump_length",
    "C55_threefry_jump_length",
    "C55_philox_documented_jump_refuted",
    "C55_threefry_documented_jump_refuted",
    "C55_aes_jump_length",
    "C55_speck_jump_length",
    "C55_pcg32_jump_length",
    "C55_pcg64_jump_length",
    "C55_dxsm_jump_length",
    "C55_lcg128mix_jump_length",
    "C55_pcg64_documented_jumped_refuted",
    "C55_dxsm_documented_jumped_refuted",
    "C55_lxm_jump_length",
    "C55_xorshift1024_jump_length",
    "C55_lxm_documented_jumped_refuted",
    "C55_xorshift1024_documented_jumped_refuted",
    "C55_sfmt_jump_length_any_polynomials",
    "C55_sfmt_negative_jumps",
    "C55_sfmt_jump_length",
    "C55_squares_jump_length",
    "C55_squares_documented_jump_refuted"
   ],
   "note": "true: AESCounter, SPECK128, PCG32, PCG64.jump; refuted and actual length proved: Squares, Philox, ThreeFry, PCG64/PCG64DXSM/LCG128Mix.jumped, LXM, Xorshift1024 (two jumps; the xoshiro classes are C10-C12 _docstring_refuted), SFMT and DSFMT (2^129 values at the end of a block, not 2^128)"
  },
  {
   "property": "C56",
   "status": "partial",
   "theorems": [
    "C56_sfc_numpy_parameters",
    "C56_sfc_generated_k_odd",
    "C56_sfc_odd_k_kept",
    "C56_sfc_even_k_made_odd_refuted"
   ],
   "note": "proved for generated and odd k; an even k is used as it is (refuted)"
  },
  {
   "property": "C57",
   "status": "partial",
   "theorems": [
    "C57_romu_quad_alive",
    "C57_romu_trio_alive",
    "C57_romu_trio_dead_refuted",
    "C57_jsf_not_fixed_partial"
   ],
   "note": "Romu quad for all words, trio for every default SeedSequence, JSF for one seed word (no fixed point); trio with other seed words refuted; JSF with two or three seed words not shown"
  },
  {
   "property": "C59",
   "status": "proved",
   "theorems": [
    "C59_mt19937_is_the_recurrence",
    "C59_mt19937_sequence_exists",
    "C59_mt64_is_the_recurrence",
    "C59_mt64_sequence_exists"
   ],
   "note": "MT19937 and MT64, each against its recurrence; the seeding by init_by_array is checked against the published output files; the double-precision and 64-bit readings are C22/C34/C54"
  },
  {
   "property": "C61",
   "status": "partial",
   "theorems": [
    "C61_long_double_fill_partial",
    "C61_long_double_fill_refuted"
   ],
   "note": "proved below 2^31 elements, refuted from 2^31 on (int counter overflows)"
  },
  {
   "property": "C62",
   "status": "partial",
   "theorems": [
    "C62_unix_reports_failure",
    "C62_unix_bytes",
    "C62_system_bytes",
    "C62_short_read_raises",
    "C62_windows_bytes",
    "C62_windows_refuted"
   ],
   "note": "Unix path proved, and Windows when a provider is acquired; failure to acquire one is ignored on Windows (refuted)"
  },
  {
   "property": "C63",
   "status": "partial",
   "theorems": [
    "C63_fallback_safe_partial",
    "C63_fallback_refuted"
   ],
   "note": "below 2**31 bytes; from there the int counter overflows (refuted)"
  },
  {
   "property": "C60",
   "status": "proved",
   "theorems": [
    "C60_dsfmt_is_the_recurrence",
    "C60_dsfmt_inside_a_block",
    "C60_dsfmt_buffer_holds_the_array",
    "C60_dsfmt_sequence_exists",
    "C60_sfmt_is_the_recurrence",
    "C60_sfmt_inside_a_block",
    "C60_sfmt_buffer_holds_the_array",
    "C60_sfmt_sequence_exists"
   ],
   "note": "both generators, at the end of a block and at every position inside one; the published recurrences are stated on 128-bit words"
  },
  {
   "property": "C64",
   "status": "proved",
   "theorems": [
    "C64_dsfmt_simd_recursion",
    "C64_dsfmt_simd_block",
    "C64_dsfmt_simd_draws",
    "C64_sfmt_simd_recursion",
    "C64_sfmt_simd_block",
    "C64_sfmt_simd_draws"
   ],
   "note": "SSE2 recursion against the portable one; the Altivec and NEON versions are not modelled"
  },
  {
   "property": "C65",
   "status": "partial",
   "theorems": [
    "C65_mvn_shape_is_size_partial",
    "C65_mvn_simple_shape_partial",
    "C65_mvn_no_size",
    "C65_mvn_drops_leading_one_refuted",
    "C65_mvn_empty_size_refuted",
    "C65_mcn_shape",
    "C65_mcn_defaults",
    "C65_mcn_factors",
    "C65_mcn_leading_one_refuted"
   ],
   "note": "proved for positive sizes that do not start with 1 when there is one mean and one matrix; otherwise a leading 1 is dropped and a size of 0 becomes 1 (refuted), in multivariate_complex_normal as well; its shape, defaults, rejections and number of factors are proved"
  },
  {
   "property": "C66",
   "status": "partial",
   "theorems": [
    "C66_mvn_draws_partial",
    "C66_mvn_shared_normals_refuted"
   ],
   "note": "proved without size and with a size that is not (); with size=() one vector of normals serves every mean (refuted)"
  },
  {
   "property": "C67",
   "status": "partial",
   "theorems": [
    "C67_mvn_factor_svd",
    "C67_mvn_factor_cholesky",
    "C67_wishart_scale_is_diagonal_refuted",
    "C67_wishart_cholesky_refuted",
    "C67_wishart_factor_kernel",
    "C67_wishart_kernel_refuted",
    "C67_pivots_dropped_refuted",
    "C67_wishart_integer_scale_refuted"
   ],
   "note": "multivariate_normal proved for svd, eigh and Cholesky of full rank; wishart uses the transposed factor, the pivots of the reduced-rank Cholesky are dropped, and an integer scale truncates the factor (refuted)"
  },
  {
   "property": "C58",
   "status": "partial",
   "theorems": [
    "C58_every_class_is_registered",
    "C58_states_carry_the_class_name",
    "C58_round_trip_partial",
    "C58_lcg128mix_stream",
    "C58_lcg128mix_multiplier_refuted",
    "C58_squares_half_refuted",
    "C58_rdrand_retries",
    "C58_registry_is_names",
    "C58_unknown_name",
    "C58_numpy_pcg64",
    "C58_numpy_sfc64_refuted",
    "C58_arrays_fit"
   ],
   "note": "Proved for 23 classes with every field equal (C58_round_trip_partial; Squares only without a buffered half), and stream equality for LCG128Mix. Refuted: Squares loses a buffered half, LCG128Mix reseeds with the default multiplier, the state of numpy's SFC64 cannot be loaded. RDRAND keeps the retries only, as documented."
  },
  {
   "property": "C68",
   "status": "proved",
   "theorems": [
    "C68_foreign_state_rejected",
    "C68_other_class_rejected",
    "C68_either_name"
   ],
   "note": ""
  },
  {
   "property": "C69",
   "status": "partial",
   "theorems": [
    "C69_array_accepts",
    "C69_array_covariance",
    "C69_scalar_as_array",
    "C69_scalar_covariance_partial",
    "C69_scalar_degenerate_refuted"
   ],
   "note": "The array version accepts exactly the parameters with a positive semi-definite covariance and has the documented variances and covariance; the scalar version agrees with it wherever that accepts. Refuted for the scalar version at degenerate parameters: with one variance 0 and Im(relation) != 0 it returns numbers (with covariance 0) where the array version raises ValueError. Arithmetic is exact."
  },
  {
   "property": "C70",
   "status": "partial",
   "theorems": [
    "C70_covariance",
    "C70_covariance_unique",
    "C70_symmetric",
    "C70_views",
    "C70_selected_partial",
    "C70_deeper_stacks_refuted"
   ],
   "note": "Covariance, uniqueness, symmetry and views hold for every dimension. Matrices are selected rightly for one leading dimension. Refuted for stacks with a later leading dimension over 1: garr[i] indexes the first dimension only, so the call raises. The tolerance of np.allclose and the factorization are not modelled."
  },
  {
   "property": "C71",
   "status": "partial",
   "theorems": [
    "C71_broadcast_element",
    "C71_index_is_c_order",
    "C71_no_size",
    "C71_size_partial",
    "C71_accepted_partial",
    "C71_array_gamma_refuted",
    "C71_size_not_checked_refuted",
    "C71_empty_loc_refuted",
    "C71_constant_parameters",
    "C71_normals_used"
   ],
   "note": "Holds without size, and with a size the parameters broadcast to, when relation has as many elements as gamma + relation. Refuted: an array gamma of more than one element with a scalar relation (the default) always raises IndexError; and a size that the parameters do not broadcast to is accepted when it broadcasts with them, giving elements the parameters of other positions."
  },
  {
   "property": "C72",
   "status": "partial",
   "theorems": [
    "C72_array_is_every_element",
    "C72_only_value_error",
    "C72_accepted_finite",
    "C72_non_negative_partial",
    "C72_negative_zero_refuted",
    "C72_non_negative_integer",
    "C72_nan",
    "C72_infinity"
   ],
   "note": "Scalar and array checks agree for all constraints and values; accepted sets characterised for finite numbers, NaN and infinities. Refuted for -0.0, which the non-negative constraint rejects as \"< 0\" although it equals 0. Doubles are modelled as signed rationals, infinities and NaN; POISSON_LAM_MAX is taken as evaluated."
  },
  {
   "property": "C73",
   "status": "partial",
   "theorems": [
    "C73_fill",
    "C73_fill_new",
    "C73_split",
    "C73_out",
    "C73_uintegers",
    "C73_random_partial",
    "C73_long_double_overflow_refuted",
    "C73_out_not_an_array_refuted",
    "C73_fortran_out_refuted"
   ],
   "note": "Counts, order, splitting and the conditions on out hold for all shapes. Refuted: a Fortran-ordered out is filled in memory order, so out[i, j] is not random(size)[i, j]; an out that is no ndarray is cast unchecked (undefined behaviour); long double arrays of 2^31 elements or more overflow an int counter."
  },
  {
   "property": "C74",
   "status": "partial",
   "theorems": [
    "C74_own_parameters_partial",
    "C74_no_size",
    "C74_constant_arrays",
    "C74_disc_is_cont",
    "C74_scalar_is_first",
    "C74_constraints",
    "C74_out_order",
    "C74_out_ignored_refuted",
    "C74_size_not_checked_refuted",
    "C74_empty_parameter_refuted"
   ],
   "note": "Holds for parameters that broadcast to size, for constant arrays, scalars and constraints. Refuted: out is ignored when two or three parameters are arrays; a size the parameters do not broadcast to is accepted; an empty parameter with a size of one element is read out of bounds."
  },
  {
   "property": "C75",
   "status": "partial",
   "theorems": [
    "C75_malloc",
    "C75_free",
    "C75_calloc",
    "C75_realloc",
    "C75_size_wraps_refuted",
    "C75_calloc_wraps_refuted"
   ],
   "note": "Holds for every n with n + 71 < 2^64 and every address. Refuted at the end of the range: n + 71 and n * s wrap and a block that is too small is returned. That callers do not check for NULL is not modelled."
  },
  {
   "property": "C76",
   "status": "partial",
   "theorems": [
    "C76_seed_with_counter",
    "C76_seed_without_counter",
    "C76_key_with_counter",
    "C76_seed_is_its_key",
    "C76_seed_and_key",
    "C76_out_of_range",
    "C76_limits",
    "C76_seed_key_words",
    "C76_philox_numpy_counter_refuted",
    "C76_aes_counter_position",
    "C76_speck_counter_position",
    "C76_philox_counter_position",
    "C76_threefry_counter_position",
    "C76_chacha_counter_position",
    "C76_squares_seed_with_counter",
    "C76_squares_key_with_counter",
    "C76_squares_seed_and_key_refuted",
    "C76_squares_out_of_range",
    "C76_squares_bad_key",
    "C76_squares_float_counter_refuted",
    "C76_squares_new",
    "C76_squares_counter_position"
   ],
   "note": "Philox in NumPy-compatible seeding mode ignores the counter, in range or not (C76_philox_numpy_counter_refuted). Squares takes a seed and a key together without an error (C76_squares_seed_and_key_refuted) and a float counter only with a key (C76_squares_float_counter_refuted)."
  },
  {
   "property": "C77",
   "status": "proved",
   "theorems": [
    "C77_philox_jumped_streams_disjoint",
    "C77_threefry_jumped_streams_disjoint",
    "C77_aes_jumped_streams_disjoint",
    "C77_speck_jumped_streams_disjoint",
    "C77_lxm_jumped_streams_disjoint",
    "C77_xorshift1024_jumped_streams_disjoint"
   ],
   "note": "Philox, ThreeFry, AESCounter, SPECK128, LXM, Xorshift1024; the xoshiro classes are C10-C12 _jumped_streams_disjoint"
  },
  {
   "property": "C78",
   "status": "proved",
   "theorems": [
    "C78_pcg64_equidistributed",
    "C78_pcg64_each_word",
    "C78_pcg64_each_double",
    "C78_pcg32_equidistributed",
    "C78_pcg32_each_word",
    "C78_lcg128mix_equidistributed",
    "C78_counter_equidistributed",
    "C78_aes_equidistributed",
    "C78_speck_equidistributed",
    "C78_counter_draws_defined",
    "C78_xoshiro256_equidistributed",
    "C78_xoshiro256_each_word",
    "C78_xoshiro256_four_dimensions",
    "C78_xoshiro512_equidistributed",
    "C78_xoshiro512_each_word",
    "C78_xoshiro512_eight_dimensions",
    "C78_xoroshiro128_equidistributed",
    "C78_xoroshiro128_each_word",
    "C78_lxm_equidistributed",
    "C78_lxm_each_word",
    "C78_xorshift1024_equidistributed",
    "C78_xorshift1024_each_word",
    "C78_xorshift1024_sixteen_dimensions"
   ],
   "note": "Not claimed for the generators whose period is not known to be full or whose state is not visited entirely (MT19937, SFMT, DSFMT, JSF, SFC64, EFIIX64, HC128, ChaCha, Squares)."
  },
  {
   "property": "C79",
   "status": "partial",
   "theorems": [
    "C79_mode_accepted",
    "C79_mode_error",
    "C79_mode_result",
    "C79_mode_one",
    "C79_mode_none_refuted",
    "C79_variant_documented",
    "C79_variant_numbers",
    "C79_variant_negative_refuted",
    "C79_variant_case",
    "C79_pcg64_seed_inc",
    "C79_pcg64_seed_default",
    "C79_pcg64_numpy_is_default",
    "C79_pcg64_seed_rejects",
    "C79_pcg64_inc_bound_refuted",
    "C79_pcg64_inc_without_seed_refuted",
    "C79_pcg64_seed_raises_state",
    "C79_pcg64_new",
    "C79_pcg64_default_inc_refuted",
    "C79_dxsm_new",
    "C79_pcg64_numpy_new",
    "C79_pcg64_numpy_alias_refuted",
    "C79_pcg64_new_modes",
    "C79_pcg64_seed_modes",
    "C79_pcg64_jumped",
    "C79_pcg64_jumped_reseed",
    "C79_pcg64_jumped_refuted",
    "C79_pcg64_state_variant",
    "C79_pcg32_seed_inc",
    "C79_pcg32_seed_default",
    "C79_pcg32_seed_rejects",
    "C79_pcg32_inc_bound_refuted",
    "C79_pcg32_seed_raises_state",
    "C79_pcg32_new",
    "C79_pcg32_default_inc_refuted",
    "C79_lcg_seed_inc",
    "C79_lcg_seed_default",
    "C79_lcg_seed_rejects",
    "C79_lcg_seed_raises_state",
    "C79_lcg_inc_not_integer_refuted",
    "C79_lcg_new_accepted",
    "C79_mt19937_seed",
    "C79_mt19937_modes_differ",
    "C79_mt19937_jumped_reseed",
    "C79_mt19937_unpickled_refuted"
   ],
   "note": "proved for accepted and rejected arguments and the mode of jumped generators; refuted: mode=None is documented but rejected; variant -1 and -2 are accepted (the sign is removed as a dash); PCG64 ignores inc, valid or not, when no seed is given; inc=2**128 (PCG64) and 2**64 (PCG32, documented as allowed) pass the check and raise OverflowError after the seed sequence has been replaced; the documented default inc=0 is not what is used; the aliases of xsl-rr are rejected with numpy_seed; LCG128Mix truncates non-integer inc; jumped() raises after a state with another variant was assigned in numpy mode; an unpickled MT19937 loses its numpy mode"
  },
  {
   "property": "C80",
   "status": "partial",
   "theorems": [
    "C80_mt19937_tuple",
    "C80_mt19937_tuple_restores",
    "C80_mt19937_tuple_layout",
    "C80_mt19937_tuple_refused",
    "C80_mt19937_empty_tuple_refuted",
    "C80_mt19937_tuple_atomic_refuted"
   ],
   "note": "proved for both layouts and for refusal of the others; refuted: the empty tuple raises IndexError, and a bad position leaves the new key with the old position"
  },
  {
   "property": "C81",
   "status": "proved",
   "theorems": [
    "C81_philox_block",
    "C81_threefry_block",
    "C81_philox_stream",
    "C81_threefry_stream",
    "C81_aes_block",
    "C81_aes_sbox_inverse",
    "C81_aes_stream",
    "C81_speck_keys",
    "C81_speck_stream",
    "C81_chacha_stream"
   ],
   "note": "the published definitions are written in PubSpec.v independently of the code and checked on the published test vectors"
  },
  {
   "property": "C82",
   "status": "partial",
   "theorems": [
    "C82_scalar",
    "C82_arrays_partial",
    "C82_own_variate",
    "C82_rejected_size",
    "C82_rejected_shapes",
    "C82_rejected_df",
    "C82_rejected_scale",
    "C82_invalid_scale_array",
    "C82_invalid_scale_draws_refuted",
    "C82_list_size_refuted",
    "C82_list_scale_refuted",
    "C82_rows_refuted",
    "C82_standard_zero_df_refuted",
    "C82_standard_rejected"
   ],
   "note": "Shapes, parameters and the one-to-one use of variates hold for all shapes with sizes given as int or tuple, and everything else raises. Refuted: a size given as a list is turned down when df or scale is an array; a scale that is not an ndarray then raises AttributeError; a matrix refused by check_valid='raise' with one df raises after the whole sample has been drawn; the first row of a larger sample is not the smaller sample; standard_wishart takes zero degrees of freedom (and divides 0 by 0). The factorization itself is C67."
  },
  {
   "property": "C83",
   "status": "partial",
   "theorems": [
    "C83_uint64",
    "C83_uint",
    "C83_first",
    "C83_range",
    "C83_range_uint",
    "C83_zero",
    "C83_int128",
    "C83_mask",
    "C83_interval",
    "C83_digits",
    "C83_buffered_range",
    "C83_fill64",
    "C83_fill",
    "C83_fills",
    "C83_split",
    "C83_split_refuted",
    "C83_stuck_refuted"
   ],
   "note": "These sources are in the tree but setup.py does not compile them (the package links NumPy's copies). Refuted parts: 8-, 16- and 1-bit fills cannot be split (C83_split_refuted); a source without accepted words never returns (C83_stuck_refuted). The counts of words are exact numbers, not probabilities."
  },
  {
   "property": "C84",
   "status": "partial",
   "theorems": [
    "C84_law",
    "C84_range",
    "C84_sure",
    "C84_multinomial",
    "C84_multinomial_stale_refuted",
    "C84_multinomial_empty_refuted"
   ],
   "note": "hypergeometric.c and distributions.orig.c are in the tree but not compiled. The answers of random_interval are a list; C83 gives that they are uniform. Refuted: the array of random_multinomial must be zeroed by the caller and not empty (C84_multinomial_stale_refuted, C84_multinomial_empty_refuted)."
  },
  {
   "property": "C85",
   "status": "partial",
   "theorems": [
    "C85_integers",
    "C85_numpy",
    "C85_numpy_given",
    "C85_floats",
    "C85_rejected",
    "C85_reseed",
    "C85_failed_seed",
    "C85_distinct",
    "C85_restore",
    "C85_restored_reseed_refuted"
   ],
   "note": "Refuted part: the state does not carry the arguments w and k, so a restored (copied, unpickled) generator is seeded differently (C85_restored_reseed_refuted). Array arguments are not modelled."
  },
  {
   "property": "C86",
   "status": "partial",
   "theorems": [
    "C86_decimal_digits",
    "C86_spaces",
    "C86_decimal",
    "C86_hex",
    "C86_hex_digits",
    "C86_string_is_integer",
    "C86_unrecognized",
    "C86_refused",
    "C86_small_pool",
    "C86_nested",
    "C86_pool",
    "C86_none",
    "C86_state",
    "C86_children",
    "C86_alias_refuted",
    "C86_children_bound",
    "C86_seedless"
   ],
   "note": "Proved for entropy that the caller does not change afterwards; C86_alias_refuted: a list or array is kept by reference, and changing it makes children and state disagree with the pool."
  },
  {
   "property": "C87",
   "status": "proved",
   "theorems": [
    "C87_sfmt_fill",
    "C87_sfmt_fill_as_draws",
    "C87_sfmt_fill32_fill64",
    "C87_sfmt_fill_twice",
    "C87_sfmt_refused",
    "C87_dsfmt_fill",
    "C87_dsfmt_fill_as_draws",
    "C87_dsfmt_variants",
    "C87_dsfmt_ranges",
    "C87_dsfmt_refused",
    "C87_too_small"
   ],
   "note": "gen_rand_array for every size, with the conversion loops (FillArr.v, FillC.v); a smaller array without assertions is shown to be written past its end. Little-endian only; the SIMD versions differ in the recursion only, which C60 relates to the scalar one."
  },
  {
   "property": "C88",
   "status": "partial",
   "theorems": [
    "C88_sfmt_calls",
    "C88_sfmt_assertion",
    "C88_sfmt_as_buffer",
    "C88_sfmt_misaligned_refuted",
    "C88_sfmt_mix",
    "C88_dsfmt_calls",
    "C88_dsfmt_as_buffer",
    "C88_dsfmt_ranges",
    "C88_sfmt_reals",
    "C88_sfmt_real1_constant",
    "C88_sfmt_real1"
   ],
   "note": "all claims proved; the misaligned 64-bit call without the assertion is shown to repeat bits (C88_sfmt_misaligned_refuted). Little-endian only; the gv_ functions, which do the same on a global state, are not modelled separately."
  },
  {
   "property": "C89",
   "status": "proved",
   "theorems": [
    "C89_key",
    "C89_key_words",
    "C89_seed",
    "C89_byte_order",
    "C89_refused",
    "C89_new_key",
    "C89_new_seed",
    "C89_mode",
    "C89_sequence_after_key"
   ],
   "note": ""
  },
  {
   "property": "C90",
   "status": "proved",
   "theorems": [
    "C90_speck_rounds",
    "C90_chacha_rounds",
    "C90_variant",
    "C90_constructed",
    "C90_made_with_key",
    "C90_made_with_seed",
    "C90_numpy_mode",
    "C90_stream"
   ],
   "note": "Objects other than numbers and None as parameters are not modelled."
  },
  {
   "property": "C91",
   "status": "partial",
   "theorems": [
    "C91_feature_bits",
    "C91_capable",
    "C91_rdrand_capable",
    "C91_no_unsupported_instruction",
    "C91_seed_uses_them",
    "C91_assign_bool",
    "C91_speck_stream",
    "C91_chacha_stream",
    "C91_aes_stream",
    "C91_switch_kept_refuted",
    "C91_sse41_truth_refuted",
    "C91_failed_assignment_refuted",
    "C91_sv_ok_needed"
   ],
   "note": "All but the last sentence is proved. The last sentence is refuted: the switches are global and seeding or making any object of the class turns them on again; use_sse41 = 2 is read as True but the portable code runs and 0.5 switches off; use_sse41 = None raises and switches on. A class whose false object has int() 1 is excluded by sv_ok (shown necessary)."
  },
  {
   "property": "C92",
   "status": "partial",
   "theorems": [
    "C92_ratio_of_uniforms",
    "C92_shortcuts",
    "C92_bijection",
    "C92_range",
    "C92_undefined",
    "C92_nan_refuted",
    "C92_tail_refuted",
    "C92_centre",
    "C92_constants"
   ],
   "note": "In exact real arithmetic with exact log-factorials. All but the last sentence is proved. The last sentence is refuted: U = 0 with V = 1/2 gives nan, whose conversion to int64_t is undefined (shown to be the only case), and values more than 16 standard deviations above the mean are never returned. That the rectangle of the method covers the whole region (the choice of h) is not proved. The source file is not compiled by setup.py."
  },
  {
   "property": "C93",
   "status": "partial",
   "theorems": [
    "C93_exponential",
    "C93_uniform",
    "C93_pareto",
    "C93_weibull",
    "C93_power",
    "C93_laplace",
    "C93_gumbel",
    "C93_logistic",
    "C93_rayleigh",
    "C93_triangular",
    "C93_geometric_search",
    "C93_geometric_inversion",
    "C93_geometric_methods",
    "C93_geometric",
    "C93_geometric_zero_refuted",
    "C93_poisson",
    "C93_binomial",
    "C93_binomial_tail_refuted",
    "C93_logseries",
    "C93_logseries_zero_refuted",
    "C93_random_binomial",
    "C93_random_binomial_ends"
   ],
   "note": "exact reals instead of doubles, source not compiled by setup.py; refuted: geometric inversion returns 0 for U = 0, logseries converts infinity to an integer for V = 0 (undefined), binomial inversion never returns numbers above its bound"
  },
  {
   "property": "C94",
   "status": "partial",
   "theorems": [
    "C94_eval",
    "C94_determines",
    "C94_defaults",
    "C94_digits_refuted",
    "C94_string_refuted"
   ],
   "note": "Python ints only (the text of bools, numpy integers and arrays is not modelled); refuted: a str entropy is shown without quotes (\"007\" gives no valid expression), and an integer with more digits than sys.get_int_max_str_digits() makes repr raise ValueError"
  },
  {
   "property": "C95",
   "status": "partial",
   "theorems": [
    "C95_zipf_proposal",
    "C95_zipf_positive",
    "C95_zipf_accept",
    "C95_zipf_law",
    "C95_zipf_undefined_refuted",
    "C95_wald",
    "C95_wald_choice"
   ],
   "note": "exact reals instead of doubles, source not compiled by setup.py; refuted: X = 2^63 is not rejected by random_zipf and its conversion to int64_t is undefined"
  },
  {
   "property": "C96",
   "status": "partial",
   "theorems": [
    "C96_scale",
    "C96_scale_small",
    "C96_round",
    "C96_proposal",
    "C96_density",
    "C96_law",
    "C96_result",
    "C96_flat",
    "C96_beta_dead",
    "C96_beta",
    "C96_beta_hangs_refuted",
    "C96_beta_gamma"
   ],
   "note": "C96_beta_hangs_refuted: with powers below 2^-1075 rounded to 0, random_beta never returns for a, b <= 1e-20; the branch meant for this case is dead (C96_beta_dead). That accepted pairs have the beta law is not proved."
  },
  {
   "property": "C97",
   "status": "proved",
   "theorems": [
    "C97_accept",
    "C97_monotone",
    "C97_law",
    "C97_squeeze",
    "C97_large",
    "C97_small",
    "C97_small_accept",
    "C97_small_density",
    "C97_small_law"
   ],
   "note": "Over the real numbers; the normal and exponential numbers are taken to have their distributions."
  },
  {
   "property": "C98",
   "status": "partial",
   "theorems": [
    "C98_ratio",
    "C98_accept",
    "C98_range",
    "C98_undefined_refuted",
    "C98_stirling_refuted",
    "C98_regions",
    "C98_area",
    "C98_left_tail",
    "C98_right_tail",
    "C98_parallelograms",
    "C98_digits_refuted",
    "C98_setup",
    "C98_step52"
   ],
   "note": "C98_stirling_refuted: the Stirling corrections of y! and (n-y)! are added instead of subtracted, so Step52 accepts v above the ratio (n = 200, p = 1/2, y = 121). C98_undefined_refuted: minus infinity is converted to an integer when v = 0. Proved about the proposal: the maps of the parallelograms and the tails keep areas, and parallelograms and tails are covered once (C98_area, C98_parallelograms, C98_left_tail, C98_right_tail). C98_digits_refuted: the first Stirling coefficient has 13680 for 13860. Not proved: the law in the triangle, and that the hat lies above the binomial probabilities. C98_setup and the constants in C98_step52 only repeat the constants of the source, as a check of the transcription."
  },
  {
   "property": "C99",
   "status": "partial",
   "theorems": [
    "C99_monotone",
    "C99_density",
    "C99_accept",
    "C99_law",
    "C99_nonneg",
    "C99_undefined_refuted",
    "C99_round",
    "C99_small"
   ],
   "note": "C99_undefined_refuted: when the first uniform number is 0, minus infinity is converted to an integer. Proved for the last test, with loggam taken as exact; that the two quick tests (lines 685 and 688) leave the law unchanged and that the acceptance bound is at most 1 are not proved."
  },
  {
   "property": "C100",
   "status": "proved",
   "theorems": [
    "C100_calls",
    "C100_more",
    "C100_radius",
    "C100_injective",
    "C100_onto",
    "C100_partials",
    "C100_law"
   ],
   "note": "Over the reals; the law is stated by the determinant of the partial derivatives (C100_partials, C100_law) with C100_injective and C100_onto. The theorem on change of variables in integrals itself is not formalised."
  }
 ]
}