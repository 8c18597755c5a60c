{"claims": [
{"property": "C01", "status": "proved", "theorems": ["C01_atonce", "C01_atonce128"], "note": "All modelled configurations except 32-bit strict-alignment builds with one-shot reads (hypothesis whole_words_ok; what happens there is C06_strict_align_32_refuted)."},
{"property": "C02", "status": "proved", "theorems": ["C02_t1ha1_le", "C02_t1ha1_be"], "note": "Excluding 32-bit strict-alignment one-shot builds; t1ha1_be additionally excludes the builds that do not compile (C36)."},
{"property": "C03", "status": "proved", "theorems": ["C03_t1ha0_32le", "C03_t1ha0_32be"], "note": "All modelled configurations."},
{"property": "C04", "status": "proved", "theorems": ["C04_noavx", "C04_avx", "C04_avx2"], "note": "AES rounds are specified by FIPS-197 in AesSpec.v (S-box by field inversion) the model of the instructions uses the tables of FIPS-197; the hypotheses room/ulong64 exclude exactly the cases of C34 and C35."},
{"property": "C05", "status": "proved", "theorems": ["C05_locality"], "note": "For any two memories that both hold the key; covers all one-shot functions including the AES ones."},
{"property": "C06", "status": "proved", "theorems": ["C06_page_safe", "C06_other_pages_unmapped", "C06_strict_align_32_refuted"], "note": "Holds except in 32-bit strict-alignment builds, where C06_strict_align_32_refuted exhibits a fault."},
{"property": "C07", "status": "proved", "theorems": ["C07_exact_bounds", "C07_nothing_else_mapped"], "note": "Builds with byte-exact tail reads: the call succeeds in a memory where nothing but the key is mapped."},
{"property": "C08", "status": "proved", "theorems": ["C08_empty", "C08_empty128"], "note": "All one-shot functions and t1ha2_atonce128, every build and memory, any pointer."},
{"property": "C09", "status": "proved", "theorems": ["C09_no_side_effect", "C09_atonce128_writes"], "note": "Memory is unchanged byte by byte; t1ha2_atonce128 writes only its eight bytes."},
{"property": "C10", "status": "proved", "theorems": ["C10_chunking", "C10_chunking128"], "note": "Two cuttings of one message, in any two builds, addresses and memories, give the same result (64 and 128 bit)."},
{"property": "C11", "status": "proved", "theorems": ["C11_stream64", "C11_stream128"], "note": "Any number of bytes: the specification takes the total modulo 2^64 as the code does."},
{"property": "C12", "status": "proved", "theorems": ["C12_histories", "C12_plain_histories"], "note": "Histories are lists of events over any number of contexts."},
{"property": "C13", "status": "proved", "theorems": ["C13_invariant"], "note": "The two counters and the frame after init and any sequence of updates."},
{"property": "C14", "status": "proved", "theorems": ["C14_empty_update", "C14_null_refuted"], "note": "Non-null and block-aligned cases proved; NULL with a partial block refuted (C14_null_refuted)."},
{"property": "C15", "status": "proved", "theorems": ["C15_init_erases", "C15_reinit"], "note": "Also for a context that is in use when it is initialised again."},
{"property": "C16", "status": "proved", "theorems": ["C16_copy"], "note": "Copy by the memcpy of the model; both copies may go on with different chunkings."},
{"property": "C17", "status": "proved", "theorems": ["C17_final", "C17_final128"], "note": "Result and frame of t1ha2_final with and without the extra result."},
{"property": "C18", "status": "proved", "theorems": ["C18_final_twice_refuted"], "note": "Refuted as stated by a user: C18_final_twice_refuted."},
{"property": "C19", "status": "proved", "theorems": ["C19_mul_exact", "C19_mux", "C19_mixup", "C19_carry"], "note": "Every multiplication variant of the configuration equals the mathematical 128-bit product."},
{"property": "C20", "status": "proved", "theorems": ["C20_not128", "C20_left128", "C20_right128", "C20_or128", "C20_xor128", "C20_rot128", "C20_add128", "C20_mul128", "C20_rot128_by_0_refuted"], "note": "rot128 by a multiple of 128 with a native 128-bit type is undefined: C20_rot128_by_0_refuted."},
{"property": "C21", "status": "proved", "theorems": ["C21_fetch16", "C21_fetch32", "C21_fetch64", "C21_tail64_unaligned", "C21_tail64_aligned", "C21_tail32_unaligned", "C21_tail32_aligned"], "note": "The 64-bit aligned readers exclude 32-bit strict-alignment one-shot builds."},
{"property": "C22", "status": "proved", "theorems": ["C22_release", "C22_debug", "C22_zero", "C22_verdict"], "note": "For any hash code, including code that faults, aborts or changes memory, as long as it does not overwrite the table; C22_verdict is the plain form for a function that leaves memory alone."},
{"property": "C23", "status": "proved", "theorems": ["C23_tables", "C23_each", "C23_all"], "note": "All builds in which the functions run (the conditions exclude C06, C24_xcr0 and C36); the tables are checked against the specification in C23_tables."},
{"property": "C24", "status": "proved", "theorems": ["C24_announced", "C24_supported", "C24_value", "C24_xcr0_refuted", "C24_enabled", "C24_best", "C24_portable"], "note": "Holds if the operating system enables the AVX state whenever it sets OSXSAVE; without that C24_xcr0_refuted, because XCR0 is never read."},
{"property": "C25", "status": "proved", "theorems": ["C25_covered", "C25_values"], "note": "For arbitrary code under check, t1ha_selfcheck__t1ha0 and t1ha_selfcheck__all_enabled."},
{"property": "C26", "status": "proved", "theorems": ["C26_lazy", "C26_constructor", "C26_before_constructor_refuted"], "note": "Any number of threads and calls, any schedule, reads may return any value not older than one already seen; the data race on the pointer is treated as relaxed atomic. Before the constructor has run the pointer is null: C26_before_constructor_refuted."},
{"property": "C27", "status": "proved", "theorems": ["C27_short", "C27_short_any_memory"], "note": "All keys up to 32 bytes; C27_short_any_memory needs no assumption that the read succeeds."},
{"property": "C28", "status": "proved", "theorems": ["C28_t1ha1", "C28_t1ha0"], "note": "The two calls may be in different builds, memories and at different addresses."},
{"property": "C29", "status": "proved", "theorems": ["C29_last_word", "C29_short", "C29_empty_seeds"], "note": "Stronger than stated: any two keys that differ only in the last word, unless it ends a whole block of a long key."},
{"property": "C30", "status": "proved", "theorems": ["C30_refuted", "C30_t1ha2_refuted", "C30_stream_refuted", "C30_mixup64", "C30_mixup32"], "note": "Refuted as a user would expect it (C30_refuted, C30_t1ha2_refuted, C30_stream_refuted); the part that holds is C30_mixup64 and C30_mixup32."},
{"property": "C31", "status": "proved", "theorems": ["C31_refuted"], "note": "Refuted as a user would expect it: an explicit injection of more than 2^64/5 seeds for which one pair of 40-byte keys collides."},
{"property": "C32", "status": "proved", "theorems": ["C32_refuted"], "note": "Refuted as a user would expect it."},
{"property": "C33", "status": "proved", "theorems": ["C33_results", "C33_results128", "C33_results_stream"], "note": "Covers every one-shot function, t1ha2_atonce128 and the streaming results."},
{"property": "C34", "status": "proved", "theorems": ["C34_lp64", "C34_llp64_refuted"], "note": "Proved where unsigned long has the width of size_t; refuted on LLP64 (C34_llp64_refuted)."},
{"property": "C35", "status": "proved", "theorems": ["C35_do_while_exact", "C35_t1ha2_loop", "C35_while_exact", "C35_low_address_refuted", "C35_high_address_refuted"], "note": "Exact iteration counts proved; the wrap-around cases of the AES functions are refuted (C35_low_address_refuted, C35_high_address_refuted)."},
{"property": "C36", "status": "proved", "theorems": ["C36_be_tail_refuted"], "note": "Refuted: C36_be_tail_refuted."},
{"property": "C37", "status": "proved", "theorems": ["C37_refuted"], "note": "Refuted as a user would expect it: explicit partners for every key with a whole 128-byte block."},
{"property": "C38", "status": "proved", "theorems": ["C38_oneshot", "C38_atonce128", "C38_init", "C38_update", "C38_final", "C38_restrict", "C38_bad_count_refuted"], "note": "All arguments. The only proviso, a sane count of pending bytes in the context, is necessary: C38_bad_count_refuted."},
{"property": "C39", "status": "proved", "theorems": ["C39_oneshot", "C39_oneshot_errors", "C39_writers", "C39_writers_faults"], "note": "Metatheorem by structural lemmas for every function of the model (Effects.v)."},
{"property": "C40", "status": "proved", "theorems": ["C40_stream_is_atonce", "C40_stream128_is_atonce128"], "note": "64-bit for messages of more than 24 bytes, 128-bit for all lengths but 24 (there the streaming code absorbs the padded message as a block and the one-shot code as a tail)."},
{"property": "C41", "status": "proved", "theorems": ["C41_refuted"], "note": "The claim is false; C41_refuted gives the relation for all pairs and seeds."},
{"property": "C42", "status": "proved", "theorems": ["C42_probes", "C42_agrees", "C42_shipped"], "note": "From C22 and C23; verify() is t1ha_selfcheck of a release build with a negated answer."},
{"property": "C43", "status": "proved", "theorems": ["C43_selfcheck", "C43_message", "C43_status_refuted"], "note": "C43_selfcheck and C43_message hold; C43_status_refuted: for every command line and every set of failures."},
{"property": "C44", "status": "proved", "theorems": ["C44_requested", "C44_default", "C44_excluded", "C44_off_refuted", "C44_no_size_refuted", "C44_le_refuted", "C44_accepted", "C44_restart", "C44_plain", "C44_all_funcs"], "note": "C44_requested, C44_default, C44_excluded, C44_accepted, C44_restart, C44_plain and C44_all_funcs hold; the _refuted theorems hold for all command lines."},
{"property": "C45", "status": "proved", "theorems": ["C45_default", "C45_reachable", "C45_by_name_refuted", "C45_64_refuted", "C45_position"], "note": "C45_default, C45_reachable and C45_position hold; the _refuted theorems give the wrong choices in all builds that have all functions."},
{"property": "C46", "status": "proved", "theorems": ["C46_lines", "C46_getline", "C46_fgets", "C46_long_refuted", "C46_nul_refuted"], "note": "C46_lines, C46_getline, C46_fgets hold; the _refuted theorems give an input for each buffer size."},
{"property": "C47", "status": "proved", "theorems": ["C47_runs", "C47_avx2_refuted"], "note": "C47_runs under the two stated conditions on the machine; C47_avx2_refuted without the one on AVX2."},
{"property": "C48", "status": "proved", "theorems": ["C48_size_runs", "C48_all_refuted"], "note": "C48_size_runs holds; C48_all_refuted for all command lines."},
{"property": "C49", "status": "proved", "theorems": ["C49_value", "C49_thunk", "C49_reads", "C49_recorded", "C49_verify", "C49_selftest"], "note": "The thunk is a corollary; verify() through C42."},
{"property": "C50", "status": "proved", "theorems": ["C50_zero_refuted", "C50_forgets_refuted", "C50_forgets_long_refuted", "C50_code_refuted"], "note": "Refuted: mum(0, x) = 0, for every seed.  C50_code_refuted is about the code, the others about the specification that C49 proves it equal to."},
{"property": "C51", "status": "proved", "theorems": ["C51_value", "C51_thunk", "C51_reads", "C51_recorded", "C51_verify"], "note": "The thunk is a corollary; verify() through C42."},
{"property": "C52", "status": "proved", "theorems": ["C52_scramble", "C52_masks", "C52_state", "C52_seeds", "C52_primes_refuted"], "note": "Holds; only the word prime of the comment is wrong (C52_primes_refuted)."},
{"property": "C53", "status": "proved", "theorems": ["C53_words_refuted", "C53_blocks_refuted", "C53_code_refuted"], "note": "Refuted for every state: the words are taken in by bijections.  C53_code_refuted is about the code, the others about the specification that C51 proves it equal to."},
{"property": "C54", "status": "proved", "theorems": ["C54_value", "C54_sizes", "C54_thunk", "C54_remainder_0", "C54_reads", "C54_recorded", "C54_verify"], "note": "The check through a lemma about any code that computes a function of key and message."},
{"property": "C55", "status": "proved", "theorems": ["C55_cat", "C55_cuts", "C55_between"], "note": "Unbounded: induction on the calls with an invariant on state and buffer."},
{"property": "C56", "status": "proved", "theorems": ["C56_step", "C56_packet", "C56_rest", "C56_keys", "C56_rounds"], "note": "About the specification that C54 proves the code equal to."},
{"property": "C57", "status": "proved", "theorems": ["C57_zipper", "C57_reduction", "C57_irreducible_refuted"], "note": "C57_zipper and C57_reduction hold; only the word irreducible of the comments is wrong (C57_irreducible_refuted)."},
{"property": "C58", "status": "proved", "theorems": ["C58_little", "C58_big", "C58_agree", "C58_states", "C58_pads", "C58_verify_little", "C58_verify_big_refuted", "C58_reads", "C58_none_left"], "note": "On big-endian builds the code computes another function, C58_big, and its check fails, C58_verify_big_refuted."},
{"property": "C59", "status": "proved", "theorems": ["C59_cat", "C59_same", "C59_empty", "C59_again"], "note": "Proved once for any class whose operations are correct (HighwayTemplates.v) and for the portable one."},
{"property": "C60", "status": "proved", "theorems": ["C60_sse41", "C60_avx2", "C60_agree", "C60_thunks", "C60_verify", "C60_reads", "C60_none_left"], "note": "Little-endian builds, as all x86 are."},
{"property": "C61", "status": "proved", "theorems": ["C61_cat", "C61_table_refuted", "C61_concatenate", "C61_load3_ordered", "C61_load3_unordered"], "note": "Proved if the table is aligned to 16 bytes, which the source does not ask for: C61_table_refuted."},
{"property": "C62", "status": "proved", "theorems": ["C62_primes", "C62_others", "C62_comments"], "note": "Certificates for the criterion of Pocklington, which is proved in Primes.v, checked by computation."},
{"property": "C63", "status": "proved", "theorems": ["C63_value", "C63_thunk", "C63_null", "C63_method_2", "C63_reads"], "note": "Builds and tuning parameters are arguments of the model."},
{"property": "C64", "status": "proved", "theorems": ["C64_stream32", "C64_stream64", "C64_null", "C64_anywhere_refuted"], "note": "Chunks stay away from the first 16 and the last 32 bytes of the address space, which the code needs: C64_anywhere_refuted. Access method 2 is left out."},
{"property": "C65", "status": "proved", "theorems": ["C65_canonical32", "C65_canonical64"], "note": "Access method 2 needs an aligned address."},
{"property": "C66", "status": "proved", "theorems": ["C66_word32", "C66_byte32", "C66_word64", "C66_byte64", "C66_seed", "C66_word64_refuted"], "note": "About the specified functions, which the code computes by C63. The part that is false: C66_word64_refuted."},
{"property": "C67", "status": "proved", "theorems": ["C67_seed64_refuted", "C67_seed32_refuted"], "note": "Found false, for every message: the theorems construct the collisions."},
{"property": "C68", "status": "proved", "theorems": ["C68_secret", "C68_value", "C68_thunk", "C68_low_half", "C68_eight_bytes", "C68_method_2"], "note": "The scalar variant, which is the one the test program builds."},
{"property": "C69", "status": "proved", "theorems": ["C69_stream", "C69_bad_secret", "C69_null_secret", "C69_null", "C69_anywhere_refuted"], "note": "The scalar variant. The full claim excepts chunks in the last 255 bytes of the memory (C69_anywhere_refuted) and messages of 8 bytes in builds with assertions (C68_eight_bytes)."},
{"property": "C70", "status": "proved", "theorems": ["C70_tiny", "C70_same_length", "C70_eight", "C70_partner", "C70_seed"], "note": "About the specification that C68 proves the code to compute."},
{"property": "C71", "status": "proved", "theorems": ["C71_sixteen", "C71_ignored", "C71_ends_128", "C71_long", "C71_anywhere", "C71_long_seeds", "C71_code"], "note": "About the specification that C68 proves the code to compute; C71_code states one case for the code."},
{"property": "C72", "status": "proved", "theorems": ["C72_equal", "C72_order", "C72_objects_refuted", "C72_canonical_order", "C72_canonical"], "note": "C72_objects_refuted shows why the canonical form is needed."},
{"property": "C73", "status": "proved", "theorems": ["C73_value", "C73_use", "C73_seeds", "C73_collide"], "note": "The arrays of the function, and those of the functions it calls, have addresses that are given and apart."},
{"property": "C74", "status": "proved", "theorems": ["C74_aligned", "C74_none", "C74_state", "C74_256_refuted"], "note": "malloc is its result: any address of a block of the size, or none. C74_256_refuted is about a call that the code does not make, and that the assertion stops in debug builds."},
{"property": "C75", "status": "proved", "theorems": ["C75_flat", "C75_swap", "C75_seeded_swap"], "note": "About the specification that C73 and C68 prove the code to compute."},
{"property": "C76", "status": "proved", "theorems": ["C76_stripe", "C76_secret", "C76_value", "C76_same", "C76_misaligned"], "note": "The intrinsics are modelled from their documentation. Access method 2 is left out, as in C68. The choice between the variants by the preprocessor is an argument."},
{"property": "C77", "status": "proved", "theorems": ["C77_casts", "C77_shift", "C77_value", "C77_agree", "C77_cat", "C77_misaligned", "C77_verify", "C77_big_refuted", "C77_big_verify", "C77_reads"], "note": "The vector operations are modelled from their documentation, for either byte order. C77_big_refuted shows that big-endian machines do not compute HighwayHash."},
{"property": "C78", "status": "proved", "theorems": ["C78_popcount", "C78_table", "C78_secret", "C78_secret_same", "C78_trial", "C78_default_refuted", "C78_rand_state", "C78_rand_value", "C78_rand_period", "C78_rand_all_states", "C78_rand_values_refuted", "C78_wyhash64", "C78_wyhash64_blind", "C78_u01", "C78_u01_same", "C78_gau", "C78_gau_mirror"], "note": "make_secret() is modelled with bounds on the number of rounds; the theorems hold for all bounds, and C78_secret_example shows a seed for which it ends. That it ends for all seeds is not claimed. Doubles are rationals, and nothing is rounded. C78_default_refuted and C78_rand_values_refuted state what does not hold."},
{"property": "C79", "status": "proved", "theorems": ["C79_copy32", "C79_copy64", "C79_copy3", "C79_itself"], "note": "The members that are no arrays of bytes are a record, which is copied as a value. goes_on32, goes_on64 and goes_on3 quantify over all memories that differ in the other state only."},
{"property": "C80", "status": "proved", "theorems": ["C80_life", "C80_stream", "C80_misaligned"], "note": "The accumulators, the built secret and the buffer are in memory at the state, other members are a record. Excluded as in C69: 8 bytes with assertions on (C68_eight_bytes) and totals of 2^64 bytes or more."}
]}
