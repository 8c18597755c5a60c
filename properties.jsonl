{"id": "C01", "title": "t1ha2_atonce / t1ha2_atonce128 are one portable mathematical function", "statement": "In every supported build configuration (host endianness, pointer and long width, unaligned-access mode, one-shot tail reads on or off, sanitizer, wide-multiply and carry implementation), t1ha2_atonce(data,len,seed) and t1ha2_atonce128(&extra,data,len,seed) terminate normally and return exactly the value that a short endian-free specification computes from the sequence of key bytes and the seed.", "quantifier": "every key (any length), every seed, every address/alignment, every memory contents around the key, every build configuration", "why_tests_cant": "Tests run 81 vectors on one build of one host; they cannot cover all lengths, seeds, alignments, and the product of preprocessor configurations.", "anchors": ["src/t1ha2.c: t1ha2_atonce, t1ha2_atonce128, T1HA2_LOOP, T1HA2_TAIL_AB, T1HA2_TAIL_ABCD", "src/t1ha_bits.h: fetch64_le_*, tail64_le_*, mixup64, final64, mul_64x64_128"]}
{"id": "C02", "title": "t1ha1_le and t1ha1_be are portable", "statement": "In every supported build configuration t1ha1_le and t1ha1_be terminate normally and return the value given by an endian-free specification over the key bytes (little- resp. big-endian words), independent of host endianness and alignment.", "quantifier": "every key, seed, address, surrounding memory, build configuration", "why_tests_cant": "Big-endian hosts, strict-alignment hosts and the portable multiply cannot all be exercised by one test binary; lengths and seeds are unbounded.", "anchors": ["src/t1ha1.c: t1ha1_le, t1ha1_be, T1HA1_BODY, mix64, final_weak_avalanche"]}
{"id": "C03", "title": "t1ha0_32le and t1ha0_32be are portable", "statement": "In every supported build configuration t1ha0_32le and t1ha0_32be terminate normally and return the value given by an endian-free specification over the key bytes.", "quantifier": "every key, seed, address, surrounding memory, build configuration", "why_tests_cant": "Same as C02: product of configurations and unbounded inputs.", "anchors": ["src/t1ha0.c: t1ha0_32le, t1ha0_32be, T1HA0_BODY, tail32_le_*, tail32_be_*, final32"]}
{"id": "C04", "title": "The AES-NI variants compute one function each, and AVX does not change the result", "statement": "t1ha0_ia32aes_noavx and t1ha0_ia32aes_avx return the same value for every input, equal to a specification built from the mathematical AES round; t1ha0_ia32aes_avx2 equals its own specification; neither depends on which SIMD extraction code path was compiled.", "quantifier": "every key shorter than the address space, every seed, every address, every compile-time SIMD level (LP64/32-bit)", "why_tests_cant": "Vectors cover 81 inputs up to 254 bytes; the 128-byte main loop and its detent arithmetic are exercised for one or two iterations only.", "anchors": ["src/t1ha0_ia32aes_a.h", "src/t1ha0_ia32aes_b.h"]}
{"id": "C05", "title": "Locality: neighbouring bytes never influence a hash", "statement": "If two memories agree on the len key bytes, every one-shot hash function returns the same value in both, whatever lies before or after the key, even though the tail code may read those neighbouring bytes.", "quantifier": "all pairs of memories that agree on the key, all addresses, lengths, seeds, configurations", "why_tests_cant": "A test can only try a few surroundings; masking mistakes show only for particular neighbour bytes and alignments.", "anchors": ["src/t1ha_bits.h: tail64_le_unaligned, tail64_be_unaligned, can_read_underside", "src/t1ha0.c: tail32_le_unaligned, tail32_be_unaligned"]}
{"id": "C06", "title": "One-shot tail reads never leave the pages that hold key bytes", "statement": "With one-shot tail reads enabled, no hash function touches a byte in a page (of the configured PAGESIZE) that contains no key byte, so hashing a key next to an unmapped page never faults. (Found false for 32-bit strict-alignment builds, where an 8-byte read is issued at a 4-aligned address.)", "quantifier": "all addresses, lengths, page contents, configurations", "why_tests_cant": "Needs guard pages at every possible offset and every build configuration; a fault depends on the memory map of the process.", "anchors": ["src/t1ha_bits.h: can_read_underside, tail64_le_aligned, tail64_le_unaligned, ALIGNMENT_64, PAGESIZE"]}
{"id": "C07", "title": "With one-shot reads disabled, only key bytes are read", "statement": "When T1HA_USE_FAST_ONESHOT_READ is off or the build is sanitized, the functions read only bytes in [data, data+len): they succeed even if every other byte of memory is unmapped.", "quantifier": "all addresses, lengths, seeds, configurations with over-reads disabled", "why_tests_cant": "Absence of any out-of-bounds read over all lengths/alignments is a universal statement.", "anchors": ["src/t1ha_bits.h: T1HA_USE_FAST_ONESHOT_READ branches", "src/t1ha0.c: tail32_*"]}
{"id": "C08", "title": "Empty keys need no memory", "statement": "For len = 0 every hash function returns a value that depends on the seed only and performs no memory access, so a NULL or dangling data pointer is harmless.", "quantifier": "all seeds, all data pointers (including NULL), all memories (including entirely unmapped), all configurations", "why_tests_cant": "Absence of access cannot be observed by a passing unit test on mapped memory.", "anchors": ["src/t1ha2.c: T1HA2_TAIL_AB case 0", "src/t1ha1.c: T1HA1_BODY", "src/t1ha0.c: T1HA0_BODY"]}
{"id": "C09", "title": "One-shot hashing has no side effects", "statement": "One-shot functions leave every byte of memory unchanged; t1ha2_atonce128 changes exactly the 8 bytes at extra_result.", "quantifier": "all memories, inputs, configurations", "why_tests_cant": "A frame property over the entire memory.", "anchors": ["src/t1ha2.c: t1ha2_atonce128", "src/t1ha1.c", "src/t1ha0.c"]}
{"id": "C10", "title": "Streaming is independent of chunking", "statement": "For a context initialised with (seed_x, seed_y), any two sequences of t1ha2_update calls that supply the same concatenation of bytes lead to the same 64- and 128-bit results of t1ha2_final.", "quantifier": "every byte sequence, every way to cut it into any number of chunks of any size (including empty), every chunk address, every seed pair, configuration", "why_tests_cant": "The number of partitions is exponential and unbounded; boundary bugs hide in combinations of partial buffer fill and chunk length.", "anchors": ["src/t1ha2.c: t1ha2_init, t1ha2_update, t1ha2_final"]}
{"id": "C11", "title": "Streaming result has a closed form", "statement": "init; update*; final returns the specification value: absorb all full 32-byte blocks of message || le64(8*total xor 2^63), then squash and mix the remainder.", "quantifier": "every message, chunking, seed pair, configuration, either result width", "why_tests_cant": "Unbounded message length and chunking.", "anchors": ["src/t1ha2.c: t1ha2_final, T1HA2_UPDATE, squash, T1HA2_TAIL_AB, T1HA2_TAIL_ABCD, final128"]}
{"id": "C12", "title": "Arbitrary API histories over many contexts refine independent abstract streams", "statement": "For every interleaving of init/update/final calls on any number of disjoint contexts, and of the caller overwriting memory outside the contexts between calls, each final returns the specification value of exactly the bytes fed to that context since its last init, as they were when fed. Contexts do not influence each other and the library keeps no reference to fed buffers.", "quantifier": "every finite history of calls, every number of contexts, every memory layout with disjoint contexts, every configuration", "why_tests_cant": "The set of histories is infinite.", "anchors": ["src/t1ha2.c: t1ha2_init, t1ha2_update, t1ha2_final", "t1ha.h: t1ha_context_t"]}
{"id": "C13", "title": "Context invariant and memory confinement of streaming", "statement": "After any sequence of updates the number of buffered bytes is below 32 and equals total mod 32, the byte counter equals the number of bytes fed modulo 2^64, and init/update never write outside the context object (so the internal buffer can never overflow).", "quantifier": "every update history, configuration", "why_tests_cant": "Invariant over all histories and a frame property over all memory.", "anchors": ["src/t1ha2.c: t1ha2_update", "t1ha.h: t1ha_context_t"]}
{"id": "C14", "title": "Zero-length updates are no-ops", "statement": "t1ha2_update(ctx, p, 0) leaves the context unchanged for every non-null p at any moment, and also for p = NULL while no partial block is buffered. (Found false for NULL while a partial block is buffered: memcpy is called with a null pointer, undefined behaviour.)", "quantifier": "every reachable context, every pointer, configuration", "why_tests_cant": "Undefined behaviour is invisible to a passing test.", "anchors": ["src/t1ha2.c: t1ha2_update memcpy"]}
{"id": "C15", "title": "Initialisation erases all history", "statement": "After t1ha2_init the result of any following use does not depend on what the context memory held before (previous stream, finalised stream, or uninitialised bytes, including stale buffer contents).", "quantifier": "every previous memory contents, every following history", "why_tests_cant": "Two-run hyperproperty over all previous states.", "anchors": ["src/t1ha2.c: t1ha2_init"]}
{"id": "C16", "title": "Contexts are position-independent values", "statement": "A bytewise copy of a context taken at any moment between calls to any suitably aligned disjoint address continues the same stream: both copies then yield the same results for the same continuation.", "quantifier": "every reachable context, every destination address, every continuation", "why_tests_cant": "Quantifies over all reachable states and continuations.", "anchors": ["t1ha.h: t1ha_context_t, t1ha_state256_t", "src/t1ha2.c"]}
{"id": "C17", "title": "t1ha2_final writes only the context and the extra result", "statement": "t1ha2_final(ctx,NULL) changes only bytes of *ctx (and its own stack frame) and returns the 64-bit result; t1ha2_final(ctx,&x) in addition stores exactly the second half of the 128-bit result at x.", "quantifier": "every reachable context, memory, configuration", "why_tests_cant": "Frame property over all memory.", "anchors": ["src/t1ha2.c: t1ha2_final, final128"]}
{"id": "C18", "title": "t1ha2_final may be repeated (found false)", "statement": "A caller might expect t1ha2_final to be idempotent (a query). It is not: finalising twice yields a different value; the context must be re-initialised.", "quantifier": "existential counterexample", "why_tests_cant": "Tests in the repository never call final twice.", "anchors": ["src/t1ha2.c: t1ha2_final"]}
{"id": "C19", "title": "64x64->128 multiplication is exact in every implementation", "statement": "mul_64x64_128 (native 128-bit, multiply-high intrinsic, and portable four-multiplication code with each carry implementation) returns the exact low and high halves of the product; mux64 and mixup64 are built on it.", "quantifier": "all pairs of 64-bit operands, every implementation selected by the preprocessor", "why_tests_cant": "2^128 operand pairs; carry bugs show with tiny probability on random vectors.", "anchors": ["src/t1ha_bits.h: mul_64x64_128, mul_64x64_high, add64carry_first, add64carry_last, msvc32_add64carry_*"]}
{"id": "C20", "title": "128-bit helper arithmetic is exact", "statement": "not128/left128/right128/or128/xor128/rot128/add128/mul128 compute the corresponding operation modulo 2^128 for every operand and every shift amount their assertions admit, with and without native 128-bit integers. (Found false for rot128 by 0 with a native 128-bit type: shift by 128, undefined.)", "quantifier": "all 128-bit operands, all admissible shift counts, both implementations", "why_tests_cant": "Input space 2^256; helper functions are not covered by any test.", "anchors": ["src/t1ha_bits.h: not128, left128, right128, or128, xor128, rot128, add128, mul128"]}
{"id": "C21", "title": "Word fetches and tail fetches return the numeric value of the bytes", "statement": "Every fetch16/32/64 and tail32/64 reader in both byte orders returns exactly the number denoted by the addressed bytes, whichever of the aligned/unaligned, byte-swapping or byte-by-byte implementations is compiled.", "quantifier": "all byte contents, addresses, tail lengths, host configurations", "why_tests_cant": "Most branches are compiled out on any single test host.", "anchors": ["src/t1ha_bits.h: fetch*, tail64_*, bswap*", "src/t1ha0.c: tail32_*"]}
{"id": "C22", "title": "Self-check verdict is exact", "statement": "t1ha_selfcheck(hash, refs) returns 0 iff hash returns the recorded value on all 81 probes, and -1 otherwise (abort in debug builds on the first mismatch); it reads only the 64-byte pattern, its own 512-byte stack buffer and what hash reads.", "quantifier": "every hash function (including ones that fault or misbehave), every reference table", "why_tests_cant": "A test run shows only one verdict for one function.", "anchors": ["src/t1ha_selfcheck.c: t1ha_selfcheck, probe"]}
{"id": "C23", "title": "The shipped implementations pass their self-check in every configuration", "statement": "For every configuration in which the functions are safe to call, t1ha_selfcheck__all_enabled and each t1ha_selfcheck__t1ha* return 0, i.e. all recorded reference values equal what the code computes on little- and big-endian, strict-alignment, 32- and 64-bit builds alike.", "quantifier": "every configuration and CPU feature word", "why_tests_cant": "Tests run on one host; the tables for other paths are only ever checked there.", "anchors": ["src/t1ha_selfcheck_all.c", "src/t1ha2_selfcheck.c", "src/t1ha1_selfcheck.c", "src/t1ha0_selfcheck.c"]}
{"id": "C24", "title": "Run-time dispatch never selects an unsupported instruction set", "statement": "t1ha0_resolve returns an AES/AVX/AVX2 implementation only if CPUID reports all the features that implementation needs (incl. OS support of AVX state), and it always returns a function enabled in the build.", "quantifier": "all CPUID words, all configurations", "why_tests_cant": "2^32 x 2^32 feature words; a test host has one CPU.", "anchors": ["src/t1ha0.c: t1ha0_resolve, t1ha_ia32_cpu_features", "src/t1ha_bits.h: t1ha_ia32_AESNI_avail, t1ha_ia32_AVX_avail, t1ha_ia32_AVX2_avail"]}
{"id": "C25", "title": "What t1ha0 may dispatch to is covered by the self-check", "statement": "Every function that t1ha0_resolve can return for a configuration and CPU is among the functions that t1ha_selfcheck__t1ha0 checks for the same configuration and CPU.", "quantifier": "all configurations and CPUID words", "why_tests_cant": "Combinatorial in configuration and CPU.", "anchors": ["src/t1ha0_selfcheck.c: t1ha_selfcheck__t1ha0", "src/t1ha0.c: t1ha0_resolve"]}
{"id": "C26", "title": "Lazy dispatch through t1ha0_funcptr is safe under any thread interleaving", "statement": "With the self-replacing proxy pointer, any number of threads calling t1ha0 concurrently from the start all return the hash value of the resolved implementation, in every interleaving; the pointer only ever holds the proxy or the resolved function. With the constructor variant this holds once the constructor has run; a call before it jumps through NULL.", "quantifier": "every number of threads, every schedule, every sequence of calls", "why_tests_cant": "Schedules cannot be enumerated by tests.", "anchors": ["src/t1ha0.c: t1ha0_proxy, t1ha0_funcptr, t1ha0_init", "t1ha.h: t1ha0"]}
{"id": "C27", "title": "For keys up to 32 bytes the AES variants equal t1ha2_atonce", "statement": "t1ha0_ia32aes_noavx, _avx and _avx2 return t1ha2_atonce(data,len,seed) whenever len <= 32.", "quantifier": "all keys up to 32 bytes, all seeds, addresses", "why_tests_cant": "2^(256+64) inputs.", "anchors": ["src/t1ha0_ia32aes_a.h", "src/t1ha0_ia32aes_b.h", "src/t1ha2.c: t1ha2_atonce"]}
{"id": "C28", "title": "Big- and little-endian variants are related by word reversal", "statement": "t1ha1_be(key) = t1ha1_le(key') and t1ha0_32be(key) = t1ha0_32le(key'') where key' / key'' is the key with every 8-byte / 4-byte group (the last one possibly shorter) reversed.", "quantifier": "all keys, seeds", "why_tests_cant": "Unbounded key space.", "anchors": ["src/t1ha1.c", "src/t1ha0.c"]}
{"id": "C29", "title": "t1ha0_32 has no collisions among very short keys", "statement": "For one seed, t1ha0_32le / t1ha0_32be never map two different keys of the same length up to 4 bytes to the same value; for the empty key different seeds always give different values.", "quantifier": "all seeds, all pairs of keys up to 4 bytes of equal length; all pairs of seeds", "why_tests_cant": "2^32 x 2^32 x 2^64 combinations.", "anchors": ["src/t1ha0.c: T1HA0_BODY, mixup32, final32"]}
{"id": "C30", "title": "Absorbing a block never loses information (found false)", "statement": "A user may expect that, for a given seed, two messages that differ in one block do not collide systematically. False: for every seed and every message suffix there are two different first blocks (32 bytes for t1ha2/t1ha1, 16 for t1ha0_32), given by an explicit formula, for which t1ha2_atonce, t1ha2_atonce128, the streaming API, t1ha1_le/be, t1ha0_32le/be collide. What does hold: each single key word of the tail is absorbed injectively by mixup64/mixup32 for a fixed state.", "quantifier": "for every seed and every suffix there exist two messages", "why_tests_cant": "A search over random inputs never meets the collision; it is a statement about every seed.", "anchors": ["src/t1ha2.c: T1HA2_UPDATE", "src/t1ha1.c: T1HA1_BODY", "src/t1ha0.c: T1HA0_BODY", "src/t1ha_bits.h: mixup64"]}
{"id": "C31", "title": "Seeding makes fixed collisions rare (found false)", "statement": "A user who seeds the hash with a secret expects any fixed pair of messages to collide only for a negligible fraction of seeds. False: there are two fixed distinct messages that collide under t1ha2_atonce (and t1ha2_atonce128) for more than one fifth of all 2^64 seeds.", "quantifier": "exists message pair; a counted set of seeds out of all 2^64", "why_tests_cant": "A fraction over 2^64 seeds.", "anchors": ["src/t1ha2.c: T1HA2_UPDATE, init_cd, t1ha2_atonce"]}
{"id": "C32", "title": "t1ha1 has no seed-independent collisions (found false)", "statement": "A user who seeds t1ha1 with a secret expects that no fixed pair of keys collides for all seeds. False: there are two distinct 8-byte keys with equal t1ha1_le (and t1ha1_be) for every seed.", "quantifier": "exists key pair, for all seeds", "why_tests_cant": "A statement about all 2^64 seeds; random tests never find the pair.", "anchors": ["src/t1ha1.c: T1HA1_BODY", "src/t1ha_bits.h: mux64"]}
{"id": "C33", "title": "Results fit their type; every result is a defined 64-bit value", "statement": "Every function's result (and extra result) is a number below 2^64 for all inputs, i.e. no path depends on uninitialised registers.", "quantifier": "all inputs, configurations", "why_tests_cant": "Universal statement.", "anchors": ["src/t1ha2.c", "src/t1ha1.c", "src/t1ha0.c"]}
{"id": "C34", "title": "t1ha0_ia32aes_avx2 hashes all of a long key (found false where unsigned long is 32-bit)", "statement": "The AVX2 variant takes every key byte into account for any len. True when unsigned long is as wide as size_t; on LLP64 (Win64) the loop limit is truncated to 32 bits, so for len >= 2^32 whole ranges of the key are ignored.", "quantifier": "all lengths below 2^64, both data models", "why_tests_cant": "Needs keys of 4 GiB and more on Win64.", "anchors": ["src/t1ha0_ia32aes_b.h: len & ~15ul"]}
{"id": "C35", "title": "Every loop terminates after the expected number of blocks", "statement": "The block loops of every function execute exactly floor(len/block) iterations and never run away, for every address at which the key fits in the address space (for the AES variants: additionally the pointer arithmetic data+len-127 and v+7 must not wrap, otherwise reads run out of the key).", "quantifier": "all addresses and lengths", "why_tests_cant": "Wrap-around needs keys at the extreme ends of the address space.", "anchors": ["src/t1ha2.c: T1HA2_LOOP", "src/t1ha0_ia32aes_a.h: detent", "src/t1ha0_ia32aes_b.h: detent"]}
{"id": "C36", "title": "Every documented configuration builds (found false)", "statement": "A user relies on the big-endian readers being available in every configuration. False: with efficient unaligned access on a big-endian host and one-shot reads disabled, tail64_be_unaligned refers to fetch32_be, which does not exist.", "quantifier": "all configurations of the model", "why_tests_cant": "CI does not build that combination.", "anchors": ["src/t1ha_bits.h:938 tail64_be_unaligned"]}
{"id": "C37", "title": "The AES hashes have no seed-independent collisions (found false without AVX2)", "statement": "A user who seeds the hash with a secret expects that no fixed pair of keys collides for all seeds. False for t1ha0_ia32aes_noavx and t1ha0_ia32aes_avx: every key that contains a whole 128-byte block has 2^128 - 1 explicit partners of the same length (any other fifth 16-byte vector, compensated in the sixth and the second) that collide with it for every seed.", "quantifier": "all keys of at least 128 bytes, all seeds; 2^128 partners each", "why_tests_cant": "No sampling of keys finds a 128-bit relation between three vectors of a block; that it holds for every state and seed is an algebraic fact.", "anchors": ["src/t1ha0_ia32aes_a.h:72-110"]}
{"id": "C38", "title": "No arguments make a call write outside of its results (found false for a corrupted context)", "statement": "Whatever pointer, length, seed, memory contents and configuration: the one-shot functions never write; t1ha2_atonce128 writes at most the 8 bytes of its extra result; t1ha2_init, t1ha2_update and t1ha2_final write at most the context, the local variable and the extra result, provided the context's count of pending bytes is at most 32. Without that proviso t1ha2_update writes behind the context. Objects that overlap against the restrict qualifiers are undefined.", "quantifier": "all arguments, valid or not, all memories, all configurations", "why_tests_cant": "Tests call with valid arguments only; the statement is about every address, length and garbage context.", "anchors": ["src/t1ha2.c:254-301", "src/t1ha2.c:305-381", "src/t1ha1.c", "src/t1ha0.c", "src/t1ha0_ia32aes_a.h", "src/t1ha0_ia32aes_b.h"]}
{"id": "C39", "title": "Additional mapped memory never changes the outcome of a call", "statement": "If a call returns in some memory, it returns the same result in every larger memory and leaves the additional bytes alone; if it ends in undefined behaviour or a failed assertion, it does so in every larger memory; and a fault names a byte that is really unmapped. No call maps or unmaps memory.", "quantifier": "all arguments, all pairs of a memory and an extension of it, all configurations", "why_tests_cant": "Relates two executions in arbitrary memories.", "anchors": ["src/t1ha_bits.h:604-978", "src/t1ha2.c", "src/t1ha1.c", "src/t1ha0.c"]}
{"id": "C40", "title": "A streamed hash is the one-shot hash of the padded message", "statement": "Streaming a message with seeds x and y = len + 8 gives the result of t1ha2_atonce with seed x on the message followed by its 8-byte encoded bit length (messages of more than 24 bytes); for the 128-bit results the same holds with t1ha2_atonce128 (all lengths except 24). So the two APIs are not independent functions: with the seed pair chosen this way one is obtained from the other.", "quantifier": "all messages, chunkings, seeds, addresses and pairs of configurations", "why_tests_cant": "A relation between two different entry points over all messages.", "anchors": ["src/t1ha2.c:202-301", "src/t1ha2.c:312-381"]}
{"id": "C41", "title": "Seeds give unrelated t1ha1 functions (found false for short keys)", "statement": "A user may expect that knowing a hash of one key under a secret seed tells nothing about other keys under related seeds. False for t1ha1_le and t1ha1_be on keys of 1 to 8 bytes: any two keys of the same length are related by an offset that does not depend on the seed, hash(msg, seed) = hash(msg', seed + offset) for all seeds.", "quantifier": "all pairs of keys of equal length 1..8, all seeds", "why_tests_cant": "A relation for all 2^64 seeds.", "anchors": ["src/t1ha1.c:63-127"]}
{"id": "C42", "title": "verify() of the test program finds every wrong value", "statement": "verify() makes the 81 probes in the order of the table and reports failure iff some value is not the recorded one, in every build; its answer is that of t1ha_selfcheck whenever that returns; for the functions of the library with the recorded tables it reports success.", "quantifier": "all configurations, addresses, memories, hash computations and tables; all builds and processors for the library functions", "why_tests_cant": "Needs all memories and arbitrary wrong hash functions.", "anchors": ["tests/test.c:66-117"]}
{"id": "C43", "title": "The test program's exit status tells whether verification failed (found false)", "statement": "If the library's self-check fails the program stops with a failure status, and the message 'Verification FAILED!' is printed iff one of the verified functions whose result is used failed. But the exit status is success however many verifications fail (with the library self-check passing), and failures of the SSE4.1 and AVX2 HighwayHash and of wyhash's own test are not even mentioned.", "quantifier": "all command lines, builds, processors, outcomes of the verifications", "why_tests_cant": "All 2^n combinations of failing functions and all command lines.", "anchors": ["tests/main.c:293-379", "tests/main.c:535-550"]}
{"id": "C44", "title": "Benchmark options include and exclude what they name (found false in part)", "statement": "A size asked for is run unless a later option restarts the selection; without one tiny and large are run; a function excluded by name is not run unless a later option brings everything back. The first argument that is not in the list of options ends the program, with success iff it asks for help. Whatever was asked for before --test-quiet, --test-only or --no-bench is forgotten. Without arguments exactly the functions of the build are run that fit the byte order and pointer size, without AES; with --all-funcs exactly all that the build and the processor have. But --test-only and --no-bench do not switch benchmarks off, --no-tiny etc. exclude nothing, and --no-le does not exclude the little-endian t1ha2.", "quantifier": "all command lines, builds and processors", "why_tests_cant": "Unboundedly many command lines.", "anchors": ["tests/main.c:103-292", "tests/main.c:535-550", "tests/bench.c:78-158", "tests/common.h:44-100"]}
{"id": "C45", "title": "--hash-stdin-strings hashes with the function named (found false)", "statement": "By default t1ha2_atonce is used (failure if compiled out), and each function is reachable by some combination of options: for every command line made of names of functions and properties, included or excluded, it is the first in a fixed list one of whose names is included and none excluded. But naming properties picks other functions: --64 --2 gives xxhash64, --1 --be gives t1ha1_le, --0 --le gives t1ha1_le, and with --64 and nothing excluded it is never a function of this library.", "quantifier": "all builds, processors, inputs", "why_tests_cant": "All builds and inputs.", "anchors": ["tests/main.c:382-440"]}
{"id": "C46", "title": "--hash-stdin-strings prints one hash per line of the input (found false without getline)", "statement": "Every input splits into lines; with getline() the hashes printed are those of the lines in order, with fgets() the same if no line is longer than the buffer and none contains NUL. For every buffer size there is an input with a longer line that is cut into several hashes, and one with a NUL byte of which the rest of the line is dropped.", "quantifier": "all inputs, buffer sizes, hash functions", "why_tests_cant": "Unbounded inputs.", "anchors": ["tests/main.c:430-486"]}
{"id": "C47", "title": "The test program executes only instructions that the machine has (found false without XSAVE)", "statement": "If AVX2 is announced only together with AVX and OSXSAVE, and OSXSAVE implies that the AVX state is saved, no command line makes the program call a function whose instructions the processor lacks. Without the first condition it does: HighwayHash AVX2 by default and the AVX2 variants of t1ha0 with --aes, though the library's own dispatch is fine there.", "quantifier": "all feature words, builds, command lines, inputs", "why_tests_cant": "All feature words and command lines; the failing machine is not in a test lab.", "anchors": ["tests/main.c:308-379", "tests/bench.c:78-158"]}
{"id": "C48", "title": "--bench-all runs all benchmarks (found false)", "statement": "A command line that asks for a size and neither for --hash-stdin-strings nor --bench-all runs the benchmark of that size and succeeds. But a command line with --bench-all (not followed by a restarting option) runs no benchmark at all: the option sets every bit, that of --hash-stdin-strings included, and the program reads and hashes its standard input.", "quantifier": "all command lines, builds, processors and inputs", "why_tests_cant": "Unboundedly many command lines.", "anchors": ["tests/main.c:194-198", "tests/main.c:382", "tests/common.h:44-48"]}
{"id": "C49", "title": "The test program's wyhash computes wyhash and passes its checks", "statement": "wyhash() returns the value of the specification for all secrets, keys and seeds in all builds, with the 128-bit product or the portable one, and only reads. Its 81 recorded values are those of the specification, so verify() of it and wyhash_v7_selftest() report no failure.", "quantifier": "all builds, addresses, keys, seeds, secrets", "why_tests_cant": "All keys and all builds, big-endian ones included.", "anchors": ["tests/wyhash/wyhash.h:25-182", "tests/wyhash/wyhash_thunk.c:25-87", "tests/test.c:29-81"]}
{"id": "C50", "title": "No two keys have the same wyhash under all seeds (found false)", "statement": "Keys of 9 to 16 bytes that begin with the second secret all have the hash 0 under every seed. A 16-byte group that begins with that secret (keys of up to 64 bytes), or a 64-byte group whose even words are the four secrets (longer keys), makes the hash independent of the seed and of all that comes before it.", "quantifier": "all seeds, secrets, keys", "why_tests_cant": "The keys are 2^-64 of all.", "anchors": ["tests/wyhash/wyhash.h:122-178"]}
{"id": "C51", "title": "The test program's StadtX computes StadtX and passes its check", "statement": "stadtx_hash_with_state() returns the value of the specification for all states and keys in all builds (as long as the length plus 4 fits size_t), and only reads. Its 81 recorded values are those of the specification, so verify() of it reports no failure.", "quantifier": "all builds, addresses, keys, states", "why_tests_cant": "All keys and all builds, big-endian ones included.", "anchors": ["tests/stadtx/stadtx_hash.h:75-249", "tests/stadtx/stadtx_thunk.c:25-58", "tests/test.c:29-81"]}
{"id": "C52", "title": "What the comments say of StadtX's seeding", "statement": "STADTX_SCRAMBLE64 with an odd factor permutes the 64-bit words and makes zero of zero only. The four words made of the seed are nonzero, words made of the same half of the seed differ from it and from each other before the scrambling, all four are nonzero after it, and different seeds give different states. But two of the factors, called primes, are multiples of 13 and of 5.", "quantifier": "all seeds, all odd factors", "why_tests_cant": "2^128 seeds.", "anchors": ["tests/stadtx/stadtx_hash.h:15-73"]}
{"id": "C53", "title": "No part of a StadtX key can be made up for by another (found false)", "statement": "For every state and key of 24 to 31 bytes and every other first word there are second and third words that lead to the same hash. For every state, key of 64 bytes or more and any other blocks of 32 bytes instead of the first ones, there is a next block that leads to the same hash, whatever follows.", "quantifier": "all states, seeds, keys and replacements", "why_tests_cant": "Existence for each of unboundedly many keys and replacements.", "anchors": ["tests/stadtx/stadtx_hash.h:93-115", "tests/stadtx/stadtx_hash.h:160-171"]}
{"id": "C54", "title": "HighwayHash in C computes HighwayHash and passes its check", "statement": "HighwayHash64_pure_c(), and the functions with 128 and 256 bits, return the value of the specification for all keys and messages in all builds (as long as the size plus 32 fits size_t), and only read. The 65 + 1 recorded values are those of the specification, so HighwayHash64_verify() of it reports no failure. HighwayHashUpdateRemainder_pure_c() is undefined for an empty remainder, as its comment warns.", "quantifier": "all builds, addresses, messages, keys", "why_tests_cant": "All messages, keys and builds, big-endian ones included.", "anchors": ["tests/highwayhash/pure_c.c:14-204", "tests/highwayhash/pure_c.h:26", "tests/highwayhash/verifier.c:8-75", "tests/bench.c:69-73"]}
{"id": "C55", "title": "HighwayHash with multiple calls is HighwayHash of the whole message", "statement": "HighwayHashCatStart, any sequence of HighwayHashCatAppend and HighwayHashCatFinish64, 128 or 256 give the results of the one-call functions for the concatenation of the parts, however it is cut and wherever the parts are; only the buffer is written to, and finishing changes nothing, so that results may be taken between calls.", "quantifier": "all builds, keys, sequences of parts of any lengths (empty ones included) at any addresses apart from the buffer", "why_tests_cant": "Unboundedly many ways to cut unboundedly many messages.", "anchors": ["tests/highwayhash/pure_c.c:206-262", "tests/highwayhash/pure_c.h:48-80"]}
{"id": "C56", "title": "No step of HighwayHash loses anything", "statement": "A step with given words, the mixing in of the length, the padding of a given length and the rounds at the end are injective. So messages that differ in one packet of 32 bytes, or only in a nonempty remainder (in its length or its bytes), and messages hashed with different keys, have different 1024-bit states at the end, also after the final rounds.", "quantifier": "all keys, messages, positions, replacements, states", "why_tests_cant": "2^1024 states, unboundedly many messages.", "anchors": ["tests/highwayhash/pure_c.c:14-138"]}
{"id": "C57", "title": "What the comments of HighwayHash say (partly found false)", "statement": "ZipperMergeAndAdd adds a permutation of the 16 bytes in which both words get one byte of each quality, the four better ones in the lower half, and in both halves bytes of the neighbouring word. ModularReduction gives the unique remainder modulo x^128 + x^2 + x if the two upper bits are clear and ignores them otherwise. But that polynomial, called irreducible, has the factors x and x^127 + x + 1.", "quantifier": "all words", "why_tests_cant": "2^256 arguments.", "anchors": ["tests/highwayhash/pure_c.c:33-57", "tests/highwayhash/pure_c.c:140-181", "tests/highwayhash/hh_portable.h:186-201", "tests/highwayhash/hh_portable.h:269-291", "tests/highwayhash/hh_sse41.h:208-221"]}
{"id": "C58", "title": "The portable C++ HighwayHash computes HighwayHash, on little-endian builds only", "statement": "HighwayHashT with HHStatePortable gives the 64, 128 and 256 bit HighwayHash of the message on every little-endian build, as the pure C code does, for every address and length that fits the address space, and writes nothing. On big-endian builds Load3 returns the last bytes in reverse, so it computes another function: the states differ exactly if the last four bytes are no palindrome (16 bytes and more left) or the 1..3 bytes after the last multiple of four are not all zero. HighwayHash64_verify of it, which main() runs on all builds and whose result decides the exit status, returns false on all little-endian builds and true on all big-endian ones. UpdateRemainder with no bytes left is undefined; the templates never call it so.", "quantifier": "all builds, keys, messages, addresses, memories", "why_tests_cant": "Tests run on one byte order and record lengths up to 64.", "anchors": ["tests/highwayhash/hh_portable.h:30-299", "tests/highwayhash/load3.h:39-144", "tests/highwayhash/endianess.h:21-118", "tests/highwayhash/highwayhash.h:68-109", "tests/highwayhash/highwayhash_target.cc:30-115", "tests/highwayhash/verifier.c:20-75", "tests/main.c:355-362"]}
{"id": "C59", "title": "HighwayHashCatT of any fragments equals HighwayHashT of their concatenation", "statement": "For any number of fragments of any lengths, anywhere outside of the buffer, Append of each and Finalize give the hash of the concatenation, in all three sizes and all builds; only the 32 bytes of the buffer are written. Appending no bytes changes nothing, whatever the pointer; Finalize may be called again with the same result.", "quantifier": "all builds, keys, fragment lists, addresses, memories", "why_tests_cant": "Unboundedly many ways to cut unboundedly long messages.", "anchors": ["tests/highwayhash/highwayhash.h:111-203", "tests/highwayhash/hh_portable.h:126-161"]}
{"id": "C60", "title": "HighwayHash for SSE4.1 and for AVX2 equals the pure C code", "statement": "HighwayHashT with HHStateSSE41 and with HHStateAVX2 gives the 64, 128 and 256 bit HighwayHash of the message, for every address and length that fits the address space, and writes nothing; the functions and the thunks of all four implementations agree, and the checks that main() runs of the two and whose results it ignores would pass. With no bytes left UpdateRemainder of both is a packet of zeros (that of the portable class is undefined).", "quantifier": "all little-endian builds, keys, messages, addresses, memories", "why_tests_cant": "Results for lengths up to 64 are recorded, and what main() finds for these two is dropped.", "anchors": ["tests/highwayhash/hh_sse41.h:41-322", "tests/highwayhash/hh_avx2.h:40-377", "tests/highwayhash/hh_buffer.h:30-97", "tests/highwayhash/load3.h:39-144", "tests/highwayhash/highwayhash.h:68-109", "tests/main.c:358-369"]}
{"id": "C61", "title": "Fragments with SSE4.1 and AVX2 (partly found false)", "statement": "HighwayHashCatT of any fragments equals HighwayHashT of their concatenation with both classes, if the buffer is aligned as declared and the table of Concatenate is at a multiple of 16. The table is an array of uint64_t without alignment: at another multiple of 8 already the first fragment of less than 32 bytes is undefined behaviour. Concatenate puts the first n bytes of the prefix before the suffix for each n < 16. The policies of Load3 return the 0..3 bytes in order, or with repetitions from which they can be recovered.", "quantifier": "all little-endian builds, keys, fragment lists, addresses, memories, addresses of the table", "why_tests_cant": "Unboundedly many ways to cut messages; the address of the table depends on the compiler.", "anchors": ["tests/highwayhash/highwayhash.h:111-203", "tests/highwayhash/hh_buffer.h:66-97", "tests/highwayhash/hh_avx2.h:184-276", "tests/highwayhash/load3.h:39-144"]}
{"id": "C62", "title": "The 'magic' primes are prime", "statement": "The seven multipliers of src/t1ha_bits.h called 'magic' primes and the seven of src/t1ha0.c called 32-bit 'magic' primes are prime numbers. So are the ten XXH_PRIME constants, which equal the binary numbers in the comments beside them, and six of the eight multipliers of StadtX (the other two: C52).", "quantifier": "all divisors", "why_tests_cant": "No test divides by all smaller numbers; t1ha has none for the constants.", "anchors": ["src/t1ha_bits.h:1080-1087", "src/t1ha0.c:259-266", "tests/xxhash/xxhash.h:1164-1168", "tests/xxhash/xxhash.h:1686-1690", "tests/stadtx/stadtx_hash.h:65-72"]}
{"id": "C63", "title": "XXH32 and XXH64 compute their specification", "statement": "For every message XXH32 and XXH64 return the value of a specification on byte lists and change nothing, on big- and little-endian builds, with each way of memory access, with and without the check of alignment and the rerolled loops; the thunks of the test program do, XXH_32 ignoring the upper half of its seed. Access method 2 needs an aligned message: XXH32 of an unaligned message of four bytes or more is undefined. With XXH_ACCEPT_NULL_INPUT_POINTER the result for a null pointer is that of no bytes, whatever the length.", "quantifier": "all builds, tuning parameters, messages, seeds, addresses, memories", "why_tests_cant": "The test program only measures the speed of these functions; other builds and tuning parameters are never run.", "anchors": ["tests/xxhash/xxhash.h:740-1160", "tests/xxhash/xxhash.h:1170-1400", "tests/xxhash/xxhash.h:1575-1935", "tests/xxhash/xxh_thunk.c:31-37"]}
{"id": "C64", "title": "XXH32 and XXH64 with multiple calls (partly found false)", "statement": "Reset, any updates and a digest give the value of the one call for the bytes together, whatever the cuts; a digest may be taken at any time and more may be added after it; only the state is written; XXH32 may exceed 4 GiB. Chunks must not end within the last 32 bytes of the address space: XXH64_update forms p+32 before it compares, and at the top of memory reads beyond the chunk. A null pointer is not dereferenced by the updates, against the comment, but is an error even with length zero, where the one call succeeds.", "quantifier": "all builds, chunk lists, seeds, addresses, memories", "why_tests_cant": "Unboundedly many ways to cut messages; the test program does not use these functions.", "anchors": ["tests/xxhash/xxhash.h:272-293", "tests/xxhash/xxhash.h:791-797", "tests/xxhash/xxhash.h:1402-1500", "tests/xxhash/xxhash.h:1940-2042"]}
{"id": "C65", "title": "Canonical representation of XXH32 and XXH64", "statement": "XXH32_canonicalFromHash and XXH64_canonicalFromHash write the bytes of the hash, most significant first, in every build and write nothing else; the functions hashFromCanonical of every build give the hash back.", "quantifier": "all builds, tuning parameters, hashes, addresses, memories", "why_tests_cant": "Bytes exchanged between builds of different byte order; the test program does not use these functions.", "anchors": ["tests/xxhash/xxhash.h:303-330", "tests/xxhash/xxhash.h:1506-1526", "tests/xxhash/xxhash.h:2043-2056"]}
{"id": "C66", "title": "What XXH32 and XXH64 tell apart (partly found false)", "statement": "XXH32 of two messages of the same length that differ in one aligned word or in one byte, anywhere, differs, for every seed. For XXH64 the same holds for a word or a byte after the last full stripe of 32 bytes; in a stripe it does not: two messages of 32 bytes that differ in the first word have the same XXH64. The hash of a message shorter than a stripe is a bijection of the seeds.", "quantifier": "all messages, seeds, places", "why_tests_cant": "All pairs of words in all messages; a collision of 64 bits is not found by chance.", "anchors": ["tests/xxhash/xxhash.h:1178-1232", "tests/xxhash/xxhash.h:1326-1362", "tests/xxhash/xxhash.h:1700-1724", "tests/xxhash/xxhash.h:1864-1904"]}
{"id": "C67", "title": "A secret seed protects XXH32 and XXH64 against collisions (found false)", "statement": "For every message with 64 bytes (32 for XXH32) from the start of a stripe on there are two other messages of its length, which do not depend on the seed, such that for every seed one of the two has the same hash.", "quantifier": "all messages of that length, all seeds", "why_tests_cant": "A statement about all seeds; random tests do not find collisions.", "anchors": ["tests/xxhash/xxhash.h:1178-1232", "tests/xxhash/xxhash.h:1341-1354", "tests/xxhash/xxhash.h:1700-1706", "tests/xxhash/xxhash.h:1879-1895"]}
{"id": "C68", "title": "XXH3 computes its specification in all builds, except where it asserts wrongly or reads directly", "statement": "XXH3_64bits, XXH3_128bits and their variants with a secret or a seed, without vectors, return the specified value for every message, secret of at least 136 bytes and seed, whatever the byte order, the pointer width and the multiplication used, and write nothing but a secret on their own stack. The test program's XXH3_128 returns 64 bits, and these are those of XXH3_64 for 1 to 3 and more than 240 bytes. Builds with assertions stop for every message of 8 bytes, since XXH3_len_4to8_64b asserts len < 8. With direct memory access no message of more than 128 bytes can be hashed, wherever it and the secret are.", "quantifier": "all messages, secrets, seeds, builds and addresses", "why_tests_cant": "All lengths, secrets and seeds in builds of different byte orders and widths; undefined behaviour is not observed by a test on a machine that tolerates it.", "anchors": ["tests/xxhash/xxh3.h:516-678", "tests/xxhash/xxh3.h:714-920", "tests/xxhash/xxh3.h:1453-1832", "tests/xxhash/xxh3.h:2191-2570", "tests/xxhash/xxh_thunk.c:40-46"]}
{"id": "C69", "title": "XXH3 fed in chunks returns what one call returns; a bad secret is refused too late", "statement": "A state started plainly, with a secret of at least 136 bytes or with a seed, fed any chunks, returns from the 64-bit and the 128-bit digest the value that one call returns for the concatenation, in all builds without direct access; chunks may follow a digest. Only the state and the digest's local array are written. A secret at NULL or of less than 136 bytes stops a build with assertions, and in any other clears the state although an error is returned; the state then hashes under zeros. A chunk in the last 255 bytes of the memory makes the function read behind it.", "quantifier": "all messages, cuttings into chunks, secrets, seeds, builds and addresses", "why_tests_cant": "All cuttings of all messages in builds of different byte orders and widths; the places of chunks at the end of the memory are not met by a test.", "anchors": ["tests/xxhash/xxh3.h:1919-2126", "tests/xxhash/xxh3.h:2580-2648", "tests/xxhash/xxhash.h:549-571"]}
{"id": "C70", "title": "What XXH3 tells apart in messages of up to 16 bytes", "statement": "Under every secret and seed no two messages of 1 to 3 bytes have the same hash; messages of the same length of 4 to 8 bytes have different hashes of 64 bits, those of 4 to 16 bytes different hashes of 128 bits. Every 64-bit number is the hash of exactly one message of 8 bytes, so every message of another length has a partner of 8 bytes. A message of up to 8 bytes has a different 64-bit hash under each seed.", "quantifier": "all messages of up to 16 bytes, secrets, seeds and 64-bit numbers", "why_tests_cant": "2^64 messages and seeds cannot be enumerated.", "anchors": ["tests/xxhash/xxh3.h:654-678", "tests/xxhash/xxh3.h:714-778", "tests/xxhash/xxh3.h:2191-2335"]}
{"id": "C71", "title": "What XXH3 does not tell apart, also with 128 bits", "statement": "For every secret and seed: pairs of 16-byte messages with the same 64-bit hash, one for each number; 2^64 messages of 32 or 48 to 240 bytes with the same 64-bit hash, where eight bytes cancel the secret; pairs of messages of 32 or 48 to 128 bytes with the same 128-bit hash, although the comment at mix16B says that the 128-bit variant is not affected; 2^32 messages of more than 240 bytes with the same hashes of both sizes, which collide for all seeds with the same lower half.", "quantifier": "all secrets, seeds, builds and the free parts of the messages", "why_tests_cant": "The messages are met with probability 2^-64; a random test does not find them, and cannot show that they collide under every seed.", "anchors": ["tests/xxhash/xxh3.h:752-767", "tests/xxhash/xxh3.h:780-920", "tests/xxhash/xxh3.h:1453-1500", "tests/xxhash/xxh3.h:2174-2182", "tests/xxhash/xxh3.h:2330-2385"]}
{"id": "C72", "title": "Comparing and storing hashes of 128 bits", "statement": "XXH128_isEqual returns 1 for equal hashes and 0 for others, on big-endian machines too; XXH128_cmp has the sign of the comparison of the two 128-bit numbers; memcmp of the objects would not have it. The canonical form is the number in big-endian order on every machine, so memcmp of canonical forms orders them like XXH128_cmp; converting there and back gives the same hash, at any address.", "quantifier": "all builds, hashes, addresses and memories", "why_tests_cant": "2^256 pairs of hashes, on machines of both byte orders.", "anchors": ["tests/xxhash/xxh3.h:2648-2694", "tests/xxhash/xxhash.h:653-674"]}
{"id": "C73", "title": "The secret of XXH3_generateSecret", "statement": "For every seed, of any length and at any address apart from the function's own arrays, XXH3_generateSecret writes the 192 bytes of the specification and nothing else, on every machine and with asserts; the seed may be in the buffer, and an empty one gives the default secret. Hashing with the secret has the value specified. No two seeds of 1 to 3 bytes, or of the same length of 4 to 16 bytes, give the same secret, but 2^32 seeds of every length from 264 bytes on do.", "quantifier": "all seeds, builds, addresses, memories and messages", "why_tests_cant": "Seeds of any length; colliding ones are met with probability 2^-64. The test program never calls the function.", "anchors": ["tests/xxhash/xxh3.h:2129-2172", "tests/xxhash/xxhash.h:514-528"]}
{"id": "C74", "title": "Aligned states on the heap", "statement": "XXH3_createState returns an address that is a multiple of 64, where the 576 bytes of the state lie inside the block that malloc returned, wherever that is; it writes just the one byte before it, and XXH3_freeState gives malloc's address back after any use of the state. With no memory both do nothing. An alignment of 256, which would need two bytes for the distance, would make free get a wrong address.", "quantifier": "all addresses that malloc may return, builds and memories", "why_tests_cant": "A test meets the few addresses that its malloc returns, mostly multiples of 16.", "anchors": ["tests/xxhash/xxh3.h:1841-1911"]}
{"id": "C75", "title": "A seed that gives a structured secret", "statement": "For every eight bytes and every word there is a seed of 96 bytes whose generated secret is 16 bytes and then eleven times the same 16 bytes. With such a secret, and with every secret that repeats after 16 bytes, a stripe of 64 bytes can be exchanged with the one after the next in long messages without changing the hash of 64 or 128 bits.", "quantifier": "all choices of the seed's free parts, secrets, positions and messages", "why_tests_cant": "Random seeds have such sums of words with probability 2^-640.", "anchors": ["tests/xxhash/xxh3.h:2159-2170", "tests/xxhash/xxh3.h:1453-1500", "tests/xxhash/xxhash.h:518-523"]}
{"id": "C76", "title": "XXH3 with vector instructions", "statement": "XXH3's functions for SSE2, AVX2, AVX512, NEON (with either way to split a register) and VSX, the latter on machines of both byte orders, and the scalar ones working in memory, turn the accumulators into what the scalar specification says for every stripe and every scrambling, and the x86 ones make the same secret from a seed. Thus XXH3_64bits and XXH3_128bits and their variants with a secret or a seed return the same value for every message with all of them, and write only their local arrays. If the array of accumulators is not aligned for the variant, builds with assertions stop, except in VSX's stripe, and others have no defined behaviour.", "quantifier": "all variants, builds, messages, secrets, seeds, accumulators and memories", "why_tests_cant": "The repository compiles the scalar variant only (XXH_VECTOR 0), the rest needs five kinds of machines, and messages and secrets are unbounded.", "anchors": ["tests/xxhash/xxh3.h:157-440", "tests/xxhash/xxh3.h:984-1592", "tests/xxhash/xxh3.h:1615-1775", "tests/xxhash/xxh3.h:2435-2564"]}
{"id": "C77", "title": "HighwayHash for POWER8", "statement": "HighwayHash's C++ class for VSX, compiled for every PowerPC, computes HighwayHash with results of all three sizes on little-endian machines for every message that starts at a multiple of four or of which less than four bytes are left after the multiples of 16, and of fragments at any addresses; there it agrees with the implementation in C and would pass the check of the test program. All other messages have no defined behaviour on machines of either byte order, since words at the end are read through a pointer to uint32_t. On big-endian machines it computes something else, already without a message, and no run of the check passes. It writes nothing. Casts between its vector types keep the bytes of the vector on machines of either byte order, and shifting by bytes is a shift of 128 bits.", "quantifier": "all keys, messages, addresses, ways to cut a message, builds and memories", "why_tests_cant": "The class is compiled and linked into the test program for PowerPC but never called (tests/bench.c:152), it needs POWER8 machines of both byte orders, and messages are unbounded.", "anchors": ["tests/highwayhash/hh_vsx.h:36-330", "tests/highwayhash/highwayhash.h:94-199", "tests/highwayhash/highwayhash_target.cc:26-108", "Makefile:176-183"]}
{"id": "C78", "title": "The utility functions of wyhash", "statement": "portable_popcount() counts the bits that are set. The table of make_secret() is that of all bytes with four bits set. Whenever make_secret() ends, it has written five primes of 64 bits of which every byte has four bits set and any two differ in 32 bits, and these depend on the seed alone; its trial division accepts exactly the primes; the secret that the test program uses is none of these. wyrand() runs through all 2^64 states, but not through all values: zero occurs twice in each period, so some word never occurs. wyhash64() ignores either argument if the other one is the constant it is combined with. wy2u01() gives multiples of 2^-52 in [0, 1) and wy2gau() multiples of 2^-20 from -3 to 3 - 3 * 2^-20, whose mean is not zero: a word and its complement always give the sum - 3 * 2^-20.", "quantifier": "all words, seeds, numbers of calls and both ways to multiply", "why_tests_cant": "The functions are not called by the test program; the statements are about all words of 64 bits, the whole period of the generator, and divisions by up to 2^31 numbers for every candidate.", "anchors": ["tests/wyhash/wyhash.h:182-249"]}
{"id": "C79", "title": "Copies of states of xxHash", "statement": "After XXH32_copyState(), XXH64_copyState() or XXH3_copyState() the copy and its source are independent: each goes on from the message that the source had been fed, and has the value of the one call for its own continuation, whatever becomes of the other state, be it fed, overwritten or freed. This holds for XXH3 also with a seed, when the secret is within the state; with a secret of the caller the copy reads it where the caller has put it. Nothing but the two states is written. Copying a state onto itself is undefined behaviour.", "quantifier": "all seeds, secrets, messages, ways to cut them into chunks, contents of the other state and all machines", "why_tests_cant": "No test copies a state; the statement is about all messages before and after the copy, and all that can happen to the other state in between.", "anchors": ["tests/xxhash/xxhash.h:1399-1402", "tests/xxhash/xxhash.h:1940-1943", "tests/xxhash/xxh3.h:1913-1917"]}
{"id": "C80", "title": "XXH3 with multiple calls and vector instructions", "statement": "XXH3 fed in any number of chunks of any sizes, with accumulators in the memory of the state and the functions for AVX512, AVX2, SSE2, NEON, VSX or none, has at each digest the value of the one call on the bytes so far, for 64 and for 128 bits, with the default secret, a seed or a secret of the caller. This holds also when the calls for one state are compiled for different variants. Nothing but the state and the local arrays of the digests is written. A state of XXH3_createState() is aligned for every variant, whatever block malloc gives, and XXH3_freeState() gives that block back after the calls. With a state that is not aligned as the variant asks, the first update with more than 256 bytes fails an assertion or is undefined behaviour.", "quantifier": "all seeds, secrets, messages, ways to cut them into chunks, variants of each call, and all machines these are for", "why_tests_cant": "The test program is compiled for the scalar variant and never feeds XXH3 in chunks; a run has one variant only, and the statement is about every mixture of variants, chunks and lengths.", "anchors": ["tests/xxhash/xxh3.h:1919-1968", "tests/xxhash/xxh3.h:1973-1995", "tests/xxhash/xxh3.h:2000-2075", "tests/xxhash/xxh3.h:2077-2126", "tests/xxhash/xxh3.h:2580-2648", "tests/xxhash/xxhash.h:551-571", "tests/xxhash/xxh3.h:1860-1911"]}
