# Formal model of t1ha: design

Everything is in `rocq/theories` (Coq 8.16.1).  The C sources in `/repo` are read as text; nothing of them
is compiled or run.  This file is the plan and the statement of the trusted base; it is kept current.

## 1. What is modelled, and how

### Words and bytes
* `uint8_t` bytes are `Coq.Init.Byte.byte` (so a message is a `list byte`, with no side condition).
* `uint16/32/64_t` are `N` with explicit reduction (`u64 x = x mod 2^64`).  A C function parameter of type
  `uint64_t` is reduced on entry where the C conversion would do it.
* `int`/`unsigned` intermediate promotions that cannot overflow are not modelled separately.

### Memory, outcomes
* `mem := N -> option byte`: an address is mapped to a byte or unmapped.
* Computations are `M A := mem -> outcome (A * mem)`; outcomes are `Ok`, `Fault addr` (access to an unmapped
  byte), `Undef reason` (C undefined behaviour: misaligned access where the code promises alignment, `memcpy`
  with null pointer or overlap, over-wide shift, ...), `Abort` (failed `assert` in a debug build), `NoBuild`
  (code that does not compile in that configuration), `Stuck` (loop fuel exhausted).  Theorems exclude all of
  these except `Ok`; findings exhibit one of them.
* Pointers are numbers modulo 2^32 or 2^64 and pointer arithmetic wraps.

### Build configuration
A record `config` has one field per preprocessor decision that reaches a modelled line: host byte order,
`T1HA_SYS_UNALIGNED_ACCESS`, `T1HA_USE_FAST_ONESHOT_READ`, sanitizer, pointer width, `unsigned long` width,
`PAGESIZE`, multiply and carry implementation, byte-swap implementation, `NDEBUG`, the `*_DISABLED` macros,
AES-NI availability, SIMD level.  Theorems quantify over all configurations that satisfy an explicit
well-formedness predicate.

### Function by function
`t1ha_bits.h` (fetch, tail, bswap, rot, carry, multiply, mixers, 128-bit helpers), `t1ha2.c` (one-shot and
streaming with the context as bytes in memory), `t1ha1.c`, `t1ha0.c` (32-bit hash, dispatch, proxy),
`t1ha0_ia32aes_a.h` / `_b.h`, the self-check files.  Every definition cites file and lines.

### Dispatch and threads (`Dispatch.v`)
* The processor is given by the words that the code reads (CPUID leaves 0, 1, 7) and by one that it does not
  (XCR0).  `executes c f` says whether processor and operating system run the instructions of `f`
  (Intel SDM vol. 1, 14.3); `exec` is `Undef IllegalInstruction` otherwise.
* `build` adds to `config` what t1ha.h and t1ha0.c decide from macros (which functions are compiled in,
  run-time selection, how the pointer is initialised).
* Threads: small steps (read the pointer, enter the proxy, resolve and store, read again, run).  The pointer
  has a history of values and a read may return any value that is not older than the last one this thread has
  seen (coherence only).  By the letter of C11 the plain accesses to `t1ha0_funcptr` race; they are treated as
  relaxed atomic accesses.  `ifunc` is not modelled beyond `t1ha0_resolve` (the loader calls it once).

### Self-check (`Selfcheck.v`)
* `t1ha_selfcheck` takes the checked function as an arbitrary computation.  Constants and locals are at
  arbitrary addresses (`frame`); `image_ok` says that they hold what the C initialisers say and do not overlap.
* The operands of `|` are called from left to right (unspecified in C).

### Test program (`TestMain.v`)
* tests/test.c `verify` is modelled on memory like the self-check; tests/main.c and the choice of functions in
  tests/bench.c as a function from build, processor, command line and `world` to a list of events and an exit
  status.  A `world` holds what is not modelled: the outcomes of the hash functions called, of strtod and of
  the clock, and the standard input.
* Not modelled: texts printed other than the events, timing (mera.c), out-of-memory, an input error.

### Other hashes of the test program (`Wyhash.v`, `Stadtx.v`, `Highway.v`, `HighwayCxx.v`, `HighwaySimd.v`, `HighwayVsx.v`, `Xxhash.v`, `Xxh3.v`, `Xxh3State.v`, `Xxh3Utils.v`, `Xxh3Simd.v`, `Xxh3SimdState.v`)
* wyhash with the settings of tests/wyhash/wyhash.h:5-8.  The recursion of `_wyfinish` has fuel 4, enough for 64
  bytes.  wyrand, wy2u01, wy2gau, wyhash64, make_secret and portable_popcount, which the
  program does not call, are in `WyhashUtils.v`, on values instead of memory; doubles are rationals there, as nothing is
  rounded.
* StadtX: the state array is passed as four values, being local to the callers; equal cases of a switch share a
  definition.  `key_len + 1` to `key_len + 4` are computed in size_t as in C.
* HighwayHash in C: the state, `hash[]` and other local arrays are values; the message, the key of
  HighwayHash64_pure_c and the buffer of HighwayHashCat are in memory.  Copying loops are byte by byte where the
  source and the destination are in memory.  The output of the check is left out.  Alignment of the key is not
  checked.
* HighwayHash in C++: the class that is the parameter of the templates is a record of operations; objects are
  values, but the buffer of HighwayHashCatT is in memory.  Reading bytes of a local array that were not set is
  undefined (`BadArray`).  Access of other types through cast pointers is not checked, nor `__restrict` in these files.
* HighwayHash for SSE4.1 and AVX2: vectors are tuples of lanes, each intrinsic is a definition of its own, written
  after the manual of the processor (trusted; `_mm_maskload_epi32` does not access lanes with a clear mask).  The
  address of the static table in `Concatenate` is a parameter, since its alignment matters.
* HighwayHash in C++ for VSX (`HighwayVsx.v`): a vector is the tuple of its elements, and the byte order of the machine
  an argument.  Casts between types of vectors keep the bytes in memory; vec_mule, vec_vperm, vec_rl and vec_sll are
  modelled from their documentation.  LoadMultipleOfFour dereferences pointers to uint32_t, so it is undefined
  behaviour if they are misaligned.
* xxHash: the tuning macros are a record; the state is a record of values, its buffer is in memory at a given
  address.  The switch of the finalizations is a list of the steps from a case to its break.  States are
  copied in `XxhashCopy.v`.  Allocation of states, prefetching and the names of old versions are not modelled.
* XXH3: the scalar variant, which tests/xxhash/xxh_thunk.c:27 chooses.  Accumulators are lists of values; the
  secret, the message and a secret built on the stack are in memory, the latter at a given address.  The arrays of
  XXH3_generateSecret are in memory too.  malloc and free are their argument and result.
* XXH3 with vectors (`Xxh3Simd.v`): the accumulators are in memory and a vector is a tuple of its 64-bit lanes.  An
  aligned access to a misaligned address is undefined behaviour.  Registers of VSX are their doublewords from left to
  right, and loads and stores depend on the byte order.  XXH3_mergeAccs reads the accumulators before it starts.
  Prefetching and the barriers in assembly are left out: they have no effect on values.  With multiple calls
  (`Xxh3SimdState.v`) the accumulators are at the start of the state, and the digests have theirs at a given address.

### Specification
`Spec*.v` do not mention configuration, memory or pointers: they define each hash on `list byte` with
arithmetic (`/`, `mod`, `*`), cutting the key into blocks and words.  The recorded 81 reference values of every
function are checked against the *specification* by computation, so a shared misunderstanding of the C
arithmetic would have to match those vectors too.

## 2. Properties: model and method

| id | modelled / proved by |
|----|----------------------|
| C01 | refinement `model cfg m p len seed = Ok (spec msg seed, m)`; loop invariant on blocks, per-configuration lemmas for readers and multipliers |
| C02, C03 | same |
| C04 | same, AES round defined mathematically (GF(2^8) inverse + affine map); both SIMD extraction paths |
| C05 | corollary of C01-C04 for two memories, no assumption on neighbours |
| C06 | refinement under the hypothesis "only pages holding key bytes are mapped"; 32-bit strict-alignment counterexample by computation |
| C07 | refinement under the hypothesis "only key bytes are mapped" |
| C08 | direct, memory arbitrary |
| C09 | the refinement theorems return the memory; for `atonce128` a pointwise frame |
| C10, C11 | representation relation between context bytes and (seeds, message so far); update extends the message; final computes the spec |
| C12 | simulation of an abstract machine (map from contexts to messages) by induction on histories |
| C13 | part of the representation relation; pointwise frame |
| C14 | from C12 machinery; NULL case refuted by computation |
| C15, C16 | representation relation does not mention old bytes / is invariant under relocation |
| C17 | frame of final |
| C18 | counterexample by computation |
| C19, C20 | arithmetic (div/mod, `nia`/`lia`), per implementation |
| C21 | per reader, all configurations |
| C22 | the self-check equals an explicit program over the probe list, for an arbitrary hash computation |
| C23 | C01-C04 + computation of the spec on the 81 probes |
| C24 | case analysis with arbitrary feature words; `executes` as the specification; XCR0 counterexample by computation |
| C25 | for arbitrary code: if the self-check returns 0 then the check of the dispatch target has been run and returned 0 |
| C26 | small-step interleaving semantics, invariant, measure; NULL-before-constructor run |
| C27 | from the specs |
| C28 | from the specs, induction on words |
| C29 | algebra: odd multipliers are invertible mod 2^32, final32 is a bijection |
| C30, C31, C32 | explicit collisions; counting by an explicit injection |
| C33 | from the specs |
| C34 | refinement with the truncated mask; counterexample |
| C35 | fuel is exactly the number of blocks and `Stuck` is excluded by C01-C04; wrap counterexamples |
| C36 | `NoBuild` outcome |
| C37 | compensation inside one block of t1ha0_ia32aes_a.h, for every state |
| C38 | structural induction over the programs: every primitive only reads, or writes a known span; counterexample with a corrupted count by computation |
| C39 | the same, for the relation between a memory and an extension of it |
| C40 | from C01 and C11, the specifications coincide |
| C41 | from the specification of short keys |
| C42 | from C22: verify() is a release self-check |
| C43, C48 | model of main() with the outcomes of the functions it calls as parameters |
| C44 | induction on the command line: which bits an option keeps, adds or clears; membership in the list of functions by cases on the function |
| C45 | computation of the flags for symbolic builds; `C45_position` for all lists of function words by tracking the bit of each word |
| C46 | induction on the input |
| C47 | every function called is guarded by feature bits; counterexample by computation |
| C49 | refinement as for C01, the secrets being in memory; VerifyFacts.v for verify() of any function that only reads |
| C50 | the product with 0 |
| C51 | refinement, all builds; recorded values by computation; verify() through the probes of C42 |
| C52 | xor-shifts, odd products and so their compositions are injective, an injection of a finite set is onto |
| C53 | a word or block is taken in by a bijection (`Onto.v`), so it can lead from any state to any other |
| C54 | word operations against a specification by columns and bytes (`HighwayFacts.v`); invariant of the loop |
| C55 | invariant of state and buffer (`HighwayCat.v`), induction on the calls |
| C56 | the inverse of a column step: mul1, v0, mul0, v1 in this order |
| C57 | multiplication of polynomials over two elements; degrees give uniqueness of the remainder |
| C58, C59 | the templates proved for any record of operations that meets `hh_sound` (`HighwayTemplates.v`); the portable class meets it (`HighwayPortable.v`), with `pad_reversed` on big-endian builds |
| C60, C61 | the two classes meet `hh_sound` as well: lanes against words (`HighwaySimdFacts.v`), loads of partial packets against `pad` (`HighwaySimdSound.v`) |
| C62 | Fermat's little theorem and Pocklington's criterion, proved from the standard library; a checker of certificates, run in the kernel |
| C63 | refinement as C01; the macro alternatives are fields of `xxh_build` |
| C64 | invariant `holds`: the accumulators are those of the full stripes, the buffer has the rest; once for both sizes (`XxhashStream.v`) |
| C65 | big-endian bytes against the swaps of C |
| C66 | each step is injective in the state and in the word; accumulators that differ in one place stay so (XXH32); a collision of one word found by search (XXH64) |
| C67 | changing the highest bit of a word changes one bit of the accumulator, which a later word takes back |
| C68 | each function for a message and a secret in memory (`Xxh3Facts.v`), loops by induction on the iterations; the secret made from a seed (`Xxh3Secret.v`); direct access by inversion of a run that ends |
| C69 | an invariant of the state: the stripes consumed, the buffered rest and the 64 bytes before it at the buffer's end (`Xxh3Stream.v`); induction on the chunks and on the loop of XXH3_update |
| C70 | each step of the short paths is injective: the rotations by the polynomial 1 + x^24 + x^49, whose 64th power is 1; a finite injection is onto |
| C71 | products with zero where the message cancels the secret; sums of uppermost bits; equality of the accumulators after two stripes, then induction on the rest |
| C72 | the bytes in big-endian order compare like the number: induction on the bytes |
| C73 | invariants of the loop that repeats the seed and of the loop over the segments; collisions of C71 past the first 96 bytes |
| C74 | the distance to the next multiple of 64 is between 1 and 64, thus one byte |
| C75 | equal sums make equal segments; stripes with the same part of the secret commute |
| C76 | each variant on two lanes is the scalar step on both (`Xxh3SimdFacts.v`, `Xxh3SimdSound.v`); loops that write a vector after the other; the loop over stripes once for any pair of functions with that effect (`Xxh3SimdEntry.v`) |
| C77 | the class meets `hh_sound` if alignment did not matter (`vsx_any`, `HighwayVsxFacts.v`), and equals that one for aligned messages; the first misaligned word ends all others |
| C78 | popcount byte by byte; trial division and the least divisor of a composite number; the run of make_secret() for one seed with a table of primes (Pocklington certificates) and factors instead of the divisions; pigeonhole principle for the values of wyrand() |
| C79 | the invariants of C64 and C69 depend on the bytes of the state only, so they hold at the copy; what happens to the other state is a quantified memory |
| C80 | the invariant of C69 with the accumulators read from memory; each function of C76 keeps it, whatever variant (`Xxh3SimdStream.v`, `Xxh3SimdDigest.v`); with C74 the whole life of a state on the heap (`PropXxh3Life.v`) |

Not expressible: statistical quality (avalanche, SMHasher scores) and speed are not properties of single
executions and are not modelled.  Compiler behaviour is not modelled: the model is of C text.

## 3. Trusted base

* The Coq kernel (and `vm_compute`'s kernel reduction machine).
* No axioms: `Print Assumptions` after each property theorem is expected to print
  `Closed under the global context`.
* The reading of the C text into the model (cited line by line), in particular: the meaning of the compiler
  intrinsics (`_mm_*`, `__builtin_*`), of `uint64_t` arithmetic, and of the preprocessor conditions.
