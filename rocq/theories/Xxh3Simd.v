(** Model of the vector variants of XXH3, tests/xxhash/xxh3.h:978-1448 and 1556-1592, with
    the helpers of 320-438, and of hashing long keys with the functions passed as arguments.
    Definitions only.  The test program is compiled without them: see Xxh3.v.

    Here the accumulators are an array in the memory.  x86 and NEON variants are for
    little-endian machines (164-187).  The empty asm statements and XXH_PREFETCH have no
    effect; __m512i and the like give the compiler the right to assume that a pointer is
    a multiple of the size of the vector. *)
From Coq Require Import NArith List Bool Strings.Byte.
From Verif Require Import Bytes CSem Bits CtxMem HighwaySimd Xxhash Xxh3.
Import ListNotations.
Local Open Scope N_scope.

(** ** Vectors *)
(** of 512 bits: the halves *)
Definition V8x64U : Type := (V4x64U * V4x64U)%type.
Definition bytes256 (v : V4x64U) : list byte := bytes64 (fst v) ++ bytes64 (snd v).
Definition of_bytes256 (l : list byte) : V4x64U := (of_bytes64 (firstn 16 l), of_bytes64 (skipn 16 l)).
Definition bytes512 (v : V8x64U) : list byte := bytes256 (fst v) ++ bytes256 (snd v).
Definition of_bytes512 (l : list byte) : V8x64U := (of_bytes256 (firstn 32 l), of_bytes256 (skipn 32 l)).

(** a vector of [n] bytes through a pointer to its type *)
Definition load_vector (n : nat) (p : N) : M (list byte) :=
  if p mod N.of_nat n =? 0 then load_bytes n p else undef MisalignedAccess.
Definition store_vector (n : nat) (p : N) (l : list byte) : M unit :=
  if p mod N.of_nat n =? 0 then store_bytes p l else undef MisalignedAccess.

(** assignment through a pointer to xxh_u64 *)
Definition assign64 (cfg : config) (p v : N) : M unit :=
  if p mod alignment cfg 8 =? 0 then store_uint cfg 8 p v else undef MisalignedAccess.

(** ** Intrinsics of x86 *)
(** _mm_shuffle_epi32 and those of 256 and 512 bits, of a vector of 64-bit lanes *)
Definition shuffle128 (v : V2x64U) (imm : N) : V2x64U := to64 (mm_shuffle_epi32 (to32 v) imm).
Definition shuffle256 (v : V4x64U) (imm : N) : V4x64U := both (fun x => shuffle128 x imm) v.
Definition shuffle512 (v : V8x64U) (imm : N) : V8x64U := both (fun x => shuffle256 x imm) v.
(** _mm512_add_epi64, _mm512_xor_si512, _mm512_mul_epu32, _mm512_srli_epi64, _mm512_slli_epi64 *)
Definition mm512_add_epi64 : V8x64U -> V8x64U -> V8x64U := both2 mm256_add_epi64.
Definition mm512_xor_si512 : V8x64U -> V8x64U -> V8x64U := both2 mm256_xor_si256.
Definition mm512_mul_epu32 : V8x64U -> V8x64U -> V8x64U := both2 mm256_mul_epu32.
Definition mm512_srli_epi64 (v : V8x64U) (n : N) : V8x64U := both (fun x => mm256_srli_epi64 x n) v.
Definition mm512_slli_epi64 (v : V8x64U) (n : N) : V8x64U := both (fun x => mm256_slli_epi64 x n) v.
(** _mm_set1_epi32, _mm256_set1_epi32 and _mm512_set1_epi32 *)
Definition set1_32_128 (x : N) : V2x64U := to64 (mm_set1_epi32 x).
Definition set1_32_256 (x : N) : V4x64U := (set1_32_128 x, set1_32_128 x).
Definition set1_32_512 (x : N) : V8x64U := (set1_32_256 x, set1_32_256 x).
(** _mm_set_epi64x and _mm256_set_epi64x: the highest lane first *)
Definition mm_set_epi64x (x1 x0 : N) : V2x64U := (x0, x1).
Definition mm256_set_epi64x (x3 x2 x1 x0 : N) : V4x64U := ((x0, x1), (x2, x3)).
(** _mm512_set1_epi64, and _mm512_mask_set1_epi64: [x] in the lanes whose bit of [k] is set *)
Definition mm512_set1_epi64 (x : N) : V8x64U := (((x, x), (x, x)), ((x, x), (x, x))).
Definition mm512_mask_set1_epi64 (src : V8x64U) (k x : N) : V8x64U :=
  let '(((l0, l1), (l2, l3)), ((l4, l5), (l6, l7))) := src in
  let sel i l := if N.testbit k i then x else l in
  (((sel 0 l0, sel 1 l1), (sel 2 l2, sel 3 l3)), ((sel 4 l4, sel 5 l5), (sel 6 l6, sel 7 l7))).

(** ** Intrinsics of NEON *)
(** uint64x2_t is [V2x64U] and uint32x2_t the pair of its lanes *)
Definition V2x32U : Type := (N * N)%type.
Definition vextq_u64 (a b : V2x64U) (n : N) : V2x64U := if n =? 0 then a else (snd a, fst b).
Definition vaddq_u64 : V2x64U -> V2x64U -> V2x64U := zip64 add64.
Definition veorq_u64 : V2x64U -> V2x64U -> V2x64U := zip64 N.lxor.
Definition vshrq_n_u64 (v : V2x64U) (n : N) : V2x64U := map64 (fun x => shr64 x n) v.
Definition vshlq_n_u64 (v : V2x64U) (n : N) : V2x64U := map64 (fun x => shl64 x n) v.
Definition vmovn_u64 (v : V2x64U) : V2x32U := (u32 (fst v), u32 (snd v)).
Definition vshrn_n_u64 (v : V2x64U) (n : N) : V2x32U := (u32 (shr64 (fst v) n), u32 (shr64 (snd v) n)).
Definition vmull_u32 (a b : V2x32U) : V2x64U := (fst a * fst b, snd a * snd b).
Definition vmlal_u32 (acc : V2x64U) (a b : V2x32U) : V2x64U := vaddq_u64 acc (vmull_u32 a b).
Definition vdup_n_u32 (x : N) : V2x32U := (u32 x, u32 x).
(** the instruction vzip.32 on the halves of a register: lane 1 of the lower and lane 0 of
    the upper one are exchanged *)
Definition vzip_32 (v : V4x32U) : V4x32U := let '(e0, e1, e2, e3) := v in (e0, e2, e1, e3).
Definition vget_low_u32 (v : V4x32U) : V2x32U := let '(e0, e1, _, _) := v in (e0, e1).
Definition vget_high_u32 (v : V4x32U) : V2x32U := let '(_, _, e2, e3) := v in (e2, e3).
(** XXH_SPLIT_IN_PLACE, tests/xxhash/xxh3.h:328-346; [vzip] if the first definition is used *)
Definition XXH_SPLIT_IN_PLACE (vzip : bool) (v : V2x64U) : V2x32U * V2x32U :=
  if vzip then let v := vzip_32 (to32 v) in (vget_low_u32 v, vget_high_u32 v)
  else (vmovn_u64 v, vshrn_n_u64 v 32).

(** ** Intrinsics of POWER and z *)
(** A register: its two doublewords from left to right.  Element 0 of a vector is the
    left one on a big-endian machine and the right one on a little-endian machine. *)
Definition vsx_reg : Type := (N * N)%type.
Definition vsx_of_bytes (cfg : config) (l : list byte) : vsx_reg :=
  if big_endian cfg then (be_num (firstn 8 l), be_num (firstn 8 (skipn 8 l)))
  else (le_num (firstn 8 (skipn 8 l)), le_num (firstn 8 l)).
Definition vsx_bytes (cfg : config) (v : vsx_reg) : list byte :=
  if big_endian cfg then be_bytes 8 (fst v) ++ be_bytes 8 (snd v) else le_bytes 8 (snd v) ++ le_bytes 8 (fst v).
(** vec_perm on a big-endian machine: bytes from left to right of both registers *)
Definition vec_perm (a b : vsx_reg) (control : list N) : vsx_reg :=
  let bytes v := be_bytes 8 (fst v) ++ be_bytes 8 (snd v) in
  let l := map (fun c => nth (N.to_nat (c mod 32)) (bytes a ++ bytes b) x00) control in
  (be_num (firstn 8 l), be_num (skipn 8 l)).
(** XXH_vec_revb, tests/xxhash/xxh3.h:381-392; the instruction vec_revb does the same *)
Definition XXH_vec_revb (val : vsx_reg) : vsx_reg :=
  vec_perm val val [7; 6; 5; 4; 3; 2; 1; 0; 15; 14; 13; 12; 11; 10; 9; 8].
(** the words of a doubleword of the register: the left one is even, the right one odd *)
Definition even_word (x : N) : N := x / 2 ^ 32.
Definition odd_word (x : N) : N := x mod 2 ^ 32.
(** XXH_vec_mulo and XXH_vec_mule, tests/xxhash/xxh3.h:415-437: vmulouw and vmuleuw number
    the words of a register from left to right on every machine *)
Definition XXH_vec_mulo : vsx_reg -> vsx_reg -> vsx_reg := zip64 (fun x y => odd_word x * odd_word y).
Definition XXH_vec_mule : vsx_reg -> vsx_reg -> vsx_reg := zip64 (fun x y => even_word x * even_word y).
Definition vec_rl (v n : vsx_reg) : vsx_reg :=
  zip64 (fun x n => N.lor (shl64 x (n mod 64)) (shr64 x ((64 - n) mod 64))) v n.
(** vec_xxpermdi(a, b, 2) and vec_permi(a, b, 2) *)
Definition vec_xxpermdi_2 (a b : vsx_reg) : vsx_reg := (snd a, fst b).
Definition vec_add : vsx_reg -> vsx_reg -> vsx_reg := zip64 add64.
Definition vec_xor : vsx_reg -> vsx_reg -> vsx_reg := zip64 N.lxor.
Definition vec_sr : vsx_reg -> vsx_reg -> vsx_reg := zip64 shr64.
Definition vec_sl : vsx_reg -> vsx_reg -> vsx_reg := zip64 shl64.

Section Simd.
  Variable (cfg : config) (x3 : xxh3_build).
  Notation at_ := (padd cfg).
  Notation ASSERT := (XXH_ASSERT cfg x3).
  Notation rd64 := (XXH_readLE64 cfg (x3_xxh x3)).

  (** ** AVX512 *)
  (** tests/xxhash/xxh3.h:984-1012 *)
  Definition XXH3_accumulate_512_avx512 (acc input secret : N) : M unit :=
    ASSERT (N.land acc 63 =? 0) ;;;
    data_vec <- load_bytes 64 input ;;
    key_vec <- load_bytes 64 secret ;;
    let data_vec := of_bytes512 data_vec in
    let key_vec := of_bytes512 key_vec in
    let data_key := mm512_xor_si512 data_vec key_vec in
    let data_key_lo := shuffle512 data_key (MM_SHUFFLE 0 3 0 1) in
    let product := mm512_mul_epu32 data_key data_key_lo in
    let data_swap := shuffle512 data_vec (MM_SHUFFLE 1 0 3 2) in
    xacc <- load_vector 64 acc ;;
    let sum := mm512_add_epi64 (of_bytes512 xacc) data_swap in
    store_vector 64 acc (bytes512 (mm512_add_epi64 product sum)).
  (** tests/xxhash/xxh3.h:1033-1055 *)
  Definition XXH3_scrambleAcc_avx512 (acc secret : N) : M unit :=
    ASSERT (N.land acc 63 =? 0) ;;;
    let prime32 := set1_32_512 XXH_PRIME32_1 in
    acc_vec <- load_vector 64 acc ;;
    let acc_vec := of_bytes512 acc_vec in
    let shifted := mm512_srli_epi64 acc_vec 47 in
    let data_vec := mm512_xor_si512 acc_vec shifted in
    key_vec <- load_bytes 64 secret ;;
    let data_key := mm512_xor_si512 data_vec (of_bytes512 key_vec) in
    let data_key_hi := shuffle512 data_key (MM_SHUFFLE 0 3 0 1) in
    let prod_lo := mm512_mul_epu32 data_key prime32 in
    let prod_hi := mm512_mul_epu32 data_key_hi prime32 in
    store_vector 64 acc (bytes512 (mm512_add_epi64 prod_lo (mm512_slli_epi64 prod_hi 32))).
  (** tests/xxhash/xxh3.h:1057-1080 *)
  Definition XXH3_initCustomSecret_avx512 (customSecret seed64 : N) : M unit :=
    ASSERT (N.land customSecret 63 =? 0) ;;;
    let seed := mm512_mask_set1_epi64 (mm512_set1_epi64 seed64) 0xAA (sub64 0 seed64) in
    for_loop 3 0 (fun i _ =>
      l <- load_vector 64 (at_ (x3_kSecret x3) (64 * i)) ;;
      store_vector 64 (at_ customSecret (64 * i)) (bytes512 (mm512_add_epi64 (of_bytes512 l) seed))) tt.

  (** ** AVX2 *)
  (** tests/xxhash/xxh3.h:1090-1121 *)
  Definition XXH3_accumulate_512_avx2 (acc input secret : N) : M unit :=
    ASSERT (N.land acc 31 =? 0) ;;;
    for_loop 2 0 (fun i _ =>
      data_vec <- load_bytes 32 (at_ input (32 * i)) ;;
      key_vec <- load_bytes 32 (at_ secret (32 * i)) ;;
      let data_vec := of_bytes256 data_vec in
      let key_vec := of_bytes256 key_vec in
      let data_key := mm256_xor_si256 data_vec key_vec in
      let data_key_lo := shuffle256 data_key (MM_SHUFFLE 0 3 0 1) in
      let product := mm256_mul_epu32 data_key data_key_lo in
      let data_swap := shuffle256 data_vec (MM_SHUFFLE 1 0 3 2) in
      xacc <- load_vector 32 (at_ acc (32 * i)) ;;
      let sum := mm256_add_epi64 (of_bytes256 xacc) data_swap in
      store_vector 32 (at_ acc (32 * i)) (bytes256 (mm256_add_epi64 product sum))) tt.
  (** tests/xxhash/xxh3.h:1123-1150 *)
  Definition XXH3_scrambleAcc_avx2 (acc secret : N) : M unit :=
    ASSERT (N.land acc 31 =? 0) ;;;
    let prime32 := set1_32_256 XXH_PRIME32_1 in
    for_loop 2 0 (fun i _ =>
      acc_vec <- load_vector 32 (at_ acc (32 * i)) ;;
      let acc_vec := of_bytes256 acc_vec in
      let shifted := mm256_srli_epi64 acc_vec 47 in
      let data_vec := mm256_xor_si256 acc_vec shifted in
      key_vec <- load_bytes 32 (at_ secret (32 * i)) ;;
      let data_key := mm256_xor_si256 data_vec (of_bytes256 key_vec) in
      let data_key_hi := shuffle256 data_key (MM_SHUFFLE 0 3 0 1) in
      let prod_lo := mm256_mul_epu32 data_key prime32 in
      let prod_hi := mm256_mul_epu32 data_key_hi prime32 in
      store_vector 32 (at_ acc (32 * i)) (bytes256 (mm256_add_epi64 prod_lo (mm256_slli_epi64 prod_hi 32)))) tt.
  (** tests/xxhash/xxh3.h:1152-1185 *)
  Definition XXH3_initCustomSecret_avx2 (customSecret seed64 : N) : M unit :=
    let seed := mm256_set_epi64x (sub64 0 seed64) seed64 (sub64 0 seed64) seed64 in
    let one i :=
      l <- load_vector 32 (at_ (x3_kSecret x3) (32 * i)) ;;
      store_vector 32 (at_ customSecret (32 * i)) (bytes256 (mm256_add_epi64 (of_bytes256 l) seed)) in
    one 0 ;;; one 1 ;;; one 2 ;;; one 3 ;;; one 4 ;;; one 5.

  (** ** SSE2 *)
  (** tests/xxhash/xxh3.h:1194-1226 *)
  Definition XXH3_accumulate_512_sse2 (acc input secret : N) : M unit :=
    ASSERT (N.land acc 15 =? 0) ;;;
    for_loop 4 0 (fun i _ =>
      data_vec <- load_bytes 16 (at_ input (16 * i)) ;;
      key_vec <- load_bytes 16 (at_ secret (16 * i)) ;;
      let data_vec := of_bytes64 data_vec in
      let key_vec := of_bytes64 key_vec in
      let data_key := mm_xor_si128 data_vec key_vec in
      let data_key_lo := shuffle128 data_key (MM_SHUFFLE 0 3 0 1) in
      let product := mm_mul_epu32 data_key data_key_lo in
      let data_swap := shuffle128 data_vec (MM_SHUFFLE 1 0 3 2) in
      xacc <- load_vector 16 (at_ acc (16 * i)) ;;
      let sum := mm_add_epi64 (of_bytes64 xacc) data_swap in
      store_vector 16 (at_ acc (16 * i)) (bytes64 (mm_add_epi64 product sum))) tt.
  (** tests/xxhash/xxh3.h:1228-1255 *)
  Definition XXH3_scrambleAcc_sse2 (acc secret : N) : M unit :=
    ASSERT (N.land acc 15 =? 0) ;;;
    let prime32 := set1_32_128 XXH_PRIME32_1 in
    for_loop 4 0 (fun i _ =>
      acc_vec <- load_vector 16 (at_ acc (16 * i)) ;;
      let acc_vec := of_bytes64 acc_vec in
      let shifted := mm_srli_epi64 acc_vec 47 in
      let data_vec := mm_xor_si128 acc_vec shifted in
      key_vec <- load_bytes 16 (at_ secret (16 * i)) ;;
      let data_key := mm_xor_si128 data_vec (of_bytes64 key_vec) in
      let data_key_hi := shuffle128 data_key (MM_SHUFFLE 0 3 0 1) in
      let prod_lo := mm_mul_epu32 data_key prime32 in
      let prod_hi := mm_mul_epu32 data_key_hi prime32 in
      store_vector 16 (at_ acc (16 * i)) (bytes64 (mm_add_epi64 prod_lo (mm_slli_epi64 prod_hi 32)))) tt.
  (** tests/xxhash/xxh3.h:1257-1286; both definitions of [seed] are the same *)
  Definition XXH3_initCustomSecret_sse2 (customSecret seed64 : N) : M unit :=
    let seed := mm_set_epi64x (sub64 0 seed64) seed64 in
    for_loop 12 0 (fun i _ =>
      l <- load_vector 16 (at_ (x3_kSecret x3) (16 * i)) ;;
      store_vector 16 (at_ customSecret (16 * i)) (bytes64 (mm_add_epi64 (of_bytes64 l) seed))) tt.

  (** ** NEON *)
  (** tests/xxhash/xxh3.h:1292-1327 *)
  Definition XXH3_accumulate_512_neon (vzip : bool) (acc input secret : N) : M unit :=
    ASSERT (N.land acc 15 =? 0) ;;;
    for_loop 4 0 (fun i _ =>
      data_vec <- load_bytes 16 (at_ input (i * 16)) ;;
      key_vec <- load_bytes 16 (at_ secret (i * 16)) ;;
      let data64 := of_bytes64 data_vec in
      let swapped := vextq_u64 data64 data64 1 in
      xacc <- load_vector 16 (at_ acc (16 * i)) ;;
      store_vector 16 (at_ acc (16 * i)) (bytes64 (vaddq_u64 (of_bytes64 xacc) swapped)) ;;;
      let data_key := veorq_u64 data64 (of_bytes64 key_vec) in
      let '(data_key_lo, data_key_hi) := XXH_SPLIT_IN_PLACE vzip data_key in
      xacc <- load_vector 16 (at_ acc (16 * i)) ;;
      store_vector 16 (at_ acc (16 * i)) (bytes64 (vmlal_u32 (of_bytes64 xacc) data_key_lo data_key_hi))) tt.
  (** tests/xxhash/xxh3.h:1329-1380 *)
  Definition XXH3_scrambleAcc_neon (vzip : bool) (acc secret : N) : M unit :=
    ASSERT (N.land acc 15 =? 0) ;;;
    let prime := vdup_n_u32 XXH_PRIME32_1 in
    for_loop 4 0 (fun i _ =>
      acc_vec <- load_vector 16 (at_ acc (16 * i)) ;;
      let acc_vec := of_bytes64 acc_vec in
      let shifted := vshrq_n_u64 acc_vec 47 in
      let data_vec := veorq_u64 acc_vec shifted in
      key_vec <- load_bytes 16 (at_ secret (i * 16)) ;;
      let data_key := veorq_u64 data_vec (of_bytes64 key_vec) in
      let '(data_key_lo, data_key_hi) := XXH_SPLIT_IN_PLACE vzip data_key in
      let prod_hi := vmull_u32 data_key_hi prime in
      store_vector 16 (at_ acc (16 * i)) (bytes64 (vshlq_n_u64 prod_hi 32)) ;;;
      xacc <- load_vector 16 (at_ acc (16 * i)) ;;
      store_vector 16 (at_ acc (16 * i)) (bytes64 (vmlal_u32 (of_bytes64 xacc) data_key_lo prime))) tt.

  (** ** VSX and z *)
  (** tests/xxhash/xxh3.h:398-406; XXH_VSX_BE (370-380) is taken to be the byte order of the
      machine, without -maltivec=be *)
  Definition XXH_vec_loadu (ptr : N) : M vsx_reg :=
    l <- load_bytes 16 ptr ;;
    let r := vsx_of_bytes cfg l in
    ret (if big_endian cfg then XXH_vec_revb r else r).
  (** tests/xxhash/xxh3.h:1386-1417 *)
  Definition XXH3_accumulate_512_vsx (acc input secret : N) : M unit :=
    let v32 := (32, 32) in
    for_loop 4 0 (fun i _ =>
      data_vec <- XXH_vec_loadu (at_ input (16 * i)) ;;
      key_vec <- XXH_vec_loadu (at_ secret (16 * i)) ;;
      let data_key := vec_xor data_vec key_vec in
      let shuffled := vec_rl data_key v32 in
      let product := XXH_vec_mulo data_key shuffled in
      xacc <- load_vector 16 (at_ acc (16 * i)) ;;
      store_vector 16 (at_ acc (16 * i)) (vsx_bytes cfg (vec_add (vsx_of_bytes cfg xacc) product)) ;;;
      let data_swapped := vec_xxpermdi_2 data_vec data_vec in
      xacc <- load_vector 16 (at_ acc (16 * i)) ;;
      store_vector 16 (at_ acc (16 * i)) (vsx_bytes cfg (vec_add (vsx_of_bytes cfg xacc) data_swapped))) tt.
  (** tests/xxhash/xxh3.h:1419-1447 *)
  Definition XXH3_scrambleAcc_vsx (acc secret : N) : M unit :=
    ASSERT (N.land acc 15 =? 0) ;;;
    let v32 := (32, 32) in
    let v47 := (47, 47) in
    let prime := (XXH_PRIME32_1 * 2 ^ 32 + XXH_PRIME32_1, XXH_PRIME32_1 * 2 ^ 32 + XXH_PRIME32_1) in
    for_loop 4 0 (fun i _ =>
      acc_vec <- load_vector 16 (at_ acc (16 * i)) ;;
      let acc_vec := vsx_of_bytes cfg acc_vec in
      let data_vec := vec_xor acc_vec (vec_sr acc_vec v47) in
      key_vec <- XXH_vec_loadu (at_ secret (16 * i)) ;;
      let data_key := vec_xor data_vec key_vec in
      let prod_even := XXH_vec_mule data_key prime in
      let prod_odd := XXH_vec_mulo data_key prime in
      store_vector 16 (at_ acc (16 * i)) (vsx_bytes cfg (vec_add prod_odd (vec_sl prod_even v32)))) tt.

  (** ** Scalar, with the accumulators in the memory *)
  (** XXH_ACC_ALIGN is 8 here, tests/xxhash/xxh3.h:200 *)
  (** tests/xxhash/xxh3.h:1453-1469 *)
  Definition XXH3_accumulate_512_scalar (acc input secret : N) : M unit :=
    ASSERT (N.land acc 7 =? 0) ;;;
    for_loop 8 0 (fun i _ =>
      data_val <- rd64 (at_ input (8 * i)) ;;
      s <- rd64 (at_ secret (i * 8)) ;;
      let data_key := N.lxor data_val s in
      x <- deref cfg 8 (at_ acc (8 * N.lxor i 1)) ;;
      assign64 cfg (at_ acc (8 * N.lxor i 1)) (add64 x data_val) ;;;
      x <- deref cfg 8 (at_ acc (8 * i)) ;;
      assign64 cfg (at_ acc (8 * i)) (add64 x (XXH_mult32to64 (N.land data_key 0xFFFFFFFF) (shr64 data_key 32)))) tt.
  (** tests/xxhash/xxh3.h:1471-1486 *)
  Definition XXH3_scrambleAcc_scalar (acc secret : N) : M unit :=
    ASSERT (N.land acc 7 =? 0) ;;;
    for_loop 8 0 (fun i _ =>
      key64 <- rd64 (at_ secret (8 * i)) ;;
      acc64 <- deref cfg 8 (at_ acc (8 * i)) ;;
      let acc64 := XXH_xorshift64 acc64 47 in
      let acc64 := N.lxor acc64 key64 in
      let acc64 := mul64 acc64 XXH_PRIME32_1 in
      assign64 cfg (at_ acc (8 * i)) acc64) tt.

  (** ** Choice *)
  (** XXH_VECTOR, tests/xxhash/xxh3.h:157-162; NEON with the definition of
      XXH_SPLIT_IN_PLACE that is used *)
  Inductive xxh_vector : Type := XXH_SCALAR | XXH_SSE2 | XXH_AVX2 | XXH_AVX512 | XXH_NEON (vzip : bool) | XXH_VSX.
  (** tests/xxhash/xxh3.h:194-217, without XXH_X86DISPATCH *)
  Definition XXH_ACC_ALIGN (v : xxh_vector) : N :=
    match v with
    | XXH_SCALAR => 8 | XXH_SSE2 => 16 | XXH_AVX2 => 32 | XXH_NEON _ => 16 | XXH_VSX => 16 | XXH_AVX512 => 64
    end.
  Definition XXH_SEC_ALIGN (v : xxh_vector) : N :=
    match v with XXH_SSE2 | XXH_AVX2 | XXH_AVX512 => XXH_ACC_ALIGN v | _ => 8 end.
  (** tests/xxhash/xxh3.h:1558-1592 *)
  Definition f_accumulate_512 (v : xxh_vector) : N -> N -> N -> M unit :=
    match v with
    | XXH_AVX512 => XXH3_accumulate_512_avx512
    | XXH_AVX2 => XXH3_accumulate_512_avx2
    | XXH_SSE2 => XXH3_accumulate_512_sse2
    | XXH_NEON vzip => XXH3_accumulate_512_neon vzip
    | XXH_VSX => XXH3_accumulate_512_vsx
    | XXH_SCALAR => XXH3_accumulate_512_scalar
    end.
  Definition f_scrambleAcc (v : xxh_vector) : N -> N -> M unit :=
    match v with
    | XXH_AVX512 => XXH3_scrambleAcc_avx512
    | XXH_AVX2 => XXH3_scrambleAcc_avx2
    | XXH_SSE2 => XXH3_scrambleAcc_sse2
    | XXH_NEON vzip => XXH3_scrambleAcc_neon vzip
    | XXH_VSX => XXH3_scrambleAcc_vsx
    | XXH_SCALAR => XXH3_scrambleAcc_scalar
    end.
  Definition f_initCustomSecret (v : xxh_vector) : N -> N -> M unit :=
    match v with
    | XXH_AVX512 => XXH3_initCustomSecret_avx512
    | XXH_AVX2 => XXH3_initCustomSecret_avx2
    | XXH_SSE2 => XXH3_initCustomSecret_sse2
    | XXH_NEON _ | XXH_VSX | XXH_SCALAR => XXH3_initCustomSecret cfg x3
    end.

  (** ** Long keys *)
  Section Long.
    Variables (f_acc512 : N -> N -> N -> M unit) (f_scramble : N -> N -> M unit) (f_initSec : N -> N -> M unit).
    (** tests/xxhash/xxh3.h:1615-1630 *)
    Definition accumulate_mem (acc input secret nbStripes : N) : M unit :=
      for_loop (N.to_nat nbStripes) 0 (fun n _ => f_acc512 acc (at_ input (n * 64)) (at_ secret (n * 8))) tt.
    (** tests/xxhash/xxh3.h:1632-1663; as in Xxh3.v *)
    Definition internal_loop_mem (acc input len secret secretSize : N) : M unit :=
      let nbStripesPerBlock := psub cfg secretSize 64 / 8 in
      if nbStripesPerBlock =? 0 then stuck
      else
        let block_len := 64 * nbStripesPerBlock in
        let nb_blocks := psub cfg len 1 / block_len in
        ASSERT (XXH3_SECRET_SIZE_MIN <=? secretSize) ;;;
        for_loop (N.to_nat nb_blocks) 0 (fun n _ =>
          accumulate_mem acc (at_ input (n * block_len)) secret nbStripesPerBlock ;;;
          f_scramble acc (psub cfg (at_ secret secretSize) 64)) tt ;;;
        ASSERT (64 <? len) ;;;
        let nbStripes := (psub cfg len 1 - block_len * nb_blocks) / 64 in
        ASSERT (nbStripes <=? secretSize / 8) ;;;
        accumulate_mem acc (at_ input (nb_blocks * block_len)) secret nbStripes ;;;
        let p := psub cfg (at_ input len) 64 in
        f_acc512 acc p (psub cfg (psub cfg (at_ secret secretSize) 64) 7).
    (** the array of accumulators as values, and XXH3_INIT_ACC stored into it *)
    Definition read_accs (acc : N) : M (list N) :=
      for_loop 8 0 (fun i l => x <- deref cfg 8 (at_ acc (8 * i)) ;; ret (l ++ [x])) [].
    Definition init_accs (acc : N) : M unit :=
      for_loop 8 0 (fun i _ => assign64 cfg (at_ acc (8 * i)) (acc_get XXH3_INIT_ACC i)) tt.
    (** tests/xxhash/xxh3.h:1703-1719; [acc] is the address of the local array.
        XXH3_mergeAccs is that of Xxh3.v: the accumulators are read before it *)
    Definition hashLong_64b_mem (acc input len secret secretSize : N) : M N :=
      init_accs acc ;;;
      internal_loop_mem acc input len secret secretSize ;;;
      ASSERT (64 + 11 <=? secretSize) ;;;
      v <- read_accs acc ;;
      XXH3_mergeAccs cfg x3 v (at_ secret 11) (mul64 len XXH_PRIME64_1).
    (** tests/xxhash/xxh3.h:2435-2458 *)
    Definition hashLong_128b_mem (acc input len secret secretSize : N) : M hash128 :=
      init_accs acc ;;;
      internal_loop_mem acc input len secret secretSize ;;;
      ASSERT (64 + 11 <=? secretSize) ;;;
      v <- read_accs acc ;;
      low64 <- XXH3_mergeAccs cfg x3 v (at_ secret 11) (mul64 len XXH_PRIME64_1) ;;
      high64 <- XXH3_mergeAccs cfg x3 v (psub cfg (psub cfg (at_ secret secretSize) 64) 11) (not64 (mul64 len XXH_PRIME64_2)) ;;
      ret (low64, high64).
    (** tests/xxhash/xxh3.h:1758-1775 and 2486-2502; [local] is the address of [secret] *)
    Definition withSeed_64b_mem (acc local input len seed : N) : M N :=
      if seed =? 0 then hashLong_64b_mem acc input len (x3_kSecret x3) XXH_SECRET_DEFAULT_SIZE
      else
        f_initSec local seed ;;;
        hashLong_64b_mem acc input len local XXH_SECRET_DEFAULT_SIZE.
    Definition withSeed_128b_mem (acc local input len seed : N) : M hash128 :=
      if seed =? 0 then hashLong_128b_mem acc input len (x3_kSecret x3) XXH_SECRET_DEFAULT_SIZE
      else
        f_initSec local seed ;;;
        hashLong_128b_mem acc input len local XXH_SECRET_DEFAULT_SIZE.
  End Long.

  (** ** The functions of the library, compiled for [v] *)
  Variable v : xxh_vector.
  Let long64 := hashLong_64b_mem (f_accumulate_512 v) (f_scrambleAcc v).
  Let long128 := hashLong_128b_mem (f_accumulate_512 v) (f_scrambleAcc v).
  (** tests/xxhash/xxh3.h:1724-1745, 1777-1786 and 1817-1832 *)
  Definition XXH3_64bits_v (acc input len : N) : M N :=
    XXH3_64bits_internal cfg x3 input len 0 (x3_kSecret x3) XXH_SECRET_DEFAULT_SIZE
      (fun input len _ _ _ => long64 acc input len (x3_kSecret x3) XXH_SECRET_DEFAULT_SIZE).
  Definition XXH3_64bits_withSecret_v (acc input len secret secretSize : N) : M N :=
    XXH3_64bits_internal cfg x3 input len 0 secret secretSize
      (fun input len _ secret secretLen => long64 acc input len secret secretLen).
  Definition XXH3_64bits_withSeed_v (acc local input len seed : N) : M N :=
    XXH3_64bits_internal cfg x3 input len seed (x3_kSecret x3) XXH_SECRET_DEFAULT_SIZE
      (fun input len seed _ _ => withSeed_64b_mem (f_accumulate_512 v) (f_scrambleAcc v) (f_initCustomSecret v) acc local input len seed).
  (** tests/xxhash/xxh3.h:2463-2484, 2505-2514 and 2543-2564 *)
  Definition XXH3_128bits_v (acc input len : N) : M hash128 :=
    XXH3_128bits_internal cfg x3 input len 0 (x3_kSecret x3) XXH_SECRET_DEFAULT_SIZE
      (fun input len _ _ _ => long128 acc input len (x3_kSecret x3) XXH_SECRET_DEFAULT_SIZE).
  Definition XXH3_128bits_withSecret_v (acc input len secret secretSize : N) : M hash128 :=
    XXH3_128bits_internal cfg x3 input len 0 secret secretSize
      (fun input len _ secret secretLen => long128 acc input len secret secretLen).
  Definition XXH3_128bits_withSeed_v (acc local input len seed : N) : M hash128 :=
    XXH3_128bits_internal cfg x3 input len seed (x3_kSecret x3) XXH_SECRET_DEFAULT_SIZE
      (fun input len seed _ _ => withSeed_128b_mem (f_accumulate_512 v) (f_scrambleAcc v) (f_initCustomSecret v) acc local input len seed).
End Simd.
