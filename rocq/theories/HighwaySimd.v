(** Model of HighwayHash in C++ for SSE4.1 and AVX2, tests/highwayhash/hh_sse41.h,
    hh_avx2.h, hh_buffer.h, with what they use of vector128.h and vector256.h.
    Definitions only.

    A vector is the tuple of its lanes, the lowest first; V4x64U and V8x32U are pairs of
    their 128-bit halves.  The functions named mm_* are the intrinsics, as the processor's
    manual describes them; a vector is converted where the code makes another type of
    it.  HH_COMPILER_FENCE has no effect. *)
From Coq Require Import NArith List Bool Strings.Byte.
From Verif Require Import Bytes CSem Bits T1ha2 CtxMem Highway HighwayCxx.
Import ListNotations.
Local Open Scope N_scope.

Definition V2x64U : Type := (N * N)%type.
Definition V4x32U : Type := (N * N * N * N)%type.
Definition V4x64U : Type := (V2x64U * V2x64U)%type.
Definition V8x32U : Type := (V4x32U * V4x32U)%type.

(** the same 128 bits in lanes of another width *)
Definition to64 (v : V4x32U) : V2x64U := let '(e0, e1, e2, e3) := v in (e0 + e1 * 2 ^ 32, e2 + e3 * 2 ^ 32).
Definition to32 (v : V2x64U) : V4x32U := let '(x, y) := v in (x mod 2 ^ 32, x / 2 ^ 32, y mod 2 ^ 32, y / 2 ^ 32).
Definition bytes64 (v : V2x64U) : list byte := let '(x, y) := v in le_bytes 8 x ++ le_bytes 8 y.
Definition of_bytes64 (l : list byte) : V2x64U := (le_num (firstn 8 l), le_num (firstn 8 (skipn 8 l))).
Definition bytes32 (v : V4x32U) : list byte :=
  let '(e0, e1, e2, e3) := v in le_bytes 4 e0 ++ le_bytes 4 e1 ++ le_bytes 4 e2 ++ le_bytes 4 e3.
Definition of_bytes32 (l : list byte) : V4x32U :=
  (le_num (firstn 4 l), le_num (firstn 4 (skipn 4 l)), le_num (firstn 4 (skipn 8 l)), le_num (firstn 4 (skipn 12 l))).

(** ** Intrinsics *)
Definition map64 (f : N -> N) (v : V2x64U) : V2x64U := (f (fst v), f (snd v)).
Definition zip64 (f : N -> N -> N) (v w : V2x64U) : V2x64U := (f (fst v) (fst w), f (snd v) (snd w)).
Definition map32 (f : N -> N) (v : V4x32U) : V4x32U := let '(e0, e1, e2, e3) := v in (f e0, f e1, f e2, f e3).
Definition zip32 (f : N -> N -> N) (v w : V4x32U) : V4x32U :=
  let '(e0, e1, e2, e3) := v in let '(f0, f1, f2, f3) := w in (f e0 f0, f e1 f1, f e2 f2, f e3 f3).
Definition lane32 (v : V4x32U) (i : N) : N :=
  let '(e0, e1, e2, e3) := v in if i =? 0 then e0 else if i =? 1 then e1 else if i =? 2 then e2 else e3.

Definition mm_add_epi64 : V2x64U -> V2x64U -> V2x64U := zip64 add64.
Definition mm_xor_si128 : V2x64U -> V2x64U -> V2x64U := zip64 N.lxor.
Definition mm_or_si128 : V2x64U -> V2x64U -> V2x64U := zip64 N.lor.
Definition mm_and_si128 : V2x64U -> V2x64U -> V2x64U := zip64 N.land.
(** the first operand is complemented *)
Definition mm_andnot_si128 : V2x64U -> V2x64U -> V2x64U := zip64 (fun x y => N.ldiff y x).
Definition mm_andnot_si128_32 : V4x32U -> V4x32U -> V4x32U := zip32 (fun x y => N.ldiff y x).
Definition mm_or_si128_32 : V4x32U -> V4x32U -> V4x32U := zip32 N.lor.
Definition mm_sub_epi32 : V4x32U -> V4x32U -> V4x32U := zip32 (fun x y => (2 ^ 32 + x - y) mod 2 ^ 32).
Definition mm_set1_epi32 (x : N) : V4x32U := (u32 x, u32 x, u32 x, u32 x).
Definition mm_cvtsi64_si128 (x : N) : V2x64U := (x, 0).
(** shifts of all lanes by a constant, and by the number in the lower half of a vector,
    which gives zero if it is not below the width *)
Definition mm_slli_epi64 (v : V2x64U) (n : N) : V2x64U := map64 (fun x => shl64 x n) v.
Definition mm_srli_epi64 (v : V2x64U) (n : N) : V2x64U := map64 (fun x => shr64 x n) v.
Definition mm_sll_epi32 (v : V4x32U) (count : V2x64U) : V4x32U :=
  map32 (fun x => if 31 <? fst count then 0 else shl32 x (fst count)) v.
Definition mm_srl_epi32 (v : V4x32U) (count : V2x64U) : V4x32U :=
  map32 (fun x => if 31 <? fst count then 0 else shr32 x (fst count)) v.
Definition mm_sllv_epi32 : V4x32U -> V4x32U -> V4x32U := zip32 (fun x n => if 31 <? n then 0 else shl32 x n).
Definition mm_srlv_epi32 : V4x32U -> V4x32U -> V4x32U := zip32 (fun x n => if 31 <? n then 0 else shr32 x n).
(** shift of the whole by bytes *)
Definition mm_slli_si128 (v : V2x64U) (n : nat) : V2x64U := of_bytes64 (firstn 16 (repeat x00 n ++ bytes64 v)).
Definition mm_mul_epu32 : V2x64U -> V2x64U -> V2x64U := zip64 (fun x y => u32 x * u32 y).
Definition MM_SHUFFLE (z y x w : N) : N := N.lor (N.lor (N.shiftl z 6) (N.shiftl y 4)) (N.lor (N.shiftl x 2) w).
Definition mm_shuffle_epi32 (v : V4x32U) (imm : N) : V4x32U :=
  (lane32 v (imm mod 4), lane32 v (imm / 4 mod 4), lane32 v (imm / 16 mod 4), lane32 v (imm / 64 mod 4)).
Definition shuffle_bytes (v control : list byte) : list byte :=
  map (fun c => if 128 <=? b2n c then x00 else nth (N.to_nat (b2n c mod 16)) v x00) control.
Definition mm_shuffle_epi8 (v control : V2x64U) : V2x64U := of_bytes64 (shuffle_bytes (bytes64 v) (bytes64 control)).
(** the byte of [w] where the highest bit of that of [mask] is set, of [v] otherwise *)
Fixpoint blend_bytes (v w mask : list byte) : list byte :=
  match v, w, mask with
  | x :: v, y :: w, c :: mask => (if 128 <=? b2n c then y else x) :: blend_bytes v w mask
  | _, _, _ => []
  end.
Definition mm_insert_epi32_3 (v : V4x32U) (x : N) : V4x32U := let '(e0, e1, e2, _) := v in (e0, e1, e2, u32 x).
(** comparison of signed numbers *)
Definition signed_gt (x y : N) : bool :=
  if x <? 2 ^ 31 then if y <? 2 ^ 31 then y <? x else true else if y <? 2 ^ 31 then false else y <? x.
Definition mm_cmpgt_epi32 : V4x32U -> V4x32U -> V4x32U := zip32 (fun x y => if signed_gt x y then 0xFFFFFFFF else 0).

(** reading and writing: *_si128 need an address that is a multiple of 16, *_si256 one of 32 *)
Definition mm_loadu_si128 (p : N) : M (list byte) := load_bytes 16 p.
Definition mm_load_si128 (p : N) : M (list byte) :=
  if p mod 16 =? 0 then load_bytes 16 p else undef MisalignedAccess.
Definition mm_store_si128 (p : N) (l : list byte) : M unit :=
  if p mod 16 =? 0 then store_bytes p l else undef MisalignedAccess.
Definition mm256_store_si256 (p : N) (l : list byte) : M unit :=
  if p mod 32 =? 0 then store_bytes p l else undef MisalignedAccess.
Definition maskload_lane (cfg : config) (p i mask : N) : M N :=
  if 2 ^ 31 <=? mask then l <- load_bytes 4 (padd cfg p (4 * i)) ;; ret (le_num l) else ret 0.
Definition mm_maskload_epi32 (cfg : config) (p : N) (mask : V4x32U) : M V4x32U :=
  let '(m0, m1, m2, m3) := mask in
  e0 <- maskload_lane cfg p 0 m0 ;;
  e1 <- maskload_lane cfg p 1 m1 ;;
  e2 <- maskload_lane cfg p 2 m2 ;;
  e3 <- maskload_lane cfg p 3 m3 ;;
  ret (e0, e1, e2, e3).

(** intrinsics of 256 bits that act on both halves alike *)
Definition both {A B : Type} (f : A -> B) (v : A * A) : B * B := (f (fst v), f (snd v)).
Definition both2 {A B C : Type} (f : A -> B -> C) (v : A * A) (w : B * B) : C * C := (f (fst v) (fst w), f (snd v) (snd w)).
Definition mm256_add_epi64 : V4x64U -> V4x64U -> V4x64U := both2 mm_add_epi64.
Definition mm256_xor_si256 : V4x64U -> V4x64U -> V4x64U := both2 mm_xor_si128.
Definition mm256_or_si256 : V4x64U -> V4x64U -> V4x64U := both2 mm_or_si128.
Definition mm256_andnot_si256 : V4x64U -> V4x64U -> V4x64U := both2 mm_andnot_si128.
Definition mm256_srli_epi64 (v : V4x64U) (n : N) : V4x64U := both (fun x => mm_srli_epi64 x n) v.
Definition mm256_slli_epi64 (v : V4x64U) (n : N) : V4x64U := both (fun x => mm_slli_epi64 x n) v.
Definition mm256_mul_epu32 : V4x64U -> V4x64U -> V4x64U := both2 mm_mul_epu32.
Definition mm256_shuffle_epi8 : V4x64U -> V4x64U -> V4x64U := both2 mm_shuffle_epi8.
Definition mm256_shuffle_epi32 (v : V8x32U) (imm : N) : V8x32U := both (fun x => mm_shuffle_epi32 x imm) v.
Definition mm256_slli_si256 (v : V4x64U) (n : nat) : V4x64U := both (fun x => mm_slli_si128 x n) v.
Definition mm256_unpacklo_epi64 : V4x64U -> V4x64U -> V4x64U := both2 (fun x y => (fst x, fst y)).
Definition mm256_cmpeq_epi64 : V4x64U -> V4x64U -> V4x64U := both2 (zip64 (fun x y => if x =? y then 0xFFFFFFFFFFFFFFFF else 0)).
Definition mm256_sllv_epi32 : V8x32U -> V8x32U -> V8x32U := both2 mm_sllv_epi32.
Definition mm256_srlv_epi32 : V8x32U -> V8x32U -> V8x32U := both2 mm_srlv_epi32.
Definition mm256_sub_epi32 : V8x32U -> V8x32U -> V8x32U := both2 mm_sub_epi32.
(** and those that do not *)
Definition lane8x32 (v : V8x32U) (i : N) : N := if i <? 4 then lane32 (fst v) i else lane32 (snd v) (i - 4).
Definition mm256_permutevar8x32_epi32 (v indices : V8x32U) : V8x32U := both (map32 (fun i => lane8x32 v (i mod 8))) indices.
Definition mm256_broadcastd_epi32 (v : V4x32U) : V8x32U := (mm_set1_epi32 (lane32 v 0), mm_set1_epi32 (lane32 v 0)).
(** [_mm256_inserti128_si256] of the upper half, over [_mm256_castsi128_si256] *)
Definition mm256_inserti128_1 (lower upper : V2x64U) : V4x64U := (lower, upper).
(** [_mm256_castsi256_si128] and [_mm256_extracti128_si256] of the upper half *)
Definition mm256_castsi256_si128 {A : Type} (v : A * A) : A := fst v.
Definition mm256_extracti128_1 {A : Type} (v : A * A) : A := snd v.

(** ** HHStateSSE41 *)
(** tests/highwayhash/hh_sse41.h:313-320 *)
Record HHStateSSE41 : Type := SSE41 {
  s_v0L : V2x64U; s_v0H : V2x64U; s_v1L : V2x64U; s_v1H : V2x64U;
  s_mul0L : V2x64U; s_mul0H : V2x64U; s_mul1L : V2x64U; s_mul1H : V2x64U }.
(** tests/highwayhash/hh_sse41.h:188-190 *)
Definition sse_Rotate64By32 (v : V2x64U) : V2x64U := to64 (mm_shuffle_epi32 (to32 v) (MM_SHUFFLE 2 3 0 1)).
(** tests/highwayhash/hh_sse41.h:45-61; V2x64U(p_1, p_0) has p_0 in its lower lane *)
Definition sse_Reset (key : quad) : HHStateSSE41 :=
  let '(k0, k1, k2, k3) := key in
  let init0L := (0xdbe6d5d5fe4cce2f, 0xa4093822299f31d0) in
  let init0H := (0x13198a2e03707344, 0x243f6a8885a308d3) in
  let init1L := (0x3bd39e10cb0ef593, 0xc0acf169b5f18a8c) in
  let init1H := (0xbe5466cf34e90c6c, 0x452821e638d01377) in
  let keyL := (k0, k1) in
  let keyH := (k2, k3) in
  SSE41 (mm_xor_si128 keyL init0L) (mm_xor_si128 keyH init0H)
    (mm_xor_si128 (sse_Rotate64By32 keyL) init1L) (mm_xor_si128 (sse_Rotate64By32 keyH) init1H)
    init0L init0H init1L init1H.
(** tests/highwayhash/hh_sse41.h:208-221 *)
Definition sse_ZipperMerge (v : V2x64U) : V2x64U := mm_shuffle_epi8 v (0x000F010E05020C03, 0x070806090D0A040B).
(** tests/highwayhash/hh_sse41.h:223-238 *)
Definition sse_UpdateV (packetH packetL : V2x64U) (st : HHStateSSE41) : HHStateSSE41 :=
  let v1L := mm_add_epi64 (mm_add_epi64 (s_v1L st) packetL) (s_mul0L st) in
  let v1H := mm_add_epi64 (mm_add_epi64 (s_v1H st) packetH) (s_mul0H st) in
  let mul0L := mm_xor_si128 (s_mul0L st) (mm_mul_epu32 v1L (sse_Rotate64By32 (s_v0L st))) in
  let mul0H := mm_xor_si128 (s_mul0H st) (mm_mul_epu32 v1H (mm_srli_epi64 (s_v0H st) 32)) in
  let v0L := mm_add_epi64 (s_v0L st) (s_mul1L st) in
  let v0H := mm_add_epi64 (s_v0H st) (s_mul1H st) in
  let mul1L := mm_xor_si128 (s_mul1L st) (mm_mul_epu32 v0L (sse_Rotate64By32 v1L)) in
  let mul1H := mm_xor_si128 (s_mul1H st) (mm_mul_epu32 v0H (mm_srli_epi64 v1H 32)) in
  let v0L := mm_add_epi64 v0L (sse_ZipperMerge v1L) in
  let v0H := mm_add_epi64 v0H (sse_ZipperMerge v1H) in
  let v1L := mm_add_epi64 v1L (sse_ZipperMerge v0L) in
  let v1H := mm_add_epi64 v1H (sse_ZipperMerge v0H) in
  SSE41 v0L v0H v1L v1H mul0L mul0H mul1L mul1H.
(** tests/highwayhash/hh_sse41.h:63-69, for a packet in memory, and for a local array *)
Definition sse_Update (cfg : config) (packet : N) (st : HHStateSSE41) : M HHStateSSE41 :=
  packetL <- mm_loadu_si128 packet ;;
  packetH <- mm_loadu_si128 (padd cfg packet 16) ;;
  ret (sse_UpdateV (of_bytes64 packetH) (of_bytes64 packetL) st).
Definition sse_Update_local (packet : list byte) (st : HHStateSSE41) : HHStateSSE41 :=
  sse_UpdateV (of_bytes64 (skipn 16 packet)) (of_bytes64 (firstn 16 packet)) st.
(** tests/highwayhash/hh_sse41.h:193-206 *)
Definition sse_Rotate32By1 (v : V2x64U) (count : N) : V2x64U :=
  let count_left := mm_cvtsi64_si128 count in
  let count_right := mm_cvtsi64_si128 (sub64 32 count) in
  mm_or_si128 (to64 (mm_sll_epi32 (to32 v) count_left)) (to64 (mm_srl_epi32 (to32 v) count_right)).
(** tests/highwayhash/hh_sse41.h:248-270 *)
Definition LoadMultipleOfFour (cfg : config) (bytes size : N) : M V2x64U :=
  let mask4 := mm_cvtsi64_si128 0xFFFFFFFF in
  x <- (if negb (N.land size 8 =? 0) then
          l <- load_bytes 8 bytes ;; ret ((le_num l, 0), mm_slli_si128 mask4 8, padd cfg bytes 8)
        else ret ((0, 0), mask4, bytes)) ;;
  let '(r, mask4, words) := x in
  if negb (N.land size 4 =? 0) then
    word2 <- load_bytes 4 words ;;
    let broadcast := to64 (mm_shuffle_epi32 (to32 (le_num word2, 0)) 0) in
    ret (mm_or_si128 r (mm_and_si128 broadcast mask4))
  else ret r.
(** tests/highwayhash/hh_sse41.h:71-108 *)
Definition sse_UpdateRemainder (cfg : config) (bytes size_mod32 : N) (st : HHStateSSE41) : M HHStateSSE41 :=
  let vsize_mod32 := to64 (mm_set1_epi32 size_mod32) in
  let st := SSE41 (mm_add_epi64 (s_v0L st) vsize_mod32) (mm_add_epi64 (s_v0H st) vsize_mod32)
    (sse_Rotate32By1 (s_v1L st) size_mod32) (sse_Rotate32By1 (s_v1H st) size_mod32)
    (s_mul0L st) (s_mul0H st) (s_mul1L st) (s_mul1H st) in
  let size_mod4 := N.land size_mod32 3 in
  let remainder := padd cfg bytes (size_mod32 - N.land size_mod32 3) in      (* size_mod32 & ~3 *)
  if negb (N.land size_mod32 16 =? 0) then
    packetL <- mm_loadu_si128 bytes ;;
    packetH <- LoadMultipleOfFour cfg (padd cfg bytes 16) size_mod32 ;;
    last4 <- Load3_AllowReadBeforeAndReturn cfg remainder size_mod4 ;;
    ret (sse_UpdateV (to64 (mm_insert_epi32_3 (to32 packetH) last4)) (of_bytes64 packetL) st)
  else
    packetL <- LoadMultipleOfFour cfg bytes size_mod32 ;;
    last4 <- Load3_AllowUnordered cfg remainder size_mod4 ;;
    ret (sse_UpdateV (mm_cvtsi64_si128 last4) packetL st).
(** tests/highwayhash/hh_sse41.h:240-244 *)
Definition sse_PermuteAndUpdate (st : HHStateSSE41) : HHStateSSE41 :=
  sse_UpdateV (sse_Rotate64By32 (s_v0L st)) (sse_Rotate64By32 (s_v0H st)) st.
(** tests/highwayhash/hh_sse41.h:276-301: [*out] afterwards *)
Definition sse_XorByShift128Left12 (x out : V2x64U) : V2x64U :=
  let sign_bit128 := to64 (mm_insert_epi32_3 (0, 0, 0, 0) 0x80000000) in
  let top_bits2 := mm_srli_epi64 x (64 - 2) in
  let shifted1_unmasked := mm_add_epi64 x x in
  let top_bits1 := mm_srli_epi64 x (64 - 1) in
  let shifted2 := mm_add_epi64 shifted1_unmasked shifted1_unmasked in
  let new_low_bits2 := mm_slli_si128 top_bits2 8 in
  let out := mm_xor_si128 out shifted2 in
  let shifted1 := mm_andnot_si128 sign_bit128 shifted1_unmasked in
  let new_low_bits1 := mm_slli_si128 top_bits1 8 in
  let out := mm_xor_si128 out new_low_bits2 in
  let out := mm_xor_si128 out shifted1 in
  mm_xor_si128 out new_low_bits1.
(** tests/highwayhash/hh_sse41.h:305-311 *)
Definition sse_ModularReduction (a32_unmasked a10 : V2x64U) : V2x64U := sse_XorByShift128Left12 a32_unmasked a10.
(** tests/highwayhash/hh_sse41.h:110-120 *)
Definition sse_Finalize64 (st : HHStateSSE41) : N :=
  let st := Nat.iter 4 sse_PermuteAndUpdate st in
  fst (mm_add_epi64 (mm_add_epi64 (s_v0L st) (s_mul0L st)) (mm_add_epi64 (s_v1L st) (s_mul1L st))).
(** tests/highwayhash/hh_sse41.h:122-131 *)
Definition sse_Finalize128 (st : HHStateSSE41) : N * N :=
  let st := Nat.iter 6 sse_PermuteAndUpdate st in
  mm_add_epi64 (mm_add_epi64 (s_v0L st) (s_mul0L st)) (mm_add_epi64 (s_v1H st) (s_mul1H st)).
(** tests/highwayhash/hh_sse41.h:133-146 *)
Definition sse_Finalize256 (st : HHStateSSE41) : quad :=
  let st := Nat.iter 10 sse_PermuteAndUpdate st in
  let sum0L := mm_add_epi64 (s_v0L st) (s_mul0L st) in
  let sum1L := mm_add_epi64 (s_v1L st) (s_mul1L st) in
  let sum0H := mm_add_epi64 (s_v0H st) (s_mul0H st) in
  let sum1H := mm_add_epi64 (s_v1H st) (s_mul1H st) in
  let '(h0, h1) := sse_ModularReduction sum1L sum0L in
  let '(h2, h3) := sse_ModularReduction sum1H sum0H in
  (h0, h1, h2, h3).
(** tests/highwayhash/hh_sse41.h:148-153 *)
Definition sse_ZeroInitialize (cfg : config) (buffer : N) : M unit :=
  mm_store_si128 buffer (repeat x00 16) ;;; mm_store_si128 (padd cfg buffer 16) (repeat x00 16).
(** tests/highwayhash/hh_sse41.h:172-184 *)
Definition sse_AppendAndUpdate (cfg : config) (from size_mod32 buffer buffer_valid : N) (st : HHStateSSE41) : M HHStateSSE41 :=
  tmp <- tmp_of from size_mod32 buffer buffer_valid ;; ret (sse_Update_local tmp st).

(** the loops of tests/highwayhash/hh_sse41.h:155-170 are those of hh_portable.h *)
Definition sse41 : hh_ops HHStateSSE41 :=
  HHOps _ sse_Reset sse_Update sse_UpdateRemainder sse_Finalize64 sse_Finalize128 sse_Finalize256
    sse_ZeroInitialize pt_CopyPartial pt_AppendPartial sse_AppendAndUpdate.
(** tests/highwayhash/highwayhash_target.cc:26-33 for the target SSE41 *)
Definition HighwayHash64_SSE41 : config -> N -> N -> N -> M N := HighwayHash64_Target sse41.

(** ** tests/highwayhash/hh_buffer.h *)
(** tests/highwayhash/hh_buffer.h:40-48, 50-56 *)
Definition IntMask_0 (size : V4x32U) : V4x32U := mm_cmpgt_epi32 size (3, 7, 11, 15).
Definition IntMask_16 (size : V4x32U) : V4x32U := mm_cmpgt_epi32 size (19, 23, 27, 31).
(** tests/highwayhash/hh_buffer.h:60-68 *)
Definition Insert4AboveMask (bytes4 : N) (mask prev : V4x32U) : V4x32U :=
  mm_or_si128_32 prev (mm_andnot_si128_32 mask (mm_set1_epi32 bytes4)).
(** tests/highwayhash/hh_buffer.h:74-90 *)
Definition concat_table : list V2x64U :=
  [(0x0706050403020100, 0x0F0E0D0C0B0A0908);
   (0x06050403020100FF, 0x0E0D0C0B0A090807);
   (0x050403020100FFFF, 0x0D0C0B0A09080706);
   (0x0403020100FFFFFF, 0x0C0B0A0908070605);
   (0x03020100FFFFFFFF, 0x0B0A090807060504);
   (0x020100FFFFFFFFFF, 0x0A09080706050403);
   (0x0100FFFFFFFFFFFF, 0x0908070605040302);
   (0x00FFFFFFFFFFFFFF, 0x0807060504030201);
   (0xFFFFFFFFFFFFFFFF, 0x0706050403020100);
   (0xFFFFFFFFFFFFFFFF, 0x06050403020100FF);
   (0xFFFFFFFFFFFFFFFF, 0x050403020100FFFF);
   (0xFFFFFFFFFFFFFFFF, 0x0403020100FFFFFF);
   (0xFFFFFFFFFFFFFFFF, 0x03020100FFFFFFFF);
   (0xFFFFFFFFFFFFFFFF, 0x020100FFFFFFFFFF);
   (0xFFFFFFFFFFFFFFFF, 0x0100FFFFFFFFFFFF);
   (0xFFFFFFFFFFFFFFFF, 0x00FFFFFFFFFFFFFF)].
(** tests/highwayhash/hh_buffer.h:72-94; [table] is the address of the static array,
    which is read with an instruction that needs a multiple of 16; what it holds is not
    put into the memory *)
Definition Concatenate (table : N) (prefix : V4x32U) (prefix_len : N) (suffix : V4x32U) : M V4x32U :=
  if 16 <=? prefix_len then undef BadArray
  else if negb ((table + 16 * prefix_len) mod 16 =? 0) then undef MisalignedAccess
  else
    let control := bytes64 (nth (N.to_nat prefix_len) concat_table (0, 0)) in
    let shifted_suffix := shuffle_bytes (bytes32 suffix) control in
    ret (of_bytes32 (blend_bytes shifted_suffix (bytes32 prefix) control)).

(** ** HHStateAVX2 *)
(** tests/highwayhash/hh_avx2.h:372-375 *)
Record HHStateAVX2 : Type := AVX2 { x_v0 : V4x64U; x_v1 : V4x64U; x_mul0 : V4x64U; x_mul1 : V4x64U }.
(** V4x64U(p_3, p_2, p_1, p_0), tests/highwayhash/vector256.h:302-317 *)
Definition V256 (p3 p2 p1 p0 : N) : V4x64U := ((p0, p1), (p2, p3)).
(** tests/highwayhash/hh_avx2.h:265-267 *)
Definition avx_Rotate64By32 (v : V4x64U) : V4x64U := both to64 (mm256_shuffle_epi32 (both to32 v) (MM_SHUFFLE 2 3 0 1)).
(** tests/highwayhash/hh_avx2.h:44-68 *)
Definition avx_Reset (key : quad) : HHStateAVX2 :=
  let '(k0, k1, k2, k3) := key in
  let init0 := V256 0x243f6a8885a308d3 0x13198a2e03707344 0xa4093822299f31d0 0xdbe6d5d5fe4cce2f in
  let init1 := V256 0x452821e638d01377 0xbe5466cf34e90c6c 0xc0acf169b5f18a8c 0x3bd39e10cb0ef593 in
  let key := ((k0, k1), (k2, k3)) in
  AVX2 (mm256_xor_si256 key init0) (mm256_xor_si256 (avx_Rotate64By32 key) init1) init0 init1.
(** tests/highwayhash/hh_avx2.h:291-305 *)
Definition avx_ZipperMerge (v : V4x64U) : V4x64U :=
  let hi := 0x070806090D0A040B in
  let lo := 0x000F010E05020C03 in
  mm256_shuffle_epi8 v (V256 hi lo hi lo).
(** tests/highwayhash/hh_avx2.h:308-318, with MulLow32 of 287-289 *)
Definition avx_UpdateV (packet : V4x64U) (st : HHStateAVX2) : HHStateAVX2 :=
  let v1 := mm256_add_epi64 (mm256_add_epi64 (x_v1 st) packet) (x_mul0 st) in
  let mul0 := mm256_xor_si256 (x_mul0 st) (mm256_mul_epu32 v1 (mm256_srli_epi64 (x_v0 st) 32)) in
  let v0 := mm256_add_epi64 (x_v0 st) (x_mul1 st) in
  let mul1 := mm256_xor_si256 (x_mul1 st) (mm256_mul_epu32 v0 (mm256_srli_epi64 v1 32)) in
  let v0 := mm256_add_epi64 v0 (avx_ZipperMerge v1) in
  let v1 := mm256_add_epi64 v1 (avx_ZipperMerge v0) in
  AVX2 v0 v1 mul0 mul1.
(** tests/highwayhash/hh_avx2.h:320-323 *)
Definition avx_UpdateHL (packetH packetL : V4x32U) (st : HHStateAVX2) : HHStateAVX2 :=
  avx_UpdateV (mm256_inserti128_1 (to64 packetL) (to64 packetH)) st.
(** tests/highwayhash/hh_avx2.h:70-74 *)
Definition avx_Update (cfg : config) (packet : N) (st : HHStateAVX2) : M HHStateAVX2 :=
  l <- load_bytes 32 packet ;; ret (avx_UpdateV (of_bytes64 (firstn 16 l), of_bytes64 (skipn 16 l)) st).
(** tests/highwayhash/hh_avx2.h:270-276 *)
Definition avx_Rotate32By (v : V4x64U) (count : V8x32U) : V4x64U :=
  let shifted_left := mm256_sllv_epi32 (both to32 v) count in
  let shifted_right := mm256_srlv_epi32 (both to32 v) (mm256_sub_epi32 (mm_set1_epi32 32, mm_set1_epi32 32) count) in
  mm256_or_si256 (both to64 shifted_left) (both to64 shifted_right).
(** tests/highwayhash/hh_avx2.h:76-116, with MaskedLoadInt of 245-251 *)
Definition avx_UpdateRemainder (cfg : config) (bytes size_mod32 : N) (st : HHStateAVX2) : M HHStateAVX2 :=
  let size256 := mm256_broadcastd_epi32 (to32 (mm_cvtsi64_si128 size_mod32)) in
  let st := AVX2 (mm256_add_epi64 (x_v0 st) (both to64 size256)) (avx_Rotate32By (x_v1 st) size256) (x_mul0 st) (x_mul1 st) in
  let remainder := padd cfg bytes (size_mod32 - N.land size_mod32 3) in      (* size_mod32 & ~3 *)
  let size_mod4 := N.land size_mod32 3 in
  let size := mm256_castsi256_si128 size256 in
  if negb (N.land size_mod32 16 =? 0) then
    packetL <- mm_loadu_si128 bytes ;;
    int_lanes <- mm_maskload_epi32 cfg (padd cfg bytes 16) (IntMask_16 size) ;;
    last4 <- Load3_AllowReadBeforeAndReturn cfg remainder size_mod4 ;;
    ret (avx_UpdateHL (mm_insert_epi32_3 int_lanes last4) (of_bytes32 packetL) st)
  else
    packetL <- mm_maskload_epi32 cfg bytes (IntMask_0 size) ;;
    last3 <- Load3_AllowUnordered cfg remainder size_mod4 ;;
    ret (avx_UpdateHL (to32 (mm_cvtsi64_si128 last3)) packetL st).
(** tests/highwayhash/hh_avx2.h:278-285 *)
Definition avx_Permute (v : V4x64U) : V4x64U :=
  let indices := V256 0x0000000200000003 0x0000000000000001 0x0000000600000007 0x0000000400000005 in
  both to64 (mm256_permutevar8x32_epi32 (both to32 v) (both to32 indices)).
(** [Update(Permute(v0))] of tests/highwayhash/hh_avx2.h:121-124, 135, 146 *)
Definition avx_PermuteAndUpdate (st : HHStateAVX2) : HHStateAVX2 := avx_UpdateV (avx_Permute (x_v0 st)) st.
(** tests/highwayhash/hh_avx2.h:329-359: [*out] afterwards *)
Definition avx_XorByShift128Left12 (ba out : V4x64U) : V4x64U :=
  let zero := mm256_xor_si256 ba ba in
  let top_bits2 := mm256_srli_epi64 ba (64 - 2) in
  let ones := mm256_cmpeq_epi64 ba ba in
  let shifted1_unmasked := mm256_add_epi64 ba ba in
  let top_bits1 := mm256_srli_epi64 ba (64 - 1) in
  let upper_8bytes := mm256_slli_si256 ones 8 in
  let shifted2 := mm256_add_epi64 shifted1_unmasked shifted1_unmasked in
  let upper_bit_of_128 := mm256_slli_epi64 upper_8bytes 63 in
  let new_low_bits2 := mm256_unpacklo_epi64 zero top_bits2 in
  let out := mm256_xor_si256 out shifted2 in
  let shifted1 := mm256_andnot_si256 upper_bit_of_128 shifted1_unmasked in
  let out := mm256_xor_si256 out new_low_bits2 in
  let new_low_bits1 := mm256_unpacklo_epi64 zero top_bits1 in
  let out := mm256_xor_si256 out shifted1 in
  mm256_xor_si256 out new_low_bits1.
(** tests/highwayhash/hh_avx2.h:364-370 *)
Definition avx_ModularReduction (b32a32 b10a10 : V4x64U) : V4x64U := avx_XorByShift128Left12 b32a32 b10a10.
(** tests/highwayhash/hh_avx2.h:118-131 *)
Definition avx_Finalize64 (st : HHStateAVX2) : N :=
  let st := Nat.iter 4 avx_PermuteAndUpdate st in
  let sum0 := mm256_castsi256_si128 (mm256_add_epi64 (x_v0 st) (x_mul0 st)) in
  let sum1 := mm256_castsi256_si128 (mm256_add_epi64 (x_v1 st) (x_mul1 st)) in
  fst (mm_add_epi64 sum0 sum1).
(** tests/highwayhash/hh_avx2.h:133-142 *)
Definition avx_Finalize128 (st : HHStateAVX2) : N * N :=
  let st := Nat.iter 6 avx_PermuteAndUpdate st in
  let sum0 := mm256_castsi256_si128 (mm256_add_epi64 (x_v0 st) (x_mul0 st)) in
  let sum1 := mm256_extracti128_1 (mm256_add_epi64 (x_v1 st) (x_mul1 st)) in
  mm_add_epi64 sum0 sum1.
(** tests/highwayhash/hh_avx2.h:144-153 *)
Definition avx_Finalize256 (st : HHStateAVX2) : quad :=
  let st := Nat.iter 10 avx_PermuteAndUpdate st in
  let sum0 := mm256_add_epi64 (x_v0 st) (x_mul0 st) in
  let sum1 := mm256_add_epi64 (x_v1 st) (x_mul1 st) in
  let '((h0, h1), (h2, h3)) := avx_ModularReduction sum1 sum0 in
  (h0, h1, h2, h3).
(** tests/highwayhash/hh_avx2.h:155-159 *)
Definition avx_ZeroInitialize (cfg : config) (buffer : N) : M unit := mm256_store_si256 buffer (repeat x00 32).
(** tests/highwayhash/hh_avx2.h:253-263 for the arguments <0, Load3::AllowNone> and
    <16, Load3::AllowReadBefore>, which are all that are used *)
Definition Load0To16 (cfg : config) (from size_mod32 : N) (size : V4x32U) : M V4x32U :=
  let remainder := padd cfg from (size_mod32 - N.land size_mod32 3) in
  last3 <- Load3_AllowNone cfg remainder (N.land size_mod32 3) ;;
  int_lanes <- mm_maskload_epi32 cfg from (IntMask_0 size) ;;
  ret (Insert4AboveMask (u32 last3) (IntMask_0 size) int_lanes).
Definition Load0To16_16 (cfg : config) (from size_mod32 : N) (size : V4x32U) : M V4x32U :=
  let remainder := padd cfg from (size_mod32 - N.land size_mod32 3) in
  last3 <- Load3_AllowReadBefore cfg remainder (N.land size_mod32 3) ;;
  int_lanes <- mm_maskload_epi32 cfg from (IntMask_16 size) ;;
  ret (Insert4AboveMask (u32 last3) (IntMask_16 size) int_lanes).
(** tests/highwayhash/hh_avx2.h:161-181 *)
Definition avx_CopyPartial (cfg : config) (from size_mod32 buffer : N) : M unit :=
  let size := mm_set1_epi32 size_mod32 in
  if negb (N.land size_mod32 16 =? 0) then
    inL <- mm_loadu_si128 from ;;
    mm_store_si128 buffer (bytes32 (of_bytes32 inL)) ;;;
    inH <- Load0To16_16 cfg (padd cfg from 16) (psub cfg size_mod32 16) size ;;
    mm_store_si128 (padd cfg buffer 16) (bytes32 inH)
  else
    inL <- Load0To16 cfg from size_mod32 size ;;
    mm_store_si128 buffer (bytes32 inL).
(** tests/highwayhash/hh_avx2.h:183-211 *)
Definition avx_AppendPartial (table : N) (cfg : config) (from size_mod32 buffer buffer_valid : N) : M unit :=
  let size := mm_set1_epi32 size_mod32 in
  if negb (N.land buffer_valid 16 =? 0) then
    suffix <- Load0To16 cfg from size_mod32 size ;;
    bufferH <- mm_load_si128 (padd cfg buffer 16) ;;
    outH <- Concatenate table (of_bytes32 bufferH) (psub cfg buffer_valid 16) suffix ;;
    mm_store_si128 (padd cfg buffer 16) (bytes32 outH)
  else
    bufferL <- mm_load_si128 buffer ;;
    suffixL <- Load0To16 cfg from size_mod32 size ;;
    outL <- Concatenate table (of_bytes32 bufferL) buffer_valid suffixL ;;
    mm_store_si128 buffer (bytes32 outL) ;;;
    let offsetH := psub cfg 16 buffer_valid in
    if offsetH <? size_mod32 then
      let sizeH := psub cfg size_mod32 offsetH in
      outH <- Load0To16 cfg (padd cfg from offsetH) sizeH (mm_set1_epi32 sizeH) ;;
      mm_store_si128 (padd cfg buffer 16) (bytes32 outH)
    else ret tt.
(** tests/highwayhash/hh_avx2.h:213-242 *)
Definition avx_AppendAndUpdate (table : N) (cfg : config) (from size_mod32 buffer buffer_valid : N) (st : HHStateAVX2) : M HHStateAVX2 :=
  let size := mm_set1_epi32 size_mod32 in
  if negb (N.land buffer_valid 16 =? 0) then
    suffix <- Load0To16 cfg from size_mod32 size ;;
    packetL <- mm_load_si128 buffer ;;
    bufferH <- mm_load_si128 (padd cfg buffer 16) ;;
    packetH <- Concatenate table (of_bytes32 bufferH) (psub cfg buffer_valid 16) suffix ;;
    ret (avx_UpdateHL packetH (of_bytes32 packetL) st)
  else
    bufferL <- mm_load_si128 buffer ;;
    suffixL <- Load0To16 cfg from size_mod32 size ;;
    packetL <- Concatenate table (of_bytes32 bufferL) buffer_valid suffixL ;;
    let offsetH := psub cfg 16 buffer_valid in
    packetH <- (if offsetH <? size_mod32 then
                  let sizeH := psub cfg size_mod32 offsetH in
                  Load0To16 cfg (padd cfg from offsetH) sizeH (mm_set1_epi32 sizeH)
                else ret (mm_sub_epi32 packetL packetL)) ;;
    ret (avx_UpdateHL packetH packetL st).

Definition avx2 (table : N) : hh_ops HHStateAVX2 :=
  HHOps _ avx_Reset avx_Update avx_UpdateRemainder avx_Finalize64 avx_Finalize128 avx_Finalize256
    avx_ZeroInitialize avx_CopyPartial (avx_AppendPartial table) (avx_AppendAndUpdate table).
(** tests/highwayhash/highwayhash_target.cc:26-33 for the target AVX2; it does not use
    the table *)
Definition HighwayHash64_AVX2 : config -> N -> N -> N -> M N := HighwayHash64_Target (avx2 0).
