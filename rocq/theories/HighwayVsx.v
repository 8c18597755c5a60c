(** Model of HighwayHash in C++ for POWER8, tests/highwayhash/hh_vsx.h.  Definitions only.

    A vector is the tuple of its elements, element 0 first.  The machine may be big- or
    little-endian ([be]): the Makefile compiles this class for every PowerPC (line 181).
    A vector in memory has element 0 at the lowest address, and each element in the byte
    order of the machine; a cast to another type of vector keeps the bytes in memory. *)
From Coq Require Import NArith List Bool Strings.Byte.
From Verif Require Import Bytes CSem Bits T1ha2 CtxMem Highway HighwayCxx HighwaySimd Xxhash.
Import ListNotations.
Local Open Scope N_scope.

(** ** Vectors *)
(** PPC_VEC_U64 is [V2x64U] and PPC_VEC_U32 is [V4x32U], tests/highwayhash/hh_vsx.h:38-40 *)
Definition vec_bytes (be : bool) (v : V2x64U) : list byte :=
  if be then be_bytes 8 (fst v) ++ be_bytes 8 (snd v) else le_bytes 8 (fst v) ++ le_bytes 8 (snd v).
Definition vec_of_bytes (be : bool) (l : list byte) : V2x64U :=
  let num := if be then be_num else le_num in (num (firstn 8 l), num (firstn 8 (skipn 8 l))).
(** reinterpret_cast to PPC_VEC_U32 and back *)
Definition as32 (be : bool) (v : V2x64U) : V4x32U :=
  let '(x, y) := v in
  if be then (x / 2 ^ 32, x mod 2 ^ 32, y / 2 ^ 32, y mod 2 ^ 32) else (x mod 2 ^ 32, x / 2 ^ 32, y mod 2 ^ 32, y / 2 ^ 32).
Definition as64 (be : bool) (v : V4x32U) : V2x64U :=
  let '(e0, e1, e2, e3) := v in
  if be then (e0 * 2 ^ 32 + e1, e2 * 2 ^ 32 + e3) else (e1 * 2 ^ 32 + e0, e3 * 2 ^ 32 + e2).

(** the operators +, ^, & and >> of vectors *)
Definition vadd : V2x64U -> V2x64U -> V2x64U := zip64 add64.
Definition vxor : V2x64U -> V2x64U -> V2x64U := zip64 N.lxor.
Definition vand : V2x64U -> V2x64U -> V2x64U := zip64 N.land.
Definition vshr (v : V2x64U) (n : N) : V2x64U := map64 (fun x => shr64 x n) v.
(** vec_rl: each element is rotated by the number in the same place *)
Definition vec_rl_u64 : V2x64U -> V2x64U -> V2x64U :=
  zip64 (fun x n => N.lor (shl64 x (n mod 64)) (shr64 x ((64 - n) mod 64))).
Definition vec_rl_u32 : V4x32U -> V4x32U -> V4x32U :=
  zip32 (fun x n => N.lor (shl32 x (n mod 32)) (shr32 x ((32 - n) mod 32))).
(** vec_vperm: byte [i] is that of [a] and [b] together which byte [i] of the mask numbers *)
Definition vec_vperm (be : bool) (a b mask : V2x64U) : V2x64U :=
  vec_of_bytes be (map (fun c => nth (N.to_nat (b2n c mod 32)) (vec_bytes be a ++ vec_bytes be b) x00) (vec_bytes be mask)).
(** vec_sll by [n] bits, the same in all bytes of the second operand: the register as a
    whole, in which element 0 is the lower half on little-endian machines *)
Definition vec_sll (be : bool) (v : V2x64U) (n : N) : V2x64U :=
  if be then let r := ((fst v * 2 ^ 64 + snd v) * 2 ^ n) mod 2 ^ 128 in (r / 2 ^ 64, r mod 2 ^ 64)
  else let r := ((snd v * 2 ^ 64 + fst v) * 2 ^ n) mod 2 ^ 128 in (r mod 2 ^ 64, r / 2 ^ 64).

(** tests/highwayhash/hh_vsx.h:48-62.  The instructions number the words of a register
    from the left; on little-endian machines element 0 is on the right, where the odd
    words are.  So it is elements 0 and 2 in both cases, as in the compiler that has
    the function. *)
Definition vec_mule (a b : V4x32U) : V2x64U :=
  let '(a0, _, a2, _) := a in let '(b0, _, b2, _) := b in (a0 * b0, a2 * b2).
(** tests/highwayhash/hh_vsx.h:78-82 *)
Definition MultiplyVectors (be : bool) (vec1 vec2 : V2x64U) : V2x64U := vec_mule (as32 be vec1) (as32 be vec2).
(** tests/highwayhash/hh_vsx.h:64-70: any address *)
Definition LoadUnaligned (be : bool) (from : N) : M V2x64U :=
  l <- load_bytes 16 from ;; ret (vec_of_bytes be l).

(** ** HHStateVSX *)
(** tests/highwayhash/hh_vsx.h:321-328: the members of HHStateSSE41 *)
Definition HHStateVSX : Type := HHStateSSE41.
(** tests/highwayhash/hh_vsx.h:229-232 *)
Definition vsx_Rotate64By32 (v : V2x64U) : V2x64U := vec_rl_u64 v (32, 32).
(** tests/highwayhash/hh_vsx.h:89-105; loading the words of [key] gives elements *)
Definition vsx_Reset (key : quad) : HHStateVSX :=
  let '(k0, k1, k2, k3) := key in
  let init0L := (0xdbe6d5d5fe4cce2f, 0xa4093822299f31d0) in
  let init0H := (0x13198a2e03707344, 0x243f6a8885a308d3) in
  let init1L := (0x3bd39e10cb0ef593, 0xc0acf169b5f18a8c) in
  let init1H := (0xbe5466cf34e90c6c, 0x452821e638d01377) in
  let keyL := (k0, k1) in
  let keyH := (k2, k3) in
  SSE41 (vxor keyL init0L) (vxor keyH init0H) (vxor (vsx_Rotate64By32 keyL) init1L) (vxor (vsx_Rotate64By32 keyH) init1H)
    init0L init0H init1L init1H.

Section Order.
  Variable be : bool.
  (** tests/highwayhash/hh_vsx.h:246-259 *)
  Definition vsx_ZipperMerge (v : V2x64U) : V2x64U := vec_vperm be v v (0x000F010E05020C03, 0x070806090D0A040B).
  (** tests/highwayhash/hh_vsx.h:261-276 *)
  Definition vsx_UpdateV (packetH packetL : V2x64U) (st : HHStateVSX) : HHStateVSX :=
    let v1L := vadd (s_v1L st) (vadd packetL (s_mul0L st)) in
    let v1H := vadd (s_v1H st) (vadd packetH (s_mul0H st)) in
    let mul0L := vxor (s_mul0L st) (MultiplyVectors be v1L (vsx_Rotate64By32 (s_v0L st))) in
    let mul0H := vxor (s_mul0H st) (MultiplyVectors be v1H (vshr (s_v0H st) 32)) in
    let v0L := vadd (s_v0L st) (s_mul1L st) in
    let v0H := vadd (s_v0H st) (s_mul1H st) in
    let mul1L := vxor (s_mul1L st) (MultiplyVectors be v0L (vsx_Rotate64By32 v1L)) in
    let mul1H := vxor (s_mul1H st) (MultiplyVectors be v0H (vshr v1H 32)) in
    let v0L := vadd v0L (vsx_ZipperMerge v1L) in
    let v1L := vadd v1L (vsx_ZipperMerge v0L) in
    let v0H := vadd v0H (vsx_ZipperMerge v1H) in
    let v1H := vadd v1H (vsx_ZipperMerge v0H) in
    SSE41 v0L v0H v1L v1H mul0L mul0H mul1L mul1H.
  (** tests/highwayhash/hh_vsx.h:107-113, for a packet in memory, and for a local array *)
  Definition vsx_Update (cfg : config) (packet : N) (st : HHStateVSX) : M HHStateVSX :=
    packetL <- LoadUnaligned be packet ;;
    packetH <- LoadUnaligned be (padd cfg packet 16) ;;
    ret (vsx_UpdateV packetH packetL st).
  Definition vsx_Update_local (packet : list byte) (st : HHStateVSX) : HHStateVSX :=
    vsx_UpdateV (vec_of_bytes be (skipn 16 packet)) (vec_of_bytes be (firstn 16 packet)) st.
  (** tests/highwayhash/hh_vsx.h:235-244, for one of the vectors *)
  Definition vsx_Rotate32By1 (v : V2x64U) (count : N) : V2x64U :=
    let count_rl := u32 count in
    as64 be (vec_rl_u32 (as32 be v) (count_rl, count_rl, count_rl, count_rl)).
  (** tests/highwayhash/hh_vsx.h:285-301: the words are read through a pointer to uint32_t *)
  Definition vsx_LoadMultipleOfFour (cfg : config) (bytes size : N) : M V2x64U :=
    if negb (N.land size 8 =? 0) then
      w0 <- deref cfg 4 bytes ;;
      w1 <- deref cfg 4 (padd cfg bytes 4) ;;
      if negb (N.land size 4 =? 0) then
        w2 <- deref cfg 4 (padd cfg bytes 8) ;; ret (as64 be (w0, w1, w2, 0))
      else ret (as64 be (w0, w1, 0, 0))
    else if negb (N.land size 4 =? 0) then
      w0 <- deref cfg 4 bytes ;; ret (as64 be (w0, 0, 0, 0))
    else ret (as64 be (0, 0, 0, 0)).
  (** tests/highwayhash/hh_vsx.h:115-157; with the function to load multiples of four *)
  Definition vsx_UpdateRemainder_with (load : config -> N -> N -> M V2x64U)
      (cfg : config) (bytes size_mod32 : N) (st : HHStateVSX) : M HHStateVSX :=
    let size_rounded := u32 size_mod32 in
    let vsize_mod32 := as64 be (size_rounded, size_rounded, size_rounded, size_rounded) in
    let st := SSE41 (vadd (s_v0L st) vsize_mod32) (vadd (s_v0H st) vsize_mod32)
      (vsx_Rotate32By1 (s_v1L st) size_mod32) (vsx_Rotate32By1 (s_v1H st) size_mod32)
      (s_mul0L st) (s_mul0H st) (s_mul1L st) (s_mul1H st) in
    let size_mod4 := N.land size_mod32 3 in
    let remainder := padd cfg bytes (size_mod32 - N.land size_mod32 3) in      (* size_mod32 & ~3 *)
    if negb (N.land size_mod32 16 =? 0) then
      packetL <- LoadUnaligned be bytes ;;
      packetH <- load cfg (padd cfg bytes 16) size_mod32 ;;
      last4 <- Load3_AllowReadBeforeAndReturn cfg remainder size_mod4 ;;
      let '(e0, e1, e2, _) := as32 be packetH in
      ret (vsx_UpdateV (as64 be (e0, e1, e2, u32 last4)) packetL st)
    else
      packetL <- load cfg bytes size_mod32 ;;
      last4 <- Load3_AllowUnordered cfg remainder size_mod4 ;;
      ret (vsx_UpdateV (last4, 0) packetL st).
  Definition vsx_UpdateRemainder : config -> N -> N -> HHStateVSX -> M HHStateVSX :=
    vsx_UpdateRemainder_with vsx_LoadMultipleOfFour.
  (** tests/highwayhash/hh_vsx.h:278-281 *)
  Definition vsx_PermuteAndUpdate (st : HHStateVSX) : HHStateVSX :=
    vsx_UpdateV (vsx_Rotate64By32 (s_v0L st)) (vsx_Rotate64By32 (s_v0H st)) st.
  (** tests/highwayhash/hh_vsx.h:305-319 *)
  Definition vsx_ModularReduction (a32_unmasked a10 : V2x64U) : V2x64U :=
    let shifted1 := vec_sll be a32_unmasked 1 in
    let shifted2 := vec_sll be a32_unmasked 2 in
    let mask := (0xFFFFFFFFFFFFFFFF, 0x7FFFFFFFFFFFFFFF) in
    let shifted1_masked := vand shifted1 mask in
    vxor a10 (vxor shifted1_masked shifted2).
  (** tests/highwayhash/hh_vsx.h:159-166 *)
  Definition vsx_Finalize64 (st : HHStateVSX) : N :=
    let st := Nat.iter 4 vsx_PermuteAndUpdate st in
    fst (vadd (vadd (vadd (s_v0L st) (s_v1L st)) (s_mul0L st)) (s_mul1L st)).
  (** tests/highwayhash/hh_vsx.h:168-174 *)
  Definition vsx_Finalize128 (st : HHStateVSX) : N * N :=
    let st := Nat.iter 6 vsx_PermuteAndUpdate st in
    vadd (vadd (vadd (s_v0L st) (s_mul0L st)) (s_v1H st)) (s_mul1H st).
  (** tests/highwayhash/hh_vsx.h:176-188 *)
  Definition vsx_Finalize256 (st : HHStateVSX) : quad :=
    let st := Nat.iter 10 vsx_PermuteAndUpdate st in
    let sum0L := vadd (s_v0L st) (s_mul0L st) in
    let sum1L := vadd (s_v1L st) (s_mul1L st) in
    let sum0H := vadd (s_v0H st) (s_mul0H st) in
    let sum1H := vadd (s_v1H st) (s_mul1H st) in
    let '(h0, h1) := vsx_ModularReduction sum1L sum0L in
    let '(h2, h3) := vsx_ModularReduction sum1H sum0H in
    (h0, h1, h2, h3).
  (** tests/highwayhash/hh_vsx.h:213-225 *)
  Definition vsx_AppendAndUpdate (cfg : config) (from size_mod32 buffer buffer_valid : N) (st : HHStateVSX) : M HHStateVSX :=
    tmp <- tmp_of from size_mod32 buffer buffer_valid ;; ret (vsx_Update_local tmp st).

  (** the loops of tests/highwayhash/hh_vsx.h:190-211 are those of hh_portable.h *)
  Definition vsx_with (load : config -> N -> N -> M V2x64U) : hh_ops HHStateVSX :=
    HHOps _ vsx_Reset vsx_Update (vsx_UpdateRemainder_with load) vsx_Finalize64 vsx_Finalize128 vsx_Finalize256
      pt_ZeroInitialize pt_CopyPartial pt_AppendPartial vsx_AppendAndUpdate.
  Definition vsx : hh_ops HHStateVSX := vsx_with vsx_LoadMultipleOfFour.
End Order.
(** tests/highwayhash/highwayhash_target.cc:26-33 for the target VSX *)
Definition HighwayHash64_VSX (cfg : config) : N -> N -> N -> M N := HighwayHash64_Target (vsx (big_endian cfg)) cfg.
