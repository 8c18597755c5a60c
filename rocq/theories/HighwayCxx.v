(** Model of HighwayHash in C++, tests/highwayhash/highwayhash.h,
    highwayhash_target.cc, load3.h, endianess.h and hh_portable.h.  Definitions only.

    Simplifications: objects of the classes HHState*, the arrays [key], [result],
    [fragments] and local arrays are values; of a HighwayHashCatT the member [buffer_]
    is in memory and the other members are values.  A template is a function of the
    record of the operations of its class. *)
From Coq Require Import NArith List Bool Strings.Byte.
From Verif Require Import Bytes CSem Bits T1ha2 CtxMem Highway.
Import ListNotations.
Local Open Scope N_scope.

(** ** Byte order *)
(** the number in an object of type uint32_t or uint64_t with these bytes *)
Definition native_num (cfg : config) (l : list byte) : N := if big_endian cfg then be_num l else le_num l.
(** tests/highwayhash/endianess.h:78-112 *)
Definition host_from_le32 (cfg : config) (x : N) : N := if big_endian cfg then bswap32 cfg x else x.
Definition host_from_le64 (cfg : config) (x : N) : N := if big_endian cfg then bswap64 cfg x else x.

(** ** The last three bytes *)
(** tests/highwayhash/load3.h:52-64 *)
Definition Load3_AllowReadBeforeAndReturn (cfg : config) (from size_mod4 : N) : M N :=
  last4 <- load_bytes 4 (psub cfg (padd cfg from size_mod4) 4) ;;
  ret (host_from_le32 cfg (native_num cfg last4)).
(** tests/highwayhash/load3.h:67-74; size_mod4 is at most 3 *)
Definition Load3_AllowReadBefore (cfg : config) (from size_mod4 : N) : M N :=
  last3 <- Load3_AllowReadBeforeAndReturn cfg from size_mod4 ;;
  ret (shr64 last3 (32 - size_mod4 * 8)).
(** tests/highwayhash/load3.h:80-100 *)
Definition Load3_AllowUnordered (cfg : config) (from size_mod4 : N) : M N :=
  if size_mod4 =? 0 then ret 0
  else
    b0 <- load8 (padd cfg from 0) ;;
    b1 <- load8 (padd cfg from (N.shiftr size_mod4 1)) ;;
    b2 <- load8 (padd cfg from (size_mod4 - 1)) ;;
    ret (add64 (add64 (b2n b0) (shl64 (b2n b1) 8)) (shl64 (b2n b2) 16)).
(** tests/highwayhash/load3.h:103-118 *)
Definition Load3_AllowNone (cfg : config) (from size_mod4 : N) : M N :=
  x <- (if 1 <=? size_mod4 then b <- load8 (padd cfg from 0) ;; ret (b2n b) else ret 0) ;;
  x <- (if 2 <=? size_mod4 then b <- load8 (padd cfg from 1) ;; ret (add64 x (shl64 (b2n b) 8)) else ret x) ;;
  if size_mod4 =? 3 then b <- load8 (padd cfg from 2) ;; ret (add64 x (shl64 (b2n b) 16)) else ret x.

(** ** The templates, tests/highwayhash/highwayhash.h *)
(** The operations of a class HHState*: [Finalize] is three functions.  Of the
    arguments [from], [size_mod32], [buffer], [buffer_valid] the order is kept. *)
Record hh_ops (St : Type) : Type := HHOps {
  op_Reset : quad -> St;
  op_Update : config -> N -> St -> M St;
  op_UpdateRemainder : config -> N -> N -> St -> M St;
  op_Finalize64 : St -> N;
  op_Finalize128 : St -> N * N;
  op_Finalize256 : St -> quad;
  op_ZeroInitialize : config -> N -> M unit;
  op_CopyPartial : config -> N -> N -> N -> M unit;
  op_AppendPartial : config -> N -> N -> N -> N -> M unit;
  op_AppendAndUpdate : config -> N -> N -> N -> N -> St -> M St }.
Arguments op_Reset {St} _ _.
Arguments op_Update {St} _ _ _ _.
Arguments op_UpdateRemainder {St} _ _ _ _ _.
Arguments op_Finalize64 {St} _ _.
Arguments op_Finalize128 {St} _ _.
Arguments op_Finalize256 {St} _ _.
Arguments op_ZeroInitialize {St} _ _ _.
Arguments op_CopyPartial {St} _ _ _ _ _.
Arguments op_AppendPartial {St} _ _ _ _ _ _.
Arguments op_AppendAndUpdate {St} _ _ _ _ _ _ _.

Section Templates.
  Context {St : Type}.
  Variable ops : hh_ops St.

  (** the loop of tests/highwayhash/highwayhash.h:101-103 *)
  Fixpoint HighwayHashT_loop (fuel : nat) (cfg : config) (bytes truncated offset : N) (state : St) : M St :=
    match fuel with
    | O => stuck
    | S f =>
        if offset <? truncated then
          state <- op_Update ops cfg (padd cfg bytes offset) state ;;
          HighwayHashT_loop f cfg bytes truncated (padd cfg offset 32) state
        else ret state
    end.
  (** tests/highwayhash/highwayhash.h:95-107; [size & ~31] is [size - (size & 31)] *)
  Definition HighwayHashT_state (cfg : config) (bytes size : N) (state : St) : M St :=
    let remainder := N.land size 31 in
    let truncated := size - N.land size 31 in
    state <- HighwayHashT_loop (S (N.to_nat (size / 32))) cfg bytes truncated 0 state ;;
    if negb (remainder =? 0) then op_UpdateRemainder ops cfg (padd cfg bytes truncated) remainder state
    else ret state.
  (** tests/highwayhash/highwayhash.h:94-111 *)
  Definition HighwayHashT64 (cfg : config) (state : St) (bytes size : N) : M N :=
    state <- HighwayHashT_state cfg bytes size state ;; ret (op_Finalize64 ops state).
  Definition HighwayHashT128 (cfg : config) (state : St) (bytes size : N) : M (N * N) :=
    state <- HighwayHashT_state cfg bytes size state ;; ret (op_Finalize128 ops state).
  Definition HighwayHashT256 (cfg : config) (state : St) (bytes size : N) : M quad :=
    state <- HighwayHashT_state cfg bytes size state ;; ret (op_Finalize256 ops state).

  (** tests/highwayhash/highwayhash_target.cc:26-33 for a key in memory *)
  Definition HighwayHash64_Target (cfg : config) (key bytes size : N) : M N :=
    k <- load_key cfg key ;; HighwayHashT64 cfg (op_Reset ops k) bytes size.
  (** tests/highwayhash/highwayhash_target.cc:35-43 *)
  Definition thunk_HighwayHash64_Target (cfg : config) (input length seed : N) : M N :=
    HighwayHashT64 cfg (op_Reset ops (seed, seed, seed, seed)) input length.

  (** HighwayHashCatT, tests/highwayhash/highwayhash.h:196-199, without [buffer_] *)
  Record HighwayHashCatT : Type := HCT { ct_state : St; ct_usage : N }.
  (** tests/highwayhash/highwayhash.h:119-122 *)
  Definition CatT_new (cfg : config) (buffer : N) (key : quad) : M HighwayHashCatT :=
    op_ZeroInitialize ops cfg buffer ;;; ret (HCT (op_Reset ops key) 0).
  (** tests/highwayhash/highwayhash.h:125-128 *)
  Definition CatT_Reset (key : quad) (cat : HighwayHashCatT) : HighwayHashCatT := HCT (op_Reset ops key) 0.
  (** the loop of tests/highwayhash/highwayhash.h:162-166: [bytes], [num_bytes] and
      [state_copy] at its end *)
  Fixpoint CatT_Append_loop (fuel : nat) (cfg : config) (bytes num_bytes : N) (state : St) : M (N * N * St) :=
    match fuel with
    | O => stuck
    | S f =>
        if 32 <=? num_bytes then
          state <- op_Update ops cfg bytes state ;;
          CatT_Append_loop f cfg (padd cfg bytes 32) (psub cfg num_bytes 32) state
        else ret (bytes, num_bytes, state)
    end.
  (** tests/highwayhash/highwayhash.h:134-179 *)
  Definition CatT_Append (cfg : config) (buffer bytes num_bytes : N) (cat : HighwayHashCatT) : M HighwayHashCatT :=
    let capacity := psub cfg 32 (ct_usage cat) in
    if num_bytes <? capacity then
      op_AppendPartial ops cfg bytes num_bytes buffer (ct_usage cat) ;;;
      ret (HCT (ct_state cat) (padd cfg (ct_usage cat) num_bytes))
    else
      x <- (if negb (ct_usage cat =? 0) then
              state <- op_AppendAndUpdate ops cfg bytes capacity buffer (ct_usage cat) (ct_state cat) ;;
              ret (padd cfg bytes capacity, psub cfg num_bytes capacity, state)
            else ret (bytes, num_bytes, ct_state cat)) ;;
      let '(bytes, num_bytes, state) := x in
      y <- CatT_Append_loop (S (N.to_nat (num_bytes / 32))) cfg bytes num_bytes state ;;
      let '(bytes, num_bytes, state) := y in
      (if negb (num_bytes =? 0) then op_CopyPartial ops cfg bytes num_bytes buffer else ret tt) ;;;
      ret (HCT state num_bytes).
  (** tests/highwayhash/highwayhash.h:186-190 *)
  Definition CatT_state (cfg : config) (buffer : N) (cat : HighwayHashCatT) : M St :=
    if negb (ct_usage cat =? 0) then op_UpdateRemainder ops cfg buffer (ct_usage cat) (ct_state cat)
    else ret (ct_state cat).
  (** tests/highwayhash/highwayhash.h:183-193 *)
  Definition CatT_Finalize64 (cfg : config) (buffer : N) (cat : HighwayHashCatT) : M N :=
    state <- CatT_state cfg buffer cat ;; ret (op_Finalize64 ops state).
  Definition CatT_Finalize128 (cfg : config) (buffer : N) (cat : HighwayHashCatT) : M (N * N) :=
    state <- CatT_state cfg buffer cat ;; ret (op_Finalize128 ops state).
  Definition CatT_Finalize256 (cfg : config) (buffer : N) (cat : HighwayHashCatT) : M quad :=
    state <- CatT_state cfg buffer cat ;; ret (op_Finalize256 ops state).
  (** the loops of tests/highwayhash/highwayhash_target.cc:80-82, 92-94, 104-106; a
      fragment is [data] and [num_bytes] *)
  Fixpoint CatT_fragments (cfg : config) (buffer : N) (fragments : list (N * N)) (cat : HighwayHashCatT) : M HighwayHashCatT :=
    match fragments with
    | [] => ret cat
    | (data, num_bytes) :: fragments =>
        cat <- CatT_Append cfg buffer data num_bytes cat ;; CatT_fragments cfg buffer fragments cat
    end.
  (** tests/highwayhash/highwayhash_target.cc:74-108; [buffer] is the address of the
      member [buffer_] of the local object [cat] *)
  Definition HighwayHashCat64 (cfg : config) (buffer : N) (key : quad) (fragments : list (N * N)) : M N :=
    cat <- CatT_new cfg buffer key ;; cat <- CatT_fragments cfg buffer fragments cat ;; CatT_Finalize64 cfg buffer cat.
  Definition HighwayHashCat128 (cfg : config) (buffer : N) (key : quad) (fragments : list (N * N)) : M (N * N) :=
    cat <- CatT_new cfg buffer key ;; cat <- CatT_fragments cfg buffer fragments cat ;; CatT_Finalize128 cfg buffer cat.
  Definition HighwayHashCat256 (cfg : config) (buffer : N) (key : quad) (fragments : list (N * N)) : M quad :=
    cat <- CatT_new cfg buffer key ;; cat <- CatT_fragments cfg buffer fragments cat ;; CatT_Finalize256 cfg buffer cat.
End Templates.
Arguments HighwayHashCatT St : clear implicits.

(** ** HHStatePortable, tests/highwayhash/hh_portable.h; its members are those of
    HighwayHashState *)
(** tests/highwayhash/hh_portable.h:224-226 *)
Definition pt_Rotate64By32 (x : N) : N := N.lor (shr64 x 32) (shl64 x 32).
(** a loop over the lanes of two arrays, as in tests/highwayhash/hh_portable.h:170-182 *)
Definition lanes2 (f : N -> N -> N) (x y : quad) : quad :=
  let '(x0, x1, x2, x3) := x in let '(y0, y1, y2, y3) := y in (f x0 y0, f x1 y1, f x2 y2, f x3 y3).
Definition lanes1 (f : N -> N) (x : quad) : quad := let '(x0, x1, x2, x3) := x in (f x0, f x1, f x2, f x3).
(** tests/highwayhash/hh_portable.h:41-52, 228-234 *)
Definition pt_init0 : quad := (0xdbe6d5d5fe4cce2f, 0xa4093822299f31d0, 0x13198a2e03707344, 0x243f6a8885a308d3).
Definition pt_init1 : quad := (0x3bd39e10cb0ef593, 0xc0acf169b5f18a8c, 0xbe5466cf34e90c6c, 0x452821e638d01377).
Definition pt_Reset (keys : quad) : HighwayHashState :=
  HHS (lanes2 N.lxor pt_init0 keys) (lanes2 N.lxor pt_init1 (lanes1 pt_Rotate64By32 keys)) pt_init0 pt_init1.

(** tests/highwayhash/hh_portable.h:185 *)
Definition MASK (v bytes : N) : N := N.land v (shl64 0xFF (bytes * 8)).
(** tests/highwayhash/hh_portable.h:189-199: [*add1] and [*add0] afterwards *)
Definition pt_ZipperMergeAndAdd (v1 v0 add1 add0 : N) : N * N :=
  (add64 add1
     (add64 (add64 (add64 (add64 (add64 (add64
        (shr64 (add64 (MASK v1 3) (MASK v0 4)) 24) (MASK v1 2))
        (shr64 (MASK v1 5) 16)) (shl64 (MASK v1 1) 24)) (shr64 (MASK v0 6) 8))
        (shl64 (MASK v1 0) 48)) (MASK v0 7)),
   add64 add0
     (add64 (add64 (add64 (add64 (add64
        (shr64 (add64 (MASK v0 3) (MASK v1 4)) 24)
        (shr64 (add64 (MASK v0 5) (MASK v1 6)) 16)) (MASK v0 2))
        (shl64 (MASK v0 1) 32)) (shr64 (MASK v1 7) 8)) (shl64 v0 56))).
(** the loop body of tests/highwayhash/hh_portable.h:209-215 *)
Definition pt_lane (v0 v1 mul0 mul1 : N) : N * N * N * N :=
  let v1_32 := u32 v1 in
  let mul0 := N.lxor mul0 (mul64 v1_32 (shr64 v0 32)) in
  let v0 := add64 v0 mul1 in
  let v0_32 := u32 v0 in
  let mul1 := N.lxor mul1 (mul64 v0_32 (shr64 v1 32)) in
  (v0, v1, mul0, mul1).
(** tests/highwayhash/hh_portable.h:204-222 *)
Definition pt_UpdateLanes (packet_lanes : quad) (state : HighwayHashState) : HighwayHashState :=
  let '(b0, b1, b2, b3) := lanes2 add64 (lanes2 add64 (hh_v1 state) packet_lanes) (hh_mul0 state) in
  let '(a0, a1, a2, a3) := hh_v0 state in
  let '(c0, c1, c2, c3) := hh_mul0 state in
  let '(d0, d1, d2, d3) := hh_mul1 state in
  let '(a0, b0, c0, d0) := pt_lane a0 b0 c0 d0 in
  let '(a1, b1, c1, d1) := pt_lane a1 b1 c1 d1 in
  let '(a2, b2, c2, d2) := pt_lane a2 b2 c2 d2 in
  let '(a3, b3, c3, d3) := pt_lane a3 b3 c3 d3 in
  let '(a1, a0) := pt_ZipperMergeAndAdd b1 b0 a1 a0 in
  let '(a3, a2) := pt_ZipperMergeAndAdd b3 b2 a3 a2 in
  let '(b1, b0) := pt_ZipperMergeAndAdd a1 a0 b1 b0 in
  let '(b3, b2) := pt_ZipperMergeAndAdd a3 a2 b3 b2 in
  HHS (a0, a1, a2, a3) (b0, b1, b2, b3) (c0, c1, c2, c3) (d0, d1, d2, d3).
(** tests/highwayhash/hh_portable.h:54-62, for 32 bytes that have been read *)
Definition pt_Update_local (cfg : config) (packet : list byte) (state : HighwayHashState) : HighwayHashState :=
  let lane i := host_from_le64 cfg (native_num cfg (firstn 8 (skipn i packet))) in
  pt_UpdateLanes (lane 0%nat, lane 8%nat, lane 16%nat, lane 24%nat) state.
Definition pt_Update (cfg : config) (packet : N) (state : HighwayHashState) : M HighwayHashState :=
  l <- load_bytes 32 packet ;; ret (pt_Update_local cfg l state).

(** tests/highwayhash/hh_portable.h:64-96.  [Rotate32By] (236-241) rotates both halves
    of every lane, as [Rotate32By] of tests/highwayhash/pure_c.c does; that it reaches
    them through a pointer to uint32_t is not modelled. *)
Definition pt_UpdateRemainder (cfg : config) (bytes size_mod32 : N) (state : HighwayHashState) : M HighwayHashState :=
  let mod32_pair := add64 (shl64 size_mod32 32) size_mod32 in
  let v0 := lanes1 (fun x => add64 x mod32_pair) (hh_v0 state) in
  v1 <- Rotate32By size_mod32 (hh_v1 state) ;;
  let state := HHS v0 v1 (hh_mul0 state) (hh_mul1 state) in
  let size_mod4 := N.land size_mod32 3 in
  let whole := size_mod32 - N.land size_mod32 3 in            (* size_mod32 & ~3 *)
  let remainder := padd cfg bytes whole in
  copied <- load_bytes (N.to_nat whole) bytes ;;
  let packet := copied ++ repeat x00 (32 - length copied) in
  if negb (N.land size_mod32 16 =? 0) then
    last4 <- Load3_AllowReadBeforeAndReturn cfg remainder size_mod4 ;;
    ret (pt_Update_local cfg (firstn 28 packet ++ native cfg 4 last4) state)
  else
    last4 <- Load3_AllowUnordered cfg remainder size_mod4 ;;
    ret (pt_Update_local cfg (firstn 16 packet ++ native cfg 8 last4 ++ skipn 24 packet) state).

(** tests/highwayhash/hh_portable.h:243-248 *)
Definition pt_Permute (v : quad) : quad :=
  let '(v0, v1, v2, v3) := v in (pt_Rotate64By32 v2, pt_Rotate64By32 v3, pt_Rotate64By32 v0, pt_Rotate64By32 v1).
(** tests/highwayhash/hh_portable.h:250-254 *)
Definition pt_PermuteAndUpdate (state : HighwayHashState) : HighwayHashState := pt_UpdateLanes (pt_Permute (hh_v0 state)) state.
(** tests/highwayhash/hh_portable.h:260-267: [*a1] and [*a0] afterwards *)
Definition Shift128Left (kBits a1 a0 : N) : N * N :=
  let shifted1 := shl64 a1 kBits in
  let top_bits := shr64 a0 (64 - kBits) in
  (N.lor shifted1 top_bits, shl64 a0 kBits).
(** tests/highwayhash/hh_portable.h:271-288: [*m1] and [*m0] *)
Definition pt_ModularReduction (a3_unmasked a2 a1 a0 : N) : N * N :=
  let a3 := N.land a3_unmasked 0x3FFFFFFFFFFFFFFF in
  let '(a3_shl1, a2_shl1) := Shift128Left 1 a3 a2 in
  let '(a3_shl2, a2_shl2) := Shift128Left 2 a3 a2 in
  (N.lxor (N.lxor a1 a3_shl1) a3_shl2, N.lxor (N.lxor a0 a2_shl1) a2_shl2).
(** tests/highwayhash/hh_portable.h:98-104 *)
Definition pt_Finalize64 (state : HighwayHashState) : N :=
  let state := Nat.iter 4 pt_PermuteAndUpdate state in
  let '(a0, _, _, _) := hh_v0 state in let '(b0, _, _, _) := hh_v1 state in
  let '(c0, _, _, _) := hh_mul0 state in let '(d0, _, _, _) := hh_mul1 state in
  add64 (add64 (add64 a0 b0) c0) d0.
(** tests/highwayhash/hh_portable.h:106-113 *)
Definition pt_Finalize128 (state : HighwayHashState) : N * N :=
  let state := Nat.iter 6 pt_PermuteAndUpdate state in
  let '(a0, a1, _, _) := hh_v0 state in let '(_, _, b2, b3) := hh_v1 state in
  let '(c0, c1, _, _) := hh_mul0 state in let '(_, _, d2, d3) := hh_mul1 state in
  (add64 (add64 (add64 a0 c0) b2) d2, add64 (add64 (add64 a1 c1) b3) d3).
(** tests/highwayhash/hh_portable.h:115-124 *)
Definition pt_Finalize256 (state : HighwayHashState) : quad :=
  let state := Nat.iter 10 pt_PermuteAndUpdate state in
  let '(a0, a1, a2, a3) := hh_v0 state in let '(b0, b1, b2, b3) := hh_v1 state in
  let '(c0, c1, c2, c3) := hh_mul0 state in let '(d0, d1, d2, d3) := hh_mul1 state in
  let '(h1, h0) := pt_ModularReduction (add64 b1 d1) (add64 b0 d0) (add64 a1 c1) (add64 a0 c0) in
  let '(h3, h2) := pt_ModularReduction (add64 b3 d3) (add64 b2 d2) (add64 a3 c3) (add64 a2 c2) in
  (h0, h1, h2, h3).

(** tests/highwayhash/hh_portable.h:126-130 *)
Definition pt_ZeroInitialize (cfg : config) (buffer : N) : M unit := store_bytes buffer (repeat x00 32).
(** tests/highwayhash/hh_portable.h:132-138, and hh_sse41.h:155-161 *)
Definition pt_CopyPartial (cfg : config) (from size_mod32 buffer : N) : M unit :=
  copy_each cfg (N.to_nat size_mod32) buffer from.
(** tests/highwayhash/hh_portable.h:140-147, and hh_sse41.h:163-170 *)
Definition pt_AppendPartial (cfg : config) (from size_mod32 buffer buffer_valid : N) : M unit :=
  copy_each cfg (N.to_nat size_mod32) (padd cfg buffer buffer_valid) from.
(** the local array of tests/highwayhash/hh_portable.h:153-159, and
    hh_sse41.h:176-182: all of its 32 bytes must be set *)
Definition tmp_of (from size_mod32 buffer buffer_valid : N) : M (list byte) :=
  old <- load_bytes (N.to_nat buffer_valid) buffer ;;
  new <- load_bytes (N.to_nat size_mod32) from ;;
  if buffer_valid + size_mod32 =? 32 then ret (old ++ new) else undef BadArray.
(** tests/highwayhash/hh_portable.h:149-161 *)
Definition pt_AppendAndUpdate (cfg : config) (from size_mod32 buffer buffer_valid : N) (state : HighwayHashState) : M HighwayHashState :=
  tmp <- tmp_of from size_mod32 buffer buffer_valid ;; ret (pt_Update_local cfg tmp state).

Definition portable : hh_ops HighwayHashState :=
  HHOps _ pt_Reset pt_Update pt_UpdateRemainder pt_Finalize64 pt_Finalize128 pt_Finalize256
    pt_ZeroInitialize pt_CopyPartial pt_AppendPartial pt_AppendAndUpdate.
(** tests/highwayhash/highwayhash_target.cc:26-33 for the target Portable *)
Definition HighwayHash64_Portable : config -> N -> N -> N -> M N := HighwayHash64_Target portable.
