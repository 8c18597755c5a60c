(** Model of src/t1ha_bits.h (and of the 32-bit helpers at the top of
    src/t1ha0.c).  Definitions only. *)
From Coq Require Import NArith List Bool Strings.Byte.
From Verif Require Import Bytes CSem.
Import ListNotations.
Local Open Scope N_scope.

(** ** Byte swapping.  src/t1ha_bits.h:364-402; the builtins of lines 179-183 and
    255-257 reverse the bytes. *)

(** src/t1ha_bits.h:370-377 (shift-and-mask body) or :179/:255 (builtin). *)
Definition bswap64 (cfg : config) (v : N) : N :=
  let v := u64 v in
  if swap_builtin cfg then be_num (le_bytes 8 v)
  else
    N.lor (N.lor (N.lor (N.lor (N.lor (N.lor (N.lor
      (shl64 v 56) (shr64 v 56))
      (N.land (shl64 v 40) 0x00ff000000000000))
      (N.land (shl64 v 24) 0x0000ff0000000000))
      (N.land (shl64 v 8)  0x000000ff00000000))
      (N.land (shr64 v 8)  0x00000000ff000000))
      (N.land (shr64 v 24) 0x0000000000ff0000))
      (N.land (shr64 v 40) 0x000000000000ff00).

(** src/t1ha_bits.h:387-390 or builtin (:180/:256). *)
Definition bswap32 (cfg : config) (v : N) : N :=
  let v := u32 v in
  if swap_builtin cfg then be_num (le_bytes 4 v)
  else
    N.lor (N.lor (N.lor (shl32 v 24) (shr32 v 24))
      (N.land (shl32 v 8) 0x00ff0000))
      (N.land (shr32 v 8) 0x0000ff00).

(** src/t1ha_bits.h:400 ([v << 8 | v >> 8] in int, truncated to uint16_t by the
    return) or builtin (:182/:257). *)
Definition bswap16 (cfg : config) (v : N) : N :=
  let v := u16 v in
  if swap_builtin cfg then be_num (le_bytes 2 v)
  else u16 (N.lor (N.shiftl v 8) (N.shiftr v 8)).

(** ** Raw reads. *)

(** ALIGNMENT_16/32/64, src/t1ha_bits.h:91-97 ([n] is the size in bytes). *)
Definition alignment (cfg : config) (n : nat) : N :=
  match n with
  | 2%nat => 2
  | 4%nat => 4
  | _ => if wide cfg then 8 else 4
  end.

(** read_unaligned(ptr, bits), src/t1ha_bits.h:410, 422-443: a native load at any
    address (plain dereference on x86/efficient, packed struct elsewhere). *)
Definition read_unaligned (cfg : config) (n : nat) (p : N) : M N := load_uint cfg n p.

(** read_aligned(ptr, bits), src/t1ha_bits.h:411, 447-482: on x86/efficient a plain
    load, elsewhere a load whose alignment is promised to the compiler, hence
    undefined behaviour if the promise is broken. *)
Definition read_aligned (cfg : config) (n : nat) (p : N) : M N :=
  if ia32 cfg || is_efficient cfg then load_uint cfg n p
  else if p mod alignment cfg n =? 0 then load_uint cfg n p
  else undef MisalignedAccess.

(** ** Little-endian fetches. *)

(** src/t1ha_bits.h:526-536 *)
Definition fetch16_le_aligned (cfg : config) (p : N) : M N :=
  assert_ cfg (p mod alignment cfg 2 =? 0) ;;;
  r <- read_aligned cfg 2 p ;;
  ret (if big_endian cfg then bswap16 cfg r else r).

(** src/t1ha_bits.h:538-550 *)
Definition fetch16_le_unaligned (cfg : config) (p : N) : M N :=
  if is_unable cfg then
    b0 <- load8 p ;; b1 <- load8 (padd cfg p 1) ;;
    ret (u16 (N.lor (b2n b0) (N.shiftl (b2n b1) 8)))
  else r <- read_unaligned cfg 2 p ;;
       ret (if big_endian cfg then bswap16 cfg r else r).

(** src/t1ha_bits.h:552-562 *)
Definition fetch32_le_aligned (cfg : config) (p : N) : M N :=
  assert_ cfg (p mod alignment cfg 4 =? 0) ;;;
  r <- read_aligned cfg 4 p ;;
  ret (if big_endian cfg then bswap32 cfg r else r).

(** src/t1ha_bits.h:564-576 *)
Definition fetch32_le_unaligned (cfg : config) (p : N) : M N :=
  if is_unable cfg then
    l <- fetch16_le_unaligned cfg p ;;
    h <- fetch16_le_unaligned cfg (padd cfg p 2) ;;
    ret (N.lor l (shl32 h 16))
  else r <- read_unaligned cfg 4 p ;;
       ret (if big_endian cfg then bswap32 cfg r else r).

(** src/t1ha_bits.h:578-588 *)
Definition fetch64_le_aligned (cfg : config) (p : N) : M N :=
  assert_ cfg (p mod alignment cfg 8 =? 0) ;;;
  r <- read_aligned cfg 8 p ;;
  ret (if big_endian cfg then bswap64 cfg r else r).

(** src/t1ha_bits.h:590-602 *)
Definition fetch64_le_unaligned (cfg : config) (p : N) : M N :=
  if is_unable cfg then
    l <- fetch32_le_unaligned cfg p ;;
    h <- fetch32_le_unaligned cfg (padd cfg p 4) ;;
    ret (N.lor l (shl64 h 32))
  else r <- read_unaligned cfg 8 p ;;
       ret (if big_endian cfg then bswap64 cfg r else r).

(** ** can_read_underside(ptr, size), src/t1ha_bits.h:679-680. *)
Definition can_read_underside (cfg : config) (p size : N) : bool :=
  negb (N.land (pagesize cfg - size) p =? 0).

Definition ones64 : N := 18446744073709551615. (* ~UINT64_C(0) *)
Definition ones32 : N := 4294967295.           (* ~UINT32_C(0) *)

(** [((8 - tail) & 7)] in size_t arithmetic, src/t1ha_bits.h:609, 691, 852, 915. *)
Definition off8 (cfg : config) (tail : N) : N := N.land (psub cfg 8 tail) 7.
(** [((4 - tail) & 3)], src/t1ha0.c:53, 100, 153, 193. *)
Definition off4 (cfg : config) (tail : N) : N := N.land (psub cfg 4 tail) 3.

(** A C [switch (n)] over constants, with [unreachable()] as the default
    (src/t1ha_bits.h:614-615 and the like). *)
Fixpoint switch_ {A} (n : N) (cases : list (N * M A)) : M A :=
  match cases with
  | [] => undef UnreachableCode
  | (k, body) :: r => if n =? k then body else switch_ n r
  end.

(** The byte-by-byte little-endian fall-through switch of
    src/t1ha_bits.h:642-670 and 733-761 (the two texts are identical).
    [r] is a uint64_t. *)
Definition tail64_le_bytes (cfg : config) (p tail : N) : M N :=
  let c1 r := b <- load8 p ;; ret (add64 r (b2n b)) in
  let c2 r := b <- load8 (padd cfg p 1) ;; c1 (shl64 (add64 r (b2n b)) 8) in
  let c3 r := b <- load8 (padd cfg p 2) ;; c2 (shl64 (add64 r (b2n b)) 8) in
  let c4 r := b <- load8 (padd cfg p 3) ;; c3 (shl64 (add64 r (b2n b)) 8) in
  let c5 r := b <- load8 (padd cfg p 4) ;; c4 (shl64 (add64 r (b2n b)) 8) in
  let c6 r := b <- load8 (padd cfg p 5) ;; c5 (shl64 (add64 r (b2n b)) 8) in
  let c7 r := b <- load8 (padd cfg p 6) ;; c6 (shl64 (add64 r (b2n b)) 8) in
  let c0 := b <- load8 (padd cfg p 7) ;; c7 (shl64 (b2n b) 8) in
  switch_ (N.land tail 7)
    [ (0, c0); (7, c7 0); (6, c6 0); (5, c5 0); (4, c4 0); (3, c3 0); (2, c2 0); (1, c1 0) ].

(** The word-wise little-endian switch of src/t1ha_bits.h:619-640 (aligned
    fetches) and 708-729 (unaligned fetches). *)
Definition tail64_le_words (cfg : config)
  (f16 f32 f64 : N -> M N) (p tail : N) : M N :=
  let c4 r := w <- f32 p ;; ret (add64 r w) in
  let c5 r := b <- load8 (padd cfg p 4) ;; c4 (shl64 (add64 r (b2n b)) 32) in
  let c6 r := b <- load8 (padd cfg p 5) ;; c5 (shl64 (add64 r (b2n b)) 8) in
  let c7 := b <- load8 (padd cfg p 6) ;; c6 (shl64 (b2n b) 8) in
  let c2 r := w <- f16 p ;; ret (add64 r w) in
  let c3 := b <- load8 (padd cfg p 2) ;; c2 (shl64 (b2n b) 16) in
  let c1 := b <- load8 p ;; ret (b2n b) in
  switch_ (N.land tail 7)
    [ (0, f64 p); (7, c7); (6, c6 0); (5, c5 0); (4, c4 0); (3, c3); (2, c2 0); (1, c1) ].

(** src/t1ha_bits.h:604-674 *)
Definition tail64_le_aligned (cfg : config) (p tail : N) : M N :=
  if fast_oneshot cfg then
    let shift := N.shiftl (off8 cfg tail) 3 in
    w <- fetch64_le_aligned cfg p ;; ret (N.land w (shr64 ones64 shift))
  else if big_endian cfg then tail64_le_bytes cfg p tail
  else tail64_le_words cfg (fetch16_le_aligned cfg) (fetch32_le_aligned cfg)
                       (fetch64_le_aligned cfg) p tail.

(** src/t1ha_bits.h:683-765 *)
Definition tail64_le_unaligned (cfg : config) (p tail : N) : M N :=
  if has_underside cfg && wide cfg then
    let offset := off8 cfg tail in
    let shift := N.shiftl offset 3 in
    if can_read_underside cfg p 8 then
      w <- fetch64_le_unaligned cfg (psub cfg p offset) ;; ret (shr64 w shift)
    else
      w <- fetch64_le_unaligned cfg p ;; ret (N.land w (shr64 ones64 shift))
  else if is_efficient cfg && negb (big_endian cfg) then
    tail64_le_words cfg (fetch16_le_unaligned cfg) (fetch32_le_unaligned cfg)
                    (fetch64_le_unaligned cfg) p tail
  else tail64_le_bytes cfg p tail.

(** ** Big-endian fetches. *)

(** src/t1ha_bits.h:769-779 *)
Definition fetch16_be_aligned (cfg : config) (p : N) : M N :=
  assert_ cfg (p mod alignment cfg 2 =? 0) ;;;
  r <- read_aligned cfg 2 p ;;
  ret (if big_endian cfg then r else bswap16 cfg r).

(** src/t1ha_bits.h:781-793 *)
Definition fetch16_be_unaligned (cfg : config) (p : N) : M N :=
  if is_unable cfg then
    b0 <- load8 p ;; b1 <- load8 (padd cfg p 1) ;;
    ret (u16 (N.lor (N.shiftl (b2n b0) 8) (b2n b1)))
  else r <- read_unaligned cfg 2 p ;;
       ret (if big_endian cfg then r else bswap16 cfg r).

(** src/t1ha_bits.h:795-805 (the Elbrus builtin of :230 loads big-endian too) *)
Definition fetch32_be_aligned (cfg : config) (p : N) : M N :=
  assert_ cfg (p mod alignment cfg 4 =? 0) ;;;
  r <- read_aligned cfg 4 p ;;
  ret (if big_endian cfg then r else bswap32 cfg r).

(** src/t1ha_bits.h:807-819 *)
Definition fetch32_be_unaligned (cfg : config) (p : N) : M N :=
  if is_unable cfg then
    h <- fetch16_be_unaligned cfg p ;;
    l <- fetch16_be_unaligned cfg (padd cfg p 2) ;;
    ret (N.lor (shl32 h 16) l)
  else r <- read_unaligned cfg 4 p ;;
       ret (if big_endian cfg then r else bswap32 cfg r).

(** src/t1ha_bits.h:821-831 (the Elbrus builtin of :229 loads big-endian too) *)
Definition fetch64_be_aligned (cfg : config) (p : N) : M N :=
  assert_ cfg (p mod alignment cfg 8 =? 0) ;;;
  r <- read_aligned cfg 8 p ;;
  ret (if big_endian cfg then r else bswap64 cfg r).

(** src/t1ha_bits.h:833-845 *)
Definition fetch64_be_unaligned (cfg : config) (p : N) : M N :=
  if is_unable cfg then
    h <- fetch32_be_unaligned cfg p ;;
    l <- fetch32_be_unaligned cfg (padd cfg p 4) ;;
    ret (N.lor (shl64 h 32) l)
  else r <- read_unaligned cfg 8 p ;;
       ret (if big_endian cfg then r else bswap64 cfg r).

(** The expressions [p[k-1] | (uint32_t)p[k-2] << 8 | ... ] of
    src/t1ha_bits.h:879-901 and 952-974: bytes [p[k-1] .. p[0]] or-ed from the
    left, the first three shifts in uint32_t, the others in uint64_t. *)
Fixpoint or_bytes (cfg : config) (acc : N) (p : N) (k : nat) (shift : N) : M N :=
  match k with
  | O => ret acc
  | S k' => b <- load8 (padd cfg p (N.of_nat k')) ;;
            or_bytes cfg
              (N.lor acc (if shift <? 32 then shl32 (b2n b) shift else shl64 (b2n b) shift))
              p k' (shift + 8)
  end.

(** The byte-wise big-endian switch, src/t1ha_bits.h:879-901 and 952-974. *)
Definition tail64_be_bytes (cfg : config) (p tail : N) : M N :=
  let first k := b <- load8 (padd cfg p (N.of_nat k)) ;; or_bytes cfg (b2n b) p k 8 in
  switch_ (N.land tail 7)
    [ (1, b <- load8 p ;; ret (b2n b)); (2, first 1%nat); (3, first 2%nat); (4, first 3%nat);
      (5, first 4%nat); (6, first 5%nat); (7, first 6%nat); (0, first 7%nat) ].

(** The word-wise big-endian switch, src/t1ha_bits.h:861-877 (aligned fetches)
    and 931-948 (unaligned fetches).  [case4] is separate because line 938
    differs from line 868. *)
Definition tail64_be_words (cfg : config)
  (f16 f32 f64 : N -> M N) (case4 : M N) (p tail : N) : M N :=
  switch_ (N.land tail 7)
    [ (1, b <- load8 p ;; ret (b2n b));
      (2, f16 p);
      (3, h <- f16 p ;; b <- load8 (padd cfg p 2) ;; ret (N.lor (shl32 h 8) (b2n b)));
      (4, case4);
      (5, h <- f32 p ;; b <- load8 (padd cfg p 4) ;; ret (N.lor (shl64 h 8) (b2n b)));
      (6, h <- f32 p ;; l <- f16 (padd cfg p 4) ;; ret (N.lor (shl64 h 16) l));
      (7, h <- f32 p ;; l <- f16 (padd cfg p 4) ;; b <- load8 (padd cfg p 6) ;;
          ret (N.lor (N.lor (shl64 h 24) (shl32 l 8)) (b2n b)));
      (0, f64 p) ].

(** src/t1ha_bits.h:847-905 *)
Definition tail64_be_aligned (cfg : config) (p tail : N) : M N :=
  if fast_oneshot cfg then
    let shift := N.shiftl (off8 cfg tail) 3 in
    w <- fetch64_be_aligned cfg p ;; ret (shr64 w shift)
  else if big_endian cfg then
    tail64_be_words cfg (fetch16_be_aligned cfg) (fetch32_be_aligned cfg)
      (fetch64_be_aligned cfg) (fetch32_be_aligned cfg p) p tail
  else tail64_be_bytes cfg p tail.

(** src/t1ha_bits.h:907-978.  Line 938 calls [fetch32_be], which is declared
    nowhere: where that branch is compiled the program does not build (or link)
    at all, so the whole function is [nobuild] there. *)
Definition tail64_be_unaligned (cfg : config) (p tail : N) : M N :=
  if has_underside cfg && wide cfg then
    let offset := off8 cfg tail in
    let shift := N.shiftl offset 3 in
    if can_read_underside cfg p 8 then
      w <- fetch64_be_unaligned cfg (psub cfg p offset) ;;
      ret (N.land w (shr64 ones64 shift))
    else
      w <- fetch64_be_unaligned cfg p ;; ret (shr64 w shift)
  else if is_efficient cfg && big_endian cfg then nobuild
  else tail64_be_bytes cfg p tail.

(** ** Rotation, carries, multiplication. *)

(** src/t1ha_bits.h:982-986 (and [_rotr64], :258).  The parameter is uint64_t. *)
Definition rot64 (v s : N) : N :=
  let v := u64 v in N.lor (shr64 v s) (shl64 v (64 - s)).

(** src/t1ha_bits.h:988-993 (and [__emulu]/[_arm_umull], :280, :333). *)
Definition mul_32x32_64 (a b : N) : N := mul64 (u32 a) (u32 b).

(** [_addcarry_u32], src/t1ha_bits.h:284-288: (carry out, sum). *)
Definition addcarry_u32 (c x y : N) : N * N :=
  ((c + u32 x + u32 y) / W32, u32 (c + u32 x + u32 y)).

(** src/t1ha_bits.h:995-1007, 203-206, 266, 290-299: (carry out, sum).
    The MSVC 32-bit body stores the halves through a uint32_t pointer, which on
    that (little-endian) target puts the first half in the low bits. *)
Definition add64carry_first (cfg : config) (base addend : N) : N * N :=
  let base := u64 base in let addend := u64 addend in
  match carry cfg with
  | CarryBuiltin => ((base + addend) / W64, add64 base addend)
  | CarryPortable =>
      let sum := add64 base addend in ((if sum <? addend then 1 else 0), sum)
  | CarryMsvc32 =>
      let '(c, l) := addcarry_u32 0 (u32 base) (u32 addend) in
      let '(c', h) := addcarry_u32 c (u32 (shr64 base 32)) (u32 (shr64 addend 32)) in
      (c', l + W32 * h)
  end.

(** src/t1ha_bits.h:1009-1021, 210-215, 267, 303-313: (carry out, sum). *)
Definition add64carry_next (cfg : config) (c base addend : N) : N * N :=
  let base := u64 base in let addend := u64 addend in
  match carry cfg with
  | CarryBuiltin => ((base + addend + c) / W64, add64 (add64 base addend) c)
  | CarryPortable =>
      let sum := add64 (add64 base addend) c in
      ((if (sum <? addend) || (negb (c =? 0) && (sum =? addend)) then 1 else 0), sum)
  | CarryMsvc32 =>
      let '(c1, l) := addcarry_u32 c (u32 base) (u32 addend) in
      let '(c', h) := addcarry_u32 c1 (u32 (shr64 base 32)) (u32 (shr64 addend 32)) in
      (c', l + W32 * h)
  end.

(** src/t1ha_bits.h:1023-1034, 219-224, 269, 317-327: sum only. *)
Definition add64carry_last (cfg : config) (c base addend : N) : N :=
  let base := u64 base in let addend := u64 addend in
  match carry cfg with
  | CarryBuiltin | CarryPortable => add64 (add64 base addend) c
  | CarryMsvc32 =>
      let '(c1, l) := addcarry_u32 c (u32 base) (u32 addend) in
      let '(_, h) := addcarry_u32 c1 (u32 (shr64 base 32)) (u32 (shr64 addend 32)) in
      l + W32 * h
  end.

(** src/t1ha_bits.h:1036-1067 and :264: (low, high). *)
Definition mul_64x64_128 (cfg : config) (a b : N) : N * N :=
  let a := u64 a in let b := u64 b in
  match mul cfg with
  | MulNative => let r := u128 (a * b) in (u64 r, u64 (N.shiftr r 64))
  | MulHigh => (mul64 a b, (a * b) / W64)
  | MulPortable =>
      let ll := mul_32x32_64 (u32 a) (u32 b) in
      let lh := mul_32x32_64 (shr64 a 32) (u32 b) in
      let hl := mul_32x32_64 (u32 a) (shr64 b 32) in
      let hh := mul_32x32_64 (shr64 a 32) (shr64 b 32) in
      let '(c1, l1) := add64carry_first cfg ll (shl64 lh 32) in
      let h1 := add64carry_last cfg c1 hh (shr64 lh 32) in
      let '(c2, l2) := add64carry_first cfg l1 (shl64 hl 32) in
      let h2 := add64carry_last cfg c2 h1 (shr64 hl 32) in
      (l2, h2)
  end.

(** src/t1ha_bits.h:1069-1076 *)
Definition mul_64x64_high (cfg : config) (a b : N) : N := snd (mul_64x64_128 cfg a b).

(** src/t1ha_bits.h:1081-1087 *)
Definition prime_0 : N := 0xEC99BF0D8372CAAB.
Definition prime_1 : N := 0x82434FE90EDCEF39.
Definition prime_2 : N := 0xD4F06DB99D67BE4B.
Definition prime_3 : N := 0xBD9CACC22C6E9571.
Definition prime_4 : N := 0x9C06FAF4D023E3AB.
Definition prime_5 : N := 0xC060724A8424F345.
Definition prime_6 : N := 0xCB5AF53AE3AAAC31.

(** src/t1ha_bits.h:1090-1095 *)
Definition mux64 (cfg : config) (v prime : N) : N :=
  let '(l, h) := mul_64x64_128 cfg v prime in N.lxor l h.

(** src/t1ha_bits.h:1097-1101 *)
Definition final64 (cfg : config) (a b : N) : N :=
  let x := mul64 (add64 a (rot64 b 41)) prime_0 in
  let y := mul64 (add64 (rot64 a 23) b) prime_6 in
  mux64 cfg (N.lxor x y) prime_5.

(** src/t1ha_bits.h:1103-1109: new values of [*a] and [*b]. *)
Definition mixup64 (cfg : config) (a b v prime : N) : N * N :=
  let '(l, h) := mul_64x64_128 cfg (add64 b v) prime in
  (N.lxor a l, add64 b h).

(** ** 128-bit helpers, src/t1ha_bits.h:1113-1229.  A t1ha_uint128_t is the pair
    of its halves; with a native 128-bit type the union member [v] is
    [l + 2^64 * h] on either byte order (lines 1118-1124). *)
Record u128_t : Type := U128 { ul : N; uh : N }.
Definition v128 (x : u128_t) : N := ul x + W64 * uh x.
Definition of128 (v : N) : u128_t := U128 (u64 v) (u64 (v / W64)).

(** C shift of a [w]-bit value: undefined if the count is not below the width. *)
Definition c_shl (w x s : N) : outcome N :=
  if s <? w then Ok (N.shiftl x s mod 2 ^ w) else Undef OverwideShift.
Definition c_shr (w x s : N) : outcome N :=
  if s <? w then Ok (N.shiftr x s) else Undef OverwideShift.
Definition obind {A B} (x : outcome A) (k : A -> outcome B) : outcome B :=
  match x with
  | Ok a => k a
  | Fault p => Fault p | Undef w => Undef w | Abort => Abort | NoBuild => NoBuild | Stuck => Stuck
  end.

(** src/t1ha_bits.h:1127-1138 *)
Definition not128 (cfg : config) (v : u128_t) : u128_t :=
  if int128 cfg then of128 (N.lxor (v128 v) 340282366920938463463374607431768211455)
  else U128 (not64 (ul v)) (not64 (uh v)).

(** src/t1ha_bits.h:1140-1152 *)
Definition left128 (cfg : config) (v : u128_t) (s : N) : outcome u128_t :=
  if negb (ndebug cfg) && negb (s <? 128) then Abort else
  if int128 cfg then obind (c_shl 128 (v128 v) s) (fun r => Ok (of128 r))
  else
    obind (if s <? 64 then c_shl 64 (ul v) s else Ok 0) (fun l =>
    obind (if s <? 64
           then obind (c_shl 64 (uh v) s) (fun x =>
                obind (if negb (s =? 0) then c_shr 64 (ul v) (64 - s) else Ok 0) (fun y =>
                Ok (N.lor x y)))
           else c_shl 64 (ul v) (s - 64)) (fun h =>
    Ok (U128 l h))).

(** src/t1ha_bits.h:1154-1166 *)
Definition right128 (cfg : config) (v : u128_t) (s : N) : outcome u128_t :=
  if negb (ndebug cfg) && negb (s <? 128) then Abort else
  if int128 cfg then obind (c_shr 128 (v128 v) s) (fun r => Ok (of128 r))
  else
    obind (if s <? 64
           then obind (if negb (s =? 0) then c_shl 64 (uh v) (64 - s) else Ok 0) (fun x =>
                obind (c_shr 64 (ul v) s) (fun y => Ok (N.lor x y)))
           else c_shr 64 (uh v) (s - 64)) (fun l =>
    obind (if s <? 64 then c_shr 64 (uh v) s else Ok 0) (fun h =>
    Ok (U128 l h))).

(** src/t1ha_bits.h:1168-1179 *)
Definition or128 (cfg : config) (x y : u128_t) : u128_t :=
  if int128 cfg then of128 (N.lor (v128 x) (v128 y))
  else U128 (N.lor (ul x) (ul y)) (N.lor (uh x) (uh y)).

(** src/t1ha_bits.h:1181-1192 *)
Definition xor128 (cfg : config) (x y : u128_t) : u128_t :=
  if int128 cfg then of128 (N.lxor (v128 x) (v128 y))
  else U128 (N.lxor (ul x) (ul y)) (N.lxor (uh x) (uh y)).

(** src/t1ha_bits.h:1194-1204 *)
Definition rot128 (cfg : config) (v : u128_t) (s : N) : outcome u128_t :=
  let s := N.land s 127 in
  if int128 cfg then
    obind (c_shl 128 (v128 v) (128 - s)) (fun x =>
    obind (c_shr 128 (v128 v) s) (fun y => Ok (of128 (N.lor x y))))
  else if negb (s =? 0) then
    obind (left128 cfg v (128 - s)) (fun x =>
    obind (right128 cfg v s) (fun y => Ok (or128 cfg x y)))
  else Ok v.

(** src/t1ha_bits.h:1206-1216 *)
Definition add128 (cfg : config) (x y : u128_t) : u128_t :=
  if int128 cfg then of128 (u128 (v128 x + v128 y))
  else
    let '(c, l) := add64carry_first cfg (ul x) (ul y) in
    U128 l (add64carry_last cfg c (uh x) (uh y)).

(** src/t1ha_bits.h:1218-1229 *)
Definition mul128 (cfg : config) (x y : u128_t) : u128_t :=
  if int128 cfg then of128 (u128 (v128 x * v128 y))
  else
    let '(l, h) := mul_64x64_128 cfg (ul x) (ul y) in
    U128 l (add64 h (add64 (mul64 (ul x) (uh y)) (mul64 (ul y) (uh x)))).

(** ** 32-bit helpers of src/t1ha0.c. *)

(** The byte-wise switch of src/t1ha0.c:74-87 and 129-142. *)
Definition tail32_le_bytes (cfg : config) (p tail : N) : M N :=
  let c1 r := b <- load8 p ;; ret (add32 r (b2n b)) in
  let c2 r := b <- load8 (padd cfg p 1) ;; c1 (shl32 (add32 r (b2n b)) 8) in
  let c3 r := b <- load8 (padd cfg p 2) ;; c2 (shl32 (add32 r (b2n b)) 8) in
  let c0 r := b <- load8 (padd cfg p 3) ;; c3 (shl32 (add32 r (b2n b)) 8) in
  switch_ (N.land tail 3) [ (0, c0 0); (3, c3 0); (2, c2 0); (1, c1 0) ].

(** The word-wise switch of src/t1ha0.c:64-72 and 117-125. *)
Definition tail32_le_words (cfg : config) (f16 f32 : N -> M N) (p tail : N) : M N :=
  let c2 r := w <- f16 p ;; ret (add32 r w) in
  let c3 := b <- load8 (padd cfg p 2) ;; c2 (shl32 (b2n b) 16) in
  let c1 := b <- load8 p ;; ret (b2n b) in
  switch_ (N.land tail 3) [ (0, f32 p); (3, c3); (2, c2 0); (1, c1) ].

(** src/t1ha0.c:48-91 *)
Definition tail32_le_aligned (cfg : config) (p tail : N) : M N :=
  if fast_oneshot cfg then
    let shift := N.shiftl (off4 cfg tail) 3 in
    w <- fetch32_le_aligned cfg p ;; ret (N.land w (shr32 ones32 shift))
  else if big_endian cfg then tail32_le_bytes cfg p tail
  else tail32_le_words cfg (fetch16_le_aligned cfg) (fetch32_le_aligned cfg) p tail.

(** src/t1ha0.c:93-146 *)
Definition tail32_le_unaligned (cfg : config) (p tail : N) : M N :=
  if has_underside cfg then
    let offset := off4 cfg tail in
    let shift := N.shiftl offset 3 in
    if can_read_underside cfg p 4 then
      w <- fetch32_le_unaligned cfg (psub cfg p offset) ;; ret (shr32 w shift)
    else
      w <- fetch32_le_unaligned cfg p ;; ret (N.land w (shr32 ones32 shift))
  else if is_efficient cfg && negb (big_endian cfg) then
    tail32_le_words cfg (fetch16_le_unaligned cfg) (fetch32_le_unaligned cfg) p tail
  else tail32_le_bytes cfg p tail.

(** The byte-wise big-endian switch of src/t1ha0.c:172-180 and 220-228. *)
Definition tail32_be_bytes (cfg : config) (p tail : N) : M N :=
  let first k := b <- load8 (padd cfg p (N.of_nat k)) ;; or_bytes cfg (b2n b) p k 8 in
  switch_ (N.land tail 3)
    [ (1, b <- load8 p ;; ret (b2n b)); (2, first 1%nat); (3, first 2%nat); (0, first 3%nat) ].

(** The word-wise big-endian switch of src/t1ha0.c:163-170 and 209-216
    ([fetch16 << 8] is computed in int and cannot overflow). *)
Definition tail32_be_words (cfg : config) (f16 f32 : N -> M N) (p tail : N) : M N :=
  switch_ (N.land tail 3)
    [ (1, b <- load8 p ;; ret (b2n b));
      (2, f16 p);
      (3, h <- f16 p ;; b <- load8 (padd cfg p 2) ;; ret (u32 (N.lor (N.shiftl h 8) (b2n b))));
      (0, f32 p) ].

(** src/t1ha0.c:148-184 *)
Definition tail32_be_aligned (cfg : config) (p tail : N) : M N :=
  if fast_oneshot cfg then
    let shift := N.shiftl (off4 cfg tail) 3 in
    w <- fetch32_be_aligned cfg p ;; ret (shr32 w shift)
  else if big_endian cfg then
    tail32_be_words cfg (fetch16_be_aligned cfg) (fetch32_be_aligned cfg) p tail
  else tail32_be_bytes cfg p tail.

(** src/t1ha0.c:186-232 *)
Definition tail32_be_unaligned (cfg : config) (p tail : N) : M N :=
  if has_underside cfg then
    let offset := off4 cfg tail in
    let shift := N.shiftl offset 3 in
    if can_read_underside cfg p 4 then
      w <- fetch32_be_unaligned cfg (psub cfg p offset) ;;
      ret (N.land w (shr32 ones32 shift))
    else
      w <- fetch32_be_unaligned cfg p ;; ret (shr32 w shift)
  else if is_efficient cfg && big_endian cfg then
    tail32_be_words cfg (fetch16_be_unaligned cfg) (fetch32_be_unaligned cfg) p tail
  else tail32_be_bytes cfg p tail.

(** src/t1ha0.c:236-240 (and [_rotr], t1ha_bits.h:259) *)
Definition rot32 (v s : N) : N :=
  let v := u32 v in N.lor (shr32 v s) (shl32 v (32 - s)).

(** src/t1ha0.c:242-247: new values of [*a] and [*b]. *)
Definition mixup32 (a b v prime : N) : N * N :=
  let l := mul_32x32_64 (add32 b v) prime in
  (N.lxor a (u32 l), add32 b (u32 (shr64 l 32))).

(** src/t1ha0.c:249-257 *)
Definition final32 (a b : N) : N :=
  let a := u32 a in let b := u32 b in
  let l := N.lor (N.lxor b (rot32 a 13)) (shl64 a 32) in
  let l := mul64 l prime_0 in
  let l := N.lxor l (shr64 l 41) in
  let l := mul64 l prime_4 in
  let l := N.lxor l (shr64 l 47) in
  mul64 l prime_6.

(** src/t1ha0.c:260-266 *)
Definition prime32_0 : N := 0x92D78269.
Definition prime32_1 : N := 0xCA9B4735.
Definition prime32_2 : N := 0xA4ABA1C3.
Definition prime32_3 : N := 0xF6499843.
Definition prime32_4 : N := 0x86F0FD61.
Definition prime32_5 : N := 0xCA2DA6FB.
Definition prime32_6 : N := 0xC4BB3575.
