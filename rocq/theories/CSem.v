(** The fragment of C used by t1ha: fixed-width words, memory, outcomes, and
    the build configuration.  Definitions only; lemmas are in CSemFacts.v. *)
From Coq Require Import NArith List Bool Strings.Byte.
From Verif Require Import Bytes.
Import ListNotations.
Local Open Scope N_scope.

(** ** Unsigned words.  [uintN_t] arithmetic is arithmetic modulo 2^N
    (used in every function of src/t1ha_bits.h:982-1229). *)
Notation W16 := 65536.
Notation W32 := 4294967296.
Notation W64 := 18446744073709551616.
Notation W128 := 340282366920938463463374607431768211456.

Definition u16 (x : N) : N := x mod W16.
Definition u32 (x : N) : N := x mod W32.
Definition u64 (x : N) : N := x mod W64.
Definition u128 (x : N) : N := x mod W128.

Definition add64 (x y : N) : N := u64 (x + y).
Definition sub64 (x y : N) : N := u64 (u64 x + W64 - u64 y).
Definition mul64 (x y : N) : N := u64 (x * y).
Definition not64 (x : N) : N := N.lxor (u64 x) 18446744073709551615.
Definition shl64 (x s : N) : N := u64 (N.shiftl x s).
Definition shr64 (x s : N) : N := N.shiftr (u64 x) s.

Definition add32 (x y : N) : N := u32 (x + y).
Definition mul32 (x y : N) : N := u32 (x * y).
Definition not32 (x : N) : N := N.lxor (u32 x) 4294967295.
Definition shl32 (x s : N) : N := u32 (N.shiftl x s).
Definition shr32 (x s : N) : N := N.shiftr (u32 x) s.

(** ** Outcomes of running C code. *)
Inductive undef_reason : Type :=
| MisalignedAccess   (* an access that promised alignment to the compiler *)
| BadMemcpy          (* memcpy with a null pointer or overlapping objects *)
| OverwideShift      (* shift count not below the width *)
| RestrictOverlap    (* objects reached through restrict pointers overlap *)
| NullCall           (* call through a null function pointer *)
| IllegalInstruction (* an instruction that the processor does not have or the system has not enabled *)
| UnreachableCode    (* __builtin_unreachable() reached *)
| BadArray.          (* an element of an array outside of it, or not yet set *)

Inductive outcome (A : Type) : Type :=
| Ok (a : A)                    (* normal return *)
| Fault (addr : N)              (* touched an unmapped byte *)
| Undef (why : undef_reason)    (* undefined behaviour *)
| Abort                         (* assert() failed in a debug build *)
| NoBuild                       (* this configuration does not compile *)
| Stuck.                        (* loop fuel exhausted (never in a theorem) *)
Arguments Ok {A} a.
Arguments Fault {A} addr.
Arguments Undef {A} why.
Arguments Abort {A}.
Arguments NoBuild {A}.
Arguments Stuck {A}.

(** ** Memory: an address holds a byte or is unmapped. *)
Definition mem : Type := N -> option byte.

Definition M (A : Type) : Type := mem -> outcome (A * mem).

Definition ret {A} (a : A) : M A := fun m => Ok (a, m).
Definition bind {A B} (x : M A) (k : A -> M B) : M B :=
  fun m => match x m with
           | Ok (a, m') => k a m'
           | Fault p => Fault p
           | Undef w => Undef w
           | Abort => Abort
           | NoBuild => NoBuild
           | Stuck => Stuck
           end.
Notation "x <- e ;; k" := (bind e (fun x => k))
  (at level 61, e at next level, right associativity).
Notation "e ;;; k" := (bind e (fun _ => k))
  (at level 61, right associativity).

Definition fault {A} (p : N) : M A := fun _ => Fault p.
Definition undef {A} (w : undef_reason) : M A := fun _ => Undef w.
Definition abort {A} : M A := fun _ => Abort.
Definition nobuild {A} : M A := fun _ => NoBuild.
Definition stuck {A} : M A := fun _ => Stuck.

(** One byte load [p[i]]. *)
Definition load8 (p : N) : M byte :=
  fun m => match m p with Some b => Ok (b, m) | None => Fault p end.

(** [n] consecutive bytes starting at [p], in address order. *)
Fixpoint load_bytes (n : nat) (p : N) : M (list byte) :=
  match n with
  | O => ret []
  | S k => b <- load8 p ;; r <- load_bytes k (p + 1) ;; ret (b :: r)
  end.

(** Memory after writing the bytes [l] at [p]. *)
Definition write (m : mem) (p : N) (l : list byte) : mem :=
  fun x => if (p <=? x) && (x <? p + N.of_nat (length l))
           then nth_error l (N.to_nat (x - p)) else m x.

Fixpoint check_mapped (n : nat) (p : N) : M unit :=
  match n with
  | O => ret tt
  | S k => load8 p ;;; check_mapped k (p + 1)
  end.

(** Store the bytes [l] at [p]; all of them must be mapped. *)
Definition store_bytes (p : N) (l : list byte) : M unit :=
  check_mapped (length l) p ;;; (fun m => Ok (tt, write m p l)).

(** ** Build configuration: one field per preprocessor decision. *)

(** T1HA_SYS_UNALIGNED_ACCESS, src/t1ha_bits.h:71-89. *)
Inductive unaligned_mode : Type := Unable | Slow | Efficient.

(** The three bodies of [mul_64x64_128], src/t1ha_bits.h:1036-1067 (and the
    MSVC [_umul128] at :264, which is the native one). *)
Inductive mul_impl : Type := MulNative | MulHigh | MulPortable.

(** The carry helpers: a compiler builtin (src/t1ha_bits.h:201-227, 265-270,
    998-1001), the portable comparison (1003-1004), or the 32-bit MSVC pair of
    32-bit additions (282-330). *)
Inductive carry_impl : Type := CarryBuiltin | CarryPortable | CarryMsvc32.

(** How two 64-bit halves are taken out of a vector register,
    src/t1ha0_ia32aes_a.h:109-130 and src/t1ha0_ia32aes_b.h:96-117. *)
Inductive simd_impl : Type := SimdX64Sse41 | SimdX64 | SimdX86Sse41 | SimdX86.

Record config : Type := {
  big_endian : bool;         (* __BYTE_ORDER__ *)
  ptr64 : bool;              (* UINTPTR_MAX > 0xffffFFFF, also sizeof(size_t) = 8 *)
  ulong64 : bool;            (* ULONG_MAX > 0xffffFFFF *)
  ia32 : bool;               (* __ia32__ *)
  unaligned : unaligned_mode;(* T1HA_SYS_UNALIGNED_ACCESS *)
  oneshot : bool;            (* T1HA_USE_FAST_ONESHOT_READ, t1ha_bits.h:53-59 *)
  asan : bool;               (* __SANITIZE_ADDRESS__ *)
  pagesize : N;              (* PAGESIZE, t1ha_bits.h:99-101 *)
  mul : mul_impl;
  carry : carry_impl;
  int128 : bool;             (* native 128-bit type for the *128 helpers *)
  swap_builtin : bool;       (* bswapNN is a compiler builtin *)
  ndebug : bool;             (* NDEBUG: assert() compiled out *)
  off_total : N;             (* offsetof(t1ha_context_t, total) *)
  simd : simd_impl
}.

(** UINTPTR_MAX > 0xffffFFFFul || ULONG_MAX > 0xffffFFFFul, t1ha_bits.h:93. *)
Definition wide (cfg : config) : bool := ptr64 cfg || ulong64 cfg.

(** T1HA_USE_FAST_ONESHOT_READ && !defined(__SANITIZE_ADDRESS__),
    t1ha_bits.h:607. *)
Definition fast_oneshot (cfg : config) : bool := oneshot cfg && negb (asan cfg).

Definition is_efficient (cfg : config) : bool :=
  match unaligned cfg with Efficient => true | _ => false end.
Definition is_unable (cfg : config) : bool :=
  match unaligned cfg with Unable => true | _ => false end.

(** Whether the macro can_read_underside is defined, t1ha_bits.h:676-678. *)
Definition has_underside (cfg : config) : bool :=
  oneshot cfg && negb (is_unable cfg) && (42 <? pagesize cfg) && negb (asan cfg).

(** Size of the address space and of size_t. *)
Definition addr_space (cfg : config) : N := if ptr64 cfg then W64 else W32.
Definition sizeof_ptr (cfg : config) : nat := if ptr64 cfg then 8%nat else 4%nat.

(** Pointer arithmetic wraps at the size of the address space. *)
Definition padd (cfg : config) (p k : N) : N := (p + k) mod addr_space cfg.
Definition psub (cfg : config) (p k : N) : N :=
  (p + addr_space cfg - k mod addr_space cfg) mod addr_space cfg.

(** assert(c): only in debug builds. *)
Definition assert_ (cfg : config) (c : bool) : M unit :=
  if ndebug cfg then ret tt else if c then ret tt else abort.

(** Native load / store of an n-byte unsigned integer. *)
Definition load_uint (cfg : config) (n : nat) (p : N) : M N :=
  l <- load_bytes n p ;; ret (if big_endian cfg then be_num l else le_num l).
Definition store_uint (cfg : config) (n : nat) (p v : N) : M unit :=
  store_bytes p (if big_endian cfg then be_bytes n v else le_bytes n v).

(** [memcpy(dst, src, n)]: undefined for null pointers (C11 7.24.1p2, even if
    n = 0) and for overlapping objects; otherwise copies n bytes. *)
Definition memcpy (cfg : config) (dst src n : N) : M unit :=
  if (dst =? 0) || (src =? 0) then undef BadMemcpy
  else if (src <? dst + n) && (dst <? src + n) && negb (n =? 0) then undef BadMemcpy
  else l <- load_bytes (N.to_nat n) src ;; store_bytes dst l.

(** do { body } while (cond) with explicit fuel. *)
Fixpoint do_while {S : Type} (fuel : nat) (body : S -> M S) (cond : S -> bool)
         (s : S) : M S :=
  match fuel with
  | O => stuck
  | Datatypes.S f => s' <- body s ;; if cond s' then do_while f body cond s' else ret s'
  end.
