(** Model of tests/wyhash/wyhash.h and tests/wyhash/wyhash_thunk.c.  Definitions
    only.  WYHASH_CONDOM is 1 and WYHASH_32BIT_MUM is 0 there (lines 5-8). *)
From Coq Require Import NArith List Bool Strings.Byte.
From Verif Require Import Bytes CSem Bits.
Import ListNotations.
Local Open Scope N_scope.

(** tests/wyhash/wyhash.h:25-70: [*A] and [*B] afterwards.  [native]: whether the
    compiler has a 128-bit product (lines 37-54) or not (lines 55-69). *)
Definition _wymum (native : bool) (A B : N) : N * N :=
  if native then
    let r := u128 (A * B) in (u64 r, u64 (N.shiftr r 64))
  else
    let ha := shr64 A 32 in
    let hb := shr64 B 32 in
    let la := u32 A in
    let lb := u32 B in
    let rh := mul64 ha hb in
    let rm0 := mul64 ha lb in
    let rm1 := mul64 hb la in
    let rl := mul64 la lb in
    let t := add64 rl (shl64 rm0 32) in
    let c := if t <? rl then 1 else 0 in
    let lo := add64 t (shl64 rm1 32) in
    let c := add64 c (if lo <? t then 1 else 0) in
    let hi := add64 (add64 (add64 rh (shr64 rm0 32)) (shr64 rm1 32)) c in
    (lo, hi).
(** tests/wyhash/wyhash.h:71-74 *)
Definition _wymix (native : bool) (A B : N) : N :=
  let '(a, b) := _wymum native A B in N.lxor a b.

(** tests/wyhash/wyhash.h:75-117: memcpy() to a local variable, and a byte swap
    on big-endian machines *)
Definition _wyr8 (cfg : config) (p : N) : M N :=
  v <- load_uint cfg 8 p ;; ret (if big_endian cfg then be_num (le_bytes 8 v) else v).
Definition _wyr4 (cfg : config) (p : N) : M N :=
  v <- load_uint cfg 4 p ;; ret (if big_endian cfg then be_num (le_bytes 4 v) else v).
(** tests/wyhash/wyhash.h:118-120 *)
Definition _wyr3 (cfg : config) (p k : N) : M N :=
  x <- load8 p ;; y <- load8 (padd cfg p (shr32 k 1)) ;; z <- load8 (padd cfg p (k - 1)) ;;
  ret (N.lor (N.lor (shl64 (b2n x) 16) (shl64 (b2n y) 8)) (b2n z)).

(** [secret[i]]: an element of an array of uint64_t at address [secret] *)
Definition wysecret (cfg : config) (secret : N) (i : N) : M N := load_uint cfg 8 (padd cfg secret (8 * i)).

(** tests/wyhash/wyhash.h:122-148 *)
Definition _wyfinish16 (cfg : config) (native : bool) (p len seed secret i : N) : M N :=
  ab <- (if i <=? 8 then
           if 4 <=? i then
             a <- _wyr4 cfg p ;; b <- _wyr4 cfg (psub cfg (padd cfg p i) 4) ;; ret (a, b)
           else if negb (i =? 0) then
             a <- _wyr3 cfg p (u32 i) ;; ret (a, 0)
           else ret (0, 0)
         else
           a <- _wyr8 cfg p ;; b <- _wyr8 cfg (psub cfg (padd cfg p i) 8) ;; ret (a, b)) ;;
  s1 <- wysecret cfg secret 1 ;;
  ret (_wymix native (N.lxor s1 len) (_wymix native (N.lxor (fst ab) s1) (N.lxor (snd ab) seed))).

(** tests/wyhash/wyhash.h:150-158.  The fuel is the depth of the recursion. *)
Fixpoint _wyfinish (fuel : nat) (cfg : config) (native : bool) (p len seed secret i : N) : M N :=
  if i <=? 16 then _wyfinish16 cfg native p len seed secret i
  else match fuel with
       | O => stuck
       | S fuel =>
           w0 <- _wyr8 cfg p ;;
           s1 <- wysecret cfg secret 1 ;;
           w1 <- _wyr8 cfg (padd cfg p 8) ;;
           _wyfinish fuel cfg native (padd cfg p 16) len (_wymix native (N.lxor w0 s1) (N.lxor w1 seed)) secret (sub64 i 16)
       end.

(** The body of the loop of tests/wyhash/wyhash.h:167-174 *)
Definition wyhash_step (cfg : config) (native : bool) (secret : N) (x : N * N * N * N) : M (N * N * N * N) :=
  let '(seed, see1, p, i) := x in
  w0 <- _wyr8 cfg p ;; s1 <- wysecret cfg secret 1 ;; w1 <- _wyr8 cfg (padd cfg p 8) ;;
  w2 <- _wyr8 cfg (padd cfg p 16) ;; s2 <- wysecret cfg secret 2 ;; w3 <- _wyr8 cfg (padd cfg p 24) ;;
  let seed' := N.lxor (_wymix native (N.lxor w0 s1) (N.lxor w1 seed)) (_wymix native (N.lxor w2 s2) (N.lxor w3 seed)) in
  w4 <- _wyr8 cfg (padd cfg p 32) ;; s3 <- wysecret cfg secret 3 ;; w5 <- _wyr8 cfg (padd cfg p 40) ;;
  w6 <- _wyr8 cfg (padd cfg p 48) ;; s4 <- wysecret cfg secret 4 ;; w7 <- _wyr8 cfg (padd cfg p 56) ;;
  let see1' := N.lxor (_wymix native (N.lxor w4 s3) (N.lxor w5 see1)) (_wymix native (N.lxor w6 s4) (N.lxor w7 see1)) in
  ret (seed', see1', padd cfg p 64, sub64 i 64).

(** tests/wyhash/wyhash.h:160-178 *)
Definition wyhash (cfg : config) (native : bool) (key len seed secret : N) : M N :=
  s0 <- wysecret cfg secret 0 ;;
  let seed := N.lxor seed s0 in
  r <- (if 64 <? len then
          x <- do_while (N.to_nat (len / 64)) (wyhash_step cfg native secret)
                 (fun x : N * N * N * N => 64 <? snd x) (seed, seed, key, len) ;;
          let '(seed, see1, p, i) := x in ret (N.lxor seed see1, p, i)
        else ret (seed, key, len)) ;;
  let '(seed, p, i) := r in
  _wyfinish 4 cfg native p len seed secret i.

(** _wyp, tests/wyhash/wyhash.h:180-182 *)
Definition _wyp : list N :=
  [0xa0761d6478bd642f; 0xe7037ed1a0b428db; 0x8ebc6af09c88c6e3; 0x589965cc75374cc3; 0x1d8e4e27c47d124f].

(** tests/wyhash/wyhash_thunk.c:25-27; [wyp] is the address of [_wyp]. *)
Definition thunk_wyhash_v7 (cfg : config) (native : bool) (wyp input length seed : N) : M N :=
  wyhash cfg native input length seed wyp.

(** tests/wyhash/wyhash_thunk.c:29-46: length, seed and recorded value of the
    string literals; the first "string" is NULL *)
Definition wyhash_selftest_values : list (N * N * N) :=
  [(0, 0, 0x42bc986dc5eec4d3); (1, 1, 0x84508dc903c31551); (3, 2, 0xbc54887cfc9ecb1); (14, 3, 0xadc146444841c430);
   (26, 4, 0x4c0977bd4f14f34a); (62, 5, 0x6f8bd609a8a276d2); (80, 6, 0x498d7c21668259ad)].
(** [strings]: the addresses of the literals *)
Fixpoint wyhash_selftest_from (cfg : config) (native : bool) (wyp : N) (strings : list N) (l : list (N * N * N)) (failed : bool)
  : M bool :=
  match strings, l with
  | s :: strings, (len, seed, expected) :: l =>
      v <- wyhash cfg native s len seed wyp ;;
      wyhash_selftest_from cfg native wyp strings l (failed || negb (v =? expected))
  | _, _ => ret failed
  end.
Definition wyhash_v7_selftest (cfg : config) (native : bool) (wyp : N) (strings : list N) : M bool :=
  wyhash_selftest_from cfg native wyp strings wyhash_selftest_values false.

