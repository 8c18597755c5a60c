(** Model of tests/stadtx/stadtx_hash.h and tests/stadtx/stadtx_thunk.c.
    Definitions only.  The array [state] is local to the callers and passed as
    four values. *)
From Coq Require Import NArith List Bool Strings.Byte.
From Verif Require Import Bytes CSem Bits T1ha2.
Import ListNotations.
Local Open Scope N_scope.

(** tests/stadtx/stadtx_hash.h:12-13 *)
Definition ROTL64 (x r : N) : N := rot64 x (64 - r).
Definition ROTR64 (x r : N) : N := rot64 x r.

(** STADTX_SCRAMBLE64, tests/stadtx/stadtx_hash.h:25-34 *)
Definition STADTX_SCRAMBLE64 (v prime : N) : N :=
  let v := N.lxor v (shr64 v 13) in
  let v := N.lxor v (shl64 v 35) in
  let v := N.lxor v (shr64 v 30) in
  let v := mul64 v prime in
  let v := N.lxor v (shr64 v 19) in
  let v := N.lxor v (shl64 v 15) in
  N.lxor v (shr64 v 46).

(** tests/stadtx/stadtx_hash.h:48-59: the state before it is scrambled *)
Definition stadtx_masks (seed0 seed1 : N) : N * N * N * N :=
  let state0 := N.lxor seed0 0x43f6a8885a308d31 in
  let state1 := N.lxor seed1 0x3198a2e03707344a in
  let state2 := N.lxor seed0 0x4093822299f31d00 in
  let state3 := N.lxor seed1 0x82efa98ec4e6c894 in
  let state0 := if state0 =? 0 then 1 else state0 in
  let state1 := if state1 =? 0 then 2 else state1 in
  let state2 := if state2 =? 0 then 4 else state2 in
  let state3 := if state3 =? 0 then 8 else state3 in
  (state0, state1, state2, state3).
(** tests/stadtx/stadtx_hash.h:36-73 *)
Definition stadtx_seed_state (seed0 seed1 : N) : N * N * N * N :=
  let '(state0, state1, state2, state3) := stadtx_masks seed0 seed1 in
  let state0 := STADTX_SCRAMBLE64 state0 0x801178846e899d17 in
  let state0 := STADTX_SCRAMBLE64 state0 0xdd51e5d1c9a5a151 in
  let state1 := STADTX_SCRAMBLE64 state1 0x93a7d6c8c62e4835 in
  let state1 := STADTX_SCRAMBLE64 state1 0x803340f36895c2b5 in
  let state2 := STADTX_SCRAMBLE64 state2 0xbea9344eb7565eeb in
  let state2 := STADTX_SCRAMBLE64 state2 0xcd95d1e509b995cd in
  let state3 := STADTX_SCRAMBLE64 state3 0x9999791977e30c13 in
  let state3 := STADTX_SCRAMBLE64 state3 0xaab8b6b05abfc6cd in
  (state0, state1, state2, state3).

(** tests/stadtx/stadtx_hash.h:75-83 *)
Definition STADTX_K0_uint64_t : N := 0xb89b0f8e1655514f.
Definition STADTX_K1_uint64_t : N := 0x8c6f736011bd5127.
Definition STADTX_K2_uint64_t : N := 0x8f29bd94edce7b39.
Definition STADTX_K3_uint64_t : N := 0x9c1b8e1e9628323f.
Definition STADTX_K2_uint32_t : N := 0x802910e3.
Definition STADTX_K3_uint32_t : N := 0x819b13af.
Definition STADTX_K4_uint32_t : N := 0x91cb27e5.
Definition STADTX_K5_uint32_t : N := 0xc1a269c1.

(** a byte of the key *)
Definition stadtx_byte (cfg : config) (key i : N) : M N := b <- load8 (padd cfg key i) ;; ret (b2n b).

(** One case of the switch of tests/stadtx/stadtx_hash.h:93-115; they are alike *)
Definition stadtx_short_word (cfg : config) (x : N * N * N) : M (N * N * N) :=
  let '(v0, v1, key) := x in
  w <- fetch64_le_unaligned cfg key ;;
  let v0 := add64 v0 (mul64 w STADTX_K3_uint64_t) in
  let v0 := N.lxor (ROTR64 v0 17) v1 in
  let v1 := add64 (ROTR64 v1 53) v0 in
  ret (v0, v1, padd cfg key 8).

(** tests/stadtx/stadtx_hash.h:116-141 *)
Definition stadtx_short_tail (cfg : config) (len : N) (x : N * N * N) : M (N * N) :=
  let '(v0, v1, key) := x in
  let r := N.land len 7 in
  if 4 <=? r then
    v0 <- when (7 <=? r) (fun v0 => b <- stadtx_byte cfg key 6 ;; ret (add64 v0 (shl64 b 32))) v0 ;;
    v1 <- when (6 <=? r) (fun v1 => b <- stadtx_byte cfg key 5 ;; ret (add64 v1 (shl64 b 48))) v1 ;;
    v0 <- when (5 <=? r) (fun v0 => b <- stadtx_byte cfg key 4 ;; ret (add64 v0 (shl64 b 16))) v0 ;;
    w <- fetch32_le_unaligned cfg key ;;
    ret (v0, add64 v1 w)
  else if 2 <=? r then
    v0 <- when (3 <=? r) (fun v0 => b <- stadtx_byte cfg key 2 ;; ret (add64 v0 (shl64 b 48))) v0 ;;
    w <- fetch16_le_unaligned cfg key ;;
    ret (v0, add64 v1 w)
  else
    v0 <- when (1 <=? r) (fun v0 => b <- stadtx_byte cfg key 0 ;; ret (add64 v0 b)) v0 ;;
    ret (v0, N.lxor (ROTL64 v1 32) 0xFF).

(** tests/stadtx/stadtx_hash.h:142-155 *)
Definition stadtx_short_final (x : N * N) : N :=
  let '(v0, v1) := x in
  let v1 := N.lxor v1 v0 in
  let v0 := add64 (ROTR64 v0 33) v1 in
  let v1 := N.lxor (ROTL64 v1 17) v0 in
  let v0 := add64 (ROTL64 v0 43) v1 in
  let v1 := sub64 (ROTL64 v1 31) v0 in
  let v0 := N.lxor (ROTL64 v0 13) v1 in
  let v1 := sub64 v1 v0 in
  let v0 := add64 (ROTL64 v0 41) v1 in
  let v1 := N.lxor (ROTL64 v1 37) v0 in
  let v0 := add64 (ROTR64 v0 39) v1 in
  let v1 := add64 (ROTR64 v1 15) v0 in
  let v0 := N.lxor (ROTL64 v0 15) v1 in
  let v1 := ROTR64 v1 5 in
  N.lxor v0 v1.

(** The body of the loop of tests/stadtx/stadtx_hash.h:160-171 *)
Definition stadtx_loop (cfg : config) (x : N * N * N * N * N * N) : M (N * N * N * N * N * N) :=
  let '(v0, v1, v2, v3, key, len) := x in
  w0 <- fetch64_le_unaligned cfg (padd cfg key 0) ;;
  let v0 := add64 v0 (mul64 w0 STADTX_K2_uint32_t) in
  let v0 := N.lxor (ROTL64 v0 57) v3 in
  w1 <- fetch64_le_unaligned cfg (padd cfg key 8) ;;
  let v1 := add64 v1 (mul64 w1 STADTX_K3_uint32_t) in
  let v1 := N.lxor (ROTL64 v1 63) v2 in
  w2 <- fetch64_le_unaligned cfg (padd cfg key 16) ;;
  let v2 := add64 v2 (mul64 w2 STADTX_K4_uint32_t) in
  let v2 := add64 (ROTR64 v2 47) v0 in
  w3 <- fetch64_le_unaligned cfg (padd cfg key 24) ;;
  let v3 := add64 v3 (mul64 w3 STADTX_K5_uint32_t) in
  let v3 := sub64 (ROTR64 v3 11) v1 in
  ret (v0, v1, v2, v3, padd cfg key 32, sub64 len 32).

(** tests/stadtx/stadtx_hash.h:173-190 *)
Definition stadtx_long_words (cfg : config) (x : N * N * N * N * N * N) : M (N * N * N * N * N * N) :=
  let '(v0, v1, v2, v3, key, len) := x in
  let n := shr64 len 3 in
  vk <- when (3 <=? n) (fun vk : N * N => let '(v0, key) := vk in
          w <- fetch64_le_unaligned cfg key ;;
          let v0 := add64 v0 (mul64 w STADTX_K2_uint32_t) in
          ret (N.lxor (ROTL64 v0 57) v3, padd cfg key 8)) (v0, key) ;;
  let '(v0, key) := vk in
  vk <- when (2 <=? n) (fun vk : N * N => let '(v1, key) := vk in
          w <- fetch64_le_unaligned cfg key ;;
          let v1 := add64 v1 (mul64 w STADTX_K3_uint32_t) in
          ret (N.lxor (ROTL64 v1 63) v2, padd cfg key 8)) (v1, key) ;;
  let '(v1, key) := vk in
  vk <- when (1 <=? n) (fun vk : N * N => let '(v2, key) := vk in
          w <- fetch64_le_unaligned cfg key ;;
          let v2 := add64 v2 (mul64 w STADTX_K4_uint32_t) in
          ret (add64 (ROTR64 v2 47) v0, padd cfg key 8)) (v2, key) ;;
  let '(v2, key) := vk in
  let v3 := sub64 (ROTR64 v3 11) v1 in
  let v0 := N.lxor v0 (mul64 (add64 len 1) STADTX_K3_uint64_t) in
  ret (v0, v1, v2, v3, key, len).

(** tests/stadtx/stadtx_hash.h:191-217 *)
Definition stadtx_long_tail (cfg : config) (x : N * N * N * N * N * N) : M (N * N * N * N) :=
  let '(v0, v1, v2, v3, key, len) := x in
  let r := N.land len 7 in
  if 6 <=? r then
    v1 <- when (7 <=? r) (fun v1 => b <- stadtx_byte cfg key 6 ;; ret (add64 v1 b)) v1 ;;
    w <- fetch16_le_unaligned cfg (padd cfg key 4) ;;
    z <- fetch32_le_unaligned cfg key ;;
    ret (v0, v1, add64 v2 w, add64 v3 z)
  else if 4 <=? r then
    v1 <- when (5 <=? r) (fun v1 => b <- stadtx_byte cfg key 4 ;; ret (add64 v1 b)) v1 ;;
    w <- fetch32_le_unaligned cfg key ;;
    ret (v0, v1, add64 v2 w, v3)
  else if 2 <=? r then
    v3 <- when (3 <=? r) (fun v3 => b <- stadtx_byte cfg key 2 ;; ret (add64 v3 b)) v3 ;;
    w <- fetch16_le_unaligned cfg key ;;
    ret (v0, add64 v1 w, v2, v3)
  else
    v2 <- when (1 <=? r) (fun v2 => b <- stadtx_byte cfg key 0 ;; ret (add64 v2 b)) v2 ;;
    ret (v0, v1, v2, N.lxor (ROTL64 v3 32) 0xFF).

(** tests/stadtx/stadtx_hash.h:219-247 *)
Definition stadtx_long_final (x : N * N * N * N) : N :=
  let '(v0, v1, v2, v3) := x in
  let v1 := sub64 v1 v2 in
  let v0 := ROTR64 v0 19 in
  let v1 := sub64 v1 v0 in
  let v1 := ROTR64 v1 53 in
  let v3 := N.lxor v3 v1 in
  let v0 := sub64 v0 v3 in
  let v3 := ROTL64 v3 43 in
  let v0 := add64 v0 v3 in
  let v0 := ROTR64 v0 3 in
  let v3 := sub64 v3 v0 in
  let v2 := sub64 (ROTR64 v2 43) v3 in
  let v2 := N.lxor (ROTL64 v2 55) v0 in
  let v1 := sub64 v1 v2 in
  let v3 := sub64 (ROTR64 v3 7) v2 in
  let v2 := ROTR64 v2 31 in
  let v3 := add64 v3 v2 in
  let v2 := sub64 v2 v1 in
  let v3 := ROTR64 v3 39 in
  let v2 := N.lxor v2 v3 in
  let v3 := N.lxor (ROTR64 v3 17) v2 in
  let v1 := add64 v1 v3 in
  let v1 := ROTR64 v1 9 in
  let v2 := N.lxor v2 v1 in
  let v2 := ROTL64 v2 24 in
  let v3 := N.lxor v3 v2 in
  let v3 := ROTR64 v3 59 in
  let v0 := sub64 (ROTR64 v0 1) v1 in
  N.lxor (N.lxor (N.lxor v0 v1) v2) v3.

(** tests/stadtx/stadtx_hash.h:85-249; [key_len + 1] and so on are of type
    size_t. *)
Definition stadtx_hash_with_state (cfg : config) (state : N * N * N * N) (key key_len : N) : M N :=
  let '(state0, state1, state2, state3) := state in
  let len := key_len in
  let v0 := N.lxor state0 (mul64 (padd cfg key_len 1) STADTX_K0_uint64_t) in
  let v1 := N.lxor state1 (mul64 (padd cfg key_len 2) STADTX_K1_uint64_t) in
  if len <? 32 then
    let n := shr64 len 3 in
    x <- when (3 <=? n) (stadtx_short_word cfg) (v0, v1, key) ;;
    x <- when (2 <=? n) (stadtx_short_word cfg) x ;;
    x <- when (1 <=? n) (stadtx_short_word cfg) x ;;
    y <- stadtx_short_tail cfg len x ;;
    ret (stadtx_short_final y)
  else
    let v2 := N.lxor state2 (mul64 (padd cfg key_len 3) STADTX_K2_uint64_t) in
    let v3 := N.lxor state3 (mul64 (padd cfg key_len 4) STADTX_K3_uint64_t) in
    x <- do_while (N.to_nat (len / 32)) (stadtx_loop cfg)
           (fun x : N * N * N * N * N * N => 32 <=? snd x) (v0, v1, v2, v3, key, len) ;;
    x <- stadtx_long_words cfg x ;;
    y <- stadtx_long_tail cfg x ;;
    ret (stadtx_long_final y).

(** tests/stadtx/stadtx_hash.h:251-256 *)
Definition stadtx_hash (cfg : config) (seed0 seed1 : N) (key key_len : N) : M N :=
  stadtx_hash_with_state cfg (stadtx_seed_state seed0 seed1) key key_len.

(** tests/stadtx/stadtx_thunk.c:25-28 *)
Definition thunk_StadtX (cfg : config) (input length seed : N) : M N :=
  stadtx_hash_with_state cfg (seed, seed, seed, seed) input length.
