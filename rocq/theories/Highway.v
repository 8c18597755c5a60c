(** Model of HighwayHash in C, tests/highwayhash/pure_c.c, of its check
    tests/highwayhash/verifier.c and of the function that the test program uses,
    tests/bench.c:69-73.  Definitions only.

    Simplifications: objects of type HighwayHashState, the results [hash[2]] and
    [hash[4]], the array [key] and local arrays are values; of a HighwayHashCat the
    member [packet] is in memory and the other members are values. *)
From Coq Require Import NArith List Bool Strings.Byte.
From Verif Require Import Bytes CSem Bits T1ha2.
Import ListNotations.
Local Open Scope N_scope.

(** an array of four uint64_t *)
Definition quad : Type := (N * N * N * N)%type.
(** HighwayHashState, tests/highwayhash/pure_c.h:13-18 *)
Record HighwayHashState : Type := HHS { hh_v0 : quad; hh_v1 : quad; hh_mul0 : quad; hh_mul1 : quad }.

(** [(x >> 32) | (x << 32)] in tests/highwayhash/pure_c.c:27-30, 115-118 *)
Definition hh_swap (x : N) : N := N.lor (shr64 x 32) (shl64 x 32).

(** tests/highwayhash/pure_c.c:14-31 *)
Definition HighwayHashReset_pure_c (key : quad) : HighwayHashState :=
  let '(k0, k1, k2, k3) := key in
  let m00 := 0xdbe6d5d5fe4cce2f in let m01 := 0xa4093822299f31d0 in
  let m02 := 0x13198a2e03707344 in let m03 := 0x243f6a8885a308d3 in
  let m10 := 0x3bd39e10cb0ef593 in let m11 := 0xc0acf169b5f18a8c in
  let m12 := 0xbe5466cf34e90c6c in let m13 := 0x452821e638d01377 in
  HHS (N.lxor m00 k0, N.lxor m01 k1, N.lxor m02 k2, N.lxor m03 k3)
      (N.lxor m10 (hh_swap k0), N.lxor m11 (hh_swap k1), N.lxor m12 (hh_swap k2), N.lxor m13 (hh_swap k3))
      (m00, m01, m02, m03) (m10, m11, m12, m13).

(** tests/highwayhash/pure_c.c:33-43: [*add1] and [*add0] afterwards *)
Definition ZipperMergeAndAdd (v1 v0 add1 add0 : N) : N * N :=
  let x0 :=
    N.lor (N.lor (N.lor (N.lor (N.lor
      (shr64 (N.lor (N.land v0 0xff000000) (N.land v1 0xff00000000)) 24)
      (shr64 (N.lor (N.land v0 0xff0000000000) (N.land v1 0xff000000000000)) 16))
      (N.land v0 0xff0000)) (shl64 (N.land v0 0xff00) 32))
      (shr64 (N.land v1 0xff00000000000000) 8)) (shl64 v0 56) in
  let x1 :=
    N.lor (N.lor (N.lor (N.lor (N.lor (N.lor
      (shr64 (N.lor (N.land v1 0xff000000) (N.land v0 0xff00000000)) 24)
      (N.land v1 0xff0000)) (shr64 (N.land v1 0xff0000000000) 16))
      (shl64 (N.land v1 0xff00) 24)) (shr64 (N.land v0 0xff000000000000) 8))
      (shl64 (N.land v1 0xff) 48)) (N.land v0 0xff00000000000000) in
  (add64 add1 x1, add64 add0 x0).

(** the loop body of tests/highwayhash/pure_c.c:47-52 for one [i]: v0[i], v1[i],
    mul0[i], mul1[i] afterwards *)
Definition Update_lane (v0 v1 mul0 mul1 lane : N) : N * N * N * N :=
  let v1 := add64 v1 (add64 mul0 lane) in
  let mul0 := N.lxor mul0 (mul64 (N.land v1 0xffffffff) (shr64 v0 32)) in
  let v0 := add64 v0 mul1 in
  let mul1 := N.lxor mul1 (mul64 (N.land v0 0xffffffff) (shr64 v1 32)) in
  (v0, v1, mul0, mul1).
(** tests/highwayhash/pure_c.c:45-57 *)
Definition Update (lanes : quad) (state : HighwayHashState) : HighwayHashState :=
  let '(l0, l1, l2, l3) := lanes in
  let '(a0, a1, a2, a3) := hh_v0 state in
  let '(b0, b1, b2, b3) := hh_v1 state in
  let '(c0, c1, c2, c3) := hh_mul0 state in
  let '(d0, d1, d2, d3) := hh_mul1 state in
  let '(a0, b0, c0, d0) := Update_lane a0 b0 c0 d0 l0 in
  let '(a1, b1, c1, d1) := Update_lane a1 b1 c1 d1 l1 in
  let '(a2, b2, c2, d2) := Update_lane a2 b2 c2 d2 l2 in
  let '(a3, b3, c3, d3) := Update_lane a3 b3 c3 d3 l3 in
  let '(a1, a0) := ZipperMergeAndAdd b1 b0 a1 a0 in
  let '(a3, a2) := ZipperMergeAndAdd b3 b2 a3 a2 in
  let '(b1, b0) := ZipperMergeAndAdd a1 a0 b1 b0 in
  let '(b3, b2) := ZipperMergeAndAdd a3 a2 b3 b2 in
  HHS (a0, a1, a2, a3) (b0, b1, b2, b3) (c0, c1, c2, c3) (d0, d1, d2, d3).

(** tests/highwayhash/pure_c.c:59-64, for eight bytes at [src] that have been read *)
Definition Read64_of (src : list byte) : N :=
  let s i := b2n (nth i src x00) in
  N.lor (N.lor (N.lor (N.lor (N.lor (N.lor (N.lor
    (s 0%nat) (shl64 (s 1%nat) 8)) (shl64 (s 2%nat) 16)) (shl64 (s 3%nat) 24)) (shl64 (s 4%nat) 32))
    (shl64 (s 5%nat) 40)) (shl64 (s 6%nat) 48)) (shl64 (s 7%nat) 56).
Definition Read64 (src : N) : M N := l <- load_bytes 8 src ;; ret (Read64_of l).

(** tests/highwayhash/pure_c.c:66-74 for a packet in memory, and for a local array *)
Definition HighwayHashUpdatePacket_pure_c (cfg : config) (packet : N) (state : HighwayHashState) : M HighwayHashState :=
  l0 <- Read64 (padd cfg packet 0) ;;
  l1 <- Read64 (padd cfg packet 8) ;;
  l2 <- Read64 (padd cfg packet 16) ;;
  l3 <- Read64 (padd cfg packet 24) ;;
  ret (Update (l0, l1, l2, l3) state).
Definition UpdatePacket_local (packet : list byte) (state : HighwayHashState) : HighwayHashState :=
  let lane i := Read64_of (firstn 8 (skipn i packet)) in
  Update (lane 0%nat, lane 8%nat, lane 16%nat, lane 24%nat) state.

(** tests/highwayhash/pure_c.c:79-82 *)
Definition rotate_halves (count lane : N) : N :=
  let half0 := u32 (N.land lane 0xffffffff) in
  let half1 := u32 (shr64 lane 32) in
  let r := N.lor (shl32 half0 count) (shr32 half0 (32 - count)) in
  N.lor r (shl64 (N.lor (shl32 half1 count) (shr32 half1 (32 - count))) 32).
(** tests/highwayhash/pure_c.c:76-84: shifting by the width or more is undefined *)
Definition Rotate32By (count : N) (lanes : quad) : M quad :=
  if (count =? 0) || (32 <=? count) then undef OverwideShift
  else
    let '(l0, l1, l2, l3) := lanes in
    ret (rotate_halves count l0, rotate_halves count l1, rotate_halves count l2, rotate_halves count l3).

(** tests/highwayhash/pure_c.c:86-112; [packet] is a local array of 32 bytes *)
Definition HighwayHashUpdateRemainder_pure_c (cfg : config) (bytes size_mod32 : N) (state : HighwayHashState) : M HighwayHashState :=
  let size_mod4 := N.land size_mod32 3 in
  let whole := size_mod32 - size_mod4 in            (* size_mod32 & ~3 *)
  let remainder := padd cfg bytes whole in
  let pair := add64 (shl64 size_mod32 32) size_mod32 in
  let '(a0, a1, a2, a3) := hh_v0 state in
  let v0 := (add64 a0 pair, add64 a1 pair, add64 a2 pair, add64 a3 pair) in
  v1 <- Rotate32By size_mod32 (hh_v1 state) ;;
  let state := HHS v0 v1 (hh_mul0 state) (hh_mul1 state) in
  copied <- load_bytes (N.to_nat whole) bytes ;;
  let packet := copied ++ repeat x00 (32 - length copied) in
  if negb (N.land size_mod32 16 =? 0) then
    b0 <- load8 (psub cfg (padd cfg remainder (0 + size_mod4)) 4) ;;
    b1 <- load8 (psub cfg (padd cfg remainder (1 + size_mod4)) 4) ;;
    b2 <- load8 (psub cfg (padd cfg remainder (2 + size_mod4)) 4) ;;
    b3 <- load8 (psub cfg (padd cfg remainder (3 + size_mod4)) 4) ;;
    ret (UpdatePacket_local (firstn 28 packet ++ [b0; b1; b2; b3]) state)
  else if negb (size_mod4 =? 0) then
    b0 <- load8 (padd cfg remainder 0) ;;
    b1 <- load8 (padd cfg remainder (N.shiftr size_mod4 1)) ;;
    b2 <- load8 (padd cfg remainder (size_mod4 - 1)) ;;
    ret (UpdatePacket_local (firstn 16 packet ++ [b0; b1; b2] ++ skipn 19 packet) state)
  else ret (UpdatePacket_local packet state).

(** tests/highwayhash/pure_c.c:114-119 *)
Definition Permute (v : quad) : quad :=
  let '(v0, v1, v2, v3) := v in (hh_swap v2, hh_swap v3, hh_swap v0, hh_swap v1).
(** tests/highwayhash/pure_c.c:121-125 *)
Definition PermuteAndUpdate (state : HighwayHashState) : HighwayHashState := Update (Permute (hh_v0 state)) state.
(** the loops of tests/highwayhash/pure_c.c:136-138, 145-147, 159-161 *)
Definition PermuteAndUpdate_times (n : nat) (state : HighwayHashState) : HighwayHashState := Nat.iter n PermuteAndUpdate state.

(** tests/highwayhash/pure_c.c:127-132: [*m1] and [*m0] *)
Definition ModularReduction (a3_unmasked a2 a1 a0 : N) : N * N :=
  let a3 := N.land a3_unmasked 0x3FFFFFFFFFFFFFFF in
  (N.lxor (N.lxor a1 (N.lor (shl64 a3 1) (shr64 a2 63))) (N.lor (shl64 a3 2) (shr64 a2 62)),
   N.lxor (N.lxor a0 (shl64 a2 1)) (shl64 a2 2)).

(** tests/highwayhash/pure_c.c:134-140 *)
Definition HighwayHashFinalize64_pure_c (state : HighwayHashState) : N :=
  let state := PermuteAndUpdate_times 4 state in
  let '(a0, _, _, _) := hh_v0 state in let '(b0, _, _, _) := hh_v1 state in
  let '(c0, _, _, _) := hh_mul0 state in let '(d0, _, _, _) := hh_mul1 state in
  add64 (add64 (add64 a0 b0) c0) d0.
(** tests/highwayhash/pure_c.c:142-150: [hash[0]] and [hash[1]] *)
Definition HighwayHashFinalize128_pure_c (state : HighwayHashState) : N * N :=
  let state := PermuteAndUpdate_times 6 state in
  let '(a0, a1, _, _) := hh_v0 state in let '(_, _, b2, b3) := hh_v1 state in
  let '(c0, c1, _, _) := hh_mul0 state in let '(_, _, d2, d3) := hh_mul1 state in
  (add64 (add64 (add64 a0 c0) b2) d2, add64 (add64 (add64 a1 c1) b3) d3).
(** tests/highwayhash/pure_c.c:152-168: [hash[0]] to [hash[3]] *)
Definition HighwayHashFinalize256_pure_c (state : HighwayHashState) : quad :=
  let state := PermuteAndUpdate_times 10 state in
  let '(a0, a1, a2, a3) := hh_v0 state in let '(b0, b1, b2, b3) := hh_v1 state in
  let '(c0, c1, c2, c3) := hh_mul0 state in let '(d0, d1, d2, d3) := hh_mul1 state in
  let '(h1, h0) := ModularReduction (add64 b1 d1) (add64 b0 d0) (add64 a1 c1) (add64 a0 c0) in
  let '(h3, h2) := ModularReduction (add64 b3 d3) (add64 b2 d2) (add64 a3 c3) (add64 a2 c2) in
  (h0, h1, h2, h3).

(** the loop of tests/highwayhash/pure_c.c:176-178: [i] and the state at its end.
    [i + 32] is of type size_t. *)
Fixpoint ProcessAll_loop (fuel : nat) (cfg : config) (data size i : N) (state : HighwayHashState) : M (N * HighwayHashState) :=
  match fuel with
  | O => stuck
  | S f =>
      if padd cfg i 32 <=? size then
        state <- HighwayHashUpdatePacket_pure_c cfg (padd cfg data i) state ;;
        ProcessAll_loop f cfg data size (padd cfg i 32) state
      else ret (i, state)
  end.
(** tests/highwayhash/pure_c.c:172-181 *)
Definition ProcessAll (cfg : config) (data size : N) (key : quad) : M HighwayHashState :=
  x <- ProcessAll_loop (S (N.to_nat (size / 32))) cfg data size 0 (HighwayHashReset_pure_c key) ;;
  let '(i, state) := x in
  if negb (N.land size 31 =? 0) then HighwayHashUpdateRemainder_pure_c cfg (padd cfg data i) (N.land size 31) state
  else ret state.

(** tests/highwayhash/pure_c.c:183-202 *)
Definition HighwayHash64_key (cfg : config) (key : quad) (data size : N) : M N :=
  state <- ProcessAll cfg data size key ;; ret (HighwayHashFinalize64_pure_c state).
Definition HighwayHash128_key (cfg : config) (key : quad) (data size : N) : M (N * N) :=
  state <- ProcessAll cfg data size key ;; ret (HighwayHashFinalize128_pure_c state).
Definition HighwayHash256_key (cfg : config) (key : quad) (data size : N) : M quad :=
  state <- ProcessAll cfg data size key ;; ret (HighwayHashFinalize256_pure_c state).
(** the reads of the array [key] in tests/highwayhash/pure_c.c:23-30 *)
Definition load_key (cfg : config) (key : N) : M quad :=
  k0 <- load_uint cfg 8 (padd cfg key 0) ;; k1 <- load_uint cfg 8 (padd cfg key 8) ;;
  k2 <- load_uint cfg 8 (padd cfg key 16) ;; k3 <- load_uint cfg 8 (padd cfg key 24) ;; ret (k0, k1, k2, k3).
(** tests/highwayhash/pure_c.c:183-188 for a key in memory *)
Definition HighwayHash64_pure_c (cfg : config) (key data size : N) : M N :=
  k <- load_key cfg key ;; HighwayHash64_key cfg k data size.

(** tests/bench.c:69-73 *)
Definition thunk_HighwayHash64_pure_c (cfg : config) (input length seed : N) : M N :=
  HighwayHash64_key cfg (seed, seed, seed, seed) input length.

(** ** Appending with multiple calls *)
(** HighwayHashCat, tests/highwayhash/pure_c.h:50-54, without [packet] *)
Record HighwayHashCat : Type := HHC { cat_state : HighwayHashState; cat_num : N }.
(** tests/highwayhash/pure_c.c:206-209 *)
Definition HighwayHashCatStart_pure_c (key : quad) : HighwayHashCat := HHC (HighwayHashReset_pure_c key) 0.

(** the loops of tests/highwayhash/pure_c.c:216-218 and 232-235: one byte after the
    other *)
Fixpoint copy_each (cfg : config) (n : nat) (dst src : N) : M unit :=
  match n with
  | O => ret tt
  | S n => b <- load8 src ;; store_bytes dst [b] ;;; copy_each cfg n (padd cfg dst 1) (padd cfg src 1)
  end.
(** the loop of tests/highwayhash/pure_c.c:227-231 *)
Fixpoint CatAppend_loop (fuel : nat) (cfg : config) (bytes num : N) (state : HighwayHashState) : M (N * N * HighwayHashState) :=
  match fuel with
  | O => stuck
  | S f =>
      if 32 <=? num then
        state <- HighwayHashUpdatePacket_pure_c cfg bytes state ;;
        CatAppend_loop f cfg (padd cfg bytes 32) (psub cfg num 32) state
      else ret (bytes, num, state)
  end.
(** tests/highwayhash/pure_c.c:211-236; [packet] is [state->packet] *)
Definition HighwayHashCatAppend_pure_c (cfg : config) (packet bytes num : N) (cat : HighwayHashCat) : M HighwayHashCat :=
  x <- (if negb (cat_num cat =? 0) then
          let room := psub cfg 32 (cat_num cat) in
          let num_add := if room <? num then room else num in
          copy_each cfg (N.to_nat num_add) (padd cfg packet (cat_num cat)) bytes ;;;
          let n := padd cfg (cat_num cat) num_add in
          y <- (if n =? 32 then
                  state <- HighwayHashUpdatePacket_pure_c cfg packet (cat_state cat) ;; ret (HHC state 0)
                else ret (HHC (cat_state cat) n)) ;;
          ret (padd cfg bytes num_add, psub cfg num num_add, y)
        else ret (bytes, num, cat)) ;;
  let '(bytes, num, cat) := x in
  y <- CatAppend_loop (S (N.to_nat (num / 32))) cfg bytes num (cat_state cat) ;;
  let '(bytes, num, state) := y in
  copy_each cfg (N.to_nat num) (padd cfg packet (cat_num cat)) bytes ;;;
  ret (HHC state (padd cfg (cat_num cat) num)).

(** tests/highwayhash/pure_c.c:239-242, 248-251, 257-260 *)
Definition CatFinish (cfg : config) (packet : N) (cat : HighwayHashCat) : M HighwayHashState :=
  if negb (cat_num cat =? 0) then HighwayHashUpdateRemainder_pure_c cfg packet (cat_num cat) (cat_state cat)
  else ret (cat_state cat).
(** tests/highwayhash/pure_c.c:238-262 *)
Definition HighwayHashCatFinish64_pure_c (cfg : config) (packet : N) (cat : HighwayHashCat) : M N :=
  copy <- CatFinish cfg packet cat ;; ret (HighwayHashFinalize64_pure_c copy).
Definition HighwayHashCatFinish128_pure_c (cfg : config) (packet : N) (cat : HighwayHashCat) : M (N * N) :=
  copy <- CatFinish cfg packet cat ;; ret (HighwayHashFinalize128_pure_c copy).
Definition HighwayHashCatFinish256_pure_c (cfg : config) (packet : N) (cat : HighwayHashCat) : M quad :=
  copy <- CatFinish cfg packet cat ;; ret (HighwayHashFinalize256_pure_c copy).

(** ** The check *)
(** tests/highwayhash/verifier.c:8-12 *)
Definition kTestKey1 : list N := [0x0706050403020100; 0x0F0E0D0C0B0A0908; 0x1716151413121110; 0x1F1E1D1C1B1A1918].
Definition kTestKey2 : list N := [1; 2; 3; 4].
(** tests/highwayhash/verifier.c:14-36 *)
Definition kExpected64 : list N := [
   0x907A56DE22C26E53; 0x7EAB43AAC7CDDD78; 0xB8D0569AB0B53D62; 0x5C6BEFAB8A463D80;
   0xF205A46893007EDA; 0x2B8A1668E4A94541; 0xBD4CCC325BEFCA6F; 0x4D02AE1738F59482;
   0xE1205108E55F3171; 0x32D2644EC77A1584; 0xF6E10ACDB103A90B; 0xC3BBF4615B415C15;
   0x243CC2040063FA9C; 0xA89A58CE65E641FF; 0x24B031A348455A23; 0x40793F86A449F33B;
   0xCFAB3489F97EB832; 0x19FE67D2C8C5C0E2; 0x04DD90A69C565CC2; 0x75D9518E2371C504;
   0x38AD9B1141D3DD16; 0x0264432CCD8A70E0; 0xA9DB5A6288683390; 0xD7B05492003F028C;
   0x205F615AEA59E51E; 0xEEE0C89621052884; 0x1BFC1A93A7284F4F; 0x512175B5B70DA91D;
   0xF71F8976A0A2C639; 0xAE093FEF1F84E3E7; 0x22CA92B01161860F; 0x9FC7007CCF035A68;
   0xA0C964D9ECD580FC; 0x2C90F73CA03181FC; 0x185CF84E5691EB9E; 0x4FC1F5EF2752AA9B;
   0xF5B7391A5E0A33EB; 0xB9B84B83B4E96C9C; 0x5E42FE712A5CD9B4; 0xA150F2F90C3F97DC;
   0x7FA522D75E2D637D; 0x181AD0CC0DFFD32B; 0x3889ED981E854028; 0xFB4297E8C586EE2D;
   0x6D064A45BB28059C; 0x90563609B3EC860C; 0x7AA4FCE94097C666; 0x1326BAC06B911E08;
   0xB926168D2B154F34; 0x9919848945B1948D; 0xA2A98FC534825EBE; 0xE9809095213EF0B6;
   0x582E5483707BC0E9; 0x086E9414A88A6AF5; 0xEE86B98D20F6743D; 0xF89B7FF609B1C0A7;
   0x4C7D9CC19E22C3E8; 0x9A97005024562A6F; 0x5DD41CF423E6EBEF; 0xDF13609C0468E227;
   0x6E0DA4F64188155A; 0xB755BA4B50D7D4A1; 0x887A3484647479BD; 0xAB8EEBE9BF2139A0;
   0x75542C5D4CD2A6FF].

(** tests/highwayhash/verifier.c:38-49 without the output *)
Definition TestHash64 (fn : N -> N -> N -> M N) (expected data size key : N) : M bool :=
  hash <- fn key data size ;; ret (negb (expected =? hash)).
(** the loop of tests/highwayhash/verifier.c:58-61 *)
Fixpoint verify64_from (cfg : config) (fn : N -> N -> N -> M N) (data key1 i : N) (expected : list N) : M bool :=
  match expected with
  | [] => ret false
  | e :: expected =>
      store_bytes (padd cfg data i) [n2b i] ;;;
      f <- TestHash64 fn e data i key1 ;;
      g <- verify64_from cfg fn data key1 (i + 1) expected ;;
      ret (f || g)
  end.
(** the loop of tests/highwayhash/verifier.c:63-65 *)
Fixpoint fill128 (cfg : config) (data : N) (n : nat) (i : N) : M unit :=
  match n with
  | O => ret tt
  | S n => store_bytes (padd cfg data i) [n2b (128 + i)] ;;; fill128 cfg data n (i + 1)
  end.
(** tests/highwayhash/verifier.c:51-75 without the output: [data] is the address of
    the local array, [key1] and [key2] those of the keys *)
Definition HighwayHash64_verify (cfg : config) (data key1 key2 : N) (fn : N -> N -> N -> M N) : M bool :=
  store_bytes data (repeat x00 65) ;;;
  f <- verify64_from cfg fn data key1 0 kExpected64 ;;
  fill128 cfg data 33 0 ;;;
  g <- TestHash64 fn 0x53c516cce478cad7 data 33 key2 ;;
  ret (f || g).
