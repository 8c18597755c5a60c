(** Model of tests/xxhash/xxhash.h (XXH32 and XXH64) and of tests/xxhash/xxh_thunk.c.
    Definitions only.

    The functions are modelled for all values of the tuning parameters.  The state of the
    streaming functions is a record, but its buffer (the member mem32 or mem64) is in the
    memory; the members [reserved] are left out.  XXH_ASSERT does nothing unless
    XXH_DEBUGLEVEL is set, and is left out. *)
From Coq Require Import NArith List Bool Strings.Byte.
From Verif Require Import Bytes CSem Bits.
Import ListNotations.
Local Open Scope N_scope.

(** The tuning parameters, tests/xxhash/xxhash.h:781-870, 1559-1570 *)
Record xxh_build : Type := {
  xxh_force_memory_access : N;         (* XXH_FORCE_MEMORY_ACCESS, 0 if not defined *)
  xxh_accept_null_input_pointer : bool;(* XXH_ACCEPT_NULL_INPUT_POINTER >= 1 *)
  xxh_force_align_check : bool;        (* XXH_FORCE_ALIGN_CHECK *)
  xxh_reroll : bool;                   (* XXH_REROLL *)
  xxh_reroll_xxh64 : bool              (* XXH_REROLL_XXH64 *)
}.

(** [*(const T* )ptr] for an unsigned type T of [n] bytes *)
Definition deref (cfg : config) (n : nat) (ptr : N) : M N :=
  if ptr mod alignment cfg n =? 0 then load_uint cfg n ptr else undef MisalignedAccess.

(** XXH_read32, tests/xxhash/xxhash.h:985, 998-1002, 1010-1015 *)
Definition XXH_read32 (cfg : config) (xb : xxh_build) (ptr : N) : M N :=
  if xxh_force_memory_access xb =? 2 then deref cfg 4 ptr else load_uint cfg 4 ptr.
(** XXH_read64, tests/xxhash/xxhash.h:1580, 1593-1597, 1605-1610 *)
Definition XXH_read64 (cfg : config) (xb : xxh_build) (ptr : N) : M N :=
  if xxh_force_memory_access xb =? 2 then deref cfg 8 ptr else load_uint cfg 8 ptr.

(** XXH_rotl32 and XXH_rotl64, tests/xxhash/xxhash.h:1083-1084; the compiler's functions
    of 1076-1081 are taken to be the same *)
Definition XXH_rotl32 (x r : N) : N := N.lor (shl32 x r) (shr32 x (32 - r)).
Definition XXH_rotl64 (x r : N) : N := N.lor (shl64 x r) (shr64 x (64 - r)).

(** tests/xxhash/xxhash.h:1087-1099 *)
Definition XXH_swap32 (cfg : config) (x : N) : N :=
  if swap_builtin cfg then be_num (le_bytes 4 x)
  else
    N.lor (N.lor (N.lor
      (N.land (shl32 x 24) 0xff000000)
      (N.land (shl32 x 8) 0x00ff0000))
      (N.land (shr32 x 8) 0x0000ff00))
      (N.land (shr32 x 24) 0x000000ff).
(** tests/xxhash/xxhash.h:1614-1630 *)
Definition XXH_swap64 (cfg : config) (x : N) : N :=
  if swap_builtin cfg then be_num (le_bytes 8 x)
  else
    N.lor (N.lor (N.lor (N.lor (N.lor (N.lor (N.lor
      (N.land (shl64 x 56) 0xff00000000000000)
      (N.land (shl64 x 40) 0x00ff000000000000))
      (N.land (shl64 x 24) 0x0000ff0000000000))
      (N.land (shl64 x 8) 0x000000ff00000000))
      (N.land (shr64 x 8) 0x00000000ff000000))
      (N.land (shr64 x 24) 0x0000000000ff0000))
      (N.land (shr64 x 40) 0x000000000000ff00))
      (N.land (shr64 x 56) 0x00000000000000ff).

(** a byte, converted to a wider type *)
Definition byte_of (cfg : config) (ptr i : N) : M N := b <- load8 (padd cfg ptr i) ;; ret (b2n b).
(** XXH_readLE32 and XXH_readBE32, tests/xxhash/xxhash.h:1114-1142 *)
Definition XXH_readLE32 (cfg : config) (xb : xxh_build) (ptr : N) : M N :=
  if xxh_force_memory_access xb =? 3 then
    b0 <- byte_of cfg ptr 0 ;; b1 <- byte_of cfg ptr 1 ;; b2 <- byte_of cfg ptr 2 ;; b3 <- byte_of cfg ptr 3 ;;
    ret (N.lor (N.lor (N.lor b0 (shl32 b1 8)) (shl32 b2 16)) (shl32 b3 24))
  else r <- XXH_read32 cfg xb ptr ;; ret (if big_endian cfg then XXH_swap32 cfg r else r).
Definition XXH_readBE32 (cfg : config) (xb : xxh_build) (ptr : N) : M N :=
  if xxh_force_memory_access xb =? 3 then
    b3 <- byte_of cfg ptr 3 ;; b2 <- byte_of cfg ptr 2 ;; b1 <- byte_of cfg ptr 1 ;; b0 <- byte_of cfg ptr 0 ;;
    ret (N.lor (N.lor (N.lor b3 (shl32 b2 8)) (shl32 b1 16)) (shl32 b0 24))
  else r <- XXH_read32 cfg xb ptr ;; ret (if big_endian cfg then r else XXH_swap32 cfg r).
(** XXH_readLE32_align, tests/xxhash/xxhash.h:1144-1152; [align] is true for XXH_aligned *)
Definition XXH_readLE32_align (cfg : config) (xb : xxh_build) (align : bool) (ptr : N) : M N :=
  if negb align then XXH_readLE32 cfg xb ptr
  else r <- deref cfg 4 ptr ;; ret (if big_endian cfg then XXH_swap32 cfg r else r).
(** XXH_readLE64 and XXH_readBE64, tests/xxhash/xxhash.h:1636-1672 *)
Definition XXH_readLE64 (cfg : config) (xb : xxh_build) (ptr : N) : M N :=
  if xxh_force_memory_access xb =? 3 then
    b0 <- byte_of cfg ptr 0 ;; b1 <- byte_of cfg ptr 1 ;; b2 <- byte_of cfg ptr 2 ;; b3 <- byte_of cfg ptr 3 ;;
    b4 <- byte_of cfg ptr 4 ;; b5 <- byte_of cfg ptr 5 ;; b6 <- byte_of cfg ptr 6 ;; b7 <- byte_of cfg ptr 7 ;;
    ret (N.lor (N.lor (N.lor (N.lor (N.lor (N.lor (N.lor b0 (shl64 b1 8)) (shl64 b2 16)) (shl64 b3 24))
      (shl64 b4 32)) (shl64 b5 40)) (shl64 b6 48)) (shl64 b7 56))
  else r <- XXH_read64 cfg xb ptr ;; ret (if big_endian cfg then XXH_swap64 cfg r else r).
Definition XXH_readBE64 (cfg : config) (xb : xxh_build) (ptr : N) : M N :=
  if xxh_force_memory_access xb =? 3 then
    b7 <- byte_of cfg ptr 7 ;; b6 <- byte_of cfg ptr 6 ;; b5 <- byte_of cfg ptr 5 ;; b4 <- byte_of cfg ptr 4 ;;
    b3 <- byte_of cfg ptr 3 ;; b2 <- byte_of cfg ptr 2 ;; b1 <- byte_of cfg ptr 1 ;; b0 <- byte_of cfg ptr 0 ;;
    ret (N.lor (N.lor (N.lor (N.lor (N.lor (N.lor (N.lor b7 (shl64 b6 8)) (shl64 b5 16)) (shl64 b4 24))
      (shl64 b3 32)) (shl64 b2 40)) (shl64 b1 48)) (shl64 b0 56))
  else r <- XXH_read64 cfg xb ptr ;; ret (if big_endian cfg then r else XXH_swap64 cfg r).
(** XXH_readLE64_align, tests/xxhash/xxhash.h:1674-1681 *)
Definition XXH_readLE64_align (cfg : config) (xb : xxh_build) (align : bool) (ptr : N) : M N :=
  if negb align then XXH_readLE64 cfg xb ptr
  else r <- deref cfg 8 ptr ;; ret (if big_endian cfg then XXH_swap64 cfg r else r).

(** tests/xxhash/xxhash.h:1164-1168 *)
Definition XXH_PRIME32_1 : N := 0x9E3779B1.
Definition XXH_PRIME32_2 : N := 0x85EBCA77.
Definition XXH_PRIME32_3 : N := 0xC2B2AE3D.
Definition XXH_PRIME32_4 : N := 0x27D4EB2F.
Definition XXH_PRIME32_5 : N := 0x165667B1.
(** tests/xxhash/xxhash.h:1686-1690 *)
Definition XXH_PRIME64_1 : N := 0x9E3779B185EBCA87.
Definition XXH_PRIME64_2 : N := 0xC2B2AE3D27D4EB4F.
Definition XXH_PRIME64_3 : N := 0x165667B19E3779F9.
Definition XXH_PRIME64_4 : N := 0x85EBCA77C2B2AE63.
Definition XXH_PRIME64_5 : N := 0x27D4EB2F165667C5.

(** the subtraction of type xxh_u32 *)
Definition sub32 (x y : N) : N := u32 (u32 x + W32 - u32 y).

(** tests/xxhash/xxhash.h:1178-1232 *)
Definition XXH32_round (acc input : N) : N :=
  let acc := add32 acc (mul32 input XXH_PRIME32_2) in
  let acc := XXH_rotl32 acc 13 in
  mul32 acc XXH_PRIME32_1.
(** tests/xxhash/xxhash.h:1235-1243 *)
Definition XXH32_avalanche (h32 : N) : N :=
  let h32 := N.lxor h32 (shr32 h32 15) in
  let h32 := mul32 h32 XXH_PRIME32_2 in
  let h32 := N.lxor h32 (shr32 h32 13) in
  let h32 := mul32 h32 XXH_PRIME32_3 in
  N.lxor h32 (shr32 h32 16).
(** tests/xxhash/xxhash.h:1700-1706 *)
Definition XXH64_round (acc input : N) : N :=
  let acc := add64 acc (mul64 input XXH_PRIME64_2) in
  let acc := XXH_rotl64 acc 31 in
  mul64 acc XXH_PRIME64_1.
(** tests/xxhash/xxhash.h:1708-1714 *)
Definition XXH64_mergeRound (acc val : N) : N :=
  let val := XXH64_round 0 val in
  let acc := N.lxor acc val in
  add64 (mul64 acc XXH_PRIME64_1) XXH_PRIME64_4.
(** tests/xxhash/xxhash.h:1716-1724 *)
Definition XXH64_avalanche (h64 : N) : N :=
  let h64 := N.lxor h64 (shr64 h64 33) in
  let h64 := mul64 h64 XXH_PRIME64_2 in
  let h64 := N.lxor h64 (shr64 h64 29) in
  let h64 := mul64 h64 XXH_PRIME64_3 in
  N.lxor h64 (shr64 h64 32).

(** ** The last bytes *)
(** XXH_PROCESS1 and XXH_PROCESS4, tests/xxhash/xxhash.h:1250-1259; the pair is [h32] and
    [ptr] *)
Definition XXH_PROCESS1 (cfg : config) (x : N * N) : M (N * N) :=
  let '(h32, ptr) := x in
  b <- byte_of cfg ptr 0 ;;
  let h32 := add32 h32 (mul32 b XXH_PRIME32_5) in
  ret (mul32 (XXH_rotl32 h32 11) XXH_PRIME32_1, padd cfg ptr 1).
Definition XXH_PROCESS4 (cfg : config) (xb : xxh_build) (align : bool) (x : N * N) : M (N * N) :=
  let '(h32, ptr) := x in
  w <- XXH_readLE32_align cfg xb align ptr ;;
  let h32 := add32 h32 (mul32 w XXH_PRIME32_3) in
  ret (mul32 (XXH_rotl32 h32 17) XXH_PRIME32_4, padd cfg ptr 4).
(** XXH_PROCESS1_64, XXH_PROCESS4_64 and XXH_PROCESS8_64, tests/xxhash/xxhash.h:1732-1748 *)
Definition XXH_PROCESS1_64 (cfg : config) (x : N * N) : M (N * N) :=
  let '(h64, ptr) := x in
  b <- byte_of cfg ptr 0 ;;
  let h64 := N.lxor h64 (mul64 b XXH_PRIME64_5) in
  ret (mul64 (XXH_rotl64 h64 11) XXH_PRIME64_1, padd cfg ptr 1).
Definition XXH_PROCESS4_64 (cfg : config) (xb : xxh_build) (align : bool) (x : N * N) : M (N * N) :=
  let '(h64, ptr) := x in
  w <- XXH_readLE32_align cfg xb align ptr ;;
  let h64 := N.lxor h64 (mul64 w XXH_PRIME64_1) in
  ret (add64 (mul64 (XXH_rotl64 h64 23) XXH_PRIME64_2) XXH_PRIME64_3, padd cfg ptr 4).
Definition XXH_PROCESS8_64 (cfg : config) (xb : xxh_build) (align : bool) (x : N * N) : M (N * N) :=
  let '(h64, ptr) := x in
  w <- XXH_readLE64_align cfg xb align ptr ;;
  let k1 := XXH64_round 0 w in
  let h64 := N.lxor h64 k1 in
  ret (add64 (mul64 (XXH_rotl64 h64 27) XXH_PRIME64_1) XXH_PRIME64_4, padd cfg ptr 8).

(** while (len >= n) { step; len -= n; } *)
Fixpoint while_len (fuel : nat) (n : N) (step : N * N -> M (N * N)) (x : N * N) (len : N) : M (N * N * N) :=
  match fuel with
  | O => stuck
  | S f => if n <=? len then x <- step x ;; while_len f n step x (len - n) else ret (x, len)
  end.

(** A switch whose statements fall through.  A case is its label, the steps after the
    label, each given by the number of bytes it takes, and whether a return follows them. *)
Definition switch_case : Type := (N * list N * bool)%type.
(** the steps from the beginning of the list to the first return *)
Fixpoint until_return (cases : list switch_case) : list N :=
  match cases with
  | [] => []
  | (_, steps, true) :: _ => steps
  | (_, steps, false) :: cases => steps ++ until_return cases
  end.
Fixpoint switch_steps (n : N) (cases : list switch_case) : option (list N) :=
  match cases with
  | [] => None
  | (label, steps, returns) :: rest =>
      if n =? label then Some (until_return cases) else switch_steps n rest
  end.
Fixpoint run_steps (step : N -> N * N -> M (N * N)) (steps : list N) (x : N * N) : M (N * N) :=
  match steps with
  | [] => ret x
  | n :: steps => x <- step n x ;; run_steps step steps x
  end.
(** tests/xxhash/xxhash.h:1274-1311 *)
Definition XXH32_cases : list switch_case :=
  [(12, [4], false); (8, [4], false); (4, [4], true);
   (13, [4], false); (9, [4], false); (5, [4; 1], true);
   (14, [4], false); (10, [4], false); (6, [4; 1; 1], true);
   (15, [4], false); (11, [4], false); (7, [4], false);
   (3, [1], false); (2, [1], false); (1, [1], false); (0, [], true)].
(** tests/xxhash/xxhash.h:1767-1846 *)
Definition XXH64_cases : list switch_case :=
  [(24, [8], false); (16, [8], false); (8, [8], true);
   (28, [8], false); (20, [8], false); (12, [8], false); (4, [4], true);
   (25, [8], false); (17, [8], false); (9, [8; 1], true);
   (29, [8], false); (21, [8], false); (13, [8], false); (5, [4; 1], true);
   (26, [8], false); (18, [8], false); (10, [8; 1; 1], true);
   (30, [8], false); (22, [8], false); (14, [8], false); (6, [4; 1; 1], true);
   (27, [8], false); (19, [8], false); (11, [8; 1; 1; 1], true);
   (31, [8], false); (23, [8], false); (15, [8], false); (7, [4], false);
   (3, [1], false); (2, [1], false); (1, [1], false); (0, [], true)].

(** tests/xxhash/xxhash.h:1247-1316 *)
Definition XXH32_step (cfg : config) (xb : xxh_build) (align : bool) (n : N) : N * N -> M (N * N) :=
  if n =? 4 then XXH_PROCESS4 cfg xb align else XXH_PROCESS1 cfg.
Definition XXH32_finalize (cfg : config) (xb : xxh_build) (h32 ptr len : N) (align : bool) : M N :=
  if xxh_reroll xb then
    let len := N.land len 15 in
    y <- while_len 16 4 (XXH_PROCESS4 cfg xb align) (h32, ptr) len ;;
    let '(x, len) := y in
    y <- while_len 16 1 (XXH_PROCESS1 cfg) x len ;;
    let '(h32, ptr, len) := y in
    ret (XXH32_avalanche h32)
  else
    match switch_steps (N.land len 15) XXH32_cases with
    | Some steps => x <- run_steps (XXH32_step cfg xb align) steps (h32, ptr) ;; ret (XXH32_avalanche (fst x))
    | None => ret h32
    end.
(** tests/xxhash/xxhash.h:1729-1852 *)
Definition XXH64_step (cfg : config) (xb : xxh_build) (align : bool) (n : N) : N * N -> M (N * N) :=
  if n =? 8 then XXH_PROCESS8_64 cfg xb align else if n =? 4 then XXH_PROCESS4_64 cfg xb align else XXH_PROCESS1_64 cfg.
Definition XXH64_finalize (cfg : config) (xb : xxh_build) (h64 ptr len : N) (align : bool) : M N :=
  if xxh_reroll xb || xxh_reroll_xxh64 xb then
    let len := N.land len 31 in
    y <- while_len 32 8 (XXH_PROCESS8_64 cfg xb align) (h64, ptr) len ;;
    let '(x, len) := y in
    y <- (if 4 <=? len then x <- XXH_PROCESS4_64 cfg xb align x ;; ret (x, len - 4) else ret (x, len)) ;;
    let '(x, len) := y in
    y <- while_len 32 1 (XXH_PROCESS1_64 cfg) x len ;;
    let '(h64, ptr, len) := y in
    ret (XXH64_avalanche h64)
  else
    match switch_steps (N.land len 31) XXH64_cases with
    | Some steps => x <- run_steps (XXH64_step cfg xb align) steps (h64, ptr) ;; ret (XXH64_avalanche (fst x))
    | None => ret 0
    end.

(** ** Four accumulators *)
Definition accs : Type := (N * N * N * N)%type.
(** The bodies of the loops of tests/xxhash/xxhash.h:1346-1351, 1442-1447, 1459-1464, 1884-1889,
    1981-1984 and 1996-2001, which are alike: four words of [k] bytes are read *)
Definition four_rounds (cfg : config) (k : N) (read : N -> M N) (round : N -> N -> N) (x : accs * N) : M (accs * N) :=
  let '(v1, v2, v3, v4, p) := x in
  w <- read p ;; let v1 := round v1 w in let p := padd cfg p k in
  w <- read p ;; let v2 := round v2 w in let p := padd cfg p k in
  w <- read p ;; let v3 := round v3 w in let p := padd cfg p k in
  w <- read p ;; let v4 := round v4 w in let p := padd cfg p k in
  ret (v1, v2, v3, v4, p).

(** the accumulators at the beginning, tests/xxhash/xxhash.h:1341-1344 and 1408-1411 *)
Definition XXH32_start (seed : N) : accs :=
  (add32 (add32 seed XXH_PRIME32_1) XXH_PRIME32_2, add32 seed XXH_PRIME32_2, add32 seed 0, sub32 seed XXH_PRIME32_1).
(** tests/xxhash/xxhash.h:1353-1354 and 1487-1490 *)
Definition XXH32_converge (v : accs) : N :=
  let '(v1, v2, v3, v4) := v in
  add32 (add32 (add32 (XXH_rotl32 v1 1) (XXH_rotl32 v2 7)) (XXH_rotl32 v3 12)) (XXH_rotl32 v4 18).
(** tests/xxhash/xxhash.h:1879-1882 and 1949-1952 *)
Definition XXH64_start (seed : N) : accs :=
  (add64 (add64 seed XXH_PRIME64_1) XXH_PRIME64_2, add64 seed XXH_PRIME64_2, add64 seed 0, sub64 seed XXH_PRIME64_1).
(** tests/xxhash/xxhash.h:1891-1895 and 2029-2033 *)
Definition XXH64_converge (v : accs) : N :=
  let '(v1, v2, v3, v4) := v in
  let h64 := add64 (add64 (add64 (XXH_rotl64 v1 1) (XXH_rotl64 v2 7)) (XXH_rotl64 v3 12)) (XXH_rotl64 v4 18) in
  let h64 := XXH64_mergeRound h64 v1 in
  let h64 := XXH64_mergeRound h64 v2 in
  let h64 := XXH64_mergeRound h64 v3 in
  XXH64_mergeRound h64 v4.

(** ** One call *)
(** tests/xxhash/xxhash.h:1326-1362 *)
Definition XXH32_endian_align (cfg : config) (xb : xxh_build) (input len seed : N) (align : bool) : M N :=
  let bEnd := padd cfg input len in
  let '(input, len, bEnd) := if xxh_accept_null_input_pointer xb && (input =? 0) then (16, 0, 16) else (input, len, bEnd) in
  y <- (if 16 <=? len then
          let limit := psub cfg bEnd 15 in
          x <- do_while (S (N.to_nat (len / 16))) (four_rounds cfg 4 (XXH_readLE32_align cfg xb align) XXH32_round)
                 (fun x => snd x <? limit) (XXH32_start seed, input) ;;
          ret (XXH32_converge (fst x), snd x)
        else ret (add32 seed XXH_PRIME32_5, input)) ;;
  let '(h32, input) := y in
  let h32 := add32 h32 (u32 len) in
  XXH32_finalize cfg xb h32 input (N.land len 15) align.
(** tests/xxhash/xxhash.h:1365-1383 *)
Definition XXH32 (cfg : config) (xb : xxh_build) (input len seed : N) : M N :=
  if xxh_force_align_check xb && (N.land input 3 =? 0) then XXH32_endian_align cfg xb input len seed true
  else XXH32_endian_align cfg xb input len seed false.
(** tests/xxhash/xxhash.h:1864-1904 *)
Definition XXH64_endian_align (cfg : config) (xb : xxh_build) (input len seed : N) (align : bool) : M N :=
  let bEnd := padd cfg input len in
  let '(input, len, bEnd) := if xxh_accept_null_input_pointer xb && (input =? 0) then (32, 0, 32) else (input, len, bEnd) in
  y <- (if 32 <=? len then
          let limit := psub cfg bEnd 32 in
          x <- do_while (S (N.to_nat (len / 32))) (four_rounds cfg 8 (XXH_readLE64_align cfg xb align) XXH64_round)
                 (fun x => snd x <=? limit) (XXH64_start seed, input) ;;
          ret (XXH64_converge (fst x), snd x)
        else ret (add64 seed XXH_PRIME64_5, input)) ;;
  let '(h64, input) := y in
  let h64 := add64 h64 len in
  XXH64_finalize cfg xb h64 input len align.
(** tests/xxhash/xxhash.h:1907-1926 *)
Definition XXH64 (cfg : config) (xb : xxh_build) (input len seed : N) : M N :=
  if xxh_force_align_check xb && (N.land input 7 =? 0) then XXH64_endian_align cfg xb input len seed true
  else XXH64_endian_align cfg xb input len seed false.

(** tests/xxhash/xxh_thunk.c:31-37 *)
Definition thunk_XXH_32 (cfg : config) (xb : xxh_build) (input length seed : N) : M N := XXH32 cfg xb input length (u32 seed).
Definition thunk_XXH_64 (cfg : config) (xb : xxh_build) (input length seed : N) : M N := XXH64 cfg xb input length seed.

(** ** Streaming *)
(** XXH_errorcode, tests/xxhash/xxhash.h:232 *)
Definition XXH_OK : N := 0.
Definition XXH_ERROR : N := 1.
(** struct XXH32_state_s, tests/xxhash/xxhash.h:397-407, without mem32 *)
Record XXH32_state : Type := X32 { x32_total_len_32 : N; x32_large_len : N; x32_v : accs; x32_memsize : N }.
(** struct XXH64_state_s, tests/xxhash/xxhash.h:412-422, without mem64 *)
Record XXH64_state : Type := X64 { x64_total_len : N; x64_v : accs; x64_memsize : N }.

(** tests/xxhash/xxhash.h:1404-1415; [mem32] is the address of the member *)
Definition XXH32_reset (cfg : config) (mem32 seed : N) : M (N * XXH32_state) :=
  store_bytes mem32 (repeat x00 16) ;;; ret (XXH_OK, X32 0 0 (XXH32_start seed) 0).
(** tests/xxhash/xxhash.h:1945-1956 *)
Definition XXH64_reset (cfg : config) (mem64 seed : N) : M (N * XXH64_state) :=
  store_bytes mem64 (repeat x00 32) ;;; ret (XXH_OK, X64 0 (XXH64_start seed) 0).

(** What XXH32_update does from tests/xxhash/xxhash.h:1434 on and XXH64_update from 1973
    on.  The two texts are alike: [B] is the size of the buffer, which is at [buf], [k] that
    of a word; [more] is the test of 1452 and of 1989. *)
Definition update_buffer (cfg : config) (B k : N) (read : N -> M N) (round : N -> N -> N) (more : N -> N -> bool)
    (buf input len : N) (v : accs) (memsize : N) : M (accs * N) :=
  let p := input in
  let bEnd := padd cfg p len in
  if padd cfg memsize len <? B then
    memcpy cfg (padd cfg buf memsize) input len ;;;
    ret (v, add32 memsize (u32 len))
  else
    y <- (if negb (memsize =? 0) then
            memcpy cfg (padd cfg buf memsize) input (sub32 B memsize) ;;;
            x <- four_rounds cfg k read round (v, buf) ;;
            ret (fst x, padd cfg p (sub32 B memsize), 0)
          else ret (v, p, memsize)) ;;
    let '(v, p, memsize) := y in
    y <- (if more p bEnd then
            let limit := psub cfg bEnd B in
            do_while (S (N.to_nat (len / B))) (four_rounds cfg k read round) (fun x => snd x <=? limit) (v, p)
          else ret (v, p)) ;;
    let '(v, p) := y in
    if p <? bEnd then
      memcpy cfg buf p (psub cfg bEnd p) ;;;
      ret (v, u32 (psub cfg bEnd p))
    else ret (v, memsize).
(** tests/xxhash/xxhash.h:1418-1479 *)
Definition XXH32_update (cfg : config) (xb : xxh_build) (mem32 input len : N) (state : XXH32_state) : M (N * XXH32_state) :=
  if input =? 0 then ret (if xxh_accept_null_input_pointer xb then XXH_OK else XXH_ERROR, state)
  else
    let total_len_32 := add32 (x32_total_len_32 state) (u32 len) in
    let large_len := N.lor (x32_large_len state) (if (16 <=? len) || (16 <=? total_len_32) then 1 else 0) in
    y <- update_buffer cfg 16 4 (XXH_readLE32 cfg xb) XXH32_round (fun p bEnd => p <=? psub cfg bEnd 16)
           mem32 input len (x32_v state) (x32_memsize state) ;;
    let '(v, memsize) := y in
    ret (XXH_OK, X32 total_len_32 large_len v memsize).
(** tests/xxhash/xxhash.h:1482-1498 *)
Definition XXH32_digest (cfg : config) (xb : xxh_build) (mem32 : N) (state : XXH32_state) : M N :=
  let '(_, _, v3, _) := x32_v state in
  let h32 := if negb (x32_large_len state =? 0) then XXH32_converge (x32_v state) else add32 v3 XXH_PRIME32_5 in
  let h32 := add32 h32 (x32_total_len_32 state) in
  XXH32_finalize cfg xb h32 mem32 (x32_memsize state) true.
(** tests/xxhash/xxhash.h:1958-2016 *)
Definition XXH64_update (cfg : config) (xb : xxh_build) (mem64 input len : N) (state : XXH64_state) : M (N * XXH64_state) :=
  if input =? 0 then ret (if xxh_accept_null_input_pointer xb then XXH_OK else XXH_ERROR, state)
  else
    let total_len := add64 (x64_total_len state) len in
    y <- update_buffer cfg 32 8 (XXH_readLE64 cfg xb) XXH64_round (fun p bEnd => padd cfg p 32 <=? bEnd)
           mem64 input len (x64_v state) (x64_memsize state) ;;
    let '(v, memsize) := y in
    ret (XXH_OK, X64 total_len v memsize).
(** tests/xxhash/xxhash.h:2019-2041 *)
Definition XXH64_digest (cfg : config) (xb : xxh_build) (mem64 : N) (state : XXH64_state) : M N :=
  let '(_, _, v3, _) := x64_v state in
  let h64 := if 32 <=? x64_total_len state then XXH64_converge (x64_v state) else add64 v3 XXH_PRIME64_5 in
  let h64 := add64 h64 (x64_total_len state) in
  XXH64_finalize cfg xb h64 mem64 (x64_total_len state mod addr_space cfg) true.

(** ** Canonical representation *)
(** tests/xxhash/xxhash.h:1516-1526 *)
Definition XXH32_canonicalFromHash (cfg : config) (dst hash : N) : M unit :=
  let hash := if big_endian cfg then hash else XXH_swap32 cfg hash in store_uint cfg 4 dst hash.
Definition XXH32_hashFromCanonical (cfg : config) (xb : xxh_build) (src : N) : M N := XXH_readBE32 cfg xb src.
(** tests/xxhash/xxhash.h:2046-2056 *)
Definition XXH64_canonicalFromHash (cfg : config) (dst hash : N) : M unit :=
  let hash := if big_endian cfg then hash else XXH_swap64 cfg hash in store_uint cfg 8 dst hash.
Definition XXH64_hashFromCanonical (cfg : config) (xb : xxh_build) (src : N) : M N := XXH_readBE64 cfg xb src.
