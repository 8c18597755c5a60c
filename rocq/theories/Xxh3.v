(** Model of tests/xxhash/xxh3.h without its vector variants: tests/xxhash/xxh_thunk.c:27
    defines XXH_VECTOR as 0, which is XXH_SCALAR.  Definitions only.

    The accumulators, whether a local array or a member of the state, are values, and so
    are the other members of the state but for [customSecret] and [buffer].  Those two, the
    constant XXH3_kSecret and local arrays that are passed on are in the memory.
    XXH_ASSERT is modelled, except where it is about the alignment of the accumulators or
    about constants.  XXH_PREFETCH has no effect and is left out. *)
From Coq Require Import NArith List Bool Strings.Byte.
From Verif Require Import Bytes CSem Bits Xxhash.
Import ListNotations.
Local Open Scope N_scope.

(** The tuning parameters of tests/xxhash/xxhash.h, whether XXH_DEBUGLEVEL is at least 1
    (934-947), and the address of XXH3_kSecret *)
Record xxh3_build : Type := { x3_xxh : xxh_build; x3_debug : bool; x3_kSecret : N }.

(** XXH_ASSERT, tests/xxhash/xxhash.h:942-947: assert() has an effect without NDEBUG only *)
Definition XXH_ASSERT (cfg : config) (x3 : xxh3_build) (c : bool) : M unit :=
  if x3_debug x3 then assert_ cfg c else ret tt.

(** for (i = 0; i < n; i++), from the value [i] on *)
Fixpoint for_loop {A : Type} (n : nat) (i : N) (body : N -> A -> M A) (a : A) : M A :=
  match n with
  | O => ret a
  | S k => a <- body i a ;; for_loop k (i + 1) body a
  end.

(** XXH3_kSecret, tests/xxhash/xxh3.h:469-482 *)
Definition XXH3_kSecret_bytes : list byte :=
  [xb8; xfe; x6c; x39; x23; xa4; x4b; xbe; x7c; x01; x81; x2c; xf7; x21; xad; x1c;
   xde; xd4; x6d; xe9; x83; x90; x97; xdb; x72; x40; xa4; xa4; xb7; xb3; x67; x1f;
   xcb; x79; xe6; x4e; xcc; xc0; xe5; x78; x82; x5a; xd0; x7d; xcc; xff; x72; x21;
   xb8; x08; x46; x74; xf7; x43; x24; x8e; xe0; x35; x90; xe6; x81; x3a; x26; x4c;
   x3c; x28; x52; xbb; x91; xc3; x00; xcb; x88; xd0; x65; x8b; x1b; x53; x2e; xa3;
   x71; x64; x48; x97; xa2; x0d; xf9; x4e; x38; x19; xef; x46; xa9; xde; xac; xd8;
   xa8; xfa; x76; x3f; xe3; x9c; x34; x3f; xf9; xdc; xbb; xc7; xc7; x0b; x4f; x1d;
   x8a; x51; xe0; x4b; xcd; xb4; x59; x31; xc8; x9f; x7e; xc9; xd9; x78; x73; x64;
   xea; xc5; xac; x83; x34; xd3; xeb; xc3; xc5; x81; xa0; xff; xfa; x13; x63; xeb;
   x17; x0d; xdd; x51; xb7; xf0; xda; x49; xd3; x16; x55; x26; x29; xd4; x68; x9e;
   x2b; x16; xbe; x58; x7d; x47; xa1; xfc; x8f; xf8; xb8; xd1; x7a; xd0; x31; xce;
   x45; xcb; x3a; x8f; x95; x16; x04; x28; xaf; xd7; xfb; xca; xbb; x4b; x40; x7e].

(** XXH128_hash_t, tests/xxhash/xxhash.h:633-636: low64 and high64 *)
Definition hash128 : Type := (N * N)%type.

(** XXH_mult32to64, tests/xxhash/xxh3.h:516 *)
Definition XXH_mult32to64 (x y : N) : N := mul64 (u32 x) (u32 y).
(** tests/xxhash/xxh3.h:524-631; the function of 559-569 is taken to be the first *)
Definition XXH_mult64to128 (cfg : config) (lhs rhs : N) : hash128 :=
  if int128 cfg then let product := u128 (lhs * rhs) in (u64 product, u64 (N.shiftr product 64))
  else
    let lo_lo := XXH_mult32to64 (N.land lhs 0xFFFFFFFF) (N.land rhs 0xFFFFFFFF) in
    let hi_lo := XXH_mult32to64 (shr64 lhs 32) (N.land rhs 0xFFFFFFFF) in
    let lo_hi := XXH_mult32to64 (N.land lhs 0xFFFFFFFF) (shr64 rhs 32) in
    let hi_hi := XXH_mult32to64 (shr64 lhs 32) (shr64 rhs 32) in
    let cross := add64 (add64 (shr64 lo_lo 32) (N.land hi_lo 0xFFFFFFFF)) lo_hi in
    let upper := add64 (add64 (shr64 hi_lo 32) (shr64 cross 32)) hi_hi in
    let lower := N.lor (shl64 cross 32) (N.land lo_lo 0xFFFFFFFF) in
    (lower, upper).
(** tests/xxhash/xxh3.h:639-644 *)
Definition XXH3_mul128_fold64 (cfg : config) (lhs rhs : N) : N :=
  let product := XXH_mult64to128 cfg lhs rhs in N.lxor (fst product) (snd product).
(** tests/xxhash/xxh3.h:647-651 *)
Definition XXH_xorshift64 (v64 shift : N) : N := N.lxor v64 (shr64 v64 shift).
(** tests/xxhash/xxh3.h:657-663 *)
Definition XXH3_avalanche (h64 : N) : N :=
  let h64 := XXH_xorshift64 h64 37 in
  let h64 := mul64 h64 0x165667919E3779F9 in
  XXH_xorshift64 h64 32.
(** tests/xxhash/xxh3.h:670-678 *)
Definition XXH3_rrmxmx (h64 len : N) : N :=
  let h64 := N.lxor h64 (N.lxor (XXH_rotl64 h64 49) (XXH_rotl64 h64 24)) in
  let h64 := mul64 h64 0x9FB21C651E98DF25 in
  let h64 := N.lxor h64 (add64 (shr64 h64 35) len) in
  let h64 := mul64 h64 0x9FB21C651E98DF25 in
  XXH_xorshift64 h64 28.

Section Xxh3.
  Variable (cfg : config) (x3 : xxh3_build).
  Let rd32 : N -> M N := XXH_readLE32 cfg (x3_xxh x3).
  Let rd64 : N -> M N := XXH_readLE64 cfg (x3_xxh x3).
  Let at_ (p k : N) : N := padd cfg p k.
  Let ASSERT : bool -> M unit := XXH_ASSERT cfg x3.
  (** XXH3_SECRET_SIZE_MIN, tests/xxhash/xxhash.h:526, and XXH_SECRET_DEFAULT_SIZE,
      tests/xxhash/xxh3.h:462 *)
  Definition XXH3_SECRET_SIZE_MIN : N := 136.
  Definition XXH_SECRET_DEFAULT_SIZE : N := 192.

  (** ** Short keys *)
  (** tests/xxhash/xxh3.h:714-734 *)
  Definition XXH3_len_1to3_64b (input len secret seed : N) : M N :=
    ASSERT (negb (input =? 0)) ;;;
    ASSERT ((1 <=? len) && (len <=? 3)) ;;;
    ASSERT (negb (secret =? 0)) ;;;
    c1 <- byte_of cfg input 0 ;;
    c2 <- byte_of cfg input (N.shiftr len 1) ;;
    c3 <- byte_of cfg input (len - 1) ;;
    let combined := N.lor (N.lor (N.lor (shl32 c1 16) (shl32 c2 24)) (shl32 c3 0)) (shl32 (u32 len) 8) in
    s0 <- rd32 secret ;;
    s4 <- rd32 (at_ secret 4) ;;
    let bitflip := add64 (N.lxor s0 s4) seed in
    let keyed := N.lxor combined bitflip in
    ret (XXH64_avalanche keyed).
  (** tests/xxhash/xxh3.h:736-750 *)
  Definition XXH3_len_4to8_64b (input len secret seed : N) : M N :=
    ASSERT (negb (input =? 0)) ;;;
    ASSERT (negb (secret =? 0)) ;;;
    ASSERT ((4 <=? len) && (len <? 8)) ;;;
    let seed := N.lxor seed (shl64 (XXH_swap32 cfg (u32 seed)) 32) in
    input1 <- rd32 input ;;
    input2 <- rd32 (psub cfg (at_ input len) 4) ;;
    s8 <- rd64 (at_ secret 8) ;;
    s16 <- rd64 (at_ secret 16) ;;
    let bitflip := sub64 (N.lxor s8 s16) seed in
    let input64 := add64 input2 (shl64 input1 32) in
    let keyed := N.lxor input64 bitflip in
    ret (XXH3_rrmxmx keyed len).
  (** tests/xxhash/xxh3.h:752-767 *)
  Definition XXH3_len_9to16_64b (input len secret seed : N) : M N :=
    ASSERT (negb (input =? 0)) ;;;
    ASSERT (negb (secret =? 0)) ;;;
    ASSERT ((8 <=? len) && (len <=? 16)) ;;;
    s24 <- rd64 (at_ secret 24) ;;
    s32 <- rd64 (at_ secret 32) ;;
    let bitflip1 := add64 (N.lxor s24 s32) seed in
    s40 <- rd64 (at_ secret 40) ;;
    s48 <- rd64 (at_ secret 48) ;;
    let bitflip2 := sub64 (N.lxor s40 s48) seed in
    w <- rd64 input ;;
    let input_lo := N.lxor w bitflip1 in
    w <- rd64 (psub cfg (at_ input len) 8) ;;
    let input_hi := N.lxor w bitflip2 in
    let acc := add64 (add64 (add64 len (XXH_swap64 cfg input_lo)) input_hi) (XXH3_mul128_fold64 cfg input_lo input_hi) in
    ret (XXH3_avalanche acc).
  (** tests/xxhash/xxh3.h:769-778 *)
  Definition XXH3_len_0to16_64b (input len secret seed : N) : M N :=
    ASSERT (len <=? 16) ;;;
    if 8 <? len then XXH3_len_9to16_64b input len secret seed
    else if 4 <=? len then XXH3_len_4to8_64b input len secret seed
    else if negb (len =? 0) then XXH3_len_1to3_64b input len secret seed
    else
      s56 <- rd64 (at_ secret 56) ;;
      s64 <- rd64 (at_ secret 64) ;;
      ret (XXH64_avalanche (N.lxor seed (N.lxor s56 s64))).

  (** ** Mid range keys *)
  (** tests/xxhash/xxh3.h:806-836 *)
  Definition XXH3_mix16B (input secret seed64 : N) : M N :=
    input_lo <- rd64 input ;;
    input_hi <- rd64 (at_ input 8) ;;
    s0 <- rd64 secret ;;
    s8 <- rd64 (at_ secret 8) ;;
    ret (XXH3_mul128_fold64 cfg (N.lxor input_lo (add64 s0 seed64)) (N.lxor input_hi (sub64 s8 seed64))).
  (** the statement acc += XXH3_mix16B(input, secret, seed) *)
  Definition add_mix16B (input secret seed acc : N) : M N :=
    v <- XXH3_mix16B input secret seed ;; ret (add64 acc v).
  (** [input+len-k] *)
  Let back (input len k : N) : N := psub cfg (at_ input len) k.
  (** tests/xxhash/xxh3.h:839-865 *)
  Definition XXH3_len_17to128_64b (input len secret secretSize seed : N) : M N :=
    ASSERT (XXH3_SECRET_SIZE_MIN <=? secretSize) ;;;
    ASSERT ((16 <? len) && (len <=? 128)) ;;;
    let acc := mul64 len XXH_PRIME64_1 in
    acc <- (if 32 <? len then
              acc <- (if 64 <? len then
                        acc <- (if 96 <? len then
                                  acc <- add_mix16B (at_ input 48) (at_ secret 96) seed acc ;;
                                  add_mix16B (back input len 64) (at_ secret 112) seed acc
                                else ret acc) ;;
                        acc <- add_mix16B (at_ input 32) (at_ secret 64) seed acc ;;
                        add_mix16B (back input len 48) (at_ secret 80) seed acc
                      else ret acc) ;;
              acc <- add_mix16B (at_ input 16) (at_ secret 32) seed acc ;;
              add_mix16B (back input len 32) (at_ secret 48) seed acc
            else ret acc) ;;
    acc <- add_mix16B (at_ input 0) (at_ secret 0) seed acc ;;
    acc <- add_mix16B (back input len 16) (at_ secret 16) seed acc ;;
    ret (XXH3_avalanche acc).
  (** tests/xxhash/xxh3.h:867, 877-878 *)
  Definition XXH3_MIDSIZE_MAX : N := 240.
  Definition XXH3_MIDSIZE_STARTOFFSET : N := 3.
  Definition XXH3_MIDSIZE_LASTOFFSET : N := 17.
  (** tests/xxhash/xxh3.h:869-920; [i] counts from 0 in the second loop too, where it
      stands for i - 8 *)
  Definition XXH3_len_129to240_64b (input len secret secretSize seed : N) : M N :=
    ASSERT (XXH3_SECRET_SIZE_MIN <=? secretSize) ;;;
    ASSERT ((128 <? len) && (len <=? XXH3_MIDSIZE_MAX)) ;;;
    let acc := mul64 len XXH_PRIME64_1 in
    let nbRounds := len / 16 in
    acc <- for_loop 8 0 (fun i => add_mix16B (at_ input (16 * i)) (at_ secret (16 * i)) seed) acc ;;
    let acc := XXH3_avalanche acc in
    ASSERT (8 <=? nbRounds) ;;;
    acc <- for_loop (N.to_nat (nbRounds - 8)) 0
             (fun i => add_mix16B (at_ input (16 * (i + 8))) (at_ (at_ secret (16 * i)) XXH3_MIDSIZE_STARTOFFSET) seed) acc ;;
    acc <- add_mix16B (back input len 16) (psub cfg (at_ secret XXH3_SECRET_SIZE_MIN) XXH3_MIDSIZE_LASTOFFSET) seed acc ;;
    ret (XXH3_avalanche acc).

  (** ** Long keys *)
  (** the accumulators; an element and its assignment *)
  Definition acc_get (acc : list N) (i : N) : N := nth (N.to_nat i) acc 0.
  Definition acc_set (acc : list N) (i v : N) : list N := firstn (N.to_nat i) acc ++ v :: skipn (S (N.to_nat i)) acc.
  (** tests/xxhash/xxh3.h:934-938 *)
  Definition XXH_writeLE64 (dst v64 : N) : M unit :=
    let v64 := if big_endian cfg then XXH_swap64 cfg v64 else v64 in store_uint cfg 8 dst v64.
  (** tests/xxhash/xxh3.h:1453-1469 *)
  Definition XXH3_accumulate_512 (input secret : N) (acc : list N) : M (list N) :=
    for_loop 8 0 (fun i acc =>
      data_val <- rd64 (at_ input (8 * i)) ;;
      s <- rd64 (at_ secret (i * 8)) ;;
      let data_key := N.lxor data_val s in
      let acc := acc_set acc (N.lxor i 1) (add64 (acc_get acc (N.lxor i 1)) data_val) in
      let acc := acc_set acc i (add64 (acc_get acc i) (XXH_mult32to64 (N.land data_key 0xFFFFFFFF) (shr64 data_key 32))) in
      ret acc) acc.
  (** tests/xxhash/xxh3.h:1471-1486 *)
  Definition XXH3_scrambleAcc (secret : N) (acc : list N) : M (list N) :=
    for_loop 8 0 (fun i acc =>
      key64 <- rd64 (at_ secret (8 * i)) ;;
      let acc64 := acc_get acc i in
      let acc64 := XXH_xorshift64 acc64 47 in
      let acc64 := N.lxor acc64 key64 in
      let acc64 := mul64 acc64 XXH_PRIME32_1 in
      ret (acc_set acc i acc64)) acc.
  (** tests/xxhash/xxh3.h:1488-1550 *)
  Definition XXH3_initCustomSecret (customSecret seed64 : N) : M unit :=
    let kSecretPtr := x3_kSecret x3 in
    for_loop 12 0 (fun i _ =>
      s <- rd64 (at_ kSecretPtr (16 * i)) ;;
      let lo := add64 s seed64 in
      s <- rd64 (at_ (at_ kSecretPtr (16 * i)) 8) ;;
      let hi := sub64 s seed64 in
      XXH_writeLE64 (at_ customSecret (16 * i)) lo ;;;
      XXH_writeLE64 (at_ (at_ customSecret (16 * i)) 8) hi) tt.
  (** tests/xxhash/xxh3.h:1615-1630 *)
  Definition XXH3_accumulate (input secret nbStripes : N) (acc : list N) : M (list N) :=
    for_loop (N.to_nat nbStripes) 0 (fun n => XXH3_accumulate_512 (at_ input (n * 64)) (at_ secret (n * 8))) acc.
  (** tests/xxhash/xxh3.h:1632-1663; with a secret of less than 72 bytes the code divides by
      zero *)
  Definition XXH3_hashLong_internal_loop (input len secret secretSize : N) (acc : list N) : M (list N) :=
    let nbStripesPerBlock := psub cfg secretSize 64 / 8 in
    if nbStripesPerBlock =? 0 then stuck
    else
      let block_len := 64 * nbStripesPerBlock in
      let nb_blocks := psub cfg len 1 / block_len in
      ASSERT (XXH3_SECRET_SIZE_MIN <=? secretSize) ;;;
      acc <- for_loop (N.to_nat nb_blocks) 0 (fun n acc =>
               acc <- XXH3_accumulate (at_ input (n * block_len)) secret nbStripesPerBlock acc ;;
               XXH3_scrambleAcc (psub cfg (at_ secret secretSize) 64) acc) acc ;;
      ASSERT (64 <? len) ;;;
      let nbStripes := (psub cfg len 1 - block_len * nb_blocks) / 64 in
      ASSERT (nbStripes <=? secretSize / 8) ;;;
      acc <- XXH3_accumulate (at_ input (nb_blocks * block_len)) secret nbStripes acc ;;
      let p := psub cfg (at_ input len) 64 in
      XXH3_accumulate_512 p (psub cfg (psub cfg (at_ secret secretSize) 64) 7) acc.
  (** tests/xxhash/xxh3.h:1665-1671; [acc] is from the element on *)
  Definition XXH3_mix2Accs (acc : list N) (secret : N) : M N :=
    s0 <- rd64 secret ;;
    s8 <- rd64 (at_ secret 8) ;;
    ret (XXH3_mul128_fold64 cfg (N.lxor (acc_get acc 0) s0) (N.lxor (acc_get acc 1) s8)).
  (** tests/xxhash/xxh3.h:1673-1698 *)
  Definition XXH3_mergeAccs (acc : list N) (secret start : N) : M N :=
    result64 <- for_loop 4 0 (fun i result64 =>
                  v <- XXH3_mix2Accs (skipn (N.to_nat (2 * i)) acc) (at_ secret (16 * i)) ;;
                  ret (add64 result64 v)) start ;;
    ret (XXH3_avalanche result64).
  (** tests/xxhash/xxh3.h:1700-1701 *)
  Definition XXH3_INIT_ACC : list N :=
    [XXH_PRIME32_3; XXH_PRIME64_1; XXH_PRIME64_2; XXH_PRIME64_3; XXH_PRIME64_4; XXH_PRIME32_2; XXH_PRIME64_5; XXH_PRIME32_1].
  (** tests/xxhash/xxh3.h:1703-1719 *)
  Definition XXH3_hashLong_64b_internal (input len secret secretSize : N) : M N :=
    acc <- XXH3_hashLong_internal_loop input len secret secretSize XXH3_INIT_ACC ;;
    ASSERT (64 + 11 <=? secretSize) ;;;
    XXH3_mergeAccs acc (at_ secret 11) (mul64 len XXH_PRIME64_1).
  (** tests/xxhash/xxh3.h:1724-1745 *)
  Definition XXH3_hashLong_64b_withSecret (input len seed64 secret secretLen : N) : M N :=
    XXH3_hashLong_64b_internal input len secret secretLen.
  Definition XXH3_hashLong_64b_default (input len seed64 secret secretLen : N) : M N :=
    XXH3_hashLong_64b_internal input len (x3_kSecret x3) XXH_SECRET_DEFAULT_SIZE.
  (** tests/xxhash/xxh3.h:1758-1786; [local] is the address of the local array [secret] *)
  Definition XXH3_hashLong_64b_withSeed (local input len seed secret secretLen : N) : M N :=
    if seed =? 0 then XXH3_hashLong_64b_internal input len (x3_kSecret x3) XXH_SECRET_DEFAULT_SIZE
    else
      XXH3_initCustomSecret local seed ;;;
      XXH3_hashLong_64b_internal input len local XXH_SECRET_DEFAULT_SIZE.
  (** tests/xxhash/xxh3.h:1792-1812 *)
  Definition XXH3_64bits_internal (input len seed64 secret secretLen : N) (f_hashLong : N -> N -> N -> N -> N -> M N) : M N :=
    ASSERT (XXH3_SECRET_SIZE_MIN <=? secretLen) ;;;
    if len <=? 16 then XXH3_len_0to16_64b input len secret seed64
    else if len <=? 128 then XXH3_len_17to128_64b input len secret secretLen seed64
    else if len <=? XXH3_MIDSIZE_MAX then XXH3_len_129to240_64b input len secret secretLen seed64
    else f_hashLong input len seed64 secret secretLen.
  (** tests/xxhash/xxh3.h:1817-1832 *)
  Definition XXH3_64bits (input len : N) : M N :=
    XXH3_64bits_internal input len 0 (x3_kSecret x3) XXH_SECRET_DEFAULT_SIZE XXH3_hashLong_64b_default.
  Definition XXH3_64bits_withSecret (input len secret secretSize : N) : M N :=
    XXH3_64bits_internal input len 0 secret secretSize XXH3_hashLong_64b_withSecret.
  Definition XXH3_64bits_withSeed (local input len seed : N) : M N :=
    XXH3_64bits_internal input len seed (x3_kSecret x3) XXH_SECRET_DEFAULT_SIZE (XXH3_hashLong_64b_withSeed local).

  (** ** 128 bits *)
  (** tests/xxhash/xxh3.h:2191-2218 *)
  Definition XXH3_len_1to3_128b (input len secret seed : N) : M hash128 :=
    ASSERT (negb (input =? 0)) ;;;
    ASSERT ((1 <=? len) && (len <=? 3)) ;;;
    ASSERT (negb (secret =? 0)) ;;;
    c1 <- byte_of cfg input 0 ;;
    c2 <- byte_of cfg input (N.shiftr len 1) ;;
    c3 <- byte_of cfg input (len - 1) ;;
    let combinedl := N.lor (N.lor (N.lor (shl32 c1 16) (shl32 c2 24)) (shl32 c3 0)) (shl32 (u32 len) 8) in
    let combinedh := XXH_rotl32 (XXH_swap32 cfg combinedl) 13 in
    s0 <- rd32 secret ;;
    s4 <- rd32 (at_ secret 4) ;;
    let bitflipl := add64 (N.lxor s0 s4) seed in
    s8 <- rd32 (at_ secret 8) ;;
    s12 <- rd32 (at_ secret 12) ;;
    let bitfliph := sub64 (N.lxor s8 s12) seed in
    let keyed_lo := N.lxor combinedl bitflipl in
    let keyed_hi := N.lxor combinedh bitfliph in
    ret (XXH64_avalanche keyed_lo, XXH64_avalanche keyed_hi).
  (** tests/xxhash/xxh3.h:2220-2245 *)
  Definition XXH3_len_4to8_128b (input len secret seed : N) : M hash128 :=
    ASSERT (negb (input =? 0)) ;;;
    ASSERT (negb (secret =? 0)) ;;;
    ASSERT ((4 <=? len) && (len <=? 8)) ;;;
    let seed := N.lxor seed (shl64 (XXH_swap32 cfg (u32 seed)) 32) in
    input_lo <- rd32 input ;;
    input_hi <- rd32 (psub cfg (at_ input len) 4) ;;
    let input_64 := add64 input_lo (shl64 input_hi 32) in
    s16 <- rd64 (at_ secret 16) ;;
    s24 <- rd64 (at_ secret 24) ;;
    let bitflip := add64 (N.lxor s16 s24) seed in
    let keyed := N.lxor input_64 bitflip in
    let '(low64, high64) := XXH_mult64to128 cfg keyed (add64 XXH_PRIME64_1 (N.shiftl len 2)) in
    let high64 := add64 high64 (shl64 low64 1) in
    let low64 := N.lxor low64 (shr64 high64 3) in
    let low64 := XXH_xorshift64 low64 35 in
    let low64 := mul64 low64 0x9FB21C651E98DF25 in
    let low64 := XXH_xorshift64 low64 28 in
    let high64 := XXH3_avalanche high64 in
    ret (low64, high64).
  (** tests/xxhash/xxh3.h:2247-2317 *)
  Definition XXH3_len_9to16_128b (input len secret seed : N) : M hash128 :=
    ASSERT (negb (input =? 0)) ;;;
    ASSERT (negb (secret =? 0)) ;;;
    ASSERT ((9 <=? len) && (len <=? 16)) ;;;
    s32 <- rd64 (at_ secret 32) ;;
    s40 <- rd64 (at_ secret 40) ;;
    let bitflipl := sub64 (N.lxor s32 s40) seed in
    s48 <- rd64 (at_ secret 48) ;;
    s56 <- rd64 (at_ secret 56) ;;
    let bitfliph := add64 (N.lxor s48 s56) seed in
    input_lo <- rd64 input ;;
    input_hi <- rd64 (psub cfg (at_ input len) 8) ;;
    let '(low64, high64) := XXH_mult64to128 cfg (N.lxor (N.lxor input_lo input_hi) bitflipl) XXH_PRIME64_1 in
    let low64 := add64 low64 (shl64 (len - 1) 54) in
    let input_hi := N.lxor input_hi bitfliph in
    let high64 :=
      if negb (ptr64 cfg) then
        add64 high64 (add64 (N.land input_hi 0xFFFFFFFF00000000) (XXH_mult32to64 (u32 input_hi) XXH_PRIME32_2))
      else
        add64 high64 (add64 input_hi (XXH_mult32to64 (u32 input_hi) (XXH_PRIME32_2 - 1))) in
    let low64 := N.lxor low64 (XXH_swap64 cfg high64) in
    let '(h_low64, h_high64) := XXH_mult64to128 cfg low64 XXH_PRIME64_2 in
    let h_high64 := add64 h_high64 (mul64 high64 XXH_PRIME64_2) in
    ret (XXH3_avalanche h_low64, XXH3_avalanche h_high64).
  (** tests/xxhash/xxh3.h:2322-2336 *)
  Definition XXH3_len_0to16_128b (input len secret seed : N) : M hash128 :=
    ASSERT (len <=? 16) ;;;
    if 8 <? len then XXH3_len_9to16_128b input len secret seed
    else if 4 <=? len then XXH3_len_4to8_128b input len secret seed
    else if negb (len =? 0) then XXH3_len_1to3_128b input len secret seed
    else
      s64 <- rd64 (at_ secret 64) ;;
      s72 <- rd64 (at_ secret 72) ;;
      let bitflipl := N.lxor s64 s72 in
      s80 <- rd64 (at_ secret 80) ;;
      s88 <- rd64 (at_ secret 88) ;;
      let bitfliph := N.lxor s80 s88 in
      ret (XXH64_avalanche (N.lxor seed bitflipl), XXH64_avalanche (N.lxor seed bitfliph)).
  (** tests/xxhash/xxh3.h:2341-2350 *)
  Definition XXH128_mix32B (acc : hash128) (input_1 input_2 secret seed : N) : M hash128 :=
    let '(low64, high64) := acc in
    v <- XXH3_mix16B input_1 (at_ secret 0) seed ;;
    let low64 := add64 low64 v in
    w0 <- rd64 input_2 ;;
    w8 <- rd64 (at_ input_2 8) ;;
    let low64 := N.lxor low64 (add64 w0 w8) in
    v <- XXH3_mix16B input_2 (at_ secret 16) seed ;;
    let high64 := add64 high64 v in
    w0 <- rd64 input_1 ;;
    w8 <- rd64 (at_ input_1 8) ;;
    let high64 := N.lxor high64 (add64 w0 w8) in
    ret (low64, high64).
  (** tests/xxhash/xxh3.h:2374-2382 and 2423-2431 *)
  Definition XXH3_mid_128b (len seed : N) (acc : hash128) : hash128 :=
    let '(low64, high64) := acc in
    let h_low64 := add64 low64 high64 in
    let h_high64 := add64 (add64 (mul64 low64 XXH_PRIME64_1) (mul64 high64 XXH_PRIME64_4))
                      (mul64 (sub64 len seed) XXH_PRIME64_2) in
    (XXH3_avalanche h_low64, sub64 0 (XXH3_avalanche h_high64)).
  (** tests/xxhash/xxh3.h:2353-2384 *)
  Definition XXH3_len_17to128_128b (input len secret secretSize seed : N) : M hash128 :=
    ASSERT (XXH3_SECRET_SIZE_MIN <=? secretSize) ;;;
    ASSERT ((16 <? len) && (len <=? 128)) ;;;
    let acc := (mul64 len XXH_PRIME64_1, 0) in
    acc <- (if 32 <? len then
              acc <- (if 64 <? len then
                        acc <- (if 96 <? len then XXH128_mix32B acc (at_ input 48) (back input len 64) (at_ secret 96) seed
                                else ret acc) ;;
                        XXH128_mix32B acc (at_ input 32) (back input len 48) (at_ secret 64) seed
                      else ret acc) ;;
              XXH128_mix32B acc (at_ input 16) (back input len 32) (at_ secret 32) seed
            else ret acc) ;;
    acc <- XXH128_mix32B acc input (back input len 16) secret seed ;;
    ret (XXH3_mid_128b len seed acc).
  (** tests/xxhash/xxh3.h:2386-2433; [i] as in XXH3_len_129to240_64b *)
  Definition XXH3_len_129to240_128b (input len secret secretSize seed : N) : M hash128 :=
    ASSERT (XXH3_SECRET_SIZE_MIN <=? secretSize) ;;;
    ASSERT ((128 <? len) && (len <=? XXH3_MIDSIZE_MAX)) ;;;
    let nbRounds := len / 32 in
    let acc := (mul64 len XXH_PRIME64_1, 0) in
    acc <- for_loop 4 0 (fun i acc =>
             XXH128_mix32B acc (at_ input (32 * i)) (at_ (at_ input (32 * i)) 16) (at_ secret (32 * i)) seed) acc ;;
    let acc := (XXH3_avalanche (fst acc), XXH3_avalanche (snd acc)) in
    ASSERT (4 <=? nbRounds) ;;;
    acc <- for_loop (N.to_nat (nbRounds - 4)) 0 (fun i acc =>
             XXH128_mix32B acc (at_ input (32 * (i + 4))) (at_ (at_ input (32 * (i + 4))) 16)
               (at_ (at_ secret XXH3_MIDSIZE_STARTOFFSET) (32 * i)) seed) acc ;;
    acc <- XXH128_mix32B acc (back input len 16) (back input len 32)
             (psub cfg (psub cfg (at_ secret XXH3_SECRET_SIZE_MIN) XXH3_MIDSIZE_LASTOFFSET) 16) (sub64 0 seed) ;;
    ret (XXH3_mid_128b len seed acc).
  (** tests/xxhash/xxh3.h:2435-2458 *)
  Definition XXH3_hashLong_128b_internal (input len secret secretSize : N) : M hash128 :=
    acc <- XXH3_hashLong_internal_loop input len secret secretSize XXH3_INIT_ACC ;;
    ASSERT (64 + 11 <=? secretSize) ;;;
    low64 <- XXH3_mergeAccs acc (at_ secret 11) (mul64 len XXH_PRIME64_1) ;;
    high64 <- XXH3_mergeAccs acc (psub cfg (psub cfg (at_ secret secretSize) 64) 11) (not64 (mul64 len XXH_PRIME64_2)) ;;
    ret (low64, high64).
  (** tests/xxhash/xxh3.h:2463-2484 *)
  Definition XXH3_hashLong_128b_default (input len seed64 secret secretLen : N) : M hash128 :=
    XXH3_hashLong_128b_internal input len (x3_kSecret x3) XXH_SECRET_DEFAULT_SIZE.
  Definition XXH3_hashLong_128b_withSecret (input len seed64 secret secretLen : N) : M hash128 :=
    XXH3_hashLong_128b_internal input len secret secretLen.
  (** tests/xxhash/xxh3.h:2486-2514 *)
  Definition XXH3_hashLong_128b_withSeed (local input len seed64 secret secretLen : N) : M hash128 :=
    if seed64 =? 0 then XXH3_hashLong_128b_internal input len (x3_kSecret x3) XXH_SECRET_DEFAULT_SIZE
    else
      XXH3_initCustomSecret local seed64 ;;;
      XXH3_hashLong_128b_internal input len local XXH_SECRET_DEFAULT_SIZE.
  (** tests/xxhash/xxh3.h:2519-2538 *)
  Definition XXH3_128bits_internal (input len seed64 secret secretLen : N) (f_hl128 : N -> N -> N -> N -> N -> M hash128) : M hash128 :=
    ASSERT (XXH3_SECRET_SIZE_MIN <=? secretLen) ;;;
    if len <=? 16 then XXH3_len_0to16_128b input len secret seed64
    else if len <=? 128 then XXH3_len_17to128_128b input len secret secretLen seed64
    else if len <=? XXH3_MIDSIZE_MAX then XXH3_len_129to240_128b input len secret secretLen seed64
    else f_hl128 input len seed64 secret secretLen.
  (** tests/xxhash/xxh3.h:2543-2570 *)
  Definition XXH3_128bits (input len : N) : M hash128 :=
    XXH3_128bits_internal input len 0 (x3_kSecret x3) XXH_SECRET_DEFAULT_SIZE XXH3_hashLong_128b_default.
  Definition XXH3_128bits_withSecret (input len secret secretSize : N) : M hash128 :=
    XXH3_128bits_internal input len 0 secret secretSize XXH3_hashLong_128b_withSecret.
  Definition XXH3_128bits_withSeed (local input len seed : N) : M hash128 :=
    XXH3_128bits_internal input len seed (x3_kSecret x3) XXH_SECRET_DEFAULT_SIZE (XXH3_hashLong_128b_withSeed local).
  Definition XXH128 (local input len seed : N) : M hash128 := XXH3_128bits_withSeed local input len seed.

  (** tests/xxhash/xxh_thunk.c:40-46 *)
  Definition thunk_XXH3_64 (local input length seed : N) : M N := XXH3_64bits_withSeed local input length seed.
  Definition thunk_XXH3_128 (local input length seed : N) : M N :=
    h <- XXH3_128bits_withSeed local input length seed ;; ret (fst h).
End Xxh3.
