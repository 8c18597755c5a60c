(** Model of XXH3 with multiple calls, tests/xxhash/xxh3.h.  Definitions only.

    Of a state at [st] the members [customSecret] and [buffer] are in the memory, at the
    places tests/xxhash/xxhash.h:551-571 gives them.  The other members are a record. *)
From Coq Require Import NArith List Bool Strings.Byte.
From Verif Require Import Bytes CSem Bits Xxhash Xxh3.
Import ListNotations.
Local Open Scope N_scope.

(** tests/xxhash/xxhash.h:551-571, without the reserved members *)
Record XXH3_state : Type := S3 {
  s3_acc : list N;
  s3_bufferedSize : N;
  s3_nbStripesPerBlock : N;
  s3_nbStripesSoFar : N;
  s3_secretLimit : N;
  s3_totalLen : N;
  s3_seed : N;
  s3_extSecret : N }.

Section Xxh3State.
  Variable (cfg : config) (x3 : xxh3_build).
  Let at_ (p k : N) : N := padd cfg p k.
  Let back (p k : N) : N := psub cfg p k.
  Let ASSERT : bool -> M unit := XXH_ASSERT cfg x3.
  Definition customSecret_of (st : N) : N := at_ st 64.
  Definition buffer_of (st : N) : N := at_ st 256.
  (** XXH3_INTERNALBUFFER_SIZE, tests/xxhash/xxhash.h:549 *)
  Definition XXH3_INTERNALBUFFER_SIZE : N := 256.
  Definition XXH3_INTERNALBUFFER_STRIPES : N := 4.

  (** ** Starting *)
  (** tests/xxhash/xxh3.h:1919-1940; memset clears the members in the memory, and the
      record is new *)
  Definition XXH3_64bits_reset_internal (st seed secret secretSize : N) : M XXH3_state :=
    ASSERT (negb (st =? 0)) ;;;
    store_bytes (at_ st 64) (repeat x00 448) ;;;
    ASSERT (negb (secret =? 0)) ;;;
    ASSERT (XXH3_SECRET_SIZE_MIN <=? secretSize) ;;;
    let secretLimit := back secretSize 64 in
    ret (S3 XXH3_INIT_ACC 0 (secretLimit / 8) 0 secretLimit 0 seed secret).
  (** tests/xxhash/xxh3.h:1942-1968; [s] is the state before *)
  Definition XXH3_64bits_reset (st : N) (s : XXH3_state) : M (N * XXH3_state) :=
    if st =? 0 then ret (XXH_ERROR, s)
    else
      s <- XXH3_64bits_reset_internal st 0 (x3_kSecret x3) XXH_SECRET_DEFAULT_SIZE ;;
      ret (XXH_OK, s).
  Definition XXH3_64bits_reset_withSecret (st secret secretSize : N) (s : XXH3_state) : M (N * XXH3_state) :=
    if st =? 0 then ret (XXH_ERROR, s)
    else
      s <- XXH3_64bits_reset_internal st 0 secret secretSize ;;
      if secret =? 0 then ret (XXH_ERROR, s)
      else if secretSize <? XXH3_SECRET_SIZE_MIN then ret (XXH_ERROR, s)
      else ret (XXH_OK, s).
  Definition XXH3_64bits_reset_withSeed (st seed : N) (s : XXH3_state) : M (N * XXH3_state) :=
    if st =? 0 then ret (XXH_ERROR, s)
    else
      s <- XXH3_64bits_reset_internal st seed (x3_kSecret x3) XXH_SECRET_DEFAULT_SIZE ;;
      XXH3_initCustomSecret cfg x3 (customSecret_of st) seed ;;;
      ret (XXH_OK, S3 (s3_acc s) (s3_bufferedSize s) (s3_nbStripesPerBlock s) (s3_nbStripesSoFar s) (s3_secretLimit s)
                      (s3_totalLen s) (s3_seed s) 0).
  (** tests/xxhash/xxh3.h:2580-2614, the same text *)
  Definition XXH3_128bits_reset : N -> XXH3_state -> M (N * XXH3_state) := XXH3_64bits_reset.
  Definition XXH3_128bits_reset_withSecret : N -> N -> N -> XXH3_state -> M (N * XXH3_state) := XXH3_64bits_reset_withSecret.
  Definition XXH3_128bits_reset_withSeed : N -> N -> XXH3_state -> M (N * XXH3_state) := XXH3_64bits_reset_withSeed.

  (** ** Feeding *)
  (** tests/xxhash/xxh3.h:1973-1995; the accumulators and the counter after *)
  Definition XXH3_consumeStripes (acc : list N) (nbStripesSoFar nbStripesPerBlock input nbStripes secret secretLimit : N) : M (list N * N) :=
    ASSERT (nbStripes <=? nbStripesPerBlock) ;;;
    ASSERT (nbStripesSoFar <? nbStripesPerBlock) ;;;
    if back nbStripesPerBlock nbStripesSoFar <=? nbStripes then
      let nbStripesToEndofBlock := back nbStripesPerBlock nbStripesSoFar in
      let nbStripesAfterBlock := back nbStripes nbStripesToEndofBlock in
      acc <- XXH3_accumulate cfg x3 input (at_ secret (nbStripesSoFar * 8)) nbStripesToEndofBlock acc ;;
      acc <- XXH3_scrambleAcc cfg x3 (at_ secret secretLimit) acc ;;
      acc <- XXH3_accumulate cfg x3 (at_ input (nbStripesToEndofBlock * 64)) secret nbStripesAfterBlock acc ;;
      ret (acc, nbStripesAfterBlock)
    else
      acc <- XXH3_accumulate cfg x3 input (at_ secret (nbStripesSoFar * 8)) nbStripes acc ;;
      ret (acc, at_ nbStripesSoFar nbStripes).
  (** state->extSecret == NULL ? state->customSecret : state->extSecret *)
  Definition secret_of (st : N) (s : XXH3_state) : N :=
    if s3_extSecret s =? 0 then customSecret_of st else s3_extSecret s.
  (** tests/xxhash/xxh3.h:2000-2066; the accumulators, the counter and the input pointer go
      through the loop *)
  Definition XXH3_update (st input len : N) (s : XXH3_state) : M (N * XXH3_state) :=
    if input =? 0 then ret (if xxh_accept_null_input_pointer (x3_xxh x3) then XXH_OK else XXH_ERROR, s)
    else
      let bEnd := at_ input len in
      let secret := secret_of st s in
      let buffer := buffer_of st in
      let totalLen := add64 (s3_totalLen s) len in
      let state acc soFar bufferedSize := S3 acc bufferedSize (s3_nbStripesPerBlock s) soFar (s3_secretLimit s) totalLen (s3_seed s) (s3_extSecret s) in
      let consume acc soFar input :=
        XXH3_consumeStripes acc soFar (s3_nbStripesPerBlock s) input XXH3_INTERNALBUFFER_STRIPES secret (s3_secretLimit s) in
      if at_ (s3_bufferedSize s) len <=? XXH3_INTERNALBUFFER_SIZE then
        memcpy cfg (at_ buffer (s3_bufferedSize s)) input len ;;;
        ret (XXH_OK, state (s3_acc s) (s3_nbStripesSoFar s) (add32 (s3_bufferedSize s) (u32 len)))
      else
        y <- (if negb (s3_bufferedSize s =? 0) then
                let loadSize := sub32 XXH3_INTERNALBUFFER_SIZE (s3_bufferedSize s) in
                memcpy cfg (at_ buffer (s3_bufferedSize s)) input loadSize ;;;
                c <- consume (s3_acc s) (s3_nbStripesSoFar s) buffer ;;
                ret (c, at_ input loadSize)
              else ret ((s3_acc s, s3_nbStripesSoFar s), input)) ;;
        ASSERT (snd y <? bEnd) ;;;
        y <- (if at_ (snd y) XXH3_INTERNALBUFFER_SIZE <? bEnd then
                let limit := back bEnd XXH3_INTERNALBUFFER_SIZE in
                y <- do_while (S (N.to_nat (len / XXH3_INTERNALBUFFER_SIZE)))
                       (fun y => c <- consume (fst (fst y)) (snd (fst y)) (snd y) ;; ret (c, at_ (snd y) XXH3_INTERNALBUFFER_SIZE))
                       (fun y => snd y <? limit) y ;;
                memcpy cfg (back (at_ buffer 256) 64) (back (snd y) 64) 64 ;;;
                ret y
              else ret y) ;;
        ASSERT (snd y <? bEnd) ;;;
        memcpy cfg buffer (snd y) (back bEnd (snd y)) ;;;
        ret (XXH_OK, state (fst (fst y)) (snd (fst y)) (u32 (back bEnd (snd y)))).
  (** tests/xxhash/xxh3.h:2069-2074, 2616-2621 *)
  Definition XXH3_64bits_update : N -> N -> N -> XXH3_state -> M (N * XXH3_state) := XXH3_update.
  Definition XXH3_128bits_update : N -> N -> N -> XXH3_state -> M (N * XXH3_state) := XXH3_update.

  (** ** The result so far *)
  (** tests/xxhash/xxh3.h:2077-2109; [lastStripe] is the address of the local array *)
  Definition XXH3_digest_long (lastStripe st : N) (s : XXH3_state) (secret : N) : M (list N) :=
    let acc := s3_acc s in
    let buffer := buffer_of st in
    let bufferedSize := s3_bufferedSize s in
    let last_secret := back (at_ secret (s3_secretLimit s)) 7 in
    if 64 <=? bufferedSize then
      let nbStripes := sub32 bufferedSize 1 / 64 in
      c <- XXH3_consumeStripes acc (s3_nbStripesSoFar s) (s3_nbStripesPerBlock s) buffer nbStripes secret (s3_secretLimit s) ;;
      XXH3_accumulate_512 cfg x3 (back (at_ buffer bufferedSize) 64) last_secret (fst c)
    else
      let catchupSize := sub32 64 bufferedSize in
      ASSERT (0 <? bufferedSize) ;;;
      memcpy cfg lastStripe (back (at_ buffer 256) catchupSize) catchupSize ;;;
      memcpy cfg (at_ lastStripe catchupSize) buffer bufferedSize ;;;
      XXH3_accumulate_512 cfg x3 lastStripe last_secret acc.
  (** tests/xxhash/xxh3.h:2111-2126; [local] is the address of the local arrays of the
      functions that are called *)
  Definition XXH3_64bits_digest (local st : N) (s : XXH3_state) : M N :=
    let secret := secret_of st s in
    if XXH3_MIDSIZE_MAX <? s3_totalLen s then
      acc <- XXH3_digest_long local st s secret ;;
      XXH3_mergeAccs cfg x3 acc (at_ secret 11) (mul64 (s3_totalLen s) XXH_PRIME64_1)
    else
      let len := s3_totalLen s mod addr_space cfg in
      if negb (s3_seed s =? 0) then XXH3_64bits_withSeed cfg x3 local (buffer_of st) len (s3_seed s)
      else XXH3_64bits_withSecret cfg x3 (buffer_of st) len secret (at_ (s3_secretLimit s) 64).
  (** tests/xxhash/xxh3.h:2623-2648 *)
  Definition XXH3_128bits_digest (local st : N) (s : XXH3_state) : M hash128 :=
    let secret := secret_of st s in
    if XXH3_MIDSIZE_MAX <? s3_totalLen s then
      acc <- XXH3_digest_long local st s secret ;;
      ASSERT (64 + 11 <=? at_ (s3_secretLimit s) 64) ;;;
      low64 <- XXH3_mergeAccs cfg x3 acc (at_ secret 11) (mul64 (s3_totalLen s) XXH_PRIME64_1) ;;
      high64 <- XXH3_mergeAccs cfg x3 acc (back (back (at_ (at_ secret (s3_secretLimit s)) 64) 64) 11)
                  (not64 (mul64 (s3_totalLen s) XXH_PRIME64_2)) ;;
      ret (low64, high64)
    else
      let len := s3_totalLen s mod addr_space cfg in
      if negb (s3_seed s =? 0) then XXH3_128bits_withSeed cfg x3 local (buffer_of st) len (s3_seed s)
      else XXH3_128bits_withSecret cfg x3 (buffer_of st) len secret (at_ (s3_secretLimit s) 64).
End Xxh3State.
