(** Model of XXH3 with multiple calls, compiled with vector instructions,
    tests/xxhash/xxh3.h.  Definitions only.

    As Xxh3State.v, but the accumulators of a state at [st] are in the memory too: they are
    its first member, tests/xxhash/xxhash.h:551-571, so [s3_acc] of the record is not used. *)
From Coq Require Import NArith List Bool Strings.Byte.
From Verif Require Import Bytes CSem Bits Xxhash Xxh3 Xxh3State Xxh3Simd.
Import ListNotations.
Local Open Scope N_scope.

Section Xxh3SimdState.
  Variable (cfg : config) (x3 : xxh3_build) (v : xxh_vector).
  Let at_ (p k : N) : N := padd cfg p k.
  Let back (p k : N) : N := psub cfg p k.
  Let ASSERT : bool -> M unit := XXH_ASSERT cfg x3.

  (** ** Starting *)
  (** tests/xxhash/xxh3.h:1919-1940; memset clears the members in the memory *)
  Definition reset_internal_v (st seed secret secretSize : N) : M XXH3_state :=
    ASSERT (negb (st =? 0)) ;;;
    store_bytes st (repeat x00 512) ;;;
    init_accs cfg st ;;;
    ASSERT (negb (secret =? 0)) ;;;
    ASSERT (XXH3_SECRET_SIZE_MIN <=? secretSize) ;;;
    let secretLimit := back secretSize 64 in
    ret (S3 [] 0 (secretLimit / 8) 0 secretLimit 0 seed secret).
  (** tests/xxhash/xxh3.h:1942-1968; those for 128 bits, 2580-2614, have the same text *)
  Definition reset_v (st : N) (s : XXH3_state) : M (N * XXH3_state) :=
    if st =? 0 then ret (XXH_ERROR, s)
    else
      s <- reset_internal_v st 0 (x3_kSecret x3) XXH_SECRET_DEFAULT_SIZE ;;
      ret (XXH_OK, s).
  Definition reset_withSecret_v (st secret secretSize : N) (s : XXH3_state) : M (N * XXH3_state) :=
    if st =? 0 then ret (XXH_ERROR, s)
    else
      s <- reset_internal_v st 0 secret secretSize ;;
      if secret =? 0 then ret (XXH_ERROR, s)
      else if secretSize <? XXH3_SECRET_SIZE_MIN then ret (XXH_ERROR, s)
      else ret (XXH_OK, s).
  Definition reset_withSeed_v (st seed : N) (s : XXH3_state) : M (N * XXH3_state) :=
    if st =? 0 then ret (XXH_ERROR, s)
    else
      s <- reset_internal_v st seed (x3_kSecret x3) XXH_SECRET_DEFAULT_SIZE ;;
      f_initCustomSecret cfg x3 v (customSecret_of cfg st) seed ;;;
      ret (XXH_OK, S3 [] (s3_bufferedSize s) (s3_nbStripesPerBlock s) (s3_nbStripesSoFar s) (s3_secretLimit s)
                      (s3_totalLen s) (s3_seed s) 0).

  (** ** Feeding *)
  (** tests/xxhash/xxh3.h:1973-1995; the counter after *)
  Definition consumeStripes_v (acc nbStripesSoFar nbStripesPerBlock input nbStripes secret secretLimit : N) : M N :=
    let accumulate := accumulate_mem cfg (f_accumulate_512 cfg x3 v) in
    ASSERT (nbStripes <=? nbStripesPerBlock) ;;;
    ASSERT (nbStripesSoFar <? nbStripesPerBlock) ;;;
    if back nbStripesPerBlock nbStripesSoFar <=? nbStripes then
      let nbStripesToEndofBlock := back nbStripesPerBlock nbStripesSoFar in
      let nbStripesAfterBlock := back nbStripes nbStripesToEndofBlock in
      accumulate acc input (at_ secret (nbStripesSoFar * 8)) nbStripesToEndofBlock ;;;
      f_scrambleAcc cfg x3 v acc (at_ secret secretLimit) ;;;
      accumulate acc (at_ input (nbStripesToEndofBlock * 64)) secret nbStripesAfterBlock ;;;
      ret nbStripesAfterBlock
    else
      accumulate acc input (at_ secret (nbStripesSoFar * 8)) nbStripes ;;;
      ret (at_ nbStripesSoFar nbStripes).
  (** tests/xxhash/xxh3.h:2000-2066; the counter and the input pointer go through the loop.
      XXH3_64bits_update and XXH3_128bits_update, 2069-2074 and 2616-2621, are this *)
  Definition update_v (st input len : N) (s : XXH3_state) : M (N * XXH3_state) :=
    if input =? 0 then ret (if xxh_accept_null_input_pointer (x3_xxh x3) then XXH_OK else XXH_ERROR, s)
    else
      let bEnd := at_ input len in
      let secret := secret_of cfg st s in
      let buffer := buffer_of cfg st in
      let totalLen := add64 (s3_totalLen s) len in
      let state soFar bufferedSize := S3 [] bufferedSize (s3_nbStripesPerBlock s) soFar (s3_secretLimit s) totalLen (s3_seed s) (s3_extSecret s) in
      let consume soFar input :=
        consumeStripes_v st soFar (s3_nbStripesPerBlock s) input XXH3_INTERNALBUFFER_STRIPES secret (s3_secretLimit s) in
      if at_ (s3_bufferedSize s) len <=? XXH3_INTERNALBUFFER_SIZE then
        memcpy cfg (at_ buffer (s3_bufferedSize s)) input len ;;;
        ret (XXH_OK, state (s3_nbStripesSoFar s) (add32 (s3_bufferedSize s) (u32 len)))
      else
        y <- (if negb (s3_bufferedSize s =? 0) then
                let loadSize := sub32 XXH3_INTERNALBUFFER_SIZE (s3_bufferedSize s) in
                memcpy cfg (at_ buffer (s3_bufferedSize s)) input loadSize ;;;
                c <- consume (s3_nbStripesSoFar s) buffer ;;
                ret (c, at_ input loadSize)
              else ret (s3_nbStripesSoFar s, input)) ;;
        ASSERT (snd y <? bEnd) ;;;
        y <- (if at_ (snd y) XXH3_INTERNALBUFFER_SIZE <? bEnd then
                let limit := back bEnd XXH3_INTERNALBUFFER_SIZE in
                y <- do_while (S (N.to_nat (len / XXH3_INTERNALBUFFER_SIZE)))
                       (fun y => c <- consume (fst y) (snd y) ;; ret (c, at_ (snd y) XXH3_INTERNALBUFFER_SIZE))
                       (fun y => snd y <? limit) y ;;
                memcpy cfg (back (at_ buffer 256) 64) (back (snd y) 64) 64 ;;;
                ret y
              else ret y) ;;
        ASSERT (snd y <? bEnd) ;;;
        memcpy cfg buffer (snd y) (back bEnd (snd y)) ;;;
        ret (XXH_OK, state (fst y) (u32 (back bEnd (snd y)))).

  (** ** The result so far *)
  (** tests/xxhash/xxh3.h:2077-2109; [lastStripe] is the address of the local array *)
  Definition digest_long_v (lastStripe acc st : N) (s : XXH3_state) (secret : N) : M unit :=
    let buffer := buffer_of cfg st in
    let bufferedSize := s3_bufferedSize s in
    let last_secret := back (at_ secret (s3_secretLimit s)) 7 in
    memcpy cfg acc st 64 ;;;
    if 64 <=? bufferedSize then
      let nbStripes := sub32 bufferedSize 1 / 64 in
      _ <- consumeStripes_v acc (s3_nbStripesSoFar s) (s3_nbStripesPerBlock s) buffer nbStripes secret (s3_secretLimit s) ;;
      f_accumulate_512 cfg x3 v acc (back (at_ buffer bufferedSize) 64) last_secret
    else
      let catchupSize := sub32 64 bufferedSize in
      ASSERT (0 <? bufferedSize) ;;;
      memcpy cfg lastStripe (back (at_ buffer 256) catchupSize) catchupSize ;;;
      memcpy cfg (at_ lastStripe catchupSize) buffer bufferedSize ;;;
      f_accumulate_512 cfg x3 v acc lastStripe last_secret.
  (** tests/xxhash/xxh3.h:2111-2126; [acc] is the address of the local accumulators, also of
      the functions called, and [lastStripe] that of their other local arrays *)
  Definition digest64_v (lastStripe acc st : N) (s : XXH3_state) : M N :=
    let secret := secret_of cfg st s in
    if XXH3_MIDSIZE_MAX <? s3_totalLen s then
      digest_long_v lastStripe acc st s secret ;;;
      a <- read_accs cfg acc ;;
      XXH3_mergeAccs cfg x3 a (at_ secret 11) (mul64 (s3_totalLen s) XXH_PRIME64_1)
    else
      let len := s3_totalLen s mod addr_space cfg in
      if negb (s3_seed s =? 0) then XXH3_64bits_withSeed_v cfg x3 v acc lastStripe (buffer_of cfg st) len (s3_seed s)
      else XXH3_64bits_withSecret_v cfg x3 v acc (buffer_of cfg st) len secret (at_ (s3_secretLimit s) 64).
  (** tests/xxhash/xxh3.h:2623-2648 *)
  Definition digest128_v (lastStripe acc st : N) (s : XXH3_state) : M hash128 :=
    let secret := secret_of cfg st s in
    if XXH3_MIDSIZE_MAX <? s3_totalLen s then
      digest_long_v lastStripe acc st s secret ;;;
      ASSERT (64 + 11 <=? at_ (s3_secretLimit s) 64) ;;;
      a <- read_accs cfg acc ;;
      low64 <- XXH3_mergeAccs cfg x3 a (at_ secret 11) (mul64 (s3_totalLen s) XXH_PRIME64_1) ;;
      high64 <- XXH3_mergeAccs cfg x3 a (back (back (at_ (at_ secret (s3_secretLimit s)) 64) 64) 11)
                  (not64 (mul64 (s3_totalLen s) XXH_PRIME64_2)) ;;
      ret (low64, high64)
    else
      let len := s3_totalLen s mod addr_space cfg in
      if negb (s3_seed s =? 0) then XXH3_128bits_withSeed_v cfg x3 v acc lastStripe (buffer_of cfg st) len (s3_seed s)
      else XXH3_128bits_withSecret_v cfg x3 v acc (buffer_of cfg st) len secret (at_ (s3_secretLimit s) 64).
End Xxh3SimdState.
