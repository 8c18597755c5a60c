(** Model of the rest of tests/xxhash/xxh3.h: what is done with hashes of 128 bits, secrets
    made of a seed of any length, and states on the heap.  Definitions only. *)
From Coq Require Import ZArith NArith List Bool Strings.Byte.
From Verif Require Import Bytes CSem Bits Ia32aes Xxhash Xxh3.
Import ListNotations.
Local Open Scope N_scope.

(** ** Hashes of 128 bits *)
(** the bytes of an object of 64 bits, and of XXH128_hash_t, tests/xxhash/xxhash.h:633-636 *)
Definition object64 (cfg : config) (v : N) : list byte := if big_endian cfg then be_bytes 8 v else le_bytes 8 v.
Definition object128 (cfg : config) (h : hash128) : list byte := object64 cfg (fst h) ++ object64 cfg (snd h).
(** memcmp of two objects of the same size: the sign is that of the first difference *)
Fixpoint memcmp (a b : list byte) : Z :=
  match a, b with
  | x :: a, y :: b => if b2n x <? b2n y then (-1)%Z else if b2n y <? b2n x then 1%Z else memcmp a b
  | _, _ => 0%Z
  end.
(** tests/xxhash/xxh3.h:2653-2657 *)
Definition XXH128_isEqual (cfg : config) (h1 h2 : hash128) : Z :=
  if (memcmp (object128 cfg h1) (object128 cfg h2) =? 0)%Z then 1%Z else 0%Z.
(** a read of XXH128_hash_t through a pointer *)
Definition deref128 (cfg : config) (p : N) : M hash128 :=
  low64 <- deref cfg 8 p ;;
  high64 <- deref cfg 8 (padd cfg p 8) ;;
  ret (low64, high64).
(** tests/xxhash/xxh3.h:2663-2671 *)
Definition XXH128_cmp (cfg : config) (h128_1 h128_2 : N) : M Z :=
  let gt (x y : N) : Z := if y <? x then 1%Z else 0%Z in
  h1 <- deref128 cfg h128_1 ;;
  h2 <- deref128 cfg h128_2 ;;
  let hcmp := (gt (snd h1) (snd h2) - gt (snd h2) (snd h1))%Z in
  if negb (hcmp =? 0)%Z then ret hcmp
  else ret (gt (fst h1) (fst h2) - gt (fst h2) (fst h1))%Z.
(** tests/xxhash/xxh3.h:2675-2685 *)
Definition XXH128_canonicalFromHash (cfg : config) (dst : N) (hash : hash128) : M unit :=
  let '(low64, high64) := if big_endian cfg then hash else (XXH_swap64 cfg (fst hash), XXH_swap64 cfg (snd hash)) in
  store_uint cfg 8 dst high64 ;;;
  store_uint cfg 8 (padd cfg dst 8) low64.
(** tests/xxhash/xxh3.h:2687-2694 *)
Definition XXH128_hashFromCanonical (cfg : config) (xb : xxh_build) (src : N) : M hash128 :=
  high64 <- XXH_readBE64 cfg xb src ;;
  low64 <- XXH_readBE64 cfg xb (padd cfg src 8) ;;
  ret (low64, high64).

(** ** A secret of a seed of any length *)
(** The addresses of the local arrays of XXH3_generateSecret; [gs_local] is that of the
    functions that are called *)
Record gs_frame : Type := { gs_scrambler : N; gs_seeds : N; gs_segment : N; gs_local : N }.
(** tests/xxhash/xxh3.h:2131-2172 *)
Definition XXH3_generateSecret (cfg : config) (x3 : xxh3_build) (f : gs_frame) (secretBuffer customSeed customSeedSize : N) : M unit :=
  XXH_ASSERT cfg x3 (negb (secretBuffer =? 0)) ;;;
  if customSeedSize =? 0 then memcpy cfg secretBuffer (x3_kSecret x3) XXH_SECRET_DEFAULT_SIZE
  else
    XXH_ASSERT cfg x3 (negb (customSeed =? 0)) ;;;
    h <- XXH128 cfg x3 (gs_local f) customSeed customSeedSize 0 ;;
    XXH128_canonicalFromHash cfg (gs_scrambler f) h ;;;
    let toFill := if 96 <? customSeedSize then 96 else customSeedSize in
    memcpy cfg (gs_seeds f) customSeed toFill ;;;
    while_ 96 (fun filled =>
      let toFill := if 96 - filled <? filled then 96 - filled else filled in
      memcpy cfg (padd cfg (gs_seeds f) filled) (gs_seeds f) toFill ;;;
      ret (filled + toFill)) (fun filled => filled <? 96) toFill ;;;
    memcpy cfg secretBuffer (gs_scrambler f) 16 ;;;
    for_loop 11 1 (fun segnb _ =>
      s <- XXH_readLE64 cfg (x3_xxh x3) (padd cfg (gs_seeds f) (8 * segnb)) ;;
      h <- XXH128 cfg x3 (gs_local f) (gs_scrambler f) 16 (add64 s segnb) ;;
      XXH128_canonicalFromHash cfg (gs_segment f) h ;;;
      memcpy cfg (padd cfg secretBuffer (segnb * 16)) (gs_segment f) 16) tt.

(** ** States on the heap *)
Section Heap.
  Variable (cfg : config) (x3 : xxh3_build).
  (** tests/xxhash/xxh3.h:1860-1886; [base] is what malloc(s + align) returns *)
  Definition XXH_alignedMalloc (base s align : N) : M N :=
    XXH_ASSERT cfg x3 ((align <=? 128) && (8 <=? align)) ;;;
    XXH_ASSERT cfg x3 (N.land align (psub cfg align 1) =? 0) ;;;
    XXH_ASSERT cfg x3 (negb (s =? 0) && (s <? padd cfg s align)) ;;;
    if negb (base =? 0) then
      let offset := psub cfg align (N.land base (psub cfg align 1)) in
      let ptr := padd cfg base offset in
      XXH_ASSERT cfg x3 (ptr mod align =? 0) ;;;
      store_bytes (psub cfg ptr 1) (le_bytes 1 offset) ;;;
      ret ptr
    else ret 0.
  (** tests/xxhash/xxh3.h:1891-1901: what is passed to free, if it is called *)
  Definition XXH_alignedFree (p : N) : M (option N) :=
    if negb (p =? 0) then
      offset <- byte_of cfg (psub cfg p 1) 0 ;;
      ret (Some (psub cfg p offset))
    else ret None.
  (** sizeof(XXH3_state_t), tests/xxhash/xxhash.h:551-571: three arrays of 64, 192 and 256
      bytes, two members of 4 bytes, three of type size_t, three of 8 bytes and a pointer,
      with the members of 8 bytes and the whole aligned *)
  Definition sizeof_XXH3_state : N :=
    let w := if ptr64 cfg then 8 else 4 in
    let end_ := (512 + 8 + 3 * w + 7) / 8 * 8 + 24 + w in
    (end_ + 63) / 64 * 64.
  (** tests/xxhash/xxh3.h:1902-1911 *)
  Definition XXH3_createState (base : N) : M N := XXH_alignedMalloc base sizeof_XXH3_state 64.
  Definition XXH3_freeState (statePtr : N) : M (N * option N) :=
    f <- XXH_alignedFree statePtr ;; ret (XXH_OK, f).
End Heap.
