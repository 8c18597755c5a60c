(** Model of the functions that copy a state of xxHash, tests/xxhash.  Definitions only.

    Each copies a whole structure with memcpy.  As everywhere the members that are arrays of
    bytes are in the memory, and the others are a record, which is copied as a value.  The
    overlap that memcpy forbids is checked for the part in the memory. *)
From Coq Require Import NArith List Bool.
From Verif Require Import Bytes CSem Bits Xxhash Xxh3 Xxh3State.
Local Open Scope N_scope.

(** tests/xxhash/xxhash.h:1399-1402; the addresses are those of the member mem32 *)
Definition XXH32_copyState (cfg : config) (dst_mem32 src_mem32 : N) (src : XXH32_state) : M XXH32_state :=
  memcpy cfg dst_mem32 src_mem32 16 ;;; ret src.
(** tests/xxhash/xxhash.h:1940-1943; the addresses are those of the member mem64 *)
Definition XXH64_copyState (cfg : config) (dst_mem64 src_mem64 : N) (src : XXH64_state) : M XXH64_state :=
  memcpy cfg dst_mem64 src_mem64 32 ;;; ret src.
(** tests/xxhash/xxh3.h:1913-1917; the addresses are those of the states.  The pointer to
    the secret is copied, not the secret. *)
Definition XXH3_copyState (cfg : config) (dst_state src_state : N) (src : XXH3_state) : M XXH3_state :=
  if (dst_state =? 0) || (src_state =? 0) then undef BadMemcpy
  else memcpy cfg (padd cfg dst_state 64) (padd cfg src_state 64) 448 ;;; ret src.
