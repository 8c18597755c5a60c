(** What a caller of the one-shot functions must guarantee about memory. *)
From Coq Require Import NArith List Bool Strings.Byte.
From Verif Require Import Bytes CSem Spec CSemFacts.
Import ListNotations.
Local Open Scope N_scope.

(** PAGESIZE (src/t1ha_bits.h:99-101, default 4096) is a power of two, and at
    least one word. *)
Definition page_ok (cfg : config) : Prop :=
  exists k, 3 <= k <= 32 /\ pagesize cfg = 2 ^ k.

(** Memory is mapped page-wise around [n] bytes at [p]: any address on the same
    PAGESIZE-page as one of those bytes is mapped.  (True of every real system
    whose protection granularity is a multiple of PAGESIZE.) *)
Definition page_rounded (cfg : config) (m : mem) (p n : N) : Prop :=
  forall i a, i < n -> a / pagesize cfg = (p + i) / pagesize cfg -> m a <> None.

(** The key [msg] is stored at [p]; its end does not reach the very top of the
    address space; and if the build reads whole words at the tail
    (T1HA_USE_FAST_ONESHOT_READ, no address sanitizer), memory is mapped in
    whole pages.  Nothing else is assumed about memory. *)
Definition key_at (cfg : config) (m : mem) (p : N) (msg : list byte) : Prop :=
  bytes_at m p msg /\ p + mlen msg < addr_space cfg /\
  (fast_oneshot cfg = true -> page_ok cfg /\ page_rounded cfg m p (mlen msg)).

(** Excludes builds for 32-bit machines whose aligned 64-bit reads are only
    4-aligned and that nevertheless read whole words at the tail
    (see C06_strict_align_32_refuted for what happens there). *)
Definition whole_words_ok (cfg : config) : Prop :=
  fast_oneshot cfg = true -> wide cfg = true \/ is_efficient cfg = true.

(** Excludes the builds in which src/t1ha_bits.h:938 (a call of the undeclared
    [fetch32_be]) is compiled; see C36. *)
Definition be_tail_builds (cfg : config) : Prop :=
  has_underside cfg && wide cfg = false -> is_efficient cfg && big_endian cfg = false.
