(** How a streaming context is laid out in memory, and what it means for a
    context to hold a hash computation in progress. *)
From Coq Require Import NArith List Bool Strings.Byte.
From Verif Require Import Bytes CSem Bits T1ha2 Spec CSemFacts.
Import ListNotations.
Local Open Scope N_scope.

(** the [n] bytes of the number [v] in the byte order of the host *)
Definition native (cfg : config) (n : nat) (v : N) : list byte :=
  if big_endian cfg then be_bytes n v else le_bytes n v.

(** offsetof(t1ha_context_t, total), t1ha.h:415-420: [total] follows the
    size_t [partial] at 64; it is at 72, or at 68 on 32-bit machines that align
    64-bit numbers to 4. *)
Definition layout_ok (cfg : config) : Prop :=
  off_total cfg = 72 \/ (off_total cfg = 68 /\ ptr64 cfg = false /\ wide cfg = false).

(** a properly aligned, non-null object of type t1ha_context_t *)
Definition ctx_ptr (cfg : config) (c : N) : Prop :=
  layout_ok cfg /\ c <> 0 /\ c mod alignment cfg 8 = 0 /\ c + sizeof_ctx cfg < addr_space cfg.

Definition ctx_mapped (cfg : config) (m : mem) (c : N) : Prop :=
  mapped m c 64 /\ mapped m (c + 64) (sizeof_ptr cfg) /\ mapped m (c + off_total cfg) 8.

(** The context at [c] holds the state [s], the pending bytes [buf] and the
    byte count [total]. *)
Definition ctx_is (cfg : config) (m : mem) (c : N) (s : st4) (buf : list byte) (total : N) : Prop :=
  bytes_at m c (native cfg 8 (qa s) ++ native cfg 8 (qb s) ++ native cfg 8 (qc s) ++ native cfg 8 (qd s)) /\
  mapped m (c + 32) 32 /\ bytes_at m (c + 32) buf /\
  bytes_at m (c + 64) (native cfg (sizeof_ptr cfg) (mlen buf)) /\
  bytes_at m (c + off_total cfg) (native cfg 8 total).

(** The context at [c] has been initialised with seeds [x], [y] and then been
    fed the bytes [msg]. *)
Definition in_progress (cfg : config) (m : mem) (c x y : N) (msg : list byte) : Prop :=
  ctx_is cfg m c (stream_state x y msg) (rest 32 msg) (mlen msg mod 2 ^ 64).

(** [m'] differs from [m] at most in the [n] bytes from [p] on; nothing gets unmapped. *)
Definition only (m m' : mem) (p n : N) : Prop :=
  (forall a, a < p \/ p + n <= a -> m' a = m a) /\ (forall a, m a <> None -> m' a <> None).
