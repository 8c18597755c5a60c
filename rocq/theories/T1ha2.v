(** Model of src/t1ha2.c (and of the context layout in t1ha.h:406-420).
    Definitions only. *)
From Coq Require Import NArith List Bool Strings.Byte.
From Verif Require Import Bytes CSem Bits.
Import ListNotations.
Local Open Scope N_scope.

(** t1ha_state256_t, member [n], t1ha.h:406-413. *)
Record state256 : Type := St { sa : N; sb : N; sc : N; sd : N }.

(** src/t1ha2.c:48-52 *)
Definition init_ab (s : state256) (x y : N) : state256 := St x y (sc s) (sd s).

(** src/t1ha2.c:54-58 *)
Definition init_cd (s : state256) (x y : N) : state256 :=
  St (sa s) (sb s) (add64 (rot64 y 23) (not64 x)) (add64 (not64 y) (rot64 x 19)).

(** src/t1ha2.c:61-75.  [fetch] is fetch64_le_aligned or fetch64_le_unaligned,
    selected by the macro parameter; [v] is a uint64_t pointer, so [v + i] is
    [8 * i] bytes further. *)
Definition T1HA2_UPDATE (cfg : config) (fetch : N -> M N) (s : state256) (v : N)
  : M state256 :=
  w0 <- fetch (padd cfg v 0) ;;
  w1 <- fetch (padd cfg v 8) ;;
  w2 <- fetch (padd cfg v 16) ;;
  w3 <- fetch (padd cfg v 24) ;;
  let d02 := add64 w0 (rot64 (add64 w2 (sd s)) 56) in
  let c13 := add64 w1 (rot64 (add64 w3 (sc s)) 19) in
  let d := N.lxor (sd s) (add64 (sb s) (rot64 w1 38)) in
  let c := N.lxor (sc s) (add64 (sa s) (rot64 w0 57)) in
  let b := N.lxor (sb s) (mul64 prime_6 (add64 c13 w2)) in
  let a := N.lxor (sa s) (mul64 prime_5 (add64 d02 w3)) in
  ret (St a b c d).

(** src/t1ha2.c:77-80 *)
Definition squash (s : state256) : state256 :=
  let a := N.lxor (sa s) (mul64 prime_6 (add64 (sc s) (rot64 (sd s) 23))) in
  let b := N.lxor (sb s) (mul64 prime_5 (add64 (rot64 (sc s) 19) (sd s))) in
  St a b (sc s) (sd s).

(** src/t1ha2.c:83-92: returns the state and the advanced [data].  The fuel is
    the number of 32-byte blocks in [len]. *)
Definition T1HA2_LOOP (cfg : config) (fetch : N -> M N) (s : state256) (data len : N)
  : M (state256 * N) :=
  let detent := psub cfg (padd cfg data len) 31 in
  do_while (N.to_nat (len / 32))
    (fun x : state256 * N =>
       let '(s, data) := x in
       let v := data in
       let data := padd cfg data 32 in
       s' <- T1HA2_UPDATE cfg fetch s v ;; ret (s', data))
    (fun x : state256 * N => snd x <? detent)
    (s, data).

(** Where [switch (len)] of src/t1ha2.c:99-137, 147-185, src/t1ha1.c:91-125 and
    src/t1ha0_ia32aes_a.h enters its fall-through chain: 4 = default, 3 = cases
    24..17, 2 = cases 16..9, 1 = cases 8..1, 0 = case 0. *)
Definition switch8 (len : N) : nat :=
  if existsb (N.eqb len) [24; 23; 22; 21; 20; 19; 18; 17] then 3%nat
  else if existsb (N.eqb len) [16; 15; 14; 13; 12; 11; 10; 9] then 2%nat
  else if existsb (N.eqb len) [8; 7; 6; 5; 4; 3; 2; 1] then 1%nat
  else if len =? 0 then 0%nat
  else 4%nat.

(** One statement of a fall-through chain: executed if the entry point is at or
    above it. *)
Definition when {S : Type} (c : bool) (f : S -> M S) (s : S) : M S :=
  if c then f s else ret s.

(** src/t1ha2.c:95-140: final state (the mixups write into [*s]) and result. *)
Definition T1HA2_TAIL_AB (cfg : config) (fetch : N -> M N) (tail : N -> N -> M N)
  (s : state256) (data len : N) : M (state256 * N) :=
  let e := switch8 len in
  sv <- when (Nat.leb 4 e) (fun sv : state256 * N => let '(s, v) := sv in
          w <- fetch v ;; let '(a, b) := mixup64 cfg (sa s) (sb s) w prime_4 in
          ret (St a b (sc s) (sd s), padd cfg v 8)) (s, data) ;;
  sv <- when (Nat.leb 3 e) (fun sv : state256 * N => let '(s, v) := sv in
          w <- fetch v ;; let '(b, a) := mixup64 cfg (sb s) (sa s) w prime_3 in
          ret (St a b (sc s) (sd s), padd cfg v 8)) sv ;;
  sv <- when (Nat.leb 2 e) (fun sv : state256 * N => let '(s, v) := sv in
          w <- fetch v ;; let '(a, b) := mixup64 cfg (sa s) (sb s) w prime_2 in
          ret (St a b (sc s) (sd s), padd cfg v 8)) sv ;;
  sv <- when (Nat.leb 1 e) (fun sv : state256 * N => let '(s, v) := sv in
          w <- tail v len ;; let '(b, a) := mixup64 cfg (sb s) (sa s) w prime_1 in
          ret (St a b (sc s) (sd s), v)) sv ;;
  let s := fst sv in
  ret (s, final64 cfg (sa s) (sb s)).

(** src/t1ha2.c:190-198: (returned low half, [*h]). *)
Definition final128 (cfg : config) (a b c d : N) : N * N :=
  let '(a, b) := mixup64 cfg a b (N.lxor (rot64 c 41) d) prime_0 in
  let '(b, c) := mixup64 cfg b c (N.lxor (rot64 d 23) a) prime_6 in
  let '(c, d) := mixup64 cfg c d (N.lxor (rot64 a 19) b) prime_5 in
  let '(d, a) := mixup64 cfg d a (N.lxor (rot64 b 31) c) prime_4 in
  (N.lxor a b, add64 c d).

(** src/t1ha2.c:143-188: final state, returned low half, and the value for
    [*extra_result]. *)
Definition T1HA2_TAIL_ABCD (cfg : config) (fetch : N -> M N) (tail : N -> N -> M N)
  (s : state256) (data len : N) : M (state256 * (N * N)) :=
  let e := switch8 len in
  sv <- when (Nat.leb 4 e) (fun sv : state256 * N => let '(s, v) := sv in
          w <- fetch v ;; let '(a, d) := mixup64 cfg (sa s) (sd s) w prime_4 in
          ret (St a (sb s) (sc s) d, padd cfg v 8)) (s, data) ;;
  sv <- when (Nat.leb 3 e) (fun sv : state256 * N => let '(s, v) := sv in
          w <- fetch v ;; let '(b, a) := mixup64 cfg (sb s) (sa s) w prime_3 in
          ret (St a b (sc s) (sd s), padd cfg v 8)) sv ;;
  sv <- when (Nat.leb 2 e) (fun sv : state256 * N => let '(s, v) := sv in
          w <- fetch v ;; let '(c, b) := mixup64 cfg (sc s) (sb s) w prime_2 in
          ret (St (sa s) b c (sd s), padd cfg v 8)) sv ;;
  sv <- when (Nat.leb 1 e) (fun sv : state256 * N => let '(s, v) := sv in
          w <- tail v len ;; let '(d, c) := mixup64 cfg (sd s) (sc s) w prime_1 in
          ret (St (sa s) (sb s) c d, v)) sv ;;
  let s := fst sv in
  ret (s, final128 cfg (sa s) (sb s) (sc s) (sd s)).

(** [((uintptr_t)data) & (ALIGNMENT_64 - 1)) != 0], src/t1ha2.c:221, 274, 341 and
    src/t1ha1.c:136, 152. *)
Definition misaligned64 (cfg : config) (data : N) : bool :=
  negb (N.land data (alignment cfg 8 - 1) =? 0).

(** Whether the [unaligned] copy of a body runs: always with efficient unaligned
    access, else if the pointer is misaligned (src/t1ha2.c:206-251). *)
Definition use_unaligned64 (cfg : config) (data : N) : bool :=
  is_efficient cfg || misaligned64 cfg data.

Definition fetch64_le (cfg : config) (un : bool) : N -> M N :=
  if un then fetch64_le_unaligned cfg else fetch64_le_aligned cfg.
Definition tail64_le (cfg : config) (un : bool) : N -> N -> M N :=
  if un then tail64_le_unaligned cfg else tail64_le_aligned cfg.

(** Members c and d of an automatic t1ha_state256_t before init_cd: never read
    (src/t1ha2.c:203-204: TAIL_AB and final64 use only a and b). *)
Definition uninit : state256 := St 0 0 0 0.

(** src/t1ha2.c:202-252 *)
Definition t1ha2_atonce (cfg : config) (data length seed : N) : M N :=
  let un := use_unaligned64 cfg data in
  let fetch := fetch64_le cfg un in
  let tail := tail64_le cfg un in
  let s := init_ab uninit seed length in
  r <- (if 32 <? length then
          let s := init_cd s seed length in
          sd <- T1HA2_LOOP cfg fetch s data length ;;
          ret (squash (fst sd), snd sd, N.land length 31)
        else ret (s, data, length)) ;;
  let '(s, data, length) := r in
  x <- T1HA2_TAIL_AB cfg fetch tail s data length ;;
  ret (snd x).

(** Native store through a [uint64_t *] or [size_t *]: like read_aligned, it
    promises alignment where the platform needs it. *)
Definition write_aligned (cfg : config) (n : nat) (p v : N) : M unit :=
  if ia32 cfg || is_efficient cfg then store_uint cfg n p v
  else if p mod alignment cfg n =? 0 then store_uint cfg n p v
  else undef MisalignedAccess.

(** Two objects [p, p+n) and [q, q+k) have a byte in common. *)
Definition overlap (p n q k : N) : bool :=
  (p <? q + k) && (q <? p + n) && negb (n =? 0) && negb (k =? 0).

(** src/t1ha2.c:254-301.  Both pointers are [restrict]. *)
Definition t1ha2_atonce128 (cfg : config) (extra_result data length seed : N) : M N :=
  if overlap extra_result 8 data length then undef RestrictOverlap else
  let un := use_unaligned64 cfg data in
  let fetch := fetch64_le cfg un in
  let tail := tail64_le cfg un in
  let s := init_cd (init_ab uninit seed length) seed length in
  r <- (if 32 <? length then
          sd <- T1HA2_LOOP cfg fetch s data length ;;
          ret (fst sd, snd sd, N.land length 31)
        else ret (s, data, length)) ;;
  let '(s, data, length) := r in
  x <- T1HA2_TAIL_ABCD cfg fetch tail s data length ;;
  write_aligned cfg 8 extra_result (snd (snd x)) ;;;
  ret (fst (snd x)).

(** ** The streaming API.  A context is its bytes in memory: state at offset 0,
    buffer at 32, partial at 64, total at [off_total cfg] (t1ha.h:415-420; 68 or
    72 depending on pointer width and alignment of uint64_t). *)

Definition sizeof_ctx (cfg : config) : N := off_total cfg + 8.

Definition load_state (cfg : config) (ctx : N) : M state256 :=
  a <- read_aligned cfg 8 (padd cfg ctx 0) ;;
  b <- read_aligned cfg 8 (padd cfg ctx 8) ;;
  c <- read_aligned cfg 8 (padd cfg ctx 16) ;;
  d <- read_aligned cfg 8 (padd cfg ctx 24) ;;
  ret (St a b c d).

Definition store_state (cfg : config) (ctx : N) (s : state256) : M unit :=
  write_aligned cfg 8 (padd cfg ctx 0) (sa s) ;;;
  write_aligned cfg 8 (padd cfg ctx 8) (sb s) ;;;
  write_aligned cfg 8 (padd cfg ctx 16) (sc s) ;;;
  write_aligned cfg 8 (padd cfg ctx 24) (sd s).

Definition buffer (cfg : config) (ctx : N) : N := padd cfg ctx 32.
Definition load_partial (cfg : config) (ctx : N) : M N :=
  read_aligned cfg (sizeof_ptr cfg) (padd cfg ctx 64).
Definition store_partial (cfg : config) (ctx v : N) : M unit :=
  write_aligned cfg (sizeof_ptr cfg) (padd cfg ctx 64) v.
Definition load_total (cfg : config) (ctx : N) : M N :=
  read_aligned cfg 8 (padd cfg ctx (off_total cfg)).
Definition store_total (cfg : config) (ctx v : N) : M unit :=
  write_aligned cfg 8 (padd cfg ctx (off_total cfg)) v.

(** src/t1ha2.c:305-310 *)
Definition t1ha2_init (cfg : config) (ctx seed_x seed_y : N) : M unit :=
  store_state cfg ctx (init_cd (init_ab uninit seed_x seed_y) seed_x seed_y) ;;;
  store_partial cfg ctx 0 ;;;
  store_total cfg ctx 0.

(** src/t1ha2.c:312-365.  [restrict]: the context and the data must not overlap.
    The state is loaded before a block loop and stored after it; the C code
    updates it in place, which is the same because nothing else in the loop
    reads the context. *)
Definition t1ha2_update (cfg : config) (ctx data length : N) : M unit :=
  if overlap ctx (sizeof_ctx cfg) data length then undef RestrictOverlap else
  total <- load_total cfg ctx ;;
  store_total cfg ctx (add64 total length) ;;;
  partial <- load_partial cfg ctx ;;
  r <- (if negb (partial =? 0) then
          let left := psub cfg 32 partial in
          let chunk := if left <=? length then left else length in
          memcpy cfg (padd cfg (buffer cfg ctx) partial) data chunk ;;;
          let partial := padd cfg partial chunk in
          store_partial cfg ctx partial ;;;
          if partial <? 32 then
            assert_ cfg (length <=? left) ;;; ret None
          else
            store_partial cfg ctx 0 ;;;
            let data := padd cfg data chunk in
            let length := psub cfg length chunk in
            s <- load_state cfg ctx ;;
            s <- T1HA2_UPDATE cfg (fetch64_le cfg false) s (buffer cfg ctx) ;;
            store_state cfg ctx s ;;;
            ret (Some (data, length))
        else ret (Some (data, length))) ;;
  match r with
  | None => ret tt
  | Some (data, length) =>
      dl <- (if 32 <=? length then
               let un := use_unaligned64 cfg data in
               s <- load_state cfg ctx ;;
               sd <- T1HA2_LOOP cfg (fetch64_le cfg un) s data length ;;
               store_state cfg ctx (fst sd) ;;;
               ret (snd sd, N.land length 31)
             else ret (data, length)) ;;
      let '(data, length) := dl in
      if negb (length =? 0) then
        store_partial cfg ctx length ;;;
        memcpy cfg (buffer cfg ctx) data length
      else ret tt
  end.

(** src/t1ha2.c:367-381.  [bits_addr] is where the automatic variable [bits]
    lives.  [extra_result = 0] is the NULL pointer. *)
Definition t1ha2_final (cfg : config) (bits_addr ctx extra_result : N) : M N :=
  if negb (extra_result =? 0) && overlap ctx (sizeof_ctx cfg) extra_result 8
  then undef RestrictOverlap else
  total <- load_total cfg ctx ;;
  let bits := N.lxor (shl64 total 3) (shl64 1 63) in
  let bits := if big_endian cfg then bswap64 cfg bits else bits in
  write_aligned cfg 8 bits_addr bits ;;;
  t1ha2_update cfg ctx bits_addr 8 ;;;
  if extra_result =? 0 then
    s <- load_state cfg ctx ;;
    partial <- load_partial cfg ctx ;;
    x <- T1HA2_TAIL_AB cfg (fetch64_le cfg false) (tail64_le cfg false)
           (squash s) (buffer cfg ctx) partial ;;
    store_state cfg ctx (fst x) ;;;
    ret (snd x)
  else
    s <- load_state cfg ctx ;;
    partial <- load_partial cfg ctx ;;
    x <- T1HA2_TAIL_ABCD cfg (fetch64_le cfg false) (tail64_le cfg false)
           s (buffer cfg ctx) partial ;;
    store_state cfg ctx (fst x) ;;;
    write_aligned cfg 8 extra_result (snd (snd x)) ;;;
    ret (fst (snd x)).
