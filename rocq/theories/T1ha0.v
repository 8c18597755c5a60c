(** Model of the 32-bit hash of src/t1ha0.c.  Definitions only. *)
From Coq Require Import NArith List Bool Strings.Byte.
From Verif Require Import Bytes CSem Bits T1ha2.
Import ListNotations.
Local Open Scope N_scope.

(** The body of the loop of src/t1ha0.c:277-290.  The four uint32_t variables
    a, b, c, d are kept in a [state256]; [v] is a uint32_t pointer. *)
Definition T1HA0_STEP (cfg : config) (fetch : N -> M N) (s : state256) (v : N)
  : M state256 :=
  w0 <- fetch (padd cfg v 0) ;;
  w1 <- fetch (padd cfg v 4) ;;
  w2 <- fetch (padd cfg v 8) ;;
  w3 <- fetch (padd cfg v 12) ;;
  let d13 := add32 w1 (rot32 (add32 w3 (sd s)) 17) in
  let c02 := N.lxor w0 (rot32 (add32 w2 (sc s)) 11) in
  let d := N.lxor (sd s) (rot32 (add32 (sa s) w0) 3) in
  let c := N.lxor (sc s) (rot32 (add32 (sb s) w1) 7) in
  let b := mul32 prime32_1 (add32 c02 w3) in
  let a := mul32 prime32_0 (N.lxor d13 w2) in
  ret (St a b c d).

(** Entry point of [switch (len)], src/t1ha0.c:302-324. *)
Definition switch4 (len : N) : nat :=
  if existsb (N.eqb len) [12; 11; 10; 9] then 3%nat
  else if existsb (N.eqb len) [8; 7; 6; 5] then 2%nat
  else if existsb (N.eqb len) [4; 3; 2; 1] then 1%nat
  else if len =? 0 then 0%nat
  else 4%nat.

(** The macro T1HA0_BODY(ENDIANNES, ALIGNESS), src/t1ha0.c:269-324.  The fuel of
    the loop is the number of 16-byte blocks in [len]. *)
Definition T1HA0_BODY (cfg : config) (fetch : N -> M N) (tail : N -> N -> M N)
  (a b data len : N) : M N :=
  r <- (if 16 <? len then
          let c := not32 a in
          let d := rot32 b 5 in
          let detent := psub cfg (padd cfg data len) 15 in
          sv <- do_while (N.to_nat (len / 16))
                  (fun x : state256 * N =>
                     let '(s, v) := x in
                     s' <- T1HA0_STEP cfg fetch s v ;; ret (s', padd cfg v 16))
                  (fun x : state256 * N => snd x <? detent)
                  (St a b c d, data) ;;
          let '(s, v) := sv in
          let c := add32 (sc s) (sa s) in
          let d := add32 (sd s) (sb s) in
          let a := N.lxor (sa s) (mul32 prime32_6 (add32 (rot32 c 16) d)) in
          let b := N.lxor (sb s) (mul32 prime32_5 (add32 c (rot32 d 16))) in
          ret ((a, b), v, N.land len 15)
        else ret ((a, b), data, len)) ;;
  let '(ab, v, len) := r in
  let e := switch4 len in
  sv <- when (Nat.leb 4 e) (fun sv : N * N * N => let '((a, b), v) := sv in
          w <- fetch v ;; let '(a, b) := mixup32 a b w prime32_4 in
          ret ((a, b), padd cfg v 4)) (ab, v) ;;
  sv <- when (Nat.leb 3 e) (fun sv : N * N * N => let '((a, b), v) := sv in
          w <- fetch v ;; let '(b, a) := mixup32 b a w prime32_3 in
          ret ((a, b), padd cfg v 4)) sv ;;
  sv <- when (Nat.leb 2 e) (fun sv : N * N * N => let '((a, b), v) := sv in
          w <- fetch v ;; let '(a, b) := mixup32 a b w prime32_2 in
          ret ((a, b), padd cfg v 4)) sv ;;
  sv <- when (Nat.leb 1 e) (fun sv : N * N * N => let '((a, b), v) := sv in
          w <- tail v len ;; let '(b, a) := mixup32 b a w prime32_1 in
          ret ((a, b), v)) sv ;;
  let '((a, b), _) := sv in
  ret (final32 a b).

(** [((uintptr_t)data) & (ALIGNMENT_32 - 1)) != 0], src/t1ha0.c:333, 349. *)
Definition misaligned32 (cfg : config) (data : N) : bool :=
  negb (N.land data (alignment cfg 4 - 1) =? 0).

(** src/t1ha0.c:326-340 *)
Definition t1ha0_32le (cfg : config) (data len seed : N) : M N :=
  let a := add32 (rot32 (u32 len) 17) (u32 seed) in
  let b := N.lxor (u32 len) (u32 (shr64 seed 32)) in
  if is_efficient cfg then
    T1HA0_BODY cfg (fetch32_le_unaligned cfg) (tail32_le_unaligned cfg) a b data len
  else if misaligned32 cfg data then
    T1HA0_BODY cfg (fetch32_le_unaligned cfg) (tail32_le_unaligned cfg) a b data len
  else
    T1HA0_BODY cfg (fetch32_le_aligned cfg) (tail32_le_aligned cfg) a b data len.

(** src/t1ha0.c:342-356 *)
Definition t1ha0_32be (cfg : config) (data len seed : N) : M N :=
  let a := add32 (rot32 (u32 len) 17) (u32 seed) in
  let b := N.lxor (u32 len) (u32 (shr64 seed 32)) in
  if is_efficient cfg then
    T1HA0_BODY cfg (fetch32_be_unaligned cfg) (tail32_be_unaligned cfg) a b data len
  else if misaligned32 cfg data then
    T1HA0_BODY cfg (fetch32_be_unaligned cfg) (tail32_be_unaligned cfg) a b data len
  else
    T1HA0_BODY cfg (fetch32_be_aligned cfg) (tail32_be_aligned cfg) a b data len.
