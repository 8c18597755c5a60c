(** Model of src/t1ha1.c.  Definitions only. *)
From Coq Require Import NArith List Bool Strings.Byte.
From Verif Require Import Bytes CSem Bits T1ha2.
Import ListNotations.
Local Open Scope N_scope.

(** src/t1ha1.c:49-52 *)
Definition mix64 (v p : N) : N :=
  let v := mul64 v p in N.lxor v (rot64 v 41).

(** src/t1ha1.c:54-60 *)
Definition final_weak_avalanche (cfg : config) (a b : N) : N :=
  add64 (mux64 cfg (rot64 (add64 a b) 17) prime_4) (mix64 (N.lxor a b) prime_0).

(** The body of the loop of src/t1ha1.c:71-83.  The four local variables
    a, b, c, d are kept in a [state256]; [v] is a uint64_t pointer. *)
Definition T1HA1_STEP (cfg : config) (fetch : N -> M N) (s : state256) (v : N)
  : M state256 :=
  w0 <- fetch (padd cfg v 0) ;;
  w1 <- fetch (padd cfg v 8) ;;
  w2 <- fetch (padd cfg v 16) ;;
  w3 <- fetch (padd cfg v 24) ;;
  let d02 := N.lxor w0 (rot64 (add64 w2 (sd s)) 17) in
  let c13 := N.lxor w1 (rot64 (add64 w3 (sc s)) 17) in
  let d := sub64 (sd s) (N.lxor (sb s) (rot64 w1 31)) in
  let c := add64 (sc s) (N.lxor (sa s) (rot64 w0 41)) in
  let b := N.lxor (sb s) (mul64 prime_0 (add64 c13 w2)) in
  let a := N.lxor (sa s) (mul64 prime_1 (add64 d02 w3)) in
  ret (St a b c d).

(** The macro T1HA1_BODY(ENDIANNES, ALIGNESS), src/t1ha1.c:63-127.  The fuel of
    the loop is the number of 32-byte blocks in [len]. *)
Definition T1HA1_BODY (cfg : config) (fetch : N -> M N) (tail : N -> N -> M N)
  (a b data len seed : N) : M N :=
  r <- (if 32 <? len then
          let c := add64 (rot64 len 17) seed in
          let d := N.lxor len (rot64 seed 17) in
          let detent := psub cfg (padd cfg data len) 31 in
          sv <- do_while (N.to_nat (len / 32))
                  (fun x : state256 * N =>
                     let '(s, v) := x in
                     s' <- T1HA1_STEP cfg fetch s v ;; ret (s', padd cfg v 32))
                  (fun x : state256 * N => snd x <? detent)
                  (St a b c d, data) ;;
          let '(s, v) := sv in
          let a := N.lxor (sa s) (mul64 prime_6 (add64 (rot64 (sc s) 17) (sd s))) in
          let b := N.lxor (sb s) (mul64 prime_5 (add64 (sc s) (rot64 (sd s) 17))) in
          ret ((a, b), v, N.land len 31)
        else ret ((a, b), data, len)) ;;
  let '(ab, v, len) := r in
  let e := switch8 len in
  sv <- when (Nat.leb 4 e) (fun sv : N * N * N => let '((a, b), v) := sv in
          w <- fetch v ;; ret ((a, add64 b (mux64 cfg w prime_4)), padd cfg v 8)) (ab, v) ;;
  sv <- when (Nat.leb 3 e) (fun sv : N * N * N => let '((a, b), v) := sv in
          w <- fetch v ;; ret ((add64 a (mux64 cfg w prime_3), b), padd cfg v 8)) sv ;;
  sv <- when (Nat.leb 2 e) (fun sv : N * N * N => let '((a, b), v) := sv in
          w <- fetch v ;; ret ((a, add64 b (mux64 cfg w prime_2)), padd cfg v 8)) sv ;;
  sv <- when (Nat.leb 1 e) (fun sv : N * N * N => let '((a, b), v) := sv in
          w <- tail v len ;; ret ((add64 a (mux64 cfg w prime_1), b), v)) sv ;;
  let '((a, b), _) := sv in
  ret (final_weak_avalanche cfg a b).

(** src/t1ha1.c:129-143 *)
Definition t1ha1_le (cfg : config) (data len seed : N) : M N :=
  if is_efficient cfg then
    T1HA1_BODY cfg (fetch64_le_unaligned cfg) (tail64_le_unaligned cfg) seed len data len seed
  else if misaligned64 cfg data then
    T1HA1_BODY cfg (fetch64_le_unaligned cfg) (tail64_le_unaligned cfg) seed len data len seed
  else
    T1HA1_BODY cfg (fetch64_le_aligned cfg) (tail64_le_aligned cfg) seed len data len seed.

(** src/t1ha1.c:145-159 *)
Definition t1ha1_be (cfg : config) (data len seed : N) : M N :=
  if is_efficient cfg then
    T1HA1_BODY cfg (fetch64_be_unaligned cfg) (tail64_be_unaligned cfg) seed len data len seed
  else if misaligned64 cfg data then
    T1HA1_BODY cfg (fetch64_be_unaligned cfg) (tail64_be_unaligned cfg) seed len data len seed
  else
    T1HA1_BODY cfg (fetch64_be_aligned cfg) (tail64_be_aligned cfg) seed len data len seed.
