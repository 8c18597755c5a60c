(** Model of src/t1ha0_ia32aes_a.h (t1ha0_ia32aes_noavx and t1ha0_ia32aes_avx)
    and src/t1ha0_ia32aes_b.h (t1ha0_ia32aes_avx2).  Definitions only. *)
From Coq Require Import NArith List Bool Strings.Byte.
From Verif Require Import Bytes CSem Bits T1ha2 Aes.
Import ListNotations.
Local Open Scope N_scope.

(** while (cond) { body } with explicit fuel. *)
Fixpoint while_ {S : Type} (fuel : nat) (body : S -> M S) (cond : S -> bool) (s : S) : M S :=
  if cond s then
    match fuel with
    | O => stuck
    | Datatypes.S f => s' <- body s ;; while_ f body cond s'
    end
  else ret s.

(** The local variables [x], [y] and the vector pointer [v]. *)
Record aes_vars : Type := XY { ax : N; ay : N; av : N }.

(** The pair of steps [v0y = y + *v++; v1x = x - *v++; x = aesdec(x, v0y);
    y = aesdec(y, v1x)], src/t1ha0_ia32aes_a.h:85-88, 90-93, 97-100 and
    src/t1ha0_ia32aes_b.h:89-92. *)
Definition aes_pair (cfg : config) (s : aes_vars) : M aes_vars :=
  w0 <- loadu (av s) ;;
  let v0y := add_epi64 (ay s) w0 in
  w1 <- loadu (padd cfg (av s) 16) ;;
  let v1x := sub_epi64 (ax s) w1 in
  ret (XY (aesdec (ax s) v0y) (aesdec (ay s) v1x) (padd cfg (av s) 32)).

(** The body of the 128-byte loop, src/t1ha0_ia32aes_a.h:62-81. *)
Definition aes_a_block (cfg : config) (s : aes_vars) : M aes_vars :=
  let v := av s in
  v0 <- loadu (padd cfg v 0) ;;
  v1 <- loadu (padd cfg v 16) ;;
  v2 <- loadu (padd cfg v 32) ;;
  v3 <- loadu (padd cfg v 48) ;;
  v4 <- loadu (padd cfg v 64) ;;
  v5 <- loadu (padd cfg v 80) ;;
  v6 <- loadu (padd cfg v 96) ;;
  v7 <- loadu (padd cfg v 112) ;;
  let v0y := aesenc v0 (ay s) in
  let v2x6 := aesenc v2 (xor_si128 (ax s) v6) in
  let v45_67 := xor_si128 (aesenc v4 v5) (add_epi64 v6 v7) in
  let v0y7_1 := aesdec (sub_epi64 v7 v0y) v1 in
  let v2x6_3 := aesenc v2x6 v3 in
  let x := aesenc v45_67 (add_epi64 (ax s) (ay s)) in
  let y := aesenc v2x6_3 (xor_si128 v0y7_1 v5) in
  ret (XY x y (padd cfg v 128)).

(** The four ways to take [a] and [b] out of the vector [x],
    src/t1ha0_ia32aes_a.h:109-130 and src/t1ha0_ia32aes_b.h:96-117. *)
Definition extract_ab (cfg : config) (x : N) : N * N :=
  match simd cfg with
  | SimdX64Sse41 => (lane64 x 0, lane64 x 1)
  | SimdX64 => (lane64 x 0, lane64 (unpackhi_epi64 x x) 0)
  | SimdX86Sse41 =>
      (N.lor (lane32 x 0) (shl64 (sext32 (lane32 x 1)) 32),
       N.lor (lane32 x 2) (shl64 (sext32 (lane32 x 3)) 32))
  | SimdX86 =>
      let a := lane32 x 0 in
      let a := N.lor a (shl64 (sext32 (lane32 (shuffle_epi32 x 1) 0)) 32) in
      let x := unpackhi_epi64 x x in
      let b := lane32 x 0 in
      let b := N.lor b (shl64 (sext32 (lane32 (shuffle_epi32 x 1) 0)) 32) in
      (a, b)
  end.

(** The tail switch, src/t1ha0_ia32aes_a.h:141-178 and src/t1ha0_ia32aes_b.h:126-163. *)
Definition aes_tail (cfg : config) (a b data len : N) : M N :=
  let fetch := fetch64_le_unaligned cfg in
  let e := switch8 len in
  sv <- when (Nat.leb 4 e) (fun sv : N * N * N => let '((a, b), v) := sv in
          w <- fetch v ;; let '(a, b) := mixup64 cfg a b w prime_4 in
          ret ((a, b), padd cfg v 8)) ((a, b), data) ;;
  sv <- when (Nat.leb 3 e) (fun sv : N * N * N => let '((a, b), v) := sv in
          w <- fetch v ;; let '(b, a) := mixup64 cfg b a w prime_3 in
          ret ((a, b), padd cfg v 8)) sv ;;
  sv <- when (Nat.leb 2 e) (fun sv : N * N * N => let '((a, b), v) := sv in
          w <- fetch v ;; let '(a, b) := mixup64 cfg a b w prime_2 in
          ret ((a, b), padd cfg v 8)) sv ;;
  sv <- when (Nat.leb 1 e) (fun sv : N * N * N => let '((a, b), v) := sv in
          w <- tail64_le_unaligned cfg v len ;; let '(b, a) := mixup64 cfg b a w prime_1 in
          ret ((a, b), v)) sv ;;
  let '((a, b), _) := sv in
  ret (final64 cfg a b).

(** The common body of t1ha0_ia32aes_noavx and t1ha0_ia32aes_avx,
    src/t1ha0_ia32aes_a.h:49-179.  The compiler flags (with or without AVX
    encoding) do not change the meaning of the intrinsics; _mm256_zeroupper and
    _mm_empty (lines 131-136) have no effect on the values.  Fuel of the loop: one
    more than the number of iterations that it can make without leaving the key. *)
Definition t1ha0_ia32aes_a (cfg : config) (data len seed : N) : M N :=
  let a := seed in
  let b := len in
  r <- (if 32 <? len then
          let x := set_epi64x a b in
          let y := aesenc x (set_epi64x prime_5 prime_6) in
          let detent := psub cfg (padd cfg data len) 127 in
          s <- while_ (N.to_nat (len / 128 + 1)) (aes_a_block cfg)
                 (fun s => av s <? detent) (XY x y data) ;;
          s <- (if negb (N.land len 64 =? 0) then s <- aes_pair cfg s ;; aes_pair cfg s
                else ret s) ;;
          s <- (if negb (N.land len 32 =? 0) then aes_pair cfg s else ret s) ;;
          s <- (if negb (N.land len 16 =? 0) then
                  let y := add_epi64 (ax s) (ay s) in
                  w <- loadu (av s) ;;
                  ret (XY (aesdec (ax s) w) y (padd cfg (av s) 16))
                else ret s) ;;
          let x := add_epi64 (aesdec (ax s) (aesenc (ay s) (ax s))) (ay s) in
          let '(a, b) := extract_ab cfg x in
          ret (a, b, av s, N.land len 15)
        else ret (a, b, data, len)) ;;
  let '(a, b, data, len) := r in
  aes_tail cfg a b data len.

(** src/t1ha0_ia32aes_noavx.c:1-4 and src/t1ha0_ia32aes_avx.c:1-4 *)
Definition t1ha0_ia32aes_noavx (cfg : config) (data len seed : N) : M N :=
  t1ha0_ia32aes_a cfg data len seed.
Definition t1ha0_ia32aes_avx (cfg : config) (data len seed : N) : M N :=
  t1ha0_ia32aes_a cfg data len seed.

(** The constant [~15ul] converted to size_t, src/t1ha0_ia32aes_b.h:59: on a
    platform with 32-bit unsigned long it is 0xFFFFFFF0. *)
Definition not15ul (cfg : config) : N := if ulong64 cfg then W64 - 16 else W32 - 16.

(** The body of the 128-byte loop with its salt, src/t1ha0_ia32aes_b.h:71-84. *)
Definition aes_b_block (cfg : config) (s : aes_vars * N) : M (aes_vars * N) :=
  let '(s, salt) := s in
  let v := av s in
  w <- loadu v ;; let t := aesenc w salt in
  w <- loadu (padd cfg v 16) ;; let t := aesdec t w in
  w <- loadu (padd cfg v 32) ;; let t := aesdec t w in
  w <- loadu (padd cfg v 48) ;; let t := aesdec t w in
  w <- loadu (padd cfg v 64) ;; let t := aesdec t w in
  w <- loadu (padd cfg v 80) ;; let t := aesdec t w in
  w <- loadu (padd cfg v 96) ;; let t := aesdec t w in
  w <- loadu (padd cfg v 112) ;; let t := aesdec t w in
  let salt := add_epi64 salt (set_epi64x prime_5 prime_6) in
  let t := aesenc (ax s) t in
  let x := add_epi64 (ay s) (ax s) in
  ret (XY x t (padd cfg v 128), salt).

(** t1ha0_ia32aes_avx2, src/t1ha0_ia32aes_b.h:49-164.  Fuel: one more than the
    number of iterations that a loop can make without leaving the message. *)
Definition t1ha0_ia32aes_avx2 (cfg : config) (data len seed : N) : M N :=
  let a := seed in
  let b := len in
  r <- (if 32 <? len then
          let x := set_epi64x a b in
          let y := aesenc x (set_epi64x prime_0 prime_1) in
          let v := data in
          let detent := padd cfg data (N.land len (not15ul cfg)) in
          s <- (if negb (N.land len 16 =? 0) then
                  w <- loadu v ;;
                  let x := add_epi64 x w in
                  ret (XY x (aesenc x y) (padd cfg v 16))
                else ret (XY x y v)) ;;
          s <- (if padd cfg (av s) 112 <? detent then
                  let salt := ay s in
                  ss <- do_while (N.to_nat (len / 128 + 1)) (aes_b_block cfg)
                          (fun ss => padd cfg (av (fst ss)) 112 <? detent) (s, salt) ;;
                  ret (fst ss)
                else ret s) ;;
          s <- while_ (N.to_nat (len / 32 + 1)) (aes_pair cfg) (fun s => av s <? detent) s ;;
          let x := add_epi64 (aesdec (ax s) (aesenc (ay s) (ax s))) (ay s) in
          let '(a, b) := extract_ab cfg x in
          ret (a, b, detent, N.land len 15)
        else ret (a, b, data, len)) ;;
  let '(a, b, data, len) := r in
  aes_tail cfg a b data len.
