(** Specification of the AES-accelerated hashes, over lists of bytes.

    The AES round is stated with the algebra of FIPS-197: bytes are polynomials
    over GF(2) modulo x^8+x^4+x^3+x+1, the substitution is inversion in that
    field followed by an affine map, and columns are multiplied by a circulant
    matrix.  Nothing here refers to tables, registers or memory. *)
From Coq Require Import NArith Arith List Bool Strings.Byte.
From Verif Require Import Bytes Spec.
Import ListNotations.
Local Open Scope N_scope.

(** ** GF(2^8) *)
(** product of two polynomials over GF(2), the first of degree below [n] *)
Fixpoint poly_mul (n : nat) (a b : N) : N :=
  match n with
  | O => 0
  | S k => N.lxor (if N.odd a then b else 0) (2 * poly_mul k (a / 2) b)
  end.
(** remainder modulo x^8+x^4+x^3+x+1 of a polynomial of degree below 8+[n] *)
Fixpoint poly_rem (n : nat) (a : N) : N :=
  match n with
  | O => a
  | S k => poly_rem k (if N.testbit a (8 + N.of_nat k) then N.lxor a (283 * 2 ^ N.of_nat k) else a)
  end.
Definition gmul (a b : N) : N := poly_rem 8 (poly_mul 8 a b).
(** the inverse is the 254th power (and 0 for 0) *)
Fixpoint gpow (a : N) (n : nat) : N :=
  match n with O => 1 | S k => gmul a (gpow a k) end.
Definition ginv (a : N) : N := gpow a 254.
(** b_i + b_(i+4) + b_(i+5) + b_(i+6) + b_(i+7) + c_i, FIPS-197 5.1.1 *)
Definition bit (b : bool) (i : N) : N := if b then 2 ^ i else 0.
Definition affine (a : N) : N :=
  let t i := N.testbit a (i mod 8) in
  fold_right (fun i acc =>
    bit (xorb (xorb (xorb (xorb (xorb (t i) (t (i + 4))) (t (i + 5))) (t (i + 6))) (t (i + 7)))
              (N.testbit 99 i)) i + acc) 0 [0; 1; 2; 3; 4; 5; 6; 7].
Definition gsub (a : N) : N := affine (ginv a).
(** FIPS-197 5.3.2: the inverse affine map followed by inversion *)
Definition inv_affine (a : N) : N :=
  let t i := N.testbit a (i mod 8) in
  fold_right (fun i acc =>
    bit (xorb (xorb (xorb (t (i + 2)) (t (i + 5))) (t (i + 7))) (N.testbit 5 i)) i + acc)
    0 [0; 1; 2; 3; 4; 5; 6; 7].
Definition ginv_sub (a : N) : N := ginv (inv_affine a).

(** ** One AES round on 16 bytes; byte [r + 4c] is row r, column c. *)
Definition byte_at (l : list byte) (i : nat) : N := b2n (nth i l x00).
Definition cell (l : list byte) (r c : nat) : N := byte_at l (r + 4 * c).
(** row [r] rotated by [r] cells, substituted *)
Definition enc_cell (l : list byte) (r c : nat) : N := gsub (cell l r ((c + r) mod 4)).
Definition dec_cell (l : list byte) (r c : nat) : N := ginv_sub (cell l r ((c + 4 - r) mod 4)).
(** circulant matrix product *)
Definition mat_row (m : list N) (col : nat -> N) (r : nat) : N :=
  fold_right (fun j acc => N.lxor (gmul (nth ((j + 4 - r) mod 4) m 0) (col j)) acc) 0
    [0%nat; 1%nat; 2%nat; 3%nat].
Definition round (m : list N) (sub_shift : nat -> nat -> N) : list byte :=
  map (fun i => n2b (mat_row m (fun r => sub_shift r (i / 4)%nat) (i mod 4)%nat)) (seq 0 16).
(** a 128-bit word is its two 64-bit halves (low, high) *)
Definition word128 : Type := (N * N)%type.
Definition bytes_of (w : word128) : list byte := le_bytes 8 (fst w) ++ le_bytes 8 (snd w).
Definition word_of (l : list byte) : word128 := (le_num (firstn 8 l), le_num (skipn 8 l)).
Definition xor2 (u v : word128) : word128 := (xor (fst u) (fst v), xor (snd u) (snd v)).
Definition add2 (u v : word128) : word128 := (add (fst u) (fst v), add (snd u) (snd v)).
Definition sub2 (u v : word128) : word128 := (sub (fst u) (fst v), sub (snd u) (snd v)).
Definition enc (s k : word128) : word128 :=
  xor2 (word_of (round [2; 3; 1; 1] (enc_cell (bytes_of s)))) k.
Definition dec (s k : word128) : word128 :=
  xor2 (word_of (round [14; 11; 13; 9] (dec_cell (bytes_of s)))) k.

(** ** The hashes *)
Definition wd (l : list byte) (i : nat) : word128 := word_of (group 16 i l).

(** absorb 32 bytes into (x, y) *)
Definition aes_two (xy : word128 * word128) (l : list byte) : word128 * word128 :=
  let '(x, y) := xy in
  (dec x (add2 y (wd l 0)), dec y (sub2 x (wd l 1))).
Definition aes_finish (l : list byte) (xy : word128 * word128) : N :=
  let '(x, y) := xy in
  finish64 (tail_ab l (add2 (dec x (enc y x)) y)).

(** absorb 128 bytes (without AVX2) *)
Definition aes_a_absorb (xy : word128 * word128) (l : list byte) : word128 * word128 :=
  let '(x, y) := xy in
  let v := wd l in
  let t := dec (sub2 (v 7%nat) (enc (v 0%nat) y)) (v 1%nat) in
  let u := enc (enc (v 2%nat) (xor2 x (v 6%nat))) (v 3%nat) in
  let w := xor2 (enc (v 4%nat) (v 5%nat)) (add2 (v 6%nat) (v 7%nat)) in
  (enc w (add2 x y), enc u (xor2 t (v 5%nat))).
Definition aes_one (xy : word128 * word128) (l : list byte) : word128 * word128 :=
  let '(x, y) := xy in (dec x (word_of l), add2 x y).
(** t1ha0_ia32aes_noavx and t1ha0_ia32aes_avx *)
Definition t1ha0_aes_a (msg : list byte) (seed : N) : N :=
  if mlen msg <=? 32 then finish64 (tail_ab msg (seed, mlen msg))
  else
    let x := (mlen msg, seed) in
    let y := enc x (P6, P5) in
    let big := fold_left aes_a_absorb (blocks 128 msg) (x, y) in
    let mid := fold_left aes_two (blocks 32 (rest 128 msg)) big in
    let small := fold_left aes_one (blocks 16 (rest 32 msg)) mid in
    aes_finish (rest 16 msg) small.

(** absorb 128 bytes (with AVX2); [salt] changes from block to block *)
Definition aes_b_absorb (s : word128 * word128 * word128) (l : list byte)
  : word128 * word128 * word128 :=
  let '(x, y, salt) := s in
  let t := fold_left (fun t i => dec t (wd l i)) (seq 1 7) (enc (wd l 0) salt) in
  (add2 y x, enc x t, add2 salt (P6, P5)).
(** t1ha0_ia32aes_avx2 *)
Definition t1ha0_aes_b (msg : list byte) (seed : N) : N :=
  if mlen msg <=? 32 then finish64 (tail_ab msg (seed, mlen msg))
  else
    let x := (mlen msg, seed) in
    let y := enc x (P1, P0) in
    let whole := firstn (16 * (length msg / 16)) msg in
    (* an odd number of 16-byte words: the first one is absorbed alone *)
    let '(xy, body) :=
      if Nat.odd (length msg / 16)
      then let x := add2 x (wd whole 0) in ((x, enc x y), skipn 16 whole)
      else ((x, y), whole) in
    let '(x, y, _) := fold_left aes_b_absorb (blocks 128 body) (xy, snd xy) in
    aes_finish (rest 16 msg) (fold_left aes_two (blocks 32 (rest 128 body)) (x, y)).
