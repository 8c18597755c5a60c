(** Specification of XXH32 and XXH64 over lists of bytes. *)
From Coq Require Import NArith Arith List Bool Strings.Byte.
From Verif Require Import Bytes Spec.
Import ListNotations.
Local Open Scope N_scope.

(** ** Arithmetic *)
Definition sub_32 (x y : N) : N := (x mod 2 ^ 32 + 2 ^ 32 - y mod 2 ^ 32) mod 2 ^ 32.
Definition left_32 (x r : N) : N := rotr_32 x (32 - r).
Definition left_64 (x r : N) : N := rotr x (64 - r).
(** x xor (x >> r) *)
Definition fold_32 (x r : N) : N := xor x ((x mod 2 ^ 32) / 2 ^ r).
Definition fold_64 (x r : N) : N := xor x ((x mod 2 ^ 64) / 2 ^ r).

(** the constants of XXH32 *)
Definition A1 : N := 2654435761.
Definition A2 : N := 2246822519.
Definition A3 : N := 3266489917.
Definition A4 : N := 668265263.
Definition A5 : N := 374761393.
(** and of XXH64 *)
Definition B1 : N := 11400714785074694791.
Definition B2 : N := 14029467366897019727.
Definition B3 : N := 1609587929392839161.
Definition B4 : N := 9650029242287828579.
Definition B5 : N := 2870177450012600261.

(** four numbers *)
Definition four : Type := (N * N * N * N)%type.
(** a group of four words of [k] bytes, one for each number *)
Definition stripe (k : nat) (round : N -> N -> N) (v : four) (s : list byte) : four :=
  let '(a, b, c, d) := v in
  let w i := le_num (group k i s) in
  (round a (w 0%nat), round b (w 1%nat), round c (w 2%nat), round d (w 3%nat)).

(** ** XXH32 *)
Definition round_32 (acc w : N) : N := mul_32 (left_32 (add_32 acc (mul_32 w A2)) 13) A1.
Definition begin_32 (seed : N) : four := (add_32 (add_32 seed A1) A2, add_32 seed A2, add_32 seed 0, sub_32 seed A1).
Definition join_32 (v : four) : N :=
  let '(a, b, c, d) := v in add_32 (add_32 (add_32 (left_32 a 1) (left_32 b 7)) (left_32 c 12)) (left_32 d 18).
Definition word_32 (h w : N) : N := mul_32 (left_32 (add_32 h (mul_32 w A3)) 17) A4.
Definition byte_32 (h b : N) : N := mul_32 (left_32 (add_32 h (mul_32 b A5)) 11) A1.
Definition last_32 (h : N) (l : list byte) : N :=
  fold_left byte_32 (map b2n (rest 4 l)) (fold_left word_32 (map le_num (blocks 4 l)) h).
Definition mix_bits_32 (h : N) : N := fold_32 (mul_32 (fold_32 (mul_32 (fold_32 h 15) A2) 13) A3) 16.
Definition xxh32 (msg : list byte) (seed : N) : N :=
  let h := if 16 <=? mlen msg then join_32 (fold_left (stripe 4 round_32) (blocks 16 msg) (begin_32 seed))
           else add_32 seed A5 in
  mix_bits_32 (last_32 (add_32 h (mlen msg)) (rest 16 msg)).

(** ** XXH64 *)
Definition round_64 (acc w : N) : N := mulw (left_64 (add acc (mulw w B2)) 31) B1.
Definition begin_64 (seed : N) : four := (add (add seed B1) B2, add seed B2, add seed 0, sub seed B1).
Definition merge_64 (h v : N) : N := add (mulw (xor h (round_64 0 v)) B1) B4.
Definition join_64 (v : four) : N :=
  let '(a, b, c, d) := v in
  let h := add (add (add (left_64 a 1) (left_64 b 7)) (left_64 c 12)) (left_64 d 18) in
  merge_64 (merge_64 (merge_64 (merge_64 h a) b) c) d.
Definition word8_64 (h w : N) : N := add (mulw (left_64 (xor h (round_64 0 w)) 27) B1) B4.
Definition word4_64 (h w : N) : N := add (mulw (left_64 (xor h (mulw w B1)) 23) B2) B3.
Definition byte_64 (h b : N) : N := mulw (left_64 (xor h (mulw b B5)) 11) B1.
Definition last_64 (h : N) (l : list byte) : N :=
  fold_left byte_64 (map b2n (rest 4 (rest 8 l)))
    (fold_left word4_64 (map le_num (blocks 4 (rest 8 l)))
       (fold_left word8_64 (map le_num (blocks 8 l)) h)).
Definition mix_bits_64 (h : N) : N := fold_64 (mulw (fold_64 (mulw (fold_64 h 33) B2) 29) B3) 32.
Definition xxh64 (msg : list byte) (seed : N) : N :=
  let h := if 32 <=? mlen msg then join_64 (fold_left (stripe 8 round_64) (blocks 32 msg) (begin_64 seed))
           else add seed B5 in
  mix_bits_64 (last_64 (add h (mlen msg)) (rest 32 msg)).
