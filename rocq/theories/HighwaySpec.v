(** Specification of HighwayHash over lists of bytes. *)
From Coq Require Import NArith Arith List Bool Strings.Byte.
From Verif Require Import Bytes Spec.
Import ListNotations.
Local Open Scope N_scope.

(** one of the four columns of the state *)
Record column : Type := Col { ca : N; cb : N; cc : N; cd : N }.
Definition hstate : Type := (column * column * column * column)%type.

(** one word is mixed into a column *)
Definition col_step (s : column) (w : N) : column :=
  let b := add (cb s) (add (cc s) w) in
  let a := add (ca s) (cd s) in
  Col a b (xor (cc s) ((b mod 2 ^ 32) * (ca s / 2 ^ 32))) (xor (cd s) ((a mod 2 ^ 32) * (b / 2 ^ 32))).

(** the bytes of two words are permuted *)
Definition zip_order : list nat := [3; 12; 2; 5; 14; 1; 15; 0; 11; 4; 10; 13; 9; 6; 8; 7]%nat.
Definition zip_bytes (l : list byte) : list byte := map (fun i => nth i l x00) zip_order.
Definition zip (x y : N) : N * N :=
  let z := zip_bytes (le_bytes 8 x ++ le_bytes 8 y) in (le_num (firstn 8 z), le_num (skipn 8 z)).
(** and added, to and fro *)
Definition zip_a (p : column * column) : column * column :=
  let '(s, t) := p in let '(x, y) := zip (cb s) (cb t) in
  (Col (add (ca s) x) (cb s) (cc s) (cd s), Col (add (ca t) y) (cb t) (cc t) (cd t)).
Definition zip_b (p : column * column) : column * column :=
  let '(s, t) := p in let '(x, y) := zip (ca s) (ca t) in
  (Col (ca s) (add (cb s) x) (cc s) (cd s), Col (ca t) (add (cb t) y) (cc t) (cd t)).
(** two columns and two words *)
Definition half_step (p : column * column) (w : N * N) : column * column :=
  zip_b (zip_a (col_step (fst p) (fst w), col_step (snd p) (snd w))).
Definition hh_step (s : hstate) (w : N * N * N * N) : hstate :=
  let '(s0, s1, s2, s3) := s in let '(w0, w1, w2, w3) := w in
  (fst (half_step (s0, s1) (w0, w1)), snd (half_step (s0, s1) (w0, w1)),
   fst (half_step (s2, s3) (w2, w3)), snd (half_step (s2, s3) (w2, w3))).

(** 32 bytes *)
Definition packet_words (g : list byte) : N * N * N * N :=
  let w i := le_num (group 8 i g) in (w 0%nat, w 1%nat, w 2%nat, w 3%nat).
Definition hh_packet (s : hstate) (g : list byte) : hstate := hh_step s (packet_words g).

(** 1 to 31 bytes are made 32 *)
Definition last3 (t : list byte) : list byte :=
  match t with
  | [] => [x00; x00; x00]
  | [x] => [x; x; x]
  | [x; y] => [x; y; y]
  | x :: y :: z :: _ => [x; y; z]
  end.
Definition pad (r : list byte) : list byte :=
  let n := length r in
  let q := (4 * (n / 4))%nat in
  if (16 <=? n)%nat then firstn q r ++ repeat x00 (28 - q) ++ skipn (n - 4) r
  else firstn q r ++ repeat x00 (16 - q) ++ last3 (skipn q r) ++ repeat x00 13.
(** with the bytes at the end in reverse order *)
Definition pad_reversed (r : list byte) : list byte :=
  let n := length r in
  let q := (4 * (n / 4))%nat in
  if (16 <=? n)%nat then firstn q r ++ repeat x00 (28 - q) ++ rev (skipn (n - 4) r)
  else firstn q r ++ repeat x00 (16 - q) ++ repeat x00 5 ++ rev (last3 (skipn q r)) ++ repeat x00 8.
(** rotation of a 32-bit number to the left, and of both halves of a word *)
Definition rotl32 (x s : N) : N := (x * 2 ^ s) mod 2 ^ 32 + x / 2 ^ (32 - s).
Definition rotl_halves (x s : N) : N := rotl32 (x mod 2 ^ 32) s + rotl32 (x / 2 ^ 32) s * 2 ^ 32.
(** their number is mixed in as well *)
Definition col_length (n : N) (s : column) : column :=
  Col (add (ca s) (n * (2 ^ 32 + 1))) (rotl_halves (cb s) n) (cc s) (cd s).
Definition map_columns (f : column -> column) (s : hstate) : hstate :=
  let '(s0, s1, s2, s3) := s in (f s0, f s1, f s2, f s3).
(** [pd]: how the bytes are padded *)
Definition hh_rest_with (pd : list byte -> list byte) (s : hstate) (r : list byte) : hstate :=
  match r with
  | [] => s
  | _ => hh_packet (map_columns (col_length (mlen r)) s) (pd r)
  end.
Definition hh_rest : hstate -> list byte -> hstate := hh_rest_with pad.

(** exchange of the halves of a word *)
Definition swap_halves (x : N) : N := x / 2 ^ 32 + (x mod 2 ^ 32) * 2 ^ 32.
Definition col_init (m0 m1 k : N) : column := Col (xor m0 k) (xor m1 (swap_halves k)) m0 m1.
Definition hh_init (key : N * N * N * N) : hstate :=
  let '(k0, k1, k2, k3) := key in
  (col_init 0xdbe6d5d5fe4cce2f 0x3bd39e10cb0ef593 k0, col_init 0xa4093822299f31d0 0xc0acf169b5f18a8c k1,
   col_init 0x13198a2e03707344 0xbe5466cf34e90c6c k2, col_init 0x243f6a8885a308d3 0x452821e638d01377 k3).

Definition hh_absorb_with (pd : list byte -> list byte) (key : N * N * N * N) (msg : list byte) : hstate :=
  hh_rest_with pd (fold_left hh_packet (blocks 32 msg) (hh_init key)) (rest 32 msg).
Definition hh_absorb : N * N * N * N -> list byte -> hstate := hh_absorb_with pad.

(** rounds at the end *)
Definition hh_round (s : hstate) : hstate :=
  let '(s0, s1, s2, s3) := s in
  hh_step s (swap_halves (ca s2), swap_halves (ca s3), swap_halves (ca s0), swap_halves (ca s1)).
Definition hh_rounds (n : nat) (s : hstate) : hstate := Nat.iter n hh_round s.

Definition hh_out64 (s : hstate) : N :=
  let '(s0, _, _, _) := hh_rounds 4 s in (ca s0 + cb s0 + cc s0 + cd s0) mod 2 ^ 64.
Definition hh_out128 (s : hstate) : N * N :=
  let '(s0, s1, s2, s3) := hh_rounds 6 s in
  ((ca s0 + cc s0 + cb s2 + cd s2) mod 2 ^ 64, (ca s1 + cc s1 + cb s3 + cd s3) mod 2 ^ 64).
(** Polynomials over the field of two elements, as numbers: the remainder of
    [hi * x^128 + lo] modulo x^128 + x^2 + x, for [hi] of degree at most 125 *)
Definition reduce (hi lo : N) : N := xor lo (xor (2 * hi) (4 * hi)).
Definition hh_out256 (s : hstate) : N * N :=
  let '(s0, s1, s2, s3) := hh_rounds 10 s in
  let v c := add (ca c) (cc c) in let w c := add (cb c) (cd c) in
  (reduce ((w s1 mod 2 ^ 62) * 2 ^ 64 + w s0) (v s1 * 2 ^ 64 + v s0),
   reduce ((w s3 mod 2 ^ 62) * 2 ^ 64 + w s2) (v s3 * 2 ^ 64 + v s2)).

Definition highway64 (key : N * N * N * N) (msg : list byte) : N := hh_out64 (hh_absorb key msg).
Definition highway128 (key : N * N * N * N) (msg : list byte) : N * N := hh_out128 (hh_absorb key msg).
(** two numbers of 128 bits *)
Definition highway256 (key : N * N * N * N) (msg : list byte) : N * N := hh_out256 (hh_absorb key msg).

(** the test program's *)
Definition HighwayHash64 (msg : list byte) (seed : N) : N := highway64 (seed, seed, seed, seed) msg.
