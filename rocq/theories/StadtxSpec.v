(** Specification of StadtX over lists of bytes. *)
From Coq Require Import NArith Arith List Bool Strings.Byte.
From Verif Require Import Bytes Spec WyhashSpec.
Import ListNotations.
Local Open Scope N_scope.

Definition rotl (x s : N) : N := rotr x (64 - s).

(** the complete words of a key *)
Definition words (l : list byte) : list N := map le_num (first_groups 8 (length l / 8) l).
(** the bytes after them *)
Definition rest (k : nat) (l : list byte) : list byte := skipn (k * (length l / k)) l.

(** ** Keys of less than 32 bytes *)
Definition short_word (v : N * N) (w : N) : N * N :=
  let a := xor (rotr (add (fst v) (mulw w 0x9c1b8e1e9628323f)) 17) (snd v) in
  (a, add (rotr (snd v) 53) a).
(** a byte at bit [s] *)
Definition byte_at (x : byte) (s : N) : N := b2n x * 2 ^ s.
Definition short_rest (v : N * N) (l : list byte) : N * N :=
  let '(a, b) := v in
  match l with
  | [] => (a, xor (rotl b 32) 255)
  | [x] => (add a (b2n x), xor (rotl b 32) 255)
  | [x; y] => (a, add b (le_num [x; y]))
  | [x; y; z] => (add a (byte_at z 48), add b (le_num [x; y]))
  | x :: y :: z :: t :: l =>
      let w := le_num [x; y; z; t] in
      match l with
      | [] => (a, add b w)
      | [p] => (add a (byte_at p 16), add b w)
      | [p; q] => (add a (byte_at p 16), add b (byte_at q 48 + w))
      | p :: q :: r :: _ => (add a (byte_at r 32 + byte_at p 16), add b (byte_at q 48 + w))
      end
  end.
Definition short_mix (v : N * N) : N :=
  let '(a, b) := v in
  let b := xor b a in
  let a := add (rotr a 33) b in
  let b := xor (rotl b 17) a in
  let a := add (rotl a 43) b in
  let b := sub (rotl b 31) a in
  let a := xor (rotl a 13) b in
  let b := sub b a in
  let a := add (rotl a 41) b in
  let b := xor (rotl b 37) a in
  let a := add (rotr a 39) b in
  let b := add (rotr b 15) a in
  xor (xor (rotl a 15) b) (rotr b 5).

(** ** Longer keys *)
Definition long_block (v : N * N * N * N) (g : list byte) : N * N * N * N :=
  let '(a, b, c, d) := v in
  let w i := le_num (group 8 i g) in
  let a := xor (rotl (add a (mulw (w 0%nat) 0x802910e3)) 57) d in
  let b := xor (rotl (add b (mulw (w 1%nat) 0x819b13af)) 63) c in
  let c := add (rotr (add c (mulw (w 2%nat) 0x91cb27e5)) 47) a in
  let d := sub (rotr (add d (mulw (w 3%nat) 0xc1a269c1)) 11) b in
  (a, b, c, d).
(** the 0 to 3 words after the last block *)
Definition long_words (v : N * N * N * N) (ws : list N) : N * N * N * N :=
  let '(a, b, c, d) := v in
  let fa w := xor (rotl (add a (mulw w 0x802910e3)) 57) d in
  let fb w := xor (rotl (add b (mulw w 0x819b13af)) 63) c in
  let fc w a := add (rotr (add c (mulw w 0x91cb27e5)) 47) a in
  let fd b := sub (rotr d 11) b in
  match ws with
  | [] => (a, b, c, fd b)
  | [x] => (a, b, fc x a, fd b)
  | [x; y] => (a, fb x, fc y a, fd (fb x))
  | x :: y :: z :: _ => (fa x, fb y, fc z (fa x), fd (fb y))
  end.
Definition long_rest (v : N * N * N * N) (l : list byte) : N * N * N * N :=
  let '(a, b, c, d) := v in
  match l with
  | [] => (a, b, c, xor (rotl d 32) 255)
  | [x] => (a, b, add c (b2n x), xor (rotl d 32) 255)
  | [x; y] => (a, add b (le_num [x; y]), c, d)
  | [x; y; z] => (a, add b (le_num [x; y]), c, add d (b2n z))
  | x :: y :: z :: t :: l =>
      let w := le_num [x; y; z; t] in
      match l with
      | [] => (a, b, add c w, d)
      | [p] => (a, add b (b2n p), add c w, d)
      | [p; q] => (a, b, add c (le_num [p; q]), add d w)
      | p :: q :: r :: _ => (a, add b (b2n r), add c (le_num [p; q]), add d w)
      end
  end.
Definition long_mix (v : N * N * N * N) : N :=
  let '(a, b, c, d) := v in
  let a := rotr a 19 in
  let b := rotr (sub (sub b c) a) 53 in
  let d := xor d b in
  let a := sub a d in
  let d := rotl d 43 in
  let a := rotr (add a d) 3 in
  let d := sub d a in
  let c := xor (rotl (sub (rotr c 43) d) 55) a in
  let b := sub b c in
  let d := sub (rotr d 7) c in
  let c := rotr c 31 in
  let d := rotr (add d c) 39 in
  let c := xor (sub c b) d in
  let d := xor (rotr d 17) c in
  let b := rotr (add b d) 9 in
  let c := rotl (xor c b) 24 in
  let d := rotr (xor d c) 59 in
  let a := sub (rotr a 1) b in
  xor (xor (xor a b) c) d.

Definition stadtx (s0 s1 s2 s3 : N) (msg : list byte) : N :=
  let n := mlen msg in
  let a := xor s0 (mulw (n + 1) 0xb89b0f8e1655514f) in
  let b := xor s1 (mulw (n + 2) 0x8c6f736011bd5127) in
  if (length msg <? 32)%nat then short_mix (short_rest (fold_left short_word (words msg) (a, b)) (rest 8 msg))
  else
    let c := xor s2 (mulw (n + 3) 0x8f29bd94edce7b39) in
    let d := xor s3 (mulw (n + 4) 0x9c1b8e1e9628323f) in
    let v := fold_left long_block (first_groups 32 (length msg / 32) msg) (a, b, c, d) in
    let r := rest 32 msg in
    let '(a, b, c, d) := long_words v (words r) in
    long_mix (long_rest (xor a (mulw (mlen r + 1) 0x9c1b8e1e9628323f), b, c, d) (rest 8 r)).

(** the test program's *)
Definition StadtX (msg : list byte) (seed : N) : N := stadtx seed seed seed seed msg.
