(** Specification of the 64-bit and the 128-bit XXH3 over lists of bytes. *)
From Coq Require Import NArith Arith List Bool Strings.Byte.
From Verif Require Import Bytes Spec XxhashSpec.
Import ListNotations.
Local Open Scope N_scope.

(** ** Arithmetic *)
(** the number of [k] bytes at position [i] *)
Definition word_at (k : nat) (l : list byte) (i : N) : N := le_num (firstn k (skipn (N.to_nat i) l)).
Definition w4 : list byte -> N -> N := word_at 4.
Definition w8 : list byte -> N -> N := word_at 8.
(** the bytes in reverse order *)
Definition turn_32 (x : N) : N := be_num (le_bytes 4 x).
Definition turn_64 (x : N) : N := be_num (le_bytes 8 x).
(** the exclusive or of the halves of a product *)
Definition mulfold (x y : N) : N := xor (lo x y) (hi x y).
Definition C1 : N := 1609587791953885689.
Definition C2 : N := 11507291218515648293.
Definition finish (h : N) : N := fold_64 (mulw (fold_64 h 37) C1) 32.
Definition blend (h len : N) : N :=
  let h := xor h (xor (left_64 h 49) (left_64 h 24)) in
  let h := mulw h C2 in
  let h := xor h (add (h mod 2 ^ 64 / 2 ^ 35) len) in
  fold_64 (mulw h C2) 28.
(** the numbers below [n] *)
Definition below_n (n : N) : list N := map N.of_nat (seq 0 (N.to_nat n)).

(** ** Up to 16 bytes *)
(** the bytes and the length in four bytes *)
Definition packed (msg : list byte) : N :=
  let c i := b2n (nth i msg Byte.x00) in
  let n := length msg in
  c (n - 1)%nat + 2 ^ 8 * mlen msg + 2 ^ 16 * c 0%nat + 2 ^ 24 * c (n / 2)%nat.
Definition seed_2 (seed : N) : N := xor seed (2 ^ 32 * turn_32 (seed mod 2 ^ 32)).
Definition short_64 (sec : list byte) (seed : N) (msg : list byte) : N :=
  let len := mlen msg in
  if len =? 0 then mix_bits_64 (xor seed (xor (w8 sec 56) (w8 sec 64)))
  else if len <? 4 then mix_bits_64 (xor (packed msg) (add (xor (w4 sec 0) (w4 sec 4)) seed))
  else if len <=? 8 then
    blend (xor (w4 msg (len - 4) + 2 ^ 32 * w4 msg 0) (sub (xor (w8 sec 8) (w8 sec 16)) (seed_2 seed))) len
  else
    let a := xor (w8 msg 0) (add (xor (w8 sec 24) (w8 sec 32)) seed) in
    let b := xor (w8 msg (len - 8)) (sub (xor (w8 sec 40) (w8 sec 48)) seed) in
    finish (add (add (add len (turn_64 a)) b) (mulfold a b)).

(** ** 17 to 240 bytes *)
(** two words of the message at [j] and two of the secret at [i] *)
Definition mix16 (sec : list byte) (i : N) (seed : N) (msg : list byte) (j : N) : N :=
  mulfold (xor (w8 msg j) (add (w8 sec i) seed)) (xor (w8 msg (j + 8)) (sub (w8 sec (i + 8)) seed)).
Definition plus16 (sec : list byte) (i : N) (seed : N) (msg : list byte) (j : N) (acc : N) : N :=
  add acc (mix16 sec i seed msg j).
(** pairs of 16 bytes from both ends, the innermost first *)
Definition mid_64 (sec : list byte) (seed : N) (msg : list byte) : N :=
  let len := mlen msg in
  finish (fold_left (fun acc i =>
                       plus16 sec (32 * i + 16) seed msg (len - 16 * (i + 1)) (plus16 sec (32 * i) seed msg (16 * i) acc))
            (rev (below_n ((len - 1) / 32 + 1))) (mulw len B1)).
(** 16 bytes after the other *)
Definition mid2_64 (sec : list byte) (seed : N) (msg : list byte) : N :=
  let len := mlen msg in
  let a := fold_left (fun acc i => plus16 sec (16 * i) seed msg (16 * i) acc) (below_n 8) (mulw len B1) in
  let b := fold_left (fun acc i => plus16 sec (16 * i + 3) seed msg (16 * (i + 8)) acc) (below_n (len / 16 - 8)) (finish a) in
  finish (plus16 sec 119 seed msg (len - 16) b).

(** ** More than 240 bytes *)
Definition lanes : Type := list N.
Definition each (f : N -> N) : lanes := map f (below_n 8).
Definition lane (v : lanes) (i : N) : N := nth (N.to_nat i) v 0.
(** the other lane of the pair *)
Definition beside (i : N) : N := if N.even i then i + 1 else i - 1.
(** the low times the high half *)
Definition halves (x : N) : N := mulw (x mod 2 ^ 32) (x / 2 ^ 32).
Definition stripe_3 (sec : list byte) (i : N) (msg : list byte) (j : N) (v : lanes) : lanes :=
  each (fun k => add (add (lane v k) (w8 msg (j + 8 * beside k))) (halves (xor (w8 msg (j + 8 * k)) (w8 sec (i + 8 * k))))).
Definition scramble (sec : list byte) (i : N) (v : lanes) : lanes :=
  each (fun k => mulw (xor (fold_64 (lane v k) 47) (w8 sec (i + 8 * k))) A1).
Definition begin_3 : lanes := [A3; B1; B2; B3; B4; A2; B5; A1].
(** how many stripes between two scrambles *)
Definition period (sec : list byte) : N := (mlen sec - 64) / 8.
Definition step_3 (sec msg : list byte) (v : lanes) (k : N) : lanes :=
  let v := stripe_3 sec (8 * (k mod period sec)) msg (64 * k) v in
  if (k + 1) mod period sec =? 0 then scramble sec (mlen sec - 64) v else v.
Definition stripes_3 (sec msg : list byte) (n : N) : lanes := fold_left (step_3 sec msg) (below_n n) begin_3.
(** the stripes but for the last, which is counted from the end of the message *)
Definition long_3 (sec msg : list byte) : lanes :=
  stripe_3 sec (mlen sec - 71) msg (mlen msg - 64) (stripes_3 sec msg ((mlen msg - 1) / 64)).
Definition merge_3 (sec : list byte) (i : N) (v : lanes) (start : N) : N :=
  finish (fold_left (fun acc k => add acc (mulfold (xor (lane v (2 * k)) (w8 sec (i + 16 * k)))
                                              (xor (lane v (2 * k + 1)) (w8 sec (i + 16 * k + 8)))))
            (below_n 4) start).

(** [lsec] is the secret for long messages *)
Definition xxh3_64 (sec lsec : list byte) (seed : N) (msg : list byte) : N :=
  let len := mlen msg in
  if len <=? 16 then short_64 sec seed msg
  else if len <=? 128 then mid_64 sec seed msg
  else if len <=? 240 then mid2_64 sec seed msg
  else merge_3 lsec 11 (long_3 lsec msg) (mulw len B1).

(** ** 128 bits: the low and the high half *)
Definition two : Type := (N * N)%type.
Definition short_128 (sec : list byte) (seed : N) (msg : list byte) : two :=
  let len := mlen msg in
  if len =? 0 then
    (mix_bits_64 (xor seed (xor (w8 sec 64) (w8 sec 72))), mix_bits_64 (xor seed (xor (w8 sec 80) (w8 sec 88))))
  else if len <? 4 then
    (mix_bits_64 (xor (packed msg) (add (xor (w4 sec 0) (w4 sec 4)) seed)),
     mix_bits_64 (xor (left_32 (turn_32 (packed msg)) 13) (sub (xor (w4 sec 8) (w4 sec 12)) seed)))
  else if len <=? 8 then
    let a := xor (w4 msg 0 + 2 ^ 32 * w4 msg (len - 4)) (add (xor (w8 sec 16) (w8 sec 24)) (seed_2 seed)) in
    let b := B1 + 4 * len in
    let h := add (hi a b) (2 * lo a b) in
    let l := xor (lo a b) (h / 2 ^ 3) in
    (fold_64 (mulw (fold_64 l 35) C2) 28, finish h)
  else
    let a := xor (xor (w8 msg 0) (w8 msg (len - 8))) (sub (xor (w8 sec 32) (w8 sec 40)) seed) in
    let b := xor (w8 msg (len - 8)) (add (xor (w8 sec 48) (w8 sec 56)) seed) in
    let h := add (hi a B1) (b / 2 ^ 32 * 2 ^ 32 + b mod 2 ^ 32 * A2) in
    let l := xor (add (lo a B1) (2 ^ 54 * (len - 1))) (turn_64 h) in
    (finish (lo l B2), finish (add (hi l B2) (mulw h B2))).
Definition plus32 (sec : list byte) (i : N) (seed : N) (msg : list byte) (j1 j2 : N) (acc : two) : two :=
  (xor (plus16 sec i seed msg j1 (fst acc)) (add (w8 msg j2) (w8 msg (j2 + 8))),
   xor (plus16 sec (i + 16) seed msg j2 (snd acc)) (add (w8 msg j1) (w8 msg (j1 + 8)))).
Definition finish_128 (len seed : N) (acc : two) : two :=
  (finish (add (fst acc) (snd acc)),
   sub 0 (finish (add (add (mulw (fst acc) B1) (mulw (snd acc) B4)) (mulw (sub len seed) B2)))).
Definition mid_128 (sec : list byte) (seed : N) (msg : list byte) : two :=
  let len := mlen msg in
  finish_128 len seed
    (fold_left (fun acc i => plus32 sec (32 * i) seed msg (16 * i) (len - 16 * (i + 1)) acc)
       (rev (below_n ((len - 1) / 32 + 1))) (mulw len B1, 0)).
Definition mid2_128 (sec : list byte) (seed : N) (msg : list byte) : two :=
  let len := mlen msg in
  let a := fold_left (fun acc i => plus32 sec (32 * i) seed msg (32 * i) (32 * i + 16) acc) (below_n 4) (mulw len B1, 0) in
  let b := fold_left (fun acc i => plus32 sec (32 * i + 3) seed msg (32 * (i + 4)) (32 * (i + 4) + 16) acc)
             (below_n (len / 32 - 4)) (finish (fst a), finish (snd a)) in
  finish_128 len seed (plus32 sec 103 (sub 0 seed) msg (len - 16) (len - 32) b).
Definition xxh3_128 (sec lsec : list byte) (seed : N) (msg : list byte) : two :=
  let len := mlen msg in
  if len <=? 16 then short_128 sec seed msg
  else if len <=? 128 then mid_128 sec seed msg
  else if len <=? 240 then mid2_128 sec seed msg
  else (merge_3 lsec 11 (long_3 lsec msg) (mulw len B1),
        merge_3 lsec (mlen lsec - 75) (long_3 lsec msg) (compl (mulw len B2))).

(** ** Secrets *)
Definition default_words : list N :=
  [0xbe4ba423396cfeb8; 0x1cad21f72c81017c; 0xdb979083e96dd4de; 0x1f67b3b7a4a44072;
   0x78e5c0cc4ee679cb; 0x2172ffcc7dd05a82; 0x8e2443f7744608b8; 0x4c263a81e69035e0;
   0xcb00c391bb52283c; 0xa32e531b8b65d088; 0x4ef90da297486471; 0xd8acdea946ef1938;
   0x3f349ce33f76faa8; 0x1d4f0bc7c7bbdcf9; 0x3159b4cd4be0518a; 0x647378d9c97e9fc8;
   0xc3ebd33483acc5ea; 0xeb6313faffa081c5; 0x49daf0b751dd0d17; 0x9e68d429265516d3;
   0xfca1477d58be162b; 0xce31d07ad1b8f88f; 0x280416958f3acb45; 0x7e404bbbcafbd7af].

Definition default_secret : list byte := flat_map (le_bytes 8) default_words.
(** the seed is added to every other word and subtracted from the others *)
Fixpoint seeded (seed : N) (l : list N) : list N :=
  match l with
  | a :: b :: l => add a seed :: sub b seed :: seeded seed l
  | _ => l
  end.
Definition custom_secret (seed : N) : list byte := flat_map (le_bytes 8) (seeded seed default_words).

Definition xxh3_64_plain (msg : list byte) : N := xxh3_64 default_secret default_secret 0 msg.
Definition xxh3_64_secret (s msg : list byte) : N := xxh3_64 s s 0 msg.
Definition xxh3_64_seed (seed : N) (msg : list byte) : N := xxh3_64 default_secret (custom_secret seed) seed msg.
Definition xxh3_128_plain (msg : list byte) : two := xxh3_128 default_secret default_secret 0 msg.
Definition xxh3_128_secret (s msg : list byte) : two := xxh3_128 s s 0 msg.
Definition xxh3_128_seed (seed : N) (msg : list byte) : two := xxh3_128 default_secret (custom_secret seed) seed msg.
