(** Specification of the portable hash functions, over lists of bytes.

    Nothing here mentions memory, pointers, alignment, host byte order or the
    build configuration.  Numbers are plain [N]; every operation is given by
    [+ - * / mod] and exclusive or. *)
From Coq Require Import NArith Arith List Bool Strings.Byte.
From Verif Require Import Bytes.
Import ListNotations.
Local Open Scope N_scope.

(** ** 64-bit arithmetic *)
Definition add (x y : N) : N := (x + y) mod 2 ^ 64.
Definition mulw (x y : N) : N := (x * y) mod 2 ^ 64.
Definition xor : N -> N -> N := N.lxor.
(** complement *)
Definition compl (x : N) : N := 2 ^ 64 - 1 - x mod 2 ^ 64.
(** rotation to the right by [s] of the 64-bit number [x mod 2^64] *)
Definition rotr (x s : N) : N :=
  (x mod 2 ^ 64) / 2 ^ s + ((x mod 2 ^ 64) mod 2 ^ s) * 2 ^ (64 - s).
(** low and high half of the 128-bit product *)
Definition lo (x y : N) : N := (x mod 2 ^ 64 * y) mod 2 ^ 64.
Definition hi (x y : N) : N := (x mod 2 ^ 64 * y) / 2 ^ 64.

(** the seven 64-bit constants *)
Definition P0 : N := 17048867929148541611.
Definition P1 : N := 9386433910765580089.
Definition P2 : N := 15343884574428479051.
Definition P3 : N := 13662985319504319857.
Definition P4 : N := 11242949449147999147.
Definition P5 : N := 13862205317416547141.
Definition P6 : N := 14653293970879851569.

(** ** Cutting a message *)
(** the [i]-th group of [k] bytes (the last one may be shorter) *)
Definition group (k i : nat) (l : list byte) : list byte := firstn k (skipn (k * i)%nat l).
(** all complete groups *)
Definition blocks (k : nat) (l : list byte) : list (list byte) :=
  map (fun i => group k i l) (seq 0 (length l / k)%nat).
(** what follows the complete groups *)
Definition rest (k : nat) (l : list byte) : list byte := skipn (k * (length l / k))%nat l.
(** all groups including an incomplete last one *)
Definition groups (k : nat) (l : list byte) : list (list byte) :=
  map (fun i => group k i l) (seq 0 ((length l + (k - 1)) / k)%nat).

Definition mlen (l : list byte) : N := N.of_nat (length l).

(** ** t1ha2 *)
Record st4 : Type := Q { qa : N; qb : N; qc : N; qd : N }.

(** absorb one 32-byte block *)
Definition absorb (s : st4) (blk : list byte) : st4 :=
  let w i := le_num (group 8 i blk) in
  let p := add (w 3%nat) (qc s) in
  let q := add (w 2%nat) (qd s) in
  Q (xor (qa s) (mulw P5 (add (add (w 0%nat) (rotr q 56)) (w 3%nat))))
    (xor (qb s) (mulw P6 (add (add (w 1%nat) (rotr p 19)) (w 2%nat))))
    (xor (qc s) (add (qa s) (rotr (w 0%nat) 57)))
    (xor (qd s) (add (qb s) (rotr (w 1%nat) 38))).

Definition absorb_all (s : st4) (bs : list (list byte)) : st4 := fold_left absorb bs s.

(** initial state from two 64-bit numbers *)
Definition start (x y : N) : st4 :=
  Q x y (add (rotr y 23) (compl x)) (add (compl y) (rotr x 19)).

(** fold c and d into a and b *)
Definition squeeze (s : st4) : N * N :=
  (xor (qa s) (mulw P6 (add (qc s) (rotr (qd s) 23))),
   xor (qb s) (mulw P5 (add (rotr (qc s) 19) (qd s)))).

(** mix the word [v] into the pair [(x, y)] *)
Definition mix (p v : N) (xy : N * N) : N * N :=
  let t := add (snd xy) v in (xor (fst xy) (lo t p), add (snd xy) (hi t p)).
Definition swap {A B} (xy : A * B) : B * A := (snd xy, fst xy).

(** absorb up to 32 remaining bytes into (a, b): the last word uses P1, the one
    before it P2, and so on; odd and even words change roles of a and b *)
Definition ab_steps : list (N -> N * N -> N * N) :=
  [ mix P4; (fun v ab => swap (mix P3 v (swap ab))); mix P2; (fun v ab => swap (mix P1 v (swap ab))) ].
Definition tail_with {S : Type} (steps : list (N -> S -> S)) (words : list N) (s : S) : S :=
  fold_left (fun s fw => fst fw (snd fw) s)
            (combine (skipn (length steps - length words)%nat steps) words) s.
Definition tail_ab (l : list byte) (ab : N * N) : N * N :=
  tail_with ab_steps (map le_num (groups 8 l)) ab.

Definition fold_xor (x p : N) : N := xor (lo x p) (hi x p).
Definition finish64 (ab : N * N) : N :=
  let '(a, b) := ab in
  fold_xor (xor (mulw (add a (rotr b 41)) P0) (mulw (add (rotr a 23) b) P6)) P5.

(** t1ha2_atonce *)
Definition t1ha2_64 (msg : list byte) (seed : N) : N :=
  if mlen msg <=? 32 then finish64 (tail_ab msg (seed, mlen msg))
  else finish64 (tail_ab (rest 32 msg)
                   (squeeze (absorb_all (start seed (mlen msg)) (blocks 32 msg)))).

(** the same with four registers, for 128-bit results *)
Definition abcd_steps : list (N -> st4 -> st4) :=
  [ (fun v s => let '(a, d) := mix P4 v (qa s, qd s) in Q a (qb s) (qc s) d);
    (fun v s => let '(b, a) := mix P3 v (qb s, qa s) in Q a b (qc s) (qd s));
    (fun v s => let '(c, b) := mix P2 v (qc s, qb s) in Q (qa s) b c (qd s));
    (fun v s => let '(d, c) := mix P1 v (qd s, qc s) in Q (qa s) (qb s) c d) ].
Definition tail_abcd (l : list byte) (s : st4) : st4 :=
  tail_with abcd_steps (map le_num (groups 8 l)) s.
Definition finish128 (s : st4) : N * N :=
  let '(a, b) := mix P0 (xor (rotr (qc s) 41) (qd s)) (qa s, qb s) in
  let '(b, c) := mix P6 (xor (rotr (qd s) 23) a) (b, qc s) in
  let '(c, d) := mix P5 (xor (rotr a 19) b) (c, qd s) in
  let '(d, a) := mix P4 (xor (rotr b 31) c) (d, a) in
  (xor a b, add c d).

(** t1ha2_atonce128: (returned value, extra result) *)
Definition t1ha2_128 (msg : list byte) (seed : N) : N * N :=
  let s := start seed (mlen msg) in
  if mlen msg <=? 32 then finish128 (tail_abcd msg s)
  else finish128 (tail_abcd (rest 32 msg) (absorb_all s (blocks 32 msg))).

(** Streaming: the message is followed by 8 bytes that encode its length in bits
    (with the top bit flipped), and blocks are absorbed as soon as complete. *)
Definition padded (msg : list byte) : list byte :=
  msg ++ le_bytes 8 (xor ((8 * mlen msg) mod 2 ^ 64) (2 ^ 63)).
Definition stream_state (x y : N) (msg : list byte) : st4 :=
  absorb_all (start x y) (blocks 32 msg).
Definition t1ha2_stream64 (x y : N) (msg : list byte) : N :=
  finish64 (tail_ab (rest 32 (padded msg)) (squeeze (stream_state x y (padded msg)))).
Definition t1ha2_stream128 (x y : N) (msg : list byte) : N * N :=
  finish128 (tail_abcd (rest 32 (padded msg)) (stream_state x y (padded msg))).

(** ** t1ha1, parameterised by the number denoted by a byte group *)
Definition sub (x y : N) : N := (x mod 2 ^ 64 + 2 ^ 64 - y mod 2 ^ 64) mod 2 ^ 64.

Definition absorb1 (num : list byte -> N) (s : st4) (blk : list byte) : st4 :=
  let w i := num (group 8 i blk) in
  let q := rotr (add (w 2%nat) (qd s)) 17 in
  let p := rotr (add (w 3%nat) (qc s)) 17 in
  Q (xor (qa s) (mulw P1 (add (xor (w 0%nat) q) (w 3%nat))))
    (xor (qb s) (mulw P0 (add (xor (w 1%nat) p) (w 2%nat))))
    (add (qc s) (xor (qa s) (rotr (w 0%nat) 41)))
    (sub (qd s) (xor (qb s) (rotr (w 1%nat) 31))).

Definition t1ha1_start (seed len : N) : st4 :=
  Q seed len (add (rotr len 17) seed) (xor len (rotr seed 17)).
Definition t1ha1_squeeze (s : st4) : N * N :=
  (xor (qa s) (mulw P6 (add (rotr (qc s) 17) (qd s))),
   xor (qb s) (mulw P5 (add (qc s) (rotr (qd s) 17)))).
Definition t1ha1_steps : list (N -> N * N -> N * N) :=
  [ (fun v ab => (fst ab, add (snd ab) (fold_xor v P4)));
    (fun v ab => (add (fst ab) (fold_xor v P3), snd ab));
    (fun v ab => (fst ab, add (snd ab) (fold_xor v P2)));
    (fun v ab => (add (fst ab) (fold_xor v P1), snd ab)) ].
Definition t1ha1_finish (ab : N * N) : N :=
  let '(a, b) := ab in
  let m := mulw (xor a b) P0 in
  add (fold_xor (rotr (add a b) 17) P4) (xor m (rotr m 41)).
Definition t1ha1_64 (num : list byte -> N) (msg : list byte) (seed : N) : N :=
  let fin l ab := t1ha1_finish (tail_with t1ha1_steps (map num (groups 8 l)) ab) in
  if mlen msg <=? 32 then fin msg (seed, mlen msg)
  else fin (rest 32 msg)
         (t1ha1_squeeze (fold_left (absorb1 num) (blocks 32 msg) (t1ha1_start seed (mlen msg)))).

(** ** t1ha0, the 32-bit hash *)
Definition add_32 (x y : N) : N := (x + y) mod 2 ^ 32.
Definition mul_32 (x y : N) : N := (x * y) mod 2 ^ 32.
Definition rotr_32 (x s : N) : N :=
  (x mod 2 ^ 32) / 2 ^ s + ((x mod 2 ^ 32) mod 2 ^ s) * 2 ^ (32 - s).
Definition compl_32 (x : N) : N := 2 ^ 32 - 1 - x mod 2 ^ 32.

(** the seven 32-bit constants *)
Definition R0 : N := 2463597161.
Definition R1 : N := 3399173941.
Definition R2 : N := 2762711491.
Definition R3 : N := 4132018243.
Definition R4 : N := 2263940449.
Definition R5 : N := 3391989499.
Definition R6 : N := 3300603253.

Definition absorb0 (num : list byte -> N) (s : st4) (blk : list byte) : st4 :=
  let w i := num (group 4 i blk) in
  let d13 := add_32 (w 1%nat) (rotr_32 (add_32 (w 3%nat) (qd s)) 17) in
  let c02 := xor (w 0%nat) (rotr_32 (add_32 (w 2%nat) (qc s)) 11) in
  Q (mul_32 R0 (xor d13 (w 2%nat)))
    (mul_32 R1 (add_32 c02 (w 3%nat)))
    (xor (qc s) (rotr_32 (add_32 (qb s) (w 1%nat)) 7))
    (xor (qd s) (rotr_32 (add_32 (qa s) (w 0%nat)) 3)).

Definition t1ha0_init (seed len : N) : N * N :=
  (add_32 (rotr_32 len 17) (seed mod 2 ^ 32),
   xor (len mod 2 ^ 32) (seed / 2 ^ 32 mod 2 ^ 32)).
Definition t1ha0_start (ab : N * N) : st4 :=
  Q (fst ab) (snd ab) (compl_32 (fst ab)) (rotr_32 (snd ab) 5).
Definition t1ha0_squeeze (s : st4) : N * N :=
  let c := add_32 (qc s) (qa s) in
  let d := add_32 (qd s) (qb s) in
  (xor (qa s) (mul_32 R6 (add_32 (rotr_32 c 16) d)),
   xor (qb s) (mul_32 R5 (add_32 c (rotr_32 d 16)))).
Definition mix_32 (p v : N) (xy : N * N) : N * N :=
  let t := add_32 (snd xy) v in
  (xor (fst xy) ((t * p) mod 2 ^ 32), add_32 (snd xy) ((t * p) / 2 ^ 32)).
Definition t1ha0_steps : list (N -> N * N -> N * N) :=
  [ mix_32 R4; (fun v ab => swap (mix_32 R3 v (swap ab)));
    mix_32 R2; (fun v ab => swap (mix_32 R1 v (swap ab))) ].
Definition t1ha0_finish (ab : N * N) : N :=
  let '(a, b) := ab in
  let x := xor (b mod 2 ^ 32) (rotr_32 a 13) + 2 ^ 32 * (a mod 2 ^ 32) in
  let x := mulw x P0 in
  let x := xor x (x / 2 ^ 41) in
  let x := mulw x P4 in
  let x := xor x (x / 2 ^ 47) in
  mulw x P6.
Definition t1ha0_32 (num : list byte -> N) (msg : list byte) (seed : N) : N :=
  let ab := t1ha0_init seed (mlen msg) in
  let fin l ab := t1ha0_finish (tail_with t1ha0_steps (map num (groups 4 l)) ab) in
  if mlen msg <=? 16 then fin msg ab
  else fin (rest 16 msg)
         (t1ha0_squeeze (fold_left (absorb0 num) (blocks 16 msg) (t1ha0_start ab))).
