(** Specification of wyhash over lists of bytes, and its recorded values. *)
From Coq Require Import NArith Arith List Bool Strings.Byte.
From Verif Require Import Bytes Spec.
Import ListNotations.
Local Open Scope N_scope.

(** exclusive or of the two halves of the product *)
Definition mum (x y : N) : N := xor ((x * y) mod 2 ^ 64) (x * y / 2 ^ 64).

(** the first [n] groups of [k] bytes *)
Definition first_groups (k n : nat) (l : list byte) : list (list byte) := map (fun i => group k i l) (seq 0 n).
(** how many groups of [k] bytes go before the last 1 to [k] bytes *)
Definition before_last (k : nat) (l : list byte) : nat := ((length l - 1) / k)%nat.

Section Spec.
  (** the five secret numbers *)
  Variables S0 S1 S2 S3 S4 : N.
  Local Notation w := (fun i g => le_num (group 8 i g)).
  (** 64 bytes are absorbed into two lanes *)
  Definition lanes (st : N * N) (g : list byte) : N * N :=
    let '(s, t) := st in
    (xor (mum (xor (w 0%nat g) S1) (xor (w 1%nat g) s)) (mum (xor (w 2%nat g) S2) (xor (w 3%nat g) s)),
     xor (mum (xor (w 4%nat g) S3) (xor (w 5%nat g) t)) (mum (xor (w 6%nat g) S4) (xor (w 7%nat g) t))).
  (** 16 bytes into one *)
  Definition lane (s : N) (g : list byte) : N := mum (xor (w 0%nat g) S1) (xor (w 1%nat g) s).
  (** the last 0 to 16 bytes give two numbers *)
  Definition last_words (l : list byte) : N * N :=
    let n := length l in
    if (n =? 0)%nat then (0, 0)
    else if (n <? 4)%nat then (be_num [nth 0 l x00; nth (n / 2) l x00; nth (n - 1) l x00], 0)
    else if (n <=? 8)%nat then (le_num (firstn 4 l), le_num (skipn (n - 4) l))
    else (le_num (firstn 8 l), le_num (skipn (n - 8) l)).
  Definition wy (msg : list byte) (seed : N) : N :=
    let s := xor seed S0 in
    let n := before_last 64 msg in
    let s := match n with
             | O => s
             | _ => let '(s, t) := fold_left lanes (first_groups 64 n msg) (s, s) in xor s t
             end in
    let msg' := skipn (64 * n) msg in
    let k := before_last 16 msg' in
    let s := fold_left lane (first_groups 16 k msg') s in
    let '(a, b) := last_words (skipn (16 * k) msg') in
    mum (xor S1 (mlen msg)) (mum (xor a S1) (xor b s)).
End Spec.

(** the hash of the test program *)
Definition wyhash_v7 : list byte -> N -> N :=
  wy 0xa0761d6478bd642f 0xe7037ed1a0b428db 0x8ebc6af09c88c6e3 0x589965cc75374cc3 0x1d8e4e27c47d124f.
