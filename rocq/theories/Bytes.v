(** Bytes, and the numbers they denote.

    Shared vocabulary of the model and of the specification: a message is a
    [list byte], so that no side condition "each element is below 256" is
    needed anywhere. *)
From Coq Require Import NArith List Bool Lia Strings.Byte.
From Coq Require Import ZifyN ZifyNat ZifyBool.
Import ListNotations.
Local Open Scope N_scope.

(** [uint8_t] value of a byte (t1ha.h:406-413 [uint8_t bytes[32]]). *)
Definition b2n (b : byte) : N := Byte.to_N b.

(** Conversion of a number to [uint8_t]: reduction modulo 256. *)
Definition n2b (n : N) : byte :=
  match Byte.of_N (n mod 256) with Some b => b | None => x00 end.

(** Number denoted by a byte sequence, least significant byte first. *)
Fixpoint le_num (l : list byte) : N :=
  match l with
  | [] => 0
  | b :: r => b2n b + 256 * le_num r
  end.

(** Number denoted by a byte sequence, most significant byte first. *)
Definition be_num (l : list byte) : N := le_num (rev l).

(** The [n] low bytes of a number, least significant first. *)
Fixpoint le_bytes (n : nat) (x : N) : list byte :=
  match n with
  | O => []
  | S k => n2b x :: le_bytes k (x / 256)
  end.

(** The [n] low bytes of a number, most significant first. *)
Definition be_bytes (n : nat) (x : N) : list byte := rev (le_bytes n x).

Lemma b2n_lt : forall b, b2n b < 256.
Proof.
  intro b. unfold b2n. pose proof (Byte.to_N_bounded b). lia.
Qed.

Lemma b2n_n2b : forall n, b2n (n2b n) = n mod 256.
Proof.
  intro n. unfold n2b, b2n.
  destruct (Byte.of_N (n mod 256)) eqn:E.
  - apply Byte.to_of_N in E. exact E.
  - apply Byte.of_N_None_iff in E.
    pose proof (N.mod_lt n 256). lia.
Qed.

Lemma n2b_b2n : forall b, n2b (b2n b) = b.
Proof.
  intro b. unfold n2b. rewrite N.mod_small by apply b2n_lt.
  unfold b2n. rewrite Byte.of_to_N. reflexivity.
Qed.

Lemma b2n_inj : forall a b, b2n a = b2n b -> a = b.
Proof.
  intros a b H. rewrite <- (n2b_b2n a), <- (n2b_b2n b), H. reflexivity.
Qed.

Lemma le_num_lt : forall l, le_num l < 256 ^ N.of_nat (length l).
Proof.
  induction l as [|b r IH]; cbn [le_num length].
  - cbn. lia.
  - rewrite Nnat.Nat2N.inj_succ, N.pow_succ_r'.
    pose proof (b2n_lt b). lia.
Qed.

Lemma le_num_app : forall a b,
  le_num (a ++ b) = le_num a + 256 ^ N.of_nat (length a) * le_num b.
Proof.
  induction a as [|x r IH]; intro b; cbn [app le_num length].
  - cbn [N.of_nat]. rewrite N.pow_0_r. lia.
  - rewrite IH, Nnat.Nat2N.inj_succ, N.pow_succ_r'. lia.
Qed.

Lemma le_bytes_length : forall n x, length (le_bytes n x) = n.
Proof. induction n; intro x; cbn; [reflexivity|now rewrite IHn]. Qed.

Lemma be_bytes_length : forall n x, length (be_bytes n x) = n.
Proof. intros. unfold be_bytes. now rewrite rev_length, le_bytes_length. Qed.

Lemma le_num_le_bytes : forall n x, le_num (le_bytes n x) = x mod 256 ^ N.of_nat n.
Proof.
  induction n as [|n IH]; intro x.
  - cbn. rewrite N.mod_1_r. reflexivity.
  - cbn [le_bytes le_num]. rewrite IH, b2n_n2b, Nnat.Nat2N.inj_succ, N.pow_succ_r'.
    rewrite (N.mod_mul_r x 256 (256 ^ N.of_nat n)) by (try apply N.pow_nonzero; lia). lia.
Qed.

Lemma le_bytes_le_num : forall l, le_bytes (length l) (le_num l) = l.
Proof.
  induction l as [|b r IH]; cbn [length le_bytes le_num]; [reflexivity|].
  pose proof (b2n_lt b).
  f_equal.
  - apply b2n_inj. rewrite b2n_n2b.
    rewrite N.mul_comm, N.mod_add by lia. now apply N.mod_small.
  - rewrite N.mul_comm, N.div_add by lia. rewrite N.div_small by assumption.
    now rewrite N.add_0_l.
Qed.

Lemma be_num_be_bytes : forall n x, be_num (be_bytes n x) = x mod 256 ^ N.of_nat n.
Proof. intros. unfold be_num, be_bytes. rewrite rev_involutive. apply le_num_le_bytes. Qed.

Lemma be_bytes_be_num : forall l, be_bytes (length l) (be_num l) = l.
Proof.
  intros. unfold be_num, be_bytes. rewrite <- rev_length, le_bytes_le_num. apply rev_involutive.
Qed.

Lemma le_num_inj : forall a b, length a = length b -> le_num a = le_num b -> a = b.
Proof.
  intros a b L E. rewrite <- (le_bytes_le_num a), <- (le_bytes_le_num b), L, E. reflexivity.
Qed.

Lemma be_num_lt : forall l, be_num l < 256 ^ N.of_nat (length l).
Proof. intro. unfold be_num. rewrite <- rev_length. apply le_num_lt. Qed.

Lemma be_num_inj : forall a b, length a = length b -> be_num a = be_num b -> a = b.
Proof.
  intros a b L E. unfold be_num in E. apply le_num_inj in E.
  - rewrite <- (rev_involutive a), <- (rev_involutive b), E. reflexivity.
  - now rewrite !rev_length.
Qed.

Lemma be_num_app : forall a b,
  be_num (a ++ b) = be_num a * 256 ^ N.of_nat (length b) + be_num b.
Proof.
  intros. unfold be_num. rewrite rev_app_distr, le_num_app, rev_length. lia.
Qed.

(* non-trivial instances *)
Example le_num_ex : le_num [x01; x02; x03] = 197121. Proof. reflexivity. Qed.
Example be_num_ex : be_num [x01; x02; x03] = 66051. Proof. reflexivity. Qed.
