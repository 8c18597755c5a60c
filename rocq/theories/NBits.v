(** Arithmetic facts about bit operations on [N]. *)
From Coq Require Import ZArith NArith List Bool Lia.
From Coq Require Import ZifyN ZifyNat ZifyBool.
Ltac Zify.zify_post_hook ::= Z.div_mod_to_equations.
Local Open Scope N_scope.

Lemma land_low_high : forall k a b, a < 2 ^ k -> N.land a (b * 2 ^ k) = 0.
Proof.
  intros k a b H. apply N.bits_inj. intro i. rewrite N.bits_0, N.land_spec.
  destruct (N.ltb_spec i k).
  - rewrite N.mul_pow2_bits_low by assumption. apply andb_false_r.
  - rewrite <- (N.mod_small a (2 ^ k)) by assumption.
    rewrite N.mod_pow2_bits_high by assumption. reflexivity.
Qed.

Lemma lor_low_high : forall k a b, a < 2 ^ k -> N.lor a (b * 2 ^ k) = a + b * 2 ^ k.
Proof.
  intros k a b H. pose proof (land_low_high k a b H) as Z.
  rewrite <- (N.lxor_lor _ _ Z). symmetry. apply N.add_nocarry_lxor, Z.
Qed.

Lemma lor_high_low : forall k a b, a < 2 ^ k -> N.lor (b * 2 ^ k) a = a + b * 2 ^ k.
Proof. intros. rewrite N.lor_comm. now apply lor_low_high. Qed.

Lemma lor_lt : forall n a b, a < 2 ^ n -> b < 2 ^ n -> N.lor a b < 2 ^ n.
Proof.
  intros n a b Ha Hb.
  apply N.mod_small_iff; [apply N.pow_nonzero; lia|].
  rewrite <- N.land_ones, N.land_lor_distr_l, !N.land_ones, !N.mod_small by assumption.
  reflexivity.
Qed.

Lemma lxor_lt : forall n a b, a < 2 ^ n -> b < 2 ^ n -> N.lxor a b < 2 ^ n.
Proof.
  intros n a b Ha Hb.
  apply N.mod_small_iff; [apply N.pow_nonzero; lia|].
  rewrite <- N.land_ones.
  apply N.bits_inj. intro i. rewrite N.land_spec, N.lxor_spec.
  destruct (N.ltb_spec i n).
  - rewrite N.ones_spec_low by assumption. apply andb_true_r.
  - rewrite N.ones_spec_high by assumption.
    rewrite <- (N.mod_small a (2 ^ n)), <- (N.mod_small b (2 ^ n)) by assumption.
    rewrite !N.mod_pow2_bits_high by assumption. reflexivity.
Qed.

Lemma lxor_mod_pow2 : forall n a b,
  N.lxor a b mod 2 ^ n = N.lxor (a mod 2 ^ n) (b mod 2 ^ n).
Proof.
  intros. rewrite <- !N.land_ones. apply N.bits_inj. intro i.
  rewrite !N.land_spec, !N.lxor_spec, !N.land_spec.
  destruct (N.testbit a i), (N.testbit b i), (N.testbit (N.ones n) i); reflexivity.
Qed.

Lemma lor_mod_pow2 : forall n a b,
  N.lor a b mod 2 ^ n = N.lor (a mod 2 ^ n) (b mod 2 ^ n).
Proof.
  intros. rewrite <- !N.land_ones. apply N.bits_inj. intro i.
  rewrite !N.land_spec, !N.lor_spec, !N.land_spec.
  destruct (N.testbit a i), (N.testbit b i), (N.testbit (N.ones n) i); reflexivity.
Qed.

Lemma lxor_ones_sub : forall n a, a < 2 ^ n -> N.lxor a (2 ^ n - 1) = 2 ^ n - 1 - a.
Proof.
  intros n a H.
  assert (E : 2 ^ n - 1 = N.ones n) by (unfold N.ones; rewrite N.shiftl_1_l; lia).
  rewrite E. destruct (N.eq_dec a 0) as [->|Hz].
  - rewrite N.lxor_0_l. lia.
  - apply (N.lnot_sub_low a n). apply N.log2_lt_pow2; lia.
Qed.

(** masking a run of bits: [x & ((2^k - 1) << j)] *)
Lemma land_mask : forall x j k,
  N.land x (N.ones k * 2 ^ j) = (x / 2 ^ j) mod 2 ^ k * 2 ^ j.
Proof.
  intros. rewrite <- N.land_ones, <- N.shiftr_div_pow2, <- !N.shiftl_mul_pow2.
  apply N.bits_inj. intro i. rewrite N.land_spec.
  destruct (N.ltb_spec i j).
  - rewrite !N.shiftl_spec_low by assumption. apply andb_false_r.
  - rewrite !N.shiftl_spec_high' by assumption.
    rewrite N.land_spec, N.shiftr_spec'. replace (i - j + j) with i by lia. reflexivity.
Qed.

Lemma mod_pow2_mul : forall x j k, (x * 2 ^ j) mod 2 ^ (j + k) = (x mod 2 ^ k) * 2 ^ j.
Proof.
  intros. rewrite N.pow_add_r, (N.mul_comm (2 ^ j)).
  rewrite N.mul_mod_distr_r; [reflexivity| |]; apply N.pow_nonzero; lia.
Qed.

Lemma pow2_pos : forall n, 0 < 2 ^ n.
Proof. intro. pose proof (N.pow_nonzero 2 n). lia. Qed.

Lemma mod_mod_pow2 : forall x j k, j <= k -> (x mod 2 ^ k) mod 2 ^ j = x mod 2 ^ j.
Proof.
  intros x j k H. rewrite <- !N.land_ones. apply N.bits_inj. intro i.
  rewrite !N.land_spec. destruct (N.ltb_spec i j).
  - rewrite (N.ones_spec_low k), (N.ones_spec_low j) by lia. now rewrite !andb_true_r.
  - rewrite (N.ones_spec_high j) by lia. now rewrite !andb_false_r.
Qed.

Lemma mod_mod_divides : forall x a b, a <> 0 -> b <> 0 -> b mod a = 0 ->
  (x mod b) mod a = x mod a.
Proof.
  intros x a b Ha Hb D. apply N.mod_divides in D; [|assumption]. destruct D as [c ->].
  rewrite N.mod_mul_r by (try assumption; intros ->; lia).
  rewrite N.mul_comm, N.mod_add by assumption. now apply N.mod_mod.
Qed.
