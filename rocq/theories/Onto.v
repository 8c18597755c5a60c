(** Operations on 64-bit words that lose no information. *)
From Coq Require Import ZArith NArith Arith List Bool Lia FinFun.
From Coq Require Import ZifyN ZifyNat ZifyBool.
From Verif Require Import Bytes Spec NBits CSemFacts OpsFacts Inject.
Import ListNotations.
Local Open Scope N_scope.

(** an injection of the numbers below [n] into themselves reaches all of them *)
Lemma inj_onto : forall n (f : N -> N), (forall x, x < n -> f x < n) ->
  (forall x y, x < n -> y < n -> f x = f y -> x = y) -> forall y, y < n -> exists x, x < n /\ f x = y.
Proof.
  intros n f B I y Y. set (k := N.to_nat n). assert (K : n = N.of_nat k) by (unfold k; now rewrite N2Nat.id). clearbody k. subst n.
  set (g := fun x => N.to_nat (f (N.of_nat x))).
  assert (G : bFun k g).
  { intros x X. unfold g. specialize (B (N.of_nat x) ltac:(lia)). lia. }
  assert (S : bSurjective k g).
  { apply (bInjective_bSurjective G). intros x x' X X' E. unfold g in E. apply N2Nat.inj in E. apply I in E; lia. }
  destruct (S (N.to_nat y) ltac:(lia)) as (x & X & E). exists (N.of_nat x). split; [lia|]. unfold g in E. lia.
Qed.

Lemma add_lt64 : forall x y, add x y < 2 ^ 64.
Proof. intros. apply N.mod_lt. discriminate. Qed.
Lemma mulw_lt64 : forall x y, mulw x y < 2 ^ 64.
Proof. intros. apply N.mod_lt. discriminate. Qed.
Lemma sub_lt64 : forall x y, sub x y < 2 ^ 64.
Proof. intros. apply N.mod_lt. discriminate. Qed.
Lemma xor_lt64 : forall x y, x < 2 ^ 64 -> y < 2 ^ 64 -> xor x y < 2 ^ 64.
Proof. intros. now apply lxor_lt. Qed.

Lemma rotr_split : forall x s, s <= 64 -> x < 2 ^ 64 ->
  x / 2 ^ s < 2 ^ (64 - s) /\ rotr x s = x / 2 ^ s + x mod 2 ^ s * 2 ^ (64 - s).
Proof.
  intros x s S X. unfold rotr. rewrite (N.mod_small x) by exact X. split; [|reflexivity].
  apply N.div_lt_upper_bound; [apply N.pow_nonzero; discriminate|]. rewrite <- N.pow_add_r. now replace (s + (64 - s)) with 64 by lia.
Qed.
Lemma rotr_lt64 : forall x s, s <= 64 -> rotr x s < 2 ^ 64.
Proof.
  intros x s S. assert (X : x mod 2 ^ 64 < 2 ^ 64) by (apply N.mod_lt; discriminate).
  replace (rotr x s) with (rotr (x mod 2 ^ 64) s) by (unfold rotr; now rewrite N.mod_mod by discriminate).
  destruct (rotr_split _ s S X) as (H & ->). assert (M : (x mod 2 ^ 64) mod 2 ^ s < 2 ^ s) by (apply N.mod_lt, N.pow_nonzero; discriminate).
  assert (E : 2 ^ 64 = 2 ^ s * 2 ^ (64 - s)) by (rewrite <- N.pow_add_r; f_equal; lia). nia.
Qed.
Lemma rotr_inj : forall s x y, s <= 64 -> x < 2 ^ 64 -> y < 2 ^ 64 -> rotr x s = rotr y s -> x = y.
Proof.
  intros s x y S X Y E. destruct (rotr_split x s S X) as (A & EA). destruct (rotr_split y s S Y) as (B & EB).
  rewrite EA, EB in E. set (k := 2 ^ (64 - s)) in *.
  assert (Q : x / 2 ^ s = y / 2 ^ s /\ x mod 2 ^ s = y mod 2 ^ s).
  { rewrite (N.mul_comm (x mod _)), (N.mul_comm (y mod _)), !(N.add_comm (_ / _)) in E.
    destruct (N.div_mod_unique k _ _ _ _ A B E). split; assumption. }
  destruct Q as [Q1 Q2]. rewrite (N.div_mod x (2 ^ s)), (N.div_mod y (2 ^ s)) by (apply N.pow_nonzero; discriminate). congruence.
Qed.

(** multiply by an odd number, add, rotate, xor: any word can be reached, in one way *)
Lemma word_inj : forall a e p s x y, N.odd p = true -> s <= 64 -> x < 2 ^ 64 -> y < 2 ^ 64 ->
  xor (rotr (add a (mulw x p)) s) e = xor (rotr (add a (mulw y p)) s) e -> x = y.
Proof.
  intros a e p s x y O S X Y E. destruct (odd_inverse p O) as (q & Q). unfold xor in E.
  rewrite !(N.lxor_comm _ e) in E. apply xor_inj in E. apply rotr_inj in E; [|exact S|apply add_lt64..].
  unfold add in E. apply add_inj in E; [|discriminate|apply mulw_lt64..]. now apply (mulw_inj p q) in E.
Qed.
Lemma word_onto : forall a e p s t, N.odd p = true -> s <= 64 -> e < 2 ^ 64 -> t < 2 ^ 64 ->
  exists x, x < 2 ^ 64 /\ xor (rotr (add a (mulw x p)) s) e = t.
Proof.
  intros a e p s t O S L T. apply (inj_onto (2 ^ 64) (fun x => xor (rotr (add a (mulw x p)) s) e)); [| |exact T].
  - intros x _. apply xor_lt64; [now apply rotr_lt64|exact L].
  - intros x y X Y. now apply word_inj.
Qed.
(** the same with an addition or a subtraction last *)
Lemma word_add_onto : forall a e p s t, N.odd p = true -> s <= 64 -> t < 2 ^ 64 ->
  exists x, x < 2 ^ 64 /\ add (rotr (add a (mulw x p)) s) e = t.
Proof.
  intros a e p s t O S T. destruct (word_onto a 0 p s (sub t e) O S eq_refl (sub_lt64 _ _)) as (x & X & E).
  exists x. split; [exact X|]. unfold xor in E. rewrite N.lxor_0_r in E. rewrite E. unfold add, sub.
  change (2 ^ 64) with 18446744073709551616 in *. rewrite N.add_mod_idemp_l by discriminate. rewrite (N.mod_small t) by exact T.
  pose proof (N.mod_lt e 18446744073709551616 ltac:(discriminate)). pose proof (N.div_mod e 18446744073709551616 ltac:(discriminate)).
  set (d := e / 18446744073709551616) in *. set (r := e mod _) in *. clearbody d r.
  replace (t + 18446744073709551616 - r + e) with (t + (1 + d) * 18446744073709551616) by lia.
  rewrite N.mod_add by discriminate. now apply N.mod_small.
Qed.
Lemma word_sub_onto : forall a e p s t, N.odd p = true -> s <= 64 -> t < 2 ^ 64 ->
  exists x, x < 2 ^ 64 /\ sub (rotr (add a (mulw x p)) s) e = t.
Proof.
  intros a e p s t O S T. destruct (word_onto a 0 p s (add t e) O S eq_refl (add_lt64 _ _)) as (x & X & E).
  exists x. split; [exact X|]. unfold xor in E. rewrite N.lxor_0_r in E. rewrite E. unfold add, sub.
  change (2 ^ 64) with 18446744073709551616 in *. rewrite N.mod_mod by discriminate.
  pose proof (N.mod_lt e 18446744073709551616 ltac:(discriminate)). 
  rewrite <- (N.add_mod_idemp_r t e) by discriminate. set (r := e mod _) in *. clearbody r.
  rewrite <- N.add_sub_assoc by lia. rewrite N.add_mod_idemp_l by discriminate.
  replace (t + r + (18446744073709551616 - r)) with (t + 1 * 18446744073709551616) by lia.
  rewrite N.mod_add by discriminate. now apply N.mod_small.
Qed.

(** ** x ^= x >> k and x ^= x << k *)
Lemma small_bits : forall x n, x < 2 ^ n <-> (forall i, n <= i -> N.testbit x i = false).
Proof.
  intros x n. split.
  - intros H i I. destruct (N.eq_dec x 0) as [->|Z]; [apply N.bits_0|]. apply N.bits_above_log2.
    apply N.lt_le_trans with n; [|exact I]. apply N.log2_lt_pow2; lia.
  - intros H. destruct (N.eq_dec x 0) as [->|Z]; [apply N.neq_0_lt_0, N.pow_nonzero; discriminate|].
    apply N.log2_lt_pow2; [lia|]. apply N.nle_gt. intro L. specialize (H _ L). rewrite N.bit_log2 in H; [discriminate|exact Z].
Qed.
Lemma shiftr_xor_inj : forall k x y, k <> 0 -> N.lxor x (N.shiftr x k) = N.lxor y (N.shiftr y k) -> x = y.
Proof.
  intros k x y K E. apply N.bits_inj. intro i.
  set (n := N.max (N.log2 x) (N.log2 y) + 1).
  assert (A : forall j, n <= j -> N.testbit x j = N.testbit y j).
  { intros j J. rewrite !N.bits_above_log2 by lia. reflexivity. }
  destruct (N.le_gt_cases n i) as [C|C]; [now apply A|].
  assert (D : forall d j, n <= j + N.of_nat d -> N.testbit x j = N.testbit y j).
  { induction d as [|d IH]; intros j J; [apply A; lia|].
    assert (T := f_equal (fun z => N.testbit z j) E). cbv beta in T. rewrite !N.lxor_spec, !N.shiftr_spec' in T.
    rewrite (IH (j + k)) in T by lia. destruct (N.testbit x j), (N.testbit y j), (N.testbit y (j + k)); easy. }
  apply (D (N.to_nat n)). lia.
Qed.
Lemma shiftl_xor_inj : forall k x y, k <> 0 -> x < 2 ^ 64 -> y < 2 ^ 64 ->
  N.lxor x (N.shiftl x k mod 2 ^ 64) = N.lxor y (N.shiftl y k mod 2 ^ 64) -> x = y.
Proof.
  intros k x y K X Y E. apply N.bits_inj. intro i.
  assert (D : forall n j, j <= N.of_nat n -> j < 64 -> N.testbit x j = N.testbit y j).
  { induction n as [|n IH]; intros j J L;
      (assert (T := f_equal (fun z => N.testbit z j) E); cbv beta in T; rewrite !N.lxor_spec, !N.mod_pow2_bits_low in T by exact L;
       destruct (N.lt_ge_cases j k) as [C|C];
       [rewrite !N.shiftl_spec_low, !xorb_false_r in T by exact C; exact T|]).
    - lia.
    - rewrite !N.shiftl_spec_high' in T by exact C. rewrite (IH (j - k)) in T by lia.
      destruct (N.testbit x j), (N.testbit y j), (N.testbit y (j - k)); easy. }
  destruct (N.lt_ge_cases i 64) as [C|C]; [apply (D (N.to_nat i)); lia|].
  rewrite (proj1 (small_bits x 64) X), (proj1 (small_bits y 64) Y) by exact C. reflexivity.
Qed.
