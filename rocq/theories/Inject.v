(** Parts of the hashes that lose no information. *)
From Coq Require Import ZArith NArith Arith List Bool Lia Strings.Byte.
From Coq Require Import ZifyN ZifyNat ZifyBool.
From Verif Require Import Bytes Spec NBits CSemFacts OpsFacts StreamFacts.
Import ListNotations.
Ltac Zify.zify_post_hook ::= Z.div_mod_to_equations.
Local Open Scope N_scope.

Lemma mul_inj : forall n p p' x y, (p * p') mod n = 1 -> n <> 0 -> x < n -> y < n ->
  (x * p) mod n = (y * p) mod n -> x = y.
Proof.
  intros n p p' x y I Z X Y E.
  assert (F : forall z, z < n -> ((z * p) mod n * p') mod n = z).
  { intros z L. rewrite N.mul_mod_idemp_l, <- N.mul_assoc by assumption.
    rewrite <- N.mul_mod_idemp_r, I, N.mul_1_r by assumption. now apply N.mod_small. }
  rewrite <- (F x X), <- (F y Y), E. reflexivity.
Qed.

Lemma add_inj : forall n c x y, n <> 0 -> x < n -> y < n -> (c + x) mod n = (c + y) mod n -> x = y.
Proof.
  intros n c x y Z X Y E.
  assert (F : forall z, z < n -> ((c + z) mod n + (n - c mod n)) mod n = z).
  { intros z L. pose proof (N.mod_lt c n Z). rewrite N.add_mod_idemp_l by assumption.
    pose proof (N.div_mod c n Z) as D.
    replace (c + z + (n - c mod n)) with (z + (c / n + 1) * n) by nia.
    rewrite N.mod_add by assumption. now apply N.mod_small. }
  rewrite <- (F x X), <- (F y Y), E. reflexivity.
Qed.

Lemma xor_inj : forall c x y, xor c x = xor c y -> x = y.
Proof.
  unfold xor. intros c x y E. rewrite <- (N.lxor_0_l x), <- (N.lxor_0_l y), <- (N.lxor_nilpotent c).
  now rewrite !N.lxor_assoc, E.
Qed.

(** [mix]: the word that is mixed in can be read off the new first register. *)
Lemma mix_fst_inj : forall p p' v w a b, (p * p') mod 2 ^ 64 = 1 -> v < 2 ^ 64 -> w < 2 ^ 64 ->
  fst (mix p v (a, b)) = fst (mix p w (a, b)) -> v = w.
Proof.
  intros p p' v w a b I V W E. unfold mix in E. cbn [fst snd] in E. apply xor_inj in E.
  unfold lo in E.
  rewrite !(N.mod_small (add b _)) in E by (apply N.mod_lt; discriminate).
  apply (mul_inj _ p p') in E; try assumption; try discriminate; try (apply N.mod_lt; discriminate).
  unfold add in E. now apply add_inj in E.
Qed.
Lemma mix_32_fst_inj : forall p p' v w a b, (p * p') mod 2 ^ 32 = 1 -> v < 2 ^ 32 -> w < 2 ^ 32 ->
  fst (mix_32 p v (a, b)) = fst (mix_32 p w (a, b)) -> v = w.
Proof.
  intros p p' v w a b I V W E. unfold mix_32 in E. cbn [fst snd] in E. apply xor_inj in E.
  apply (mul_inj _ p p') in E; try assumption; try discriminate; try (apply N.mod_lt; discriminate).
  unfold add_32 in E. now apply add_inj in E.
Qed.

(** an odd number has an inverse modulo 2^64 *)
Lemma odd_inverse_pow : forall p k, N.odd p = true -> exists q, (p * q) mod 2 ^ N.of_nat k = 1 mod 2 ^ N.of_nat k.
Proof.
  intros p k O. induction k as [|k [q Q]].
  { exists 0. now rewrite !N.mod_1_r. }
  set (n := 2 ^ N.of_nat k) in *. assert (NZ : n <> 0) by (apply N.pow_nonzero; discriminate).
  replace (2 ^ N.of_nat (S k)) with (2 * n)
    by (unfold n; rewrite Nat2N.inj_succ, N.pow_succ_r'; reflexivity).
  (* p q = 1 + n c; if c is odd add n to q *)
  destruct k as [|k].
  { exists 1. rewrite N.mul_1_r. subst n. change (2 * 2 ^ N.of_nat 0) with 2.
    apply N.odd_spec in O as [r ->]. rewrite N.add_comm, (N.mul_comm 2), N.mod_add by discriminate. reflexivity. }
  assert (N2 : 2 <= n).
  { unfold n. rewrite Nat2N.inj_succ, N.pow_succ_r'. pose proof (N.pow_nonzero 2 (N.of_nat k) ltac:(discriminate)) as Z. generalize dependent (2 ^ N.of_nat k). intros; lia. }
  rewrite (N.mod_small 1 n) in Q by lia. rewrite (N.mod_small 1 (2 * n)) by lia.
  pose proof (N.div_mod (p * q) n NZ) as E. rewrite Q in E. set (c := p * q / n) in *. clearbody c.
  assert (M : forall d, (1 + (2 * n) * d) mod (2 * n) = 1).
  { intro d. rewrite (N.mul_comm (2 * n)), N.mod_add by lia. apply N.mod_small. lia. }
  apply N.odd_spec in O as [r R].
  destruct (N.even c) eqn:EC.
  - apply N.even_spec in EC as [d ->]. exists q. rewrite E. etransitivity; [|exact (M d)]. f_equal. ring.
  - assert (OC : N.odd c = true) by (rewrite <- N.negb_even, EC; reflexivity).
    apply N.odd_spec in OC as [d ->]. exists (q + n). etransitivity; [|exact (M (d + r + 1))]. f_equal.
    rewrite N.mul_add_distr_l, E, R. ring.
Qed.
Lemma odd_inverse : forall p, N.odd p = true -> exists q, (p * q) mod 2 ^ 64 = 1.
Proof. intros p O. exact (odd_inverse_pow p 64 O). Qed.

(** inverses modulo 2^64 and 2^32 of some of the constants *)
Definition P0_inv : N := 9150454679702265859.
Definition P1_inv : N := 13116075479430942473.
Definition P4_inv : N := 7847789401599377155.
Definition P6_inv : N := 12929917631454063825.
Definition R1_inv : N := 2443186973.

Lemma rotr_32_lt : forall x s, s <= 32 -> rotr_32 x s < 2 ^ 32.
Proof.
  intros x s S. unfold rotr_32.
  assert (X : x mod 2 ^ 32 < 2 ^ 32) by (apply N.mod_lt; discriminate).
  set (y := x mod 2 ^ 32) in *. clearbody y.
  assert (A : y / 2 ^ s < 2 ^ (32 - s)).
  { apply N.div_lt_upper_bound; [apply N.pow_nonzero; lia|]. rewrite <- N.pow_add_r.
    now replace (s + (32 - s)) with 32 by lia. }
  assert (B : y mod 2 ^ s < 2 ^ s) by (apply N.mod_lt, N.pow_nonzero; lia).
  replace (2 ^ 32) with (2 ^ s * 2 ^ (32 - s)) by (rewrite <- N.pow_add_r; f_equal; lia).
  nia.
Qed.

(** ** The final mixing of the 32-bit hash is a bijection of 64 bits. *)
Lemma mulw_inj : forall p p' x y, (p * p') mod 2 ^ 64 = 1 -> x < 2 ^ 64 -> y < 2 ^ 64 ->
  mulw x p = mulw y p -> x = y.
Proof. intros p p' x y I X Y E. now apply (mul_inj (2 ^ 64) p p'). Qed.

Lemma xorshift_inj : forall k x y, 32 <= k -> x < 2 ^ 64 -> y < 2 ^ 64 ->
  xor x (x / 2 ^ k) = xor y (y / 2 ^ k) -> x = y.
Proof.
  intros k x y K X Y. unfold xor. rewrite <- !N.shiftr_div_pow2. intro E.
  assert (F : forall z, z < 2 ^ 64 -> N.shiftr (N.lxor z (N.shiftr z k)) k = N.shiftr z k).
  { intros z Z. rewrite N.shiftr_lxor, N.shiftr_shiftr, (N.shiftr_div_pow2 z (k + k)).
    rewrite (N.div_small z); [apply N.lxor_0_r|].
    apply N.lt_le_trans with (2 ^ 64); [assumption|]. apply N.pow_le_mono_r; lia. }
  assert (G : N.shiftr x k = N.shiftr y k) by (rewrite <- (F x X), <- (F y Y), E; reflexivity).
  rewrite G in E. rewrite (N.lxor_comm x), (N.lxor_comm y) in E. now apply xor_inj in E.
Qed.

Lemma xorshift_lt : forall k x, x < 2 ^ 64 -> xor x (x / 2 ^ k) < 2 ^ 64.
Proof.
  intros k x X. unfold xor. apply lxor_lt; [assumption|].
  apply N.le_lt_trans with x; [|assumption]. apply N.div_le_upper_bound; [apply N.pow_nonzero; lia|].
  pose proof (pow2_pos k). nia.
Qed.

Lemma join_inj : forall a b a' b', a < 2 ^ 32 -> a' < 2 ^ 32 ->
  a + 2 ^ 32 * b = a' + 2 ^ 32 * b' -> a = a' /\ b = b'.
Proof. intros a b a' b' A A' E. change (2 ^ 32) with 4294967296 in *. lia. Qed.

Lemma t1ha0_finish_inj : forall a b a' b',
  a < 2 ^ 32 -> b < 2 ^ 32 -> a' < 2 ^ 32 -> b' < 2 ^ 32 ->
  t1ha0_finish (a, b) = t1ha0_finish (a', b') -> a = a' /\ b = b'.
Proof.
  intros a b a' b' A B A' B' E. unfold t1ha0_finish in E.
  apply (mulw_inj P6 P6_inv) in E; [|reflexivity|apply xorshift_lt, N.mod_lt; discriminate..].
  apply xorshift_inj in E; [|discriminate|apply N.mod_lt; discriminate..].
  apply (mulw_inj P4 P4_inv) in E; [|reflexivity|apply xorshift_lt, N.mod_lt; discriminate..].
  apply xorshift_inj in E; [|discriminate|apply N.mod_lt; discriminate..].
  rewrite !(N.mod_small _ (2 ^ 32)) in E by assumption.
  assert (R : forall a b, a < 2 ^ 32 -> b < 2 ^ 32 -> xor b (rotr_32 a 13) < 2 ^ 32).
  { intros x y X Y. unfold xor. apply lxor_lt; [assumption|]. now apply rotr_32_lt. }
  assert (J : forall a b, a < 2 ^ 32 -> b < 2 ^ 32 -> xor b (rotr_32 a 13) + 2 ^ 32 * a < 2 ^ 64).
  { intros x y X Y. pose proof (R x y X Y). change (2 ^ 64) with (2 ^ 32 * 2 ^ 32). nia. }
  apply (mulw_inj P0 P0_inv) in E; [|reflexivity|auto|auto].
  apply join_inj in E; [|auto|auto]. destruct E as [E ->]. split; [reflexivity|].
  unfold xor in E. rewrite (N.lxor_comm b), (N.lxor_comm b') in E. now apply xor_inj in E.
Qed.

(** ** The last word of the tail *)
Definition small2 (ab : N * N) : Prop := fst ab < 2 ^ 32 /\ snd ab < 2 ^ 32.
Lemma mix_32_small : forall p v ab, fst ab < 2 ^ 32 -> small2 (mix_32 p v ab).
Proof.
  intros p v [a b] A. unfold mix_32, small2. cbn [fst snd] in *. split.
  - apply lxor_lt; [assumption|]. apply N.mod_lt. discriminate.
  - apply N.mod_lt. discriminate.
Qed.

Lemma tail_snoc : forall ws ab, (length ws <= 3)%nat ->
  exists ab', (small2 ab -> small2 ab') /\
  forall w, tail_with t1ha0_steps (ws ++ [w]) ab = swap (mix_32 R1 w (swap ab')).
Proof.
  intros ws ab L.
  exists (fold_left (fun s fw => fst fw (snd fw) s)
     (combine (skipn (3 - length ws)%nat (firstn 3 t1ha0_steps)) ws) ab).
  split.
  - intro S. destruct ws as [|w1 [|w2 [|w3 [|? ws]]]]; [| | | |cbn in L; lia];
      cbn [length Nat.sub firstn skipn t1ha0_steps combine fold_left fst snd]; [exact S|..];
      repeat match goal with
      | |- small2 (swap ?x) => enough (small2 x) by (unfold small2, swap in *; tauto)
      | |- small2 (mix_32 _ _ _) => apply mix_32_small
      | |- fst (swap ?x) < _ => enough (small2 x) by (unfold small2, swap in *; tauto)
      | |- fst (mix_32 ?p ?w ?x) < _ => enough (small2 (mix_32 p w x)) by (unfold small2, swap in *; tauto)
      | S : small2 ?x |- fst ?x < _ => apply S
      | S : small2 ?x |- small2 ?x => apply S
      end.
  - intro w. destruct ws as [|w1 [|w2 [|w3 [|? ws]]]]; [| | | |cbn in L; lia]; reflexivity.
Qed.

Lemma last_word_inj : forall ws v w ab, (length ws <= 3)%nat -> small2 ab -> v < 2 ^ 32 -> w < 2 ^ 32 ->
  t1ha0_finish (tail_with t1ha0_steps (ws ++ [v]) ab) = t1ha0_finish (tail_with t1ha0_steps (ws ++ [w]) ab) ->
  v = w.
Proof.
  intros ws v w ab L S V W E. destruct (tail_snoc ws ab L) as (ab' & S' & T). rewrite !T in E.
  specialize (S' S). destruct ab' as [a b]. destruct S' as [A B]. cbn [fst snd] in *.
  unfold swap in E. cbn [fst snd] in E.
  destruct (mix_32_small R1 v (b, a) B) as [Sv1 Sv2], (mix_32_small R1 w (b, a) B) as [Sw1 Sw2].
  destruct (t1ha0_finish_inj _ _ _ _ Sv2 Sv1 Sw2 Sw1 E) as [_ E2].
  now apply (mix_32_fst_inj R1 R1_inv) in E2.
Qed.

Lemma t1ha0_init_small : forall seed len, small2 (t1ha0_init seed len).
Proof.
  intros. unfold t1ha0_init, small2. cbn [fst snd]. split; [apply N.mod_lt; discriminate|].
  apply lxor_lt; apply N.mod_lt; discriminate.
Qed.
Lemma squeeze0_small : forall s, qa s < 2 ^ 32 -> qb s < 2 ^ 32 -> small2 (t1ha0_squeeze s).
Proof.
  intros s A B. unfold t1ha0_squeeze, small2. cbn [fst snd].
  split; (apply lxor_lt; [assumption|]; apply N.mod_lt; discriminate).
Qed.
Lemma absorb0_small : forall num bs s, qa s < 2 ^ 32 /\ qb s < 2 ^ 32 ->
  qa (fold_left (absorb0 num) bs s) < 2 ^ 32 /\ qb (fold_left (absorb0 num) bs s) < 2 ^ 32.
Proof.
  intros num bs. induction bs as [|b bs IH]; intros s S; [exact S|]. cbn [fold_left]. apply IH.
  unfold absorb0. cbn [qa qb]. split; apply N.mod_lt; discriminate.
Qed.

Lemma groups_length : forall k l, length (groups k l) = ((length l + (k - 1)) / k)%nat.
Proof. intros. unfold groups. now rewrite map_length, seq_length. Qed.

Lemma groups_snoc : forall k l u, (2 <= k)%nat -> (length l mod k = 0)%nat -> (1 <= length u <= k)%nat ->
  groups k (l ++ u) = groups k l ++ [u].
Proof.
  intros k l u K. remember (length l) as n eqn:E. revert l E.
  induction n as [n IH] using lt_wf_ind. intros l E D U.
  destruct (Nat.le_gt_cases k (length l)) as [L|L].
  - rewrite <- (firstn_skipn k l). assert (F : length (firstn k l) = k) by (rewrite firstn_length_le; lia).
    rewrite <- app_assoc, (groups_app k (firstn k l) (skipn k l)), groups_app by lia. rewrite (IH (length (skipn k l))); rewrite ?skipn_length; try lia.
    + reflexivity.
    + replace n with (length l - k + 1 * k)%nat in D by lia. now rewrite Nat.mod_add in D by lia.
  - subst n. rewrite Nat.mod_small in D by assumption. destruct l as [|x l]; [|discriminate].
    cbn [app]. rewrite groups_nil, groups_short by assumption. reflexivity.
Qed.

Lemma mod_16_4 : forall n : nat, (n mod 16 mod 4 = n mod 4)%nat.
Proof. intro n. lia. Qed.

Section Last.
  Variable num : list byte -> N.
  Hypothesis num_lt : forall l, num l < 256 ^ N.of_nat (length l).
  Hypothesis num_inj : forall a b, length a = length b -> num a = num b -> a = b.

  Lemma num_small : forall u, (length u <= 4)%nat -> num u < 2 ^ 32.
  Proof.
    intros u U. apply N.lt_le_trans with (256 ^ N.of_nat (length u)); [apply num_lt|].
    change (2 ^ 32) with (256 ^ 4). apply N.pow_le_mono_r; lia.
  Qed.

  Theorem t1ha0_last_word : forall l u v seed,
    (length l mod 4 = 0)%nat -> (1 <= length u <= 4)%nat -> length v = length u -> 
    (length l + length u <= 16 \/ (length l + length u) mod 16 <> 0)%nat ->
    t1ha0_32 num (l ++ u) seed = t1ha0_32 num (l ++ v) seed -> u = v.
  Proof.
    intros l u v seed D U V C E. apply num_inj; [congruence|].
    unfold t1ha0_32 in E. cbv zeta in E.
    assert (M : mlen (l ++ v) = mlen (l ++ u)) by (unfold mlen; now rewrite !app_length, V).
    rewrite M in E. destruct (N.leb_spec (mlen (l ++ u)) 16) as [L|L].
    - rewrite !groups_snoc, !map_app in E by lia. cbn [map] in E.
      apply last_word_inj in E; auto using num_small, t1ha0_init_small with arith.
      + rewrite map_length, groups_length. unfold mlen in L. rewrite app_length in L. lia.
      + apply num_small. lia.
      + apply num_small. lia.
    - unfold mlen in L. rewrite app_length in L. destruct C as [C|C]; [lia|].
      destruct (blocks_rest_app 16 l u ltac:(lia)) as [B1 R1].
      destruct (blocks_rest_app 16 l v ltac:(lia)) as [B2 R2].
      assert (S : (length (rest 16 l) + length u < 16)%nat).
      { rewrite rest_length by lia. pose proof (Nat.mod_upper_bound (length l) 16 ltac:(lia)).
        pose proof (mod_16_4 (length l)).
        assert ((length l mod 16 + length u) mod 16 <> 0)%nat by (rewrite Nat.add_mod_idemp_l by lia; exact C).
        assert (length l mod 16 + length u <> 16)%nat by (intro Q; rewrite Q in *; now apply H1).
        lia. }
      rewrite (blocks_nil 16 (rest 16 l ++ u)) in B1 by (rewrite app_length; lia).
      rewrite (blocks_nil 16 (rest 16 l ++ v)) in B2 by (rewrite app_length; lia).
      rewrite (rest_short 16 (rest 16 l ++ u)) in R1 by (rewrite app_length; lia).
      rewrite (rest_short 16 (rest 16 l ++ v)) in R2 by (rewrite app_length; lia).
      rewrite B1, B2, R1, R2 in E. rewrite app_nil_r in E.
      assert (D' : (length (rest 16 l) mod 4 = 0)%nat).
      { rewrite rest_length by lia. now rewrite mod_16_4. }
      rewrite !groups_snoc, !map_app in E by lia. cbn [map] in E.
      apply last_word_inj in E; auto.
      + rewrite map_length, groups_length. lia.
      + apply squeeze0_small; apply absorb0_small; cbn [qa qb]; split; apply t1ha0_init_small.
      + apply num_small. lia.
      + apply num_small. lia.
  Qed.

  Theorem t1ha0_empty_seed : forall s t, s < 2 ^ 64 -> t < 2 ^ 64 ->
    t1ha0_32 num [] s = t1ha0_32 num [] t -> s = t.
  Proof.
    intros s t S T E. change (t1ha0_finish (t1ha0_init s 0) = t1ha0_finish (t1ha0_init t 0)) in E.
    pose proof (t1ha0_init_small s 0) as [S1 S2]. pose proof (t1ha0_init_small t 0) as [T1 T2].
    rewrite (surjective_pairing (t1ha0_init s 0)), (surjective_pairing (t1ha0_init t 0)) in E.
    apply t1ha0_finish_inj in E; try assumption. destruct E as [E1 E2].
    unfold t1ha0_init in E1, E2. cbn [fst snd] in *. unfold add_32 in E1.
    apply add_inj in E1; [|discriminate|apply N.mod_lt; discriminate..].
    apply xor_inj in E2.
    rewrite !(N.mod_small (_ / _)) in E2
      by (apply N.div_lt_upper_bound; [discriminate|]; now change (2 ^ 32 * 2 ^ 32) with (2 ^ 64)).
    rewrite (N.div_mod s (2 ^ 32)), (N.div_mod t (2 ^ 32)) by discriminate. now rewrite E1, E2.
  Qed.
End Last.
