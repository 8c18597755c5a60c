(** Collisions of the specified functions. *)
From Coq Require Import ZArith NArith Arith List Bool Lia Strings.Byte.
From Coq Require Import ZifyN ZifyNat ZifyBool.
From Verif Require Import Bytes Spec AesSpec NBits CSemFacts OpsFacts StreamFacts AesFacts Inject.
Import ListNotations.
Ltac Zify.zify_post_hook ::= Z.div_mod_to_equations.
Local Open Scope N_scope.

(** ** Replacing one block by another that is absorbed alike *)
Lemma blocks_mid : forall k l b r, k <> 0%nat -> (length l mod k = 0)%nat -> length b = k ->
  blocks k (l ++ b ++ r) = blocks k l ++ b :: blocks k r /\ rest k (l ++ b ++ r) = rest k r.
Proof.
  intros k l b r K D B. destruct (blocks_rest_app k l (b ++ r) K) as [E1 E2].
  assert (Z : rest k l = []).
  { apply length_zero_iff_nil. rewrite rest_length by exact K. exact D. }
  rewrite Z in E1, E2. cbn [app] in E1, E2. rewrite (blocks_app k b r) in E1 by assumption.
  split; [exact E1|]. rewrite E2.
  destruct (blocks_rest_app k b r K) as [_ E3]. rewrite E3.
  assert (Z' : rest k b = []) by (apply length_zero_iff_nil; rewrite rest_length, B by exact K; now apply Nat.mod_same).
  now rewrite Z'.
Qed.

Lemma mlen_mid : forall (l b b' r : list byte), length b = length b' -> mlen (l ++ b ++ r) = mlen (l ++ b' ++ r).
Proof. intros. unfold mlen. rewrite !app_length. lia. Qed.

Lemma fold_mid : forall (T : Type) (f : T -> list byte -> T) k l b b' r t, k <> 0%nat ->
  (length l mod k = 0)%nat -> length b = k -> length b' = k ->
  f (fold_left f (blocks k l) t) b = f (fold_left f (blocks k l) t) b' ->
  fold_left f (blocks k (l ++ b ++ r)) t = fold_left f (blocks k (l ++ b' ++ r)) t.
Proof.
  intros T f k l b b' r t K D B B' E.
  destruct (blocks_mid k l b r K D B) as [-> _]. destruct (blocks_mid k l b' r K D B') as [-> _].
  rewrite !fold_left_app. cbn [fold_left]. now rewrite E.
Qed.

Section Two.
  Variables (l b b' r : list byte).
  Hypothesis D : (length l mod 32 = 0)%nat.
  Hypothesis B : length b = 32%nat.
  Hypothesis B' : length b' = 32%nat.

  Lemma rest_mid : rest 32 (l ++ b ++ r) = rest 32 (l ++ b' ++ r).
  Proof.
    destruct (blocks_mid 32 l b r ltac:(lia) D B) as [_ ->].
    destruct (blocks_mid 32 l b' r ltac:(lia) D B') as [_ ->]. reflexivity.
  Qed.
  Lemma mlen_mid' : mlen (l ++ b ++ r) = mlen (l ++ b' ++ r).
  Proof. apply mlen_mid. congruence. Qed.

  Lemma t1ha2_mid : forall seed, 32 < mlen (l ++ b ++ r) ->
    (let s := absorb_all (start seed (mlen (l ++ b ++ r))) (blocks 32 l) in absorb s b = absorb s b') ->
    t1ha2_64 (l ++ b ++ r) seed = t1ha2_64 (l ++ b' ++ r) seed /\
    t1ha2_128 (l ++ b ++ r) seed = t1ha2_128 (l ++ b' ++ r) seed.
  Proof.
    intros seed L E. cbv zeta in E. unfold t1ha2_64, t1ha2_128. rewrite <- mlen_mid'.
    replace (mlen (l ++ b ++ r) <=? 32) with false by lia.
    unfold absorb_all in *. rewrite (fold_mid _ absorb 32 l b b' r _ ltac:(lia) D B B' E), rest_mid.
    split; reflexivity.
  Qed.

  Lemma stream_mid : forall x y,
    (let s := absorb_all (start x y) (blocks 32 l) in absorb s b = absorb s b') ->
    t1ha2_stream64 x y (l ++ b ++ r) = t1ha2_stream64 x y (l ++ b' ++ r) /\
    t1ha2_stream128 x y (l ++ b ++ r) = t1ha2_stream128 x y (l ++ b' ++ r).
  Proof.
    intros x y E. cbv zeta in E. unfold t1ha2_stream64, t1ha2_stream128, stream_state, padded.
    rewrite <- mlen_mid'. set (z := le_bytes 8 _). rewrite <- !app_assoc.
    unfold absorb_all in *. rewrite (fold_mid _ absorb 32 l b b' (r ++ z) _ ltac:(lia) D B B' E).
    assert (R : rest 32 (l ++ b ++ r ++ z) = rest 32 (l ++ b' ++ r ++ z)).
    { destruct (blocks_mid 32 l b (r ++ z) ltac:(lia) D B) as [_ ->].
      destruct (blocks_mid 32 l b' (r ++ z) ltac:(lia) D B') as [_ ->]. reflexivity. }
    rewrite R. split; reflexivity.
  Qed.

  Lemma t1ha1_mid : forall num seed, 32 < mlen (l ++ b ++ r) ->
    (let s := fold_left (absorb1 num) (blocks 32 l) (t1ha1_start seed (mlen (l ++ b ++ r))) in
     absorb1 num s b = absorb1 num s b') ->
    t1ha1_64 num (l ++ b ++ r) seed = t1ha1_64 num (l ++ b' ++ r) seed.
  Proof.
    intros num seed L E. cbv zeta in E. unfold t1ha1_64. rewrite <- mlen_mid'.
    replace (mlen (l ++ b ++ r) <=? 32) with false by lia.
    rewrite (fold_mid _ (absorb1 num) 32 l b b' r _ ltac:(lia) D B B' E), rest_mid. reflexivity.
  Qed.
End Two.

Lemma t1ha0_mid : forall l b b' r num seed, (length l mod 16 = 0)%nat -> length b = 16%nat -> length b' = 16%nat ->
  16 < mlen (l ++ b ++ r) ->
  (let s := fold_left (absorb0 num) (blocks 16 l) (t1ha0_start (t1ha0_init seed (mlen (l ++ b ++ r)))) in
   absorb0 num s b = absorb0 num s b') ->
  t1ha0_32 num (l ++ b ++ r) seed = t1ha0_32 num (l ++ b' ++ r) seed.
Proof.
  intros l b b' r num seed D B B' L E. cbv zeta in E. unfold t1ha0_32.
  rewrite <- (mlen_mid l b b' r) by congruence.
  replace (mlen (l ++ b ++ r) <=? 16) with false by lia.
  rewrite (fold_mid _ (absorb0 num) 16 l b b' r _ ltac:(lia) D B B' E).
  destruct (blocks_mid 16 l b r ltac:(lia) D B) as [_ ->].
  destruct (blocks_mid 16 l b' r ltac:(lia) D B') as [_ ->]. reflexivity.
Qed.

Lemma t1ha0_aes_a_mid : forall l b b' r seed, (length l mod 128 = 0)%nat -> length b = 128%nat -> length b' = 128%nat ->
  (forall s, aes_a_absorb s b = aes_a_absorb s b') ->
  t1ha0_aes_a (l ++ b ++ r) seed = t1ha0_aes_a (l ++ b' ++ r) seed.
Proof.
  intros l b b' r seed D B B' E. unfold t1ha0_aes_a.
  rewrite <- (mlen_mid l b b' r) by congruence.
  destruct (N.leb_spec (mlen (l ++ b ++ r)) 32) as [L|L].
  { unfold mlen in L. rewrite !app_length in L. lia. }
  rewrite (fold_mid _ aes_a_absorb 128 l b b' r _ ltac:(lia) D B B' (E _)).
  destruct (blocks_mid 128 l b r ltac:(lia) D B) as [_ ->].
  destruct (blocks_mid 128 l b' r ltac:(lia) D B') as [_ ->].
  assert (R : forall k, (128 mod k = 0)%nat -> k <> 0%nat -> rest k (l ++ b ++ r) = rest k (l ++ b' ++ r)).
  { intros k K Z. unfold rest. rewrite !app_length, B, B'. set (n := (_ / k)%nat).
    assert (length l + 128 <= k * n)%nat.
    { pose proof (Nat.div_exact 128 k Z) as [_ X]. specialize (X K).
      pose proof (Nat.div_exact (length l) 128 ltac:(lia)) as [_ Y]. specialize (Y D).
      assert (k * ((length l + 128) / k) <= k * n)%nat.
      { apply Nat.mul_le_mono_l, Nat.div_le_mono; lia. }
      replace (length l + 128)%nat with ((length l / 128 + 1) * (128 / k) * k)%nat in * by nia.
      rewrite Nat.div_mul in * by assumption. nia. }
    rewrite !app_assoc. rewrite (skipn_app (k * n) (l ++ b) r), (skipn_app (k * n) (l ++ b') r).
    rewrite (skipn_all2 (l ++ b)), (skipn_all2 (l ++ b')) by (rewrite app_length; lia).
    rewrite !app_length, B, B'. reflexivity. }
  now rewrite !R by (reflexivity || discriminate).
Qed.

(** ** Blocks made of words *)
Section Words.
  Variables (k : nat) (M : N) (num : list byte -> N) (enc : N -> list byte).
  Hypothesis enc_len : forall w, length (enc w) = k.
  Hypothesis num_enc : forall w, w < M -> num (enc w) = w.
  Definition block (w0 w1 w2 w3 : N) : list byte := enc w0 ++ enc w1 ++ enc w2 ++ enc w3.
  Lemma block_length : forall w0 w1 w2 w3, length (block w0 w1 w2 w3) = (4 * k)%nat.
  Proof. intros. unfold block. rewrite !app_length, !enc_len. lia. Qed.
  Lemma block_group : forall w0 w1 w2 w3, w0 < M -> w1 < M -> w2 < M -> w3 < M ->
    num (group k 0 (block w0 w1 w2 w3)) = w0 /\ num (group k 1 (block w0 w1 w2 w3)) = w1 /\
    num (group k 2 (block w0 w1 w2 w3)) = w2 /\ num (group k 3 (block w0 w1 w2 w3)) = w3.
  Proof.
    intros w0 w1 w2 w3 H0 H1 H2 H3. unfold block.
    rewrite <- (app_nil_r (enc w3)) at 1 2 3 4.
    repeat (rewrite ?(group_S_app k) by apply enc_len; rewrite ?(group_0_app k) by apply enc_len).
    rewrite !num_enc by assumption. auto.
  Qed.
  Lemma block_inj : forall w0 w1 w2 w3 v0 v1 v2 v3,
    w0 < M -> w1 < M -> w2 < M -> w3 < M -> v0 < M -> v1 < M -> v2 < M -> v3 < M ->
    block w0 w1 w2 w3 = block v0 v1 v2 v3 -> w2 = v2.
  Proof.
    intros w0 w1 w2 w3 v0 v1 v2 v3 H0 H1 H2 H3 G0 G1 G2 G3 E.
    destruct (block_group w0 w1 w2 w3 H0 H1 H2 H3) as (_ & _ & X & _).
    destruct (block_group v0 v1 v2 v3 G0 G1 G2 G3) as (_ & _ & Y & _). rewrite E in X. congruence.
  Qed.
End Words.

Lemma le8 : forall w, w < 2 ^ 64 -> le_num (le_bytes 8 w) = w.
Proof. intros. rewrite le_num_le_bytes. now apply N.mod_small. Qed.
Lemma be8 : forall w, w < 2 ^ 64 -> be_num (be_bytes 8 w) = w.
Proof. intros. rewrite be_num_be_bytes. now apply N.mod_small. Qed.
Lemma le4 : forall w, w < 2 ^ 32 -> le_num (le_bytes 4 w) = w.
Proof. intros. rewrite le_num_le_bytes. now apply N.mod_small. Qed.
Lemma be4 : forall w, w < 2 ^ 32 -> be_num (be_bytes 4 w) = w.
Proof. intros. rewrite be_num_be_bytes. now apply N.mod_small. Qed.

(** ** C30: for every state two blocks that are absorbed alike *)
Notation top := (2 ^ 64 - 1).
Definition minus (x c : N) : N := (x + 2 ^ 64 - c mod 2 ^ 64) mod 2 ^ 64.
Lemma add_minus : forall x c, x < 2 ^ 64 -> add (minus x c) c = x.
Proof. intros x c X. unfold add, minus. change (2 ^ 64) with 18446744073709551616 in *. lia. Qed.
Lemma add_swap : forall w c, add (add w top) (minus 0 c) = add (add w 0) (minus top c).
Proof.
  intros. unfold add, minus. rewrite ?N.add_mod_idemp_l, !N.add_mod_idemp_r by discriminate. f_equal.
  pose proof (N.mod_lt c (2 ^ 64) ltac:(discriminate)) as L. set (r := c mod 2 ^ 64) in *. clearbody r.
  change (2 ^ 64) with 18446744073709551616 in *. lia.
Qed.
Lemma add_swap0 : forall c, add top (minus 0 c) = add 0 (minus top c).
Proof.
  intros. unfold add, minus. rewrite ?N.add_mod_idemp_l, !N.add_mod_idemp_r by discriminate. f_equal.
  pose proof (N.mod_lt c (2 ^ 64) ltac:(discriminate)) as L. set (r := c mod 2 ^ 64) in *. clearbody r.
  change (2 ^ 64) with 18446744073709551616 in *. lia.
Qed.
Lemma minus_lt : forall x c, minus x c < 2 ^ 64.
Proof. intros. unfold minus. apply N.mod_lt. discriminate. Qed.
Lemma minus_neq : forall c, minus top c <> minus 0 c.
Proof. intros c. unfold minus. change (2 ^ 64) with 18446744073709551616. lia. Qed.

(** the twin blocks: the third word plus d and the fourth plus c are 2^64 - 1
    and 0, or 0 and 2^64 - 1 *)
Definition twin_a (enc : N -> list byte) (w0 w1 c d : N) : list byte :=
  block enc w0 w1 (minus top d) (minus 0 c).
Definition twin_b (enc : N -> list byte) (w0 w1 c d : N) : list byte :=
  block enc w0 w1 (minus 0 d) (minus top c).

Lemma absorb_twins : forall s w0 w1, w0 < 2 ^ 64 -> w1 < 2 ^ 64 ->
  absorb s (twin_a (le_bytes 8) w0 w1 (qc s) (qd s)) = absorb s (twin_b (le_bytes 8) w0 w1 (qc s) (qd s)).
Proof.
  intros s w0 w1 H0 H1. unfold absorb, twin_a, twin_b. cbv zeta beta.
  destruct (block_group 8 (2 ^ 64) le_num (le_bytes 8) (le_bytes_length 8) le8 w0 w1
    (minus top (qd s)) (minus 0 (qc s)) H0 H1 (minus_lt _ _) (minus_lt _ _)) as (-> & -> & -> & ->).
  destruct (block_group 8 (2 ^ 64) le_num (le_bytes 8) (le_bytes_length 8) le8 w0 w1
    (minus 0 (qd s)) (minus top (qc s)) H0 H1 (minus_lt _ _) (minus_lt _ _)) as (-> & -> & -> & ->).
  rewrite !add_minus by reflexivity.
  change (rotr top 56) with top. change (rotr 0 56) with 0. change (rotr top 19) with top. change (rotr 0 19) with 0.
  rewrite !add_swap. reflexivity.
Qed.

Section Twins1.
  Variables (num : list byte -> N) (enc : N -> list byte).
  Hypothesis enc_len : forall w, length (enc w) = 8%nat.
  Hypothesis num_enc : forall w, w < 2 ^ 64 -> num (enc w) = w.
  Lemma absorb1_twins : forall s,
    absorb1 num s (twin_a enc 0 0 (qc s) (qd s)) = absorb1 num s (twin_b enc 0 0 (qc s) (qd s)).
  Proof.
    intros s. unfold absorb1, twin_a, twin_b. cbv zeta beta.
    destruct (block_group 8 (2 ^ 64) num enc enc_len num_enc 0 0
      (minus top (qd s)) (minus 0 (qc s)) eq_refl eq_refl (minus_lt _ _) (minus_lt _ _)) as (-> & -> & -> & ->).
    destruct (block_group 8 (2 ^ 64) num enc enc_len num_enc 0 0
      (minus 0 (qd s)) (minus top (qc s)) eq_refl eq_refl (minus_lt _ _) (minus_lt _ _)) as (-> & -> & -> & ->).
    rewrite !add_minus by reflexivity.
    change (rotr top 17) with top. change (rotr 0 17) with 0.
    change (xor 0 top) with top. change (xor 0 0) with 0.
    rewrite !add_swap0. reflexivity.
  Qed.
  Lemma twins_differ : forall w0 w1 c d, w0 < 2 ^ 64 -> w1 < 2 ^ 64 -> twin_a enc w0 w1 c d <> twin_b enc w0 w1 c d.
  Proof.
    intros w0 w1 c d H0 H1 E.
    apply (block_inj 8 (2 ^ 64) num enc enc_len num_enc) in E; try assumption; try apply minus_lt.
    now apply (minus_neq d).
  Qed.
  Lemma twins_length : forall w0 w1 c d,
    length (twin_a enc w0 w1 c d) = 32%nat /\ length (twin_b enc w0 w1 c d) = 32%nat.
  Proof. intros. split; apply (block_length 8 (2 ^ 64) num enc enc_len num_enc). Qed.
End Twins1.

Notation top32 := (2 ^ 32 - 1).
Definition minus32 (x c : N) : N := (x + 2 ^ 32 - c mod 2 ^ 32) mod 2 ^ 32.
Lemma add_minus32 : forall x c, x < 2 ^ 32 -> add_32 (minus32 x c) c = x.
Proof. intros x c X. unfold add_32, minus32. change (2 ^ 32) with 4294967296 in *. lia. Qed.
Lemma minus32_lt : forall x c, minus32 x c < 2 ^ 32.
Proof. intros. unfold minus32. apply N.mod_lt. discriminate. Qed.
Lemma minus32_neq : forall c, minus32 top32 c <> minus32 0 c.
Proof. intros c. unfold minus32. change (2 ^ 32) with 4294967296. lia. Qed.
Definition twin0_a (enc : N -> list byte) (c d : N) : list byte :=
  block enc 0 (minus32 0 c) (minus32 top32 c) (minus32 0 d).
Definition twin0_b (enc : N -> list byte) (c d : N) : list byte :=
  block enc 0 (minus32 0 c) (minus32 0 c) (minus32 top32 d).

Section Twins0.
  Variables (num : list byte -> N) (enc : N -> list byte).
  Hypothesis enc_len : forall w, length (enc w) = 4%nat.
  Hypothesis num_enc : forall w, w < 2 ^ 32 -> num (enc w) = w.
  Lemma absorb0_twins : forall s,
    absorb0 num s (twin0_a enc (qc s) (qd s)) = absorb0 num s (twin0_b enc (qc s) (qd s)).
  Proof.
    intros s. unfold absorb0, twin0_a, twin0_b. cbv zeta beta.
    destruct (block_group 4 (2 ^ 32) num enc enc_len num_enc 0 (minus32 0 (qc s))
      (minus32 top32 (qc s)) (minus32 0 (qd s)) eq_refl (minus32_lt _ _) (minus32_lt _ _) (minus32_lt _ _)) as (-> & -> & -> & ->).
    destruct (block_group 4 (2 ^ 32) num enc enc_len num_enc 0 (minus32 0 (qc s))
      (minus32 0 (qc s)) (minus32 top32 (qd s)) eq_refl (minus32_lt _ _) (minus32_lt _ _) (minus32_lt _ _)) as (-> & -> & -> & ->).
    rewrite !add_minus32 by reflexivity.
    change (rotr_32 top32 17) with top32. change (rotr_32 0 17) with 0.
    change (rotr_32 top32 11) with top32. change (rotr_32 0 11) with 0.
    change (xor 0 top32) with top32. change (xor 0 0) with 0.
    f_equal.
    - f_equal.
      replace (add_32 (minus32 0 (qc s)) 0) with (minus32 0 (qc s))
        by (unfold add_32, minus32; change (2 ^ 32) with 4294967296; lia).
      replace (add_32 (minus32 0 (qc s)) top32) with (minus32 top32 (qc s))
        by (unfold add_32, minus32; change (2 ^ 32) with 4294967296; lia).
      apply N.lxor_comm.
    - f_equal. unfold add_32, minus32; change (2 ^ 32) with 4294967296; lia.
  Qed.
  Lemma twins0_differ : forall c d, twin0_a enc c d <> twin0_b enc c d.
  Proof.
    intros c d E.
    apply (block_inj 4 (2 ^ 32) num enc enc_len num_enc) in E; try apply minus32_lt; try reflexivity.
    now apply (minus32_neq c).
  Qed.
  Lemma twins0_length : forall c d, length (twin0_a enc c d) = 16%nat /\ length (twin0_b enc c d) = 16%nat.
  Proof. intros. split; apply (block_length 4 (2 ^ 32) num enc enc_len num_enc). Qed.
End Twins0.
