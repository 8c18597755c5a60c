(** One fixed pair of keys that collides under t1ha2_atonce for more than a
    fifth of all seeds; one fixed pair that collides under t1ha1 for all seeds;
    and for the AES hash without AVX2 a partner for every key of 128 bytes or
    more that collides with it for all seeds. *)
From Coq Require Import ZArith NArith Arith List Bool Lia Strings.Byte.
From Coq Require Import ZifyN ZifyNat ZifyBool.
From Verif Require Import Bytes Spec AesSpec NBits CSemFacts OpsFacts StreamFacts AesFacts Ia32aesFacts Inject Collide.
Import ListNotations.
Ltac Zify.zify_post_hook ::= Z.div_mod_to_equations.
Local Open Scope N_scope.

(** ** t1ha2 *)
Definition pair_a : list byte := block (le_bytes 8) 0 0 41 18446656112778979328.
Definition pair_b : list byte := block (le_bytes 8) 0 0 12309844848406080895 3072867451446055253.

Notation H31 := 29323174784342.
Notation U31 := 1706.
(** the seed for t < 85, u < U31, h < H31 *)
Definition seed31 (t u h : N) : N := (35184372088831 - h) * 524288 + 2048 * t + 342 + u.
(** the same from one number below 85 * U31 * H31 *)
Definition weak_seed (i : N) : N := seed31 (i / H31 / U31) (i / H31 mod U31) (i mod H31).
Definition weak_seeds : N := 85 * U31 * H31.

Lemma weak_seed_parts : forall i, i < weak_seeds ->
  i / H31 / U31 < 85 /\ i / H31 mod U31 < U31 /\ i mod H31 < H31.
Proof. intros i I. unfold weak_seeds in I. lia. Qed.
Lemma weak_seed_lt : forall i, i < weak_seeds -> weak_seed i < 2 ^ 64.
Proof.
  intros i I. destruct (weak_seed_parts i I) as (A & B & C). unfold weak_seed, seed31.
  change (2 ^ 64) with 18446744073709551616. lia.
Qed.
Lemma seed31_inj : forall t u h t' u' h', t < 85 -> u < U31 -> h < H31 -> t' < 85 -> u' < U31 -> h' < H31 ->
  seed31 t u h = seed31 t' u' h' -> t = t' /\ u = u' /\ h = h'.
Proof. intros. unfold seed31 in *. lia. Qed.
Lemma weak_seed_inj : forall i j, i < weak_seeds -> j < weak_seeds -> weak_seed i = weak_seed j -> i = j.
Proof.
  intros i j I J E. destruct (weak_seed_parts i I) as (A & B & C), (weak_seed_parts j J) as (A' & B' & C').
  unfold weak_seed in E. apply seed31_inj in E; try assumption. destruct E as (E1 & E2 & E3).
  assert (F : i / H31 = j / H31).
  { rewrite (N.div_mod (i / H31) U31), (N.div_mod (j / H31) U31) by discriminate. congruence. }
  rewrite (N.div_mod i H31), (N.div_mod j H31) by discriminate. congruence.
Qed.
Lemma weak_seeds_many : 2 ^ 64 < 5 * weak_seeds.
Proof. reflexivity. Qed.

Lemma div_is : forall a b q r, r < b -> a = b * q + r -> a / b = q /\ a mod b = r.
Proof. intros a b q r R E. exact (divmod_is a b q r R E). Qed.

Lemma weak_q : forall t u h, t < 85 -> u < U31 -> h < H31 ->
  add 41 (qd (start (seed31 t u h) 40)) = t * 2 ^ 56 + (342 + u) * 2 ^ 45 + (35184372088831 - h) /\
  add 12309844848406080895 (qd (start (seed31 t u h) 40))
  = (t + 171) * 2 ^ 56 + ((342 + u) * 2 ^ 45 + (35184372088831 - h) + 60053861958331734 - 2 ^ 56).
Proof.
  intros t u h T U H. unfold start. cbn [qd].
  set (x := 35184372088831 - h). assert (X : x <= 35184372088831) by lia.
  assert (R : rotr (seed31 t u h) 19 = x + (2048 * t + 342 + u) * 2 ^ 45).
  { unfold rotr. change (64 - 19) with 45.
    assert (S : seed31 t u h = 2 ^ 19 * x + (2048 * t + 342 + u)).
    { unfold seed31. fold x. change (2 ^ 19) with 524288. lia. }
    rewrite (N.mod_small (seed31 t u h)).
    2: { rewrite S. change (2 ^ 19) with 524288. change (2 ^ 64) with 18446744073709551616. lia. }
    destruct (div_is (seed31 t u h) (2 ^ 19) x (2048 * t + 342 + u)) as [-> ->];
      [change (2 ^ 19) with 524288; lia|exact S|reflexivity]. }
  rewrite R. change (compl 40) with 18446744073709551575. unfold add.
  change (2 ^ 64) with 18446744073709551616. change (2 ^ 45) with 35184372088832.
  change (2 ^ 56) with 72057594037927936. clearbody x. lia.
Qed.
Lemma weak_p : forall t u h, t < 85 -> u < U31 -> h < H31 ->
  add 18446656112778979328 (qc (start (seed31 t u h) 40)) = h * 2 ^ 19 + (174079 - (2048 * t + 342 + u)) /\
  add 3072867451446055253 (qc (start (seed31 t u h) 40))
  = (h + 5861197304490) * 2 ^ 19 + (174079 - (2048 * t + 342 + u) + 174421).
Proof.
  intros t u h T U H. unfold start. cbn [qc]. change (rotr 40 23) with 87960930222080.
  assert (S : seed31 t u h < 2 ^ 64) by (unfold seed31; change (2 ^ 64) with 18446744073709551616; lia).
  unfold compl. rewrite (N.mod_small _ _ S). unfold add, seed31 in *.
  change (2 ^ 64) with 18446744073709551616 in *. change (2 ^ 19) with 524288. lia.
Qed.

Lemma rotr_parts : forall x y s, s <= 64 -> x < 2 ^ (64 - s) -> y < 2 ^ s -> rotr (x * 2 ^ s + y) s = x + y * 2 ^ (64 - s).
Proof.
  intros x y s S X Y. unfold rotr.
  assert (E : x * 2 ^ s + y < 2 ^ 64).
  { replace (2 ^ 64) with (2 ^ (64 - s) * 2 ^ s) by (rewrite <- N.pow_add_r; f_equal; lia). nia. }
  rewrite (N.mod_small _ _ E).
  destruct (div_is (x * 2 ^ s + y) (2 ^ s) x y) as [-> ->]; [assumption|lia|reflexivity].
Qed.

Lemma weak_absorb : forall i, i < weak_seeds ->
  absorb (start (weak_seed i) 40) pair_a = absorb (start (weak_seed i) 40) pair_b.
Proof.
  intros i I. destruct (weak_seed_parts i I) as (T & U & H). unfold weak_seed.
  set (t := i / H31 / U31) in *. set (u := i / H31 mod U31) in *. set (h := i mod H31) in *. clearbody t u h.
  destruct (weak_q t u h T U H) as [Q1 Q2]. destruct (weak_p t u h T U H) as [P1' P2'].
  set (s := start (seed31 t u h) 40) in *. clearbody s.
  unfold absorb, pair_a, pair_b. cbv zeta beta.
  destruct (block_group 8 (2 ^ 64) le_num (le_bytes 8) (le_bytes_length 8) le8 0 0 41 18446656112778979328
    eq_refl eq_refl eq_refl eq_refl) as (-> & -> & -> & ->).
  destruct (block_group 8 (2 ^ 64) le_num (le_bytes 8) (le_bytes_length 8) le8 0 0 12309844848406080895 3072867451446055253
    eq_refl eq_refl eq_refl eq_refl) as (-> & -> & -> & ->).
  rewrite Q1, Q2, P1', P2'. rewrite <- !N.add_assoc. rewrite !rotr_parts; try discriminate;
    change (2 ^ (64 - 56)) with 256; change (2 ^ (64 - 19)) with 35184372088832;
    change (2 ^ 56) with 72057594037927936; change (2 ^ 19) with 524288; change (2 ^ 45) with 35184372088832; try lia.
  f_equal; do 2 f_equal; unfold add; change (2 ^ 64) with 18446744073709551616; lia.
Qed.

Lemma pair_differ : pair_a <> pair_b.
Proof. intro E. apply (f_equal (fun l => nth 16 l x00)) in E. vm_compute in E. discriminate. Qed.

Lemma weak_pair : forall suf i, length suf = 8%nat -> i < weak_seeds ->
  t1ha2_64 (pair_a ++ suf) (weak_seed i) = t1ha2_64 (pair_b ++ suf) (weak_seed i) /\
  t1ha2_128 (pair_a ++ suf) (weak_seed i) = t1ha2_128 (pair_b ++ suf) (weak_seed i).
Proof.
  intros suf i L I.
  assert (M : mlen ([] ++ pair_a ++ suf) = 40) by (unfold mlen; rewrite !app_length, L; reflexivity).
  apply (t1ha2_mid [] pair_a pair_b suf eq_refl eq_refl eq_refl).
  - rewrite M. reflexivity.
  - rewrite M. now apply weak_absorb.
Qed.

(** ** t1ha1 *)
Definition eq_a : N := 8762197984402348878.
Definition eq_b : N := 15098453514848999331.
Lemma t1ha1_pair : forall seed,
  t1ha1_64 le_num (le_bytes 8 eq_a) seed = t1ha1_64 le_num (le_bytes 8 eq_b) seed /\
  t1ha1_64 be_num (be_bytes 8 eq_a) seed = t1ha1_64 be_num (be_bytes 8 eq_b) seed.
Proof.
  intro seed.
  assert (E : fold_xor eq_a P1 = fold_xor eq_b P1) by (vm_compute; reflexivity).
  assert (F : forall num l w, length l = 8%nat -> num l = w ->
    t1ha1_64 num l seed = t1ha1_finish (add seed (fold_xor w P1), 8)).
  { intros num l w L W. unfold t1ha1_64. replace (mlen l) with 8 by (unfold mlen; now rewrite L).
    change (8 <=? 32) with true. cbv iota. rewrite groups_short by lia. cbn [map]. rewrite W. reflexivity. }
  rewrite (F le_num (le_bytes 8 eq_a) eq_a), (F le_num (le_bytes 8 eq_b) eq_b) by reflexivity.
  rewrite (F be_num (be_bytes 8 eq_a) eq_a), (F be_num (be_bytes 8 eq_b) eq_b) by reflexivity.
  rewrite E. split; reflexivity.
Qed.

(** ** The AES hash without AVX2 *)
Lemma firstn_app_exact : forall A n (l r : list A), length l = n -> firstn n (l ++ r) = l.
Proof.
  intros A n l r L. rewrite firstn_app, L, Nat.sub_diag, firstn_O, app_nil_r. apply firstn_all2. lia.
Qed.
Lemma skipn_app_exact : forall A n (l r : list A), length l = n -> skipn n (l ++ r) = r.
Proof. intros A n l r L. rewrite skipn_app, L, Nat.sub_diag, skipn_all2 by lia. reflexivity. Qed.
Lemma word_of_bytes_of : forall w, ok2 w -> word_of (bytes_of w) = w.
Proof.
  intros [a b] [A B]. unfold word_of, bytes_of. cbn [fst snd] in *.
  rewrite (firstn_app_exact _ 8 _ _ (le_bytes_length 8 a)), (skipn_app_exact _ 8 _ _ (le_bytes_length 8 a)).
  now rewrite !le8.
Qed.
Definition vec_block (v : nat -> word128) : list byte := concat (map (fun i => bytes_of (v i)) (seq 0 8)).
Lemma vec_block_length : forall v, length (vec_block v) = 128%nat.
Proof.
  intro v. unfold vec_block. cbn [seq map concat]. rewrite !app_length, !bytes_of_length. reflexivity.
Qed.
Lemma vec_block_wd : forall v i, (i < 8)%nat -> ok2 (v i) -> wd (vec_block v) i = v i.
Proof.
  intros v i I O. unfold wd. replace (group 16 i (vec_block v)) with (bytes_of (v i)); [now apply word_of_bytes_of|].
  unfold vec_block. cbn [seq map concat].
  do 8 (destruct i as [|i]; [repeat (rewrite (group_S_app 16) by apply bytes_of_length);
    now rewrite (group_0_app 16) by apply bytes_of_length|]). lia.
Qed.

Ltac xor2_solve :=
  unfold xor2, xor; cbn [fst snd]; f_equal; apply N.bits_inj; intro; rewrite !N.lxor_spec;
  repeat match goal with |- context [N.testbit ?a ?b] => destruct (N.testbit a b) end; reflexivity.

(** the round without its key *)
Definition enc0 (s : word128) : word128 := word_of (round [2; 3; 1; 1] (enc_cell (bytes_of s))).
Definition dec0 (s : word128) : word128 := word_of (round [14; 11; 13; 9] (dec_cell (bytes_of s))).
Lemma enc_enc0 : forall s k, enc s k = xor2 (enc0 s) k. Proof. reflexivity. Qed.
Lemma dec_dec0 : forall s k, dec s k = xor2 (dec0 s) k. Proof. reflexivity. Qed.

(** The partner of block [l]: any other fifth vector, and the change that it
    makes compensated in the sixth and the second. *)
Definition partner (l : list byte) (v4 : word128) : list byte :=
  let delta := xor2 (enc0 (wd l 4)) (enc0 v4) in
  vec_block (fun i => match i with
    | 1%nat => xor2 (wd l 1) delta
    | 4%nat => v4
    | 5%nat => xor2 (wd l 5) delta
    | _ => wd l i
    end).

Lemma enc0_ok2 : forall s, ok2 (enc0 s).
Proof. intro s. unfold enc0. apply word_of_ok2. apply round_length. Qed.

Lemma partner_absorb : forall l v4, length l = 128%nat -> ok2 v4 ->
  forall s, aes_a_absorb s l = aes_a_absorb s (partner l v4).
Proof.
  intros l v4 L V [x y]. unfold partner.
  set (delta := xor2 (enc0 (wd l 4)) (enc0 v4)).
  assert (O : forall i, (i < 8)%nat -> ok2 (wd l i)) by (intros; apply wd_ok2; lia).
  assert (OD : ok2 delta) by (apply xor2_ok2; apply enc0_ok2).
  unfold aes_a_absorb. cbv zeta.
  rewrite !vec_block_wd by (try lia; try apply xor2_ok2; auto with arith).
  cbv iota. rewrite !dec_dec0, !(enc_enc0 (wd l 4)), !(enc_enc0 v4).
  assert (E1 : xor2 (enc0 v4) (xor2 (wd l 5) delta) = xor2 (enc0 (wd l 4)) (wd l 5)).
  { unfold delta. xor2_solve. }
  rewrite E1.
  assert (E2 : forall d, xor2 (xor2 d (xor2 (wd l 1) delta)) (xor2 (wd l 5) delta) = xor2 (xor2 d (wd l 1)) (wd l 5)).
  { intro d. xor2_solve. }
  rewrite E2. reflexivity.
Qed.

Lemma partner_length : forall l v4, length (partner l v4) = 128%nat.
Proof. intros. apply vec_block_length. Qed.
Lemma partner_wd4 : forall l v4, length l = 128%nat -> ok2 v4 -> wd (partner l v4) 4 = v4.
Proof. intros l v4 L V. unfold partner. cbv zeta. now rewrite vec_block_wd by (exact V || lia). Qed.
Lemma partner_inj : forall l v w, length l = 128%nat -> ok2 v -> ok2 w -> partner l v = partner l w -> v = w.
Proof. intros l v w L V W E. apply (f_equal (fun b => wd b 4)) in E. now rewrite !partner_wd4 in E. Qed.
