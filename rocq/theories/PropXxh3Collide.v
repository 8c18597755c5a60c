(** C71: what XXH3 does not tell apart. *)
From Coq Require Import ZArith NArith Arith List Bool Lia Strings.Byte.
From Coq Require Import ZifyN ZifyNat ZifyBool.
From Verif Require Import Bytes CSem Spec NBits CSemFacts OpsFacts CtxMem StreamFacts Inject Onto Demo Xxhash XxhashSpec PropXxhash2 Xxh3 Xxh3Spec Xxh3Facts
  Xxh3Secret Xxh3Stream PropXxh3 PropXxh3Inject.
Import ListNotations.
Ltac Zify.zify_post_hook ::= Z.div_mod_to_equations.
Local Open Scope N_scope.

(** ** Words of a message *)
Lemma mlen_le : forall k x, mlen (le_bytes k x) = N.of_nat k.
Proof. intros. unfold mlen. now rewrite le_bytes_length. Qed.
Lemma w8_in : forall a w b i, mlen w = 8 -> i = mlen a -> w8 (a ++ w ++ b) i = le_num w.
Proof.
  intros a w b i L ->. rewrite <- (N.add_0_r (mlen a)), w8_mid by lia. unfold w8, word_at. change (N.to_nat 0) with 0%nat. cbn [skipn].
  rewrite firstn_all2; [reflexivity|]. unfold mlen in L. lia.
Qed.
Lemma w8_num : forall a x b i, x < 2 ^ 64 -> i = mlen a -> w8 (a ++ le_bytes 8 x ++ b) i = x.
Proof.
  intros a x b i X I. rewrite w8_in; [|apply mlen_le|exact I]. rewrite le_num_le_bytes. now apply N.mod_small.
Qed.
Lemma le_bytes_inj : forall x y, x < 2 ^ 64 -> y < 2 ^ 64 -> le_bytes 8 x = le_bytes 8 y -> x = y.
Proof.
  intros x y X Y E. apply (f_equal le_num) in E. rewrite !le_num_le_bytes in E. change (256 ^ N.of_nat 8) with (2 ^ 64) in E.
  now rewrite !N.mod_small in E.
Qed.
Lemma xor_same : forall x, xor x x = 0. Proof. intro. apply N.lxor_nilpotent. Qed.
Lemma xor_twice : forall x y, xor (xor x y) y = x.
Proof. intros. unfold xor. now rewrite N.lxor_assoc, N.lxor_nilpotent, N.lxor_0_r. Qed.
Lemma turn_turn : forall v, v < 2 ^ 64 -> turn_64 (turn_64 v) = v.
Proof.
  intros v V. unfold turn_64, be_num. pose proof (le_bytes_le_num (rev (le_bytes 8 v))) as E. rewrite rev_length, le_bytes_length in E.
  rewrite E, rev_involutive, le_num_le_bytes. now apply N.mod_small.
Qed.

Lemma mulfold_0 : forall y, mulfold 0 y = 0.
Proof. intro y. unfold mulfold, lo, hi. change (0 mod 2 ^ 64) with 0. rewrite N.mul_0_l. reflexivity. Qed.
Lemma mulfold_r0 : forall x, mulfold x 0 = 0.
Proof. intro x. unfold mulfold, lo, hi. rewrite N.mul_0_r. reflexivity. Qed.

(** ** 16 bytes *)
(** For each secret and seed, and each number, two messages: one word cancels the secret
    and the other is the number, or the other way round with the number's bytes reversed. *)
Definition key_a (sec : list byte) (seed : N) : N := add (xor (w8 sec 24) (w8 sec 32)) seed.
Definition key_b (sec : list byte) (seed : N) : N := sub (xor (w8 sec 40) (w8 sec 48)) seed.
Theorem C71_sixteen : forall sec lsec seed v, v < 2 ^ 64 -> v <> 0 ->
  let a := le_bytes 8 (key_a sec seed) ++ le_bytes 8 (xor v (key_b sec seed)) in
  let b := le_bytes 8 (xor (turn_64 v) (key_a sec seed)) ++ le_bytes 8 (key_b sec seed) in
  a <> b /\ xxh3_64 sec lsec seed a = xxh3_64 sec lsec seed b.
Proof.
  intros sec lsec seed v V V0 a b. assert (KA : key_a sec seed < 2 ^ 64) by apply add_lt64. assert (KB : key_b sec seed < 2 ^ 64) by apply sub_lt64.
  assert (XA : xor v (key_b sec seed) < 2 ^ 64) by now apply xor_lt64.
  assert (XB : xor (turn_64 v) (key_a sec seed) < 2 ^ 64) by (apply xor_lt64; [apply turn_64_lt|exact KA]).
  split.
  - intro E. unfold a, b in E. apply (f_equal (fun l => skipn 8 l)) in E.
    rewrite !skipn_app, !le_bytes_length, !skipn_all2 in E by (rewrite le_bytes_length; lia). cbn [Nat.sub skipn app] in E.
    apply le_bytes_inj in E; auto. apply V0. rewrite <- (xor_twice v (key_b sec seed)), E. apply xor_same.
  - assert (G : forall x y, x < 2 ^ 64 -> y < 2 ^ 64 -> xxh3_64 sec lsec seed (le_bytes 8 x ++ le_bytes 8 y) =
      let p := xor x (key_a sec seed) in let q := xor y (key_b sec seed) in finish (add (add (add 16 (turn_64 p)) q) (mulfold p q))).
    { intros x y X Y. unfold xxh3_64, short_64. cbv zeta. assert (L : mlen (le_bytes 8 x ++ le_bytes 8 y) = 16) by (rewrite mlen_app, !mlen_le; reflexivity).
      rewrite L. cbn [N.leb N.ltb N.eqb N.compare Pos.compare Pos.compare_cont]. change (16 - 8) with 8.
      pose proof (w8_num [] x (le_bytes 8 y) 0 X eq_refl) as E1. pose proof (w8_num (le_bytes 8 x) y [] 8 Y) as E2. cbn [app] in E1. rewrite app_nil_r in E2.
      rewrite E1, E2 by now rewrite mlen_le. reflexivity. }
    unfold a, b. rewrite !G by assumption. cbv zeta. rewrite !xor_same, !xor_twice.
    rewrite turn_turn by exact V. rewrite mulfold_0, mulfold_r0. change (turn_64 0) with 0. f_equal. unfold add.
    change (2 ^ 64) with 18446744073709551616 in *. clear - V. lia.
Qed.
Print Assumptions C71_sixteen.

(** ** 17 to 240 bytes *)
Lemma fold_same : forall A B (f g : A -> B -> A) l a, (forall a i, In i l -> f a i = g a i) -> fold_left f l a = fold_left g l a.
Proof.
  induction l as [|i l IH]; intros a H; [reflexivity|]. cbn [fold_left]. rewrite H by now left. apply IH. intros. apply H. now right.
Qed.
Lemma in_below : forall n i, In i (below_n n) -> i < n.
Proof. intros n i H. unfold below_n in H. apply in_map_iff in H. destruct H as (k & <- & K). apply in_seq in K. lia. Qed.
Lemma below_split : forall n, n <> 0 -> exists l, below_n n = 0 :: l /\ forall i, In i l -> 1 <= i < n.
Proof.
  intros n Z. exists (map N.of_nat (seq 1 (N.to_nat n - 1))). split.
  - unfold below_n. replace (N.to_nat n) with (S (N.to_nat n - 1)) at 1 by lia. reflexivity.
  - intros i H. apply in_map_iff in H. destruct H as (k & <- & K). apply in_seq in K. lia.
Qed.
(** the words after the first 16 bytes *)
Lemma w8_tail : forall a b l j, mlen a = 16 -> mlen b = 16 -> 16 <= j -> j + 8 <= 16 + mlen l -> w8 (a ++ l) j = w8 (b ++ l) j.
Proof.
  intros a b l j A B J K. rewrite <- (app_nil_r l). replace j with (mlen a + (j - 16)) at 1 by lia. rewrite w8_mid by lia.
  replace j with (mlen b + (j - 16)) at 2 by lia. now rewrite w8_mid by lia.
Qed.
(** Where eight bytes cancel the secret, the next eight are ignored: 2^64 messages have the
    same hash. *)
Theorem C71_ignored : forall sec lsec seed h h' l, mlen h = 8 -> mlen h' = 8 -> (mlen l = 16 \/ 32 <= mlen l <= 224) ->
  let cancel := le_bytes 8 (add (w8 sec 0) seed) in
  xxh3_64 sec lsec seed (cancel ++ h ++ l) = xxh3_64 sec lsec seed (cancel ++ h' ++ l).
Proof.
  intros sec lsec seed h h' l H H' L cancel. set (a := cancel ++ h). set (b := cancel ++ h').
  assert (CL : mlen cancel = 8) by apply mlen_le.
  assert (A : mlen a = 16) by (unfold a; rewrite mlen_app; lia). assert (B : mlen b = 16) by (unfold b; rewrite mlen_app; lia).
  rewrite !app_assoc. fold a b. assert (LA : mlen (a ++ l) = 16 + mlen l) by (rewrite mlen_app; lia).
  assert (LB : mlen (b ++ l) = 16 + mlen l) by (rewrite mlen_app; lia).
  assert (Z : forall x acc, mlen x = 8 -> plus16 sec 0 seed ((cancel ++ x) ++ l) 0 acc = add acc 0).
  { intros x acc X. unfold plus16, mix16. rewrite <- app_assoc. pose proof (w8_num [] (add (w8 sec 0) seed) (x ++ l) 0 (add_lt64 _ _) eq_refl) as E.
    cbn [app] in E. fold cancel in E. rewrite E, xor_same, mulfold_0. reflexivity. }
  assert (S : forall i j acc, 16 <= j -> j + 16 <= 16 + mlen l -> plus16 sec i seed (a ++ l) j acc = plus16 sec i seed (b ++ l) j acc).
  { intros i j acc J K. unfold plus16, mix16. rewrite (w8_tail a b l j), (w8_tail a b l (j + 8)) by lia. reflexivity. }
  unfold xxh3_64. cbv zeta. rewrite LA, LB. replace (16 + mlen l <=? 16) with false by lia.
  destruct (N.leb_spec (16 + mlen l) 128) as [C|C].
  - unfold mid_64. cbv zeta. rewrite LA, LB. f_equal.
    destruct (below_split ((16 + mlen l - 1) / 32 + 1)) as (r & -> & R); [lia|]. cbn [rev]. rewrite !fold_left_app. cbn [fold_left].
    change (32 * 0) with 0. change (0 + 16) with 16. change (16 * 0) with 0. change (16 * (0 + 1)) with 16.
    rewrite (S 16 (16 + mlen l - 16)) by lia. f_equal. unfold a at 1, b at 1. rewrite !Z by assumption. f_equal.
    apply fold_same. intros acc i I. apply in_rev, R in I. rewrite S by lia. f_equal. apply S; lia.
  - replace (16 + mlen l <=? 240) with true by lia. unfold mid2_64. cbv zeta. rewrite LA, LB. f_equal.
    rewrite S by lia. f_equal. rewrite (fold_same _ _ _ (fun acc i => plus16 sec (16 * i + 3) seed (b ++ l) (16 * (i + 8)) acc)).
    + f_equal. f_equal. destruct (below_split 8) as (r & -> & R); [lia|]. cbn [fold_left]. change (16 * 0) with 0. unfold a at 2, b at 2. rewrite !Z by assumption.
      apply fold_same. intros acc i I. apply R in I. apply S; lia.
    + intros acc i I. apply in_below in I. apply S; lia.
Qed.
Print Assumptions C71_ignored.

(** ** 128 bits *)
(** "The 128-bit variant (which trades some speed for strength) is NOT affected by this"
    (tests/xxhash/xxh3.h:801-803).  It is: where two words cancel the secret at both ends of the
    message, the words beside them are only added, and their uppermost bits cancel each other. *)
Lemma xor_top : forall z, z < 2 ^ 64 -> xor z (2 ^ 63) = add z (2 ^ 63).
Proof.
  assert (G : forall r, r < 2 ^ 63 -> xor r (2 ^ 63) = r + 2 ^ 63).
  { intros r R. pose proof (lor_low_high 63 r 1 R) as E. rewrite N.mul_1_l in E. rewrite <- E. unfold xor. pose proof (land_low_high 63 r 1 R) as F. rewrite N.mul_1_l in F.
    apply N.bits_inj. intro i. pose proof (f_equal (fun w => N.testbit w i) F) as FB. cbn beta in FB. rewrite N.land_spec, N.bits_0 in FB.
    rewrite N.lxor_spec, N.lor_spec. destruct (N.testbit r i), (N.testbit (2 ^ 63) i); try reflexivity; discriminate FB. }
  intros z Z. unfold add. destruct (N.lt_ge_cases z (2 ^ 63)) as [L|L].
  - rewrite (G z L). symmetry. apply N.mod_small. change (2 ^ 64) with 18446744073709551616. change (2 ^ 63) with 9223372036854775808 in *. lia.
  - assert (R : z - 2 ^ 63 < 2 ^ 63) by (change (2 ^ 64) with 18446744073709551616 in *; change (2 ^ 63) with 9223372036854775808 in *; lia).
    replace z with (xor (z - 2 ^ 63) (2 ^ 63)) at 1 by (rewrite (G _ R); lia). rewrite xor_twice.
    change (2 ^ 64) with 18446744073709551616 in *. change (2 ^ 63) with 9223372036854775808 in *. lia.
Qed.
Lemma top_twice : forall x y, add (add x (2 ^ 63)) (add y (2 ^ 63)) = add x y.
Proof. intros x y. unfold add. change (2 ^ 64) with 18446744073709551616. change (2 ^ 63) with 9223372036854775808. lia. Qed.
Lemma top_over : forall x y, add x (add y (2 ^ 63)) = add (add x y) (2 ^ 63).
Proof. intros x y. unfold add. change (2 ^ 64) with 18446744073709551616. change (2 ^ 63) with 9223372036854775808. lia. Qed.
Lemma top_times : forall x p, N.odd p = true -> mulw (add x (2 ^ 63)) p = add (mulw x p) (2 ^ 63).
Proof.
  intros x p O. apply N.odd_spec in O. destruct O as (k & ->). unfold mulw, add. rewrite N.mul_mod_idemp_l, N.add_mod_idemp_l by discriminate.
  replace ((x + 2 ^ 63) * (2 * k + 1)) with (x * (2 * k + 1) + 2 ^ 63 + k * 2 ^ 64) by (change (2 ^ 64) with (2 * 2 ^ 63); ring).
  now rewrite N.mod_add by discriminate.
Qed.
Lemma finish_top : forall len seed x y, finish_128 len seed (add x (2 ^ 63), add y (2 ^ 63)) = finish_128 len seed (x, y).
Proof. intros len seed x y. unfold finish_128. cbn [fst snd]. rewrite !top_times by reflexivity. now rewrite !top_twice. Qed.
Lemma flip_lt : forall h, h < 2 ^ 64 -> xor h (2 ^ 63) < 2 ^ 64.
Proof. intros h H. now apply xor_lt64. Qed.
Lemma flip_over : forall a c h, a < 2 ^ 64 -> h < 2 ^ 64 -> xor a (add c (xor h (2 ^ 63))) = add (xor a (add c h)) (2 ^ 63).
Proof.
  intros a c h A H. rewrite xor_top by exact H. rewrite top_over, <- xor_top by apply add_lt64. unfold xor at 1. unfold xor at 1. rewrite <- N.lxor_assoc. apply xor_top.
  apply xor_lt64; [exact A|apply add_lt64].
Qed.
Definition end_msg (sec : list byte) (seed : N) (mid : list byte) (x y : N) : list byte :=
  le_bytes 8 (add (w8 sec 0) seed) ++ le_bytes 8 x ++ mid ++ le_bytes 8 (add (w8 sec 16) seed) ++ le_bytes 8 y.
Theorem C71_ends_128 : forall sec lsec seed x y mid, x < 2 ^ 64 -> y < 2 ^ 64 -> (mid = [] \/ 16 <= mlen mid <= 96) ->
  let a := end_msg sec seed mid x y in
  let b := end_msg sec seed mid (xor x (2 ^ 63)) (xor y (2 ^ 63)) in
  a <> b /\ xxh3_128 sec lsec seed a = xxh3_128 sec lsec seed b.
Proof.
  intros sec lsec seed x y mid X Y L a b.
  set (c := add (w8 sec 0) seed). set (d := add (w8 sec 16) seed).
  assert (C : c < 2 ^ 64) by apply add_lt64. assert (D : d < 2 ^ 64) by apply add_lt64.
  assert (LM : mlen mid = 0 \/ 16 <= mlen mid <= 96) by (destruct L as [->|L]; [now left|now right]). clear L.
  assert (W : forall x y, x < 2 ^ 64 -> y < 2 ^ 64 -> let l := end_msg sec seed mid x y in
    mlen l = 32 + mlen mid /\ w8 l 0 = c /\ w8 l 8 = x /\ w8 l (16 + mlen mid) = d /\ w8 l (16 + mlen mid + 8) = y).
  { clear x y X Y a b. intros x y X Y. cbv zeta. unfold end_msg. fold c d.
    split; [rewrite !mlen_app, !mlen_le; lia|].
    split; [exact (w8_num [] c (le_bytes 8 x ++ mid ++ le_bytes 8 d ++ le_bytes 8 y) 0 C eq_refl)|].
    split; [apply (w8_num (le_bytes 8 c) x (mid ++ le_bytes 8 d ++ le_bytes 8 y)); [exact X|now rewrite mlen_le]|].
    rewrite (app_assoc (le_bytes 8 x)), (app_assoc (le_bytes 8 c)).
    split; [apply w8_num; [exact D|rewrite !mlen_app, !mlen_le; lia]|].
    rewrite (app_assoc _ (le_bytes 8 d)). rewrite <- (app_nil_r (le_bytes 8 y)). apply w8_num; [exact Y|rewrite !mlen_app, !mlen_le; lia]. }
  assert (I : forall x y j, 16 <= j -> j + 8 <= 16 + mlen mid -> w8 (end_msg sec seed mid x y) j = w8 mid (j - 16)).
  { clear - c d. intros x y j J K. unfold end_msg. fold c d. rewrite (app_assoc (le_bytes 8 c)).
    replace j with (mlen (le_bytes 8 c ++ le_bytes 8 x) + (j - 16)) at 1 by (rewrite mlen_app, !mlen_le; lia). apply w8_mid. lia. }
  destruct (W x y X Y) as (LA & A0 & A8 & A16 & A24). fold a in LA, A0, A8, A16, A24.
  destruct (W _ _ (flip_lt x X) (flip_lt y Y)) as (LB & B0 & B8 & B16 & B24). fold b in LB, B0, B8, B16, B24. clear W.
  split.
  - intro E. rewrite E, B8 in A8. rewrite (xor_top x X) in A8. unfold add in A8. change (2 ^ 64) with 18446744073709551616 in *. change (2 ^ 63) with 9223372036854775808 in *. clear - A8 X. lia.
  - unfold xxh3_128. cbv zeta. rewrite LA, LB. replace (32 + mlen mid <=? 16) with false by lia. replace (32 + mlen mid <=? 128) with true by lia.
    unfold mid_128. cbv zeta. rewrite LA, LB.
    destruct (below_split ((32 + mlen mid - 1) / 32 + 1)) as (r & -> & R); [lia|]. cbn [rev]. rewrite !fold_left_app. cbn [fold_left].
    change (32 * 0) with 0. change (0 + 16) with 16. change (16 * 0) with 0. change (16 * (0 + 1)) with 16.
    set (f := fold_left _ (rev r) _). set (g := fold_left _ (rev r) _).
    assert (FG : f = g).
    { apply fold_same. intros acc i IN. apply in_rev, R in IN. unfold plus32, plus16, mix16. unfold a, b. rewrite !I by lia. reflexivity. }
    assert (FL : fst f < 2 ^ 64 /\ snd f < 2 ^ 64).
    { unfold f. assert (P : forall l acc, fst acc < 2 ^ 64 /\ snd acc < 2 ^ 64 ->
        let v := fold_left (fun acc i => plus32 sec (32 * i) seed a (16 * i) (32 + mlen mid - 16 * (i + 1)) acc) l acc in fst v < 2 ^ 64 /\ snd v < 2 ^ 64).
      { clear. induction l as [|i l IH]; intros acc H; [exact H|]. cbn [fold_left]. apply IH. split; apply xor_lt64; apply add_lt64. }
      apply P. split; [apply mulw_lt64|reflexivity]. }
    rewrite <- FG. clearbody f. clear g FG. unfold plus32, plus16, mix16. replace (32 + mlen mid - 16) with (16 + mlen mid) by lia.
    change (0 + 8) with 8. change (16 + 8) with 24. rewrite A0, A8, A16, A24, B0, B8, B16, B24. change (0 + 16) with 16. fold c d. rewrite !xor_same, !mulfold_0.
    rewrite !flip_over by (apply add_lt64 || assumption). symmetry. apply finish_top.
Qed.
Print Assumptions C71_ends_128.

(** ** More than 240 bytes *)
(** Where the lower halves of two words, at the same place of two stripes, cancel the secret, the upper halves are
    only added up: 2^32 messages have the same hash, of 64 and of 128 bits. *)
Definition long_msg (lsec mid rest : list byte) (x y : N) : list byte :=
  le_bytes 8 (w8 lsec 0 mod 2 ^ 32 + 2 ^ 32 * x) ++ mid ++ le_bytes 8 (w8 lsec 8 mod 2 ^ 32 + 2 ^ 32 * y) ++ rest.
Lemma lane_of : forall f k, k < 8 -> lane (each f) k = f k.
Proof.
  intros f k K. assert (C : k = 0 \/ k = 1 \/ k = 2 \/ k = 3 \/ k = 4 \/ k = 5 \/ k = 6 \/ k = 7) by lia.
  destruct C as [->|[->|[->|[->|[->|[->|[->| ->]]]]]]]; reflexivity.
Qed.
Lemma halves_0 : forall s x, xor (s mod 2 ^ 32 + 2 ^ 32 * x) s mod 2 ^ 32 = 0.
Proof.
  intros s x. unfold xor. rewrite lxor_mod_pow2. rewrite (N.mul_comm (2 ^ 32)), N.mod_add, N.mod_mod by discriminate. apply N.lxor_nilpotent.
Qed.
Lemma halves_cancel : forall s x, halves (xor (s mod 2 ^ 32 + 2 ^ 32 * x) s) = 0.
Proof. intros s x. unfold halves. rewrite halves_0. reflexivity. Qed.
Lemma below_two : forall n, 2 <= n -> exists l, below_n n = 0 :: 1 :: l /\ forall i, In i l -> 2 <= i < n.
Proof.
  intros n Z. exists (map N.of_nat (seq 2 (N.to_nat n - 2))). split.
  - unfold below_n. replace (N.to_nat n) with (S (S (N.to_nat n - 2))) at 1 by lia. reflexivity.
  - intros i H. apply in_map_iff in H. destruct H as (k & <- & K). apply in_seq in K. lia.
Qed.
Lemma add_all : forall z u h v g, add (add (add (add z u) h) v) g = (z + u + h + v + g) mod 2 ^ 64.
Proof. intros. unfold add. rewrite (N.add_mod_idemp_l (z + u)), (N.add_mod_idemp_l (z + u + h)), (N.add_mod_idemp_l (z + u + h + v)) by discriminate. reflexivity. Qed.
Lemma add_uppers : forall z p x h q y g x' y', (x + y) mod 2 ^ 32 = (x' + y') mod 2 ^ 32 ->
  add (add (add (add z (p + 2 ^ 32 * x)) h) (q + 2 ^ 32 * y)) g = add (add (add (add z (p + 2 ^ 32 * x')) h) (q + 2 ^ 32 * y')) g.
Proof.
  intros z p x h q y g x' y' E. rewrite !add_all.
  assert (M : forall x y, (z + (p + 2 ^ 32 * x) + h + (q + 2 ^ 32 * y) + g) mod 2 ^ 64 = (z + p + h + q + g + 2 ^ 32 * ((x + y) mod 2 ^ 32)) mod 2 ^ 64).
  { intros u v. rewrite <- N.mul_mod_distr_l by discriminate. change (2 ^ 32 * 2 ^ 32) with (2 ^ 64). rewrite N.add_mod_idemp_r by discriminate. f_equal. ring. }
  now rewrite !M, E.
Qed.
Theorem C71_long : forall sec lsec seed mid rest x y x' y', mlen mid = 56 -> 169 <= mlen rest -> 136 <= mlen lsec ->
  x < 2 ^ 32 -> y < 2 ^ 32 -> x' < 2 ^ 32 -> y' < 2 ^ 32 -> (x + y) mod 2 ^ 32 = (x' + y') mod 2 ^ 32 ->
  let a := long_msg lsec mid rest x y in
  let b := long_msg lsec mid rest x' y' in
  (a = b -> x = x') /\ xxh3_64 sec lsec seed a = xxh3_64 sec lsec seed b /\ xxh3_128 sec lsec seed a = xxh3_128 sec lsec seed b.
Proof.
  intros sec lsec seed mid rest x y x' y' LM LR LS X Y X' Y' E a b.
  assert (JL : forall s x, x < 2 ^ 32 -> s mod 2 ^ 32 + 2 ^ 32 * x < 2 ^ 64).
  { intros s z Z. apply join_lt; [apply N.mod_lt; discriminate|exact Z]. }
  assert (W : forall x y, x < 2 ^ 32 -> y < 2 ^ 32 -> let l := long_msg lsec mid rest x y in
    mlen l = 72 + mlen rest /\ w8 l 0 = w8 lsec 0 mod 2 ^ 32 + 2 ^ 32 * x /\ w8 l 64 = w8 lsec 8 mod 2 ^ 32 + 2 ^ 32 * y).
  { clear - LM JL. intros x y X Y. cbv zeta. unfold long_msg. split; [rewrite !mlen_app, !mlen_le; lia|].
    split; [apply (w8_num [] _ (mid ++ le_bytes 8 (w8 lsec 8 mod 2 ^ 32 + 2 ^ 32 * y) ++ rest) 0); [now apply JL|reflexivity]|].
    rewrite app_assoc. apply w8_num; [now apply JL|]. rewrite mlen_app, mlen_le. lia. }
  assert (I : forall x y j, (8 <= j -> j + 8 <= 64 -> w8 (long_msg lsec mid rest x y) j = w8 mid (j - 8)) /\
    (72 <= j -> j + 8 <= 72 + mlen rest -> w8 (long_msg lsec mid rest x y) j = w8 rest (j - 72))).
  { clear - LM. intros x y j. unfold long_msg. set (p := le_bytes 8 (w8 lsec 0 mod _ + _)). set (q := le_bytes 8 (w8 lsec 8 mod _ + _)).
    assert (P : mlen p = 8) by apply mlen_le. assert (Q : mlen q = 8) by apply mlen_le. clearbody p q. split; intros J K.
    - replace j with (mlen p + (j - 8)) at 1 by lia. apply w8_mid. lia.
    - rewrite <- (app_nil_r rest) at 1. rewrite (app_assoc mid), (app_assoc p).
      replace j with (mlen (p ++ mid ++ q) + (j - 72)) at 1 by (rewrite !mlen_app; lia). apply w8_mid. lia. }
  destruct (W x y X Y) as (LA & A0 & A64). fold a in LA, A0, A64. destruct (W x' y' X' Y') as (LB & B0 & B64). fold b in LB, B0, B64. clear W.
  assert (S1 : forall j, 8 <= j -> j + 8 <= 64 -> w8 a j = w8 b j).
  { intros j J K. unfold a, b. now rewrite (proj1 (I x y j) J K), (proj1 (I x' y' j) J K). }
  assert (S2 : forall j, 72 <= j -> j + 8 <= 72 + mlen rest -> w8 a j = w8 b j).
  { intros j J K. unfold a, b. now rewrite (proj2 (I x y j) J K), (proj2 (I x' y' j) J K). }
  clear I. split.
  - intro Q. rewrite Q, B0 in A0. change (2 ^ 32) with 4294967296 in A0. clear - A0. lia.
  - assert (V : long_3 lsec a = long_3 lsec b).
    { unfold long_3. rewrite LA, LB.
      assert (T : forall i j v, 72 <= j -> j + 64 <= 72 + mlen rest -> stripe_3 lsec i a j v = stripe_3 lsec i b j v).
      { intros i j v J K. unfold stripe_3. apply each_ext. intros k KK. pose proof (beside_lt k KK). now rewrite !S2 by lia. }
      rewrite T by lia. f_equal. unfold stripes_3.
      destruct (below_two ((72 + mlen rest - 1) / 64)) as (r & -> & R); [lia|]. cbn [fold_left].
      assert (H2 : step_3 lsec a (step_3 lsec a begin_3 0) 1 = step_3 lsec b (step_3 lsec b begin_3 0) 1).
      { unfold step_3. assert (PE : 9 <= period lsec) by (unfold period; lia). generalize (period lsec) PE. intros n PN.
        rewrite (N.mod_small 0), (N.mod_small 1), (N.mod_small (0 + 1)), (N.mod_small (1 + 1)) by lia.
        change (0 + 1 =? 0) with false. change (1 + 1 =? 0) with false. cbv iota. change (8 * 0) with 0. change (64 * 0) with 0.
        change (8 * 1) with 8. change (64 * 1) with 64. unfold stripe_3 at 1 3. apply each_ext. intros k K. unfold stripe_3. rewrite !lane_of by exact K.
        destruct (N.eq_dec k 0) as [->|N0]; [|destruct (N.eq_dec k 1) as [->|N1]].
        - change (beside 0) with 1. change (0 + 8 * 1) with 8. change (0 + 8 * 0) with 0. change (64 + 8 * 1) with 72. change (64 + 8 * 0) with 64. change (8 + 8 * 0) with 8.
          rewrite A0, B0, A64, B64, !halves_cancel, (S1 8), (S2 72) by lia. reflexivity.
        - change (beside 1) with 0. change (0 + 8 * 1) with 8. change (0 + 8 * 0) with 0. change (64 + 8 * 1) with 72. change (64 + 8 * 0) with 64. change (8 + 8 * 1) with 16.
          rewrite A0, B0, A64, B64, (S1 8), (S2 72) by lia. set (p := w8 lsec 0 mod 2 ^ 32). set (q := w8 lsec 8 mod 2 ^ 32).
          set (h := halves _). set (g := halves _). set (z := lane _ _). clearbody p q h g z. apply add_uppers. exact E.
        - assert (BK : 2 <= beside k < 8) by (unfold beside; destruct (N.even k) eqn:EV; [apply N.even_spec in EV; destruct EV as [e EV]; lia|lia || (split; [|lia]; assert (k <> 2) by (intros ->; discriminate EV); lia)]).
          rewrite (S1 (0 + 8 * beside k)), (S1 (0 + 8 * k)), (S2 (64 + 8 * beside k)), (S2 (64 + 8 * k)) by lia. reflexivity. }
      rewrite H2. apply fold_same. intros v i IN. apply R in IN. unfold step_3. rewrite T by lia. reflexivity. }
    unfold xxh3_64, xxh3_128. cbv zeta. rewrite LA, LB, V.
    replace (72 + mlen rest <=? 16) with false by lia. replace (72 + mlen rest <=? 128) with false by lia. replace (72 + mlen rest <=? 240) with false by lia. split; reflexivity.
Qed.
Print Assumptions C71_long.

(** The same at every pair of stripes between which the accumulators are not scrambled,
    after any beginning. *)
Definition far_msg (lsec pre mid rest : list byte) (x y : N) : list byte :=
  let r := mlen pre / 64 mod period lsec in
  pre ++ le_bytes 8 (w8 lsec (8 * r) mod 2 ^ 32 + 2 ^ 32 * x) ++ mid ++ le_bytes 8 (w8 lsec (8 * r + 8) mod 2 ^ 32 + 2 ^ 32 * y) ++ rest.
Theorem C71_anywhere : forall sec lsec seed j pre mid rest x y x' y', mlen pre = 64 * j -> mlen mid = 56 -> 64 <= mlen rest ->
  168 < mlen pre + mlen rest -> 136 <= mlen lsec -> (j + 1) mod period lsec <> 0 ->
  x < 2 ^ 32 -> y < 2 ^ 32 -> x' < 2 ^ 32 -> y' < 2 ^ 32 -> (x + y) mod 2 ^ 32 = (x' + y') mod 2 ^ 32 ->
  let a := far_msg lsec pre mid rest x y in
  let b := far_msg lsec pre mid rest x' y' in
  (a = b -> x = x') /\ xxh3_64 sec lsec seed a = xxh3_64 sec lsec seed b /\ xxh3_128 sec lsec seed a = xxh3_128 sec lsec seed b.
Proof.
  intros sec lsec seed j pre mid rest x y x' y' LJ LM LR LT LS PJ X Y X' Y' E a b.
  assert (JL : forall s x, x < 2 ^ 32 -> s mod 2 ^ 32 + 2 ^ 32 * x < 2 ^ 64).
  { intros s z Z. apply join_lt; [apply N.mod_lt; discriminate|exact Z]. }
  assert (PE : 9 <= period lsec) by (unfold period; lia).
  set (r := mlen pre / 64 mod period lsec) in *.
  assert (RJ : r = j mod period lsec) by (unfold r; rewrite LJ, N.mul_comm, N.div_mul by discriminate; reflexivity).
  assert (RN : (j + 1) mod period lsec = r + 1).
  { pose proof (N.mod_lt j (period lsec) ltac:(clear - PE; lia)) as RL. rewrite <- RJ in RL. apply mod_next; [now symmetry|].
    destruct (N.eq_dec (r + 1) (period lsec)) as [Q|Q]; [|clear - Q RL; lia]. exfalso. apply PJ. apply (mod_full _ r _ _ (eq_sym RJ) Q). clear - PE; lia. }
  set (P := w8 lsec (8 * r) mod 2 ^ 32) in *. set (Q := w8 lsec (8 * r + 8) mod 2 ^ 32) in *.
  set (body := fun x y => le_bytes 8 (P + 2 ^ 32 * x) ++ mid ++ le_bytes 8 (Q + 2 ^ 32 * y) ++ rest).
  assert (FA : forall x y, far_msg lsec pre mid rest x y = pre ++ body x y) by reflexivity.
  assert (W : forall x y, x < 2 ^ 32 -> y < 2 ^ 32 -> let l := pre ++ body x y in
    mlen l = 64 * j + 72 + mlen rest /\ w8 l (64 * j) = P + 2 ^ 32 * x /\ w8 l (64 * j + 64) = Q + 2 ^ 32 * y).
  { clear - LM JL LJ. intros x y X Y. cbv zeta. unfold body. split; [rewrite !mlen_app, !mlen_le; lia|].
    split; [apply (w8_num pre _ (mid ++ le_bytes 8 (Q + 2 ^ 32 * y) ++ rest)); [now apply JL|lia]|].
    rewrite (app_assoc _ mid), (app_assoc pre). apply w8_num; [now apply JL|]. rewrite !mlen_app, mlen_le. lia. }
  assert (I : forall x y i, (8 <= i -> i + 8 <= 64 -> w8 (pre ++ body x y) (64 * j + i) = w8 mid (i - 8)) /\
    (72 <= i -> i + 8 <= 72 + mlen rest -> w8 (pre ++ body x y) (64 * j + i) = w8 rest (i - 72))).
  { clear - LM LJ. intros x y i. unfold body. set (p := le_bytes 8 (P + _)). set (q := le_bytes 8 (Q + _)).
    assert (HP : mlen p = 8) by apply mlen_le. assert (HQ : mlen q = 8) by apply mlen_le. clearbody p q. split; intros J K.
    - rewrite (app_assoc pre). replace (64 * j + i) with (mlen (pre ++ p) + (i - 8)) by (rewrite mlen_app; lia). apply w8_mid. lia.
    - rewrite <- (app_nil_r rest) at 1. rewrite (app_assoc mid), (app_assoc p), (app_assoc pre).
      replace (64 * j + i) with (mlen (pre ++ p ++ mid ++ q) + (i - 72)) by (rewrite !mlen_app; lia). apply w8_mid. lia. }
  unfold a, b. rewrite !FA. clear a b. set (a := pre ++ body x y). set (b := pre ++ body x' y').
  destruct (W x y X Y) as (LA & A0 & A64). fold a in LA, A0, A64. destruct (W x' y' X' Y') as (LB & B0 & B64). fold b in LB, B0, B64. clear W.
  assert (S1 : forall i, 8 <= i -> i + 8 <= 64 -> w8 a (64 * j + i) = w8 b (64 * j + i)).
  { intros i J K. unfold a, b. now rewrite (proj1 (I x y i) J K), (proj1 (I x' y' i) J K). }
  assert (S2 : forall i, 72 <= i -> i + 8 <= 72 + mlen rest -> w8 a (64 * j + i) = w8 b (64 * j + i)).
  { intros i J K. unfold a, b. now rewrite (proj2 (I x y i) J K), (proj2 (I x' y' i) J K). }
  clear I. split.
  - intro QQ. rewrite QQ, B0 in A0. change (2 ^ 32) with 4294967296 in A0. clear - A0. lia.
  - assert (V : long_3 lsec a = long_3 lsec b).
    { unfold long_3. rewrite LA, LB.
      assert (T : forall s i v, 72 <= i -> i + 64 <= 72 + mlen rest -> stripe_3 lsec s a (64 * j + i) v = stripe_3 lsec s b (64 * j + i) v).
      { intros s i v J K. unfold stripe_3. apply each_ext. intros k KK. pose proof (beside_lt k KK) as BL. rewrite <- !N.add_assoc.
        rewrite (S2 (i + 8 * beside k)), (S2 (i + 8 * k)) by (clear - J K KK BL; lia). reflexivity. }
      replace (64 * j + 72 + mlen rest - 64) with (64 * j + (8 + mlen rest)) by (clear; lia). rewrite T by (clear - LR; lia). f_equal. unfold stripes_3.
      assert (NN : (64 * j + 72 + mlen rest - 1) / 64 = j + (71 + mlen rest) / 64).
      { replace (64 * j + 72 + mlen rest - 1) with (71 + mlen rest + j * 64) by (clear; lia). rewrite N.div_add by discriminate. apply N.add_comm. }
      rewrite NN, below_add, !fold_left_app. fold (stripes_3 lsec a j) (stripes_3 lsec b j).
      replace (stripes_3 lsec b j) with (stripes_3 lsec a j) by (unfold a, b; rewrite !stripes_app by (rewrite LJ; apply N.le_refl); reflexivity).
      set (v0 := stripes_3 lsec a j). clearbody v0.
      destruct (below_two ((71 + mlen rest) / 64)) as (l & -> & R); [clear - LR; lia|]. cbn [map fold_left]. rewrite N.add_0_r.
      assert (H2 : step_3 lsec a (step_3 lsec a v0 j) (j + 1) = step_3 lsec b (step_3 lsec b v0 j) (j + 1)).
      { unfold step_3. rewrite RN, <- RJ. replace (r + 1 =? 0) with false by (clear; lia). cbv iota.
        set (scr := fun v => if (j + 1 + 1) mod period lsec =? 0 then scramble lsec (mlen lsec - 64) v else v).
        match goal with |- (if _ then scramble _ _ ?u else _) = (if _ then scramble _ _ ?w else _) => change (scr u = scr w); assert (G : u = w); [|now rewrite G] end.
        clearbody scr. replace (64 * (j + 1)) with (64 * j + 64) by (clear; lia). replace (8 * (r + 1)) with (8 * r + 8) by (clear; lia).
        unfold stripe_3 at 1 3. apply each_ext. intros k K. unfold stripe_3. rewrite !lane_of by exact K. rewrite <- !N.add_assoc.
        destruct (N.eq_dec k 0) as [->|N0]; [|destruct (N.eq_dec k 1) as [->|N1]].
        - change (beside 0) with 1. change (8 * 1) with 8. change (8 * 0) with 0. change (64 + 8) with 72. rewrite !N.add_0_r. change (8 + 0) with 8.
          rewrite A0, B0, A64, B64. unfold P, Q. rewrite !halves_cancel. rewrite (S1 8), (S2 72) by (clear - LR; lia). reflexivity.
        - change (beside 1) with 0. change (8 * 1) with 8. change (8 * 0) with 0. change (64 + 8) with 72. rewrite !N.add_0_r.
          rewrite A0, B0, A64, B64, (S1 8), (S2 72) by (clear - LR; lia).
          set (h := halves _). set (g := halves _). set (z := lane _ _). clear - E. clearbody P Q h g z. apply add_uppers. exact E.
        - assert (BK : 2 <= beside k < 8) by (clear - K N0 N1; unfold beside; destruct (N.even k) eqn:EV; [apply N.even_spec in EV; destruct EV as [e EV]; lia|lia || (split; [|lia]; assert (k <> 2) by (intros ->; discriminate EV); lia)]).
          rewrite (S1 (8 * beside k)), (S1 (8 * k)), (S2 (64 + 8 * beside k)), (S2 (64 + 8 * k)) by (clear - BK K N0 N1 LR; lia). reflexivity. }
      rewrite H2. apply fold_same. intros v i IN. apply in_map_iff in IN. destruct IN as (i0 & <- & IN). apply R in IN. unfold step_3.
      replace (64 * (j + i0)) with (64 * j + 64 * i0) by (clear; lia). rewrite T by (clear - IN; lia). reflexivity. }
    unfold xxh3_64, xxh3_128. cbv zeta. rewrite LA, LB, V.
    assert (240 < 64 * j + 72 + mlen rest) by (clear - LT LJ; lia).
    replace (64 * j + 72 + mlen rest <=? 16) with false by (clear - H; lia). replace (64 * j + 72 + mlen rest <=? 128) with false by (clear - H; lia).
    replace (64 * j + 72 + mlen rest <=? 240) with false by (clear - H; lia). split; reflexivity.
Qed.
Print Assumptions C71_anywhere.
(** With a seed the secret for long messages is made from it: two such messages collide for
    all 2^32 seeds with the same lower half. *)
Theorem C71_long_seeds : forall s t mid rest x y x' y', s mod 2 ^ 32 = t mod 2 ^ 32 -> mlen mid = 56 -> 169 <= mlen rest ->
  x < 2 ^ 32 -> y < 2 ^ 32 -> x' < 2 ^ 32 -> y' < 2 ^ 32 -> (x + y) mod 2 ^ 32 = (x' + y') mod 2 ^ 32 ->
  let a := long_msg (custom_secret s) mid rest x y in
  let b := long_msg (custom_secret s) mid rest x' y' in
  xxh3_64_seed t a = xxh3_64_seed t b /\ xxh3_128_seed t a = xxh3_128_seed t b.
Proof.
  intros s t mid rest x y x' y' S LM LR X Y X' Y' E.
  assert (W : forall s, w8 (custom_secret s) 0 mod 2 ^ 32 = (0xbe4ba423396cfeb8 + s mod 2 ^ 32) mod 2 ^ 32 /\
    w8 (custom_secret s) 8 mod 2 ^ 32 = (0x1cad21f72c81017c + 2 ^ 32 - s mod 2 ^ 32) mod 2 ^ 32).
  { clear. intro s. change (custom_secret s) with (le_bytes 8 (add 0xbe4ba423396cfeb8 s) ++ le_bytes 8 (sub 0x1cad21f72c81017c s) ++
      flat_map (le_bytes 8) (seeded s (skipn 2 default_words))).
    set (r := flat_map _ _). pose proof (w8_num [] (add 0xbe4ba423396cfeb8 s) (le_bytes 8 (sub 0x1cad21f72c81017c s) ++ r) 0 (add_lt64 _ _) eq_refl) as E1.
    pose proof (w8_num (le_bytes 8 (add 0xbe4ba423396cfeb8 s)) (sub 0x1cad21f72c81017c s) r 8 (sub_lt64 _ _) eq_refl) as E2.
    cbn [app] in E1. rewrite E1, E2. unfold add, sub. change (2 ^ 64) with 18446744073709551616. change (2 ^ 32) with 4294967296. split; lia. }
  assert (H : forall x y, long_msg (custom_secret s) mid rest x y = long_msg (custom_secret t) mid rest x y).
  { intros u v. unfold long_msg. destruct (W s) as [-> ->]. destruct (W t) as [-> ->]. now rewrite S. }
  cbv zeta. rewrite !H. unfold xxh3_64_seed, xxh3_128_seed.
  apply (C71_long default_secret (custom_secret t) t mid rest x y x' y'); auto. unfold mlen. rewrite custom_length. discriminate.
Qed.
Print Assumptions C71_long_seeds.

(** ** In the code *)
(** For every seed, in every build, two messages of 32 bytes for which the function returns
    the same 128 bits. *)
Theorem C71_code : forall cfg x3 m p q local seed, xxh_force_memory_access (x3_xxh x3) <> 2 -> seed < 2 ^ 64 -> kSecret_there cfg x3 m ->
  let a := end_msg default_secret seed [] 0 0 in
  let b := end_msg default_secret seed [] (2 ^ 63) (2 ^ 63) in
  message_at cfg m p a -> message_at cfg m q b -> local_there cfg x3 m local p a -> local_there cfg x3 m local q b ->
  a <> b /\ exists h m1 m2, XXH3_128bits_withSeed cfg x3 local p 32 seed m = Ok (h, m1) /\ XXH3_128bits_withSeed cfg x3 local q 32 seed m = Ok (h, m2).
Proof.
  intros cfg x3 m p q local seed D S K a b MA MB LA LB.
  assert (L : forall x y, mlen (end_msg default_secret seed [] x y) = 32) by (intros; unfold end_msg; cbn [app]; rewrite !mlen_app, !mlen_le; reflexivity).
  destruct (C71_ends_128 default_secret (custom_secret seed) seed 0 0 [] eq_refl eq_refl (or_introl eq_refl)) as [N E].
  change (xor 0 (2 ^ 63)) with (2 ^ 63) in *. split; [exact N|].
  destruct (proj2 (proj2 (proj2 (C68_value cfg x3 m p a D MA K)) local seed LA S)) as (m1 & E1 & _).
  destruct (proj2 (proj2 (proj2 (C68_value cfg x3 m q b D MB K)) local seed LB S)) as (m2 & E2 & _).
  exists (xxh3_128_seed seed a), m1, m2. unfold a at 1 in E1. rewrite L in E1. unfold b at 1 in E2. rewrite L in E2. split; [exact E1|].
  unfold xxh3_128_seed. unfold a. rewrite E. exact E2.
Qed.
Print Assumptions C71_code.

(** ** Cases *)
Example C71_sixteen_case : let a := le_bytes 8 (key_a default_secret 7) ++ le_bytes 8 (xor 5 (key_b default_secret 7)) in
  let b := le_bytes 8 (xor (turn_64 5) (key_a default_secret 7)) ++ le_bytes 8 (key_b default_secret 7) in
  a <> b /\ xxh3_64_seed 7 a = xxh3_64_seed 7 b.
Proof. split; vm_compute; [discriminate|reflexivity]. Qed.
Example C71_ignored_case : xxh3_64_plain (le_bytes 8 0xbe4ba423396cfeb8 ++ repeat x00 8 ++ Demo.key 100) =
  xxh3_64_plain (le_bytes 8 0xbe4ba423396cfeb8 ++ repeat xff 8 ++ Demo.key 100).
Proof. vm_compute. reflexivity. Qed.
(** without a seed: 32 bytes, 128 bits *)
Example C71_ends_case : end_msg default_secret 0 [] 0 0 = le_bytes 8 0xbe4ba423396cfeb8 ++ le_bytes 8 0 ++ le_bytes 8 0xdb979083e96dd4de ++ le_bytes 8 0 /\
  xxh3_128_plain (end_msg default_secret 0 [] 0 0) = xxh3_128_plain (end_msg default_secret 0 [] (2 ^ 63) (2 ^ 63)).
Proof. split; vm_compute; reflexivity. Qed.
Example C71_long_case : xxh3_128_plain (long_msg default_secret (Demo.key 56) (Demo.key 169) 0 5) =
  xxh3_128_plain (long_msg default_secret (Demo.key 56) (Demo.key 169) 3 2).
Proof. vm_compute. reflexivity. Qed.
