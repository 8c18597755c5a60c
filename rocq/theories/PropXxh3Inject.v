(** C70: what XXH3 tells apart in messages of up to 16 bytes. *)
From Coq Require Import ZArith NArith Arith List Bool Lia Strings.Byte.
From Coq Require Import ZifyN ZifyNat ZifyBool.
From Verif Require Import Bytes Spec NBits CSemFacts OpsFacts StreamFacts Inject Onto Demo XxhashSpec PropXxhash2 Xxh3Spec.
Import ListNotations.
Ltac Zify.zify_post_hook ::= Z.div_mod_to_equations.
Local Open Scope N_scope.

(** ** Steps that lose nothing *)
Lemma rotr_bit : forall x s i, s <= 64 -> x < 2 ^ 64 -> i < 64 -> N.testbit (rotr x s) i = N.testbit x ((i + s) mod 64).
Proof.
  intros x s i S X I. destruct (rotr_split x s S X) as (A & ->). rewrite <- lor_low_high by exact A. rewrite N.lor_spec.
  rewrite N.div_pow2_bits. destruct (N.lt_ge_cases i (64 - s)) as [L|L].
  - rewrite N.mul_pow2_bits_low by exact L. rewrite orb_false_r. f_equal. rewrite N.mod_small by lia. reflexivity.
  - rewrite N.mul_pow2_bits_high by exact L. rewrite N.mod_pow2_bits_low by lia.
    replace (N.testbit x (i + s)) with false.
    + cbn [orb]. f_equal. lia.
    + symmetry. destruct (N.eq_dec x 0) as [->|Z]; [apply N.bits_0|]. apply N.bits_above_log2. apply N.log2_lt_pow2; [lia|].
      apply N.lt_le_trans with (2 ^ 64); [exact X|]. apply N.pow_le_mono_r; lia.
Qed.
(** A word that is the exclusive or of its rotations by 49 and 24 is zero: so it is of those by
    twice, and finally by 64 times as much. *)
Definition turns (b : N -> bool) (k : N) : Prop := forall i, b i = xorb (b (i + 15 * k)) (b (i + 40 * k)).
Lemma turns_twice : forall b k, turns b k -> turns b (2 * k).
Proof.
  intros b k H i. rewrite (H i), (H (i + 15 * k)), (H (i + 40 * k)).
  replace (i + 15 * k + 15 * k) with (i + 15 * (2 * k)) by lia. replace (i + 40 * k + 40 * k) with (i + 40 * (2 * k)) by lia.
  replace (i + 40 * k + 15 * k) with (i + 15 * k + 40 * k) by lia.
  destruct (b (i + 15 * (2 * k))), (b (i + 15 * k + 40 * k)), (b (i + 40 * (2 * k))); reflexivity.
Qed.
Definition twist (h : N) : N := xor h (xor (left_64 h 49) (left_64 h 24)).
Lemma twist_0 : forall z, z < 2 ^ 64 -> twist z = 0 -> z = 0.
Proof.
  intros z Z E. set (b := fun i => N.testbit z (i mod 64)).
  assert (T : turns b 1).
  { intro i. pose proof (f_equal (fun w => N.testbit w (i mod 64)) E) as H. cbn beta in H.
    assert (I : i mod 64 < 64) by lia. unfold twist, xor, left_64 in H. rewrite !N.lxor_spec, N.bits_0, !rotr_bit in H by (exact Z || exact I || lia).
    unfold b. replace ((i + 15 * 1) mod 64) with ((i mod 64 + (64 - 49)) mod 64) by lia.
    replace ((i + 40 * 1) mod 64) with ((i mod 64 + (64 - 24)) mod 64) by lia.
    destruct (N.testbit z (i mod 64)), (N.testbit z ((i mod 64 + (64 - 49)) mod 64)), (N.testbit z ((i mod 64 + (64 - 24)) mod 64)); try reflexivity; discriminate H. }
  do 6 apply turns_twice in T. change (turns b 64) in T. apply N.bits_inj_0. intro i. destruct (N.lt_ge_cases i 64) as [L|L].
  - specialize (T i). unfold b in T. change (15 * 64) with 960 in T. change (40 * 64) with 2560 in T. replace ((i + 960) mod 64) with (i mod 64) in T by lia.
    replace ((i + 2560) mod 64) with (i mod 64) in T by lia. rewrite (N.mod_small i) in T by exact L. destruct (N.testbit z i); [discriminate T|reflexivity].
  - destruct (N.eq_dec z 0) as [->|Z0]; [apply N.bits_0|]. apply N.bits_above_log2. apply N.log2_lt_pow2; [lia|].
    apply N.lt_le_trans with (2 ^ 64); [exact Z|]. apply N.pow_le_mono_r; lia.
Qed.
Lemma left_64_xor : forall x y r, x < 2 ^ 64 -> y < 2 ^ 64 -> left_64 (N.lxor x y) r = N.lxor (left_64 x r) (left_64 y r).
Proof.
  intros x y r X Y. apply N.bits_inj. intro i. rewrite N.lxor_spec. unfold left_64. destruct (N.lt_ge_cases i 64) as [L|L].
  - rewrite !rotr_bit by (lia || assumption || now apply lxor_lt). apply N.lxor_spec.
  - assert (H : forall w, N.testbit (rotr w (64 - r)) i = false).
    { intro w. assert (B : rotr w (64 - r) < 2 ^ 64) by (apply rotr_lt64; lia). revert B. generalize (rotr w (64 - r)). clear - L. intros v B.
      destruct (N.eq_dec v 0) as [->|Z0]; [apply N.bits_0|]. apply N.bits_above_log2. apply N.log2_lt_pow2; [lia|].
      apply N.lt_le_trans with (2 ^ 64); [exact B|]. apply N.pow_le_mono_r; lia. }
    now rewrite !H.
Qed.
Lemma twist_lt : forall x, x < 2 ^ 64 -> twist x < 2 ^ 64.
Proof. intros x X. unfold twist. repeat apply xor_lt64; try exact X; apply left_64_lt. Qed.
Lemma twist_inj : forall x y, x < 2 ^ 64 -> y < 2 ^ 64 -> twist x = twist y -> x = y.
Proof.
  intros x y X Y E. apply N.lxor_eq. apply twist_0; [now apply lxor_lt|]. unfold twist, xor in *.
  rewrite !left_64_xor by assumption. apply N.lxor_eq_0_iff in E. rewrite <- E. apply N.bits_inj. intro i. rewrite !N.lxor_spec.
  destruct (N.testbit x i), (N.testbit y i), (N.testbit (left_64 x 49) i), (N.testbit (left_64 y 49) i), (N.testbit (left_64 x 24) i),
    (N.testbit (left_64 y 24) i); reflexivity.
Qed.
(** the upper bits are unchanged, and they say what is added to the lower ones *)
Definition lengthen (len h : N) : N := xor h (add (h mod 2 ^ 64 / 2 ^ 35) len).
Lemma lengthen_small : forall len h, len < 2 ^ 32 -> add (h mod 2 ^ 64 / 2 ^ 35) len < 2 ^ 35.
Proof.
  intros len h L. unfold add. assert (H : h mod 2 ^ 64 / 2 ^ 35 < 2 ^ 29).
  { apply N.div_lt_upper_bound; [discriminate|]. apply N.mod_lt. discriminate. }
  rewrite N.mod_small; [change (2 ^ 35) with (2 ^ 34 + 2 ^ 34); change (2 ^ 34) with 17179869184; change (2 ^ 32) with 4294967296 in *; change (2 ^ 29) with 536870912 in *; lia|].
  change (2 ^ 64) with 18446744073709551616; change (2 ^ 32) with 4294967296 in *; change (2 ^ 29) with 536870912 in *; lia.
Qed.
Lemma lengthen_lt : forall len h, len < 2 ^ 32 -> h < 2 ^ 64 -> lengthen len h < 2 ^ 64.
Proof. intros len h L H. apply xor_lt64; [exact H|]. apply N.lt_trans with (2 ^ 35); [now apply lengthen_small|reflexivity]. Qed.
Lemma lengthen_inj : forall len x y, len < 2 ^ 32 -> x < 2 ^ 64 -> y < 2 ^ 64 -> lengthen len x = lengthen len y -> x = y.
Proof.
  intros len x y L X Y E. pose proof (f_equal (fun w => N.shiftr w 35) E) as H. unfold lengthen, xor in H. rewrite !N.shiftr_lxor in H.
  rewrite !(N.shiftr_div_pow2 (add _ _)), !(N.div_small (add _ _)) in H by now apply lengthen_small. rewrite !N.lxor_0_r, !N.shiftr_div_pow2 in H.
  unfold lengthen in E. rewrite !(N.mod_small _ (2 ^ 64)) in E by assumption. rewrite H in E. now apply xor_inj_l in E.
Qed.
Lemma blend_eq : forall h len, blend h len = fold_64 (mulw (lengthen len (mulw (twist h) C2)) C2) 28.
Proof. reflexivity. Qed.
Lemma blend_lt : forall h len, blend h len < 2 ^ 64.
Proof. intros. rewrite blend_eq. apply fold_64_lt, mulw_lt64. Qed.
Lemma blend_inj : forall len x y, len < 2 ^ 32 -> x < 2 ^ 64 -> y < 2 ^ 64 -> blend x len = blend y len -> x = y.
Proof.
  intros len x y L X Y E. rewrite !blend_eq in E. apply fold_64_inj in E; [|discriminate|apply mulw_lt64..].
  apply mulw_odd_inj in E; [|reflexivity|apply lengthen_lt; [exact L|apply mulw_lt64]..].
  apply lengthen_inj in E; [|exact L|apply mulw_lt64..].
  apply mulw_odd_inj in E; [|reflexivity|now apply twist_lt..]. now apply twist_inj in E.
Qed.
Lemma finish_lt : forall h, finish h < 2 ^ 64.
Proof. intro h. apply fold_64_lt, mulw_lt64. Qed.
Lemma finish_inj : forall x y, x < 2 ^ 64 -> y < 2 ^ 64 -> finish x = finish y -> x = y.
Proof.
  intros x y X Y E. unfold finish in E. apply fold_64_inj in E; [|discriminate|apply mulw_lt64..].
  apply mulw_odd_inj in E; [|reflexivity|now apply fold_64_lt..]. now apply fold_64_inj in E.
Qed.
Lemma lo_inj : forall p x y, N.odd p = true -> x < 2 ^ 64 -> y < 2 ^ 64 -> lo x p = lo y p -> x = y.
Proof. intros p x y O X Y E. unfold lo in E. rewrite (N.mod_small x), (N.mod_small y) in E by assumption. now apply (mulw_odd_inj p). Qed.
Lemma sub_inj_r : forall c x y, x < 2 ^ 64 -> y < 2 ^ 64 -> sub c x = sub c y -> x = y.
Proof. intros c x y X Y E. unfold sub in E. rewrite (N.mod_small x), (N.mod_small y) in E by assumption. change (2 ^ 64) with 18446744073709551616 in *. lia. Qed.
Lemma add_inj_r : forall c x y, x < 2 ^ 64 -> y < 2 ^ 64 -> add c x = add c y -> x = y.
Proof. intros c x y X Y E. unfold add in E. now apply add_inj in E. Qed.

Lemma turn_64_lt : forall x, turn_64 x < 2 ^ 64.
Proof. intro x. unfold turn_64, be_num. pose proof (le_num_lt (rev (le_bytes 8 x))) as T. now rewrite rev_length, le_bytes_length in T. Qed.
Lemma turn_32_lt : forall x, turn_32 x < 2 ^ 32.
Proof. intro x. unfold turn_32, be_num. pose proof (le_num_lt (rev (le_bytes 4 x))) as T. now rewrite rev_length, le_bytes_length in T. Qed.

(** ** Messages from their words *)
Lemma word_bound : forall k l i, word_at k l i < 256 ^ N.of_nat k.
Proof.
  intros k l i. unfold word_at. eapply N.lt_le_trans; [apply le_num_lt|]. apply N.pow_le_mono_r; [discriminate|]. pose proof (firstn_le_length k (skipn (N.to_nat i) l)). lia.
Qed.
Lemma w8_lt : forall l i, w8 l i < 2 ^ 64. Proof. intros. exact (word_bound 8 l i). Qed.
Lemma w4_lt : forall l i, w4 l i < 2 ^ 32. Proof. intros. exact (word_bound 4 l i). Qed.
(** the first and the last bytes, overlapping or not *)
Lemma two_words : forall k n (a b : list byte), length a = n -> length b = n -> (k <= n <= 2 * k)%nat ->
  word_at k a 0 = word_at k b 0 -> word_at k a (N.of_nat (n - k)) = word_at k b (N.of_nat (n - k)) -> a = b.
Proof.
  intros k n a b A B L E1 E2. unfold word_at in *. cbn [N.to_nat skipn] in E1. change (N.to_nat 0) with 0%nat in E1. cbn [skipn] in E1. rewrite Nat2N.id in E2.
  apply le_num_inj in E1; [|rewrite !firstn_length; lia]. apply le_num_inj in E2; [|rewrite !firstn_length, !skipn_length; lia].
  rewrite !(firstn_all2 (skipn _ _)) in E2 by (rewrite skipn_length; lia).
  rewrite <- (firstn_skipn (n - k) a), <- (firstn_skipn (n - k) b), E2. f_equal.
  replace (n - k)%nat with (Nat.min (n - k) k) by lia. now rewrite <- !firstn_firstn, E1.
Qed.

(** ** 1 to 3 bytes *)
Lemma packed_small : forall msg, 1 <= mlen msg <= 3 -> packed msg < 2 ^ 32.
Proof.
  intros msg L. unfold packed. cbv zeta. set (x := b2n _). set (y := b2n _). set (z := b2n _).
  assert (X : x < 256) by apply b2n_lt. assert (Y : y < 256) by apply b2n_lt. assert (Z : z < 256) by apply b2n_lt. clearbody x y z.
  change (2 ^ 8) with 256. change (2 ^ 16) with 65536. change (2 ^ 24) with 16777216. change (2 ^ 32) with 4294967296. lia.
Qed.
Lemma packed_inj : forall a b, 1 <= mlen a <= 3 -> 1 <= mlen b <= 3 -> packed a = packed b -> a = b.
Proof.
  assert (C : forall msg, 1 <= mlen msg <= 3 -> (exists x, msg = [x]) \/ (exists x y, msg = [x; y]) \/ exists x y z, msg = [x; y; z]).
  { intros [|x [|y [|z [|]]]] L; unfold mlen in L; cbn [length] in L; try lia; eauto 8. }
  intros a b A B E.
  assert (D : forall x y z n x' y' z' n', x < 256 -> y < 256 -> z < 256 -> n < 256 -> x' < 256 -> y' < 256 -> z' < 256 -> n' < 256 ->
    x + 2 ^ 8 * n + 2 ^ 16 * y + 2 ^ 24 * z = x' + 2 ^ 8 * n' + 2 ^ 16 * y' + 2 ^ 24 * z' -> x = x' /\ n = n' /\ y = y' /\ z = z').
  { clear. intros. change (2 ^ 8) with 256 in *. change (2 ^ 16) with 65536 in *. change (2 ^ 24) with 16777216 in *. lia. }
  destruct (C a A) as [(x & ->)|[(x & y & ->)|(x & y & z & ->)]]; destruct (C b B) as [(x' & ->)|[(x' & y' & ->)|(x' & y' & z' & ->)]];
    unfold packed in E; cbv zeta in E; apply D in E; try apply b2n_lt; try reflexivity; destruct E as (E1 & E2 & E3 & E4); try discriminate E2;
    cbn [length Nat.sub nth Nat.div Nat.divmod fst] in E1, E3, E4; apply b2n_inj in E1; apply b2n_inj in E3; apply b2n_inj in E4; subst; reflexivity.
Qed.
Lemma tiny_eq : forall sec lsec seed msg, 1 <= mlen msg <= 3 ->
  xxh3_64 sec lsec seed msg = mix_bits_64 (xor (packed msg) (add (xor (w4 sec 0) (w4 sec 4)) seed)) /\
  fst (xxh3_128 sec lsec seed msg) = xxh3_64 sec lsec seed msg.
Proof.
  intros sec lsec seed msg L. unfold xxh3_64, xxh3_128, short_64, short_128. cbv zeta.
  replace (mlen msg <=? 16) with true by lia. replace (mlen msg =? 0) with false by lia. replace (mlen msg <? 4) with true by lia. split; reflexivity.
Qed.
(** No two messages of 1 to 3 bytes have the same hash, whatever their lengths, the secret
    and the seed. *)
Theorem C70_tiny : forall sec lsec seed a b, 1 <= mlen a <= 3 -> 1 <= mlen b <= 3 ->
  (xxh3_64 sec lsec seed a = xxh3_64 sec lsec seed b -> a = b) /\ (xxh3_128 sec lsec seed a = xxh3_128 sec lsec seed b -> a = b).
Proof.
  intros sec lsec seed a b A B. destruct (tiny_eq sec lsec seed a A) as [EA FA]. destruct (tiny_eq sec lsec seed b B) as [EB FB].
  assert (G : xxh3_64 sec lsec seed a = xxh3_64 sec lsec seed b -> a = b).
  { intro E. rewrite EA, EB in E. apply mix_bits_64_inj in E.
    - apply xor_inj_l in E. now apply packed_inj.
    - apply xor_lt64; [|apply add_lt64]. apply N.lt_trans with (2 ^ 32); [now apply packed_small|reflexivity].
    - apply xor_lt64; [|apply add_lt64]. apply N.lt_trans with (2 ^ 32); [now apply packed_small|reflexivity]. }
  split; [exact G|]. intro E. apply G. rewrite <- FA, <- FB. now rewrite E.
Qed.
Print Assumptions C70_tiny.

(** ** 4 to 16 bytes *)
Lemma small_eq : forall sec lsec seed msg, 4 <= mlen msg <= 8 ->
  xxh3_64 sec lsec seed msg =
    blend (xor (w4 msg (mlen msg - 4) + 2 ^ 32 * w4 msg 0) (sub (xor (w8 sec 8) (w8 sec 16)) (seed_2 seed))) (mlen msg).
Proof.
  intros sec lsec seed msg L. unfold xxh3_64, short_64. cbv zeta.
  replace (mlen msg <=? 16) with true by lia. replace (mlen msg =? 0) with false by lia. replace (mlen msg <? 4) with false by lia.
  replace (mlen msg <=? 8) with true by lia. reflexivity.
Qed.
Lemma join_lt : forall a b, a < 2 ^ 32 -> b < 2 ^ 32 -> a + 2 ^ 32 * b < 2 ^ 64.
Proof. intros a b A B. change (2 ^ 64) with (2 ^ 32 * 2 ^ 32). change (2 ^ 32) with 4294967296 in *. lia. Qed.
Lemma join_apart : forall a b a' b', a < 2 ^ 32 -> a' < 2 ^ 32 -> a + 2 ^ 32 * b = a' + 2 ^ 32 * b' -> a = a' /\ b = b'.
Proof. intros a b a' b' A B E. change (2 ^ 32) with 4294967296 in *. lia. Qed.
Lemma same_ends : forall k a b, mlen a = mlen b -> N.of_nat k <= mlen a <= 2 * N.of_nat k -> word_at k a 0 = word_at k b 0 ->
  word_at k a (mlen a - N.of_nat k) = word_at k b (mlen b - N.of_nat k) -> a = b.
Proof.
  intros k a b E L E1 E2. unfold mlen in *. apply (two_words k (length a)); auto; try lia.
  rewrite Nat2N.inj_sub. rewrite E2. f_equal. lia.
Qed.
(** Messages of the same length up to 8 bytes have different hashes of 64 bits, up to 16
    bytes of 128 bits. *)
Theorem C70_same_length : forall sec lsec seed a b, mlen a = mlen b ->
  (4 <= mlen a <= 8 -> xxh3_64 sec lsec seed a = xxh3_64 sec lsec seed b -> a = b) /\
  (4 <= mlen a <= 16 -> xxh3_128 sec lsec seed a = xxh3_128 sec lsec seed b -> a = b).
Proof.
  intros sec lsec seed a b E. split; intros L H.
  - rewrite (small_eq sec lsec seed a), (small_eq sec lsec seed b) in H by lia. rewrite <- E in H at 2. apply blend_inj in H.
    + apply xor_inj_l in H. apply join_apart in H; [|apply w4_lt..]. destruct H as [H1 H2].
      apply (same_ends 4); auto; lia.
    + lia.
    + apply xor_lt64; [|apply sub_lt64]. apply join_lt; apply w4_lt.
    + apply xor_lt64; [|apply sub_lt64]. apply join_lt; apply w4_lt.
  - unfold xxh3_128, short_128 in H. cbv zeta in H. rewrite <- E in H. replace (mlen a <=? 16) with true in H by lia.
    replace (mlen a =? 0) with false in H by lia. replace (mlen a <? 4) with false in H by lia.
    destruct (N.leb_spec (mlen a) 8) as [C|C].
    + set (p := B1 + 4 * mlen a) in H. assert (O : N.odd p = true).
      { unfold p. rewrite N.odd_add, N.odd_mul. reflexivity. }
      match type of H with context [hi ?x p] => set (x1 := x) in H end.
      match type of H with context [hi ?x p] => lazymatch x with x1 => fail | _ => set (x2 := x) in H end end.
      injection H as H1 H2.
      apply finish_inj in H2; [|apply add_lt64..]. rewrite H2 in H1.
      assert (T : forall x h, h < 2 ^ 64 -> xor (lo x p) (h / 2 ^ 3) < 2 ^ 64).
      { intros x h B. apply xor_lt64; [unfold lo; apply N.mod_lt; discriminate|]. apply N.div_lt_upper_bound; [discriminate|]. apply N.lt_le_trans with (2 ^ 64); [exact B|discriminate]. }
      apply fold_64_inj in H1; [|discriminate|apply mulw_lt64..].
      apply mulw_odd_inj in H1; [|reflexivity|apply fold_64_lt, T, add_lt64..].
      apply fold_64_inj in H1; [|discriminate|apply T, add_lt64..]. apply xor_inj_l in H1.
      apply lo_inj in H1; [|exact O|apply xor_lt64; [apply join_lt; apply w4_lt|apply add_lt64]..].
      unfold x1, x2 in H1. apply xor_inj_l in H1. apply join_apart in H1; [|apply w4_lt..]. destruct H1 as [H3 H4].
      apply (same_ends 4); auto; [lia|]. rewrite <- E. exact H4.
    + match type of H with context [hi ?x B1] => set (x1 := x) in H end.
      match type of H with context [hi ?x B1] => lazymatch x with x1 => fail | _ => set (x2 := x) in H end end.
      match type of H with context [?x / 2 ^ 32 * 2 ^ 32] => set (y1 := x) in H end.
      match type of H with context [?x / 2 ^ 32 * 2 ^ 32] => lazymatch x with y1 => fail | _ => set (y2 := x) in H end end.
      assert (LT : forall x q, lo x q < 2 ^ 64) by (intros; apply N.mod_lt; discriminate).
      assert (LX : forall x c, x < 2 ^ 64 -> xor (add (lo x B1) (2 ^ 54 * (mlen a - 1))) (turn_64 c) < 2 ^ 64) by (intros; apply xor_lt64; [apply add_lt64|apply turn_64_lt]).
      assert (X1 : x1 < 2 ^ 64) by (apply xor_lt64; [apply xor_lt64; apply w8_lt|apply sub_lt64]).
      assert (X2 : x2 < 2 ^ 64) by (apply xor_lt64; [apply xor_lt64; apply w8_lt|apply sub_lt64]).
      assert (Y1 : y1 < 2 ^ 64) by (apply xor_lt64; [apply w8_lt|apply add_lt64]).
      assert (Y2 : y2 < 2 ^ 64) by (apply xor_lt64; [apply w8_lt|apply add_lt64]).
      injection H as H1 H2.
      apply finish_inj in H1; [|apply LT..]. apply lo_inj in H1; [|reflexivity|apply LX; assumption..].
      rewrite H1 in H2. apply finish_inj in H2; [|apply add_lt64..]. apply add_inj_r in H2; [|apply mulw_lt64..].
      apply mulw_odd_inj in H2; [|reflexivity|apply add_lt64..]. rewrite H2 in H1. apply xor_inj_l in H1.
      apply add_inj_l in H1; [|apply LT..]. apply lo_inj in H1; [|reflexivity|assumption..]. rewrite H1 in H2.
      assert (EY : y1 = y2).
      { unfold add in H2. set (z1 := y1 / 2 ^ 32 * 2 ^ 32 + y1 mod 2 ^ 32 * A2) in H2. set (z2 := y2 / 2 ^ 32 * 2 ^ 32 + y2 mod 2 ^ 32 * A2) in H2.
        rewrite <- (N.add_mod_idemp_r _ z1), <- (N.add_mod_idemp_r _ z2) in H2 by discriminate.
        apply add_inj in H2; [|discriminate|apply N.mod_lt; discriminate..].
        assert (LOW : y1 mod 2 ^ 32 = y2 mod 2 ^ 32).
        { apply (mul_32_inj A2); [reflexivity|apply N.mod_lt; discriminate..|]. unfold mul_32.
          assert (Z : forall y, (y / 2 ^ 32 * 2 ^ 32 + y mod 2 ^ 32 * A2) mod 2 ^ 64 mod 2 ^ 32 = (y mod 2 ^ 32 * A2) mod 2 ^ 32).
          { intro y. rewrite mod_mod_pow2 by discriminate. rewrite N.add_comm. apply N.mod_add. discriminate. }
          rewrite <- (Z y1), <- (Z y2). unfold z1, z2 in H2. now rewrite H2. }
        unfold z1, z2 in H2. rewrite LOW in H2. rewrite !(N.add_comm (_ * 2 ^ 32)) in H2.
        assert (W : forall y, y < 2 ^ 64 -> y / 2 ^ 32 * 2 ^ 32 < 2 ^ 64).
        { intros y B. apply N.le_lt_trans with y; [|exact B]. rewrite N.mul_comm. apply N.mul_div_le. discriminate. }
        apply add_inj in H2; [|discriminate|now apply W..].
        rewrite (N.div_mod y1 (2 ^ 32)), (N.div_mod y2 (2 ^ 32)), LOW by discriminate. rewrite !(N.mul_comm (2 ^ 32)). now rewrite H2. }
      unfold y1, y2 in EY. apply xor_inj_l in EY. unfold x1, x2 in H1. rewrite EY in H1. do 2 apply xor_inj_l in H1.
      apply (same_ends 8); auto; [lia|]. rewrite <- E. exact EY.
Qed.
Print Assumptions C70_same_length.

(** ** All hashes of 64 bits *)
Lemma xxh3_64_lt : forall sec lsec seed msg, xxh3_64 sec lsec seed msg < 2 ^ 64.
Proof.
  assert (T : forall h, mix_bits_64 h < 2 ^ 64) by (intro; unfold mix_bits_64; apply fold_64_lt, mulw_lt64).
  intros sec lsec seed msg. unfold xxh3_64, short_64, mid_64, mid2_64, merge_3. cbv zeta.
  repeat match goal with |- context [if ?c then _ else _] => destruct c end; try apply finish_lt; try apply blend_lt; apply T.
Qed.
(** Every 64-bit number is the hash of just one message of 8 bytes, under every secret
    and seed. *)
Theorem C70_eight : forall sec lsec seed h, h < 2 ^ 64 -> exists! msg, mlen msg = 8 /\ xxh3_64 sec lsec seed msg = h.
Proof.
  intros sec lsec seed h H.
  destruct (inj_onto (2 ^ 64) (fun x => xxh3_64 sec lsec seed (le_bytes 8 x))) with (y := h) as (x & X & E); [| |exact H|].
  - intros. apply xxh3_64_lt.
  - intros x y X Y E. assert (L : forall z, mlen (le_bytes 8 z) = 8) by (intro; unfold mlen; now rewrite le_bytes_length).
    apply C70_same_length in E; [|now rewrite !L|rewrite L; lia].
    pose proof (f_equal le_num E) as F. rewrite !le_num_le_bytes in F. change (256 ^ N.of_nat 8) with (2 ^ 64) in F. now rewrite !N.mod_small in F.
  - exists (le_bytes 8 x). assert (L : mlen (le_bytes 8 x) = 8) by (unfold mlen; now rewrite le_bytes_length).
    split; [exact (conj L E)|]. intros msg (M & F). cbn beta in E. apply (proj1 (C70_same_length sec lsec seed (le_bytes 8 x) msg (eq_trans L (eq_sym M)))); [lia|]. exact (eq_trans E (eq_sym F)).
Qed.
Print Assumptions C70_eight.
(** So no other message, of whatever length, is without a partner. *)
Theorem C70_partner : forall sec lsec seed msg, mlen msg <> 8 ->
  exists partner, mlen partner = 8 /\ partner <> msg /\ xxh3_64 sec lsec seed partner = xxh3_64 sec lsec seed msg.
Proof.
  intros sec lsec seed msg L. destruct (C70_eight sec lsec seed _ (xxh3_64_lt sec lsec seed msg)) as (p & (P & E) & _).
  exists p. split; [exact P|]. split; [|exact E]. intros ->. contradiction.
Qed.
Print Assumptions C70_partner.

(** ** Seeds *)
Lemma seed_2_lt : forall s, s < 2 ^ 64 -> seed_2 s < 2 ^ 64.
Proof.
  intros s S. apply xor_lt64; [exact S|]. pose proof (turn_32_lt (s mod 2 ^ 32)). change (2 ^ 64) with (2 ^ 32 * 2 ^ 32). change (2 ^ 32) with 4294967296 in *. lia.
Qed.
Lemma seed_2_inj : forall s t, s < 2 ^ 64 -> t < 2 ^ 64 -> seed_2 s = seed_2 t -> s = t.
Proof.
  intros s t S T E. unfold seed_2 in E. assert (L : s mod 2 ^ 32 = t mod 2 ^ 32).
  { pose proof (f_equal (fun x => x mod 2 ^ 32) E) as F. cbn beta in F. unfold xor in F. rewrite !lxor_mod_pow2 in F.
    rewrite !(N.mul_comm (2 ^ 32)), !N.mod_mul, !N.lxor_0_r in F by discriminate. exact F. }
  rewrite L in E. now apply xor_inj_l in E.
Qed.
(** A message of up to 8 bytes has different hashes of 64 bits under different seeds. *)
Theorem C70_seed : forall msg s t, mlen msg <= 8 -> s < 2 ^ 64 -> t < 2 ^ 64 -> xxh3_64_seed s msg = xxh3_64_seed t msg -> s = t.
Proof.
  intros msg s t L S T E. unfold xxh3_64_seed in E. destruct (N.eq_dec (mlen msg) 0) as [Z|Z].
  - unfold xxh3_64, short_64 in E. cbv zeta in E. rewrite Z in E. cbn [N.leb N.compare N.eqb] in E. apply mix_bits_64_inj in E.
    + now apply xor_inj_l in E.
    + apply xor_lt64; [exact S|]. apply xor_lt64; apply w8_lt.
    + apply xor_lt64; [exact T|]. apply xor_lt64; apply w8_lt.
  - destruct (N.lt_ge_cases (mlen msg) 4) as [C|C].
    + rewrite !(fun l s => proj1 (tiny_eq default_secret l s msg ltac:(lia))) in E. apply mix_bits_64_inj in E.
      * unfold xor in E. apply xor_inj in E. now apply add_inj_r in E.
      * apply xor_lt64; [|apply add_lt64]. apply N.lt_trans with (2 ^ 32); [apply packed_small; lia|reflexivity].
      * apply xor_lt64; [|apply add_lt64]. apply N.lt_trans with (2 ^ 32); [apply packed_small; lia|reflexivity].
    + rewrite !(fun l s => small_eq default_secret l s msg ltac:(lia)) in E. apply blend_inj in E.
      * unfold xor at 1 3 in E. apply xor_inj in E. apply sub_inj_r in E; [|now apply seed_2_lt..]. now apply seed_2_inj in E.
      * lia.
      * apply xor_lt64; [|apply sub_lt64]. apply join_lt; apply w4_lt.
      * apply xor_lt64; [|apply sub_lt64]. apply join_lt; apply w4_lt.
Qed.
Print Assumptions C70_seed.

(** ** Cases *)
(** the 8 bytes with the hash of the empty message, and those with the one of "abc" *)
Example C70_eight_case : xxh3_64_plain [x69; x4a; xef; xbf; xbe; x31; x98; xbc] = xxh3_64_plain [] /\
  xxh3_64_plain [xdd; x92; xf0; x13; x17; xa4; x46; x2b] = xxh3_64_plain [x61; x62; x63].
Proof. vm_compute. split; reflexivity. Qed.
Example C70_tiny_case : xxh3_64_plain [x61] <> xxh3_64_plain [x61; x00].
Proof. intro E. apply C70_tiny in E; [discriminate E|unfold mlen; cbn; lia..]. Qed.
Example C70_same_length_case : xxh3_64_plain (Demo.key 7) <> xxh3_64_plain (repeat x61 7) /\ xxh3_128_plain (Demo.key 13) <> xxh3_128_plain (repeat x61 13).
Proof.
  split; intro E.
  - apply (proj1 (C70_same_length default_secret default_secret 0 (Demo.key 7) (repeat x61 7) eq_refl)) in E; [discriminate E|].
    unfold mlen. rewrite key_length. lia.
  - apply (proj2 (C70_same_length default_secret default_secret 0 (Demo.key 13) (repeat x61 13) eq_refl)) in E; [discriminate E|].
    unfold mlen. rewrite key_length. lia.
Qed.
Example C70_seed_case : xxh3_64_seed 5 (Demo.key 8) <> xxh3_64_seed 6 (Demo.key 8).
Proof. intro E. apply C70_seed in E; [discriminate E|unfold mlen; rewrite key_length; lia|reflexivity..]. Qed.
Example C70_partner_case : exists p, mlen p = 8 /\ p <> Demo.key 300 /\ xxh3_64_seed 9 p = xxh3_64_seed 9 (Demo.key 300).
Proof. apply (C70_partner default_secret (custom_secret 9) 9 (Demo.key 300)). unfold mlen. rewrite key_length. discriminate. Qed.
