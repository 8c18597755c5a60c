(** Fetches and tails: what they return and which bytes they touch. *)
From Coq Require Import ZArith NArith Arith List Bool Lia Strings.Byte.
From Coq Require Import ZifyN ZifyNat ZifyBool.
From Verif Require Import Bytes CSem Bits Spec NBits CSemFacts OpsFacts.
Import ListNotations.
Ltac Zify.zify_post_hook ::= Z.div_mod_to_equations.
Local Open Scope N_scope.

(** ** Byte swaps *)
Lemma shl64_mask : forall v s j, v < W64 -> s <= j -> j <= 56 ->
  N.land (shl64 v s) (255 * 2 ^ j) = (v / 2 ^ (j - s)) mod 256 * 2 ^ j.
Proof.
  intros v s j Hv Hs Hj. change 255 with (N.ones 8). rewrite land_mask. f_equal.
  unfold shl64. rewrite N.shiftl_mul_pow2, u64_eq.
  replace 64 with (s + (64 - s)) by lia. rewrite mod_pow2_mul.
  replace (2 ^ j) with (2 ^ (j - s) * 2 ^ s) by (rewrite <- N.pow_add_r; f_equal; lia).
  rewrite N.div_mul_cancel_r by (apply N.pow_nonzero; lia).
  change 256 with (2 ^ 8).
  rewrite <- !N.shiftr_div_pow2, <- !N.land_ones. apply N.bits_inj. intro i.
  rewrite !N.land_spec, !N.shiftr_spec', N.land_spec.
  destruct (N.ltb_spec i 8).
  - rewrite (N.ones_spec_low (64 - s)) by lia. now rewrite andb_true_r.
  - rewrite (N.ones_spec_high 8) by lia. now rewrite !andb_false_r.
Qed.

Lemma shr64_mask : forall v s j, v < W64 ->
  N.land (shr64 v s) (255 * 2 ^ j) = (v / 2 ^ (j + s)) mod 256 * 2 ^ j.
Proof.
  intros v s j Hv. change 255 with (N.ones 8). rewrite land_mask. f_equal.
  unfold shr64. rewrite u64_small, N.shiftr_div_pow2 by assumption.
  rewrite N.div_div by (apply N.pow_nonzero; lia). rewrite <- N.pow_add_r.
  now rewrite (N.add_comm s j).
Qed.

Lemma lor_step : forall a b k, a < 2 ^ k -> b < 256 ->
  N.lor a (b * 2 ^ k) = a + b * 2 ^ k /\ a + b * 2 ^ k < 2 ^ (k + 8).
Proof.
  intros a b k Ha Hb. split; [now apply lor_low_high|].
  rewrite N.pow_add_r. change (2 ^ 8) with 256. nia.
Qed.

Lemma lor_sum8 : forall b0 b1 b2 b3 b4 b5 b6 b7,
  b0 < 256 -> b1 < 256 -> b2 < 256 -> b3 < 256 -> b4 < 256 -> b5 < 256 -> b6 < 256 -> b7 < 256 ->
  N.lor (N.lor (N.lor (N.lor (N.lor (N.lor (N.lor b0 (b1 * 2 ^ 8)) (b2 * 2 ^ 16)) (b3 * 2 ^ 24))
    (b4 * 2 ^ 32)) (b5 * 2 ^ 40)) (b6 * 2 ^ 48)) (b7 * 2 ^ 56)
  = b0 + b1 * 2 ^ 8 + b2 * 2 ^ 16 + b3 * 2 ^ 24 + b4 * 2 ^ 32 + b5 * 2 ^ 40 + b6 * 2 ^ 48 + b7 * 2 ^ 56.
Proof.
  intros b0 b1 b2 b3 b4 b5 b6 b7 H0 H1 H2 H3 H4 H5 H6 H7.
  destruct (lor_step b0 b1 8 ltac:(exact H0) H1) as [-> L1].
  destruct (lor_step _ b2 16 L1 H2) as [-> L2].
  destruct (lor_step _ b3 24 L2 H3) as [-> L3].
  destruct (lor_step _ b4 32 L3 H4) as [-> L4].
  destruct (lor_step _ b5 40 L4 H5) as [-> L5].
  destruct (lor_step _ b6 48 L5 H6) as [-> L6].
  destruct (lor_step _ b7 56 L6 H7) as [-> _]. reflexivity.
Qed.

(** compute the constant divisors of [x] *)
Ltac norm_divs x :=
  repeat match goal with |- context [x / ?d] =>
    let d' := eval vm_compute in d in progress change (x / d) with (x / d') end.

Lemma bswap64_eq : forall cfg v, bswap64 cfg v = be_num (le_bytes 8 (u64 v)).
Proof.
  intros cfg v. unfold bswap64. pose proof (u64_lt v) as Hv.
  set (x := u64 v) in *. clearbody x. clear v.
  destruct (swap_builtin cfg); [reflexivity|].
  change 0x00ff000000000000 with (255 * 2 ^ 48). change 0x0000ff0000000000 with (255 * 2 ^ 40).
  change 0x000000ff00000000 with (255 * 2 ^ 32). change 0x00000000ff000000 with (255 * 2 ^ 24).
  change 0x0000000000ff0000 with (255 * 2 ^ 16). change 0x000000000000ff00 with (255 * 2 ^ 8).
  rewrite !shl64_mask, !shr64_mask by (assumption || lia).
  assert (E7 : shl64 x 56 = x mod 256 * 2 ^ 56).
  { unfold shl64. rewrite N.shiftl_mul_pow2, u64_eq. change 64 with (56 + 8).
    rewrite mod_pow2_mul. reflexivity. }
  assert (E0 : shr64 x 56 = (x / 2 ^ 56) mod 256).
  { unfold shr64. rewrite u64_small, N.shiftr_div_pow2 by assumption.
    symmetry. apply N.mod_small. apply N.div_lt_upper_bound; [discriminate|exact Hv]. }
  rewrite E7, E0.
  change (48 - 40) with 8. change (40 - 24) with 16. change (32 - 8) with 24.
  change (24 + 8) with 32. change (16 + 24) with 40. change (8 + 40) with 48.
  unfold be_num. cbn [le_bytes rev app le_num]. rewrite !b2n_n2b, !N.div_div by discriminate.
  match goal with |- _ = ?r => transitivity
    ((x / 2 ^ 56) mod 256 + (x / 2 ^ 48) mod 256 * 2 ^ 8 + (x / 2 ^ 40) mod 256 * 2 ^ 16
     + (x / 2 ^ 32) mod 256 * 2 ^ 24 + (x / 2 ^ 24) mod 256 * 2 ^ 32
     + (x / 2 ^ 16) mod 256 * 2 ^ 40 + (x / 2 ^ 8) mod 256 * 2 ^ 48 + x mod 256 * 2 ^ 56) end.
  - rewrite <- lor_sum8 by (apply N.mod_lt; discriminate).
    apply N.bits_inj. intro i. rewrite !N.lor_spec.
    repeat match goal with |- context [N.testbit ?a i] => generalize (N.testbit a i); intro end.
        repeat match goal with b : bool |- _ => destruct b end; reflexivity.
  - norm_divs x.
    repeat match goal with |- context [?a mod 256] => generalize (a mod 256); intro end. lia.
Qed.

Lemma bswap32_eq : forall cfg v, bswap32 cfg v = be_num (le_bytes 4 (u32 v)).
Proof.
  intros cfg v. unfold bswap32. pose proof (u32_lt v) as Hv.
  set (x := u32 v) in *. clearbody x. clear v.
  destruct (swap_builtin cfg); [reflexivity|].
  change 0x00ff0000 with (N.ones 8 * 2 ^ 16). change 0x0000ff00 with (N.ones 8 * 2 ^ 8).
  rewrite !land_mask. unfold shl32, shr32. rewrite !N.shiftl_mul_pow2, !N.shiftr_div_pow2.
  rewrite !u32_eq. rewrite (N.mod_small x) by assumption.
  unfold be_num. cbn [le_bytes rev app le_num]. rewrite !b2n_n2b, !N.div_div by discriminate.
  assert (E3 : (x * 2 ^ 24) mod 2 ^ 32 = x mod 256 * 2 ^ 24).
  { change 32 with (24 + 8). rewrite mod_pow2_mul. reflexivity. }
  assert (E2 : (x * 2 ^ 8) mod 2 ^ 32 / 2 ^ 16 mod 2 ^ 8 = (x / 2 ^ 8) mod 256).
  { change (2 ^ 32) with W32. change (2 ^ 16) with 65536. change (2 ^ 8) with 256. lia. }
  assert (E1 : x / (2 ^ 8 * 2 ^ 8) mod 2 ^ 8 = (x / 2 ^ 16) mod 256) by reflexivity.
  assert (E0 : x / 2 ^ 24 = (x / 2 ^ 24) mod 256).
  { symmetry. apply N.mod_small. apply N.div_lt_upper_bound; [discriminate|exact Hv]. }
  rewrite E3, E2, E1, E0.
  match goal with |- _ = ?r => transitivity
    ((x / 2 ^ 24) mod 256 + (x / 2 ^ 16) mod 256 * 2 ^ 8 + (x / 2 ^ 8) mod 256 * 2 ^ 16
     + x mod 256 * 2 ^ 24 + 0 * 2 ^ 32 + 0 * 2 ^ 40 + 0 * 2 ^ 48 + 0 * 2 ^ 56) end.
  - rewrite <- lor_sum8 by (try (apply N.mod_lt; discriminate); reflexivity).
    rewrite !N.mul_0_l, !N.lor_0_r.
    apply N.bits_inj. intro i. rewrite !N.lor_spec.
    repeat match goal with |- context [N.testbit ?a i] => generalize (N.testbit a i); intro end.
    repeat match goal with b : bool |- _ => destruct b end; reflexivity.
  - norm_divs x.
    repeat match goal with |- context [?a mod 256] => generalize (a mod 256); intro end. lia.
Qed.

Lemma bswap16_eq : forall cfg v, bswap16 cfg v = be_num (le_bytes 2 (u16 v)).
Proof.
  intros cfg v. unfold bswap16. assert (Hv : u16 v < W16) by (unfold u16; lia).
  set (x := u16 v) in *. clearbody x. clear v.
  destruct (swap_builtin cfg); [reflexivity|].
  unfold be_num. cbn [le_bytes rev app le_num]. rewrite !b2n_n2b.
  unfold u16. change W16 with (2 ^ 16). rewrite lor_mod_pow2.
  rewrite N.shiftl_mul_pow2, N.shiftr_div_pow2.
  assert (E1 : (x * 2 ^ 8) mod 2 ^ 16 = x mod 256 * 2 ^ 8).
  { change 16 with (8 + 8). rewrite mod_pow2_mul. reflexivity. }
  assert (E0 : (x / 2 ^ 8) mod 2 ^ 16 = (x / 256) mod 256).
  { change (2 ^ 8) with 256. change (2 ^ 16) with W16. lia. }
  rewrite E1, E0. rewrite lor_high_low by (apply N.mod_lt; discriminate).
  change (2 ^ 8) with 256. lia.
Qed.

Lemma bswap64_le : forall cfg l, length l = 8%nat -> bswap64 cfg (le_num l) = be_num l.
Proof.
  intros cfg l H. rewrite bswap64_eq. rewrite u64_small.
  - rewrite <- H, le_bytes_le_num. reflexivity.
  - pose proof (le_num_lt l). rewrite H in H0. exact H0.
Qed.
Lemma bswap64_be : forall cfg l, length l = 8%nat -> bswap64 cfg (be_num l) = le_num l.
Proof.
  intros cfg l H. unfold be_num. rewrite bswap64_le by now rewrite rev_length.
  unfold be_num. now rewrite rev_involutive.
Qed.
Lemma bswap32_le : forall cfg l, length l = 4%nat -> bswap32 cfg (le_num l) = be_num l.
Proof.
  intros cfg l H. rewrite bswap32_eq. rewrite u32_small.
  - rewrite <- H, le_bytes_le_num. reflexivity.
  - pose proof (le_num_lt l). rewrite H in H0. exact H0.
Qed.
Lemma bswap32_be : forall cfg l, length l = 4%nat -> bswap32 cfg (be_num l) = le_num l.
Proof.
  intros cfg l H. unfold be_num. rewrite bswap32_le by now rewrite rev_length.
  unfold be_num. now rewrite rev_involutive.
Qed.
Lemma bswap16_le : forall cfg l, length l = 2%nat -> bswap16 cfg (le_num l) = be_num l.
Proof.
  intros cfg l H. rewrite bswap16_eq. unfold u16. rewrite N.mod_small.
  - rewrite <- H, le_bytes_le_num. reflexivity.
  - pose proof (le_num_lt l). rewrite H in H0. exact H0.
Qed.
Lemma bswap16_be : forall cfg l, length l = 2%nat -> bswap16 cfg (be_num l) = le_num l.
Proof.
  intros cfg l H. unfold be_num. rewrite bswap16_le by now rewrite rev_length.
  unfold be_num. now rewrite rev_involutive.
Qed.

(** ** Raw reads *)
Lemma read_aligned_ok : forall cfg n p l m,
  p mod alignment cfg n = 0 -> bytes_at m p l -> length l = n ->
  read_aligned cfg n p m = Ok (if big_endian cfg then be_num l else le_num l, m).
Proof.
  intros cfg n p l m A H L. unfold read_aligned. rewrite A. cbn [N.eqb].
  destruct (ia32 cfg || is_efficient cfg); now apply load_uint_ok.
Qed.

Ltac ok H := rewrite (bind_ok _ _ _ _ _ _ _ H); cbv beta.

(** a list of known length, byte by byte *)
Ltac explode l :=
  repeat (destruct l as [|? l]; [cbn in *; lia || discriminate|]);
  destruct l as [|? l]; [|cbn in *; lia || discriminate].

Section Fetch.
  Variables (cfg : config) (m : mem).

  Lemma fetch16_le_aligned_ok : forall p l, p mod alignment cfg 2 = 0 ->
    bytes_at m p l -> length l = 2%nat -> fetch16_le_aligned cfg p m = Ok (le_num l, m).
  Proof.
    intros p l A H L. unfold fetch16_le_aligned.
    ok (assert_ok cfg (p mod alignment cfg 2 =? 0) m ltac:(now rewrite A)).
    ok (read_aligned_ok cfg 2 p l m A H L). unfold ret.
    destruct (big_endian cfg); [now rewrite bswap16_be|reflexivity].
  Qed.
  Lemma fetch16_be_aligned_ok : forall p l, p mod alignment cfg 2 = 0 ->
    bytes_at m p l -> length l = 2%nat -> fetch16_be_aligned cfg p m = Ok (be_num l, m).
  Proof.
    intros p l A H L. unfold fetch16_be_aligned.
    ok (assert_ok cfg (p mod alignment cfg 2 =? 0) m ltac:(now rewrite A)).
    ok (read_aligned_ok cfg 2 p l m A H L). unfold ret.
    destruct (big_endian cfg); [reflexivity|now rewrite bswap16_le].
  Qed.
  Lemma fetch32_le_aligned_ok : forall p l, p mod alignment cfg 4 = 0 ->
    bytes_at m p l -> length l = 4%nat -> fetch32_le_aligned cfg p m = Ok (le_num l, m).
  Proof.
    intros p l A H L. unfold fetch32_le_aligned.
    ok (assert_ok cfg (p mod alignment cfg 4 =? 0) m ltac:(now rewrite A)).
    ok (read_aligned_ok cfg 4 p l m A H L). unfold ret.
    destruct (big_endian cfg); [now rewrite bswap32_be|reflexivity].
  Qed.
  Lemma fetch32_be_aligned_ok : forall p l, p mod alignment cfg 4 = 0 ->
    bytes_at m p l -> length l = 4%nat -> fetch32_be_aligned cfg p m = Ok (be_num l, m).
  Proof.
    intros p l A H L. unfold fetch32_be_aligned.
    ok (assert_ok cfg (p mod alignment cfg 4 =? 0) m ltac:(now rewrite A)).
    ok (read_aligned_ok cfg 4 p l m A H L). unfold ret.
    destruct (big_endian cfg); [reflexivity|now rewrite bswap32_le].
  Qed.
  Lemma fetch64_le_aligned_ok : forall p l, p mod alignment cfg 8 = 0 ->
    bytes_at m p l -> length l = 8%nat -> fetch64_le_aligned cfg p m = Ok (le_num l, m).
  Proof.
    intros p l A H L. unfold fetch64_le_aligned.
    ok (assert_ok cfg (p mod alignment cfg 8 =? 0) m ltac:(now rewrite A)).
    ok (read_aligned_ok cfg 8 p l m A H L). unfold ret.
    destruct (big_endian cfg); [now rewrite bswap64_be|reflexivity].
  Qed.
  Lemma fetch64_be_aligned_ok : forall p l, p mod alignment cfg 8 = 0 ->
    bytes_at m p l -> length l = 8%nat -> fetch64_be_aligned cfg p m = Ok (be_num l, m).
  Proof.
    intros p l A H L. unfold fetch64_be_aligned.
    ok (assert_ok cfg (p mod alignment cfg 8 =? 0) m ltac:(now rewrite A)).
    ok (read_aligned_ok cfg 8 p l m A H L). unfold ret.
    destruct (big_endian cfg); [reflexivity|now rewrite bswap64_le].
  Qed.

  Lemma fetch16_le_unaligned_ok : forall p l, p + 2 <= addr_space cfg ->
    bytes_at m p l -> length l = 2%nat -> fetch16_le_unaligned cfg p m = Ok (le_num l, m).
  Proof.
    intros p l A H L. unfold fetch16_le_unaligned. destruct (is_unable cfg).
    - explode l. apply bytes_at_cons in H. destruct H as [H0 H].
      apply bytes_at_cons in H. destruct H as [H1 _].
      ok (load8_ok m p b H0). rewrite padd_small by lia. ok (load8_ok m _ b0 H1).
      unfold ret. cbn [le_num]. do 2 f_equal.
      pose proof (b2n_lt b). pose proof (b2n_lt b0).
      rewrite N.shiftl_mul_pow2, lor_low_high by assumption.
      unfold u16. rewrite N.mod_small by (change (2 ^ 8) with 256; lia).
      change (2 ^ 8) with 256. lia.
    - unfold read_unaligned. ok (load_uint_ok cfg m p l 2 H L). unfold ret.
      destruct (big_endian cfg); [now rewrite bswap16_be|reflexivity].
  Qed.
  Lemma fetch16_be_unaligned_ok : forall p l, p + 2 <= addr_space cfg ->
    bytes_at m p l -> length l = 2%nat -> fetch16_be_unaligned cfg p m = Ok (be_num l, m).
  Proof.
    intros p l A H L. unfold fetch16_be_unaligned. destruct (is_unable cfg).
    - explode l. apply bytes_at_cons in H. destruct H as [H0 H].
      apply bytes_at_cons in H. destruct H as [H1 _].
      ok (load8_ok m p b H0). rewrite padd_small by lia. ok (load8_ok m _ b0 H1).
      unfold ret. unfold be_num. cbn [rev app le_num]. do 2 f_equal.
      pose proof (b2n_lt b). pose proof (b2n_lt b0).
      rewrite N.shiftl_mul_pow2, lor_high_low by assumption.
      unfold u16. rewrite N.mod_small by (change (2 ^ 8) with 256; lia).
      change (2 ^ 8) with 256. lia.
    - unfold read_unaligned. ok (load_uint_ok cfg m p l 2 H L). unfold ret.
      destruct (big_endian cfg); [reflexivity|now rewrite bswap16_le].
  Qed.

  Lemma split_at : forall p a l, bytes_at m p l -> (a <= length l)%nat ->
    bytes_at m p (firstn a l) /\ bytes_at m (p + N.of_nat a) (skipn a l).
  Proof.
    intros p a l H L. split; [now apply bytes_at_firstn|now apply bytes_at_skipn].
  Qed.

  Lemma fetch32_le_unaligned_ok : forall p l, p + 4 <= addr_space cfg ->
    bytes_at m p l -> length l = 4%nat -> fetch32_le_unaligned cfg p m = Ok (le_num l, m).
  Proof.
    intros p l A H L. unfold fetch32_le_unaligned. destruct (is_unable cfg).
    - destruct (split_at p 2 l H ltac:(lia)) as [H1 H2]. rewrite padd_small by lia.
      assert (L1 : length (firstn 2 l) = 2%nat) by (rewrite firstn_length_le; lia).
      assert (L2 : length (skipn 2 l) = 2%nat) by (rewrite skipn_length; lia).
      ok (fetch16_le_unaligned_ok p _ ltac:(lia) H1 L1).
      ok (fetch16_le_unaligned_ok (p + 2) _ ltac:(lia) H2 L2). unfold ret. do 2 f_equal.
      rewrite <- (firstn_skipn 2 l) at 3. rewrite le_num_app, L1.
      pose proof (le_num_lt (firstn 2 l)) as B1. rewrite L1 in B1.
      pose proof (le_num_lt (skipn 2 l)) as B2. rewrite L2 in B2.
      change (256 ^ N.of_nat 2) with W16 in *.
      unfold shl32. rewrite N.shiftl_mul_pow2, u32_small by (change (2 ^ 16) with W16; lia).
      rewrite lor_low_high by assumption. change (2 ^ 16) with W16. lia.
    - unfold read_unaligned. ok (load_uint_ok cfg m p l 4 H L). unfold ret.
      destruct (big_endian cfg); [now rewrite bswap32_be|reflexivity].
  Qed.
  Lemma fetch32_be_unaligned_ok : forall p l, p + 4 <= addr_space cfg ->
    bytes_at m p l -> length l = 4%nat -> fetch32_be_unaligned cfg p m = Ok (be_num l, m).
  Proof.
    intros p l A H L. unfold fetch32_be_unaligned. destruct (is_unable cfg).
    - destruct (split_at p 2 l H ltac:(lia)) as [H1 H2]. rewrite padd_small by lia.
      assert (L1 : length (firstn 2 l) = 2%nat) by (rewrite firstn_length_le; lia).
      assert (L2 : length (skipn 2 l) = 2%nat) by (rewrite skipn_length; lia).
      ok (fetch16_be_unaligned_ok p _ ltac:(lia) H1 L1).
      ok (fetch16_be_unaligned_ok (p + 2) _ ltac:(lia) H2 L2). unfold ret. do 2 f_equal.
      rewrite <- (firstn_skipn 2 l) at 3. rewrite be_num_app, L2.
      pose proof (be_num_lt (firstn 2 l)) as B1. rewrite L1 in B1.
      pose proof (be_num_lt (skipn 2 l)) as B2. rewrite L2 in B2.
      change (256 ^ N.of_nat 2) with W16 in *.
      unfold shl32. rewrite N.shiftl_mul_pow2, u32_small by (change (2 ^ 16) with W16; lia).
      rewrite lor_high_low by assumption. change (2 ^ 16) with W16. lia.
    - unfold read_unaligned. ok (load_uint_ok cfg m p l 4 H L). unfold ret.
      destruct (big_endian cfg); [reflexivity|now rewrite bswap32_le].
  Qed.
  Lemma fetch64_le_unaligned_ok : forall p l, p + 8 <= addr_space cfg ->
    bytes_at m p l -> length l = 8%nat -> fetch64_le_unaligned cfg p m = Ok (le_num l, m).
  Proof.
    intros p l A H L. unfold fetch64_le_unaligned. destruct (is_unable cfg).
    - destruct (split_at p 4 l H ltac:(lia)) as [H1 H2]. rewrite padd_small by lia.
      assert (L1 : length (firstn 4 l) = 4%nat) by (rewrite firstn_length_le; lia).
      assert (L2 : length (skipn 4 l) = 4%nat) by (rewrite skipn_length; lia).
      ok (fetch32_le_unaligned_ok p _ ltac:(lia) H1 L1).
      ok (fetch32_le_unaligned_ok (p + 4) _ ltac:(lia) H2 L2). unfold ret. do 2 f_equal.
      rewrite <- (firstn_skipn 4 l) at 3. rewrite le_num_app, L1.
      pose proof (le_num_lt (firstn 4 l)) as B1. rewrite L1 in B1.
      pose proof (le_num_lt (skipn 4 l)) as B2. rewrite L2 in B2.
      change (256 ^ N.of_nat 4) with W32 in *.
      unfold shl64. rewrite N.shiftl_mul_pow2, u64_small by (change (2 ^ 32) with W32; lia).
      rewrite lor_low_high by assumption. change (2 ^ 32) with W32. lia.
    - unfold read_unaligned. ok (load_uint_ok cfg m p l 8 H L). unfold ret.
      destruct (big_endian cfg); [now rewrite bswap64_be|reflexivity].
  Qed.
  Lemma fetch64_be_unaligned_ok : forall p l, p + 8 <= addr_space cfg ->
    bytes_at m p l -> length l = 8%nat -> fetch64_be_unaligned cfg p m = Ok (be_num l, m).
  Proof.
    intros p l A H L. unfold fetch64_be_unaligned. destruct (is_unable cfg).
    - destruct (split_at p 4 l H ltac:(lia)) as [H1 H2]. rewrite padd_small by lia.
      assert (L1 : length (firstn 4 l) = 4%nat) by (rewrite firstn_length_le; lia).
      assert (L2 : length (skipn 4 l) = 4%nat) by (rewrite skipn_length; lia).
      ok (fetch32_be_unaligned_ok p _ ltac:(lia) H1 L1).
      ok (fetch32_be_unaligned_ok (p + 4) _ ltac:(lia) H2 L2). unfold ret. do 2 f_equal.
      rewrite <- (firstn_skipn 4 l) at 3. rewrite be_num_app, L2.
      pose proof (be_num_lt (firstn 4 l)) as B1. rewrite L1 in B1.
      pose proof (be_num_lt (skipn 4 l)) as B2. rewrite L2 in B2.
      change (256 ^ N.of_nat 4) with W32 in *.
      unfold shl64. rewrite N.shiftl_mul_pow2, u64_small by (change (2 ^ 32) with W32; lia).
      rewrite lor_high_low by assumption. change (2 ^ 32) with W32. lia.
    - unfold read_unaligned. ok (load_uint_ok cfg m p l 8 H L). unfold ret.
      destruct (big_endian cfg); [reflexivity|now rewrite bswap64_le].
  Qed.
End Fetch.
