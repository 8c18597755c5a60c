(** XXH32 and XXH64 compute their specification. *)
From Coq Require Import ZArith NArith Arith List Bool Lia Strings.Byte.
From Coq Require Import ZifyN ZifyNat ZifyBool.
From Verif Require Import Bytes CSem Bits Spec NBits CSemFacts OpsFacts FetchFacts CtxMem HighwayFacts Xxhash XxhashSpec.
Import ListNotations.
Ltac Zify.zify_post_hook ::= Z.div_mod_to_equations.
Local Open Scope N_scope.

(** ** Arithmetic *)
Lemma rotl32_eq : forall x r, r <= 32 -> XXH_rotl32 x r = left_32 x r.
Proof.
  intros x r H. unfold XXH_rotl32, left_32. rewrite <- rot32_eq by lia. unfold rot32. cbv zeta.
  replace (32 - (32 - r)) with r by lia. rewrite N.lor_comm. f_equal.
  - unfold shr32. now rewrite u32_u32.
  - unfold shl32. rewrite !u32_eq, !N.shiftl_mul_pow2. now rewrite N.mul_mod_idemp_l by discriminate.
Qed.
Lemma rotl64_eq : forall x r, r <= 64 -> XXH_rotl64 x r = left_64 x r.
Proof.
  intros x r H. unfold XXH_rotl64, left_64. rewrite <- rot64_eq by lia. unfold rot64. cbv zeta.
  replace (64 - (64 - r)) with r by lia. rewrite N.lor_comm. f_equal.
  - unfold shr64. now rewrite u64_u64.
  - unfold shl64. rewrite !u64_eq, !N.shiftl_mul_pow2. now rewrite N.mul_mod_idemp_l by discriminate.
Qed.
Lemma shr32_eq : forall x r, shr32 x r = (x mod 2 ^ 32) / 2 ^ r.
Proof. intros. unfold shr32. now rewrite N.shiftr_div_pow2, u32_eq. Qed.
Lemma shr64_eq : forall x r, shr64 x r = (x mod 2 ^ 64) / 2 ^ r.
Proof. intros. unfold shr64. now rewrite N.shiftr_div_pow2, u64_eq. Qed.

Lemma round32_eq : forall a w, XXH32_round a w = round_32 a w.
Proof. intros. unfold XXH32_round. rewrite rotl32_eq by lia. reflexivity. Qed.
Lemma round64_eq : forall a w, XXH64_round a w = round_64 a w.
Proof. intros. unfold XXH64_round. rewrite rotl64_eq by lia. reflexivity. Qed.
Lemma avalanche32_eq : forall h, XXH32_avalanche h = mix_bits_32 h.
Proof. intros. unfold XXH32_avalanche. cbv zeta. rewrite !shr32_eq. reflexivity. Qed.
Lemma avalanche64_eq : forall h, XXH64_avalanche h = mix_bits_64 h.
Proof. intros. unfold XXH64_avalanche. cbv zeta. rewrite !shr64_eq. reflexivity. Qed.
Lemma start32_eq : forall s, XXH32_start s = begin_32 s.
Proof. reflexivity. Qed.
Lemma start64_eq : forall s, XXH64_start s = begin_64 s.
Proof. reflexivity. Qed.
Lemma converge32_eq : forall v, XXH32_converge v = join_32 v.
Proof. intros [[[a b] c] d]. unfold XXH32_converge, join_32. rewrite !rotl32_eq by lia. reflexivity. Qed.
Lemma merge64_eq : forall h v, XXH64_mergeRound h v = merge_64 h v.
Proof. intros. unfold XXH64_mergeRound. rewrite round64_eq. reflexivity. Qed.
Lemma converge64_eq : forall v, XXH64_converge v = join_64 v.
Proof. intros [[[a b] c] d]. unfold XXH64_converge, join_64. cbv zeta. rewrite !rotl64_eq, !merge64_eq by lia. reflexivity. Qed.

(** ** Reads *)
Lemma swap32_eq : forall cfg x, x < 2 ^ 32 -> XXH_swap32 cfg x = bswap32 cfg x.
Proof.
  intros cfg x H. unfold XXH_swap32, bswap32. cbv zeta. rewrite (u32_small x) by exact H.
  destruct (swap_builtin cfg); [reflexivity|].
  assert (E1 : N.land (shl32 x 24) 0xff000000 = shl32 x 24).
  { change 0xff000000 with (N.ones 8 * 2 ^ 24). rewrite land_mask. unfold shl32. rewrite N.shiftl_mul_pow2, u32_eq.
    change 32 with (24 + 8). rewrite mod_pow2_mul. rewrite N.div_mul by discriminate. now rewrite N.mod_mod by discriminate. }
  assert (E2 : N.land (shr32 x 24) 0xff = shr32 x 24).
  { change 0xff with (N.ones 8). rewrite N.land_ones. apply N.mod_small. rewrite shr32_eq. rewrite N.mod_small by exact H.
    apply N.div_lt_upper_bound; [discriminate|exact H]. }
  rewrite E1, E2. apply N.bits_inj. intro i. rewrite !N.lor_spec.
  repeat match goal with |- context [N.testbit ?a i] => generalize (N.testbit a i); intro end.
  repeat match goal with b : bool |- _ => destruct b end; reflexivity.
Qed.
Lemma swap64_eq : forall cfg x, x < 2 ^ 64 -> XXH_swap64 cfg x = bswap64 cfg x.
Proof.
  intros cfg x H. unfold XXH_swap64, bswap64. cbv zeta. rewrite (u64_small x) by exact H.
  destruct (swap_builtin cfg); [reflexivity|].
  assert (E1 : N.land (shl64 x 56) 0xff00000000000000 = shl64 x 56).
  { change 0xff00000000000000 with (N.ones 8 * 2 ^ 56). rewrite land_mask. unfold shl64. rewrite N.shiftl_mul_pow2, u64_eq.
    change 64 with (56 + 8). rewrite mod_pow2_mul. rewrite N.div_mul by discriminate. now rewrite N.mod_mod by discriminate. }
  assert (E2 : N.land (shr64 x 56) 0xff = shr64 x 56).
  { change 0xff with (N.ones 8). rewrite N.land_ones. apply N.mod_small. rewrite shr64_eq. rewrite N.mod_small by exact H.
    apply N.div_lt_upper_bound; [discriminate|exact H]. }
  rewrite E1, E2. apply N.bits_inj. intro i. rewrite !N.lor_spec.
  repeat match goal with |- context [N.testbit ?a i] => generalize (N.testbit a i); intro end.
  repeat match goal with b : bool |- _ => destruct b end; reflexivity.
Qed.
Lemma swap32_be : forall cfg l, length l = 4%nat -> XXH_swap32 cfg (be_num l) = le_num l.
Proof.
  intros cfg l H. rewrite swap32_eq; [now apply bswap32_be|]. unfold be_num. pose proof (le_num_lt (rev l)) as L.
  rewrite rev_length, H in L. exact L.
Qed.
Lemma swap32_le : forall cfg l, length l = 4%nat -> XXH_swap32 cfg (le_num l) = be_num l.
Proof.
  intros cfg l H. rewrite swap32_eq; [now apply bswap32_le|]. pose proof (le_num_lt l) as L. rewrite H in L. exact L.
Qed.
Lemma swap64_be : forall cfg l, length l = 8%nat -> XXH_swap64 cfg (be_num l) = le_num l.
Proof.
  intros cfg l H. rewrite swap64_eq; [now apply bswap64_be|]. unfold be_num. pose proof (le_num_lt (rev l)) as L.
  rewrite rev_length, H in L. exact L.
Qed.
Lemma swap64_le : forall cfg l, length l = 8%nat -> XXH_swap64 cfg (le_num l) = be_num l.
Proof.
  intros cfg l H. rewrite swap64_eq; [now apply bswap64_le|]. pose proof (le_num_lt l) as L. rewrite H in L. exact L.
Qed.

Lemma shl32_byte : forall b s, s <= 24 -> shl32 (b2n b) s = b2n b * 2 ^ s.
Proof.
  intros b s H. unfold shl32. rewrite N.shiftl_mul_pow2. apply u32_small. pose proof (b2n_lt b) as L.
  assert (2 ^ s <= 2 ^ 24) by (apply N.pow_le_mono_r; lia). change (2 ^ 24) with 16777216 in *. nia.
Qed.
Lemma shl64_byte : forall b s, s <= 56 -> shl64 (b2n b) s = b2n b * 2 ^ s.
Proof.
  intros b s H. unfold shl64. rewrite N.shiftl_mul_pow2. apply u64_small. pose proof (b2n_lt b) as L.
  assert (2 ^ s <= 2 ^ 56) by (apply N.pow_le_mono_r; lia). change (2 ^ 56) with 72057594037927936 in *. nia.
Qed.

Section Reads.
  Variable (cfg : config) (xb : xxh_build) (m : mem).

  (** a read of [n] bytes at [p] is fine if it need not be aligned, or is *)
  Definition fine (align : bool) (n : nat) (p : N) : Prop :=
    align || (xxh_force_memory_access xb =? 2) = true -> p mod alignment cfg n = 0.

  Lemma byte_of_ok : forall p i b, m (p + i) = Some b -> p + i < addr_space cfg -> byte_of cfg p i m = Ok (b2n b, m).
  Proof. intros p i b H A. unfold byte_of. rewrite padd_small by exact A. ok (load8_ok m (p + i) b H). reflexivity. Qed.

  Lemma deref_ok : forall p l n, bytes_at m p l -> length l = n -> p mod alignment cfg n = 0 ->
    deref cfg n p m = Ok (if big_endian cfg then be_num l else le_num l, m).
  Proof.
    intros p l n H L A. unfold deref. rewrite A. cbn [N.eqb]. now apply load_uint_ok.
  Qed.


  Lemma readLE32_ok : forall p l, bytes_at m p l -> length l = 4%nat -> p + 4 <= addr_space cfg -> fine false 4 p ->
    XXH_readLE32 cfg xb p m = Ok (le_num l, m).
  Proof.
    intros p l H L A F. unfold XXH_readLE32. destruct (N.eqb_spec (xxh_force_memory_access xb) 3) as [E|E].
    - destruct l as [|b0 [|b1 [|b2 [|b3 [|]]]]]; try discriminate L.
      apply bytes_at_cons in H. destruct H as [H0 H]. apply bytes_at_cons in H. destruct H as [H1 H].
      apply bytes_at_cons in H. destruct H as [H2 H]. apply bytes_at_cons in H. destruct H as [H3 _].
      rewrite <- (N.add_0_r p) in H0. replace (p + 1 + 1) with (p + 2) in * by lia. replace (p + 2 + 1) with (p + 3) in * by lia.
      ok (byte_of_ok p 0 b0 H0 ltac:(lia)). ok (byte_of_ok p 1 b1 H1 ltac:(lia)).
      ok (byte_of_ok p 2 b2 H2 ltac:(lia)). ok (byte_of_ok p 3 b3 H3 ltac:(lia)).
      unfold ret. do 3 f_equal. rewrite !shl32_byte by lia. cbn [le_num].
      pose proof (b2n_lt b0). pose proof (b2n_lt b1). pose proof (b2n_lt b2). pose proof (b2n_lt b3).
      destruct (lor_step (b2n b0) (b2n b1) 8 ltac:(assumption) ltac:(assumption)) as [-> L1].
      destruct (lor_step _ (b2n b2) 16 L1 ltac:(assumption)) as [-> L2].
      destruct (lor_step _ (b2n b3) 24 L2 ltac:(assumption)) as [-> _]. lia.
    - assert (R : XXH_read32 cfg xb p m = Ok (if big_endian cfg then be_num l else le_num l, m)).
      { unfold XXH_read32. unfold fine in F. cbn [orb] in F. destruct (N.eqb_spec (xxh_force_memory_access xb) 2) as [E2|E2].
        - apply deref_ok; auto.
        - now apply load_uint_ok. }
      ok R. destruct (big_endian cfg); [|reflexivity]. now rewrite swap32_be.
  Qed.
  Lemma readLE64_ok : forall p l, bytes_at m p l -> length l = 8%nat -> p + 8 <= addr_space cfg -> fine false 8 p ->
    XXH_readLE64 cfg xb p m = Ok (le_num l, m).
  Proof.
    intros p l H L A F. unfold XXH_readLE64. destruct (N.eqb_spec (xxh_force_memory_access xb) 3) as [E|E].
    - destruct l as [|b0 [|b1 [|b2 [|b3 [|b4 [|b5 [|b6 [|b7 [|]]]]]]]]]; try discriminate L.
      apply bytes_at_cons in H. destruct H as [H0 H]. apply bytes_at_cons in H. destruct H as [H1 H].
      apply bytes_at_cons in H. destruct H as [H2 H]. apply bytes_at_cons in H. destruct H as [H3 H].
      apply bytes_at_cons in H. destruct H as [H4 H]. apply bytes_at_cons in H. destruct H as [H5 H].
      apply bytes_at_cons in H. destruct H as [H6 H]. apply bytes_at_cons in H. destruct H as [H7 _].
      rewrite <- (N.add_0_r p) in H0. replace (p + 1 + 1) with (p + 2) in * by lia. replace (p + 2 + 1) with (p + 3) in * by lia.
      replace (p + 3 + 1) with (p + 4) in * by lia. replace (p + 4 + 1) with (p + 5) in * by lia.
      replace (p + 5 + 1) with (p + 6) in * by lia. replace (p + 6 + 1) with (p + 7) in * by lia.
      ok (byte_of_ok p 0 b0 H0 ltac:(lia)). ok (byte_of_ok p 1 b1 H1 ltac:(lia)).
      ok (byte_of_ok p 2 b2 H2 ltac:(lia)). ok (byte_of_ok p 3 b3 H3 ltac:(lia)).
      ok (byte_of_ok p 4 b4 H4 ltac:(lia)). ok (byte_of_ok p 5 b5 H5 ltac:(lia)).
      ok (byte_of_ok p 6 b6 H6 ltac:(lia)). ok (byte_of_ok p 7 b7 H7 ltac:(lia)).
      unfold ret. do 3 f_equal. rewrite !shl64_byte by lia. cbn [le_num].
      rewrite lor_sum8 by apply b2n_lt. lia.
    - assert (R : XXH_read64 cfg xb p m = Ok (if big_endian cfg then be_num l else le_num l, m)).
      { unfold XXH_read64. unfold fine in F. cbn [orb] in F. destruct (N.eqb_spec (xxh_force_memory_access xb) 2) as [E2|E2].
        - apply deref_ok; auto.
        - now apply load_uint_ok. }
      ok R. destruct (big_endian cfg); [|reflexivity]. now rewrite swap64_be.
  Qed.
  Lemma readLE32_align_ok : forall align p l, bytes_at m p l -> length l = 4%nat -> p + 4 <= addr_space cfg -> fine align 4 p ->
    XXH_readLE32_align cfg xb align p m = Ok (le_num l, m).
  Proof.
    intros align p l H L A F. unfold XXH_readLE32_align. destruct align; cbn [negb].
    - unfold fine in F. cbn [orb] in F. ok (deref_ok p l 4 H L (F eq_refl)). destruct (big_endian cfg); [|reflexivity].
      now rewrite swap32_be.
    - now apply readLE32_ok.
  Qed.
  Lemma readLE64_align_ok : forall align p l, bytes_at m p l -> length l = 8%nat -> p + 8 <= addr_space cfg -> fine align 8 p ->
    XXH_readLE64_align cfg xb align p m = Ok (le_num l, m).
  Proof.
    intros align p l H L A F. unfold XXH_readLE64_align. destruct align; cbn [negb].
    - unfold fine in F. cbn [orb] in F. ok (deref_ok p l 8 H L (F eq_refl)). destruct (big_endian cfg); [|reflexivity].
      now rewrite swap64_be.
    - now apply readLE64_ok.
  Qed.

  Lemma fine_add : forall align n p k, k mod alignment cfg n = 0 -> fine align n p -> fine align n (p + k).
  Proof.
    intros align n p k K F E. specialize (F E).
    assert (Z : alignment cfg n <> 0) by (unfold alignment; destruct n as [|[|[|[|[|]]]]]; try discriminate; destruct (wide cfg); discriminate).
    rewrite N.add_mod, F, K by exact Z. now rewrite N.mod_0_l.
  Qed.
End Reads.

(** ** Stripes *)
Section Stripes.
  Variable (cfg : config) (m : mem) (k : nat) (read : N -> M N) (round round' : N -> N -> N) (good : N -> Prop).
  Hypothesis k_pos : (0 < k)%nat.
  Hypothesis round_eq : forall a w, round a w = round' a w.
  Hypothesis read_ok : forall p w, bytes_at m p w -> length w = k -> p + N.of_nat k <= addr_space cfg -> good p -> read p m = Ok (le_num w, m).
  Hypothesis good_step : forall p, good p -> good (p + N.of_nat k).
  Let K := N.of_nat k.

  Lemma bytes_at_group : forall p l i, bytes_at m p l -> (k * i <= length l)%nat -> bytes_at m (p + K * N.of_nat i) (group k i l).
  Proof.
    intros p l i H L. unfold group. apply bytes_at_firstn. unfold K. rewrite <- Nat2N.inj_mul. now apply bytes_at_skipn.
  Qed.
  Lemma group_length : forall (l : list byte) i, (k * S i <= length l)%nat -> length (group k i l) = k.
  Proof. intros l i L. unfold group. rewrite firstn_length, skipn_length. lia. Qed.

  Lemma four_rounds_ok : forall v p s, length s = (4 * k)%nat -> bytes_at m p s -> p + 4 * K < addr_space cfg -> good p ->
    four_rounds cfg K read round (v, p) m = Ok ((stripe k round' v s, p + 4 * K), m).
  Proof.
    intros [[[v1 v2] v3] v4] p s L H A G. unfold four_rounds, stripe.
    pose proof (bytes_at_group p s 0 H ltac:(lia)) as H0. pose proof (bytes_at_group p s 1 H ltac:(lia)) as H1.
    pose proof (bytes_at_group p s 2 H ltac:(lia)) as H2. pose proof (bytes_at_group p s 3 H ltac:(lia)) as H3.
    replace (p + K * N.of_nat 0) with p in H0 by lia. replace (p + K * N.of_nat 1) with (p + K) in H1 by lia.
    replace (p + K * N.of_nat 2) with (p + K + K) in H2 by lia. replace (p + K * N.of_nat 3) with (p + K + K + K) in H3 by lia.
    assert (G1 : good (p + K)) by now apply good_step. assert (G2 : good (p + K + K)) by now apply good_step.
    assert (G3 : good (p + K + K + K)) by now apply good_step.
    ok (read_ok _ _ H0 (group_length s 0 ltac:(lia)) ltac:(unfold K in *; lia) G). rewrite (padd_small cfg p K) by lia.
    ok (read_ok _ _ H1 (group_length s 1 ltac:(lia)) ltac:(unfold K in *; lia) G1). rewrite (padd_small cfg (p + K) K) by lia.
    ok (read_ok _ _ H2 (group_length s 2 ltac:(lia)) ltac:(unfold K in *; lia) G2). rewrite (padd_small cfg (p + K + K) K) by lia.
    ok (read_ok _ _ H3 (group_length s 3 ltac:(lia)) ltac:(unfold K in *; lia) G3). rewrite (padd_small cfg (p + K + K + K) K) by lia.
    rewrite !round_eq. replace (p + 4 * K) with (p + K + K + K + K) by lia. reflexivity.
  Qed.

  Lemma stripes_ok : forall fuel msg v p e cond, (4 * k <= length msg)%nat -> (length msg / (4 * k) <= fuel)%nat ->
    bytes_at m p msg -> p + mlen msg = e -> e < addr_space cfg -> good p ->
    (forall v q, p <= q -> q <= e -> cond (v, q) = (q + 4 * K <=? e)) ->
    do_while fuel (four_rounds cfg K read round) cond (v, p) m =
      Ok ((fold_left (stripe k round') (blocks (4 * k) msg) v, p + 4 * K * (mlen msg / (4 * K))), m).
  Proof.
    induction fuel as [|fuel IH]; intros msg v p e cond L F H E A G C.
    - exfalso. assert (length msg / (4 * k) <> 0)%nat; [|lia]. intro Z. apply Nat.div_small_iff in Z; lia.
    - assert (ES : msg = firstn (4 * k) msg ++ skipn (4 * k) msg) by (symmetry; apply firstn_skipn).
      assert (L1 : length (firstn (4 * k) msg) = (4 * k)%nat) by (rewrite firstn_length; lia).
      set (b := firstn (4 * k) msg) in *. set (r := skipn (4 * k) msg) in *. clearbody b r. subst msg. clear L.
      assert (ML : mlen (b ++ r) = 4 * K + mlen r) by (unfold mlen, K; rewrite app_length; lia). rewrite ML in E.
      apply bytes_at_app in H. destruct H as [H1 H2]. rewrite L1 in H2. replace (N.of_nat (4 * k)) with (4 * K) in H2 by (unfold K; lia).
      rewrite app_length, L1, div_plus_one in F by lia.
      cbn [do_while]. ok (four_rounds_ok v p b L1 H1 ltac:(lia) G). rewrite C by lia.
      rewrite blocks_app by (lia || exact L1). cbn [fold_left]. rewrite ML.
      assert (KP : 4 * K <> 0) by (unfold K; lia).
      assert (D : (4 * K + mlen r) / (4 * K) = 1 + mlen r / (4 * K)).
      { replace (4 * K + mlen r) with (mlen r + 1 * (4 * K)) by lia. rewrite N.div_add by exact KP. lia. }
      rewrite D. replace (p + 4 * K * (1 + mlen r / (4 * K))) with (p + 4 * K + 4 * K * (mlen r / (4 * K))) by lia.
      destruct (N.leb_spec (p + 4 * K + 4 * K) e) as [X|X].
      + rewrite (IH r _ (p + 4 * K) e cond); auto; try lia.
        * unfold mlen, K in *. lia.
        * replace (p + 4 * K) with (p + K + K + K + K) by lia. unfold K. now repeat apply good_step.
        * intros v' q Q1 Q2. apply C; lia.
      + rewrite blocks_nil by (unfold mlen, K in *; lia). cbn [fold_left]. rewrite (N.div_small (mlen r)) by lia.
        unfold ret. do 3 f_equal. lia.
  Qed.
End Stripes.

(** ** The last bytes *)
Section Tail.
  Variable (cfg : config) (m : mem) (n : nat) (step : N * N -> M (N * N)) (f : N -> N -> N) (good : N -> Prop).
  Hypothesis n_pos : (0 < n)%nat.
  Hypothesis step_ok : forall h p w, bytes_at m p w -> length w = n -> p + N.of_nat n < addr_space cfg -> good p ->
    step (h, p) m = Ok ((f h (le_num w), p + N.of_nat n), m).
  Hypothesis good_step : forall p, good p -> good (p + N.of_nat n).

  Lemma while_len_ok : forall fuel l h p, (length l < fuel)%nat -> bytes_at m p l -> p + mlen l < addr_space cfg -> good p ->
    while_len fuel (N.of_nat n) step (h, p) (mlen l) m =
      Ok ((fold_left f (map le_num (blocks n l)) h, p + N.of_nat n * (mlen l / N.of_nat n), mlen (rest n l)), m).
  Proof.
    induction fuel as [|fuel IH]; intros l h p F H A G; [lia|]. cbn [while_len].
    destruct (Nat.le_gt_cases n (length l)) as [C|C].
    - assert (E : l = firstn n l ++ skipn n l) by (symmetry; apply firstn_skipn).
      assert (L1 : length (firstn n l) = n) by (rewrite firstn_length; lia).
      set (b := firstn n l) in *. set (r := skipn n l) in *. clearbody b r. subst l.
      assert (ML : mlen (b ++ r) = N.of_nat n + mlen r) by (unfold mlen; rewrite app_length; lia). rewrite ML in *.
      destruct (N.leb_spec (N.of_nat n) (N.of_nat n + mlen r)) as [_|X]; [|lia].
      apply bytes_at_app in H. destruct H as [H1 H2]. rewrite L1 in H2. rewrite app_length in F.
      ok (step_ok h p b H1 L1 ltac:(lia) G). replace (N.of_nat n + mlen r - N.of_nat n) with (mlen r) by lia.
      rewrite (IH r _ (p + N.of_nat n)) by (auto; lia).
      rewrite blocks_app, rest_app by (lia || exact L1). cbn [map fold_left]. do 4 f_equal.
      replace (N.of_nat n + mlen r) with (mlen r + 1 * N.of_nat n) by lia. rewrite N.div_add by lia. lia.
    - destruct (N.leb_spec (N.of_nat n) (mlen l)) as [X|_]; [unfold mlen in X; lia|].
      rewrite blocks_nil, rest_short by exact C. cbn [map fold_left]. rewrite N.div_small by (unfold mlen; lia).
      rewrite N.mul_0_r, N.add_0_r. reflexivity.
  Qed.

  Variable all : N -> N * N -> M (N * N).
  Hypothesis all_n : forall x, all (N.of_nat n) x = step x.
  Lemma run_repeat_ok : forall c more l h p, length l = (n * c)%nat -> bytes_at m p l -> p + mlen l < addr_space cfg -> good p ->
    run_steps all (repeat (N.of_nat n) c ++ more) (h, p) m =
      run_steps all more (fold_left f (map le_num (blocks n l)) h, p + mlen l) m.
  Proof.
    induction c as [|c IH]; intros more l h p L H A G.
    - rewrite Nat.mul_0_r in L. destruct l; [|discriminate]. rewrite blocks_nil by (cbn; lia). cbn [repeat app map fold_left].
      unfold mlen. cbn [length N.of_nat]. now rewrite N.add_0_r.
    - assert (E : l = firstn n l ++ skipn n l) by (symmetry; apply firstn_skipn).
      assert (L1 : length (firstn n l) = n) by (rewrite firstn_length; lia).
      set (b := firstn n l) in *. set (r := skipn n l) in *. clearbody b r. subst l.
      assert (ML : mlen (b ++ r) = N.of_nat n + mlen r) by (unfold mlen; rewrite app_length; lia). rewrite ML in *.
      apply bytes_at_app in H. destruct H as [H1 H2]. rewrite L1 in H2. rewrite app_length in L.
      cbn [repeat app run_steps]. rewrite all_n. ok (step_ok h p b H1 L1 ltac:(lia) G).
      rewrite (IH more r _ (p + N.of_nat n)) by (auto; lia).
      rewrite blocks_app by (lia || exact L1). cbn [map fold_left]. now rewrite N.add_assoc.
  Qed.
End Tail.

Lemma blocks_1 : forall l : list byte, map le_num (blocks 1 l) = map b2n l.
Proof.
  induction l as [|b l IH]; [reflexivity|]. change (b :: l) with ([b] ++ l). rewrite blocks_app by (reflexivity || discriminate).
  cbn [map]. rewrite IH. cbn [le_num app map]. f_equal. lia.
Qed.
Lemma rest_1 : forall l : list byte, rest 1 l = [].
Proof. intro l. apply length_zero_iff_nil. rewrite rest_length by discriminate. apply Nat.mod_1_r. Qed.

Lemma below : forall (P : N -> Prop) k, (forall i, (i < k)%nat -> P (N.of_nat i)) -> forall n, n < N.of_nat k -> P n.
Proof. intros P k H n L. rewrite <- (N2Nat.id n). apply H. lia. Qed.
Lemma switch32 : forall n, n < 16 ->
  switch_steps n XXH32_cases = Some (repeat 4 (N.to_nat (n / 4)) ++ repeat 1 (N.to_nat (n mod 4)) ++ []).
Proof.
  apply (below _ 16). intros i L. do 16 (destruct i as [|i]; [reflexivity|]). lia.
Qed.
Lemma switch64 : forall n, n < 32 ->
  switch_steps n XXH64_cases =
    Some (repeat 8 (N.to_nat (n / 8)) ++ repeat 4 (N.to_nat (n mod 8 / 4)) ++ repeat 1 (N.to_nat (n mod 4)) ++ []).
Proof.
  apply (below _ 32). intros i L. do 32 (destruct i as [|i]; [reflexivity|]). lia.
Qed.

Lemma cut_rest : forall k (l : list byte), (0 < k)%nat -> exists b, l = b ++ rest k l /\ length b = (k * (length l / k))%nat /\ blocks k l = blocks k b.
Proof.
  intros k l K. exists (firstn (k * (length l / k)) l). unfold rest. split; [now rewrite firstn_skipn|].
  assert (L : length (firstn (k * (length l / k)) l) = (k * (length l / k))%nat).
  { rewrite firstn_length. pose proof (Nat.div_mod (length l) k). lia. }
  split; [exact L|]. unfold blocks. rewrite L. rewrite (Nat.mul_comm k (length l / k)), Nat.div_mul by lia.
  apply map_ext_in. intros i I. apply in_seq in I. unfold group. rewrite skipn_firstn_comm, firstn_firstn.
  f_equal. apply eq_sym, Nat.min_l. nia.
Qed.

Section Finalize.
  Variable (cfg : config) (xb : xxh_build) (m : mem) (align : bool).

  Lemma process1_ok : forall h p w, bytes_at m p w -> length w = 1%nat -> p + N.of_nat 1 < addr_space cfg -> True ->
    XXH_PROCESS1 cfg (h, p) m = Ok ((byte_32 h (le_num w), p + N.of_nat 1), m).
  Proof.
    intros h p w H L A _. destruct w as [|b [|]]; try discriminate L. apply bytes_at_cons in H. destruct H as [H _].
    rewrite <- (N.add_0_r p) in H. unfold XXH_PROCESS1. ok (byte_of_ok cfg m p 0 b H ltac:(lia)). rewrite rotl32_eq, padd_small by lia.
    cbn [le_num]. rewrite N.mul_0_r, N.add_0_r. reflexivity.
  Qed.
  Lemma process4_ok : forall h p w, bytes_at m p w -> length w = 4%nat -> p + N.of_nat 4 < addr_space cfg -> fine cfg xb align 4 p ->
    XXH_PROCESS4 cfg xb align (h, p) m = Ok ((word_32 h (le_num w), p + N.of_nat 4), m).
  Proof.
    intros h p w H L A F. unfold XXH_PROCESS4. ok (readLE32_align_ok cfg xb m align p w H L ltac:(lia) F). rewrite rotl32_eq, padd_small by lia.
    reflexivity.
  Qed.
  Lemma process1_64_ok : forall h p w, bytes_at m p w -> length w = 1%nat -> p + N.of_nat 1 < addr_space cfg -> True ->
    XXH_PROCESS1_64 cfg (h, p) m = Ok ((byte_64 h (le_num w), p + N.of_nat 1), m).
  Proof.
    intros h p w H L A _. destruct w as [|b [|]]; try discriminate L. apply bytes_at_cons in H. destruct H as [H _].
    rewrite <- (N.add_0_r p) in H. unfold XXH_PROCESS1_64. ok (byte_of_ok cfg m p 0 b H ltac:(lia)). rewrite rotl64_eq, padd_small by lia.
    cbn [le_num]. rewrite N.mul_0_r, N.add_0_r. reflexivity.
  Qed.
  Lemma process4_64_ok : forall h p w, bytes_at m p w -> length w = 4%nat -> p + N.of_nat 4 < addr_space cfg -> fine cfg xb align 4 p ->
    XXH_PROCESS4_64 cfg xb align (h, p) m = Ok ((word4_64 h (le_num w), p + N.of_nat 4), m).
  Proof.
    intros h p w H L A F. unfold XXH_PROCESS4_64. ok (readLE32_align_ok cfg xb m align p w H L ltac:(lia) F). rewrite rotl64_eq, padd_small by lia.
    reflexivity.
  Qed.
  Lemma process8_64_ok : forall h p w, bytes_at m p w -> length w = 8%nat -> p + N.of_nat 8 < addr_space cfg -> fine cfg xb align 8 p ->
    XXH_PROCESS8_64 cfg xb align (h, p) m = Ok ((word8_64 h (le_num w), p + N.of_nat 8), m).
  Proof.
    intros h p w H L A F. unfold XXH_PROCESS8_64. ok (readLE64_align_ok cfg xb m align p w H L ltac:(lia) F). cbv zeta.
    rewrite rotl64_eq, round64_eq, padd_small by lia. reflexivity.
  Qed.

  Lemma fine4_step : forall p, fine cfg xb align 4 p -> fine cfg xb align 4 (p + N.of_nat 4).
  Proof. intros p. now apply fine_add. Qed.
  Lemma fine8_step : forall p, fine cfg xb align 8 p -> fine cfg xb align 8 (p + N.of_nat 8).
  Proof. intros p. apply fine_add. unfold alignment. now destruct (wide cfg). Qed.
  Lemma fine_8_4 : forall p, fine cfg xb align 8 p -> fine cfg xb align 4 p.
  Proof. intros p F E. specialize (F E). unfold alignment in *. destruct (wide cfg); lia. Qed.

  Lemma finalize32_ok : forall h p l len, (length l < 16)%nat -> N.land len 15 = mlen l -> bytes_at m p l -> p + mlen l < addr_space cfg ->
    fine cfg xb align 4 p -> XXH32_finalize cfg xb h p len align m = Ok (mix_bits_32 (last_32 h l), m).
  Proof.
    intros h p l len L E H A F. unfold XXH32_finalize. cbv zeta. rewrite E.
    destruct (cut_rest 4 l ltac:(lia)) as (b & EL & LB & EB).
    assert (LR : length (rest 4 l) = (length l mod 4)%nat) by now apply rest_length.
    unfold last_32. rewrite EB. set (r := rest 4 l) in *.
    assert (ML : mlen l = mlen b + mlen r) by (unfold mlen; rewrite EL at 1; rewrite app_length; lia).
    assert (MB : mlen b = 4 * (mlen l / 4)) by (unfold mlen; lia).
    assert (HS : bytes_at m p b /\ bytes_at m (p + mlen b) r) by (apply bytes_at_app; now rewrite <- EL).
    destruct HS as [H1 H2]. rewrite <- (blocks_1 r).
    destruct (xxh_reroll xb).
    - ok (while_len_ok cfg m 4 (XXH_PROCESS4 cfg xb align) word_32 (fine cfg xb align 4) ltac:(lia) process4_ok fine4_step
            16 l h p L H A F). cbv beta iota. fold r. rewrite EB. change (N.of_nat 4) with 4. rewrite <- MB.
      ok (while_len_ok cfg m 1 (XXH_PROCESS1 cfg) byte_32 (fun _ => True) ltac:(lia) process1_ok (fun _ _ => I)
            16 r (fold_left word_32 (map le_num (blocks 4 b)) h) (p + mlen b) ltac:(lia) H2 ltac:(lia) I). cbv beta iota.
      now rewrite avalanche32_eq.
    - rewrite switch32 by (unfold mlen; lia).
      rewrite (bind_ok _ _ _ _ m (fold_left byte_32 (map le_num (blocks 1 r)) (fold_left word_32 (map le_num (blocks 4 b)) h), p + mlen b + mlen r) m).
      + cbn [fst]. now rewrite avalanche32_eq.
      + change (repeat 4) with (repeat (N.of_nat 4)).
        rewrite (run_repeat_ok cfg m 4 (XXH_PROCESS4 cfg xb align) word_32 (fine cfg xb align 4) ltac:(lia) process4_ok fine4_step
                  (XXH32_step cfg xb align) (fun _ => eq_refl) _ _ b); auto; [|unfold mlen; lia|lia].
        change (repeat 1) with (repeat (N.of_nat 1)).
        rewrite (run_repeat_ok cfg m 1 (XXH_PROCESS1 cfg) byte_32 (fun _ => True) ltac:(lia) process1_ok (fun _ _ => I)
                  (XXH32_step cfg xb align) (fun _ => eq_refl) _ _ r); auto; [unfold mlen; lia|lia].
  Qed.

  Lemma finalize64_ok : forall h p l len, (length l < 32)%nat -> N.land len 31 = mlen l -> bytes_at m p l -> p + mlen l < addr_space cfg ->
    fine cfg xb align 8 p -> XXH64_finalize cfg xb h p len align m = Ok (mix_bits_64 (last_64 h l), m).
  Proof.
    intros h p l len L E H A F. unfold XXH64_finalize. cbv zeta. rewrite E.
    destruct (cut_rest 8 l ltac:(lia)) as (b & EL & LB & EB).
    assert (LR : length (rest 8 l) = (length l mod 8)%nat) by now apply rest_length.
    unfold last_64. rewrite EB. set (r := rest 8 l) in *.
    destruct (cut_rest 4 r ltac:(lia)) as (c & ER & LC & EC).
    assert (LR4 : length (rest 4 r) = (length r mod 4)%nat) by now apply rest_length.
    rewrite EC. set (t := rest 4 r) in *.
    assert (ML : mlen l = mlen b + mlen r) by (unfold mlen; rewrite EL at 1; rewrite app_length; lia).
    assert (MR : mlen r = mlen c + mlen t) by (unfold mlen; rewrite ER at 1; rewrite app_length; lia).
    assert (MB : mlen b = 8 * (mlen l / 8)) by (unfold mlen; lia).
    assert (MC : mlen c = 4 * (mlen r / 4)) by (unfold mlen; lia).
    assert (HS : bytes_at m p b /\ bytes_at m (p + mlen b) r) by (apply bytes_at_app; now rewrite <- EL).
    destruct HS as [H1 H2].
    assert (HS : bytes_at m (p + mlen b) c /\ bytes_at m (p + mlen b + mlen c) t) by (apply bytes_at_app; now rewrite <- ER).
    destruct HS as [H3 H4].
    assert (FB : fine cfg xb align 4 (p + mlen b)).
    { apply fine_8_4. apply fine_add; [|exact F]. rewrite MB. unfold alignment. destruct (wide cfg); lia. }
    rewrite <- (blocks_1 t).
    destruct (xxh_reroll xb || xxh_reroll_xxh64 xb).
    - ok (while_len_ok cfg m 8 (XXH_PROCESS8_64 cfg xb align) word8_64 (fine cfg xb align 8) ltac:(lia) process8_64_ok fine8_step
            32 l h p L H A F). cbv beta iota. fold r. rewrite EB. change (N.of_nat 8) with 8. rewrite <- MB.
      set (h1 := fold_left word8_64 (map le_num (blocks 8 b)) h). clearbody h1.
      rewrite (bind_ok _ _ _ _ m (fold_left word4_64 (map le_num (blocks 4 c)) h1, p + mlen b + mlen c, mlen t) m).
      + cbv beta iota.
        ok (while_len_ok cfg m 1 (XXH_PROCESS1_64 cfg) byte_64 (fun _ => True) ltac:(lia) process1_64_ok (fun _ _ => I)
            32 t (fold_left word4_64 (map le_num (blocks 4 c)) h1) (p + mlen b + mlen c) ltac:(lia) H4 ltac:(lia) I). cbv beta iota.
        now rewrite avalanche64_eq.
      + destruct (N.leb_spec 4 (mlen r)) as [X|X].
        * assert (LC4 : length c = 4%nat) by (unfold mlen in *; lia).
          ok (process4_64_ok h1 (p + mlen b) c H3 LC4 ltac:(lia) FB).
          assert (BC : blocks 4 c = [c]) by (rewrite <- (app_nil_r c) at 1; now rewrite blocks_app by (discriminate || exact LC4)).
          rewrite BC. cbn [map fold_left]. unfold ret. replace (mlen c) with (N.of_nat 4) by (unfold mlen; now rewrite LC4).
          replace (mlen r - 4) with (mlen t) by (unfold mlen in *; lia). reflexivity.
        * assert (C0 : c = []) by (apply length_zero_iff_nil; unfold mlen in *; lia).
          assert (Z : mlen c = 0) by now rewrite C0. rewrite Z in *. rewrite C0. cbn [map blocks fold_left]. rewrite MR, N.add_0_r, N.add_0_l. reflexivity.
    - rewrite switch64 by (unfold mlen; lia).
      rewrite (bind_ok _ _ _ _ m (fold_left byte_64 (map le_num (blocks 1 t)) (fold_left word4_64 (map le_num (blocks 4 c))
                 (fold_left word8_64 (map le_num (blocks 8 b)) h)), p + mlen b + mlen c + mlen t) m).
      + cbn [fst]. now rewrite avalanche64_eq.
      + change (repeat 8) with (repeat (N.of_nat 8)).
        rewrite (run_repeat_ok cfg m 8 (XXH_PROCESS8_64 cfg xb align) word8_64 (fine cfg xb align 8) ltac:(lia) process8_64_ok fine8_step
                  (XXH64_step cfg xb align) (fun _ => eq_refl) _ _ b); auto; [|unfold mlen; lia|lia].
        change (repeat 4) with (repeat (N.of_nat 4)).
        rewrite (run_repeat_ok cfg m 4 (XXH_PROCESS4_64 cfg xb align) word4_64 (fine cfg xb align 4) ltac:(lia) process4_64_ok fine4_step
                  (XXH64_step cfg xb align) (fun _ => eq_refl) _ _ c); auto; [|unfold mlen in *; lia|lia].
        change (repeat 1) with (repeat (N.of_nat 1)).
        rewrite (run_repeat_ok cfg m 1 (XXH_PROCESS1_64 cfg) byte_64 (fun _ => True) ltac:(lia) process1_64_ok (fun _ _ => I)
                  (XXH64_step cfg xb align) (fun _ => eq_refl) _ _ t); auto; [unfold mlen in *; lia|lia].
  Qed.
End Finalize.

(** ** One call *)
Lemma land_15 : forall x, N.land x 15 = x mod 16.
Proof. intro x. change 15 with (N.ones 4). now rewrite N.land_ones. Qed.
Lemma land_7 : forall x, N.land x 7 = x mod 8.
Proof. intro x. change 7 with (N.ones 3). now rewrite N.land_ones. Qed.
Lemma mlen_rest : forall k l, (0 < k)%nat -> mlen (rest k l) = mlen l mod N.of_nat k.
Proof. intros k l K. unfold mlen. rewrite rest_length by lia. now rewrite Nat2N.inj_mod. Qed.
Lemma bytes_at_rest : forall m p k l, (0 < k)%nat -> bytes_at m p l -> bytes_at m (p + N.of_nat k * (mlen l / N.of_nat k)) (rest k l).
Proof.
  intros m p k l K H. unfold rest, mlen. rewrite <- Nat2N.inj_div, <- Nat2N.inj_mul. apply bytes_at_skipn; [exact H|].
  pose proof (Nat.div_mod (length l) k). lia.
Qed.

Section Call.
  Variable (cfg : config) (xb : xxh_build) (m : mem).

  Lemma add_32_mod : forall h x, add_32 h (x mod 2 ^ 32) = add_32 h x.
  Proof. intros. unfold add_32. now rewrite N.add_mod_idemp_r by discriminate. Qed.

  Lemma endian_align32_ok : forall align msg p seed, bytes_at m p msg -> p + mlen msg < addr_space cfg -> p <> 0 \/ msg = [] ->
    fine cfg xb align 4 p -> XXH32_endian_align cfg xb p (mlen msg) seed align m = Ok (xxh32 msg seed, m).
  Proof.
    intros align msg p seed H A Z F. unfold XXH32_endian_align. pose proof (addr_space_pos cfg) as AP.
    destruct (xxh_accept_null_input_pointer xb && (p =? 0)) eqn:E.
    - apply andb_true_iff in E. destruct E as [_ E]. apply N.eqb_eq in E. destruct Z as [Z|Z]; [contradiction|]. subst msg.
      cbv beta iota zeta. change (16 <=? 0) with false. cbv iota. rewrite bind_ret. cbv beta iota.
      rewrite (finalize32_ok cfg xb m align _ 16 [] 0); [reflexivity|cbn; lia|reflexivity|apply bytes_at_nil|cbn; lia|].
      intros _. reflexivity.
    - cbv beta iota zeta. clear E. rewrite padd_small by exact A.
      set (st := if 16 <=? mlen msg then join_32 (fold_left (stripe 4 round_32) (blocks 16 msg) (begin_32 seed)) else add_32 seed A5).
      rewrite (bind_ok _ _ _ _ m (st, p + 16 * (mlen msg / 16)) m).
      + cbv beta iota. rewrite (finalize32_ok cfg xb m align _ _ (rest 16 msg)).
        * unfold xxh32. fold st. change (add32 st (u32 (mlen msg))) with (add_32 st (mlen msg mod 2 ^ 32)). now rewrite add_32_mod.
        * rewrite rest_length by discriminate. apply Nat.mod_upper_bound. discriminate.
        * rewrite !land_15. rewrite (mlen_rest 16) by lia. now rewrite N.mod_mod by discriminate.
        * apply (bytes_at_rest m p 16); [lia|exact H].
        * rewrite (mlen_rest 16) by lia. lia.
        * apply fine_add; [|exact F]. cbn [alignment]. lia.
      + unfold st. destruct (N.leb_spec 16 (mlen msg)) as [X|X].
        * rewrite psub_small by lia.
          ok (stripes_ok cfg m 4 (XXH_readLE32_align cfg xb align) XXH32_round round_32 (fine cfg xb align 4) ltac:(lia) round32_eq
                (readLE32_align_ok cfg xb m align) (fine4_step cfg xb align)
                (S (N.to_nat (mlen msg / 16))) msg (XXH32_start seed) p (p + mlen msg) (fun x : accs * N => snd x <? p + mlen msg - 15)
                ltac:(unfold mlen in *; lia) ltac:(unfold mlen in *; lia) H eq_refl A F ltac:(intros; cbn [snd]; lia)).
          cbn [fst snd]. rewrite converge32_eq. reflexivity.
        * rewrite N.div_small by exact X. rewrite N.mul_0_r, N.add_0_r. reflexivity.
  Qed.

  Lemma endian_align64_ok : forall align msg p seed, bytes_at m p msg -> p + mlen msg < addr_space cfg -> p <> 0 \/ msg = [] ->
    fine cfg xb align 8 p -> XXH64_endian_align cfg xb p (mlen msg) seed align m = Ok (xxh64 msg seed, m).
  Proof.
    intros align msg p seed H A Z F. unfold XXH64_endian_align. pose proof (addr_space_pos cfg) as AP.
    destruct (xxh_accept_null_input_pointer xb && (p =? 0)) eqn:E.
    - apply andb_true_iff in E. destruct E as [_ E]. apply N.eqb_eq in E. destruct Z as [Z|Z]; [contradiction|]. subst msg.
      cbv beta iota zeta. change (32 <=? 0) with false. cbv iota. rewrite bind_ret. cbv beta iota.
      rewrite (finalize64_ok cfg xb m align _ 32 [] 0); [reflexivity|cbn; lia|reflexivity|apply bytes_at_nil|cbn; lia|].
      intros _. unfold alignment. now destruct (wide cfg).
    - cbv beta iota zeta. clear E. rewrite padd_small by exact A.
      set (st := if 32 <=? mlen msg then join_64 (fold_left (stripe 8 round_64) (blocks 32 msg) (begin_64 seed)) else add seed B5).
      rewrite (bind_ok _ _ _ _ m (st, p + 32 * (mlen msg / 32)) m).
      + cbv beta iota. rewrite (finalize64_ok cfg xb m align _ _ (rest 32 msg)).
        * reflexivity.
        * rewrite rest_length by discriminate. apply Nat.mod_upper_bound. discriminate.
        * rewrite !land_31. rewrite (mlen_rest 32) by lia. reflexivity.
        * apply (bytes_at_rest m p 32); [lia|exact H].
        * rewrite (mlen_rest 32) by lia. lia.
        * apply fine_add; [|exact F]. unfold alignment. destruct (wide cfg); lia.
      + unfold st. destruct (N.leb_spec 32 (mlen msg)) as [X|X].
        * rewrite psub_small by lia.
          ok (stripes_ok cfg m 8 (XXH_readLE64_align cfg xb align) XXH64_round round_64 (fine cfg xb align 8) ltac:(lia) round64_eq
                (readLE64_align_ok cfg xb m align) (fine8_step cfg xb align)
                (S (N.to_nat (mlen msg / 32))) msg (XXH64_start seed) p (p + mlen msg) (fun x : accs * N => snd x <=? p + mlen msg - 32)
                ltac:(unfold mlen in *; lia) ltac:(unfold mlen in *; lia) H eq_refl A F ltac:(intros; cbn [snd]; lia)).
          cbn [fst snd]. rewrite converge64_eq. reflexivity.
        * rewrite N.div_small by exact X. rewrite N.mul_0_r, N.add_0_r. reflexivity.
  Qed.

  Lemma XXH32_ok : forall msg p seed, bytes_at m p msg -> p + mlen msg < addr_space cfg -> p <> 0 \/ msg = [] ->
    (xxh_force_memory_access xb = 2 -> p mod alignment cfg 4 = 0) -> XXH32 cfg xb p (mlen msg) seed m = Ok (xxh32 msg seed, m).
  Proof.
    intros msg p seed H A Z F. unfold XXH32. destruct (xxh_force_align_check xb && (N.land p 3 =? 0)) eqn:E.
    - apply andb_true_iff in E. destruct E as [_ E]. apply N.eqb_eq in E. rewrite land_3 in E.
      apply endian_align32_ok; auto. intros _. exact E.
    - apply endian_align32_ok; auto. intro G. cbn [orb] in G. apply F. now apply N.eqb_eq.
  Qed.
  Lemma XXH64_ok : forall msg p seed, bytes_at m p msg -> p + mlen msg < addr_space cfg -> p <> 0 \/ msg = [] ->
    (xxh_force_memory_access xb = 2 -> p mod alignment cfg 8 = 0) -> XXH64 cfg xb p (mlen msg) seed m = Ok (xxh64 msg seed, m).
  Proof.
    intros msg p seed H A Z F. unfold XXH64. destruct (xxh_force_align_check xb && (N.land p 7 =? 0)) eqn:E.
    - apply andb_true_iff in E. destruct E as [_ E]. apply N.eqb_eq in E. rewrite land_7 in E.
      apply endian_align64_ok; auto. intros _. unfold alignment. destruct (wide cfg); [exact E|lia].
    - apply endian_align64_ok; auto. intro G. cbn [orb] in G. apply F. now apply N.eqb_eq.
  Qed.
End Call.
