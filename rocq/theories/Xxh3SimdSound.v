(** The vector variants of XXH3: every one of them does what the scalar functions do. *)
From Coq Require Import ZArith NArith Arith List Bool Lia Strings.Byte.
From Coq Require Import ZifyN ZifyNat ZifyBool.
From Verif Require Import Bytes CSem Bits Spec NBits CSemFacts OpsFacts FetchFacts CtxMem StreamFacts HighwayFacts
  Xxhash XxhashSpec XxhashFacts Xxh3 Xxh3Spec Onto HighwayCat HighwayCxx HighwaySimd Xxh3Facts Xxh3Secret Xxh3Simd Xxh3SimdFacts.
Import ListNotations.
Ltac Zify.zify_post_hook ::= Z.div_mod_to_equations.
Local Open Scope N_scope.

Lemma flat_map_same : forall A (f g : nat -> list A) l, (forall k, In k l -> f k = g k) -> flat_map f l = flat_map g l.
Proof.
  intros A f g l H. induction l as [|k l IH]; [reflexivity|]. cbn [flat_map]. rewrite H by (left; reflexivity). f_equal.
  apply IH. intros x I. apply H. now right.
Qed.

(** ** Registers of POWER and z *)
(** two lanes, as a register loaded from the memory *)
Definition reg (cfg : config) (x : N * N) : vsx_reg := if big_endian cfg then x else (snd x, fst x).
Lemma sixteen : forall A (l : list A), length l = 16%nat ->
  exists a b c d e f g h i j k n o p q r, l = [a; b; c; d; e; f; g; h; i; j; k; n; o; p; q; r].
Proof.
  intros A l H. do 16 (destruct l as [|? l]; [discriminate H|]). destruct l; [|discriminate H]. repeat eexists.
Qed.
Lemma vsx_native : forall cfg l i, vsx_of_bytes cfg (firstn 16 (skipn (N.to_nat i) l)) = reg cfg (wn cfg l i, wn cfg l (i + 8)).
Proof.
  intros cfg l i. unfold vsx_of_bytes, reg, wn, native_num. pose proof (part8 16 0 i l ltac:(lia)) as E0. cbn [skipn] in E0.
  rewrite N.add_0_r in E0. pose proof (part8 16 8 i l ltac:(lia)) as E8. change (N.of_nat 8) with 8 in E8.
  rewrite E0, E8. destruct (big_endian cfg); reflexivity.
Qed.
Lemma vsx_bytes_reg : forall cfg x, vsx_bytes cfg (reg cfg x) = pair_bytes cfg x.
Proof. intros cfg [x y]. unfold vsx_bytes, reg, pair_bytes, native. destruct (big_endian cfg); reflexivity. Qed.
Lemma vsx_back : forall cfg x, small2 x -> vsx_of_bytes cfg (pair_bytes cfg x) = reg cfg x.
Proof.
  intros cfg [x y] [Hx Hy]. cbn [fst snd] in *. unfold pair_bytes. cbn [fst snd].
  pose proof (vsx_native cfg (native cfg 8 x ++ native cfg 8 y) 0) as E. change (N.to_nat 0) with 0%nat in E. cbn [skipn] in E.
  rewrite firstn_all2 in E by (rewrite app_length, !native_len; lia). rewrite E. unfold wn. change (0 + 8) with 8.
  change (N.to_nat 0) with 0%nat. change (N.to_nat 8) with 8%nat. rewrite skipn_O.
  rewrite firstn_app, native_len, firstn_all2, Nat.sub_diag, firstn_O, app_nil_r by (rewrite native_len; lia).
  rewrite skipn_app, native_len, skipn_all2, Nat.sub_diag by (rewrite native_len; lia). cbn [app skipn].
  rewrite firstn_all2 by (rewrite native_len; lia). now rewrite !native_back.
Qed.
Lemma revb_chunk : forall l, length l = 16%nat ->
  XXH_vec_revb (be_num (firstn 8 l), be_num (firstn 8 (skipn 8 l))) = (le_num (firstn 8 l), le_num (firstn 8 (skipn 8 l))).
Proof.
  intros l L. destruct (sixteen _ l L) as (a & b & c & d & e & f & g & h & i & j & k & n & o & p & q & r & ->). clear L.
  unfold XXH_vec_revb, vec_perm. cbn [fst snd firstn skipn].
  pose proof (be_bytes_be_num [a; b; c; d; e; f; g; h]) as E. pose proof (be_bytes_be_num [i; j; k; n; o; p; q; r]) as E1.
  cbn [length] in E, E1. rewrite E, E1. reflexivity.
Qed.
Lemma reg_zip : forall cfg f x y, zip64 f (reg cfg x) (reg cfg y) = reg cfg (zip64 f x y).
Proof. intros. unfold reg. destruct (big_endian cfg); reflexivity. Qed.
Lemma reg_same : forall cfg x, (x, x) = reg cfg (x, x).
Proof. intros. unfold reg. destruct (big_endian cfg); reflexivity. Qed.
Lemma reg_swap : forall cfg x, vec_xxpermdi_2 (reg cfg x) (reg cfg x) = reg cfg (snd x, fst x).
Proof. intros. unfold reg. destruct (big_endian cfg); reflexivity. Qed.
Lemma rotated_half : forall x, x < 2 ^ 64 -> odd_word (N.lor (shl64 x (32 mod 64)) (shr64 x ((64 - 32) mod 64))) = x / 2 ^ 32.
Proof.
  intros x H. unfold odd_word. rewrite <- N.land_ones, N.land_lor_distr_l, !N.land_ones.
  change (32 mod 64) with 32. change ((64 - 32) mod 64) with 32. rewrite shr64_eq, (N.mod_small x (2 ^ 64)) by exact H.
  rewrite (N.mod_small (x / 2 ^ 32)) by (change (2 ^ 32) with W32; change (2 ^ 64) with W64 in *; lia).
  unfold shl64. rewrite u64_eq, N.shiftl_mul_pow2. change (2 ^ 64) with (2 ^ 32 * 2 ^ 32).
  rewrite (N.mul_comm x), N.mul_mod_distr_l by discriminate. rewrite N.mul_comm, N.mod_mul by discriminate. reflexivity.
Qed.
Lemma vsx_product : forall cfg x, small2 x ->
  XXH_vec_mulo (reg cfg x) (vec_rl (reg cfg x) (32, 32)) = reg cfg (halves (fst x), halves (snd x)).
Proof.
  intros cfg [x y] [Hx Hy]. cbn [fst snd] in *. unfold XXH_vec_mulo, vec_rl. rewrite (reg_same cfg 32), !reg_zip.
  unfold zip64. cbn [fst snd]. rewrite !rotated_half by assumption. unfold odd_word. now rewrite !halves_mul.
Qed.
Lemma vsx_scramble : forall cfg a k, small2 a -> small2 k ->
  let data_key := vec_xor (vec_xor (reg cfg a) (vec_sr (reg cfg a) (47, 47))) (reg cfg k) in
  let prime := (XXH_PRIME32_1 * 2 ^ 32 + XXH_PRIME32_1, XXH_PRIME32_1 * 2 ^ 32 + XXH_PRIME32_1) in
  vec_add (XXH_vec_mulo data_key prime) (vec_sl (XXH_vec_mule data_key prime) (32, 32)) = reg cfg (scramble_pair a k).
Proof.
  intros cfg [a0 a1] [k0 k1] [A0 A1'] [K0 K1]. cbn [fst snd] in *. cbv zeta.
  rewrite (reg_same cfg 47), (reg_same cfg 32), (reg_same cfg (XXH_PRIME32_1 * _ + _)).
  unfold vec_xor, vec_sr, vec_add, vec_sl, XXH_vec_mulo, XXH_vec_mule. rewrite !reg_zip. f_equal.
  unfold zip64, scramble_pair, scramble_one. cbn [fst snd].
  change (odd_word (XXH_PRIME32_1 * 2 ^ 32 + XXH_PRIME32_1)) with A1. change (even_word (XXH_PRIME32_1 * 2 ^ 32 + XXH_PRIME32_1)) with A1.
  assert (S : forall a, a < 2 ^ 64 -> N.lxor a (shr64 a 47) = fold_64 a 47 /\ fold_64 a 47 < 2 ^ 64).
  { intros b Hb. unfold fold_64, xor. rewrite shr64_eq, (N.mod_small b) by exact Hb. split; [reflexivity|].
    apply xor_lt64; [exact Hb|]. apply N.le_lt_trans with b; [apply N.div_le_upper_bound; [discriminate|]; lia|exact Hb]. }
  destruct (S _ A0) as [-> F0]. destruct (S _ A1') as [-> F1]. unfold odd_word, even_word.
  exact (f_equal2 pair (scramble_halves _ (xor_lt64 _ _ F0 K0)) (scramble_halves _ (xor_lt64 _ _ F1 K1))).
Qed.
Lemma vsx_stripe : forall cfg a d k, small2 a -> small2 d -> small2 k ->
  let data_key := vec_xor (reg cfg d) (reg cfg k) in
  vec_add (vec_add (reg cfg a) (XXH_vec_mulo data_key (vec_rl data_key (32, 32)))) (vec_xxpermdi_2 (reg cfg d) (reg cfg d)) =
  reg cfg (stripe_pair a d k).
Proof.
  intros cfg [a0 a1] [d0 d1] [k0 k1] [A0 A1'] [D0 D1] [K0 K1]. cbn [fst snd] in *. cbv zeta. unfold vec_xor. rewrite reg_zip, reg_swap.
  rewrite vsx_product by (split; apply xor_lt64; assumption). unfold vec_add. rewrite !reg_zip. f_equal.
  unfold zip64, stripe_pair. cbn [fst snd].
  exact (f_equal2 pair (add_swap a0 (halves (xor d0 k0)) d1) (add_swap a1 (halves (xor d1 k1)) d0)).
Qed.

Section Variants.
  Variable (cfg : config) (x3 : xxh3_build) (m : mem) (p q a : N) (msg sec : list byte) (v : list N).
  Hypothesis (Hm : here cfg m p msg) (Hs : here cfg m q sec) (Ha : accs_at cfg m a v).
  Hypothesis (Dm : apart_from a p (mlen msg)) (Ds : apart_from a q (mlen sec)).

  Section Little.
    Hypothesis BE : big_endian cfg = false.

    Lemma word2_acc : forall k, (k < 4)%nat -> word2 (acc_bytes cfg v) 0 k = lane2 v k.
    Proof. intros k L. apply word2_lane; [exact BE|exact (proj2 Ha)|exact L]. Qed.

    Lemma acc_part : forall k, (k < 4)%nat ->
      of_bytes64 (firstn 16 (skipn (N.to_nat (16 * N.of_nat k)) (acc_bytes cfg v))) = lane2 v k.
    Proof. intros k L. rewrite <- word2_acc by exact L. apply (word2_part _ 0). Qed.

    Lemma sse2_stripe_ok : forall i j, a mod 16 = 0 -> j + 64 <= mlen msg -> i + 64 <= mlen sec ->
      turns cfg (XXH3_accumulate_512_sse2 cfg x3 a (p + j) (q + i)) m a (stripe_3 sec i msg j v).
    Proof.
      intros i j A Lj Li. unfold XXH3_accumulate_512_sse2, turns.
      rewrite (bind_ok _ _ _ _ _ _ _ (ASSERT_ok cfg x3 _ m (fun _ => land_mod a 4 A))).
      destruct (vector_stripe cfg m p q a msg sec v Hm Hs Ha Dm Ds 16 4
        (fun x d s => bytes64 (let dk := mm_xor_si128 (of_bytes64 d) (of_bytes64 s) in
           mm_add_epi64 (mm_mul_epu32 dk (shuffle128 dk (MM_SHUFFLE 0 3 0 1)))
             (mm_add_epi64 (of_bytes64 x) (shuffle128 (of_bytes64 d) (MM_SHUFFLE 1 0 3 2))))) i j
        eq_refl ltac:(intros; apply bytes64_length) A Lj Li) as (m' & E & B & O).
      exists m'. split; [exact E|]. split; [|exact O]. rewrite stripe_pairs.
      erewrite flat_map_same; [exact B|]. intros k I. apply in_seq in I. cbv beta. change (N.of_nat 16) with 16.
      rewrite !word2_part, word2_acc by lia. rewrite sse_stripe by apply word2_small. symmetry. apply pair_bytes_le. exact BE.
    Qed.
    Lemma sse2_scramble_ok : forall i, a mod 16 = 0 -> i + 64 <= mlen sec ->
      turns cfg (XXH3_scrambleAcc_sse2 cfg x3 a (q + i)) m a (scramble sec i v).
    Proof.
      intros i A Li. unfold XXH3_scrambleAcc_sse2, turns.
      rewrite (bind_ok _ _ _ _ _ _ _ (ASSERT_ok cfg x3 _ m (fun _ => land_mod a 4 A))).
      destruct (vector_scramble cfg m q a sec v Hs Ha Ds 16 4
        (fun x s => bytes64 (let dk := mm_xor_si128 (mm_xor_si128 (of_bytes64 x) (mm_srli_epi64 (of_bytes64 x) 47)) (of_bytes64 s) in
           let prime := set1_32_128 XXH_PRIME32_1 in
           mm_add_epi64 (mm_mul_epu32 dk prime) (mm_slli_epi64 (mm_mul_epu32 (shuffle128 dk (MM_SHUFFLE 0 3 0 1)) prime) 32))) i
        eq_refl ltac:(intros; apply bytes64_length) A Li) as (m' & E & B & O).
      exists m'. split; [exact E|]. split; [|exact O]. rewrite scramble_pairs.
      erewrite flat_map_same; [exact B|]. intros k I. apply in_seq in I. cbv beta. change (N.of_nat 16) with 16.
      rewrite !word2_part, word2_acc by lia. rewrite sse_scramble by (apply word2_small || apply lane2_small, (proj2 Ha)).
      symmetry. apply pair_bytes_le. exact BE.
    Qed.

    Lemma pair_bytes4 : forall x y, bytes256 (x, y) = pair_bytes cfg x ++ pair_bytes cfg y.
    Proof. intros. unfold bytes256. cbn [fst snd]. now rewrite !(pair_bytes_le cfg) by exact BE. Qed.
    Lemma avx2_stripe_ok : forall i j, a mod 32 = 0 -> j + 64 <= mlen msg -> i + 64 <= mlen sec ->
      turns cfg (XXH3_accumulate_512_avx2 cfg x3 a (p + j) (q + i)) m a (stripe_3 sec i msg j v).
    Proof.
      intros i j A Lj Li. unfold XXH3_accumulate_512_avx2, turns.
      rewrite (bind_ok _ _ _ _ _ _ _ (ASSERT_ok cfg x3 _ m (fun _ => land_mod a 5 A))).
      destruct (vector_stripe cfg m p q a msg sec v Hm Hs Ha Dm Ds 32 2
        (fun x d s => bytes256 (let dk := mm256_xor_si256 (of_bytes256 d) (of_bytes256 s) in
           mm256_add_epi64 (mm256_mul_epu32 dk (shuffle256 dk (MM_SHUFFLE 0 3 0 1)))
             (mm256_add_epi64 (of_bytes256 x) (shuffle256 (of_bytes256 d) (MM_SHUFFLE 1 0 3 2))))) i j
        eq_refl ltac:(intros; apply bytes256_length) A Lj Li) as (m' & E & B & O).
      exists m'. split; [exact E|]. split; [|exact O]. rewrite stripe_pairs.
      replace (flat_map (fun k => pair_bytes cfg (stripe_at sec i msg j v k)) (seq 0 4))
        with (flat_map (fun k => pair_bytes cfg (stripe_at sec i msg j v (2 * k)) ++ pair_bytes cfg (stripe_at sec i msg j v (2 * k + 1))) (seq 0 2))
        by (cbn [flat_map seq]; rewrite <- !app_assoc; reflexivity).
      erewrite flat_map_same; [exact B|]. intros k I. apply in_seq in I. cbv beta. change (N.of_nat 32) with 32.
      rewrite !word4_part, !word2_acc by lia.
      rewrite avx2_stripe by (split; apply word2_small || apply lane2_small, (proj2 Ha)).
      unfold both2. cbn [fst snd]. rewrite pair_bytes4. reflexivity.
    Qed.
    Lemma avx2_scramble_ok : forall i, a mod 32 = 0 -> i + 64 <= mlen sec ->
      turns cfg (XXH3_scrambleAcc_avx2 cfg x3 a (q + i)) m a (scramble sec i v).
    Proof.
      intros i A Li. unfold XXH3_scrambleAcc_avx2, turns.
      rewrite (bind_ok _ _ _ _ _ _ _ (ASSERT_ok cfg x3 _ m (fun _ => land_mod a 5 A))).
      destruct (vector_scramble cfg m q a sec v Hs Ha Ds 32 2
        (fun x s => bytes256 (let dk := mm256_xor_si256 (mm256_xor_si256 (of_bytes256 x) (mm256_srli_epi64 (of_bytes256 x) 47)) (of_bytes256 s) in
           let prime := set1_32_256 XXH_PRIME32_1 in
           mm256_add_epi64 (mm256_mul_epu32 dk prime) (mm256_slli_epi64 (mm256_mul_epu32 (shuffle256 dk (MM_SHUFFLE 0 3 0 1)) prime) 32))) i
        eq_refl ltac:(intros; apply bytes256_length) A Li) as (m' & E & B & O).
      exists m'. split; [exact E|]. split; [|exact O]. rewrite scramble_pairs.
      replace (flat_map (fun k => pair_bytes cfg (scramble_at sec i v k)) (seq 0 4))
        with (flat_map (fun k => pair_bytes cfg (scramble_at sec i v (2 * k)) ++ pair_bytes cfg (scramble_at sec i v (2 * k + 1))) (seq 0 2))
        by (cbn [flat_map seq]; rewrite <- !app_assoc; reflexivity).
      erewrite flat_map_same; [exact B|]. intros k I. apply in_seq in I. cbv beta. change (N.of_nat 32) with 32.
      rewrite !word4_part, !word2_acc by lia.
      rewrite avx2_scramble by (split; apply word2_small || apply lane2_small, (proj2 Ha)).
      unfold both2. cbn [fst snd]. rewrite pair_bytes4. reflexivity.
    Qed.

    Lemma whole : forall l, l = acc_bytes cfg v -> of_bytes512 (firstn 64 (skipn (N.to_nat 0) l)) = ((lane2 v 0, lane2 v 1), (lane2 v 2, lane2 v 3)).
    Proof. intros l ->. rewrite word8_part, !word2_acc by lia. reflexivity. Qed.
    Lemma avx512_stripe_ok : forall i j, a mod 64 = 0 -> j + 64 <= mlen msg -> i + 64 <= mlen sec ->
      turns cfg (XXH3_accumulate_512_avx512 cfg x3 a (p + j) (q + i)) m a (stripe_3 sec i msg j v).
    Proof.
      intros i j A Lj Li. unfold XXH3_accumulate_512_avx512, turns.
      rewrite (bind_ok _ _ _ _ _ _ _ (ASSERT_ok cfg x3 _ m (fun _ => land_mod a 6 A))).
      ok (load_part cfg m p msg j 64 Hm Lj). ok (load_part cfg m q sec i 64 Hs Li). cbv zeta.
      pose proof (acc_chunk cfg m a v Ha m 0 64 (only_refl m a 0) ltac:(discriminate) 64 ltac:(lia) eq_refl ltac:(rewrite N.add_0_r; exact A)) as R.
      rewrite N.add_0_r in R. ok R. rewrite whole by reflexivity. rewrite !word8_part.
      assert (S8 : forall w j, small8 ((word2 w j 0, word2 w j 1), (word2 w j 2, word2 w j 3))) by (intros; repeat split; apply w8_lt).
      rewrite avx512_stripe by (auto; repeat split; apply lane2_small, (proj2 Ha)).
      match goal with |- context [store_vector 64 a ?l m] =>
        destruct (store_vector_ok 64 a l m (bytes512_length _)
          ltac:(pose proof (acc_mapped cfg m a v Ha m 0 64 (only_refl m a 0) 0 ltac:(lia)) as MM; rewrite N.add_0_r in MM; exact MM) A) as (E & B & O) end.
      rewrite E. set (m' := write m a _) in *. clearbody m'. exists m'. split; [reflexivity|]. split; [|exact O]. rewrite stripe_pairs.
      unfold both2 in B. cbn [fst snd] in B. unfold bytes512 in B. cbn [fst snd] in B. rewrite !pair_bytes4 in B. cbn [flat_map seq].
      rewrite app_nil_r. rewrite <- !app_assoc in B. exact B.
    Qed.
    Lemma avx512_scramble_ok : forall i, a mod 64 = 0 -> i + 64 <= mlen sec ->
      turns cfg (XXH3_scrambleAcc_avx512 cfg x3 a (q + i)) m a (scramble sec i v).
    Proof.
      intros i A Li. unfold XXH3_scrambleAcc_avx512, turns.
      rewrite (bind_ok _ _ _ _ _ _ _ (ASSERT_ok cfg x3 _ m (fun _ => land_mod a 6 A))). cbv zeta.
      pose proof (acc_chunk cfg m a v Ha m 0 64 (only_refl m a 0) ltac:(discriminate) 64 ltac:(lia) eq_refl ltac:(rewrite N.add_0_r; exact A)) as R.
      rewrite N.add_0_r in R. ok R. ok (load_part cfg m q sec i 64 Hs Li). rewrite whole by reflexivity. rewrite !word8_part.
      assert (S8 : forall w j, small8 ((word2 w j 0, word2 w j 1), (word2 w j 2, word2 w j 3))) by (intros; repeat split; apply w8_lt).
      rewrite avx512_scramble by (auto; repeat split; apply lane2_small, (proj2 Ha)).
      match goal with |- context [store_vector 64 a ?l m] =>
        destruct (store_vector_ok 64 a l m (bytes512_length _)
          ltac:(pose proof (acc_mapped cfg m a v Ha m 0 64 (only_refl m a 0) 0 ltac:(lia)) as MM; rewrite N.add_0_r in MM; exact MM) A) as (E & B & O) end.
      rewrite E. set (m' := write m a _) in *. clearbody m'. exists m'. split; [reflexivity|]. split; [|exact O]. rewrite scramble_pairs.
      unfold both2 in B. cbn [fst snd] in B. unfold bytes512 in B. cbn [fst snd] in B. rewrite !pair_bytes4 in B. cbn [flat_map seq].
      rewrite app_nil_r. rewrite <- !app_assoc in B. exact B.
    Qed.
  End Little.

  (** ** Variants that write the array twice *)
  Lemma two_stores : forall m' k l0 (G : list byte -> list byte), only m m' a (16 * N.of_nat k) -> (k < 4)%nat -> a mod 16 = 0 ->
    length l0 = 16%nat -> (forall x, length (G x) = 16%nat) ->
    exists m'', (store_vector 16 (a + 16 * N.of_nat k) l0 ;;;
                 x <- load_vector 16 (a + 16 * N.of_nat k) ;; store_vector 16 (a + 16 * N.of_nat k) (G x)) m' = Ok (tt, m'') /\
      bytes_at m'' (a + 16 * N.of_nat k) (G l0) /\ only m' m'' (a + 16 * N.of_nat k) 16.
  Proof.
    intros m' k l0 G O L A L0 LG. set (o := 16 * N.of_nat k) in *.
    assert (Ao : (a + o) mod 16 = 0) by (apply mod_add; [discriminate|exact A]).
    destruct (store_vector_ok 16 (a + o) l0 m' L0 (acc_mapped cfg m a v Ha m' o 16 O o ltac:(unfold o; lia)) Ao) as (E & B & O1).
    rewrite (bind_ok _ _ _ _ _ _ _ E). set (m1 := write m' (a + o) l0) in *.
    assert (R : load_vector 16 (a + o) m1 = Ok (l0, m1)).
    { unfold load_vector. change (N.of_nat 16) with 16. rewrite Ao. cbn [N.eqb]. rewrite <- L0 at 1. now apply load_bytes_ok. }
    ok R. assert (M1 : mapped m1 (a + o) 16).
    { apply (only_mapped m' m1 _ _ _ _ O1). apply (acc_mapped cfg m a v Ha m' o 16 O o). unfold o. lia. }
    destruct (store_vector_ok 16 (a + o) (G l0) m1 (LG _) M1 Ao) as (E2 & B2 & O2).
    rewrite E2. eexists. split; [reflexivity|]. split; [exact B2|]. apply (only_trans _ m1); assumption.
  Qed.

  Lemma bytes_back : forall x, small2 x -> of_bytes64 (bytes64 x) = x.
  Proof.
    intros [x y] [Hx Hy]. cbn [fst snd] in *. unfold bytes64, of_bytes64.
    rewrite firstn_app, le_bytes_length, firstn_all2, Nat.sub_diag, firstn_O, app_nil_r by (rewrite le_bytes_length; lia).
    rewrite skipn_app, le_bytes_length, skipn_all2, Nat.sub_diag by (rewrite le_bytes_length; lia). cbn [app skipn].
    rewrite firstn_all2 by (rewrite le_bytes_length; lia). rewrite !le_num_le_bytes. now rewrite !N.mod_small.
  Qed.
  Lemma zip_add_small : forall x y, small2 (zip64 add64 x y).
  Proof. intros. split; apply add_lt64. Qed.
  Lemma map_shl_small : forall x n, small2 (map64 (fun x => shl64 x n) x).
  Proof. intros. split; unfold map64, shl64; cbn [fst snd]; rewrite u64_eq; apply N.mod_lt; discriminate. Qed.

  Lemma neon_stripe_ok : forall z i j, big_endian cfg = false -> a mod 16 = 0 -> j + 64 <= mlen msg -> i + 64 <= mlen sec ->
    turns cfg (XXH3_accumulate_512_neon cfg x3 z a (p + j) (q + i)) m a (stripe_3 sec i msg j v).
  Proof.
    intros z i j BE A Lj Li. pose proof (acc_space cfg m a v Ha) as SP. unfold XXH3_accumulate_512_neon, turns.
    rewrite (bind_ok _ _ _ _ _ _ _ (ASSERT_ok cfg x3 _ m (fun _ => land_mod a 4 A))).
    rewrite stripe_pairs. change 64 with (N.of_nat (16 * 4)). apply chunks_loop.
    - intros k L. apply pair_bytes_length.
    - intros k m' L O. replace (N.of_nat (16 * k)) with (16 * N.of_nat k) in * by lia. change (N.of_nat (16 * 4)) with 64 in *.
      set (o := 16 * N.of_nat k) in *.
      assert (O64 : only m m' a 64) by (apply (only_weaken _ _ a o); [exact O|lia|lia]).
      pose proof (here_only _ _ _ _ _ _ _ O64 Dm Hm) as Hm'. pose proof (here_only _ _ _ _ _ _ _ O64 Ds Hs) as Hs'.
      rewrite (N.mul_comm (N.of_nat k) 16). fold o.
      rewrite (at_ij cfg m' p msg j o Hm'), (at_ij cfg m' q sec i o Hs') by lia. rewrite (padd_small cfg a o) by lia.
      ok (load_part cfg m' p msg (j + o) 16 Hm' ltac:(lia)). ok (load_part cfg m' q sec (i + o) 16 Hs' ltac:(lia)).
      ok (acc_chunk cfg m a v Ha m' o 16 O ltac:(lia) 16 ltac:(lia) eq_refl ltac:(apply mod_add; [discriminate|exact A])).
      cbv zeta. unfold o. rewrite !word2_part, !acc_part by (auto; lia). fold o.
      pose proof (neon_stripe (lane2 v k) (word2 msg j k) (word2 sec i k) (word2_small _ _ _) (word2_small _ _ _) z) as NS.
      destruct (XXH_SPLIT_IN_PLACE z (veorq_u64 (word2 msg j k) (word2 sec i k))) as [lo hi] eqn:ES. cbn [fst snd] in NS.
      destruct (two_stores m' k (bytes64 (vaddq_u64 (lane2 v k) (vextq_u64 (word2 msg j k) (word2 msg j k) 1)))
        (fun x => bytes64 (vmlal_u32 (of_bytes64 x) lo hi)) O L A (bytes64_length _) (fun x => bytes64_length _)) as (m2 & E & B & O2).
      fold o in E, B, O2. exists m2. split; [exact E|]. split; [|exact O2].
      unfold stripe_at. rewrite <- NS. rewrite <- (pair_bytes_le cfg) by exact BE. rewrite bytes_back in B by apply zip_add_small. exact B.
  Qed.
  Lemma neon_scramble_ok : forall z i, big_endian cfg = false -> a mod 16 = 0 -> i + 64 <= mlen sec ->
    turns cfg (XXH3_scrambleAcc_neon cfg x3 z a (q + i)) m a (scramble sec i v).
  Proof.
    intros z i BE A Li. pose proof (acc_space cfg m a v Ha) as SP. unfold XXH3_scrambleAcc_neon, turns.
    rewrite (bind_ok _ _ _ _ _ _ _ (ASSERT_ok cfg x3 _ m (fun _ => land_mod a 4 A))).
    rewrite scramble_pairs. change 64 with (N.of_nat (16 * 4)). apply chunks_loop.
    - intros k L. apply pair_bytes_length.
    - intros k m' L O. replace (N.of_nat (16 * k)) with (16 * N.of_nat k) in * by lia. change (N.of_nat (16 * 4)) with 64 in *.
      set (o := 16 * N.of_nat k) in *.
      assert (O64 : only m m' a 64) by (apply (only_weaken _ _ a o); [exact O|lia|lia]).
      pose proof (here_only _ _ _ _ _ _ _ O64 Ds Hs) as Hs'.
      rewrite (N.mul_comm (N.of_nat k) 16). fold o.
      rewrite (at_ij cfg m' q sec i o Hs') by lia. rewrite (padd_small cfg a o) by lia.
      ok (acc_chunk cfg m a v Ha m' o 16 O ltac:(lia) 16 ltac:(lia) eq_refl ltac:(apply mod_add; [discriminate|exact A])).
      ok (load_part cfg m' q sec (i + o) 16 Hs' ltac:(lia)).
      cbv zeta. unfold o. rewrite !word2_part, !acc_part by (auto; lia). fold o.
      pose proof (neon_scramble (lane2 v k) (word2 sec i k) (lane2_small _ _ (proj2 Ha)) (word2_small _ _ _) z) as NS. cbv zeta in NS.
      destruct (XXH_SPLIT_IN_PLACE z _) as [lo hi] eqn:ES. cbn [fst snd] in NS.
      destruct (two_stores m' k (bytes64 (vshlq_n_u64 (vmull_u32 hi (vdup_n_u32 XXH_PRIME32_1)) 32))
        (fun x => bytes64 (vmlal_u32 (of_bytes64 x) lo (vdup_n_u32 XXH_PRIME32_1))) O L A (bytes64_length _) (fun x => bytes64_length _)) as (m2 & E & B & O2).
      fold o in E, B, O2. exists m2. split; [exact E|]. split; [|exact O2].
      unfold scramble_at. rewrite <- NS. rewrite <- (pair_bytes_le cfg) by exact BE. rewrite bytes_back in B by apply map_shl_small. exact B.
  Qed.

  Lemma vec_loadu_ok : forall m' r l k n, here cfg m' r l -> n + 16 * N.of_nat k + 16 <= mlen l ->
    XXH_vec_loadu cfg (r + (n + 16 * N.of_nat k)) m' = Ok (reg cfg (word2 l n k), m').
  Proof.
    intros m' r l k n H L. unfold XXH_vec_loadu. ok (load_part cfg m' r l (n + 16 * N.of_nat k) 16 H ltac:(lia)). unfold ret.
    do 2 f_equal. rewrite <- word2_part. set (c := firstn 16 _).
    assert (Lc : length c = 16%nat) by (unfold c; rewrite firstn_length, skipn_length; unfold mlen in L; lia).
    unfold vsx_of_bytes, reg, of_bytes64. destruct (big_endian cfg); [now apply revb_chunk|].
    reflexivity.
  Qed.
  Lemma vsx_acc : forall k, (k < 4)%nat ->
    vsx_of_bytes cfg (firstn 16 (skipn (N.to_nat (16 * N.of_nat k)) (acc_bytes cfg v))) = reg cfg (lane2 v k).
  Proof.
    intros k L. rewrite vsx_native. unfold lane2. rewrite <- !(wn_lane cfg) by (exact (proj2 Ha) || lia).
    do 2 f_equal; f_equal; lia.
  Qed.
  Lemma vsx_stripe_ok : forall i j, a mod 16 = 0 -> j + 64 <= mlen msg -> i + 64 <= mlen sec ->
    turns cfg (XXH3_accumulate_512_vsx cfg a (p + j) (q + i)) m a (stripe_3 sec i msg j v).
  Proof.
    intros i j A Lj Li. pose proof (acc_space cfg m a v Ha) as SP. unfold XXH3_accumulate_512_vsx, turns.
    rewrite stripe_pairs. change 64 with (N.of_nat (16 * 4)). cbv zeta. apply chunks_loop.
    - intros k L. apply pair_bytes_length.
    - intros k m' L O. replace (N.of_nat (16 * k)) with (16 * N.of_nat k) in * by lia. change (N.of_nat (16 * 4)) with 64 in *.
      set (o := 16 * N.of_nat k) in *.
      assert (O64 : only m m' a 64) by (apply (only_weaken _ _ a o); [exact O|lia|lia]).
      pose proof (here_only _ _ _ _ _ _ _ O64 Dm Hm) as Hm'. pose proof (here_only _ _ _ _ _ _ _ O64 Ds Hs) as Hs'.
      rewrite (at_ij cfg m' p msg j o Hm'), (at_ij cfg m' q sec i o Hs') by lia. rewrite (padd_small cfg a o) by lia.
      ok (vec_loadu_ok m' p msg k j Hm' ltac:(lia)). ok (vec_loadu_ok m' q sec k i Hs' ltac:(lia)).
      ok (acc_chunk cfg m a v Ha m' o 16 O ltac:(lia) 16 ltac:(lia) eq_refl ltac:(apply mod_add; [discriminate|exact A])).
      unfold o. rewrite !vsx_acc by lia. fold o.
      pose proof (vsx_stripe cfg (lane2 v k) (word2 msg j k) (word2 sec i k) (lane2_small _ _ (proj2 Ha)) (word2_small _ _ _) (word2_small _ _ _)) as NS.
      cbv zeta in NS. revert NS.
      set (dk := vec_xor (reg cfg (word2 msg j k)) (reg cfg (word2 sec i k))).
      assert (P : XXH_vec_mulo dk (vec_rl dk (32, 32)) = reg cfg (halves (xor (fst (word2 msg j k)) (fst (word2 sec i k))),
                    halves (xor (snd (word2 msg j k)) (snd (word2 sec i k))))).
      { unfold dk, vec_xor. rewrite reg_zip. apply vsx_product. apply xor_small; apply word2_small. }
      rewrite P. unfold vec_add. rewrite reg_zip. rewrite vsx_bytes_reg. set (half := zip64 add64 (lane2 v k) _). intro NS.
      destruct (two_stores m' k (pair_bytes cfg half)
        (fun x => vsx_bytes cfg (vec_add (vsx_of_bytes cfg x) (vec_xxpermdi_2 (reg cfg (word2 msg j k)) (reg cfg (word2 msg j k)))))
        O L A (pair_bytes_length _ _)) as (m2 & E & B & O2).
      { intro x. unfold vsx_bytes. destruct (big_endian cfg); rewrite app_length, ?be_bytes_length, ?le_bytes_length; reflexivity. }
      fold o in E, B, O2. exists m2. split; [exact E|]. split; [|exact O2].
      rewrite vsx_back in B by apply zip_add_small. unfold vec_add in B. rewrite NS, vsx_bytes_reg in B. exact B.
  Qed.
  Lemma vsx_scramble_ok : forall i, a mod 16 = 0 -> i + 64 <= mlen sec ->
    turns cfg (XXH3_scrambleAcc_vsx cfg x3 a (q + i)) m a (scramble sec i v).
  Proof.
    intros i A Li. pose proof (acc_space cfg m a v Ha) as SP. unfold XXH3_scrambleAcc_vsx, turns.
    rewrite (bind_ok _ _ _ _ _ _ _ (ASSERT_ok cfg x3 _ m (fun _ => land_mod a 4 A))).
    rewrite scramble_pairs. change 64 with (N.of_nat (16 * 4)). cbv zeta. apply chunks_loop.
    - intros k L. apply pair_bytes_length.
    - intros k m' L O. replace (N.of_nat (16 * k)) with (16 * N.of_nat k) in * by lia. change (N.of_nat (16 * 4)) with 64 in *.
      set (o := 16 * N.of_nat k) in *.
      assert (O64 : only m m' a 64) by (apply (only_weaken _ _ a o); [exact O|lia|lia]).
      pose proof (here_only _ _ _ _ _ _ _ O64 Ds Hs) as Hs'.
      rewrite (at_ij cfg m' q sec i o Hs') by lia. rewrite (padd_small cfg a o) by lia.
      ok (acc_chunk cfg m a v Ha m' o 16 O ltac:(lia) 16 ltac:(lia) eq_refl ltac:(apply mod_add; [discriminate|exact A])).
      ok (vec_loadu_ok m' q sec k i Hs' ltac:(lia)).
      unfold o. rewrite !vsx_acc by lia. fold o.
      pose proof (vsx_scramble cfg (lane2 v k) (word2 sec i k) (lane2_small _ _ (proj2 Ha)) (word2_small _ _ _)) as NS.
      cbv zeta in NS. rewrite NS, vsx_bytes_reg.
      assert (Ao : (a + o) mod 16 = 0) by (apply mod_add; [discriminate|exact A]).
      destruct (store_vector_ok 16 (a + o) (pair_bytes cfg (scramble_pair (lane2 v k) (word2 sec i k))) m' (pair_bytes_length _ _)
        (acc_mapped cfg m a v Ha m' o 16 O o ltac:(lia)) Ao) as (E & B & O1).
      eexists. split; [exact E|]. split; [exact B|exact O1].
  Qed.
End Variants.
