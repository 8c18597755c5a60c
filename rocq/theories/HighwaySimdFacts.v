(** HighwayHash in C++: the states of the SSE4.1 and AVX2 classes. *)
From Coq Require Import ZArith NArith Arith List Bool Lia Strings.Byte.
From Coq Require Import ZifyN ZifyNat ZifyBool.
From Verif Require Import Bytes CSem Bits Spec NBits CSemFacts OpsFacts FetchFacts CtxMem StreamFacts SelfcheckSpec T1ha2
  Onto Highway HighwaySpec HighwayFacts HighwayCat HighwayCxx HighwayTemplates HighwayPortable HighwaySimd.
Import ListNotations.
Ltac Zify.zify_post_hook ::= Z.div_mod_to_equations.
Local Open Scope N_scope.

(** ** Lanes *)
Lemma add64_add : forall x y, add64 x y = add x y.
Proof. reflexivity. Qed.
Lemma rotate_lanes : forall x y, sse_Rotate64By32 (x, y) = (swap_halves x, swap_halves y).
Proof. reflexivity. Qed.
Lemma low_swap : forall x, u32 (swap_halves x) = shr64 x 32.
Proof.
  intro x. unfold u32, swap_halves, shr64, u64. rewrite N.shiftr_div_pow2. change W32 with (2 ^ 32). change W64 with (2 ^ 32 * 2 ^ 32).
  rewrite N.mod_add by discriminate. rewrite N.mod_mul_r by discriminate. rewrite (N.mul_comm (2 ^ 32)), N.div_add by discriminate.
  now rewrite (N.div_small (x mod 2 ^ 32)) by (apply N.mod_lt; discriminate).
Qed.
Lemma low_shr : forall x, u32 (shr64 x 32) = shr64 x 32.
Proof.
  intro x. unfold u32. apply N.mod_small. unfold shr64. rewrite N.shiftr_div_pow2. apply N.div_lt_upper_bound; [discriminate|].
  unfold u64. change W32 with (2 ^ 32). change (2 ^ 32 * 2 ^ 32) with W64. apply N.mod_lt. discriminate.
Qed.
Lemma mul_lanes : forall x y, u32 x * shr64 y 32 = mul64 (N.land x 0xffffffff) (shr64 y 32).
Proof.
  intros x y. replace (N.land x 0xffffffff) with (u32 x) by (symmetry; apply (N.land_ones x 32)).
  unfold mul64. symmetry. apply u64_small. rewrite <- (low_shr y). unfold u32.
  assert (L : forall z, z mod W32 < 2 ^ 32) by (intro; apply N.mod_lt; discriminate).
  pose proof (L x) as P. pose proof (L (shr64 y 32)) as Q. change W64 with (2 ^ 32 * 2 ^ 32).
  apply N.mul_lt_mono; assumption.
Qed.
Lemma mul_swap : forall x y, u32 x * u32 (swap_halves y) = mul64 (N.land x 0xffffffff) (shr64 y 32).
Proof. intros. rewrite low_swap. apply mul_lanes. Qed.
Lemma mul_shr : forall x y, u32 x * u32 (shr64 y 32) = mul64 (N.land x 0xffffffff) (shr64 y 32).
Proof. intros. rewrite low_shr. apply mul_lanes. Qed.
Lemma zipper_lanes : forall x y, sse_ZipperMerge (x, y) = zip x y.
Proof. reflexivity. Qed.
Lemma add_order : forall b w c, add64 (add64 b w) c = add64 b (add64 c w).
Proof. intros. unfold add64, u64. rewrite N.add_mod_idemp_l, N.add_mod_idemp_r by discriminate. f_equal. lia. Qed.

(** ** SSE4.1 *)
Definition sse_c (st : HHStateSSE41) : HighwayHashState :=
  HHS (fst (s_v0L st), snd (s_v0L st), fst (s_v0H st), snd (s_v0H st)) (fst (s_v1L st), snd (s_v1L st), fst (s_v1H st), snd (s_v1H st))
    (fst (s_mul0L st), snd (s_mul0L st), fst (s_mul0H st), snd (s_mul0H st)) (fst (s_mul1L st), snd (s_mul1L st), fst (s_mul1H st), snd (s_mul1H st)).
#[local] Opaque sse_ZipperMerge zip swap_halves mul64 shr64 N.land.
Lemma sse_UpdateV_eq : forall h l st, sse_c (sse_UpdateV h l st) = Update (fst l, snd l, fst h, snd h) (sse_c st).
Proof.
  intros [w2 w3] [w0 w1] [[a0 a1] [a2 a3] [b0 b1] [b2 b3] [c0 c1] [c2 c3] [d0 d1] [d2 d3]].
  unfold sse_UpdateV, Update, Update_lane, sse_c, mm_add_epi64, mm_xor_si128, mm_mul_epu32, mm_srli_epi64, map64, zip64.
  cbn [s_v0L s_v0H s_v1L s_v1H s_mul0L s_mul0H s_mul1L s_mul1H hh_v0 hh_v1 hh_mul0 hh_mul1 fst snd].
  rewrite !rotate_lanes. cbn [fst snd]. rewrite !mul_swap, !mul_shr, (add_order b0 w0 c0), (add_order b1 w1 c1), (add_order b2 w2 c2), (add_order b3 w3 c3). rewrite !zipper_lanes, !zipper_ok. cbn [fst snd].
  reflexivity.
Qed.
#[local] Transparent sse_ZipperMerge zip swap_halves mul64 shr64 N.land.
Lemma sse_Reset_eq : forall key, good_quad key -> sse_c (sse_Reset key) = HighwayHashReset_pure_c key.
Proof.
  intros [[[k0 k1] k2] k3] (K0 & K1 & K2 & K3). unfold sse_Reset, HighwayHashReset_pure_c, sse_c, mm_xor_si128, zip64.
  cbn [s_v0L s_v0H s_v1L s_v1H s_mul0L s_mul0H s_mul1L s_mul1H fst snd]. rewrite !rotate_lanes. cbn [fst snd].
  rewrite !swap_ok by assumption.
  rewrite !(N.lxor_comm k0), !(N.lxor_comm k1), !(N.lxor_comm k2), !(N.lxor_comm k3).
  rewrite !(N.lxor_comm (swap_halves k0)), !(N.lxor_comm (swap_halves k1)), !(N.lxor_comm (swap_halves k2)), !(N.lxor_comm (swap_halves k3)). reflexivity.
Qed.
Lemma sse_round_eq : forall st, good (conv (sse_c st)) -> sse_c (sse_PermuteAndUpdate st) = PermuteAndUpdate (sse_c st).
Proof.
  intros [[a0 a1] [a2 a3] [b0 b1] [b2 b3] [c0 c1] [c2 c3] [d0 d1] [d2 d3]] G. unfold sse_PermuteAndUpdate. rewrite sse_UpdateV_eq.
  unfold PermuteAndUpdate, Permute. unfold sse_c in *.
  cbn [s_v0L s_v0H s_v1L s_v1H s_mul0L s_mul0H s_mul1L s_mul1H hh_v0 hh_v1 hh_mul0 hh_mul1 fst snd conv good] in *.
  destruct G as ((A0 & _) & (A1 & _) & (A2 & _) & (A3 & _)). cbn [ca] in *. rewrite !rotate_lanes. cbn [fst snd].
  rewrite !swap_ok by assumption. reflexivity.
Qed.
Lemma sse_rounds_eq : forall n st, good (conv (sse_c st)) -> sse_c (Nat.iter n sse_PermuteAndUpdate st) = PermuteAndUpdate_times n (sse_c st).
Proof.
  intros n st G. induction n as [|n IH]; [reflexivity|]. cbn [Nat.iter nat_rect] in *. unfold Nat.iter in IH. rewrite sse_round_eq; rewrite IH.
  - reflexivity.
  - destruct (rounds_ok n (sse_c st) G) as [-> R]. exact R.
Qed.
Lemma add64_comm : forall a b, add64 a b = add64 b a.
Proof. intros. unfold add64. now rewrite N.add_comm. Qed.
Lemma add64_assoc : forall a b c, add64 (add64 a b) c = add64 a (add64 b c).
Proof. intros. unfold add64, u64. rewrite N.add_mod_idemp_l, N.add_mod_idemp_r by discriminate. now rewrite N.add_assoc. Qed.
Lemma sum_order : forall a b c d, add64 (add64 a b) (add64 c d) = add64 (add64 (add64 a c) b) d.
Proof. intros. rewrite !add64_assoc. f_equal. rewrite <- !add64_assoc, (add64_comm b c). reflexivity. Qed.
Lemma sse_Finalize64_eq : forall st, good (conv (sse_c st)) -> sse_Finalize64 st = HighwayHashFinalize64_pure_c (sse_c st).
Proof.
  intros st G. unfold sse_Finalize64, HighwayHashFinalize64_pure_c. rewrite <- sse_rounds_eq by exact G.
  generalize (Nat.iter 4 sse_PermuteAndUpdate st). intros [[a0 a1] [a2 a3] [b0 b1] [b2 b3] [c0 c1] [c2 c3] [d0 d1] [d2 d3]].
  apply sum_order.
Qed.
Lemma sse_Finalize128_eq : forall st, good (conv (sse_c st)) -> sse_Finalize128 st = HighwayHashFinalize128_pure_c (sse_c st).
Proof.
  intros st G. unfold sse_Finalize128, HighwayHashFinalize128_pure_c. rewrite <- sse_rounds_eq by exact G.
  generalize (Nat.iter 6 sse_PermuteAndUpdate st). intros [[a0 a1] [a2 a3] [b0 b1] [b2 b3] [c0 c1] [c2 c3] [d0 d1] [d2 d3]].
  unfold sse_c, mm_add_epi64, zip64. cbn [s_v0L s_v0H s_v1L s_v1H s_mul0L s_mul0H s_mul1L s_mul1H hh_v0 hh_v1 hh_mul0 hh_mul1 fst snd].
  now rewrite <- !add64_assoc.
Qed.

(** ** The reduction *)
Lemma shl64_bits : forall x k i, N.testbit (shl64 x k) i = (i <? 64) && (k <=? i) && N.testbit x (i - k).
Proof.
  intros x k i. unfold shl64, u64. change W64 with (2 ^ 64). destruct (N.ltb_spec i 64) as [L|L].
  - rewrite N.mod_pow2_bits_low by exact L. destruct (N.leb_spec k i) as [K|K]; [now rewrite N.shiftl_spec_high'|now rewrite N.shiftl_spec_low].
  - now rewrite N.mod_pow2_bits_high.
Qed.
Lemma shr64_bits : forall x k i, N.testbit (shr64 x k) i = (i + k <? 64) && N.testbit x (i + k).
Proof.
  intros x k i. unfold shr64, u64. change W64 with (2 ^ 64). rewrite N.shiftr_spec'. destruct (N.ltb_spec (i + k) 64) as [L|L].
  - now rewrite N.mod_pow2_bits_low.
  - now rewrite N.mod_pow2_bits_high.
Qed.
Lemma double_shl : forall x, add64 x x = shl64 x 1.
Proof. intro x. unfold add64, shl64. rewrite N.shiftl_mul_pow2. change (2 ^ 1) with 2. f_equal. lia. Qed.
Lemma double_twice : forall x, shl64 (shl64 x 1) 1 = shl64 x 2.
Proof.
  intro x. unfold shl64, u64. rewrite !N.shiftl_mul_pow2. change W64 with 18446744073709551616. change (2 ^ 1) with 2. change (2 ^ 2) with 4. lia.
Qed.
Lemma slli_8 : forall x y, x < 2 ^ 64 -> mm_slli_si128 (x, y) 8 = (0, x).
Proof.
  intros x y L. unfold mm_slli_si128, of_bytes64, bytes64.
  change (firstn 16 (repeat x00 8 ++ le_bytes 8 x ++ le_bytes 8 y)) with (repeat x00 8 ++ le_bytes 8 x).
  change (firstn 8 (repeat x00 8 ++ le_bytes 8 x)) with (repeat x00 8). change (firstn 8 (skipn 8 (repeat x00 8 ++ le_bytes 8 x))) with (le_bytes 8 x).
  rewrite le_num_le_bytes. f_equal. now apply N.mod_small.
Qed.
(** the upper word: the two upper bits of [a3] do not count *)
Lemma upper_word : forall a3 a2 a1,
  N.lxor (N.lxor (N.lxor (N.lxor a1 (shl64 a3 2)) (shr64 a2 62)) (N.ldiff (shl64 a3 1) 0x8000000000000000)) (shr64 a2 63)
  = N.lxor (N.lxor a1 (N.lor (shl64 (N.land a3 0x3FFFFFFFFFFFFFFF) 1) (shr64 a2 63))) (N.lor (shl64 (N.land a3 0x3FFFFFFFFFFFFFFF) 2) (shr64 a2 62)).
Proof.
  intros a3 a2 a1. change 0x3FFFFFFFFFFFFFFF with (N.ones 62). change 0x8000000000000000 with (2 ^ 63). apply N.bits_inj. intro i.
  rewrite !N.lxor_spec, !N.lor_spec, !N.ldiff_spec, !shl64_bits, !N.land_spec, !shr64_bits.
  rewrite N.pow2_bits_eqb.
  assert (O : forall j, N.testbit (N.ones 62) j = (j <? 62)).
  { intro j. destruct (N.ltb_spec j 62); [now apply N.ones_spec_low|now apply N.ones_spec_high]. }
  rewrite !O.
  destruct (N.ltb_spec i 64), (N.leb_spec 1 i), (N.leb_spec 2 i), (N.ltb_spec (i + 62) 64), (N.ltb_spec (i + 63) 64),
    (N.eqb_spec 63 i), (N.ltb_spec (i - 1) 62), (N.ltb_spec (i - 2) 62); try lia;
    cbn [andb negb orb]; rewrite ?andb_true_r, ?andb_false_r, ?orb_false_r, ?xorb_false_r; try reflexivity;
    destruct (N.testbit a1 i), (N.testbit a3 (i - 1)), (N.testbit a3 (i - 2)), (N.testbit a2 (i + 62)), (N.testbit a2 (i + 63)); reflexivity.
Qed.
Lemma shr_lt : forall x k, shr64 x k < 2 ^ 64.
Proof.
  intros. unfold shr64. rewrite N.shiftr_div_pow2. apply N.le_lt_trans with (u64 x); [|apply N.mod_lt; discriminate].
  apply N.div_le_upper_bound; [now apply N.pow_nonzero|]. pose proof (N.pow_nonzero 2 k ltac:(discriminate)). nia.
Qed.
Lemma sse_reduction_eq : forall a3 a2 a1 a0,
  sse_ModularReduction (a2, a3) (a0, a1) = (snd (ModularReduction a3 a2 a1 a0), fst (ModularReduction a3 a2 a1 a0)).
Proof.
  intros. unfold sse_ModularReduction, sse_XorByShift128Left12, ModularReduction. cbv zeta.
  change (to64 (mm_insert_epi32_3 (0, 0, 0, 0) 2147483648)) with (0, 0x8000000000000000).
  unfold mm_srli_epi64, mm_add_epi64, mm_xor_si128, mm_andnot_si128, map64, zip64. cbn [fst snd].
  rewrite !slli_8 by apply shr_lt. cbn [fst snd]. rewrite !double_shl, !double_twice.
  f_equal.
  - rewrite N.ldiff_0_r, !N.lxor_0_r. rewrite !N.lxor_assoc. f_equal. apply N.lxor_comm.
  - apply upper_word.
Qed.
Lemma sse_Finalize256_eq : forall st, good (conv (sse_c st)) -> sse_Finalize256 st = HighwayHashFinalize256_pure_c (sse_c st).
Proof.
  intros st G. unfold sse_Finalize256, HighwayHashFinalize256_pure_c. rewrite <- sse_rounds_eq by exact G.
  generalize (Nat.iter 10 sse_PermuteAndUpdate st). intros [[a0 a1] [a2 a3] [b0 b1] [b2 b3] [c0 c1] [c2 c3] [d0 d1] [d2 d3]].
  unfold sse_c, mm_add_epi64, zip64. cbn [s_v0L s_v0H s_v1L s_v1H s_mul0L s_mul0H s_mul1L s_mul1H hh_v0 hh_v1 hh_mul0 hh_mul1 fst snd].
  rewrite !sse_reduction_eq. destruct (ModularReduction (add64 b1 d1) _ _ _) as [h1 h0], (ModularReduction (add64 b3 d3) _ _ _) as [h3 h2]. reflexivity.
Qed.

(** ** AVX2 *)
Definition avx_c (st : HHStateAVX2) : HighwayHashState :=
  let q (v : V4x64U) := (fst (fst v), snd (fst v), fst (snd v), snd (snd v)) in HHS (q (x_v0 st)) (q (x_v1 st)) (q (x_mul0 st)) (q (x_mul1 st)).
Lemma avx_rotate_lanes : forall x y z w, avx_Rotate64By32 ((x, y), (z, w)) = ((swap_halves x, swap_halves y), (swap_halves z, swap_halves w)).
Proof. reflexivity. Qed.
Lemma avx_permute_lanes : forall x y z w, avx_Permute ((x, y), (z, w)) = ((swap_halves z, swap_halves w), (swap_halves x, swap_halves y)).
Proof. reflexivity. Qed.
Lemma avx_zipper_lanes : forall x y z w, avx_ZipperMerge ((x, y), (z, w)) = (zip x y, zip z w).
Proof. reflexivity. Qed.
#[local] Opaque avx_ZipperMerge zip swap_halves mul64 shr64 N.land.
Lemma avx_UpdateV_eq : forall l h st, avx_c (avx_UpdateV (l, h) st) = Update (fst l, snd l, fst h, snd h) (avx_c st).
Proof.
  intros [w0 w1] [w2 w3] [[[a0 a1] [a2 a3]] [[b0 b1] [b2 b3]] [[c0 c1] [c2 c3]] [[d0 d1] [d2 d3]]].
  unfold avx_UpdateV, Update, Update_lane, avx_c, mm256_add_epi64, mm256_xor_si256, mm256_mul_epu32, mm256_srli_epi64, both2, both,
    mm_add_epi64, mm_xor_si128, mm_mul_epu32, mm_srli_epi64, map64, zip64.
  cbn [x_v0 x_v1 x_mul0 x_mul1 hh_v0 hh_v1 hh_mul0 hh_mul1 fst snd].
  rewrite !mul_shr, (add_order b0 w0 c0), (add_order b1 w1 c1), (add_order b2 w2 c2), (add_order b3 w3 c3).
  rewrite !avx_zipper_lanes, !zipper_ok. cbn [fst snd]. reflexivity.
Qed.
#[local] Transparent avx_ZipperMerge zip swap_halves mul64 shr64 N.land.
Lemma avx_Reset_eq : forall key, good_quad key -> avx_c (avx_Reset key) = HighwayHashReset_pure_c key.
Proof.
  intros [[[k0 k1] k2] k3] (K0 & K1 & K2 & K3). unfold avx_Reset, HighwayHashReset_pure_c, avx_c, mm256_xor_si256, both2, mm_xor_si128, zip64.
  rewrite !avx_rotate_lanes. cbn [x_v0 x_v1 x_mul0 x_mul1 V256 fst snd].
  rewrite !swap_ok by assumption.
  rewrite !(N.lxor_comm k0), !(N.lxor_comm k1), !(N.lxor_comm k2), !(N.lxor_comm k3).
  rewrite !(N.lxor_comm (swap_halves k0)), !(N.lxor_comm (swap_halves k1)), !(N.lxor_comm (swap_halves k2)), !(N.lxor_comm (swap_halves k3)). reflexivity.
Qed.
Lemma avx_round_eq : forall st, good (conv (avx_c st)) -> avx_c (avx_PermuteAndUpdate st) = PermuteAndUpdate (avx_c st).
Proof.
  intros [[[a0 a1] [a2 a3]] [[b0 b1] [b2 b3]] [[c0 c1] [c2 c3]] [[d0 d1] [d2 d3]]] G. unfold avx_PermuteAndUpdate.
  unfold x_v0. rewrite avx_permute_lanes, avx_UpdateV_eq.
  unfold PermuteAndUpdate, Permute. unfold avx_c in *.
  cbn [x_v0 x_v1 x_mul0 x_mul1 hh_v0 hh_v1 hh_mul0 hh_mul1 fst snd conv good] in *.
  destruct G as ((A0 & _) & (A1 & _) & (A2 & _) & (A3 & _)). cbn [ca] in *.
  rewrite !swap_ok by assumption. reflexivity.
Qed.
Lemma avx_rounds_eq : forall n st, good (conv (avx_c st)) -> avx_c (Nat.iter n avx_PermuteAndUpdate st) = PermuteAndUpdate_times n (avx_c st).
Proof.
  intros n st G. induction n as [|n IH]; [reflexivity|]. cbn [Nat.iter nat_rect] in *. unfold Nat.iter in IH. rewrite avx_round_eq; rewrite IH.
  - reflexivity.
  - destruct (rounds_ok n (avx_c st) G) as [-> R]. exact R.
Qed.
Lemma avx_Finalize64_eq : forall st, good (conv (avx_c st)) -> avx_Finalize64 st = HighwayHashFinalize64_pure_c (avx_c st).
Proof.
  intros st G. unfold avx_Finalize64, HighwayHashFinalize64_pure_c. rewrite <- avx_rounds_eq by exact G.
  generalize (Nat.iter 4 avx_PermuteAndUpdate st). intros [[[a0 a1] [a2 a3]] [[b0 b1] [b2 b3]] [[c0 c1] [c2 c3]] [[d0 d1] [d2 d3]]].
  apply sum_order.
Qed.
Lemma avx_Finalize128_eq : forall st, good (conv (avx_c st)) -> avx_Finalize128 st = HighwayHashFinalize128_pure_c (avx_c st).
Proof.
  intros st G. unfold avx_Finalize128, HighwayHashFinalize128_pure_c. rewrite <- avx_rounds_eq by exact G.
  generalize (Nat.iter 6 avx_PermuteAndUpdate st). intros [[[a0 a1] [a2 a3]] [[b0 b1] [b2 b3]] [[c0 c1] [c2 c3]] [[d0 d1] [d2 d3]]].
  unfold avx_c, mm256_castsi256_si128, mm256_extracti128_1, mm256_add_epi64, both2, mm_add_epi64, zip64. cbn [x_v0 x_v1 x_mul0 x_mul1 hh_v0 hh_v1 hh_mul0 hh_mul1 fst snd].
  now rewrite <- !add64_assoc.
Qed.
Lemma avx_reduction_eq : forall a3 a2 a1 a0 b3 b2 b1 b0,
  avx_ModularReduction ((a2, a3), (b2, b3)) ((a0, a1), (b0, b1))
  = ((snd (ModularReduction a3 a2 a1 a0), fst (ModularReduction a3 a2 a1 a0)), (snd (ModularReduction b3 b2 b1 b0), fst (ModularReduction b3 b2 b1 b0))).
Proof.
  intros. unfold avx_ModularReduction, avx_XorByShift128Left12, ModularReduction, mm256_cmpeq_epi64, mm256_srli_epi64, mm256_slli_epi64, mm256_slli_si256,
    mm256_unpacklo_epi64, mm256_andnot_si256, mm256_xor_si256, mm256_add_epi64, both2, both, zip64. cbv zeta. cbn [fst snd]. rewrite !N.eqb_refl.
  change (mm_slli_epi64 (mm_slli_si128 (0xFFFFFFFFFFFFFFFF, 0xFFFFFFFFFFFFFFFF) 8) 63) with (0, 0x8000000000000000).
  unfold mm_srli_epi64, mm_add_epi64, mm_xor_si128, mm_andnot_si128, map64, zip64. cbn [fst snd].
  rewrite !N.lxor_nilpotent, !double_shl, !double_twice, !N.ldiff_0_r, !N.lxor_0_r.
  change (64 - 2) with 62. change (64 - 1) with 63. rewrite !upper_word.
  assert (C : forall a x y, N.lxor (N.lxor a x) y = N.lxor (N.lxor a y) x) by (intros; rewrite !N.lxor_assoc; f_equal; apply N.lxor_comm).
  rewrite (C a0 (shl64 a2 2)), (C b0 (shl64 b2 2)). reflexivity.
Qed.
Lemma avx_Finalize256_eq : forall st, good (conv (avx_c st)) -> avx_Finalize256 st = HighwayHashFinalize256_pure_c (avx_c st).
Proof.
  intros st G. unfold avx_Finalize256, HighwayHashFinalize256_pure_c. rewrite <- avx_rounds_eq by exact G.
  generalize (Nat.iter 10 avx_PermuteAndUpdate st). intros [[[a0 a1] [a2 a3]] [[b0 b1] [b2 b3]] [[c0 c1] [c2 c3]] [[d0 d1] [d2 d3]]].
  unfold avx_c, mm256_add_epi64, both2, mm_add_epi64, zip64. cbn [x_v0 x_v1 x_mul0 x_mul1 hh_v0 hh_v1 hh_mul0 hh_mul1 fst snd].
  rewrite !avx_reduction_eq. destruct (ModularReduction (add64 b1 d1) _ _ _) as [h1 h0], (ModularReduction (add64 b3 d3) _ _ _) as [h3 h2]. reflexivity.
Qed.

(** ** The length *)
Lemma set1_to64 : forall n, n < 32 -> to64 (mm_set1_epi32 n) = (add64 (shl64 n 32) n, add64 (shl64 n 32) n).
Proof.
  intros n L. unfold to64, mm_set1_epi32. assert (E : u32 n = n) by (unfold u32; apply N.mod_small; change W32 with 4294967296; lia). rewrite E.
  assert (F : n + n * 2 ^ 32 = add64 (shl64 n 32) n).
  { unfold add64, shl64, u64. rewrite N.shiftl_mul_pow2. change W64 with 18446744073709551616. change (2 ^ 32) with 4294967296. lia. }
  now rewrite F.
Qed.
Lemma halves_lor : forall a b c d, a < 2 ^ 32 -> b < 2 ^ 32 -> N.lor (a + c * 2 ^ 32) (b + d * 2 ^ 32) = N.lor a b + N.lor c d * 2 ^ 32.
Proof.
  intros a b c d A B. rewrite <- !lor_low_high by (assumption || now apply (lor_lt 32)).
  rewrite <- !N.shiftl_mul_pow2, N.shiftl_lor. rewrite !N.lor_assoc. f_equal. rewrite <- !N.lor_assoc. f_equal. apply N.lor_comm.
Qed.
Lemma shifts_lt : forall x n, x < 2 ^ 32 -> shl32 x n < 2 ^ 32 /\ shr32 x n < 2 ^ 32.
Proof.
  intros x n X. split; [apply N.mod_lt; discriminate|]. unfold shr32, u32. change W32 with (2 ^ 32). rewrite N.mod_small by exact X.
  rewrite N.shiftr_div_pow2. apply N.le_lt_trans with x; [|exact X]. apply N.div_le_upper_bound; [now apply N.pow_nonzero|].
  pose proof (N.pow_nonzero 2 n ltac:(discriminate)). nia.
Qed.
Lemma lane_rotate : forall x n, x < 2 ^ 64 -> 0 < n < 32 ->
  N.lor (shl32 (x mod 2 ^ 32) n + shl32 (x / 2 ^ 32) n * 2 ^ 32) (shr32 (x mod 2 ^ 32) (32 - n) + shr32 (x / 2 ^ 32) (32 - n) * 2 ^ 32) = rotl_halves x n.
Proof.
  intros x n X H. assert (P : x mod 2 ^ 32 < 2 ^ 32) by (apply N.mod_lt; discriminate).
  assert (Q : x / 2 ^ 32 < 2 ^ 32) by (apply N.div_lt_upper_bound; [discriminate|exact X]).
  rewrite halves_lor by now apply shifts_lt. unfold rotl_halves.
  destruct (rotl32_ok _ n P H) as [-> _]. now destruct (rotl32_ok _ n Q H) as [-> _].
Qed.
Lemma sse_rotate_ok : forall x y n, x < 2 ^ 64 -> y < 2 ^ 64 -> 0 < n < 32 -> sse_Rotate32By1 (x, y) n = (rotl_halves x n, rotl_halves y n).
Proof.
  intros x y n X Y H. unfold sse_Rotate32By1, mm_cvtsi64_si128, mm_sll_epi32, mm_srl_epi32, mm_or_si128, map32, to32, to64, zip64. cbn [fst snd].
  assert (E : sub64 32 n = 32 - n) by (unfold sub64, u64; change W64 with 18446744073709551616; lia). rewrite E.
  destruct (N.ltb_spec 31 n) as [L|_]; [lia|]. destruct (N.ltb_spec 31 (32 - n)) as [L|_]; [lia|]. cbn [fst snd].
  now rewrite !lane_rotate.
Qed.
Lemma avx_rotate_ok : forall x y z w n, x < 2 ^ 64 -> y < 2 ^ 64 -> z < 2 ^ 64 -> w < 2 ^ 64 -> 0 < n < 32 ->
  avx_Rotate32By ((x, y), (z, w)) (mm_set1_epi32 n, mm_set1_epi32 n) = ((rotl_halves x n, rotl_halves y n), (rotl_halves z n, rotl_halves w n)).
Proof.
  intros x y z w n X Y Z W H. unfold avx_Rotate32By, mm256_sub_epi32, mm256_sllv_epi32, mm256_srlv_epi32, mm256_or_si256, mm_or_si128, both2, both,
    mm_set1_epi32, mm_sub_epi32, mm_sllv_epi32, mm_srlv_epi32, zip32, to32, to64, zip64. cbn [fst snd].
  assert (E : u32 n = n) by (unfold u32; change W32 with 4294967296; lia). rewrite E.
  assert (F : (2 ^ 32 + u32 32 - n) mod 2 ^ 32 = 32 - n) by (change (u32 32) with 32; change (2 ^ 32) with 4294967296; lia). rewrite F.
  destruct (N.ltb_spec 31 n) as [L|_]; [lia|]. destruct (N.ltb_spec 31 (32 - n)) as [L|_]; [lia|]. cbn [fst snd].
  now rewrite !lane_rotate.
Qed.
Lemma lengthened : forall n st, good (conv st) -> 0 < n < 32 ->
  let '(a0, a1, a2, a3) := hh_v0 st in let '(b0, b1, b2, b3) := hh_v1 st in
  let pair := add64 (shl64 n 32) n in
  conv (HHS (add64 a0 pair, add64 a1 pair, add64 a2 pair, add64 a3 pair) (rotl_halves b0 n, rotl_halves b1 n, rotl_halves b2 n, rotl_halves b3 n) (hh_mul0 st) (hh_mul1 st))
  = map_columns (col_length n) (conv st).
Proof.
  intros n [[[[a0 a1] a2] a3] [[[b0 b1] b2] b3] [[[c0 c1] c2] c3] [[[d0 d1] d2] d3]] G H. unfold conv. cbn [hh_v0 hh_v1 hh_mul0 hh_mul1].
  unfold map_columns, col_length. cbn [ca cb cc cd].
  assert (P : add64 (shl64 n 32) n = n * (2 ^ 32 + 1)).
  { unfold add64, shl64, u64. rewrite N.shiftl_mul_pow2. change W64 with 18446744073709551616. change (2 ^ 32) with 4294967296. lia. }
  rewrite P. reflexivity.
Qed.
Definition sse_longer (n : N) (st : HHStateSSE41) : HHStateSSE41 :=
  SSE41 (mm_add_epi64 (s_v0L st) (to64 (mm_set1_epi32 n))) (mm_add_epi64 (s_v0H st) (to64 (mm_set1_epi32 n)))
    (sse_Rotate32By1 (s_v1L st) n) (sse_Rotate32By1 (s_v1H st) n) (s_mul0L st) (s_mul0H st) (s_mul1L st) (s_mul1H st).
Lemma sse_longer_ok : forall n st, good (conv (sse_c st)) -> 0 < n < 32 ->
  conv (sse_c (sse_longer n st)) = map_columns (col_length n) (conv (sse_c st)) /\ good (conv (sse_c (sse_longer n st))).
Proof.
  intros n st G H. assert (E : conv (sse_c (sse_longer n st)) = map_columns (col_length n) (conv (sse_c st))).
  { pose proof (lengthened n (sse_c st) G H) as L. rewrite <- L. clear L. revert G.
    destruct st as [[a0 a1] [a2 a3] [b0 b1] [b2 b3] [c0 c1] [c2 c3] [d0 d1] [d2 d3]]. intros ((_ & B0 & _) & (_ & B1 & _) & (_ & B2 & _) & (_ & B3 & _)).
    cbn [ca cb cc cd sse_c s_v0L s_v0H s_v1L s_v1H s_mul0L s_mul0H s_mul1L s_mul1H hh_v0 hh_v1 hh_mul0 hh_mul1 fst snd] in *.
    unfold sse_longer, sse_c. cbn [s_v0L s_v0H s_v1L s_v1H s_mul0L s_mul0H s_mul1L s_mul1H].
    rewrite set1_to64, !sse_rotate_ok by (assumption || lia). reflexivity. }
  split; [exact E|]. rewrite E. now apply good_length_any.
Qed.
Definition avx_longer (n : N) (st : HHStateAVX2) : HHStateAVX2 :=
  AVX2 (mm256_add_epi64 (x_v0 st) (to64 (mm_set1_epi32 n), to64 (mm_set1_epi32 n))) (avx_Rotate32By (x_v1 st) (mm_set1_epi32 n, mm_set1_epi32 n))
    (x_mul0 st) (x_mul1 st).
Lemma avx_longer_ok : forall n st, good (conv (avx_c st)) -> 0 < n < 32 ->
  conv (avx_c (avx_longer n st)) = map_columns (col_length n) (conv (avx_c st)) /\ good (conv (avx_c (avx_longer n st))).
Proof.
  intros n st G H. assert (E : conv (avx_c (avx_longer n st)) = map_columns (col_length n) (conv (avx_c st))).
  { pose proof (lengthened n (avx_c st) G H) as L. rewrite <- L. clear L. revert G.
    destruct st as [[[a0 a1] [a2 a3]] [[b0 b1] [b2 b3]] [[c0 c1] [c2 c3]] [[d0 d1] [d2 d3]]]. intros ((_ & B0 & _) & (_ & B1 & _) & (_ & B2 & _) & (_ & B3 & _)).
    cbn [ca cb cc cd avx_c x_v0 x_v1 x_mul0 x_mul1 hh_v0 hh_v1 hh_mul0 hh_mul1 fst snd] in *.
    unfold avx_longer, avx_c. cbn [x_v0 x_v1 x_mul0 x_mul1].
    rewrite set1_to64, !avx_rotate_ok by (assumption || lia). reflexivity. }
  split; [exact E|]. rewrite E. now apply good_length_any.
Qed.

(** ** Packets *)
Lemma of_bytes_lanes : forall l h, length l = 16%nat -> length h = 16%nat ->
  (fst (of_bytes64 l), snd (of_bytes64 l), fst (of_bytes64 h), snd (of_bytes64 h)) = packet_words (l ++ h).
Proof.
  intros l h L H. do 16 (destruct l as [|? l]; [discriminate L|]). destruct l; [|discriminate L].
  do 16 (destruct h as [|? h]; [discriminate H|]). destruct h; [|discriminate H]. reflexivity.
Qed.
Lemma sse_packet_ok : forall h l st, length l = 16%nat -> length h = 16%nat -> good (conv (sse_c st)) ->
  conv (sse_c (sse_UpdateV (of_bytes64 h) (of_bytes64 l) st)) = hh_packet (conv (sse_c st)) (l ++ h).
Proof. intros h l st L H G. rewrite sse_UpdateV_eq, of_bytes_lanes by assumption. unfold hh_packet. now apply update_ok. Qed.
Lemma avx_packet_ok : forall h l st, length l = 16%nat -> length h = 16%nat -> good (conv (avx_c st)) ->
  conv (avx_c (avx_UpdateV (of_bytes64 l, of_bytes64 h) st)) = hh_packet (conv (avx_c st)) (l ++ h).
Proof. intros h l st L H G. rewrite avx_UpdateV_eq, of_bytes_lanes by assumption. unfold hh_packet. now apply update_ok. Qed.
Lemma le_num_8 : forall b0 b1 b2 b3 b4 b5 b6 b7, le_num [b0; b1; b2; b3] + le_num [b4; b5; b6; b7] * 2 ^ 32 = le_num [b0; b1; b2; b3; b4; b5; b6; b7].
Proof. intros. cbn [le_num]. change (2 ^ 32) with (256 * (256 * (256 * 256))). lia. Qed.
Lemma to64_of_bytes : forall l, length l = 16%nat -> to64 (of_bytes32 l) = of_bytes64 l.
Proof.
  intros l L. do 16 (destruct l as [|? l]; [discriminate L|]). destruct l; [|discriminate L].
  unfold to64, of_bytes32, of_bytes64. cbn [firstn skipn]. now rewrite !le_num_8.
Qed.
Lemma le_num_4_lt : forall b0 b1 b2 b3, le_num [b0; b1; b2; b3] < 2 ^ 32.
Proof. intros. apply (le_num_lt [b0; b1; b2; b3]). Qed.
Lemma to32_of_bytes : forall l, length l = 16%nat -> to32 (of_bytes64 l) = of_bytes32 l.
Proof.
  intros l L. rewrite <- to64_of_bytes by exact L. do 16 (destruct l as [|? l]; [discriminate L|]). destruct l; [|discriminate L].
  unfold to64, of_bytes32. cbn [firstn skipn]. unfold to32.
  rewrite !N.mod_add, !N.div_add by discriminate. rewrite !N.mod_small, !N.div_small by apply le_num_4_lt. reflexivity.
Qed.
Lemma bytes_of_bytes32 : forall l, length l = 16%nat -> bytes32 (of_bytes32 l) = l.
Proof.
  intros l L. do 16 (destruct l as [|? l]; [discriminate L|]). destruct l; [|discriminate L].
  unfold of_bytes32, bytes32. cbn [firstn skipn].
  assert (E : forall b0 b1 b2 b3, le_bytes 4 (le_num [b0; b1; b2; b3]) = [b0; b1; b2; b3]) by (intros x0 x1 x2 x3; apply (le_bytes_le_num [x0; x1; x2; x3])).
  now rewrite !E.
Qed.
Lemma insert_of_bytes : forall l t, length l = 16%nat -> length t = 4%nat -> mm_insert_epi32_3 (of_bytes32 l) (le_num t) = of_bytes32 (firstn 12 l ++ t).
Proof.
  intros l t L T. do 16 (destruct l as [|? l]; [discriminate L|]). destruct l; [|discriminate L].
  do 4 (destruct t as [|? t]; [discriminate T|]). destruct t; [|discriminate T]. unfold mm_insert_epi32_3, of_bytes32. cbn [firstn skipn app].
  unfold u32. rewrite N.mod_small by apply le_num_4_lt. reflexivity.
Qed.
