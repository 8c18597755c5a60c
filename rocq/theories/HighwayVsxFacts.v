(** HighwayHash in C++ for POWER8: the operations of HHStateVSX on a little-endian machine. *)
From Coq Require Import ZArith NArith Arith List Bool Lia Strings.Byte.
From Coq Require Import ZifyN ZifyNat ZifyBool.
From Verif Require Import Bytes CSem Bits Spec NBits CSemFacts OpsFacts FetchFacts CtxMem StreamFacts SelfcheckSpec T1ha2
  Onto Highway HighwaySpec HighwayFacts HighwayCat HighwayCxx HighwayTemplates HighwayPortable HighwaySimd HighwaySimdFacts HighwaySimdSound
  Xxhash HighwayVsx.
Import ListNotations.
Ltac Zify.zify_post_hook ::= Z.div_mod_to_equations.
Local Open Scope N_scope.

(** ** The state *)
Lemma vsx_rotate_lanes : forall x y, vsx_Rotate64By32 (x, y) = (hh_swap x, hh_swap y).
Proof.
  intros. unfold vsx_Rotate64By32, vec_rl_u64, zip64, hh_swap. cbn [fst snd]. change (32 mod 64) with 32. change ((64 - 32) mod 64) with 32.
  now rewrite !(N.lor_comm (shl64 _ _)).
Qed.
Lemma low_hh_swap : forall x, u32 (hh_swap x) = shr64 x 32.
Proof.
  intro x. unfold hh_swap. apply N.bits_inj. intro i. unfold u32. change W32 with (2 ^ 32). destruct (N.ltb_spec i 32) as [L|L].
  - rewrite N.mod_pow2_bits_low by exact L. rewrite N.lor_spec, shl64_bits. destruct (N.leb_spec 32 i); [lia|].
    rewrite andb_false_r. now rewrite orb_false_r.
  - rewrite N.mod_pow2_bits_high by exact L. rewrite shr64_bits. destruct (N.ltb_spec (i + 32) 64); [lia|reflexivity].
Qed.
Lemma vsx_mul_lanes : forall x y z w, MultiplyVectors false (x, y) (z, w) = (u32 x * u32 z, u32 y * u32 w).
Proof. reflexivity. Qed.
Lemma vsx_zipper_lanes : forall x y, vsx_ZipperMerge false (x, y) = zip x y.
Proof. reflexivity. Qed.
Lemma mul_hh_swap : forall x y, u32 x * u32 (hh_swap y) = mul64 (N.land x 0xffffffff) (shr64 y 32).
Proof. intros. rewrite low_hh_swap. apply mul_lanes. Qed.
Lemma add_order' : forall b w c, add64 b (add64 w c) = add64 b (add64 c w).
Proof. intros. now rewrite (add64_comm w c). Qed.
#[local] Opaque vsx_ZipperMerge zip swap_halves hh_swap mul64 shr64 N.land MultiplyVectors.
Lemma vsx_UpdateV_eq : forall h l st, sse_c (vsx_UpdateV false h l st) = Update (fst l, snd l, fst h, snd h) (sse_c st).
Proof.
  intros [w2 w3] [w0 w1] [[a0 a1] [a2 a3] [b0 b1] [b2 b3] [c0 c1] [c2 c3] [d0 d1] [d2 d3]].
  unfold vsx_UpdateV, Update, Update_lane, sse_c, vadd, vxor, vshr, map64, zip64.
  cbn [s_v0L s_v0H s_v1L s_v1H s_mul0L s_mul0H s_mul1L s_mul1H hh_v0 hh_v1 hh_mul0 hh_mul1 fst snd].
  rewrite !vsx_rotate_lanes, !vsx_mul_lanes. cbn [fst snd].
  rewrite !mul_hh_swap, !mul_shr, (add_order' b0 w0 c0), (add_order' b1 w1 c1), (add_order' b2 w2 c2), (add_order' b3 w3 c3).
  rewrite !vsx_zipper_lanes, !zipper_ok. cbn [fst snd]. reflexivity.
Qed.
#[local] Transparent vsx_ZipperMerge zip swap_halves hh_swap mul64 shr64 N.land MultiplyVectors.
Lemma vsx_Reset_eq : forall key, sse_c (vsx_Reset key) = HighwayHashReset_pure_c key.
Proof.
  intros [[[k0 k1] k2] k3]. unfold vsx_Reset, HighwayHashReset_pure_c, sse_c, vxor, zip64.
  rewrite !vsx_rotate_lanes. cbn [s_v0L s_v0H s_v1L s_v1H s_mul0L s_mul0H s_mul1L s_mul1H fst snd].
  rewrite !(N.lxor_comm k0), !(N.lxor_comm k1), !(N.lxor_comm k2), !(N.lxor_comm k3).
  rewrite !(N.lxor_comm (hh_swap k0)), !(N.lxor_comm (hh_swap k1)), !(N.lxor_comm (hh_swap k2)), !(N.lxor_comm (hh_swap k3)). reflexivity.
Qed.
Lemma vsx_round_eq : forall st, sse_c (vsx_PermuteAndUpdate false st) = PermuteAndUpdate (sse_c st).
Proof.
  intros [[a0 a1] [a2 a3] [b0 b1] [b2 b3] [c0 c1] [c2 c3] [d0 d1] [d2 d3]]. unfold vsx_PermuteAndUpdate. rewrite vsx_UpdateV_eq.
  unfold PermuteAndUpdate, Permute, sse_c. cbn [s_v0L s_v0H s_v1L s_v1H s_mul0L s_mul0H s_mul1L s_mul1H hh_v0 fst snd].
  rewrite !vsx_rotate_lanes. reflexivity.
Qed.
Lemma vsx_rounds_eq : forall n st, sse_c (Nat.iter n (vsx_PermuteAndUpdate false) st) = PermuteAndUpdate_times n (sse_c st).
Proof.
  intros n st. induction n as [|n IH]; [reflexivity|]. cbn [Nat.iter nat_rect] in *. unfold Nat.iter in IH. rewrite vsx_round_eq, IH. reflexivity.
Qed.
Lemma vsx_Finalize64_eq : forall st, vsx_Finalize64 false st = HighwayHashFinalize64_pure_c (sse_c st).
Proof.
  intro st. unfold vsx_Finalize64, HighwayHashFinalize64_pure_c. rewrite <- vsx_rounds_eq.
  generalize (Nat.iter 4 (vsx_PermuteAndUpdate false) st). intros [[a0 a1] [a2 a3] [b0 b1] [b2 b3] [c0 c1] [c2 c3] [d0 d1] [d2 d3]]. reflexivity.
Qed.
Lemma vsx_Finalize128_eq : forall st, vsx_Finalize128 false st = HighwayHashFinalize128_pure_c (sse_c st).
Proof.
  intro st. unfold vsx_Finalize128, HighwayHashFinalize128_pure_c. rewrite <- vsx_rounds_eq.
  generalize (Nat.iter 6 (vsx_PermuteAndUpdate false) st). intros [[a0 a1] [a2 a3] [b0 b1] [b2 b3] [c0 c1] [c2 c3] [d0 d1] [d2 d3]]. reflexivity.
Qed.
(** the shift of the register *)
Lemma sll_lanes : forall x y n, x < 2 ^ 64 -> y < 2 ^ 64 -> 0 < n < 64 ->
  vec_sll false (x, y) n = (shl64 x n, N.lor (shl64 y n) (shr64 x (64 - n))).
Proof.
  intros x y n X Y H. unfold vec_sll. cbn [fst snd]. cbv zeta.
  assert (E : (y * 2 ^ 64 + x) * 2 ^ n = N.shiftl (N.lor (N.shiftl y 64) x) n).
  { rewrite N.shiftl_mul_pow2. f_equal. rewrite N.lor_comm, N.shiftl_mul_pow2. rewrite lor_low_high by exact X. apply N.add_comm. }
  rewrite E. clear E.
  assert (HX : forall i, 64 <= i -> N.testbit x i = false).
  { intros i I. destruct (N.eq_dec x 0) as [->|Z]; [apply N.bits_0|]. apply N.bits_above_log2. apply N.lt_le_trans with 64; [|exact I].
    apply N.log2_lt_pow2; [lia|exact X]. }
  assert (HY : forall i, 64 <= i -> N.testbit y i = false).
  { intros i I. destruct (N.eq_dec y 0) as [->|Z]; [apply N.bits_0|]. apply N.bits_above_log2. apply N.lt_le_trans with 64; [|exact I].
    apply N.log2_lt_pow2; [lia|exact Y]. }
  f_equal; apply N.bits_inj; intro i.
  - rewrite shl64_bits. destruct (N.ltb_spec i 64) as [L|L].
    + rewrite !N.mod_pow2_bits_low by lia. cbn [andb]. destruct (N.leb_spec n i) as [K|K].
      * rewrite N.shiftl_spec_high', N.lor_spec, N.shiftl_spec_low by lia. reflexivity.
      * now rewrite N.shiftl_spec_low.
    + now rewrite N.mod_pow2_bits_high.
  - rewrite <- N.shiftr_div_pow2, N.shiftr_spec', N.lor_spec, shl64_bits, shr64_bits. destruct (N.ltb_spec i 64) as [L|L].
    + rewrite N.mod_pow2_bits_low by lia. rewrite N.shiftl_spec_high', N.lor_spec by lia. cbn [andb].
      destruct (N.leb_spec n i) as [K|K]; cbn [andb].
      * rewrite N.shiftl_spec_high' by lia. destruct (N.ltb_spec (i + (64 - n)) 64); [lia|]. cbn [andb]. rewrite (HX (i + 64 - n)) by lia.
        f_equal. f_equal. lia.
      * rewrite N.shiftl_spec_low by lia. destruct (N.ltb_spec (i + (64 - n)) 64); [|lia]. cbn [andb orb]. f_equal. lia.
    + rewrite N.mod_pow2_bits_high by lia. cbn [andb orb]. destruct (N.ltb_spec (i + (64 - n)) 64); [lia|reflexivity].
Qed.
Lemma vsx_upper_word : forall a3 a2 a1,
  N.lxor a1 (N.lxor (N.land (N.lor (shl64 a3 1) (shr64 a2 63)) 0x7FFFFFFFFFFFFFFF) (N.lor (shl64 a3 2) (shr64 a2 62)))
  = N.lxor (N.lxor a1 (N.lor (shl64 (N.land a3 0x3FFFFFFFFFFFFFFF) 1) (shr64 a2 63))) (N.lor (shl64 (N.land a3 0x3FFFFFFFFFFFFFFF) 2) (shr64 a2 62)).
Proof.
  intros a3 a2 a1. change 0x3FFFFFFFFFFFFFFF with (N.ones 62). change 0x7FFFFFFFFFFFFFFF with (N.ones 63). rewrite N.lxor_assoc. f_equal.
  assert (O : forall k j, N.testbit (N.ones k) j = (j <? k)).
  { intros k j. destruct (N.ltb_spec j k); [now apply N.ones_spec_low|now apply N.ones_spec_high]. }
  apply N.bits_inj. intro i. rewrite !N.lxor_spec, !N.land_spec, !N.lor_spec, !shl64_bits, !N.land_spec, !shr64_bits, !O.
  destruct (N.ltb_spec i 64), (N.leb_spec 1 i), (N.leb_spec 2 i), (N.ltb_spec (i + 62) 64), (N.ltb_spec (i + 63) 64),
    (N.ltb_spec i 63), (N.ltb_spec (i - 1) 62), (N.ltb_spec (i - 2) 62); try lia;
    cbn [andb negb orb]; rewrite ?andb_true_r, ?andb_false_r, ?orb_false_r, ?xorb_false_r; try reflexivity;
    destruct (N.testbit a3 (i - 1)), (N.testbit a3 (i - 2)), (N.testbit a2 (i + 62)), (N.testbit a2 (i + 63)); reflexivity.
Qed.
Lemma vsx_reduction_eq : forall a3 a2 a1 a0, a3 < 2 ^ 64 -> a2 < 2 ^ 64 ->
  vsx_ModularReduction false (a2, a3) (a0, a1) = (snd (ModularReduction a3 a2 a1 a0), fst (ModularReduction a3 a2 a1 a0)).
Proof.
  intros a3 a2 a1 a0 A3 A2. unfold vsx_ModularReduction, ModularReduction. cbv zeta. rewrite !sll_lanes by (assumption || lia).
  unfold vand, vxor, zip64. cbn [fst snd]. change (64 - 1) with 63. change (64 - 2) with 62. f_equal; [|apply vsx_upper_word].
  change 0xFFFFFFFFFFFFFFFF with (N.ones 64). rewrite N.land_ones, (N.mod_small (shl64 a2 1)) by (apply N.mod_lt; discriminate).
  now rewrite N.lxor_assoc.
Qed.
Lemma add64_lt : forall a b, add64 a b < 2 ^ 64.
Proof. intros. apply N.mod_lt. discriminate. Qed.
Lemma vsx_Finalize256_eq : forall st, vsx_Finalize256 false st = HighwayHashFinalize256_pure_c (sse_c st).
Proof.
  intro st. unfold vsx_Finalize256, HighwayHashFinalize256_pure_c. rewrite <- vsx_rounds_eq.
  generalize (Nat.iter 10 (vsx_PermuteAndUpdate false) st). intros [[a0 a1] [a2 a3] [b0 b1] [b2 b3] [c0 c1] [c2 c3] [d0 d1] [d2 d3]].
  unfold sse_c, vadd, zip64. cbn [s_v0L s_v0H s_v1L s_v1H s_mul0L s_mul0H s_mul1L s_mul1H hh_v0 hh_v1 hh_mul0 hh_mul1 fst snd].
  rewrite !vsx_reduction_eq by apply add64_lt.
  destruct (ModularReduction (add64 b1 d1) _ _ _) as [h1 h0], (ModularReduction (add64 b3 d3) _ _ _) as [h3 h2]. reflexivity.
Qed.

(** ** The length *)
Definition vsx_longer (n : N) (st : HHStateVSX) : HHStateVSX :=
  let v := as64 false (u32 n, u32 n, u32 n, u32 n) in
  SSE41 (vadd (s_v0L st) v) (vadd (s_v0H st) v) (vsx_Rotate32By1 false (s_v1L st) n) (vsx_Rotate32By1 false (s_v1H st) n)
    (s_mul0L st) (s_mul0H st) (s_mul1L st) (s_mul1H st).
Lemma vsx_rotate_ok : forall x y n, x < 2 ^ 64 -> y < 2 ^ 64 -> 0 < n < 32 -> vsx_Rotate32By1 false (x, y) n = (rotl_halves x n, rotl_halves y n).
Proof.
  intros x y n X Y H. unfold vsx_Rotate32By1, vec_rl_u32, as32, as64, zip32, rotl_halves. cbv zeta.
  assert (E : u32 n = n) by (unfold u32; change W32 with 4294967296; lia). rewrite E.
  replace (n mod 32) with n by lia. replace ((32 - n) mod 32) with (32 - n) by lia.
  assert (P : forall z, z mod 2 ^ 32 < 2 ^ 32) by (intro; apply N.mod_lt; discriminate).
  assert (Q : forall z, z < 2 ^ 64 -> z / 2 ^ 32 < 2 ^ 32) by (intros; apply N.div_lt_upper_bound; [discriminate|assumption]).
  rewrite !(fun z A => proj1 (rotl32_ok z n A H)) by (apply P || now apply Q). f_equal; apply N.add_comm.
Qed.
Lemma vsx_set1 : forall n, n < 32 -> as64 false (u32 n, u32 n, u32 n, u32 n) = (add64 (shl64 n 32) n, add64 (shl64 n 32) n).
Proof. intros n L. rewrite <- set1_to64 by exact L. unfold as64, to64, mm_set1_epi32. f_equal; apply N.add_comm. Qed.
Lemma vsx_longer_ok : forall n st, good (conv (sse_c st)) -> 0 < n < 32 ->
  conv (sse_c (vsx_longer n st)) = map_columns (col_length n) (conv (sse_c st)) /\ good (conv (sse_c (vsx_longer n st))).
Proof.
  intros n st G H. assert (E : conv (sse_c (vsx_longer n st)) = map_columns (col_length n) (conv (sse_c st))).
  { pose proof (lengthened n (sse_c st) G H) as L. rewrite <- L. clear L. revert G.
    destruct st as [[a0 a1] [a2 a3] [b0 b1] [b2 b3] [c0 c1] [c2 c3] [d0 d1] [d2 d3]]. intros ((_ & B0 & _) & (_ & B1 & _) & (_ & B2 & _) & (_ & B3 & _)).
    cbn [ca cb cc cd sse_c s_v0L s_v0H s_v1L s_v1H s_mul0L s_mul0H s_mul1L s_mul1H hh_v0 hh_v1 hh_mul0 hh_mul1 fst snd] in *.
    unfold vsx_longer, sse_c. cbv zeta. cbn [s_v0L s_v0H s_v1L s_v1H s_mul0L s_mul0H s_mul1L s_mul1H].
    rewrite vsx_set1, !vsx_rotate_ok by (assumption || lia). reflexivity. }
  split; [exact E|]. rewrite E. now apply good_length_any.
Qed.

(** ** Packets and remainders *)
Lemma vsx_packet_ok : forall h l st, length l = 16%nat -> length h = 16%nat -> good (conv (sse_c st)) ->
  conv (sse_c (vsx_UpdateV false (of_bytes64 h) (of_bytes64 l) st)) = hh_packet (conv (sse_c st)) (l ++ h).
Proof. intros h l st L H G. rewrite vsx_UpdateV_eq, of_bytes_lanes by assumption. unfold hh_packet. now apply update_ok. Qed.
Lemma vec_of_bytes_le : forall l, vec_of_bytes false l = of_bytes64 l.
Proof. reflexivity. Qed.
Lemma load_unaligned_ok : forall m p l, length l = 16%nat -> bytes_at m p l -> LoadUnaligned false p m = Ok (of_bytes64 l, m).
Proof. intros m p l L H. unfold LoadUnaligned. rewrite <- L at 1. ok (load_bytes_ok _ m p H). reflexivity. Qed.
Lemma as64_to64 : forall v, as64 false v = to64 v.
Proof. intros [[[e0 e1] e2] e3]. unfold as64, to64. f_equal; apply N.add_comm. Qed.
Lemma as32_to32 : forall x y, as32 false (x, y) = (x mod 2 ^ 32, x / 2 ^ 32, y mod 2 ^ 32, y / 2 ^ 32).
Proof. reflexivity. Qed.

(** as [vsx_LoadMultipleOfFour] on a machine on which alignment does not matter *)
Definition vsx_load_any (be : bool) (cfg : config) (bytes size : N) : M V2x64U :=
  if negb (N.land size 8 =? 0) then
    w0 <- load_uint cfg 4 bytes ;;
    w1 <- load_uint cfg 4 (padd cfg bytes 4) ;;
    if negb (N.land size 4 =? 0) then
      w2 <- load_uint cfg 4 (padd cfg bytes 8) ;; ret (as64 be (w0, w1, w2, 0))
    else ret (as64 be (w0, w1, 0, 0))
  else if negb (N.land size 4 =? 0) then
    w0 <- load_uint cfg 4 bytes ;; ret (as64 be (w0, 0, 0, 0))
  else ret (as64 be (0, 0, 0, 0)).
Lemma padd_mod4 : forall cfg p k, k mod 4 = 0 -> padd cfg p k mod 4 = p mod 4.
Proof.
  intros cfg p k K. unfold padd, addr_space. destruct (ptr64 cfg); [change W64 with 18446744073709551616|change W32 with 4294967296]; lia.
Qed.
Lemma load_any_aligned : forall be cfg p n, p mod 4 = 0 \/ n mod 16 < 4 /\ n < 32 -> vsx_LoadMultipleOfFour be cfg p n = vsx_load_any be cfg p n.
Proof.
  intros be cfg p n H. unfold vsx_LoadMultipleOfFour, vsx_load_any. destruct H as [H|[H L]].
  - unfold deref. change (alignment cfg 4) with 4. rewrite !padd_mod4 by reflexivity. rewrite H. reflexivity.
  - destruct (land_8_4 n L) as [-> ->]. replace (n mod 16 / 4) with 0 by lia. reflexivity.
Qed.
Lemma load_any_ok : forall cfg m p n q, big_endian cfg = false -> n < 32 -> length q = (4 * N.to_nat (n mod 16 / 4))%nat -> bytes_at m p q ->
  p + mlen q < addr_space cfg -> vsx_load_any false cfg p n m = Ok (of_bytes64 (q ++ repeat x00 (16 - length q)), m).
Proof.
  intros cfg m p n q LE L Q H A. unfold vsx_load_any. destruct (land_8_4 n L) as [-> ->]. rewrite !negb_involutive.
  assert (C : n mod 16 / 4 = 0 \/ n mod 16 / 4 = 1 \/ n mod 16 / 4 = 2 \/ n mod 16 / 4 = 3) by lia.
  assert (U : forall k t, t = firstn 4 (skipn k q) -> (k + 4 <= length q)%nat -> load_uint cfg 4 (p + N.of_nat k) m = Ok (le_num t, m)).
  { intros k t -> K. assert (B : bytes_at m (p + N.of_nat k) (firstn 4 (skipn k q))) by (apply bytes_at_firstn; apply bytes_at_skipn; [exact H|lia]).
    rewrite (load_uint_ok cfg m _ _ 4 B) by (rewrite firstn_length, skipn_length; lia). now rewrite LE. }
  assert (E0 : p = p + N.of_nat 0) by lia.
  destruct C as [C|[C|[C|C]]]; rewrite C in Q |- *; cbn [N.to_nat Pos.to_nat Pos.iter_op Nat.add Nat.mul] in Q.
  - change (2 <=? 0) with false. change (N.odd 0) with false. cbv iota. destruct q; [reflexivity|discriminate Q].
  - change (2 <=? 1) with false. change (N.odd 1) with true. cbv iota. rewrite E0 at 1. ok (U 0%nat _ eq_refl ltac:(lia)).
    unfold ret. rewrite as64_to64. do 4 (destruct q as [|? q]; [discriminate Q|]). destruct q; [|discriminate Q].
    cbn [skipn firstn app length repeat Nat.sub]. rewrite <- to64_of_bytes by reflexivity. reflexivity.
  - change (2 <=? 2) with true. change (N.odd 2) with false. cbv iota. rewrite E0 at 1. ok (U 0%nat _ eq_refl ltac:(lia)).
    rewrite padd_small by (unfold mlen in A; lia). ok (U 4%nat _ eq_refl ltac:(lia)).
    unfold ret. rewrite as64_to64. do 8 (destruct q as [|? q]; [discriminate Q|]). destruct q; [|discriminate Q].
    cbn [skipn firstn app length repeat Nat.sub]. rewrite <- to64_of_bytes by reflexivity. reflexivity.
  - change (2 <=? 3) with true. change (N.odd 3) with true. cbv iota. rewrite E0 at 1. ok (U 0%nat _ eq_refl ltac:(lia)).
    rewrite padd_small by (unfold mlen in A; lia). ok (U 4%nat _ eq_refl ltac:(lia)).
    rewrite padd_small by (unfold mlen in A; lia). ok (U 8%nat _ eq_refl ltac:(lia)).
    unfold ret. rewrite as64_to64. do 12 (destruct q as [|? q]; [discriminate Q|]). destruct q; [|discriminate Q].
    cbn [skipn firstn app length repeat Nat.sub]. rewrite <- to64_of_bytes by reflexivity. reflexivity.
Qed.
Lemma vsx_insert : forall l t, length l = 16%nat -> length t = 4%nat ->
  (let '(e0, e1, e2, _) := as32 false (of_bytes64 l) in as64 false (e0, e1, e2, u32 (le_num t))) = of_bytes64 (firstn 12 l ++ t).
Proof.
  intros l t L T. assert (E : as32 false (of_bytes64 l) = to32 (of_bytes64 l)) by reflexivity. rewrite E, to32_of_bytes by exact L.
  rewrite <- to64_of_bytes by (rewrite app_length, firstn_length; lia). rewrite <- insert_of_bytes by assumption.
  unfold of_bytes32. rewrite as64_to64. reflexivity.
Qed.
Lemma vsx_last3 : forall t, (length t <= 3)%nat -> (le_num (last3 t), 0) = of_bytes64 (last3 t ++ repeat x00 13).
Proof. intros t L. rewrite <- last3_words by exact L. reflexivity. Qed.
Lemma vsx_remainder_ok : forall cfg m p r st, big_endian cfg = false -> (1 <= length r <= 31)%nat -> bytes_at m p r -> p + mlen r < addr_space cfg ->
  good (conv (sse_c st)) ->
  exists st', vsx_UpdateRemainder_with false (vsx_load_any false) cfg p (mlen r) st m = Ok (st', m) /\ conv (sse_c st') = hh_rest_with pad (conv (sse_c st)) r.
Proof.
  intros cfg m p r st LE L H A G. pose proof (addr_space_pos cfg) as AS.
  assert (NL : 0 < mlen r < 32) by (unfold mlen; lia).
  destruct (vsx_longer_ok (mlen r) st G NL) as [C G']. destruct (rest_halves r L) as (PP & LL & LH).
  exists (vsx_UpdateV false (of_bytes64 (rest_high r)) (of_bytes64 (rest_low r)) (vsx_longer (mlen r) st)). split.
  - unfold vsx_UpdateRemainder_with. cbv zeta. fold (vsx_longer (mlen r) st). rewrite land_3. set (q := (4 * (length r / 4))%nat).
    assert (Q : mlen r - mlen r mod 4 = N.of_nat q) by (unfold mlen, q; lia). rewrite Q.
    assert (QL : (q <= length r)%nat) by (unfold q; lia).
    assert (PA : padd cfg p (N.of_nat q) = p + N.of_nat q) by (apply padd_small; unfold mlen in A; lia). rewrite PA.
    rewrite land_16, negb_involutive by lia. unfold rest_low, rest_high. cbv zeta. fold q.
    destruct (N.leb_spec 16 (mlen r)) as [B|B].
    + destruct (Nat.leb_spec 16 (length r)) as [B'|B']; [|unfold mlen in B; lia].
      assert (L16 : length (firstn 16 r) = 16%nat) by (rewrite firstn_length; lia).
      ok (load_unaligned_ok m p _ L16 (bytes_at_firstn _ _ 16%nat _ H)). rewrite padd_small by (unfold mlen in A; lia).
      assert (LQ : length (firstn (q - 16) (skipn 16 r)) = (q - 16)%nat) by (rewrite firstn_length, skipn_length; lia).
      assert (H16 : bytes_at m (p + 16) (firstn (q - 16) (skipn 16 r))) by (apply bytes_at_firstn; apply (bytes_at_skipn m p 16%nat r); [exact H|lia]).
      assert (K : length (firstn (q - 16) (skipn 16 r)) = (4 * N.to_nat (mlen r mod 16 / 4))%nat) by (rewrite LQ; unfold mlen, q; lia).
      ok (load_any_ok cfg m (p + 16) (mlen r) _ LE (proj2 NL) K H16 ltac:(unfold mlen in *; lia)). rewrite LQ.
      replace (16 - (q - 16))%nat with (32 - q)%nat by (unfold q; lia).
      assert (L4 : length (skipn (length r - 4) r) = 4%nat) by (rewrite skipn_length; lia).
      assert (H4 : bytes_at m (p + N.of_nat q + mlen r mod 4 - 4) (skipn (length r - 4) r)).
      { replace (p + N.of_nat q + mlen r mod 4 - 4) with (p + N.of_nat (length r - 4)) by (unfold mlen in *; lia). apply bytes_at_skipn; [exact H|lia]. }
      ok (load_before_ok cfg m (p + N.of_nat q) _ (mlen r mod 4) L4 H4 ltac:(lia) ltac:(lia) ltac:(lia)).
      assert (LZ : length (firstn (q - 16) (skipn 16 r) ++ repeat x00 (32 - q)) = 16%nat) by (rewrite app_length, LQ, repeat_length; unfold q; lia).
      rewrite <- (vsx_insert _ _ LZ L4). destruct (as32 false _) as [[[e0 e1] e2] e3]. reflexivity.
    + destruct (Nat.leb_spec 16 (length r)) as [B'|B']; [unfold mlen in B; lia|].
      assert (LQ : length (firstn q r) = q) by (rewrite firstn_length; lia).
      assert (K : length (firstn q r) = (4 * N.to_nat (mlen r mod 16 / 4))%nat) by (rewrite LQ; unfold mlen, q; lia).
      ok (load_any_ok cfg m p (mlen r) _ LE (proj2 NL) K (bytes_at_firstn _ _ q _ H) ltac:(unfold mlen in *; lia)). rewrite LQ.
      assert (LS : length (skipn q r) = (length r mod 4)%nat) by (rewrite skipn_length; unfold q; lia).
      assert (MS : mlen r mod 4 = mlen (skipn q r)) by (unfold mlen; lia). rewrite MS.
      ok (unordered_ok cfg m (p + N.of_nat q) (skipn q r) ltac:(lia) (bytes_at_skipn _ _ _ _ H QL) ltac:(lia)).
      rewrite vsx_last3 by lia. reflexivity.
  - rewrite vsx_packet_ok by assumption. rewrite PP, C. unfold hh_rest_with. destruct r; [cbn [length] in L; lia|reflexivity].
Qed.
(** So all operations are correct where alignment does not matter. *)
Definition vsx_any (be : bool) : hh_ops HHStateVSX := vsx_with be (vsx_load_any be).
Lemma vsx_any_sound : forall cfg, big_endian cfg = false -> hh_sound cfg (vsx_any false) (fun st => conv (sse_c st)) pad 1.
Proof.
  intros cfg LE. pose proof (addr_space_pos cfg) as AS. pose proof (portable_sound cfg) as PS. constructor; unfold vsx_any, vsx_with;
    cbn [op_Reset op_Update op_UpdateRemainder op_Finalize64 op_Finalize128 op_Finalize256 op_ZeroInitialize op_CopyPartial op_AppendPartial op_AppendAndUpdate].
  - intros key K. rewrite vsx_Reset_eq. now apply reset_ok.
  - intros m p l st L H A G. unfold vsx_Update. exists (vsx_UpdateV false (of_bytes64 (skipn 16 l)) (of_bytes64 (firstn 16 l)) st).
    assert (L1 : length (firstn 16 l) = 16%nat) by (rewrite firstn_length; lia). assert (L2 : length (skipn 16 l) = 16%nat) by (rewrite skipn_length; lia). split.
    + ok (load_unaligned_ok m p _ L1 (bytes_at_firstn _ _ 16%nat _ H)). rewrite padd_small by lia.
      ok (load_unaligned_ok m (p + 16) _ L2 (bytes_at_skipn m p 16%nat l H ltac:(lia))). reflexivity.
    + rewrite vsx_packet_ok by assumption. now rewrite firstn_skipn.
  - intros. now apply vsx_remainder_ok.
  - intros st G. rewrite vsx_Finalize64_eq. now apply finalize64_ok.
  - intros st G. rewrite vsx_Finalize128_eq. now apply finalize128_ok.
  - intros st G. rewrite vsx_Finalize256_eq. now apply finalize256_ok.
  - exact (sound_ZeroInitialize _ _ _ _ _ PS).
  - exact (sound_CopyPartial _ _ _ _ _ PS).
  - exact (sound_AppendPartial _ _ _ _ _ PS).
  - intros m p l b old st L LO H A M A' _ D B G. unfold vsx_AppendAndUpdate, tmp_of.
    replace (N.to_nat (mlen l)) with (length l) by (unfold mlen; lia). replace (N.to_nat (mlen old)) with (length old) by (unfold mlen; lia).
    exists (vsx_Update_local false (old ++ l) st). split.
    + rewrite bind_assoc. ok (load_bytes_ok old m b B). rewrite bind_assoc. ok (load_bytes_ok l m p H).
      destruct (N.eqb_spec (mlen old + mlen l) 32) as [_|X]; [reflexivity|unfold mlen in X; lia].
    + assert (LA : length (old ++ l) = 32%nat) by (rewrite app_length; lia). unfold vsx_Update_local. rewrite !vec_of_bytes_le.
      rewrite vsx_packet_ok; [now rewrite firstn_skipn| | |exact G].
      * rewrite firstn_length. lia.
      * rewrite skipn_length. lia.
Qed.

(** ** With alignment *)
Lemma vsx_remainder_any : forall be cfg p n st, p mod 4 = 0 \/ n mod 16 < 4 /\ n < 32 ->
  vsx_UpdateRemainder be cfg p n st = vsx_UpdateRemainder_with be (vsx_load_any be) cfg p n st.
Proof.
  intros be cfg p n st H. unfold vsx_UpdateRemainder, vsx_UpdateRemainder_with. cbv zeta.
  rewrite !load_any_aligned; try assumption; [reflexivity|]. rewrite padd_mod4 by reflexivity. exact H.
Qed.
Lemma land_31' : forall n, N.land n 31 = n mod 32.
Proof. intro n. change 31 with (N.ones 5). apply N.land_ones. Qed.
Lemma vsx_loop_any : forall be fuel cfg p t i st, HighwayHashT_loop (vsx be) fuel cfg p t i st = HighwayHashT_loop (vsx_any be) fuel cfg p t i st.
Proof. intro be. induction fuel as [|fuel IH]; intros; reflexivity. Qed.
Lemma vsx_state_any : forall be cfg p n st m, p mod 4 = 0 \/ n mod 16 < 4 ->
  HighwayHashT_state (vsx be) cfg p n st m = HighwayHashT_state (vsx_any be) cfg p n st m.
Proof.
  intros be cfg p n st m H. unfold HighwayHashT_state. cbv zeta. rewrite vsx_loop_any. unfold bind.
  destruct (HighwayHashT_loop _ _ _ _ _ _ _ _) as [[s0 m0]| | | | |]; try reflexivity.
  destruct (negb _); [|reflexivity]. change (op_UpdateRemainder (vsx be)) with (vsx_UpdateRemainder be).
  rewrite vsx_remainder_any; [reflexivity|].
  rewrite land_31'. destruct H as [H|H]; [left|right; lia]. rewrite padd_mod4; [exact H|lia].
Qed.
