(** C60, C61: HighwayHash in C++ for SSE4.1 and AVX2, which the test program checks and
    measures. *)
From Coq Require Import ZArith NArith Arith List Bool Lia Strings.Byte.
From Coq Require Import ZifyN ZifyNat ZifyBool.
From Verif Require Import Bytes CSem Bits Spec NBits CSemFacts OpsFacts FetchFacts KeyMem CtxMem StreamFacts Demo SelfcheckSpec T1ha2
  Effects Highway HighwaySpec HighwayFacts HighwayCat PropHighway PropHighway2 HighwayCxx HighwayTemplates HighwayPortable PropHighwayCxx
  HighwaySimd HighwaySimdFacts HighwaySimdSound.
Import ListNotations.
Ltac Zify.zify_post_hook ::= Z.div_mod_to_equations.
Local Open Scope N_scope.

(** ** C60: hashing *)
(** Both compute HighwayHash, with results of all three sizes, of every message at every
    address; of [m] only the bytes of the message are used. *)
Theorem C60_sse41 : forall cfg, big_endian cfg = false -> T_computes cfg sse41 hh_absorb.
Proof. intros cfg LE. exact (T_computes_sound cfg sse41 _ _ _ (sse41_sound cfg LE)). Qed.
Print Assumptions C60_sse41.
Lemma avx2_T : forall cfg table, big_endian cfg = false -> table mod 16 = 0 -> T_computes cfg (avx2 table) hh_absorb.
Proof. intros cfg table LE T. exact (T_computes_sound cfg (avx2 table) _ _ _ (avx2_sound table cfg LE T)). Qed.
(** the operations for fragments do not matter to the others *)
Lemma T_computes_ext : forall cfg St (A B : hh_ops St) absorb,
  op_Reset A = op_Reset B -> op_Update A = op_Update B -> op_UpdateRemainder A = op_UpdateRemainder B ->
  op_Finalize64 A = op_Finalize64 B -> op_Finalize128 A = op_Finalize128 B -> op_Finalize256 A = op_Finalize256 B ->
  T_computes cfg A absorb -> T_computes cfg B absorb.
Proof.
  intros cfg St A B absorb E1 E2 E3 E4 E5 E6 T.
  assert (L : forall fuel p k i st m, HighwayHashT_loop A fuel cfg p k i st m = HighwayHashT_loop B fuel cfg p k i st m).
  { induction fuel as [|fuel IH]; intros p k i s0 m0; cbn [HighwayHashT_loop]; [reflexivity|]. destruct (i <? k); [|reflexivity]. unfold bind.
    rewrite E2. destruct (op_Update B cfg (padd cfg p i) s0 m0) as [[s1 m1]| | | | |]; apply IH || reflexivity. }
  assert (S : forall p n st m, HighwayHashT_state A cfg p n st m = HighwayHashT_state B cfg p n st m).
  { intros p n st m. unfold HighwayHashT_state. cbv zeta. unfold bind. rewrite L, E3. reflexivity. }
  intros m key p msg K H P. destruct (T m key p msg K H P) as (F1 & F2 & F3).
  unfold HighwayHashT64, HighwayHashT128, HighwayHashT256, bind in *. rewrite <- E1, <- E4, <- E5, <- E6. rewrite <- !S. exact (conj F1 (conj F2 F3)).
Qed.
Lemma T_computes_others : forall cfg St reset update rest f64 f128 f256 z c a au z' c' a' au' absorb,
  T_computes cfg (HHOps St reset update rest f64 f128 f256 z c a au) absorb -> T_computes cfg (HHOps St reset update rest f64 f128 f256 z' c' a' au') absorb.
Proof. intros. eapply T_computes_ext; [| | | | | |eassumption]; reflexivity. Qed.
(** wherever the table is *)
Theorem C60_avx2 : forall cfg table, big_endian cfg = false -> T_computes cfg (avx2 table) hh_absorb.
Proof.
  intros cfg table LE. pose proof (avx2_T cfg 0 LE eq_refl) as T0. unfold avx2 in *. exact (T_computes_others _ _ _ _ _ _ _ _ _ _ _ _ _ _ _ _ _ T0).
Qed.
Print Assumptions C60_avx2.
(** So all four implementations agree. *)
Theorem C60_agree : forall cfg m q key p msg, big_endian cfg = false -> good_quad key -> key_in cfg q key m ->
  bytes_at m p msg -> p + mlen msg < addr_space cfg -> mlen msg + 32 < addr_space cfg ->
  HighwayHash64_SSE41 cfg q p (mlen msg) m = HighwayHash64_pure_c cfg q p (mlen msg) m /\
  HighwayHash64_AVX2 cfg q p (mlen msg) m = HighwayHash64_pure_c cfg q p (mlen msg) m /\
  HighwayHash64_Portable cfg q p (mlen msg) m = HighwayHash64_pure_c cfg q p (mlen msg) m.
Proof.
  intros cfg m q key p msg LE G K H A A'.
  assert (E : HighwayHash64_pure_c cfg q p (mlen msg) m = Ok (highway64 key msg, m)) by now apply C54_value. rewrite E.
  split; [exact (Target_computes cfg _ _ _ (C60_sse41 cfg LE) m q key p msg G K H A)|].
  split; [exact (Target_computes cfg _ _ _ (C60_avx2 cfg 0 LE) m q key p msg G K H A)|].
  exact (Target_computes cfg _ _ _ (C58_little cfg LE) m q key p msg G K H A).
Qed.
Print Assumptions C60_agree.
(** The thunks that the test program measures agree as well. *)
Theorem C60_thunks : forall cfg m p msg seed, big_endian cfg = false -> seed < 2 ^ 64 ->
  bytes_at m p msg -> p + mlen msg < addr_space cfg -> mlen msg + 32 < addr_space cfg ->
  thunk_HighwayHash64_Target sse41 cfg p (mlen msg) seed m = thunk_HighwayHash64_pure_c cfg p (mlen msg) seed m /\
  thunk_HighwayHash64_Target (avx2 0) cfg p (mlen msg) seed m = thunk_HighwayHash64_pure_c cfg p (mlen msg) seed m.
Proof.
  intros cfg m p msg seed LE S H A A'. rewrite (C54_thunk cfg m p msg seed S H A A').
  assert (G : good_quad (seed, seed, seed, seed)) by exact (conj S (conj S (conj S S))).
  split; [exact (proj1 (C60_sse41 cfg LE m _ p msg G H A))|exact (proj1 (C60_avx2 cfg 0 LE m _ p msg G H A))].
Qed.
Print Assumptions C60_thunks.
(** The checks of the test program, whose results it ignores (C43), pass. *)
Theorem C60_verify : forall cfg data key1 key2 m, big_endian cfg = false ->
  data + 65 < addr_space cfg -> apart data 65 key1 32 -> apart data 65 key2 32 ->
  mapped m data 65 -> key_in cfg key1 test_key1 m -> key_in cfg key2 test_key2 m ->
  (exists m', HighwayHash64_verify cfg data key1 key2 (HighwayHash64_SSE41 cfg) m = Ok (false, m') /\ only m m' data 65) /\
  (exists m', HighwayHash64_verify cfg data key1 key2 (HighwayHash64_AVX2 cfg) m = Ok (false, m') /\ only m m' data 65).
Proof.
  intros cfg data key1 key2 m LE A D1 D2 M K1 K2. split.
  - assert (F : hh_computes cfg (HighwayHash64_SSE41 cfg) highway64).
    { intros m0 q key p msg G K H P _. exact (Target_computes cfg _ _ _ (C60_sse41 cfg LE) m0 q key p msg G K H P). }
    destruct (hh_verify_computes cfg _ _ F data key1 key2 A D1 D2 m M K1 K2) as (m' & E & O).
    exists m'. split; [|exact O]. rewrite E, hh_passes. reflexivity.
  - assert (F : hh_computes cfg (HighwayHash64_AVX2 cfg) highway64).
    { intros m0 q key p msg G K H P _. exact (Target_computes cfg _ _ _ (C60_avx2 cfg 0 LE) m0 q key p msg G K H P). }
    destruct (hh_verify_computes cfg _ _ F data key1 key2 A D1 D2 m M K1 K2) as (m' & E & O).
    exists m'. split; [|exact O]. rewrite E, hh_passes. reflexivity.
Qed.
Print Assumptions C60_verify.
(** Whatever the arguments, nothing is written; with more memory mapped the outcome is
    the same unless it was a fault. *)
Lemma tame_maskload : forall cfg p mask, tame (mm_maskload_epi32 cfg p mask).
Proof. intros cfg p [[[m0 m1] m2] m3]. unfold mm_maskload_epi32, maskload_lane. tame. Qed.
#[local] Hint Resolve tame_maskload : tame.
Lemma tame_multiple : forall cfg p n, tame (LoadMultipleOfFour cfg p n).
Proof. intros. unfold LoadMultipleOfFour. cbv zeta. tame. Qed.
#[local] Hint Resolve tame_multiple : tame.
Theorem C60_reads : forall cfg q p len,
  (local (HighwayHash64_SSE41 cfg q p len) /\ reader (HighwayHash64_SSE41 cfg q p len)) /\
  (local (HighwayHash64_AVX2 cfg q p len) /\ reader (HighwayHash64_AVX2 cfg q p len)).
Proof.
  intros cfg q p len. split.
  - change (tame (HighwayHash64_SSE41 cfg q p len)). apply tame_Target; intros; cbn [sse41 op_Update op_UpdateRemainder].
    + unfold sse_Update, mm_loadu_si128. tame.
    + unfold sse_UpdateRemainder, mm_loadu_si128. cbv zeta. tame.
  - change (tame (HighwayHash64_AVX2 cfg q p len)). apply tame_Target; intros; cbn [avx2 op_Update op_UpdateRemainder].
    + unfold avx_Update. tame.
    + unfold avx_UpdateRemainder, mm_loadu_si128. cbv zeta. tame.
Qed.
Print Assumptions C60_reads.
(** With no bytes left [UpdateRemainder] is a packet of zeros, while that of the portable
    class is undefined (C58). *)
Lemma lane_rotate_0 : forall x, x < 2 ^ 64 -> N.lor (shl32 (x mod 2 ^ 32) 0 + shl32 (x / 2 ^ 32) 0 * 2 ^ 32) (0 + 0 * 2 ^ 32) = x.
Proof.
  intros x X. rewrite N.lor_0_r. unfold shl32, u32. rewrite !N.shiftl_0_r. change W32 with 4294967296. change (2 ^ 64) with 18446744073709551616 in X. change (2 ^ 32) with 4294967296. lia.
Qed.
Theorem C60_none_left : forall cfg p m,
  (forall st, good (conv (sse_c st)) -> exists st', sse_UpdateRemainder cfg p 0 st m = Ok (st', m) /\ conv (sse_c st') = hh_packet (conv (sse_c st)) (repeat x00 32)) /\
  (forall st, good (conv (avx_c st)) -> exists st', avx_UpdateRemainder cfg p 0 st m = Ok (st', m) /\ conv (avx_c st') = hh_packet (conv (avx_c st)) (repeat x00 32)).
Proof.
  intros cfg p m.
  assert (Z : forall x, x < 2 ^ 64 -> add64 x 0 = x) by (intros x X; unfold add64; rewrite N.add_0_r; now apply u64_small). split.
  - intros st G. assert (E : sse_longer 0 st = st).
    { destruct st as [[a0 a1] [a2 a3] [b0 b1] [b2 b3] [c0 c1] [c2 c3] [d0 d1] [d2 d3]]. revert G.
      intros ((A0 & B0 & _) & (A1 & B1 & _) & (A2 & B2 & _) & (A3 & B3 & _)).
      cbn [ca cb cc cd sse_c s_v0L s_v0H s_v1L s_v1H s_mul0L s_mul0H s_mul1L s_mul1H hh_v0 hh_v1 hh_mul0 hh_mul1 fst snd] in *.
      unfold sse_longer. change (to64 (mm_set1_epi32 0)) with (0, 0). unfold sse_Rotate32By1, mm_cvtsi64_si128, mm_sll_epi32, mm_srl_epi32. change (sub64 32 0) with 32.
      cbn [s_v0L s_v0H s_v1L s_v1H s_mul0L s_mul0H s_mul1L s_mul1H fst snd]. change (31 <? 0) with false. change (31 <? 32) with true. cbv iota.
      unfold mm_add_epi64, mm_or_si128, zip64, map32, to32, to64. cbn [fst snd]. rewrite !Z, !lane_rotate_0 by assumption. reflexivity. }
    exists (sse_UpdateV (of_bytes64 (repeat x00 16)) (of_bytes64 (repeat x00 16)) st). split; [|now apply (sse_packet_ok (repeat x00 16) (repeat x00 16) st)].
    rewrite <- E at 2. reflexivity.
  - intros st G. assert (E : avx_longer 0 st = st).
    { destruct st as [[[a0 a1] [a2 a3]] [[b0 b1] [b2 b3]] [[c0 c1] [c2 c3]] [[d0 d1] [d2 d3]]]. revert G.
      intros ((A0 & B0 & _) & (A1 & B1 & _) & (A2 & B2 & _) & (A3 & B3 & _)).
      cbn [ca cb cc cd avx_c x_v0 x_v1 x_mul0 x_mul1 hh_v0 hh_v1 hh_mul0 hh_mul1 fst snd] in *.
      unfold avx_longer. change (to64 (mm_set1_epi32 0)) with (0, 0). unfold avx_Rotate32By, mm256_sub_epi32, both2. cbn [fst snd].
      change (mm_sub_epi32 (mm_set1_epi32 32) (mm_set1_epi32 0)) with (mm_set1_epi32 32).
      unfold mm256_sllv_epi32, mm256_srlv_epi32, mm256_or_si256, mm256_add_epi64, both2, both, mm_sllv_epi32, mm_srlv_epi32, mm_set1_epi32.
      change (u32 32) with 32. change (u32 0) with 0.
      unfold mm_add_epi64, mm_or_si128, zip32, zip64, to32, to64. cbn [x_v0 x_v1 x_mul0 x_mul1 fst snd]. change (31 <? 0) with false. change (31 <? 32) with true. cbv iota. cbn [fst snd].
      rewrite !Z, !lane_rotate_0 by assumption. reflexivity. }
    exists (avx_UpdateV (of_bytes64 (repeat x00 16), of_bytes64 (repeat x00 16)) st). split; [|now apply (avx_packet_ok (repeat x00 16) (repeat x00 16) st)].
    rewrite <- E at 2. reflexivity.
Qed.
Print Assumptions C60_none_left.
(** concrete cases; [C54_verify_hyp] shows the hypotheses of [C60_verify] met *)
Example C60_case :
  (match HighwayHash64_SSE41 x86_64 4096 16385 39 (write (hh_mem x86_64) 16385 (counting 39)) with Ok (v, _) => v = highway64 test_key1 (counting 39) | _ => False end) /\
  (match HighwayHash64_AVX2 x86_64 4096 16385 23 (write (hh_mem x86_64) 16385 (counting 23)) with Ok (v, _) => v = highway64 test_key1 (counting 23) | _ => False end).
Proof. vm_compute. split; reflexivity. Qed.

(** ** C61: hashing of fragments *)
(** as C59, for buffers aligned to 16 and 32 bytes (the class aligns them to 64), and if
    the table that AVX2 uses is aligned to 16 bytes *)
Theorem C61_cat : forall cfg table, big_endian cfg = false ->
  Cat_computes cfg sse41 16 hh_absorb /\ (table mod 16 = 0 -> Cat_computes cfg (avx2 table) 32 hh_absorb).
Proof.
  intros cfg table LE. split; [exact (Cat_computes_sound cfg sse41 _ _ _ (sse41_sound cfg LE))|].
  intro T. exact (Cat_computes_sound cfg (avx2 table) _ _ _ (avx2_sound table cfg LE T)).
Qed.
Print Assumptions C61_cat.
(** The table is declared as an array of uint64_t, without alignment
    (tests/highwayhash/hh_buffer.h:74); a compiler may put it at any multiple of 8.  Then
    already the first fragment of less than 32 bytes is undefined behaviour. *)
Theorem C61_table_refuted : forall cfg table m key buffer p l parts, big_endian cfg = false -> table mod 16 = 8 -> good_quad key ->
  mapped m buffer 32 -> buffer + 32 < addr_space cfg -> buffer mod 32 = 0 ->
  bytes_at m p l -> p + mlen l < addr_space cfg -> apart buffer 32 p (mlen l) -> (length l <= 31)%nat ->
  HighwayHashCat64 (avx2 table) cfg buffer key ((p, mlen l) :: parts) m = Undef MisalignedAccess.
Proof.
  intros cfg table m key buffer p l parts LE T K M A AL H A' D L. pose proof (addr_space_pos cfg) as AS. unfold HighwayHashCat64, CatT_new.
  destruct (sound_ZeroInitialize _ _ _ _ _ (avx2_sound 0 cfg LE eq_refl) m buffer M A AL) as (m1 & E1 & O1).
  change (op_ZeroInitialize (avx2 0)) with (op_ZeroInitialize (avx2 table)) in E1. rewrite bind_assoc. ok E1. rewrite bind_ret.
  cbn [CatT_fragments]. rewrite bind_assoc. unfold CatT_Append. cbn [ct_usage ct_state]. rewrite psub_small by lia. change (32 - 0) with 32.
  destruct (N.ltb_spec (mlen l) 32) as [_|X]; [|unfold mlen in X; lia]. cbn [avx2 op_AppendPartial]. unfold avx_AppendPartial. cbv zeta.
  change (N.land 0 16) with 0. cbn [N.eqb negb].
  assert (M1 : mapped m1 buffer 32) by exact (only_mapped _ _ _ _ _ _ O1 M).
  destruct (mapped_bytes 16 m1 buffer) as (w & W & BW); [intros i I; apply M1; lia|].
  rewrite !bind_assoc. assert (AL1 : buffer mod 16 = 0) by lia. ok (load16_ok m1 buffer w W BW AL1).
  assert (H1 : bytes_at m1 p l) by (eapply only_bytes; [exact O1| |exact H]; unfold apart, mlen in *; lia).
  destruct (load0to16_ok cfg m1 p l ltac:(lia) H1 A') as (j & E & LJ). rewrite !bind_assoc. ok E. rewrite !bind_assoc.
  unfold Concatenate. change (16 <=? 0) with false. cbv iota. assert (T2 : (table + 16 * 0) mod 16 = 8) by lia. rewrite T2. reflexivity.
Qed.
Print Assumptions C61_table_refuted.
(** [Concatenate] puts the bytes of the prefix before those of the suffix
    (tests/highwayhash/hh_buffer.h:66-97), for each of the 16 lengths *)
Theorem C61_concatenate : forall table prefix suffix n m, table mod 16 = 0 -> n < 16 ->
  exists v, Concatenate table prefix n suffix m = Ok (v, m) /\
    bytes32 v = firstn (N.to_nat n) (bytes32 prefix) ++ firstn (16 - N.to_nat n) (bytes32 suffix).
Proof.
  intros table prefix suffix n m T L. unfold Concatenate. destruct (N.leb_spec 16 n) as [X|_]; [lia|].
  assert (T2 : (table + 16 * n) mod 16 = 0) by lia. rewrite T2. cbn [N.eqb negb]. cbv zeta. unfold ret. eexists. split; [reflexivity|].
  rewrite (blend_ok (N.to_nat n)) by (try lia; apply bytes32_length). apply bytes_of_bytes32.
  rewrite app_length, !firstn_length, !bytes32_length. lia.
Qed.
Print Assumptions C61_concatenate.
(** tests/highwayhash/load3.h:37-40, 49-51, 66, 76-79, 102: the ways to read up to three bytes differ in
    what they may read besides and in the order of the bytes: two keep it, *)
Theorem C61_load3_ordered : forall cfg m from t, (length t <= 3)%nat -> bytes_at m from t -> from + mlen t <= addr_space cfg ->
  Load3_AllowNone cfg from (mlen t) m = Ok (le_num t, m) /\
  (forall h, length (h ++ t) = 4%nat -> mlen h <= from -> bytes_at m (from - mlen h) h -> Load3_AllowReadBefore cfg from (mlen t) m = Ok (le_num t, m)).
Proof.
  intros cfg m from t L H A. split; [now apply load_none_ok|]. intros h LH LO Hh. apply (load_before3_ok cfg m from h t); try assumption.
  apply bytes_at_app. split; [exact Hh|]. replace (from - mlen h + N.of_nat (length h)) with from by (unfold mlen in *; lia). exact H.
Qed.
Print Assumptions C61_load3_ordered.
(** one repeats some, but no two different lists of the same length are read as the same *)
Theorem C61_load3_unordered : forall cfg m from t, (length t <= 3)%nat -> bytes_at m from t -> from + mlen t <= addr_space cfg ->
  Load3_AllowUnordered cfg from (mlen t) m = Ok (le_num (last3 t), m) /\
  forall t', length t' = length t -> le_num (last3 t') = le_num (last3 t) -> t' = t.
Proof.
  intros cfg m from t L H A. split; [now apply unordered_ok|]. intros t' LT E.
  assert (E3 : last3 t' = last3 t).
  { rewrite <- (le_bytes_le_num (last3 t')), <- (le_bytes_le_num (last3 t)), !last3_length. now rewrite E. }
  destruct t as [|x [|y [|z [|]]]], t' as [|x' [|y' [|z' [|]]]]; cbn [length] in *; try lia; cbn [last3] in E3; try reflexivity; injection E3; intros; subst; reflexivity.
Qed.
Print Assumptions C61_load3_unordered.
(** concrete cases: 100 bytes in fragments of 5, 0, 27, 40 and 28; and the misaligned table *)
Example C61_case :
  (match HighwayHashCat64 sse41 x86_64 4096 test_key1 cat_parts cat_mem with Ok (v, _) => v = highway64 test_key1 (counting 100) | _ => False end) /\
  (match HighwayHashCat64 (avx2 1040) x86_64 4096 test_key1 cat_parts cat_mem with Ok (v, _) => v = highway64 test_key1 (counting 100) | _ => False end) /\
  HighwayHashCat64 (avx2 1032) x86_64 4096 test_key1 cat_parts cat_mem = Undef MisalignedAccess.
Proof. vm_compute. repeat split. Qed.
Example C61_concatenate_case :
  match Concatenate 0 (of_bytes32 (repeat x11 16)) 5 (of_bytes32 (counting 16)) (fun _ => None) with
  | Ok (v, _) => bytes32 v = repeat x11 5 ++ counting 11 | _ => False end.
Proof. vm_compute. reflexivity. Qed.
Example C61_load3_case :
  let m := write (fun _ => None) 100 [x01; x02; x03] in
  Load3_AllowNone x86_64 101 2 m = Ok (0x302, m) /\ Load3_AllowUnordered x86_64 101 2 m = Ok (0x30302, m).
Proof. split; reflexivity. Qed.
