(** HighwayHash in C++: the operations of HHStateSSE41 and HHStateAVX2 are correct. *)
From Coq Require Import ZArith NArith Arith List Bool Lia Strings.Byte.
From Coq Require Import ZifyN ZifyNat ZifyBool.
From Verif Require Import Bytes CSem Bits Spec NBits CSemFacts OpsFacts FetchFacts CtxMem StreamFacts SelfcheckSpec T1ha2
  Onto Highway HighwaySpec HighwayFacts HighwayCat HighwayCxx HighwayTemplates HighwayPortable HighwaySimd HighwaySimdFacts.
Import ListNotations.
Ltac Zify.zify_post_hook ::= Z.div_mod_to_equations.
Local Open Scope N_scope.

(** ** The packet of a remainder, in halves *)
Definition rest_low (r : list byte) : list byte :=
  let n := length r in let q := (4 * (n / 4))%nat in
  if (16 <=? n)%nat then firstn 16 r else firstn q r ++ repeat x00 (16 - q).
Definition rest_high (r : list byte) : list byte :=
  let n := length r in let q := (4 * (n / 4))%nat in
  if (16 <=? n)%nat then firstn 12 (firstn (q - 16) (skipn 16 r) ++ repeat x00 (32 - q)) ++ skipn (n - 4) r
  else last3 (skipn q r) ++ repeat x00 13.
Lemma rest_halves : forall r, (1 <= length r <= 31)%nat ->
  rest_low r ++ rest_high r = pad r /\ length (rest_low r) = 16%nat /\ length (rest_high r) = 16%nat.
Proof.
  intros r H. do 32 (destruct r as [|? r]; [first [cbn [length] in H; lia | split; [reflexivity|split; reflexivity]]|]). cbn [length] in H. lia.
Qed.
Lemma last3_words : forall t, (length t <= 3)%nat -> mm_cvtsi64_si128 (le_num (last3 t)) = of_bytes64 (last3 t ++ repeat x00 13).
Proof.
  intros t L. assert (E : forall a b c, le_num [a; b; c] = le_num [a; b; c; x00; x00; x00; x00; x00]) by reflexivity.
  destruct t as [|x [|y [|z [|]]]]; cbn [length] in L; try lia; unfold mm_cvtsi64_si128, of_bytes64, last3; cbn [repeat app firstn skipn]; now rewrite E.
Qed.
Lemma below_32 : forall P : N -> Prop, (forall k, (k < 32)%nat -> P (N.of_nat k)) -> forall n, n < 32 -> P n.
Proof. intros P H n L. rewrite <- (N2Nat.id n). apply H. lia. Qed.
Lemma land_8_4 : forall n, n < 32 -> (N.land n 8 =? 0) = negb (2 <=? n mod 16 / 4) /\ (N.land n 4 =? 0) = negb (N.odd (n mod 16 / 4)).
Proof.
  apply (below_32 (fun n => (N.land n 8 =? 0) = negb (2 <=? n mod 16 / 4) /\ (N.land n 4 =? 0) = negb (N.odd (n mod 16 / 4)))).
  intros k L. do 32 (destruct k as [|k]; [split; reflexivity|]). lia.
Qed.
Lemma land_low : forall w, w < 2 ^ 32 -> N.land (w + w * 2 ^ 32) 0xFFFFFFFF = w.
Proof.
  intros w L. change 0xFFFFFFFF with (N.ones 32). rewrite N.land_ones, N.mod_add by discriminate. now apply N.mod_small.
Qed.
Lemma multiple_of_four_ok : forall cfg m p n q, n < 32 -> length q = (4 * N.to_nat (n mod 16 / 4))%nat -> bytes_at m p q -> p + 16 <= addr_space cfg \/ p + mlen q < addr_space cfg ->
  LoadMultipleOfFour cfg p n m = Ok (of_bytes64 (q ++ repeat x00 (16 - length q)), m).
Proof.
  intros cfg m p n q L Q H A. unfold LoadMultipleOfFour. cbv zeta. destruct (land_8_4 n L) as [-> ->]. rewrite !negb_involutive.
  assert (C : n mod 16 / 4 = 0 \/ n mod 16 / 4 = 1 \/ n mod 16 / 4 = 2 \/ n mod 16 / 4 = 3) by lia.
  assert (W : forall t, length t = 4%nat -> to64 (mm_shuffle_epi32 (to32 (le_num t, 0)) 0) = (le_num t + le_num t * 2 ^ 32, le_num t + le_num t * 2 ^ 32)).
  { intros t T. assert (B : le_num t < 2 ^ 32) by (pose proof (le_num_lt t) as B; rewrite T in B; exact B).
    unfold to64, mm_shuffle_epi32, to32, lane32. cbn -[N.modulo N.div N.pow N.mul N.add]. now rewrite (N.mod_small (le_num t)) by exact B. }
  destruct C as [C|[C|[C|C]]]; rewrite C in Q |- *; cbn [N.to_nat Pos.to_nat Pos.iter_op Nat.add Nat.mul] in Q.
  - change (2 <=? 0) with false. change (N.odd 0) with false. cbv iota. rewrite bind_ret. destruct q; [reflexivity|discriminate Q].
  - change (2 <=? 1) with false. change (N.odd 1) with true. cbv iota. rewrite bind_ret. rewrite <- Q at 1. ok (load_bytes_ok q m p H).
    unfold ret. rewrite W by exact Q. unfold mm_and_si128, mm_or_si128, mm_cvtsi64_si128, zip64. cbn [fst snd].
    pose proof (le_num_lt q) as B. rewrite Q in B. rewrite land_low by exact B. rewrite N.land_0_r, !N.lor_0_l.
    do 4 (destruct q as [|? q]; [discriminate Q|]). destruct q; [|discriminate Q]. reflexivity.
  - change (2 <=? 2) with true. change (N.odd 2) with false. cbv iota. rewrite bind_assoc. rewrite <- Q at 1. ok (load_bytes_ok q m p H).
    rewrite bind_ret. unfold ret. do 8 (destruct q as [|? q]; [discriminate Q|]). destruct q; [|discriminate Q]. reflexivity.
  - change (2 <=? 3) with true. change (N.odd 3) with true. cbv iota. assert (E : q = firstn 8 q ++ skipn 8 q) by (symmetry; apply firstn_skipn).
    assert (L1 : length (firstn 8 q) = 8%nat) by (rewrite firstn_length; lia). assert (L2 : length (skipn 8 q) = 4%nat) by (rewrite skipn_length; lia).
    set (a := firstn 8 q) in *. set (b := skipn 8 q) in *. clearbody a b. subst q. apply bytes_at_app in H. destruct H as [Ha Hb].
    rewrite bind_assoc. rewrite <- L1 at 1. ok (load_bytes_ok a m p Ha). rewrite bind_ret.
    assert (P : padd cfg p 8 = p + 8) by (apply padd_small; unfold mlen in A; lia). rewrite P, <- L2 at 1. rewrite L1 in Hb.
    ok (load_bytes_ok b m (p + 8) Hb). unfold ret. rewrite W by exact L2.
    unfold mm_and_si128, mm_or_si128, mm_cvtsi64_si128. change (mm_slli_si128 (0xFFFFFFFF, 0) 8) with (0, 0xFFFFFFFF). unfold zip64. cbn [fst snd].
    pose proof (le_num_lt b) as B. rewrite L2 in B. rewrite land_low by exact B. rewrite N.land_0_r, !N.lor_0_l, N.lor_0_r.
    do 8 (destruct a as [|? a]; [discriminate L1|]). destruct a; [|discriminate L1].
    do 4 (destruct b as [|? b]; [discriminate L2|]). destruct b; [|discriminate L2]. reflexivity.
Qed.

(** ** SSE4.1 *)
Lemma sse_remainder_ok : forall cfg m p r st, big_endian cfg = false -> (1 <= length r <= 31)%nat -> bytes_at m p r -> p + mlen r < addr_space cfg ->
  good (conv (sse_c st)) ->
  exists st', sse_UpdateRemainder cfg p (mlen r) st m = Ok (st', m) /\ conv (sse_c st') = hh_rest_with pad (conv (sse_c st)) r.
Proof.
  intros cfg m p r st LE L H A G. pose proof (addr_space_pos cfg) as AS.
  assert (NL : 0 < mlen r < 32) by (unfold mlen; lia).
  destruct (sse_longer_ok (mlen r) st G NL) as [C G']. destruct (rest_halves r L) as (PP & LL & LH).
  exists (sse_UpdateV (of_bytes64 (rest_high r)) (of_bytes64 (rest_low r)) (sse_longer (mlen r) st)). split.
  - unfold sse_UpdateRemainder. fold (sse_longer (mlen r) st). rewrite land_3. set (q := (4 * (length r / 4))%nat).
    assert (Q : mlen r - mlen r mod 4 = N.of_nat q) by (unfold mlen, q; lia). rewrite Q.
    assert (QL : (q <= length r)%nat) by (unfold q; lia).
    assert (PA : padd cfg p (N.of_nat q) = p + N.of_nat q) by (apply padd_small; unfold mlen in A; lia). rewrite PA.
    rewrite land_16, negb_involutive by lia. unfold rest_low, rest_high. cbv zeta. fold q.
    destruct (N.leb_spec 16 (mlen r)) as [B|B].
    + destruct (Nat.leb_spec 16 (length r)) as [B'|B']; [|unfold mlen in B; lia].
      assert (L16 : length (firstn 16 r) = 16%nat) by (rewrite firstn_length; lia). unfold mm_loadu_si128. rewrite <- L16 at 1.
      ok (load_bytes_ok _ m p (bytes_at_firstn _ _ 16%nat _ H)). rewrite padd_small by (unfold mlen in A; lia).
      assert (LQ : length (firstn (q - 16) (skipn 16 r)) = (q - 16)%nat) by (rewrite firstn_length, skipn_length; lia).
      assert (H16 : bytes_at m (p + 16) (firstn (q - 16) (skipn 16 r))) by (apply bytes_at_firstn; apply (bytes_at_skipn m p 16%nat r); [exact H|lia]).
      assert (K : length (firstn (q - 16) (skipn 16 r)) = (4 * N.to_nat (mlen r mod 16 / 4))%nat) by (rewrite LQ; unfold mlen, q; lia).
      ok (multiple_of_four_ok cfg m (p + 16) (mlen r) _ (proj2 NL) K H16 ltac:(right; unfold mlen in *; lia)). rewrite LQ.
      replace (16 - (q - 16))%nat with (32 - q)%nat by (unfold q; lia).
      assert (L4 : length (skipn (length r - 4) r) = 4%nat) by (rewrite skipn_length; lia).
      assert (H4 : bytes_at m (p + N.of_nat q + mlen r mod 4 - 4) (skipn (length r - 4) r)).
      { replace (p + N.of_nat q + mlen r mod 4 - 4) with (p + N.of_nat (length r - 4)) by (unfold mlen in *; lia). apply bytes_at_skipn; [exact H|lia]. }
      ok (load_before_ok cfg m (p + N.of_nat q) _ (mlen r mod 4) L4 H4 ltac:(lia) ltac:(lia) ltac:(lia)).
      assert (LZ : length (firstn (q - 16) (skipn 16 r) ++ repeat x00 (32 - q)) = 16%nat) by (rewrite app_length, LQ, repeat_length; unfold q; lia).
      rewrite to32_of_bytes, insert_of_bytes, to64_of_bytes; try assumption; [reflexivity|].
      rewrite app_length, firstn_length, LZ, L4. reflexivity.
    + destruct (Nat.leb_spec 16 (length r)) as [B'|B']; [unfold mlen in B; lia|].
      assert (LQ : length (firstn q r) = q) by (rewrite firstn_length; lia).
      assert (K : length (firstn q r) = (4 * N.to_nat (mlen r mod 16 / 4))%nat) by (rewrite LQ; unfold mlen, q; lia).
      ok (multiple_of_four_ok cfg m p (mlen r) _ (proj2 NL) K (bytes_at_firstn _ _ q _ H) ltac:(right; unfold mlen in *; lia)). rewrite LQ.
      assert (LS : length (skipn q r) = (length r mod 4)%nat) by (rewrite skipn_length; unfold q; lia).
      assert (MS : mlen r mod 4 = mlen (skipn q r)) by (unfold mlen; lia). rewrite MS.
      ok (unordered_ok cfg m (p + N.of_nat q) (skipn q r) ltac:(lia) (bytes_at_skipn _ _ _ _ H QL) ltac:(lia)).
      rewrite last3_words by lia. reflexivity.
  - rewrite sse_packet_ok by assumption. rewrite PP, C. unfold hh_rest_with. destruct r; [cbn [length] in L; lia|reflexivity].
Qed.
Lemma sse41_sound : forall cfg, big_endian cfg = false -> hh_sound cfg sse41 (fun st => conv (sse_c st)) pad 16.
Proof.
  intros cfg LE. pose proof (addr_space_pos cfg) as AS. pose proof (portable_sound cfg) as PS. constructor;
    cbn [sse41 op_Reset op_Update op_UpdateRemainder op_Finalize64 op_Finalize128 op_Finalize256 op_ZeroInitialize op_CopyPartial op_AppendPartial op_AppendAndUpdate].
  - intros key K. rewrite sse_Reset_eq by exact K. now apply reset_ok.
  - intros m p l st L H A G. unfold sse_Update. exists (sse_UpdateV (of_bytes64 (skipn 16 l)) (of_bytes64 (firstn 16 l)) st).
    assert (L1 : length (firstn 16 l) = 16%nat) by (rewrite firstn_length; lia). assert (L2 : length (skipn 16 l) = 16%nat) by (rewrite skipn_length; lia). split.
    + unfold mm_loadu_si128. rewrite <- L1 at 1. ok (load_bytes_ok _ m p (bytes_at_firstn _ _ 16%nat _ H)). rewrite padd_small by lia.
      rewrite <- L2 at 1. ok (load_bytes_ok _ m (p + 16) (bytes_at_skipn m p 16%nat l H ltac:(lia))). reflexivity.
    + rewrite sse_packet_ok by assumption. now rewrite firstn_skipn.
  - intros. now apply sse_remainder_ok.
  - intros st G. rewrite sse_Finalize64_eq by exact G. now apply finalize64_ok.
  - intros st G. rewrite sse_Finalize128_eq by exact G. now apply finalize128_ok.
  - intros st G. rewrite sse_Finalize256_eq by exact G. now apply finalize256_ok.
  - intros m b M A AL. unfold sse_ZeroInitialize, mm_store_si128. rewrite padd_small by lia. rewrite AL.
    assert (AL2 : (b + 16) mod 16 = 0) by lia. rewrite AL2. cbn [N.eqb].
    assert (M1 : mapped m b (length (repeat x00 16))) by (intros i I; apply M; cbn [repeat length] in I; lia).
    pose proof (store_bytes_ok _ _ _ M1) as E1. pose proof (only_write m b (repeat x00 16) 16 eq_refl) as O1. set (m1 := write m b (repeat x00 16)) in *. clearbody m1. rewrite (bind_ok _ _ _ _ _ _ _ E1).
    assert (M2 : mapped m1 (b + 16) (length (repeat x00 16))).
    { intros i I. cbn [repeat length] in I. replace (b + 16 + N.of_nat i) with (b + N.of_nat (16 + i)) by lia. apply (only_mapped _ _ _ _ _ _ O1 M). lia. }
    exists (write m1 (b + 16) (repeat x00 16)). split; [exact (store_bytes_ok _ _ _ M2)|].
    eapply only_trans; [eapply only_weaken; [exact O1|lia|lia]|].
    eapply only_weaken; [apply (only_write m1 (b + 16) (repeat x00 16) 16 eq_refl)|lia|lia].
  - intros. apply (sound_CopyPartial _ _ _ _ _ PS); try assumption. apply N.mod_1_r.
  - intros. apply (sound_AppendPartial _ _ _ _ _ PS); try assumption. apply N.mod_1_r.
  - intros m p l b old st L LO H A M A' _ D B G. unfold sse_AppendAndUpdate, tmp_of.
    replace (N.to_nat (mlen l)) with (length l) by (unfold mlen; lia). replace (N.to_nat (mlen old)) with (length old) by (unfold mlen; lia).
    exists (sse_Update_local (old ++ l) st). split.
    + rewrite bind_assoc. ok (load_bytes_ok old m b B). rewrite bind_assoc. ok (load_bytes_ok l m p H).
      destruct (N.eqb_spec (mlen old + mlen l) 32) as [_|X]; [reflexivity|unfold mlen in X; lia].
    + assert (LA : length (old ++ l) = 32%nat) by (rewrite app_length; lia). unfold sse_Update_local. rewrite sse_packet_ok; [now rewrite firstn_skipn| | |exact G].
      * rewrite firstn_length. lia.
      * rewrite skipn_length. lia.
Qed.

(** ** AVX2: reading *)
Definition full (k : N) : V4x32U :=
  let lane i := if i <? k then 0xFFFFFFFF else 0 in (lane 0, lane 1, lane 2, lane 3).
Lemma masks : forall n, n < 32 -> IntMask_0 (mm_set1_epi32 n) = full (n / 4) /\ (16 <= n -> IntMask_16 (mm_set1_epi32 n) = full (n / 4 - 4)).
Proof.
  apply (below_32 (fun n => IntMask_0 (mm_set1_epi32 n) = full (n / 4) /\ (16 <= n -> IntMask_16 (mm_set1_epi32 n) = full (n / 4 - 4)))).
  intros k L. do 32 (destruct k as [|k]; [split; [reflexivity|intros _; reflexivity]|]). lia.
Qed.
Lemma maskload_ok : forall cfg m p q k, k <= 4 -> length q = (4 * N.to_nat k)%nat -> bytes_at m p q -> p + mlen q <= addr_space cfg ->
  mm_maskload_epi32 cfg p (full k) m = Ok (of_bytes32 (q ++ repeat x00 (16 - length q)), m).
Proof.
  intros cfg m p q k K Q H A. unfold mm_maskload_epi32.
  assert (E : forall i, i < 4 -> maskload_lane cfg p i (if i <? k then 0xFFFFFFFF else 0) m =
    Ok (le_num (firstn 4 (skipn (N.to_nat (4 * i)) (q ++ repeat x00 (16 - length q)))), m)).
  { intros i I. unfold maskload_lane. destruct (N.ltb_spec i k) as [J|J].
    - change (2 ^ 31 <=? 0xFFFFFFFF) with true. cbv iota. rewrite padd_small by (unfold mlen in A; lia).
      rewrite skipn_app, firstn_app. assert (L4 : length (firstn 4 (skipn (N.to_nat (4 * i)) q)) = 4%nat) by (rewrite firstn_length, skipn_length; lia).
      assert (L5 : (4 - length (skipn (N.to_nat (4 * i)) q) = 0)%nat) by (rewrite skipn_length; lia). rewrite L5. cbn [firstn]. rewrite app_nil_r.
      rewrite <- L4 at 1. assert (H4 : bytes_at m (p + 4 * i) (firstn 4 (skipn (N.to_nat (4 * i)) q))).
      { apply bytes_at_firstn. rewrite <- (N2Nat.id (4 * i)) at 1. apply bytes_at_skipn; [exact H|lia]. }
      ok (load_bytes_ok _ m _ H4). reflexivity.
    - change (2 ^ 31 <=? 0) with false. cbv iota. rewrite skipn_app, (skipn_all2 q) by lia. cbn [app].
      assert (Z : forall a b c, le_num (firstn a (skipn b (repeat x00 c))) = 0).
      { assert (Z1 : forall c, le_num (repeat x00 c) = 0) by (induction c as [|c IH]; [reflexivity|]; cbn [repeat le_num]; rewrite IH; reflexivity).
        assert (Z2 : forall b c, exists d, skipn b (repeat x00 c) = repeat x00 d).
        { induction b as [|b IHb]; intro c; [now exists c|]. destruct c as [|c]; [now exists 0%nat|]. apply (IHb c). }
        assert (Z3 : forall a d, exists e, firstn a (repeat x00 d) = repeat x00 e).
        { induction a as [|a IHa]; intro d; [now exists 0%nat|]. destruct d as [|d]; [now exists 0%nat|]. destruct (IHa d) as [e Ee]. exists (S e). cbn [repeat firstn]. now rewrite Ee. }
        intros a b c. destruct (Z2 b c) as [d ->]. destruct (Z3 a d) as [e ->]. apply Z1. }
      now rewrite Z. }
  unfold full. ok (E 0 eq_refl). ok (E 1 eq_refl). ok (E 2 eq_refl). ok (E 3 eq_refl). reflexivity.
Qed.
Lemma load_none_ok : forall cfg m from t, (length t <= 3)%nat -> bytes_at m from t -> from + mlen t <= addr_space cfg ->
  Load3_AllowNone cfg from (mlen t) m = Ok (le_num t, m).
Proof.
  intros cfg m from t L H A. pose proof (addr_space_pos cfg) as AS. unfold Load3_AllowNone.
  assert (B : forall i k, i = N.of_nat k -> (k < length t)%nat -> load8 (padd cfg from i) m = Ok (nth k t x00, m)).
  { intros i k -> K. rewrite padd_small by (unfold mlen in A; lia). now apply byte_at_ok. }
  assert (V : forall x y, add64 (b2n x) (shl64 (b2n y) 8) = b2n x + 256 * b2n y).
  { intros x y. unfold add64, shl64, u64. rewrite !N.shiftl_mul_pow2. pose proof (b2n_lt x). pose proof (b2n_lt y).
    change (2 ^ 8) with 256. change W64 with 18446744073709551616. lia. }
  assert (V3 : forall x y z, add64 (b2n x + 256 * b2n y) (shl64 (b2n z) 16) = b2n x + 256 * b2n y + 65536 * b2n z).
  { intros x y z. unfold add64, shl64, u64. rewrite !N.shiftl_mul_pow2. pose proof (b2n_lt x). pose proof (b2n_lt y). pose proof (b2n_lt z).
    change (2 ^ 16) with 65536. change W64 with 18446744073709551616. lia. }
  destruct t as [|x [|y [|z [|]]]]; cbn [length] in L; try lia; unfold mlen in *; cbn [length] in *; cbn [N.of_nat Pos.of_succ_nat Pos.succ].
  - reflexivity.
  - change (1 <=? 1) with true. change (2 <=? 1) with false. change (1 =? 3) with false. cbv iota. rewrite bind_assoc. ok (B 0 0%nat eq_refl ltac:(lia)).
    rewrite !bind_ret. unfold ret. cbn [le_num nth]. now rewrite N.mul_0_r, N.add_0_r.
  - change (1 <=? 2) with true. change (2 <=? 2) with true. change (2 =? 3) with false. cbv iota. rewrite bind_assoc. ok (B 0 0%nat eq_refl ltac:(lia)).
    rewrite bind_ret, bind_assoc. ok (B 1 1%nat eq_refl ltac:(lia)). rewrite bind_ret. unfold ret. cbn [nth]. rewrite V. cbn [le_num]. do 2 f_equal. lia.
  - change (1 <=? 3) with true. change (2 <=? 3) with true. change (3 =? 3) with true. cbv iota. rewrite bind_assoc. ok (B 0 0%nat eq_refl ltac:(lia)).
    rewrite bind_ret, bind_assoc. ok (B 1 1%nat eq_refl ltac:(lia)). rewrite bind_ret. ok (B 2 2%nat eq_refl ltac:(lia)). unfold ret. cbn [nth]. rewrite V, V3. cbn [le_num].
    do 2 f_equal. lia.
Qed.
Lemma load_before3_ok : forall cfg m from h t, length (h ++ t) = 4%nat -> (length t <= 3)%nat -> bytes_at m (from - mlen h) (h ++ t) -> mlen h <= from -> from + mlen t <= addr_space cfg ->
  Load3_AllowReadBefore cfg from (mlen t) m = Ok (le_num t, m).
Proof.
  intros cfg m from h t L T H LO A. unfold Load3_AllowReadBefore. assert (P : from + mlen t - 4 = from - mlen h) by (unfold mlen in *; rewrite app_length in L; lia).
  rewrite <- P in H. ok (load_before_ok cfg m from (h ++ t) (mlen t) L H ltac:(unfold mlen in *; rewrite app_length in L; lia) ltac:(unfold mlen; lia) A).
  unfold ret. f_equal. f_equal. rewrite le_num_app. unfold shr64. pose proof (le_num_lt (h ++ t)) as B1. pose proof (le_num_lt h) as B2. rewrite le_num_app, L in B1.
  assert (S3 : 32 - mlen t * 8 = 8 * N.of_nat (length h)) by (unfold mlen; rewrite app_length in L; lia). rewrite S3.
  rewrite u64_small by (eapply N.lt_trans; [exact B1|reflexivity]). rewrite N.shiftr_div_pow2.
  replace (2 ^ (8 * N.of_nat (length h))) with (256 ^ N.of_nat (length h)) in * by (change 256 with (2 ^ 8); now rewrite <- N.pow_mul_r).
  rewrite N.mul_comm, N.div_add by (apply N.pow_nonzero; discriminate). now rewrite N.div_small.
Qed.
(** the last bytes in every lane above *)
Definition above (q t : list byte) : list byte := firstn 16 (q ++ List.concat (repeat (t ++ repeat x00 (4 - length t)) 4)).
Lemma insert_above : forall k q t, k <= 4 -> length q = (4 * N.to_nat k)%nat -> (length t <= 3)%nat ->
  Insert4AboveMask (u32 (le_num t)) (full k) (of_bytes32 (q ++ repeat x00 (16 - length q))) = of_bytes32 (above q t).
Proof.
  intros k q t K Q T. unfold Insert4AboveMask, above.
  assert (W : le_num t = le_num (t ++ repeat x00 (4 - length t))).
  { destruct t as [|x [|y [|z [|]]]]; cbn [length] in T; try lia; reflexivity. }
  assert (W4 : length (t ++ repeat x00 (4 - length t)) = 4%nat) by (rewrite app_length, repeat_length; lia).
  rewrite W. set (w := t ++ repeat x00 (4 - length t)) in *. clearbody w. clear W T t.
  pose proof (le_num_lt w) as B. rewrite W4 in B. change (256 ^ N.of_nat 4) with (2 ^ 32) in B.
  assert (E : u32 (u32 (le_num w)) = le_num w) by (unfold u32; change W32 with (2 ^ 32); rewrite !N.mod_small by (try apply N.mod_lt; assumption || discriminate); reflexivity).
  unfold mm_set1_epi32. rewrite E.
  assert (X : N.ldiff (le_num w) 0xFFFFFFFF = 0).
  { change 0xFFFFFFFF with (N.ones 32). apply N.ldiff_ones_r_low. destruct (N.eq_dec (le_num w) 0) as [->|Z]; [reflexivity|]. now apply N.log2_lt_pow2; [lia|]. }
  assert (Y : N.ldiff (le_num w) 0 = le_num w) by apply N.ldiff_0_r.
  do 4 (destruct w as [|? w]; [discriminate W4|]). destruct w; [|discriminate W4].
  assert (C : k = 0 \/ k = 1 \/ k = 2 \/ k = 3 \/ k = 4) by lia.
  destruct C as [->|[->|[->|[->| ->]]]]; cbn [N.to_nat Pos.to_nat Pos.iter_op Nat.add Nat.mul] in Q; rewrite ?Q;
    do 16 (try (destruct q as [|? q]; [try discriminate Q|])); try (destruct q; [|discriminate Q]); try discriminate Q;
    unfold mm_or_si128_32, mm_andnot_si128_32, full, zip32, of_bytes32; cbn [N.ltb N.compare Pos.compare Pos.compare_cont];
    rewrite ?X, ?Y, ?N.lor_0_r; reflexivity.
Qed.
Lemma above_app : forall q t, (length q + length t <= 16)%nat -> exists j, above q t = (q ++ t) ++ j.
Proof.
  intros q t L. unfold above. cbn [repeat List.concat]. exists (firstn (16 - length (q ++ t)) (repeat x00 (4 - length t) ++ List.concat (repeat (t ++ repeat x00 (4 - length t)) 3))).
  rewrite <- app_assoc, (app_assoc q t). rewrite firstn_app. f_equal. apply firstn_all2. rewrite app_length. lia.
Qed.
Lemma above_length : forall q t, (length t <= 3)%nat -> length (above q t) = 16%nat.
Proof.
  intros q t T. unfold above. rewrite firstn_length, app_length. assert (E : length (List.concat (repeat (t ++ repeat x00 (4 - length t)) 4)) = 16%nat).
  { cbn [repeat List.concat]. rewrite !app_length, !repeat_length. cbn [length]. lia. }
  rewrite E. lia.
Qed.
Lemma full_4 : forall k, 4 <= k -> full k = full 4.
Proof. intros k K. unfold full. repeat match goal with |- context [?i <? k] => rewrite (proj2 (N.ltb_lt i k)) by lia end. reflexivity. Qed.
Lemma load0to16_ok : forall cfg m p l, (length l <= 31)%nat -> bytes_at m p l -> p + mlen l < addr_space cfg ->
  exists j, Load0To16 cfg p (mlen l) (mm_set1_epi32 (mlen l)) m = Ok (of_bytes32 (firstn 16 l ++ j), m) /\ length (firstn 16 l ++ j) = 16%nat.
Proof.
  intros cfg m p l L H A. assert (NL : mlen l < 32) by (unfold mlen; lia). unfold Load0To16. destruct (masks (mlen l) NL) as [-> _].
  rewrite land_3. set (q := (4 * (length l / 4))%nat).
  assert (Q : mlen l - mlen l mod 4 = N.of_nat q) by (unfold mlen, q; lia). rewrite Q.
  assert (QL : (q <= length l)%nat) by (unfold q; lia).
  assert (PA : padd cfg p (N.of_nat q) = p + N.of_nat q) by (apply padd_small; unfold mlen in A; lia). rewrite PA.
  assert (LS : length (skipn q l) = (length l mod 4)%nat) by (rewrite skipn_length; unfold q; lia).
  assert (MS : mlen l mod 4 = mlen (skipn q l)) by (unfold mlen; lia). rewrite MS.
  ok (load_none_ok cfg m (p + N.of_nat q) (skipn q l) ltac:(lia) (bytes_at_skipn _ _ _ _ H QL) ltac:(lia)).
  destruct (le_lt_dec 16 (length l)) as [C|C].
  - rewrite full_4 by (unfold mlen; lia). assert (L16 : length (firstn 16 l) = 16%nat) by (rewrite firstn_length; lia).
    ok (maskload_ok cfg m p (firstn 16 l) 4 ltac:(lia) L16 (bytes_at_firstn _ _ 16%nat _ H) ltac:(unfold mlen in *; lia)).
    unfold ret. rewrite insert_above; [|lia|exact L16|lia]. unfold above. rewrite firstn_app, L16, (firstn_all2 (firstn 16 l)) by lia. cbn [Nat.sub firstn].
    exists []. split; [reflexivity|]. now rewrite app_nil_r.
  - assert (LQ : length (firstn q l) = (4 * N.to_nat (mlen l / 4))%nat) by (rewrite firstn_length; unfold mlen, q; lia).
    ok (maskload_ok cfg m p (firstn q l) (mlen l / 4) ltac:(unfold mlen; lia) LQ (bytes_at_firstn _ _ q _ H) ltac:(unfold mlen in *; rewrite firstn_length; lia)).
    unfold ret. rewrite insert_above; [|unfold mlen; lia|exact LQ|lia].
    destruct (above_app (firstn q l) (skipn q l)) as [j E]; [rewrite firstn_length, skipn_length; lia|].
    pose proof (above_length (firstn q l) (skipn q l) ltac:(lia)) as AL. rewrite firstn_skipn in E. rewrite E in *. rewrite (firstn_all2 l) by lia.
    now exists j.
Qed.
Lemma skipn_twice : forall (a b : nat) (l : list byte), skipn a (skipn b l) = skipn (b + a) l.
Proof.
  intros a b. induction b as [|b IH]; intro l; [reflexivity|]. destruct l as [|x l]; [now rewrite !skipn_nil|]. cbn [skipn Nat.add]. apply IH.
Qed.
Lemma load0to16_16_ok : forall cfg m p l, (16 <= length l <= 31)%nat -> bytes_at m p l -> p + mlen l < addr_space cfg ->
  exists j, Load0To16_16 cfg (p + 16) (mlen l - 16) (mm_set1_epi32 (mlen l)) m = Ok (of_bytes32 (skipn 16 l ++ j), m) /\ length (skipn 16 l ++ j) = 16%nat.
Proof.
  intros cfg m p l L H A. assert (NL : mlen l < 32) by (unfold mlen; lia). unfold Load0To16_16. destruct (masks (mlen l) NL) as [_ MK]. rewrite MK by (unfold mlen; lia).
  rewrite land_3. set (r := skipn 16 l). assert (LR : length r = (length l - 16)%nat) by (unfold r; now rewrite skipn_length).
  assert (HR : bytes_at m (p + 16) r) by (apply (bytes_at_skipn m p 16%nat l); [exact H|lia]).
  assert (MR : mlen l - 16 = mlen r) by (unfold mlen; lia). rewrite MR. set (q := (4 * (length r / 4))%nat).
  assert (Q : mlen r - mlen r mod 4 = N.of_nat q) by (unfold mlen, q; lia). rewrite Q.
  assert (QL : (q <= length r)%nat) by (unfold q; lia).
  assert (PA : padd cfg (p + 16) (N.of_nat q) = p + 16 + N.of_nat q) by (apply padd_small; unfold mlen in *; lia). rewrite PA.
  assert (LS : length (skipn q r) = (length r mod 4)%nat) by (rewrite skipn_length; unfold q; lia).
  assert (MS : mlen r mod 4 = mlen (skipn q r)) by (unfold mlen; lia). rewrite MS.
  set (h := firstn (4 - length (skipn q r)) (skipn (length l - 4) l)).
  assert (LH : length h = (4 - length (skipn q r))%nat) by (unfold h; rewrite firstn_length, (skipn_length (length l - 4)); lia).
  assert (HT : h ++ skipn q r = skipn (length l - 4) l).
  { unfold h, r. rewrite <- (firstn_skipn (4 - length (skipn q (skipn 16 l))) (skipn (length l - 4) l)) at 2. f_equal. rewrite !skipn_twice. f_equal.
    rewrite skipn_length. unfold q. rewrite LR. lia. }
  assert (L4 : length (h ++ skipn q r) = 4%nat) by (rewrite HT, skipn_length; lia).
  assert (H4 : bytes_at m (p + 16 + N.of_nat q - mlen h) (h ++ skipn q r)).
  { rewrite HT. replace (p + 16 + N.of_nat q - mlen h) with (p + N.of_nat (length l - 4)) by (unfold mlen; rewrite LH, LS; unfold q; lia).
    apply bytes_at_skipn; [exact H|lia]. }
  ok (load_before3_ok cfg m (p + 16 + N.of_nat q) h (skipn q r) L4 ltac:(lia) H4 ltac:(unfold mlen; lia) ltac:(unfold mlen in *; lia)).
  assert (LQ : length (firstn q r) = (4 * N.to_nat (mlen l / 4 - 4))%nat) by (rewrite firstn_length; unfold mlen, q; lia).
  ok (maskload_ok cfg m (p + 16) (firstn q r) (mlen l / 4 - 4) ltac:(unfold mlen; lia) LQ (bytes_at_firstn _ _ q _ HR) ltac:(unfold mlen in *; rewrite firstn_length; lia)).
  unfold ret. rewrite insert_above; [|unfold mlen; lia|exact LQ|lia].
  destruct (above_app (firstn q r) (skipn q r)) as [j E]; [rewrite firstn_length, skipn_length; lia|].
  pose proof (above_length (firstn q r) (skipn q r) ltac:(lia)) as AL. rewrite firstn_skipn in E. rewrite E in *. now exists j.
Qed.

(** ** AVX2: joining *)
Lemma blend_ok : forall k a b, (k < 16)%nat -> length a = 16%nat -> length b = 16%nat ->
  let control := bytes64 (nth k concat_table (0, 0)) in
  blend_bytes (shuffle_bytes b control) a control = firstn k a ++ firstn (16 - k) b.
Proof.
  intros k a b K A B. do 16 (destruct a as [|? a]; [discriminate A|]). destruct a; [|discriminate A].
  do 16 (destruct b as [|? b]; [discriminate B|]). destruct b; [|discriminate B].
  do 16 (destruct k as [|k]; [reflexivity|]). lia.
Qed.
Lemma bytes32_length : forall v, length (bytes32 v) = 16%nat.
Proof. intros [[[e0 e1] e2] e3]. unfold bytes32. now rewrite !app_length, !le_bytes_length. Qed.
Lemma concatenate_ok : forall table old j w m, table mod 16 = 0 -> length (old ++ j) = 16%nat -> (length old < 16)%nat -> length w = 16%nat ->
  Concatenate table (of_bytes32 (old ++ j)) (mlen old) (of_bytes32 w) m = Ok (of_bytes32 (old ++ firstn (16 - length old) w), m).
Proof.
  intros table old j w m T L LO W. unfold Concatenate. destruct (N.leb_spec 16 (mlen old)) as [X|_]; [unfold mlen in X; lia|].
  assert (T2 : (table + 16 * mlen old) mod 16 = 0) by lia. rewrite T2. cbn [N.eqb negb]. cbv zeta. unfold ret.
  replace (N.to_nat (mlen old)) with (length old) by (unfold mlen; lia). rewrite !bytes_of_bytes32 by assumption.
  rewrite (blend_ok (length old) (old ++ j) w LO L W). rewrite firstn_app, Nat.sub_diag, firstn_all. cbn [firstn]. now rewrite app_nil_r.
Qed.

(** ** AVX2: all of it *)
Lemma avx_updateHL_ok : forall h l st, length l = 16%nat -> length h = 16%nat -> good (conv (avx_c st)) ->
  conv (avx_c (avx_UpdateHL (of_bytes32 h) (of_bytes32 l) st)) = hh_packet (conv (avx_c st)) (l ++ h).
Proof.
  intros h l st L H G. unfold avx_UpdateHL, mm256_inserti128_1. rewrite !to64_of_bytes by assumption. now apply avx_packet_ok.
Qed.
Lemma size256_ok : forall n, n < 32 -> mm256_broadcastd_epi32 (to32 (mm_cvtsi64_si128 n)) = (mm_set1_epi32 n, mm_set1_epi32 n).
Proof.
  intros n L. unfold mm256_broadcastd_epi32, mm_cvtsi64_si128, to32, lane32, mm_set1_epi32. cbn [N.eqb].
  rewrite (N.mod_small n) by (change (2 ^ 32) with 4294967296; lia). reflexivity.
Qed.
Lemma avx_remainder_ok : forall cfg m p r st, big_endian cfg = false -> (1 <= length r <= 31)%nat -> bytes_at m p r -> p + mlen r < addr_space cfg ->
  good (conv (avx_c st)) ->
  exists st', avx_UpdateRemainder cfg p (mlen r) st m = Ok (st', m) /\ conv (avx_c st') = hh_rest_with pad (conv (avx_c st)) r.
Proof.
  intros cfg m p r st LE L H A G. pose proof (addr_space_pos cfg) as AS.
  assert (NL : 0 < mlen r < 32) by (unfold mlen; lia).
  destruct (avx_longer_ok (mlen r) st G NL) as [C G']. destruct (rest_halves r L) as (PP & LL & LH).
  exists (avx_UpdateHL (of_bytes32 (rest_high r)) (of_bytes32 (rest_low r)) (avx_longer (mlen r) st)). split.
  - unfold avx_UpdateRemainder. rewrite size256_ok by lia. cbv zeta.
    change (AVX2 (mm256_add_epi64 (x_v0 st) (both to64 (mm_set1_epi32 (mlen r), mm_set1_epi32 (mlen r))))
      (avx_Rotate32By (x_v1 st) (mm_set1_epi32 (mlen r), mm_set1_epi32 (mlen r))) (x_mul0 st) (x_mul1 st)) with (avx_longer (mlen r) st).
    unfold mm256_castsi256_si128. cbn [fst]. destruct (masks (mlen r) (proj2 NL)) as [-> MK].
    rewrite land_3. set (q := (4 * (length r / 4))%nat).
    assert (Q : mlen r - mlen r mod 4 = N.of_nat q) by (unfold mlen, q; lia). rewrite Q.
    assert (QL : (q <= length r)%nat) by (unfold q; lia).
    assert (PA : padd cfg p (N.of_nat q) = p + N.of_nat q) by (apply padd_small; unfold mlen in A; lia). rewrite PA.
    rewrite land_16, negb_involutive by lia. unfold rest_low, rest_high. cbv zeta. fold q.
    destruct (N.leb_spec 16 (mlen r)) as [B|B].
    + destruct (Nat.leb_spec 16 (length r)) as [B'|B']; [|unfold mlen in B; lia]. rewrite (MK B).
      assert (L16 : length (firstn 16 r) = 16%nat) by (rewrite firstn_length; lia). unfold mm_loadu_si128. rewrite <- L16 at 1.
      ok (load_bytes_ok _ m p (bytes_at_firstn _ _ 16%nat _ H)). rewrite padd_small by (unfold mlen in A; lia).
      assert (LQ : length (firstn (q - 16) (skipn 16 r)) = (q - 16)%nat) by (rewrite firstn_length, skipn_length; lia).
      assert (H16 : bytes_at m (p + 16) (firstn (q - 16) (skipn 16 r))) by (apply bytes_at_firstn; apply (bytes_at_skipn m p 16%nat r); [exact H|lia]).
      assert (K : length (firstn (q - 16) (skipn 16 r)) = (4 * N.to_nat (mlen r / 4 - 4))%nat) by (rewrite LQ; unfold mlen, q; lia).
      ok (maskload_ok cfg m (p + 16) _ (mlen r / 4 - 4) ltac:(lia) K H16 ltac:(unfold mlen in *; lia)). rewrite LQ.
      replace (16 - (q - 16))%nat with (32 - q)%nat by (unfold q; lia).
      assert (L4 : length (skipn (length r - 4) r) = 4%nat) by (rewrite skipn_length; lia).
      assert (H4 : bytes_at m (p + N.of_nat q + mlen r mod 4 - 4) (skipn (length r - 4) r)).
      { replace (p + N.of_nat q + mlen r mod 4 - 4) with (p + N.of_nat (length r - 4)) by (unfold mlen in *; lia). apply bytes_at_skipn; [exact H|lia]. }
      ok (load_before_ok cfg m (p + N.of_nat q) _ (mlen r mod 4) L4 H4 ltac:(lia) ltac:(lia) ltac:(lia)).
      assert (LZ : length (firstn (q - 16) (skipn 16 r) ++ repeat x00 (32 - q)) = 16%nat) by (rewrite app_length, LQ, repeat_length; unfold q; lia).
      rewrite insert_of_bytes by assumption. reflexivity.
    + destruct (Nat.leb_spec 16 (length r)) as [B'|B']; [unfold mlen in B; lia|].
      assert (LQ : length (firstn q r) = q) by (rewrite firstn_length; lia).
      assert (K : length (firstn q r) = (4 * N.to_nat (mlen r / 4))%nat) by (rewrite LQ; unfold mlen, q; lia).
      ok (maskload_ok cfg m p _ (mlen r / 4) ltac:(lia) K (bytes_at_firstn _ _ q _ H) ltac:(unfold mlen in *; lia)). rewrite LQ.
      assert (LS : length (skipn q r) = (length r mod 4)%nat) by (rewrite skipn_length; unfold q; lia).
      assert (MS : mlen r mod 4 = mlen (skipn q r)) by (unfold mlen; lia). rewrite MS.
      ok (unordered_ok cfg m (p + N.of_nat q) (skipn q r) ltac:(lia) (bytes_at_skipn _ _ _ _ H QL) ltac:(lia)).
      rewrite last3_words, to32_of_bytes by (try lia; rewrite app_length, last3_length; reflexivity). reflexivity.
  - rewrite avx_updateHL_ok by assumption. rewrite PP, C. unfold hh_rest_with. destruct r; [cbn [length] in L; lia|reflexivity].
Qed.
Lemma store16_ok : forall m b w, length w = 16%nat -> mapped m b 16 -> b mod 16 = 0 ->
  mm_store_si128 b w m = Ok (tt, write m b w) /\ bytes_at (write m b w) b w /\ only m (write m b w) b 16.
Proof.
  intros m b w W M AL. unfold mm_store_si128. rewrite AL. cbn [N.eqb]. rewrite <- W in M. split; [exact (store_bytes_ok _ _ _ M)|].
  split; [now apply write_bytes_at|]. apply only_write. unfold mlen. lia.
Qed.
Lemma avx_copy_ok : forall cfg m p l b, (1 <= length l <= 31)%nat -> bytes_at m p l -> p + mlen l < addr_space cfg ->
  mapped m b 32 -> b + 32 < addr_space cfg -> b mod 32 = 0 -> apart b 32 p (mlen l) ->
  exists m', avx_CopyPartial cfg p (mlen l) b m = Ok (tt, m') /\ bytes_at m' b l /\ only m m' b 32.
Proof.
  intros cfg m p l b L H A M A' AL D. unfold avx_CopyPartial. cbv zeta. rewrite land_16, negb_involutive by (unfold mlen; lia).
  assert (AL1 : b mod 16 = 0) by lia. assert (AL2 : (b + 16) mod 16 = 0) by lia.
  assert (M1 : mapped m b 16) by (intros i I; apply M; lia).
  destruct (N.leb_spec 16 (mlen l)) as [B|B].
  - assert (L16 : length (firstn 16 l) = 16%nat) by (rewrite firstn_length; unfold mlen in B; lia). 
    pose proof (load_bytes_ok _ m p (bytes_at_firstn _ _ 16%nat _ H)) as E0. rewrite L16 in E0. unfold mm_loadu_si128. ok E0. rewrite bytes_of_bytes32 by exact L16.
    destruct (store16_ok m b _ L16 M1 AL1) as (E1 & B1 & O1). set (m1 := write m b _) in *. clearbody m1. rewrite (bind_ok _ _ _ _ _ _ _ E1).
    rewrite !padd_small, psub_small by (unfold mlen in *; lia).
    assert (H1 : bytes_at m1 p l) by (eapply only_bytes; [exact O1| |exact H]; unfold apart, mlen in *; lia).
    destruct (load0to16_16_ok cfg m1 p l ltac:(unfold mlen in B; lia) H1 A) as (j & E2 & LJ). ok E2.
    rewrite bytes_of_bytes32 by exact LJ.
    assert (M2 : mapped m1 (b + 16) 16) by (intros i I; replace (b + 16 + N.of_nat i) with (b + N.of_nat (16 + i)) by lia; apply (only_mapped _ _ _ _ _ _ O1 M); lia).
    destruct (store16_ok m1 (b + 16) _ LJ M2 AL2) as (E3 & B3 & O3). set (m2 := write m1 _ _) in *. clearbody m2. exists m2. split; [exact E3|]. split.
    + rewrite <- (firstn_skipn 16 l). apply bytes_at_app. rewrite L16. split.
      * eapply only_bytes; [exact O3| |exact B1]. unfold mlen. lia.
      * apply bytes_at_app in B3. apply B3.
    + eapply only_trans; [eapply only_weaken; [exact O1|lia|lia]|eapply only_weaken; [exact O3|lia|lia]].
  - destruct (load0to16_ok cfg m p l ltac:(lia) H A) as (j & E2 & LJ). ok E2. rewrite bytes_of_bytes32 by exact LJ.
    destruct (store16_ok m b _ LJ M1 AL1) as (E1 & B1 & O1). set (m2 := write m _ _) in *. clearbody m2. exists m2. split; [exact E1|]. split.
    + apply bytes_at_app in B1. rewrite (firstn_all2 l) in B1 by (unfold mlen in B; lia). apply B1.
    + eapply only_weaken; [exact O1|lia|lia].
Qed.
Lemma mapped_bytes : forall n m p, mapped m p n -> exists l, length l = n /\ bytes_at m p l.
Proof.
  induction n as [|n IH]; intros m p M; [exists []; split; [reflexivity|apply bytes_at_nil]|].
  destruct (IH m p) as (l & L & B); [intros i I; apply M; lia|].
  destruct (m (p + N.of_nat n)) as [x|] eqn:X; [|now destruct (M n ltac:(lia))]. exists (l ++ [x]). split; [rewrite app_length, L; cbn [length]; lia|].
  apply bytes_at_app. split; [exact B|]. intros i y E. destruct i as [|i]; [|now destruct i]. injection E as <-. rewrite L, N.add_0_r. exact X.
Qed.
Lemma load16_ok : forall m b w, length w = 16%nat -> bytes_at m b w -> b mod 16 = 0 -> mm_load_si128 b m = Ok (w, m).
Proof.
  intros m b w W H AL. unfold mm_load_si128. rewrite AL. cbn [N.eqb]. pose proof (load_bytes_ok _ m b H) as E. now rewrite W in E.
Qed.
(** what is in half of a buffer after the bytes that count *)
Lemma half_of : forall m b old, mapped m b 16 -> bytes_at m b old -> (length old <= 16)%nat -> exists j, length (old ++ j) = 16%nat /\ bytes_at m b (old ++ j).
Proof.
  intros m b old M B L. destruct (mapped_bytes (16 - length old) m (b + N.of_nat (length old))) as (j & J & BJ).
  { intros i I. rewrite <- N.add_assoc, <- Nat2N.inj_add. apply M. lia. }
  exists j. split; [rewrite app_length; lia|]. apply bytes_at_app. now split.
Qed.
Lemma avx_append_ok : forall table cfg m p l b old, table mod 16 = 0 -> (length old + length l <= 31)%nat -> bytes_at m p l -> p + mlen l < addr_space cfg ->
  mapped m b 32 -> b + 32 < addr_space cfg -> b mod 32 = 0 -> apart b 32 p (mlen l) -> bytes_at m b old ->
  exists m', avx_AppendPartial table cfg p (mlen l) b (mlen old) m = Ok (tt, m') /\ bytes_at m' b (old ++ l) /\ only m m' b 32.
Proof.
  intros table cfg m p l b old T L H A M A' AL D BO. unfold avx_AppendPartial. cbv zeta. rewrite land_16, negb_involutive by (unfold mlen; lia).
  assert (AL1 : b mod 16 = 0) by lia. assert (AL2 : (b + 16) mod 16 = 0) by lia.
  assert (M1 : mapped m b 16) by (intros i I; apply M; lia).
  assert (M2 : mapped m (b + 16) 16) by (intros i I; replace (b + 16 + N.of_nat i) with (b + N.of_nat (16 + i)) by lia; apply M; lia).
  destruct (load0to16_ok cfg m p l ltac:(lia) H A) as (j & E & LJ).
  destruct (N.leb_spec 16 (mlen old)) as [B|B].
  - ok E. rewrite !(padd_small cfg b), psub_small by (unfold mlen in *; lia).
    assert (BH : bytes_at m (b + 16) (skipn 16 old)) by (apply (bytes_at_skipn m b 16%nat old); [exact BO|unfold mlen in B; lia]).
    destruct (half_of m (b + 16) (skipn 16 old) M2 BH ltac:(rewrite skipn_length; lia)) as (k & LK & BK).
    ok (load16_ok m (b + 16) _ LK BK AL2). replace (mlen old - 16) with (mlen (skipn 16 old)) by (unfold mlen; rewrite skipn_length; lia).
    ok (concatenate_ok table (skipn 16 old) k _ m T LK ltac:(rewrite skipn_length; unfold mlen in B; lia) LJ).
    assert (W : length (skipn 16 old ++ firstn (16 - length (skipn 16 old)) (firstn 16 l ++ j)) = 16%nat) by (rewrite app_length, firstn_length, LJ, skipn_length; lia).
    rewrite bytes_of_bytes32 by exact W.
    destruct (store16_ok m (b + 16) _ W M2 AL2) as (E3 & B3 & O3). set (m2 := write m _ _) in *. clearbody m2. exists m2. split; [exact E3|]. split.
    + apply bytes_at_app. assert (BO2 : bytes_at m2 b old).
      { rewrite <- (firstn_skipn 16 old). apply bytes_at_app. rewrite firstn_length, Nat.min_l by (unfold mlen in B; lia). split.
        - eapply only_bytes; [exact O3| |apply bytes_at_firstn; exact BO]. unfold mlen. rewrite firstn_length. lia.
        - apply bytes_at_app in B3. apply B3. }
      split; [exact BO2|]. apply bytes_at_app in B3. destruct B3 as [_ B3]. rewrite (firstn_all2 (n := 16) l), skipn_length in B3 by (unfold mlen in B; lia).
      rewrite firstn_app in B3. apply bytes_at_app in B3. destruct B3 as [B3 _]. rewrite firstn_all2 in B3 by (unfold mlen in B; lia).
      replace (b + N.of_nat (length old)) with (b + 16 + N.of_nat (length old - 16)) by (unfold mlen in B; lia). exact B3.
    + eapply only_weaken; [exact O3|lia|lia].
  - destruct (half_of m b old M1 BO ltac:(unfold mlen in B; lia)) as (k & LK & BK). ok (load16_ok m b _ LK BK AL1). ok E.
    ok (concatenate_ok table old k _ m T LK ltac:(unfold mlen in B; lia) LJ).
    assert (W : length (old ++ firstn (16 - length old) (firstn 16 l ++ j)) = 16%nat) by (rewrite app_length, firstn_length, LJ; unfold mlen in B; lia).
    rewrite bytes_of_bytes32 by exact W.
    destruct (store16_ok m b _ W M1 AL1) as (E3 & B3 & O3). set (m2 := write m _ _) in *. clearbody m2. rewrite (bind_ok _ _ _ _ _ _ _ E3).
    rewrite (psub_small cfg 16) by (unfold mlen in *; pose proof (addr_space_pos cfg); lia). apply bytes_at_app in B3. destruct B3 as [BO2 B3].
    destruct (N.ltb_spec (16 - mlen old) (mlen l)) as [X|X].
    + rewrite psub_small, !padd_small by (unfold mlen in *; lia).
      set (s := (16 - length old)%nat) in *. assert (SE : 16 - mlen old = N.of_nat s) by (unfold mlen, s; lia). rewrite SE in *.
      replace (mlen l - N.of_nat s) with (mlen (skipn s l)) by (unfold mlen; rewrite skipn_length; lia).
      assert (H2 : bytes_at m2 (p + N.of_nat s) (skipn s l)).
      { apply bytes_at_skipn; [|unfold mlen in X; lia]. eapply only_bytes; [exact O3| |exact H]. unfold apart, mlen in *. lia. }
      destruct (load0to16_ok cfg m2 (p + N.of_nat s) (skipn s l) ltac:(rewrite skipn_length; lia) H2 ltac:(unfold mlen in *; rewrite skipn_length; lia)) as (i & E4 & LI). ok E4.
      rewrite bytes_of_bytes32 by exact LI.
      assert (M3 : mapped m2 (b + 16) 16) by exact (only_mapped _ _ _ _ _ _ O3 M2).
      destruct (store16_ok m2 (b + 16) _ LI M3 AL2) as (E5 & B5 & O5). set (m3 := write m2 _ _) in *. clearbody m3. exists m3. split; [exact E5|]. split.
      * apply bytes_at_app. split; [eapply only_bytes; [exact O5| |exact BO2]; unfold mlen in *; lia|].
        rewrite <- (firstn_skipn s l). apply bytes_at_app. split.
        -- eapply only_bytes; [exact O5| |]; [unfold mlen; rewrite firstn_length; unfold s; lia|].
           assert (F : firstn s (firstn 16 l ++ j) = firstn s l).
           { rewrite firstn_app, firstn_firstn, Nat.min_l by (unfold s; lia). rewrite firstn_length. replace (s - Nat.min 16 (length l))%nat with 0%nat by (unfold mlen, s in *; lia).
             cbn [firstn]. apply app_nil_r. }
           now rewrite F in B3.
        -- rewrite firstn_length, Nat.min_l by (unfold mlen in X; lia). rewrite (firstn_all2 (n := 16) (skipn s l)) in B5 by (rewrite skipn_length; unfold s; lia).
           apply bytes_at_app in B5. replace (b + N.of_nat (length old) + N.of_nat s) with (b + 16) by (unfold s, mlen in *; lia). apply B5.
      * eapply only_trans; [eapply only_weaken; [exact O3|lia|lia]|eapply only_weaken; [exact O5|lia|lia]].
    + exists m2. split; [reflexivity|]. split; [|eapply only_weaken; [exact O3|lia|lia]].
      apply bytes_at_app. split; [exact BO2|]. rewrite (firstn_all2 (n := 16) l) in B3 by (unfold mlen in *; lia).
      rewrite firstn_app in B3. apply bytes_at_app in B3. destruct B3 as [B3 _]. now rewrite firstn_all2 in B3 by (unfold mlen in *; lia).
Qed.
Lemma avx_append_update_ok : forall table cfg m p l b old st, table mod 16 = 0 -> (length old + length l = 32)%nat -> (1 <= length old <= 31)%nat ->
  bytes_at m p l -> p + mlen l < addr_space cfg -> mapped m b 32 -> b + 32 < addr_space cfg -> b mod 32 = 0 -> bytes_at m b old -> good (conv (avx_c st)) ->
  exists st', avx_AppendAndUpdate table cfg p (mlen l) b (mlen old) st m = Ok (st', m) /\ conv (avx_c st') = hh_packet (conv (avx_c st)) (old ++ l).
Proof.
  intros table cfg m p l b old st T L LO H A M A' AL BO G. unfold avx_AppendAndUpdate. cbv zeta. rewrite land_16, negb_involutive by (unfold mlen; lia).
  assert (AL1 : b mod 16 = 0) by lia. assert (AL2 : (b + 16) mod 16 = 0) by lia.
  assert (M1 : mapped m b 16) by (intros i I; apply M; lia).
  assert (M2 : mapped m (b + 16) 16) by (intros i I; replace (b + 16 + N.of_nat i) with (b + N.of_nat (16 + i)) by lia; apply M; lia).
  destruct (load0to16_ok cfg m p l ltac:(lia) H A) as (j & E & LJ).
  destruct (N.leb_spec 16 (mlen old)) as [B|B].
  - ok E. assert (L16 : length (firstn 16 old) = 16%nat) by (rewrite firstn_length; unfold mlen in B; lia).
    ok (load16_ok m b _ L16 (bytes_at_firstn _ _ 16%nat _ BO) AL1). rewrite !(padd_small cfg b), psub_small by (unfold mlen in *; lia).
    assert (BH : bytes_at m (b + 16) (skipn 16 old)) by (apply (bytes_at_skipn m b 16%nat old); [exact BO|unfold mlen in B; lia]).
    destruct (half_of m (b + 16) (skipn 16 old) M2 BH ltac:(rewrite skipn_length; lia)) as (k & LK & BK).
    ok (load16_ok m (b + 16) _ LK BK AL2). replace (mlen old - 16) with (mlen (skipn 16 old)) by (unfold mlen; rewrite skipn_length; lia).
    ok (concatenate_ok table (skipn 16 old) k _ m T LK ltac:(rewrite skipn_length; unfold mlen in B; lia) LJ).
    assert (W : skipn 16 old ++ firstn (16 - length (skipn 16 old)) (firstn 16 l ++ j) = skipn 16 (old ++ l)).
    { rewrite skipn_app. replace (16 - length old)%nat with 0%nat by (unfold mlen in B; lia). change (skipn 0 l) with l. f_equal.
      rewrite (firstn_all2 (n := 16) l), skipn_length by (unfold mlen in B; lia). rewrite firstn_app, firstn_all2 by (unfold mlen in B; lia).
      replace (16 - (length old - 16) - length l)%nat with 0%nat by (unfold mlen in B; lia). apply app_nil_r. }
    rewrite W. assert (F : firstn 16 old = firstn 16 (old ++ l)) by (rewrite firstn_app; replace (16 - length old)%nat with 0%nat by (unfold mlen in B; lia); cbn [firstn]; now rewrite app_nil_r).
    exists (avx_UpdateHL (of_bytes32 (skipn 16 (old ++ l))) (of_bytes32 (firstn 16 (old ++ l))) st). split; [unfold ret; now rewrite F|].
    rewrite avx_updateHL_ok; [now rewrite firstn_skipn| | |exact G]; [rewrite firstn_length, app_length; lia|rewrite skipn_length, app_length; lia].
  - destruct (half_of m b old M1 BO ltac:(unfold mlen in B; lia)) as (k & LK & BK). ok (load16_ok m b _ LK BK AL1). ok E.
    ok (concatenate_ok table old k _ m T LK ltac:(unfold mlen in B; lia) LJ).
    rewrite (psub_small cfg 16) by (unfold mlen in *; pose proof (addr_space_pos cfg); lia).
    destruct (N.ltb_spec (16 - mlen old) (mlen l)) as [X|X]; [|unfold mlen in X; lia].
    rewrite psub_small, !padd_small by (unfold mlen in *; lia).
    set (s := (16 - length old)%nat) in *. assert (SE : 16 - mlen old = N.of_nat s) by (unfold mlen, s; lia). rewrite SE in *.
    replace (mlen l - N.of_nat s) with (mlen (skipn s l)) by (unfold mlen; rewrite skipn_length; lia).
    assert (H2 : bytes_at m (p + N.of_nat s) (skipn s l)) by (apply bytes_at_skipn; [exact H|unfold mlen in X; lia]).
    destruct (load0to16_ok cfg m (p + N.of_nat s) (skipn s l) ltac:(rewrite skipn_length; lia) H2 ltac:(unfold mlen in *; rewrite skipn_length; lia)) as (i & E4 & LI). ok E4.
    assert (SL : length (skipn s l) = 16%nat) by (rewrite skipn_length; unfold s, mlen in *; lia). rewrite (firstn_all2 (n := 16) (skipn s l)) in * by lia.
    assert (IN : i = []) by (rewrite app_length, SL in LI; destruct i; [reflexivity|cbn [length] in LI; lia]). subst i. rewrite app_nil_r in *.
    assert (F : firstn s (firstn 16 l ++ j) = firstn s l).
    { rewrite firstn_app, firstn_firstn, Nat.min_l by (unfold s; lia). rewrite firstn_length. replace (s - Nat.min 16 (length l))%nat with 0%nat by (unfold mlen, s in *; lia).
      cbn [firstn]. apply app_nil_r. }
    rewrite F. exists (avx_UpdateHL (of_bytes32 (skipn s l)) (of_bytes32 (old ++ firstn s l)) st). split; [reflexivity|].
    rewrite avx_updateHL_ok; [|rewrite app_length, firstn_length; unfold s, mlen in *; lia|exact SL|exact G]. now rewrite <- app_assoc, firstn_skipn.
Qed.
Lemma avx2_sound : forall table cfg, big_endian cfg = false -> table mod 16 = 0 -> hh_sound cfg (avx2 table) (fun st => conv (avx_c st)) pad 32.
Proof.
  intros table cfg LE T. pose proof (addr_space_pos cfg) as AS. constructor;
    cbn [avx2 op_Reset op_Update op_UpdateRemainder op_Finalize64 op_Finalize128 op_Finalize256 op_ZeroInitialize op_CopyPartial op_AppendPartial op_AppendAndUpdate].
  - intros key K. rewrite avx_Reset_eq by exact K. now apply reset_ok.
  - intros m p l st L H A G. unfold avx_Update. exists (avx_UpdateV (of_bytes64 (firstn 16 l), of_bytes64 (skipn 16 l)) st).
    assert (L1 : length (firstn 16 l) = 16%nat) by (rewrite firstn_length; lia). assert (L2 : length (skipn 16 l) = 16%nat) by (rewrite skipn_length; lia). split.
    + pose proof (load_bytes_ok _ m p H) as E. rewrite L in E. ok E. reflexivity.
    + rewrite avx_packet_ok by assumption. now rewrite firstn_skipn.
  - intros. now apply avx_remainder_ok.
  - intros st G. rewrite avx_Finalize64_eq by exact G. now apply finalize64_ok.
  - intros st G. rewrite avx_Finalize128_eq by exact G. now apply finalize128_ok.
  - intros st G. rewrite avx_Finalize256_eq by exact G. now apply finalize256_ok.
  - intros m b M A AL. unfold avx_ZeroInitialize, mm256_store_si256. rewrite AL. cbn [N.eqb].
    exists (write m b (repeat x00 32)). split; [exact (store_bytes_ok _ _ _ (M : mapped m b (length (repeat x00 32))))|]. now apply only_write.
  - intros. now apply avx_copy_ok.
  - intros. now apply avx_append_ok.
  - intros. now apply avx_append_update_ok.
Qed.
