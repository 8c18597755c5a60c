(** XXH3 with multiple calls and vector instructions: the results, and starting. *)
From Coq Require Import ZArith NArith Arith List Bool Lia Strings.Byte.
From Coq Require Import ZifyN ZifyNat ZifyBool.
From Verif Require Import Bytes CSem Bits Spec NBits CSemFacts OpsFacts FetchFacts CtxMem StreamFacts SelfcheckSpec
  HighwayFacts HighwayCat HighwayCxx HighwaySimd Xxhash XxhashSpec XxhashFacts Xxh3 Xxh3Spec Onto Xxh3Facts Xxh3Secret Xxh3State
  Xxh3Simd Xxh3SimdFacts Xxh3SimdSound Xxh3SimdLong Xxh3SimdEntry Xxh3Stream Xxh3SimdState Xxh3SimdStream.
Import ListNotations.
Ltac Zify.zify_post_hook ::= Z.div_mod_to_equations.
Local Open Scope N_scope.

Lemma secret_at : forall cfg q ext st s, st + 512 < addr_space cfg -> (if ext =? 0 then st + 64 else ext) = q ->
  s3_extSecret s = ext -> secret_of cfg st s = q.
Proof. intros cfg q ext st s L H E. unfold secret_of, customSecret_of. rewrite E, padd_small by lia. exact H. Qed.

Section DigestV.
  Variable (cfg : config) (x3 : xxh3_build) (v : xxh_vector).
  Hypothesis (Hd : xxh_force_memory_access (x3_xxh x3) <> 2) (Fv : fits cfg v).
  Variables (q : N) (sec : list byte).
  Hypothesis Hz : 136 <= mlen sec.
  Variables (seed ext st : N).
  Hypothesis (Hst : st + 512 < addr_space cfg) (Hst0 : st <> 0).
  Hypothesis (Hext : (if ext =? 0 then st + 64 else ext) = q).
  Variables (acc local : N).
  Hypothesis (Ha0 : acc <> 0) (Haa : acc + 64 < addr_space cfg) (Aa : acc mod XXH_ACC_ALIGN v = 0).
  Hypothesis (Hl0 : local <> 0) (Hla : local + 64 < addr_space cfg).
  Hypothesis (Hast : apart acc 64 st 512) (Haq : apart_from acc q (mlen sec)) (Hlst : apart local 64 st 512) (Hlq : apart local 64 q (mlen sec))
    (Hal : apart acc 64 local 64).

  Lemma digest_long_v_ok : forall msg s m, fed_v cfg sec seed ext st msg s m -> here cfg m q sec -> mapped m acc 64 -> mapped m local 64 -> 240 < mlen msg ->
    exists m', digest_long_v cfg x3 v local acc st s q m = Ok (tt, m') /\ accs_at cfg m' acc (long_3 sec msg) /\
      only2 m m' acc 64 local 64 /\ here cfg m' q sec.
  Proof.
    intros msg s m (C & d & t & Em & D & LT & NE & Es & HA & BT & TL & MP) Hs MA ML L240.
    assert (PP : 9 <= period sec) by (unfold period; lia). assert (Hsa : q + mlen sec < addr_space cfg) by apply Hs.
    assert (Lm : mlen msg = mlen d + mlen t) by (rewrite Em; apply mlen_app).
    unfold digest_long_v. rewrite Es.
    cbn [s3_acc s3_bufferedSize s3_nbStripesPerBlock s3_nbStripesSoFar s3_secretLimit s3_totalLen s3_seed s3_extSecret].
    unfold buffer_of. cbv zeta. rewrite (padd_small cfg st), (padd_small cfg q), (psub_small cfg (q + (mlen sec - 64))) by lia.
    replace (q + (mlen sec - 64) - 7) with (q + (mlen sec - 71)) by lia. unfold apart in *.
    destruct (accs_len _ _ _ _ HA) as [LA _]. set (w := stripes_3 sec d (4 * C)) in *.
    assert (MC : memcpy cfg acc st 64 m = Ok (tt, write m acc (acc_bytes cfg w))).
    { rewrite <- LA. apply memcpy_ok; [exact Ha0|exact Hst0|exact (proj1 (proj1 HA))| |right; rewrite LA; clear - Hast; lia].
      unfold mlen in LA. replace (length (acc_bytes cfg w)) with 64%nat by lia. exact MA. }
    ok MC. assert (O0 : only m (write m acc (acc_bytes cfg w)) acc 64) by (apply only_write; now rewrite LA).
    assert (A0 : accs_at cfg (write m acc (acc_bytes cfg w)) acc w).
    { split; [|exact (proj2 HA)]. split; [apply write_bytes_at|rewrite LA; exact Haa]. }
    set (m0 := write m acc (acc_bytes cfg w)) in *. clearbody m0.
    assert (Hs0 : here cfg m0 q sec) by (apply (here_only cfg m m0 acc 64); [exact O0|exact Haq|exact Hs]).
    assert (BT0 : bytes_at m0 (st + 256) t) by (apply (only_bytes m m0 acc 64 _ _ O0); [clear - Hast LT; lia|exact BT]).
    assert (HB : here cfg m0 (st + 256) t) by (split; [exact BT0|lia]).
    assert (DB : apart_from acc (st + 256) (mlen t)) by (clear - Hast LT; unfold apart_from; lia).
    destruct (N.leb_spec 64 (mlen t)) as [X|X].
    - rewrite sub32_le by (change (2 ^ 32) with 4294967296; lia).
      set (n := (mlen t - 1) / 64). assert (Ln : 64 * n < mlen t /\ mlen t <= 64 * n + 64) by (unfold n; clear - X; lia).
      destruct (consume_v_ok cfg x3 v Hd Fv q sec Hz acc Aa Haq m0 d (4 * C) (st + 256) t n ltac:(lia) HB Hs0 DB A0 ltac:(lia) ltac:(lia)) as (m1 & E1 & A1 & O1).
      ok E1. rewrite (back_i cfg m0 (st + 256) t (mlen t) 64 HB) by lia.
      assert (Hs1 : here cfg m1 q sec) by (apply (here_only cfg m0 m1 acc 64); [exact O1|exact Haq|exact Hs0]).
      assert (HB1 : here cfg m1 (st + 256) t) by (apply (here_only cfg m0 m1 acc 64); [exact O1|exact DB|exact HB]).
      destruct (variant_stripe cfg x3 v Hd Fv (st + 256) q acc t sec DB Haq Aa m1 _ (mlen sec - 71) (mlen t - 64) HB1 Hs1 A1 ltac:(lia) ltac:(lia)) as (m2 & E2 & B2 & O2).
      exists m2. split; [exact E2|]. split; [|split].
      + unfold long_3. replace ((mlen msg - 1) / 64) with (4 * C + n) by lia.
        pose proof (stripe_mid sec (mlen sec - 71) d t [] (mlen t - 64) (stripes_3 sec msg (4 * C + n)) ltac:(lia)) as E.
        rewrite app_nil_r, <- Em in E. rewrite <- Em in B2. rewrite <- E in B2.
        replace (mlen d + (mlen t - 64)) with (mlen msg - 64) in B2 by lia.
        split; [split; [exact B2|unfold mlen; rewrite acc_bytes_length; exact Haa]|apply stripe_small].
      + apply only_first. eapply only_trans; [exact O0|]. eapply only_trans; [exact O1|exact O2].
      + apply (here_only cfg m1 m2 acc 64); [exact O2|exact Haq|exact Hs1].
    - assert (Zt : mlen t <> 0).
      { intro Zt. assert (t = []) as -> by (destruct t; [reflexivity|discriminate Zt]). specialize (NE eq_refl). subst d. cbn in Lm. lia. }
      destruct (cut_at d (mlen d - 64)) as (d0 & e & Ed & Ld0); [lia|]. assert (Le : mlen e = 64) by (assert (mlen d = mlen d0 + mlen e) by (rewrite Ed at 1; apply mlen_app); lia).
      specialize (TL X d0 e Ed Le).
      destruct (cut_at e (mlen t)) as (e1 & e2 & Ee & Le1); [lia|]. assert (Le2 : mlen e2 = 64 - mlen t) by (assert (mlen e = mlen e1 + mlen e2) by (rewrite Ee at 1; apply mlen_app); lia).
      rewrite Ee in TL. apply bytes_at_app in TL. destruct TL as [_ TL]. change (N.of_nat (length e1)) with (mlen e1) in TL. rewrite Le1 in TL.
      assert (TL0 : bytes_at m0 (st + 448 + mlen t) e2) by (apply (only_bytes m m0 acc 64 _ _ O0); [clear - Hast Le2 X; lia|exact TL]).
      assert (ML0 : mapped m0 local 64) by exact (only_mapped _ _ _ _ _ _ O0 ML).
      rewrite sub32_le by (change (2 ^ 32) with 4294967296; lia).
      rewrite (padd_small cfg (st + 256)), (psub_small cfg (st + 256 + 256)), (padd_small cfg local) by lia.
      replace (st + 256 + 256 - (64 - mlen t)) with (st + 448 + mlen t) by lia.
      assert (M1 : memcpy cfg local (st + 448 + mlen t) (64 - mlen t) m0 = Ok (tt, write m0 local e2)).
      { rewrite <- Le2. apply memcpy_ok; [exact Hl0|lia|exact TL0| |right; clear - Hlst Le2 X; lia]. intros i I. apply ML0. unfold mlen in *. lia. }
      assert (O1 : only m0 (write m0 local e2) local (mlen e2)) by (now apply only_write).
      pose proof (write_bytes_at m0 local e2) as W1. set (m1 := write m0 local e2) in *. clearbody m1.
      assert (M2 : memcpy cfg (local + (64 - mlen t)) (st + 256) (mlen t) m1 = Ok (tt, write m1 (local + (64 - mlen t)) t)).
      { apply memcpy_ok; [lia|lia|eapply only_bytes; [exact O1| |exact BT0]; clear - Hlst Le2 X; lia| |right; clear - Hlst X; lia].
        intros i I. replace (local + (64 - mlen t) + N.of_nat i) with (local + N.of_nat (length e2 + i)) by (unfold mlen in *; lia).
        apply (only_mapped _ _ _ _ _ _ O1 ML0). unfold mlen in *. lia. }
      assert (O2 : only m1 (write m1 (local + (64 - mlen t)) t) (local + (64 - mlen t)) (mlen t)) by (now apply only_write).
      pose proof (write_bytes_at m1 (local + (64 - mlen t)) t) as W2. set (m2 := write m1 (local + (64 - mlen t)) t) in *. clearbody m2.
      assert (O : only m0 m2 local 64).
      { eapply only_trans; [eapply only_weaken; [exact O1|lia|lia]|eapply only_weaken; [exact O2|lia|lia]]. }
      assert (HL : here cfg m2 local (e2 ++ t)).
      { split; [|rewrite mlen_app; lia]. apply bytes_at_app. split; [eapply only_bytes; [exact O2| |exact W1]; lia|].
        change (N.of_nat (length e2)) with (mlen e2). rewrite Le2. exact W2. }
      assert (Hs2 : here cfg m2 q sec) by (eapply only_here; [exact O| |exact Hs0]; clear - Hlq; lia).
      assert (A2 : accs_at cfg m2 acc w) by (apply (accs_only cfg m0 m2 local 64); [exact O|clear - Hal; unfold apart; lia|exact A0]).
      assert (DL : apart_from acc local (mlen (e2 ++ t))) by (rewrite mlen_app; clear - Hal Le2 X; unfold apart_from; lia).
      destruct (variant_stripe cfg x3 v Hd Fv local q acc (e2 ++ t) sec DL Haq Aa m2 _ (mlen sec - 71) 0 HL Hs2 A2 ltac:(rewrite mlen_app; lia) ltac:(lia)) as (m3 & E3 & B3 & O3).
      rewrite N.add_0_r in E3.
      ok (ASSERT_ok cfg x3 (0 <? mlen t) m0 ltac:(intros _; lia)). ok M1. ok M2. exists m3. split; [exact E3|]. split; [|split].
      + unfold long_3. replace ((mlen msg - 1) / 64) with (4 * C) by lia.
        pose proof (stripe_mid sec (mlen sec - 71) (d0 ++ e1) (e2 ++ t) [] 0 w ltac:(rewrite mlen_app; lia)) as E.
        rewrite app_nil_r in E. replace ((d0 ++ e1) ++ e2 ++ t) with msg in E by (rewrite Em, Ed, Ee, <- !app_assoc; reflexivity).
        rewrite <- E in B3. rewrite mlen_app, N.add_0_r in B3. replace (mlen d0 + mlen e1) with (mlen msg - 64) in B3 by lia.
        replace (stripes_3 sec msg (4 * C)) with w by (unfold w; rewrite Em, stripes_app by lia; reflexivity).
        split; [split; [exact B3|unfold mlen; rewrite acc_bytes_length; exact Haa]|apply stripe_small].
      + apply (only2_trans m m0 m3); [now apply only_first|]. apply (only_both m0 m2 m3); assumption.
      + apply (here_only cfg m2 m3 acc 64); [exact O3|exact Haq|exact Hs2].
  Qed.

  Hypothesis Hk : seed <> 0 -> x3_kSecret x3 <> 0.
  Lemma digest64_v_ok : forall msg s m, fed_v cfg sec seed ext st msg s m -> here cfg m q sec -> mapped m acc 64 -> mapped m local 64 -> q <> 0 -> mlen msg < 2 ^ 64 ->
    (seed <> 0 -> here cfg m (x3_kSecret x3) default_secret) -> (asserting cfg x3 = true -> mlen msg <> 8) ->
    exists m', digest64_v cfg x3 v local acc st s m = Ok (if seed =? 0 then xxh3_64_secret sec msg else xxh3_64 default_secret sec seed msg, m') /\
      only2 m m' acc 64 local 64.
  Proof.
    intros msg s m F Hs MA ML Hq T64 HK HA. pose proof F as (C & d & t & Em & D & LT & NE & Es & HA' & BT & TL & MP). assert (Hsa : q + mlen sec < addr_space cfg) by apply Hs.
    assert (Lm : mlen msg = mlen d + mlen t) by (rewrite Em; apply mlen_app).
    unfold digest64_v. rewrite (secret_at cfg q ext st _ Hst Hext) by (rewrite Es; reflexivity).
    assert (Et : s3_totalLen s = mlen msg) by (rewrite Es; reflexivity). assert (Esd : s3_seed s = seed) by (rewrite Es; reflexivity).
    assert (Esl : s3_secretLimit s = mlen sec - 64) by (rewrite Es; reflexivity). rewrite Et, Esd, Esl. unfold XXH3_MIDSIZE_MAX, xxh3_64_secret.
    destruct (N.ltb_spec 240 (mlen msg)) as [X|X].
    - destruct (digest_long_v_ok msg s m F Hs MA ML X) as (m' & E & A' & O & Hs'). exists m'. split; [|exact O]. ok E.
      ok (read_ok cfg m' acc (acc_align8 v acc Aa) m' _ (conj A' (only_refl m' acc 64))). rewrite (padd_small cfg q) by lia.
      rewrite (merge_at cfg x3 Hd m' q msg sec Hs' Hz) by (try apply stripe_lt; try reflexivity; lia).
      rewrite !long_64 by exact X. now destruct (seed =? 0).
    - assert (C = 0) as -> by lia. assert (d = []) as -> by (unfold mlen in D; destruct d; [reflexivity|discriminate D]). cbn [app] in Em. subst t.
      assert (HB : here cfg m (st + 256) msg) by (split; [exact BT|lia]).
      exists m. split; [|apply only2_refl]. rewrite N.mod_small by lia. unfold buffer_of. rewrite (padd_small cfg st) by lia.
      destruct (N.eqb_spec seed 0) as [Z|Z]; cbn [negb].
      + rewrite (padd_small cfg (mlen sec - 64)) by lia. replace (mlen sec - 64 + 64) with (mlen sec) by lia.
        unfold XXH3_64bits_withSecret_v. apply (bits64_ok cfg x3 Hd m (st + 256) q 0 msg sec HB Hs Hz); auto; lia.
      + unfold XXH3_64bits_withSeed_v. replace XXH_SECRET_DEFAULT_SIZE with (mlen default_secret) by apply default_length.
        apply (bits64_ok cfg x3 Hd m (st + 256) (x3_kSecret x3) seed msg default_secret HB (HK Z)); auto; try lia.
        * rewrite default_length. lia.
        * intros _. now rewrite (same_short_64 default_secret sec default_secret seed msg) by lia.
  Qed.
  Lemma digest128_v_ok : forall msg s m, fed_v cfg sec seed ext st msg s m -> here cfg m q sec -> mapped m acc 64 -> mapped m local 64 -> q <> 0 -> mlen msg < 2 ^ 64 ->
    (seed <> 0 -> here cfg m (x3_kSecret x3) default_secret) ->
    exists m', digest128_v cfg x3 v local acc st s m = Ok (if seed =? 0 then xxh3_128_secret sec msg else xxh3_128 default_secret sec seed msg, m') /\
      only2 m m' acc 64 local 64.
  Proof.
    intros msg s m F Hs MA ML Hq T64 HK. pose proof F as (C & d & t & Em & D & LT & NE & Es & HA' & BT & TL & MP). assert (Hsa : q + mlen sec < addr_space cfg) by apply Hs.
    assert (Lm : mlen msg = mlen d + mlen t) by (rewrite Em; apply mlen_app).
    unfold digest128_v. rewrite (secret_at cfg q ext st _ Hst Hext) by (rewrite Es; reflexivity).
    assert (Et : s3_totalLen s = mlen msg) by (rewrite Es; reflexivity). assert (Esd : s3_seed s = seed) by (rewrite Es; reflexivity).
    assert (Esl : s3_secretLimit s = mlen sec - 64) by (rewrite Es; reflexivity). rewrite Et, Esd, Esl. unfold XXH3_MIDSIZE_MAX, xxh3_128_secret.
    destruct (N.ltb_spec 240 (mlen msg)) as [X|X].
    - destruct (digest_long_v_ok msg s m F Hs MA ML X) as (m' & E & A' & O & Hs'). exists m'. split; [|exact O]. ok E.
      rewrite (padd_small cfg (mlen sec - 64)) by lia. ok (ASSERT_ok cfg x3 (64 + 11 <=? mlen sec - 64 + 64) m' ltac:(intros _; lia)).
      ok (read_ok cfg m' acc (acc_align8 v acc Aa) m' _ (conj A' (only_refl m' acc 64))).
      rewrite !(padd_small cfg q), (padd_small cfg (q + (mlen sec - 64))), !psub_small by (rewrite ?psub_small; lia).
      ok (merge_at cfg x3 Hd m' q msg sec Hs' Hz 11 (long_3 sec msg) (mul64 (mlen msg) XXH_PRIME64_1) eq_refl (stripe_lt _ _ _ _ _) ltac:(lia)).
      replace (q + (mlen sec - 64) + 64 - 64 - 11) with (q + (mlen sec - 75)) by lia.
      ok (merge_at cfg x3 Hd m' q msg sec Hs' Hz (mlen sec - 75) (long_3 sec msg) (not64 (mul64 (mlen msg) XXH_PRIME64_2)) eq_refl (stripe_lt _ _ _ _ _) ltac:(lia)).
      rewrite !long_128 by exact X. unfold ret. rewrite not64_eq. destruct (seed =? 0); reflexivity.
    - assert (C = 0) as -> by lia. assert (d = []) as -> by (unfold mlen in D; destruct d; [reflexivity|discriminate D]). cbn [app] in Em. subst t.
      assert (HB : here cfg m (st + 256) msg) by (split; [exact BT|lia]).
      exists m. split; [|apply only2_refl]. rewrite N.mod_small by lia. unfold buffer_of. rewrite (padd_small cfg st) by lia.
      destruct (N.eqb_spec seed 0) as [Z|Z]; cbn [negb].
      + rewrite (padd_small cfg (mlen sec - 64)) by lia. replace (mlen sec - 64 + 64) with (mlen sec) by lia.
        unfold XXH3_128bits_withSecret_v. apply (bits128_ok cfg x3 Hd m (st + 256) q 0 msg sec HB Hs Hz); auto; lia.
      + unfold XXH3_128bits_withSeed_v. replace XXH_SECRET_DEFAULT_SIZE with (mlen default_secret) by apply default_length.
        apply (bits128_ok cfg x3 Hd m (st + 256) (x3_kSecret x3) seed msg default_secret HB (HK Z)); auto; try lia.
        * rewrite default_length. lia.
        * intros _. now rewrite (same_short_128 default_secret sec default_secret seed msg) by lia.
  Qed.
End DigestV.

(** ** Starting *)
Section ResetV.
  Variable (cfg : config) (x3 : xxh3_build) (v : xxh_vector).
  Hypothesis (Hd : xxh_force_memory_access (x3_xxh x3) <> 2) (Fv : fits cfg v).
  Variables (st : N) (m : mem).
  Hypothesis (Hst : st + 512 < addr_space cfg) (Hst0 : st <> 0) (Hm : mapped m st 512) (Hsa : st mod 64 = 0).

  Lemma acc_aligned : st mod XXH_ACC_ALIGN v = 0.
  Proof. clear - Hsa. destruct v; cbn [XXH_ACC_ALIGN]; lia. Qed.
  Lemma sec_aligned : (st + 64) mod XXH_SEC_ALIGN v = 0.
  Proof. clear - Hsa. destruct v; cbn [XXH_SEC_ALIGN XXH_ACC_ALIGN]; lia. Qed.

  Lemma reset_internal_v_ok : forall seed q sec, 136 <= mlen sec -> q <> 0 -> mlen sec < addr_space cfg ->
    exists m', reset_internal_v cfg x3 st seed q (mlen sec) m = Ok (S3 [] 0 (period sec) 0 (mlen sec - 64) 0 seed q, m') /\
      accs_at cfg m' st begin_3 /\ only m m' st 512.
  Proof.
    intros seed q sec Hz Hq Ha. set (m1 := write m st (repeat x00 512)).
    assert (O : only m m1 st 512) by now apply only_write.
    assert (E : store_bytes st (repeat x00 512) m = Ok (tt, m1)) by (apply store_bytes_ok; rewrite repeat_length; exact Hm).
    clearbody m1. pose proof acc_aligned as Aa.
    assert (Ma : mapped m1 st 64) by (intros i I; apply (only_mapped _ _ _ _ _ _ O Hm); lia).
    assert (Ds : apart_from st (st + 64) (mlen sec)) by (left; lia). assert (Dm : apart_from st (st + 64) (mlen [])) by (left; lia).
    destruct (init_ok cfg x3 m1 (st + 64) (st + 64) st [] sec (f_accumulate_512 cfg x3 v) (f_scrambleAcc cfg x3 v) Hz Ma ltac:(lia) (acc_align8 v st Aa)
      (fun m w i j H1 H2 H3 H4 H5 => variant_stripe cfg x3 v Hd Fv (st + 64) (st + 64) st [] sec Dm Ds Aa m w i j H1 H2 H3 H4 H5)
      (fun m w i H1 H2 H3 => variant_scramble cfg x3 v Hd Fv (st + 64) st sec Ds Aa m w i H1 H2 H3) Hd) as (m2 & E2 & A2 & O2).
    exists m2. split; [|split; [exact A2|]].
    - unfold reset_internal_v, XXH3_SECRET_SIZE_MIN. asserted. ok E. ok E2. asserted. asserted. cbv zeta. rewrite psub_small by lia. reflexivity.
    - eapply only_trans; [exact O|]. eapply only_weaken; [exact O2|lia|lia].
  Qed.
  Lemma fed_v_start : forall sec seed ext m', 136 <= mlen sec -> accs_at cfg m' st begin_3 -> mapped m' (st + 256) 256 ->
    fed_v cfg sec seed ext st [] (S3 [] 0 (period sec) 0 (mlen sec - 64) 0 seed ext) m'.
  Proof.
    intros sec seed ext m' Hz A MP. exists 0, [], []. split; [reflexivity|]. split; [reflexivity|]. split; [discriminate|]. split; [reflexivity|].
    split; [rewrite N.mod_0_l by (unfold period; lia); reflexivity|]. split; [exact A|]. split; [apply bytes_at_nil|]. split; [|exact MP].
    intros _ d0 e Ed Le. symmetry in Ed. apply app_eq_nil in Ed. destruct Ed as [_ ->]. discriminate Le.
  Qed.
  Lemma buffer_mapped : forall m', only m m' st 512 -> mapped m' (st + 256) 256.
  Proof.
    intros m' O i I. replace (st + 256 + N.of_nat i) with (st + N.of_nat (256 + i)) by lia. apply (only_mapped _ _ _ _ _ _ O Hm). lia.
  Qed.

  Lemma reset_secret_v_ok : forall s0 q sec, 136 <= mlen sec -> q <> 0 -> mlen sec < addr_space cfg ->
    exists s m', reset_withSecret_v cfg x3 st q (mlen sec) s0 m = Ok ((XXH_OK, s), m') /\ fed_v cfg sec 0 q st [] s m' /\ only m m' st 512.
  Proof.
    intros s0 q sec Hz Hq Ha. destruct (reset_internal_v_ok 0 q sec Hz Hq Ha) as (m' & E & A & O). eexists _, m'.
    split; [|split; [apply (fed_v_start sec 0 q m' Hz A (buffer_mapped m' O))|exact O]].
    unfold reset_withSecret_v. replace (st =? 0) with false by lia. ok E.
    replace (q =? 0) with false by lia. unfold XXH3_SECRET_SIZE_MIN. now replace (mlen sec <? 136) with false by lia.
  Qed.
  Lemma reset_v_ok : forall s0, x3_kSecret x3 <> 0 ->
    exists s m', reset_v cfg x3 st s0 m = Ok ((XXH_OK, s), m') /\ fed_v cfg default_secret 0 (x3_kSecret x3) st [] s m' /\ only m m' st 512.
  Proof.
    intros s0 Hq. assert (Hz : 136 <= mlen default_secret) by (rewrite default_length; discriminate).
    destruct (reset_internal_v_ok 0 (x3_kSecret x3) default_secret Hz Hq) as (m' & E & A & O).
    { rewrite default_length. lia. }
    eexists _, m'. split; [|split; [apply (fed_v_start default_secret 0 (x3_kSecret x3) m' Hz A (buffer_mapped m' O))|exact O]].
    unfold reset_v. replace (st =? 0) with false by lia. rewrite default_length in E. ok E. reflexivity.
  Qed.
  Lemma reset_seed_v_ok : forall s0 seed, x3_kSecret x3 <> 0 -> here cfg m (x3_kSecret x3) default_secret ->
    apart st 512 (x3_kSecret x3) 192 -> seed < 2 ^ 64 -> x3_kSecret x3 mod 64 = 0 ->
    exists s m', reset_withSeed_v cfg x3 v st seed s0 m = Ok ((XXH_OK, s), m') /\ fed_v cfg (custom_secret seed) seed 0 st [] s m' /\
      here cfg m' (st + 64) (custom_secret seed) /\ only m m' st 512.
  Proof.
    intros s0 seed Hq Hk Hap Hseed Ak. assert (Lc : mlen (custom_secret seed) = 192) by (unfold mlen; now rewrite custom_length).
    assert (Hz : 136 <= mlen (custom_secret seed)) by (rewrite Lc; discriminate).
    destruct (reset_internal_v_ok seed (x3_kSecret x3) (custom_secret seed) Hz Hq) as (m1 & E & A & O); [rewrite Lc; lia|].
    unfold apart in Hap.
    assert (Hk1 : here cfg m1 (x3_kSecret x3) default_secret) by (eapply only_here; [exact O| |exact Hk]; rewrite default_length; clear - Hap; lia).
    assert (M1 : mapped m1 (st + 64) 192).
    { intros i I. replace (st + 64 + N.of_nat i) with (st + N.of_nat (64 + i)) by lia. apply (only_mapped _ _ _ _ _ _ O Hm). lia. }
    destruct (init_v cfg x3 v Hd Fv m1 0 st [] ltac:(intro Z; now destruct Z) acc_aligned ltac:(lia) Hk1 Hq (st + 64) seed M1 ltac:(lia) ltac:(lia) Hseed
      ltac:(clear - Hap; lia) ltac:(right; change (mlen []) with 0; lia) Ak sec_aligned) as (m2 & E2 & B2 & O2).
    assert (O12 : only m m2 st 512) by (eapply only_trans; [exact O|eapply only_weaken; [exact O2|lia|lia]]).
    eexists _, m2. split; [|split; [|split; [split; [exact B2|rewrite Lc; lia]|exact O12]]].
    - unfold reset_withSeed_v. replace (st =? 0) with false by lia. rewrite Lc in E. ok E. unfold customSecret_of.
      rewrite padd_small by lia. ok E2. reflexivity.
    - cbn [s3_acc s3_bufferedSize s3_nbStripesPerBlock s3_nbStripesSoFar s3_secretLimit s3_totalLen s3_seed s3_extSecret].
      rewrite <- Lc. apply fed_v_start; [exact Hz| |exact (buffer_mapped m2 O12)].
      apply (accs_only cfg m1 m2 (st + 64) 192); [exact O2|unfold apart; lia|exact A].
  Qed.
End ResetV.
