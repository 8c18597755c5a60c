(** XXH3 with multiple calls and vector instructions: what a state holds. *)
From Coq Require Import ZArith NArith Arith List Bool Lia Strings.Byte.
From Coq Require Import ZifyN ZifyNat ZifyBool.
From Verif Require Import Bytes CSem Bits Spec NBits CSemFacts OpsFacts FetchFacts CtxMem StreamFacts SelfcheckSpec
  HighwayFacts HighwayCat HighwayCxx HighwaySimd Xxhash XxhashSpec XxhashFacts Xxh3 Xxh3Spec Onto Xxh3Facts Xxh3Secret Xxh3State
  Xxh3Simd Xxh3SimdFacts Xxh3SimdSound Xxh3SimdLong Xxh3SimdEntry Xxh3Stream Xxh3SimdState.
Import ListNotations.
Ltac Zify.zify_post_hook ::= Z.div_mod_to_equations.
Local Open Scope N_scope.

(** ** Two places *)
Lemma only_second : forall m m' a n b k, only m m' b k -> only2 m m' a n b k.
Proof. intros m m' a n b k [H1 H2]. split; [|exact H2]. intros x _ Hx. now apply H1. Qed.
Lemma only2_trans : forall m1 m2 m3 a n b k, only2 m1 m2 a n b k -> only2 m2 m3 a n b k -> only2 m1 m3 a n b k.
Proof. intros m1 m2 m3 a n b k [A1 A2] [B1 B2]. split; [|auto]. intros x Hx Hy. rewrite B1 by assumption. now apply A1. Qed.
Lemma only2_bytes : forall m m' a n b k p l, only2 m m' a n b k -> apart a n p (mlen l) -> apart b k p (mlen l) -> bytes_at m p l -> bytes_at m' p l.
Proof.
  intros m m' a n b k p l [H _] A1 A2 B i c E. assert (I : (i < length l)%nat) by (apply nth_error_Some; rewrite E; discriminate).
  rewrite H; [now apply B|unfold apart, mlen in *; lia|unfold apart, mlen in *; lia].
Qed.
Lemma only2_here : forall cfg m m' a n b k p l, only2 m m' a n b k -> apart a n p (mlen l) -> apart b k p (mlen l) -> here cfg m p l -> here cfg m' p l.
Proof. intros cfg m m' a n b k p l O A1 A2 [B C]. split; [now apply (only2_bytes m m' a n b k)|exact C]. Qed.
Lemma only2_mapped : forall m m' a n b k p j, only2 m m' a n b k -> mapped m p j -> mapped m' p j.
Proof. intros m m' a n b k p j [_ H] M i I. apply H. now apply M. Qed.
Lemma accs_len : forall cfg m a w, accs_at cfg m a w -> mlen (acc_bytes cfg w) = 64 /\ a + 64 < addr_space cfg.
Proof.
  intros cfg m a w [[_ A] [L _]]. assert (E : mlen (acc_bytes cfg w) = 64) by (unfold mlen; rewrite acc_bytes_length, L; reflexivity).
  split; [exact E|]. now rewrite E in A.
Qed.
Lemma accs_only : forall cfg m m' p n a w, only m m' p n -> apart p n a 64 -> accs_at cfg m a w -> accs_at cfg m' a w.
Proof.
  intros cfg m m' p n a w O A H. destruct (accs_len _ _ _ _ H) as [L _]. destruct H as [H1 H2]. split; [|exact H2].
  apply (only_here cfg m m' p n); [exact O| |exact H1]. rewrite L. unfold apart in A. lia.
Qed.

Lemma sub32_le : forall a b, b <= a -> a < 2 ^ 32 -> sub32 a b = a - b.
Proof.
  intros a b L A. change (2 ^ 32) with 4294967296 in A. unfold sub32. rewrite (u32_small a), (u32_small b) by lia.
  rewrite u32_eq. replace (a + W32 - b) with (a - b + 1 * 2 ^ 32) by (change (2 ^ 32) with 4294967296; lia).
  rewrite N.mod_add by discriminate. apply N.mod_small. change (2 ^ 32) with 4294967296. lia.
Qed.

Section StreamV.
  Variable (cfg : config) (x3 : xxh3_build) (v : xxh_vector).
  Hypothesis (Hd : xxh_force_memory_access (x3_xxh x3) <> 2) (Fv : fits cfg v).
  Variables (q : N) (sec : list byte).
  Hypothesis Hz : 136 <= mlen sec.

  Section Acc.
    Variable (a : N).
    Hypothesis (Aa : a mod XXH_ACC_ALIGN v = 0) (Ds : apart_from a q (mlen sec)).
    Lemma from_mem : forall m p l s n w, here cfg m p l -> here cfg m q sec -> apart_from a p (mlen l) -> accs_at cfg m a w ->
      64 * n <= mlen l -> 8 * (s + n) + 56 <= mlen sec ->
      exists m', accumulate_mem cfg (f_accumulate_512 cfg x3 v) a p (q + 8 * s) n m = Ok (tt, m') /\
        accs_at cfg m' a (run sec l s n w) /\ only m m' a 64.
    Proof.
      intros m p l s n w Hl Hs Dm Ha Lj Li. destruct (accs_len _ _ _ _ Ha) as [_ Sa]. unfold accumulate_mem.
      destruct (for_rel (fun k m' => holds cfg m a m' (run sec l s (N.of_nat k) w)) (N.to_nat n)
        (fun n0 _ => f_accumulate_512 cfg x3 v a (padd cfg p (n0 * 64)) (padd cfg (q + 8 * s) (n0 * 8))) m) as (m' & E & P).
      - split; [exact Ha|apply only_refl].
      - intros k m1 L P. replace (N.of_nat (S k)) with (N.of_nat k + 1) by lia. rewrite run_snoc.
        rewrite (at_i cfg m p l (N.of_nat k * 64) Hl), (at_ij cfg m q sec (8 * s) (N.of_nat k * 8) Hs) by lia.
        replace (8 * s + N.of_nat k * 8) with (8 * (s + N.of_nat k)) by lia. rewrite (N.mul_comm (N.of_nat k) 64).
        eapply (stripe_step cfg x3 m p q a l sec (f_accumulate_512 cfg x3 v) (f_scrambleAcc cfg x3 v)); try eassumption; try lia;
          [exact (acc_align8 v a Aa)|intros; now apply variant_stripe|intros; now apply variant_scramble].
      - exists m'. rewrite N2Nat.id in P. split; [exact E|exact P].
    Qed.

    Lemma consume_v_ok : forall m d J p l n, mlen d = 64 * J -> here cfg m p l -> here cfg m q sec -> apart_from a p (mlen l) ->
      accs_at cfg m a (stripes_3 sec d J) -> 64 * n <= mlen l -> n <= period sec ->
      exists m', consumeStripes_v cfg x3 v a (J mod period sec) (period sec) p n q (mlen sec - 64) m = Ok ((J + n) mod period sec, m') /\
        accs_at cfg m' a (stripes_3 sec (d ++ l) (J + n)) /\ only m m' a 64.
    Proof.
      intros m d J p l n D Hl Hs Dm Ha L P. unfold consumeStripes_v.
      assert (PP : 9 <= period sec) by (unfold period; lia). assert (PZ : 8 * period sec <= mlen sec - 64) by (unfold period; lia).
      assert (SL : mlen sec < addr_space cfg) by (destruct Hs; lia). assert (LL : mlen l < addr_space cfg) by (destruct Hl; lia).
      assert (S : J mod period sec < period sec) by (apply N.mod_lt; lia).
      set (s := J mod period sec) in *. assert (Es : s = J mod period sec) by reflexivity. clearbody s. cbv zeta.
      ok (ASSERT_ok cfg x3 (n <=? period sec) m ltac:(intros _; lia)). ok (ASSERT_ok cfg x3 (s <? period sec) m ltac:(intros _; lia)).
      rewrite (psub_small cfg (period sec) s) by lia.
      rewrite (at_i cfg m q sec (s * 8) Hs), (N.mul_comm s 8) by lia.
      destruct (N.leb_spec (period sec - s) n) as [C|C].
      - rewrite (psub_small cfg n) by lia.
        destruct (from_mem m p l s (period sec - s) (stripes_3 sec d J) Hl Hs Dm Ha ltac:(lia) ltac:(lia)) as (m1 & E1 & A1 & O1). ok E1.
        rewrite (at_i cfg m q sec (mlen sec - 64) Hs) by lia.
        assert (Hs1 : here cfg m1 q sec) by (apply (here_only cfg m m1 a 64); [exact O1|exact Ds|exact Hs]).
        destruct (variant_scramble cfg x3 v Hd Fv q a sec Ds Aa m1 _ (mlen sec - 64) Hs1 A1 ltac:(lia)) as (m2 & E2 & B2 & O2). ok E2.
        destruct (accs_len _ _ _ _ A1) as [_ Sa].
        assert (A2 : accs_at cfg m2 a (scramble sec (mlen sec - 64) (run sec l s (period sec - s) (stripes_3 sec d J)))).
        { split; [split; [exact B2|]|apply scramble_small]. unfold mlen. rewrite acc_bytes_length. exact Sa. }
        rewrite Es in A2 at 1. rewrite run_full in A2 by (rewrite <- ?Es; auto; lia).
        set (t := period sec - s) in *. assert (T1 : 1 <= t) by (unfold t; clear - S; lia). assert (Et : J + n = J + t + (n - t)) by (clear - C; lia).
        destruct (cut_at l (64 * t)) as (l1 & l2 & El & L1); [lia|]. subst l. rewrite mlen_app in *.
        assert (E : stripes_3 sec (d ++ l1 ++ l2) (J + t) = stripes_3 sec (d ++ l1) (J + t)).
        { rewrite app_assoc. apply stripes_app. rewrite mlen_app. lia. }
        rewrite E in A2. rewrite (at_i cfg m p (l1 ++ l2) (t * 64) Hl), (N.mul_comm t 64), <- L1 by (rewrite mlen_app; lia).
        assert (O12 : only m m2 a 64) by (eapply only_trans; [exact O1|exact O2]).
        assert (Hl2 : here cfg m2 p (l1 ++ l2)) by (apply (here_only cfg m m2 a 64); [exact O12|rewrite mlen_app; exact Dm|exact Hl]).
        assert (Hs2 : here cfg m2 q sec) by (apply (here_only cfg m m2 a 64); [exact O12|exact Ds|exact Hs]).
        destruct (here_app cfg m2 p l1 l2 Hl2) as [_ H2].
        assert (M0 : (J + t) mod period sec = 0) by (apply (mod_full J s); auto; lia).
        destruct (from_mem m2 (p + mlen l1) l2 0 (n - t) (stripes_3 sec (d ++ l1) (J + t)) H2 Hs2 ltac:(clear - Dm L1; unfold apart_from in *; lia) A2
          ltac:(clear - L L1; lia) ltac:(clear - P PZ Hz; lia)) as (m3 & E3 & A3 & O3).
        rewrite N.mul_0_r, N.add_0_r in E3. ok E3. exists m3. rewrite Et.
        pose proof (run_part sec (d ++ l1) l2 (J + t) (n - t)) as R. rewrite M0 in R. rewrite R in A3 by (rewrite ?mlen_app; clear - D L L1 T1 P PP; lia).
        rewrite <- app_assoc in A3. split; [|split; [exact A3|eapply only_trans; [exact O12|exact O3]]].
        unfold ret. rewrite (mod_next (J + t) 0 (period sec) (n - t) M0) by (clear - T1 P PP; lia). now rewrite N.add_0_l.
      - destruct (from_mem m p l s n (stripes_3 sec d J) Hl Hs Dm Ha ltac:(lia) ltac:(lia)) as (m1 & E1 & A1 & O1). ok E1.
        rewrite Es in A1 at 1. rewrite run_part in A1 by (rewrite <- ?Es; auto; lia). exists m1. split; [|split; assumption].
        rewrite padd_small by lia. rewrite (mod_next J s) by (auto; lia). reflexivity.
    Qed.
  End Acc.

  Variables (seed ext st : N).
  Hypothesis (Hst : st + 512 < addr_space cfg) (Hst0 : st <> 0) (Hsa : st mod XXH_ACC_ALIGN v = 0).
  Hypothesis (Hext : (if ext =? 0 then st + 64 else ext) = q).
  Hypothesis (Hap : apart (st + 256) 256 q (mlen sec)) (Haq : apart_from st q (mlen sec)).
  Let per := period sec.
  Let lim := mlen sec - 64.
  Let frame (m m' : mem) : Prop := only2 m m' st 64 (st + 256) 256.
  Let after (m : mem) (d : list byte) (C : N) : Prop := accs_at cfg m st (stripes_3 sec d (4 * C)).

  Lemma frame_sec : forall m m', frame m m' -> here cfg m q sec -> here cfg m' q sec.
  Proof. intros m m' O H. apply (only2_here cfg m m' st 64 (st + 256) 256); auto. Qed.
  Lemma feed4_v : forall m d C p l, mlen d = 256 * C -> here cfg m p l -> here cfg m q sec -> apart_from st p (mlen l) -> after m d C -> mlen l = 256 ->
    exists m', consumeStripes_v cfg x3 v st ((4 * C) mod per) per p 4 q lim m = Ok ((4 * (C + 1)) mod per, m') /\
      after m' (d ++ l) (C + 1) /\ only m m' st 64.
  Proof.
    intros m d C p l D Hl Hs Dl A L. unfold after, per, lim in *.
    destruct (consume_v_ok st Hsa Haq m d (4 * C) p l 4) as (m' & E & A' & O); auto; try lia; try (unfold period; lia).
    exists m'. replace (4 * (C + 1)) with (4 * C + 4) by lia. auto.
  Qed.

  Let feed4 (y : N * N) : M (N * N) :=
    c <- consumeStripes_v cfg x3 v st (fst y) per (snd y) 4 q lim ;; ret (c, padd cfg (snd y) 256).
  Lemma loop_v : forall fuel m d C l p e, mlen d = 256 * C -> here cfg m p l -> here cfg m q sec -> apart_from st p (mlen l) -> after m d C ->
    256 < mlen l -> e = p + mlen l - 256 -> mlen l / 256 <= N.of_nat fuel ->
    exists k c r m', l = c ++ r /\ mlen c = 256 * k /\ k <> 0 /\ 1 <= mlen r <= 256 /\
      do_while fuel feed4 (fun y => snd y <? e) ((4 * C) mod per, p) m = Ok (((4 * (C + k)) mod per, p + mlen c), m') /\
      after m' (d ++ c) (C + k) /\ only m m' st 64.
  Proof.
    induction fuel as [|fuel IH]; intros m d C l p e D Hl Hs Dl HA L E F; [lia|].
    destruct (cut_at l 256) as (c0 & l' & El & L0); [lia|]. subst l. rewrite mlen_app in *.
    pose proof (here_app cfg m p c0 l' Hl) as [H1 H2]. cbn [do_while].
    assert (D1 : apart_from st p (mlen c0)) by (clear - Dl; unfold apart_from in *; lia).
    destruct (feed4_v m d C p c0 D H1 Hs D1 HA L0) as (m1 & E0 & A1 & O1).
    assert (E1 : feed4 ((4 * C) mod per, p) m = Ok (((4 * (C + 1)) mod per, p + 256), m1)).
    { unfold feed4. cbn [fst snd]. ok E0. unfold ret. rewrite padd_small by (destruct Hl as [_ A]; rewrite mlen_app in A; lia). reflexivity. }
    ok E1. cbn [snd]. destruct (N.ltb_spec (p + 256) e) as [X|X].
    - rewrite L0 in H2. assert (D2 : apart_from st (p + 256) (mlen l')) by (clear - Dl L0; unfold apart_from in *; lia).
      destruct (IH m1 (d ++ c0) (C + 1) l' (p + 256) e) as (k & c & r & m2 & E2 & L2 & K & LR & E3 & A2 & O2); auto; try lia.
      { rewrite mlen_app. lia. }
      { apply (here_only cfg m m1 st 64); [exact O1|exact D2|exact H2]. }
      { apply (here_only cfg m m1 st 64); [exact O1|exact Haq|exact Hs]. }
      subst l'. exists (k + 1), (c0 ++ c), r, m2. split; [now rewrite app_assoc|]. split; [rewrite mlen_app; lia|]. split; [lia|]. split; [exact LR|].
      rewrite app_assoc. replace (C + (k + 1)) with (C + 1 + k) by lia. split; [|split; [exact A2|eapply only_trans; [exact O1|exact O2]]].
      rewrite E3, mlen_app, L0. do 3 f_equal. lia.
    - exists 1, c0, l', m1. split; [reflexivity|]. split; [lia|]. split; [discriminate|]. split; [lia|]. split; [unfold ret; now rewrite L0|].
      split; assumption.
  Qed.

  (** from the first assertion of the update on *)
  Let ender (e len : N) (mk : N -> N -> XXH3_state) (y : N * N) : M (N * XXH3_state) :=
    XXH_ASSERT cfg x3 (snd y <? e) ;;;
    y <- (if padd cfg (snd y) 256 <? e then
            y <- do_while (S (N.to_nat (len / 256))) feed4 (fun y => snd y <? psub cfg e 256) y ;;
            memcpy cfg (psub cfg (padd cfg (padd cfg st 256) 256) 64) (psub cfg (snd y) 64) 64 ;;;
            ret y
          else ret y) ;;
    XXH_ASSERT cfg x3 (snd y <? e) ;;;
    memcpy cfg (padd cfg st 256) (snd y) (psub cfg e (snd y)) ;;;
    ret (XXH_OK, mk (fst y) (u32 (psub cfg e (snd y)))).

  Lemma ender_v : forall m d C l p len mk, mlen d = 256 * C -> here cfg m p l -> here cfg m q sec -> l <> [] -> mlen l <= len ->
    p <> 0 -> p + mlen l + 255 < addr_space cfg -> mapped m (st + 256) 256 -> after m d C ->
    apart st 512 p (mlen l) -> (forall d0 e, d = d0 ++ e -> mlen e = 64 -> bytes_at m (st + 448) e) ->
    exists k c r m', l = c ++ r /\ mlen c = 256 * k /\ 1 <= mlen r <= 256 /\
      ender (p + mlen l) len mk ((4 * C) mod per, p) m = Ok ((XXH_OK, mk ((4 * (C + k)) mod per) (mlen r)), m') /\
      after m' (d ++ c) (C + k) /\
      bytes_at m' (st + 256) r /\ (mlen r < 64 -> forall d0 e, d ++ c = d0 ++ e -> mlen e = 64 -> bytes_at m' (st + 448) e) /\
      frame m m'.
  Proof.
    intros m d C l p len mk D Hl Hs NE LE P A MP HA AP TL. unfold apart in AP.
    assert (LP : mlen l <> 0) by (unfold mlen; destruct l; [contradiction|cbn [length]; lia]).
    assert (X : exists k c r m1, l = c ++ r /\ mlen c = 256 * k /\ 1 <= mlen r <= 256 /\
      (if padd cfg p 256 <? p + mlen l then
            y <- do_while (S (N.to_nat (len / 256))) feed4 (fun y => snd y <? psub cfg (p + mlen l) 256) ((4 * C) mod per, p) ;;
            memcpy cfg (psub cfg (padd cfg (padd cfg st 256) 256) 64) (psub cfg (snd y) 64) 64 ;;;
            ret y
          else ret ((4 * C) mod per, p)) m = Ok (((4 * (C + k)) mod per, p + mlen c), m1) /\
      after m1 (d ++ c) (C + k) /\
      (forall d0 e, d ++ c = d0 ++ e -> mlen e = 64 -> bytes_at m1 (st + 448) e) /\ frame m m1).
    { rewrite (padd_small cfg p) by lia. destruct (N.ltb_spec (p + 256) (p + mlen l)) as [X|X].
      - rewrite (psub_small cfg (p + mlen l)) by lia.
        destruct (loop_v (S (N.to_nat (len / 256))) m d C l p (p + mlen l - 256) D Hl Hs) as (k & c & r & m0 & E & LC & K & LR & E2 & A0 & O0); try lia; auto.
        { clear - AP. unfold apart_from. lia. }
        subst l. rewrite mlen_app in *. ok E2. cbn [snd].
        destruct (cut_at c (mlen c - 64)) as (c1 & e1 & Ec & L1); [lia|]. assert (Le1 : mlen e1 = 64) by (assert (mlen c = mlen c1 + mlen e1) by (rewrite Ec at 1; apply mlen_app); lia).
        assert (Hl0' : here cfg m0 p (c ++ r)) by (apply (here_only cfg m m0 st 64); [exact O0|rewrite mlen_app; clear - AP; lia|exact Hl]).
        destruct (here_app _ _ _ _ _ Hl0') as [Hc _]. rewrite Ec in Hc. destruct (here_app _ _ _ _ _ Hc) as [_ He]. rewrite L1 in He.
        rewrite (padd_small cfg st), (padd_small cfg (st + 256)), (psub_small cfg (st + 256 + 256)), (psub_small cfg (p + mlen c)) by lia.
        replace (st + 256 + 256 - 64) with (st + 448) by lia. replace (p + mlen c - 64) with (p + (mlen c - 64)) by lia.
        assert (MC : memcpy cfg (st + 448) (p + (mlen c - 64)) 64 m0 = Ok (tt, write m0 (st + 448) e1)).
        { pose proof (memcpy_ok cfg m0 (st + 448) (p + (mlen c - 64)) e1) as MK. rewrite Le1 in MK.
          apply MK; [lia|lia|exact (proj1 He)| |right; lia].
          intros i I. replace (st + 448 + N.of_nat i) with (st + 256 + N.of_nat (192 + i)) by lia. apply (only_mapped _ _ _ _ _ _ O0 MP). unfold mlen in Le1. lia. }
        ok MC. assert (O : only m0 (write m0 (st + 448) e1) (st + 448) 64) by (now apply only_write).
        pose proof (write_bytes_at m0 (st + 448) e1) as WB. set (m1 := write m0 (st + 448) e1) in *. clearbody m1.
        exists k, c, r, m1. split; [reflexivity|]. split; [exact LC|]. split; [exact LR|]. split; [reflexivity|]. split; [|split].
        + apply (accs_only cfg m0 m1 (st + 448) 64); [exact O|unfold apart; lia|exact A0].
        + intros d0 e Ed Le. assert (e = e1) as ->; [|exact WB]. rewrite Ec in Ed. rewrite app_assoc in Ed.
          symmetry in Ed. apply (tail_eq _ _ _ _ Ed). unfold mlen in *. lia.
        + apply (only2_trans m m0 m1); [now apply only_first|]. apply only_second. eapply only_weaken; [exact O|lia|lia].
      - exists 0, [], l, m. split; [reflexivity|]. split; [reflexivity|]. split; [lia|].
        rewrite app_nil_r. change (mlen []) with 0. rewrite !N.add_0_r. split; [reflexivity|]. split; [exact HA|]. split; [exact TL|apply only2_refl]. }
    destruct X as (k & c & r & m1 & E & LC & LR & EX & A1 & T1 & O1). exists k, c, r.
    subst l. rewrite mlen_app in *.
    destruct (here_app _ _ _ _ _ Hl) as [_ Hr].
    assert (MC : memcpy cfg (st + 256) (p + mlen c) (mlen r) m1 = Ok (tt, write m1 (st + 256) r)).
    { apply memcpy_ok; [lia|lia| | |right; lia].
      - eapply only2_bytes; [exact O1| | |exact (proj1 Hr)]; unfold apart; clear - AP; lia.
      - intros i I. apply (only2_mapped _ _ _ _ _ _ _ _ O1 MP). unfold mlen in LR. lia. }
    assert (O : only m1 (write m1 (st + 256) r) (st + 256) (mlen r)) by (now apply only_write).
    pose proof (write_bytes_at m1 (st + 256) r) as WB. set (m2 := write m1 (st + 256) r) in *. clearbody m2.
    exists m2. split; [reflexivity|]. split; [exact LC|]. split; [exact LR|]. split.
    { unfold ender. cbn [snd fst]. ok (ASSERT_ok cfg x3 (p <? p + (mlen c + mlen r)) m ltac:(intros _; lia)). ok EX. cbn [snd fst].
      ok (ASSERT_ok cfg x3 (p + mlen c <? p + (mlen c + mlen r)) m1 ltac:(intros _; lia)). rewrite (padd_small cfg st), psub_small by lia.
      replace (p + (mlen c + mlen r) - (p + mlen c)) with (mlen r) by lia. ok MC. unfold ret. rewrite u32_small by lia. reflexivity. }
    split; [apply (accs_only cfg m1 m2 (st + 256) (mlen r)); [exact O|unfold apart; lia|exact A1]|].
    split; [exact WB|]. split.
    - intros L64 d0 e Ed Le. apply (only_bytes _ _ _ _ _ _ O); [lia|]. exact (T1 d0 e Ed Le).
    - eapply only2_trans; [exact O1|]. apply only_second. eapply only_weaken; [exact O|lia|lia].
  Qed.

  (** the state [s] at [st] has been fed [msg] *)
  Definition fed_v (msg : list byte) (s : XXH3_state) (m : mem) : Prop :=
    exists C d t, msg = d ++ t /\ mlen d = 256 * C /\ mlen t <= 256 /\ (t = [] -> d = []) /\
      s = S3 [] (mlen t) (period sec) ((4 * C) mod period sec) (mlen sec - 64) (mlen msg) seed ext /\
      accs_at cfg m st (stripes_3 sec d (4 * C)) /\
      bytes_at m (st + 256) t /\ (mlen t < 64 -> forall d0 e, d = d0 ++ e -> mlen e = 64 -> bytes_at m (st + 448) e) /\
      mapped m (st + 256) 256.

  Lemma secret_v : forall s, s3_extSecret s = ext -> secret_of cfg st s = q.
  Proof. intros s E. unfold secret_of, customSecret_of. rewrite E, padd_small by lia. exact Hext. Qed.

  Lemma update_v_ok : forall msg s m p l, fed_v msg s m -> here cfg m p l -> here cfg m q sec -> p <> 0 ->
    p + mlen l + 255 < addr_space cfg -> apart st 512 p (mlen l) -> mlen (msg ++ l) < 2 ^ 64 ->
    exists s' m', update_v cfg x3 v st p (mlen l) s m = Ok ((XXH_OK, s'), m') /\ fed_v (msg ++ l) s' m' /\ frame m m'.
  Proof.
    intros msg s m p l (C & d & t & Em & D & LT & NE & Es & HA & BT & TL & MP) Hl Hs P A AP T64.
    unfold update_v. replace (p =? 0) with false by lia. rewrite Es. rewrite secret_v by reflexivity.
    cbn [s3_acc s3_bufferedSize s3_nbStripesPerBlock s3_nbStripesSoFar s3_secretLimit s3_totalLen s3_seed s3_extSecret].
    unfold buffer_of, XXH3_INTERNALBUFFER_SIZE, XXH3_INTERNALBUFFER_STRIPES. cbv zeta.
    assert (TT : add64 (mlen msg) (mlen l) = mlen (msg ++ l)).
    { unfold add64. rewrite mlen_app in *. rewrite u64_eq. apply N.mod_small. exact T64. }
    rewrite TT. unfold apart in AP. pose proof Hl as [Hlb Hla].
    rewrite (padd_small cfg p (mlen l)), (padd_small cfg (mlen t)), (padd_small cfg st) by lia.
    destruct (N.leb_spec (mlen t + mlen l) 256) as [X|X].
    - rewrite (padd_small cfg (st + 256)) by lia.
      assert (MC : memcpy cfg (st + 256 + mlen t) p (mlen l) m = Ok (tt, write m (st + 256 + mlen t) l)).
      { apply memcpy_ok; [lia|exact P|exact Hlb| |right; lia].
        intros i I. replace (st + 256 + mlen t + N.of_nat i) with (st + 256 + N.of_nat (length t + i)) by (unfold mlen; lia).
        apply MP. unfold mlen in X. lia. }
      ok MC. assert (O : only m (write m (st + 256 + mlen t) l) (st + 256 + mlen t) (mlen l)) by (now apply only_write).
      pose proof (write_bytes_at m (st + 256 + mlen t) l) as WB. set (m1 := write m (st + 256 + mlen t) l) in *. clearbody m1.
      assert (O' : only m m1 (st + 256) 256) by (eapply only_weaken; [exact O|lia|lia]).
      eexists _, m1. split; [unfold ret; reflexivity|]. split; [|now apply only_second].
      exists C, d, (t ++ l). split; [subst msg; now rewrite app_assoc|]. split; [exact D|]. split; [rewrite mlen_app; exact X|].
      split. { intro Z. apply app_eq_nil in Z. destruct Z as [Z _]. now apply NE. }
      split. { unfold add32. rewrite !u32_small by (rewrite ?u32_small; lia). now rewrite (mlen_app t l). }
      split. { apply (accs_only cfg m m1 (st + 256) 256); [exact O'|unfold apart; lia|exact HA]. }
      split. { apply bytes_at_app. split; [|exact WB]. eapply only_bytes; [exact O| |exact BT]. lia. }
      split; [|eapply only_mapped; [exact O'|exact MP]].
      intros L64 d0 e Ed Le. rewrite mlen_app in L64. eapply only_bytes; [exact O| |refine (TL _ d0 e Ed Le); lia]. lia.
    - destruct (N.eqb_spec (mlen t) 0) as [Z|Z]; cbn [negb].
      + assert (t = []) as -> by (destruct t; [reflexivity|discriminate Z]). specialize (NE eq_refl). subst d. cbn [app] in Em. subst msg.
        rewrite bind_ret. change (mlen []) with 0 in D. assert (C = 0) as -> by lia.
        destruct (ender_v m [] 0 l p (mlen l) (fun soFar b => S3 [] b per soFar lim (mlen ([] ++ l)) seed ext)) as (k & c & r & m' & El & LC & LR & E & A2 & WB & T2 & O); auto.
        { intro El. subst l. cbn in X. lia. }
        { lia. }
        { intros d0 e Ed Le. symmetry in Ed. apply app_eq_nil in Ed. destruct Ed as [_ ->]. discriminate Le. }
        unfold ender in E. rewrite !(padd_small cfg st 256) in E by lia. eexists _, m'. split; [exact E|]. split; [|exact O].
        exists k, c, r. split; [exact El|]. split; [exact LC|]. split; [lia|]. split; [intro; subst r; cbn in LR; lia|].
        split; [reflexivity|]. split; [exact A2|]. split; [exact WB|]. split; [exact T2|eapply only2_mapped; [exact O|exact MP]].
      + (* the buffer gets full *)
        assert (SB : sub32 256 (mlen t) = 256 - mlen t).
        { apply sub32_le; [lia|]. change (2 ^ 32) with 4294967296. lia. }
        rewrite SB. destruct (cut_at l (256 - mlen t)) as (l1 & l2 & El & L1); [lia|]. subst l. rewrite mlen_app in *.
        destruct (here_app _ _ _ _ _ Hl) as [H1 H2].
        rewrite (padd_small cfg (st + 256)) by lia.
        assert (MC : memcpy cfg (st + 256 + mlen t) p (256 - mlen t) m = Ok (tt, write m (st + 256 + mlen t) l1)).
        { rewrite <- L1. apply memcpy_ok; [lia|exact P|exact (proj1 H1)| |right; lia].
          intros i I. replace (st + 256 + mlen t + N.of_nat i) with (st + 256 + N.of_nat (length t + i)) by (unfold mlen; lia).
          apply MP. unfold mlen in L1. unfold mlen in LT. lia. }
        rewrite bind_assoc. ok MC. assert (O1 : only m (write m (st + 256 + mlen t) l1) (st + 256 + mlen t) (mlen l1)) by (now apply only_write).
        pose proof (write_bytes_at m (st + 256 + mlen t) l1) as WB1. set (m1 := write m (st + 256 + mlen t) l1) in *. clearbody m1.
        assert (O1' : only m m1 (st + 256) 256) by (eapply only_weaken; [exact O1|lia|lia]).
        assert (HB : here cfg m1 (st + 256) (t ++ l1)).
        { split; [|rewrite mlen_app; lia]. apply bytes_at_app. split; [|exact WB1]. eapply only_bytes; [exact O1| |exact BT]. lia. }
        assert (LB : mlen (t ++ l1) = 256) by (rewrite mlen_app; lia).
        assert (Hs1 : here cfg m1 q sec) by (eapply only_here; [exact O1'|clear - Hap; unfold apart in Hap; lia|exact Hs]).
        assert (HA1 : after m1 d C) by (apply (accs_only cfg m m1 (st + 256) 256); [exact O1'|unfold apart; lia|exact HA]).
        destruct (feed4_v m1 d C (st + 256) (t ++ l1) D HB Hs1 ltac:(unfold apart_from; lia) HA1 LB) as (m2 & EF & HA2 & O2).
        unfold per, lim in EF. rewrite bind_assoc. ok EF. rewrite bind_ret. rewrite (padd_small cfg p) by lia.
        assert (F2 : frame m m2) by (apply (only2_trans m m1 m2); [now apply only_second|now apply only_first]).
        assert (Hl2 : here cfg m2 (p + mlen l1) l2) by (apply (only2_here cfg m m2 st 64 (st + 256) 256); [exact F2|clear - AP; unfold apart; lia|clear - AP; unfold apart; lia|exact H2]).
        destruct (ender_v m2 (d ++ t ++ l1) (C + 1) l2 (p + mlen l1) (mlen l1 + mlen l2) (fun soFar b => S3 [] b per soFar lim (mlen (msg ++ l1 ++ l2)) seed ext))
          as (k & c & r & m' & El & LC & LR & E & A2 & WB & T2 & O); auto.
        { rewrite mlen_app, LB. lia. }
        { exact (frame_sec m m2 F2 Hs). }
        { intro El. subst l2. change (mlen []) with 0 in X. lia. }
        { lia. }
        { lia. }
        { lia. }
        { eapply only2_mapped; [exact F2|exact MP]. }
        { clear - AP. unfold apart. lia. }
        { intros d0 e Ed Le. destruct (cut_at (t ++ l1) 192) as (x & y & Ex & Lx); [lia|].
          assert (Ly : mlen y = 64) by (rewrite Ex, mlen_app in LB; lia).
          rewrite Ex, app_assoc in Ed. symmetry in Ed. apply tail_eq in Ed; [|unfold mlen in *; lia]. subst e.
          destruct HB as [HB _]. rewrite Ex in HB. apply bytes_at_app in HB. destruct HB as [_ HB].
          replace (st + 448) with (st + 256 + N.of_nat (length x)) by (unfold mlen in Lx; lia).
          eapply only_bytes; [exact O2| |exact HB]. clear; lia. }
        unfold ender in E. rewrite !(padd_small cfg st 256) in E by lia. replace (p + (mlen l1 + mlen l2)) with (p + mlen l1 + mlen l2) by lia. rewrite <- L1.
        eexists _, m'. split; [exact E|]. split; [|eapply only2_trans; [exact F2|exact O]].
        exists (C + 1 + k), (d ++ (t ++ l1) ++ c), r. subst msg l2. split; [now rewrite !app_assoc|].
        split; [rewrite !mlen_app, LC in *; lia|]. split; [lia|]. split; [intro; subst r; cbn in LR; lia|].
        split; [rewrite !app_assoc; reflexivity|]. split; [unfold after in A2; rewrite <- !app_assoc in A2; rewrite <- !app_assoc; exact A2|].
        split; [exact WB|]. split; [|eapply only2_mapped; [exact O|eapply only2_mapped; [exact F2|exact MP]]].
        intros L64 d0 e Ed Le. apply (T2 L64 d0 e); [|exact Le]. rewrite <- Ed. now rewrite !app_assoc.
  Qed.
End StreamV.
