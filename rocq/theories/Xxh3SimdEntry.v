(** The vector variants of XXH3: long keys, and the functions of the library. *)
From Coq Require Import ZArith NArith Arith List Bool Lia Strings.Byte.
From Coq Require Import ZifyN ZifyNat ZifyBool.
From Verif Require Import Bytes CSem Bits Spec NBits CSemFacts OpsFacts FetchFacts CtxMem StreamFacts HighwayFacts
  Xxhash XxhashSpec XxhashFacts Xxh3 Xxh3Spec Onto HighwayCat HighwayCxx HighwaySimd Xxh3Facts Xxh3Secret
  Xxh3Simd Xxh3SimdFacts Xxh3SimdSound Xxh3SimdLong.
Import ListNotations.
Ltac Zify.zify_post_hook ::= Z.div_mod_to_equations.
Local Open Scope N_scope.

Lemma stripe_small : forall sec i msg j v, small_lanes (stripe_3 sec i msg j v).
Proof. intros. split; [reflexivity|apply stripe_lt]. Qed.
Lemma scramble_small : forall sec i v, small_lanes (scramble sec i v).
Proof.
  intros. split; [reflexivity|]. unfold scramble, each. apply Forall_forall. intros x H. apply in_map_iff in H.
  destruct H as (k & <- & _). apply mulw_lt64.
Qed.

Section Loop.
  Variable (cfg : config) (x3 : xxh3_build) (m : mem) (p q a : N) (msg sec : list byte).
  Variables (f_acc512 : N -> N -> N -> M unit) (f_scr : N -> N -> M unit).
  Hypothesis (Hm : here cfg m p msg) (Hs : here cfg m q sec) (Hz : 136 <= mlen sec).
  Hypothesis (Dm : apart_from a p (mlen msg)) (Ds : apart_from a q (mlen sec)).
  Hypothesis (Ma : mapped m a 64) (Sa : a + 64 < addr_space cfg) (Aa : a mod 8 = 0).
  Hypothesis Facc : forall m v i j, here cfg m p msg -> here cfg m q sec -> accs_at cfg m a v -> j + 64 <= mlen msg -> i + 64 <= mlen sec ->
    turns cfg (f_acc512 a (p + j) (q + i)) m a (stripe_3 sec i msg j v).
  Hypothesis Fscr : forall m v i, here cfg m q sec -> accs_at cfg m a v -> i + 64 <= mlen sec ->
    turns cfg (f_scr a (q + i)) m a (scramble sec i v).
  Hypothesis Hd : xxh_force_memory_access (x3_xxh x3) <> 2.
  Let len := mlen msg.

  (** the array holds [v], and nothing else has changed *)
  Definition holds (m' : mem) (v : list N) : Prop := accs_at cfg m' a v /\ only m m' a 64.
  Lemma turned : forall f m' v, holds m' v -> forall v', small_lanes v' -> turns cfg f m' a v' ->
    exists m'', f m' = Ok (tt, m'') /\ holds m'' v'.
  Proof.
    intros f m' v [P O] v' SV (m'' & E & B & O2). exists m''. split; [exact E|]. split; [|apply (only_trans _ m'); assumption].
    split; [|exact SV]. split; [exact B|]. unfold mlen. rewrite acc_bytes_length, (proj1 SV). lia.
  Qed.
  Lemma stripe_step : forall m' v i j, holds m' v -> j + 64 <= len -> i + 64 <= mlen sec ->
    exists m'', f_acc512 a (p + j) (q + i) m' = Ok (tt, m'') /\ holds m'' (stripe_3 sec i msg j v).
  Proof.
    intros m' v i j H Lj Li. apply (turned _ m' v H _ (stripe_small _ _ _ _ _)). destruct H as [P O].
    apply Facc; [exact (here_only _ _ _ _ _ _ _ O Dm Hm)|exact (here_only _ _ _ _ _ _ _ O Ds Hs)|exact P|exact Lj|exact Li].
  Qed.
  Lemma scramble_step : forall m' v i, holds m' v -> i + 64 <= mlen sec ->
    exists m'', f_scr a (q + i) m' = Ok (tt, m'') /\ holds m'' (scramble sec i v).
  Proof.
    intros m' v i H Li. apply (turned _ m' v H _ (scramble_small _ _ _)). destruct H as [P O].
    apply Fscr; [exact (here_only _ _ _ _ _ _ _ O Ds Hs)|exact P|exact Li].
  Qed.
  Lemma accumulate_step : forall k0 n m' v, holds m' v -> 64 * (k0 + n) <= len -> 8 * n + 56 <= mlen sec ->
    exists m'', accumulate_mem cfg f_acc512 a (p + 64 * k0) q n m' = Ok (tt, m'') /\
      holds m'' (fold_left (fun v k => stripe_3 sec (8 * k) msg (64 * (k0 + k)) v) (below_n n) v).
  Proof.
    intros k0 n m' v H Hj Hi. unfold accumulate_mem.
    destruct (for_rel (fun k m'' => holds m'' (fold_left (fun v k => stripe_3 sec (8 * k) msg (64 * (k0 + k)) v) (below_n (N.of_nat k)) v))
      (N.to_nat n) (fun n0 _ => f_acc512 a (padd cfg (p + 64 * k0) (n0 * 64)) (padd cfg q (n0 * 8))) m' H) as (m'' & E & P).
    - intros k m1 L P. rewrite below_S, fold_left_app. cbn [fold_left].
      rewrite (at_ij cfg m p msg (64 * k0) (N.of_nat k * 64) Hm), (at_i cfg m q sec (N.of_nat k * 8) Hs) by (fold len; lia).
      replace (64 * k0 + N.of_nat k * 64) with (64 * (k0 + N.of_nat k)) by lia. rewrite (N.mul_comm (N.of_nat k) 8).
      apply stripe_step; [exact P|lia|lia].
    - exists m''. split; [exact E|]. now rewrite N2Nat.id in P.
  Qed.

  Lemma init_ok : exists m', init_accs cfg a m = Ok (tt, m') /\ holds m' begin_3.
  Proof.
    destruct (chunks_loop 8 8 (fun i => native cfg 8 (nth i begin_3 0))
      (fun i _ => assign64 cfg (padd cfg a (8 * i)) (acc_get XXH3_INIT_ACC i)) m a) as (m' & E & B & O).
    - intros; apply native_len.
    - intros i m' L O. replace (N.of_nat (8 * i)) with (8 * N.of_nat i) in * by lia. rewrite padd_small by lia.
      unfold assign64. rewrite (aligned_lane cfg a (N.of_nat i) Aa). cbn [N.eqb].
      assert (Mp : mapped m' (a + 8 * N.of_nat i) 8).
      { apply (only_mapped _ _ _ _ _ _ O). intros x Hx. replace (a + 8 * N.of_nat i + N.of_nat x) with (a + N.of_nat (8 * i + x)) by lia. apply Ma. lia. }
      rewrite (store_uint_ok cfg m' _ 8 _ Mp). unfold acc_get. rewrite Nat2N.id. fold (native cfg 8 (nth i XXH3_INIT_ACC 0)).
      eexists. split; [reflexivity|]. split; [apply write_bytes_at|]. apply only_write. unfold mlen. now rewrite native_len.
    - exists m'. split; [exact E|]. split; [|exact O]. split; [|split; [reflexivity|repeat constructor]].
      split; [exact B|]. unfold mlen. rewrite acc_bytes_length. exact Sa.
  Qed.
  Lemma read_ok : forall m' v, holds m' v -> read_accs cfg a m' = Ok (v, m').
  Proof.
    intros m' v [P _]. unfold read_accs. rewrite (for_loop_fold _ (fun l i => l ++ [lane v i])).
    - do 2 f_equal. destruct (eight _ v (proj1 (proj2 P))) as (x0 & x1 & x2 & x3' & x4 & x5 & x6 & x7 & ->). reflexivity.
    - intros k b L. ok (lane_read cfg m' a v P Aa k L). reflexivity.
  Qed.

  Lemma loop_ok : 64 < len -> forall m0, holds m0 begin_3 ->
    exists m', internal_loop_mem cfg x3 f_acc512 f_scr a p len q (mlen sec) m0 = Ok (tt, m') /\ holds m' (long_3 sec msg).
  Proof.
    intros L m0 H0. unfold internal_loop_mem. pose proof (per_pos x3 Hd msg sec Hz) as PP.
    assert (Ls : mlen sec < addr_space cfg) by (destruct Hs; lia).
    assert (La : len < addr_space cfg) by (destruct Hm as [_ A]; fold len in A; lia).
    rewrite (psub_small cfg (mlen sec) 64), (psub_small cfg len 1) by lia. fold (period sec).
    replace (period sec =? 0) with false by lia. cbv zeta.
    set (B := (len - 1) / (64 * period sec)).
    assert (EB : (len - 1) / 64 / period sec = B) by (unfold B; rewrite N.div_div by lia; reflexivity).
    pose proof (N.div_mod ((len - 1) / 64) (period sec) ltac:(lia)) as ED.
    pose proof (N.mod_lt ((len - 1) / 64) (period sec) ltac:(lia)) as EL. rewrite EB in ED.
    set (r := ((len - 1) / 64) mod period sec) in *. set (P := period sec) in *.
    assert (HP : 8 * P + 64 <= mlen sec) by (unfold P, period; lia).
    assert (HB : P * B <= (len - 1) / 64) by lia.
    unfold XXH3_SECRET_SIZE_MIN. ok (ASSERT_ok cfg x3 (136 <=? mlen sec) m0 ltac:(intros _; lia)).
    set (body := fun (n : N) (_ : unit) => _).
    assert (E : exists m1, for_loop (N.to_nat B) 0 body tt m0 = Ok (tt, m1) /\ holds m1 (stripes_3 sec msg (B * P))).
    { destruct (for_rel (fun k m1 => holds m1 (stripes_3 sec msg (N.of_nat k * P))) (N.to_nat B) body m0 H0) as (m1 & E & H1).
      - intros k m1 Lk H1. unfold body. set (n := N.of_nat k) in *.
        assert (Hk : 64 * (n * P + P) <= len).
        { assert (P * (n + 1) <= P * B) by (apply N.mul_le_mono_l; unfold n; lia). lia. }
        rewrite (at_i cfg m p msg (n * (64 * P)) Hm) by (fold len; lia).
        replace (n * (64 * P)) with (64 * (n * P)) by lia.
        destruct (accumulate_step (n * P) P m1 _ H1 ltac:(lia) ltac:(lia)) as (m2 & E2 & H2). ok E2.
        rewrite (back_i cfg m q sec (mlen sec) 64 Hs) by lia.
        destruct (scramble_step m2 _ (mlen sec - 64) H2 ltac:(lia)) as (m3 & E3 & H3). exists m3. split; [exact E3|].
        unfold P in H3. rewrite (block_eq x3 Hd msg sec Hz n) in H3. replace (N.of_nat (S k)) with (n + 1) by (unfold n; lia). exact H3.
      - exists m1. split; [exact E|]. now rewrite N2Nat.id in H1. }
    destruct E as (m1 & E & H1). ok E. clear E body. ok (ASSERT_ok cfg x3 (64 <? len) m1 ltac:(intros _; lia)).
    assert (F0 : (len - 1 - 64 * P * B) / 64 = r).
    { rewrite <- N.mul_assoc. clear - ED HB. generalize dependent (P * B). intros t ED HB. lia. }
    assert (F1 : 64 * (B * P + r) <= len /\ 64 * (B * P) <= len).
    { rewrite (N.mul_comm B P). clear - ED L. generalize dependent (P * B). intros t ED. lia. }
    assert (F2 : 8 * r + 56 <= mlen sec) by (clear - HP EL; lia).
    rewrite F0. ok (ASSERT_ok cfg x3 (r <=? mlen sec / 8) m1 ltac:(intros _; clear - F2; lia)).
    replace (B * (64 * P)) with (64 * (B * P)) by (clear; lia). rewrite (at_i cfg m p msg (64 * (B * P)) Hm) by apply F1.
    destruct (accumulate_step (B * P) r m1 _ H1 (proj1 F1) F2) as (m2 & E2 & H2). ok E2.
    unfold P at 1 2 in H2. rewrite (part_eq x3 Hd msg sec Hz) in H2 by (fold P; clear - EL; lia). fold P in H2.
    assert (Aq : q + mlen sec < addr_space cfg) by (destruct Hs; assumption).
    clear HP HB EL EB F0 F1 F2 PP.
    rewrite (back_i cfg m p msg len 64 Hm) by (fold len; clear - L; lia).
    rewrite (back_i cfg m q sec (mlen sec) 64 Hs) by (clear - Hz; lia).
    rewrite (psub_small cfg (q + (mlen sec - 64)) 7) by (clear - Hz Aq; lia).
    replace (q + (mlen sec - 64) - 7) with (q + (mlen sec - 71)) by (clear - Hz; lia).
    destruct (stripe_step m2 _ (mlen sec - 71) (len - 64) H2 ltac:(clear - L; lia) ltac:(clear - Hz; lia)) as (m3 & E3 & H3).
    exists m3. split; [exact E3|]. unfold long_3. fold len. rewrite ED. rewrite (N.mul_comm P B). exact H3.
  Qed.

  Lemma long64_ok : 64 < len -> exists m',
    hashLong_64b_mem cfg x3 f_acc512 f_scr a p len q (mlen sec) m = Ok (merge_3 sec 11 (long_3 sec msg) (mulw len B1), m') /\ only m m' a 64.
  Proof.
    intro L. unfold hashLong_64b_mem. destruct init_ok as (m0 & E0 & H0). ok E0.
    destruct (loop_ok L m0 H0) as (m1 & E1 & H1). ok E1. ok (ASSERT_ok cfg x3 (64 + 11 <=? mlen sec) m1 ltac:(intros _; lia)).
    ok (read_ok m1 _ H1). rewrite (at_i cfg m q sec 11 Hs) by lia.
    exists m1. split; [|exact (proj2 H1)].
    apply (merge_at cfg x3 Hd m1 q msg sec (here_only _ _ _ _ _ _ _ (proj2 H1) Ds Hs) Hz); [reflexivity|apply stripe_lt|lia].
  Qed.
  Lemma long128_ok : 64 < len -> exists m',
    hashLong_128b_mem cfg x3 f_acc512 f_scr a p len q (mlen sec) m =
    Ok ((merge_3 sec 11 (long_3 sec msg) (mulw len B1), merge_3 sec (mlen sec - 75) (long_3 sec msg) (compl (mulw len B2))), m') /\ only m m' a 64.
  Proof.
    intro L. unfold hashLong_128b_mem. destruct init_ok as (m0 & E0 & H0). ok E0.
    destruct (loop_ok L m0 H0) as (m1 & E1 & H1). ok E1. ok (ASSERT_ok cfg x3 (64 + 11 <=? mlen sec) m1 ltac:(intros _; lia)).
    ok (read_ok m1 _ H1). rewrite (at_i cfg m q sec 11 Hs) by lia.
    pose proof (merge_at cfg x3 Hd m1 q msg sec (here_only _ _ _ _ _ _ _ (proj2 H1) Ds Hs) Hz) as MA.
    exists m1. split; [|exact (proj2 H1)].
    ok (MA 11 (long_3 sec msg) (mul64 len XXH_PRIME64_1) eq_refl (stripe_lt _ _ _ _ _) ltac:(lia)).
    rewrite (back_i cfg m q sec (mlen sec) 64 Hs) by lia.
    rewrite (psub_small cfg (q + (mlen sec - 64)) 11) by (destruct Hs; lia).
    replace (q + (mlen sec - 64) - 11) with (q + (mlen sec - 75)) by lia.
    ok (MA (mlen sec - 75) (long_3 sec msg) (not64 (mul64 len XXH_PRIME64_2)) eq_refl (stripe_lt _ _ _ _ _) ltac:(lia)).
    unfold ret. rewrite not64_eq. reflexivity.
  Qed.
End Loop.

(** the byte order a variant is made for *)
Definition fits (cfg : config) (v : xxh_vector) : Prop :=
  match v with XXH_SCALAR | XXH_VSX => True | _ => big_endian cfg = false end.
Lemma acc_align8 : forall v a, a mod XXH_ACC_ALIGN v = 0 -> a mod 8 = 0.
Proof. intros v a H. destruct v; cbn [XXH_ACC_ALIGN] in H; lia. Qed.

Section Variant.
  Variable (cfg : config) (x3 : xxh3_build) (v : xxh_vector).
  Hypothesis (Hd : xxh_force_memory_access (x3_xxh x3) <> 2) (Fv : fits cfg v).
  Variables (p q a : N) (msg sec : list byte).
  Hypothesis (Dm : apart_from a p (mlen msg)) (Ds : apart_from a q (mlen sec)) (Aa : a mod XXH_ACC_ALIGN v = 0).
  Lemma variant_stripe : forall m w i j, here cfg m p msg -> here cfg m q sec -> accs_at cfg m a w -> j + 64 <= mlen msg -> i + 64 <= mlen sec ->
    turns cfg (f_accumulate_512 cfg x3 v a (p + j) (q + i)) m a (stripe_3 sec i msg j w).
  Proof.
    intros m w i j Hm Hs Ha Lj Li. destruct v; cbn [fits XXH_ACC_ALIGN f_accumulate_512] in *.
    - now apply scalar_stripe_ok.
    - now apply sse2_stripe_ok.
    - now apply avx2_stripe_ok.
    - now apply avx512_stripe_ok.
    - now apply neon_stripe_ok.
    - now apply vsx_stripe_ok.
  Qed.
  Lemma variant_scramble : forall m w i, here cfg m q sec -> accs_at cfg m a w -> i + 64 <= mlen sec ->
    turns cfg (f_scrambleAcc cfg x3 v a (q + i)) m a (scramble sec i w).
  Proof.
    intros m w i Hs Ha Li. destruct v; cbn [fits XXH_ACC_ALIGN f_scrambleAcc] in *.
    - now apply scalar_scramble_ok.
    - now apply sse2_scramble_ok.
    - now apply avx2_scramble_ok.
    - now apply avx512_scramble_ok.
    - now apply neon_scramble_ok.
    - now apply vsx_scramble_ok.
  Qed.

  Variable (m : mem).
  Hypothesis (Hm : here cfg m p msg) (Hs : here cfg m q sec) (Hz : 136 <= mlen sec) (Ma : mapped m a 64) (Sa : a + 64 < addr_space cfg).
  Lemma variant_long64 : 64 < mlen msg -> exists m',
    hashLong_64b_mem cfg x3 (f_accumulate_512 cfg x3 v) (f_scrambleAcc cfg x3 v) a p (mlen msg) q (mlen sec) m =
    Ok (merge_3 sec 11 (long_3 sec msg) (mulw (mlen msg) B1), m') /\ only m m' a 64.
  Proof.
    exact (long64_ok cfg x3 m p q a msg sec _ _ Hm Hs Hz Dm Ds Ma Sa (acc_align8 v a Aa) variant_stripe variant_scramble Hd).
  Qed.
  Lemma variant_long128 : 64 < mlen msg -> exists m',
    hashLong_128b_mem cfg x3 (f_accumulate_512 cfg x3 v) (f_scrambleAcc cfg x3 v) a p (mlen msg) q (mlen sec) m =
    Ok ((merge_3 sec 11 (long_3 sec msg) (mulw (mlen msg) B1), merge_3 sec (mlen sec - 75) (long_3 sec msg) (compl (mulw (mlen msg) B2))), m') /\
    only m m' a 64.
  Proof.
    exact (long128_ok cfg x3 m p q a msg sec _ _ Hm Hs Hz Dm Ds Ma Sa (acc_align8 v a Aa) variant_stripe variant_scramble Hd).
  Qed.
End Variant.

(** nothing has changed but [n] bytes at [a] and [k] bytes at [b] *)
Definition only2 (m m' : mem) (a n b k : N) : Prop :=
  (forall x, x < a \/ a + n <= x -> x < b \/ b + k <= x -> m' x = m x) /\ (forall x, m x <> None -> m' x <> None).
Lemma only2_refl : forall m a n b k, only2 m m a n b k.
Proof. intros. split; auto. Qed.
Lemma only_first : forall m m' a n b k, only m m' a n -> only2 m m' a n b k.
Proof. intros m m' a n b k [H1 H2]. split; [|exact H2]. intros x Hx _. now apply H1. Qed.
Lemma only_both : forall m m1 m' a n b k, only m m1 b k -> only m1 m' a n -> only2 m m' a n b k.
Proof.
  intros m m1 m' a n b k [A1 A2] [B1 B2]. split; [|auto]. intros x Hx Hy. rewrite B1 by exact Hx. now apply A1.
Qed.

Section Entry.
  Variable (cfg : config) (x3 : xxh3_build) (v : xxh_vector).
  Hypothesis (Hd : xxh_force_memory_access (x3_xxh x3) <> 2) (Fv : fits cfg v).
  Variables (m : mem) (p a : N) (msg : list byte).
  Hypothesis (Hm : here cfg m p msg) (Hp : mlen msg <> 0 -> p <> 0) (Dm : apart_from a p (mlen msg)) (Aa : a mod XXH_ACC_ALIGN v = 0)
    (Ma : mapped m a 64) (Sa : a + 64 < addr_space cfg).
  Let k := x3_kSecret x3.

  Section Given.
    Variables (q : N) (sec : list byte).
    Hypothesis (Hs : here cfg m q sec) (Hz : 136 <= mlen sec) (Hq : q <> 0) (Ds : apart_from a q (mlen sec)).
    Lemma secret64_v : (asserting cfg x3 = true -> mlen msg <> 8) -> exists m',
      XXH3_64bits_withSecret_v cfg x3 v a p (mlen msg) q (mlen sec) m = Ok (xxh3_64_secret sec msg, m') /\ only m m' a 64.
    Proof.
      intro HA. unfold XXH3_64bits_withSecret_v, xxh3_64_secret. destruct (N.leb_spec (mlen msg) 240) as [L|L].
      - exists m. split; [|apply only_refl]. apply (bits64_ok cfg x3 Hd m p q 0 msg sec Hm Hs Hz); auto. lia.
      - destruct (variant_long64 cfg x3 v Hd Fv p q a msg sec Dm Ds Aa m Hm Hs Hz Ma Sa ltac:(lia)) as (m' & E & O).
        exists m'. split; [|exact O]. apply (bits64_ok cfg x3 Hd m p q 0 msg sec Hm Hs Hz); auto; [|lia].
        intros _. now rewrite long_64.
    Qed.
    Lemma secret128_v : exists m',
      XXH3_128bits_withSecret_v cfg x3 v a p (mlen msg) q (mlen sec) m = Ok (xxh3_128_secret sec msg, m') /\ only m m' a 64.
    Proof.
      unfold XXH3_128bits_withSecret_v, xxh3_128_secret. destruct (N.leb_spec (mlen msg) 240) as [L|L].
      - exists m. split; [|apply only_refl]. apply (bits128_ok cfg x3 Hd m p q 0 msg sec Hm Hs Hz); auto. lia.
      - destruct (variant_long128 cfg x3 v Hd Fv p q a msg sec Dm Ds Aa m Hm Hs Hz Ma Sa ltac:(lia)) as (m' & E & O).
        exists m'. split; [|exact O]. apply (bits128_ok cfg x3 Hd m p q 0 msg sec Hm Hs Hz); auto; [|lia].
        intros _. now rewrite long_128.
    Qed.
  End Given.

  Hypothesis (Hk : here cfg m k default_secret) (Hk0 : k <> 0) (Dk : apart_from a k 192).
  Let Hz : 136 <= mlen default_secret. Proof. rewrite default_length. discriminate. Qed.
  Let Dk' : apart_from a k (mlen default_secret). Proof. rewrite default_length. exact Dk. Qed.
  Lemma plain64_v : (asserting cfg x3 = true -> mlen msg <> 8) -> exists m',
    XXH3_64bits_v cfg x3 v a p (mlen msg) m = Ok (xxh3_64_plain msg, m') /\ only m m' a 64.
  Proof.
    intro HA. pose proof (secret64_v k default_secret Hk Hz Hk0 Dk' HA) as S. rewrite default_length in S. exact S.
  Qed.
  Lemma plain128_v : exists m', XXH3_128bits_v cfg x3 v a p (mlen msg) m = Ok (xxh3_128_plain msg, m') /\ only m m' a 64.
  Proof.
    pose proof (secret128_v k default_secret Hk Hz Hk0 Dk') as S. rewrite default_length in S. exact S.
  Qed.

  Variables (local seed : N).
  Hypothesis (Hl : mapped m local 192) (Hla : local + 192 < addr_space cfg) (Hl0 : local <> 0) (Hseed : seed < 2 ^ 64)
    (Hlk : local + 192 <= k \/ k + 192 <= local) (Hlp : local + 192 <= p \/ p + mlen msg <= local) (Dl : apart_from a local 192)
    (Ak : k mod 64 = 0) (Al : local mod XXH_SEC_ALIGN v = 0).
  Lemma init_v : makes_secret m local seed (f_initCustomSecret cfg x3 v local seed).
  Proof.
    destruct v; cbn [f_initCustomSecret fits XXH_SEC_ALIGN XXH_ACC_ALIGN] in *.
    - now apply initCustomSecret_ok.
    - apply sse2_secret_ok; auto. fold k. lia.
    - apply avx2_secret_ok; auto. fold k. lia.
    - apply avx512_secret_ok; auto.
    - now apply initCustomSecret_ok.
    - now apply initCustomSecret_ok.
  Qed.
  Lemma after_init : exists m1, f_initCustomSecret cfg x3 v local seed m = Ok (tt, m1) /\ only m m1 local 192 /\
    here cfg m1 local (custom_secret seed) /\ here cfg m1 p msg /\ mapped m1 a 64 /\ mlen (custom_secret seed) = 192.
  Proof.
    destruct init_v as (m1 & E & B & O). assert (Lc : mlen (custom_secret seed) = 192) by (unfold mlen; now rewrite custom_length).
    exists m1. split; [exact E|]. split; [exact O|]. split; [split; [exact B|rewrite Lc; exact Hla]|].
    split; [apply (here_only cfg m m1 local 192); [exact O|lia|exact Hm]|]. split; [exact (only_mapped _ _ _ _ _ _ O Ma)|exact Lc].
  Qed.
  Lemma seed64_v : (asserting cfg x3 = true -> mlen msg <> 8) -> exists m',
    XXH3_64bits_withSeed_v cfg x3 v a local p (mlen msg) seed m = Ok (xxh3_64_seed seed msg, m') /\ only2 m m' a 64 local 192.
  Proof.
    intro HA. unfold XXH3_64bits_withSeed_v, xxh3_64_seed. fold k.
    replace XXH_SECRET_DEFAULT_SIZE with (mlen default_secret) by apply default_length.
    destruct (N.leb_spec (mlen msg) 240) as [L|L].
    - exists m. split; [|apply only2_refl]. apply (bits64_ok cfg x3 Hd m p k seed msg default_secret Hm Hk Hz); auto; [lia|].
      intro L'. now rewrite (same_short_64 _ (custom_secret seed) default_secret seed msg).
    - rewrite long_64 by exact L. destruct (N.eqb_spec seed 0) as [E0|E0].
      + destruct (variant_long64 cfg x3 v Hd Fv p k a msg default_secret Dm Dk' Aa m Hm Hk Hz Ma Sa ltac:(lia)) as (m' & E & O).
        exists m'. split; [|now apply only_first]. apply (bits64_ok cfg x3 Hd m p k seed msg default_secret Hm Hk Hz); auto; [|lia].
        intros _. unfold withSeed_64b_mem. rewrite E0. cbn [N.eqb]. rewrite custom_0.
        fold k. replace XXH_SECRET_DEFAULT_SIZE with (mlen default_secret) by apply default_length. exact E.
      + destruct after_init as (m1 & E1 & O1 & B & Hp1 & Ma1 & Lc).
        destruct (variant_long64 cfg x3 v Hd Fv p local a msg (custom_secret seed) Dm ltac:(rewrite Lc; exact Dl) Aa m1 Hp1 B ltac:(lia) Ma1 Sa ltac:(lia))
          as (m' & E & O).
        exists m'. split; [|exact (only_both _ _ _ _ _ _ _ O1 O)].
        apply (bits64_ok cfg x3 Hd m p k seed msg default_secret Hm Hk Hz); auto; [|lia].
        intros _. unfold withSeed_64b_mem. replace (seed =? 0) with false by lia. ok E1.
        replace XXH_SECRET_DEFAULT_SIZE with (mlen (custom_secret seed)) by exact Lc. exact E.
  Qed.
  Lemma seed128_v : exists m',
    XXH3_128bits_withSeed_v cfg x3 v a local p (mlen msg) seed m = Ok (xxh3_128_seed seed msg, m') /\ only2 m m' a 64 local 192.
  Proof.
    unfold XXH3_128bits_withSeed_v, xxh3_128_seed. fold k.
    replace XXH_SECRET_DEFAULT_SIZE with (mlen default_secret) by apply default_length.
    destruct (N.leb_spec (mlen msg) 240) as [L|L].
    - exists m. split; [|apply only2_refl]. apply (bits128_ok cfg x3 Hd m p k seed msg default_secret Hm Hk Hz); auto; [lia|].
      intro L'. now rewrite (same_short_128 _ (custom_secret seed) default_secret seed msg).
    - rewrite long_128 by exact L. destruct (N.eqb_spec seed 0) as [E0|E0].
      + destruct (variant_long128 cfg x3 v Hd Fv p k a msg default_secret Dm Dk' Aa m Hm Hk Hz Ma Sa ltac:(lia)) as (m' & E & O).
        exists m'. split; [|now apply only_first]. apply (bits128_ok cfg x3 Hd m p k seed msg default_secret Hm Hk Hz); auto; [|lia].
        intros _. unfold withSeed_128b_mem. rewrite E0. cbn [N.eqb]. rewrite custom_0.
        fold k. replace XXH_SECRET_DEFAULT_SIZE with (mlen default_secret) by apply default_length. exact E.
      + destruct after_init as (m1 & E1 & O1 & B & Hp1 & Ma1 & Lc).
        destruct (variant_long128 cfg x3 v Hd Fv p local a msg (custom_secret seed) Dm ltac:(rewrite Lc; exact Dl) Aa m1 Hp1 B ltac:(lia) Ma1 Sa ltac:(lia))
          as (m' & E & O).
        exists m'. split; [|exact (only_both _ _ _ _ _ _ _ O1 O)].
        apply (bits128_ok cfg x3 Hd m p k seed msg default_secret Hm Hk Hz); auto; [|lia].
        intros _. unfold withSeed_128b_mem. replace (seed =? 0) with false by lia. ok E1.
        replace XXH_SECRET_DEFAULT_SIZE with (mlen (custom_secret seed)) by exact Lc. exact E.
  Qed.
End Entry.
