(** C76: XXH3 with the vector instructions of x86, ARM, POWER and z. *)
From Coq Require Import ZArith NArith Arith List Bool Lia Strings.Byte.
From Coq Require Import ZifyN ZifyNat ZifyBool.
From Verif Require Import Bytes CSem Bits Spec NBits CSemFacts OpsFacts FetchFacts KeyMem CtxMem StreamFacts Demo HighwayFacts
  Xxhash XxhashSpec XxhashFacts PropXxhash Xxh3 Xxh3Spec Onto HighwayCat HighwayCxx HighwaySimd Xxh3Facts Xxh3Secret PropXxh3
  Xxh3Simd Xxh3SimdFacts Xxh3SimdSound Xxh3SimdLong Xxh3SimdEntry.
Import ListNotations.
Ltac Zify.zify_post_hook ::= Z.div_mod_to_equations.
Local Open Scope N_scope.

(** SSE2, AVX2, AVX512 and NEON are for little-endian machines, VSX and the scalar functions
    for all *)
Definition made_for (cfg : config) (v : xxh_vector) : Prop := v = XXH_SCALAR \/ v = XXH_VSX \/ big_endian cfg = false.
Lemma made_fits : forall cfg v, made_for cfg v -> fits cfg v.
Proof. intros cfg v [->|[->|H]]; [exact I|exact I|]. destruct v; exact H || exact I. Qed.
(** eight words of 64 bits at [a] in the byte order of the machine *)
Definition words_in (cfg : config) (m : mem) (a : N) (v : list N) : Prop :=
  length v = 8%nat /\ Forall (fun x => x < 2 ^ 64) v /\ bytes_at m a (flat_map (native cfg 8) v).
(** the local array of accumulators, apart from what is read *)
Definition accs_there (cfg : config) (v : xxh_vector) (m : mem) (a : N) : Prop :=
  mapped m a 64 /\ a + 64 < addr_space cfg /\ a mod XXH_ACC_ALIGN v = 0.

Lemma accs_words : forall cfg v m a w, accs_there cfg v m a -> words_in cfg m a w -> accs_at cfg m a w.
Proof.
  intros cfg v m a w (_ & S & _) (L & F & B). split; [|split; assumption]. split; [exact B|]. unfold mlen. rewrite acc_bytes_length, L. exact S.
Qed.

(** One stripe and one scrambling, on every machine. *)
Theorem C76_stripe : forall cfg x3 v m a p msg q sec w i j, xxh_force_memory_access (x3_xxh x3) <> 2 -> made_for cfg v ->
  accs_there cfg v m a -> words_in cfg m a w ->
  bytes_at m p msg -> p + mlen msg < addr_space cfg -> bytes_at m q sec -> q + mlen sec < addr_space cfg ->
  a + 64 <= p \/ p + mlen msg <= a -> a + 64 <= q \/ q + mlen sec <= a -> j + 64 <= mlen msg -> i + 64 <= mlen sec ->
  (exists m', f_accumulate_512 cfg x3 v a (p + j) (q + i) m = Ok (tt, m') /\
    words_in cfg m' a (stripe_3 sec i msg j w) /\ only m m' a 64) /\
  (exists m', f_scrambleAcc cfg x3 v a (q + i) m = Ok (tt, m') /\ words_in cfg m' a (scramble sec i w) /\ only m m' a 64).
Proof.
  intros cfg x3 v m a p msg q sec w i j D F T W Bp Ap Bq Aq Dp Dq Lj Li. pose proof (accs_words _ _ _ _ _ T W) as P.
  destruct T as (_ & _ & A). apply made_fits in F. split.
  - destruct (variant_stripe cfg x3 v D F p q a msg sec Dp Dq A m w i j (conj Bp Ap) (conj Bq Aq) P Lj Li) as (m' & E & B & O).
    exists m'. split; [exact E|]. destruct (stripe_small sec i msg j w) as [S1 S2]. split; [split; [exact S1|split; [exact S2|exact B]]|exact O].
  - destruct (variant_scramble cfg x3 v D F q a sec Dq A m w i (conj Bq Aq) P Li) as (m' & E & B & O).
    exists m'. split; [exact E|]. destruct (scramble_small sec i w) as [S1 S2]. split; [split; [exact S1|split; [exact S2|exact B]]|exact O].
Qed.
Print Assumptions C76_stripe.

(** With a secret of the caller: the value of [C68_secret], for messages of every length. *)
Theorem C76_secret : forall cfg x3 v m a p msg q sec, xxh_force_memory_access (x3_xxh x3) <> 2 -> made_for cfg v -> accs_there cfg v m a ->
  message_at cfg m p msg -> bytes_at m q sec -> q + mlen sec < addr_space cfg -> q <> 0 -> 136 <= mlen sec ->
  a + 64 <= p \/ p + mlen msg <= a -> a + 64 <= q \/ q + mlen sec <= a ->
  ((asserting cfg x3 = true -> mlen msg <> 8) -> exists m',
    XXH3_64bits_withSecret_v cfg x3 v a p (mlen msg) q (mlen sec) m = Ok (xxh3_64_secret sec msg, m') /\ only m m' a 64) /\
  (exists m', XXH3_128bits_withSecret_v cfg x3 v a p (mlen msg) q (mlen sec) m = Ok (xxh3_128_secret sec msg, m') /\ only m m' a 64).
Proof.
  intros cfg x3 v m a p msg q sec D F (Ma & Sa & Aa) (Hm & Ha & Hp) Hs Hq Hq0 Hz Dp Dq. apply made_fits in F.
  assert (Hp' : mlen msg <> 0 -> p <> 0) by (intro; apply Hp; now apply nonempty).
  split; [intro A; apply secret64_v|apply secret128_v]; auto; split; auto.
Qed.
Print Assumptions C76_secret.

(** Without a secret, and without a seed or with one: the value of [C68_value]. *)
Theorem C76_value : forall cfg x3 v m a p msg, xxh_force_memory_access (x3_xxh x3) <> 2 -> made_for cfg v -> accs_there cfg v m a ->
  message_at cfg m p msg -> kSecret_there cfg x3 m -> a + 64 <= p \/ p + mlen msg <= a ->
  a + 64 <= x3_kSecret x3 \/ x3_kSecret x3 + 192 <= a ->
  ((asserting cfg x3 = true -> mlen msg <> 8) -> exists m',
    XXH3_64bits_v cfg x3 v a p (mlen msg) m = Ok (xxh3_64_plain msg, m') /\ only m m' a 64) /\
  (exists m', XXH3_128bits_v cfg x3 v a p (mlen msg) m = Ok (xxh3_128_plain msg, m') /\ only m m' a 64) /\
  (forall local seed, local_there cfg x3 m local p msg -> seed < 2 ^ 64 -> a + 64 <= local \/ local + 192 <= a ->
    x3_kSecret x3 mod 64 = 0 -> local mod XXH_SEC_ALIGN v = 0 ->
    ((asserting cfg x3 = true -> mlen msg <> 8) -> exists m',
      XXH3_64bits_withSeed_v cfg x3 v a local p (mlen msg) seed m = Ok (xxh3_64_seed seed msg, m') /\ only2 m m' a 64 local 192) /\
    exists m', XXH3_128bits_withSeed_v cfg x3 v a local p (mlen msg) seed m = Ok (xxh3_128_seed seed msg, m') /\ only2 m m' a 64 local 192).
Proof.
  intros cfg x3 v m a p msg D F (Ma & Sa & Aa) (Hm & Ha & Hp) (Hk & Hka & Hk0) Dp Dk. rewrite kSecret_default in Hk. apply made_fits in F.
  assert (Hp' : mlen msg <> 0 -> p <> 0) by (intro; apply Hp; now apply nonempty).
  assert (HK : here cfg m (x3_kSecret x3) default_secret) by (split; [exact Hk|rewrite default_length; exact Hka]).
  assert (HM : here cfg m p msg) by (split; assumption).
  split; [intro A; now apply plain64_v|]. split; [now apply plain128_v|].
  intros local seed (L1 & L2 & L3 & L4 & L5) S Dl Ak Al. split; [intro A; now apply seed64_v|now apply seed128_v].
Qed.
Print Assumptions C76_value.

(** So two builds agree, whatever instructions, byte orders and widths of pointers they have. *)
Theorem C76_same : forall cfg cfg' x3 x3' v v' m m' a a' local local' p p' msg seed,
  xxh_force_memory_access (x3_xxh x3) <> 2 -> made_for cfg v -> accs_there cfg v m a ->
  message_at cfg m p msg -> kSecret_there cfg x3 m -> a + 64 <= p \/ p + mlen msg <= a ->
  a + 64 <= x3_kSecret x3 \/ x3_kSecret x3 + 192 <= a -> local_there cfg x3 m local p msg -> a + 64 <= local \/ local + 192 <= a ->
  x3_kSecret x3 mod 64 = 0 -> local mod XXH_SEC_ALIGN v = 0 ->
  xxh_force_memory_access (x3_xxh x3') <> 2 -> made_for cfg' v' -> accs_there cfg' v' m' a' ->
  message_at cfg' m' p' msg -> kSecret_there cfg' x3' m' -> a' + 64 <= p' \/ p' + mlen msg <= a' ->
  a' + 64 <= x3_kSecret x3' \/ x3_kSecret x3' + 192 <= a' -> local_there cfg' x3' m' local' p' msg -> a' + 64 <= local' \/ local' + 192 <= a' ->
  x3_kSecret x3' mod 64 = 0 -> local' mod XXH_SEC_ALIGN v' = 0 ->
  seed < 2 ^ 64 -> mlen msg <> 8 ->
  exists h h2 m1 m2 m3 m4,
    XXH3_64bits_withSeed_v cfg x3 v a local p (mlen msg) seed m = Ok (h, m1) /\
    XXH3_64bits_withSeed_v cfg' x3' v' a' local' p' (mlen msg) seed m' = Ok (h, m2) /\
    XXH3_128bits_withSeed_v cfg x3 v a local p (mlen msg) seed m = Ok (h2, m3) /\
    XXH3_128bits_withSeed_v cfg' x3' v' a' local' p' (mlen msg) seed m' = Ok (h2, m4).
Proof.
  intros cfg cfg' x3 x3' v v' m m' a a' local local' p p' msg seed H1 H2 H3 H4 H5 H6 H7 H8 H9 H10 H11
    G1 G2 G3 G4 G5 G6 G7 G8 G9 G10 G11 S N8.
  destruct (C76_value cfg x3 v m a p msg H1 H2 H3 H4 H5 H6 H7) as (_ & _ & V). destruct (V local seed H8 S H9 H10 H11) as [V1 V2].
  destruct (C76_value cfg' x3' v' m' a' p' msg G1 G2 G3 G4 G5 G6 G7) as (_ & _ & W). destruct (W local' seed G8 S G9 G10 G11) as [W1 W2].
  destruct (V1 (fun _ => N8)) as (m1 & E1 & _). destruct (W1 (fun _ => N8)) as (m2 & E2 & _).
  destruct V2 as (m3 & E3 & _). destruct W2 as (m4 & E4 & _).
  exists (xxh3_64_seed seed msg), (xxh3_128_seed seed msg), m1, m2, m3, m4. repeat split; assumption.
Qed.
Print Assumptions C76_same.

(** An array of accumulators that is not aligned for the variant: builds with assertions
    stop there, except in the stripe of VSX, which has no assertion; other builds have no
    defined behaviour.  The 16, 32 or 64 bytes are the compiler's promise about the local
    array. *)
Lemma ASSERT_stops : forall A cfg x3 (f : unit -> M A) m, asserting cfg x3 = true -> bind (XXH_ASSERT cfg x3 false) f m = Abort.
Proof.
  intros A cfg x3 f m H. unfold asserting in H. apply andb_true_iff in H. destruct H as [H1 H2]. apply negb_true_iff in H2.
  unfold XXH_ASSERT, assert_. now rewrite H1, H2.
Qed.
Lemma ASSERT_skip : forall A cfg x3 b (f : unit -> M A) m, asserting cfg x3 = false -> bind (XXH_ASSERT cfg x3 b) f m = f tt m.
Proof.
  intros A cfg x3 b f m H. apply bind_ok. apply ASSERT_ok. intro E. rewrite H in E. discriminate.
Qed.
Lemma land_not : forall a n, a mod 2 ^ n <> 0 -> (N.land a (N.ones n) =? 0) = false.
Proof. intros a n H. rewrite N.land_ones. now apply N.eqb_neq. Qed.
Theorem C76_misaligned : forall cfg x3 v m a p q, v <> XXH_SCALAR -> a mod XXH_ACC_ALIGN v <> 0 ->
  (asserting cfg x3 = true -> (v <> XXH_VSX -> f_accumulate_512 cfg x3 v a p q m = Abort) /\ f_scrambleAcc cfg x3 v a q m = Abort) /\
  (asserting cfg x3 = false \/ v = XXH_VSX -> mapped m p 64 -> p + 64 < addr_space cfg -> mapped m q 64 -> q + 64 < addr_space cfg ->
    a < addr_space cfg -> f_accumulate_512 cfg x3 v a p q m = Undef MisalignedAccess).
Proof.
  intros cfg x3 v m a p q NS A. split.
  - intro HA. destruct v; [contradiction|..]; cbn [XXH_ACC_ALIGN] in A; (split; [intro NV|]);
      cbn [f_accumulate_512 f_scrambleAcc]; try contradiction;
      unfold XXH3_accumulate_512_sse2, XXH3_scrambleAcc_sse2, XXH3_accumulate_512_avx2, XXH3_scrambleAcc_avx2, XXH3_accumulate_512_avx512,
        XXH3_scrambleAcc_avx512, XXH3_accumulate_512_neon, XXH3_scrambleAcc_neon, XXH3_scrambleAcc_vsx;
      first [rewrite (land_not a 4 A : (N.land a 15 =? 0) = false)|rewrite (land_not a 5 A : (N.land a 31 =? 0) = false)|rewrite (land_not a 6 A : (N.land a 63 =? 0) = false)]; now apply ASSERT_stops.
  - intros HA Mp Sp Mq Sq Sa. pose proof (addr_space_pos cfg) as AP.
    assert (P0 : forall x, x < addr_space cfg -> padd cfg x 0 = x) by (intros x Hx; rewrite padd_small by lia; lia).
    assert (LD : forall n r, (n <= 64)%nat -> mapped m r 64 -> exists l, load_bytes n r m = Ok (l, m)).
    { intros n r Ln Mr. destruct (mapped_bytes_at m n r) as (l & L & B); [intros i Hi; apply Mr; lia|]. exists l. rewrite <- L. now apply load_bytes_ok. }
    assert (LV : forall n, N.of_nat n = XXH_ACC_ALIGN v -> load_vector n a m = Undef MisalignedAccess).
    { intros n E. unfold load_vector. rewrite E. replace (a mod XXH_ACC_ALIGN v =? 0) with false by (symmetry; now apply N.eqb_neq). reflexivity. }
    assert (BU : forall X (f : list byte -> M X) n, N.of_nat n = XXH_ACC_ALIGN v -> bind (load_vector n a) f m = Undef MisalignedAccess).
    { intros X f n E. unfold bind. now rewrite (LV n E). }
    assert (FI : forall n (body : N -> unit -> M unit), body 0 tt m = Undef MisalignedAccess -> for_loop (S n) 0 body tt m = Undef MisalignedAccess).
    { intros n body E. cbn [for_loop]. unfold bind. now rewrite E. }
    destruct v as [| | | |z|]; [contradiction|..]; cbn [f_accumulate_512].
    + destruct HA as [HA|HA]; [|discriminate]. unfold XXH3_accumulate_512_sse2. rewrite ASSERT_skip by exact HA. apply FI.
      rewrite !N.mul_0_r, !P0 by lia. destruct (LD 16%nat p ltac:(lia) Mp) as (l & E). ok E. destruct (LD 16%nat q ltac:(lia) Mq) as (l2 & E2). ok E2.
      cbv zeta. now apply BU.
    + destruct HA as [HA|HA]; [|discriminate]. unfold XXH3_accumulate_512_avx2. rewrite ASSERT_skip by exact HA. apply FI.
      rewrite !N.mul_0_r, !P0 by lia. destruct (LD 32%nat p ltac:(lia) Mp) as (l & E). ok E. destruct (LD 32%nat q ltac:(lia) Mq) as (l2 & E2). ok E2.
      cbv zeta. now apply BU.
    + destruct HA as [HA|HA]; [|discriminate]. unfold XXH3_accumulate_512_avx512. rewrite ASSERT_skip by exact HA.
      destruct (LD 64%nat p ltac:(lia) Mp) as (l & E). ok E. destruct (LD 64%nat q ltac:(lia) Mq) as (l2 & E2). ok E2.
      cbv zeta. now apply BU.
    + destruct HA as [HA|HA]; [|discriminate]. unfold XXH3_accumulate_512_neon. rewrite ASSERT_skip by exact HA. apply FI.
      rewrite !N.mul_0_l, !P0 by lia. destruct (LD 16%nat p ltac:(lia) Mp) as (l & E). ok E. destruct (LD 16%nat q ltac:(lia) Mq) as (l2 & E2). ok E2.
      cbv zeta. now apply BU.
    + unfold XXH3_accumulate_512_vsx. cbv zeta. apply FI.
      rewrite !N.mul_0_r, !P0 by lia. destruct (LD 16%nat p ltac:(lia) Mp) as (l & E). destruct (LD 16%nat q ltac:(lia) Mq) as (l2 & E2).
      unfold XXH_vec_loadu. rewrite bind_assoc. ok E. rewrite bind_ret. rewrite bind_assoc. ok E2. rewrite bind_ret. now apply BU.
Qed.
Print Assumptions C76_misaligned.

(** ** Cases *)
(** 1200 bytes at an odd address with a seed: AVX512 on x86, VSX on a big-endian machine with
    assertions, the scalar functions on one with pointers of 32 bits *)
Lemma x3_accs : forall cfg v, accs_there cfg v x3_mem 8448.
Proof.
  intros cfg v. split; [|split].
  - unfold x3_mem. apply write_mapped. unfold sea. apply write_mapped. intros i _. discriminate.
  - unfold addr_space. destruct (ptr64 cfg); reflexivity.
  - destruct v; reflexivity.
Qed.
Lemma x3_case : forall cfg x3 v, xxh_force_memory_access (x3_xxh x3) <> 2 -> x3_kSecret x3 = 4096 -> made_for cfg v ->
  exists m', XXH3_128bits_withSeed_v cfg x3 v 8448 8192 20001 1200 5 x3_mem = Ok (xxh3_128_seed 5 (Demo.key 1200), m') /\
    only2 x3_mem m' 8448 64 8192 192.
Proof.
  intros cfg x3 v D K F. assert (L : mlen (Demo.key 1200) = 1200) by (unfold mlen; now rewrite key_length).
  assert (A : 40000 < addr_space cfg) by (unfold addr_space; destruct (ptr64 cfg); reflexivity).
  destruct (C76_value cfg x3 v x3_mem 8448 20001 (Demo.key 1200) D F (x3_accs cfg v)) as (_ & _ & V).
  - split; [unfold x3_mem; apply write_bytes_at_other; [right; discriminate|apply write_bytes_at]|]. split; [rewrite L; lia|discriminate].
  - unfold kSecret_there. rewrite K. split; [apply write_bytes_at|]. split; [lia|discriminate].
  - left. discriminate.
  - rewrite K. right. discriminate.
  - destruct (V 8192 5) as (_ & W).
    + unfold local_there. rewrite K. split; [unfold x3_mem; apply write_mapped; unfold sea; apply write_mapped; intros i _; discriminate|].
      split; [lia|]. split; [discriminate|]. split; [right; discriminate|left; discriminate].
    + reflexivity.
    + right. discriminate.
    + now rewrite K.
    + destruct v; reflexivity.
    + rewrite L in W. exact W.
Qed.
Example C76_case : exists m1 m2 m3,
  XXH3_128bits_withSeed_v x86_64 x3_demo XXH_AVX512 8448 8192 20001 1200 5 x3_mem = Ok (xxh3_128_seed 5 (Demo.key 1200), m1) /\
  XXH3_128bits_withSeed_v sparc64 x3_sparc XXH_VSX 8448 8192 20001 1200 5 x3_mem = Ok (xxh3_128_seed 5 (Demo.key 1200), m2) /\
  XXH3_128bits_withSeed_v mips32 x3_demo XXH_SCALAR 8448 8192 20001 1200 5 x3_mem = Ok (xxh3_128_seed 5 (Demo.key 1200), m3).
Proof.
  destruct (x3_case x86_64 x3_demo XXH_AVX512) as (m1 & E1 & _); [discriminate|reflexivity|right; right; reflexivity|].
  destruct (x3_case sparc64 x3_sparc XXH_VSX) as (m2 & E2 & _); [discriminate|reflexivity|right; left; reflexivity|].
  destruct (x3_case mips32 x3_demo XXH_SCALAR) as (m3 & E3 & _); [discriminate|reflexivity|left; reflexivity|].
  exists m1, m2, m3. exact (conj E1 (conj E2 E3)).
Qed.
(** one stripe of words that are all different *)
Example C76_stripe_case : exists m',
  f_accumulate_512 x86_64 x3_demo (XXH_NEON true) 8448 20065 4104 (write x3_mem 8448 (flat_map (native x86_64 8) begin_3)) = Ok (tt, m') /\
  words_in x86_64 m' 8448 (stripe_3 XXH3_kSecret_bytes 8 (Demo.key 1200) 64 begin_3).
Proof.
  set (m := write x3_mem 8448 (flat_map (native x86_64 8) begin_3)).
  assert (L : mlen (Demo.key 1200) = 1200) by (unfold mlen; now rewrite key_length).
  destruct (C76_stripe x86_64 x3_demo (XXH_NEON true) m 8448 20001 (Demo.key 1200) 4096 XXH3_kSecret_bytes begin_3 8 64) as ((m' & E & W & _) & _).
  - discriminate.
  - right. right. reflexivity.
  - destruct (x3_accs x86_64 (XXH_NEON true)) as (A1 & A2 & A3). split; [now apply write_mapped|]. split; assumption.
  - split; [reflexivity|]. split; [repeat constructor|apply write_bytes_at].
  - unfold m. apply write_bytes_at_other; [|unfold x3_mem; apply write_bytes_at_other; [right; discriminate|apply write_bytes_at]].
    right. discriminate.
  - rewrite L. reflexivity.
  - unfold m. apply write_bytes_at_other; [|apply write_bytes_at]. left. discriminate.
  - reflexivity.
  - left. discriminate.
  - right. discriminate.
  - rewrite L. discriminate.
  - discriminate.
  - exists m'. split; [exact E|exact W].
Qed.
Example C76_misaligned_case : f_accumulate_512 x86_64 x3_demo XXH_AVX2 8464 20001 4096 x3_mem = Undef MisalignedAccess /\
  f_accumulate_512 sparc64 x3_sparc XXH_VSX 8456 20001 4096 x3_mem = Undef MisalignedAccess.
Proof.
  assert (M : forall r, mapped x3_mem r 64) by (intro r; unfold x3_mem; apply write_mapped; unfold sea; apply write_mapped; intros i _; discriminate).
  split.
  - apply (proj2 (C76_misaligned x86_64 x3_demo XXH_AVX2 x3_mem 8464 20001 4096 ltac:(discriminate) ltac:(discriminate)));
      [left; reflexivity|apply M|reflexivity|apply M|reflexivity|reflexivity].
  - apply (proj2 (C76_misaligned sparc64 x3_sparc XXH_VSX x3_mem 8456 20001 4096 ltac:(discriminate) ltac:(discriminate)));
      [right; reflexivity|apply M|reflexivity|apply M|reflexivity|reflexivity].
Qed.
