(** The vector variants of XXH3: the scalar functions in the memory, the secret of a seed,
    and all the stripes of a key. *)
From Coq Require Import ZArith NArith Arith List Bool Lia Strings.Byte.
From Coq Require Import ZifyN ZifyNat ZifyBool.
From Verif Require Import Bytes CSem Bits Spec NBits CSemFacts OpsFacts FetchFacts CtxMem StreamFacts HighwayFacts
  Xxhash XxhashSpec XxhashFacts Xxh3 Xxh3Spec Onto HighwayCat HighwayCxx HighwaySimd Xxh3Facts Xxh3Secret Xxh3Simd Xxh3SimdFacts Xxh3SimdSound.
Import ListNotations.
Ltac Zify.zify_post_hook ::= Z.div_mod_to_equations.
Local Open Scope N_scope.

(** ** One lane in the memory *)
Lemma lane_bytes : forall cfg v i x, length v = 8%nat -> (i < 8)%nat ->
  acc_bytes cfg (acc_set v (N.of_nat i) x) =
  firstn (8 * i) (acc_bytes cfg v) ++ native cfg 8 x ++ skipn (8 * i + 8) (acc_bytes cfg v).
Proof.
  intros cfg v i x L Hi. unfold acc_set. rewrite Nat2N.id. unfold acc_bytes. rewrite flat_map_app. cbn [flat_map].
  assert (F : forall k w, flat_map (native cfg 8) (firstn k w) = firstn (8 * k) (flat_map (native cfg 8) w)).
  { induction k as [|k IH]; intro w; [reflexivity|]. destruct w as [|y w]; [now rewrite firstn_nil|]. cbn [firstn flat_map].
    rewrite IH. replace (8 * S k)%nat with (length (native cfg 8 y) + 8 * k)%nat by (rewrite native_len; lia).
    now rewrite firstn_app_2. }
  assert (G : forall k w, flat_map (native cfg 8) (skipn k w) = skipn (8 * k) (flat_map (native cfg 8) w)).
  { induction k as [|k IH]; intro w; [reflexivity|]. destruct w as [|y w]; [now rewrite skipn_nil|]. cbn [skipn flat_map].
    rewrite IH, skipn_app, (skipn_all2 (native cfg 8 y)) by (rewrite native_len; lia). cbn [app]. rewrite native_len. f_equal. lia. }
  rewrite F, G. do 3 f_equal. lia.
Qed.
Lemma aligned_lane : forall cfg a i, a mod 8 = 0 -> (a + 8 * i) mod alignment cfg 8 = 0.
Proof. intros cfg a i A. unfold alignment. destruct (wide cfg); lia. Qed.
Lemma small_set : forall v i x, small_lanes v -> i < 8 -> x < 2 ^ 64 -> small_lanes (acc_set v i x).
Proof.
  intros v i x [L F] Hi Hx. split; [apply acc_set_length; [exact Hi|exact L]|]. unfold acc_set. apply Forall_app. split.
  - rewrite <- (firstn_skipn (N.to_nat i) v) in F. now apply Forall_app in F.
  - constructor; [exact Hx|]. rewrite <- (firstn_skipn (S (N.to_nat i)) v) in F. now apply Forall_app in F.
Qed.
Section Lane.
  Variable (cfg : config) (m : mem) (a : N) (v : list N).
  Hypothesis (Ha : accs_at cfg m a v) (A : a mod 8 = 0).
  Lemma lane_read : forall i, i < 8 -> deref cfg 8 (padd cfg a (8 * i)) m = Ok (lane v i, m).
  Proof.
    intros i Hi. pose proof (acc_len cfg m a v Ha) as L.
    rewrite (at_i cfg m a (acc_bytes cfg v) (8 * i) (proj1 Ha)) by lia.
    destruct (here_part cfg m a (acc_bytes cfg v) (8 * i) 8 (proj1 Ha) ltac:(lia)) as [B E].
    rewrite <- (wn_lane cfg v i (proj2 Ha) Hi).
    exact (deref_ok cfg m (a + 8 * i) _ 8 B E (aligned_lane cfg a i A)).
  Qed.
  Lemma lane_write : forall i x, i < 8 -> x < 2 ^ 64 -> exists m', assign64 cfg (padd cfg a (8 * i)) x m = Ok (tt, m') /\
    accs_at cfg m' a (acc_set v i x) /\ only m m' a 64.
  Proof.
    intros i x Hi Hx. pose proof (acc_len cfg m a v Ha) as L. pose proof (acc_space cfg m a v Ha) as SP.
    rewrite (padd_small cfg a (8 * i)) by lia. unfold assign64. rewrite (aligned_lane cfg a i A). cbn [N.eqb].
    assert (Mp : mapped m (a + 8 * i) 8) by (apply (acc_mapped cfg m a v Ha m 0); [apply only_refl|lia]).
    rewrite (store_uint_ok cfg m (a + 8 * i) 8 x Mp). fold (native cfg 8 x). set (m' := write m (a + 8 * i) (native cfg 8 x)).
    assert (O : only m m' (a + 8 * i) 8) by (apply only_write; unfold mlen; now rewrite native_len).
    exists m'. split; [reflexivity|]. split; [|apply (only_weaken _ _ _ _ _ _ O); lia].
    pose proof (small_set v i x (proj2 Ha) Hi Hx) as SS. split; [|exact SS]. destruct Ha as [[B _] [Lv _]]. unfold mlen in L.
    split; [|unfold mlen; rewrite acc_bytes_length, (proj1 SS); lia].
    replace i with (N.of_nat (N.to_nat i)) by lia. rewrite lane_bytes by lia. apply bytes_at_app. split.
    - apply (only_bytes m m' _ _ _ _ O); [unfold mlen; rewrite firstn_length; lia|]. now apply bytes_at_firstn.
    - rewrite firstn_length_le by lia. apply bytes_at_app. split.
      + replace (a + N.of_nat (8 * N.to_nat i)) with (a + 8 * i) by lia. apply write_bytes_at.
      + rewrite native_len. replace (a + N.of_nat (8 * N.to_nat i) + N.of_nat 8) with (a + N.of_nat (8 * N.to_nat i + 8)) by lia.
        apply (only_bytes m m' _ _ _ _ O); [lia|]. apply bytes_at_skipn; [exact B|lia].
  Qed.
End Lane.
Lemma below_S : forall i, below_n (N.of_nat (S i)) = below_n (N.of_nat i) ++ [N.of_nat i].
Proof. intro i. rewrite Nat2N.inj_succ, <- N.add_1_r, below_add. change (below_n 1) with [0]. cbn [map]. now rewrite N.add_0_r. Qed.

Section Scalar.
  Variable (cfg : config) (x3 : xxh3_build) (m : mem) (p q a : N) (msg sec : list byte) (v : list N).
  Hypothesis (Hm : here cfg m p msg) (Hs : here cfg m q sec) (Ha : accs_at cfg m a v).
  Hypothesis (Dm : apart_from a p (mlen msg)) (Ds : apart_from a q (mlen sec)).
  Hypothesis (Hd : xxh_force_memory_access (x3_xxh x3) <> 2) (A : a mod 8 = 0).

  Lemma scalar_stripe_ok : forall i j, j + 64 <= mlen msg -> i + 64 <= mlen sec ->
    turns cfg (XXH3_accumulate_512_scalar cfg x3 a (p + j) (q + i)) m a (stripe_3 sec i msg j v).
  Proof.
    intros i j Lj Li. unfold XXH3_accumulate_512_scalar, turns.
    rewrite (bind_ok _ _ _ _ _ _ _ (ASSERT_ok cfg x3 _ m (fun _ => land_mod a 3 A))).
    set (step := lane_step (fun k => w8 msg (j + 8 * k)) (fun k => w8 sec (i + 8 * k))).
    pose proof (lane_steps (fun k => w8 msg (j + 8 * k)) (fun k => w8 sec (i + 8 * k)) v (proj1 (proj2 Ha)) (fun k => w8_lt _ _) (fun k => w8_lt _ _)) as ES.
    destruct (for_rel (fun k m' => accs_at cfg m' a (fold_left step (below_n (N.of_nat k)) v) /\ only m m' a 64) 8
      (fun i0 _ => data_val <- XXH_readLE64 cfg (x3_xxh x3) (padd cfg (p + j) (8 * i0)) ;;
        s <- XXH_readLE64 cfg (x3_xxh x3) (padd cfg (q + i) (i0 * 8)) ;;
        (let data_key := N.lxor data_val s in
         x <- deref cfg 8 (padd cfg a (8 * N.lxor i0 1)) ;;
         assign64 cfg (padd cfg a (8 * N.lxor i0 1)) (add64 x data_val) ;;;
         x <- deref cfg 8 (padd cfg a (8 * i0)) ;;
         assign64 cfg (padd cfg a (8 * i0)) (add64 x (XXH_mult32to64 (N.land data_key 0xFFFFFFFF) (shr64 data_key 32))))) m)
      as (m' & E & P & O).
    - split; [exact Ha|apply only_refl].
    - intros k m' L (P & O). rewrite below_S, fold_left_app. set (w := fold_left step (below_n (N.of_nat k)) v) in *.
      pose proof (here_only _ _ _ _ _ _ _ O Dm Hm) as Hm'. pose proof (here_only _ _ _ _ _ _ _ O Ds Hs) as Hs'.
      rewrite (at_ij cfg m' p msg j (8 * N.of_nat k) Hm'), (at_ij cfg m' q sec i (N.of_nat k * 8) Hs') by lia.
      ok (rd64_at cfg x3 Hd m' p msg (j + 8 * N.of_nat k) Hm' ltac:(lia)).
      ok (rd64_at cfg x3 Hd m' q sec (i + N.of_nat k * 8) Hs' ltac:(lia)). cbv zeta.
      assert (K1 : N.lxor (N.of_nat k) 1 < 8) by (apply (lxor_lt 3); [change (2 ^ 3) with 8; lia|reflexivity]).
      ok (lane_read cfg m' a w P A _ K1).
      destruct (lane_write cfg m' a w P A (N.lxor (N.of_nat k) 1) (add64 (lane w (N.lxor (N.of_nat k) 1)) (w8 msg (j + 8 * N.of_nat k))) K1 (add_lt64 _ _))
        as (m1 & E1 & P1 & O1). ok E1.
      ok (lane_read cfg m1 a _ P1 A (N.of_nat k) ltac:(lia)).
      match goal with |- context [assign64 cfg (padd cfg a (8 * N.of_nat k)) ?x m1] =>
        destruct (lane_write cfg m1 a _ P1 A (N.of_nat k) x ltac:(lia) (add_lt64 _ _)) as (m2 & E2 & P2 & O2) end.
      exists m2. split; [exact E2|]. split; [|apply (only_trans _ m'); [exact O|apply (only_trans _ m1); assumption]].
      cbn [fold_left]. unfold step at 1, lane_step. cbv zeta. rewrite (N.mul_comm (N.of_nat k) 8) in P2. exact P2.
    - exists m'. split; [exact E|]. split; [|exact O]. unfold step in P. rewrite ES in P. exact (proj1 (proj1 P)).
  Qed.
  Lemma scalar_scramble_ok : forall i, i + 64 <= mlen sec ->
    turns cfg (XXH3_scrambleAcc_scalar cfg x3 a (q + i)) m a (scramble sec i v).
  Proof.
    intros i Li. unfold XXH3_scrambleAcc_scalar, turns.
    rewrite (bind_ok _ _ _ _ _ _ _ (ASSERT_ok cfg x3 _ m (fun _ => land_mod a 3 A))).
    set (step := fun a k => acc_set a k (mulw (xor (fold_64 (acc_get a k) 47) (w8 sec (i + 8 * k))) A1)).
    assert (ES : fold_left step (below_n (N.of_nat 8)) v = scramble sec i v).
    { exact (set_steps (fun k a => mulw (xor (fold_64 a 47) (w8 sec (i + 8 * k))) A1) v (proj1 (proj2 Ha))). }
    destruct (for_rel (fun k m' => accs_at cfg m' a (fold_left step (below_n (N.of_nat k)) v) /\ only m m' a 64) 8
      (fun i0 _ => key64 <- XXH_readLE64 cfg (x3_xxh x3) (padd cfg (q + i) (8 * i0)) ;;
         acc64 <- deref cfg 8 (padd cfg a (8 * i0)) ;;
         assign64 cfg (padd cfg a (8 * i0)) (mul64 (N.lxor (XXH_xorshift64 acc64 47) key64) XXH_PRIME32_1)) m)
      as (m' & E & P & O).
    - split; [exact Ha|apply only_refl].
    - intros k m' L (P & O). rewrite below_S, fold_left_app. set (w := fold_left step (below_n (N.of_nat k)) v) in *.
      pose proof (here_only _ _ _ _ _ _ _ O Ds Hs) as Hs'.
      rewrite (at_ij cfg m' q sec i (8 * N.of_nat k) Hs') by lia.
      ok (rd64_at cfg x3 Hd m' q sec (i + 8 * N.of_nat k) Hs' ltac:(lia)).
      ok (lane_read cfg m' a w P A (N.of_nat k) ltac:(lia)).
      match goal with |- context [assign64 cfg (padd cfg a (8 * N.of_nat k)) ?x m'] =>
        destruct (lane_write cfg m' a _ P A (N.of_nat k) x ltac:(lia) (mulw_lt64 _ _)) as (m2 & E2 & P2 & O2) end.
      exists m2. split; [exact E2|]. split; [|apply (only_trans _ m'); assumption].
      cbn [fold_left]. unfold step at 1. rewrite xorshift_eq in P2. exact P2.
    - exists m'. split; [exact E|]. split; [|exact O]. rewrite ES in P. exact (proj1 (proj1 P)).
  Qed.
End Scalar.

(** ** The secret of a seed *)
Lemma default_word2 : forall k, (k < 12)%nat -> word2 default_secret 0 k = (nth (2 * k) default_words 0, nth (2 * k + 1) default_words 0).
Proof.
  intros k L. unfold word2. rewrite !N.add_0_l. f_equal; apply words_at; try apply default_small; change (length default_words) with 24%nat; lia.
Qed.
Lemma custom_pairs : forall seed, custom_secret seed =
  flat_map (fun k => bytes64 (seed_pair seed (nth (2 * k) default_words 0, nth (2 * k + 1) default_words 0))) (seq 0 12).
Proof.
  intro seed. unfold custom_secret, default_words, seed_pair, bytes64. cbn [flat_map seq nth seeded Nat.mul Nat.add fst snd].
  rewrite <- !app_assoc. reflexivity.
Qed.
Lemma unroll6 : forall (one : N -> M unit) m, (one 0 ;;; one 1 ;;; one 2 ;;; one 3 ;;; one 4 ;;; one 5) m = for_loop 6 0 (fun i _ => one i) tt m.
Proof.
  intros one m. change (for_loop 6 0 (fun i _ => one i) tt m) with
    ((bind (one 0) (fun t => bind (one 1) (fun t => bind (one 2) (fun t => bind (one 3) (fun t => bind (one 4) (fun t => bind (one 5) (fun t => ret t))))))) m).
  unfold bind. destruct (one 0 m) as [[[] m0]| | | | |]; [|reflexivity..].
  destruct (one 1 m0) as [[[] m1]| | | | |]; [|reflexivity..]. destruct (one 2 m1) as [[[] m2]| | | | |]; [|reflexivity..].
  destruct (one 3 m2) as [[[] m3]| | | | |]; [|reflexivity..]. destruct (one 4 m3) as [[[] m4]| | | | |]; [|reflexivity..].
  destruct (one 5 m4) as [[[] m5]| | | | |]; reflexivity.
Qed.
Section Secret.
  Variable (cfg : config) (x3 : xxh3_build) (m : mem) (c seed : N).
  Let k := x3_kSecret x3.
  Hypothesis (Hk : here cfg m k default_secret) (Hc : mapped m c 192) (Hca : c + 192 < addr_space cfg)
    (Hap : c + 192 <= k \/ k + 192 <= c) (Hseed : seed < 2 ^ 64).

  Lemma secret_loop : forall (w n : nat) (G : list byte -> list byte), (w * n = 192)%nat -> (forall l, length (G l) = w) ->
    k mod N.of_nat w = 0 -> c mod N.of_nat w = 0 ->
    exists m', for_loop n 0 (fun i _ =>
      l <- load_vector w (padd cfg k (N.of_nat w * i)) ;; store_vector w (padd cfg c (N.of_nat w * i)) (G l)) tt m = Ok (tt, m') /\
    bytes_at m' c (flat_map (fun i => G (firstn w (skipn (N.to_nat (0 + N.of_nat w * N.of_nat i)) default_secret))) (seq 0 n)) /\
    only m m' c 192.
  Proof.
    intros w n G W LG Ak Ac. replace 192 with (N.of_nat (w * n)) by lia. apply chunks_loop; [intros; apply LG|].
    intros i m' L O. set (o := N.of_nat w * N.of_nat i). assert (Eo : N.of_nat (w * i) = o) by (unfold o; lia). rewrite Eo in *.
    assert (Lo : o + N.of_nat w <= 192) by (unfold o; nia).
    assert (O' : only m m' c 192) by (apply (only_weaken _ _ c o); [exact O|lia|lia]).
    assert (Hk' : here cfg m' k default_secret) by (apply (here_only cfg m m' c 192 k); [exact O'|rewrite default_length; lia|exact Hk]).
    rewrite (at_i cfg m' k default_secret o Hk') by (rewrite default_length; lia). rewrite (padd_small cfg c o) by lia.
    ok (load_vector_part cfg m' k default_secret o w Hk' ltac:(rewrite default_length; lia) ltac:(apply mod_add; [lia|exact Ak])).
    assert (Mc : mapped m' (c + o) w).
    { apply (only_mapped _ _ _ _ _ _ O'). intros x Hx. replace (c + o + N.of_nat x) with (c + N.of_nat (N.to_nat o + x)) by lia. apply Hc. lia. }
    rewrite N.add_0_l. set (l := firstn w _).
    destruct (store_vector_ok w (c + o) (G l) m' (LG l) Mc ltac:(apply mod_add; [lia|exact Ac])) as (E & B & O2).
    exists (write m' (c + o) (G l)). split; [exact E|]. split; [exact B|exact O2].
  Qed.

  Definition makes_secret (f : M unit) : Prop := exists m', f m = Ok (tt, m') /\ bytes_at m' c (custom_secret seed) /\ only m m' c 192.
  Lemma sse2_secret_ok : k mod 16 = 0 -> c mod 16 = 0 -> makes_secret (XXH3_initCustomSecret_sse2 cfg x3 c seed).
  Proof.
    intros Ak Ac. destruct (secret_loop 16 12 (fun l => bytes64 (mm_add_epi64 (of_bytes64 l) (mm_set_epi64x (sub64 0 seed) seed)))
      eq_refl (fun l => bytes64_length _) Ak Ac) as (m' & E & B & O).
    exists m'. split; [exact E|]. split; [|exact O]. rewrite custom_pairs. erewrite flat_map_same; [exact B|].
    intros i I. apply in_seq in I. cbv beta. change (N.of_nat 16) with 16. rewrite word2_part, default_word2 by lia.
    rewrite sse_seed; [reflexivity| |exact Hseed]. rewrite <- default_word2 by lia. apply word2_small.
  Qed.
  Lemma avx2_secret_ok : k mod 32 = 0 -> c mod 32 = 0 -> makes_secret (XXH3_initCustomSecret_avx2 cfg x3 c seed).
  Proof.
    intros Ak Ac. destruct (secret_loop 32 6 (fun l => bytes256 (mm256_add_epi64 (of_bytes256 l) (mm256_set_epi64x (sub64 0 seed) seed (sub64 0 seed) seed)))
      eq_refl (fun l => bytes256_length _) Ak Ac) as (m' & E & B & O).
    exists m'. split; [|split; [|exact O]].
    - unfold XXH3_initCustomSecret_avx2. exact (eq_trans (unroll6 (fun i =>
        l <- load_vector 32 (padd cfg k (32 * i)) ;; store_vector 32 (padd cfg c (32 * i))
          (bytes256 (mm256_add_epi64 (of_bytes256 l) (mm256_set_epi64x (sub64 0 seed) seed (sub64 0 seed) seed)))) m) E).
    - rewrite custom_pairs.
      replace (flat_map _ (seq 0 12)) with (flat_map (fun i => bytes256 (seed_pair seed (word2 default_secret 0 (2 * i)), seed_pair seed (word2 default_secret 0 (2 * i + 1)))) (seq 0 6)).
      + erewrite flat_map_same; [exact B|]. intros i I. apply in_seq in I. cbv beta. change (N.of_nat 32) with 32. rewrite word4_part.
        f_equal. exact (f_equal2 pair (eq_sym (sse_seed _ (word2_small _ _ _) seed Hseed)) (eq_sym (sse_seed _ (word2_small _ _ _) seed Hseed))).
      + cbn [flat_map seq Nat.mul Nat.add]. rewrite !default_word2 by lia. unfold bytes256. cbn [fst snd]. rewrite <- !app_assoc. reflexivity.
  Qed.
  Lemma avx512_secret_ok : k mod 64 = 0 -> c mod 64 = 0 -> makes_secret (XXH3_initCustomSecret_avx512 cfg x3 c seed).
  Proof.
    intros Ak Ac. destruct (secret_loop 64 3 (fun l => bytes512 (mm512_add_epi64 (of_bytes512 l) (mm512_mask_set1_epi64 (mm512_set1_epi64 seed) 0xAA (sub64 0 seed))))
      eq_refl (fun l => bytes512_length _) Ak Ac) as (m' & E & B & O).
    exists m'. split; [|split; [|exact O]].
    - unfold XXH3_initCustomSecret_avx512. rewrite (bind_ok _ _ _ _ _ _ _ (ASSERT_ok cfg x3 _ m (fun _ => land_mod c 6 Ac))). exact E.
    - rewrite custom_pairs.
      replace (flat_map _ (seq 0 12)) with (flat_map (fun i =>
        bytes512 ((seed_pair seed (word2 default_secret 0 (4 * i)), seed_pair seed (word2 default_secret 0 (4 * i + 1))),
                  (seed_pair seed (word2 default_secret 0 (4 * i + 2)), seed_pair seed (word2 default_secret 0 (4 * i + 3))))) (seq 0 3)).
      + erewrite flat_map_same; [exact B|]. intros i I. apply in_seq in I. cbv beta. change (N.of_nat 64) with 64. rewrite N.add_0_l, word8_part.
        f_equal. symmetry.
        replace (word2 default_secret (64 * N.of_nat i) 0) with (word2 default_secret 0 (4 * i)) by (unfold word2; f_equal; f_equal; lia).
        replace (word2 default_secret (64 * N.of_nat i) 1) with (word2 default_secret 0 (4 * i + 1)) by (unfold word2; f_equal; f_equal; lia).
        replace (word2 default_secret (64 * N.of_nat i) 2) with (word2 default_secret 0 (4 * i + 2)) by (unfold word2; f_equal; f_equal; lia).
        replace (word2 default_secret (64 * N.of_nat i) 3) with (word2 default_secret 0 (4 * i + 3)) by (unfold word2; f_equal; f_equal; lia).
        exact (f_equal2 pair (f_equal2 pair (sse_seed _ (word2_small _ _ _) seed Hseed) (sse_seed _ (word2_small _ _ _) seed Hseed))
                             (f_equal2 pair (sse_seed _ (word2_small _ _ _) seed Hseed) (sse_seed _ (word2_small _ _ _) seed Hseed))).
      + cbn [flat_map seq Nat.mul Nat.add]. rewrite !default_word2 by lia. unfold bytes512, bytes256. cbn [fst snd]. rewrite <- !app_assoc. reflexivity.
  Qed.
End Secret.
