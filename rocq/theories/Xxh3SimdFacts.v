(** The vector variants of XXH3: one stripe and one scramble, for every variant, and the
    secret of a seed. *)
From Coq Require Import ZArith NArith Arith List Bool Lia Strings.Byte.
From Coq Require Import ZifyN ZifyNat ZifyBool.
From Verif Require Import Bytes CSem Bits Spec NBits CSemFacts OpsFacts FetchFacts CtxMem StreamFacts HighwayFacts
  Xxhash XxhashSpec XxhashFacts Xxh3 Xxh3Spec Onto HighwayCat HighwayCxx HighwaySimd Xxh3Facts Xxh3Secret Xxh3Simd.
Import ListNotations.
Ltac Zify.zify_post_hook ::= Z.div_mod_to_equations.
Local Open Scope N_scope.

(** ** Pairs of lanes *)
Definition small2 (v : N * N) : Prop := fst v < 2 ^ 64 /\ snd v < 2 ^ 64.
Definition stripe_pair (a d k : N * N) : N * N :=
  (add (add (fst a) (snd d)) (halves (xor (fst d) (fst k))), add (add (snd a) (fst d)) (halves (xor (snd d) (snd k)))).
Definition scramble_one (a k : N) : N := mulw (xor (fold_64 a 47) k) A1.
Definition scramble_pair (a k : N * N) : N * N := (scramble_one (fst a) (fst k), scramble_one (snd a) (snd k)).
Definition seed_pair (s : N) (w : N * N) : N * N := (add (fst w) s, sub (snd w) s).

Lemma halves_mul : forall x, x < 2 ^ 64 -> (x mod 2 ^ 32) * (x / 2 ^ 32) = halves x.
Proof.
  intros x H. unfold halves, mulw. symmetry. apply N.mod_small. change (2 ^ 32) with W32. change (2 ^ 64) with W64 in *.
  assert (x mod W32 < W32) by lia. assert (x / W32 < W32) by lia. nia.
Qed.
Lemma add_comm3 : forall p a b, add p (add a b) = add (add a b) p.
Proof. intros. unfold add. f_equal. lia. Qed.
Lemma scramble_halves : forall x, x < 2 ^ 64 ->
  add ((x mod 2 ^ 32) * A1) (shl64 ((x / 2 ^ 32) * A1) 32) = mulw x A1.
Proof.
  intros x H. unfold add, shl64, mulw. rewrite N.shiftl_mul_pow2, u64_eq, N.add_mod_idemp_r by discriminate. f_equal.
  rewrite (N.div_mod x (2 ^ 32)) at 3 by discriminate. generalize (x / 2 ^ 32), (x mod 2 ^ 32). intros. lia.
Qed.
Lemma low_mod : forall x, (x mod 2 ^ 32 + x / 2 ^ 32 * 2 ^ 32) = x.
Proof. intro x. pose proof (N.div_mod x (2 ^ 32) ltac:(discriminate)). lia. Qed.

Section Pure.
  Variables (a d k : N * N).
  Hypothesis (Ha : small2 a) (Hd : small2 d) (Hk : small2 k).

  Lemma xor_small : small2 (N.lxor (fst d) (fst k), N.lxor (snd d) (snd k)).
  Proof. destruct Hd, Hk. split; apply xor_lt64; assumption. Qed.
  Lemma shuffle_hi : forall v, small2 v -> forall w, mm_mul_epu32 w (shuffle128 v (MM_SHUFFLE 0 3 0 1)) =
    (fst w mod 2 ^ 32 * (fst v / 2 ^ 32), snd w mod 2 ^ 32 * (snd v / 2 ^ 32)).
  Proof.
    intros [x y] [Hx Hy] [w0 w1]. cbn [fst snd] in *. unfold mm_mul_epu32, zip64, shuffle128. cbn [fst snd].
    change (mm_shuffle_epi32 (to32 (x, y)) (MM_SHUFFLE 0 3 0 1)) with (x / 2 ^ 32, x mod 2 ^ 32, y / 2 ^ 32, x mod 2 ^ 32).
    cbn [to64 fst snd]. rewrite !u32_eq. f_equal; f_equal; rewrite N.mod_add by discriminate; apply N.mod_small;
      (change (2 ^ 32) with W32 in *; change (2 ^ 64) with W64 in *; lia).
  Qed.
  Lemma shuffle_swap : forall v, shuffle128 v (MM_SHUFFLE 1 0 3 2) = (snd v, fst v).
  Proof.
    intros [x y]. unfold shuffle128.
    change (mm_shuffle_epi32 (to32 (x, y)) (MM_SHUFFLE 1 0 3 2)) with (y mod 2 ^ 32, y / 2 ^ 32, x mod 2 ^ 32, x / 2 ^ 32).
    cbn [to64 fst snd]. now rewrite !low_mod.
  Qed.
  Lemma sse_stripe :
    let dk := mm_xor_si128 d k in
    mm_add_epi64 (mm_mul_epu32 dk (shuffle128 dk (MM_SHUFFLE 0 3 0 1))) (mm_add_epi64 a (shuffle128 d (MM_SHUFFLE 1 0 3 2)))
    = stripe_pair a d k.
  Proof.
    cbv zeta. pose proof xor_small as X. destruct X as [X0 X1]. rewrite shuffle_swap.
    rewrite shuffle_hi by (split; assumption). unfold mm_xor_si128, zip64 in *. cbn [fst snd] in *.
    rewrite (halves_mul _ X0), (halves_mul _ X1). unfold mm_add_epi64, zip64. cbn [fst snd].
    unfold stripe_pair. change add64 with add. rewrite !add_comm3. reflexivity.
  Qed.
  Lemma mixed_small : small2 (xor (fold_64 (fst a) 47) (fst k), xor (fold_64 (snd a) 47) (snd k)).
  Proof.
    assert (F : forall x, x < 2 ^ 64 -> fold_64 x 47 < 2 ^ 64).
    { intros x H. rewrite <- xorshift_eq. apply xor_lt64; [exact H|]. rewrite shr64_eq. rewrite N.mod_small by exact H.
      apply N.div_lt_upper_bound; [discriminate|]. change (2 ^ 64) with W64 in *. change (2 ^ 47 * W64) with (140737488355328 * W64). lia. }
    destruct Ha, Hk. split; apply xor_lt64; auto.
  Qed.
  Lemma sse_scramble :
    let dk := mm_xor_si128 (mm_xor_si128 a (mm_srli_epi64 a 47)) k in
    let prime := set1_32_128 XXH_PRIME32_1 in
    mm_add_epi64 (mm_mul_epu32 dk prime) (mm_slli_epi64 (mm_mul_epu32 (shuffle128 dk (MM_SHUFFLE 0 3 0 1)) prime) 32)
    = scramble_pair a k.
  Proof.
    cbv zeta. pose proof mixed_small as X. destruct X as [X0 X1]. cbn [fst snd] in X0, X1.
    assert (E : mm_xor_si128 (mm_xor_si128 a (mm_srli_epi64 a 47)) k = (xor (fold_64 (fst a) 47) (fst k), xor (fold_64 (snd a) 47) (snd k))).
    { unfold mm_xor_si128, zip64, mm_srli_epi64, map64. cbn [fst snd]. rewrite <- !xorshift_eq. reflexivity. }
    rewrite E. clear E. set (x := xor (fold_64 (fst a) 47) (fst k)) in *. set (y := xor (fold_64 (snd a) 47) (snd k)) in *.
    assert (P : forall v, mm_mul_epu32 v (set1_32_128 XXH_PRIME32_1) = (fst v mod 2 ^ 32 * A1, snd v mod 2 ^ 32 * A1)) by reflexivity.
    rewrite !P. cbn [fst snd].
    assert (C : forall v w, fst (mm_mul_epu32 v w) = fst (mm_mul_epu32 w v) /\ snd (mm_mul_epu32 v w) = snd (mm_mul_epu32 w v)).
    { intros [v0 v1] [w0 w1]. split; apply N.mul_comm. }
    assert (S : fst (shuffle128 (x, y) (MM_SHUFFLE 0 3 0 1)) mod 2 ^ 32 = x / 2 ^ 32 /\
                snd (shuffle128 (x, y) (MM_SHUFFLE 0 3 0 1)) mod 2 ^ 32 = y / 2 ^ 32).
    { pose proof (shuffle_hi (x, y) (conj X0 X1) (1, 1)) as F. unfold mm_mul_epu32, zip64 in F. cbn [fst snd] in F.
      rewrite !u32_eq in F. change (1 mod 2 ^ 32) with 1 in F. rewrite !N.mul_1_l in F. injection F as F0 F1. split; assumption. }
    destruct S as [-> ->]. unfold mm_slli_epi64, map64, mm_add_epi64, zip64. cbn [fst snd]. change add64 with add.
    rewrite (scramble_halves _ X0), (scramble_halves _ X1). reflexivity.
  Qed.
  Lemma split_lanes : forall z v, small2 v -> XXH_SPLIT_IN_PLACE z v =
    ((fst v mod 2 ^ 32, snd v mod 2 ^ 32), (fst v / 2 ^ 32, snd v / 2 ^ 32)).
  Proof.
    intros z [x y] [Hx Hy]. cbn [fst snd] in *. destruct z; [reflexivity|]. unfold XXH_SPLIT_IN_PLACE, vmovn_u64, vshrn_n_u64. cbn [fst snd].
    rewrite !u32_eq, !shr64_eq, (N.mod_small x (2 ^ 64)), (N.mod_small y (2 ^ 64)) by assumption.
    rewrite (N.mod_small (x / 2 ^ 32)), (N.mod_small (y / 2 ^ 32)); [reflexivity|..]; change (2 ^ 32) with W32 in *; change (2 ^ 64) with W64 in *; lia.
  Qed.
  Lemma neon_stripe : forall z,
    vmlal_u32 (vaddq_u64 a (vextq_u64 d d 1)) (fst (XXH_SPLIT_IN_PLACE z (veorq_u64 d k))) (snd (XXH_SPLIT_IN_PLACE z (veorq_u64 d k)))
    = stripe_pair a d k.
  Proof.
    intro z. pose proof xor_small as X. rewrite split_lanes by exact X. destruct X as [X0 X1]. unfold veorq_u64, zip64 in *. cbn [fst snd] in *.
    unfold vmlal_u32, vmull_u32. cbn [fst snd]. rewrite (halves_mul _ X0), (halves_mul _ X1). reflexivity.
  Qed.
  Lemma neon_scramble : forall z,
    let dk := veorq_u64 (veorq_u64 a (vshrq_n_u64 a 47)) k in
    let prime := vdup_n_u32 XXH_PRIME32_1 in
    vmlal_u32 (vshlq_n_u64 (vmull_u32 (snd (XXH_SPLIT_IN_PLACE z dk)) prime) 32) (fst (XXH_SPLIT_IN_PLACE z dk)) prime = scramble_pair a k.
  Proof.
    intro z. cbv zeta. pose proof mixed_small as X.
    assert (E : veorq_u64 (veorq_u64 a (vshrq_n_u64 a 47)) k = (xor (fold_64 (fst a) 47) (fst k), xor (fold_64 (snd a) 47) (snd k))).
    { unfold veorq_u64, zip64, vshrq_n_u64, map64. cbn [fst snd]. rewrite <- !xorshift_eq. reflexivity. }
    rewrite E, split_lanes by exact X. destruct X as [X0 X1]. cbn [fst snd] in *.
    unfold scramble_pair, scramble_one. rewrite <- (scramble_halves _ X0), <- (scramble_halves _ X1).
    unfold vmlal_u32, vaddq_u64, vshlq_n_u64, vmull_u32, vdup_n_u32, map64, zip64. cbn [fst snd]. change (u32 XXH_PRIME32_1) with A1.
    change add64 with add. unfold add. f_equal; f_equal; apply N.add_comm.
  Qed.
  Lemma sse_seed : forall s, s < 2 ^ 64 -> mm_add_epi64 d (mm_set_epi64x (sub64 0 s) s) = seed_pair s d.
  Proof.
    intros s Hs. destruct Hd as [H0 H1]. unfold mm_add_epi64, mm_set_epi64x, zip64, seed_pair. cbn [fst snd]. f_equal.
    unfold add64, sub64, sub, u64. change W64 with (2 ^ 64). rewrite N.add_mod_idemp_r by discriminate.
    change (2 ^ 64) with W64 in *. rewrite (N.mod_small s), (N.mod_small (snd d)) by assumption.
    change (0 mod W64) with 0. rewrite N.add_0_l. f_equal. lia.
  Qed.
End Pure.

(** ** Memory *)
(** the number of 8 bytes at [i] in the machine's order *)
Definition wn (cfg : config) (l : list byte) (i : N) : N := native_num cfg (firstn 8 (skipn (N.to_nat i) l)).
(** the lanes as they are in the memory *)
Definition acc_bytes (cfg : config) (v : list N) : list byte := flat_map (native cfg 8) v.
Definition pair_bytes (cfg : config) (v : N * N) : list byte := native cfg 8 (fst v) ++ native cfg 8 (snd v).
Definition small_lanes (v : list N) : Prop := length v = 8%nat /\ Forall (fun x => x < 2 ^ 64) v.

Lemma native_len : forall cfg n v, length (native cfg n v) = n.
Proof. intros. unfold native. destruct (big_endian cfg); [apply be_bytes_length|apply le_bytes_length]. Qed.
Lemma native_back : forall cfg v, v < 2 ^ 64 -> native_num cfg (native cfg 8 v) = v.
Proof.
  intros cfg v H. unfold native_num, native. destruct (big_endian cfg); [rewrite be_num_be_bytes|rewrite le_num_le_bytes]; now apply N.mod_small.
Qed.
Lemma acc_bytes_length : forall cfg v, length (acc_bytes cfg v) = (8 * length v)%nat.
Proof. intros cfg v. induction v as [|x v IH]; [reflexivity|]. cbn [acc_bytes flat_map length]. rewrite app_length, native_len. unfold acc_bytes in IH. lia. Qed.
Lemma wn_acc : forall cfg v i, Forall (fun x => x < 2 ^ 64) v -> (i < length v)%nat -> wn cfg (acc_bytes cfg v) (8 * N.of_nat i) = nth i v 0.
Proof.
  intros cfg v. induction v as [|x v IH]; intros i F L; [cbn [length] in L; lia|]. inversion F as [|? ? Hx F']; subst.
  unfold wn, acc_bytes. cbn [flat_map]. destruct i as [|i].
  - change (N.to_nat (8 * N.of_nat 0)) with 0%nat. cbn [skipn nth].
    rewrite firstn_app, native_len, Nat.sub_diag, firstn_O, app_nil_r, firstn_all2 by (rewrite native_len; lia). now apply native_back.
  - rewrite skipn_app, native_len, skipn_all2 by (rewrite native_len; lia). cbn [app nth].
    replace (N.to_nat (8 * N.of_nat (S i)) - 8)%nat with (N.to_nat (8 * N.of_nat i)) by lia.
    cbn [length] in L. rewrite <- (IH i F' ltac:(lia)). reflexivity.
Qed.
Lemma wn_lane : forall cfg v i, small_lanes v -> i < 8 -> wn cfg (acc_bytes cfg v) (8 * i) = lane v i.
Proof.
  intros cfg v i [L F] H. unfold lane. rewrite <- (N2Nat.id i) at 1. apply wn_acc; [exact F|lia].
Qed.
Lemma wn_lt : forall cfg l i, wn cfg l i < 2 ^ 64.
Proof.
  intros cfg l i. unfold wn, native_num. set (k := firstn 8 (skipn (N.to_nat i) l)).
  assert (L : (length k <= 8)%nat) by (unfold k; rewrite firstn_length; lia).
  assert (B : 256 ^ N.of_nat (length k) <= 2 ^ 64).
  { change (2 ^ 64) with (256 ^ N.of_nat 8). apply N.pow_le_mono_r; [discriminate|lia]. }
  destruct (big_endian cfg).
  - unfold be_num. pose proof (le_num_lt (rev k)) as H. rewrite rev_length in H. lia.
  - pose proof (le_num_lt k) as H. lia.
Qed.

Lemma skip2 : forall (a b : nat) (l : list byte), skipn a (skipn b l) = skipn (b + a) l.
Proof. intros a b. induction b as [|b IH]; intros l; [reflexivity|]. destruct l; [now rewrite skipn_nil|]. cbn [skipn Nat.add]. apply IH. Qed.
Lemma part8 : forall n k i (l : list byte), (k + 8 <= n)%nat ->
  firstn 8 (skipn k (firstn n (skipn (N.to_nat i) l))) = firstn 8 (skipn (N.to_nat (i + N.of_nat k)) l).
Proof.
  intros n k i l H. rewrite skipn_firstn_comm, firstn_firstn, skip2. f_equal; [lia|]. f_equal. lia.
Qed.
Lemma part_le : forall i l, of_bytes64 (firstn 16 (skipn (N.to_nat i) l)) = (w8 l i, w8 l (i + 8)).
Proof.
  intros i l. unfold of_bytes64, w8, word_at. f_equal.
  - pose proof (part8 16 0 i l ltac:(lia)) as E. cbn [skipn] in E. rewrite E. do 3 f_equal. lia.
  - rewrite (part8 16 8 i l) by lia. reflexivity.
Qed.
Lemma part_le32 : forall i l, of_bytes256 (firstn 32 (skipn (N.to_nat i) l)) = ((w8 l i, w8 l (i + 8)), (w8 l (i + 16), w8 l (i + 24))).
Proof.
  intros i l. unfold of_bytes256. rewrite firstn_firstn, skipn_firstn_comm, skip2. change (Nat.min 16 32) with 16%nat.
  replace (N.to_nat i + 16)%nat with (N.to_nat (i + 16)) by lia. change (32 - 16)%nat with 16%nat. rewrite !part_le.
  do 3 f_equal. lia.
Qed.
Lemma part_le64 : forall i l, of_bytes512 (firstn 64 (skipn (N.to_nat i) l)) =
  (((w8 l i, w8 l (i + 8)), (w8 l (i + 16), w8 l (i + 24))), ((w8 l (i + 32), w8 l (i + 40)), (w8 l (i + 48), w8 l (i + 56)))).
Proof.
  intros i l. unfold of_bytes512. rewrite firstn_firstn, skipn_firstn_comm, skip2. change (Nat.min 32 64) with 32%nat.
  replace (N.to_nat i + 32)%nat with (N.to_nat (i + 32)) by lia. change (64 - 32)%nat with 32%nat. rewrite !part_le32.
  do 3 f_equal; f_equal; lia || (f_equal; lia).
Qed.

Lemma for_rel : forall (P : nat -> mem -> Prop) n (body : N -> unit -> M unit) m, P 0%nat m ->
  (forall i m, (i < n)%nat -> P i m -> exists m', body (N.of_nat i) tt m = Ok (tt, m') /\ P (S i) m') ->
  exists m', for_loop n 0 body tt m = Ok (tt, m') /\ P n m'.
Proof.
  intros P n body m H0 H. induction n as [|n IH]; [exists m; split; [reflexivity|exact H0]|].
  destruct IH as (m1 & E & H1); [intros i m1 L; apply H; lia|]. destruct (H n m1 ltac:(lia) H1) as (m2 & E2 & H2).
  exists m2. split; [|exact H2]. now rewrite (for_loop_snoc _ _ _ _ _ _ _ _ E), N.add_0_l.
Qed.
(** a loop that writes [w] bytes after the other *)
Lemma chunks_loop : forall (w n : nat) (c : nat -> list byte) (body : N -> unit -> M unit) m a,
  (forall i, (i < n)%nat -> length (c i) = w) ->
  (forall i m', (i < n)%nat -> only m m' a (N.of_nat (w * i)) ->
    exists m'', body (N.of_nat i) tt m' = Ok (tt, m'') /\ bytes_at m'' (a + N.of_nat (w * i)) (c i) /\
      only m' m'' (a + N.of_nat (w * i)) (N.of_nat w)) ->
  exists m', for_loop n 0 body tt m = Ok (tt, m') /\ bytes_at m' a (flat_map c (seq 0 n)) /\ only m m' a (N.of_nat (w * n)).
Proof.
  intros w n c body m a Lc H.
  assert (LL : forall k, (k <= n)%nat -> length (flat_map c (seq 0 k)) = (w * k)%nat).
  { induction k as [|k IH]; intro L; [cbn; lia|]. rewrite seq_S, flat_map_app, app_length, IH by lia. cbn [flat_map Nat.add].
    rewrite app_nil_r, Lc by lia. lia. }
  apply (for_rel (fun k m' => bytes_at m' a (flat_map c (seq 0 k)) /\ only m m' a (N.of_nat (w * k)))).
  - split; [apply bytes_at_nil|apply only_refl].
  - intros i m1 L (B & O). destruct (H i m1 L O) as (m2 & E & B2 & O2). exists m2. split; [exact E|]. split.
    + rewrite seq_S, flat_map_app. apply bytes_at_app. cbn [flat_map Nat.add]. rewrite app_nil_r, LL by lia. split; [|exact B2].
      apply (only_bytes m1 m2 (a + N.of_nat (w * i)) (N.of_nat w) a _ O2); [|exact B]. unfold mlen. rewrite LL by lia. lia.
    + apply (only_trans m m1 m2).
      * apply (only_weaken _ _ a (N.of_nat (w * i))); [exact O|lia|lia].
      * apply (only_weaken _ _ (a + N.of_nat (w * i)) (N.of_nat w)); [exact O2|lia|lia].
Qed.

Lemma load_part : forall cfg m a l i n, here cfg m a l -> i + N.of_nat n <= mlen l ->
  load_bytes n (a + i) m = Ok (firstn n (skipn (N.to_nat i) l), m).
Proof.
  intros cfg m a l i n H L. destruct (here_part cfg m a l i n H L) as [B E]. rewrite <- E at 1. now apply load_bytes_ok.
Qed.
Lemma load_vector_part : forall cfg m a l i n, here cfg m a l -> i + N.of_nat n <= mlen l -> (a + i) mod N.of_nat n = 0 ->
  load_vector n (a + i) m = Ok (firstn n (skipn (N.to_nat i) l), m).
Proof. intros. unfold load_vector. rewrite H1, N.eqb_refl. now apply (load_part cfg). Qed.
Lemma store_vector_ok : forall n a l m, length l = n -> mapped m a n -> a mod N.of_nat n = 0 ->
  store_vector n a l m = Ok (tt, write m a l) /\ bytes_at (write m a l) a l /\ only m (write m a l) a (N.of_nat n).
Proof.
  intros n a l m <- H A. unfold store_vector. rewrite A, N.eqb_refl. split; [now apply store_bytes_ok|].
  split; [apply write_bytes_at|now apply only_write].
Qed.

(** ** Wider vectors are pairs *)
Definition small4 (v : V4x64U) : Prop := small2 (fst v) /\ small2 (snd v).
Definition small8 (v : V8x64U) : Prop := small4 (fst v) /\ small4 (snd v).
Lemma avx2_stripe : forall a d k, small4 a -> small4 d -> small4 k ->
  let dk := mm256_xor_si256 d k in
  mm256_add_epi64 (mm256_mul_epu32 dk (shuffle256 dk (MM_SHUFFLE 0 3 0 1))) (mm256_add_epi64 a (shuffle256 d (MM_SHUFFLE 1 0 3 2)))
  = both2 (fun a dk => stripe_pair a (fst dk) (snd dk)) a ((fst d, fst k), (snd d, snd k)).
Proof.
  intros a d k [Ha1 Ha2] [D1 D2] [K1 K2]. exact (f_equal2 pair (sse_stripe (fst a) _ _ D1 K1) (sse_stripe (snd a) _ _ D2 K2)).
Qed.
Lemma avx2_scramble : forall a k, small4 a -> small4 k ->
  let dk := mm256_xor_si256 (mm256_xor_si256 a (mm256_srli_epi64 a 47)) k in
  let prime := set1_32_256 XXH_PRIME32_1 in
  mm256_add_epi64 (mm256_mul_epu32 dk prime) (mm256_slli_epi64 (mm256_mul_epu32 (shuffle256 dk (MM_SHUFFLE 0 3 0 1)) prime) 32)
  = both2 scramble_pair a k.
Proof.
  intros a k [Ha1 Ha2] [K1 K2]. exact (f_equal2 pair (sse_scramble _ _ Ha1 K1) (sse_scramble _ _ Ha2 K2)).
Qed.
Lemma avx512_stripe : forall a d k, small8 a -> small8 d -> small8 k ->
  let dk := mm512_xor_si512 d k in
  mm512_add_epi64 (mm512_mul_epu32 dk (shuffle512 dk (MM_SHUFFLE 0 3 0 1))) (mm512_add_epi64 a (shuffle512 d (MM_SHUFFLE 1 0 3 2)))
  = both2 (fun a dk => both2 (fun a dk => stripe_pair a (fst dk) (snd dk)) a ((fst (fst dk), fst (snd dk)), (snd (fst dk), snd (snd dk))))
      a ((fst d, fst k), (snd d, snd k)).
Proof.
  intros a d k [Ha1 Ha2] [D1 D2] [K1 K2]. exact (f_equal2 pair (avx2_stripe _ _ _ Ha1 D1 K1) (avx2_stripe _ _ _ Ha2 D2 K2)).
Qed.
Lemma avx512_scramble : forall a k, small8 a -> small8 k ->
  let dk := mm512_xor_si512 (mm512_xor_si512 a (mm512_srli_epi64 a 47)) k in
  let prime := set1_32_512 XXH_PRIME32_1 in
  mm512_add_epi64 (mm512_mul_epu32 dk prime) (mm512_slli_epi64 (mm512_mul_epu32 (shuffle512 dk (MM_SHUFFLE 0 3 0 1)) prime) 32)
  = both2 (both2 scramble_pair) a k.
Proof.
  intros a k [Ha1 Ha2] [K1 K2]. exact (f_equal2 pair (avx2_scramble _ _ Ha1 K1) (avx2_scramble _ _ Ha2 K2)).
Qed.

(** ** One stripe *)
Lemma bytes64_length : forall v, length (bytes64 v) = 16%nat.
Proof. intros [x y]. unfold bytes64. now rewrite app_length, !le_bytes_length. Qed.
Lemma bytes256_length : forall v, length (bytes256 v) = 32%nat.
Proof. intro v. unfold bytes256. now rewrite app_length, !bytes64_length. Qed.
Lemma bytes512_length : forall v, length (bytes512 v) = 64%nat.
Proof. intro v. unfold bytes512. now rewrite app_length, !bytes256_length. Qed.
Lemma pair_bytes_length : forall cfg v, length (pair_bytes cfg v) = 16%nat.
Proof. intros. unfold pair_bytes. now rewrite app_length, !native_len. Qed.
Lemma pair_bytes_le : forall cfg v, big_endian cfg = false -> bytes64 v = pair_bytes cfg v.
Proof. intros cfg [x y] H. unfold pair_bytes, native. now rewrite H. Qed.
Lemma land_mod : forall a n, a mod 2 ^ n = 0 -> N.land a (N.ones n) =? 0 = true.
Proof. intros a n H. rewrite N.land_ones, H. reflexivity. Qed.
Lemma mod_add : forall a w k, w <> 0 -> a mod w = 0 -> (a + w * k) mod w = 0.
Proof. intros a w k W H. rewrite N.mul_comm, N.mod_add by exact W. exact H. Qed.

(** what the pairs of lanes become *)
Definition word2 (l : list byte) (j : N) (k : nat) : N * N := (w8 l (j + 8 * N.of_nat (2 * k)), w8 l (j + 8 * N.of_nat (2 * k + 1))).
Definition lane2 (v : list N) (k : nat) : N * N := (lane v (N.of_nat (2 * k)), lane v (N.of_nat (2 * k + 1))).
Definition stripe_at (sec : list byte) (i : N) (msg : list byte) (j : N) (v : list N) (k : nat) : N * N :=
  stripe_pair (lane2 v k) (word2 msg j k) (word2 sec i k).
Definition scramble_at (sec : list byte) (i : N) (v : list N) (k : nat) : N * N := scramble_pair (lane2 v k) (word2 sec i k).
Lemma stripe_pairs : forall cfg sec i msg j v, acc_bytes cfg (stripe_3 sec i msg j v) =
  flat_map (fun k => pair_bytes cfg (stripe_at sec i msg j v k)) (seq 0 4).
Proof.
  intros. unfold acc_bytes, stripe_3, each. change (below_n 8) with [0; 1; 2; 3; 4; 5; 6; 7]. cbn [map flat_map seq].
  unfold pair_bytes. rewrite <- !app_assoc. reflexivity.
Qed.
Lemma scramble_pairs : forall cfg sec i v, acc_bytes cfg (scramble sec i v) =
  flat_map (fun k => pair_bytes cfg (scramble_at sec i v k)) (seq 0 4).
Proof.
  intros. unfold acc_bytes, scramble, each. change (below_n 8) with [0; 1; 2; 3; 4; 5; 6; 7]. cbn [map flat_map seq].
  unfold pair_bytes. rewrite <- !app_assoc. reflexivity.
Qed.
Lemma word2_small : forall l j k, small2 (word2 l j k).
Proof. intros. split; apply w8_lt. Qed.
Lemma lane2_small : forall v k, small_lanes v -> small2 (lane2 v k).
Proof.
  intros v k [L F]. assert (G : forall i, lane v i < 2 ^ 64); [|split; apply G].
  intro i. unfold lane. destruct (nth_in_or_default (N.to_nat i) v 0) as [I| ->]; [|reflexivity].
  rewrite Forall_forall in F. now apply F.
Qed.
Lemma word2_part : forall l j k, of_bytes64 (firstn 16 (skipn (N.to_nat (j + 16 * N.of_nat k)) l)) = word2 l j k.
Proof. intros. rewrite part_le. unfold word2. f_equal; f_equal; lia. Qed.
Lemma word4_part : forall l j k, of_bytes256 (firstn 32 (skipn (N.to_nat (j + 32 * N.of_nat k)) l)) = (word2 l j (2 * k), word2 l j (2 * k + 1)).
Proof. intros. rewrite part_le32. unfold word2. f_equal; f_equal; f_equal; lia. Qed.
Lemma word8_part : forall l j, of_bytes512 (firstn 64 (skipn (N.to_nat j) l)) =
  ((word2 l j 0, word2 l j 1), (word2 l j 2, word2 l j 3)).
Proof.
  intros. rewrite part_le64. unfold word2.
  change (N.of_nat (2 * 0)) with 0. rewrite N.mul_0_r, N.add_0_r. reflexivity.
Qed.
Lemma w8_lane : forall cfg v i, big_endian cfg = false -> small_lanes v -> i < 8 -> w8 (acc_bytes cfg v) (8 * i) = lane v i.
Proof.
  intros cfg v i H S L. rewrite <- (wn_lane cfg v i S L). unfold wn, native_num. now rewrite H.
Qed.
Lemma word2_lane : forall cfg v k, big_endian cfg = false -> small_lanes v -> (k < 4)%nat -> word2 (acc_bytes cfg v) 0 k = lane2 v k.
Proof. intros cfg v k H S L. unfold word2, lane2. rewrite !N.add_0_l, !(w8_lane cfg v) by (auto; lia). reflexivity. Qed.

(** the array of accumulators *)
Definition accs_at (cfg : config) (m : mem) (a : N) (v : list N) : Prop := here cfg m a (acc_bytes cfg v) /\ small_lanes v.
(** [f] leaves [v'] in the array and everything else as it was *)
Definition turns (cfg : config) (f : M unit) (m : mem) (a : N) (v' : list N) : Prop :=
  exists m', f m = Ok (tt, m') /\ bytes_at m' a (acc_bytes cfg v') /\ only m m' a 64.
Definition apart_from (a p n : N) : Prop := a + 64 <= p \/ p + n <= a.

Lemma here_only : forall cfg m m' a n p l, only m m' a n -> a + n <= p \/ p + mlen l <= a -> here cfg m p l -> here cfg m' p l.
Proof. intros cfg m m' a n p l O D [B A]. split; [|exact A]. apply (only_bytes m m' a n p l O); [|exact B]. lia. Qed.

Section Stripe.
  Variable (cfg : config) (x3 : xxh3_build) (m : mem) (p q a : N) (msg sec : list byte) (v : list N).
  Hypothesis (Hm : here cfg m p msg) (Hs : here cfg m q sec) (Ha : accs_at cfg m a v).
  Hypothesis (Dm : apart_from a p (mlen msg)) (Ds : apart_from a q (mlen sec)).

  Lemma acc_len : mlen (acc_bytes cfg v) = 64.
  Proof. unfold mlen. rewrite acc_bytes_length. destruct Ha as [_ [L _]]. now rewrite L. Qed.
  Lemma acc_mapped : forall m' k n, only m m' a k -> forall o, o + N.of_nat n <= 64 -> mapped m' (a + o) n.
  Proof.
    intros m' k n O o L. apply (only_mapped m m' a k _ _ O). destruct Ha as [[B _] _]. apply bytes_at_mapped in B.
    intros x Hx. replace (a + o + N.of_nat x) with (a + N.of_nat (N.to_nat o + x)) by lia. apply B.
    pose proof acc_len as E. unfold mlen in E. lia.
  Qed.
  Lemma acc_space : a + 64 < addr_space cfg.
  Proof. destruct Ha as [[_ A] _]. rewrite acc_len in A. exact A. Qed.
  (** the rest of the array, after some of it has been written *)
  Lemma acc_chunk : forall m' k n, only m m' a k -> k + N.of_nat n <= 64 -> forall w, w <= 64 -> w = N.of_nat n -> (a + k) mod w = 0 ->
    load_vector n (a + k) m' = Ok (firstn n (skipn (N.to_nat k) (acc_bytes cfg v)), m').
  Proof.
    intros m' k n O L w W -> A. unfold load_vector. rewrite A, N.eqb_refl.
    assert (B : bytes_at m' (a + k) (firstn n (skipn (N.to_nat k) (acc_bytes cfg v)))).
    { apply (only_bytes m m' a k _ _ O); [right; lia|].
      exact (proj1 (here_part cfg m a (acc_bytes cfg v) k n (proj1 Ha) ltac:(rewrite acc_len; exact L))). }
    assert (E : length (firstn n (skipn (N.to_nat k) (acc_bytes cfg v))) = n).
    { pose proof acc_len as E. unfold mlen in E. rewrite firstn_length, skipn_length. lia. }
    rewrite <- E at 1. now apply load_bytes_ok.
  Qed.

  (** loops over vectors of [w] bytes *)
  Lemma vector_stripe : forall (w n : nat) (G : list byte -> list byte -> list byte -> list byte) i j,
    (w * n = 64)%nat -> (forall x y z, length (G x y z) = w) -> a mod N.of_nat w = 0 ->
    j + 64 <= mlen msg -> i + 64 <= mlen sec ->
    exists m', for_loop n 0 (fun k _ =>
      d <- load_bytes w (padd cfg (p + j) (N.of_nat w * k)) ;;
      s <- load_bytes w (padd cfg (q + i) (N.of_nat w * k)) ;;
      x <- load_vector w (padd cfg a (N.of_nat w * k)) ;;
      store_vector w (padd cfg a (N.of_nat w * k)) (G x d s)) tt m = Ok (tt, m') /\
    bytes_at m' a (flat_map (fun k => G (firstn w (skipn (N.to_nat (0 + N.of_nat w * N.of_nat k)) (acc_bytes cfg v)))
                                      (firstn w (skipn (N.to_nat (j + N.of_nat w * N.of_nat k)) msg))
                                      (firstn w (skipn (N.to_nat (i + N.of_nat w * N.of_nat k)) sec))) (seq 0 n)) /\
    only m m' a 64.
  Proof.
    intros w n G i j W LG A Lj Li. pose proof acc_space as SP. replace 64 with (N.of_nat (w * n)) by lia. apply chunks_loop.
    - intros k L. apply LG.
    - intros k m' L O. set (o := N.of_nat w * N.of_nat k).
      assert (Eo : N.of_nat (w * k) = o) by (unfold o; lia). rewrite Eo in *.
      assert (Lo : o + N.of_nat w <= 64) by (unfold o; nia).
      assert (O64 : only m m' a 64) by (apply (only_weaken _ _ a o); [exact O|lia|lia]).
      pose proof (here_only _ _ _ _ _ _ _ O64 Dm Hm) as Hm'. pose proof (here_only _ _ _ _ _ _ _ O64 Ds Hs) as Hs'.
      rewrite (at_ij cfg m' p msg j o Hm'), (at_ij cfg m' q sec i o Hs') by lia. rewrite (padd_small cfg a o) by lia.
      ok (load_part cfg m' p msg (j + o) w Hm' ltac:(lia)). ok (load_part cfg m' q sec (i + o) w Hs' ltac:(lia)).
      assert (Ao : (a + o) mod N.of_nat w = 0) by (apply mod_add; [nia|exact A]).
      ok (acc_chunk m' o w O Lo (N.of_nat w) ltac:(lia) eq_refl Ao). rewrite N.add_0_l.
      match goal with |- context [store_vector w (a + o) ?l m'] =>
        destruct (store_vector_ok w (a + o) l m' (LG _ _ _) (acc_mapped m' o w O o Lo) Ao) as (E & B & W2) end.
      rewrite E. eexists. split; [reflexivity|]. split; [exact B|exact W2].
  Qed.
  Lemma vector_scramble : forall (w n : nat) (G : list byte -> list byte -> list byte) i,
    (w * n = 64)%nat -> (forall x y, length (G x y) = w) -> a mod N.of_nat w = 0 -> i + 64 <= mlen sec ->
    exists m', for_loop n 0 (fun k _ =>
      x <- load_vector w (padd cfg a (N.of_nat w * k)) ;;
      s <- load_bytes w (padd cfg (q + i) (N.of_nat w * k)) ;;
      store_vector w (padd cfg a (N.of_nat w * k)) (G x s)) tt m = Ok (tt, m') /\
    bytes_at m' a (flat_map (fun k => G (firstn w (skipn (N.to_nat (0 + N.of_nat w * N.of_nat k)) (acc_bytes cfg v)))
                                      (firstn w (skipn (N.to_nat (i + N.of_nat w * N.of_nat k)) sec))) (seq 0 n)) /\
    only m m' a 64.
  Proof.
    intros w n G i W LG A Li. pose proof acc_space as SP. replace 64 with (N.of_nat (w * n)) by lia. apply chunks_loop.
    - intros k L. apply LG.
    - intros k m' L O. set (o := N.of_nat w * N.of_nat k).
      assert (Eo : N.of_nat (w * k) = o) by (unfold o; lia). rewrite Eo in *.
      assert (Lo : o + N.of_nat w <= 64) by (unfold o; nia).
      assert (O64 : only m m' a 64) by (apply (only_weaken _ _ a o); [exact O|lia|lia]).
      pose proof (here_only _ _ _ _ _ _ _ O64 Ds Hs) as Hs'.
      rewrite (at_ij cfg m' q sec i o Hs') by lia. rewrite (padd_small cfg a o) by lia.
      assert (Ao : (a + o) mod N.of_nat w = 0) by (apply mod_add; [nia|exact A]).
      ok (acc_chunk m' o w O Lo (N.of_nat w) ltac:(lia) eq_refl Ao). ok (load_part cfg m' q sec (i + o) w Hs' ltac:(lia)).
      rewrite N.add_0_l.
      match goal with |- context [store_vector w (a + o) ?l m'] =>
        destruct (store_vector_ok w (a + o) l m' (LG _ _) (acc_mapped m' o w O o Lo) Ao) as (E & B & W2) end.
      rewrite E. eexists. split; [reflexivity|]. split; [exact B|exact W2].
  Qed.
End Stripe.
