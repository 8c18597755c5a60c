(** What the utility functions of tests/wyhash/wyhash.h compute. *)
From Coq Require Import ZArith NArith Arith List Bool Lia FinFun.
From Coq Require Import ZifyN ZifyNat ZifyBool.
From Verif Require Import CSem Spec NBits CSemFacts Inject Onto Primes Wyhash WyhashSpec WyhashFacts WyhashUtils.
Import ListNotations.
Local Open Scope N_scope.

(** ** portable_popcount() *)
(** the number of bits of [x] that are set, among the first [n] *)
Definition weight_of (n : nat) (x : N) : nat := length (filter (N.testbit x) (map N.of_nat (seq 0 n))).

Lemma bit_split : forall b y i, b < 256 -> N.testbit (b + 256 * y) i = if i <? 8 then N.testbit b i else N.testbit y (i - 8).
Proof.
  intros b y i B. replace (b + 256 * y) with (b + y * 2 ^ 8) by (change (2 ^ 8) with 256; lia).
  rewrite <- lor_low_high by exact B. rewrite N.lor_spec. destruct (N.ltb_spec i 8) as [C|C].
  - now rewrite N.mul_pow2_bits_low, orb_false_r by exact C.
  - rewrite N.mul_pow2_bits_high by exact C. now rewrite (proj1 (small_bits b 8) B).
Qed.
Lemma weight_app : forall n b y, b < 256 -> weight_of (8 + n) (b + 256 * y) = (weight_of 8 b + weight_of n y)%nat.
Proof.
  intros n b y B. unfold weight_of. rewrite seq_app, map_app, filter_app, app_length. f_equal.
  - f_equal. apply filter_ext_in. intros i I. apply in_map_iff in I. destruct I as (k & <- & K). apply in_seq in K.
    rewrite bit_split by exact B. now replace (N.of_nat k <? 8) with true by (symmetry; apply N.ltb_lt; lia).
  - assert (G : forall s, length (filter (N.testbit (b + 256 * y)) (map N.of_nat (seq (8 + s) n))) =
      length (filter (N.testbit y) (map N.of_nat (seq s n)))); [|exact (G 0%nat)].
    induction n as [|n IH]; intros s; [reflexivity|].
    change (seq (8 + s) (S n)) with ((8 + s)%nat :: seq (8 + S s) n). change (seq s (S n)) with (s :: seq (S s) n).
    cbn [map filter]. rewrite bit_split by exact B.
    replace (N.of_nat (8 + s) <? 8) with false by (symmetry; apply N.ltb_ge; lia).
    replace (N.of_nat (8 + s) - 8) with (N.of_nat s) by lia. destruct (N.testbit y (N.of_nat s)); cbn [length]; now rewrite IH.
Qed.

(** the byte [m], [n] times *)
Fixpoint bytes_rep (m : N) (n : nat) : N := match n with O => 0 | S n => m + 256 * bytes_rep m n end.
Lemma land_step : forall k m n b y, b < 256 -> k <= 8 -> m < 2 ^ (8 - k) ->
  N.land (N.shiftr (b + 256 * y) k) (bytes_rep m (S n)) = N.land (N.shiftr b k) m + 256 * N.land (N.shiftr y k) (bytes_rep m n).
Proof.
  intros k m n b y B K L.
  assert (M : m < 256). { apply N.lt_le_trans with (1 := L). change 256 with (2 ^ 8). apply N.pow_le_mono_r; lia. }
  assert (T : N.land (N.shiftr b k) m < 256).
  { apply (small_bits _ 8). intros i I. rewrite N.land_spec, (proj1 (small_bits m 8) M) by exact I. apply andb_false_r. }
  apply N.bits_inj. intro i. rewrite bit_split by exact T. cbn [bytes_rep].
  rewrite N.land_spec, N.shiftr_spec', !bit_split by assumption. destruct (N.ltb_spec i 8) as [C|C].
  - rewrite N.land_spec, N.shiftr_spec'. destruct (N.ltb_spec (i + k) 8) as [D|D]; [reflexivity|].
    rewrite (proj1 (small_bits m (8 - k)) L i) by lia. now rewrite !andb_false_r.
  - rewrite N.land_spec, N.shiftr_spec'. replace (i + k <? 8) with false by (symmetry; apply N.ltb_ge; lia).
    now replace (i + k - 8) with (i - 8 + k) by lia.
Qed.
Lemma land_le : forall a b, N.land a b <= a.
Proof.
  intros a b. pose proof (N.lor_ldiff_and a b) as E.
  assert (D : N.land (N.ldiff a b) (N.land a b) = 0).
  { apply N.bits_inj. intro i. rewrite !N.land_spec, N.ldiff_spec, N.bits_0. now destruct (N.testbit a i), (N.testbit b i). }
  rewrite <- N.lxor_lor, <- N.add_nocarry_lxor in E by exact D. lia.
Qed.
Lemma shiftr_le : forall a k, N.shiftr a k <= a.
Proof. intros. rewrite N.shiftr_div_pow2. apply N.div_le_upper_bound; [apply N.pow_nonzero; discriminate|]. pose proof (pow2_pos k). nia. Qed.

Definition pairs (n : nat) (x : N) : N := x - N.land (N.shiftr x 1) (bytes_rep 0x55 n).
Definition nibbles (n : nat) (x : N) : N := N.land (N.shiftr x 0) (bytes_rep 0x33 n) + N.land (N.shiftr x 2) (bytes_rep 0x33 n).
Definition octets (n : nat) (x : N) : N := N.land (x + N.shiftr x 4) (bytes_rep 0x0f n).

Definition pairs1 (b : N) : N := b - N.land (N.shiftr b 1) 0x55.
Definition nibbles1 (b : N) : N := N.land (N.shiftr b 0) 0x33 + N.land (N.shiftr b 2) 0x33.
Definition octets1 (b : N) : N := (b + b / 16) mod 16.

Lemma pairs_step : forall n b y, b < 256 -> pairs (S n) (b + 256 * y) = pairs1 b + 256 * pairs n y.
Proof.
  intros n b y B. unfold pairs, pairs1. rewrite land_step; [|exact B|discriminate|reflexivity].
  pose proof (N.le_trans _ _ _ (land_le (N.shiftr b 1) 0x55) (shiftr_le b 1)).
  pose proof (N.le_trans _ _ _ (land_le (N.shiftr y 1) (bytes_rep 0x55 n)) (shiftr_le y 1)). lia.
Qed.
Lemma nibbles_step : forall n b y, b < 256 -> nibbles (S n) (b + 256 * y) = nibbles1 b + 256 * nibbles n y.
Proof.
  intros n b y B. unfold nibbles, nibbles1.
  rewrite !land_step; [lia|exact B|discriminate|reflexivity|exact B|discriminate|reflexivity].
Qed.
Lemma octets_step : forall n c w, c <= 68 -> c mod 16 <= 4 -> w mod 16 <= 4 -> octets (S n) (c + 256 * w) = octets1 c + 256 * octets n w.
Proof.
  intros n c w C C' Wl. unfold octets, octets1. rewrite !N.shiftr_div_pow2. change (2 ^ 4) with 16.
  replace (c + 256 * w + (c + 256 * w) / 16) with ((c + c / 16 + 16 * (w mod 16)) + 256 * (w + w / 16)) by lia.
  pose proof (land_step 0 0x0f n (c + c / 16 + 16 * (w mod 16)) (w + w / 16) ltac:(lia) ltac:(discriminate) ltac:(reflexivity)) as H.
  rewrite !N.shiftr_0_r in H. rewrite H. f_equal. change 0x0f with (N.ones 4). rewrite N.land_ones. change (2 ^ 4) with 16. lia.
Qed.

(** all 256 bytes *)
Definition byte_ok (b : N) : bool :=
  let c := nibbles1 (pairs1 b) in
  (pairs1 b <? 256) && (c <=? 68) && (c mod 16 <=? 4) && (octets1 c =? N.of_nat (weight_of 8 b)) && (weight_of 8 b <=? 8)%nat.
Lemma bytes_all_ok : forallb byte_ok (map N.of_nat (seq 0 256)) = true.
Proof. vm_compute. reflexivity. Qed.
Lemma byte_facts : forall b, b < 256 -> let c := nibbles1 (pairs1 b) in
  pairs1 b < 256 /\ c <= 68 /\ c mod 16 <= 4 /\ octets1 c = N.of_nat (weight_of 8 b) /\ N.of_nat (weight_of 8 b) <= 8.
Proof.
  intros b B c. pose proof (proj1 (forallb_forall _ _) bytes_all_ok b) as H.
  assert (I : In b (map N.of_nat (seq 0 256))).
  { apply in_map_iff. exists (N.to_nat b). split; [apply N2Nat.id|]. apply in_seq. lia. }
  specialize (H I). unfold byte_ok in H. fold c in H. rewrite !andb_true_iff in H. destruct H as ((((H1 & H2) & H3) & H4) & H5).
  apply N.ltb_lt in H1. apply N.leb_le in H2, H3. apply N.eqb_eq in H4. apply Nat.leb_le in H5. repeat split; try assumption. lia.
Qed.
Lemma byte_of : forall n x, x < 256 * n -> exists b y, b < 256 /\ y < n /\ x = b + 256 * y.
Proof. intros n x L. exists (x mod 256), (x / 256). lia. Qed.


(** the last three additions *)
Lemma sum_bytes : forall d0 d1 d2 d3 d4 d5 d6 d7, d0 <= 8 -> d1 <= 8 -> d2 <= 8 -> d3 <= 8 -> d4 <= 8 -> d5 <= 8 -> d6 <= 8 -> d7 <= 8 ->
  let x := d0 + 256 * (d1 + 256 * (d2 + 256 * (d3 + 256 * (d4 + 256 * (d5 + 256 * (d6 + 256 * d7)))))) in
  let x := add64 x (shr64 x 8) in let x := add64 x (shr64 x 16) in let x := add64 x (shr64 x 32) in
  u32 (N.land x 0x7f) = d0 + d1 + d2 + d3 + d4 + d5 + d6 + d7.
Proof.
  intros d0 d1 d2 d3 d4 d5 d6 d7 D0 D1 D2 D3 D4 D5 D6 D7 x.
  assert (X : add64 x (shr64 x 8) = (d0 + d1) + 256 * ((d1 + d2) + 256 * ((d2 + d3) + 256 * ((d3 + d4) + 256 * ((d4 + d5) + 256 * ((d5 + d6) + 256 * ((d6 + d7) + 256 * d7))))))).
  { unfold add64, shr64, u64. rewrite N.shiftr_div_pow2. change (2 ^ 8) with 256.
    rewrite (N.mod_small x) by (unfold x; lia).
    replace (x / 256) with (d1 + 256 * (d2 + 256 * (d3 + 256 * (d4 + 256 * (d5 + 256 * (d6 + 256 * d7)))))) by (unfold x; lia).
    rewrite N.mod_small by (unfold x; lia). unfold x. lia. }
  cbv zeta. rewrite X. clear X x. set (x := _ + 256 * _).
  assert (X : exists h, add64 x (shr64 x 16) = (d0 + d1 + d2 + d3) + 256 * ((d1 + d2 + d3 + d4) + 256 * ((d2 + d3 + d4 + d5) + 256 * ((d3 + d4 + d5 + d6) + 256 * (d4 + d5 + d6 + d7 + 256 * h)))) /\ h < 0x300000).
  { exists ((d5 + d6 + d7) + 256 * ((d6 + d7) + 256 * d7)). split; [|lia]. unfold add64, shr64, u64. rewrite N.shiftr_div_pow2. change (2 ^ 16) with 65536.
    rewrite (N.mod_small x) by (unfold x; lia).
    replace (x / 65536) with ((d2 + d3) + 256 * ((d3 + d4) + 256 * ((d4 + d5) + 256 * ((d5 + d6) + 256 * ((d6 + d7) + 256 * d7))))) by (unfold x; lia).
    rewrite N.mod_small by (unfold x; lia). unfold x. lia. }
  destruct X as (h & X & Hh). rewrite X. clear X x. set (x := _ + 256 * _).
  assert (X : exists k, add64 x (shr64 x 32) = (d0 + d1 + d2 + d3 + d4 + d5 + d6 + d7) + 256 * k).
  { exists ((d1 + d2 + d3 + d4) + 256 * ((d2 + d3 + d4 + d5) + 256 * ((d3 + d4 + d5 + d6) + 256 * (d4 + d5 + d6 + d7 + 256 * h))) + h).
    unfold add64, shr64, u64. rewrite N.shiftr_div_pow2. change (2 ^ 32) with 4294967296.
    rewrite (N.mod_small x) by (unfold x; lia).
    replace (x / 4294967296) with (d4 + d5 + d6 + d7 + 256 * h) by (unfold x; lia).
    rewrite N.mod_small by (unfold x; lia). unfold x. lia. }
  destruct X as (k & X). rewrite X. change 0x7f with (N.ones 7). rewrite N.land_ones. change (2 ^ 7) with 128. unfold u32. lia.
Qed.

Lemma popcount_ok : forall x, x < W64 -> portable_popcount x = N.of_nat (weight_of 64 x).
Proof.
  intros x L. unfold portable_popcount.
  destruct (byte_of 0x100000000000000 x L) as (b0 & x1 & B0 & L1 & E0).
  destruct (byte_of 0x1000000000000 x1 L1) as (b1 & x2 & B1 & L2 & E1).
  destruct (byte_of 0x10000000000 x2 L2) as (b2 & x3 & B2 & L3 & E2).
  destruct (byte_of 0x100000000 x3 L3) as (b3 & x4 & B3 & L4 & E3).
  destruct (byte_of 0x1000000 x4 L4) as (b4 & x5 & B4 & L5 & E4).
  destruct (byte_of 0x10000 x5 L5) as (b5 & x6 & B5 & L6 & E5).
  destruct (byte_of 0x100 x6 L6) as (b6 & b7 & B6 & B7 & E6).
  destruct (byte_facts b0 B0) as (P0 & Q0 & R0 & S0 & T0). destruct (byte_facts b1 B1) as (P1 & Q1 & R1 & S1 & T1).
  destruct (byte_facts b2 B2) as (P2 & Q2 & R2 & S2 & T2). destruct (byte_facts b3 B3) as (P3 & Q3 & R3 & S3 & T3).
  destruct (byte_facts b4 B4) as (P4 & Q4 & R4 & S4 & T4). destruct (byte_facts b5 B5) as (P5 & Q5 & R5 & S5 & T5).
  destruct (byte_facts b6 B6) as (P6 & Q6 & R6 & S6 & T6). destruct (byte_facts b7 B7) as (P7 & Q7 & R7 & S7 & T7).
  assert (E7 : b7 = b7 + 256 * 0) by lia.
  (* the first step *)
  assert (F1 : sub64 x (N.land (shr64 x 1) 0x5555555555555555) = pairs 8 x).
  { unfold pairs. change (bytes_rep 0x55 8) with 0x5555555555555555. unfold sub64, shr64, u64. rewrite (N.mod_small x) by exact L.
    pose proof (N.le_trans _ _ _ (land_le (N.shiftr x 1) 0x5555555555555555) (shiftr_le x 1)) as Q. set (t := N.land _ _) in *. clearbody t.
    clear - L Q. rewrite (N.mod_small t) by lia. lia. }
  rewrite F1. clear F1.
  rewrite E0, E1, E2, E3, E4, E5, E6, E7, !pairs_step by assumption. change (pairs 0 0) with 0.
  set (c := pairs1 b0 + _).
  assert (F2 : add64 (N.land c 0x3333333333333333) (N.land (shr64 c 2) 0x3333333333333333) = nibbles 8 c).
  { assert (C : c < W64) by (unfold c; clear - P0 P1 P2 P3 P4 P5 P6 P7; lia).
    unfold nibbles. change (bytes_rep 0x33 8) with 0x3333333333333333. rewrite N.shiftr_0_r. unfold add64, shr64, u64.
    rewrite (N.mod_small c) by exact C. apply N.mod_small.
    pose proof (land_le 0x3333333333333333 c). pose proof (land_le 0x3333333333333333 (N.shiftr c 2)).
    rewrite (N.land_comm c), (N.land_comm (N.shiftr c 2)). lia. }
  rewrite F2. unfold c. clear F2 c. rewrite !nibbles_step by assumption. change (nibbles 0 0) with 0.
  set (c0 := nibbles1 (pairs1 b0)) in *. set (c1 := nibbles1 (pairs1 b1)) in *. set (c2 := nibbles1 (pairs1 b2)) in *.
  set (c3 := nibbles1 (pairs1 b3)) in *. set (c4 := nibbles1 (pairs1 b4)) in *. set (c5 := nibbles1 (pairs1 b5)) in *.
  set (c6 := nibbles1 (pairs1 b6)) in *. set (c7 := nibbles1 (pairs1 b7)) in *.
  assert (F3 : N.land (add64 (c0 + 256 * (c1 + 256 * (c2 + 256 * (c3 + 256 * (c4 + 256 * (c5 + 256 * (c6 + 256 * (c7 + 256 * 0))))))))
      (shr64 (c0 + 256 * (c1 + 256 * (c2 + 256 * (c3 + 256 * (c4 + 256 * (c5 + 256 * (c6 + 256 * (c7 + 256 * 0)))))))) 4)) 0x0f0f0f0f0f0f0f0f =
    octets1 c0 + 256 * (octets1 c1 + 256 * (octets1 c2 + 256 * (octets1 c3 + 256 * (octets1 c4 + 256 * (octets1 c5 + 256 * (octets1 c6 + 256 * octets1 c7))))))).
  { set (c := c0 + _). assert (C : c <= 68 * 0x101010101010101) by (unfold c; clear - Q0 Q1 Q2 Q3 Q4 Q5 Q6 Q7; lia).
    transitivity (octets 8 c).
    - unfold octets. change (bytes_rep 0x0f 8) with 0x0f0f0f0f0f0f0f0f. unfold add64, shr64, u64.
      pose proof (shiftr_le c 4) as Z. clear - C Z. rewrite (N.mod_small c) by lia. now rewrite N.mod_small by lia.
    - unfold c. clear C c. rewrite !octets_step; try assumption; try reflexivity; try (clear - R1 R2 R3 R4 R5 R6 R7; lia).
      change (octets 0 0) with 0. now rewrite N.mul_0_r, N.add_0_r. }
  rewrite F3. clear F3. rewrite S0, S1, S2, S3, S4, S5, S6, S7.
  rewrite (sum_bytes _ _ _ _ _ _ _ _ T0 T1 T2 T3 T4 T5 T6 T7).
  change 64%nat with (8 + (8 + (8 + (8 + (8 + (8 + (8 + (8 + 0))))))))%nat. rewrite !weight_app by assumption.
  change (weight_of 0 0) with 0%nat. clear. lia.
Qed.

(** ** wyrand() *)
Lemma wyp0_lt : wyp 0 < W64. Proof. reflexivity. Qed.
Lemma wyp1_lt : wyp 1 < W64. Proof. reflexivity. Qed.
Lemma wyrand_ok : forall native seed, seed < W64 ->
  wyrand native seed = (let s := add seed (wyp 0) in (mum s (xor s (wyp 1)), s)).
Proof.
  intros native seed L. unfold wyrand. cbv zeta. change (add64 seed (wyp 0)) with (add seed (wyp 0)).
  pose proof (add_lt64 seed (wyp 0)) as A. rewrite wymix_ok; [reflexivity|exact A|]. apply (lxor_lt 64); [exact A|exact wyp1_lt].
Qed.
Lemma wyrand_native : forall native seed, seed < W64 -> wyrand native seed = wyrand true seed.
Proof. intros native seed L. now rewrite !wyrand_ok by exact L. Qed.
Lemma wyrand_seed : forall native seed, snd (wyrand native seed) < W64.
Proof. intros. apply N.mod_lt. discriminate. Qed.

(** ** The words of make_secret() *)
Definition num256 (l : list N) : N := fold_right (fun c r => c + 256 * r) 0 l.

Lemma table_lt : forall c, In c wysecret_bytes -> c < 256.
Proof.
  intros c I. assert (H : forallb (fun c => c <? 256) wysecret_bytes = true) by reflexivity.
  apply N.ltb_lt, (proj1 (forallb_forall _ _) H c I).
Qed.
Lemma make_word_ok : forall native n k word seed, (k + n = 8)%nat -> word < 2 ^ (8 * N.of_nat k) -> seed < W64 ->
  exists l s, make_word native n (8 * N.of_nat k) word seed = (word + 2 ^ (8 * N.of_nat k) * num256 l, s) /\
    length l = n /\ Forall (fun c => In c wysecret_bytes) l /\ s < W64.
Proof.
  intros native. induction n as [|n IH]; intros k word seed K L Q; cbn [make_word].
  { exists [], seed. cbn. rewrite N.mul_0_r, N.add_0_r. repeat split; auto. }
  rewrite (surjective_pairing (wyrand native seed)). set (r := fst _). set (seed' := snd _).
  set (c := nth _ _ _).
  assert (I : In c wysecret_bytes).
  { apply nth_In. pose proof (N.mod_lt r (N.of_nat (length wysecret_bytes)) ltac:(discriminate)). lia. }
  pose proof (table_lt c I) as C.
  assert (P : 0 < 2 ^ (8 * N.of_nat k)) by apply pow2_pos.
  assert (E : 2 ^ (8 * N.of_nat (S k)) = 256 * 2 ^ (8 * N.of_nat k)).
  { replace (8 * N.of_nat (S k)) with (8 + 8 * N.of_nat k) by lia. now rewrite N.pow_add_r. }
  assert (W : N.lor word (shl64 c (8 * N.of_nat k)) = word + c * 2 ^ (8 * N.of_nat k)).
  { unfold shl64, u64. rewrite N.shiftl_mul_pow2, N.mod_small; [now apply lor_low_high|].
    apply N.lt_le_trans with (2 ^ (8 * N.of_nat (S k))); [nia|]. change W64 with (2 ^ 64). apply N.pow_le_mono_r; lia. }
  rewrite W. replace (8 * N.of_nat k + 8) with (8 * N.of_nat (S k)) by lia.
  destruct (IH (S k) (word + c * 2 ^ (8 * N.of_nat k)) seed' ltac:(lia) ltac:(nia) (wyrand_seed native seed)) as (l & s & M & Ln & F & Ls).
  exists (c :: l), s. rewrite M. repeat split; [|cbn; lia|now constructor|exact Ls]. f_equal. cbn [num256 fold_right]. fold (num256 l). rewrite E. nia.
Qed.
Lemma make_word_native : forall native n j word seed, seed < W64 -> make_word native n j word seed = make_word true n j word seed.
Proof.
  intros native. induction n as [|n IH]; intros j word seed S; [reflexivity|]. cbn [make_word].
  rewrite wyrand_native by exact S. pose proof (wyrand_seed true seed) as Q. destruct (wyrand true seed) as (r & s). now apply IH.
Qed.

(** every byte is one of the table *)
Definition table_word (w : N) : Prop := w < 2 ^ 64 /\ forall k, k < 8 -> In (w / 256 ^ k mod 256) wysecret_bytes.
Lemma num256_word : forall l, Forall (fun c => In c wysecret_bytes) l ->
  num256 l < 256 ^ N.of_nat (length l) /\ forall k, (k < length l)%nat -> In (num256 l / 256 ^ N.of_nat k mod 256) wysecret_bytes.
Proof.
  induction 1 as [|c l I F (IH1 & IH2)]; [split; [reflexivity|cbn; lia]|].
  pose proof (table_lt c I) as C. cbn [num256 fold_right length]. fold (num256 l). split.
  - rewrite Nat2N.inj_succ, N.pow_succ_r'. nia.
  - intros [|k] K.
    + rewrite N.pow_0_r, N.div_1_r. replace (c + 256 * num256 l) with (c + num256 l * 256) by lia. now rewrite N.mod_add, N.mod_small.
    + rewrite Nat2N.inj_succ, N.pow_succ_r', <- N.div_div by (discriminate || (apply N.pow_nonzero; discriminate)).
      replace (c + 256 * num256 l) with (c + num256 l * 256) by lia. rewrite N.div_add, (N.div_small c), N.add_0_l by (discriminate || exact C).
      apply IH2. lia.
Qed.
Lemma make_word_table : forall native seed, seed < W64 ->
  table_word (fst (make_word native 8 0 0 seed)) /\ snd (make_word native 8 0 0 seed) < W64.
Proof.
  intros native seed S. destruct (make_word_ok native 8 0 0 seed eq_refl ltac:(reflexivity) S) as (l & s & E & L & F & Ls).
  change (8 * N.of_nat 0) with 0 in E. rewrite E. cbn [fst snd]. split; [|exact Ls].
  rewrite N.pow_0_r, N.mul_1_l, N.add_0_l. destruct (num256_word l F) as (A & B). rewrite L in A, B. split; [exact A|].
  intros k K. specialize (B (N.to_nat k) ltac:(lia)). now rewrite N2Nat.id in B.
Qed.
Lemma table_word_big : forall w, table_word w -> 2 ^ 32 <= w.
Proof.
  intros w (L & H). specialize (H 7 ltac:(reflexivity)). apply N.nlt_ge. intros B.
  rewrite N.div_small in H; [|apply N.lt_trans with (1 := B); reflexivity]. cbn in H. repeat (destruct H as [H|H]; [discriminate H|]). exact H.
Qed.

(** ** Trial division *)
Lemma trial_total : forall fuel j w, 0x100000000 <= j + 2 * N.of_nat fuel -> exists b, trial fuel j w = Some b.
Proof.
  induction fuel as [|f IH]; intros j w H; cbn [trial]; destruct (N.ltb_spec j 0x100000000) as [C|C]; try (now eexists); [lia|].
  destruct (w mod j =? 0); [now eexists|]. apply IH. unfold add64, u64. rewrite N.mod_small by lia. lia.
Qed.
Lemma trial_true : forall fuel j w, trial fuel j w = Some true -> 0 < j ->
  forall d, j <= d < 0x100000000 -> d mod 2 = j mod 2 -> ~ (d | w).
Proof.
  induction fuel as [|f IH]; intros j w H J d D P; cbn [trial] in H; destruct (N.ltb_spec j 0x100000000) as [C|C]; try lia; [discriminate H|].
  destruct (N.eqb_spec (w mod j) 0) as [Z|Z]; [discriminate H|].
  destruct (N.eq_dec d j) as [->|Nd].
  - intros V. apply Z, N.mod_divide; [lia|exact V].
  - assert (E : add64 j 2 = j + 2) by (unfold add64, u64; apply N.mod_small; lia). rewrite E in H. apply (IH _ _ H); lia.
Qed.
Lemma trial_false : forall fuel j w, trial fuel j w = Some false -> 0 < j -> exists d, j <= d < 0x100000000 /\ (d | w).
Proof.
  induction fuel as [|f IH]; intros j w H J; cbn [trial] in H; destruct (N.ltb_spec j 0x100000000) as [C|C]; try discriminate H.
  destruct (N.eqb_spec (w mod j) 0) as [Z|Z].
  - exists j. split; [lia|]. apply N.mod_divide; [lia|exact Z].
  - assert (E : add64 j 2 = j + 2) by (unfold add64, u64; apply N.mod_small; lia). rewrite E in H.
    destruct (IH _ _ H ltac:(lia)) as (d & D & V). exists d. split; [lia|exact V].
Qed.
Lemma odd_not_even : forall w d, w mod 2 <> 0 -> (d | w) -> d mod 2 = 1.
Proof.
  intros w d O (e & ->). assert (d mod 2 = 0 \/ d mod 2 = 1) as [Z|Z] by lia; [|exact Z]. exfalso. apply O.
  rewrite N.mul_mod, Z, N.mul_0_r by discriminate. reflexivity.
Qed.
Lemma trial_prime : forall fuel w, w mod 2 <> 0 -> 1 < w -> w < 2 ^ 64 -> trial fuel 3 w = Some true -> is_prime w.
Proof.
  intros fuel w O G L T. apply no_small_divisor_prime; [exact G|]. intros x X XX V.
  pose proof (odd_not_even w x O V) as P. apply (trial_true _ _ _ T ltac:(lia) x); [|exact P|exact V].
  split; [lia|]. change (2 ^ 64) with (0x100000000 * 0x100000000) in L. nia.
Qed.
Lemma prime_trial : forall fuel w, 2 ^ 31 <= N.of_nat fuel -> 2 ^ 32 <= w -> is_prime w -> trial fuel 3 w = Some true.
Proof.
  intros fuel w F G (_ & P). change (2 ^ 31) with 2147483648 in F. change (2 ^ 32) with 4294967296 in G.
  destruct (trial_total fuel 3 w ltac:(lia)) as ([|] & E); [exact E|]. exfalso.
  destruct (trial_false _ _ _ E ltac:(lia)) as (d & D & V). destruct (P d V); lia.
Qed.
Lemma composite_trial : forall fuel w d, 2 ^ 31 <= N.of_nat fuel -> 3 <= d < 2 ^ 32 -> d mod 2 = 1 -> (d | w) -> trial fuel 3 w = Some false.
Proof.
  intros fuel w d F D O V. change (2 ^ 31) with 2147483648 in F. change (2 ^ 32) with 4294967296 in D.
  destruct (trial_total fuel 3 w ltac:(lia)) as ([|] & E); [|exact E]. exfalso.
  now apply (trial_true _ _ _ E ltac:(lia) d ltac:(lia) O).
Qed.
Lemma trial_same : forall f g j w a b, trial f j w = Some a -> trial g j w = Some b -> a = b.
Proof.
  induction f as [|f IH]; intros [|g] j w a b H K; cbn [trial] in *; destruct (j <? 0x100000000); try congruence.
  destruct (w mod j =? 0); [congruence|]. exact (IH _ _ _ _ _ H K).
Qed.

(** ** make_secret() *)
Lemma element_same : forall f f' t t' e s a b, make_element true f t e s = Some a -> make_element true f' t' e s = Some b -> a = b.
Proof.
  induction f as [|f IH]; intros [|f'] t t' e s a b H K; cbn [make_element] in *; try discriminate.
  destruct (make_word true 8 0 0 s) as (w & s').
  destruct (word_ok t e w) as [x|] eqn:X; [|discriminate H]. destruct (word_ok t' e w) as [y|] eqn:Y; [|discriminate K].
  assert (x = y) as <-.
  { unfold word_ok in X, Y. destruct (w mod 2 =? 0); [congruence|]. destruct (negb (distances_ok e w)); [congruence|]. exact (trial_same _ _ _ _ _ _ X Y). }
  destruct x; [congruence|]. exact (IH _ _ _ _ _ _ _ H K).
Qed.
Lemma element_native : forall native f t e s, s < W64 -> make_element native f t e s = make_element true f t e s.
Proof.
  intros native. induction f as [|f IH]; intros t e s S; [reflexivity|]. cbn [make_element].
  rewrite make_word_native by exact S. pose proof (make_word_table true s S) as (_ & Q). destruct (make_word true 8 0 0 s) as (w & s').
  cbn [snd] in Q. destruct (word_ok t e w) as [[|]|]; [reflexivity|now apply IH|reflexivity].
Qed.
Lemma element_ok : forall f t e s w s', s < W64 -> make_element true f t e s = Some (w, s') ->
  s' < W64 /\ table_word w /\ is_prime w /\ distances_ok e w = true.
Proof.
  induction f as [|f IH]; intros t e s w s' S H; cbn [make_element] in H; [discriminate H|].
  pose proof (make_word_table true s S) as (T & Q). destruct (make_word true 8 0 0 s) as (x & s1). cbn [fst snd] in T, Q.
  destruct (word_ok t e x) as [[|]|] eqn:O; [|exact (IH _ _ _ _ _ Q H)|discriminate H].
  injection H as <- <-. unfold word_ok in O. destruct (N.eqb_spec (x mod 2) 0) as [Z|Z]; [discriminate O|].
  destruct (distances_ok e x) eqn:D; cbn [negb] in O; [|discriminate O].
  pose proof (table_word_big x T) as G. change (2 ^ 32) with 4294967296 in G.
  repeat split; try assumption; try apply T. 
  - lia.
  - apply (trial_prime t x Z ltac:(lia) (proj1 T) O).
Qed.
Lemma elements_native : forall native f t n e s, s < W64 -> make_elements native f t n e s = make_elements true f t n e s.
Proof.
  intros native f t. induction n as [|n IH]; intros e s S; [reflexivity|]. cbn [make_elements].
  rewrite element_native by exact S. destruct (make_element true f t e s) as [(w & s')|] eqn:E; [|reflexivity].
  apply IH. now apply (element_ok _ _ _ _ _ _ S E).
Qed.
Lemma elements_same : forall f f' t t' n e s a b, make_elements true f t n e s = Some a -> make_elements true f' t' n e s = Some b -> a = b.
Proof.
  intros f f' t t'. induction n as [|n IH]; intros e s a b H K; cbn [make_elements] in *; [congruence|].
  destruct (make_element true f t e s) as [x|] eqn:X; [|discriminate H]. destruct (make_element true f' t' e s) as [y|] eqn:Y; [|discriminate K].
  pose proof (element_same _ _ _ _ _ _ _ _ X Y) as <-. destruct x as (w & s'). exact (IH _ _ _ _ H K).
Qed.
(** all pairs of a list *)
Definition good_secret (e : list N) : Prop :=
  (forall w, In w e -> table_word w /\ is_prime w) /\
  forall i j x y, (i < j)%nat -> nth_error e i = Some x -> nth_error e j = Some y -> weight_of 64 (N.lxor x y) = 32%nat.
Lemma elements_ok : forall f t n e s r, s < W64 -> good_secret e -> make_elements true f t n e s = Some r ->
  good_secret r /\ length r = (length e + n)%nat.
Proof.
  intros f t. induction n as [|n IH]; intros e s r S G H; cbn [make_elements] in H; [injection H as <-; split; [exact G|lia]|].
  destruct (make_element true f t e s) as [(w & s')|] eqn:E; [|discriminate H].
  destruct (element_ok _ _ _ _ _ _ S E) as (S' & T & P & D).
  destruct (IH (e ++ [w]) s' r S') as (R1 & R2); [|exact H|split; [exact R1|rewrite R2, app_length; cbn; lia]].
  destruct G as (G1 & G2). split.
  - intros x I. apply in_app_or in I. destruct I as [I|[<-|[]]]; [now apply G1|now split].
  - intros i j x y IJ X Y. destruct (Nat.lt_ge_cases j (length e)) as [C|C].
    + rewrite nth_error_app1 in X, Y by lia. exact (G2 i j x y IJ X Y).
    + assert (j < length (e ++ [w]))%nat as B by (apply nth_error_Some; congruence). rewrite app_length in B. cbn in B.
      rewrite nth_error_app2 in Y by lia. replace (j - length e)%nat with 0%nat in Y by lia. injection Y as <-.
      rewrite nth_error_app1 in X by lia. apply nth_error_In in X.
      apply (proj1 (forallb_forall _ _) D) in X as Z. apply N.eqb_eq in Z.
      rewrite popcount_ok in Z; [lia|]. apply (lxor_lt 64); [apply (G1 x X)|apply T].
Qed.

(** ** The same with a table instead of trial division *)
Definition oracle (primes : list N) (factors : list (N * N)) (w : N) : option bool :=
  if existsb (N.eqb w) primes then Some true
  else match find (fun x => fst x =? w) factors with
       | Some (_, d) => if (3 <=? d) && (d <? 0x100000000) && (d mod 2 =? 1) && (w mod d =? 0) then Some false else None
       | None => None
       end.
Lemma oracle_ok : forall primes factors w b tfuel, Forall is_prime primes -> 2 ^ 31 <= N.of_nat tfuel -> 2 ^ 32 <= w ->
  oracle primes factors w = Some b -> trial tfuel 3 w = Some b.
Proof.
  intros primes factors w b tfuel P F G H. unfold oracle in H. destruct (existsb (N.eqb w) primes) eqn:E.
  - injection H as <-. apply existsb_exists in E. destruct E as (x & I & X). apply N.eqb_eq in X. subst x.
    apply prime_trial; [exact F|exact G|]. exact (proj1 (Forall_forall _ _) P w I).
  - destruct (find _ factors) as [(x & d)|]; [|discriminate H].
    destruct ((3 <=? d) && (d <? 0x100000000) && (d mod 2 =? 1) && (w mod d =? 0)) eqn:B; [|discriminate H]. injection H as <-.
    rewrite !andb_true_iff in B. destruct B as (((B1 & B2) & B3) & B4).
    apply N.leb_le in B1. apply N.ltb_lt in B2. apply N.eqb_eq in B3, B4.
    apply (composite_trial tfuel w d F); [change (2 ^ 32) with 0x100000000; lia|exact B3|]. apply N.mod_divide; [lia|exact B4].
Qed.
(** The bytes of a word, computed faster: all masks are powers of two. *)
Definition mask64 : N := 0xffffffffffffffff.
Fixpoint draw (n : nat) (seed : N) : list N * N :=
  match n with
  | O => ([], seed)
  | S n =>
      let s := N.land (seed + wyp 0) mask64 in
      let p := s * N.lxor s (wyp 1) in
      let c := nth (N.to_nat (N.lxor (N.land p mask64) (N.shiftr p 64) mod 70)) wysecret_bytes 0 in
      let '(l, s) := draw n s in (c :: l, s)
  end.
Lemma draw_rand : forall seed, seed < W64 ->
  wyrand true seed = let s := N.land (seed + wyp 0) mask64 in
    let p := s * N.lxor s (wyp 1) in (N.lxor (N.land p mask64) (N.shiftr p 64), s).
Proof.
  intros seed S. rewrite wyrand_ok by exact S. change mask64 with (N.ones 64). cbv zeta. rewrite !N.land_ones, N.shiftr_div_pow2. reflexivity.
Qed.
Lemma draw_length : forall n s, length (fst (draw n s)) = n.
Proof.
  induction n as [|n IH]; intros s; [reflexivity|]. cbn [draw]. cbv zeta. set (s' := N.land _ _).
  specialize (IH s'). destruct (draw n s') as (l & s2). cbn [fst length] in *. now rewrite IH.
Qed.
Lemma draw_ok : forall n k word seed, (k + n = 8)%nat -> word < 2 ^ (8 * N.of_nat k) -> seed < W64 ->
  make_word true n (8 * N.of_nat k) word seed = (word + 2 ^ (8 * N.of_nat k) * num256 (fst (draw n seed)), snd (draw n seed)).
Proof.
  induction n as [|n IH]; intros k word seed K L Q; cbn [make_word].
  { cbn. now rewrite N.mul_0_r, N.add_0_r. }
  pose proof (wyrand_seed true seed) as Qs. rewrite draw_rand in Qs |- * by exact Q. cbv zeta in Qs |- *. cbn [draw snd] in Qs |- *. cbv zeta.
  set (s' := N.land (seed + wyp 0) mask64) in *. set (r := N.lxor (N.land _ _) _). change (N.of_nat (length wysecret_bytes)) with 70.
  set (c := nth _ _ _).
  assert (I : In c wysecret_bytes).
  { apply nth_In. pose proof (N.mod_lt r 70 ltac:(discriminate)). change (length wysecret_bytes) with 70%nat. lia. }
  pose proof (table_lt c I) as C.
  assert (P : 0 < 2 ^ (8 * N.of_nat k)) by apply pow2_pos.
  assert (E : 2 ^ (8 * N.of_nat (S k)) = 256 * 2 ^ (8 * N.of_nat k)).
  { replace (8 * N.of_nat (S k)) with (8 + 8 * N.of_nat k) by lia. now rewrite N.pow_add_r. }
  assert (W : N.lor word (shl64 c (8 * N.of_nat k)) = word + c * 2 ^ (8 * N.of_nat k)).
  { unfold shl64, u64. rewrite N.shiftl_mul_pow2, N.mod_small; [now apply lor_low_high|].
    apply N.lt_le_trans with (2 ^ (8 * N.of_nat (S k))); [nia|]. change W64 with (2 ^ 64). apply N.pow_le_mono_r; lia. }
  rewrite W. replace (8 * N.of_nat k + 8) with (8 * N.of_nat (S k)) by lia.
  rewrite (IH (S k) (word + c * 2 ^ (8 * N.of_nat k)) s' ltac:(lia) ltac:(nia) Qs).
  destruct (draw n s') as (l & s2). cbn [fst snd num256 fold_right]. fold (num256 l). f_equal. rewrite E. nia.
Qed.
Lemma draw_word : forall s, s < W64 -> make_word true 8 0 0 s = (num256 (fst (draw 8 s)), snd (draw 8 s)).
Proof.
  intros s Q. rewrite (draw_ok 8 0 0 s eq_refl ltac:(reflexivity) Q : make_word true 8 0 0 s = _).
  change (2 ^ (8 * N.of_nat 0)) with 1. now rewrite N.mul_1_l, N.add_0_l.
Qed.
Lemma parity_word : forall l, l <> [] -> (num256 l mod 2 =? 0) = N.even (hd 0 l).
Proof.
  intros [|c l] Z; [easy|]. cbn [num256 fold_right hd]. fold (num256 l).
  pose proof (N.bit0_mod (c + 256 * num256 l)) as B. rewrite <- B, N.bit0_odd, N.odd_add, N.odd_mul.
  change (N.odd 256) with false. cbn [andb]. rewrite xorb_false_r, <- N.negb_odd. now destruct (N.odd c).
Qed.
(** counting the bits of a positive number *)
Fixpoint ones_of (p : positive) : nat := match p with xH => 1 | xO p => ones_of p | xI p => S (ones_of p) end.
Definition ones_in (x : N) : nat := match x with 0 => 0%nat | N.pos p => ones_of p end.
Lemma weight_step : forall n x, weight_of (S n) x = ((if N.odd x then 1 else 0) + weight_of n (N.div2 x))%nat.
Proof.
  intros n x. unfold weight_of. change (seq 0 (S n)) with (0%nat :: seq 1 n). cbn [map filter]. change (N.of_nat 0) with 0. rewrite N.bit0_odd.
  assert (G : forall s, length (filter (N.testbit x) (map N.of_nat (seq (S s) n))) = length (filter (N.testbit (N.div2 x)) (map N.of_nat (seq s n)))).
  { induction n as [|n IH]; intros s; [reflexivity|]. cbn [seq map filter]. 
    replace (N.testbit x (N.of_nat (S s))) with (N.testbit (N.div2 x) (N.of_nat s)).
    2:{ rewrite N.div2_spec, N.shiftr_spec'. f_equal. lia. }
    destruct (N.testbit (N.div2 x) (N.of_nat s)); cbn [length]; now rewrite IH. }
  destruct (N.odd x); cbn [length]; now rewrite G.
Qed.
Lemma ones_ok : forall n x, x < 2 ^ N.of_nat n -> weight_of n x = ones_in x.
Proof.
  induction n as [|n IH]; intros x L; [destruct x; [reflexivity|cbn in L; lia]|].
  rewrite weight_step, IH.
  2:{ rewrite Nat2N.inj_succ, N.pow_succ_r' in L. rewrite N.div2_div. apply N.div_lt_upper_bound; [discriminate|exact L]. }
  destruct x as [|[p|p|]]; reflexivity.
Qed.
Section WithTable.
  Variable look : N -> option bool.
  Fixpoint element_by (fuel : nat) (earlier : list N) (seed : N) : option (N * N) :=
    match fuel with
    | O => None
    | S fuel =>
        let '(l, seed) := draw 8 seed in
        if N.even (hd 0 l) then element_by fuel earlier seed
        else
          let word := num256 l in
          if forallb (fun s => Nat.eqb (ones_in (N.lxor s word)) 32) earlier then
            match look word with
            | None => None
            | Some true => Some (word, seed)
            | Some false => element_by fuel earlier seed
            end
          else element_by fuel earlier seed
    end.
  Fixpoint elements_by (fuel n : nat) (earlier : list N) (seed : N) : option (list N) :=
    match n with
    | O => Some earlier
    | S n => match element_by fuel earlier seed with None => None | Some (word, seed) => elements_by fuel n (earlier ++ [word]) seed end
    end.
  Variable tfuel : nat.
  Hypothesis agree : forall w b, 2 ^ 32 <= w -> look w = Some b -> trial tfuel 3 w = Some b.
  Lemma element_by_ok : forall fuel e s r, s < W64 -> (forall x, In x e -> x < W64) -> element_by fuel e s = Some r ->
    make_element true fuel tfuel e s = Some r.
  Proof.
    induction fuel as [|f IH]; intros e s r S B H; cbn [element_by make_element] in *; [discriminate H|].
    pose proof (make_word_table true s S) as (T & Q). pose proof (draw_word s S) as W. rewrite W in *. cbn [fst snd] in T, Q.
    pose proof (draw_length 8 s) as Ln. destruct (draw 8 s) as (l & s'). cbn [fst snd] in *.
    unfold word_ok. rewrite parity_word by (intros ->; discriminate Ln). destruct (N.even (hd 0 l)); [now apply IH|].
    assert (D : forallb (fun x => Nat.eqb (ones_in (N.lxor x (num256 l))) 32) e = distances_ok e (num256 l)).
    { unfold distances_ok. clear - B T. induction e as [|x e IH]; [reflexivity|]. cbn [forallb]. rewrite IH by (intros; apply B; now right). f_equal.
      assert (X : N.lxor x (num256 l) < W64) by (apply (lxor_lt 64); [apply B; now left|apply T]).
      rewrite popcount_ok by exact X. rewrite <- (ones_ok 64) by exact X. set (k := weight_of _ _). clearbody k. lia. }
    rewrite <- D. destruct (forallb _ e); cbn [negb]; [|now apply IH].
    destruct (look (num256 l)) as [b|] eqn:L; [|discriminate H]. rewrite (agree _ b (table_word_big _ T) L). destruct b; [exact H|now apply IH].
  Qed.
  Lemma elements_by_ok : forall fuel n e s r, s < W64 -> (forall x, In x e -> x < W64) -> elements_by fuel n e s = Some r ->
    make_elements true fuel tfuel n e s = Some r.
  Proof.
    intros fuel. induction n as [|n IH]; intros e s r S B H; cbn [elements_by make_elements] in *; [exact H|].
    destruct (element_by fuel e s) as [(w & s')|] eqn:E; [|discriminate H]. apply element_by_ok in E; [|exact S|exact B]. rewrite E.
    pose proof (element_ok _ _ _ _ _ _ S E) as (S' & T & _). apply IH; [exact S'| |exact H].
    intros x I. apply in_app_or in I. destruct I as [I|[<-|[]]]; [now apply B|apply T].
  Qed.
End WithTable.
