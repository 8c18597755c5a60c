(** From the caller's guarantee ([key_at]) to what the reading functions return. *)
From Coq Require Import ZArith NArith Arith List Bool Lia Strings.Byte.
From Coq Require Import ZifyN ZifyNat ZifyBool.
From Verif Require Import Bytes CSem Bits T1ha2 T1ha0 Spec NBits CSemFacts OpsFacts FetchFacts
  TailFacts ReadFacts KeyMem.
Import ListNotations.
Ltac Zify.zify_post_hook ::= Z.div_mod_to_equations.
Local Open Scope N_scope.

Lemma same_page : forall k x d, d < 2 ^ k - x mod 2 ^ k -> (x + d) / 2 ^ k = x / 2 ^ k.
Proof.
  intros k x d H. pose proof (pow2_pos k). set (q := 2 ^ k) in *. clearbody q.
  pose proof (N.div_mod x q ltac:(lia)) as D. symmetry.
  apply N.div_unique with (r := x mod q + d); [lia|].
  rewrite D at 1. generalize (q * (x / q)) (x mod q). intros. lia.
Qed.
Lemma same_page_down : forall k x d, d <= x mod 2 ^ k -> (x - d) / 2 ^ k = x / 2 ^ k.
Proof.
  intros k x d H. pose proof (pow2_pos k). set (q := 2 ^ k) in *. clearbody q.
  pose proof (N.div_mod x q ltac:(lia)) as D. pose proof (N.mod_lt x q ltac:(lia)). symmetry.
  apply N.div_unique with (r := x mod q - d); [lia|].
  rewrite D at 1. revert H. generalize (q * (x / q)) (x mod q). intros. lia.
Qed.

(** can_read_underside: which addresses it accepts *)
Lemma underside_eq : forall cfg k s p, pagesize cfg = 2 ^ k -> s <= k ->
  can_read_underside cfg p (2 ^ s) = (2 ^ s <=? p mod 2 ^ k).
Proof.
  intros cfg k s p E H. unfold can_read_underside. rewrite E.
  assert (P : 2 ^ k = 2 ^ s * 2 ^ (k - s)) by (rewrite <- N.pow_add_r; f_equal; lia).
  replace (2 ^ k - 2 ^ s) with (N.ones (k - s) * 2 ^ s).
  2:{ rewrite N.ones_equiv, P. pose proof (pow2_pos (k - s)). pose proof (pow2_pos s). nia. }
  rewrite N.land_comm, land_mask, P.
  rewrite N.mod_mul_r by (apply N.pow_nonzero; lia).
  pose proof (pow2_pos s). pose proof (N.mod_lt p (2 ^ s) ltac:(lia)).
  set (y := (p / 2 ^ s) mod 2 ^ (k - s)). clearbody y.
  destruct (N.eqb_spec (y * 2 ^ s) 0) as [Z|Z]; cbn [negb]; symmetry.
  - apply N.leb_gt. assert (y = 0) by nia. subst y. lia.
  - apply N.leb_le. assert (1 <= y) by (destruct y; [cbn in Z; congruence|lia]). nia.
Qed.

Lemma pow_divides : forall s k, s <= k -> forall x, (x mod 2 ^ k) mod 2 ^ s = x mod 2 ^ s.
Proof.
  intros s k H x. assert (P : 2 ^ k = 2 ^ s * 2 ^ (k - s)) by (rewrite <- N.pow_add_r; f_equal; lia).
  apply mod_mod_divides; [apply N.pow_nonzero; lia|apply N.pow_nonzero; lia|].
  rewrite P, N.mul_comm. apply N.mod_mul. apply N.pow_nonzero. lia.
Qed.

(** an [2^s]-aligned word does not straddle pages *)
Lemma aligned_room : forall s k x, s <= k -> x mod 2 ^ s = 0 -> 2 ^ s <= 2 ^ k - x mod 2 ^ k.
Proof.
  intros s k x H A. rewrite <- (pow_divides s k H) in A.
  assert (P : 2 ^ k = 2 ^ s * 2 ^ (k - s)) by (rewrite <- N.pow_add_r; f_equal; lia).
  pose proof (pow2_pos s). pose proof (N.mod_lt x (2 ^ k) ltac:(apply N.pow_nonzero; discriminate)) as B.
  set (y := x mod 2 ^ k) in *. clearbody y.
  pose proof (N.div_mod y (2 ^ s) ltac:(apply N.pow_nonzero; discriminate)) as D. rewrite A, N.add_0_r in D.
  rewrite P in B |- *. set (z := y / 2 ^ s) in *. clearbody z. clear A P. subst y.
  set (c := 2 ^ s) in *. set (d := 2 ^ (k - s)) in *. clearbody c d.
  assert (z < d) by (apply (N.mul_lt_mono_pos_l c); assumption).
  assert (c * (z + 1) <= c * d) by (apply N.mul_le_mono_l; lia). lia.
Qed.

Lemma addr_space_pages : forall cfg k x, k <= 32 -> x < addr_space cfg ->
  x + (2 ^ k - x mod 2 ^ k) <= addr_space cfg.
Proof.
  intros cfg k x H A. pose proof (pow2_pos k).
  assert (D : exists q, addr_space cfg = q * 2 ^ k).
  { unfold addr_space. destruct (ptr64 cfg).
    - exists (2 ^ (64 - k)). rewrite <- N.pow_add_r. replace (64 - k + k) with 64 by lia. reflexivity.
    - exists (2 ^ (32 - k)). rewrite <- N.pow_add_r. replace (32 - k + k) with 32 by lia. reflexivity. }
  destruct D as [q D]. rewrite D in *. pose proof (N.div_mod x (2 ^ k) ltac:(lia)) as E.
  pose proof (N.mod_lt x (2 ^ k) ltac:(lia)).
  set (y := x / 2 ^ k) in *. set (z := 2 ^ k) in *. set (r := x mod z) in *. clearbody y z r. clear D.
  assert (y < q) by (destruct (N.lt_ge_cases y q) as [?|G]; [assumption|]; pose proof (N.mul_le_mono_l q y z G); lia).
  assert (z * (y + 1) <= z * q) by (apply N.mul_le_mono_l; lia). lia.
Qed.

Section Page.
  Variables (cfg : config) (m : mem).

  Lemma around_ok : forall s p l, 2 <= s <= 3 -> (1 <= length l)%nat -> key_at cfg m p l ->
    around cfg m (N.to_nat (2 ^ s)) p (length l).
  Proof.
    intros s p l Hs L (H & A & P) U.
    assert (F : fast_oneshot cfg = true).
    { unfold has_underside in U. unfold fast_oneshot. destruct (oneshot cfg), (asan cfg), (is_unable cfg), (42 <? pagesize cfg); cbn in *; congruence. }
    assert (BP : 42 < pagesize cfg).
    { unfold has_underside in U. destruct (N.ltb_spec 42 (pagesize cfg)); [assumption|].
      rewrite andb_false_r in U. cbn in U. discriminate. }
    destruct (P F) as ((k & K & E) & R).
    assert (R0 : forall a, a / 2 ^ k = p / 2 ^ k -> m a <> None).
    { intros a Ha. apply (R 0); [unfold mlen; lia|]. rewrite E, N.add_0_r. exact Ha. }
    rewrite E in BP. assert (B16 : 2 * 2 ^ s <= 2 ^ k).
    { assert (2 ^ s <= 2 ^ 3) by (apply N.pow_le_mono_r; lia). change (2 ^ 3) with 8 in *. lia. }
    rewrite Nnat.N2Nat.id, (underside_eq cfg k s p E) by lia.
    pose proof (pow2_pos s). pose proof (N.mod_le p (2 ^ k) ltac:(apply N.pow_nonzero; discriminate)).
    destruct (N.leb_spec (2 ^ s) (p mod 2 ^ k)) as [C|C].
    - split; [lia|]. intros i Hi. apply R0.
      replace (p - N.of_nat (N.to_nat (2 ^ s) - length l) + N.of_nat i)
        with (p - (N.of_nat (N.to_nat (2 ^ s) - length l) - N.of_nat i)) by lia.
      apply same_page_down. lia.
    - split.
      + pose proof (addr_space_pages cfg k p ltac:(lia) ltac:(lia)). lia.
      + intros i Hi. apply R0. apply same_page. lia.
  Qed.

  Lemma after_ok : forall s p l, s <= 3 -> (1 <= length l)%nat -> key_at cfg m p l ->
    (fast_oneshot cfg = true -> p mod 2 ^ s = 0) -> after cfg m (N.to_nat (2 ^ s)) p.
  Proof.
    intros s p l Hs L (H & A & P) AL F. specialize (AL F).
    destruct (P F) as ((k & K & E) & R).
    pose proof (aligned_room s k p ltac:(lia) AL).
    intros i Hi. apply (R 0); [unfold mlen; lia|]. rewrite E, N.add_0_r. apply same_page. lia.
  Qed.

  Lemma key_at_skip : forall p b r, key_at cfg m p (b ++ r) -> key_at cfg m (p + mlen b) r.
  Proof.
    intros p b r (H & A & P). apply bytes_at_app in H. destruct H as [_ H].
    unfold mlen in *. rewrite app_length in *.
    split; [exact H|]. split; [unfold mlen; lia|]. intro F. destruct (P F) as [K R]. split; [exact K|].
    intros i a Hi Ha. apply (R (N.of_nat (length b) + i)); [unfold mlen in *; lia|].
    rewrite Ha. f_equal. lia.
  Qed.

  Lemma key_at_skipn : forall p n l, (n <= length l)%nat -> key_at cfg m p l ->
    key_at cfg m (p + N.of_nat n) (skipn n l).
  Proof.
    intros p n l L H. rewrite <- (firstn_skipn n l) in H. apply key_at_skip in H.
    unfold mlen in H. now rewrite firstn_length_le in H.
  Qed.

  Lemma group_at : forall k p i l, (k * i + k <= length l)%nat -> key_at cfg m p l ->
    bytes_at m (p + N.of_nat (k * i)) (group k i l) /\ length (group k i l) = k /\
    p + N.of_nat (k * i) + N.of_nat k <= addr_space cfg.
  Proof.
    intros k p i l L (H & A & _). unfold group, mlen in *. split; [|split].
    - apply bytes_at_firstn, bytes_at_skipn; [exact H|lia].
    - rewrite firstn_length_le; [reflexivity|]. rewrite skipn_length. lia.
    - lia.
  Qed.

  Lemma al_step : forall n s p i, alignment cfg n = 2 ^ s -> al cfg n p -> (n mod N.to_nat (2 ^ s) = 0)%nat ->
    al cfg n (p + N.of_nat (n * i)).
  Proof.
    intros n s p i E A D. unfold al in *. rewrite E in *.
    pose proof (pow2_pos s).
    apply Nat.mod_divides in D; [|lia]. destruct D as [c ->].
    replace (p + N.of_nat (N.to_nat (2 ^ s) * c * i)) with (p + N.of_nat (c * i) * 2 ^ s) by nia.
    rewrite N.mod_add by lia. exact A.
  Qed.

  Lemma al8_step : forall p i, al cfg 8 p -> al cfg 8 (p + N.of_nat (8 * i)).
  Proof.
    intros p i A. unfold alignment in *.
    destruct (wide cfg) eqn:W.
    - apply (al_step 8 3); auto. cbn. now rewrite W.
    - apply (al_step 8 2); auto. cbn. now rewrite W.
  Qed.
  Lemma al4_step : forall p i, al cfg 4 p -> al cfg 4 (p + N.of_nat (4 * i)).
  Proof. intros p i A. apply (al_step 4 2); auto. Qed.

  (** ** 64-bit words *)
  Lemma skipn_len : forall n (l : list byte), length (skipn n l) = (length l - n)%nat.
  Proof. intros. apply skipn_length. Qed.

  Lemma mod_skip : forall k i (l : list byte) t, k <> 0%nat -> (k * i <= length l)%nat ->
    t mod N.of_nat k = mlen l mod N.of_nat k ->
    t mod N.of_nat k = mlen (skipn (k * i) l) mod N.of_nat k.
  Proof.
    intros k i l t K L ->. unfold mlen. rewrite skipn_length.
    replace (N.of_nat (length l)) with (N.of_nat (length l - k * i) + N.of_nat i * N.of_nat k) by nia.
    rewrite N.mod_add by lia. reflexivity.
  Qed.

  Lemma reads_le_unaligned : forall p msg, key_at cfg m p msg ->
    reads cfg m 8 le_num (fetch64_le_unaligned cfg) (tail64_le_unaligned cfg) p msg.
  Proof.
    intros p msg K. split.
    - intros i Hi. destruct (group_at 8 p i msg Hi K) as (G1 & G2 & G3).
      now apply fetch64_le_unaligned_ok.
    - intros i t Hi Ht Hs. pose proof (key_at_skipn p (8 * i) msg ltac:(lia) K) as K'.
      pose proof (skipn_len (8 * i) msg) as L'. pose proof K' as (H' & A' & _). unfold mlen in A'.
      apply tail64_le_unaligned_ok; try assumption; try (unfold mlen; lia).
      + apply (mod_skip 8); [lia|lia|exact Ht].
      + apply (around_ok 3); [lia|lia|exact K'].
  Qed.
  Lemma reads_be_unaligned : forall p msg, be_tail_builds cfg -> key_at cfg m p msg ->
    reads cfg m 8 be_num (fetch64_be_unaligned cfg) (tail64_be_unaligned cfg) p msg.
  Proof.
    intros p msg BB K. split.
    - intros i Hi. destruct (group_at 8 p i msg Hi K) as (G1 & G2 & G3).
      now apply fetch64_be_unaligned_ok.
    - intros i t Hi Ht Hs. pose proof (key_at_skipn p (8 * i) msg ltac:(lia) K) as K'.
      pose proof (skipn_len (8 * i) msg) as L'. pose proof K' as (H' & A' & _). unfold mlen in A'.
      apply tail64_be_unaligned_ok; try assumption; try (unfold mlen; lia).
      + apply (mod_skip 8); [lia|lia|exact Ht].
      + apply (around_ok 3); [lia|lia|exact K'].
  Qed.

  Lemma al8_after : forall p l, (1 <= length l)%nat -> key_at cfg m p l -> al cfg 8 p ->
    (fast_oneshot cfg = true -> wide cfg = true) -> after cfg m 8 p.
  Proof.
    intros p l L K A W. apply (after_ok 3 p l); [lia|assumption|assumption|].
    intro F. unfold al, alignment in A. now rewrite (W F) in A.
  Qed.

  Lemma reads_le_aligned : forall p msg, (fast_oneshot cfg = true -> wide cfg = true) ->
    al cfg 8 p -> key_at cfg m p msg ->
    reads cfg m 8 le_num (fetch64_le_aligned cfg) (tail64_le_aligned cfg) p msg.
  Proof.
    intros p msg W AL K. split.
    - intros i Hi. destruct (group_at 8 p i msg Hi K) as (G1 & G2 & G3).
      apply fetch64_le_aligned_ok; auto. now apply al8_step.
    - intros i t Hi Ht Hs. pose proof (key_at_skipn p (8 * i) msg ltac:(lia) K) as K'.
      pose proof (skipn_len (8 * i) msg) as L'. pose proof K' as (H' & A' & _). unfold mlen in A'.
      pose proof (al8_step p i AL).
      apply tail64_le_aligned_ok; try assumption; try (unfold mlen; lia).
      + apply (mod_skip 8); [lia|lia|exact Ht].
      + apply (al8_after _ (skipn (8 * i) msg)); try assumption. lia.
  Qed.
  Lemma reads_be_aligned : forall p msg, (fast_oneshot cfg = true -> wide cfg = true) ->
    al cfg 8 p -> key_at cfg m p msg ->
    reads cfg m 8 be_num (fetch64_be_aligned cfg) (tail64_be_aligned cfg) p msg.
  Proof.
    intros p msg W AL K. split.
    - intros i Hi. destruct (group_at 8 p i msg Hi K) as (G1 & G2 & G3).
      apply fetch64_be_aligned_ok; auto. now apply al8_step.
    - intros i t Hi Ht Hs. pose proof (key_at_skipn p (8 * i) msg ltac:(lia) K) as K'.
      pose proof (skipn_len (8 * i) msg) as L'. pose proof K' as (H' & A' & _). unfold mlen in A'.
      pose proof (al8_step p i AL).
      apply tail64_be_aligned_ok; try assumption; try (unfold mlen; lia).
      + apply (mod_skip 8); [lia|lia|exact Ht].
      + apply (al8_after _ (skipn (8 * i) msg)); try assumption. lia.
  Qed.

  (** ** 32-bit words *)
  Lemma reads32_le_unaligned : forall p msg, key_at cfg m p msg ->
    reads cfg m 4 le_num (fetch32_le_unaligned cfg) (tail32_le_unaligned cfg) p msg.
  Proof.
    intros p msg K. split.
    - intros i Hi. destruct (group_at 4 p i msg Hi K) as (G1 & G2 & G3).
      now apply fetch32_le_unaligned_ok.
    - intros i t Hi Ht Hs. pose proof (key_at_skipn p (4 * i) msg ltac:(lia) K) as K'.
      pose proof (skipn_len (4 * i) msg) as L'. pose proof K' as (H' & A' & _). unfold mlen in A'.
      apply tail32_le_unaligned_ok; try assumption; try (unfold mlen; lia).
      + apply (mod_skip 4); [lia|lia|exact Ht].
      + apply (around_ok 2); [lia|lia|exact K'].
  Qed.
  Lemma reads32_be_unaligned : forall p msg, key_at cfg m p msg ->
    reads cfg m 4 be_num (fetch32_be_unaligned cfg) (tail32_be_unaligned cfg) p msg.
  Proof.
    intros p msg K. split.
    - intros i Hi. destruct (group_at 4 p i msg Hi K) as (G1 & G2 & G3).
      now apply fetch32_be_unaligned_ok.
    - intros i t Hi Ht Hs. pose proof (key_at_skipn p (4 * i) msg ltac:(lia) K) as K'.
      pose proof (skipn_len (4 * i) msg) as L'. pose proof K' as (H' & A' & _). unfold mlen in A'.
      apply tail32_be_unaligned_ok; try assumption; try (unfold mlen; lia).
      + apply (mod_skip 4); [lia|lia|exact Ht].
      + apply (around_ok 2); [lia|lia|exact K'].
  Qed.
  Lemma reads32_le_aligned : forall p msg, al cfg 4 p -> key_at cfg m p msg ->
    reads cfg m 4 le_num (fetch32_le_aligned cfg) (tail32_le_aligned cfg) p msg.
  Proof.
    intros p msg AL K. split.
    - intros i Hi. destruct (group_at 4 p i msg Hi K) as (G1 & G2 & G3).
      apply fetch32_le_aligned_ok; auto. now apply al4_step.
    - intros i t Hi Ht Hs. pose proof (key_at_skipn p (4 * i) msg ltac:(lia) K) as K'.
      pose proof (skipn_len (4 * i) msg) as L'. pose proof K' as (H' & A' & _). unfold mlen in A'.
      pose proof (al4_step p i AL) as AL'.
      apply tail32_le_aligned_ok; try assumption; try (unfold mlen; lia).
      + apply (mod_skip 4); [lia|lia|exact Ht].
      + apply (after_ok 2 _ (skipn (4 * i) msg)); [lia|lia|assumption|]. intros _. exact AL'.
  Qed.
  Lemma reads32_be_aligned : forall p msg, al cfg 4 p -> key_at cfg m p msg ->
    reads cfg m 4 be_num (fetch32_be_aligned cfg) (tail32_be_aligned cfg) p msg.
  Proof.
    intros p msg AL K. split.
    - intros i Hi. destruct (group_at 4 p i msg Hi K) as (G1 & G2 & G3).
      apply fetch32_be_aligned_ok; auto. now apply al4_step.
    - intros i t Hi Ht Hs. pose proof (key_at_skipn p (4 * i) msg ltac:(lia) K) as K'.
      pose proof (skipn_len (4 * i) msg) as L'. pose proof K' as (H' & A' & _). unfold mlen in A'.
      pose proof (al4_step p i AL) as AL'.
      apply tail32_be_aligned_ok; try assumption; try (unfold mlen; lia).
      + apply (mod_skip 4); [lia|lia|exact Ht].
      + apply (after_ok 2 _ (skipn (4 * i) msg)); [lia|lia|assumption|]. intros _. exact AL'.
  Qed.

  (** ** The alignment test at the entry of each hash *)
  Lemma misaligned64_false : forall p, misaligned64 cfg p = false -> al cfg 8 p.
  Proof.
    intros p H. unfold misaligned64 in H. unfold al. apply negb_false_iff, N.eqb_eq in H.
    unfold alignment in *. destruct (wide cfg).
    - change (8 - 1) with 7 in H. now rewrite land7 in H.
    - change (4 - 1) with 3 in H. now rewrite land3 in H.
  Qed.
  Lemma misaligned32_false : forall p, misaligned32 cfg p = false -> al cfg 4 p.
  Proof.
    intros p H. unfold misaligned32 in H. unfold al. apply negb_false_iff, N.eqb_eq in H.
    unfold alignment in *. change (4 - 1) with 3 in H. now rewrite land3 in H.
  Qed.

  Lemma reads_le : forall p msg, whole_words_ok cfg -> key_at cfg m p msg ->
    reads cfg m 8 le_num (fetch64_le cfg (use_unaligned64 cfg p)) (tail64_le cfg (use_unaligned64 cfg p)) p msg.
  Proof.
    intros p msg WW K. unfold use_unaligned64, fetch64_le, tail64_le.
    destruct (is_efficient cfg) eqn:E; cbn [orb]; [now apply reads_le_unaligned|].
    destruct (misaligned64 cfg p) eqn:MA; [now apply reads_le_unaligned|].
    apply reads_le_aligned; auto using misaligned64_false.
    intro F. destruct (WW F) as [?|?]; [assumption|congruence].
  Qed.
End Page.
