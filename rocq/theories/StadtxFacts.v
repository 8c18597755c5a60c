(** StadtX: the model computes the specification. *)
From Coq Require Import ZArith NArith Arith List Bool Lia Strings.Byte.
From Coq Require Import ZifyN ZifyNat ZifyBool.
From Verif Require Import Bytes CSem Bits Spec NBits CSemFacts OpsFacts FetchFacts T1ha2 Wyhash WyhashSpec WyhashFacts Stadtx StadtxSpec.
Import ListNotations.
Ltac Zify.zify_post_hook ::= Z.div_mod_to_equations.
Local Open Scope N_scope.

Lemma rotl_eq : forall x r, ROTL64 x r = rotl x r.
Proof. intros. unfold ROTL64, rotl. apply rot64_eq. lia. Qed.
Lemma rotr_eq : forall x r, r <= 64 -> ROTR64 x r = rotr x r.
Proof. intros. unfold ROTR64. now apply rot64_eq. Qed.
Ltac ops := unfold xor, add64, add, sub64, sub, mul64, mulw, u64; change (2 ^ 64) with 18446744073709551616;
  let K := fresh in set (K := 18446744073709551616); clearbody K; cbv zeta; rewrite ?rotl_eq, ?rotr_eq by discriminate.
Lemma short_final_ok : forall v, stadtx_short_final v = short_mix v.
Proof.
  intros [a b]. unfold stadtx_short_final, short_mix. ops. reflexivity.
Qed.
Lemma long_final_ok : forall v, stadtx_long_final v = long_mix v.
Proof.
  intros [[[a b] c] d]. unfold stadtx_long_final, long_mix. ops. reflexivity.
Qed.

Lemma words_cons : forall b r, length b = 8%nat -> words (b ++ r) = le_num b :: words r.
Proof.
  intros b r L. unfold words. rewrite app_length, L, div_plus_one by discriminate. rewrite first_groups_app by exact L. reflexivity.
Qed.
Lemma words_none : forall l, (length l < 8)%nat -> words l = [].
Proof. intros l L. unfold words. now rewrite Nat.div_small. Qed.
Lemma rest_cons : forall k b r, k <> 0%nat -> length b = k -> rest k (b ++ r) = rest k r.
Proof.
  intros k b r K L. unfold rest. rewrite app_length, L, div_plus_one by exact K.
  replace (k * S (length r / k))%nat with (length b + k * (length r / k))%nat by (rewrite L, Nat.mul_succ_r; apply Nat.add_comm).
  rewrite skipn_app, (skipn_all2 b) by apply Nat.le_add_r. cbn [app]. now rewrite Nat.add_comm, Nat.add_sub.
Qed.
Lemma rest_none : forall k l, (length l < k)%nat -> rest k l = l.
Proof. intros k l L. unfold rest. rewrite Nat.div_small by exact L. now rewrite Nat.mul_0_r. Qed.

Section Stadtx.
  Variables (cfg : config) (m : mem).

  Lemma short_word_ok : forall v p b r, length b = 8%nat -> bytes_at m p (b ++ r) -> p + 8 < addr_space cfg + 1 ->
    p + 8 < addr_space cfg -> stadtx_short_word cfg (v, p) m = Ok (short_word v (le_num b), p + 8, m).
  Proof.
    intros [a c] p b r L H _ A. apply bytes_at_app in H. destruct H as [H _]. unfold stadtx_short_word.
    ok (fetch64_le_unaligned_ok cfg m p b ltac:(lia) H L). unfold ret. cbv zeta.
    rewrite padd_small, !rotr_eq by (discriminate || lia). reflexivity.
  Qed.
  Lemma byte_ok : forall p l i x, nth_error l i = Some x -> bytes_at m p l -> p + mlen l < addr_space cfg ->
    stadtx_byte cfg p (N.of_nat i) m = Ok (b2n x, m).
  Proof.
    intros p l i x E H A. unfold stadtx_byte. assert (i < length l)%nat by (apply nth_error_Some; congruence).
    rewrite padd_small by (unfold mlen in A; lia). ok (load8_ok _ _ _ (H i x E)). reflexivity.
  Qed.

  Lemma add_assoc' : forall x y z, add (add x y) z = add x (y + z).
  Proof. intros. unfold add. rewrite N.add_mod_idemp_l by discriminate. f_equal. lia. Qed.
  Lemma shl_byte : forall x s, s <= 56 -> shl64 (b2n x) s = byte_at x s.
  Proof.
    intros x s H. unfold shl64, byte_at. rewrite N.shiftl_mul_pow2. apply u64_small.
    pose proof (b2n_lt x). assert (P : 2 ^ s <= 2 ^ 56) by (apply N.pow_le_mono_r; lia).
    change W64 with (256 * 2 ^ 56). nia.
  Qed.

  Lemma short_tail_ok : forall v p l len, (length l < 8)%nat -> N.land len 7 = mlen l -> bytes_at m p l -> p + mlen l < addr_space cfg ->
    stadtx_short_tail cfg len (v, p) m = Ok (short_rest v l, m).
  Proof.
    intros [a b] p l len L E H A. unfold stadtx_short_tail. rewrite E.
    assert (F : forall k, (k <= length l)%nat -> bytes_at m p (firstn k l)).
    { intros k K. now apply bytes_at_firstn. }
    assert (B : forall i x, nth_error l (N.to_nat i) = Some x -> stadtx_byte cfg p i m = Ok (b2n x, m)).
    { intros i x X. rewrite <- (N2Nat.id i). now apply byte_ok with l. }
    assert (F16 : forall x y, firstn 2 l = [x; y] -> fetch16_le_unaligned cfg p m = Ok (le_num [x; y], m)).
    { intros x y E2. assert (L2 : (2 <= length l)%nat) by (pose proof (f_equal (@length _) E2) as X; rewrite firstn_length in X; cbn [length] in X; lia).
      apply fetch16_le_unaligned_ok; [unfold mlen in A; lia| |reflexivity]. rewrite <- E2. now apply F. }
    assert (F32 : forall x y z t, firstn 4 l = [x; y; z; t] -> fetch32_le_unaligned cfg p m = Ok (le_num [x; y; z; t], m)).
    { intros x y z t E2. assert (L2 : (4 <= length l)%nat) by (pose proof (f_equal (@length _) E2) as X; rewrite firstn_length in X; cbn [length] in X; lia).
      apply fetch32_le_unaligned_ok; [unfold mlen in A; lia| |reflexivity]. rewrite <- E2. now apply F. }
    clear F E H A.
    destruct l as [|x0 [|x1 [|x2 [|x3 [|x4 [|x5 [|x6 [|x7 l]]]]]]]]; cbn [length] in L; try lia;
      unfold mlen; cbn [length N.of_nat Pos.of_succ_nat Pos.succ]; cbv beta iota zeta delta [N.leb N.compare Pos.compare Pos.compare_cont];
      unfold when, bind, ret; cbv beta iota; rewrite ?(F16 _ _ eq_refl), ?(F32 _ _ _ _ eq_refl).
    - cbn [short_rest]. now rewrite rotl_eq.
    - rewrite (B 0 _ eq_refl). cbn [short_rest]. now rewrite rotl_eq.
    - reflexivity.
    - rewrite (B 2 _ eq_refl). cbv beta iota. rewrite ?(F16 _ _ eq_refl), shl_byte by discriminate. reflexivity.
    - reflexivity.
    - rewrite (B 4 _ eq_refl). cbv beta iota. rewrite ?(F32 _ _ _ _ eq_refl), shl_byte by discriminate. reflexivity.
    - rewrite (B 5 _ eq_refl). cbv beta iota. rewrite (B 4 _ eq_refl). cbv beta iota.
      rewrite ?(F32 _ _ _ _ eq_refl), !shl_byte by discriminate. cbn [short_rest]. rewrite <- add_assoc'. reflexivity.
    - rewrite (B 6 _ eq_refl). cbv beta iota. rewrite (B 5 _ eq_refl). cbv beta iota. rewrite (B 4 _ eq_refl). cbv beta iota.
      rewrite ?(F32 _ _ _ _ eq_refl), !shl_byte by discriminate. cbn [short_rest]. rewrite <- !add_assoc'. reflexivity.
  Qed.

  Lemma long_tail_ok : forall a b c d p l len, (length l < 8)%nat -> N.land len 7 = mlen l -> bytes_at m p l -> p + mlen l < addr_space cfg ->
    stadtx_long_tail cfg (a, b, c, d, p, len) m = Ok (long_rest (a, b, c, d) l, m).
  Proof.
    intros a b c d p l len L E H A. unfold stadtx_long_tail. rewrite E.
    assert (F : forall k, (k <= length l)%nat -> bytes_at m p (firstn k l)).
    { intros k K. now apply bytes_at_firstn. }
    assert (B : forall i x, nth_error l (N.to_nat i) = Some x -> stadtx_byte cfg p i m = Ok (b2n x, m)).
    { intros i x X. rewrite <- (N2Nat.id i). now apply byte_ok with l. }
    assert (F16 : forall x y, firstn 2 l = [x; y] -> fetch16_le_unaligned cfg p m = Ok (le_num [x; y], m)).
    { intros x y E2. assert (L2 : (2 <= length l)%nat) by (pose proof (f_equal (@length _) E2) as X; rewrite firstn_length in X; cbn [length] in X; lia).
      apply fetch16_le_unaligned_ok; [unfold mlen in A; lia| |reflexivity]. rewrite <- E2. now apply F. }
    assert (F32 : forall x y z t, firstn 4 l = [x; y; z; t] -> fetch32_le_unaligned cfg p m = Ok (le_num [x; y; z; t], m)).
    { intros x y z t E2. assert (L2 : (4 <= length l)%nat) by (pose proof (f_equal (@length _) E2) as X; rewrite firstn_length in X; cbn [length] in X; lia).
      apply fetch32_le_unaligned_ok; [unfold mlen in A; lia| |reflexivity]. rewrite <- E2. now apply F. }
    assert (G16 : forall x y, firstn 2 (skipn 4 l) = [x; y] -> fetch16_le_unaligned cfg (padd cfg p 4) m = Ok (le_num [x; y], m)).
    { intros x y E2. assert (L2 : (6 <= length l)%nat).
      { pose proof (f_equal (@length _) E2) as X. rewrite firstn_length, skipn_length in X. cbn [length] in X. lia. }
      rewrite padd_small by (unfold mlen in A; lia).
      apply fetch16_le_unaligned_ok; [unfold mlen in A; lia| |reflexivity]. rewrite <- E2. apply bytes_at_firstn.
      exact (bytes_at_skipn m p 4 l H ltac:(lia)). }
    clear F E H A.
    destruct l as [|x0 [|x1 [|x2 [|x3 [|x4 [|x5 [|x6 [|x7 l]]]]]]]]; cbn [length] in L; try lia;
      unfold mlen; cbn [length N.of_nat Pos.of_succ_nat Pos.succ]; cbv beta iota zeta delta [N.leb N.compare Pos.compare Pos.compare_cont];
      unfold when, bind, ret; cbv beta iota; rewrite ?(F16 _ _ eq_refl), ?(G16 _ _ eq_refl); cbv beta iota; rewrite ?(F32 _ _ _ _ eq_refl).
    - cbn [long_rest]. now rewrite rotl_eq.
    - rewrite (B 0 _ eq_refl). cbn [long_rest]. now rewrite rotl_eq.
    - reflexivity.
    - rewrite (B 2 _ eq_refl). cbv beta iota. rewrite ?(F16 _ _ eq_refl). reflexivity.
    - reflexivity.
    - rewrite (B 4 _ eq_refl). cbv beta iota. rewrite ?(F32 _ _ _ _ eq_refl). reflexivity.
    - reflexivity.
    - rewrite (B 6 _ eq_refl). cbv beta iota. rewrite ?(G16 _ _ eq_refl). cbv beta iota. rewrite ?(F32 _ _ _ _ eq_refl). reflexivity.
  Qed.

  Lemma head_le : forall k (l : list byte), (k <= length l)%nat ->
    exists b r, l = b ++ r /\ length b = k /\ length r = (length l - k)%nat.
  Proof.
    intros k l H. exists (firstn k l), (skipn k l). rewrite firstn_skipn, firstn_length_le, skipn_length by lia. auto.
  Qed.

  Lemma short_words_ok : forall msg v p, (length msg < 32)%nat -> bytes_at m p msg -> p + mlen msg < addr_space cfg ->
    (x <- when (3 <=? shr64 (mlen msg) 3) (stadtx_short_word cfg) (v, p) ;;
     x <- when (2 <=? shr64 (mlen msg) 3) (stadtx_short_word cfg) x ;;
     x <- when (1 <=? shr64 (mlen msg) 3) (stadtx_short_word cfg) x ;; ret x) m
    = Ok (fold_left short_word (words msg) v, p + 8 * (mlen msg / 8), m).
  Proof.
    intros msg v p L H A.
    assert (SH : shr64 (mlen msg) 3 = mlen msg / 8).
    { unfold shr64. rewrite N.shiftr_div_pow2, u64_small by (unfold mlen; lia). reflexivity. }
    rewrite SH.
    assert (W : forall v p msg, (8 <= length msg)%nat -> bytes_at m p msg -> p + mlen msg < addr_space cfg ->
      exists b r, msg = b ++ r /\ length b = 8%nat /\ mlen msg = 8 + mlen r /\ bytes_at m (p + 8) r /\
        stadtx_short_word cfg (v, p) m = Ok (short_word v (le_num b), p + 8, m)).
    { clear. intros v p msg L H A. destruct (head_le 8 msg L) as (b & r & -> & Lb & Lr).
      assert (ML : mlen (b ++ r) = 8 + mlen r) by (unfold mlen; rewrite app_length; lia).
      exists b, r. repeat split; try assumption.
      - apply bytes_at_app in H. destruct H as [_ H]. now rewrite Lb in H.
      - apply short_word_ok with r; [exact Lb|exact H|lia|lia]. }
    destruct (Nat.le_gt_cases 24 (length msg)) as [C3|C3]; [|destruct (Nat.le_gt_cases 16 (length msg)) as [C2|C2];
      [|destruct (Nat.le_gt_cases 8 (length msg)) as [C1|C1]]].
    - assert (E : mlen msg / 8 = 3) by (unfold mlen; lia). rewrite E. cbv [when N.leb N.compare Pos.compare Pos.compare_cont]; cbv iota.
      destruct (W v p msg ltac:(lia) H A) as (b & r & -> & Lb & ML & Hr & E1). ok E1.
      assert (LR : length r = (length (b ++ r) - 8)%nat) by (rewrite app_length; lia).
      destruct (W (short_word v (le_num b)) (p + 8) r ltac:(lia) Hr ltac:(lia)) as (b' & r' & -> & Lb' & ML' & Hr' & E2). ok E2.
      assert (LR' : length r' = (length (b' ++ r') - 8)%nat) by (rewrite app_length; lia).
      destruct (W (short_word (short_word v (le_num b)) (le_num b')) (p + 8 + 8) r' ltac:(lia) Hr' ltac:(lia))
        as (b2 & r2 & -> & Lb2 & ML2 & Hr2 & E3). ok E3.
      assert (LR2 : length r2 = (length (b2 ++ r2) - 8)%nat) by (rewrite app_length; lia).
      rewrite !words_cons, words_none by (assumption || lia). unfold ret. replace (p + 8 * 3) with (p + 8 + 8 + 8) by lia. reflexivity.
    - assert (E : mlen msg / 8 = 2) by (unfold mlen; lia). rewrite E. cbv [when N.leb N.compare Pos.compare Pos.compare_cont]; cbv iota.
      rewrite bind_ret.
      destruct (W v p msg ltac:(lia) H A) as (b & r & -> & Lb & ML & Hr & E1). ok E1.
      assert (LR : length r = (length (b ++ r) - 8)%nat) by (rewrite app_length; lia).
      destruct (W (short_word v (le_num b)) (p + 8) r ltac:(lia) Hr ltac:(lia)) as (b' & r' & -> & Lb' & ML' & Hr' & E2). ok E2.
      assert (LR' : length r' = (length (b' ++ r') - 8)%nat) by (rewrite app_length; lia).
      rewrite !words_cons, words_none by (assumption || lia). unfold ret. replace (p + 8 * 2) with (p + 8 + 8) by lia. reflexivity.
    - assert (E : mlen msg / 8 = 1) by (unfold mlen; lia). rewrite E. cbv [when N.leb N.compare Pos.compare Pos.compare_cont]; cbv iota.
      rewrite !bind_ret.
      destruct (W v p msg ltac:(lia) H A) as (b & r & -> & Lb & ML & Hr & E1). ok E1.
      assert (LR : length r = (length (b ++ r) - 8)%nat) by (rewrite app_length; lia).
      rewrite !words_cons, words_none by (assumption || lia). unfold ret. replace (p + 8 * 1) with (p + 8) by lia. reflexivity.
    - assert (E : mlen msg / 8 = 0) by (unfold mlen; lia). rewrite E. cbv [when N.leb N.compare Pos.compare Pos.compare_cont]; cbv iota.
      rewrite !bind_ret, words_none by lia. unfold ret. now rewrite N.mul_0_r, N.add_0_r.
  Qed.

  Lemma rest_at : forall k l p, k <> 0%nat -> bytes_at m p l ->
    bytes_at m (p + N.of_nat k * (mlen l / N.of_nat k)) (rest k l) /\ length (rest k l) = (length l mod k)%nat /\
    mlen (rest k l) = mlen l mod N.of_nat k /\ mlen l = N.of_nat k * (mlen l / N.of_nat k) + mlen (rest k l).
  Proof.
    intros k l p K H. unfold rest.
    assert (M1 := Nat.div_mod (length l) k K).
    assert (LR : length (skipn (k * (length l / k)) l) = (length l mod k)%nat) by (rewrite skipn_length; lia).
    assert (DN : mlen l / N.of_nat k = N.of_nat (length l / k)) by (unfold mlen; now rewrite Nat2N.inj_div).
    assert (MN : mlen l mod N.of_nat k = N.of_nat (length l mod k)) by (unfold mlen; now rewrite Nat2N.inj_mod).
    rewrite DN, MN. split; [|split; [exact LR|split]].
    - rewrite <- Nat2N.inj_mul. apply bytes_at_skipn; [exact H|]. lia.
    - unfold mlen. now rewrite LR.
    - unfold mlen. rewrite LR, <- Nat2N.inj_mul, <- Nat2N.inj_add. now f_equal.
  Qed.
  Lemma land_7 : forall x, N.land x 7 = x mod 8.
  Proof. intro x. change 7 with (N.ones 3). apply N.land_ones. Qed.

  Lemma block_word : forall b r p i, length b = 32%nat -> (i < 4)%nat -> bytes_at m p (b ++ r) -> p + 32 < addr_space cfg ->
    fetch64_le_unaligned cfg (padd cfg p (8 * N.of_nat i)) m = Ok (le_num (group 8 i b), m).
  Proof.
    intros b r p i L I H A. rewrite padd_small by lia. apply fetch64_le_unaligned_ok.
    - lia.
    - apply bytes_at_app in H. destruct H as [H _]. unfold group. apply bytes_at_firstn.
      replace (8 * N.of_nat i) with (N.of_nat (8 * i)) by lia.
      apply bytes_at_skipn; [exact H|lia].
    - unfold group. rewrite firstn_length, skipn_length. lia.
  Qed.
  Lemma loop_ok : forall b r v p len, length b = 32%nat -> bytes_at m p (b ++ r) -> p + 32 < addr_space cfg ->
    stadtx_loop cfg (v, p, len) m = Ok (long_block v b, p + 32, sub64 len 32, m).
  Proof.
    intros b r [[[a0 a1] a2] a3] p len L H A. unfold stadtx_loop.
    ok (block_word b r p 0 L ltac:(lia) H A). ok (block_word b r p 1 L ltac:(lia) H A).
    ok (block_word b r p 2 L ltac:(lia) H A). ok (block_word b r p 3 L ltac:(lia) H A).
    unfold ret. rewrite padd_small by lia. unfold long_block. cbv zeta. rewrite !rotl_eq, !rotr_eq by discriminate. reflexivity.
  Qed.
  Lemma blocks_ok : forall n fuel msg v p, (length msg / 32 = S n)%nat -> (S n <= fuel)%nat -> bytes_at m p msg ->
    p + mlen msg < addr_space cfg ->
    do_while fuel (stadtx_loop cfg) (fun x : N * N * N * N * N * N => 32 <=? snd x) (v, p, mlen msg) m
    = Ok (fold_left long_block (first_groups 32 (S n) msg) v, p + 32 * (mlen msg / 32), mlen (rest 32 msg), m).
  Proof.
    pose proof (addr_space_le cfg) as AL.
    induction n as [|n IH]; intros fuel msg v p EN F H A.
    - destruct fuel as [|fuel]; [lia|]. destruct (head_le 32 msg ltac:(lia)) as (b & r & -> & Lb & Lr).
      rewrite app_length in *. assert (LR : (length r < 32)%nat) by lia.
      assert (ML : mlen (b ++ r) = 32 + mlen r) by (unfold mlen; rewrite app_length; lia).
      cbn [do_while]. ok (loop_ok b r v p (mlen (b ++ r)) Lb H ltac:(lia)). cbn [snd].
      replace (sub64 (mlen (b ++ r)) 32) with (mlen r) by (unfold sub64, u64; lia).
      replace (32 <=? mlen r) with false by (unfold mlen; lia). unfold ret.
      rewrite first_groups_app by exact Lb. rewrite rest_cons by (discriminate || exact Lb). rewrite rest_none by exact LR.
      replace (p + 32 * (mlen (b ++ r) / 32)) with (p + 32) by (rewrite ML; unfold mlen; lia). reflexivity.
    - destruct fuel as [|fuel]; [lia|]. destruct (head_le 32 msg ltac:(lia)) as (b & r & -> & Lb & Lr).
      rewrite app_length in EN, Lr. 
      assert (ER : (length r / 32 = S n)%nat) by lia.
      assert (ML : mlen (b ++ r) = 32 + mlen r) by (unfold mlen; rewrite app_length; lia).
      cbn [do_while]. ok (loop_ok b r v p (mlen (b ++ r)) Lb H ltac:(lia)). cbn [snd].
      replace (sub64 (mlen (b ++ r)) 32) with (mlen r) by (unfold sub64, u64; lia).
      replace (32 <=? mlen r) with true by (unfold mlen; lia).
      apply bytes_at_app in H. destruct H as [_ H]. rewrite Lb in H. change (N.of_nat 32) with 32 in H.
      rewrite (IH fuel r (long_block v b) (p + 32) ER ltac:(lia) H ltac:(lia)).
      rewrite (first_groups_app 32 (S n)) by exact Lb. cbn [fold_left]. rewrite (rest_cons 32 b r) by (discriminate || exact Lb).
      replace (p + 32 * (mlen (b ++ r) / 32)) with (p + 32 + 32 * (mlen r / 32)) by (rewrite ML; lia). reflexivity.
  Qed.

  Lemma long_words_ok : forall msg v p, (length msg < 32)%nat -> bytes_at m p msg -> p + mlen msg < addr_space cfg ->
    stadtx_long_words cfg (v, p, mlen msg) m
    = Ok (let '(a, b, c, d) := long_words v (words msg) in
          (xor a (mulw (mlen msg + 1) 0x9c1b8e1e9628323f), b, c, d, p + 8 * (mlen msg / 8), mlen msg), m).
  Proof.
    intros msg [[[a b] c] d] p L H A.
    assert (SH : shr64 (mlen msg) 3 = mlen msg / 8).
    { unfold shr64. rewrite N.shiftr_div_pow2, u64_small by (unfold mlen; lia). reflexivity. }
    assert (A1 : add64 (mlen msg) 1 = mlen msg + 1) by (apply u64_small; unfold mlen; lia).
    assert (W : forall p msg, (8 <= length msg)%nat -> bytes_at m p msg -> p + mlen msg < addr_space cfg ->
      exists b r, msg = b ++ r /\ length b = 8%nat /\ mlen msg = 8 + mlen r /\ bytes_at m (p + 8) r /\
        fetch64_le_unaligned cfg p m = Ok (le_num b, m) /\ padd cfg p 8 = p + 8).
    { clear. intros p msg L H A. destruct (head_le 8 msg L) as (b & r & -> & Lb & Lr).
      assert (ML : mlen (b ++ r) = 8 + mlen r) by (unfold mlen; rewrite app_length; lia).
      apply bytes_at_app in H. destruct H as [H1 H2]. rewrite Lb in H2.
      exists b, r. repeat split; try assumption.
      - apply fetch64_le_unaligned_ok; [lia|exact H1|exact Lb].
      - apply padd_small. lia. }
    unfold stadtx_long_words. rewrite SH, A1.
    destruct (Nat.le_gt_cases 24 (length msg)) as [C3|C3]; [|destruct (Nat.le_gt_cases 16 (length msg)) as [C2|C2];
      [|destruct (Nat.le_gt_cases 8 (length msg)) as [C1|C1]]].
    - assert (E : mlen msg / 8 = 3) by (unfold mlen; lia). rewrite E. cbv [when N.leb N.compare Pos.compare Pos.compare_cont]; cbv iota.
      destruct (W p msg ltac:(lia) H A) as (x & r & -> & Lb & ML & Hr & E1 & P1).
      assert (LR : length r = (length (x ++ r) - 8)%nat) by (rewrite app_length; lia).
      destruct (W (p + 8) r ltac:(lia) Hr ltac:(lia)) as (x' & r' & -> & Lb' & ML' & Hr' & E2 & P2).
      assert (LR' : length r' = (length (x' ++ r') - 8)%nat) by (rewrite app_length; lia).
      destruct (W (p + 8 + 8) r' ltac:(lia) Hr' ltac:(lia)) as (x2 & r2 & -> & Lb2 & ML2 & Hr2 & E3 & P3).
      assert (LR2 : length r2 = (length (x2 ++ r2) - 8)%nat) by (rewrite app_length; lia).
      unfold bind, ret. rewrite E1. cbv beta iota zeta. rewrite P1, E2. cbv beta iota zeta. rewrite P2, E3. cbv beta iota zeta. rewrite P3.
      rewrite !words_cons, words_none by (assumption || lia). cbn [long_words].
      replace (p + 8 * 3) with (p + 8 + 8 + 8) by lia. rewrite !rotl_eq, !rotr_eq by discriminate. reflexivity.
    - assert (E : mlen msg / 8 = 2) by (unfold mlen; lia). rewrite E. cbv [when N.leb N.compare Pos.compare Pos.compare_cont]; cbv iota.
      destruct (W p msg ltac:(lia) H A) as (x & r & -> & Lb & ML & Hr & E1 & P1).
      assert (LR : length r = (length (x ++ r) - 8)%nat) by (rewrite app_length; lia).
      destruct (W (p + 8) r ltac:(lia) Hr ltac:(lia)) as (x' & r' & -> & Lb' & ML' & Hr' & E2 & P2).
      assert (LR' : length r' = (length (x' ++ r') - 8)%nat) by (rewrite app_length; lia).
      unfold bind, ret. rewrite E1. cbv beta iota zeta. rewrite P1, E2. cbv beta iota zeta. rewrite P2.
      rewrite !words_cons, words_none by (assumption || lia). cbn [long_words].
      replace (p + 8 * 2) with (p + 8 + 8) by lia. rewrite !rotl_eq, !rotr_eq by discriminate. reflexivity.
    - assert (E : mlen msg / 8 = 1) by (unfold mlen; lia). rewrite E. cbv [when N.leb N.compare Pos.compare Pos.compare_cont]; cbv iota.
      destruct (W p msg ltac:(lia) H A) as (x & r & -> & Lb & ML & Hr & E1 & P1).
      assert (LR : length r = (length (x ++ r) - 8)%nat) by (rewrite app_length; lia).
      unfold bind, ret. rewrite E1. cbv beta iota zeta. rewrite P1.
      rewrite !words_cons, words_none by (assumption || lia). cbn [long_words].
      replace (p + 8 * 1) with (p + 8) by lia. rewrite !rotr_eq by discriminate. reflexivity.
    - assert (E : mlen msg / 8 = 0) by (unfold mlen; lia). rewrite E. cbv [when N.leb N.compare Pos.compare Pos.compare_cont]; cbv iota.
      unfold bind, ret. cbv beta iota zeta. rewrite words_none by lia. cbn [long_words].
      rewrite N.mul_0_r, N.add_0_r, rotr_eq by discriminate. reflexivity.
  Qed.

  (** ** All of it *)
  Theorem stadtx_ok : forall s0 s1 s2 s3 msg p, bytes_at m p msg -> p + mlen msg < addr_space cfg -> mlen msg + 4 < addr_space cfg ->
    stadtx_hash_with_state cfg (s0, s1, s2, s3) p (mlen msg) m = Ok (stadtx s0 s1 s2 s3 msg, m).
  Proof.
    intros s0 s1 s2 s3 msg p H A A4. pose proof (addr_space_le cfg) as AL.
    unfold stadtx_hash_with_state, stadtx. rewrite !padd_small by lia.
    destruct (rest_at 8 msg p ltac:(discriminate) H) as (R1 & R2 & R3 & R4). change (N.of_nat 8) with 8 in *.
    destruct (N.ltb_spec (mlen msg) 32) as [C|C].
    - replace (length msg <? 32)%nat with true by (unfold mlen in C; lia).
      set (v := (N.lxor s0 (mul64 (mlen msg + 1) STADTX_K0_uint64_t), N.lxor s1 (mul64 (mlen msg + 2) STADTX_K1_uint64_t))).
      pose proof (short_words_ok msg v p ltac:(unfold mlen in C; lia) H A) as SW. unfold bind, ret in SW. unfold v in SW at 1.
      assert (RQ : p + 8 * (mlen msg / 8) + mlen (rest 8 msg) < addr_space cfg) by lia.
      set (q := p + 8 * (mlen msg / 8)) in *. clearbody q.
      unfold bind, ret.
      destruct (when (3 <=? shr64 (mlen msg) 3) (stadtx_short_word cfg) _ m) as [[x1 m1]| | | | |]; try discriminate.
      destruct (when (2 <=? shr64 (mlen msg) 3) (stadtx_short_word cfg) x1 m1) as [[x2 m2]| | | | |]; try discriminate.
      destruct (when (1 <=? shr64 (mlen msg) 3) (stadtx_short_word cfg) x2 m2) as [[x3 m3]| | | | |]; try discriminate.
      injection SW as -> ->.
      rewrite (short_tail_ok (fold_left short_word (words msg) v) _ (rest 8 msg)).
      + rewrite short_final_ok. reflexivity.
      + rewrite R2. apply Nat.mod_upper_bound. discriminate.
      + now rewrite land_7.
      + exact R1.
      + exact RQ.
    - replace (length msg <? 32)%nat with false by (unfold mlen in C; lia).
      set (v := (N.lxor s0 (mul64 (mlen msg + 1) STADTX_K0_uint64_t), N.lxor s1 (mul64 (mlen msg + 2) STADTX_K1_uint64_t),
                 N.lxor s2 (mul64 (mlen msg + 3) STADTX_K2_uint64_t), N.lxor s3 (mul64 (mlen msg + 4) STADTX_K3_uint64_t))).
      destruct (length msg / 32)%nat as [|n] eqn:EN; [unfold mlen in C; lia|].
      ok (blocks_ok n (N.to_nat (mlen msg / 32)) msg v p EN ltac:(unfold mlen; lia) H A).
      destruct (rest_at 32 msg p ltac:(discriminate) H) as (Q1 & Q2 & Q3 & Q4). change (N.of_nat 32) with 32 in *.
      set (r := rest 32 msg) in *.
      assert (LR : (length r < 32)%nat) by (rewrite Q2; apply Nat.mod_upper_bound; discriminate).
      ok (long_words_ok r (fold_left long_block (first_groups 32 (S n) msg) v) (p + 32 * (mlen msg / 32)) LR Q1 ltac:(lia)).
      fold v.
      change (fold_left long_block (first_groups 32 (S n) msg)
        (xor s0 (mulw (mlen msg + 1) 0xb89b0f8e1655514f), xor s1 (mulw (mlen msg + 2) 0x8c6f736011bd5127),
         xor s2 (mulw (mlen msg + 3) 0x8f29bd94edce7b39), xor s3 (mulw (mlen msg + 4) 0x9c1b8e1e9628323f)))
        with (fold_left long_block (first_groups 32 (S n) msg) v).
      destruct (long_words (fold_left long_block (first_groups 32 (S n) msg) v) (words r)) as [[[a b] c] d].
      destruct (rest_at 8 r (p + 32 * (mlen msg / 32)) ltac:(discriminate) Q1) as (T1 & T2 & T3 & T4). change (N.of_nat 8) with 8 in *.
      rewrite (bind_ok _ _ _ _ _ _ _ (long_tail_ok _ b c d _ (rest 8 r) (mlen r) ltac:(rewrite T2; apply Nat.mod_upper_bound; discriminate)
        ltac:(now rewrite land_7) T1 ltac:(lia))).
      unfold ret. rewrite long_final_ok. reflexivity.
  Qed.
End Stadtx.
