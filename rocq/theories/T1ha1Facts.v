(** t1ha1 and the 32-bit t1ha0: the model computes the specification. *)
From Coq Require Import ZArith NArith Arith List Bool Lia Strings.Byte.
From Coq Require Import ZifyN ZifyNat ZifyBool.
From Verif Require Import Bytes CSem Bits T1ha2 T1ha1 T1ha0 Spec NBits CSemFacts OpsFacts FetchFacts
  TailFacts ReadFacts KeyMem PageFacts T1ha2Facts.
Import ListNotations.
Ltac Zify.zify_post_hook ::= Z.div_mod_to_equations.
Local Open Scope N_scope.

Lemma land15 : forall x, N.land x 15 = x mod 16.
Proof. intro. change 15 with (N.ones 4). apply N.land_ones. Qed.

Lemma reads_rest_gen : forall k B c cfg m num fetch tail v msg, k <> 0%nat -> c <> 0%nat -> B = (k * c)%nat ->
  reads cfg m k num fetch tail v msg ->
  reads cfg m k num fetch tail (v + N.of_nat (B * (length msg / B))) (rest B msg).
Proof.
  intros k B c cfg m num fetch tail v msg K C -> H. unfold rest.
  set (n := (length msg / (k * c))%nat).
  assert (k * c * n <= length msg)%nat by (unfold n; apply Nat.mul_div_le; lia).
  rewrite <- (firstn_skipn (k * c * n) msg) in H.
  rewrite <- Nat.mul_assoc in *.
  apply reads_r with (firstn (k * (c * n)) msg); [lia|rewrite firstn_length_le; lia|]. exact H.
Qed.

Section Body1.
  Variables (cfg : config) (m : mem) (num : list byte -> N) (fetch : N -> M N).

  Lemma T1HA1_STEP_ok : forall t v b r,
    length b = 32%nat -> fetches m 8 num fetch v (b ++ r) -> v + 32 <= addr_space cfg ->
    T1HA1_STEP cfg fetch (emb t) v m = Ok (emb (absorb1 num t b), m).
  Proof.
    intros t v b r L H A. unfold T1HA1_STEP.
    destruct (four_words cfg m fetch num 8 v b r ltac:(lia) L H A) as (F0 & F1 & F2 & F3).
    ok F0. ok F1. ok F2. ok F3. unfold ret, emb, absorb1. cbn [sa sb sc sd qa qb qc qd].
    rewrite !rot64_eq by discriminate. reflexivity.
  Qed.

  Variable tail : N -> N -> M N.

  Lemma T1HA1_BODY_ok : forall p msg seed,
    reads cfg m 8 num fetch tail p msg -> p + mlen msg < addr_space cfg ->
    T1HA1_BODY cfg fetch tail seed (mlen msg) p (mlen msg) seed m = Ok (t1ha1_64 num msg seed, m).
  Proof.
    intros p msg seed H A.
    assert (TL : forall ab v l len, (length l <= 32)%nat -> reads cfg m 8 num fetch tail v l ->
      v + mlen l < addr_space cfg -> len = mlen l -> forall R (K : N * N * N -> M R),
      exists v',
      (sv <- when (Nat.leb 4 (switch8 len)) (fun sv : N * N * N => let '((a, b), v) := sv in
          w <- fetch v ;; ret ((a, add64 b (mux64 cfg w prime_4)), padd cfg v 8)) (ab, v) ;;
       sv <- when (Nat.leb 3 (switch8 len)) (fun sv : N * N * N => let '((a, b), v) := sv in
          w <- fetch v ;; ret ((add64 a (mux64 cfg w prime_3), b), padd cfg v 8)) sv ;;
       sv <- when (Nat.leb 2 (switch8 len)) (fun sv : N * N * N => let '((a, b), v) := sv in
          w <- fetch v ;; ret ((a, add64 b (mux64 cfg w prime_2)), padd cfg v 8)) sv ;;
       sv <- when (Nat.leb 1 (switch8 len)) (fun sv : N * N * N => let '((a, b), v) := sv in
          w <- tail v len ;; ret ((add64 a (mux64 cfg w prime_1), b), v)) sv ;; K sv) m
      = K (tail_with t1ha1_steps (map num (groups 8 l)) ab, v') m).
    { intros ab v l len L Hr Av -> R KK. rewrite switch8_eq by assumption.
      match goal with |- exists _, (bind (when _ ?f4 _) (fun _ => bind (when _ ?f3 _) (fun _ => bind (when _ ?f2 _)
       (fun _ => bind (when _ ?f1 _) _)))) m = _ =>
      destruct (chain_ok cfg m 8 num fetch tail (N * N) (N * N) (fun x => x) f4 f3 f2 f1
        (nth 0 t1ha1_steps (fun _ x => x)) (nth 1 t1ha1_steps (fun _ x => x))
        (nth 2 t1ha1_steps (fun _ x => x)) (nth 3 t1ha1_steps (fun _ x => x)) (mlen l)
        ltac:(lia)) with (R := R) (K := KK) (e := ((length l + (8 - 1)) / 8)%nat)
        (v := v) (l := l) (t := ab) as [v' E] end;
      try (intros [a0 b0] v0 w F; ok F; cbn [nth t1ha1_steps fst snd]; rewrite mux64_eq by reflexivity;
           reflexivity); try assumption; try reflexivity; try (unfold mlen in *; lia).
      exists v'. exact E. }
    unfold T1HA1_BODY, t1ha1_64.
    destruct (N.ltb_spec 32 (mlen msg)) as [C|C].
    - replace (mlen msg <=? 32) with false by lia.
      rewrite padd_small, psub_small by (unfold mlen in *; lia).
      replace (N.to_nat (mlen msg / 32)) with (length msg / 32)%nat by (unfold mlen; lia).
      assert (EI : St seed (mlen msg) (add64 (rot64 (mlen msg) 17) seed) (N.lxor (mlen msg) (rot64 seed 17))
                   = emb (t1ha1_start seed (mlen msg))).
      { unfold emb, t1ha1_start. cbn [qa qb qc qd]. rewrite !rot64_eq by discriminate. reflexivity. }
      rewrite EI. clear EI. set (s0 := t1ha1_start seed (mlen msg)).
      set (s1 := fold_left (absorb1 num) (blocks 32 msg) s0).
      rewrite (bind_ok _ _ _ _ _ (t1ha1_squeeze s1,
              p + N.of_nat (32 * (length msg / 32)), N.land (mlen msg) 31) m).
      2:{ rewrite (bind_ok _ _ _ _ _ (emb s1, p + N.of_nat (32 * (length msg / 32))) m).
          - unfold t1ha1_squeeze, emb. cbn [sa sb sc sd]. rewrite !rot64_eq by discriminate. reflexivity.
          - apply (block_loop cfg state256 st4 32 emb (absorb1 num) _ m (fun v msg => fetches m 8 num fetch v msg)).
            + lia.
            + intros v0 b r Lb F. apply (fetches_r m 8 num fetch 4 v0 b r); [lia|exact F].
            + intros t0 v0 b r Lb F A0. ok (T1HA1_STEP_ok t0 v0 b r Lb F ltac:(lia)).
              unfold ret. now rewrite padd_small.
            + reflexivity.
            + intro Z. apply Nat.div_small_iff in Z; unfold mlen in *; lia.
            + exact (proj1 H).
            + reflexivity.
            + exact A. }
      rewrite land31, <- (rest_len msg).
      edestruct (TL (t1ha1_squeeze s1) (p + N.of_nat (32 * (length msg / 32))) (rest 32 msg) (mlen (rest 32 msg))) as [v' E].
      + rewrite rest_length; lia.
      + apply (reads_rest_gen 8 32 4); [lia|lia|lia|exact H].
      + rewrite rest_len. unfold mlen in *; lia.
      + reflexivity.
      + etransitivity; [exact E|]. cbv beta.
        destruct (tail_with t1ha1_steps (map num (groups 8 (rest 32 msg))) (t1ha1_squeeze s1)) as [a b].
        unfold ret. now rewrite final_weak_avalanche_eq.
    - replace (mlen msg <=? 32) with true by lia. rewrite bind_ret.
      edestruct (TL (seed, mlen msg) p msg (mlen msg)) as [v' E].
      + unfold mlen in *; lia.
      + exact H.
      + exact A.
      + reflexivity.
      + etransitivity; [exact E|]. cbv beta.
        destruct (tail_with t1ha1_steps (map num (groups 8 msg)) (seed, mlen msg)) as [a b].
        unfold ret. now rewrite final_weak_avalanche_eq.
  Qed.
End Body1.

Section T1ha1.
  Variables (cfg : config) (m : mem).

  Theorem t1ha1_le_ok : forall p msg seed, whole_words_ok cfg -> key_at cfg m p msg ->
    t1ha1_le cfg p (mlen msg) seed m = Ok (t1ha1_64 le_num msg seed, m).
  Proof.
    intros p msg seed WW K. pose proof K as (_ & A & _). unfold t1ha1_le.
    destruct (is_efficient cfg) eqn:E; [apply T1HA1_BODY_ok; auto using reads_le_unaligned|].
    destruct (misaligned64 cfg p) eqn:MA; [apply T1HA1_BODY_ok; auto using reads_le_unaligned|].
    apply T1HA1_BODY_ok; auto. apply reads_le_aligned; auto using misaligned64_false.
    intro F. destruct (WW F) as [?|?]; [assumption|congruence].
  Qed.

  Theorem t1ha1_be_ok : forall p msg seed, whole_words_ok cfg -> be_tail_builds cfg -> key_at cfg m p msg ->
    t1ha1_be cfg p (mlen msg) seed m = Ok (t1ha1_64 be_num msg seed, m).
  Proof.
    intros p msg seed WW BB K. pose proof K as (_ & A & _). unfold t1ha1_be.
    destruct (is_efficient cfg) eqn:E; [apply T1HA1_BODY_ok; auto using reads_be_unaligned|].
    destruct (misaligned64 cfg p) eqn:MA; [apply T1HA1_BODY_ok; auto using reads_be_unaligned|].
    apply T1HA1_BODY_ok; auto. apply reads_be_aligned; auto using misaligned64_false.
    intro F. destruct (WW F) as [?|?]; [assumption|congruence].
  Qed.
End T1ha1.

Section Body0.
  Variables (cfg : config) (m : mem) (num : list byte -> N) (fetch : N -> M N).

  Lemma T1HA0_STEP_ok : forall t v b r,
    length b = 16%nat -> fetches m 4 num fetch v (b ++ r) -> v + 16 <= addr_space cfg ->
    T1HA0_STEP cfg fetch (emb t) v m = Ok (emb (absorb0 num t b), m).
  Proof.
    intros t v b r L H A. unfold T1HA0_STEP.
    destruct (four_words cfg m fetch num 4 v b r ltac:(lia) L H A) as (F0 & F1 & F2 & F3).
    ok F0. ok F1. ok F2. ok F3. unfold ret, emb, absorb0. cbn [sa sb sc sd qa qb qc qd].
    rewrite !rot32_eq by discriminate. reflexivity.
  Qed.

  Lemma rest_len16 : forall (msg : list byte), mlen (rest 16 msg) = mlen msg mod 16.
  Proof. intro msg. unfold mlen. rewrite rest_length by lia. lia. Qed.

  Variable tail : N -> N -> M N.

  Lemma T1HA0_BODY_ok : forall p msg a b,
    reads cfg m 4 num fetch tail p msg -> p + mlen msg < addr_space cfg ->
    T1HA0_BODY cfg fetch tail a b p (mlen msg) m =
    Ok ((let fin l ab := t1ha0_finish (tail_with t1ha0_steps (map num (groups 4 l)) ab) in
         if mlen msg <=? 16 then fin msg (a, b)
         else fin (rest 16 msg)
           (t1ha0_squeeze (fold_left (absorb0 num) (blocks 16 msg) (t1ha0_start (a, b))))), m).
  Proof.
    intros p msg a b H A.
    assert (TL : forall ab v l len, (length l <= 16)%nat -> reads cfg m 4 num fetch tail v l ->
      v + mlen l < addr_space cfg -> len = mlen l -> forall R (K : N * N * N -> M R),
      exists v',
      (sv <- when (Nat.leb 4 (switch4 len)) (fun sv : N * N * N => let '((a, b), v) := sv in
          w <- fetch v ;; let '(a, b) := mixup32 a b w prime32_4 in
          ret ((a, b), padd cfg v 4)) (ab, v) ;;
       sv <- when (Nat.leb 3 (switch4 len)) (fun sv : N * N * N => let '((a, b), v) := sv in
          w <- fetch v ;; let '(b, a) := mixup32 b a w prime32_3 in
          ret ((a, b), padd cfg v 4)) sv ;;
       sv <- when (Nat.leb 2 (switch4 len)) (fun sv : N * N * N => let '((a, b), v) := sv in
          w <- fetch v ;; let '(a, b) := mixup32 a b w prime32_2 in
          ret ((a, b), padd cfg v 4)) sv ;;
       sv <- when (Nat.leb 1 (switch4 len)) (fun sv : N * N * N => let '((a, b), v) := sv in
          w <- tail v len ;; let '(b, a) := mixup32 b a w prime32_1 in
          ret ((a, b), v)) sv ;; K sv) m
      = K (tail_with t1ha0_steps (map num (groups 4 l)) ab, v') m).
    { intros ab v l len L Hr Av -> R KK. rewrite switch4_eq by assumption.
      match goal with |- exists _, (bind (when _ ?f4 _) (fun _ => bind (when _ ?f3 _) (fun _ => bind (when _ ?f2 _)
       (fun _ => bind (when _ ?f1 _) _)))) m = _ =>
      destruct (chain_ok cfg m 4 num fetch tail (N * N) (N * N) (fun x => x) f4 f3 f2 f1
        (nth 0 t1ha0_steps (fun _ x => x)) (nth 1 t1ha0_steps (fun _ x => x))
        (nth 2 t1ha0_steps (fun _ x => x)) (nth 3 t1ha0_steps (fun _ x => x)) (mlen l)
        ltac:(lia)) with (R := R) (K := KK) (e := ((length l + (4 - 1)) / 4)%nat)
        (v := v) (l := l) (t := ab) as [v' E] end;
      try (intros [a0 b0] v0 w F; ok F; cbn [nth t1ha0_steps fst snd swap]; rewrite mixup32_eq by reflexivity;
           reflexivity); try assumption; try reflexivity; try (unfold mlen in *; lia).
      exists v'. exact E. }
    unfold T1HA0_BODY.
    destruct (N.ltb_spec 16 (mlen msg)) as [C|C].
    - replace (mlen msg <=? 16) with false by lia.
      rewrite padd_small, psub_small by (unfold mlen in *; lia).
      replace (N.to_nat (mlen msg / 16)) with (length msg / 16)%nat by (unfold mlen; lia).
      assert (EI : St a b (not32 a) (rot32 b 5) = emb (t1ha0_start (a, b))).
      { unfold emb, t1ha0_start. cbn [qa qb qc qd fst snd]. rewrite not32_eq, rot32_eq by discriminate. reflexivity. }
      rewrite EI. clear EI. set (s0 := t1ha0_start (a, b)).
      set (s1 := fold_left (absorb0 num) (blocks 16 msg) s0).
      rewrite (bind_ok _ _ _ _ _ (t1ha0_squeeze s1,
              p + N.of_nat (16 * (length msg / 16)), N.land (mlen msg) 15) m).
      2:{ rewrite (bind_ok _ _ _ _ _ (emb s1, p + N.of_nat (16 * (length msg / 16))) m).
          - unfold t1ha0_squeeze, emb. cbn [sa sb sc sd]. rewrite !rot32_eq by discriminate. reflexivity.
          - apply (block_loop cfg state256 st4 16 emb (absorb0 num) _ m (fun v msg => fetches m 4 num fetch v msg)).
            + lia.
            + intros v0 b0 r Lb F. apply (fetches_r m 4 num fetch 4 v0 b0 r); [lia|exact F].
            + intros t0 v0 b0 r Lb F A0. ok (T1HA0_STEP_ok t0 v0 b0 r Lb F ltac:(lia)).
              unfold ret. now rewrite padd_small.
            + reflexivity.
            + intro Z. apply Nat.div_small_iff in Z; unfold mlen in *; lia.
            + exact (proj1 H).
            + reflexivity.
            + exact A. }
      rewrite land15, <- (rest_len16 msg).
      edestruct (TL (t1ha0_squeeze s1) (p + N.of_nat (16 * (length msg / 16))) (rest 16 msg) (mlen (rest 16 msg))) as [v' E].
      + rewrite rest_length; lia.
      + apply (reads_rest_gen 4 16 4); [lia|lia|lia|exact H].
      + rewrite rest_len16. unfold mlen in *; lia.
      + reflexivity.
      + etransitivity; [exact E|]. cbv beta.
        destruct (tail_with t1ha0_steps (map num (groups 4 (rest 16 msg))) (t1ha0_squeeze s1)) as [a1 b1].
        unfold ret. now rewrite final32_eq.
    - replace (mlen msg <=? 16) with true by lia. rewrite bind_ret.
      edestruct (TL (a, b) p msg (mlen msg)) as [v' E].
      + unfold mlen in *; lia.
      + exact H.
      + exact A.
      + reflexivity.
      + etransitivity; [exact E|]. cbv beta.
        destruct (tail_with t1ha0_steps (map num (groups 4 msg)) (a, b)) as [a1 b1].
        unfold ret. now rewrite final32_eq.
  Qed.
End Body0.

Section T1ha0.
  Variables (cfg : config) (m : mem).

  Lemma t1ha0_init_eq : forall len seed, seed < W64 ->
    (add32 (rot32 (u32 len) 17) (u32 seed), N.lxor (u32 len) (u32 (shr64 seed 32))) = t1ha0_init seed len.
  Proof.
    intros len seed S. unfold t1ha0_init. rewrite rot32_eq by discriminate. f_equal.
    - unfold rotr_32. rewrite u32_eq, N.mod_mod by discriminate. reflexivity.
    - unfold shr64. rewrite N.shiftr_div_pow2, u64_small by assumption. reflexivity.
  Qed.

  Theorem t1ha0_32le_ok : forall p msg seed, seed < W64 -> key_at cfg m p msg ->
    t1ha0_32le cfg p (mlen msg) seed m = Ok (t1ha0_32 le_num msg seed, m).
  Proof.
    intros p msg seed S K. pose proof K as (_ & A & _). unfold t1ha0_32le, t1ha0_32.
    rewrite <- t1ha0_init_eq by assumption.
    destruct (is_efficient cfg) eqn:E; [apply T1HA0_BODY_ok; auto using reads32_le_unaligned|].
    destruct (misaligned32 cfg p) eqn:MA; [apply T1HA0_BODY_ok; auto using reads32_le_unaligned|].
    apply T1HA0_BODY_ok; auto. apply reads32_le_aligned; auto using misaligned32_false.
  Qed.

  Theorem t1ha0_32be_ok : forall p msg seed, seed < W64 -> key_at cfg m p msg ->
    t1ha0_32be cfg p (mlen msg) seed m = Ok (t1ha0_32 be_num msg seed, m).
  Proof.
    intros p msg seed S K. pose proof K as (_ & A & _). unfold t1ha0_32be, t1ha0_32.
    rewrite <- t1ha0_init_eq by assumption.
    destruct (is_efficient cfg) eqn:E; [apply T1HA0_BODY_ok; auto using reads32_be_unaligned|].
    destruct (misaligned32 cfg p) eqn:MA; [apply T1HA0_BODY_ok; auto using reads32_be_unaligned|].
    apply T1HA0_BODY_ok; auto. apply reads32_be_aligned; auto using misaligned32_false.
  Qed.
End T1ha0.
