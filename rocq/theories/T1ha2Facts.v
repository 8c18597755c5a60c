(** t1ha2, one-shot: the model computes the specification. *)
From Coq Require Import ZArith NArith Arith List Bool Lia Strings.Byte.
From Coq Require Import ZifyN ZifyNat ZifyBool.
From Verif Require Import Bytes CSem Bits T1ha2 Spec NBits CSemFacts OpsFacts FetchFacts
  TailFacts ReadFacts KeyMem PageFacts.
Import ListNotations.
Ltac Zify.zify_post_hook ::= Z.div_mod_to_equations.
Local Open Scope N_scope.

Definition emb (s : st4) : state256 := St (qa s) (qb s) (qc s) (qd s).
Definition unemb (s : state256) : st4 := Q (sa s) (sb s) (sc s) (sd s).
Lemma emb_unemb : forall s, emb (unemb s) = s. Proof. now intros []. Qed.
Lemma unemb_emb : forall s, unemb (emb s) = s. Proof. now intros []. Qed.

Lemma land31 : forall x, N.land x 31 = x mod 32.
Proof. intro. change 31 with (N.ones 5). apply N.land_ones. Qed.

Section Body.
  Variables (cfg : config) (m : mem) (fetch : N -> M N).

  Lemma four_words : forall (num : list byte -> N) k v b r, (k <> 0)%nat ->
    length b = (4 * k)%nat -> fetches m k num fetch v (b ++ r) ->
    v + N.of_nat (4 * k) <= addr_space cfg ->
    fetch (padd cfg v 0) m = Ok (num (group k 0 b), m) /\
    fetch (padd cfg v (N.of_nat k)) m = Ok (num (group k 1 b), m) /\
    fetch (padd cfg v (N.of_nat (2 * k))) m = Ok (num (group k 2 b), m) /\
    fetch (padd cfg v (N.of_nat (3 * k))) m = Ok (num (group k 3 b), m).
  Proof.
    intros num k v b r K L H A. apply fetches_l in H.
    pose proof (H 0%nat ltac:(lia)) as H0. pose proof (H 1%nat ltac:(lia)) as H1.
    pose proof (H 2%nat ltac:(lia)) as H2. pose proof (H 3%nat ltac:(lia)) as H3.
    rewrite Nat.mul_0_r in H0. rewrite Nat.mul_1_r in H1.
    rewrite !padd_small by lia.
    rewrite (Nat.mul_comm k 2) in H2. rewrite (Nat.mul_comm k 3) in H3.
    change (N.of_nat 0) with 0 in H0. now repeat split.
  Qed.

  Lemma T1HA2_UPDATE_ok : forall t v b r,
    length b = 32%nat -> fetches m 8 le_num fetch v (b ++ r) -> v + 32 <= addr_space cfg ->
    T1HA2_UPDATE cfg fetch (emb t) v m = Ok (emb (absorb t b), m).
  Proof.
    intros t v b r L H A. unfold T1HA2_UPDATE.
    destruct (four_words le_num 8 v b r ltac:(lia) L H A) as (F0 & F1 & F2 & F3).
    ok F0. ok F1. ok F2. ok F3. unfold ret, emb, absorb. cbn [sa sb sc sd qa qb qc qd].
    rewrite !rot64_eq by discriminate. reflexivity.
  Qed.

  Lemma T1HA2_LOOP_ok : forall t v msg,
    (32 <= length msg)%nat -> fetches m 8 le_num fetch v msg -> v + mlen msg < addr_space cfg ->
    T1HA2_LOOP cfg fetch (emb t) v (mlen msg) m
    = Ok ((emb (absorb_all t (blocks 32 msg)), v + N.of_nat (32 * (length msg / 32))), m).
  Proof.
    intros t v msg L H A. unfold T1HA2_LOOP.
    rewrite padd_small, psub_small by (unfold mlen in *; lia).
    replace (N.to_nat (mlen msg / 32)) with (length msg / 32)%nat by (unfold mlen; lia).
    apply (block_loop cfg state256 st4 32 emb absorb _ m (fun v msg => fetches m 8 le_num fetch v msg)); auto.
    - lia.
    - intros v0 b r Lb F. apply (fetches_r m 8 le_num fetch 4 v0 b r); [lia|exact F].
    - intros t0 v0 b r Lb F A0. ok (T1HA2_UPDATE_ok t0 v0 b r Lb F ltac:(lia)).
      unfold ret. now rewrite padd_small.
    - intro Z. apply Nat.div_small_iff in Z; lia.
  Qed.

  (** the state that T1HA2_TAIL_AB leaves behind *)
  Definition tail_ab_state (l : list byte) (t : st4) : st4 :=
    let '(a, b) := tail_ab l (qa t, qb t) in Q a b (qc t) (qd t).

  Definition ab_steps4 : list (N -> st4 -> st4) :=
    [ (fun v s => let '(a, b) := mix P4 v (qa s, qb s) in Q a b (qc s) (qd s));
      (fun v s => let '(b, a) := mix P3 v (qb s, qa s) in Q a b (qc s) (qd s));
      (fun v s => let '(a, b) := mix P2 v (qa s, qb s) in Q a b (qc s) (qd s));
      (fun v s => let '(b, a) := mix P1 v (qb s, qa s) in Q a b (qc s) (qd s)) ].

  Lemma ab_steps4_eq : forall ws t, (length ws <= 4)%nat ->
    tail_with ab_steps4 ws t =
    let '(a, b) := tail_with ab_steps ws (qa t, qb t) in Q a b (qc t) (qd t).
  Proof.
    intros ws t L.
    destruct ws as [|w1 [|w2 [|w3 [|w4 [|? ws]]]]]; [now destruct t| | | | |cbn in L; lia];
      unfold tail_with, ab_steps4, ab_steps;
      cbn [length Nat.sub skipn combine fold_left fst snd mix swap qa qb qc qd]; reflexivity.
  Qed.

  Lemma groups_count : forall k l, k <> 0%nat -> length (groups k l) = ((length l + (k - 1)) / k)%nat.
  Proof. intros. unfold groups. now rewrite map_length, seq_length. Qed.

  Variable tail : N -> N -> M N.

  Lemma T1HA2_TAIL_AB_ok : forall t v l len,
    (length l <= 32)%nat -> reads cfg m 8 le_num fetch tail v l -> v + mlen l < addr_space cfg ->
    len = mlen l ->
    T1HA2_TAIL_AB cfg fetch tail (emb t) v len m
    = Ok ((emb (tail_ab_state l t), finish64 (tail_ab l (qa t, qb t))), m).
  Proof.
    intros t v l len L H A ->. unfold T1HA2_TAIL_AB. rewrite switch8_eq by assumption.
    match goal with |- (bind (when _ ?f4 _) (fun _ => bind (when _ ?f3 _) (fun _ => bind (when _ ?f2 _)
       (fun _ => bind (when _ ?f1 _) ?KK)))) m = _ =>
      destruct (chain_ok cfg m 8 le_num fetch tail state256 st4 emb f4 f3 f2 f1
        (nth 0 ab_steps4 (fun _ x => x)) (nth 1 ab_steps4 (fun _ x => x))
        (nth 2 ab_steps4 (fun _ x => x)) (nth 3 ab_steps4 (fun _ x => x)) (mlen l)
        ltac:(lia)) with (R := (state256 * N)%type) (K := KK) (e := ((length l + (8 - 1)) / 8)%nat)
        (v := v) (l := l) (t := t) as [v' ->] end;
      try (intros t0 v0 w F; ok F; cbn [nth ab_steps4 emb sa sb sc sd]; rewrite mixup64_eq by reflexivity;
           reflexivity); try assumption; try reflexivity; try (unfold mlen in *; lia).
    cbn [nth ab_steps4 fst]. fold ab_steps4. unfold ret.
    assert (G : (length (map le_num (groups 8 l)) <= 4)%nat).
    { rewrite map_length, groups_count by lia.
      apply Nat.lt_succ_r, Nat.div_lt_upper_bound; lia. }
    change (tail_with _ (map le_num (groups 8 l)) t) with (tail_with ab_steps4 (map le_num (groups 8 l)) t).
    rewrite ab_steps4_eq by exact G.
    unfold tail_ab_state, tail_ab.
    destruct (tail_with ab_steps (map le_num (groups 8 l)) (qa t, qb t)) as [a b].
    unfold emb. cbn [qa qb qc qd sa sb]. now rewrite final64_eq.
  Qed.

  Lemma final128_eq : forall a b c d, final128 cfg a b c d = finish128 (Q a b c d).
  Proof.
    intros. unfold final128, finish128. cbn [qa qb qc qd].
    rewrite !rot64_eq by discriminate. rewrite mixup64_eq by reflexivity.
    change (N.lxor (rotr c 41) d) with (xor (rotr c 41) d).
    change prime_0 with P0. destruct (mix P0 (xor (rotr c 41) d) (a, b)) as [a1 b1].
    rewrite mixup64_eq by reflexivity. change (N.lxor (rotr d 23) a1) with (xor (rotr d 23) a1).
    change prime_6 with P6. destruct (mix P6 (xor (rotr d 23) a1) (b1, c)) as [b2 c2].
    rewrite mixup64_eq by reflexivity. rewrite rot64_eq by discriminate.
    change (N.lxor (rotr a1 19) b2) with (xor (rotr a1 19) b2).
    change prime_5 with P5. destruct (mix P5 (xor (rotr a1 19) b2) (c2, d)) as [c3 d3].
    rewrite mixup64_eq by reflexivity. rewrite rot64_eq by discriminate.
    change (N.lxor (rotr b2 31) c3) with (xor (rotr b2 31) c3).
    change prime_4 with P4. destruct (mix P4 (xor (rotr b2 31) c3) (d3, a1)) as [d4 a4].
    reflexivity.
  Qed.

  Lemma T1HA2_TAIL_ABCD_ok : forall t v l len,
    (length l <= 32)%nat -> reads cfg m 8 le_num fetch tail v l -> v + mlen l < addr_space cfg ->
    len = mlen l ->
    T1HA2_TAIL_ABCD cfg fetch tail (emb t) v len m
    = Ok ((emb (tail_abcd l t), finish128 (tail_abcd l t)), m).
  Proof.
    intros t v l len L H A ->. unfold T1HA2_TAIL_ABCD. rewrite switch8_eq by assumption.
    match goal with |- (bind (when _ ?f4 _) (fun _ => bind (when _ ?f3 _) (fun _ => bind (when _ ?f2 _)
       (fun _ => bind (when _ ?f1 _) ?KK)))) m = _ =>
      destruct (chain_ok cfg m 8 le_num fetch tail state256 st4 emb f4 f3 f2 f1
        (nth 0 abcd_steps (fun _ x => x)) (nth 1 abcd_steps (fun _ x => x))
        (nth 2 abcd_steps (fun _ x => x)) (nth 3 abcd_steps (fun _ x => x)) (mlen l)
        ltac:(lia)) with (R := (state256 * (N * N))%type) (K := KK) (e := ((length l + (8 - 1)) / 8)%nat)
        (v := v) (l := l) (t := t) as [v' ->] end;
      try (intros t0 v0 w F; ok F; cbn [nth abcd_steps emb sa sb sc sd]; rewrite mixup64_eq by reflexivity;
           reflexivity); try assumption; try reflexivity; try (unfold mlen in *; lia).
    cbn [fst]. unfold ret.
    change (tail_with _ (map le_num (groups 8 l)) t) with (tail_abcd l t).
    destruct (tail_abcd l t) as [a b c d]. unfold emb. cbn [qa qb qc qd sa sb sc sd].
    now rewrite final128_eq.
  Qed.
End Body.

Lemma squash_eq : forall t, squash (emb t) = emb (Q (fst (squeeze t)) (snd (squeeze t)) (qc t) (qd t)).
Proof.
  intros t. unfold squash, emb, squeeze. cbn [sa sb sc sd qa qb qc qd fst snd].
  rewrite !rot64_eq by discriminate. reflexivity.
Qed.

Lemma init_eq : forall s x y, init_cd (init_ab s x y) x y = emb (start x y).
Proof.
  intros. unfold init_cd, init_ab, start, emb. cbn [sa sb sc sd qa qb qc qd].
  rewrite !rot64_eq, !not64_eq by discriminate. reflexivity.
Qed.

(** the part of a message that the block loop leaves *)
Lemma reads_rest : forall cfg m fetch tail v msg,
  reads cfg m 8 le_num fetch tail v msg ->
  reads cfg m 8 le_num fetch tail (v + N.of_nat (32 * (length msg / 32))) (rest 32 msg).
Proof.
  intros cfg m fetch tail v msg H. unfold rest.
  set (n := (length msg / 32)%nat). assert (32 * n <= length msg)%nat by (unfold n; lia).
  rewrite <- (firstn_skipn (32 * n) msg) in H.
  replace (32 * n)%nat with (8 * (4 * n))%nat by lia.
  apply reads_r with (firstn (32 * n) msg); [lia|rewrite firstn_length_le; lia|].
  replace (8 * (4 * n))%nat with (32 * n)%nat by lia. exact H.
Qed.

Section OneShot.
  Variables (cfg : config) (m : mem).

  Lemma rest_len : forall (msg : list byte), mlen (rest 32 msg) = mlen msg mod 32.
  Proof. intro msg. unfold mlen. rewrite rest_length by lia. lia. Qed.

  Theorem t1ha2_atonce_ok : forall p msg seed,
    whole_words_ok cfg -> key_at cfg m p msg ->
    t1ha2_atonce cfg p (mlen msg) seed m = Ok (t1ha2_64 msg seed, m).
  Proof.
    intros p msg seed WW K. pose proof (reads_le cfg m p msg WW K) as H.
    destruct K as (_ & A & _). unfold t1ha2_atonce, t1ha2_64.
    set (fetch := fetch64_le cfg (use_unaligned64 cfg p)) in *.
    set (tail := tail64_le cfg (use_unaligned64 cfg p)) in *. clearbody fetch tail.
    destruct (N.ltb_spec 32 (mlen msg)) as [C|C].
    - replace (mlen msg <=? 32) with false by lia.
      rewrite init_eq.
      rewrite (bind_ok _ _ _ _ _ (squash (emb (absorb_all (start seed (mlen msg)) (blocks 32 msg))),
              p + N.of_nat (32 * (length msg / 32)), N.land (mlen msg) 31) m).
      2:{ ok (T1HA2_LOOP_ok cfg m fetch (start seed (mlen msg)) p msg ltac:(unfold mlen in *; lia) (proj1 H) A).
          reflexivity. }
      rewrite land31, <- rest_len, squash_eq.
      ok (T1HA2_TAIL_AB_ok cfg m fetch tail
           (Q (fst (squeeze (absorb_all (start seed (mlen msg)) (blocks 32 msg))))
              (snd (squeeze (absorb_all (start seed (mlen msg)) (blocks 32 msg))))
              (qc (absorb_all (start seed (mlen msg)) (blocks 32 msg)))
              (qd (absorb_all (start seed (mlen msg)) (blocks 32 msg))))
           (p + N.of_nat (32 * (length msg / 32))) (rest 32 msg) (mlen (rest 32 msg))
           ltac:(rewrite rest_length; lia) (reads_rest _ _ _ _ _ _ H)
           ltac:(rewrite rest_len; unfold mlen in *; lia) eq_refl).
      unfold ret. cbn [qa qb snd]. now rewrite <- surjective_pairing.
    - replace (mlen msg <=? 32) with true by lia. rewrite bind_ret.
      change (init_ab uninit seed (mlen msg)) with (emb (Q seed (mlen msg) 0 0)).
      ok (T1HA2_TAIL_AB_ok cfg m fetch tail (Q seed (mlen msg) 0 0) p msg (mlen msg)
           ltac:(unfold mlen in *; lia) H A eq_refl).
      reflexivity.
  Qed.

  Lemma write_aligned_ok : forall n p v,
    (ia32 cfg || is_efficient cfg = false -> p mod alignment cfg n = 0) -> mapped m p n ->
    write_aligned cfg n p v m
    = Ok (tt, write m p (if big_endian cfg then be_bytes n v else le_bytes n v)).
  Proof.
    intros n p v A H. unfold write_aligned.
    destruct (ia32 cfg || is_efficient cfg); [now apply store_uint_ok|].
    rewrite (A eq_refl). cbn [N.eqb]. now apply store_uint_ok.
  Qed.

  Theorem t1ha2_atonce128_ok : forall x p msg seed,
    whole_words_ok cfg -> key_at cfg m p msg ->
    mapped m x 8 -> x mod alignment cfg 8 = 0 -> (x + 8 <= p \/ p + mlen msg <= x) ->
    t1ha2_atonce128 cfg x p (mlen msg) seed m
    = Ok (fst (t1ha2_128 msg seed),
          write m x (if big_endian cfg then be_bytes 8 (snd (t1ha2_128 msg seed))
                     else le_bytes 8 (snd (t1ha2_128 msg seed)))).
  Proof.
    intros x p msg seed WW K MX AX D. pose proof (reads_le cfg m p msg WW K) as H.
    destruct K as (_ & A & _). unfold t1ha2_atonce128, t1ha2_128.
    replace (overlap x 8 p (mlen msg)) with false by (unfold overlap; lia).
    set (fetch := fetch64_le cfg (use_unaligned64 cfg p)) in *.
    set (tail := tail64_le cfg (use_unaligned64 cfg p)) in *. clearbody fetch tail.
    rewrite init_eq.
    assert (AL : ia32 cfg || is_efficient cfg = false -> x mod alignment cfg 8 = 0).
    { intros _. exact AX. }
    destruct (N.ltb_spec 32 (mlen msg)) as [C|C].
    - replace (mlen msg <=? 32) with false by lia.
      rewrite (bind_ok _ _ _ _ _ (emb (absorb_all (start seed (mlen msg)) (blocks 32 msg)),
              p + N.of_nat (32 * (length msg / 32)), N.land (mlen msg) 31) m).
      2:{ ok (T1HA2_LOOP_ok cfg m fetch (start seed (mlen msg)) p msg ltac:(unfold mlen in *; lia) (proj1 H) A).
          reflexivity. }
      rewrite land31, <- rest_len.
      ok (T1HA2_TAIL_ABCD_ok cfg m fetch tail (absorb_all (start seed (mlen msg)) (blocks 32 msg))
           (p + N.of_nat (32 * (length msg / 32))) (rest 32 msg) (mlen (rest 32 msg))
           ltac:(rewrite rest_length; lia) (reads_rest _ _ _ _ _ _ H)
           ltac:(rewrite rest_len; unfold mlen in *; lia) eq_refl).
      cbn [snd fst]. ok (write_aligned_ok 8 x (snd (finish128 (tail_abcd (rest 32 msg)
                 (absorb_all (start seed (mlen msg)) (blocks 32 msg))))) AL MX).
      reflexivity.
    - replace (mlen msg <=? 32) with true by lia. rewrite bind_ret.
      ok (T1HA2_TAIL_ABCD_ok cfg m fetch tail (start seed (mlen msg)) p msg (mlen msg)
           ltac:(unfold mlen in *; lia) H A eq_refl).
      cbn [snd fst]. ok (write_aligned_ok 8 x (snd (finish128 (tail_abcd msg (start seed (mlen msg))))) AL MX).
      reflexivity.
  Qed.
End OneShot.
