(** The AES-accelerated hashes: the model computes the specification. *)
From Coq Require Import ZArith NArith Arith List Bool Lia Strings.Byte.
From Coq Require Import ZifyN ZifyNat ZifyBool.
From Verif Require Import Bytes CSem Bits T1ha2 Aes Ia32aes Spec AesSpec NBits CSemFacts OpsFacts FetchFacts
  TailFacts ReadFacts KeyMem PageFacts T1ha2Facts AesFacts.
Import ListNotations.
Ltac Zify.zify_post_hook ::= Z.div_mod_to_equations.
Local Open Scope N_scope.

(** ** The tail switch is that of t1ha2 *)
Lemma aes_tail_eq : forall cfg a b data len m,
  aes_tail cfg a b data len m
  = bind (T1HA2_TAIL_AB cfg (fetch64_le_unaligned cfg) (tail64_le_unaligned cfg) (St a b 0 0) data len)
      (fun r => ret (snd r)) m.
Proof.
  intros cfg a b data len m. unfold aes_tail, T1HA2_TAIL_AB.
  generalize (fetch64_le_unaligned cfg) (tail64_le_unaligned cfg). intros fetch tail.
  destruct (switch8 len) as [|[|[|[|e]]]]; cbn [Nat.leb when];
    unfold bind, ret; cbn [sa sb sc sd fst snd];
    repeat (match goal with
            | |- context [match ?f ?v ?m with Ok _ => _ | _ => _ end] =>
                first [is_var f | match f with ?g ?w => is_var g end];
                destruct (f v m) as [[? ?]| | | | |]; try reflexivity
            | |- context [mixup64 cfg ?a ?b ?w ?p] => destruct (mixup64 cfg a b w p)
            end; cbn [sa sb sc sd fst snd]);
    reflexivity.
Qed.

Lemma land15 : forall x, N.land x 15 = x mod 16.
Proof. intro. change 15 with (N.ones 4). apply N.land_ones. Qed.

Lemma aes_tail_ok : forall cfg m a b v l,
  (length l <= 32)%nat -> key_at cfg m v l ->
  aes_tail cfg a b v (mlen l) m = Ok (finish64 (tail_ab l (a, b)), m).
Proof.
  intros cfg m a b v l L K. rewrite aes_tail_eq. pose proof K as (_ & A & _).
  change (St a b 0 0) with (emb (Q a b 0 0)).
  rewrite (bind_ok _ _ _ _ _ _ _ (T1HA2_TAIL_AB_ok cfg m _ _ (Q a b 0 0) v l (mlen l) L
    (reads_le_unaligned cfg m v l K) A eq_refl)). reflexivity.
Qed.

(** ** Loops over blocks *)
Lemma blocks_each : forall k (l b : list byte), k <> 0%nat -> In b (blocks k l) -> length b = k.
Proof.
  intros k l b k_pos H. unfold blocks in H. apply in_map_iff in H. destruct H as (i & <- & I).
  apply in_seq in I. unfold group. rewrite firstn_length_le; [reflexivity|]. rewrite skipn_length.
  pose proof (Nat.div_mod (length l) k k_pos) as D. nia.
Qed.
Lemma fold_blocks_J : forall (T : Type) (J : T -> Prop) k (step : T -> list byte -> T), k <> 0%nat ->
  (forall t b, J t -> length b = k -> J (step t b)) -> forall l t, J t -> J (fold_left step (blocks k l) t).
Proof.
  intros T J k step K JS l. pose proof (fun b => blocks_each k l b K) as H.
  induction (blocks k l) as [|b bs IH]; intros t HJ; [exact HJ|].
  cbn [fold_left]. apply IH; [intros; apply H; now right|]. apply JS; [exact HJ|]. apply H. now left.
Qed.

Section Loop.
  Variables (m : mem) (S T : Type) (put : T -> N -> S) (J : T -> Prop) (good : list byte -> Prop).
  Variables (k : nat) (step : T -> list byte -> T) (body : S -> M S) (cond : S -> bool) (e : N).
  Hypothesis k_pos : k <> 0%nat.
  Hypothesis J_step : forall t b, J t -> length b = k -> J (step t b).
  Hypothesis good_step : forall b r, length b = k -> good (b ++ r) -> good r.
  Hypothesis body_ok : forall t v b, J t -> length b = k -> bytes_at m v b -> v + N.of_nat k <= e ->
    body (put t v) m = Ok (put (step t b) (v + N.of_nat k), m).
  Hypothesis cond_ok : forall t v l, J t -> v + mlen l = e -> good l ->
    cond (put t v) = Nat.leb k (length l).

  Lemma while_unfold : forall n s,
    while_ n body cond s m
    = if cond s then match n with O => Stuck | Datatypes.S f => bind (body s) (while_ f body cond) m end
      else Ok (s, m).
  Proof. intros n s. destruct n; cbn [while_]; destruct (cond s); reflexivity. Qed.

  Lemma while_blocks : forall n l t v,
    (length l / k <= n)%nat -> J t -> good l -> bytes_at m v l -> v + mlen l = e ->
    while_ n body cond (put t v) m
    = Ok (put (fold_left step (blocks k l) t) (v + N.of_nat (k * (length l / k))), m).
  Proof.
    induction n as [|n IH]; intros l t v Hn HJ HG HB HE; rewrite while_unfold, (cond_ok t v l HJ HE HG);
      destruct (Nat.leb_spec k (length l)) as [L|L].
    - pose proof (Nat.div_le_mono k (length l) k k_pos L) as D. rewrite Nat.div_same in D by assumption. lia.
    - rewrite blocks_nil, Nat.div_small, Nat.mul_0_r, N.add_0_r by assumption. reflexivity.
    - rewrite <- (firstn_skipn k l) in Hn, HG, HB, HE |- *.
      assert (Lb : length (firstn k l) = k) by (rewrite firstn_length_le; lia).
      generalize dependent (skipn k l). generalize dependent (firstn k l). clear L l.
      intros b Lb r Hn HG HB HE.
      apply bytes_at_app in HB. destruct HB as [B1 B2]. rewrite Lb in B2.
      unfold mlen in HE. rewrite app_length, Lb in HE.
      rewrite app_length, Lb, div_plus_one in Hn |- * by assumption.
      rewrite (bind_ok _ _ _ _ _ _ _ (body_ok t v b HJ Lb B1 ltac:(lia))).
      rewrite (IH r (step t b) (v + N.of_nat k)); [|lia|now apply J_step|now apply good_step with b|exact B2|unfold mlen; lia].
      rewrite blocks_app by assumption. cbn [fold_left]. do 3 f_equal.
      rewrite Nat.mul_succ_r. lia.
    - rewrite blocks_nil, Nat.div_small, Nat.mul_0_r, N.add_0_r by assumption. reflexivity.
  Qed.

End Loop.

Lemma while_do : forall (S : Type) (n : nat) (body : S -> M S) (cond : S -> bool) s m,
  (if cond s then do_while n body cond s else ret s) m = while_ n body cond s m.
Proof.
  intros S n body cond. induction n as [|n IH]; intros s m.
  - cbn [do_while while_]. reflexivity.
  - cbn [do_while while_]. destruct (cond s); [|reflexivity].
    unfold bind. destruct (body s m) as [[s' m']| | | | |]; try reflexivity. apply IH.
Qed.

(** ** Registers holding words *)
Notation pair2 := (word128 * word128)%type.
Definition ok4 (t : pair2) : Prop := ok2 (fst t) /\ ok2 (snd t).
Definition put (t : pair2) (v : N) : aes_vars := XY (pack (fst t)) (pack (snd t)) v.

Lemma wd_ok2 : forall l i, (16 * i + 16 <= length l)%nat -> ok2 (wd l i).
Proof.
  intros l i L. unfold wd, group. apply word_of_ok2. rewrite firstn_length_le; [reflexivity|].
  rewrite skipn_length. lia.
Qed.
Create HintDb ok2.
#[local] Hint Resolve add2_ok2 sub2_ok2 xor2_ok2 enc_ok2 dec_ok2 : ok2.

Lemma loadu_ok : forall m p l, bytes_at m p l -> length l = 16%nat ->
  loadu p m = Ok (pack (word_of l), m).
Proof.
  intros m p l B L. unfold loadu. pose proof (load_bytes_ok l m p B) as E. rewrite L in E.
  rewrite (bind_ok _ _ _ _ _ _ _ E). unfold ret. now rewrite le_num_word.
Qed.
Lemma loadu_word : forall m v b i, bytes_at m v b -> (16 * i + 16 <= length b)%nat ->
  loadu (v + N.of_nat (16 * i)) m = Ok (pack (wd b i), m).
Proof.
  intros m v b i B L. unfold wd, group. apply loadu_ok.
  - apply bytes_at_firstn, bytes_at_skipn; [exact B|lia].
  - rewrite firstn_length_le; [reflexivity|]. rewrite skipn_length. lia.
Qed.

Section Steps.
  Variables (cfg : config) (m : mem).

  Lemma aes_pair_ok : forall t v b, ok4 t -> length b = 32%nat -> bytes_at m v b ->
    v + 32 < addr_space cfg ->
    aes_pair cfg (put t v) m = Ok (put (aes_two t b) (v + 32), m).
  Proof.
    intros [x y] v b [X Y] L B A. unfold aes_pair, put. cbn [fst snd ax ay av] in *.
    pose proof (loadu_word m v b 0 B ltac:(lia)) as L0. pose proof (loadu_word m v b 1 B ltac:(lia)) as L1.
    change (N.of_nat (16 * 0)) with 0 in L0. change (N.of_nat (16 * 1)) with 16 in L1. rewrite N.add_0_r in L0.
    rewrite !padd_small by lia.
    rewrite (bind_ok _ _ _ _ _ _ _ L0), (bind_ok _ _ _ _ _ _ _ L1). unfold ret.
    pose proof (wd_ok2 b 0 ltac:(lia)). pose proof (wd_ok2 b 1 ltac:(lia)).
    rewrite add_epi64_eq, sub_epi64_eq, !aesdec_eq by auto with ok2. reflexivity.
  Qed.
  Lemma aes_two_ok4 : forall t b, ok4 t -> length b = 32%nat -> ok4 (aes_two t b).
  Proof. intros [x y] b [X Y] L. split; cbn [aes_two fst snd]; auto with ok2. Qed.

  Lemma aes_a_block_ok : forall t v b, ok4 t -> length b = 128%nat -> bytes_at m v b ->
    v + 128 < addr_space cfg ->
    aes_a_block cfg (put t v) m = Ok (put (aes_a_absorb t b) (v + 128), m).
  Proof.
    intros [x y] v b [X Y] L B A. unfold aes_a_block, put. cbn [fst snd ax ay av] in *.
    pose proof (loadu_word m v b 0 B ltac:(lia)) as L0. pose proof (loadu_word m v b 1 B ltac:(lia)) as L1.
    pose proof (loadu_word m v b 2 B ltac:(lia)) as L2. pose proof (loadu_word m v b 3 B ltac:(lia)) as L3.
    pose proof (loadu_word m v b 4 B ltac:(lia)) as L4. pose proof (loadu_word m v b 5 B ltac:(lia)) as L5.
    pose proof (loadu_word m v b 6 B ltac:(lia)) as L6. pose proof (loadu_word m v b 7 B ltac:(lia)) as L7.
    rewrite !padd_small by lia.
    rewrite (bind_ok _ _ _ _ _ _ _ L0), (bind_ok _ _ _ _ _ _ _ L1), (bind_ok _ _ _ _ _ _ _ L2),
      (bind_ok _ _ _ _ _ _ _ L3), (bind_ok _ _ _ _ _ _ _ L4), (bind_ok _ _ _ _ _ _ _ L5),
      (bind_ok _ _ _ _ _ _ _ L6), (bind_ok _ _ _ _ _ _ _ L7). unfold ret.
    pose proof (wd_ok2 b 0 ltac:(lia)). pose proof (wd_ok2 b 1 ltac:(lia)).
    pose proof (wd_ok2 b 2 ltac:(lia)). pose proof (wd_ok2 b 3 ltac:(lia)).
    pose proof (wd_ok2 b 4 ltac:(lia)). pose proof (wd_ok2 b 5 ltac:(lia)).
    pose proof (wd_ok2 b 6 ltac:(lia)). pose proof (wd_ok2 b 7 ltac:(lia)).
    cbv zeta.
    rewrite (aesenc_eq (wd b 0) y) by auto with ok2.
    rewrite (xor_si128_eq x (wd b 6)) by auto with ok2.
    rewrite (aesenc_eq (wd b 4)), (aesenc_eq (wd b 2)) by auto with ok2.
    rewrite !add_epi64_eq, sub_epi64_eq by auto with ok2.
    rewrite aesdec_eq by auto with ok2.
    rewrite !xor_si128_eq by auto with ok2.
    rewrite !aesenc_eq by auto 8 with ok2. reflexivity.
  Qed.
  Lemma aes_a_ok4 : forall t b, ok4 t -> length b = 128%nat -> ok4 (aes_a_absorb t b).
  Proof.
    intros [x y] b [X Y] L. pose proof (wd_ok2 b 1 ltac:(lia)). pose proof (wd_ok2 b 5 ltac:(lia)).
    split; cbn [aes_a_absorb fst snd]; auto with ok2.
  Qed.

  (** with AVX2, the salt is a third word *)
  Definition put3 (t : pair2 * word128) (v : N) : aes_vars * N := (put (fst t) v, pack (snd t)).
  Definition ok6 (t : pair2 * word128) : Prop := ok4 (fst t) /\ ok2 (snd t).
  Lemma aes_b_block_ok : forall t v b, ok6 t -> length b = 128%nat -> bytes_at m v b ->
    v + 128 < addr_space cfg ->
    aes_b_block cfg (put3 t v) m = Ok (put3 (aes_b_absorb t b) (v + 128), m).
  Proof.
    intros [[x y] z] v b [[X Y] Z] L B A. unfold aes_b_block, put3, put. cbn [fst snd ax ay av] in *.
    pose proof (loadu_word m v b 0 B ltac:(lia)) as L0. pose proof (loadu_word m v b 1 B ltac:(lia)) as L1.
    pose proof (loadu_word m v b 2 B ltac:(lia)) as L2. pose proof (loadu_word m v b 3 B ltac:(lia)) as L3.
    pose proof (loadu_word m v b 4 B ltac:(lia)) as L4. pose proof (loadu_word m v b 5 B ltac:(lia)) as L5.
    pose proof (loadu_word m v b 6 B ltac:(lia)) as L6. pose proof (loadu_word m v b 7 B ltac:(lia)) as L7.
    change (N.of_nat (16 * 0)) with 0 in L0. rewrite N.add_0_r in L0.
    rewrite !padd_small by lia.
    rewrite (bind_ok _ _ _ _ _ _ _ L0), (bind_ok _ _ _ _ _ _ _ L1), (bind_ok _ _ _ _ _ _ _ L2),
      (bind_ok _ _ _ _ _ _ _ L3), (bind_ok _ _ _ _ _ _ _ L4), (bind_ok _ _ _ _ _ _ _ L5),
      (bind_ok _ _ _ _ _ _ _ L6), (bind_ok _ _ _ _ _ _ _ L7). unfold ret.
    pose proof (wd_ok2 b 0 ltac:(lia)). pose proof (wd_ok2 b 1 ltac:(lia)).
    pose proof (wd_ok2 b 2 ltac:(lia)). pose proof (wd_ok2 b 3 ltac:(lia)).
    pose proof (wd_ok2 b 4 ltac:(lia)). pose proof (wd_ok2 b 5 ltac:(lia)).
    pose proof (wd_ok2 b 6 ltac:(lia)). pose proof (wd_ok2 b 7 ltac:(lia)).
    cbv zeta. unfold aes_b_absorb. cbn [fold_left seq fst snd].
    rewrite (aesenc_eq (wd b 0) z) by auto with ok2.
    do 7 (rewrite aesdec_eq by auto with ok2).
    rewrite (aesenc_eq x) by auto with ok2.
    rewrite set_epi64x_pack by reflexivity. change prime_6 with P6. change prime_5 with P5.
    rewrite !add_epi64_eq by (auto with ok2; now split). reflexivity.
  Qed.
  Lemma aes_b_ok6 : forall t b, ok6 t -> length b = 128%nat -> ok6 (aes_b_absorb t b).
  Proof.
    intros [[x y] z] b [[X Y] Z] L. pose proof (wd_ok2 b 7 ltac:(lia)).
    unfold aes_b_absorb. cbn [fold_left seq]. split; [split|]; cbn [fst snd]; auto with ok2.
  Qed.
End Steps.

Lemma aes_finish_eq : forall cfg t, ok4 t ->
  extract_ab cfg (add_epi64 (aesdec (pack (fst t)) (aesenc (pack (snd t)) (pack (fst t)))) (pack (snd t)))
  = add2 (dec (fst t) (enc (snd t) (fst t))) (snd t).
Proof.
  intros cfg [x y] [X Y]. cbn [fst snd] in *.
  rewrite aesenc_eq, aesdec_eq, add_epi64_eq by auto with ok2. apply extract_ab_eq. auto with ok2.
Qed.

(** ** Cutting *)
Lemma take : forall k (l : list byte), (k <= length l)%nat ->
  exists b r, l = b ++ r /\ length b = k /\ length r = (length l - k)%nat.
Proof.
  intros k l H. exists (firstn k l), (skipn k l).
  rewrite firstn_skipn, firstn_length_le, skipn_length by lia. auto.
Qed.
Lemma skipn_skipn' : forall (a b : nat) (l : list byte), skipn a (skipn b l) = skipn (b + a) l.
Proof.
  intros a b. revert a. induction b as [|b IH]; intros a l; [reflexivity|].
  destruct l as [|x l]; [now rewrite !skipn_nil|]. cbn [skipn Nat.add]. apply IH.
Qed.
Lemma rest_rest : forall c k (l : list byte), c <> 0%nat -> k <> 0%nat ->
  rest k (rest (k * c) l) = rest k l.
Proof.
  intros c k l C K. unfold rest at 1. rewrite rest_length by nia. unfold rest.
  rewrite skipn_skipn'. f_equal.
  rewrite Nat.mod_mul_r by assumption.
  rewrite (Nat.mul_comm k ((length l / k) mod c)), Nat.div_add by assumption.
  rewrite (Nat.div_small (length l mod k) k) by now apply Nat.mod_upper_bound.
  cbn [Nat.add]. rewrite <- Nat.div_div by assumption.
  pose proof (Nat.div_mod (length l / k) c C) as D. nia.
Qed.

Lemma bit_set : forall x k, negb (N.land x (2 ^ k) =? 0) = ((x / 2 ^ k) mod 2 =? 1).
Proof.
  intros x k. pose proof (land_mask x k 1) as E. change (N.ones 1) with 1 in E. rewrite N.mul_1_l, N.pow_1_r in E.
  rewrite E. pose proof (N.mod_lt (x / 2 ^ k) 2 ltac:(discriminate)) as B. pose proof (pow2_pos k).
  destruct ((x / 2 ^ k) mod 2) as [|p]; [reflexivity|].
  assert (N.pos p = 1) as -> by lia. rewrite N.mul_1_l. cbn. lia.
Qed.

Section Whole.
  Variables (cfg : config) (m : mem).

  (** the rest of up to 127 bytes, without AVX2 *)
  Lemma aes_a_mid : forall len t v l R (K : aes_vars -> M R), ok4 t ->
    (length l < 128)%nat -> len mod 128 = mlen l -> bytes_at m v l -> v + mlen l < addr_space cfg ->
    exists t', ok4 t' /\
      t' = fold_left aes_one (blocks 16 (rest 32 l)) (fold_left aes_two (blocks 32 l) t) /\
      (s <- (if negb (N.land len 64 =? 0) then s <- aes_pair cfg (put t v) ;; aes_pair cfg s
             else ret (put t v)) ;;
       s <- (if negb (N.land len 32 =? 0) then aes_pair cfg s else ret s) ;;
       s <- (if negb (N.land len 16 =? 0) then
               let y := add_epi64 (ax s) (ay s) in
               w <- loadu (av s) ;;
               ret (XY (aesdec (ax s) w) y (padd cfg (av s) 16))
             else ret s) ;; K s) m
      = K (put t' (v + N.of_nat (16 * (length l / 16)))) m.
  Proof.
    intros len t v l R K T L E B A.
    change 64 with (2 ^ 6). change 32 with (2 ^ 5) at 1. change 16 with (2 ^ 4) at 1.
    rewrite !bit_set. change (2 ^ 6) with 64. change (2 ^ 5) with 32. change (2 ^ 4) with 16.
    unfold mlen in *.
    (* 64 bytes *)
    assert (S1 : exists t1 v1 l1, ok4 t1 /\ (length l1 < 64)%nat /\ len mod 64 = mlen l1 /\ bytes_at m v1 l1 /\
              v1 + mlen l1 = v + mlen l /\ rest 32 l1 = rest 32 l /\
              fold_left aes_two (blocks 32 l) t = fold_left aes_two (blocks 32 l1) t1 /\
              (if (len / 64) mod 2 =? 1 then s <- aes_pair cfg (put t v) ;; aes_pair cfg s else ret (put t v)) m
              = Ok (put t1 v1, m)).
    { destruct (N.eqb_spec ((len / 64) mod 2) 1) as [C|C].
      - destruct (take 32 l) as (b1 & r1 & -> & L1 & R1); [lia|].
        rewrite app_length in *. destruct (take 32 r1) as (b2 & r2 & -> & L2 & R2); [lia|].
        rewrite app_length in *. apply bytes_at_app in B. destruct B as [B1 B]. rewrite L1 in B.
        apply bytes_at_app in B. destruct B as [B2 B3]. rewrite L2 in B3.
        exists (aes_two (aes_two t b1) b2), (v + 64), r2.
        split; [now apply aes_two_ok4, L2; apply aes_two_ok4|].
        unfold mlen. rewrite !app_length. split; [lia|]. split; [lia|].
        split; [replace (v + 64) with (v + N.of_nat 32 + N.of_nat 32) by lia; exact B3|]. split; [lia|].
        rewrite !rest_app, !blocks_app by (assumption || lia). split; [reflexivity|]. split; [reflexivity|].
        rewrite (bind_ok _ _ _ _ _ _ _ (aes_pair_ok cfg m t v b1 T L1 B1 ltac:(lia))).
        rewrite (aes_pair_ok cfg m (aes_two t b1) (v + 32) b2); [|now apply aes_two_ok4|exact L2|exact B2|lia].
        do 3 f_equal. lia.
      - exists t, v, l. unfold mlen. repeat (split; [assumption || reflexivity || lia|]). reflexivity. }
    destruct S1 as (t1 & v1 & l1 & T1 & L1 & E1 & B1 & A1 & RR1 & F1 & G1).
    rewrite (bind_ok _ _ _ _ _ _ _ G1). clear G1.
    assert (S2 : exists t2 v2 l2, ok4 t2 /\ (length l2 < 32)%nat /\ len mod 32 = mlen l2 /\ bytes_at m v2 l2 /\
              v2 + mlen l2 = v + mlen l /\ rest 32 l1 = l2 /\
              fold_left aes_two (blocks 32 l1) t1 = t2 /\
              (if (len / 32) mod 2 =? 1 then aes_pair cfg (put t1 v1) else ret (put t1 v1)) m
              = Ok (put t2 v2, m)).
    { unfold mlen in *. destruct (N.eqb_spec ((len / 32) mod 2) 1) as [C|C].
      - destruct (take 32 l1) as (b1 & r1 & -> & Lb1 & R1); [lia|].
        rewrite app_length in *. apply bytes_at_app in B1. destruct B1 as [B2 B3]. rewrite Lb1 in B3.
        exists (aes_two t1 b1), (v1 + 32), r1.
        split; [now apply aes_two_ok4|]. split; [lia|]. split; [lia|]. split; [exact B3|]. split; [lia|].
        rewrite rest_app, rest_short, blocks_app, blocks_nil by (assumption || lia).
        split; [reflexivity|]. split; [reflexivity|].
        apply aes_pair_ok; [assumption|assumption|assumption|lia].
      - exists t1, v1, l1. rewrite rest_short, blocks_nil by lia.
        repeat (split; [assumption || reflexivity || lia|]). reflexivity. }
    destruct S2 as (t2 & v2 & l2 & T2 & L2 & E2 & B2 & A2 & RR2 & F2 & G2).
    rewrite (bind_ok _ _ _ _ _ _ _ G2). clear G2. rewrite <- RR1, RR2, F1, F2. clear RR1 RR2 F1 F2.
    unfold mlen in *.
    destruct (N.eqb_spec ((len / 16) mod 2) 1) as [C|C].
    - destruct (take 16 l2) as (b1 & r1 & -> & Lb1 & R1); [lia|].
      rewrite app_length in *. apply bytes_at_app in B2. destruct B2 as [B2 B3]. rewrite Lb1 in B3.
      exists (aes_one t2 b1). destruct t2 as [x y]. destruct T2 as [X Y]. cbn [fst snd] in X, Y.
      pose proof (word_of_ok2 b1 Lb1) as W.
      split; [split; cbn [aes_one fst snd]; auto with ok2|].
      rewrite blocks_app, blocks_nil by lia. split; [reflexivity|].
      unfold put. cbn [fst snd ax ay av]. cbv zeta.
      rewrite (bind_ok _ _ _ _ _ (XY (aesdec (pack x) (pack (word_of b1))) (add_epi64 (pack x) (pack y)) (v2 + 16)) m).
      2:{ rewrite (bind_ok _ _ _ _ _ _ _ (loadu_ok m v2 b1 B2 Lb1)). unfold ret. now rewrite padd_small by lia. }
      rewrite aesdec_eq, add_epi64_eq by assumption. f_equal. cbn [aes_one fst snd]. f_equal. lia.
    - exists t2. split; [exact T2|]. rewrite blocks_nil by lia. split; [reflexivity|].
      rewrite bind_ret. f_equal. f_equal. lia.
  Qed.

  Lemma rest16_len : forall l : list byte, mlen (rest 16 l) = mlen l mod 16.
  Proof. intro l. unfold mlen. rewrite rest_length by lia. lia. Qed.

  Lemma blocks_bytes_at : forall v l n, bytes_at m v l -> (n <= length l)%nat -> bytes_at m v (firstn n l).
  Proof. intros. now apply bytes_at_firstn. Qed.

  Theorem t1ha0_ia32aes_a_ok : forall p msg seed,
    key_at cfg m p msg -> seed < 2 ^ 64 -> (32 < mlen msg -> 127 <= p + mlen msg) ->
    t1ha0_ia32aes_a cfg p (mlen msg) seed m = Ok (t1ha0_aes_a msg seed, m).
  Proof.
    intros p msg seed K SD LOW. pose proof K as (B & A & _). pose proof (addr_space_le cfg) as AS.
    unfold t1ha0_ia32aes_a, t1ha0_aes_a.
    destruct (N.ltb_spec 32 (mlen msg)) as [C|C].
    2:{ replace (mlen msg <=? 32) with true by lia. rewrite bind_ret.
        apply aes_tail_ok; [unfold mlen in C; lia|exact K]. }
    replace (mlen msg <=? 32) with false by lia. specialize (LOW C).
    assert (X : ok2 (mlen msg, seed)) by (split; cbn [fst snd]; [lia|exact SD]).
    assert (Y : ok2 (enc (mlen msg, seed) (P6, P5))) by (apply enc_ok2; now split).
    set (t0 := ((mlen msg, seed), enc (mlen msg, seed) (P6, P5))).
    assert (T0 : ok4 t0) by now split.
    set (t1 := fold_left aes_a_absorb (blocks 128 msg) t0).
    assert (T1 : ok4 t1).
    { apply (fold_blocks_J pair2 ok4 128 aes_a_absorb); [lia|apply aes_a_ok4|exact T0]. }
    set (v1 := p + N.of_nat (128 * (length msg / 128))).
    assert (LP : while_ (N.to_nat (mlen msg / 128 + 1)) (aes_a_block cfg)
       (fun s => av s <? psub cfg (padd cfg p (mlen msg)) 127)
       (XY (set_epi64x seed (mlen msg)) (aesenc (set_epi64x seed (mlen msg)) (set_epi64x prime_5 prime_6)) p) m
       = Ok (put t1 v1, m)).
    { rewrite !set_epi64x_pack by (exact SD || reflexivity || (cbn; lia) || lia).
      rewrite (aesenc_eq (mlen msg, seed)) by (exact X || now split).
      change (XY (pack (mlen msg, seed)) (pack (enc (mlen msg, seed) (prime_6, prime_5))) p) with (put t0 p).
      apply (while_blocks m aes_vars pair2 put ok4 (fun _ => True) 128 aes_a_absorb
               (aes_a_block cfg) (fun s => av s <? psub cfg (padd cfg p (mlen msg)) 127) (p + mlen msg)).
      - lia.
      - apply aes_a_ok4.
      - auto.
      - intros t v b T L BB E. apply aes_a_block_ok; auto. lia.
      - intros t v l _ E _. unfold put. cbn [av]. rewrite padd_small, psub_small by lia. unfold mlen in *. lia.
      - unfold mlen. lia.
      - exact T0.
      - exact I.
      - exact B.
      - reflexivity. }
    set (r := rest 128 msg).
    assert (RL : mlen r = mlen msg mod 128) by (unfold mlen, r; rewrite rest_length; lia).
    assert (BR : bytes_at m v1 r).
    { unfold r, rest, v1. apply bytes_at_skipn; [exact B|]. lia. }
    assert (VE : v1 + mlen r = p + mlen msg) by (rewrite RL; unfold v1, mlen; lia).
    assert (R16 : rest 16 r = rest 16 msg) by (unfold r; apply (rest_rest 8 16); lia).
    assert (R32 : rest 32 r = rest 32 msg) by (unfold r; apply (rest_rest 4 32); lia).
    destruct (aes_a_mid (mlen msg) t1 v1 r (N * N * N * N) (fun s =>
          let x := add_epi64 (aesdec (ax s) (aesenc (ay s) (ax s))) (ay s) in
          let '(a, b) := extract_ab cfg x in
          ret (a, b, av s, N.land (mlen msg) 15)) T1) as (t2 & T2 & F2 & G2);
      [unfold mlen in RL; lia|now rewrite RL|exact BR|lia|].
    rewrite (bind_ok _ _ _ _ _ (fst (add2 (dec (fst t2) (enc (snd t2) (fst t2))) (snd t2)),
        snd (add2 (dec (fst t2) (enc (snd t2) (fst t2))) (snd t2)),
        v1 + N.of_nat (16 * (length r / 16)), mlen msg mod 16) m).
    2:{ rewrite (bind_ok _ _ _ _ _ _ _ LP). refine (eq_trans G2 _). unfold put. cbn [ax ay av]. cbv zeta.
        rewrite aes_finish_eq by exact T2. rewrite land15.
        generalize (add2 (dec (fst t2) (enc (snd t2) (fst t2))) (snd t2)). intros [a b]. reflexivity. }
    rewrite <- rest16_len.
    rewrite aes_tail_ok.
    - do 2 f_equal. unfold aes_finish. rewrite F2, R32.
      fold r. fold t0. fold t1.
      destruct (fold_left aes_one (blocks 16 (rest 32 msg)) (fold_left aes_two (blocks 32 r) t1)) as [x y].
      cbn [fst snd]. now rewrite <- surjective_pairing.
    - rewrite rest_length by lia. lia.
    - rewrite <- R16. unfold rest.
      assert (KR : key_at cfg m v1 r) by (unfold r, rest, v1; apply key_at_skipn; [lia|exact K]).
      apply key_at_skipn; [lia|exact KR].
  Qed.

  (** the loop limit: complete 16-byte words, if the mask is wide enough *)
  Lemma mask_eq : forall len, len < 2 ^ 64 -> (ulong64 cfg = true \/ len < 2 ^ 32) ->
    N.land len (not15ul cfg) = 16 * (len / 16).
  Proof.
    intros len L H. unfold not15ul.
    assert (G : forall k, len < 2 ^ (4 + k) -> N.land len (N.ones k * 2 ^ 4) = 16 * (len / 16)).
    { intros k B. rewrite land_mask. change (2 ^ 4) with 16. rewrite N.mod_small; [lia|].
      rewrite N.pow_add_r in B. apply N.div_lt_upper_bound; [discriminate|exact B]. }
    destruct (ulong64 cfg) eqn:U.
    - apply (G 60). exact L.
    - destruct H as [H|H]; [discriminate|]. apply (G 28). exact H.
  Qed.

  Theorem t1ha0_ia32aes_avx2_ok : forall p msg seed,
    key_at cfg m p msg -> seed < 2 ^ 64 -> (ulong64 cfg = true \/ mlen msg < 2 ^ 32) ->
    (32 < mlen msg -> p + mlen msg + 112 < addr_space cfg) ->
    t1ha0_ia32aes_avx2 cfg p (mlen msg) seed m = Ok (t1ha0_aes_b msg seed, m).
  Proof.
    intros p msg seed K SD UL HIGH. pose proof K as (B & A & _). pose proof (addr_space_le cfg) as AS.
    unfold t1ha0_ia32aes_avx2, t1ha0_aes_b.
    destruct (N.ltb_spec 32 (mlen msg)) as [C|C].
    2:{ replace (mlen msg <=? 32) with true by lia. rewrite bind_ret.
        apply aes_tail_ok; [unfold mlen in C; lia|exact K]. }
    replace (mlen msg <=? 32) with false by lia. specialize (HIGH C).
    rewrite mask_eq by (assumption || lia).
    rewrite (padd_small cfg p (16 * (mlen msg / 16))) by lia.
    assert (X : ok2 (mlen msg, seed)) by (split; cbn [fst snd]; [lia|exact SD]).
    assert (Y : ok2 (enc (mlen msg, seed) (P1, P0))) by (apply enc_ok2; now split).
    rewrite !set_epi64x_pack by (exact SD || reflexivity || lia).
    rewrite (aesenc_eq (mlen msg, seed) (prime_1, prime_0)) by (exact X || now split).
    change (prime_1, prime_0) with (P1, P0).
    set (n := (length msg / 16)%nat).
    assert (NL : (16 * n <= length msg)%nat) by (unfold n; lia).
    replace (16 * (mlen msg / 16)) with (N.of_nat (16 * n)) by (unfold n, mlen; lia).
    set (e := p + N.of_nat (16 * n)).
    set (whole := firstn (16 * n) msg).
    assert (WL : length whole = (16 * n)%nat) by (unfold whole; rewrite firstn_length_le; lia).
    assert (BW : bytes_at m p whole) by now apply bytes_at_firstn.
    assert (HE : e <= p + mlen msg) by (unfold e, mlen; lia).
    assert (KT : key_at cfg m e (rest 16 msg)).
    { unfold rest, e. fold n. apply key_at_skipn; [exact NL|exact K]. }
    clearbody whole.
    (* the first word, if their number is odd *)
    assert (S1 : exists t0 v0 body, ok4 t0 /\ v0 + mlen body = e /\ (length body mod 32 = 0 /\ length body <= length msg)%nat /\
        bytes_at m v0 body /\
        (if Nat.odd n
         then let x := add2 (mlen msg, seed) (wd whole 0) in ((x, enc x (enc (mlen msg, seed) (P1, P0))), skipn 16 whole)
         else (((mlen msg, seed), enc (mlen msg, seed) (P1, P0)), whole)) = (t0, body) /\
        (if negb (N.land (mlen msg) 16 =? 0) then
                  w <- loadu p ;;
                  let x := add_epi64 (pack (mlen msg, seed)) w in
                  ret (XY x (aesenc x (pack (enc (mlen msg, seed) (P1, P0)))) (padd cfg p 16))
                else ret (XY (pack (mlen msg, seed)) (pack (enc (mlen msg, seed) (P1, P0))) p)) m
        = Ok (put t0 v0, m)).
    { change 16 with (2 ^ 4) at 1. rewrite bit_set. change (2 ^ 4) with 16.
      replace ((mlen msg / 16) mod 2 =? 1) with (Nat.odd n).
      2:{ replace (mlen msg / 16) with (N.of_nat n) by (unfold n, mlen; lia).
          pose proof (Nat.div2_odd n) as D. destruct (Nat.odd n); cbn [Nat.b2n] in D; lia. }
      pose proof (Nat.div2_odd n) as D.
      destruct (Nat.odd n); cbn [Nat.b2n] in D.
      - destruct (take 16 whole) as (b & r & -> & Lb & Lr); [lia|].
        rewrite app_length in WL. apply bytes_at_app in BW. destruct BW as [B1 B2]. rewrite Lb in B2.
        assert (W0 : wd (b ++ r) 0 = word_of b) by (unfold wd; now rewrite group_0_app).
        rewrite W0. pose proof (word_of_ok2 b Lb) as OW.
        exists (add2 (mlen msg, seed) (word_of b),
                enc (add2 (mlen msg, seed) (word_of b)) (enc (mlen msg, seed) (P1, P0))), (p + 16), r.
        split; [split; cbn [fst snd]; auto with ok2|].
        split; [unfold e, mlen; lia|]. split; [split; lia|]. split; [exact B2|].
        split; [rewrite skipn_app, Lb, Nat.sub_diag, skipn_all2 by lia; reflexivity|].
        rewrite (bind_ok _ _ _ _ _ _ _ (loadu_ok m p b B1 Lb)). cbv zeta. unfold ret, put. cbn [fst snd].
        rewrite add_epi64_eq, aesenc_eq, padd_small by (auto with ok2; unfold mlen in *; lia). reflexivity.
      - exists ((mlen msg, seed), enc (mlen msg, seed) (P1, P0)), p, whole.
        split; [now split|]. split; [unfold mlen; lia|]. split; [split; lia|]. split; [exact BW|].
        split; reflexivity. }
    destruct S1 as (t0 & v0 & body & T0 & E0 & (M0 & N0) & B0 & F0 & G0).
    fold n. cbv zeta in F0. cbv zeta. rewrite F0. clear F0.
    (* the 128-byte loop *)
    set (s1 := fold_left aes_b_absorb (blocks 128 body) (t0, snd t0)).
    assert (OS : ok6 s1).
    { apply (fold_blocks_J _ ok6 128 aes_b_absorb); [lia|apply aes_b_ok6|]. split; [exact T0|apply T0]. }
    set (v1 := v0 + N.of_nat (128 * (length body / 128))).
    assert (L1 : (if padd cfg v0 112 <? e then
                  let salt := pack (snd t0) in
                  ss <- do_while (N.to_nat (mlen msg / 128 + 1)) (aes_b_block cfg)
                          (fun ss => padd cfg (av (fst ss)) 112 <? e) (put t0 v0, salt) ;;
                  ret (fst ss)
                else ret (put t0 v0)) m = Ok (put (fst s1) v1, m)).
    { cbv zeta.
      assert (W : while_ (N.to_nat (mlen msg / 128 + 1)) (aes_b_block cfg)
                    (fun ss => padd cfg (av (fst ss)) 112 <? e) (put3 (t0, snd t0) v0) m
                  = Ok (put3 s1 v1, m)).
      { apply (while_blocks m (aes_vars * N) (pair2 * word128) put3 ok6 (fun l => length l mod 32 = 0)%nat 128
                 aes_b_absorb _ _ e).
        - lia.
        - apply aes_b_ok6.
        - intros b r Lb H. rewrite app_length, Lb in H. lia.
        - intros t v b T L BB E. apply aes_b_block_ok; auto. lia.
        - intros t v l _ E G. unfold put3, put. cbn [fst av]. rewrite padd_small by lia. unfold mlen in E. lia.
        - unfold mlen in *. unfold e in *. lia.
        - split; [exact T0|apply T0].
        - exact M0.
        - exact B0.
        - exact E0. }
      rewrite <- while_do in W. unfold put3 at 1 2 in W. cbn [fst snd] in W. unfold put at 1 in W. cbn [av] in W.
      destruct (padd cfg v0 112 <? e).
      - rewrite (bind_ok _ _ _ _ _ _ _ W). reflexivity.
      - unfold ret in W |- *. apply (f_equal (fun o => match o with Ok (x, _) => Some (fst x) | _ => None end)) in W.
        cbn [fst] in W. injection W as W1 W2 W3. unfold put. now rewrite W1, W2, W3. }
    set (r := rest 128 body).
    assert (RL : length r = (length body mod 128)%nat) by (unfold r; rewrite rest_length; lia).
    assert (BR : bytes_at m v1 r).
    { unfold r, rest, v1. apply bytes_at_skipn; [exact B0|]. lia. }
    assert (VE : v1 + mlen r = e) by (unfold mlen in *; rewrite RL; unfold v1; lia).
    set (t2 := fold_left aes_two (blocks 32 r) (fst s1)).
    assert (T2 : ok4 t2).
    { apply (fold_blocks_J pair2 ok4 32 aes_two); [lia|apply aes_two_ok4|apply OS]. }
    assert (L2 : while_ (N.to_nat (mlen msg / 32 + 1)) (aes_pair cfg) (fun s => av s <? e) (put (fst s1) v1) m
                 = Ok (put t2 (v1 + N.of_nat (32 * (length r / 32))), m)).
    { apply (while_blocks m aes_vars pair2 put ok4 (fun l => length l mod 32 = 0)%nat 32 aes_two _ _ e).
      - lia.
      - apply aes_two_ok4.
      - intros b r' Lb H. rewrite app_length, Lb in H. lia.
      - intros t v b T L BB E. apply aes_pair_ok; auto. lia.
      - intros t v l _ E G. unfold put. cbn [av]. unfold mlen in E. lia.
      - unfold mlen in *. unfold e in *. lia.
      - apply OS.
      - lia.
      - exact BR.
      - exact VE. }
    rewrite (bind_ok _ _ _ _ _ (fst (add2 (dec (fst t2) (enc (snd t2) (fst t2))) (snd t2)),
        snd (add2 (dec (fst t2) (enc (snd t2) (fst t2))) (snd t2)), e, mlen msg mod 16) m).
    2:{ cbv zeta in G0, L1. rewrite (bind_ok _ _ _ _ _ _ _ G0).
        change (ay (put t0 v0)) with (pack (snd t0)). change (av (put t0 v0)) with v0.
        rewrite (bind_ok _ _ _ _ _ _ _ L1). rewrite (bind_ok _ _ _ _ _ _ _ L2).
        unfold put. cbn [ax ay av]. cbv zeta.
        rewrite aes_finish_eq by exact T2. rewrite land15.
        generalize (add2 (dec (fst t2) (enc (snd t2) (fst t2))) (snd t2)). intros [a b]. reflexivity. }
    rewrite <- rest16_len.
    rewrite aes_tail_ok.
    - do 2 f_equal. fold s1. unfold aes_finish. fold r.
      destruct s1 as [[x1 y1] z1]. unfold t2. cbn [fst snd].
      destruct (fold_left aes_two (blocks 32 r) (x1, y1)) as [x y].
      cbn [fst snd]. now rewrite <- surjective_pairing.
    - rewrite rest_length by lia. lia.
    - exact KT.
  Qed.
End Whole.
