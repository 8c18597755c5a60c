(** The streaming API: init, update, final. *)
From Coq Require Import ZArith NArith Arith List Bool Lia Strings.Byte.
From Coq Require Import ZifyN ZifyNat ZifyBool.
From Verif Require Import Bytes CSem Bits T1ha2 Spec NBits CSemFacts OpsFacts FetchFacts
  TailFacts ReadFacts KeyMem PageFacts T1ha2Facts CtxMem.
Import ListNotations.
Ltac Zify.zify_post_hook ::= Z.div_mod_to_equations.
Local Open Scope N_scope.

(** ** Frames *)
Lemma only_refl : forall m p n, only m m p n.
Proof. intros. split; auto. Qed.
Lemma only_weaken : forall m m' p n q k, only m m' p n -> q <= p -> p + n <= q + k -> only m m' q k.
Proof. intros m m' p n q k [H1 H2] A B. split; [|exact H2]. intros a Ha. apply H1. lia. Qed.
Lemma only_trans : forall m1 m2 m3 p n, only m1 m2 p n -> only m2 m3 p n -> only m1 m3 p n.
Proof.
  intros m1 m2 m3 p n [A1 A2] [B1 B2]. split.
  - intros a Ha. rewrite B1 by assumption. now apply A1.
  - auto.
Qed.
Lemma only_bytes : forall m m' p n q l, only m m' p n ->
  q + mlen l <= p \/ p + n <= q -> bytes_at m q l -> bytes_at m' q l.
Proof.
  intros m m' p n q l [H _] D B i b E. assert (i < length l)%nat by (apply nth_error_Some; congruence).
  unfold mlen in D. rewrite H by lia. now apply B.
Qed.
Lemma only_mapped : forall m m' p n q k, only m m' p n -> mapped m q k -> mapped m' q k.
Proof. intros m m' p n q k [_ H] M i Hi. apply H. now apply M. Qed.
Lemma only_write : forall m p l n, n = mlen l -> only m (write m p l) p n.
Proof.
  intros m p l n ->. split.
  - intros a Ha. now apply write_out.
  - intros a Ha. pose proof (write_mapped m p l a 1) as W. unfold mapped in W.
    specialize (W). assert (write m p l (a + N.of_nat 0) <> None).
    { apply W; [|lia]. intros i Hi. replace i with 0%nat by lia. now rewrite N.add_0_r. }
    now rewrite N.add_0_r in H.
Qed.

Section Native.
  Variable cfg : config.

  Lemma native_length : forall n v, length (native cfg n v) = n.
  Proof. intros. unfold native. destruct (big_endian cfg); [apply be_bytes_length|apply le_bytes_length]. Qed.
  Lemma native_mlen : forall n v, mlen (native cfg n v) = N.of_nat n.
  Proof. intros. unfold mlen. now rewrite native_length. Qed.
  Lemma native_mod : forall n v, native cfg n (v mod 256 ^ N.of_nat n) = native cfg n v.
  Proof.
    intros n v. unfold native. destruct (big_endian cfg).
    - apply be_num_inj; [now rewrite !be_bytes_length|]. rewrite !be_num_be_bytes, N.mod_mod; [reflexivity|].
      apply N.pow_nonzero. discriminate.
    - apply le_num_inj; [now rewrite !le_bytes_length|]. rewrite !le_num_le_bytes, N.mod_mod; [reflexivity|].
      apply N.pow_nonzero. discriminate.
  Qed.

  Lemma read_native : forall m n p v, p mod alignment cfg n = 0 ->
    bytes_at m p (native cfg n v) -> v < 256 ^ N.of_nat n -> read_aligned cfg n p m = Ok (v, m).
  Proof.
    intros m n p v A H B. rewrite (read_aligned_ok cfg n p _ m A H (native_length n v)).
    unfold native. destruct (big_endian cfg).
    - now rewrite be_num_be_bytes, N.mod_small.
    - now rewrite le_num_le_bytes, N.mod_small.
  Qed.

  Lemma write_native : forall m n p v, p mod alignment cfg n = 0 -> mapped m p n ->
    write_aligned cfg n p v m = Ok (tt, write m p (native cfg n v)).
  Proof. intros. apply write_aligned_ok; auto. Qed.
End Native.

Definition st_ok (s : st4) : Prop := qa s < W64 /\ qb s < W64 /\ qc s < W64 /\ qd s < W64.

Lemma xor_lt : forall a b, a < W64 -> b < W64 -> xor a b < W64.
Proof. intros a b. exact (lxor_lt 64 a b). Qed.
Lemma add_lt : forall a b, add a b < W64.
Proof. intros. unfold add. apply N.mod_lt. discriminate. Qed.
Lemma mulw_lt : forall a b, mulw a b < W64.
Proof. intros. unfold mulw. apply N.mod_lt. discriminate. Qed.

Lemma absorb_st_ok : forall s b, st_ok s -> st_ok (absorb s b).
Proof.
  intros s b (A & B & C & D). unfold st_ok, absorb. cbn [qa qb qc qd].
  repeat split; apply xor_lt; auto using add_lt, mulw_lt.
Qed.
Lemma absorb_all_st_ok : forall bs s, st_ok s -> st_ok (absorb_all s bs).
Proof.
  unfold absorb_all. induction bs as [|b bs IH]; intros s H; [exact H|].
  cbn [fold_left]. apply IH. now apply absorb_st_ok.
Qed.
Lemma start_st_ok : forall x y, x < W64 -> y < W64 -> st_ok (start x y).
Proof. intros x y X Y. unfold st_ok, start. cbn [qa qb qc qd]. auto using add_lt. Qed.

(** ** Message cutting *)
Lemma blocks_rest_app : forall k a b, k <> 0%nat ->
  blocks k (a ++ b) = blocks k a ++ blocks k (rest k a ++ b) /\
  rest k (a ++ b) = rest k (rest k a ++ b).
Proof.
  intros k a b K. remember (length a / k)%nat as n eqn:En. revert a En.
  induction n as [|n IH]; intros a En.
  - symmetry in En. apply Nat.div_small_iff in En; [|exact K].
    rewrite (blocks_nil k a), (rest_short k a) by assumption. auto.
  - assert (L : (k <= length a)%nat).
    { destruct (Nat.le_gt_cases k (length a)); [assumption|]. rewrite Nat.div_small in En by assumption. lia. }
    rewrite <- (firstn_skipn k a).
    assert (F : length (firstn k a) = k) by now apply firstn_length_le.
    assert (S : length (skipn k a) = (length a - k)%nat) by apply skipn_length.
    generalize dependent (skipn k a). generalize dependent (firstn k a). intros h F t S.
    rewrite <- !app_assoc, !(blocks_app k h), !(rest_app k h) by assumption.
    destruct (IH t) as [E1 E2].
    { rewrite S. assert (length a = k + (length a - k))%nat as EL by lia.
      rewrite EL, div_plus_one in En by assumption. lia. }
    rewrite E1, E2. auto.
Qed.

Lemma stream_state_app : forall x y a b,
  stream_state x y (a ++ b) = absorb_all (stream_state x y a) (blocks 32 (rest 32 a ++ b)).
Proof.
  intros. unfold stream_state, absorb_all.
  destruct (blocks_rest_app 32 a b ltac:(lia)) as [-> _]. now rewrite fold_left_app.
Qed.

(** The fields of a context; [ctx_is] is the case where [partial] is the length
    of the pending bytes. *)
Definition fields (cfg : config) (m : mem) (c : N) (s : st4) (buf : list byte) (p t : N) : Prop :=
  bytes_at m c (native cfg 8 (qa s) ++ native cfg 8 (qb s) ++ native cfg 8 (qc s) ++ native cfg 8 (qd s)) /\
  mapped m (c + 32) 32 /\ bytes_at m (c + 32) buf /\
  bytes_at m (c + 64) (native cfg (sizeof_ptr cfg) p) /\
  bytes_at m (c + off_total cfg) (native cfg 8 t).

Section Ctx.
  Variables (cfg : config) (c : N).
  Hypothesis CP : ctx_ptr cfg c.

  Lemma layout_bounds : 64 + N.of_nat (sizeof_ptr cfg) <= off_total cfg <= 72.
  Proof.
    destruct CP as (L & _). unfold layout_ok in L. unfold sizeof_ptr.
    destruct (ptr64 cfg); lia.
  Qed.
  Lemma ctx_room : c + 80 <= addr_space cfg + 4 /\ c + off_total cfg + 8 < addr_space cfg.
  Proof.
    destruct CP as (L & _ & _ & A). unfold sizeof_ctx in A. unfold layout_ok in L. lia.
  Qed.
  Lemma ctx_padd : forall k, k <= off_total cfg -> padd cfg c k = c + k.
  Proof. intros k K. apply padd_small. pose proof ctx_room. lia. Qed.

  Lemma al_ctx8 : forall k, k mod 8 = 0 -> (c + k) mod alignment cfg 8 = 0.
  Proof. intros k K. destruct CP as (_ & _ & A & _). unfold alignment in *. destruct (wide cfg); lia. Qed.
  Lemma al_ctx_total : (c + off_total cfg) mod alignment cfg 8 = 0.
  Proof.
    destruct CP as (L & _ & A & _). unfold layout_ok in L.
    destruct L as [->|(-> & _ & W)]; [now apply al_ctx8|]. unfold alignment in *. rewrite W in *. lia.
  Qed.
  Lemma al_ctx_ptr : (c + 64) mod alignment cfg (sizeof_ptr cfg) = 0.
  Proof.
    destruct CP as (_ & _ & A & _). unfold sizeof_ptr. destruct (ptr64 cfg); [now apply al_ctx8|].
    unfold alignment in *. destruct (wide cfg); lia.
  Qed.

  (** reading the fields *)
  Lemma load_total_ok : forall m s buf p t, fields cfg m c s buf p t -> t < W64 ->
    load_total cfg c m = Ok (t, m).
  Proof.
    intros m s buf p t (_ & _ & _ & _ & H) T. unfold load_total. rewrite ctx_padd by lia.
    apply read_native; auto using al_ctx_total.
  Qed.
  Lemma load_partial_ok : forall m s buf p t, fields cfg m c s buf p t -> p < W32 ->
    load_partial cfg c m = Ok (p, m).
  Proof.
    intros m s buf p t (_ & _ & _ & H & _) T. unfold load_partial.
    pose proof layout_bounds. rewrite ctx_padd by lia.
    apply read_native; auto using al_ctx_ptr.
    unfold sizeof_ptr. destruct (ptr64 cfg); [apply N.lt_trans with W32; [exact T|reflexivity]|exact T].
  Qed.
  Lemma load_state_ok : forall m s buf p t, fields cfg m c s buf p t -> st_ok s ->
    load_state cfg c m = Ok (emb s, m).
  Proof.
    intros m s buf p t (H & _) (A & B & C & D). pose proof layout_bounds as LB. unfold load_state.
    apply bytes_at_app in H. destruct H as [H0 H]. apply bytes_at_app in H. destruct H as [H1 H].
    apply bytes_at_app in H. destruct H as [H2 H3]. rewrite native_length in H1. rewrite !native_length in H2. rewrite !native_length in H3.
    rewrite !ctx_padd by lia.
    replace (c + N.of_nat 8 + N.of_nat 8 + N.of_nat 8) with (c + 24) in H3 by lia.
    replace (c + N.of_nat 8 + N.of_nat 8) with (c + 16) in H2 by lia.
    change (N.of_nat 8) with 8 in H1. rewrite N.add_0_r.
    pose proof (al_ctx8 0 eq_refl) as A0. rewrite N.add_0_r in A0.
    ok (read_native cfg m 8 c (qa s) A0 H0 A).
    ok (read_native cfg m 8 (c + 8) (qb s) (al_ctx8 8 eq_refl) H1 B).
    ok (read_native cfg m 8 (c + 16) (qc s) (al_ctx8 16 eq_refl) H2 C).
    ok (read_native cfg m 8 (c + 24) (qd s) (al_ctx8 24 eq_refl) H3 D).
    reflexivity.
  Qed.

  (** writing the fields *)
  Lemma store_total_ok : forall m s buf p t t', fields cfg m c s buf p t -> (length buf <= 32)%nat ->
    exists m', store_total cfg c t' m = Ok (tt, m') /\
      fields cfg m' c s buf p (t' mod W64) /\ only m m' c (sizeof_ctx cfg).
  Proof.
    intros m s buf p t t' (H0 & H1 & H2 & H3 & H4) L. pose proof layout_bounds as LB.
    unfold store_total. rewrite ctx_padd by lia.
    assert (M : mapped m (c + off_total cfg) 8).
    { apply bytes_at_mapped in H4. now rewrite native_length in H4. }
    exists (write m (c + off_total cfg) (native cfg 8 t')). split; [|split].
    - apply write_native; auto using al_ctx_total.
    - assert (O : only m (write m (c + off_total cfg) (native cfg 8 t')) (c + off_total cfg) 8).
      { apply only_write. now rewrite native_mlen. }
      repeat split.
      + eapply only_bytes; [exact O| |exact H0]. unfold mlen. rewrite !app_length, !native_length. lia.
      + eapply only_mapped; eassumption.
      + eapply only_bytes; [exact O| |exact H2]. unfold mlen. lia.
      + eapply only_bytes; [exact O| |exact H3]. rewrite native_mlen. lia.
      + change W64 with (256 ^ N.of_nat 8). rewrite native_mod. apply write_bytes_at.
    - eapply only_weaken; [apply only_write; reflexivity|lia|]. rewrite native_mlen.
      unfold sizeof_ctx. lia.
  Qed.

  Lemma store_state_ok : forall m s s' buf p t, fields cfg m c s buf p t -> (length buf <= 32)%nat ->
    exists m', store_state cfg c (emb s') m = Ok (tt, m') /\
      fields cfg m' c s' buf p t /\ only m m' c (sizeof_ctx cfg).
  Proof.
    intros m s s' buf p t (H0 & H1 & H2 & H3 & H4) L. pose proof layout_bounds as LB.
    unfold store_state. rewrite !ctx_padd by lia. rewrite N.add_0_r.
    apply bytes_at_mapped in H0. rewrite !app_length, !native_length in H0.
    assert (Mi : forall k, k <= 24 -> mapped m (c + k) 8).
    { intros k K i Hi. replace (c + k + N.of_nat i) with (c + N.of_nat (N.to_nat k + i)) by lia.
      apply H0. lia. }
    pose proof (al_ctx8 0 eq_refl) as A0. rewrite N.add_0_r in A0.
    pose proof (Mi 0 ltac:(lia)) as M0. rewrite N.add_0_r in M0.
    cbn [emb sa sb sc sd].
    set (m1 := write m c (native cfg 8 (qa s'))).
    assert (O1 : only m m1 c 8) by (apply only_write; now rewrite native_mlen).
    rewrite (bind_ok _ _ _ _ _ tt m1) by (now apply write_native).
    set (m2 := write m1 (c + 8) (native cfg 8 (qb s'))).
    assert (O2 : only m1 m2 (c + 8) 8) by (apply only_write; now rewrite native_mlen).
    rewrite (bind_ok _ _ _ _ _ tt m2).
    2:{ apply write_native; [now apply al_ctx8|]. eapply only_mapped; [exact O1|apply Mi; lia]. }
    set (m3 := write m2 (c + 16) (native cfg 8 (qc s'))).
    assert (O3 : only m2 m3 (c + 16) 8) by (apply only_write; now rewrite native_mlen).
    rewrite (bind_ok _ _ _ _ _ tt m3).
    2:{ apply write_native; [now apply al_ctx8|]. eapply only_mapped; [exact O2|].
        eapply only_mapped; [exact O1|apply Mi; lia]. }
    set (m4 := write m3 (c + 24) (native cfg 8 (qd s'))).
    assert (O4 : only m3 m4 (c + 24) 8) by (apply only_write; now rewrite native_mlen).
    exists m4. split; [|split].
    - apply write_native; [now apply al_ctx8|]. eapply only_mapped; [exact O3|].
      eapply only_mapped; [exact O2|]. eapply only_mapped; [exact O1|apply Mi; lia].
    - assert (O : only m m4 c 32).
      { eapply only_trans; [|eapply only_weaken; [exact O4|lia|lia]].
        eapply only_trans; [|eapply only_weaken; [exact O3|lia|lia]].
        eapply only_trans; [|eapply only_weaken; [exact O2|lia|lia]].
        eapply only_weaken; [exact O1|lia|lia]. }
      repeat split.
      + apply bytes_at_app. split.
        { eapply only_bytes; [exact O4|rewrite native_mlen; lia|].
          eapply only_bytes; [exact O3|rewrite native_mlen; lia|].
          eapply only_bytes; [exact O2|rewrite native_mlen; lia|]. apply write_bytes_at. }
        rewrite native_length. apply bytes_at_app. split.
        { eapply only_bytes; [exact O4|rewrite native_mlen; lia|].
          eapply only_bytes; [exact O3|rewrite native_mlen; lia|]. apply write_bytes_at. }
        rewrite native_length. replace (c + N.of_nat 8 + N.of_nat 8) with (c + 16) by lia.
        apply bytes_at_app. split.
        { eapply only_bytes; [exact O4|rewrite native_mlen; lia|]. apply write_bytes_at. }
        rewrite native_length. replace (c + 16 + N.of_nat 8) with (c + 24) by lia.
        apply write_bytes_at.
      + eapply only_mapped; eassumption.
      + eapply only_bytes; [exact O|unfold mlen; lia|exact H2].
      + eapply only_bytes; [exact O|rewrite native_mlen; lia|exact H3].
      + eapply only_bytes; [exact O|rewrite native_mlen; lia|exact H4].
    - unfold sizeof_ctx. eapply only_trans; [|eapply only_weaken; [exact O4|lia|lia]].
      eapply only_trans; [|eapply only_weaken; [exact O3|lia|lia]].
      eapply only_trans; [|eapply only_weaken; [exact O2|lia|lia]].
      eapply only_weaken; [exact O1|lia|lia].
  Qed.

  Lemma store_partial_ok : forall m s buf p t p', fields cfg m c s buf p t -> (length buf <= 32)%nat ->
    exists m', store_partial cfg c p' m = Ok (tt, m') /\
      fields cfg m' c s buf p' t /\ only m m' c (sizeof_ctx cfg).
  Proof.
    intros m s buf p t p' (H0 & H1 & H2 & H3 & H4) L. pose proof layout_bounds as LB.
    unfold store_partial. rewrite ctx_padd by lia.
    assert (M : mapped m (c + 64) (sizeof_ptr cfg)).
    { apply bytes_at_mapped in H3. now rewrite native_length in H3. }
    set (m' := write m (c + 64) (native cfg (sizeof_ptr cfg) p')).
    assert (O : only m m' (c + 64) (N.of_nat (sizeof_ptr cfg))).
    { apply only_write. now rewrite native_mlen. }
    exists m'. split; [|split].
    - apply write_native; auto using al_ctx_ptr.
    - repeat split.
      + eapply only_bytes; [exact O| |exact H0]. unfold mlen. rewrite !app_length, !native_length. lia.
      + eapply only_mapped; eassumption.
      + eapply only_bytes; [exact O| |exact H2]. unfold mlen. lia.
      + apply write_bytes_at.
      + eapply only_bytes; [exact O| |exact H4]. rewrite native_mlen. lia.
    - eapply only_weaken; [exact O|lia|]. unfold sizeof_ctx. lia.
  Qed.

  Lemma memcpy_ok : forall m dst src l, dst <> 0 -> src <> 0 -> bytes_at m src l ->
    mapped m dst (length l) -> (l = [] \/ dst + mlen l <= src \/ src + mlen l <= dst) ->
    memcpy cfg dst src (mlen l) m = Ok (tt, write m dst l).
  Proof.
    intros m dst src l D S B Mp Dj. unfold memcpy.
    replace ((dst =? 0) || (src =? 0)) with false by lia.
    replace ((src <? dst + mlen l) && (dst <? src + mlen l) && negb (mlen l =? 0)) with false.
    2:{ destruct Dj as [->|Dj]; [cbn; lia|lia]. }
    unfold mlen. rewrite Nat2N.id. ok (load_bytes_ok l m src B). now apply store_bytes_ok.
  Qed.

  (** appending to the buffer *)
  Lemma stash_ok : forall m s buf p t src l, fields cfg m c s buf p t ->
    (length buf + length l <= 32)%nat -> src <> 0 -> bytes_at m src l ->
    (l = [] \/ c + sizeof_ctx cfg <= src \/ src + mlen l <= c) ->
    exists m', memcpy cfg (c + 32 + mlen buf) src (mlen l) m = Ok (tt, m') /\
      fields cfg m' c s (buf ++ l) p t /\ only m m' c (sizeof_ctx cfg).
  Proof.
    intros m s buf p t src l (H0 & H1 & H2 & H3 & H4) L S B D. pose proof layout_bounds as LB.
    unfold sizeof_ctx in *. set (m' := write m (c + 32 + mlen buf) l).
    assert (O : only m m' (c + 32 + mlen buf) (mlen l)) by now apply only_write.
    exists m'. split; [|split].
    - apply memcpy_ok; auto; [lia| |].
      + intros i Hi. replace (c + 32 + mlen buf + N.of_nat i)
          with (c + 32 + N.of_nat (length buf + i)) by (unfold mlen; lia). apply H1. lia.
      + unfold mlen in *. destruct D as [D|D]; [now left|right]. lia.
    - repeat split.
      + eapply only_bytes; [exact O| |exact H0]. unfold mlen. rewrite !app_length, !native_length. lia.
      + eapply only_mapped; eassumption.
      + apply bytes_at_app. split; [|apply write_bytes_at].
        eapply only_bytes; [exact O| |exact H2]. lia.
      + eapply only_bytes; [exact O| |exact H3]. unfold mlen in *. lia.
      + eapply only_bytes; [exact O| |exact H4]. unfold mlen in *. lia.
    - eapply only_weaken; [exact O|lia|]. unfold mlen. lia.
  Qed.

  Lemma forget_buffer : forall m s buf p t, fields cfg m c s buf p t -> fields cfg m c s [] p t.
  Proof. intros m s buf p t (H0 & H1 & H2 & H3 & H4). repeat split; auto. apply bytes_at_nil. Qed.

  Lemma group_read : forall m k p i l, (k * i + k <= length l)%nat -> bytes_at m p l ->
    bytes_at m (p + N.of_nat (k * i)) (group k i l) /\ length (group k i l) = k.
  Proof.
    intros m k p i l L H. unfold group. split.
    - apply bytes_at_firstn, bytes_at_skipn; [exact H|lia].
    - rewrite firstn_length_le; [reflexivity|]. rewrite skipn_length. lia.
  Qed.

  (** words of the caller's data *)
  Lemma data_fetches : forall m p l, bytes_at m p l -> p + mlen l < addr_space cfg ->
    fetches m 8 le_num (fetch64_le cfg (use_unaligned64 cfg p)) p l.
  Proof.
    intros m p l H A i Hi. destruct (group_read m 8 p i l Hi H) as [G1 G2].
    unfold use_unaligned64, fetch64_le.
    destruct (is_efficient cfg || misaligned64 cfg p) eqn:E.
    - apply fetch64_le_unaligned_ok; auto. unfold mlen in A. lia.
    - apply orb_false_iff in E. destruct E as [_ E].
      apply fetch64_le_aligned_ok; auto. apply al8_step, misaligned64_false. exact E.
  Qed.

  (** words of the buffer *)
  Lemma buffer_reads : forall m l, bytes_at m (c + 32) l -> mapped m (c + 32) 32 -> (length l <= 32)%nat ->
    reads cfg m 8 le_num (fetch64_le cfg false) (tail64_le cfg false) (c + 32) l.
  Proof.
    intros m l H M L. pose proof ctx_room as CR. pose proof layout_bounds as LB.
    assert (AL : forall i, al cfg 8 (c + 32 + N.of_nat (8 * i))).
    { intro i. apply al8_step. now apply al_ctx8. }
    unfold fetch64_le, tail64_le. split.
    - intros i Hi. destruct (group_read m 8 (c + 32) i l Hi H) as [G1 G2].
      apply fetch64_le_aligned_ok; auto. apply AL.
    - intros i t Hi Ht Hs. pose proof (skipn_length (8 * i) l) as L'.
      assert (B : bytes_at m (c + 32 + N.of_nat (8 * i)) (skipn (8 * i) l))
        by (apply bytes_at_skipn; [exact H|lia]).
      apply tail64_le_aligned_ok; try assumption; try (unfold mlen; lia).
      + apply (mod_skip 8); [lia|lia|exact Ht].
      + apply AL.
      + intros _ j Hj. replace (c + 32 + N.of_nat (8 * i) + N.of_nat j)
          with (c + 32 + N.of_nat (8 * i + j)) by lia. apply M. lia.
  Qed.

  (** src/t1ha2.c:338-364: whole blocks straight from the data, the rest into
      the empty buffer *)
  Lemma bulk_ok : forall m s t p l, fields cfg m c s [] 0 t -> st_ok s ->
    bytes_at m p l -> p + mlen l < addr_space cfg -> (l = [] \/ p <> 0) ->
    (l = [] \/ c + sizeof_ctx cfg <= p \/ p + mlen l <= c) ->
    exists m',
      (dl <- (if 32 <=? mlen l then
               let un := use_unaligned64 cfg p in
               s <- load_state cfg c ;;
               sd <- T1HA2_LOOP cfg (fetch64_le cfg un) s p (mlen l) ;;
               store_state cfg c (fst sd) ;;;
               ret (snd sd, N.land (mlen l) 31)
             else ret (p, mlen l)) ;;
      let '(data, length) := dl in
      if negb (length =? 0) then
        store_partial cfg c length ;;;
        memcpy cfg (buffer cfg c) data length
      else ret tt) m = Ok (tt, m') /\
      fields cfg m' c (absorb_all s (blocks 32 l)) (rest 32 l) (mlen (rest 32 l)) t /\
      only m m' c (sizeof_ctx cfg).
  Proof.
    intros m s t p l F S B A NZ D. pose proof layout_bounds as LB.
    set (q := p + N.of_nat (32 * (length l / 32))).
    assert (Lr : (length (rest 32 l) < 32)%nat) by (rewrite rest_length by lia; apply Nat.mod_upper_bound; lia).
    assert (P1 : exists m1,
      (if 32 <=? mlen l then
               let un := use_unaligned64 cfg p in
               s <- load_state cfg c ;;
               sd <- T1HA2_LOOP cfg (fetch64_le cfg un) s p (mlen l) ;;
               store_state cfg c (fst sd) ;;;
               ret (snd sd, N.land (mlen l) 31)
             else ret (p, mlen l)) m = Ok ((q, mlen (rest 32 l)), m1) /\
      fields cfg m1 c (absorb_all s (blocks 32 l)) [] 0 t /\ only m m1 c (sizeof_ctx cfg)).
    { destruct (N.leb_spec 32 (mlen l)) as [C|C].
      - cbv zeta. ok (load_state_ok m s [] 0 t F S).
        ok (T1HA2_LOOP_ok cfg m _ s p l ltac:(unfold mlen in C; lia) (data_fetches m p l B A) A).
        cbn [fst snd].
        destruct (store_state_ok m s (absorb_all s (blocks 32 l)) [] 0 t F ltac:(cbn; lia)) as (m1 & E & F1 & O1).
        exists m1. ok E. split; [|auto]. unfold ret, q. now rewrite land31, <- rest_len.
      - exists m. unfold mlen in C. rewrite blocks_nil, rest_short by lia.
        split; [|split; [exact F|apply only_refl]].
        unfold ret, q. rewrite Nat.div_small by lia. rewrite Nat.mul_0_r, N.add_0_r. reflexivity. }
    destruct P1 as (m1 & E1 & F1 & O1). ok E1.
    destruct (N.eqb_spec (mlen (rest 32 l)) 0) as [Z|Z].
    - exists m1. cbn [negb]. split; [reflexivity|]. split; [|exact O1].
      assert (Z' : rest 32 l = []) by (apply length_zero_iff_nil; unfold mlen in Z; lia).
      rewrite Z'. exact F1.
    - cbn [negb].
      destruct (store_partial_ok m1 _ [] 0 t (mlen (rest 32 l)) F1 ltac:(cbn; lia)) as (m2 & E2 & F2 & O2).
      ok E2. unfold buffer. rewrite ctx_padd by lia.
      assert (HL : (32 * (length l / 32) <= length l)%nat) by (apply Nat.mul_div_le; lia).
      assert (NE : l <> []).
      { intros ->. apply Z. reflexivity. }
      assert (B2 : bytes_at m2 q (rest 32 l)).
      { eapply only_bytes with (p := c) (n := sizeof_ctx cfg);
          [eapply only_trans; [exact O1|exact O2]| |apply bytes_at_skipn; assumption].
        destruct D as [D|D]; [contradiction|]. unfold q. rewrite rest_len. unfold mlen in *. lia. }
      destruct (stash_ok m2 _ [] (mlen (rest 32 l)) t q (rest 32 l) F2 ltac:(cbn [length]; lia)) as (m3 & E3 & F3 & O3).
      + destruct NZ as [NZ|NZ]; [contradiction|]. unfold q. lia.
      + exact B2.
      + destruct D as [D|D]; [contradiction|]. right. unfold q. rewrite rest_len. unfold mlen in *. lia.
      + exists m3. change (mlen []) with 0 in E3. rewrite N.add_0_r in E3. split; [exact E3|].
        split; [exact F3|]. eapply only_trans; [eapply only_trans; [exact O1|exact O2]|exact O3].
  Qed.

  Lemma update_ok : forall m s buf t p l,
    fields cfg m c s buf (mlen buf) t -> (length buf < 32)%nat -> st_ok s -> t < W64 ->
    bytes_at m p l -> p + mlen l < addr_space cfg -> (p <> 0 \/ l = [] /\ buf = []) ->
    (l = [] \/ c + sizeof_ctx cfg <= p \/ p + mlen l <= c) ->
    exists m', t1ha2_update cfg c p (mlen l) m = Ok (tt, m') /\
      fields cfg m' c (absorb_all s (blocks 32 (buf ++ l))) (rest 32 (buf ++ l))
        (mlen (rest 32 (buf ++ l))) ((t + mlen l) mod W64) /\
      only m m' c (sizeof_ctx cfg).
  Proof.
    intros m s buf t p l F L S T B A NZ D. pose proof layout_bounds as LB. pose proof ctx_room as CR.
    pose proof (addr_space_pos cfg) as AP.
    unfold t1ha2_update. cbv zeta.
    replace (overlap c (sizeof_ctx cfg) p (mlen l)) with false.
    2:{ unfold overlap. destruct D as [->|D]; [change (mlen []) with 0|]; lia. }
    ok (load_total_ok m s buf _ t F T).
    destruct (store_total_ok m s buf _ t (add64 t (mlen l)) F (Nat.lt_le_incl _ _ L)) as (m1 & E1 & F1 & O1).
    ok E1. unfold add64, u64 in F1. rewrite N.mod_mod in F1 by discriminate.
    set (t' := (t + mlen l) mod W64) in *.
    ok (load_partial_ok m1 s buf _ t' F1 ltac:(unfold mlen; lia)).
    assert (B1 : bytes_at m1 p l).
    { destruct D as [->|D]; [apply bytes_at_nil|]. eapply only_bytes; [exact O1| |exact B]. lia. }
    destruct (N.eqb_spec (mlen buf) 0) as [Z|Z]; cbn [negb].
    - assert (buf = []) as -> by (apply length_zero_iff_nil; unfold mlen in Z; lia).
      rewrite bind_ret. cbv beta iota. cbn [app].
      destruct (bulk_ok m1 s t' p l F1 S B1 A ltac:(tauto) D) as (m2 & E2 & F2 & O2).
      exists m2. split; [exact E2|]. split; [exact F2|]. eapply only_trans; eassumption.
    - assert (P0' : p <> 0).
      { destruct NZ as [?|[_ ->]]; [assumption|]. now cbn in Z. }
      rewrite psub_small by (unfold mlen; lia).
      unfold buffer. rewrite (ctx_padd 32) by lia.
      rewrite (padd_small cfg (c + 32)) by (unfold mlen; lia).
      set (left := (32 - length buf)%nat).
      replace (32 - mlen buf) with (N.of_nat left) by (unfold left, mlen; lia).
      set (chunk := firstn left l).
      assert (CL : length chunk = Nat.min left (length l)) by (unfold chunk; apply firstn_length).
      replace (if N.of_nat left <=? mlen l then N.of_nat left else mlen l) with (mlen chunk).
      2:{ unfold mlen in *. destruct (N.leb_spec (N.of_nat left) (N.of_nat (length l))); lia. }
      destruct (stash_ok m1 s buf _ t' p chunk F1 ltac:(lia) P0') as (m2 & E2 & F2 & O2).
      { unfold chunk. now apply bytes_at_firstn. }
      { destruct D as [D|D]; [left; unfold chunk; subst l; now destruct left|right]. unfold mlen in *. lia. }
      assert (PC : mlen (buf ++ chunk) = mlen buf + mlen chunk) by (unfold mlen; rewrite app_length; lia).
      assert (PB : padd cfg (mlen buf) (mlen chunk) = mlen (buf ++ chunk)).
      { rewrite PC. apply padd_small. unfold mlen. lia. }
      rewrite PB.
      destruct (store_partial_ok m2 s (buf ++ chunk) _ t' (mlen (buf ++ chunk)) F2
                  ltac:(rewrite app_length; lia)) as (m3 & E3 & F3 & O3).
      pose proof (only_trans _ _ _ _ _ (only_trans _ _ _ _ _ O1 O2) O3) as O13.
      destruct (N.ltb_spec (mlen (buf ++ chunk)) 32) as [C|C].
      + (* everything fits into the buffer *)
        assert (chunk = l) as EC.
        { unfold chunk. apply firstn_all2. unfold mlen in *. lia. }
        exists m3. split; [|split; [|exact O13]].
        * rewrite (bind_ok _ _ _ _ _ None m3); [reflexivity|].
          rewrite (bind_ok _ _ _ _ _ _ _ E2), (bind_ok _ _ _ _ _ _ _ E3).
          rewrite (bind_ok _ _ _ _ _ tt m3); [reflexivity|].
          apply assert_ok. unfold mlen in *. rewrite EC in *. lia.
        * rewrite EC in *. unfold mlen in C. rewrite blocks_nil, rest_short by lia. exact F3.
      + (* the buffer is full *)
        assert (CL' : length chunk = left) by (unfold mlen in *; lia).
        assert (BL : length (buf ++ chunk) = 32%nat) by (rewrite app_length; unfold left in CL'; lia).
        destruct (store_partial_ok m3 s (buf ++ chunk) _ t' 0 F3 ltac:(lia)) as (m4 & E4 & F4 & O4).
        destruct (store_state_ok m4 s (absorb s (buf ++ chunk)) (buf ++ chunk) 0 t' F4 ltac:(lia)) as (m5 & E5 & F5 & O5).
        pose proof (only_trans _ _ _ _ _ (only_trans _ _ _ _ _ O13 O4) O5) as O15.
        set (l2 := skipn left l).
        assert (EL : l = chunk ++ l2) by (unfold chunk, l2; now rewrite firstn_skipn).
        assert (LL : length l = (left + length l2)%nat) by (rewrite EL, app_length; lia).
        apply forget_buffer in F5.
        destruct (bulk_ok m5 (absorb s (buf ++ chunk)) t' (p + N.of_nat left) l2 F5) as (m6 & E6 & F6 & O6).
        * now apply absorb_st_ok.
        * destruct D as [D|D].
          { rewrite D in LL. cbn [length] in LL. assert (l2 = []) as -> by (apply length_zero_iff_nil; lia).
            apply bytes_at_nil. }
          eapply only_bytes; [exact O15| |].
          2:{ apply bytes_at_skipn; [exact B|lia]. }
          fold l2. unfold mlen in *. lia.
        * unfold mlen in *. lia.
        * right. lia.
        * destruct D as [D|D].
          { left. rewrite D in LL. cbn [length] in LL. apply length_zero_iff_nil. lia. }
          right. unfold mlen in *. lia.
        * exists m6. split; [|split].
          -- rewrite (bind_ok _ _ _ _ _ (Some (p + N.of_nat left, mlen l2)) m5); [unfold buffer in E6; rewrite (ctx_padd 32) in E6 by lia; exact E6|].
             rewrite (bind_ok _ _ _ _ _ _ _ E2), (bind_ok _ _ _ _ _ _ _ E3), (bind_ok _ _ _ _ _ _ _ E4).
             rewrite (bind_ok _ _ _ _ _ _ _ (load_state_ok m4 s _ _ t' F4 S)).
             rewrite (bind_ok _ _ _ _ _ (emb (absorb s (buf ++ chunk))) m4).
             2:{ apply (T1HA2_UPDATE_ok cfg m4 _ s (c + 32) (buf ++ chunk) []); [exact BL| |lia].
                 rewrite app_nil_r. destruct F4 as (_ & FM & FB & _).
                 exact (proj1 (buffer_reads m4 (buf ++ chunk) FB FM (Nat.eq_le_incl _ _ BL))). }
             rewrite (bind_ok _ _ _ _ _ _ _ E5). unfold ret.
             rewrite padd_small, psub_small by (unfold mlen in *; lia).
             do 4 f_equal; unfold mlen; lia.
          -- rewrite EL at 1 2 3. rewrite app_assoc, blocks_app, rest_app by (lia || exact BL).
             exact F6.
          -- exact (only_trans _ _ _ _ _ O15 O6).
  Qed.
End Ctx.

Section Api.
  Variables (cfg : config) (c : N).
  Hypothesis CP : ctx_ptr cfg c.

  Lemma native_any : forall n l, length l = n -> exists v, l = native cfg n v.
  Proof.
    intros n l L. unfold native. destruct (big_endian cfg).
    - exists (be_num l). subst n. now rewrite be_bytes_be_num.
    - exists (le_num l). subst n. now rewrite le_bytes_le_num.
  Qed.

  Lemma mapped_native : forall m p n, mapped m p n -> exists v, bytes_at m p (native cfg n v).
  Proof.
    intros m p n M. destruct (mapped_bytes_at m n p M) as (l & L & B).
    destruct (native_any n l L) as [v ->]. now exists v.
  Qed.

  Lemma ctx_mapped_fields : forall m, ctx_mapped cfg m c -> exists s p t, fields cfg m c s [] p t.
  Proof.
    intros m (M0 & M1 & M2).
    assert (MW : forall k, k <= 24 -> exists v, bytes_at m (c + k) (native cfg 8 v)).
    { intros k K. apply mapped_native. intros i Hi.
      replace (c + k + N.of_nat i) with (c + N.of_nat (N.to_nat k + i)) by lia. apply M0. lia. }
    destruct (MW 0 ltac:(lia)) as [a Ha]. destruct (MW 8 ltac:(lia)) as [b Hb].
    destruct (MW 16 ltac:(lia)) as [d Hd]. destruct (MW 24 ltac:(lia)) as [e He].
    destruct (mapped_native m _ _ M1) as [p Hp]. destruct (mapped_native m _ _ M2) as [t Ht].
    exists (Q a b d e), p, t. rewrite N.add_0_r in Ha. repeat split; auto.
    - cbn [qa qb qc qd]. apply bytes_at_app. split; [exact Ha|]. rewrite native_length.
      apply bytes_at_app. split; [exact Hb|]. rewrite native_length.
      replace (c + N.of_nat 8 + N.of_nat 8) with (c + 16) by lia.
      apply bytes_at_app. split; [exact Hd|]. rewrite native_length.
      replace (c + 16 + N.of_nat 8) with (c + 24) by lia. exact He.
    - change 64%nat with (32 + 32)%nat in M0. apply mapped_split in M0. exact (proj2 M0).
    - apply bytes_at_nil.
  Qed.

  Lemma fields_mapped : forall m s buf p t, fields cfg m c s buf p t -> ctx_mapped cfg m c.
  Proof.
    intros m s buf p t (H0 & H1 & H2 & H3 & H4).
    apply bytes_at_mapped in H0, H3, H4. rewrite !app_length, !native_length in H0.
    rewrite native_length in H3, H4. repeat split; auto.
    change 64%nat with (32 + 32)%nat. apply mapped_split. split; [exact H0|exact H1].
  Qed.

  Lemma in_progress_mapped : forall m x y msg, in_progress cfg m c x y msg -> ctx_mapped cfg m c.
  Proof. intros m x y msg H. exact (fields_mapped m _ _ _ _ H). Qed.

  (** t1ha2_init *)
  Theorem t1ha2_init_ok : forall m x y, ctx_mapped cfg m c -> x < 2 ^ 64 -> y < 2 ^ 64 ->
    exists m', t1ha2_init cfg c x y m = Ok (tt, m') /\ in_progress cfg m' c x y [] /\
      only m m' c (sizeof_ctx cfg).
  Proof.
    intros m x y M X Y. destruct (ctx_mapped_fields m M) as (s & p & t & F).
    unfold t1ha2_init. rewrite init_eq.
    destruct (store_state_ok cfg c CP m s (start x y) [] p t F ltac:(cbn; lia)) as (m1 & E1 & F1 & O1).
    destruct (store_partial_ok cfg c CP m1 _ [] p t 0 F1 ltac:(cbn; lia)) as (m2 & E2 & F2 & O2).
    destruct (store_total_ok cfg c CP m2 _ [] 0 t 0 F2 ltac:(cbn; lia)) as (m3 & E3 & F3 & O3).
    exists m3. split; [|split].
    - ok E1. ok E2. exact E3.
    - exact F3.
    - exact (only_trans _ _ _ _ _ (only_trans _ _ _ _ _ O1 O2) O3).
  Qed.

  Lemma stream_state_ok : forall x y msg, x < 2 ^ 64 -> y < 2 ^ 64 -> st_ok (stream_state x y msg).
  Proof. intros. apply absorb_all_st_ok. now apply start_st_ok. Qed.
  Lemma rest_lt : forall msg : list byte, (length (rest 32 msg) < 32)%nat.
  Proof. intro. rewrite rest_length by lia. apply Nat.mod_upper_bound. lia. Qed.

  (** t1ha2_update *)
  Theorem t1ha2_update_ok : forall m x y msg p data,
    in_progress cfg m c x y msg -> x < 2 ^ 64 -> y < 2 ^ 64 ->
    bytes_at m p data -> p + mlen data < addr_space cfg ->
    (p <> 0 \/ data = [] /\ rest 32 msg = []) ->
    (data = [] \/ c + sizeof_ctx cfg <= p \/ p + mlen data <= c) ->
    exists m', t1ha2_update cfg c p (mlen data) m = Ok (tt, m') /\
      in_progress cfg m' c x y (msg ++ data) /\ only m m' c (sizeof_ctx cfg).
  Proof.
    intros m x y msg p data H X Y B A NZ D.
    destruct (update_ok cfg c CP m (stream_state x y msg) (rest 32 msg) (mlen msg mod 2 ^ 64) p data)
      as (m' & E & F & O); auto using rest_lt, stream_state_ok.
    - apply N.mod_lt. discriminate.
    - exists m'. split; [exact E|]. split; [|exact O]. unfold in_progress. change W64 with (2 ^ 64) in F.
      rewrite stream_state_app. destruct (blocks_rest_app 32 msg data ltac:(lia)) as [_ ->].
      rewrite N.add_mod_idemp_l in F by discriminate.
      unfold mlen at 1. rewrite app_length, Nat2N.inj_add. exact F.
  Qed.

  Lemma bits_eq : forall msg,
    N.lxor (shl64 (mlen msg mod 2 ^ 64) 3) (shl64 1 63) = xor ((8 * mlen msg) mod 2 ^ 64) (2 ^ 63).
  Proof.
    intro msg. unfold xor. f_equal. unfold shl64, u64. rewrite N.shiftl_mul_pow2.
    change W64 with (2 ^ 64). change (2 ^ 3) with 8.
    rewrite N.mul_mod_idemp_l by discriminate. now rewrite N.mul_comm.
  Qed.

  Lemma bits_bytes : forall v, v < W64 ->
    native cfg 8 (if big_endian cfg then bswap64 cfg v else v) = le_bytes 8 v.
  Proof.
    intros v V. unfold native. destruct (big_endian cfg); [|reflexivity].
    rewrite bswap64_eq. unfold u64. rewrite N.mod_small by exact V.
    rewrite <- (le_bytes_length 8 v) at 1. now rewrite be_bytes_be_num.
  Qed.

  (** [m'] differs from [m] only in the context, in the local variable [bits]
      and, if requested, in the extra result *)
  Definition final_frame (m m' : mem) (bits extra : N) : Prop :=
    (forall a, (a < c \/ c + sizeof_ctx cfg <= a) -> (a < bits \/ bits + 8 <= a) ->
       (extra = 0 \/ a < extra \/ extra + 8 <= a) -> m' a = m a) /\
    (forall a, m a <> None -> m' a <> None).

  Definition final_ready (m : mem) (bits extra : N) : Prop :=
    bits <> 0 /\ mapped m bits 8 /\ bits mod alignment cfg 8 = 0 /\ bits + 8 < addr_space cfg /\
    (c + sizeof_ctx cfg <= bits \/ bits + 8 <= c) /\
    (extra <> 0 -> mapped m extra 8 /\ extra mod alignment cfg 8 = 0 /\
       (c + sizeof_ctx cfg <= extra \/ extra + 8 <= c)).

  Lemma pad_ok : forall m x y msg bits extra,
    in_progress cfg m c x y msg -> x < 2 ^ 64 -> y < 2 ^ 64 -> final_ready m bits extra ->
    exists m1 m2,
      (total <- load_total cfg c ;;
       let b := N.lxor (shl64 total 3) (shl64 1 63) in
       let b := if big_endian cfg then bswap64 cfg b else b in
       write_aligned cfg 8 bits b) m = Ok (tt, m1) /\
      t1ha2_update cfg c bits 8 m1 = Ok (tt, m2) /\
      in_progress cfg m2 c x y (padded msg) /\ only m m1 bits 8 /\ only m1 m2 c (sizeof_ctx cfg).
  Proof.
    intros m x y msg bits extra H X Y (B0 & BM & BA & BS & BD & _).
    pose proof (layout_bounds cfg c CP) as LB. pose proof (rest_lt msg) as RL.
    set (v := xor ((8 * mlen msg) mod 2 ^ 64) (2 ^ 63)).
    assert (V : v < W64) by (apply xor_lt; [apply N.mod_lt; discriminate|reflexivity]).
    set (m1 := write m bits (le_bytes 8 v)).
    assert (O1 : only m m1 bits 8) by (apply only_write; unfold mlen; now rewrite le_bytes_length).
    assert (H1 : in_progress cfg m1 c x y msg).
    { destruct H as (H0 & H1 & H2 & H3 & H4). unfold sizeof_ctx in *. repeat split.
      - eapply only_bytes; [exact O1| |exact H0]. unfold mlen. rewrite !app_length, !native_length. lia.
      - eapply only_mapped; eassumption.
      - eapply only_bytes; [exact O1| |exact H2]. unfold mlen. lia.
      - eapply only_bytes; [exact O1| |exact H3]. rewrite native_mlen. lia.
      - eapply only_bytes; [exact O1| |exact H4]. rewrite native_mlen. lia. }
    assert (L8 : mlen (le_bytes 8 v) = 8) by (unfold mlen; now rewrite le_bytes_length).
    destruct (t1ha2_update_ok m1 x y msg bits (le_bytes 8 v) H1 X Y) as (m2 & E2 & F2 & O2).
    - apply write_bytes_at.
    - rewrite L8. exact BS.
    - now left.
    - right. rewrite L8. exact BD.
    - exists m1, m2. rewrite L8 in E2. split; [|split; [exact E2|split; [exact F2|split; [exact O1|exact O2]]]].
      ok (load_total_ok cfg c CP m _ _ _ _ H (N.mod_lt _ (2 ^ 64) ltac:(discriminate))).
      cbv zeta. rewrite bits_eq. fold v.
      rewrite write_native by assumption. rewrite bits_bytes by exact V. reflexivity.
  Qed.

  (** t1ha2_final without an extra result *)
  Theorem t1ha2_final64_ok : forall m x y msg bits,
    in_progress cfg m c x y msg -> x < 2 ^ 64 -> y < 2 ^ 64 -> final_ready m bits 0 ->
    exists m', t1ha2_final cfg bits c 0 m = Ok (t1ha2_stream64 x y msg, m') /\
      ctx_mapped cfg m' c /\ final_frame m m' bits 0.
  Proof.
    intros m x y msg bits H X Y R. pose proof (layout_bounds cfg c CP) as LB. pose proof (ctx_room cfg c CP) as CR.
    destruct (pad_ok m x y msg bits 0 H X Y R) as (m1 & m2 & E1 & E2 & H2 & O1 & O2).
    pose proof H2 as (H2a & H2b & H2c & H2d & H2e).
    set (pm := padded msg) in *. pose proof (rest_lt pm) as RL.
    pose proof (stream_state_ok x y pm X Y) as SO.
    set (s := stream_state x y pm) in *.
    destruct (store_state_ok cfg c CP m2 s
      (tail_ab_state (rest 32 pm) (Q (fst (squeeze s)) (snd (squeeze s)) (qc s) (qd s)))
      _ _ _ H2 ltac:(lia)) as (m3 & E3 & F3 & O3).
    exists m3. split; [|split].
    - unfold t1ha2_final. cbn [N.eqb negb andb].
      unfold bind at 1. unfold bind in E1 at 1.
      destruct (load_total cfg c m) as [[t mt]| | | | |]; try discriminate.
      cbv zeta in *. ok E1. ok E2.
      ok (load_state_ok cfg c CP m2 s _ _ _ H2 SO).
      ok (load_partial_ok cfg c CP m2 s _ _ _ H2 ltac:(unfold mlen; lia)).
      rewrite squash_eq. unfold buffer. rewrite (ctx_padd cfg c CP 32) by lia.
      ok (T1HA2_TAIL_AB_ok cfg m2 _ _ (Q (fst (squeeze s)) (snd (squeeze s)) (qc s) (qd s)) (c + 32)
           (rest 32 pm) (mlen (rest 32 pm)) ltac:(lia)
           (buffer_reads cfg c CP m2 (rest 32 pm) H2c H2b ltac:(lia)) ltac:(unfold mlen; lia) eq_refl).
      cbn [fst snd]. ok E3. unfold ret. cbn [qa qb]. rewrite <- surjective_pairing. reflexivity.
    - exact (fields_mapped _ _ _ _ _ F3).
    - pose proof (only_trans _ _ _ _ _ O2 O3) as O. split.
      + intros a A1 A2 _. rewrite (proj1 O) by exact A1. now apply O1.
      + intros a Ha. apply O, O1, Ha.
  Qed.

  (** t1ha2_final with an extra result *)
  Theorem t1ha2_final128_ok : forall m x y msg bits extra, extra <> 0 ->
    in_progress cfg m c x y msg -> x < 2 ^ 64 -> y < 2 ^ 64 -> final_ready m bits extra ->
    exists m', t1ha2_final cfg bits c extra m = Ok (fst (t1ha2_stream128 x y msg), m') /\
      bytes_at m' extra (native cfg 8 (snd (t1ha2_stream128 x y msg))) /\
      ctx_mapped cfg m' c /\ final_frame m m' bits extra.
  Proof.
    intros m x y msg bits extra EN H X Y R. pose proof (layout_bounds cfg c CP) as LB. pose proof (ctx_room cfg c CP) as CR.
    destruct (pad_ok m x y msg bits extra H X Y R) as (m1 & m2 & E1 & E2 & H2 & O1 & O2).
    destruct R as (_ & _ & _ & _ & _ & R). destruct (R EN) as (EM & EA & ED).
    pose proof H2 as (H2a & H2b & H2c & H2d & H2e).
    set (pm := padded msg) in *. pose proof (rest_lt pm) as RL.
    pose proof (stream_state_ok x y pm X Y) as SO.
    change (t1ha2_stream128 x y msg) with (finish128 (tail_abcd (rest 32 pm) (stream_state x y pm))).
    set (s := stream_state x y pm) in *.
    destruct (store_state_ok cfg c CP m2 s (tail_abcd (rest 32 pm) s)
      _ _ _ H2 ltac:(lia)) as (m3 & E3 & F3 & O3).
    set (r := finish128 (tail_abcd (rest 32 pm) s)) in *.
    set (m4 := write m3 extra (native cfg 8 (snd r))).
    assert (O4 : only m3 m4 extra 8) by (apply only_write; now rewrite native_mlen).
    exists m4. split; [|split; [|split]].
    - unfold t1ha2_final.
      replace (negb (extra =? 0) && overlap c (sizeof_ctx cfg) extra 8) with false by (unfold overlap; lia).
      unfold bind at 1. unfold bind in E1 at 1.
      destruct (load_total cfg c m) as [[t mt]| | | | |]; try discriminate.
      cbv zeta in *. ok E1. ok E2. replace (extra =? 0) with false by lia.
      ok (load_state_ok cfg c CP m2 s _ _ _ H2 SO).
      ok (load_partial_ok cfg c CP m2 s _ _ _ H2 ltac:(unfold mlen; lia)).
      unfold buffer. rewrite (ctx_padd cfg c CP 32) by lia.
      ok (T1HA2_TAIL_ABCD_ok cfg m2 _ _ s (c + 32)
           (rest 32 pm) (mlen (rest 32 pm)) ltac:(lia)
           (buffer_reads cfg c CP m2 (rest 32 pm) H2c H2b ltac:(lia)) ltac:(unfold mlen; lia) eq_refl).
      cbn [fst snd]. ok E3. fold r.
      ok (write_native cfg m3 8 extra (snd r) EA
           (only_mapped _ _ _ _ _ _ (only_trans _ _ _ _ _ O2 O3) (only_mapped _ _ _ _ _ _ O1 EM))).
      reflexivity.
    - apply write_bytes_at.
    - apply fields_mapped in F3. destruct F3 as (G1 & G2 & G3).
      repeat split; eapply only_mapped; eauto.
    - pose proof (only_trans _ _ _ _ _ O2 O3) as O. split.
      + intros a A1 A2 A3. rewrite (proj1 O4) by tauto. rewrite (proj1 O) by exact A1. now apply O1.
      + intros a Ha. apply O4, O, O1, Ha.
  Qed.
End Api.
