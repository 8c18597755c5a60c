(** The tail reads: up to 8 (or 4) last bytes of a key. *)
From Coq Require Import ZArith NArith Arith List Bool Lia Strings.Byte.
From Coq Require Import ZifyN ZifyNat ZifyBool.
From Verif Require Import Bytes CSem Bits Spec NBits CSemFacts OpsFacts FetchFacts.
Import ListNotations.
Ltac Zify.zify_post_hook ::= Z.div_mod_to_equations.
Local Open Scope N_scope.

Lemma land7 : forall x, N.land x 7 = x mod 8.
Proof. intro. change 7 with (N.ones 3). apply N.land_ones. Qed.
Lemma land3 : forall x, N.land x 3 = x mod 4.
Proof. intro. change 3 with (N.ones 2). apply N.land_ones. Qed.

Lemma psub_mod8 : forall cfg x, x < addr_space cfg -> psub cfg 8 x mod 8 = (8 - x mod 8) mod 8.
Proof.
  intros cfg x H. unfold psub, addr_space in *.
  destruct (ptr64 cfg); rewrite (N.mod_small x) by assumption;
    rewrite mod_mod_divides by (discriminate || reflexivity); lia.
Qed.

Lemma psub_mod4 : forall cfg x, x < addr_space cfg -> psub cfg 4 x mod 4 = (4 - x mod 4) mod 4.
Proof.
  intros cfg x H. unfold psub, addr_space in *.
  destruct (ptr64 cfg); rewrite (N.mod_small x) by assumption;
    rewrite mod_mod_divides by (discriminate || reflexivity); lia.
Qed.

Lemma off8_eq : forall cfg tail t, tail < addr_space cfg -> 1 <= t <= 8 -> tail mod 8 = t mod 8 ->
  off8 cfg tail = 8 - t.
Proof.
  intros cfg tail t H R E. unfold off8. rewrite land7, psub_mod8, E by assumption. lia.
Qed.
Lemma off4_eq : forall cfg tail t, tail < addr_space cfg -> 1 <= t <= 4 -> tail mod 4 = t mod 4 ->
  off4 cfg tail = 4 - t.
Proof.
  intros cfg tail t H R E. unfold off4. rewrite land3, psub_mod4, E by assumption. lia.
Qed.

(** ** Masking and shifting a full word *)
Lemma ones64_shr : forall k, k <= 8 -> shr64 ones64 (N.shiftl k 3) = N.ones (64 - 8 * k).
Proof.
  intros k H. unfold shr64, ones64. rewrite u64_small by reflexivity.
  change 18446744073709551615 with (N.ones 64).
  rewrite N.shiftl_mul_pow2. change (2 ^ 3) with 8.
  apply N.bits_inj. intro i. rewrite N.shiftr_spec'.
  destruct (N.ltb_spec i (64 - 8 * k)).
  - rewrite !N.ones_spec_low by lia. reflexivity.
  - rewrite !N.ones_spec_high by lia. reflexivity.
Qed.

Lemma ones32_shr : forall k, k <= 4 -> shr32 ones32 (N.shiftl k 3) = N.ones (32 - 8 * k).
Proof.
  intros k H. unfold shr32, ones32. rewrite u32_small by reflexivity.
  change 4294967295 with (N.ones 32).
  rewrite N.shiftl_mul_pow2. change (2 ^ 3) with 8.
  apply N.bits_inj. intro i. rewrite N.shiftr_spec'.
  destruct (N.ltb_spec i (32 - 8 * k)).
  - rewrite !N.ones_spec_low by lia. reflexivity.
  - rewrite !N.ones_spec_high by lia. reflexivity.
Qed.

Lemma pow256 : forall n, 256 ^ n = 2 ^ (8 * n).
Proof. intro n. rewrite N.pow_mul_r. reflexivity. Qed.

(** [l] followed by junk, little-endian: mask *)
Lemma le_mask : forall l j, N.land (le_num (l ++ j)) (N.ones (8 * mlen l)) = le_num l.
Proof.
  intros l j. rewrite N.land_ones, le_num_app, pow256. unfold mlen.
  rewrite N.mul_comm, N.mod_add by (apply N.pow_nonzero; lia).
  apply N.mod_small. rewrite <- pow256. apply le_num_lt.
Qed.
(** junk followed by [l], little-endian: shift *)
Lemma le_shift : forall j l, N.shiftr (le_num (j ++ l)) (8 * mlen j) = le_num l.
Proof.
  intros j l. rewrite N.shiftr_div_pow2, le_num_app, pow256. unfold mlen.
  rewrite N.mul_comm, N.div_add by (apply N.pow_nonzero; lia).
  rewrite N.div_small; [lia|]. rewrite <- pow256. apply le_num_lt.
Qed.
(** junk followed by [l], big-endian: mask *)
Lemma be_mask : forall j l, N.land (be_num (j ++ l)) (N.ones (8 * mlen l)) = be_num l.
Proof.
  intros j l. rewrite N.land_ones, be_num_app, pow256. unfold mlen.
  rewrite N.add_comm, N.mod_add by (apply N.pow_nonzero; lia).
  apply N.mod_small. rewrite <- pow256. apply be_num_lt.
Qed.
(** [l] followed by junk, big-endian: shift *)
Lemma be_shift : forall l j, N.shiftr (be_num (l ++ j)) (8 * mlen j) = be_num l.
Proof.
  intros l j. rewrite N.shiftr_div_pow2, be_num_app, pow256. unfold mlen.
  rewrite N.add_comm, N.div_add by (apply N.pow_nonzero; lia).
  rewrite N.div_small; [lia|]. rewrite <- pow256. apply be_num_lt.
Qed.

Lemma le_num_word : forall l n w, length l = n -> 256 ^ N.of_nat n = w -> le_num l < w.
Proof. intros l n w <- <-. apply le_num_lt. Qed.
Lemma be_num_word : forall l n w, length l = n -> 256 ^ N.of_nat n = w -> be_num l < w.
Proof. intros l n w <- <-. apply be_num_lt. Qed.

Lemma add64_small : forall x y, x + y < W64 -> add64 x y = x + y.
Proof. intros. unfold add64. now apply u64_small. Qed.
Lemma shl64_small : forall x s, x * 2 ^ s < W64 -> shl64 x s = x * 2 ^ s.
Proof. intros. unfold shl64. rewrite N.shiftl_mul_pow2. now apply u64_small. Qed.
Lemma add32_small : forall x y, x + y < W32 -> add32 x y = x + y.
Proof. intros. unfold add32. now apply u32_small. Qed.
Lemma shl32_small : forall x s, x * 2 ^ s < W32 -> shl32 x s = x * 2 ^ s.
Proof. intros. unfold shl32. rewrite N.shiftl_mul_pow2. now apply u32_small. Qed.


Section Tail.
  Variables (cfg : config) (m : mem).

  (** ** Byte by byte, little-endian *)
  Fixpoint le_chain (k : nat) (p r : N) : M N :=
    match k with
    | O => b <- load8 p ;; ret (add64 r (b2n b))
    | S k' => b <- load8 (padd cfg p (N.of_nat k)) ;; le_chain k' p (shl64 (add64 r (b2n b)) 8)
    end.

  Lemma list_snoc : forall (l : list byte) n, length l = S n ->
    exists a b, l = a ++ [b] /\ length a = n.
  Proof.
    intros l n L. destruct (exists_last (l := l)) as (a & b & ->).
    - intros ->. discriminate.
    - exists a, b. split; [reflexivity|]. rewrite app_length in L. cbn in L. lia.
  Qed.

  Lemma bytes_at_last : forall p a b, bytes_at m p (a ++ [b]) ->
    load8 (p + mlen a) m = Ok (b, m) /\ bytes_at m p a.
  Proof.
    intros p a b H. apply bytes_at_app in H. destruct H as [H1 H2].
    apply bytes_at_cons in H2. split; [|exact H1]. apply load8_ok, H2.
  Qed.

  Lemma le_chain_ok : forall k p r l, length l = S k -> bytes_at m p l ->
    p + mlen l <= addr_space cfg -> r * 256 ^ N.of_nat k + le_num l < W64 ->
    le_chain k p r m = Ok (r * 256 ^ N.of_nat k + le_num l, m).
  Proof.
    induction k as [|k IH]; intros p r l L H A B.
    - destruct l as [|b [|c l]]; try discriminate. cbn [le_chain].
      apply bytes_at_cons in H. destruct H as [H _].
      ok (load8_ok m p b H). unfold ret. cbn [N.of_nat le_num] in *. rewrite N.pow_0_r in *.
      do 2 f_equal. unfold add64. rewrite u64_small; lia.
    - destruct (list_snoc l (S k) L) as (a & b & -> & La).
      destruct (bytes_at_last p a b H) as [Hb Ha]. cbn [le_chain].
      unfold mlen in A. rewrite app_length in A. cbn [length] in A.
      unfold mlen in Hb. rewrite La in Hb.
      rewrite padd_small by lia. ok Hb.
      rewrite le_num_app, La in *. cbn [le_num] in *. rewrite N.mul_0_r, N.add_0_r in *.
      pose proof (b2n_lt b) as Bb. set (x := b2n b) in *. clearbody x.
      rewrite Nnat.Nat2N.inj_succ, N.pow_succ_r' in *.
      set (q := 256 ^ N.of_nat k) in *.
      assert (Hq : 1 <= q) by (unfold q; pose proof (N.pow_nonzero 256 (N.of_nat k)); lia).
      assert (E : (r + x) * 256 * q + le_num a = r * (256 * q) + (le_num a + 256 * q * x)) by lia.
      assert (B1 : (r + x) * 256 < W64) by nia.
      unfold add64. rewrite u64_small by lia.
      unfold shl64. rewrite N.shiftl_mul_pow2. change (2 ^ 8) with 256. rewrite u64_small by lia.
      rewrite (IH p _ a La Ha); [| unfold mlen; lia | fold q; lia].
      fold q. do 2 f_equal. exact E.
  Qed.

  Lemma le_num_lt64 : forall l, (length l <= 8)%nat -> le_num l < W64.
  Proof.
    intros l L. pose proof (le_num_lt l) as B.
    assert (256 ^ N.of_nat (length l) <= 256 ^ 8) by (apply N.pow_le_mono_r; lia).
    change (256 ^ 8) with W64 in *. lia.
  Qed.

  Lemma tail64_le_bytes_ok : forall p tail l,
    (1 <= length l <= 8)%nat -> tail mod 8 = mlen l mod 8 -> p + mlen l <= addr_space cfg ->
    bytes_at m p l -> tail64_le_bytes cfg p tail m = Ok (le_num l, m).
  Proof.
    intros p tail l L E A H.
    assert (C : tail64_le_bytes cfg p tail m = le_chain (length l - 1) p 0 m).
    { unfold tail64_le_bytes. rewrite land7, E. unfold mlen. clear E H A.
      assert (D : length l = 8%nat \/ length l = 7%nat \/ length l = 6%nat \/ length l = 5%nat \/
        length l = 4%nat \/ length l = 3%nat \/ length l = 2%nat \/ length l = 1%nat) by lia.
      destruct D as [D|[D|[D|[D|[D|[D|[D|D]]]]]]]; rewrite D; try reflexivity.
      cbn -[padd]. change (8 mod 8) with 0. cbn [N.eqb].
      unfold bind at 1 9. destruct (load8 (padd cfg p 7) m) as [[b m']| | | | |]; try reflexivity.
      replace (add64 0 (b2n b)) with (b2n b); [reflexivity|].
      unfold add64. rewrite u64_small; pose proof (b2n_lt b); lia. }
    rewrite C. rewrite (le_chain_ok (length l - 1) p 0 l); try assumption; try lia.
    - now rewrite N.mul_0_l.
    - rewrite N.mul_0_l. apply le_num_lt64. lia.
  Qed.

  (** ** Byte by byte, big-endian *)
  Lemma or_bytes_ok : forall k acc p s l, length l = k -> bytes_at m p l ->
    p + mlen l <= addr_space cfg -> acc < 2 ^ s -> s + 8 * N.of_nat k <= 64 ->
    s mod 8 = 0 ->
    or_bytes cfg acc p k s m = Ok (acc + 2 ^ s * be_num l, m).
  Proof.
    induction k as [|k IH]; intros acc p s l L H A B S8 D.
    - destruct l; [|discriminate]. cbn [or_bytes]. unfold ret. do 2 f_equal. unfold be_num. cbn. lia.
    - destruct (list_snoc l k L) as (a & b & -> & La).
      destruct (bytes_at_last p a b H) as [Hb Ha]. cbn [or_bytes].
      unfold mlen in A, Hb. rewrite app_length in A. cbn [length] in A. rewrite La in Hb.
      rewrite padd_small by lia. ok Hb.
      pose proof (b2n_lt b) as Bb. rewrite be_num_app. cbn [length].
      change (256 ^ N.of_nat 1) with 256. unfold be_num at 2. cbn [rev app le_num].
      rewrite N.mul_0_r, N.add_0_r. set (x := b2n b) in *. clearbody x.
      assert (P : 2 ^ (s + 8) = 2 ^ s * 256) by now rewrite N.pow_add_r.
      assert (V : (if s <? 32 then shl32 x s else shl64 x s) = x * 2 ^ s).
      { destruct (N.ltb_spec s 32).
        - apply shl32_small. change W32 with (2 ^ 32).
          assert (2 ^ (s + 8) <= 2 ^ 32) by (apply N.pow_le_mono_r; lia). pose proof (pow2_pos s). nia.
        - apply shl64_small. change W64 with (2 ^ 64).
          assert (2 ^ (s + 8) <= 2 ^ 64) by (apply N.pow_le_mono_r; lia). pose proof (pow2_pos s). nia. }
      rewrite V, lor_low_high by assumption.
      rewrite (IH _ p (s + 8) a La Ha).
      + do 2 f_equal. rewrite P. lia.
      + unfold mlen. lia.
      + rewrite P. pose proof (pow2_pos s). nia.
      + lia.
      + lia.
  Qed.

  Lemma be_first_ok : forall k p l, length l = S k -> bytes_at m p l -> (k <= 7)%nat ->
    p + mlen l <= addr_space cfg ->
    bind (load8 (padd cfg p (N.of_nat k))) (fun b => or_bytes cfg (b2n b) p k 8) m
    = Ok (be_num l, m).
  Proof.
    intros k p l L H K A. destruct (list_snoc l k L) as (a & b & -> & La).
    destruct (bytes_at_last p a b H) as [Hb Ha].
    unfold mlen in A, Hb. rewrite app_length in A. cbn [length] in A. rewrite La in Hb.
    rewrite padd_small by lia. ok Hb.
    rewrite (or_bytes_ok k _ p 8 a La Ha); try (unfold mlen; lia); try reflexivity.
    - do 2 f_equal. rewrite be_num_app. unfold be_num at 3. cbn [rev app le_num length].
      change (256 ^ N.of_nat 1) with 256. change (2 ^ 8) with 256. lia.
    - apply b2n_lt.
  Qed.

  Lemma be_one : forall p l, length l = 1%nat -> bytes_at m p l ->
    bind (load8 p) (fun b => ret (b2n b)) m = Ok (be_num l, m).
  Proof.
    intros p l L H. destruct l as [|b [|c l]]; try discriminate.
    apply bytes_at_cons in H. ok (load8_ok m p b (proj1 H)). unfold ret, be_num. cbn.
    now rewrite N.add_0_r.
  Qed.
  Lemma le_one : forall p l, length l = 1%nat -> bytes_at m p l ->
    bind (load8 p) (fun b => ret (b2n b)) m = Ok (le_num l, m).
  Proof.
    intros p l L H. destruct l as [|b [|c l]]; try discriminate.
    apply bytes_at_cons in H. ok (load8_ok m p b (proj1 H)). unfold ret. cbn.
    now rewrite N.add_0_r.
  Qed.

  Ltac by_length l :=
    let D := fresh "D" in
    assert (D : length l = 8%nat \/ length l = 7%nat \/ length l = 6%nat \/ length l = 5%nat \/
        length l = 4%nat \/ length l = 3%nat \/ length l = 2%nat \/ length l = 1%nat) by lia;
    destruct D as [D|[D|[D|[D|[D|[D|[D|D]]]]]]].

  Lemma tail64_be_bytes_ok : forall p tail l,
    (1 <= length l <= 8)%nat -> tail mod 8 = mlen l mod 8 -> p + mlen l <= addr_space cfg ->
    bytes_at m p l -> tail64_be_bytes cfg p tail m = Ok (be_num l, m).
  Proof.
    intros p tail l L E A H. unfold tail64_be_bytes. rewrite land7, E.
    by_length l; unfold mlen at 1; rewrite D.
    - exact (be_first_ok 7 p l D H ltac:(lia) A).
    - exact (be_first_ok 6 p l D H ltac:(lia) A).
    - exact (be_first_ok 5 p l D H ltac:(lia) A).
    - exact (be_first_ok 4 p l D H ltac:(lia) A).
    - exact (be_first_ok 3 p l D H ltac:(lia) A).
    - exact (be_first_ok 2 p l D H ltac:(lia) A).
    - exact (be_first_ok 1 p l D H ltac:(lia) A).
    - exact (be_one p l D H).
  Qed.

  Lemma cut : forall p k l, (k <= length l)%nat -> bytes_at m p l ->
    exists a b, l = a ++ b /\ length a = k /\ length b = (length l - k)%nat /\
      bytes_at m p a /\ bytes_at m (p + N.of_nat k) b.
  Proof.
    intros p k l L H. exists (firstn k l), (skipn k l).
    split; [now rewrite firstn_skipn|]. split; [now apply firstn_length_le|].
    split; [apply skipn_length|]. now apply split_at.
  Qed.

  Lemma byte_ok : forall p b l k o, bytes_at m (p + N.of_nat o) l -> nth_error l k = Some b ->
    p + N.of_nat (o + k) < addr_space cfg ->
    load8 (padd cfg p (N.of_nat (o + k)%nat)) m = Ok (b, m).
  Proof.
    intros p b l k o H E A. rewrite padd_small by assumption. apply load8_ok.
    replace (p + N.of_nat (o + k)) with (p + N.of_nat o + N.of_nat k) by lia. now apply H.
  Qed.

  (** ** Word-wise *)
  Section Words.
    Variables (f16 f32 f64 : N -> M N) (num : list byte -> N) (p : N).
    Hypothesis H16 : forall q l, q = p \/ q = p + 4 -> q + 2 <= addr_space cfg ->
      length l = 2%nat -> bytes_at m q l -> f16 q m = Ok (num l, m).
    Hypothesis H32 : forall l, p + 4 <= addr_space cfg ->
      length l = 4%nat -> bytes_at m p l -> f32 p m = Ok (num l, m).
    Hypothesis H64 : forall l, p + 8 <= addr_space cfg ->
      length l = 8%nat -> bytes_at m p l -> f64 p m = Ok (num l, m).

    Lemma tail64_le_words_ok : forall tail l, num = le_num ->
      (1 <= length l <= 8)%nat -> tail mod 8 = mlen l mod 8 -> p + mlen l <= addr_space cfg ->
      bytes_at m p l -> tail64_le_words cfg f16 f32 f64 p tail m = Ok (le_num l, m).
    Proof.
      intros tail l EN L E A H. unfold tail64_le_words. rewrite land7, E. subst num.
      unfold mlen in A.
      by_length l; unfold mlen; rewrite D in *.
      - apply H64; auto.
      - destruct (cut p 4 l ltac:(lia) H) as (a & b & -> & La & Lb & Ha & Hb). rewrite D in Lb.
        destruct b as [|x [|y [|z [|? b]]]]; try discriminate.
        change (N.of_nat 7 mod 8) with 7. cbn [switch_ N.eqb Pos.eqb].
        ok (byte_ok p _ _ 2 4 Hb eq_refl ltac:(cbn; lia)).
        ok (byte_ok p _ _ 1 4 Hb eq_refl ltac:(cbn; lia)).
        ok (byte_ok p _ _ 0 4 Hb eq_refl ltac:(cbn; lia)).
        ok (H32 a ltac:(cbn in *; lia) La Ha). unfold ret. do 2 f_equal.
        rewrite le_num_app, La. cbn [le_num].
        pose proof (le_num_lt a) as Ba. rewrite La in Ba. change (256 ^ N.of_nat 4) with W32 in *.
        pose proof (b2n_lt x). pose proof (b2n_lt y). pose proof (b2n_lt z).
        unfold add64, shl64. rewrite !N.shiftl_mul_pow2. change (2 ^ 8) with 256. change (2 ^ 32) with W32.
        unfold u64. repeat (rewrite N.mod_small by lia). lia.
      - destruct (cut p 4 l ltac:(lia) H) as (a & b & -> & La & Lb & Ha & Hb). rewrite D in Lb.
        destruct b as [|x [|y [|? b]]]; try discriminate.
        change (N.of_nat 6 mod 8) with 6. cbn [switch_ N.eqb Pos.eqb].
        ok (byte_ok p _ _ 1 4 Hb eq_refl ltac:(cbn; lia)).
        ok (byte_ok p _ _ 0 4 Hb eq_refl ltac:(cbn; lia)).
        ok (H32 a ltac:(cbn in *; lia) La Ha). unfold ret. do 2 f_equal.
        rewrite le_num_app, La. cbn [le_num].
        pose proof (le_num_lt a) as Ba. rewrite La in Ba. change (256 ^ N.of_nat 4) with W32 in *.
        pose proof (b2n_lt x). pose proof (b2n_lt y).
        unfold add64, shl64. rewrite !N.shiftl_mul_pow2. change (2 ^ 8) with 256. change (2 ^ 32) with W32.
        unfold u64. repeat (rewrite N.mod_small by lia). lia.
      - destruct (cut p 4 l ltac:(lia) H) as (a & b & -> & La & Lb & Ha & Hb). rewrite D in Lb.
        destruct b as [|x [|? b]]; try discriminate.
        change (N.of_nat 5 mod 8) with 5. cbn [switch_ N.eqb Pos.eqb].
        ok (byte_ok p _ _ 0 4 Hb eq_refl ltac:(cbn; lia)).
        ok (H32 a ltac:(cbn in *; lia) La Ha). unfold ret. do 2 f_equal.
        rewrite le_num_app, La. cbn [le_num].
        pose proof (le_num_lt a) as Ba. rewrite La in Ba. change (256 ^ N.of_nat 4) with W32 in *.
        pose proof (b2n_lt x).
        unfold add64, shl64. rewrite !N.shiftl_mul_pow2. change (2 ^ 32) with W32.
        unfold u64. repeat (rewrite N.mod_small by lia). lia.
      - change (N.of_nat 4 mod 8) with 4. cbn [switch_ N.eqb Pos.eqb].
        ok (H32 l A D H). unfold ret. do 2 f_equal.
        unfold add64. rewrite u64_small; [reflexivity|]. rewrite N.add_0_l. apply le_num_lt64. lia.
      - destruct (cut p 2 l ltac:(lia) H) as (a & b & -> & La & Lb & Ha & Hb). rewrite D in Lb.
        destruct b as [|x [|? b]]; try discriminate.
        change (N.of_nat 3 mod 8) with 3. cbn [switch_ N.eqb Pos.eqb].
        ok (byte_ok p _ _ 0 2 Hb eq_refl ltac:(cbn; lia)).
        ok (H16 p a (or_introl eq_refl) ltac:(cbn in *; lia) La Ha). unfold ret. do 2 f_equal.
        rewrite le_num_app, La. cbn [le_num].
        pose proof (le_num_lt a) as Ba. rewrite La in Ba. change (256 ^ N.of_nat 2) with W16 in *.
        pose proof (b2n_lt x).
        unfold add64, shl64. rewrite !N.shiftl_mul_pow2. change (2 ^ 16) with W16.
        unfold u64. repeat (rewrite N.mod_small by lia). lia.
      - change (N.of_nat 2 mod 8) with 2. cbn [switch_ N.eqb Pos.eqb].
        ok (H16 p l (or_introl eq_refl) A D H). unfold ret. do 2 f_equal.
        unfold add64. rewrite u64_small; [reflexivity|]. rewrite N.add_0_l. apply le_num_lt64. lia.
      - exact (le_one p l D H).
    Qed.

    Lemma tail64_be_words_ok : forall tail l case4, num = be_num ->
      (1 <= length l <= 8)%nat -> tail mod 8 = mlen l mod 8 -> p + mlen l <= addr_space cfg ->
      bytes_at m p l -> (length l = 4%nat -> case4 m = Ok (be_num l, m)) ->
      tail64_be_words cfg f16 f32 f64 case4 p tail m = Ok (be_num l, m).
    Proof.
      intros tail l case4 EN L E A H H4. unfold tail64_be_words. rewrite land7, E. subst num.
      unfold mlen in A.
      by_length l; unfold mlen; rewrite D in *.
      - apply H64; auto.
      - destruct (cut p 4 l ltac:(lia) H) as (a & b & -> & La & Lb & Ha & Hb). rewrite D in Lb.
        destruct b as [|x [|y [|z [|? b]]]]; try discriminate.
        change (N.of_nat 7 mod 8) with 7. cbn [switch_ N.eqb Pos.eqb].
        ok (H32 a ltac:(cbn in *; lia) La Ha).
        rewrite (padd_small cfg p 4) by lia.
        ok (H16 (p + 4) [x; y] (or_intror eq_refl) ltac:(cbn in *; lia) eq_refl
              (bytes_at_firstn m (p + 4) 2 _ Hb)).
        ok (byte_ok p _ _ 2 4 Hb eq_refl ltac:(cbn; lia)).
        unfold ret. do 2 f_equal.
        rewrite be_num_app. unfold be_num at 2 4. cbn [rev app le_num length].
        pose proof (be_num_lt a) as Ba. rewrite La in Ba.
        change (256 ^ N.of_nat 4) with W32 in *. change (256 ^ N.of_nat 3) with 16777216.
        pose proof (b2n_lt x). pose proof (b2n_lt y). pose proof (b2n_lt z).
        rewrite shl64_small by (change (2 ^ 24) with 16777216; lia).
        rewrite shl32_small by (change (2 ^ 8) with 256; lia).
        rewrite (lor_high_low 24) by (change (2 ^ 24) with 16777216; change (2 ^ 8) with 256; lia).
        replace ((b2n y + 256 * (b2n x + 256 * 0)) * 2 ^ 8 + be_num a * 2 ^ 24)
          with ((b2n y + 256 * b2n x + be_num a * 65536) * 2 ^ 8)
          by (change (2 ^ 24) with 16777216; change (2 ^ 8) with 256; lia).
        rewrite (lor_high_low 8) by assumption. change (2 ^ 8) with 256. lia.
      - destruct (cut p 4 l ltac:(lia) H) as (a & b & -> & La & Lb & Ha & Hb). rewrite D in Lb.
        change (N.of_nat 6 mod 8) with 6. cbn [switch_ N.eqb Pos.eqb].
        ok (H32 a ltac:(cbn in *; lia) La Ha).
        rewrite (padd_small cfg p 4) by lia.
        ok (H16 (p + 4) b (or_intror eq_refl) ltac:(cbn in *; lia) Lb Hb).
        unfold ret. do 2 f_equal. rewrite be_num_app, Lb.
        pose proof (be_num_lt a) as Ba. rewrite La in Ba.
        pose proof (be_num_lt b) as Bb. rewrite Lb in Bb. cbn [Nat.sub] in *.
        change (256 ^ N.of_nat 4) with W32 in *. change (256 ^ N.of_nat 2) with W16 in *.
        rewrite shl64_small by (change (2 ^ 16) with W16; lia).
        rewrite lor_high_low by assumption. change (2 ^ 16) with W16. lia.
      - destruct (cut p 4 l ltac:(lia) H) as (a & b & -> & La & Lb & Ha & Hb). rewrite D in Lb.
        destruct b as [|x [|? b]]; try discriminate.
        change (N.of_nat 5 mod 8) with 5. cbn [switch_ N.eqb Pos.eqb].
        ok (H32 a ltac:(cbn in *; lia) La Ha).
        ok (byte_ok p _ _ 0 4 Hb eq_refl ltac:(cbn; lia)).
        unfold ret. do 2 f_equal. rewrite be_num_app. unfold be_num at 3. cbn [rev app le_num length].
        pose proof (be_num_lt a) as Ba. rewrite La in Ba.
        change (256 ^ N.of_nat 4) with W32 in *. change (256 ^ N.of_nat 1) with 256 in *.
        pose proof (b2n_lt x).
        rewrite shl64_small by (change (2 ^ 8) with 256; lia).
        rewrite lor_high_low by assumption. change (2 ^ 8) with 256. lia.
      - change (N.of_nat 4 mod 8) with 4. cbn [switch_ N.eqb Pos.eqb]. auto.
      - destruct (cut p 2 l ltac:(lia) H) as (a & b & -> & La & Lb & Ha & Hb). rewrite D in Lb.
        destruct b as [|x [|? b]]; try discriminate.
        change (N.of_nat 3 mod 8) with 3. cbn [switch_ N.eqb Pos.eqb].
        ok (H16 p a (or_introl eq_refl) ltac:(cbn in *; lia) La Ha).
        ok (byte_ok p _ _ 0 2 Hb eq_refl ltac:(cbn; lia)).
        unfold ret. do 2 f_equal. rewrite be_num_app. unfold be_num at 3. cbn [rev app le_num length].
        pose proof (be_num_lt a) as Ba. rewrite La in Ba.
        change (256 ^ N.of_nat 2) with W16 in *. change (256 ^ N.of_nat 1) with 256 in *.
        pose proof (b2n_lt x).
        rewrite shl32_small by (change (2 ^ 8) with 256; lia).
        rewrite lor_high_low by assumption. change (2 ^ 8) with 256. lia.
      - change (N.of_nat 2 mod 8) with 2. cbn [switch_ N.eqb Pos.eqb].
        apply H16; auto.
      - exact (be_one p l D H).
    Qed.
  End Words.

  (** ** The tail functions.  [l] are the remaining bytes of the key. *)
  Lemma junk_after : forall p l n, bytes_at m p l -> (length l <= n)%nat -> mapped m p n ->
    exists j, length j = (n - length l)%nat /\ bytes_at m p (l ++ j).
  Proof.
    intros p l n H L M. replace n with (length l + (n - length l))%nat in M by lia.
    apply mapped_split in M. destruct M as [_ M].
    destruct (mapped_bytes_at _ _ _ M) as (j & Lj & Hj). exists j. split; [assumption|].
    apply bytes_at_app. auto.
  Qed.
  Lemma junk_before : forall p l k, bytes_at m p l -> N.of_nat k <= p -> mapped m (p - N.of_nat k) k ->
    exists j, length j = k /\ bytes_at m (p - N.of_nat k) (j ++ l).
  Proof.
    intros p l k H L M. destruct (mapped_bytes_at _ _ _ M) as (j & Lj & Hj).
    exists j. split; [assumption|]. apply bytes_at_app. split; [assumption|].
    rewrite Lj. now replace (p - N.of_nat k + N.of_nat k) with p by lia.
  Qed.

  Definition al (n : nat) (p : N) : Prop := p mod alignment cfg n = 0.

  Lemma al8_4 : forall p, al 8 p -> al 4 p /\ al 2 p /\ al 2 (p + 4).
  Proof. unfold al, alignment. intros p H. destruct (wide cfg); lia. Qed.
  Lemma al4_2 : forall p, al 4 p -> al 2 p.
  Proof. unfold al, alignment. intros p H. lia. Qed.

  Lemma shift_off8 : forall l t, mlen l = t -> 1 <= t <= 8 ->
    shr64 ones64 (N.shiftl (8 - t) 3) = N.ones (8 * t).
  Proof. intros l t <- R. rewrite ones64_shr by lia. f_equal. lia. Qed.

  (** what the tail reads may assume about the bytes around [l] *)
  Definition after (n : nat) (p : N) : Prop := fast_oneshot cfg = true -> mapped m p n.
  Definition around (n : nat) (p : N) (k : nat) : Prop :=
    has_underside cfg = true ->
    if can_read_underside cfg p (N.of_nat n)
    then N.of_nat (n - k) <= p /\ mapped m (p - N.of_nat (n - k)) (n - k)
    else p + N.of_nat n <= addr_space cfg /\ mapped m p n.

  Lemma tail64_le_aligned_ok : forall p tail l,
    (1 <= length l <= 8)%nat -> tail mod 8 = mlen l mod 8 -> tail < addr_space cfg ->
    p + mlen l <= addr_space cfg -> al 8 p -> bytes_at m p l -> after 8 p ->
    tail64_le_aligned cfg p tail m = Ok (le_num l, m).
  Proof.
    intros p tail l L E T A AL H J. unfold tail64_le_aligned.
    destruct (fast_oneshot cfg) eqn:F.
    - destruct (junk_after p l 8 H ltac:(lia) (J F)) as (j & Lj & Hj).
      ok (fetch64_le_aligned_ok cfg m p (l ++ j) AL Hj ltac:(rewrite app_length; lia)).
      unfold ret. do 2 f_equal. rewrite (off8_eq cfg tail (mlen l)); [|assumption|unfold mlen; lia|assumption].
      rewrite (shift_off8 l) by (auto; unfold mlen; lia). apply le_mask.
    - destruct (big_endian cfg).
      + now apply tail64_le_bytes_ok.
      + destruct (al8_4 p AL) as (A4 & A2 & A2').
        apply (tail64_le_words_ok _ _ _ le_num p); auto.
        * intros q k [->| ->]; intros; now apply fetch16_le_aligned_ok.
        * intros; now apply fetch32_le_aligned_ok.
        * intros; now apply fetch64_le_aligned_ok.
  Qed.

  Lemma tail64_be_aligned_ok : forall p tail l,
    (1 <= length l <= 8)%nat -> tail mod 8 = mlen l mod 8 -> tail < addr_space cfg ->
    p + mlen l <= addr_space cfg -> al 8 p -> bytes_at m p l -> after 8 p ->
    tail64_be_aligned cfg p tail m = Ok (be_num l, m).
  Proof.
    intros p tail l L E T A AL H J. unfold tail64_be_aligned.
    destruct (fast_oneshot cfg) eqn:F.
    - destruct (junk_after p l 8 H ltac:(lia) (J F)) as (j & Lj & Hj).
      assert (L8 : length (l ++ j) = 8%nat) by (rewrite app_length; lia).
      ok (fetch64_be_aligned_ok cfg m p (l ++ j) AL Hj L8).
      unfold ret. do 2 f_equal. rewrite (off8_eq cfg tail (mlen l)); [|assumption|unfold mlen; lia|assumption].
      unfold shr64. rewrite u64_small by (apply (be_num_word _ 8); [assumption|reflexivity]).
      replace (N.shiftl (8 - mlen l) 3) with (8 * mlen j) by (rewrite N.shiftl_mul_pow2; change (2 ^ 3) with 8; unfold mlen; lia).
      apply be_shift.
    - destruct (big_endian cfg).
      + destruct (al8_4 p AL) as (A4 & A2 & A2').
        apply (tail64_be_words_ok _ _ _ be_num p); auto.
        * intros q k [->| ->]; intros; now apply fetch16_be_aligned_ok.
        * intros; now apply fetch32_be_aligned_ok.
        * intros; now apply fetch64_be_aligned_ok.
        * intros; now apply fetch32_be_aligned_ok.
      + now apply tail64_be_bytes_ok.
  Qed.

  Lemma tail64_le_unaligned_ok : forall p tail l,
    (1 <= length l <= 8)%nat -> tail mod 8 = mlen l mod 8 -> tail < addr_space cfg ->
    p + mlen l <= addr_space cfg -> p < addr_space cfg -> bytes_at m p l -> around 8 p (length l) ->
    tail64_le_unaligned cfg p tail m = Ok (le_num l, m).
  Proof.
    intros p tail l L E T A PA H J. unfold tail64_le_unaligned. unfold around in J.
    destruct (has_underside cfg) eqn:F; [destruct (wide cfg)|]; cbn [andb].
    - specialize (J eq_refl). change (N.of_nat 8) with 8 in J.
      rewrite (off8_eq cfg tail (mlen l)); [|assumption|unfold mlen; lia|assumption].
      destruct (can_read_underside cfg p 8).
      + destruct J as [J1 J2].
        destruct (junk_before p l (8 - length l) H J1 J2) as (j & Lj & Hj).
        assert (L8 : length (j ++ l) = 8%nat) by (rewrite app_length; lia).
        replace (8 - mlen l) with (N.of_nat (8 - length l)) by (unfold mlen; lia).
        rewrite psub_small by assumption.
        ok (fetch64_le_unaligned_ok cfg m (p - N.of_nat (8 - length l)) (j ++ l) ltac:(unfold mlen in *; lia) Hj L8).
        unfold ret. do 2 f_equal. unfold shr64.
        rewrite u64_small by (apply (le_num_word _ 8); [assumption|reflexivity]).
        replace (N.shiftl (N.of_nat (8 - length l)) 3) with (8 * mlen j)
          by (rewrite N.shiftl_mul_pow2; change (2 ^ 3) with 8; unfold mlen; lia).
        apply le_shift.
      + destruct J as [J1 J2].
        destruct (junk_after p l 8 H ltac:(lia) J2) as (j & Lj & Hj).
        ok (fetch64_le_unaligned_ok cfg m p (l ++ j) J1 Hj ltac:(rewrite app_length; lia)).
        unfold ret. do 2 f_equal.
        rewrite (shift_off8 l) by (auto; unfold mlen; lia). apply le_mask.
    - destruct (is_efficient cfg && negb (big_endian cfg)).
      + apply (tail64_le_words_ok _ _ _ le_num p); auto.
        * intros; now apply fetch16_le_unaligned_ok.
        * intros; now apply fetch32_le_unaligned_ok.
        * intros; now apply fetch64_le_unaligned_ok.
      + now apply tail64_le_bytes_ok.
    - destruct (is_efficient cfg && negb (big_endian cfg)).
      + apply (tail64_le_words_ok _ _ _ le_num p); auto.
        * intros; now apply fetch16_le_unaligned_ok.
        * intros; now apply fetch32_le_unaligned_ok.
        * intros; now apply fetch64_le_unaligned_ok.
      + now apply tail64_le_bytes_ok.
  Qed.

  (** the branch with the undeclared [fetch32_be] is not compiled *)
  Definition be_builds : Prop :=
    has_underside cfg && wide cfg = false -> is_efficient cfg && big_endian cfg = false.

  Lemma tail64_be_unaligned_ok : forall p tail l, be_builds ->
    (1 <= length l <= 8)%nat -> tail mod 8 = mlen l mod 8 -> tail < addr_space cfg ->
    p + mlen l <= addr_space cfg -> p < addr_space cfg -> bytes_at m p l -> around 8 p (length l) ->
    tail64_be_unaligned cfg p tail m = Ok (be_num l, m).
  Proof.
    intros p tail l BB L E T A PA H J. unfold tail64_be_unaligned. unfold around in J.
    unfold be_builds in BB.
    destruct (has_underside cfg) eqn:F; [destruct (wide cfg)|]; cbn [andb] in *.
    - specialize (J eq_refl). change (N.of_nat 8) with 8 in J.
      rewrite (off8_eq cfg tail (mlen l)); [|assumption|unfold mlen; lia|assumption].
      destruct (can_read_underside cfg p 8).
      + destruct J as [J1 J2].
        destruct (junk_before p l (8 - length l) H J1 J2) as (j & Lj & Hj).
        assert (L8 : length (j ++ l) = 8%nat) by (rewrite app_length; lia).
        rewrite (shift_off8 l) by (auto; unfold mlen; lia).
        replace (8 - mlen l) with (N.of_nat (8 - length l)) by (unfold mlen; lia).
        rewrite psub_small by assumption.
        ok (fetch64_be_unaligned_ok cfg m (p - N.of_nat (8 - length l)) (j ++ l) ltac:(unfold mlen in *; lia) Hj L8).
        unfold ret. do 2 f_equal. apply be_mask.
      + destruct J as [J1 J2].
        destruct (junk_after p l 8 H ltac:(lia) J2) as (j & Lj & Hj).
        assert (L8 : length (l ++ j) = 8%nat) by (rewrite app_length; lia).
        ok (fetch64_be_unaligned_ok cfg m p (l ++ j) J1 Hj L8).
        unfold ret. do 2 f_equal. unfold shr64.
        rewrite u64_small by (apply (be_num_word _ 8); [assumption|reflexivity]).
        replace (N.shiftl (8 - mlen l) 3) with (8 * mlen j)
          by (rewrite N.shiftl_mul_pow2; change (2 ^ 3) with 8; unfold mlen; lia).
        apply be_shift.
    - rewrite BB by reflexivity. now apply tail64_be_bytes_ok.
    - rewrite BB by reflexivity. now apply tail64_be_bytes_ok.
  Qed.

  (** ** 32-bit tails *)
  Ltac by_length4 l :=
    let D := fresh "D" in
    assert (D : length l = 4%nat \/ length l = 3%nat \/ length l = 2%nat \/ length l = 1%nat) by lia;
    destruct D as [D|[D|[D|D]]].

  Fixpoint le_chain32 (k : nat) (p r : N) : M N :=
    match k with
    | O => b <- load8 p ;; ret (add32 r (b2n b))
    | S k' => b <- load8 (padd cfg p (N.of_nat k)) ;; le_chain32 k' p (shl32 (add32 r (b2n b)) 8)
    end.

  Lemma le_chain32_ok : forall k p r l, length l = S k -> bytes_at m p l ->
    p + mlen l <= addr_space cfg -> r * 256 ^ N.of_nat k + le_num l < W32 ->
    le_chain32 k p r m = Ok (r * 256 ^ N.of_nat k + le_num l, m).
  Proof.
    induction k as [|k IH]; intros p r l L H A B.
    - destruct l as [|b [|c l]]; try discriminate. cbn [le_chain32].
      apply bytes_at_cons in H. destruct H as [H _].
      ok (load8_ok m p b H). unfold ret. cbn [N.of_nat le_num] in *. rewrite N.pow_0_r in *.
      do 2 f_equal. unfold add32. rewrite u32_small; lia.
    - destruct (list_snoc l (S k) L) as (a & b & -> & La).
      destruct (bytes_at_last p a b H) as [Hb Ha]. cbn [le_chain32].
      unfold mlen in A. rewrite app_length in A. cbn [length] in A.
      unfold mlen in Hb. rewrite La in Hb.
      rewrite padd_small by lia. ok Hb.
      rewrite le_num_app, La in *. cbn [le_num] in *. rewrite N.mul_0_r, N.add_0_r in *.
      pose proof (b2n_lt b) as Bb. set (x := b2n b) in *. clearbody x.
      rewrite Nnat.Nat2N.inj_succ, N.pow_succ_r' in *.
      set (q := 256 ^ N.of_nat k) in *.
      assert (Hq : 1 <= q) by (unfold q; pose proof (N.pow_nonzero 256 (N.of_nat k)); lia).
      assert (E : (r + x) * 256 * q + le_num a = r * (256 * q) + (le_num a + 256 * q * x)) by lia.
      assert (B1 : (r + x) * 256 < W32) by nia.
      unfold add32. rewrite u32_small by lia.
      unfold shl32. rewrite N.shiftl_mul_pow2. change (2 ^ 8) with 256. rewrite u32_small by lia.
      rewrite (IH p _ a La Ha); [| unfold mlen; lia | fold q; lia].
      fold q. do 2 f_equal. exact E.
  Qed.

  Lemma le_num_lt32 : forall l, (length l <= 4)%nat -> le_num l < W32.
  Proof.
    intros l L. pose proof (le_num_lt l) as B.
    assert (256 ^ N.of_nat (length l) <= 256 ^ 4) by (apply N.pow_le_mono_r; lia).
    change (256 ^ 4) with W32 in *. lia.
  Qed.

  Lemma tail32_le_bytes_ok : forall p tail l,
    (1 <= length l <= 4)%nat -> tail mod 4 = mlen l mod 4 -> p + mlen l <= addr_space cfg ->
    bytes_at m p l -> tail32_le_bytes cfg p tail m = Ok (le_num l, m).
  Proof.
    intros p tail l L E A H.
    assert (C : tail32_le_bytes cfg p tail m = le_chain32 (length l - 1) p 0 m).
    { unfold tail32_le_bytes. rewrite land3, E. unfold mlen. clear E H A.
      by_length4 l; rewrite D; reflexivity. }
    rewrite C. rewrite (le_chain32_ok (length l - 1) p 0 l); try assumption; try lia.
    - now rewrite N.mul_0_l.
    - rewrite N.mul_0_l. apply le_num_lt32. lia.
  Qed.

  Lemma tail32_be_bytes_ok : forall p tail l,
    (1 <= length l <= 4)%nat -> tail mod 4 = mlen l mod 4 -> p + mlen l <= addr_space cfg ->
    bytes_at m p l -> tail32_be_bytes cfg p tail m = Ok (be_num l, m).
  Proof.
    intros p tail l L E A H. unfold tail32_be_bytes. rewrite land3, E.
    by_length4 l; unfold mlen at 1; rewrite D.
    - exact (be_first_ok 3 p l D H ltac:(lia) A).
    - exact (be_first_ok 2 p l D H ltac:(lia) A).
    - exact (be_first_ok 1 p l D H ltac:(lia) A).
    - exact (be_one p l D H).
  Qed.

  Section Words32.
    Variables (f16 f32 : N -> M N) (num : list byte -> N) (p : N).
    Hypothesis H16 : forall l, p + 2 <= addr_space cfg ->
      length l = 2%nat -> bytes_at m p l -> f16 p m = Ok (num l, m).
    Hypothesis H32 : forall l, p + 4 <= addr_space cfg ->
      length l = 4%nat -> bytes_at m p l -> f32 p m = Ok (num l, m).

    Lemma tail32_le_words_ok : forall tail l, num = le_num ->
      (1 <= length l <= 4)%nat -> tail mod 4 = mlen l mod 4 -> p + mlen l <= addr_space cfg ->
      bytes_at m p l -> tail32_le_words cfg f16 f32 p tail m = Ok (le_num l, m).
    Proof.
      intros tail l EN L E A H. unfold tail32_le_words. rewrite land3, E. subst num.
      unfold mlen in A.
      by_length4 l; unfold mlen; rewrite D in *.
      - apply H32; auto.
      - destruct (cut p 2 l ltac:(lia) H) as (a & b & -> & La & Lb & Ha & Hb). rewrite D in Lb.
        destruct b as [|x [|? b]]; try discriminate.
        change (N.of_nat 3 mod 4) with 3. cbn [switch_ N.eqb Pos.eqb].
        ok (byte_ok p _ _ 0 2 Hb eq_refl ltac:(cbn; lia)).
        ok (H16 a ltac:(cbn in *; lia) La Ha). unfold ret. do 2 f_equal.
        rewrite le_num_app, La. cbn [le_num].
        pose proof (le_num_lt a) as Ba. rewrite La in Ba. change (256 ^ N.of_nat 2) with W16 in *.
        pose proof (b2n_lt x).
        unfold add32, shl32. rewrite !N.shiftl_mul_pow2. change (2 ^ 16) with W16.
        unfold u32. repeat (rewrite N.mod_small by lia). lia.
      - change (N.of_nat 2 mod 4) with 2. cbn [switch_ N.eqb Pos.eqb].
        ok (H16 l A D H). unfold ret. do 2 f_equal.
        unfold add32. rewrite u32_small; [reflexivity|]. rewrite N.add_0_l. apply le_num_lt32. lia.
      - exact (le_one p l D H).
    Qed.

    Lemma tail32_be_words_ok : forall tail l, num = be_num ->
      (1 <= length l <= 4)%nat -> tail mod 4 = mlen l mod 4 -> p + mlen l <= addr_space cfg ->
      bytes_at m p l -> tail32_be_words cfg f16 f32 p tail m = Ok (be_num l, m).
    Proof.
      intros tail l EN L E A H. unfold tail32_be_words. rewrite land3, E. subst num.
      unfold mlen in A.
      by_length4 l; unfold mlen; rewrite D in *.
      - apply H32; auto.
      - destruct (cut p 2 l ltac:(lia) H) as (a & b & -> & La & Lb & Ha & Hb). rewrite D in Lb.
        destruct b as [|x [|? b]]; try discriminate.
        change (N.of_nat 3 mod 4) with 3. cbn [switch_ N.eqb Pos.eqb].
        ok (H16 a ltac:(cbn in *; lia) La Ha).
        ok (byte_ok p _ _ 0 2 Hb eq_refl ltac:(cbn; lia)).
        unfold ret. do 2 f_equal. rewrite be_num_app. unfold be_num at 3. cbn [rev app le_num length].
        pose proof (be_num_lt a) as Ba. rewrite La in Ba.
        change (256 ^ N.of_nat 2) with W16 in *. change (256 ^ N.of_nat 1) with 256 in *.
        pose proof (b2n_lt x).
        rewrite N.shiftl_mul_pow2. rewrite lor_high_low by assumption. change (2 ^ 8) with 256.
        rewrite u32_small by lia. lia.
      - change (N.of_nat 2 mod 4) with 2. cbn [switch_ N.eqb Pos.eqb].
        apply H16; auto.
      - exact (be_one p l D H).
    Qed.
  End Words32.

  Lemma shift_off4 : forall l t, mlen l = t -> 1 <= t <= 4 ->
    shr32 ones32 (N.shiftl (4 - t) 3) = N.ones (8 * t).
  Proof. intros l t <- R. rewrite ones32_shr by lia. f_equal. lia. Qed.

  Lemma tail32_le_aligned_ok : forall p tail l,
    (1 <= length l <= 4)%nat -> tail mod 4 = mlen l mod 4 -> tail < addr_space cfg ->
    p + mlen l <= addr_space cfg -> al 4 p -> bytes_at m p l -> after 4 p ->
    tail32_le_aligned cfg p tail m = Ok (le_num l, m).
  Proof.
    intros p tail l L E T A AL H J. unfold tail32_le_aligned.
    destruct (fast_oneshot cfg) eqn:F.
    - destruct (junk_after p l 4 H ltac:(lia) (J F)) as (j & Lj & Hj).
      ok (fetch32_le_aligned_ok cfg m p (l ++ j) AL Hj ltac:(rewrite app_length; lia)).
      unfold ret. do 2 f_equal. rewrite (off4_eq cfg tail (mlen l)); [|assumption|unfold mlen; lia|assumption].
      rewrite (shift_off4 l) by (auto; unfold mlen; lia). apply le_mask.
    - pose proof (al4_2 p AL). destruct (big_endian cfg).
      + now apply tail32_le_bytes_ok.
      + apply (tail32_le_words_ok _ _ le_num p); auto.
        * intros; now apply fetch16_le_aligned_ok.
        * intros; now apply fetch32_le_aligned_ok.
  Qed.

  Lemma tail32_be_aligned_ok : forall p tail l,
    (1 <= length l <= 4)%nat -> tail mod 4 = mlen l mod 4 -> tail < addr_space cfg ->
    p + mlen l <= addr_space cfg -> al 4 p -> bytes_at m p l -> after 4 p ->
    tail32_be_aligned cfg p tail m = Ok (be_num l, m).
  Proof.
    intros p tail l L E T A AL H J. unfold tail32_be_aligned.
    destruct (fast_oneshot cfg) eqn:F.
    - destruct (junk_after p l 4 H ltac:(lia) (J F)) as (j & Lj & Hj).
      assert (L4 : length (l ++ j) = 4%nat) by (rewrite app_length; lia).
      ok (fetch32_be_aligned_ok cfg m p (l ++ j) AL Hj L4).
      unfold ret. do 2 f_equal. rewrite (off4_eq cfg tail (mlen l)); [|assumption|unfold mlen; lia|assumption].
      unfold shr32. rewrite u32_small by (apply (be_num_word _ 4); [assumption|reflexivity]).
      replace (N.shiftl (4 - mlen l) 3) with (8 * mlen j) by (rewrite N.shiftl_mul_pow2; change (2 ^ 3) with 8; unfold mlen; lia).
      apply be_shift.
    - pose proof (al4_2 p AL). destruct (big_endian cfg).
      + apply (tail32_be_words_ok _ _ be_num p); auto.
        * intros; now apply fetch16_be_aligned_ok.
        * intros; now apply fetch32_be_aligned_ok.
      + now apply tail32_be_bytes_ok.
  Qed.

  Lemma tail32_le_unaligned_ok : forall p tail l,
    (1 <= length l <= 4)%nat -> tail mod 4 = mlen l mod 4 -> tail < addr_space cfg ->
    p + mlen l <= addr_space cfg -> p < addr_space cfg -> bytes_at m p l -> around 4 p (length l) ->
    tail32_le_unaligned cfg p tail m = Ok (le_num l, m).
  Proof.
    intros p tail l L E T A PA H J. unfold tail32_le_unaligned. unfold around in J.
    destruct (has_underside cfg) eqn:F.
    - specialize (J eq_refl). change (N.of_nat 4) with 4 in J.
      rewrite (off4_eq cfg tail (mlen l)); [|assumption|unfold mlen; lia|assumption].
      destruct (can_read_underside cfg p 4).
      + destruct J as [J1 J2].
        destruct (junk_before p l (4 - length l) H J1 J2) as (j & Lj & Hj).
        assert (L4 : length (j ++ l) = 4%nat) by (rewrite app_length; lia).
        replace (4 - mlen l) with (N.of_nat (4 - length l)) by (unfold mlen; lia).
        rewrite psub_small by assumption.
        ok (fetch32_le_unaligned_ok cfg m (p - N.of_nat (4 - length l)) (j ++ l) ltac:(unfold mlen in *; lia) Hj L4).
        unfold ret. do 2 f_equal. unfold shr32.
        rewrite u32_small by (apply (le_num_word _ 4); [assumption|reflexivity]).
        replace (N.shiftl (N.of_nat (4 - length l)) 3) with (8 * mlen j)
          by (rewrite N.shiftl_mul_pow2; change (2 ^ 3) with 8; unfold mlen; lia).
        apply le_shift.
      + destruct J as [J1 J2].
        destruct (junk_after p l 4 H ltac:(lia) J2) as (j & Lj & Hj).
        ok (fetch32_le_unaligned_ok cfg m p (l ++ j) J1 Hj ltac:(rewrite app_length; lia)).
        unfold ret. do 2 f_equal.
        rewrite (shift_off4 l) by (auto; unfold mlen; lia). apply le_mask.
    - destruct (is_efficient cfg && negb (big_endian cfg)).
      + apply (tail32_le_words_ok _ _ le_num p); auto.
        * intros; now apply fetch16_le_unaligned_ok.
        * intros; now apply fetch32_le_unaligned_ok.
      + now apply tail32_le_bytes_ok.
  Qed.

  Lemma tail32_be_unaligned_ok : forall p tail l,
    (1 <= length l <= 4)%nat -> tail mod 4 = mlen l mod 4 -> tail < addr_space cfg ->
    p + mlen l <= addr_space cfg -> p < addr_space cfg -> bytes_at m p l -> around 4 p (length l) ->
    tail32_be_unaligned cfg p tail m = Ok (be_num l, m).
  Proof.
    intros p tail l L E T A PA H J. unfold tail32_be_unaligned. unfold around in J.
    destruct (has_underside cfg) eqn:F.
    - specialize (J eq_refl). change (N.of_nat 4) with 4 in J.
      rewrite (off4_eq cfg tail (mlen l)); [|assumption|unfold mlen; lia|assumption].
      destruct (can_read_underside cfg p 4).
      + destruct J as [J1 J2].
        destruct (junk_before p l (4 - length l) H J1 J2) as (j & Lj & Hj).
        assert (L4 : length (j ++ l) = 4%nat) by (rewrite app_length; lia).
        rewrite (shift_off4 l) by (auto; unfold mlen; lia).
        replace (4 - mlen l) with (N.of_nat (4 - length l)) by (unfold mlen; lia).
        rewrite psub_small by assumption.
        ok (fetch32_be_unaligned_ok cfg m (p - N.of_nat (4 - length l)) (j ++ l) ltac:(unfold mlen in *; lia) Hj L4).
        unfold ret. do 2 f_equal. apply be_mask.
      + destruct J as [J1 J2].
        destruct (junk_after p l 4 H ltac:(lia) J2) as (j & Lj & Hj).
        assert (L4 : length (l ++ j) = 4%nat) by (rewrite app_length; lia).
        ok (fetch32_be_unaligned_ok cfg m p (l ++ j) J1 Hj L4).
        unfold ret. do 2 f_equal. unfold shr32.
        rewrite u32_small by (apply (be_num_word _ 4); [assumption|reflexivity]).
        replace (N.shiftl (4 - mlen l) 3) with (8 * mlen j)
          by (rewrite N.shiftl_mul_pow2; change (2 ^ 3) with 8; unfold mlen; lia).
        apply be_shift.
    - destruct (is_efficient cfg && big_endian cfg).
      + apply (tail32_be_words_ok _ _ be_num p); auto.
        * intros; now apply fetch16_be_unaligned_ok.
        * intros; now apply fetch32_be_unaligned_ok.
      + now apply tail32_be_bytes_ok.
  Qed.
End Tail.
