(** Running the self-check. *)
From Coq Require Import ZArith NArith Arith List Bool Lia Strings.Byte.
From Coq Require Import ZifyN ZifyNat ZifyBool.
From Verif Require Import Bytes CSem Bits Spec NBits CSemFacts FetchFacts KeyMem CtxMem StreamFacts OneShot
  Dispatch Selfcheck SelfcheckSpec.
Import ListNotations.
Ltac Zify.zify_post_hook ::= Z.div_mod_to_equations.
Local Open Scope N_scope.

Lemma existsb_map : forall A B (f : B -> bool) (g : A -> B) l, existsb f (map g l) = existsb (fun x => f (g x)) l.
Proof. induction l as [|a l IH]; [reflexivity|]. cbn. now rewrite IH. Qed.
Lemma existsb_ext' : forall A (f g : A -> bool) l, (forall x, In x l -> f x = g x) -> existsb f l = existsb g l.
Proof.
  induction l as [|a l IH]; intro H; [reflexivity|]. cbn. rewrite H by now left. f_equal. apply IH. intros x X.
  apply H. now right.
Qed.

Lemma nth_map_seq : forall A (f : nat -> A) s n i d, (i < n)%nat -> nth i (map f (seq s n)) d = f (s + i)%nat.
Proof.
  intros A f s n i d H. rewrite nth_indep with (d' := f 0%nat) by (rewrite map_length, seq_length; exact H).
  rewrite map_nth, seq_nth by exact H. reflexivity.
Qed.
Lemma nth_skip : forall A (l r : list A) n i d, length l = n -> nth (n + i) (l ++ r) d = nth i r d.
Proof. intros A l r n i d <-. rewrite app_nth2 by lia. f_equal. lia. Qed.
Lemma padd_small' : forall cfg p k, p + k < addr_space cfg -> padd cfg p k = p + k.
Proof. intros cfg p k H. unfold padd. now apply N.mod_small. Qed.

Lemma shl_pow : forall i, (i < 63)%nat -> shl64 (2 ^ N.of_nat i) 1 = 2 ^ N.of_nat (S i).
Proof.
  intros i H. unfold shl64, u64. rewrite N.shiftl_mul_pow2, <- N.pow_add_r.
  replace (N.of_nat i + 1) with (N.of_nat (S i)) by lia. apply N.mod_small.
  change W64 with (2 ^ 64). apply N.pow_lt_mono_r; lia.
Qed.
Lemma shl_ones : forall i, (i < 7)%nat -> shl64 (2 ^ 64 - 2 ^ N.of_nat i) 1 = 2 ^ 64 - 2 ^ N.of_nat (S i).
Proof. intros i H. do 7 (destruct i as [|i]; [reflexivity|]). lia. Qed.

Section Yields.
  Variable cfg : config.

  (** From a memory with [I], the code ends in [v] with [I']; but if [bad] and
      asserts are compiled in, it aborts. *)
  Definition yields {A} (X : M A) (I I' : mem -> Prop) (bad : bool) (v : A) : Prop :=
    forall m, I m -> if negb (ndebug cfg) && bad then X m = Abort else exists m', X m = Ok (v, m') /\ I' m'.

  Lemma yields_ret : forall A (v : A) I, yields (ret v) I I false v.
  Proof. intros A v I m H. rewrite andb_false_r. now exists m. Qed.
  Lemma yields_bind : forall A B (X : M A) (k : A -> M B) I I1 I2 bad1 bad2 v w,
    yields X I I1 bad1 v -> yields (k v) I1 I2 bad2 w -> yields (bind X k) I I2 (bad1 || bad2) w.
  Proof.
    intros A B X k I I1 I2 bad1 bad2 v w HX HK m H. specialize (HX m H). unfold bind.
    destruct (negb (ndebug cfg)) eqn:D; cbn [andb] in *.
    - destruct bad1; cbn [orb]; [now rewrite HX|]. destruct HX as (m' & E & H').
      rewrite E. specialize (HK m' H'). rewrite D in HK. exact HK.
    - destruct HX as (m' & E & H'). rewrite E. specialize (HK m' H'). rewrite D in HK. exact HK.
  Qed.
  Lemma yields_eq : forall A (X : M A) I I' bad bad' v v', yields X I I' bad v -> bad = bad' -> v = v' ->
    yields X I I' bad' v'.
  Proof. intros A X I I' bad bad' v v' H <- <-. exact H. Qed.
  Lemma yields_weaken : forall A (X : M A) (I I' J J' : mem -> Prop) bad v, yields X I I' bad v ->
    (forall m, J m -> I m) -> (forall m, I' m -> J' m) -> yields X J J' bad v.
  Proof.
    intros A X I I' J J' bad v H HJ HJ' m HM. specialize (H m (HJ m HM)).
    destruct (negb (ndebug cfg) && bad); [exact H|]. destruct H as (m' & E & H'). exists m'. auto.
  Qed.

  Lemma for_yields : forall S (body : N -> S -> M S) I n first (st : nat -> S) (bad : nat -> bool),
    (forall i, (i < n)%nat -> yields (body (first + N.of_nat i) (st i)) I I (bad i) (st (Datatypes.S i))) ->
    yields (for_ first n body (st 0%nat)) I I (existsb bad (seq 0 n)) (st n).
  Proof.
    induction n as [|n IH]; intros first st bad H; [apply yields_ret|].
    cbn [for_ seq existsb]. eapply yields_bind.
    - replace first with (first + N.of_nat 0) by lia. apply H. lia.
    - eapply yields_eq; [apply (IH (first + 1) (fun i => st (Datatypes.S i)) (fun i => bad (Datatypes.S i)))| |reflexivity].
      + intros i L. replace (first + 1 + N.of_nat i) with (first + N.of_nat (Datatypes.S i)) by lia. apply H. lia.
      + rewrite <- seq_shift. symmetry. apply existsb_map.
  Qed.

  (** ** The probes *)
  Variables (pattern long refs : N) (rs : list N) (hash : hash_code) (h : N * N * N -> N).
  Hypothesis rs_length : length rs = 81%nat.
  Hypothesis rs_lt : forall r, In r rs -> r < 2 ^ 64.
  Hypothesis refs_al : refs mod alignment cfg 8 = 0.
  Hypothesis refs_room : refs + 648 < addr_space cfg.
  Hypothesis pattern_room : pattern + 64 < addr_space cfg.
  Hypothesis long_room : long + 512 < addr_space cfg.

  Definition mismatch (k : nat) (p : N * N * N) : bool := negb (h p =? nth k rs 0).

  Lemma check_yields : forall (I : mem -> Prop) d l s failed k, (k < 81)%nat ->
    (forall m, I m -> refs_at cfg refs rs m) ->
    (forall m, I m -> exists m', hash d l s m = Ok (h (d, l, s), m') /\ I m') ->
    yields (check cfg hash d l s (failed, refs + 8 * N.of_nat k)) I I (mismatch k (d, l, s))
           (failed || mismatch k (d, l, s), refs + 8 * N.of_nat (S k)).
  Proof.
    intros I d l s failed k K RA HH m H. unfold check.
    assert (AL : (refs + 8 * N.of_nat k) mod alignment cfg 8 = 0).
    { clear -refs_al. unfold alignment in *. destruct (wide cfg); lia. }
    assert (R : read_aligned cfg 8 (refs + 8 * N.of_nat k) m = Ok (nth k rs 0, m)).
    { apply read_native; [exact AL|now apply RA|]. apply rs_lt. apply nth_In. lia. }
    ok R. unfold probe. destruct (HH m H) as (m' & E & H').
    unfold mismatch. set (r := nth k rs 0) in *. set (x := h (d, l, s)) in *.
    assert (P : padd cfg (refs + 8 * N.of_nat k) 8 = refs + 8 * N.of_nat (S k)).
    { unfold padd. rewrite N.mod_small; [lia|]. lia. }
    unfold bind. rewrite E. unfold assert_. destruct (ndebug cfg); cbn [negb andb].
    - exists m'. unfold ret. rewrite P. split; [reflexivity|exact H'].
    - destruct (x =? r); cbn [negb].
      + exists m'. unfold ret. rewrite P. split; [reflexivity|exact H'].
      + reflexivity.
  Qed.

  (** the loop that fills the long array *)
  Lemma fill_ok : forall n k m, (k + n <= 512)%nat -> mapped m (long + N.of_nat k) n ->
    exists m', for_ (N.of_nat k) n (fun i (_ : unit) => store_bytes (padd cfg long i) [n2b i]) tt m = Ok (tt, m') /\
      only m m' (long + N.of_nat k) (N.of_nat n) /\
      bytes_at m' (long + N.of_nat k) (map (fun i => n2b (N.of_nat i)) (seq k n)).
  Proof.
    induction n as [|n IH]; intros k m K Mm.
    - exists m. split; [reflexivity|]. split; [apply only_refl|apply bytes_at_nil].
    - assert (P : padd cfg long (N.of_nat k) = long + N.of_nat k) by (unfold padd; apply N.mod_small; lia).
      set (m1 := write m (long + N.of_nat k) [n2b (N.of_nat k)]).
      assert (O1 : only m m1 (long + N.of_nat k) 1) by now apply only_write.
      destruct (IH (S k) m1 ltac:(lia)) as (m' & E & O & B).
      { eapply only_mapped; [exact O1|]. intros i Hi.
        replace (long + N.of_nat (S k) + N.of_nat i) with (long + N.of_nat k + N.of_nat (S i)) by lia. apply Mm. lia. }
      exists m'. split; [|split].
      + cbn [for_]. rewrite P.
        assert (M1 : mapped m (long + N.of_nat k) (length [n2b (N.of_nat k)])).
        { intros i Hi. apply Mm. cbn [length] in Hi. lia. }
        rewrite (bind_ok _ _ _ _ _ _ _ (store_bytes_ok _ _ _ M1)).
        fold m1. replace (N.of_nat k + 1) with (N.of_nat (S k)) by lia. exact E.
      + apply only_trans with m1; [eapply only_weaken; [exact O1|lia|lia]|eapply only_weaken; [exact O|lia|lia]].
      + cbn [seq map]. apply bytes_at_cons. split.
        * destruct O as [O _]. rewrite O by lia.
          pose proof (write_bytes_at m (long + N.of_nat k) [n2b (N.of_nat k)] 0%nat _ eq_refl) as W.
          now rewrite N.add_0_r in W.
        * replace (long + N.of_nat k + 1) with (long + N.of_nat (S k)) by lia. exact B.
  Qed.

  (** ** All of it *)
  (** before and after the long array is filled *)
  Variables I0 I1 : mem -> Prop.
  Hypothesis I0_refs : forall m, I0 m -> refs_at cfg refs rs m.
  Hypothesis I1_refs : forall m, I1 m -> refs_at cfg refs rs m.
  Hypothesis I0_long : forall m, I0 m -> mapped m long 512.
  Hypothesis I0_I1 : forall m m', I0 m -> only m m' long 512 -> bytes_at m' long pattern_long -> I1 m'.
  Hypothesis short_ok : forall d l s, In (d, l, s) (short_probes pattern) ->
    forall m, I0 m -> exists m', hash d l s m = Ok (h (d, l, s), m') /\ I0 m'.
  Hypothesis long_ok : forall d l s, In (d, l, s) (long_probes long) ->
    forall m, I1 m -> exists m', hash d l s m = Ok (h (d, l, s), m') /\ I1 m'.

  Definition any_mismatch : bool :=
    existsb (fun k => mismatch k (nth k (probes pattern long) (0, 0, 0))) (seq 0 81).

  Lemma selfcheck_yields :
    yields (t1ha_selfcheck cfg pattern long hash refs) I0 I1 any_mismatch (if any_mismatch then (-1)%Z else 0%Z).
  Proof.
    assert (CY : forall d l s failed k, (k < 81)%nat -> In (d, l, s) (short_probes pattern) ->
      yields (check cfg hash d l s (failed, refs + 8 * N.of_nat k)) I0 I0 (mismatch k (d, l, s))
           (failed || mismatch k (d, l, s), refs + 8 * N.of_nat (S k))).
    { intros. apply check_yields; auto. }
    assert (IN1 : forall i, (i < 63)%nat -> In (pattern, 1 + N.of_nat i, 2 ^ N.of_nat i) (short_probes pattern)).
    { intros i L. unfold short_probes. apply in_or_app. right. apply in_or_app. left.
      apply in_map_iff. exists (S i). split; [|apply in_seq; lia].
      replace (N.of_nat (S i) - 1) with (N.of_nat i) by lia. f_equal. f_equal. lia. }
    assert (IN2 : forall i, (i < 7)%nat ->
      In (pattern + (1 + N.of_nat i), 64 - (1 + N.of_nat i), 2 ^ 64 - 2 ^ N.of_nat (S i)) (short_probes pattern)).
    { intros i L. unfold short_probes. apply in_or_app. right. apply in_or_app. right.
      apply in_map_iff. exists (S i). split; [|apply in_seq; lia].
      replace (1 + N.of_nat i) with (N.of_nat (S i)) by lia. reflexivity. }
    assert (IN3 : forall i, (i < 8)%nat -> In (long + N.of_nat i, 128 + N.of_nat i * 17, 2 ^ 64 - 2 ^ 7) (long_probes long)).
    { intros i L. unfold long_probes. apply in_map_iff. exists i. split; [|apply in_seq; lia].
      now rewrite (N.mul_comm 17). }
    unfold t1ha_selfcheck. cbv zeta.
    set (b0 := mismatch 0 (0, 0, 0)). set (b1 := mismatch 1 (0, 0, not64 0)). set (b2 := mismatch 2 (pattern, 64, 0)).
    set (bs3 := fun i => mismatch (3 + i) (pattern, 1 + N.of_nat i, 2 ^ N.of_nat i)).
    set (bs4 := fun i => mismatch (66 + i) (pattern + (1 + N.of_nat i), 64 - (1 + N.of_nat i), 2 ^ 64 - 2 ^ N.of_nat (S i))).
    set (bs5 := fun i => mismatch (73 + i) (long + N.of_nat i, 128 + N.of_nat i * 17, 2 ^ 64 - 2 ^ 7)).
    set (B012 := b0 || b1 || b2).
    set (B3 := existsb bs3 (seq 0 63)). set (B4 := existsb bs4 (seq 0 7)). set (B5 := existsb bs5 (seq 0 8)).
    assert (ALL : any_mismatch = b0 || (b1 || (b2 || (B3 || (B4 || B5))))).
    { unfold any_mismatch, B3, B4, B5. change (seq 0 81) with (seq 0 3 ++ seq 3 63 ++ seq 66 7 ++ seq 73 8).
      rewrite !existsb_app.
      assert (E3 : existsb (fun k => mismatch k (nth k (probes pattern long) (0, 0, 0))) (seq 3 63) = existsb bs3 (seq 0 63)).
      { change (seq 3 63) with (map (fun i => (3 + i)%nat) (seq 0 63)). rewrite existsb_map. apply existsb_ext'.
        intros i Hi. apply in_seq in Hi. unfold bs3. f_equal.
        unfold probes, short_probes. rewrite <- !app_assoc. rewrite (nth_skip _ [_; _; _]) by reflexivity.
        rewrite app_nth1 by (rewrite map_length, seq_length; lia). rewrite nth_map_seq by lia.
        replace (N.of_nat (1 + i)) with (1 + N.of_nat i) by lia.
        now replace (1 + N.of_nat i - 1) with (N.of_nat i) by lia. }
      assert (E4 : existsb (fun k => mismatch k (nth k (probes pattern long) (0, 0, 0))) (seq 66 7) = existsb bs4 (seq 0 7)).
      { change (seq 66 7) with (map (fun i => (66 + i)%nat) (seq 0 7)). rewrite existsb_map. apply existsb_ext'.
        intros i Hi. apply in_seq in Hi. unfold bs4. f_equal.
        unfold probes, short_probes. rewrite <- !app_assoc. rewrite app_assoc.
        rewrite nth_skip by (rewrite app_length, map_length, seq_length; reflexivity).
        rewrite app_nth1 by (rewrite map_length, seq_length; lia). rewrite nth_map_seq by lia.
        replace (N.of_nat (1 + i)) with (1 + N.of_nat i) by lia.
        now replace (N.of_nat (S i)) with (1 + N.of_nat i) by lia. }
      assert (E5 : existsb (fun k => mismatch k (nth k (probes pattern long) (0, 0, 0))) (seq 73 8) = existsb bs5 (seq 0 8)).
      { change (seq 73 8) with (map (fun i => (73 + i)%nat) (seq 0 8)). rewrite existsb_map. apply existsb_ext'.
        intros i Hi. apply in_seq in Hi. unfold bs5. f_equal.
        unfold probes, long_probes. rewrite nth_skip by reflexivity.
        rewrite nth_map_seq by lia. cbn [Nat.add]. now rewrite (N.mul_comm 17). }
      rewrite E3, E4, E5. cbn [seq existsb]. unfold b0, b1, b2. rewrite orb_false_r, !orb_assoc. reflexivity. }
    rewrite ALL.
    eapply yields_eq with (bad := b0 || (b1 || (b2 || (B3 || (B4 || (false || (B5 || false)))))));
      [|now rewrite orb_false_r|reflexivity].
    eapply yields_bind.
    { replace refs with (refs + 8 * N.of_nat 0) at 1 by lia. apply CY; [lia|now left]. }
    eapply yields_bind.
    { apply CY; [lia|right; now left]. }
    eapply yields_bind.
    { apply CY; [lia|right; right; now left]. }
    set (F := fun f (bs : nat -> bool) n => f || existsb bs (seq 0 n)).
    assert (FS : forall f bs n, F f bs (S n) = F f bs n || bs n).
    { intros f bs n. unfold F. replace (S n) with (n + 1)%nat by lia. rewrite seq_app, existsb_app. cbn.
      now rewrite orb_false_r, orb_assoc. }
    assert (F0 : forall f bs, F f bs 0%nat = f) by (intros; unfold F; cbn; apply orb_false_r).
    fold b0 b1 b2. cbn [orb]. fold B012.
    eapply yields_bind.
    { eapply yields_eq; [|reflexivity|reflexivity].
      change 1 with (2 ^ N.of_nat 0) at 2.
      rewrite <- (F0 B012 bs3) at 1.
      replace (refs + 8 * N.of_nat 3) with (refs + 8 * N.of_nat (3 + 0)) by reflexivity.
      apply (for_yields _ _ I0 63 1 (fun i => ((F B012 bs3 i, refs + 8 * N.of_nat (3 + i)), 2 ^ N.of_nat i)) bs3).
      intros i L. cbn [fst snd]. eapply yields_eq with (bad := bs3 i || false); [|apply orb_false_r|reflexivity].
      eapply yields_bind.
      - apply CY; [lia|]. now apply IN1.
      - fold (bs3 i). rewrite <- FS, shl_pow by exact L. apply yields_ret. }
    cbn [fst snd].
    eapply yields_bind.
    { change (not64 0) with (2 ^ 64 - 2 ^ N.of_nat 0).
      rewrite <- (F0 (F B012 bs3 63%nat) bs4).
      replace (refs + 8 * N.of_nat (3 + 63)) with (refs + 8 * N.of_nat (66 + 0)) by reflexivity.
      apply (for_yields _ _ I0 7 1 (fun i => ((F (F B012 bs3 63%nat) bs4 i, refs + 8 * N.of_nat (66 + i)), 2 ^ 64 - 2 ^ N.of_nat i)) bs4).
      intros i L. cbn [fst snd]. eapply yields_eq with (bad := bs4 i || false); [|apply orb_false_r|reflexivity].
      rewrite shl_ones by exact L. rewrite padd_small' by lia.
      eapply yields_bind.
      - apply CY; [lia|]. now apply IN2.
      - fold (bs4 i). rewrite <- FS. apply yields_ret. }
    cbn [fst snd].
    apply yields_bind with (I1 := I1) (v := tt) (bad1 := false) (bad2 := B5 || false).
    { intros m H. rewrite andb_false_r. destruct (fill_ok 512 0 m ltac:(lia)) as (m' & E & O & B).
      - rewrite N.add_0_r. now apply I0_long.
      - rewrite N.add_0_r in O, B. exists m'. split; [exact E|]. now apply I0_I1 with m. }
    eapply yields_bind.
    { rewrite <- (F0 (F (F B012 bs3 63%nat) bs4 7%nat) bs5).
      replace (refs + 8 * N.of_nat (66 + 7)) with (refs + 8 * N.of_nat (73 + 0)) by reflexivity.
      apply (for_yields _ _ I1 8 0 (fun i => (F (F (F B012 bs3 63%nat) bs4 7%nat) bs5 i, refs + 8 * N.of_nat (73 + i))) bs5).
      intros i L. rewrite N.add_0_l. rewrite padd_small' by lia. 
      rewrite (FS _ bs5 i). apply check_yields; [lia|exact I1_refs|]. apply long_ok. now apply IN3. }
    cbn [fst]. eapply yields_eq; [apply yields_ret|reflexivity|].
    unfold F. fold B3 B4 B5. unfold B012. now rewrite !orb_assoc.
  Qed.
End Yields.
