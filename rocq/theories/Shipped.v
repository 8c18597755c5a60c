(** The shipped functions pass their self-check. *)
From Coq Require Import ZArith NArith Arith List Bool Lia Strings.Byte.
From Coq Require Import ZifyN ZifyNat ZifyBool.
From Verif Require Import Bytes CSem Bits T1ha2 Spec AesSpec NBits CSemFacts FetchFacts KeyMem CtxMem T1ha2Facts StreamFacts
  OneShot OneShotFacts RefVals Dispatch DispatchFacts Selfcheck SelfcheckSpec SelfcheckFacts Recorded.
Import ListNotations.
Ltac Zify.zify_post_hook ::= Z.div_mod_to_equations.
Local Open Scope N_scope.

Lemma same_except_refl : forall qs m, same_except qs m m.
Proof. intros. split; auto. Qed.
Lemma same_except_trans : forall qs m1 m2 m3, same_except qs m1 m2 -> same_except qs m2 m3 -> same_except qs m1 m3.
Proof. intros qs m1 m2 m3 [A B] [C D]. split; [|auto]. intros a H. now rewrite C, A. Qed.
Lemma same_except_only : forall qs m m' p n, only m m' p n -> In (p, n) qs -> same_except qs m m'.
Proof. intros qs m m' p n [A B] I. split; [|exact B]. intros a H. apply A. exact (H _ I). Qed.
Lemma same_except_weaken : forall qs qs' m m', same_except qs m m' -> incl qs qs' -> same_except qs' m m'.
Proof. intros qs qs' m m' [A B] I. split; [|exact B]. intros a H. apply A. auto. Qed.
Lemma same_except_bytes : forall qs m m' p l, same_except qs m m' -> bytes_at m p l ->
  (forall q, In q qs -> apart p (mlen l) (fst q) (snd q)) -> bytes_at m' p l.
Proof.
  intros qs m m' p l [A _] B D i x H. assert (i < length l)%nat by (apply nth_error_Some; congruence).
  rewrite A; [now apply B|]. intros q I. specialize (D q I). unfold apart, mlen in D. lia.
Qed.
Lemma same_except_mapped : forall qs m m' p n, same_except qs m m' -> mapped m p n -> mapped m' p n.
Proof. intros qs m m' p n [_ B] H i L. apply B. now apply H. Qed.
Lemma same_except_rounded : forall qs cfg m m' p n, same_except qs m m' -> page_rounded cfg m p n -> page_rounded cfg m' p n.
Proof. intros qs cfg m m' p n [_ B] H i a L E. apply B. eapply H; eauto. Qed.

Lemma page_rounded_sub : forall cfg m p n i k, page_rounded cfg m p n -> i + k <= n -> page_rounded cfg m (p + i) k.
Proof. intros cfg m p n i k H L j a J E. apply (H (i + j)); [lia|]. now rewrite N.add_assoc. Qed.

Lemma refs_at_except : forall qs cfg m m' refs rs, same_except qs m m' -> refs_at cfg refs rs m ->
  (forall q, In q qs -> apart refs 648 (fst q) (snd q)) -> refs_at cfg refs rs m'.
Proof.
  intros qs cfg m m' refs rs S R D k K. eapply same_except_bytes; [exact S|now apply R|].
  intros q I. specialize (D q I). unfold apart, mlen in *. rewrite native_length. lia.
Qed.

Lemma image_step : forall b v m m', image_ok b v m -> same_except (locals b v) m m' -> image_ok b v m'.
Proof.
  intros b v m m' [] S. constructor; auto.
  - eapply same_except_bytes; eauto.
  - intros f F. eapply refs_at_except; eauto.
  - intro F. destruct (im_pages F) as (P & Q & R). eauto using same_except_rounded.
  - eauto using same_except_mapped.
  - destruct im_unused as (U & ?). eauto using same_except_mapped.
  - destruct im_ctx as ((C1 & C2 & C3) & ?). split; [|assumption]. repeat split; eauto using same_except_mapped.
  - destruct im_bits as (B & ?). eauto using same_except_mapped.
Qed.

Lemma recorded_length : forall f, length (recorded f) = 81%nat.
Proof. intro f. rewrite <- recorded_ok. unfold expectations. now rewrite map_length. Qed.
Lemma recorded_lt : forall f r, In r (recorded f) -> r < 2 ^ 64.
Proof.
  intros f r H. assert (A : forall l, forallb (fun x => x <? 2 ^ 64) l = true -> In r l -> r < 2 ^ 64).
  { intros l F I. rewrite forallb_forall in F. specialize (F r I). apply N.ltb_lt. exact F. }
  destruct f as [[]| | |]; (eapply A; [|exact H]; vm_compute; reflexivity).
Qed.

Section Shipped.
  Variables (b : build) (c : cpu) (v : frame).
  Local Notation cfg := (base b).

  (** a message that is in the pattern or the long array, or empty *)
  Definition operand (m : mem) (d : N) (msg : list byte) : Prop :=
    (d = 0 /\ msg = []) \/
    (key_at cfg m d msg /\ 127 <= d /\ d + mlen msg + 112 < addr_space cfg /\ mlen msg <= 512 /\
     forall q, In q (scratch b v) -> apart d (mlen msg) (fst q) (snd q)).

  Lemma scratch_apart : forall m, image_ok b v m ->
    apart (v_unused v) 8 (v_ctx v) (sizeof_ctx cfg) /\ apart (v_ctx v) (sizeof_ctx cfg) (v_bits v) 8 /\
    apart (v_unused v) 8 (v_bits v) 8.
  Proof.
    intros m I. pose proof (im_apart_locals _ _ _ I) as F. unfold locals, scratch in F.
    inversion F as [|? ? _ F1]; subst. inversion F1 as [|? ? A F2]; subst. inversion F2 as [|? ? B _]; subst.
    inversion A as [|? ? A1 A2]; subst. inversion A2; subst. inversion B; subst. cbn [fst snd] in *. auto.
  Qed.

  Lemma shipped_ok : forall f m d msg seed, image_ok b v m -> operand m d msg -> seed < 2 ^ 64 -> runnable b c f ->
    exists m', shipped b c v f d (mlen msg) seed m = Ok (expected f msg seed, m') /\ same_except (scratch b v) m m'.
  Proof.
    intros f m d msg seed I O S R. destruct (scratch_apart m I) as (AUC & ACB & AUB).
    destruct (im_ctx _ _ _ I) as (CM & CP). destruct (im_unused _ _ _ I) as (UM & UN & UA).
    destruct (im_bits _ _ _ I) as (BM & BN & BA & BS). 
    assert (STREAM : exists m1 m2, t1ha2_init cfg (v_ctx v) seed seed m = Ok (tt, m1) /\
              t1ha2_update cfg (v_ctx v) d (mlen msg) m1 = Ok (tt, m2) /\
              in_progress cfg m2 (v_ctx v) seed seed msg /\ only m m2 (v_ctx v) (sizeof_ctx cfg)).
    { destruct (t1ha2_init_ok cfg (v_ctx v) CP m seed seed CM S S) as (m1 & E1 & P1 & O1).
      assert (BK : bytes_at m1 d msg).
      { destruct O as [[-> ->]|(K & _ & _ & _ & AP)]; [apply bytes_at_nil|].
        eapply only_bytes; [exact O1| |exact (proj1 K)].
        specialize (AP (v_ctx v, sizeof_ctx cfg) ltac:(right; left; reflexivity)). unfold apart in AP. cbn [fst snd] in AP. lia. }
      destruct (t1ha2_update_ok cfg (v_ctx v) CP m1 seed seed [] d msg P1 S S BK) as (m2 & E2 & P2 & O2).
      - destruct O as [[-> ->]|(K & _)]; [pose proof (addr_space_pos cfg); unfold mlen; cbn [length]; lia|exact (proj1 (proj2 K))].
      - destruct O as [[-> ->]|(K & L & _)]; [right; auto|left; lia].
      - destruct O as [[-> ->]|(K & _ & _ & _ & AP)]; [left; reflexivity|right].
        specialize (AP (v_ctx v, sizeof_ctx cfg) ltac:(right; left; reflexivity)). unfold apart in AP. cbn [fst snd] in AP. lia.
      - exists m1, m2. split; [exact E1|]. split; [exact E2|]. split; [exact P2|]. eapply only_trans; eauto. }
    assert (FR : forall m2 extra, only m m2 (v_ctx v) (sizeof_ctx cfg) -> extra = 0 \/ extra = v_unused v ->
              final_ready cfg (v_ctx v) m2 (v_bits v) extra).
    { intros m2 extra O2 EX. unfold apart in *. split; [exact BN|]. split; [eapply only_mapped; eauto|]. split; [exact BA|].
      split; [exact BS|]. split; [lia|]. intro NZ. destruct EX as [->| ->]; [now exfalso|].
      split; [eapply only_mapped; eauto|]. split; [exact UA|lia]. }
    assert (FF : forall m2 m3 extra, only m m2 (v_ctx v) (sizeof_ctx cfg) -> extra = 0 \/ extra = v_unused v ->
              final_frame cfg (v_ctx v) m2 m3 (v_bits v) extra -> same_except (scratch b v) m m3).
    { intros m2 m3 extra O2 EX [F1 F2]. apply same_except_trans with m2.
      - eapply same_except_only; [exact O2|right; left; reflexivity].
      - split; [|exact F2]. intros a H. unfold scratch in H.
        pose proof (H (v_unused v, 8) ltac:(left; reflexivity)) as H1.
        pose proof (H (v_ctx v, sizeof_ctx cfg) ltac:(right; left; reflexivity)) as H2.
        pose proof (H (v_bits v, 8) ltac:(right; right; left; reflexivity)) as H3. cbn [fst snd] in *.
        apply F1; auto. destruct EX as [->| ->]; auto. }
    destruct f as [f| | |]; cbn [shipped expected runnable] in *.
    - destruct R as (U & X). unfold exec. rewrite X. exists m. split; [|apply same_except_refl].
      destruct O as [[-> ->]|(K & L & H & LM & _)].
      + now apply call_empty.
      + apply call_ok; auto. destruct f; cbn [room]; auto; lia.
    - exists (write m (v_unused v) (native cfg 8 (snd (t1ha2_128 msg seed)))). split.
      + destruct O as [[-> ->]|(K & L & H & LM & AP)].
        * now apply atonce128_empty.
        * apply t1ha2_atonce128_ok; auto.
          specialize (AP (v_unused v, 8) ltac:(left; reflexivity)). unfold apart in AP. cbn [fst snd] in AP. lia.
      + eapply same_except_only; [apply only_write; reflexivity|]. left. unfold mlen. now rewrite native_length.
    - destruct STREAM as (m1 & m2 & E1 & E2 & P2 & O2).
      destruct (t1ha2_final64_ok cfg (v_ctx v) CP m2 seed seed msg (v_bits v) P2 S S (FR m2 0 O2 (or_introl eq_refl)))
        as (m3 & E3 & _ & F3).
      exists m3. split; [|exact (FF m2 m3 0 O2 (or_introl eq_refl) F3)]. ok E1. ok E2. exact E3.
    - destruct STREAM as (m1 & m2 & E1 & E2 & P2 & O2).
      destruct (t1ha2_final128_ok cfg (v_ctx v) CP m2 seed seed msg (v_bits v) (v_unused v) UN P2 S S
                  (FR m2 _ O2 (or_intror eq_refl))) as (m3 & E3 & _ & _ & F3).
      exists m3. split; [|exact (FF m2 m3 _ O2 (or_intror eq_refl) F3)]. ok E1. ok E2. exact E3.
  Qed.

  (** ** The probes as operands *)
  Definition message_of (d l : N) : list byte :=
    if d =? 0 then []
    else if (v_pattern v <=? d) && (d <? v_pattern v + 64) then firstn (N.to_nat l) (skipn (N.to_nat (d - v_pattern v)) t1ha_test_pattern)
    else firstn (N.to_nat l) (skipn (N.to_nat (d - v_long v)) pattern_long).
  Definition answer (f : probe_fn) (p : N * N * N) : N :=
    let '(d, l, s) := p in expected f (message_of d l) s.

  Lemma message_pattern : forall i l, 127 <= v_pattern v -> (i < 64)%nat ->
    message_of (v_pattern v + N.of_nat i) l = firstn (N.to_nat l) (skipn i t1ha_test_pattern).
  Proof.
    intros i l L H. unfold message_of. replace (v_pattern v + N.of_nat i =? 0) with false by lia.
    replace ((v_pattern v <=? v_pattern v + N.of_nat i) && (v_pattern v + N.of_nat i <? v_pattern v + 64)) with true by lia.
    now replace (N.to_nat (v_pattern v + N.of_nat i - v_pattern v)) with i by lia.
  Qed.
  Lemma message_pattern0 : forall l, 127 <= v_pattern v -> message_of (v_pattern v) l = firstn (N.to_nat l) t1ha_test_pattern.
  Proof.
    intros l L. replace (v_pattern v) with (v_pattern v + N.of_nat 0) at 1 by lia. now rewrite message_pattern by lia.
  Qed.
  Lemma message_long : forall m i l, image_ok b v m -> (i < 512)%nat ->
    message_of (v_long v + N.of_nat i) l = firstn (N.to_nat l) (skipn i pattern_long).
  Proof.
    intros m i l I H. unfold message_of. pose proof (im_place _ _ _ I) as PL.
    replace (v_long v + N.of_nat i =? 0) with false by lia.
    pose proof (im_apart_pattern _ _ _ I (v_long v, 512) ltac:(left; reflexivity)) as A. unfold apart in A. cbn [fst snd] in A.
    replace ((v_pattern v <=? v_long v + N.of_nat i) && (v_long v + N.of_nat i <? v_pattern v + 64)) with false by lia.
    now replace (N.to_nat (v_long v + N.of_nat i - v_long v)) with i by lia.
  Qed.

  Lemma answers : forall f m, image_ok b v m -> map (answer f) (probes (v_pattern v) (v_long v)) = recorded f.
  Proof.
    intros f m I. rewrite <- recorded_ok. unfold expectations, probes, messages. rewrite !map_app. f_equal.
    - unfold short_probes, short_messages. rewrite !map_app, !map_map. pose proof (im_place _ _ _ I) as (PL & _). f_equal.
      + cbn [map answer fst snd]. now rewrite message_pattern0 by exact PL.
      + f_equal.
        * apply map_ext_in. intros i H. apply in_seq in H. cbn [answer fst snd].
          rewrite message_pattern0 by exact PL. now rewrite Nat2N.id.
        * apply map_ext_in. intros i H. apply in_seq in H. cbn [answer fst snd].
          rewrite message_pattern by lia. f_equal. apply firstn_all2. rewrite skipn_length.
          change (length t1ha_test_pattern) with 64%nat. lia.
    - unfold long_probes, long_messages. rewrite !map_map. apply map_ext_in. intros i H. apply in_seq in H. cbn [answer fst snd].
      rewrite (message_long m) by (exact I || lia). f_equal. f_equal. lia.
  Qed.

  Lemma short_operand : forall m d l s, image_ok b v m -> In (d, l, s) (short_probes (v_pattern v)) ->
    operand m d (message_of d l) /\ mlen (message_of d l) = l /\ s < 2 ^ 64.
  Proof.
    intros m d l s I H. pose proof (im_place _ _ _ I) as (PL & PH & _).
    assert (G : forall i k, (i + k <= 64)%nat -> (i < 64)%nat -> d = v_pattern v + N.of_nat i -> l = N.of_nat k ->
      operand m d (message_of d l) /\ mlen (message_of d l) = l).
    { intros i k L L2 -> ->. rewrite message_pattern by lia. rewrite Nat2N.id.
      assert (LEN : mlen (firstn k (skipn i t1ha_test_pattern)) = N.of_nat k).
      { unfold mlen. rewrite firstn_length, skipn_length. change (length t1ha_test_pattern) with 64%nat. lia. }
      split; [|exact LEN]. right. rewrite LEN. split; [|split; [lia|split; [lia|split; [lia|]]]].
      - split; [|split].
        + apply bytes_at_firstn, bytes_at_skipn; [exact (im_pattern _ _ _ I)|change (length t1ha_test_pattern) with 64%nat; lia].
        + rewrite LEN. lia.
        + intro F. destruct (im_pages _ _ _ I F) as (P & Q & _). split; [exact P|]. rewrite LEN.
          eapply page_rounded_sub; [exact Q|lia].
      - intros q IQ. pose proof (im_apart_pattern _ _ _ I q (or_intror IQ)) as A. unfold apart in *. lia. }
    unfold short_probes in H. rewrite !in_app_iff in H. destruct H as [H|[H|H]].
    - cbn [In] in H. destruct H as [H|[H|[H|[]]]]; injection H as <- <- <-.
      + split; [left; split; reflexivity|]. split; reflexivity.
      + split; [left; split; reflexivity|]. split; reflexivity.
      + destruct (G 0%nat 64%nat ltac:(lia) ltac:(lia) ltac:(lia) eq_refl). split; [assumption|]. split; [assumption|reflexivity].
    - apply in_map_iff in H. destruct H as (i & E & H). apply in_seq in H. pose proof (f_equal (fun x => fst (fst x)) E) as E1; pose proof (f_equal (fun x => snd (fst x)) E) as E2;
      pose proof (f_equal snd E) as E3; cbn [fst snd] in E1, E2, E3; clear E; subst d l s.
      destruct (G 0%nat i ltac:(lia) ltac:(lia) ltac:(lia) eq_refl). repeat split; auto. apply N.pow_lt_mono_r; lia.
    - apply in_map_iff in H. destruct H as (i & E & H). apply in_seq in H. pose proof (f_equal (fun x => fst (fst x)) E) as E1; pose proof (f_equal (fun x => snd (fst x)) E) as E2;
      pose proof (f_equal snd E) as E3; cbn [fst snd] in E1, E2, E3; clear E; subst d l s.
      destruct (G i (64 - i)%nat ltac:(lia) ltac:(lia) eq_refl ltac:(lia)). repeat split; auto.
      assert (0 < 2 ^ N.of_nat i) by (apply N.neq_0_lt_0, N.pow_nonzero; discriminate).
      set (x := 2 ^ N.of_nat i) in *. clearbody x. lia.
  Qed.
  Lemma long_operand : forall m d l s, image_ok b v m -> bytes_at m (v_long v) pattern_long ->
    In (d, l, s) (long_probes (v_long v)) ->
    operand m d (message_of d l) /\ mlen (message_of d l) = l /\ s < 2 ^ 64.
  Proof.
    intros m d l s I B H. pose proof (im_place _ _ _ I) as (_ & _ & PL & PH). 
    unfold long_probes in H. apply in_map_iff in H. destruct H as (i & E & H). apply in_seq in H. pose proof (f_equal (fun x => fst (fst x)) E) as E1; pose proof (f_equal (fun x => snd (fst x)) E) as E2;
      pose proof (f_equal snd E) as E3; cbn [fst snd] in E1, E2, E3; clear E; subst d l s.
    rewrite (message_long m) by (exact I || lia).
    replace (128 + 17 * N.of_nat i) with (N.of_nat (128 + 17 * i)) by lia. rewrite Nat2N.id.
    set (k := (128 + 17 * i)%nat).
    assert (LEN : mlen (firstn k (skipn i pattern_long)) = N.of_nat k).
    { unfold mlen. rewrite firstn_length, skipn_length. change (length pattern_long) with 512%nat. lia. }
    split; [|split; [exact LEN|reflexivity]]. right. rewrite LEN.
    split; [|split; [lia|split; [lia|split; [lia|]]]].
    - split; [|split].
      + apply bytes_at_firstn, bytes_at_skipn; [exact B|change (length pattern_long) with 512%nat; lia].
      + rewrite LEN. lia.
      + intro F. destruct (im_pages _ _ _ I F) as (P & _ & Q). split; [exact P|]. rewrite LEN.
        eapply page_rounded_sub; [exact Q|lia].
    - intros q IQ. pose proof (im_apart_locals _ _ _ I) as F. inversion F as [|? ? A _]; subst.
      rewrite Forall_forall in A. specialize (A q IQ). unfold apart in *. cbn [fst snd] in A. lia.
  Qed.

  Lemma scratch_locals : incl (scratch b v) (locals b v).
  Proof. intros q H. now right. Qed.
  Lemma long_apart_scratch : forall m q, image_ok b v m -> In q (scratch b v) -> apart (v_long v) 512 (fst q) (snd q).
  Proof.
    intros m q I IQ. pose proof (im_apart_locals _ _ _ I) as F. inversion F as [|? ? A _]; subst.
    rewrite Forall_forall in A. exact (A q IQ).
  Qed.

  Lemma answers_no_mismatch : forall f m, image_ok b v m -> any_mismatch (v_pattern v) (v_long v) (recorded f) (answer f) = false.
  Proof.
    intros f m I. unfold any_mismatch. destruct (existsb _ _) eqn:E; [|reflexivity].
    apply existsb_exists in E. destruct E as (k & K & N1). apply in_seq in K. exfalso. unfold mismatch in N1.
    rewrite <- (answers f m I) in N1.
    rewrite nth_indep with (d' := answer f (0, 0, 0)) in N1 by (rewrite map_length; cbn; lia).
    rewrite map_nth, N.eqb_refl in N1. discriminate.
  Qed.

  (** each self-check function *)
  Theorem check_fn_ok : forall f m, image_ok b v m -> in_build b f = true -> runnable b c f ->
    exists m', check_fn b v (shipped b c v) f m = Ok (0%Z, m') /\ image_ok b v m' /\ same_except (locals b v) m m'.
  Proof.
    intros f m I BF R. set (J := fun m' => image_ok b v m' /\ same_except (locals b v) m m').
    assert (STEP : forall m1 m2, J m1 -> same_except (locals b v) m1 m2 -> J m2).
    { intros m1 m2 (I1 & S1) S2. split; [eapply image_step; eauto|eapply same_except_trans; eauto]. }
    destruct (im_refs_al _ _ _ I f BF) as (AL & RR).
    pose proof (im_place _ _ _ I) as (_ & PH & _ & LH).
    pose proof (selfcheck_yields cfg (v_pattern v) (v_long v) (v_refs v f) (recorded f) (shipped b c v f) (answer f)
      (recorded_length f) (recorded_lt f) AL RR ltac:(lia) ltac:(lia)
      J (fun m' => J m' /\ bytes_at m' (v_long v) pattern_long)) as Y.
    unfold yields in Y. rewrite (answers_no_mismatch f m I), andb_false_r in Y.
    destruct (Y) with (m := m) as (m' & E & J' & _).
    - intros m1 (I1 & _). now apply (im_refs _ _ _ I1).
    - intros m1 ((I1 & _) & _). now apply (im_refs _ _ _ I1).
    - intros m1 (I1 & _). apply (im_long _ _ _ I1).
    - intros m1 m2 J1 O B. split; [|exact B]. eapply STEP; [exact J1|].
      eapply same_except_only; [exact O|now left].
    - intros d l s IN m1 J1. destruct (short_operand m1 d l s (proj1 J1) IN) as (OP & LN & SL).
      destruct (shipped_ok f m1 d (message_of d l) s (proj1 J1) OP SL R) as (m2 & E & SE).
      rewrite LN in E. exists m2. split; [exact E|]. eapply STEP; [exact J1|]. eapply same_except_weaken; [exact SE|apply scratch_locals].
    - intros d l s IN m1 (J1 & B1). destruct (long_operand m1 d l s (proj1 J1) B1 IN) as (OP & LN & SL).
      destruct (shipped_ok f m1 d (message_of d l) s (proj1 J1) OP SL R) as (m2 & E & SE).
      rewrite LN in E. exists m2. split; [exact E|]. split.
      + eapply STEP; [exact J1|]. eapply same_except_weaken; [exact SE|apply scratch_locals].
      + eapply same_except_bytes; [exact SE|exact B1|]. intros q IQ. exact (long_apart_scratch m1 q (proj1 J1) IQ).
    - split; [exact I|apply same_except_refl].
    - exists m'. split; [exact E|]. exact J'.
  Qed.

  (** ** The combinations *)
  Definition passes (X : M Z) : Prop :=
    forall m, image_ok b v m -> exists m', X m = Ok (0%Z, m') /\ image_ok b v m' /\ same_except (locals b v) m m'.
  Lemma passes_ret : passes (ret 0%Z).
  Proof. intros m I. exists m. split; [reflexivity|]. split; [exact I|apply same_except_refl]. Qed.
  Lemma passes_or : forall X Y, passes X -> passes Y -> passes (or_ X Y).
  Proof.
    intros X Y PX PY m I. destruct (PX m I) as (m1 & E1 & I1 & S1). destruct (PY m1 I1) as (m2 & E2 & I2 & S2).
    exists m2. split; [|split; [exact I2|eapply same_except_trans; eauto]].
    unfold or_. ok E1. ok E2. reflexivity.
  Qed.
  Lemma passes_bind : forall X (k : Z -> M Z), passes X -> passes (k 0%Z) -> passes (bind X k).
  Proof.
    intros X k PX PK m I. destruct (PX m I) as (m1 & E1 & I1 & S1). destruct (PK m1 I1) as (m2 & E2 & I2 & S2).
    exists m2. split; [|split; [exact I2|eapply same_except_trans; eauto]]. ok E1. exact E2.
  Qed.
  Lemma passes_fn : forall f, in_build b f = true -> runnable b c f -> passes (check_fn b v (shipped b c v) f).
  Proof. intros f F R m I. now apply check_fn_ok. Qed.

  Hypothesis WW : whole_words_ok cfg.
  Hypothesis BT : t1ha1_disabled b = false -> be_tail_builds cfg.
  Hypothesis AV : has_osxsave c = true -> N.testbit (xcr0 c) 1 = true /\ N.testbit (xcr0 c) 2 = true.
  Hypothesis AE : aesni_available b = true -> e2k b = true \/ ia32 cfg = true.

  Lemma passes_t1ha2 : t1ha2_disabled b = false -> passes (selfcheck_t1ha2 b v (shipped b c v)).
  Proof.
    intro D. unfold selfcheck_t1ha2, selfcheck_t1ha2_atonce, selfcheck_t1ha2_atonce128, selfcheck_t1ha2_stream.
    repeat apply passes_or; apply passes_fn; cbn [in_build runnable]; rewrite ?D; auto.
    split; [exact WW|]. cbn. apply orb_true_r.
  Qed.
  Lemma passes_t1ha1 : t1ha1_disabled b = false -> passes (selfcheck_t1ha1 b v (shipped b c v)).
  Proof.
    intro D. unfold selfcheck_t1ha1, selfcheck_t1ha1_le, selfcheck_t1ha1_be.
    apply passes_or; apply passes_fn; cbn [in_build runnable]; rewrite ?D; auto.
    - split; [exact WW|]. cbn. apply orb_true_r.
    - split; [split; [exact WW|exact (BT D)]|]. cbn. apply orb_true_r.
  Qed.

  Lemma passes_t1ha0 : t1ha0_disabled b = false -> passes (selfcheck_t1ha0 b c v (shipped b c v)).
  Proof.
    intro D. pose proof passes_t1ha1 as P1. pose proof passes_t1ha2 as P2. unfold selfcheck_t1ha0, selfcheck_t1ha0_32le, selfcheck_t1ha0_32be, selfcheck_t1ha0_noavx,
      selfcheck_t1ha0_avx, selfcheck_t1ha0_avx2.
    apply passes_bind.
    { apply passes_or; apply passes_fn; cbn [in_build runnable]; rewrite ?D; auto; split; cbn; auto using orb_true_r. }
    apply passes_bind.
    { destruct (wide (base b) && _) eqn:W; [|apply passes_ret].
      destruct (t1ha1_disabled b) eqn:D1; (apply passes_or; [apply passes_ret|]).
      - apply P2. destruct (t1ha2_disabled b); [|reflexivity]. rewrite andb_false_r in W. discriminate.
      - now apply P1. }
    destruct (aesni_available b) eqn:A; [|apply passes_ret].
    assert (FN : forall f, in_build b (Fn f) = true -> usable f (base b) -> e2k b || executes c f = true ->
               passes (check_fn b v (shipped b c v) (Fn f))).
    { intros f F U X. apply passes_fn; [exact F|]. split; assumption. }
    destruct (e2k b) eqn:E.
    { apply passes_bind; (apply passes_or; [apply passes_ret|]); apply FN; cbn [in_build usable]; rewrite ?D, ?A; auto. }
    destruct (AE eq_refl) as [|IA]; [discriminate|]. rewrite IA. cbv zeta.
    rewrite aesni_avail_eq. destruct (has_aes c) eqn:HA; [|apply passes_ret].
    apply passes_bind.
    { apply passes_or; [apply passes_ret|]. apply FN; cbn [in_build usable executes]; rewrite ?D, ?A; auto. }
    rewrite avx_avail_eq, HA. destruct (has_osxsave c) eqn:HO; cbn [andb]; [|apply passes_ret].
    destruct (has_avx c) eqn:HV; [|apply passes_ret]. destruct (AV eq_refl) as (X1 & X2).
    apply passes_bind.
    { apply passes_or; [apply passes_ret|]. apply FN; cbn [in_build usable executes]; rewrite ?D, ?A; auto.
      unfold avx_enabled. now rewrite HA, HV, HO, X1, X2. }
    rewrite avx2_avail_eq. destruct (has_avx2 c) eqn:H2; [|apply passes_ret].
    apply passes_or; [apply passes_ret|]. apply FN; cbn [in_build usable executes]; rewrite ?D, ?A, ?E; auto.
    unfold avx_enabled. now rewrite HA, HV, H2, HO, X1, X2.
  Qed.

  Theorem selfcheck_all_ok : passes (selfcheck_all_enabled b c v (shipped b c v)).
  Proof.
    pose proof passes_t1ha0 as P0. pose proof passes_t1ha1 as P1. pose proof passes_t1ha2 as P2.
    unfold selfcheck_all_enabled. apply passes_bind; [|apply passes_bind].
    - destruct (t1ha2_disabled b) eqn:D; [apply passes_ret|]. apply passes_or; [apply passes_ret|now apply P2].
    - destruct (t1ha1_disabled b) eqn:D; [apply passes_ret|]. apply passes_or; [apply passes_ret|now apply P1].
    - destruct (t1ha0_disabled b) eqn:D; [apply passes_ret|]. apply passes_or; [apply passes_ret|now apply P0].
  Qed.
End Shipped.
