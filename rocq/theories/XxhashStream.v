(** XXH32 and XXH64 with multiple calls: what a state holds. *)
From Coq Require Import ZArith NArith Arith List Bool Lia Strings.Byte.
From Coq Require Import ZifyN ZifyNat ZifyBool.
From Verif Require Import Bytes CSem Bits Spec NBits CSemFacts OpsFacts FetchFacts CtxMem StreamFacts SelfcheckSpec HighwayFacts HighwayCat Xxhash XxhashSpec XxhashFacts.
Import ListNotations.
Ltac Zify.zify_post_hook ::= Z.div_mod_to_equations.
Local Open Scope N_scope.

Section Buffer.
  Variable (cfg : config) (k : nat) (read : N -> M N) (round round' : N -> N -> N) (more : N -> N -> bool).
  Hypothesis k_pos : (0 < k <= 8)%nat.
  Hypothesis round_eq : forall a w, round a w = round' a w.
  Hypothesis read_ok : forall m p w, bytes_at m p w -> length w = k -> p + N.of_nat k <= addr_space cfg -> True -> read p m = Ok (le_num w, m).
  Let K := N.of_nat k.
  Let B := 4 * K.

  (** the accumulators, begun as [v0], and the buffer have been fed [msg] *)
  Definition holds (v0 : accs) (msg : list byte) (v : accs) (memsize buf : N) (m : mem) : Prop :=
    v = fold_left (stripe k round') (blocks (4 * k) msg) v0 /\ memsize = mlen (rest (4 * k) msg) /\
    bytes_at m buf (rest (4 * k) msg) /\ mapped m buf (4 * k).

  (** from the test [more] on, when the buffer is empty *)
  Lemma consume_tail_ok : forall v0 msg v buf l p m len, v = fold_left (stripe k round') (blocks (4 * k) msg) v0 ->
    rest (4 * k) msg = [] -> mapped m buf (4 * k) -> bytes_at m p l -> p <> 0 -> buf <> 0 ->
    p + mlen l < addr_space cfg -> buf + B < addr_space cfg -> apart buf B p (mlen l) -> (mlen l <= len) ->
    (forall q, p <= q -> q <= p + mlen l -> more q (p + mlen l) = (q + B <=? p + mlen l)) ->
    exists v' memsize' m',
      (y <- (if more p (p + mlen l) then
               do_while (S (N.to_nat (len / B))) (four_rounds cfg K read round) (fun x => snd x <=? psub cfg (p + mlen l) B) (v, p)
             else ret (v, p)) ;;
       let '(v, q) := y in
       if q <? p + mlen l then memcpy cfg buf q (psub cfg (p + mlen l) q) ;;; ret (v, u32 (psub cfg (p + mlen l) q)) else ret (v, 0)) m
      = Ok ((v', memsize'), m') /\ holds v0 (msg ++ l) v' memsize' buf m' /\ only m m' buf B.
  Proof.
    intros v0 msg v buf l p m len V R M H P BN A A' D LE MO. pose proof (addr_space_pos cfg) as AP.
    destruct (blocks_rest_app (4 * k) msg l ltac:(lia)) as [B1 B2]. rewrite R in B1, B2. cbn [app] in B1, B2.
    assert (BB : B = N.of_nat (4 * k)) by (unfold B, K; lia). assert (B0 : B <> 0) by lia.
    assert (ML : mlen (rest (4 * k) l) = mlen l mod B) by (rewrite (mlen_rest (4 * k)) by lia; now rewrite BB).
    pose proof (N.div_mod (mlen l) B B0) as DM. pose proof (N.mod_lt (mlen l) B B0) as MLT.
    assert (HR : bytes_at m (p + B * (mlen l / B)) (rest (4 * k) l)) by (rewrite BB; apply bytes_at_rest; [lia|exact H]).
    rewrite (bind_ok _ _ _ _ m (fold_left (stripe k round') (blocks (4 * k) l) v, p + B * (mlen l / B)) m).
    - cbv beta iota. set (bd := B * (mlen l / B)) in *. set (e := mlen l mod B) in *. clearbody bd e. set (v' := fold_left (stripe k round') (blocks (4 * k) l) v).
      assert (V' : v' = fold_left (stripe k round') (blocks (4 * k) (msg ++ l)) v0).
      { unfold v'. rewrite V, B1, fold_left_app. reflexivity. }
      destruct (N.ltb_spec (p + bd) (p + mlen l)) as [X|X].
      + rewrite psub_small by lia. replace (p + mlen l - (p + bd)) with (mlen (rest (4 * k) l)) by lia.
        assert (MR : mapped m buf (length (rest (4 * k) l))).
        { intros i I. apply M. unfold mlen in ML. rewrite rest_length in I by lia.
          pose proof (Nat.mod_upper_bound (length l) (4 * k)). lia. }
        assert (E : memcpy cfg buf (p + bd) (mlen (rest (4 * k) l)) m = Ok (tt, write m buf (rest (4 * k) l))).
        { apply memcpy_ok; auto; [lia|]. right. unfold apart in D. lia. }
        ok E. assert (O : only m (write m buf (rest (4 * k) l)) buf (mlen (rest (4 * k) l))) by now apply only_write.
        set (m' := write m buf (rest (4 * k) l)) in *.
        exists v', (mlen (rest (4 * k) l)), m'. split.
        * unfold ret. rewrite u32_small by (unfold B, K in *; lia). reflexivity.
        * assert (O' : only m m' buf B) by (eapply only_weaken; [exact O|lia|lia]).
          split; [|exact O']. unfold holds. rewrite B2. split; [exact V'|]. split; [reflexivity|]. split; [apply write_bytes_at|].
          eapply only_mapped; [exact O'|exact M].
      + assert (Z : rest (4 * k) l = []) by (apply length_zero_iff_nil; unfold mlen in ML; lia).
        exists v', 0, m. split; [reflexivity|]. split; [|apply only_refl].
        unfold holds. rewrite B2, Z. split; [exact V'|]. split; [reflexivity|]. split; [apply bytes_at_nil|exact M].
    - rewrite MO by lia. destruct (N.leb_spec (p + B) (p + mlen l)) as [X|X].
      + rewrite psub_small by lia.
        rewrite (stripes_ok cfg m k read round round' (fun _ => True) ltac:(lia) round_eq (read_ok m) (fun _ _ => I) _ l v p (p + mlen l)); auto.
        * unfold mlen in X. lia.
        * assert (L2 : mlen l / B <= len / B) by (apply N.div_le_mono; lia).
          assert (L3 : N.of_nat (length l / (4 * k)) = mlen l / B) by (unfold mlen; rewrite BB; apply Nat2N.inj_div). lia.
        * intros v2 q Q1 Q2. cbn [snd]. fold K. fold B. lia.
      + rewrite blocks_nil by (unfold mlen in X; lia). rewrite N.div_small by lia. rewrite N.mul_0_r, N.add_0_r. reflexivity.
  Qed.

  Lemma update_buffer_ok : forall v0 msg v memsize buf l p m, holds v0 msg v memsize buf m -> bytes_at m p l -> p <> 0 -> buf <> 0 ->
    p + mlen l < addr_space cfg -> buf + B < addr_space cfg -> apart buf B p (mlen l) ->
    (forall q, p <= q -> q <= p + mlen l -> more q (p + mlen l) = (q + B <=? p + mlen l)) ->
    exists v' memsize' m', update_buffer cfg B K read round more buf p (mlen l) v memsize m = Ok ((v', memsize'), m') /\
      holds v0 (msg ++ l) v' memsize' buf m' /\ only m m' buf B.
  Proof.
    intros v0 msg v memsize buf l p m (V & N & HB & M) H P BN A A' D MO. unfold update_buffer. cbv zeta.
    pose proof (addr_space_pos cfg) as AP.
    assert (BB : B = N.of_nat (4 * k)) by (unfold B, K; lia). assert (B0 : B <> 0) by lia.
    assert (LR : (length (rest (4 * k) msg) < 4 * k)%nat) by (rewrite rest_length by lia; apply Nat.mod_upper_bound; lia).
    set (r := rest (4 * k) msg) in *. assert (MR : mlen r = N.of_nat (length r)) by reflexivity.
    rewrite N in *. clear N. rewrite (padd_small cfg p (mlen l)) by lia.
    destruct (blocks_rest_app (4 * k) msg l ltac:(lia)) as [B1 B2]. fold r in B1, B2.
    unfold apart in D.
    destruct (N.leb_spec (addr_space cfg) (mlen r + mlen l)) as [Y|Y]; [exfalso; lia|].
    rewrite (padd_small cfg (mlen r)) by lia.
    destruct (N.ltb_spec (mlen r + mlen l) B) as [X|X].
    - (* all of it fits into the buffer *)
      rewrite padd_small by lia.
      assert (ML : mapped m (buf + mlen r) (length l)).
      { intros i I. replace (buf + mlen r + N.of_nat i) with (buf + N.of_nat (length r + i)) by lia. apply M. unfold mlen in *. lia. }
      assert (E : memcpy cfg (buf + mlen r) p (mlen l) m = Ok (tt, write m (buf + mlen r) l)).
      { apply memcpy_ok; auto; [lia|]. right. lia. }
      ok E. assert (O : only m (write m (buf + mlen r) l) (buf + mlen r) (mlen l)) by now apply only_write.
      set (m' := write m (buf + mlen r) l) in *.
      exists v, (mlen r + mlen l), m'. split.
      + unfold ret, add32. rewrite !u32_small by (rewrite ?u32_small; unfold B, K in *; lia). reflexivity.
      + assert (O' : only m m' buf B) by (eapply only_weaken; [exact O|lia|lia]).
        split; [|exact O']. unfold holds. rewrite B1, B2.
        assert (LL : (length (r ++ l) < 4 * k)%nat) by (rewrite app_length; unfold mlen in *; lia).
        rewrite (blocks_nil _ (r ++ l)), app_nil_r, (rest_short _ (r ++ l)) by exact LL.
        split; [exact V|]. split; [unfold mlen; rewrite app_length; lia|]. split.
        * apply bytes_at_app. split; [|apply write_bytes_at]. eapply only_bytes; [exact O| |exact HB]. lia.
        * eapply only_mapped; [exact O'|exact M].
    - destruct (N.eqb_spec (mlen r) 0) as [Z|Z]; cbn [negb].
      + rewrite bind_ret. cbv beta iota. rewrite Z.
        apply consume_tail_ok; auto.
        * fold r. destruct r; [reflexivity|discriminate Z].
        * lia.
      + (* the buffer gets full *)
        assert (S32 : sub32 B (mlen r) = B - mlen r).
        { unfold sub32. rewrite (u32_small B), (u32_small (mlen r)) by (unfold B, K in *; lia).
          rewrite u32_eq. replace (B + W32 - mlen r) with (B - mlen r + 1 * 2 ^ 32) by (change (2 ^ 32) with 4294967296; lia).
          rewrite N.mod_add by discriminate. apply N.mod_small. unfold B, K in *. change (2 ^ 32) with 4294967296. lia. }
        rewrite S32. set (j := (4 * k - length r)%nat). assert (JN : B - mlen r = N.of_nat j) by (unfold j; lia). rewrite JN.
        assert (E : l = firstn j l ++ skipn j l) by (symmetry; apply firstn_skipn).
        assert (LJ : length (firstn j l) = j) by (rewrite firstn_length; unfold mlen in X; lia).
        set (l1 := firstn j l) in *. set (l2 := skipn j l) in *. clearbody l1 l2. subst l.
        assert (ML : mlen (l1 ++ l2) = N.of_nat j + mlen l2) by (unfold mlen; rewrite app_length; lia). rewrite ML in *.
        apply bytes_at_app in H. destruct H as [H1 H2]. rewrite LJ in H2.
        assert (MK : mlen l1 = N.of_nat j) by (unfold mlen; lia).
        rewrite (padd_small cfg buf) by lia.
        assert (MJ : mapped m (buf + mlen r) (length l1)).
        { intros i I. replace (buf + mlen r + N.of_nat i) with (buf + N.of_nat (length r + i)) by lia. apply M. unfold j in *. lia. }
        assert (E1 : memcpy cfg (buf + mlen r) p (N.of_nat j) m = Ok (tt, write m (buf + mlen r) l1)).
        { rewrite <- MK. apply memcpy_ok; auto; [lia|]. right. lia. }
        assert (O1 : only m (write m (buf + mlen r) l1) (buf + mlen r) (N.of_nat j)) by now apply only_write.
        assert (W1 : bytes_at (write m (buf + mlen r) l1) (buf + mlen r) l1) by apply write_bytes_at.
        set (m1 := write m (buf + mlen r) l1) in *. clearbody m1.
        assert (O1' : only m m1 buf B) by (eapply only_weaken; [exact O1|lia|lia]).
        assert (RL : length (r ++ l1) = (4 * k)%nat) by (rewrite app_length; unfold j in LJ; lia).
        assert (BF : bytes_at m1 buf (r ++ l1)).
        { apply bytes_at_app. split; [|exact W1]. eapply only_bytes; [exact O1| |exact HB]. lia. }
        rewrite bind_assoc. ok E1.
        rewrite bind_assoc.
        ok (four_rounds_ok cfg m1 k read round round' (fun _ => True) ltac:(lia) round_eq (read_ok m1) (fun _ _ => I) v buf (r ++ l1) RL BF ltac:(fold K; fold B; lia) I).
        rewrite bind_ret. cbv beta iota. cbn [fst]. rewrite (padd_small cfg p) by lia.
        replace (p + (N.of_nat j + mlen l2)) with (p + N.of_nat j + mlen l2) in * by lia.
        destruct (blocks_rest_app (4 * k) msg l1 ltac:(lia)) as [F1 F2]. fold r in F1, F2.
        assert (F3 : blocks (4 * k) (r ++ l1) = [r ++ l1] /\ rest (4 * k) (r ++ l1) = []).
        { rewrite <- (app_nil_r (r ++ l1)). rewrite blocks_app, rest_app by (lia || exact RL). rewrite blocks_nil, rest_short by (cbn; lia). now rewrite app_nil_r. }
        destruct F3 as [F3 F4]. rewrite F3 in F1. rewrite F4 in F2.
        destruct (consume_tail_ok v0 (msg ++ l1) (stripe k round' v (r ++ l1)) buf l2 (p + N.of_nat j) m1 (N.of_nat j + mlen l2)) as (v' & ms' & m' & E3 & CH & O2); auto.
        * rewrite F1, fold_left_app, <- V. reflexivity.
        * eapply only_mapped; [exact O1'|exact M].
        * eapply only_bytes; [exact O1'| |exact H2]. lia.
        * lia.
        * unfold apart. lia.
        * lia.
        * intros q Q1 Q2. apply MO; lia.
        * exists v', ms', m'. split; [exact E3|]. rewrite app_assoc. split; [exact CH|]. now apply only_trans with m1.
  Qed.
End Buffer.
