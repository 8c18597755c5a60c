(** HighwayHash with multiple calls: what a HighwayHashCat holds. *)
From Coq Require Import ZArith NArith Arith List Bool Lia Strings.Byte.
From Coq Require Import ZifyN ZifyNat ZifyBool.
From Verif Require Import Bytes CSem Bits Spec NBits CSemFacts OpsFacts FetchFacts CtxMem StreamFacts SelfcheckSpec T1ha2 Highway HighwaySpec HighwayFacts.
Import ListNotations.
Ltac Zify.zify_post_hook ::= Z.div_mod_to_equations.
Local Open Scope N_scope.

Lemma bind_assoc : forall A B C (X : M A) (f : A -> M B) (g : B -> M C) m, bind (bind X f) g m = bind X (fun a => bind (f a) g) m.
Proof. intros. unfold bind. now destruct (X m) as [[a m']| | | | |]. Qed.

Section Copy.
  Variable cfg : config.
  Lemma copy_each_ok : forall l dst src m, bytes_at m src l -> mapped m dst (length l) -> apart dst (mlen l) src (mlen l) ->
    dst + mlen l < addr_space cfg -> src + mlen l < addr_space cfg ->
    exists m', copy_each cfg (length l) dst src m = Ok (tt, m') /\ bytes_at m' dst l /\ only m m' dst (mlen l).
  Proof.
    induction l as [|x l IH]; intros dst src m H M A D SA.
    - exists m. split; [reflexivity|]. split; [apply bytes_at_nil|apply only_refl].
    - assert (ML : mlen (x :: l) = 1 + mlen l) by (unfold mlen; cbn [length]; lia). rewrite ML in *.
      cbn [length copy_each]. apply bytes_at_cons in H. destruct H as [H0 H].
      ok (load8_ok m src x H0).
      assert (M1 : mapped m dst (length [x])) by (intros i Hi; apply M; cbn [length] in *; lia).
      rewrite (bind_ok _ _ _ _ _ _ _ (store_bytes_ok _ _ _ M1)).
      assert (O1 : only m (write m dst [x]) dst 1) by now apply only_write.
      unfold apart in A. rewrite !padd_small by lia.
      destruct (IH (dst + 1) (src + 1) (write m dst [x])) as (m' & E & B & O).
      + eapply only_bytes; [exact O1| |exact H]. lia.
      + eapply only_mapped; [exact O1|]. intros i Hi. replace (dst + 1 + N.of_nat i) with (dst + N.of_nat (S i)) by lia. apply M. cbn [length]. lia.
      + unfold apart. lia.
      + lia.
      + lia.
      + exists m'. split; [exact E|]. split.
        * apply bytes_at_cons. split; [|exact B]. destruct O as [O _]. rewrite O by lia.
          pose proof (write_bytes_at m dst [x] 0%nat _ eq_refl) as W. now rewrite N.add_0_r in W.
        * apply only_trans with (write m dst [x]); (eapply only_weaken; [eassumption|lia|lia]).
  Qed.

  (** [cat] with [packet] at that address has been started with [key] and been fed [msg] *)
  Definition cat_holds (key : N * N * N * N) (packet : N) (cat : HighwayHashCat) (msg : list byte) (m : mem) : Prop :=
    conv (cat_state cat) = fold_left hh_packet (blocks 32 msg) (hh_init key) /\ good (conv (cat_state cat)) /\
    cat_num cat = mlen (rest 32 msg) /\ bytes_at m packet (rest 32 msg) /\ mapped m packet 32.

  Lemma append_loop_ok : forall fuel l p st m, bytes_at m p l -> p + mlen l < addr_space cfg -> (length l / 32 < fuel)%nat -> good (conv st) ->
    exists st', CatAppend_loop fuel cfg p (mlen l) st m = Ok ((p + 32 * (mlen l / 32), mlen (rest 32 l), st'), m) /\
      conv st' = fold_left hh_packet (blocks 32 l) (conv st) /\ good (conv st').
  Proof.
    induction fuel as [|fuel IH]; intros l p st m H A F G; [lia|]. cbn [CatAppend_loop].
    destruct (Nat.le_gt_cases 32 (length l)) as [C|C].
    - assert (E : l = firstn 32 l ++ skipn 32 l) by (symmetry; apply firstn_skipn).
      assert (L1 : length (firstn 32 l) = 32%nat) by (rewrite firstn_length; lia).
      set (b := firstn 32 l) in *. set (r := skipn 32 l) in *. clearbody b r. subst l.
      assert (ML : mlen (b ++ r) = 32 + mlen r) by (unfold mlen; rewrite app_length; lia). rewrite ML in *.
      destruct (N.leb_spec 32 (32 + mlen r)) as [_|X]; [|lia].
      apply bytes_at_app in H. destruct H as [H1 H2]. rewrite L1 in H2.
      destruct (packet_ok cfg m p b st L1 H1 ltac:(lia) G) as (st1 & E1 & C1 & G1). ok E1.
      rewrite padd_small, psub_small by lia. replace (32 + mlen r - 32) with (mlen r) by lia.
      destruct (IH r (p + 32) st1 m H2 ltac:(lia)) as (st2 & E2 & C2 & G2); [|exact G1|].
      { rewrite app_length, L1, div_plus_one in F by discriminate. lia. }
      exists st2. rewrite E2. rewrite rest_app, blocks_app by (discriminate || exact L1). cbn [fold_left]. rewrite <- C1.
      split; [|exact (conj C2 G2)]. replace (32 * ((32 + mlen r) / 32)) with (32 + 32 * (mlen r / 32)) by lia. now rewrite N.add_assoc.
    - exists st. destruct (N.leb_spec 32 (mlen l)) as [X|_]; [unfold mlen in X; lia|].
      rewrite blocks_nil, rest_short by exact C. cbn [fold_left]. split; [|exact (conj eq_refl G)].
      replace (mlen l / 32) with 0 by (unfold mlen; lia). rewrite N.mul_0_r, N.add_0_r. reflexivity.
  Qed.

  Lemma start_holds : forall key packet m, good_quad key -> mapped m packet 32 -> cat_holds key packet (HighwayHashCatStart_pure_c key) [] m.
  Proof.
    intros key packet m K M. destruct (reset_ok key K) as [R G]. repeat split; cbn [cat_state cat_num HighwayHashCatStart_pure_c].
    - exact R.
    - rewrite R. exact G.
    - apply bytes_at_nil.
    - exact M.
  Qed.

  (** the second part of an append, when no bytes are held back *)
  Lemma append_tail_ok : forall key packet st msg l p m,
    conv st = fold_left hh_packet (blocks 32 msg) (hh_init key) -> good (conv st) -> rest 32 msg = [] -> mapped m packet 32 ->
    bytes_at m p l -> p + mlen l < addr_space cfg -> packet + 32 < addr_space cfg -> apart packet 32 p (mlen l) ->
    exists cat' m', (y <- CatAppend_loop (S (N.to_nat (mlen l / 32))) cfg p (mlen l) st ;;
       let '(bytes, num, state) := y in
       copy_each cfg (N.to_nat num) (padd cfg packet 0) bytes ;;; ret (HHC state (padd cfg 0 num))) m = Ok (cat', m') /\
      cat_holds key packet cat' (msg ++ l) m' /\ only m m' packet 32.
  Proof.
    intros key packet st msg l p m C G R M H A A' D. pose proof (addr_space_pos cfg) as AS.
    destruct (append_loop_ok (S (N.to_nat (mlen l / 32))) l p st m H A ltac:(unfold mlen; lia) G) as (st1 & E1 & C1 & G1). ok E1.
    destruct (blocks_rest_app 32 msg l ltac:(discriminate)) as [B1 B2]. rewrite R in B1, B2. cbn [app] in B1, B2.
    assert (LR : length (rest 32 l) = (length l mod 32)%nat) by now apply rest_length.
    assert (HR : bytes_at m (p + 32 * (mlen l / 32)) (rest 32 l)).
    { unfold rest. replace (32 * (mlen l / 32)) with (N.of_nat (32 * (length l / 32))) by (unfold mlen; lia). apply bytes_at_skipn; [exact H|lia]. }
    rewrite !padd_small by (unfold mlen in *; lia). rewrite N.add_0_r, N.add_0_l.
    replace (N.to_nat (mlen (rest 32 l))) with (length (rest 32 l)) by (unfold mlen; lia).
    destruct (copy_each_ok (rest 32 l) packet (p + 32 * (mlen l / 32)) m HR) as (m' & E2 & B & O).
    - intros i I. apply M. lia.
    - unfold apart, mlen in *. lia.
    - unfold mlen. lia.
    - unfold mlen in *. lia.
    - ok E2. exists (HHC st1 (mlen (rest 32 l))), m'. split; [reflexivity|].
      assert (O' : only m m' packet 32) by (eapply only_weaken; [exact O|lia|unfold mlen; lia]).
      split; [|exact O']. unfold cat_holds. cbn [cat_state cat_num]. rewrite B1, B2. repeat split.
      + rewrite C1, C, fold_left_app. reflexivity.
      + exact G1.
      + exact B.
      + eapply only_mapped; [exact O'|exact M].
  Qed.

  Lemma append_ok : forall key packet cat msg l p m, cat_holds key packet cat msg m ->
    bytes_at m p l -> p + mlen l < addr_space cfg -> packet + 32 < addr_space cfg -> apart packet 32 p (mlen l) ->
    exists cat' m', HighwayHashCatAppend_pure_c cfg packet p (mlen l) cat m = Ok (cat', m') /\
      cat_holds key packet cat' (msg ++ l) m' /\ only m m' packet 32.
  Proof.
    intros key packet cat msg l p m (C & G & NU & B & M) H A A' D. pose proof (addr_space_pos cfg) as AS.
    unfold HighwayHashCatAppend_pure_c.
    assert (LR : length (rest 32 msg) = (length msg mod 32)%nat) by now apply rest_length.
    set (r := rest 32 msg) in *. assert (LR' : (length r < 32)%nat) by lia. assert (MR : mlen r = N.of_nat (length r)) by reflexivity.
    destruct (N.eqb_spec (cat_num cat) 0) as [Z|Z]; cbn [negb].
    - rewrite bind_ret. cbv beta iota. rewrite Z. apply append_tail_ok; try assumption.
      fold r. destruct r; [reflexivity|]. rewrite NU in Z. discriminate Z.
    - rewrite NU in *. rewrite psub_small by lia.
      destruct (N.ltb_spec (32 - mlen r) (mlen l)) as [X|X].
      + (* the packet gets full, and more *)
        set (k := (32 - length r)%nat). assert (KN : 32 - mlen r = N.of_nat k) by (unfold k; lia). rewrite KN.
        assert (E : l = firstn k l ++ skipn k l) by (symmetry; apply firstn_skipn).
        assert (LK : length (firstn k l) = k) by (rewrite firstn_length; unfold mlen in X; lia).
        set (l1 := firstn k l) in *. set (l2 := skipn k l) in *. clearbody l1 l2. subst l.
        assert (ML : mlen (l1 ++ l2) = N.of_nat k + mlen l2) by (unfold mlen; rewrite app_length; lia). rewrite ML in *.
        apply bytes_at_app in H. destruct H as [H1 H2]. rewrite LK in H2.
        assert (MK : mlen l1 = N.of_nat k) by (unfold mlen; lia).
        rewrite Nat2N.id, <- LK. rewrite padd_small by lia.
        destruct (copy_each_ok l1 (packet + mlen r) p m H1) as (m1 & E1 & B1 & O1).
        * intros i I. replace (packet + mlen r + N.of_nat i) with (packet + N.of_nat (length r + i)) by lia. apply M. lia.
        * unfold apart in *. lia.
        * lia.
        * lia.
        * rewrite LK in E1 |- *. rewrite bind_assoc. ok E1. rewrite !(padd_small cfg (mlen r)) by lia. destruct (N.eqb_spec (mlen r + N.of_nat k) 32) as [_|X']; [|unfold k in X'; lia].
          assert (O1' : only m m1 packet 32) by (eapply only_weaken; [exact O1|lia|lia]).
          assert (BB : bytes_at m1 packet (r ++ l1)).
          { apply bytes_at_app. split; [|exact B1]. eapply only_bytes; [exact O1| |exact B]. lia. }
          destruct (packet_ok cfg m1 packet (r ++ l1) (cat_state cat) ltac:(rewrite app_length; unfold k in LK; lia) BB ltac:(lia) G) as (st1 & E2 & C2 & G2).
          rewrite !bind_assoc. ok E2. rewrite !bind_ret. cbv beta iota. cbn [cat_state cat_num].
          rewrite padd_small, psub_small by lia. replace (N.of_nat k + mlen l2 - N.of_nat k) with (mlen l2) by lia.
          destruct (blocks_rest_app 32 msg l1 ltac:(discriminate)) as [F1 F2]. fold r in F1, F2.
          assert (RL : length (r ++ l1) = 32%nat) by (rewrite app_length; unfold k in LK; lia).
          assert (F3 : blocks 32 (r ++ l1) = [r ++ l1] /\ rest 32 (r ++ l1) = []).
          { rewrite <- (app_nil_r (r ++ l1)). rewrite blocks_app, rest_app by (discriminate || exact RL). now rewrite app_nil_r. }
          destruct F3 as [F3 F4]. rewrite F3 in F1. rewrite F4 in F2.
          destruct (append_tail_ok key packet st1 (msg ++ l1) l2 (p + N.of_nat k) m1) as (cat' & m' & E3 & CH & O2).
          -- rewrite F1, fold_left_app, <- C. exact C2.
          -- exact G2.
          -- exact F2.
          -- eapply only_mapped; [exact O1'|exact M].
          -- eapply only_bytes; [exact O1'| |exact H2]. unfold apart in D. lia.
          -- lia.
          -- lia.
          -- unfold apart in *. lia.
          -- exists cat', m'. rewrite E3. split; [reflexivity|]. rewrite <- app_assoc in CH. split; [exact CH|]. now apply only_trans with m1.
      + (* all of it goes to the packet *)
        replace (N.to_nat (mlen l)) with (length l) by (unfold mlen; lia). rewrite padd_small by lia.
        destruct (copy_each_ok l (packet + mlen r) p m H) as (m1 & E1 & B1 & O1).
        * intros i I. replace (packet + mlen r + N.of_nat i) with (packet + N.of_nat (length r + i)) by lia. apply M. unfold mlen in *. lia.
        * unfold apart in *. lia.
        * lia.
        * lia.
        * rewrite bind_assoc. ok E1. rewrite !(padd_small cfg (mlen r)) by lia.
          assert (O1' : only m m1 packet 32) by (eapply only_weaken; [exact O1|lia|lia]).
          assert (BB : bytes_at m1 packet (r ++ l)).
          { apply bytes_at_app. split; [|exact B1]. eapply only_bytes; [exact O1| |exact B]. lia. }
          destruct (blocks_rest_app 32 msg l ltac:(discriminate)) as [F1 F2]. fold r in F1, F2.
          assert (ML : mlen (r ++ l) = mlen r + mlen l) by (unfold mlen; rewrite app_length; lia).
          assert (PS : psub cfg (mlen l) (mlen l) = 0) by (rewrite psub_small by lia; lia).
          assert (M1 : mapped m1 packet 32) by (eapply only_mapped; [exact O1'|exact M]).
          destruct (N.eqb_spec (mlen r + mlen l) 32) as [X'|X'].
          -- assert (RL : length (r ++ l) = 32%nat) by (unfold mlen in ML; unfold mlen in *; lia).
             destruct (packet_ok cfg m1 packet (r ++ l) (cat_state cat) RL BB ltac:(lia) G) as (st1 & E2 & C2 & G2).
             rewrite !bind_assoc. ok E2. rewrite !bind_ret. cbv beta iota. cbn [cat_state cat_num].
             rewrite PS. assert (F3 : blocks 32 (r ++ l) = [r ++ l] /\ rest 32 (r ++ l) = []).
             { rewrite <- (app_nil_r (r ++ l)). rewrite blocks_app, rest_app by (discriminate || exact RL). now rewrite app_nil_r. }
             destruct F3 as [F3 F4]. rewrite F3 in F1. rewrite F4 in F2.
             exists (HHC st1 0), m1. split; [reflexivity|]. split; [|exact O1']. unfold cat_holds. cbn [cat_state cat_num].
             rewrite F1, F2, fold_left_app, <- C. split; [exact C2|]. split; [exact G2|].
             split; [reflexivity|]. split; [apply bytes_at_nil|exact M1].
          -- rewrite bind_assoc, !bind_ret. cbv beta iota. cbn [cat_state cat_num]. rewrite PS.
             change (N.to_nat (0 / 32)) with 0%nat. cbn [CatAppend_loop]. destruct (N.leb_spec 32 0) as [Y|_]; [lia|]. rewrite bind_ret. cbv beta iota.
             change (N.to_nat 0) with 0%nat. cbn [copy_each]. rewrite bind_ret. rewrite padd_small, N.add_0_r by lia.
             exists (HHC (cat_state cat) (mlen r + mlen l)), m1. split; [reflexivity|]. split; [|exact O1'].
             assert (SH : (length (r ++ l) < 32)%nat) by (unfold mlen in ML; unfold mlen in *; lia).
             unfold cat_holds. cbn [cat_state cat_num]. rewrite F1, F2. rewrite (blocks_nil 32 (r ++ l)), (rest_short 32 (r ++ l)) by exact SH. rewrite app_nil_r, ML.
             exact (conj C (conj G (conj eq_refl (conj BB M1)))).
  Qed.

  Lemma finish_ok : forall key packet cat msg m, cat_holds key packet cat msg m -> packet + 32 < addr_space cfg ->
    exists st, CatFinish cfg packet cat m = Ok (st, m) /\ conv st = hh_absorb key msg /\ good (conv st).
  Proof.
    intros key packet cat msg m (C & G & NU & B & M) A. unfold CatFinish, hh_absorb, hh_absorb_with. rewrite NU, <- C.
    assert (LR : length (rest 32 msg) = (length msg mod 32)%nat) by now apply rest_length.
    destruct (N.eqb_spec (mlen (rest 32 msg)) 0) as [Z|Z]; cbn [negb].
    - exists (cat_state cat). split; [reflexivity|]. unfold mlen in Z. destruct (rest 32 msg); [|discriminate Z]. now split.
    - apply remainder_ok; [unfold mlen in Z; lia|exact B|unfold mlen; lia|exact G].
  Qed.
End Copy.
