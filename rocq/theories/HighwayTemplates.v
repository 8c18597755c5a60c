(** HighwayHash in C++: the templates compute the specification for every class with
    correct operations. *)
From Coq Require Import ZArith NArith Arith List Bool Lia Strings.Byte.
From Coq Require Import ZifyN ZifyNat ZifyBool.
From Verif Require Import Bytes CSem Bits Spec NBits CSemFacts OpsFacts FetchFacts CtxMem StreamFacts SelfcheckSpec T1ha2
  Onto Highway HighwaySpec HighwayFacts HighwayCat HighwayCxx.
Import ListNotations.
Ltac Zify.zify_post_hook ::= Z.div_mod_to_equations.
Local Open Scope N_scope.

Lemma good_length_any : forall n s, 0 < n < 32 -> good s -> good (map_columns (col_length n) s).
Proof.
  intros n [[[s0 s1] s2] s3] H (G0 & G1 & G2 & G3).
  assert (P : forall c, good_col c -> good_col (col_length n c)).
  { intros c (A & B & C & D). unfold col_length. repeat split; cbn [ca cb cc cd]; try assumption; [apply add_lt64|now apply rotate_ok]. }
  exact (conj (P _ G0) (conj (P _ G1) (conj (P _ G2) (P _ G3)))).
Qed.
Lemma good_rest : forall pd s r, (1 <= length r <= 31)%nat -> good s -> good (hh_rest_with pd s r).
Proof.
  intros pd s r L G. unfold hh_rest_with. destruct r as [|x r]; [exact G|]. apply good_step. apply good_length_any; [unfold mlen; lia|exact G].
Qed.

(** Correct operations: [abs] is the state that an object stands for, [pd] the
    padding; a buffer is aligned to [al] bytes. *)
Record hh_sound (cfg : config) {St : Type} (ops : hh_ops St) (abs : St -> hstate) (pd : list byte -> list byte) (al : N) : Prop := {
  sound_Reset : forall key, good_quad key -> abs (op_Reset ops key) = hh_init key;
  sound_Update : forall m p l st, length l = 32%nat -> bytes_at m p l -> p + 32 <= addr_space cfg -> good (abs st) ->
    exists st', op_Update ops cfg p st m = Ok (st', m) /\ abs st' = hh_packet (abs st) l;
  sound_UpdateRemainder : forall m p r st, (1 <= length r <= 31)%nat -> bytes_at m p r -> p + mlen r < addr_space cfg -> good (abs st) ->
    exists st', op_UpdateRemainder ops cfg p (mlen r) st m = Ok (st', m) /\ abs st' = hh_rest_with pd (abs st) r;
  sound_Finalize64 : forall st, good (abs st) -> op_Finalize64 ops st = hh_out64 (abs st);
  sound_Finalize128 : forall st, good (abs st) -> op_Finalize128 ops st = hh_out128 (abs st);
  sound_Finalize256 : forall st, good (abs st) ->
    let '(h0, h1, h2, h3) := op_Finalize256 ops st in
    (h1 * 2 ^ 64 + h0, h3 * 2 ^ 64 + h2) = hh_out256 (abs st) /\ good_quad (h0, h1, h2, h3);
  sound_ZeroInitialize : forall m buffer, mapped m buffer 32 -> buffer + 32 < addr_space cfg -> buffer mod al = 0 ->
    exists m', op_ZeroInitialize ops cfg buffer m = Ok (tt, m') /\ only m m' buffer 32;
  sound_CopyPartial : forall m p l buffer, (1 <= length l <= 31)%nat -> bytes_at m p l -> p + mlen l < addr_space cfg ->
    mapped m buffer 32 -> buffer + 32 < addr_space cfg -> buffer mod al = 0 -> apart buffer 32 p (mlen l) ->
    exists m', op_CopyPartial ops cfg p (mlen l) buffer m = Ok (tt, m') /\ bytes_at m' buffer l /\ only m m' buffer 32;
  sound_AppendPartial : forall m p l buffer old, (length old + length l <= 31)%nat -> bytes_at m p l -> p + mlen l < addr_space cfg ->
    mapped m buffer 32 -> buffer + 32 < addr_space cfg -> buffer mod al = 0 -> apart buffer 32 p (mlen l) -> bytes_at m buffer old ->
    exists m', op_AppendPartial ops cfg p (mlen l) buffer (mlen old) m = Ok (tt, m') /\ bytes_at m' buffer (old ++ l) /\ only m m' buffer 32;
  sound_AppendAndUpdate : forall m p l buffer old st, (length old + length l = 32)%nat -> (1 <= length old <= 31)%nat ->
    bytes_at m p l -> p + mlen l < addr_space cfg -> mapped m buffer 32 -> buffer + 32 < addr_space cfg -> buffer mod al = 0 ->
    apart buffer 32 p (mlen l) -> bytes_at m buffer old -> good (abs st) ->
    exists st', op_AppendAndUpdate ops cfg p (mlen l) buffer (mlen old) st m = Ok (st', m) /\ abs st' = hh_packet (abs st) (old ++ l) }.

Section Sound.
  Context {St : Type}.
  Variables (cfg : config) (ops : hh_ops St) (abs : St -> hstate) (pd : list byte -> list byte) (al : N).
  Hypothesis SO : hh_sound cfg ops abs pd al.

  Lemma T_loop_ok : forall fuel l tail p base st m, bytes_at m (p + base) l -> p + base + mlen l + mlen tail < addr_space cfg ->
    (length l mod 32 = 0)%nat -> (length l / 32 < fuel)%nat -> good (abs st) ->
    exists st', HighwayHashT_loop ops fuel cfg p (base + mlen l) base st m = Ok (st', m) /\
      abs st' = fold_left hh_packet (blocks 32 l) (abs st) /\ good (abs st').
  Proof.
    induction fuel as [|fuel IH]; intros l tail p base st m H A Z F G; [lia|]. cbn [HighwayHashT_loop].
    destruct (Nat.eq_dec (length l) 0) as [C|C].
    - assert (ML : mlen l = 0) by (unfold mlen; lia). rewrite ML, N.add_0_r. rewrite N.ltb_irrefl.
      exists st. rewrite blocks_nil by lia. exact (conj eq_refl (conj eq_refl G)).
    - assert (E : l = firstn 32 l ++ skipn 32 l) by (symmetry; apply firstn_skipn).
      assert (L1 : length (firstn 32 l) = 32%nat) by (rewrite firstn_length; lia).
      set (b := firstn 32 l) in *. set (r := skipn 32 l) in *. clearbody b r. subst l.
      assert (ML : mlen (b ++ r) = 32 + mlen r) by (unfold mlen; rewrite app_length; lia). rewrite ML in *.
      destruct (N.ltb_spec base (base + (32 + mlen r))) as [_|X]; [|lia].
      apply bytes_at_app in H. destruct H as [H1 H2]. rewrite L1 in H2. rewrite padd_small by lia.
      destruct (sound_Update _ _ _ _ _ SO m (p + base) b st L1 H1 ltac:(lia) G) as (st1 & E1 & C1). ok E1.
      assert (G1 : good (abs st1)) by (rewrite C1; now apply good_step).
      rewrite padd_small by lia.
      replace (p + base + N.of_nat 32) with (p + (base + 32)) in H2 by lia.
      destruct (IH r tail p (base + 32) st1 m H2 ltac:(lia)) as (st2 & E2 & C2 & G2).
      + rewrite app_length, L1 in Z. lia.
      + rewrite app_length, L1, div_plus_one in F by discriminate. lia.
      + exact G1.
      + exists st2. replace (base + (32 + mlen r)) with (base + 32 + mlen r) by lia. rewrite E2.
        rewrite blocks_app by (discriminate || exact L1). cbn [fold_left]. rewrite <- C1. exact (conj eq_refl (conj C2 G2)).
  Qed.

  Lemma T_ok : forall p msg key m, good_quad key -> bytes_at m p msg -> p + mlen msg < addr_space cfg ->
    exists st, HighwayHashT_state ops cfg p (mlen msg) (op_Reset ops key) m = Ok (st, m) /\
      abs st = hh_absorb_with pd key msg /\ good (abs st).
  Proof.
    intros p msg key m K H A. unfold HighwayHashT_state. rewrite land_31.
    pose proof (sound_Reset _ _ _ _ _ SO key K) as R. destruct (reset_ok key K) as [_ G]. rewrite <- R in G.
    set (q := (32 * (length msg / 32))%nat).
    assert (E : msg = firstn q msg ++ rest 32 msg) by (symmetry; apply firstn_skipn).
    assert (LQ : length (firstn q msg) = q) by (rewrite firstn_length; unfold q; lia).
    assert (LR : length (rest 32 msg) = (length msg mod 32)%nat) by now apply rest_length.
    assert (MR : mlen (rest 32 msg) = mlen msg mod 32) by (unfold mlen; lia).
    assert (MQ : mlen (firstn q msg) = mlen msg - mlen msg mod 32) by (unfold mlen, q in *; lia).
    assert (BQ : blocks 32 msg = blocks 32 (firstn q msg)).
    { rewrite E at 1. destruct (blocks_rest_app 32 (firstn q msg) (rest 32 msg) ltac:(discriminate)) as [B _]. rewrite B.
      assert (RQ : rest 32 (firstn q msg) = []).
      { apply length_zero_iff_nil. rewrite rest_length, LQ by discriminate. unfold q. lia. }
      rewrite RQ. cbn [app]. rewrite (blocks_nil 32 (rest 32 msg)) by lia. now rewrite app_nil_r. }
    pose proof H as H'. rewrite E in H'. apply bytes_at_app in H'. destruct H' as [H1 H2].
    assert (MM : mlen msg = mlen (firstn q msg) + mlen (rest 32 msg)) by (rewrite E at 1; unfold mlen; rewrite app_length; lia).
    destruct (T_loop_ok (S (N.to_nat (mlen msg / 32))) (firstn q msg) (rest 32 msg) p 0 _ m ltac:(now rewrite N.add_0_r) ltac:(lia)
      ltac:(rewrite LQ; unfold q; lia) ltac:(rewrite LQ; unfold q, mlen; lia) G) as (st1 & E1 & C1 & G1).
    rewrite N.add_0_l in E1. rewrite MQ in E1. ok E1.
    unfold hh_absorb_with. rewrite BQ, <- R, <- C1, <- MR.
    destruct (N.eqb_spec (mlen (rest 32 msg)) 0) as [Z|Z]; cbn [negb].
    - exists st1. split; [reflexivity|]. unfold mlen in Z. destruct (rest 32 msg); [|discriminate Z]. exact (conj eq_refl G1).
    - rewrite <- MR in MQ. rewrite <- MQ. rewrite padd_small by lia.
      assert (LB : (1 <= length (rest 32 msg) <= 31)%nat) by (unfold mlen in Z; lia).
      replace (N.of_nat (length (firstn q msg))) with (mlen (firstn q msg)) in H2 by reflexivity.
      destruct (sound_UpdateRemainder _ _ _ _ _ SO m (p + mlen (firstn q msg)) (rest 32 msg) st1 LB H2 ltac:(lia) G1) as (st2 & E2 & C2).
      exists st2. split; [exact E2|]. split; [exact C2|]. rewrite C2. now apply good_rest.
  Qed.

  (** ** Multiple calls *)
  Definition catT_holds (key : N * N * N * N) (buffer : N) (cat : HighwayHashCatT St) (msg : list byte) (m : mem) : Prop :=
    abs (ct_state cat) = fold_left hh_packet (blocks 32 msg) (hh_init key) /\ good (abs (ct_state cat)) /\
    ct_usage cat = mlen (rest 32 msg) /\ bytes_at m buffer (rest 32 msg) /\ mapped m buffer 32.

  Lemma catT_new_ok : forall key buffer m, good_quad key -> mapped m buffer 32 -> buffer + 32 < addr_space cfg -> buffer mod al = 0 ->
    exists cat m', CatT_new ops cfg buffer key m = Ok (cat, m') /\ catT_holds key buffer cat [] m' /\ only m m' buffer 32.
  Proof.
    intros key buffer m K M A L. unfold CatT_new.
    destruct (sound_ZeroInitialize _ _ _ _ _ SO m buffer M A L) as (m' & E & O). ok E.
    exists (HCT (op_Reset ops key) 0), m'. split; [reflexivity|]. split; [|exact O].
    pose proof (sound_Reset _ _ _ _ _ SO key K) as R. destruct (reset_ok key K) as [_ G]. rewrite <- R in G.
    unfold catT_holds. cbn [ct_state ct_usage]. refine (conj R (conj G (conj eq_refl (conj (bytes_at_nil _ _) _)))).
    eapply only_mapped; [exact O|exact M].
  Qed.

  Lemma catT_loop_ok : forall fuel l p st m, bytes_at m p l -> p + mlen l < addr_space cfg -> (length l / 32 < fuel)%nat -> good (abs st) ->
    exists st', CatT_Append_loop ops fuel cfg p (mlen l) st m = Ok ((p + 32 * (mlen l / 32), mlen (rest 32 l), st'), m) /\
      abs st' = fold_left hh_packet (blocks 32 l) (abs st) /\ good (abs st').
  Proof.
    induction fuel as [|fuel IH]; intros l p st m H A F G; [lia|]. cbn [CatT_Append_loop].
    destruct (Nat.le_gt_cases 32 (length l)) as [C|C].
    - assert (E : l = firstn 32 l ++ skipn 32 l) by (symmetry; apply firstn_skipn).
      assert (L1 : length (firstn 32 l) = 32%nat) by (rewrite firstn_length; lia).
      set (b := firstn 32 l) in *. set (r := skipn 32 l) in *. clearbody b r. subst l.
      assert (ML : mlen (b ++ r) = 32 + mlen r) by (unfold mlen; rewrite app_length; lia). rewrite ML in *.
      destruct (N.leb_spec 32 (32 + mlen r)) as [_|X]; [|lia].
      apply bytes_at_app in H. destruct H as [H1 H2]. rewrite L1 in H2.
      destruct (sound_Update _ _ _ _ _ SO m p b st L1 H1 ltac:(lia) G) as (st1 & E1 & C1). ok E1.
      assert (G1 : good (abs st1)) by (rewrite C1; now apply good_step).
      rewrite padd_small, psub_small by lia. replace (32 + mlen r - 32) with (mlen r) by lia.
      destruct (IH r (p + 32) st1 m H2 ltac:(lia)) as (st2 & E2 & C2 & G2); [|exact G1|].
      { rewrite app_length, L1, div_plus_one in F by discriminate. lia. }
      exists st2. rewrite E2. rewrite rest_app, blocks_app by (discriminate || exact L1). cbn [fold_left]. rewrite <- C1.
      split; [|exact (conj C2 G2)]. replace (32 * ((32 + mlen r) / 32)) with (32 + 32 * (mlen r / 32)) by lia. now rewrite N.add_assoc.
    - exists st. destruct (N.leb_spec 32 (mlen l)) as [X|_]; [unfold mlen in X; lia|].
      rewrite blocks_nil, rest_short by exact C. cbn [fold_left]. split; [|exact (conj eq_refl G)].
      replace (mlen l / 32) with 0 by (unfold mlen; lia). rewrite N.mul_0_r, N.add_0_r. reflexivity.
  Qed.

  Lemma catT_tail_ok : forall key buffer st msg l p m,
    abs st = fold_left hh_packet (blocks 32 msg) (hh_init key) -> good (abs st) -> rest 32 msg = [] -> mapped m buffer 32 ->
    bytes_at m p l -> p + mlen l < addr_space cfg -> buffer + 32 < addr_space cfg -> buffer mod al = 0 -> apart buffer 32 p (mlen l) ->
    exists cat' m', (y <- CatT_Append_loop ops (S (N.to_nat (mlen l / 32))) cfg p (mlen l) st ;;
       let '(bytes, num_bytes, state) := y in
       (if negb (num_bytes =? 0) then op_CopyPartial ops cfg bytes num_bytes buffer else ret tt) ;;; ret (HCT state num_bytes)) m = Ok (cat', m') /\
      catT_holds key buffer cat' (msg ++ l) m' /\ only m m' buffer 32.
  Proof.
    intros key buffer st msg l p m C G R M H A A' AL D.
    destruct (catT_loop_ok (S (N.to_nat (mlen l / 32))) l p st m H A ltac:(unfold mlen; lia) G) as (st1 & E1 & C1 & G1). ok E1.
    destruct (blocks_rest_app 32 msg l ltac:(discriminate)) as [B1 B2]. rewrite R in B1, B2. cbn [app] in B1, B2.
    assert (LR : length (rest 32 l) = (length l mod 32)%nat) by now apply rest_length.
    assert (HR : bytes_at m (p + 32 * (mlen l / 32)) (rest 32 l)).
    { unfold rest. replace (32 * (mlen l / 32)) with (N.of_nat (32 * (length l / 32))) by (unfold mlen; lia). apply bytes_at_skipn; [exact H|lia]. }
    destruct (N.eqb_spec (mlen (rest 32 l)) 0) as [Z|Z]; cbn [negb].
    - rewrite bind_ret. exists (HCT st1 (mlen (rest 32 l))), m. split; [reflexivity|]. split; [|apply only_refl].
      unfold catT_holds. cbn [ct_state ct_usage]. rewrite B1, B2, fold_left_app, <- C.
      refine (conj C1 (conj G1 (conj eq_refl (conj _ M)))). unfold mlen in Z. destruct (rest 32 l); [apply bytes_at_nil|discriminate Z].
    - destruct (sound_CopyPartial _ _ _ _ _ SO m (p + 32 * (mlen l / 32)) (rest 32 l) buffer) as (m' & E2 & B & O); try assumption.
      + unfold mlen in Z. lia.
      + unfold mlen in *. lia.
      + unfold apart, mlen in *. lia.
      + ok E2. exists (HCT st1 (mlen (rest 32 l))), m'. split; [reflexivity|]. split; [|exact O].
        unfold catT_holds. cbn [ct_state ct_usage]. rewrite B1, B2, fold_left_app, <- C.
        refine (conj C1 (conj G1 (conj eq_refl (conj B _)))). eapply only_mapped; [exact O|exact M].
  Qed.

  Lemma catT_append_ok : forall key buffer cat msg l p m, catT_holds key buffer cat msg m ->
    bytes_at m p l -> p + mlen l < addr_space cfg -> buffer + 32 < addr_space cfg -> buffer mod al = 0 -> apart buffer 32 p (mlen l) ->
    exists cat' m', CatT_Append ops cfg buffer p (mlen l) cat m = Ok (cat', m') /\
      catT_holds key buffer cat' (msg ++ l) m' /\ only m m' buffer 32.
  Proof.
    intros key buffer cat msg l p m (C & G & NU & B & M) H A A' AL D. pose proof (addr_space_pos cfg) as AS.
    unfold CatT_Append. rewrite NU.
    assert (LR : length (rest 32 msg) = (length msg mod 32)%nat) by now apply rest_length.
    destruct (blocks_rest_app 32 msg l ltac:(discriminate)) as [F1 F2].
    set (r := rest 32 msg) in *. assert (LR' : (length r < 32)%nat) by lia. assert (MR : mlen r = N.of_nat (length r)) by reflexivity.
    rewrite psub_small by lia. destruct (N.ltb_spec (mlen l) (32 - mlen r)) as [X|X].
    - (* all of it goes to the buffer *)
      assert (SH : (length r + length l <= 31)%nat) by (unfold mlen in *; lia).
      destruct (sound_AppendPartial _ _ _ _ _ SO m p l buffer r SH H A M A' AL D B) as (m' & E1 & B1 & O1). ok E1.
      rewrite padd_small by lia. exists (HCT (ct_state cat) (mlen r + mlen l)), m'. split; [reflexivity|]. split; [|exact O1].
      assert (SL : (length (r ++ l) < 32)%nat) by (rewrite app_length; lia).
      unfold catT_holds. cbn [ct_state ct_usage]. rewrite F1, F2. rewrite (blocks_nil 32 (r ++ l)), (rest_short 32 (r ++ l)) by exact SL.
      rewrite app_nil_r. refine (conj C (conj G (conj _ (conj B1 _)))).
      + unfold mlen. rewrite app_length. lia.
      + eapply only_mapped; [exact O1|exact M].
    - destruct (N.eqb_spec (mlen r) 0) as [Z|Z]; cbn [negb].
      + rewrite bind_ret. cbv beta iota. apply catT_tail_ok; try assumption. fold r. destruct r; [reflexivity|discriminate Z].
      + set (k := (32 - length r)%nat). assert (KN : 32 - mlen r = N.of_nat k) by (unfold k; lia). rewrite KN in *.
        assert (E : l = firstn k l ++ skipn k l) by (symmetry; apply firstn_skipn).
        assert (LK : length (firstn k l) = k) by (rewrite firstn_length; unfold mlen in X; lia).
        set (l1 := firstn k l) in *. set (l2 := skipn k l) in *. clearbody l1 l2. subst l. clear F1 F2.
        assert (ML : mlen (l1 ++ l2) = N.of_nat k + mlen l2) by (unfold mlen; rewrite app_length; lia). rewrite ML in *.
        assert (MK : mlen l1 = N.of_nat k) by (unfold mlen; lia).
        apply bytes_at_app in H. destruct H as [H1 H2]. rewrite LK in H2.
        destruct (sound_AppendAndUpdate _ _ _ _ _ SO m p l1 buffer r (ct_state cat)) as (st1 & E1 & C1); try assumption.
        * unfold k in LK. lia.
        * unfold mlen in Z. lia.
        * rewrite MK. lia.
        * rewrite MK. unfold apart in *. lia.
        * rewrite MK in E1. rewrite bind_assoc. ok E1. rewrite bind_ret. cbv beta iota.
          rewrite padd_small, psub_small by lia. replace (N.of_nat k + mlen l2 - N.of_nat k) with (mlen l2) by lia.
          assert (G1 : good (abs st1)) by (rewrite C1; now apply good_step).
          destruct (blocks_rest_app 32 msg l1 ltac:(discriminate)) as [F1 F2]. fold r in F1, F2.
          assert (RL : length (r ++ l1) = 32%nat) by (rewrite app_length; unfold k in LK; lia).
          assert (F3 : blocks 32 (r ++ l1) = [r ++ l1] /\ rest 32 (r ++ l1) = []).
          { rewrite <- (app_nil_r (r ++ l1)). rewrite blocks_app, rest_app by (discriminate || exact RL). now rewrite app_nil_r. }
          destruct F3 as [F3 F4]. rewrite F3 in F1. rewrite F4 in F2. rewrite app_assoc. apply catT_tail_ok; try assumption.
          -- rewrite F1, fold_left_app, <- C. exact C1.
          -- lia.
          -- unfold apart in *. lia.
  Qed.

  Lemma catT_state_ok : forall key buffer cat msg m, catT_holds key buffer cat msg m -> buffer + 32 < addr_space cfg ->
    exists st, CatT_state ops cfg buffer cat m = Ok (st, m) /\ abs st = hh_absorb_with pd key msg /\ good (abs st).
  Proof.
    intros key buffer cat msg m (C & G & NU & B & M) A. unfold CatT_state, hh_absorb_with. rewrite NU, <- C.
    assert (LR : length (rest 32 msg) = (length msg mod 32)%nat) by now apply rest_length.
    destruct (N.eqb_spec (mlen (rest 32 msg)) 0) as [Z|Z]; cbn [negb].
    - exists (ct_state cat). split; [reflexivity|]. unfold mlen in Z. destruct (rest 32 msg); [|discriminate Z]. exact (conj eq_refl G).
    - assert (LB : (1 <= length (rest 32 msg) <= 31)%nat) by (unfold mlen in Z; lia).
      destruct (sound_UpdateRemainder _ _ _ _ _ SO m buffer (rest 32 msg) (ct_state cat) LB B ltac:(unfold mlen; lia) G) as (st2 & E2 & C2).
      exists st2. split; [exact E2|]. split; [exact C2|]. rewrite C2. now apply good_rest.
  Qed.

  Definition fragment_in (buffer : N) (m : mem) (part : N * N) (l : list byte) : Prop :=
    snd part = mlen l /\ bytes_at m (fst part) l /\ fst part + mlen l < addr_space cfg /\ apart buffer 32 (fst part) (mlen l).
  Lemma catT_fragments_ok : forall key buffer parts ls cat msg m, Forall2 (fragment_in buffer m) parts ls -> buffer + 32 < addr_space cfg ->
    buffer mod al = 0 -> catT_holds key buffer cat msg m ->
    exists cat' m', CatT_fragments ops cfg buffer parts cat m = Ok (cat', m') /\ catT_holds key buffer cat' (msg ++ concat ls) m' /\ only m m' buffer 32.
  Proof.
    intros key buffer. induction parts as [|[p n] parts IH]; intros ls cat msg m P A AL C; inversion P; subst.
    - exists cat, m. cbn [concat]. rewrite app_nil_r. split; [reflexivity|]. split; [exact C|apply only_refl].
    - destruct H1 as (E & B & L & D). cbn [fst snd] in *. subst n. cbn [CatT_fragments concat].
      destruct (catT_append_ok key buffer cat msg y p m C B L A AL D) as (cat1 & m1 & E1 & C1 & O1). ok E1.
      destruct (IH l' cat1 (msg ++ y) m1) as (cat2 & m2 & E2 & C2 & O2); try assumption.
      + clear - H3 O1. induction H3 as [|[q k] l parts' l'' (E' & B' & L' & D') H3 IH]; constructor; [|exact IH].
        repeat split; try assumption. cbn [fst snd] in *. eapply only_bytes; [exact O1| |exact B']. unfold apart in D'. lia.
      + exists cat2, m2. split; [exact E2|]. rewrite app_assoc. split; [exact C2|]. now apply only_trans with m1.
  Qed.
End Sound.
