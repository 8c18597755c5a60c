(** What t1ha0 is bound to has been checked when its self-check returns 0. *)
From Coq Require Import ZArith NArith Arith List Bool Lia Strings.Byte.
From Coq Require Import ZifyN ZifyNat ZifyBool.
From Verif Require Import Bytes CSem Bits Spec CSemFacts CtxMem OneShot Dispatch DispatchFacts Selfcheck SelfcheckSpec SelfcheckFacts
  SelfcheckTrace StreamFacts Shipped.
Import ListNotations.
Local Open Scope N_scope.

Section Coverage.
  Variables (b : build) (c : cpu) (v : frame) (code : probe_fn -> hash_code).
  Variable P : mem -> Prop.
  Hypothesis keep : forall g m z m', P m -> check_fn b v code g m = Ok (z, m') -> P m'.

  Definition keeps (X : M Z) : Prop := forall m z m', P m -> X m = Ok (z, m') -> P m'.
  (** if [X] returns 0 then the check of [g] has returned 0 *)
  Definition ran (g : probe_fn) (X : M Z) : Prop :=
    forall m m', P m -> X m = Ok (0%Z, m') -> exists m1 m2, P m1 /\ check_fn b v code g m1 = Ok (0%Z, m2).
  Definition strict (k : Z -> M Z) : Prop := forall rc m m', k rc m = Ok (0%Z, m') -> rc = 0%Z.

  Lemma keeps_ret : forall z, keeps (ret z).
  Proof. intros z m z' m' PM H. now injection H as _ <-. Qed.
  Lemma keeps_bind : forall X k, keeps X -> (forall z, keeps (k z)) -> keeps (bind X k).
  Proof.
    intros X k KX KK m z m' PM H. unfold bind in H. destruct (X m) as [[x m1]| | | | |] eqn:E; try discriminate.
    eapply KK; [|exact H]. eapply KX; eauto.
  Qed.
  Lemma keeps_or : forall X Y, keeps X -> keeps Y -> keeps (or_ X Y).
  Proof. intros X Y KX KY. apply keeps_bind; [exact KX|]. intro z. apply keeps_bind; [exact KY|]. intro. apply keeps_ret. Qed.
  Lemma keeps_fn : forall g, keeps (check_fn b v code g).
  Proof. intros g m z m'. apply keep. Qed.

  Lemma or_zero : forall X Y m m', or_ X Y m = Ok (0%Z, m') -> exists m1, X m = Ok (0%Z, m1) /\ Y m1 = Ok (0%Z, m').
  Proof.
    intros X Y m m' H. unfold or_, bind in H. destruct (X m) as [[x m1]| | | | |] eqn:E; try discriminate.
    destruct (Y m1) as [[y m2]| | | | |] eqn:E2; try discriminate. unfold ret in H.
    assert (Z.lor x y = 0%Z) as Z0 by congruence. assert (m2 = m') by congruence. subst m2.
    apply Z.lor_eq_0_iff in Z0. destruct Z0 as (-> & ->). exists m1. auto.
  Qed.
  Lemma strict_ret : strict (fun rc => ret rc).
  Proof. intros rc m m' H. unfold ret in H. congruence. Qed.
  Lemma strict_or : forall Y, strict (fun rc => or_ (ret rc) Y).
  Proof. intros Y rc m m' H. apply or_zero in H. destruct H as (m1 & H & _). unfold ret in H. congruence. Qed.
  Lemma strict_bind : forall A k, strict A -> strict k -> strict (fun rc => bind (A rc) k).
  Proof.
    intros A k SA SK rc m m' H. unfold bind in H. destruct (A rc m) as [[x m1]| | | | |] eqn:E; try discriminate.
    pose proof (SK _ _ _ H). subst x. eapply SA; eauto.
  Qed.
  Lemma strict_if : forall (x : bool) A B, strict A -> strict B -> strict (fun rc => if x then A rc else B rc).
  Proof. intros [] A B SA SB; assumption. Qed.

  Lemma ran_fn : forall g, ran g (check_fn b v code g).
  Proof. intros g m m' PM H. eauto. Qed.
  Lemma ran_or_l : forall g X Y, ran g X -> ran g (or_ X Y).
  Proof. intros g X Y RX m m' PM H. apply or_zero in H. destruct H as (m1 & H & _). eapply RX; eauto. Qed.
  Lemma ran_or_r : forall g X Y, keeps X -> ran g Y -> ran g (or_ X Y).
  Proof. intros g X Y KX RY m m' PM H. apply or_zero in H. destruct H as (m1 & H & H'). eapply RY; [|exact H']. eapply KX; eauto. Qed.
  Lemma ran_bind_l : forall g X k, strict k -> ran g X -> ran g (bind X k).
  Proof.
    intros g X k SK RX m m' PM H. unfold bind in H. destruct (X m) as [[x m1]| | | | |] eqn:E; try discriminate.
    pose proof (SK _ _ _ H). subst x. eapply RX; eauto.
  Qed.
  Lemma ran_bind_r : forall g X k, strict k -> keeps X -> ran g (k 0%Z) -> ran g (bind X k).
  Proof.
    intros g X k SK KX RK m m' PM H. unfold bind in H. destruct (X m) as [[x m1]| | | | |] eqn:E; try discriminate.
    pose proof (SK _ _ _ H). subst x. eapply RK; [|exact H]. eapply KX; eauto.
  Qed.

  Lemma keeps_t1ha2 : keeps (selfcheck_t1ha2 b v code).
  Proof. repeat apply keeps_or; apply keeps_fn. Qed.
  Lemma keeps_t1ha1 : keeps (selfcheck_t1ha1 b v code).
  Proof. repeat apply keeps_or; apply keeps_fn. Qed.

  Ltac strictness := repeat first [apply strict_ret | apply strict_or | apply strict_if | apply strict_bind
                                  | progress cbv zeta | (intros ? ? ? ?; discriminate)].

  Lemma target_ran : forall f, t1ha0_target b c = Some f -> ran (Fn f) (selfcheck_t1ha0 b c v code).
  Proof.
    intros f T. unfold selfcheck_t1ha0.
    unfold t1ha0_target in T. destruct (t1ha0_disabled b); [discriminate|].
    assert (C : f = portable_choice b \/ (aesni_available b = true /\ ia32 (base b) = true /\ e2k b = false /\ has_aes c = true /\
       f = if has_osxsave c && has_avx c then if has_avx2 c then AesAvx2 else AesAvx else AesNoavx)).
    { destruct (runtime_select b); [now apply resolve_cases|]. left. congruence. }
    destruct C as [->|(A & I & E & HA & ->)].
    - unfold portable_choice. destruct (wide (base b) && (negb (t1ha1_disabled b) || negb (t1ha2_disabled b))).
      + apply ran_bind_r; [strictness| |].
        { apply keeps_or; apply keeps_fn. }
        apply ran_bind_l; [strictness|].
        destruct (t1ha1_disabled b); cbn [negb].
        * apply ran_or_r; [apply keeps_ret|]. unfold selfcheck_t1ha2. do 2 apply ran_or_l. apply ran_fn.
        * apply ran_or_r; [apply keeps_ret|]. unfold selfcheck_t1ha1.
          destruct (big_endian (base b)); [apply ran_or_r; [apply keeps_fn|]|apply ran_or_l]; apply ran_fn.
      + apply ran_bind_l; [strictness|].
        destruct (big_endian (base b)); [apply ran_or_r; [apply keeps_fn|]|apply ran_or_l]; apply ran_fn.
    - rewrite A, E, I. cbv zeta. rewrite aesni_avail_eq, avx_avail_eq, avx2_avail_eq, HA. cbn [andb].
      apply ran_bind_r; [strictness| |].
      { apply keeps_or; apply keeps_fn. }
      apply ran_bind_r; [strictness| |].
      { destruct (wide (base b) && _); [|apply keeps_ret].
        destruct (t1ha1_disabled b); (apply keeps_or; [apply keeps_ret|]); [apply keeps_t1ha2|apply keeps_t1ha1]. }
      destruct (has_osxsave c && has_avx c).
      + apply ran_bind_r; [strictness|apply keeps_or; [apply keeps_ret|apply keeps_fn]|].
        destruct (has_avx2 c).
        * apply ran_bind_r; [strictness|apply keeps_or; [apply keeps_ret|apply keeps_fn]|].
          apply ran_or_r; [apply keeps_ret|apply ran_fn].
        * apply ran_bind_l; [strictness|]. apply ran_or_r; [apply keeps_ret|apply ran_fn].
      + apply ran_bind_l; [strictness|]. apply ran_or_r; [apply keeps_ret|apply ran_fn].
  Qed.

  Lemma target_ran_all : forall f, t1ha0_target b c = Some f -> ran (Fn f) (selfcheck_all_enabled b c v code).
  Proof.
    intros f T. pose proof (target_ran f T) as TR. unfold selfcheck_all_enabled.
    unfold t1ha0_target in T. destruct (t1ha0_disabled b); [discriminate|].
    apply ran_bind_r; [strictness| |].
    { destruct (t1ha2_disabled b); [apply keeps_ret|]. apply keeps_or; [apply keeps_ret|apply keeps_t1ha2]. }
    apply ran_bind_r; [strictness| |].
    { destruct (t1ha1_disabled b); [apply keeps_ret|]. apply keeps_or; [apply keeps_ret|apply keeps_t1ha1]. }
    apply ran_or_r; [apply keeps_ret|exact TR].
  Qed.
End Coverage.

(** The same with the verdict of each check spelt out. *)
Lemma target_checked : forall b c v code f, t1ha0_target b c = Some f ->
  v_refs v (Fn f) mod alignment (base b) 8 = 0 -> v_refs v (Fn f) + 648 < addr_space (base b) ->
  v_pattern v + 64 < addr_space (base b) -> v_long v + 512 < addr_space (base b) ->
  apart (v_long v) 512 (v_refs v (Fn f)) 648 ->
  (forall g d l s m x m', refs_at (base b) (v_refs v (Fn f)) (recorded (Fn f)) m ->
     code g d l s m = Ok (x, m') -> refs_at (base b) (v_refs v (Fn f)) (recorded (Fn f)) m') ->
  forall m m', refs_at (base b) (v_refs v (Fn f)) (recorded (Fn f)) m ->
    selfcheck_t1ha0 b c v code m = Ok (0%Z, m') \/ selfcheck_all_enabled b c v code m = Ok (0%Z, m') ->
    exists m1 m2, all_right (code (Fn f)) (v_pattern v) (v_long v) (recorded (Fn f)) m1 m2.
Proof.
  intros b c v code f T AL RR PR LR AP CK m m' R H.
  set (P := refs_at (base b) (v_refs v (Fn f)) (recorded (Fn f))) in *.
  assert (KEEP : forall g m z m', P m -> check_fn b v code g m = Ok (z, m') -> P m').
  { intros g m0 z m0' PM E. unfold check_fn in E.
    eapply (selfcheck_keeps (base b) (code g) (v_pattern v) (v_long v) (v_refs v g) PR LR P); [apply CK| |exact PM|exact E].
    intros m1 m2 O PM1 k K. eapply only_bytes; [exact O| |now apply PM1].
    unfold mlen, apart in *. rewrite native_length. lia. }
  assert (X : exists m1 m2, P m1 /\ check_fn b v code (Fn f) m1 = Ok (0%Z, m2)).
  { destruct H as [H|H].
    - exact (target_ran b c v code P KEEP f T m m' R H).
    - exact (target_ran_all b c v code P KEEP f T m m' R H). }
  destruct X as (m1 & m2 & PM & E). exists m1, m2. unfold check_fn in E.
  eapply selfcheck_zero in E; [exact E|exact PR|exact LR|apply recorded_length|apply recorded_lt|exact AL|exact RR|apply CK|exact AP|exact PM].
Qed.
