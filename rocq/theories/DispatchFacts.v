(** CPU detection and the choice of the implementation. *)
From Coq Require Import NArith Arith List Bool Lia.
From Coq Require Import ZifyN ZifyNat ZifyBool.
From Verif Require Import Bytes CSem OneShot Dispatch.
Import ListNotations.
Local Open Scope N_scope.

Section Features.
  Variable c : cpu.
  Lemma features_low : forall i, i < 32 -> N.testbit (t1ha_ia32cpu_features c) i = (1 <=? cpuid_max c) && N.testbit (leaf1_ecx c) i.
  Proof.
    intros i H. unfold t1ha_ia32cpu_features. rewrite N.lor_spec. unfold shl64, u64, u32. change W64 with (2 ^ 64). change W32 with (2 ^ 32).
    rewrite (N.mod_pow2_bits_low _ 64) by lia. rewrite N.shiftl_spec_low by lia. rewrite orb_false_r.
    destruct (1 <=? cpuid_max c); cbn [andb]; [|apply N.bits_0]. now rewrite N.mod_pow2_bits_low by lia.
  Qed.
  Lemma features_high : forall i, i < 32 -> N.testbit (t1ha_ia32cpu_features c) (32 + i) = (7 <=? cpuid_max c) && N.testbit (leaf7_ebx c) i.
  Proof.
    intros i H. unfold t1ha_ia32cpu_features. rewrite N.lor_spec. unfold shl64, u64, u32. change W64 with (2 ^ 64). change W32 with (2 ^ 32).
    rewrite (N.mod_pow2_bits_low _ 64) by lia. rewrite N.shiftl_spec_high by lia.
    replace (32 + i - 32) with i by lia.
    assert (Z : N.testbit (if 1 <=? cpuid_max c then leaf1_ecx c mod 2 ^ 32 else 0) (32 + i) = false).
    { destruct (1 <=? cpuid_max c); [|apply N.bits_0]. apply N.mod_pow2_bits_high. lia. }
    rewrite Z. cbn [orb]. replace ((1 <=? cpuid_max c) && (7 <=? cpuid_max c)) with (7 <=? cpuid_max c) by lia.
    destruct (7 <=? cpuid_max c); cbn [andb]; [|apply N.bits_0]. now rewrite N.mod_pow2_bits_low by lia.
  Qed.
  Lemma land_pow2 : forall x i, (N.land x (2 ^ i) =? 0) = negb (N.testbit x i).
  Proof.
    intros x i. destruct (N.testbit x i) eqn:E; cbn [negb].
    - apply N.eqb_neq. intro Z. apply (f_equal (fun y => N.testbit y i)) in Z.
      rewrite N.land_spec, E, N.pow2_bits_true, N.bits_0 in Z. discriminate.
    - apply N.eqb_eq. apply N.bits_inj. intro k. rewrite N.land_spec, N.bits_0.
      destruct (N.eq_dec k i) as [->|NE]; [now rewrite E|]. rewrite N.pow2_bits_false by congruence. apply andb_false_r.
  Qed.
  Lemma aesni_avail_eq : t1ha_ia32_AESNI_avail (t1ha_ia32cpu_features c) = has_aes c.
  Proof.
    unfold t1ha_ia32_AESNI_avail, has_aes. change 0x02000000 with (2 ^ 25). rewrite land_pow2, negb_involutive.
    now apply features_low.
  Qed.
  Lemma avx_avail_eq : t1ha_ia32_AVX_avail (t1ha_ia32cpu_features c) = has_aes c && has_osxsave c && has_avx c.
  Proof.
    unfold t1ha_ia32_AVX_avail, has_aes, has_osxsave, has_avx.
    rewrite <- !features_low by lia. generalize (t1ha_ia32cpu_features c) as x. intro x.
    assert (M : 0x1A000000 = N.lor (2 ^ 25) (N.lor (2 ^ 27) (2 ^ 28))) by reflexivity.
    destruct (N.testbit x 25 && N.testbit x 27 && N.testbit x 28) eqn:E.
    - apply andb_prop in E. destruct E as (E & E28). apply andb_prop in E. destruct E as (E25 & E27).
      apply N.eqb_eq. apply N.bits_inj. intro k. rewrite N.land_spec.
      destruct (N.testbit 0x1A000000 k) eqn:K; [|apply andb_false_r]. rewrite andb_true_r.
      rewrite M, !N.lor_spec, !N.pow2_bits_eqb in K.
      destruct (25 =? k) eqn:Q25; [apply N.eqb_eq in Q25; now rewrite <- Q25|]. destruct (27 =? k) eqn:Q27; [apply N.eqb_eq in Q27; now rewrite <- Q27|].
      destruct (28 =? k) eqn:Q28; [apply N.eqb_eq in Q28; now rewrite <- Q28|]. discriminate.
    - apply N.eqb_neq. intro H. assert (B : forall k, N.testbit 0x1A000000 k = true -> N.testbit x k = true).
      { intros k K. rewrite <- H, N.land_spec in K. now apply andb_prop in K. }
      rewrite (B 25), (B 27), (B 28) in E by reflexivity. discriminate.
  Qed.
  Lemma avx2_avail_eq : t1ha_ia32_AVX2_avail (t1ha_ia32cpu_features c) = has_avx2 c.
  Proof.
    unfold t1ha_ia32_AVX2_avail, has_avx2. change 32 with (2 ^ 5) at 2. rewrite land_pow2, negb_involutive.
    unfold shr64. rewrite N.shiftr_spec by lia. rewrite N.add_comm.
    unfold u64. change W64 with (2 ^ 64). rewrite (N.mod_pow2_bits_low _ 64) by lia. now apply features_high.
  Qed.
End Features.

(** ** The choice *)
Definition avx_saved (c : cpu) : Prop := has_osxsave c = true -> N.testbit (xcr0 c) 1 = true /\ N.testbit (xcr0 c) 2 = true.

Lemma resolve_eq : forall b c, aesni_available b = true -> ia32 (base b) = true -> e2k b = false ->
  t1ha0_resolve b c =
  Some (if has_aes c then
          if has_osxsave c && has_avx c then if has_avx2 c then AesAvx2 else AesAvx else AesNoavx
        else portable_choice b).
Proof.
  intros b c A I E. unfold t1ha0_resolve. rewrite A, I, E. cbn [andb]. cbv zeta.
  rewrite aesni_avail_eq, avx_avail_eq, avx2_avail_eq. destruct (has_aes c); cbn [andb]; [|reflexivity].
  destruct (has_osxsave c && has_avx c); reflexivity.
Qed.
Lemma resolve_portable : forall b c, aesni_available b = false \/ ia32 (base b) = false ->
  t1ha0_resolve b c = Some (portable_choice b).
Proof. intros b c [H|H]; unfold t1ha0_resolve; rewrite H, ?andb_false_r; reflexivity. Qed.

(** either the AES branch or the portable one *)
Lemma resolve_cases : forall b c f, t1ha0_resolve b c = Some f ->
  f = portable_choice b \/
  (aesni_available b = true /\ ia32 (base b) = true /\ e2k b = false /\ has_aes c = true /\
   f = if has_osxsave c && has_avx c then if has_avx2 c then AesAvx2 else AesAvx else AesNoavx).
Proof.
  intros b c f H. destruct (aesni_available b) eqn:A; [|rewrite resolve_portable in H by auto; left; congruence].
  destruct (ia32 (base b)) eqn:I; [|rewrite resolve_portable in H by auto; left; congruence].
  destruct (e2k b) eqn:E; [unfold t1ha0_resolve in H; rewrite A, I, E in H; discriminate|].
  rewrite (resolve_eq b c A I E) in H. destruct (has_aes c); [right|left; congruence].
  repeat split; auto. congruence.
Qed.

Lemma portable_executes : forall b c, executes c (portable_choice b) = true.
Proof.
  intros b c. unfold portable_choice. destruct (wide (base b) && _), (negb (t1ha1_disabled b)), (big_endian (base b)); reflexivity.
Qed.
Lemma target_executes : forall b c f, avx_saved c -> t1ha0_target b c = Some f -> executes c f = true.
Proof.
  intros b c f X H. unfold t1ha0_target in H. destruct (t1ha0_disabled b); [discriminate|].
  destruct (runtime_select b).
  - apply resolve_cases in H. destruct H as [->|(_ & _ & _ & HA & ->)]; [apply portable_executes|].
    destruct (has_osxsave c) eqn:HO; cbn [andb]; [|exact HA]. destruct (has_avx c) eqn:HV; [|exact HA].
    destruct (X HO) as (X1 & X2).
    destruct (has_avx2 c) eqn:H2; cbn [executes]; unfold avx_enabled; rewrite HA, HV, HO, ?H2, X1, X2; reflexivity.
  - injection H as <-. apply portable_executes.
Qed.
