(** C80: XXH3 with multiple calls and the vector instructions of x86, ARM, POWER and z. *)
From Coq Require Import ZArith NArith Arith List Bool Lia Strings.Byte.
From Coq Require Import ZifyN ZifyNat ZifyBool.
From Verif Require Import Bytes CSem Bits Spec NBits CSemFacts OpsFacts FetchFacts KeyMem CtxMem StreamFacts SelfcheckSpec Demo
  HighwayFacts HighwayCat HighwayCxx HighwaySimd Xxhash XxhashSpec XxhashFacts XxhashStream PropXxhash Xxh3 Xxh3Spec Onto Xxh3Facts Xxh3Secret
  Xxh3State Xxh3Stream PropXxh3 PropXxh3Stream Xxh3Simd Xxh3SimdFacts Xxh3SimdSound Xxh3SimdLong Xxh3SimdEntry PropXxh3Simd
  Xxh3SimdState Xxh3SimdStream Xxh3SimdDigest.
Import ListNotations.
Ltac Zify.zify_post_hook ::= Z.div_mod_to_equations.
Local Open Scope N_scope.

(** ** The calls *)
(** Every call may be compiled for another variant, as when the variant is chosen at run
    time.  The ways to start and the values are those of C69. *)
Definition begin_v (cfg : config) (x3 : xxh3_build) (v : xxh_vector) (st : N) (how : start) (s : XXH3_state) : M (N * XXH3_state) :=
  match how with
  | Plain => reset_v cfg x3 st s
  | With_secret q sec => reset_withSecret_v cfg x3 st q (mlen sec) s
  | With_seed seed => reset_withSeed_v cfg x3 v st seed s
  end.
(** a variant, an address and the bytes there *)
Definition part : Type := xxh_vector * (N * list byte).
Definition bytes_of (chunks : list part) : list byte := flat_map (fun c => snd (snd c)) chunks.
Fixpoint feed_v (cfg : config) (x3 : xxh3_build) (st : N) (chunks : list part) (s : XXH3_state) : M (list N * XXH3_state) :=
  match chunks with
  | [] => ret ([], s)
  | (v, (p, l)) :: chunks => y <- update_v cfg x3 v st p (mlen l) s ;; z <- feed_v cfg x3 st chunks (snd y) ;; ret (fst y :: fst z, snd z)
  end.
(** both digests, some chunks, and both digests again *)
Definition stream_v (cfg : config) (x3 : xxh3_build) (v0 v1 v2 : xxh_vector) (local acc st : N) (how : start) (chunks more : list part) (s : XXH3_state)
  : M (list N * (N * two) * (N * two)) :=
  y <- begin_v cfg x3 v0 st how s ;;
  z <- feed_v cfg x3 st chunks (snd y) ;;
  h <- digest64_v cfg x3 v1 local acc st (snd z) ;;
  g <- digest128_v cfg x3 v1 local acc st (snd z) ;;
  z' <- feed_v cfg x3 st more (snd z) ;;
  h' <- digest64_v cfg x3 v2 local acc st (snd z') ;;
  g' <- digest128_v cfg x3 v2 local acc st (snd z') ;;
  ret (fst y :: fst z ++ fst z', (h, g), (h', g')).

(** ** Where things are *)
(** apart from the state and the local arrays *)
Definition away (local acc st p n : N) : Prop := apart st 512 p n /\ apart acc 64 p n /\ apart local 64 p n.
Definition part_in (cfg : config) (local acc st : N) (m : mem) (c : part) : Prop :=
  let '(v, (p, l)) := c in
  made_for cfg v /\ bytes_at m p l /\ p <> 0 /\ p + mlen l + 255 < addr_space cfg /\ away local acc st p (mlen l).
Definition key_in (cfg : config) (local acc st : N) (m : mem) (q : N) (sec : list byte) : Prop :=
  bytes_at m q sec /\ q <> 0 /\ q + mlen sec < addr_space cfg /\ away local acc st q (mlen sec).
Definition start_v (cfg : config) (x3 : xxh3_build) (local acc st : N) (m : mem) (how : start) : Prop :=
  match how with
  | Plain => key_in cfg local acc st m (x3_kSecret x3) XXH3_kSecret_bytes
  | With_secret q sec => 136 <= mlen sec /\ key_in cfg local acc st m q sec
  | With_seed seed => seed < 2 ^ 64 /\ key_in cfg local acc st m (x3_kSecret x3) XXH3_kSecret_bytes /\ x3_kSecret x3 mod 64 = 0
  end.
(** the state, which is a multiple of 64 (tests/xxhash/xxhash.h:551-571), and the local arrays of the digests *)
Definition state_v (cfg : config) (v1 v2 : xxh_vector) (local acc st : N) (m : mem) : Prop :=
  (mapped m st 512 /\ st + 512 < addr_space cfg /\ st <> 0 /\ st mod 64 = 0) /\
  (mapped m acc 64 /\ acc + 64 < addr_space cfg /\ acc <> 0 /\ acc mod XXH_ACC_ALIGN v1 = 0 /\ acc mod XXH_ACC_ALIGN v2 = 0) /\
  (mapped m local 64 /\ local + 64 < addr_space cfg /\ local <> 0) /\
  apart acc 64 st 512 /\ apart local 64 st 512 /\ apart acc 64 local 64.
(** nothing but these is written *)
Definition only_v (local acc st : N) (m m' : mem) : Prop :=
  (forall a, a < st \/ st + 512 <= a -> a < acc \/ acc + 64 <= a -> a < local \/ local + 64 <= a -> m' a = m a) /\
  (forall a, m a <> None -> m' a <> None).

Section Calls.
  Variable (cfg : config) (x3 : xxh3_build).
  Hypothesis Hd : xxh_force_memory_access (x3_xxh x3) <> 2.
  Variables (local acc st : N) (q : N) (sec : list byte) (seed ext : N).
  Hypothesis (Hz : 136 <= mlen sec) (Hst : st + 512 < addr_space cfg) (Hst0 : st <> 0) (Hs64 : st mod 64 = 0).
  Hypothesis (Hext : (if ext =? 0 then st + 64 else ext) = q) (Hq0 : q <> 0).
  Hypothesis (Hap : apart (st + 256) 256 q (mlen sec)) (Hsq : apart_from st q (mlen sec)) (Haq : apart_from acc q (mlen sec)) (Hlq : apart local 64 q (mlen sec)).
  Hypothesis (Ha0 : acc <> 0) (Haa : acc + 64 < addr_space cfg) (Hl0 : local <> 0) (Hla : local + 64 < addr_space cfg).
  Hypothesis (Hast : apart acc 64 st 512) (Hlst : apart local 64 st 512) (Hal : apart acc 64 local 64).
  Hypothesis (Hk : seed <> 0 -> x3_kSecret x3 <> 0 /\ away local acc st (x3_kSecret x3) 192).

  (** what is written now: the secret in the state is not *)
  Definition step_v (m m' : mem) : Prop :=
    (forall a, a < st \/ st + 64 <= a -> a < st + 256 \/ st + 512 <= a -> a < acc \/ acc + 64 <= a -> a < local \/ local + 64 <= a -> m' a = m a) /\
    (forall a, m a <> None -> m' a <> None).
  Lemma step_v_refl : forall m, step_v m m.
  Proof. intro m. split; auto. Qed.
  Lemma step_v_trans : forall a b c, step_v a b -> step_v b c -> step_v a c.
  Proof. intros a b c [H1 H2] [H3 H4]. split; [|auto]. intros k K1 K2 K3 K4. rewrite H3 by assumption. now apply H1. Qed.
  Lemma step_v_state : forall m m', only2 m m' st 64 (st + 256) 256 -> step_v m m'.
  Proof. intros m m' [H1 H2]. split; [|exact H2]. intros a A1 A2 _ _. apply H1; [exact A1|lia]. Qed.
  Lemma step_v_local : forall m m', only2 m m' acc 64 local 64 -> step_v m m'.
  Proof. intros m m' [H1 H2]. split; [|exact H2]. intros a _ _ A1 A2. now apply H1. Qed.
  Lemma step_v_bytes : forall m m' p l, step_v m m' -> apart_from st p (mlen l) -> apart (st + 256) 256 p (mlen l) -> apart_from acc p (mlen l) ->
    apart local 64 p (mlen l) -> bytes_at m p l -> bytes_at m' p l.
  Proof.
    intros m m' p l [H _] A1 A2 A3 A4 B i b E. assert (I : (i < length l)%nat) by (apply nth_error_Some; rewrite E; discriminate).
    unfold apart, apart_from, mlen in *. rewrite H; [now apply B|clear - A1 I; lia|clear - A2 I; lia|clear - A3 I; lia|clear - A4 I; lia].
  Qed.
  Lemma away_bytes : forall m m' p l, step_v m m' -> away local acc st p (mlen l) -> bytes_at m p l -> bytes_at m' p l.
  Proof.
    intros m m' p l S (A1 & A2 & A3) B. apply (step_v_bytes m); auto; [clear - A1|clear - A1]; unfold apart, apart_from in *; lia.
  Qed.
  Lemma step_v_parts : forall m m' l, step_v m m' -> Forall (part_in cfg local acc st m) l -> Forall (part_in cfg local acc st m') l.
  Proof.
    intros m m' l S F. eapply Forall_impl; [|exact F]. intros [v [p k]] (A0 & A1 & A2 & A3 & A4).
    split; [exact A0|]. split; [now apply (away_bytes m)|]. split; [exact A2|]. split; assumption.
  Qed.

  Definition rest_v (m : mem) : Prop :=
    here cfg m q sec /\ mapped m acc 64 /\ mapped m local 64 /\ (seed <> 0 -> here cfg m (x3_kSecret x3) default_secret).
  Definition inv_v (msg : list byte) (s : XXH3_state) (m : mem) : Prop := fed_v cfg sec seed ext st msg s m /\ rest_v m.
  Lemma step_v_rest : forall m m', step_v m m' -> rest_v m -> rest_v m'.
  Proof.
    intros m m' S (A & B & C & D). split; [|split; [|split]].
    - split; [apply (step_v_bytes m); auto; apply A|apply A].
    - intros i I. apply (proj2 S). now apply B.
    - intros i I. apply (proj2 S). now apply C.
    - intro Z. destruct (Hk Z) as (K0 & K1). destruct (D Z) as [D1 D2]. split; [|exact D2].
      apply (away_bytes m); [exact S| |exact D1]. rewrite default_length. exact K1.
  Qed.
  Lemma feed_v_ok : forall chunks msg s m, inv_v msg s m -> Forall (part_in cfg local acc st m) chunks -> mlen (msg ++ bytes_of chunks) < 2 ^ 64 ->
    exists s' m', feed_v cfg x3 st chunks s m = Ok ((repeat XXH_OK (length chunks), s'), m') /\ inv_v (msg ++ bytes_of chunks) s' m' /\ step_v m m'.
  Proof.
    induction chunks as [|[v [p l]] chunks IH]; intros msg s m I F T.
    - exists s, m. cbn [feed_v bytes_of flat_map length repeat]. rewrite app_nil_r. split; [reflexivity|]. split; [exact I|apply step_v_refl].
    - apply Forall_cons_iff in F. destruct F as [(A0 & A1 & A2 & A3 & A4) F2]. cbn [feed_v]. destruct I as (I1 & I2).
      cbn [bytes_of flat_map snd] in T. rewrite app_assoc in T. change (flat_map (fun c => snd (snd c)) chunks) with (bytes_of chunks) in T.
      assert (Hl : here cfg m p l) by (split; [exact A1|clear - A3; lia]).
      destruct (update_v_ok cfg x3 v Hd (made_fits cfg v A0) q sec Hz seed ext st Hst Hst0 (acc_aligned v st Hs64) Hext Hap Hsq msg s m p l I1 Hl (proj1 I2) A2 A3 (proj1 A4))
        as (s1 & m1 & E1 & S1 & O1).
      { pose proof (mlen_app (msg ++ l) (bytes_of chunks)) as ML. clear - T ML. lia. }
      ok E1. cbn [fst snd]. apply step_v_state in O1.
      destruct (IH (msg ++ l) s1 m1) as (s2 & m2 & E2 & S2 & O2).
      { split; [exact S1|]. now apply (step_v_rest m). }
      { now apply (step_v_parts m). }
      { exact T. }
      ok E2. cbn [fst snd]. exists s2, m2. cbn [length repeat bytes_of flat_map snd]. rewrite app_assoc.
      split; [reflexivity|]. split; [exact S2|]. now apply step_v_trans with m1.
  Qed.
  Lemma fed_v_local : forall msg s m m', only2 m m' acc 64 local 64 -> fed_v cfg sec seed ext st msg s m -> fed_v cfg sec seed ext st msg s m'.
  Proof.
    intros msg s m m' O (C & d & t & F1 & F2 & F3 & F4 & F5 & F5' & F6 & F7 & F8). exists C, d, t. do 5 (split; [assumption|]).
    unfold apart in Hast, Hlst. split; [|split; [|split]].
    - destruct (accs_len _ _ _ _ F5') as [LA _]. split; [|exact (proj2 F5')].
      apply (only2_here cfg m m' acc 64 local 64); [exact O| | |exact (proj1 F5')]; rewrite LA; unfold apart; [clear - Hast|clear - Hlst]; lia.
    - eapply only2_bytes; [exact O| | |exact F6]; unfold apart; [clear - Hast F3|clear - Hlst F3]; lia.
    - intros L d0 e D E. eapply only2_bytes; [exact O| | |exact (F7 L d0 e D E)]; unfold apart; rewrite E; [clear - Hast|clear - Hlst]; lia.
    - eapply only2_mapped; [exact O|exact F8].
  Qed.
  Lemma digests_v_ok : forall v msg s m, made_for cfg v -> acc mod XXH_ACC_ALIGN v = 0 -> inv_v msg s m -> mlen msg < 2 ^ 64 -> (asserting cfg x3 = true -> mlen msg <> 8) ->
    exists m1 m2,
      digest64_v cfg x3 v local acc st s m = Ok (if seed =? 0 then xxh3_64_secret sec msg else xxh3_64 default_secret sec seed msg, m1) /\
      digest128_v cfg x3 v local acc st s m1 = Ok (if seed =? 0 then xxh3_128_secret sec msg else xxh3_128 default_secret sec seed msg, m2) /\
      inv_v msg s m2 /\ step_v m m2.
  Proof.
    intros v msg s m Fv Av (I1 & I2) T A. assert (K0 : seed <> 0 -> x3_kSecret x3 <> 0) by (intro Z; now apply Hk). apply made_fits in Fv.
    destruct (digest64_v_ok cfg x3 v Hd Fv q sec Hz seed ext st Hst Hst0 Hext acc local Ha0 Haa Av Hl0 Hla Hast Haq Hlst Hlq Hal K0 msg s m I1
      (proj1 I2) (proj1 (proj2 I2)) (proj1 (proj2 (proj2 I2))) Hq0 T (proj2 (proj2 (proj2 I2))) A) as (m1 & E1 & O1).
    pose proof (fed_v_local msg s m m1 O1 I1) as J1. pose proof (step_v_rest m m1 (step_v_local _ _ O1) I2) as J2.
    destruct (digest128_v_ok cfg x3 v Hd Fv q sec Hz seed ext st Hst Hst0 Hext acc local Ha0 Haa Av Hl0 Hla Hast Haq Hlst Hlq Hal K0 msg s m1 J1
      (proj1 J2) (proj1 (proj2 J2)) (proj1 (proj2 (proj2 J2))) Hq0 T (proj2 (proj2 (proj2 J2)))) as (m2 & E2 & O2).
    exists m1, m2. split; [exact E1|]. split; [exact E2|]. split.
    - split; [exact (fed_v_local msg s m1 m2 O2 J1)|]. exact (step_v_rest m1 m2 (step_v_local _ _ O2) J2).
    - apply step_v_trans with m1; now apply step_v_local.
  Qed.

  (** everything after the start *)
  Lemma calls_v_ok : forall v1 v2 how chunks more s1 m1, made_for cfg v1 -> made_for cfg v2 -> acc mod XXH_ACC_ALIGN v1 = 0 -> acc mod XXH_ACC_ALIGN v2 = 0 ->
    (forall msg, (if seed =? 0 then xxh3_64_secret sec msg else xxh3_64 default_secret sec seed msg) = value64 how msg) ->
    (forall msg, (if seed =? 0 then xxh3_128_secret sec msg else xxh3_128 default_secret sec seed msg) = value128 how msg) ->
    inv_v [] s1 m1 -> Forall (part_in cfg local acc st m1) (chunks ++ more) -> mlen (bytes_of (chunks ++ more)) < 2 ^ 64 ->
    (asserting cfg x3 = true -> mlen (bytes_of chunks) <> 8 /\ mlen (bytes_of (chunks ++ more)) <> 8) ->
    exists m', (z <- feed_v cfg x3 st chunks s1 ;;
      h <- digest64_v cfg x3 v1 local acc st (snd z) ;;
      g <- digest128_v cfg x3 v1 local acc st (snd z) ;;
      z' <- feed_v cfg x3 st more (snd z) ;;
      h' <- digest64_v cfg x3 v2 local acc st (snd z') ;;
      g' <- digest128_v cfg x3 v2 local acc st (snd z') ;;
      ret (XXH_OK :: fst z ++ fst z', (h, g), (h', g'))) m1 =
      Ok ((repeat XXH_OK (S (length (chunks ++ more))),
           (value64 how (bytes_of chunks), value128 how (bytes_of chunks)),
           (value64 how (bytes_of (chunks ++ more)), value128 how (bytes_of (chunks ++ more)))), m') /\ step_v m1 m'.
  Proof.
    intros v1 v2 how chunks more s1 m1 F1 F2 A1 A2 V64 V128 I1 F T A.
    assert (CA : bytes_of (chunks ++ more) = bytes_of chunks ++ bytes_of more) by apply flat_map_app. rewrite CA in *.
    assert (TC : mlen (bytes_of chunks) < 2 ^ 64) by (rewrite mlen_app in T; clear - T; lia).
    apply Forall_app in F. destruct F as [N1 N2].
    destruct (feed_v_ok chunks [] s1 m1 I1 N1 TC) as (s2 & m2 & E2 & I2 & O2). ok E2. cbn [fst snd app] in *.
    destruct (digests_v_ok v1 (bytes_of chunks) s2 m2 F1 A1 I2 TC (fun H => proj1 (A H))) as (m3 & m4 & E3 & E4 & I4 & O4). ok E3. ok E4.
    destruct (feed_v_ok more _ s2 m4 I4 (step_v_parts _ _ _ O4 (step_v_parts _ _ _ O2 N2)) T) as (s5 & m5 & E5 & I5 & O5). ok E5. cbn [fst snd].
    destruct (digests_v_ok v2 _ s5 m5 F2 A2 I5 T (fun H => proj2 (A H))) as (m6 & m7 & E6 & E7 & I7 & O7). ok E6. ok E7.
    exists m7. rewrite !V64, !V128. split.
    - rewrite app_length, <- repeat_app. reflexivity.
    - eapply step_v_trans; [exact O2|]. eapply step_v_trans; [exact O4|]. eapply step_v_trans; [exact O5|exact O7].
  Qed.
End Calls.

(** ** The value *)
(** Whatever variants the calls are compiled for, the digests are the value of one call, and
    of C69: a state is the same for all of them. *)
Theorem C80_stream : forall cfg x3 v0 v1 v2 local acc st how chunks more s m, xxh_force_memory_access (x3_xxh x3) <> 2 ->
  made_for cfg v0 -> made_for cfg v1 -> made_for cfg v2 ->
  state_v cfg v1 v2 local acc st m -> start_v cfg x3 local acc st m how -> Forall (part_in cfg local acc st m) (chunks ++ more) ->
  mlen (bytes_of (chunks ++ more)) < 2 ^ 64 ->
  (asserting cfg x3 = true -> mlen (bytes_of chunks) <> 8 /\ mlen (bytes_of (chunks ++ more)) <> 8) ->
  exists m', stream_v cfg x3 v0 v1 v2 local acc st how chunks more s m =
      Ok ((repeat XXH_OK (S (length (chunks ++ more))),
           (value64 how (bytes_of chunks), value128 how (bytes_of chunks)),
           (value64 how (bytes_of (chunks ++ more)), value128 how (bytes_of (chunks ++ more)))), m') /\
    only_v local acc st m m'.
Proof.
  intros cfg x3 v0 v1 v2 local acc st how chunks more s m D F0 F1 F2 ((M1 & M2 & M3 & M4) & (M5 & M6 & M7 & M8 & M9) & (M10 & M11 & M12) & P1 & P2 & P3) HS F T A.
  assert (KL : mlen default_secret = 192) by apply default_length.
  assert (X : exists q sec seed ext s1 m1,
    begin_v cfg x3 v0 st how s m = Ok ((XXH_OK, s1), m1) /\ inv_v cfg x3 local acc st q sec seed ext [] s1 m1 /\ only m m1 st 512 /\
    (forall msg, (if seed =? 0 then xxh3_64_secret sec msg else xxh3_64 default_secret sec seed msg) = value64 how msg) /\
    (forall msg, (if seed =? 0 then xxh3_128_secret sec msg else xxh3_128 default_secret sec seed msg) = value128 how msg) /\
    136 <= mlen sec /\ (if ext =? 0 then st + 64 else ext) = q /\ q <> 0 /\
    (apart (st + 256) 256 q (mlen sec) /\ apart_from st q (mlen sec) /\ apart_from acc q (mlen sec) /\ apart local 64 q (mlen sec)) /\
    (seed <> 0 -> x3_kSecret x3 <> 0 /\ away local acc st (x3_kSecret x3) 192)).
  { assert (OUT : forall q sec m1, key_in cfg local acc st m q sec -> only m m1 st 512 ->
      here cfg m1 q sec /\ apart (st + 256) 256 q (mlen sec) /\ apart_from st q (mlen sec) /\ apart_from acc q (mlen sec) /\ apart local 64 q (mlen sec)).
    { intros q sec m1 (K1 & K2 & K3 & K4 & K5 & K6) O. split; [apply (only_here cfg m m1 st 512); [exact O|clear - K4; unfold apart in K4; lia|split; assumption]|].
      split; [clear - K4; unfold apart in *; lia|]. split; [clear - K4; unfold apart, apart_from in *; lia|]. split; [exact K5|exact K6]. }
    destruct how as [|q sec|seed]; cbn [begin_v start_v value64 value128] in *.
    - rewrite kSecret_default in HS. pose proof HS as (K1 & K2 & K3 & K4).
      destruct (reset_v_ok cfg x3 v0 D (made_fits cfg v0 F0) st m M2 M3 M1 M4 s K2) as (s1 & m1 & E & FE & O).
      exists (x3_kSecret x3), default_secret, 0, (x3_kSecret x3), s1, m1. destruct (OUT _ _ m1 HS O) as (HE & Q). split; [exact E|]. split; [|split; [exact O|]].
      + split; [exact FE|]. split; [exact HE|]. split; [exact (only_mapped _ _ _ _ _ _ O M5)|]. split; [exact (only_mapped _ _ _ _ _ _ O M10)|].
        intro Z. now destruct Z.
      + split; [reflexivity|]. split; [reflexivity|]. split; [rewrite KL; discriminate|].
        split; [destruct (N.eqb_spec (x3_kSecret x3) 0); [contradiction|reflexivity]|]. split; [exact K2|]. split; [exact Q|]. intro Z. now destruct Z.
    - destruct HS as (Z & HS). pose proof HS as (K1 & K2 & K3 & K4).
      destruct (reset_secret_v_ok cfg x3 v0 D (made_fits cfg v0 F0) st m M2 M3 M1 M4 s q sec Z K2) as (s1 & m1 & E & FE & O); [clear - K3; lia|].
      exists q, sec, 0, q, s1, m1. destruct (OUT _ _ m1 HS O) as (HE & Q). split; [exact E|]. split; [|split; [exact O|]].
      + split; [exact FE|]. split; [exact HE|]. split; [exact (only_mapped _ _ _ _ _ _ O M5)|]. split; [exact (only_mapped _ _ _ _ _ _ O M10)|].
        intro Z0. now destruct Z0.
      + split; [reflexivity|]. split; [reflexivity|]. split; [exact Z|].
        split; [destruct (N.eqb_spec q 0); [contradiction|reflexivity]|]. split; [exact K2|]. split; [exact Q|]. intro Z0. now destruct Z0.
    - rewrite kSecret_default in HS. destruct HS as (SB & HS & AK). pose proof HS as (K1 & K2 & K3 & K4). rewrite KL in K3, K4.
      assert (HK : here cfg m (x3_kSecret x3) default_secret) by (split; [exact K1|rewrite KL; exact K3]).
      destruct (reset_seed_v_ok cfg x3 v0 D (made_fits cfg v0 F0) st m M2 M3 M1 M4 s seed K2 HK (proj1 K4) SB AK) as (s1 & m1 & E & FE & HC & O).
      assert (CL : mlen (custom_secret seed) = 192) by (unfold mlen; now rewrite custom_length). destruct (OUT _ _ m1 HS O) as (HE & _).
      exists (st + 64), (custom_secret seed), seed, 0, s1, m1. split; [exact E|]. split; [|split; [exact O|]].
      + split; [exact FE|]. split; [exact HC|]. split; [exact (only_mapped _ _ _ _ _ _ O M5)|]. split; [exact (only_mapped _ _ _ _ _ _ O M10)|].
        intros _. exact HE.
      + split; [intro msg; destruct (N.eqb_spec seed 0) as [->|_]; [rewrite custom_0; reflexivity|reflexivity]|].
        split; [intro msg; destruct (N.eqb_spec seed 0) as [->|_]; [rewrite custom_0; reflexivity|reflexivity]|].
        rewrite CL. split; [discriminate|]. split; [reflexivity|]. split; [clear; lia|].
        split; [|intros _; split; [exact K2|exact K4]]. unfold apart, apart_from in *.
        split; [right; clear; lia|]. split; [left; clear; lia|]. split; [clear - P1; lia|clear - P2; lia]. }
  destruct X as (q & sec & seed & ext & s1 & m1 & E1 & I1 & O1 & V64 & V128 & Z & HE & Q0 & (Q1 & Q2 & Q3 & Q4) & HK).
  assert (N1 : Forall (part_in cfg local acc st m1) (chunks ++ more)).
  { eapply Forall_impl; [|exact F]. intros [v [p l]] (A0 & A1 & A2 & A3 & A4). split; [exact A0|]. split; [|split; [exact A2|split; assumption]].
    apply (only_bytes m m1 st 512); [exact O1|destruct A4 as [A4 _]; clear - A4; unfold apart in A4; lia|exact A1]. }
  unfold stream_v. ok E1. cbn [fst snd].
  destruct (calls_v_ok cfg x3 D local acc st q sec seed ext Z M2 M3 M4 HE Q0 Q1 Q2 Q3 Q4 M7 M6 M12 M11 P1 P2 P3 HK v1 v2 how chunks more s1 m1
    F1 F2 M8 M9 V64 V128 I1 N1 T A) as (m' & E & O).
  exists m'. split; [exact E|]. destruct O as [OA OB], O1 as [OC OD]. split; [|auto]. intros a H1 H2 H3.
  rewrite OA; [apply OC; exact H1|clear - H1; lia|clear - H1; lia|exact H2|exact H3].
Qed.
Print Assumptions C80_stream.

(** ** What alignment is for *)
(** A state in memory that malloc returned has an alignment of 16 or less; the type asks for
    64 (tests/xxhash/xxhash.h:556-559), and XXH3_createState gets it.  The first 257 bytes go through any other
    state into accesses that are not aligned: these have no defined behaviour, where the
    one-shot functions have no such obligation of the caller. *)
Lemma stop_abort {A B} (f : M A) (g : A -> M B) m : f m = Abort -> bind f g m = Abort.
Proof. intro H. unfold bind. now rewrite H. Qed.
Lemma stop_undef {A B} (f : M A) (g : A -> M B) m u : f m = Undef u -> bind f g m = Undef u.
Proof. intro H. unfold bind. now rewrite H. Qed.
Theorem C80_misaligned : forall cfg x3 v m st p len s, v <> XXH_SCALAR -> st mod XXH_ACC_ALIGN v <> 0 -> st < addr_space cfg ->
  s3_bufferedSize s = 0 -> s3_nbStripesSoFar s = 0 -> 4 < s3_nbStripesPerBlock s < addr_space cfg ->
  mapped m (secret_of cfg st s) 64 -> secret_of cfg st s + 64 < addr_space cfg ->
  256 < len -> p <> 0 -> mapped m p 64 -> p + len < addr_space cfg ->
  (asserting cfg x3 = true -> v <> XXH_VSX -> update_v cfg x3 v st p len s m = Abort) /\
  (asserting cfg x3 = false \/ v = XXH_VSX -> update_v cfg x3 v st p len s m = Undef MisalignedAccess).
Proof.
  intros cfg x3 v m st p len s NS A SA B0 F0 NB MS SS L P MP SP.
  set (X := f_accumulate_512 cfg x3 v st p (secret_of cfg st s) m).
  assert (U : exists K, update_v cfg x3 v st p len s m = bind (f_accumulate_512 cfg x3 v st p (secret_of cfg st s)) K m).
  { eexists. unfold update_v. replace (p =? 0) with false by lia. unfold XXH3_INTERNALBUFFER_SIZE, XXH3_INTERNALBUFFER_STRIPES. cbv zeta. rewrite B0, F0.
    rewrite !(padd_small cfg 0), (padd_small cfg p len) by lia. replace (0 + len <=? 256) with false by lia. cbn [N.eqb negb]. rewrite bind_ret.
    cbn [fst snd]. ok (ASSERT_ok cfg x3 (p <? p + len) m ltac:(intros _; lia)).
    rewrite (padd_small cfg p 256) by lia. replace (p + 256 <? p + len) with true by lia. cbn [do_while]. rewrite !bind_assoc. cbn [fst snd].
    unfold consumeStripes_v at 1. cbv zeta. rewrite !bind_assoc. ok (ASSERT_ok cfg x3 (4 <=? s3_nbStripesPerBlock s) m ltac:(intros _; lia)).
    rewrite !bind_assoc. ok (ASSERT_ok cfg x3 (0 <? s3_nbStripesPerBlock s) m ltac:(intros _; lia)).
    rewrite (psub_small cfg (s3_nbStripesPerBlock s) 0) by lia. replace (s3_nbStripesPerBlock s - 0 <=? 4) with false by lia.
    rewrite !bind_assoc. unfold accumulate_mem. change (N.to_nat 4) with 4%nat. cbn [for_loop]. rewrite !bind_assoc. rewrite !N.mul_0_l.
    rewrite (padd_small cfg p 0), !(padd_small cfg (secret_of cfg st s) 0), !N.add_0_r by (rewrite ?padd_small; lia).
    rewrite ?(padd_small cfg (secret_of cfg st s) 0), ?N.add_0_r by lia. reflexivity. }
  destruct U as [K U].
  destruct (C76_misaligned cfg x3 v m st p (secret_of cfg st s) NS A) as [M1 M2]. fold X in M1, M2. split.
  - intros HA NV. destruct (M1 HA) as [E _]. specialize (E NV). rewrite U. now apply stop_abort.
  - intros HA. specialize (M2 HA MP ltac:(lia) MS SS SA). rewrite U. now apply stop_undef.
Qed.
Print Assumptions C80_misaligned.

(** ** Cases *)
(** the stream of C69_case, where each call is compiled for another variant: on x86 with AVX512, AVX2, SSE2 and the
    scalar functions; VSX and the scalar functions on a big-endian machine with assertions *)
Lemma seed64 : forall seed msg, value64 (With_seed seed) msg = xxh3_64_seed seed msg.
Proof. reflexivity. Qed.
Lemma seed128 : forall seed msg, value128 (With_seed seed) msg = xxh3_128_seed seed msg.
Proof. reflexivity. Qed.
Lemma x3_stream_v : forall cfg x3 v0 v1 v2 v3, xxh_force_memory_access (x3_xxh x3) <> 2 -> x3_kSecret x3 = 4096 ->
  made_for cfg v0 -> made_for cfg v1 -> made_for cfg v2 -> made_for cfg v3 -> exists m',
  stream_v cfg x3 v0 v1 v2 8192 8448 12288 (With_seed 5)
    [(v3, (20001, firstn 300 (Demo.key 1200))); (v1, (30000, [])); (v2, (20301, firstn 400 (skipn 300 (Demo.key 1200))))]
    [(v0, (20701, skipn 700 (Demo.key 1200)))] (S3 [] 1 2 3 4 5 6 7) x3_mem =
    Ok (([0; 0; 0; 0; 0],
         (xxh3_64_seed 5 (firstn 700 (Demo.key 1200)), xxh3_128_seed 5 (firstn 700 (Demo.key 1200))),
         (xxh3_64_seed 5 (Demo.key 1200), xxh3_128_seed 5 (Demo.key 1200))), m') /\
  only_v 8192 8448 12288 x3_mem m'.
Proof.
  intros cfg x3 v0 v1 v2 v3 D K F0 F1 F2 F3. destruct x3_contents as [C1 C2].
  assert (L : mlen (Demo.key 1200) = 1200) by (unfold mlen; now rewrite key_length).
  assert (A : 40000 < addr_space cfg) by (unfold addr_space; destruct (ptr64 cfg); reflexivity).
  assert (Hm : bytes_at x3_mem 20001 (Demo.key 1200)).
  { unfold x3_mem. apply write_bytes_at_other; [right; discriminate|apply write_bytes_at]. }
  assert (Hk : bytes_at x3_mem 4096 XXH3_kSecret_bytes) by apply write_bytes_at.
  assert (Hl : forall p n, mapped x3_mem p n).
  { intros p n. unfold x3_mem. apply write_mapped. unfold sea. apply write_mapped. intros i _. discriminate. }
  set (chunks := [(v3, (20001, firstn 300 (Demo.key 1200))); (v1, (30000, [])); (v2, (20301, firstn 400 (skipn 300 (Demo.key 1200))))]).
  set (more := [(v0, (20701, skipn 700 (Demo.key 1200)))]).
  assert (B1 : bytes_of chunks = firstn 700 (Demo.key 1200)) by (rewrite <- C1; reflexivity).
  assert (B2 : bytes_of (@app part chunks more) = Demo.key 1200) by (rewrite <- C2; reflexivity).
  destruct (C80_stream cfg x3 v0 v1 v2 8192 8448 12288 (With_seed 5) chunks more (S3 [] 1 2 3 4 5 6 7) x3_mem D F0 F1 F2) as (m' & E & O).
  - unfold state_v, apart. repeat split; try apply Hl; try lia; [destruct v1|destruct v2]; reflexivity.
  - cbn [start_v]. rewrite K. split; [reflexivity|]. split; [|reflexivity]. split; [exact Hk|]. split; [discriminate|].
    change (mlen XXH3_kSecret_bytes) with 192. unfold away, apart. repeat split; lia.
  - assert (CUT : Demo.key 1200 = firstn 300 (Demo.key 1200) ++ (firstn 400 (skipn 300 (Demo.key 1200)) ++ skipn 700 (Demo.key 1200))).
    { vm_compute. reflexivity. }
    rewrite CUT in Hm. apply bytes_at_app in Hm. destruct Hm as [H1 H2]. apply bytes_at_app in H2. destruct H2 as [H2 H3].
    assert (L1 : mlen (firstn 300 (Demo.key 1200)) = 300) by (unfold mlen; rewrite firstn_length, key_length; reflexivity).
    assert (L2 : mlen (firstn 400 (skipn 300 (Demo.key 1200))) = 400) by (unfold mlen; rewrite firstn_length, skipn_length, key_length; reflexivity).
    assert (L3 : mlen (skipn 700 (Demo.key 1200)) = 500) by (unfold mlen; rewrite skipn_length, key_length; reflexivity).
    unfold mlen in L1, L2. rewrite L1 in H2, H3. rewrite L2 in H3. fold (mlen (firstn 300 (Demo.key 1200))) in L1.
    fold (mlen (firstn 400 (skipn 300 (Demo.key 1200)))) in L2.
    cbn [chunks more app]. repeat apply Forall_cons; try apply Forall_nil; (split; [assumption|]); unfold away, apart; rewrite ?L1, ?L2, ?L3; change (mlen []) with 0;
      repeat split; try lia; try assumption. apply bytes_at_nil.
  - rewrite B2, L. reflexivity.
  - intros _. rewrite B1, B2, L. unfold mlen. rewrite firstn_length, key_length. split; discriminate.
  - exists m'. rewrite B1, B2 in E. split; [|exact O].
    assert (R : repeat XXH_OK (S (length (@app part chunks more))) = [0; 0; 0; 0; 0]) by reflexivity. rewrite R, !seed64, !seed128 in E. exact E.
Qed.
Example C80_case : exists m1 m2 n1 n2,
  stream_v x86_64 x3_demo XXH_AVX512 XXH_AVX2 XXH_SSE2 8192 8448 12288 (With_seed 5)
    [(XXH_SCALAR, (20001, firstn 300 (Demo.key 1200))); (XXH_AVX2, (30000, [])); (XXH_SSE2, (20301, firstn 400 (skipn 300 (Demo.key 1200))))]
    [(XXH_AVX512, (20701, skipn 700 (Demo.key 1200)))] (S3 [] 1 2 3 4 5 6 7) x3_mem = Ok (([0; 0; 0; 0; 0], n1, n2), m1) /\
  stream_v sparc64 x3_sparc XXH_VSX XXH_VSX XXH_SCALAR 8192 8448 12288 (With_seed 5)
    [(XXH_SCALAR, (20001, firstn 300 (Demo.key 1200))); (XXH_VSX, (30000, [])); (XXH_SCALAR, (20301, firstn 400 (skipn 300 (Demo.key 1200))))]
    [(XXH_VSX, (20701, skipn 700 (Demo.key 1200)))] (S3 [] 1 2 3 4 5 6 7) x3_mem = Ok (([0; 0; 0; 0; 0], n1, n2), m2).
Proof.
  destruct (x3_stream_v x86_64 x3_demo XXH_AVX512 XXH_AVX2 XXH_SSE2 XXH_SCALAR) as (m1 & E1 & _);
    [discriminate|reflexivity|right; right; reflexivity|right; right; reflexivity|right; right; reflexivity|left; reflexivity|].
  destruct (x3_stream_v sparc64 x3_sparc XXH_VSX XXH_VSX XXH_SCALAR XXH_SCALAR) as (m2 & E2 & _);
    [discriminate|reflexivity|right; left; reflexivity|right; left; reflexivity|left; reflexivity|left; reflexivity|].
  exists m1, m2. eexists _, _. exact (conj E1 E2).
Qed.
(** a state at 16 more than a multiple of 32, with the default secret *)
Example C80_misaligned_case : update_v x86_64 x3_demo XXH_AVX2 12304 20001 300 (S3 [] 0 16 0 128 0 0 4096) x3_mem = Undef MisalignedAccess /\
  update_v sparc64 x3_sparc XXH_VSX 12296 20001 300 (S3 [] 0 16 0 128 0 0 4096) x3_mem = Undef MisalignedAccess.
Proof.
  assert (M : forall r, mapped x3_mem r 64) by (intro r; unfold x3_mem; apply write_mapped; unfold sea; apply write_mapped; intros i _; discriminate).
  split; apply C80_misaligned; try discriminate; try reflexivity; try apply M; try (left; reflexivity); try (right; reflexivity); split; reflexivity.
Qed.
