(** C69: XXH3 with multiple calls. *)
From Coq Require Import ZArith NArith Arith List Bool Lia Strings.Byte.
From Coq Require Import ZifyN ZifyNat ZifyBool.
From Verif Require Import Bytes CSem Bits Spec NBits CSemFacts OpsFacts FetchFacts KeyMem CtxMem StreamFacts SelfcheckSpec Demo
  HighwayCat Xxhash XxhashSpec XxhashFacts XxhashStream PropXxhash Xxh3 Xxh3Spec Xxh3Facts Xxh3Secret Xxh3State Xxh3Stream PropXxh3.
Import ListNotations.
Ltac Zify.zify_post_hook ::= Z.div_mod_to_equations.
Local Open Scope N_scope.

(** ** The calls *)
(** how a state is started: with nothing, a secret somewhere, or a seed *)
Inductive start : Type :=
| Plain
| With_secret (q : N) (sec : list byte)
| With_seed (seed : N).
Definition begin3 (cfg : config) (x3 : xxh3_build) (st : N) (how : start) (s : XXH3_state) : M (N * XXH3_state) :=
  match how with
  | Plain => XXH3_64bits_reset cfg x3 st s
  | With_secret q sec => XXH3_64bits_reset_withSecret cfg x3 st q (mlen sec) s
  | With_seed seed => XXH3_64bits_reset_withSeed cfg x3 st seed s
  end.
(** what one call returns for the message *)
Definition value64 (how : start) (msg : list byte) : N :=
  match how with Plain => xxh3_64_plain msg | With_secret _ sec => xxh3_64_secret sec msg | With_seed seed => xxh3_64_seed seed msg end.
Definition value128 (how : start) (msg : list byte) : two :=
  match how with Plain => xxh3_128_plain msg | With_secret _ sec => xxh3_128_secret sec msg | With_seed seed => xxh3_128_seed seed msg end.
(** XXH3_64bits_update for each of the chunks, an address and the bytes there *)
Fixpoint feed3 (cfg : config) (x3 : xxh3_build) (st : N) (chunks : list (N * list byte)) (s : XXH3_state) : M (list N * XXH3_state) :=
  match chunks with
  | [] => ret ([], s)
  | (p, l) :: chunks => y <- XXH3_64bits_update cfg x3 st p (mlen l) s ;; z <- feed3 cfg x3 st chunks (snd y) ;; ret (fst y :: fst z, snd z)
  end.
(** both digests, some chunks, and both digests again *)
Definition stream3 (cfg : config) (x3 : xxh3_build) (local st : N) (how : start) (chunks more : list (N * list byte)) (s : XXH3_state)
  : M (list N * (N * two) * (N * two)) :=
  y <- begin3 cfg x3 st how s ;;
  z <- feed3 cfg x3 st chunks (snd y) ;;
  h <- XXH3_64bits_digest cfg x3 local st (snd z) ;;
  g <- XXH3_128bits_digest cfg x3 local st (snd z) ;;
  z' <- feed3 cfg x3 st more (snd z) ;;
  h' <- XXH3_64bits_digest cfg x3 local st (snd z') ;;
  g' <- XXH3_128bits_digest cfg x3 local st (snd z') ;;
  ret (fst y :: fst z ++ fst z', (h, g), (h', g')).

(** ** Where things are *)
(** A chunk is readable, apart from the state and the local array, not at NULL, and not in
    the last 255 bytes of the memory. *)
Definition chunk3_in (cfg : config) (local st : N) (m : mem) (c : N * list byte) : Prop :=
  let '(p, l) := c in
  bytes_at m p l /\ p <> 0 /\ p + mlen l + 255 < addr_space cfg /\ apart (st + 64) 448 p (mlen l) /\ apart local 64 p (mlen l).
(** the secret is readable, and apart from the state and the local array *)
Definition secret_in (cfg : config) (local st : N) (m : mem) (q : N) (sec : list byte) : Prop :=
  bytes_at m q sec /\ q <> 0 /\ q + mlen sec < addr_space cfg /\ apart (st + 64) 448 q (mlen sec) /\ apart local 64 q (mlen sec).
Definition start_in (cfg : config) (x3 : xxh3_build) (local st : N) (m : mem) (how : start) : Prop :=
  match how with
  | Plain => secret_in cfg local st m (x3_kSecret x3) XXH3_kSecret_bytes
  | With_secret q sec => 136 <= mlen sec /\ secret_in cfg local st m q sec
  | With_seed seed => seed < 2 ^ 64 /\ secret_in cfg local st m (x3_kSecret x3) XXH3_kSecret_bytes
  end.
(** the state, and the local array of the digests *)
Definition state_in (cfg : config) (local st : N) (m : mem) : Prop :=
  mapped m (st + 64) 448 /\ st + 512 < addr_space cfg /\ st <> 0 /\
  mapped m local 64 /\ local + 64 < addr_space cfg /\ local <> 0 /\ apart local 64 (st + 64) 448.
(** nothing but these is written *)
Definition only_these (local st : N) (m m' : mem) : Prop :=
  (forall a, a < st + 64 \/ st + 512 <= a -> a < local \/ local + 64 <= a -> m' a = m a) /\ (forall a, m a <> None -> m' a <> None).

Section Calls.
  Variable (cfg : config) (x3 : xxh3_build).
  Hypothesis Hd : xxh_force_memory_access (x3_xxh x3) <> 2.
  Variables (local st : N) (q : N) (sec : list byte) (seed ext : N).
  Hypothesis (Hz : 136 <= mlen sec) (Hst : st + 512 < addr_space cfg) (Hst0 : st <> 0).
  Hypothesis (Hext : (if ext =? 0 then st + 64 else ext) = q) (Hq0 : q <> 0).
  Hypothesis (Hap : q + mlen sec <= st + 256 \/ st + 512 <= q) (Hlq : apart local 64 q (mlen sec)).
  Hypothesis (Hl0 : local <> 0) (Hla : local + 64 < addr_space cfg) (Hlst : apart local 64 (st + 256) 256).
  Hypothesis (Hk : seed <> 0 -> x3_kSecret x3 <> 0 /\ apart (st + 256) 256 (x3_kSecret x3) 192 /\ apart local 64 (x3_kSecret x3) 192).

  (** chunks apart from what is written now *)
  Definition near (m : mem) (c : N * list byte) : Prop :=
    let '(p, l) := c in
    here cfg m p l /\ p <> 0 /\ p + mlen l + 255 < addr_space cfg /\ apart (st + 256) 256 p (mlen l) /\ apart local 64 p (mlen l).
  Definition inv (msg : list byte) (s : XXH3_state) (m : mem) : Prop :=
    fed sec msg seed ext st s m /\ here cfg m q sec /\ mapped m local 64 /\ (seed <> 0 -> here cfg m (x3_kSecret x3) default_secret).
  Definition step (m m' : mem) : Prop :=
    (forall a, a < st + 256 \/ st + 512 <= a -> a < local \/ local + 64 <= a -> m' a = m a) /\ (forall a, m a <> None -> m' a <> None).
  Lemma step_trans : forall a b c, step a b -> step b c -> step a c.
  Proof. intros a b c [H1 H2] [H3 H4]. split; [|auto]. intros k K L. rewrite H3 by assumption. now apply H1. Qed.
  Lemma step_state : forall m m', only m m' (st + 256) 256 -> step m m'.
  Proof. intros m m' [H1 H2]. split; [|exact H2]. intros a A _. apply H1. lia. Qed.
  Lemma step_local : forall m m', only m m' local 64 -> step m m'.
  Proof. intros m m' [H1 H2]. split; [|exact H2]. intros a _ A. now apply H1. Qed.
  Lemma step_bytes : forall m m' p l, step m m' -> apart (st + 256) 256 p (mlen l) -> apart local 64 p (mlen l) -> bytes_at m p l -> bytes_at m' p l.
  Proof.
    intros m m' p l [H _] A1 A2 B i b E. assert (I : (i < length l)%nat) by (apply nth_error_Some; rewrite E; discriminate).
    rewrite H; [now apply B|unfold apart, mlen in *; lia|unfold apart, mlen in *; lia].
  Qed.
  Lemma step_here : forall m m' p l, step m m' -> apart (st + 256) 256 p (mlen l) -> apart local 64 p (mlen l) -> here cfg m p l -> here cfg m' p l.
  Proof. intros m m' p l S A1 A2 [B C]. split; [now apply (step_bytes m)|exact C]. Qed.
  Lemma step_near : forall m m' l, step m m' -> Forall (near m) l -> Forall (near m') l.
  Proof.
    intros m m' l S F. eapply Forall_impl; [|exact F]. intros [p k] (A1 & A2 & A3 & A4 & A5). repeat split; auto.
    - apply (step_bytes m); auto. apply A1.
    - apply A1.
  Qed.
  Lemma step_rest : forall m m', step m m' -> here cfg m q sec /\ mapped m local 64 /\ (seed <> 0 -> here cfg m (x3_kSecret x3) default_secret) ->
    here cfg m' q sec /\ mapped m' local 64 /\ (seed <> 0 -> here cfg m' (x3_kSecret x3) default_secret).
  Proof.
    intros m m' S (A & B & C). split; [|split].
    - apply (step_here m); auto. unfold apart. lia.
    - intros i I. apply (proj2 S). now apply B.
    - intro Z. destruct (Hk Z) as (K0 & K1 & K2). apply (step_here m); auto.
  Qed.
  Lemma feed3_ok : forall chunks msg s m, inv msg s m -> Forall (near m) chunks -> mlen (msg ++ contents chunks) < 2 ^ 64 ->
    exists s' m', feed3 cfg x3 st chunks s m = Ok ((repeat XXH_OK (length chunks), s'), m') /\ inv (msg ++ contents chunks) s' m' /\ step m m'.
  Proof.
    induction chunks as [|[p l] chunks IH]; intros msg s m I F T.
    - exists s, m. cbn [feed3 contents flat_map length repeat]. rewrite app_nil_r. split; [reflexivity|]. split; [exact I|split; auto].
    - apply Forall_cons_iff in F. destruct F as [(A1 & A2 & A3 & A4 & A5) F2]. cbn [feed3]. destruct I as (I1 & I2).
      cbn [contents flat_map snd] in T. rewrite app_assoc in T. change (flat_map snd chunks) with (contents chunks) in T.
      destruct (update_ok cfg x3 Hd q sec Hz seed ext st Hst Hst0 Hext Hap msg s m p l I1 A1 (proj1 I2) A2 A3 A4) as (s1 & m1 & E1 & S1 & O1).
      { pose proof (mlen_app (msg ++ l) (contents chunks)). lia. }
      unfold XXH3_64bits_update. ok E1. cbn [fst snd]. apply step_state in O1.
      destruct (IH (msg ++ l) s1 m1) as (s2 & m2 & E2 & S2 & O2).
      { split; [exact S1|]. now apply (step_rest m). }
      { now apply (step_near m). }
      { exact T. }
      ok E2. cbn [fst snd]. exists s2, m2. cbn [length repeat contents flat_map snd]. rewrite app_assoc.
      split; [reflexivity|]. split; [exact S2|]. now apply step_trans with m1.
  Qed.
  Lemma fed_local : forall msg s m m', only m m' local 64 -> fed sec msg seed ext st s m -> fed sec msg seed ext st s m'.
  Proof.
    intros msg s m m' O (C & d & t & F1 & F2 & F3 & F4 & F5 & F6 & F7 & F8). exists C, d, t. do 5 (split; [assumption|]).
    split; [|split].
    - eapply only_bytes; [exact O| |exact F6]. unfold apart in Hlst. lia.
    - intros L d0 e D E. eapply only_bytes; [exact O| |exact (F7 L d0 e D E)]. unfold apart in Hlst. lia.
    - eapply only_mapped; [exact O|exact F8].
  Qed.
  Lemma digests_ok : forall msg s m, inv msg s m -> mlen msg < 2 ^ 64 -> (asserting cfg x3 = true -> mlen msg <> 8) ->
    exists m1 m2,
      XXH3_64bits_digest cfg x3 local st s m = Ok (if seed =? 0 then xxh3_64_secret sec msg else xxh3_64 default_secret sec seed msg, m1) /\
      XXH3_128bits_digest cfg x3 local st s m1 = Ok (if seed =? 0 then xxh3_128_secret sec msg else xxh3_128 default_secret sec seed msg, m2) /\
      inv msg s m2 /\ step m m2.
  Proof.
    intros msg s m (I1 & I2) T A. assert (K0 : seed <> 0 -> x3_kSecret x3 <> 0) by (intro Z; now apply Hk).
    destruct (digest64_ok cfg x3 Hd q sec Hz seed ext st Hst Hst0 Hext Hap local Hl0 Hla Hlst Hlq K0 msg s m I1 (proj1 I2) (proj1 (proj2 I2)) Hq0 T (proj2 (proj2 I2)) A)
      as (m1 & E1 & O1).
    pose proof (fed_local msg s m m1 O1 I1) as J1. pose proof (step_rest m m1 (step_local _ _ O1) I2) as J2.
    destruct (digest128_ok cfg x3 Hd q sec Hz seed ext st Hst Hst0 Hext Hap local Hl0 Hla Hlst Hlq K0 msg s m1 J1 (proj1 J2) (proj1 (proj2 J2)) Hq0 T (proj2 (proj2 J2)))
      as (m2 & E2 & O2).
    exists m1, m2. split; [exact E1|]. split; [exact E2|]. split.
    - split; [exact (fed_local msg s m1 m2 O2 J1)|]. exact (step_rest m1 m2 (step_local _ _ O2) J2).
    - apply step_trans with m1; now apply step_local.
  Qed.
End Calls.

(** what a start leaves *)
Lemma begin3_ok : forall cfg x3 local st how s m, xxh_force_memory_access (x3_xxh x3) <> 2 ->
  state_in cfg local st m -> start_in cfg x3 local st m how ->
  exists q sec seed ext s1 m1,
    begin3 cfg x3 st how s m = Ok ((XXH_OK, s1), m1) /\ inv cfg x3 local st q sec seed ext [] s1 m1 /\ only m m1 (st + 64) 448 /\
    (forall msg, (if seed =? 0 then xxh3_64_secret sec msg else xxh3_64 default_secret sec seed msg) = value64 how msg) /\
    (forall msg, (if seed =? 0 then xxh3_128_secret sec msg else xxh3_128 default_secret sec seed msg) = value128 how msg) /\
    136 <= mlen sec /\ (if ext =? 0 then st + 64 else ext) = q /\ q <> 0 /\ (q + mlen sec <= st + 256 \/ st + 512 <= q) /\
    apart local 64 q (mlen sec) /\
    (seed <> 0 -> x3_kSecret x3 <> 0 /\ apart (st + 256) 256 (x3_kSecret x3) 192 /\ apart local 64 (x3_kSecret x3) 192) /\
    (seed <> 0 -> how = With_seed seed) /\
    (ext = 0 /\ mlen sec = 192 \/ ext = q /\ forall st', start_in cfg x3 local st' m how -> secret_in cfg local st' m q sec).
Proof.
  intros cfg x3 local st how s m D (M1 & M2 & M3 & M4 & M5 & M6 & M7) HS.
  assert (KL : mlen default_secret = 192) by apply default_length.
    destruct how as [|q sec|seed]; cbn [begin3 start_in value64 value128] in *.
    - rewrite kSecret_default in HS. destruct HS as (K1 & K2 & K3 & K4 & K5).
      destruct (reset_ok cfg x3 D st m M2 M3 M1 s K2) as (s1 & m1 & E & FE & O).
      exists (x3_kSecret x3), default_secret, 0, (x3_kSecret x3), s1, m1. split; [exact E|]. split; [|split; [exact O|]].
      + split; [exact FE|]. split; [apply (only_here cfg m m1 (st + 64) 448); [exact O|unfold apart in K4; lia|split; assumption]|].
        split; [now apply (only_mapped _ _ _ _ _ _ O)|]. intro Z. now destruct Z.
      + split; [reflexivity|]. split; [reflexivity|]. rewrite KL in *. split; [lia|].
        split; [destruct (N.eqb_spec (x3_kSecret x3) 0); [contradiction|reflexivity]|]. split; [exact K2|].
        split; [unfold apart in K4; lia|]. split; [exact K5|]. split; [intro Z; now destruct Z|]. split; [intro Z; now destruct Z|].
        right. split; [reflexivity|]. intros st' H'. rewrite <- kSecret_default. exact H'.
    - destruct HS as (Z & K1 & K2 & K3 & K4 & K5).
      destruct (reset_secret_ok cfg x3 D st m M2 M3 M1 s q sec Z K2) as (s1 & m1 & E & FE & O); [lia|].
      exists q, sec, 0, q, s1, m1. split; [exact E|]. split; [|split; [exact O|]].
      + split; [exact FE|]. split; [apply (only_here cfg m m1 (st + 64) 448); [exact O|unfold apart in K4; lia|split; assumption]|].
        split; [now apply (only_mapped _ _ _ _ _ _ O)|]. intro Z0. now destruct Z0.
      + split; [reflexivity|]. split; [reflexivity|]. split; [exact Z|].
        split; [destruct (N.eqb_spec q 0); [contradiction|reflexivity]|]. split; [exact K2|].
        split; [unfold apart in K4; lia|]. split; [exact K5|]. split; [intro Z0; now destruct Z0|]. split; [intro Z0; now destruct Z0|].
        right. split; [reflexivity|]. intros st' H'. exact (proj2 H').
    - rewrite kSecret_default in HS. destruct HS as (SB & K1 & K2 & K3 & K4 & K5). rewrite KL in *.
      assert (HK : here cfg m (x3_kSecret x3) default_secret) by (split; [exact K1|rewrite KL; exact K3]).
      destruct (reset_seed_ok cfg x3 D st m M2 M3 M1 s seed K2 HK K4 SB) as (s1 & m1 & E & FE & HC & O).
      assert (CL : mlen (custom_secret seed) = 192) by (unfold mlen; now rewrite custom_length).
      exists (st + 64), (custom_secret seed), seed, 0, s1, m1. split; [exact E|]. split; [|split; [exact O|]].
      + split; [exact FE|]. split; [exact HC|]. split; [now apply (only_mapped _ _ _ _ _ _ O)|]. intros _.
        apply (only_here cfg m m1 (st + 64) 448); [exact O|unfold apart in K4; lia|exact HK].
      + split; [intro msg; destruct (N.eqb_spec seed 0) as [->|_]; [rewrite custom_0; reflexivity|reflexivity]|].
        split; [intro msg; destruct (N.eqb_spec seed 0) as [->|_]; [rewrite custom_0; reflexivity|reflexivity]|].
        rewrite CL. split; [lia|]. split; [reflexivity|]. split; [lia|]. split; [left; lia|]. split; [unfold apart in *; lia|].
        split; [intros _; split; [exact K2|]; split; [unfold apart in *; lia|exact K5]|]. split; [reflexivity|]. left. split; reflexivity.
Qed.

(** ** The value *)
(** however the message is cut into chunks, and whether or not a digest is taken between *)
Theorem C69_stream : forall cfg x3 local st how chunks more s m, xxh_force_memory_access (x3_xxh x3) <> 2 ->
  state_in cfg local st m -> start_in cfg x3 local st m how -> Forall (chunk3_in cfg local st m) (chunks ++ more) ->
  mlen (contents (chunks ++ more)) < 2 ^ 64 ->
  (asserting cfg x3 = true -> mlen (contents chunks) <> 8 /\ mlen (contents (chunks ++ more)) <> 8) ->
  exists m', stream3 cfg x3 local st how chunks more s m =
      Ok ((repeat XXH_OK (S (length (chunks ++ more))),
           (value64 how (contents chunks), value128 how (contents chunks)),
           (value64 how (contents (chunks ++ more)), value128 how (contents (chunks ++ more)))), m') /\
    only_these local st m m'.
Proof.
  intros cfg x3 local st how chunks more s m D (M1 & M2 & M3 & M4 & M5 & M6 & M7) HS F T A.
  assert (CA : contents (chunks ++ more) = contents chunks ++ contents more) by apply flat_map_app. rewrite CA in *.
  assert (TC : mlen (contents chunks) < 2 ^ 64) by (rewrite mlen_app in T; lia).
  destruct (begin3_ok cfg x3 local st how s m D (conj M1 (conj M2 (conj M3 (conj M4 (conj M5 (conj M6 M7)))))) HS)
    as (q & sec & seed & ext & s1 & m1 & E1 & I1 & O1 & V64 & V128 & Z & HE & Q0 & HA & LQ & HK & _ & _).
  assert (LS : apart local 64 (st + 256) 256) by (unfold apart in *; lia).
  assert (N1 : Forall (near cfg local st m1) (chunks ++ more)).
  { eapply Forall_impl; [|exact F]. intros [p l] (A1 & A2 & A3 & A4 & A5).
    split; [|split; [exact A2|split; [exact A3|split; [unfold apart in *; lia|exact A5]]]].
    apply (only_here cfg m m1 (st + 64) 448); [exact O1|unfold apart in A4; lia|]. split; [exact A1|lia]. }
  apply Forall_app in N1. destruct N1 as [N1 N2].
  unfold stream3. ok E1. cbn [fst snd].
  destruct (feed3_ok cfg x3 D local st q sec seed ext Z M2 M3 HE Q0 HA LQ M6 M5 LS HK chunks [] s1 m1 I1 N1 TC) as (s2 & m2 & E2 & I2 & O2).
  ok E2. cbn [fst snd app] in *.
  destruct (digests_ok cfg x3 D local st q sec seed ext Z M2 M3 HE Q0 HA LQ M6 M5 LS HK (contents chunks) s2 m2 I2 TC (fun H => proj1 (A H)))
    as (m3 & m4 & E3 & E4 & I4 & O4).
  ok E3. ok E4.
  destruct (feed3_ok cfg x3 D local st q sec seed ext Z M2 M3 HE Q0 HA LQ M6 M5 LS HK more _ s2 m4 I4
    (step_near cfg x3 D local st q sec seed ext Z M2 M3 HE Q0 HA LQ M6 M5 LS HK _ _ _ O4 (step_near cfg x3 D local st q sec seed ext Z M2 M3 HE Q0 HA LQ M6 M5 LS HK _ _ _ O2 N2)) T) as (s5 & m5 & E5 & I5 & O5).
  ok E5. cbn [fst snd].
  destruct (digests_ok cfg x3 D local st q sec seed ext Z M2 M3 HE Q0 HA LQ M6 M5 LS HK _ s5 m5 I5 T (fun H => proj2 (A H)))
    as (m6 & m7 & E6 & E7 & I7 & O7).
  ok E6. ok E7. exists m7. rewrite !V64, !V128. split.
  - rewrite app_length, <- repeat_app. reflexivity.
  - assert (O : step local st m1 m7).
    { destruct O2 as [A2 B2], O4 as [A4 B4], O5 as [A5 B5], O7 as [A7 B7]. split; [|auto]. intros a H1 H2.
      rewrite A7, A5, A4 by assumption. now apply A2. }
    destruct O as [OA OB], O1 as [OC OD]. split; [|auto]. intros a H1 H2. rewrite OA by lia. apply OC. lia.
Qed.
Print Assumptions C69_stream.

(** ** What is not accepted *)
(** A secret at NULL or of less than 136 bytes is an error (tests/xxhash/xxh3.h:1950-1957), but it is
    found too late: a build with assertions stops, and any other has already cleared the
    state, whatever it held, when it returns the error. *)
Theorem C69_bad_secret : forall cfg x3 st q n s m, st <> 0 -> st + 512 < addr_space cfg -> mapped m (st + 64) 448 -> q = 0 \/ n < 136 ->
  (asserting cfg x3 = true -> XXH3_64bits_reset_withSecret cfg x3 st q n s m = Abort) /\
  (asserting cfg x3 = false -> exists s', XXH3_64bits_reset_withSecret cfg x3 st q n s m = Ok ((XXH_ERROR, s'), write m (st + 64) (repeat x00 448)) /\
    s3_totalLen s' = 0 /\ s3_bufferedSize s' = 0 /\ s3_acc s' = XXH3_INIT_ACC /\ s3_extSecret s' = q).
Proof.
  intros cfg x3 st q n s m S0 SA MP B. unfold XXH3_64bits_reset_withSecret, XXH3_64bits_reset_internal, XXH3_SECRET_SIZE_MIN.
  destruct (N.eqb_spec st 0) as [Z|_]; [contradiction|]. cbn [negb].
  assert (E0 : store_bytes (padd cfg st 64) (repeat x00 448) m = Ok (tt, write m (st + 64) (repeat x00 448))).
  { rewrite padd_small by lia. apply store_bytes_ok. exact MP. }
  assert (T : XXH_ASSERT cfg x3 true m = Ok (tt, m)) by now apply ASSERT_ok.
  rewrite !bind_assoc. ok T. rewrite !bind_assoc. ok E0. rewrite !bind_assoc.
  set (m1 := write m (st + 64) (repeat x00 448)). clearbody m1.
  split; intro A.
  - assert (F : forall m, XXH_ASSERT cfg x3 false m = Abort).
    { intro. unfold XXH_ASSERT, assert_. unfold asserting in A. apply andb_prop in A. destruct A as [-> A]. now destruct (ndebug cfg). }
    destruct (N.eqb_spec q 0) as [->|Q].
    + unfold bind at 1. cbn [negb]. rewrite F. reflexivity.
    + destruct B as [->|B]; [contradiction|]. cbn [negb]. assert (T' : XXH_ASSERT cfg x3 true m1 = Ok (tt, m1)) by now apply ASSERT_ok.
      ok T'. rewrite bind_assoc. replace (136 <=? n) with false by lia. unfold bind at 1. rewrite F. reflexivity.
  - assert (F : forall b m, XXH_ASSERT cfg x3 b m = Ok (tt, m)).
    { intros b m0. unfold XXH_ASSERT, assert_. unfold asserting in A. destruct (x3_debug x3); [|reflexivity]. cbn [andb] in A.
      apply negb_false_iff in A. now rewrite A. }
    ok (F (negb (q =? 0)) m1). rewrite bind_assoc. ok (F (136 <=? n) m1). rewrite bind_ret.
    destruct (N.eqb_spec q 0) as [->|Q].
    + eexists. split; [reflexivity|]. repeat split.
    + destruct B as [->|B]; [contradiction|]. replace (n <? 136) with true by lia. eexists. split; [reflexivity|]. repeat split.
Qed.
Print Assumptions C69_bad_secret.
(** So "NULL" as a secret gives no hash of an old state, but one under 192 zeros: the
    state is the one of a stream under the secret of that many zeros, at [customSecret]. *)
Theorem C69_null_secret : forall cfg x3 st n s m, st <> 0 -> st + 512 < addr_space cfg -> mapped m (st + 64) 448 -> 136 <= n <= 192 ->
  asserting cfg x3 = false ->
  exists s' m', XXH3_64bits_reset_withSecret cfg x3 st 0 n s m = Ok ((XXH_ERROR, s'), m') /\
    fed (repeat x00 (N.to_nat n)) [] 0 0 st s' m' /\ bytes_at m' (st + 64) (repeat x00 (N.to_nat n)).
Proof.
  intros cfg x3 st n s m S0 SA MP L A. unfold XXH3_64bits_reset_withSecret, XXH3_64bits_reset_internal, XXH3_SECRET_SIZE_MIN.
  destruct (N.eqb_spec st 0) as [Z|_]; [contradiction|]. cbn [negb N.eqb].
  assert (E0 : store_bytes (padd cfg st 64) (repeat x00 448) m = Ok (tt, write m (st + 64) (repeat x00 448))).
  { rewrite padd_small by lia. apply store_bytes_ok. exact MP. }
  assert (F : forall b m, XXH_ASSERT cfg x3 b m = Ok (tt, m)).
  { intros b m0. unfold XXH_ASSERT, assert_. unfold asserting in A. destruct (x3_debug x3); [|reflexivity]. cbn [andb] in A.
    apply negb_false_iff in A. now rewrite A. }
  rewrite !bind_assoc. ok (F true m). rewrite !bind_assoc. ok E0. rewrite !bind_assoc.
  pose proof (write_bytes_at m (st + 64) (repeat x00 448)) as W. pose proof (only_write m (st + 64) (repeat x00 448) 448 eq_refl) as O.
  set (m1 := write m (st + 64) (repeat x00 448)) in *. clearbody m1.
  ok (F false m1). rewrite bind_assoc. ok (F (136 <=? n) m1). rewrite bind_ret.
  assert (NL : mlen (repeat x00 (N.to_nat n)) = n) by (unfold mlen; rewrite repeat_length; lia).
  eexists _, m1. split; [reflexivity|]. split.
  - exists 0, [], []. split; [reflexivity|]. split; [reflexivity|]. split; [discriminate|]. split; [reflexivity|].
    split; [|split; [apply bytes_at_nil|split]].
    + rewrite psub_small by lia. unfold period. rewrite NL. f_equal.
    + intros _ d0 e E E'. destruct d0; [|discriminate E]. cbn in E. rewrite <- E in E'. discriminate E'.
    + intros i I. replace (st + 256 + N.of_nat i) with (st + 64 + N.of_nat (192 + i)) by lia. apply (only_mapped _ _ _ _ _ _ O MP). lia.
  - replace 448%nat with (N.to_nat n + (448 - N.to_nat n))%nat in W by lia. rewrite repeat_app in W. now apply bytes_at_app in W.
Qed.
Print Assumptions C69_null_secret.
(** Adding nothing at NULL is an error, unless the library is built to accept it; then
    anything may be "added" there. *)
Theorem C69_null : forall cfg x3 st len s m,
  XXH3_64bits_update cfg x3 st 0 len s m = Ok ((if xxh_accept_null_input_pointer (x3_xxh x3) then XXH_OK else XXH_ERROR, s), m).
Proof. reflexivity. Qed.
Print Assumptions C69_null.

(** ** The end of the memory *)
(** XXH3_update asks [input+XXH3_INTERNALBUFFER_SIZE < bEnd] (tests/xxhash/xxh3.h:2037), and at the end
    of the memory the sum is a small number.  Here the buffer is full, and 8 bytes are added that
    end 8 bytes before the end of the memory.  The function then reads what follows them. *)
Definition top3_mem : mem :=
  fun a => if (4096 <=? a) && (a <? 8192) then Some x00 else if (2 ^ 64 - 16 <=? a) && (a <? 2 ^ 64 - 8) then Some x00 else None.
Lemma top3_zeros : forall p n, 4096 <= p -> p + N.of_nat n <= 8192 -> bytes_at top3_mem p (repeat x00 n).
Proof.
  intros p n P Q i b E. assert (I : (i < n)%nat) by (pose proof (proj1 (nth_error_Some (repeat x00 n) i)) as W; rewrite repeat_length in W; apply W; rewrite E; discriminate).
  rewrite nth_error_repeat in E by exact I. injection E as <-. unfold top3_mem.
  replace ((4096 <=? p + N.of_nat i) && (p + N.of_nat i <? 8192)) with true by lia. reflexivity.
Qed.
Theorem C69_anywhere_refuted : exists s,
  fed (repeat x00 192) (repeat x00 256) 0 6144 4096 s top3_mem /\ bytes_at top3_mem 6144 (repeat x00 192) /\
  bytes_at top3_mem (2 ^ 64 - 16) (repeat x00 8) /\
  XXH3_64bits_update x86_64 x3_demo 4096 (2 ^ 64 - 16) 8 s top3_mem = Fault (2 ^ 64 - 8).
Proof.
  exists (S3 XXH3_INIT_ACC 256 16 0 128 256 0 6144). split; [|split; [|split]].
  - exists 0, [], (repeat x00 256). split; [reflexivity|]. split; [reflexivity|]. split; [discriminate|]. split; [discriminate|].
    split; [reflexivity|]. split; [apply top3_zeros; discriminate|]. split; [intro L; discriminate L|].
    intros i I. unfold top3_mem. replace ((4096 <=? 4096 + 256 + N.of_nat i) && (4096 + 256 + N.of_nat i <? 8192)) with true by lia. discriminate.
  - apply top3_zeros; discriminate.
  - intros i b E. do 8 (destruct i as [|i]; [injection E as <-; reflexivity|]). destruct i; discriminate.
  - vm_compute. reflexivity.
Qed.
Print Assumptions C69_anywhere_refuted.

(** ** Cases *)
(** 1200 bytes in four chunks, one of them empty, with a digest after 700, in builds with different byte orders and
    widths of pointers, one of them with assertions *)
Definition x3_chunks : list (N * list byte) := [(20001, firstn 300 (Demo.key 1200)); (30000, []); (20301, firstn 400 (skipn 300 (Demo.key 1200)))].
Definition x3_more : list (N * list byte) := [(20701, skipn 700 (Demo.key 1200))].
Lemma x3_contents : contents x3_chunks = firstn 700 (Demo.key 1200) /\ contents (x3_chunks ++ x3_more) = Demo.key 1200.
Proof. split; vm_compute; reflexivity. Qed.
Example C69_case : forall cfg x3 how, xxh_force_memory_access (x3_xxh x3) <> 2 -> x3_kSecret x3 = 4096 ->
  how = Plain \/ how = With_seed 5 \/ how = With_secret 20001 (Demo.key 1200) -> exists m',
  stream3 cfg x3 8192 12288 how x3_chunks x3_more (S3 [] 1 2 3 4 5 6 7) x3_mem =
    Ok (([0; 0; 0; 0; 0],
         (value64 how (firstn 700 (Demo.key 1200)), value128 how (firstn 700 (Demo.key 1200))),
         (value64 how (Demo.key 1200), value128 how (Demo.key 1200))), m') /\
  only_these 8192 12288 x3_mem m'.
Proof.
  intros cfg x3 how D K W. destruct x3_contents as [C1 C2].
  assert (L : mlen (Demo.key 1200) = 1200) by (unfold mlen; now rewrite key_length).
  assert (A : 40000 < addr_space cfg) by (unfold addr_space; destruct (ptr64 cfg); reflexivity).
  assert (Hm : bytes_at x3_mem 20001 (Demo.key 1200)).
  { unfold x3_mem. apply write_bytes_at_other; [right; discriminate|apply write_bytes_at]. }
  assert (Hk : bytes_at x3_mem 4096 XXH3_kSecret_bytes) by apply write_bytes_at.
  assert (Hl : forall p n, mapped x3_mem p n).
  { intros p n. unfold x3_mem. apply write_mapped. unfold sea. apply write_mapped. intros i _. discriminate. }
  assert (KS : secret_in cfg 8192 12288 x3_mem (x3_kSecret x3) XXH3_kSecret_bytes).
  { rewrite K. split; [exact Hk|]. split; [discriminate|]. change (mlen XXH3_kSecret_bytes) with 192. unfold apart. repeat split; lia. }
  destruct (C69_stream cfg x3 8192 12288 how x3_chunks x3_more (S3 [] 1 2 3 4 5 6 7) x3_mem D) as (m' & E & O).
  - unfold state_in, apart. repeat split; try apply Hl; lia.
  - destruct W as [->|[->| ->]]; cbn [start_in].
    + exact KS.
    + split; [reflexivity|exact KS].
    + unfold secret_in, apart. rewrite L. repeat split; try lia. exact Hm.
  - assert (CUT : Demo.key 1200 = firstn 300 (Demo.key 1200) ++ (firstn 400 (skipn 300 (Demo.key 1200)) ++ skipn 700 (Demo.key 1200))).
    { vm_compute. reflexivity. }
    rewrite CUT in Hm. apply bytes_at_app in Hm. destruct Hm as [H1 H2]. apply bytes_at_app in H2. destruct H2 as [H2 H3].
    assert (L1 : mlen (firstn 300 (Demo.key 1200)) = 300) by (unfold mlen; rewrite firstn_length, key_length; reflexivity).
    assert (L2 : mlen (firstn 400 (skipn 300 (Demo.key 1200))) = 400) by (unfold mlen; rewrite firstn_length, skipn_length, key_length; reflexivity).
    assert (L3 : mlen (skipn 700 (Demo.key 1200)) = 500) by (unfold mlen; rewrite skipn_length, key_length; reflexivity).
    unfold mlen in L1, L2. rewrite L1 in H2, H3. rewrite L2 in H3. fold (mlen (firstn 300 (Demo.key 1200))) in L1.
    fold (mlen (firstn 400 (skipn 300 (Demo.key 1200)))) in L2.
    cbn [x3_chunks x3_more app]. repeat apply Forall_cons; try apply Forall_nil; unfold chunk3_in, apart; rewrite ?L1, ?L2, ?L3; change (mlen []) with 0;
      repeat split; try lia; try assumption. apply bytes_at_nil.
  - rewrite C2, L. reflexivity.
  - intros _. rewrite C1, C2, L. unfold mlen. rewrite firstn_length, key_length. split; discriminate.
  - exists m'. rewrite C1, C2 in E. exact (conj E O).
Qed.
Example C69_case_builds : xxh_force_memory_access (x3_xxh x3_demo) <> 2 /\ x3_kSecret x3_demo = 4096 /\ asserting x86_64 x3_demo = false /\
  xxh_force_memory_access (x3_xxh x3_sparc) <> 2 /\ x3_kSecret x3_sparc = 4096 /\ asserting mips32 x3_sparc = true.
Proof. repeat split; discriminate. Qed.
(** the two ways to refuse a secret *)
Example C69_bad_secret_case : XXH3_64bits_reset_withSecret mips32 x3_sparc 12288 20001 100 (S3 [] 1 2 3 4 5 6 7) x3_mem = Abort /\
  exists s', XXH3_64bits_reset_withSecret x86_64 x3_demo 12288 20001 100 (S3 [] 1 2 3 4 5 6 7) x3_mem =
    Ok ((XXH_ERROR, s'), write x3_mem 12352 (repeat x00 448)) /\ s3_totalLen s' = 0.
Proof.
  assert (Hl : forall p n, mapped x3_mem p n).
  { intros p n. unfold x3_mem. apply write_mapped. unfold sea. apply write_mapped. intros i _. discriminate. }
  split.
  - apply C69_bad_secret; [discriminate|reflexivity|apply Hl|right; reflexivity|reflexivity].
  - destruct (C69_bad_secret x86_64 x3_demo 12288 20001 100 (S3 [] 1 2 3 4 5 6 7) x3_mem) as [_ H];
      [discriminate|reflexivity|apply Hl|right; reflexivity|].
    destruct (H eq_refl) as (s' & E & T & _). exists s'. exact (conj E T).
Qed.
