(** C79: copies of states of xxHash. *)
From Coq Require Import ZArith NArith Arith List Bool Lia Strings.Byte.
From Coq Require Import ZifyN ZifyNat ZifyBool.
From Verif Require Import Bytes CSem Bits Spec NBits CSemFacts OpsFacts FetchFacts KeyMem CtxMem StreamFacts SelfcheckSpec Demo
  HighwayCat Xxhash XxhashSpec XxhashFacts XxhashStream PropXxhash Xxh3 Xxh3Spec Xxh3Facts Xxh3Secret Xxh3State Xxh3Stream PropXxh3 PropXxh3Stream
  XxhashCopy.
Import ListNotations.
Local Open Scope N_scope.

(** ** What can happen after a copy *)
(** [m'] is [m] but for the bytes of an object, which may have been written in any way or be
    gone altogether *)
Definition but (p n : N) (m m' : mem) : Prop := forall a, a < p \/ p + n <= a -> m' a = m a.

(** ** XXH32 and XXH64 *)
(** start a state, feed it, and copy it *)
Definition copied32 (cfg : config) (xb : xxh_build) (dst src seed : N) (chunks : list (N * list byte)) : M (XXH32_state * XXH32_state) :=
  y <- XXH32_reset cfg src seed ;;
  z <- feed32 cfg xb src chunks (snd y) ;;
  c <- XXH32_copyState cfg dst src (snd z) ;;
  ret (snd z, c).
Definition copied64 (cfg : config) (xb : xxh_build) (dst src seed : N) (chunks : list (N * list byte)) : M (XXH64_state * XXH64_state) :=
  y <- XXH64_reset cfg src seed ;;
  z <- feed64 cfg xb src chunks (snd y) ;;
  c <- XXH64_copyState cfg dst src (snd z) ;;
  ret (snd z, c).
(** feed a state more, and take its digest *)
Definition finish32 (cfg : config) (xb : xxh_build) (buf : N) (st : XXH32_state) (more : list (N * list byte)) : M (list N * N) :=
  z <- feed32 cfg xb buf more st ;; h <- XXH32_digest cfg xb buf (snd z) ;; ret (fst z, h).
Definition finish64 (cfg : config) (xb : xxh_build) (buf : N) (st : XXH64_state) (more : list (N * list byte)) : M (list N * N) :=
  z <- feed64 cfg xb buf more st ;; h <- XXH64_digest cfg xb buf (snd z) ;; ret (fst z, h).
(** Whatever has become of the [n] bytes at [other], the state goes on from [msg]. *)
Definition goes_on32 (cfg : config) (xb : xxh_build) (seed buf : N) (st : XXH32_state) (msg : list byte) (m : mem) (other n : N) : Prop :=
  forall more m1, but other n m m1 -> Forall (chunk_in cfg buf 16 m1) more ->
  exists m2, finish32 cfg xb buf st more m1 = Ok ((repeat XXH_OK (length more), xxh32 (msg ++ contents more) seed), m2) /\ only m1 m2 buf 16.
Definition goes_on64 (cfg : config) (xb : xxh_build) (seed buf : N) (st : XXH64_state) (msg : list byte) (m : mem) (other n : N) : Prop :=
  forall more m1, but other n m m1 -> Forall (chunk_in cfg buf 32 m1) more -> mlen (msg ++ contents more) < 2 ^ 64 ->
  exists m2, finish64 cfg xb buf st more m1 = Ok ((repeat XXH_OK (length more), xxh64 (msg ++ contents more) seed), m2) /\ only m1 m2 buf 32.

Lemma mapped_bytes : forall m p n, mapped m p n -> exists l, length l = n /\ bytes_at m p l.
Proof.
  intros m p n. revert p. induction n as [|n IH]; intros p M.
  - exists []. split; [reflexivity|apply bytes_at_nil].
  - destruct (IH (p + 1)) as (l & L & B).
    { intros i I. replace (p + 1 + N.of_nat i) with (p + N.of_nat (S i)) by lia. apply M. lia. }
    destruct (m p) as [b|] eqn:E.
    + exists (b :: l). split; [cbn [length]; lia|]. intros i c E'. destruct i as [|i].
      * injection E' as <-. now rewrite N.add_0_r.
      * cbn [nth_error] in E'. replace (p + N.of_nat (S i)) with (p + 1 + N.of_nat i) by lia. now apply B.
    + exfalso. apply (M 0%nat); [lia|]. now rewrite N.add_0_r.
Qed.
(** memcpy of what is readable *)
Lemma copy_ok : forall cfg m dst src n, dst <> 0 -> src <> 0 -> mapped m src n -> mapped m dst n -> apart dst (N.of_nat n) src (N.of_nat n) ->
  exists m', memcpy cfg dst src (N.of_nat n) m = Ok (tt, m') /\ only m m' dst (N.of_nat n) /\
    forall i, i < N.of_nat n -> m' (dst + i) = m (src + i).
Proof.
  intros cfg m dst src n D S MS MD A. destruct (mapped_bytes m src n MS) as (l & L & B).
  assert (ML : mlen l = N.of_nat n) by (unfold mlen; now rewrite L).
  exists (write m dst l). rewrite <- ML in *. split; [|split].
  - apply memcpy_ok; [exact D|exact S|exact B|now rewrite L|right; exact A].
  - now apply only_write.
  - intros i I. unfold mlen in I. destruct (nth_error l (N.to_nat i)) as [b|] eqn:E.
    + pose proof (write_bytes_at m dst l _ _ E) as W. pose proof (B _ _ E) as W'. rewrite N2Nat.id in W, W'. now rewrite W, W'.
    + apply nth_error_None in E. lia.
Qed.
(** what a state holds depends on the bytes of its buffer only *)
Lemma holds_moved : forall k round v0 msg v n a b m m', (0 < k)%nat -> holds k round v0 msg v n a m ->
  (forall i, i < N.of_nat (4 * k) -> m' (b + i) = m (a + i)) -> holds k round v0 msg v n b m'.
Proof.
  intros k round v0 msg v n a b m m' K (H1 & H2 & H3 & H4) E. split; [exact H1|]. split; [exact H2|]. split.
  - intros i c E'. assert (I : (i < length (rest (4 * k) msg))%nat) by (apply nth_error_Some; rewrite E'; discriminate).
    rewrite rest_length in I by lia. pose proof (Nat.mod_upper_bound (length msg) (4 * k) ltac:(lia)).
    rewrite E by lia. now apply H3.
  - intros i I. rewrite E by lia. now apply H4.
Qed.
Lemma chunk_only : forall cfg buf k m m1 l, only m m1 buf k -> Forall (chunk_in cfg buf k m) l -> Forall (chunk_in cfg buf k m1) l.
Proof.
  intros cfg buf k m m1 l O FL. eapply Forall_impl; [|exact FL]. intros [q c] (A1 & A2 & A3 & A4). split; [|auto].
  eapply only_bytes; [exact O| |exact A1]. unfold apart in A4. lia.
Qed.

(** A copy and its source are independent: each goes on from what the source had been fed,
    whatever is done with the other. *)
Theorem C79_copy32 : forall cfg xb dst src seed chunks m, xxh_force_memory_access xb <> 2 ->
  src <> 0 -> src + 16 < addr_space cfg -> src mod alignment cfg 4 = 0 -> mapped m src 16 ->
  dst <> 0 -> dst + 16 < addr_space cfg -> dst mod alignment cfg 4 = 0 -> mapped m dst 16 ->
  apart dst 16 src 16 -> Forall (chunk_in cfg src 16 m) chunks ->
  exists st c m', copied32 cfg xb dst src seed chunks m = Ok ((st, c), m') /\
    goes_on32 cfg xb seed dst c (contents chunks) m' src 16 /\ goes_on32 cfg xb seed src st (contents chunks) m' dst 16 /\
    (forall a, a < src \/ src + 16 <= a -> a < dst \/ dst + 16 <= a -> m' a = m a).
Proof.
  intros cfg xb dst src seed chunks m X S0 SA SL SM D0 DA DL DM AP F. unfold copied32, XXH32_reset.
  assert (E0 : store_bytes src (repeat x00 16) m = Ok (tt, write m src (repeat x00 16))) by (apply store_bytes_ok; exact SM).
  rewrite bind_assoc. ok E0. rewrite bind_ret. cbn [fst snd].
  assert (O0 : only m (write m src (repeat x00 16)) src 16) by now apply only_write.
  set (m0 := write m src (repeat x00 16)) in *. clearbody m0.
  assert (I0 : in32 src seed [] (X32 0 0 (XXH32_start seed) 0) m0).
  { split; [|split; reflexivity]. split; [reflexivity|]. split; [reflexivity|]. split; [apply bytes_at_nil|].
    eapply only_mapped; [exact O0|exact SM]. }
  destruct (feed32_ok cfg xb src seed X S0 chunks [] _ m0 I0 SA (chunk_only _ _ _ _ _ _ O0 F)) as (st & m1 & E1 & I1 & O1). ok E1. cbn [fst snd app] in *.
  assert (O01 : only m m1 src 16) by (now apply only_trans with m0).
  destruct (copy_ok cfg m1 dst src 16 D0 S0) as (m2 & E2 & O2 & C2).
  { now apply (only_mapped _ _ _ _ _ _ O01). } { now apply (only_mapped _ _ _ _ _ _ O01). } { exact AP. }
  change (N.of_nat 16) with 16 in *. unfold XXH32_copyState. rewrite bind_assoc. ok E2. rewrite bind_ret.
  exists st, st, m2. split; [reflexivity|].
  assert (G : forall buf other, buf <> 0 -> buf + 16 < addr_space cfg -> buf mod alignment cfg 4 = 0 -> apart buf 16 other 16 ->
    in32 buf seed (contents chunks) st m2 -> goes_on32 cfg xb seed buf st (contents chunks) m2 other 16).
  { intros buf other B0 BA BL BO (J1 & J2) more m3 U FM.
    assert (J : in32 buf seed (contents chunks) st m3).
    { split; [|exact J2]. apply (holds_moved 4 round_32 _ _ _ _ buf buf m2 m3 ltac:(lia) J1). intros i I. apply U. unfold apart in BO. cbn in I. lia. }
    destruct (feed32_ok cfg xb buf seed X B0 more _ st m3 J BA FM) as (st' & m4 & E4 & J4 & O4). unfold finish32. ok E4. cbn [fst snd].
    ok (digest32_ok cfg xb buf seed X B0 _ st' m4 J4 BA BL). exists m4. split; [reflexivity|exact O4]. }
  destruct I1 as (J1 & J2). split; [|split].
  - apply G; auto. split; [|exact J2]. apply (holds_moved 4 round_32 _ _ _ _ src dst m1 m2 ltac:(lia) J1). exact C2.
  - apply G; auto; [unfold apart in *; lia|]. split; [|exact J2].
    apply (holds_moved 4 round_32 _ _ _ _ src src m1 m2 ltac:(lia) J1). intros i I. apply O2. unfold apart in AP. cbn in I. lia.
  - intros a A1 A2. rewrite (proj1 O2) by lia. now apply O01.
Qed.
Print Assumptions C79_copy32.
Theorem C79_copy64 : forall cfg xb dst src seed chunks m, xxh_force_memory_access xb <> 2 ->
  src <> 0 -> src + 32 < addr_space cfg -> src mod alignment cfg 8 = 0 -> mapped m src 32 ->
  dst <> 0 -> dst + 32 < addr_space cfg -> dst mod alignment cfg 8 = 0 -> mapped m dst 32 ->
  apart dst 32 src 32 -> Forall (chunk_in cfg src 32 m) chunks ->
  exists st c m', copied64 cfg xb dst src seed chunks m = Ok ((st, c), m') /\
    goes_on64 cfg xb seed dst c (contents chunks) m' src 32 /\ goes_on64 cfg xb seed src st (contents chunks) m' dst 32 /\
    (forall a, a < src \/ src + 32 <= a -> a < dst \/ dst + 32 <= a -> m' a = m a).
Proof.
  intros cfg xb dst src seed chunks m X S0 SA SL SM D0 DA DL DM AP F. unfold copied64, XXH64_reset.
  assert (E0 : store_bytes src (repeat x00 32) m = Ok (tt, write m src (repeat x00 32))) by (apply store_bytes_ok; exact SM).
  rewrite bind_assoc. ok E0. rewrite bind_ret. cbn [fst snd].
  assert (O0 : only m (write m src (repeat x00 32)) src 32) by now apply only_write.
  set (m0 := write m src (repeat x00 32)) in *. clearbody m0.
  assert (I0 : in64 src seed [] (X64 0 (XXH64_start seed) 0) m0).
  { split; [|reflexivity]. split; [reflexivity|]. split; [reflexivity|]. split; [apply bytes_at_nil|].
    eapply only_mapped; [exact O0|exact SM]. }
  destruct (feed64_ok cfg xb src seed X S0 chunks [] _ m0 I0 SA (chunk_only _ _ _ _ _ _ O0 F)) as (st & m1 & E1 & I1 & O1). ok E1. cbn [fst snd app] in *.
  assert (O01 : only m m1 src 32) by (now apply only_trans with m0).
  destruct (copy_ok cfg m1 dst src 32 D0 S0) as (m2 & E2 & O2 & C2).
  { now apply (only_mapped _ _ _ _ _ _ O01). } { now apply (only_mapped _ _ _ _ _ _ O01). } { exact AP. }
  change (N.of_nat 32) with 32 in *. unfold XXH64_copyState. rewrite bind_assoc. ok E2. rewrite bind_ret.
  exists st, st, m2. split; [reflexivity|].
  assert (G : forall buf other, buf <> 0 -> buf + 32 < addr_space cfg -> buf mod alignment cfg 8 = 0 -> apart buf 32 other 32 ->
    in64 buf seed (contents chunks) st m2 -> goes_on64 cfg xb seed buf st (contents chunks) m2 other 32).
  { intros buf other B0 BA BL BO (J1 & J2) more m3 U FM TL.
    assert (J : in64 buf seed (contents chunks) st m3).
    { split; [|exact J2]. apply (holds_moved 8 round_64 _ _ _ _ buf buf m2 m3 ltac:(lia) J1). intros i I. apply U. unfold apart in BO. cbn in I. lia. }
    destruct (feed64_ok cfg xb buf seed X B0 more _ st m3 J BA FM) as (st' & m4 & E4 & J4 & O4). unfold finish64. ok E4. cbn [fst snd].
    ok (PropXxhash.digest64_ok cfg xb buf seed X B0 _ st' m4 J4 TL BA BL). exists m4. split; [reflexivity|exact O4]. }
  destruct I1 as (J1 & J2). split; [|split].
  - apply G; auto. split; [|exact J2]. apply (holds_moved 8 round_64 _ _ _ _ src dst m1 m2 ltac:(lia) J1). exact C2.
  - apply G; auto; [unfold apart in *; lia|]. split; [|exact J2].
    apply (holds_moved 8 round_64 _ _ _ _ src src m1 m2 ltac:(lia) J1). intros i I. apply O2. unfold apart in AP. cbn in I. lia.
  - intros a A1 A2. rewrite (proj1 O2) by lia. now apply O01.
Qed.
Print Assumptions C79_copy64.

(** ** XXH3 *)
Definition copied3 (cfg : config) (x3 : xxh3_build) (dst src : N) (how : start) (chunks : list (N * list byte)) (s : XXH3_state)
  : M (XXH3_state * XXH3_state) :=
  y <- begin3 cfg x3 src how s ;;
  z <- feed3 cfg x3 src chunks (snd y) ;;
  c <- XXH3_copyState cfg dst src (snd z) ;;
  ret (snd z, c).
Definition finish3 (cfg : config) (x3 : xxh3_build) (local st : N) (s : XXH3_state) (more : list (N * list byte)) : M (list N * (N * two)) :=
  z <- feed3 cfg x3 st more s ;;
  h <- XXH3_64bits_digest cfg x3 local st (snd z) ;;
  g <- XXH3_128bits_digest cfg x3 local st (snd z) ;;
  ret (fst z, (h, g)).
(** Whatever has become of the state at [other] and of the local array, the state at [st]
    goes on from [msg]. *)
Definition goes_on3 (cfg : config) (x3 : xxh3_build) (local st : N) (s : XXH3_state) (how : start) (msg : list byte) (m : mem) (other : N) : Prop :=
  forall more m1, (forall a, a < other + 64 \/ other + 512 <= a -> a < local \/ local + 64 <= a -> m1 a = m a) -> mapped m1 local 64 ->
  Forall (chunk3_in cfg local st m1) more -> mlen (msg ++ contents more) < 2 ^ 64 ->
  (asserting cfg x3 = true -> mlen (msg ++ contents more) <> 8) ->
  exists m2, finish3 cfg x3 local st s more m1 =
      Ok ((repeat XXH_OK (length more), (value64 how (msg ++ contents more), value128 how (msg ++ contents more))), m2) /\
    only_these local st m1 m2.

(** what a state has been fed depends on the bytes of its buffer only *)
Lemma fed_moved : forall sec msg seed ext a b s m m', fed sec msg seed ext a s m ->
  (forall i, 256 <= i -> i < 512 -> m' (b + i) = m (a + i)) -> fed sec msg seed ext b s m'.
Proof.
  intros sec msg seed ext a b s m m' (C & d & t & F1 & F2 & F3 & F4 & F5 & F6 & F7 & F8) E. exists C, d, t.
  do 5 (split; [assumption|]).
  assert (G : forall j l, 256 <= j -> j + mlen l <= 512 -> bytes_at m (a + j) l -> bytes_at m' (b + j) l).
  { intros j l J1 J2 B i c E'. assert (I : (i < length l)%nat) by (apply nth_error_Some; rewrite E'; discriminate).
    replace (b + j + N.of_nat i) with (b + (j + N.of_nat i)) by lia. unfold mlen in J2.
    rewrite E by lia. replace (a + (j + N.of_nat i)) with (a + j + N.of_nat i) by lia. now apply B. }
  split; [apply G; [lia|lia|exact F6]|]. split.
  - intros L d0 e D M. apply G; [lia|lia|exact (F7 L d0 e D M)].
  - intros i I. replace (b + 256 + N.of_nat i) with (b + (256 + N.of_nat i)) by lia. rewrite E by lia.
    replace (a + (256 + N.of_nat i)) with (a + 256 + N.of_nat i) by lia. now apply F8.
Qed.
Lemma bytes_moved : forall m m' a b l, (forall i, i < mlen l -> m' (b + i) = m (a + i)) -> bytes_at m a l -> bytes_at m' b l.
Proof.
  intros m m' a b l E B i c E'. assert (I : (i < length l)%nat) by (apply nth_error_Some; rewrite E'; discriminate).
  rewrite E by (unfold mlen; lia). now apply B.
Qed.

(** The same for XXH3, started in any way.  The copy of a state with a seed has its own
    secret; that of a state with a secret of the caller reads it where it was. *)
Theorem C79_copy3 : forall cfg x3 local dst src how chunks s m, xxh_force_memory_access (x3_xxh x3) <> 2 ->
  state_in cfg local src m -> start_in cfg x3 local src m how ->
  state_in cfg local dst m -> start_in cfg x3 local dst m how ->
  apart (dst + 64) 448 (src + 64) 448 -> Forall (chunk3_in cfg local src m) chunks -> mlen (contents chunks) < 2 ^ 64 ->
  exists st c m', copied3 cfg x3 dst src how chunks s m = Ok ((st, c), m') /\
    goes_on3 cfg x3 local dst c how (contents chunks) m' src /\ goes_on3 cfg x3 local src st how (contents chunks) m' dst /\
    (forall a, a < src + 64 \/ src + 512 <= a -> a < dst + 64 \/ dst + 512 <= a -> a < local \/ local + 64 <= a -> m' a = m a) /\
    (forall a, m a <> None -> m' a <> None).
Proof.
  intros cfg x3 local dst src how chunks s m D SI HS DI HD AP F T.
  destruct (begin3_ok cfg x3 local src how s m D SI HS)
    as (q & sec & seed & ext & s1 & m1 & E1 & I1 & O1 & V64 & V128 & Z & HE & Q0 & HA & LQ & HK & WS & WE).
  destruct SI as (M1 & M2 & M3 & M4 & M5 & M6 & M7), DI as (D1 & D2 & D3 & _ & _ & _ & D7).
  assert (LS : apart local 64 (src + 256) 256) by (unfold apart in *; lia).
  assert (N1 : Forall (near cfg local src m1) chunks).
  { eapply Forall_impl; [|exact F]. intros [p l] (A1 & A2 & A3 & A4 & A5).
    split; [|split; [exact A2|split; [exact A3|split; [unfold apart in *; lia|exact A5]]]].
    apply (only_here cfg m m1 (src + 64) 448); [exact O1|unfold apart in A4; lia|]. split; [exact A1|lia]. }
  unfold copied3. ok E1. cbn [fst snd].
  destruct (feed3_ok cfg x3 D local src q sec seed ext Z M2 M3 HE Q0 HA LQ M6 M5 LS HK chunks [] s1 m1 I1 N1 T) as (s2 & m2 & E2 & I2 & O2).
  ok E2. cbn [fst snd app] in *.
  assert (U12 : (forall a, a < src + 64 \/ src + 512 <= a -> a < local \/ local + 64 <= a -> m2 a = m a) /\ (forall a, m a <> None -> m2 a <> None)).
  { destruct O1 as [A1 B1], O2 as [A2 B2]. split; [|auto]. intros a X Y. rewrite A2 by lia. apply A1. lia. }
  destruct U12 as [U12 K12].
  destruct (copy_ok cfg m2 (dst + 64) (src + 64) 448 ltac:(lia) ltac:(lia)) as (m3 & E3 & O3 & C3).
  { intros i I. apply K12. now apply M1. } { intros i I. apply K12. now apply D1. } { exact AP. }
  change (N.of_nat 448) with 448 in *. unfold XXH3_copyState.
  destruct (N.eqb_spec dst 0) as [X|_]; [contradiction|]. destruct (N.eqb_spec src 0) as [X|_]; [contradiction|]. cbn [orb].
  rewrite !padd_small by lia. rewrite bind_assoc. ok E3. rewrite bind_ret. exists s2, s2, m3. split; [reflexivity|].
  destruct I2 as (J1 & J2 & J3 & J4).
  (* a state at [st], of which the bytes in [m3] are those of the source in [m2] *)
  assert (G : forall st other, state_in cfg local st m -> start_in cfg x3 local st m how -> apart (st + 64) 448 (other + 64) 448 ->
    start_in cfg x3 local other m how -> apart local 64 (other + 64) 448 ->
    (st = src \/ other = src) -> (st = dst \/ other = dst) ->
    (forall i, 64 <= i -> i < 512 -> m3 (st + i) = m2 (src + i)) ->
    goes_on3 cfg x3 local st s2 how (contents chunks) m3 other).
  { intros st other (G1 & G2 & G3 & G4 & G5 & G6 & G7) GS GA OS OA SS SD GM more m4 U LM FM TM AM.
    (* the parts of the memory that are not touched *)
    assert (KM : forall p l, bytes_at m p l -> apart (st + 64) 448 p (mlen l) -> apart (other + 64) 448 p (mlen l) -> apart local 64 p (mlen l) -> bytes_at m4 p l).
    { intros p l B P1 P2 P3. apply (bytes_moved m m4 p p); [|exact B]. intros i I.
      assert (X1 : p + i < st + 64 \/ st + 512 <= p + i) by (clear - P1 I; unfold apart in P1; lia).
      assert (X2 : p + i < other + 64 \/ other + 512 <= p + i) by (clear - P2 I; unfold apart in P2; lia).
      assert (X3 : p + i < local \/ local + 64 <= p + i) by (clear - P3 I; unfold apart in P3; lia).
      assert (X4 : p + i < dst + 64 \/ dst + 512 <= p + i) by (destruct SD as [<-|<-]; assumption).
      assert (X5 : p + i < src + 64 \/ src + 512 <= p + i) by (destruct SS as [<-|<-]; assumption).
      rewrite (U _ X2 X3). rewrite (proj1 O3) by (clear - X4; lia). exact (U12 _ X5 X3). }
    assert (MS : forall i, 64 <= i -> i < 512 -> m4 (st + i) = m2 (src + i)).
    { intros i X Y. rewrite <- GM by assumption. apply U; [clear - GA X Y; unfold apart in GA; lia|clear - G7 X Y; unfold apart in G7; lia]. }
    set (q' := if ext =? 0 then st + 64 else ext).
    assert (QQ : q' <> 0 /\ (q' + mlen sec <= st + 256 \/ st + 512 <= q') /\ apart local 64 q' (mlen sec) /\ here cfg m4 q' sec).
    { unfold q'. destruct WE as [[-> L]|[-> WE]].
      - cbn [N.eqb] in *. subst q. rewrite L. split; [clear; lia|]. split; [clear; lia|]. split; [clear - G7; unfold apart in *; lia|].
        split; [|rewrite L; clear - G2; lia]. apply (bytes_moved m2 m4 (src + 64) (st + 64)); [|exact (proj1 J2)].
        intros i I. rewrite L in I. rewrite <- !N.add_assoc. apply MS; clear - I; lia.
      - destruct (WE st GS) as (W1 & W2 & W3 & W4 & W5). destruct (WE other OS) as (_ & _ & _ & W6 & _).
        destruct (N.eqb_spec q 0) as [X|_]; [contradiction|]. split; [exact W2|]. split; [clear - W4; unfold apart in W4; lia|]. split; [exact W5|].
        split; [apply KM; assumption|clear - W3; lia]. }
    destruct QQ as (Q1 & Q2 & Q3 & Q4).
    assert (HK' : seed <> 0 -> x3_kSecret x3 <> 0 /\ apart (st + 256) 256 (x3_kSecret x3) 192 /\ apart local 64 (x3_kSecret x3) 192).
    { intro X. rewrite (WS X) in GS. destruct GS as (_ & _ & B2 & _ & B4 & B5). change (mlen XXH3_kSecret_bytes) with 192 in *.
      split; [exact B2|]. split; [clear - B4; unfold apart in *; lia|exact B5]. }
    assert (LS' : apart local 64 (st + 256) 256) by (clear - G7; unfold apart in *; lia).
    assert (INV : inv cfg x3 local st q' sec seed ext (contents chunks) s2 m4).
    { split; [|split; [exact Q4|split; [exact LM|]]].
      - apply (fed_moved sec _ seed ext src st s2 m2 m4 J1). intros i X Y. apply MS; clear - X Y; lia.
      - intro X. pose proof (WS X) as W. rewrite W in GS, OS. destruct GS as (_ & B1 & B2 & B3 & B4 & B5), OS as (_ & _ & _ & _ & B6 & _).
        rewrite kSecret_default in *. split; [apply KM; assumption|clear - B3; lia]. }
    assert (NM : Forall (near cfg local st m4) more).
    { eapply Forall_impl; [|exact FM]. intros [p l] (A1 & A2 & A3 & A4 & A5).
      split; [split; [exact A1|clear - A3; lia]|]. split; [exact A2|]. split; [exact A3|]. split; [clear - A4; unfold apart in *; lia|exact A5]. }
    destruct (feed3_ok cfg x3 D local st q' sec seed ext Z G2 G3 eq_refl Q1 Q2 Q3 G6 G5 LS' HK' more _ s2 m4 INV NM TM) as (s5 & m5 & E5 & I5 & O5).
    unfold finish3. ok E5. cbn [fst snd].
    destruct (digests_ok cfg x3 D local st q' sec seed ext Z G2 G3 eq_refl Q1 Q2 Q3 G6 G5 LS' HK' _ s5 m5 I5 TM AM) as (m6 & m7 & E6 & E7 & I7 & O7).
    ok E6. ok E7. exists m7. rewrite V64, V128. split; [reflexivity|].
    destruct O5 as [A5 B5], O7 as [A7 B7]. split; [|auto]. intros a X Y. rewrite A7 by (clear - X Y; lia). apply A5; clear - X Y; lia. }
  assert (C3' : forall i, 64 <= i -> i < 512 -> m3 (dst + i) = m2 (src + i)).
  { intros i X Y. specialize (C3 (i - 64) ltac:(clear - X Y; lia)). replace (dst + 64 + (i - 64)) with (dst + i) in C3 by (clear - X; lia).
    now replace (src + 64 + (i - 64)) with (src + i) in C3 by (clear - X; lia). }
  split; [|split; [|split]].
  - apply G; auto. repeat split; assumption.
  - apply G; auto; [repeat split; assumption|clear - AP; unfold apart in *; lia|]. intros i X Y. apply O3. clear - AP X Y. unfold apart in AP. lia.
  - intros a A1 A2 A3. rewrite (proj1 O3) by (clear - A2; lia). now apply U12.
  - intros a A. apply O3. now apply K12.
Qed.
Print Assumptions C79_copy3.

(** A state may not be copied onto itself. *)
Theorem C79_itself : forall cfg p st32 st64 s3 m,
  XXH32_copyState cfg p p st32 m = Undef BadMemcpy /\ XXH64_copyState cfg p p st64 m = Undef BadMemcpy /\
  XXH3_copyState cfg p p s3 m = Undef BadMemcpy.
Proof.
  intros cfg p st32 st64 s3 m.
  assert (H : forall a n (st : Type) (s : st), 0 < n -> (memcpy cfg a a n ;;; ret s) m = Undef BadMemcpy).
  { intros a n st s P. unfold memcpy. destruct (N.eqb_spec a 0) as [Z|Z]; [reflexivity|]. cbn [orb].
    replace (a <? a + n) with true by (symmetry; apply N.ltb_lt; lia). destruct (N.eqb_spec n 0) as [Y|Y]; [lia|reflexivity]. }
  split; [now apply H|]. split; [now apply H|]. unfold XXH3_copyState. destruct (p =? 0); [reflexivity|]. cbn [orb]. now apply H.
Qed.
Print Assumptions C79_itself.

(** ** Cases *)
(** the memory with an object gone *)
Definition gone (p n : N) (m : mem) : mem := fun a => if (p <=? a) && (a <? p + n) then None else m a.
Lemma gone_but : forall p n m, but p n m (gone p n m).
Proof. intros p n m a A. unfold gone. destruct (N.leb_spec p a); destruct (N.ltb_spec a (p + n)); try reflexivity. lia. Qed.
(** what is from 20000 on stays *)
Lemma part_stays : forall cfg size buf m i n, (forall a, 20000 <= a -> m a = xx_mem a) -> (i + n <= 100)%nat -> size <= 32 -> buf + size <= 20000 ->
  chunk_in cfg buf size m (xx_part i n).
Proof.
  intros cfg size buf m i n E H S B. destruct (xx_part_in cfg size i n H S) as (A1 & A2 & A3 & A4).
  split; [|split; [exact A2|split; [exact A3|unfold apart; left; lia]]].
  intros j c J. rewrite E by lia. now apply A1.
Qed.
(** 41 bytes, then a copy; the source is freed, and the copy is fed 36 bytes more *)
Example C79_case64 : forall cfg, exists st c m' m2,
  copied64 cfg xb_default 8192 4096 7 [xx_part 0 1; xx_part 1 40] xx_mem = Ok ((st, c), m') /\
  finish64 cfg xb_default 8192 c [xx_part 41 36] (gone 4096 32 m') = Ok (([0], xxh64 (firstn 77 (Demo.key 100)) 7), m2).
Proof.
  intro cfg. pose proof (addr_space_pos cfg) as AP.
  destruct (C79_copy64 cfg xb_default 8192 4096 7 [xx_part 0 1; xx_part 1 40] xx_mem) as (st & c & m' & E & G & _ & K);
    try discriminate; try lia; try apply xx_mapped; try (unfold alignment; now destruct (wide cfg)).
  - unfold apart. lia.
  - repeat (apply Forall_cons; [apply xx_part_in; lia|]); apply Forall_nil.
  - destruct (G [xx_part 41 36] (gone 4096 32 m') (gone_but _ _ _)) as (m2 & E2 & _).
    + apply Forall_cons; [|apply Forall_nil]. apply part_stays; try lia. intros a A. rewrite gone_but by lia. apply K; lia.
    + vm_compute. reflexivity.
    + exists st, c, m', m2. split; [exact E|]. exact E2.
Qed.
(** the other way round: the copy is lost, and the source goes on *)
Example C79_case32 : forall cfg, exists st c m' m2,
  copied32 cfg xb_default 8192 4096 7 [xx_part 0 1; xx_part 1 40] xx_mem = Ok ((st, c), m') /\
  finish32 cfg xb_default 4096 st [xx_part 41 30; xx_part 71 6] (gone 8192 16 m') = Ok (([0; 0], xxh32 (firstn 77 (Demo.key 100)) 7), m2).
Proof.
  intro cfg. pose proof (addr_space_pos cfg) as AP.
  destruct (C79_copy32 cfg xb_default 8192 4096 7 [xx_part 0 1; xx_part 1 40] xx_mem) as (st & c & m' & E & _ & G & K);
    try discriminate; try lia; try apply xx_mapped; try (unfold alignment; now destruct (wide cfg)).
  - unfold apart. lia.
  - repeat (apply Forall_cons; [apply xx_part_in; lia|]); apply Forall_nil.
  - destruct (G [xx_part 41 30; xx_part 71 6] (gone 8192 16 m') (gone_but _ _ _)) as (m2 & E2 & _).
    + repeat (apply Forall_cons; [apply part_stays; try lia; intros a A; rewrite gone_but by lia; apply K; lia|]); apply Forall_nil.
    + exists st, c, m', m2. split; [exact E|]. exact E2.
Qed.
(** 300 bytes of XXH3 with a seed, then a copy; the source is freed with its secret, and the copy is fed 900 bytes more *)
Example C79_case3 : forall cfg x3, xxh_force_memory_access (x3_xxh x3) <> 2 -> x3_kSecret x3 = 4096 -> exists st c m' m2,
  copied3 cfg x3 16384 12288 (With_seed 5) [(20001, firstn 300 (Demo.key 1200))] (S3 [] 1 2 3 4 5 6 7) x3_mem = Ok ((st, c), m') /\
  finish3 cfg x3 8192 16384 c [(20301, skipn 300 (Demo.key 1200))] (gone 12352 448 m') =
    Ok (([0], (xxh3_64_seed 5 (Demo.key 1200), xxh3_128_seed 5 (Demo.key 1200))), m2).
Proof.
  intros cfg x3 D K.
  assert (A : 40000 < addr_space cfg) by (unfold addr_space; destruct (ptr64 cfg); reflexivity).
  assert (L1 : mlen (firstn 300 (Demo.key 1200)) = 300) by (unfold mlen; rewrite firstn_length, key_length; reflexivity).
  assert (L2 : mlen (skipn 300 (Demo.key 1200)) = 900) by (unfold mlen; rewrite skipn_length, key_length; reflexivity).
  assert (CUT : firstn 300 (Demo.key 1200) ++ skipn 300 (Demo.key 1200) = Demo.key 1200) by apply firstn_skipn.
  assert (Hm : bytes_at x3_mem 20001 (firstn 300 (Demo.key 1200) ++ skipn 300 (Demo.key 1200))).
  { rewrite CUT. unfold x3_mem. apply write_bytes_at_other; [right; discriminate|apply write_bytes_at]. }
  apply bytes_at_app in Hm. destruct Hm as [H1 H2]. unfold mlen in L1. replace (20001 + N.of_nat (length (firstn 300 (Demo.key 1200)))) with 20301 in H2 by lia.
  fold (mlen (firstn 300 (Demo.key 1200))) in L1.
  assert (Hk : bytes_at x3_mem 4096 XXH3_kSecret_bytes) by apply write_bytes_at.
  assert (Hl : forall p n, mapped x3_mem p n).
  { intros p n. unfold x3_mem. apply write_mapped. unfold sea. apply write_mapped. intros i _. discriminate. }
  destruct (C79_copy3 cfg x3 8192 16384 12288 (With_seed 5) [(20001, firstn 300 (Demo.key 1200))] (S3 [] 1 2 3 4 5 6 7) x3_mem D)
    as (st & c & m' & E & G & _ & O & P).
  - unfold state_in, apart. repeat split; try apply Hl; lia.
  - split; [reflexivity|]. rewrite K. unfold secret_in. change (mlen XXH3_kSecret_bytes) with 192. unfold apart. repeat split; try lia. exact Hk.
  - unfold state_in, apart. repeat split; try apply Hl; lia.
  - split; [reflexivity|]. rewrite K. unfold secret_in. change (mlen XXH3_kSecret_bytes) with 192. unfold apart. repeat split; try lia. exact Hk.
  - unfold apart. lia.
  - apply Forall_cons; [|apply Forall_nil]; unfold chunk3_in, apart; rewrite ?L1; repeat split; try lia. exact H1.
  - cbn [contents flat_map snd]. rewrite app_nil_r, L1. reflexivity.
  - cbn [contents flat_map snd] in G. rewrite app_nil_r in G.
    destruct (G [(20301, skipn 300 (Demo.key 1200))] (gone 12352 448 m')) as (m2 & E2 & _).
    + intros a X _. apply gone_but. exact X.
    + intros i I. rewrite gone_but by lia. apply P. exact (Hl 8192 64%nat i I).
    + apply Forall_cons; [|apply Forall_nil]; unfold chunk3_in, apart; rewrite ?L2; repeat split; try lia.
      apply (bytes_moved x3_mem _ 20301 20301); [|exact H2]. intros i I. rewrite gone_but by lia. apply O; lia.
    + cbn [contents flat_map snd]. rewrite app_nil_r, CUT. unfold mlen. rewrite key_length. reflexivity.
    + intros _. cbn [contents flat_map snd]. rewrite app_nil_r, CUT. unfold mlen. rewrite key_length. discriminate.
    + exists st, c, m', m2. split; [exact E|]. cbn [contents flat_map snd] in E2. rewrite app_nil_r, CUT in E2. exact E2.
Qed.
