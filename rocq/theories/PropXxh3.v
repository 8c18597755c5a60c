(** C68: XXH3, which the test program compares with. *)
From Coq Require Import ZArith NArith Arith List Bool Lia Strings.Byte.
From Coq Require Import ZifyN ZifyNat ZifyBool.
From Verif Require Import Bytes CSem Bits Spec NBits CSemFacts OpsFacts FetchFacts KeyMem CtxMem StreamFacts Demo
  HighwayCat Xxhash XxhashSpec XxhashFacts XxhashStream PropXxhash Xxh3 Xxh3Spec Xxh3Facts Xxh3Secret.
Import ListNotations.
Ltac Zify.zify_post_hook ::= Z.div_mod_to_equations.
Local Open Scope N_scope.

(** ** The value *)
(** the message is at [p]; only an empty one may be at NULL *)
Definition message_at (cfg : config) (m : mem) (p : N) (msg : list byte) : Prop :=
  bytes_at m p msg /\ p + mlen msg < addr_space cfg /\ (msg <> [] -> p <> 0).
(** XXH3_kSecret is where it is said to be *)
Definition kSecret_there (cfg : config) (x3 : xxh3_build) (m : mem) : Prop :=
  bytes_at m (x3_kSecret x3) XXH3_kSecret_bytes /\ x3_kSecret x3 + 192 < addr_space cfg /\ x3_kSecret x3 <> 0.
(** the local array of 192 bytes on the stack, apart from the others *)
Definition local_there (cfg : config) (x3 : xxh3_build) (m : mem) (local p : N) (msg : list byte) : Prop :=
  mapped m local 192 /\ local + 192 < addr_space cfg /\ local <> 0 /\
  (local + 192 <= x3_kSecret x3 \/ x3_kSecret x3 + 192 <= local) /\ (local + 192 <= p \/ p + mlen msg <= local).

Lemma kSecret_default : XXH3_kSecret_bytes = default_secret.
Proof. vm_compute. reflexivity. Qed.
Lemma nonempty : forall (l : list byte), mlen l <> 0 -> l <> [].
Proof. intros l H E. subst l. now apply H. Qed.

(** With a secret of the caller, and in debug builds too unless the message has 8 bytes:
    see [C68_eight_bytes]. *)
Theorem C68_secret : forall cfg x3 m p msg q sec, xxh_force_memory_access (x3_xxh x3) <> 2 -> message_at cfg m p msg ->
  bytes_at m q sec -> q + mlen sec < addr_space cfg -> q <> 0 -> 136 <= mlen sec ->
  ((asserting cfg x3 = true -> mlen msg <> 8) ->
    XXH3_64bits_withSecret cfg x3 p (mlen msg) q (mlen sec) m = Ok (xxh3_64_secret sec msg, m)) /\
  XXH3_128bits_withSecret cfg x3 p (mlen msg) q (mlen sec) m = Ok (xxh3_128_secret sec msg, m).
Proof.
  intros cfg x3 m p msg q sec D (Hm & Ha & Hp) Hs Hq Hq0 Hz. split; [intro A; apply withSecret64_ok|apply withSecret128_ok];
    try split; auto; intro; apply Hp; now apply nonempty.
Qed.
Print Assumptions C68_secret.

(** Without a secret, and without a seed or with one, which for messages of more than 240
    bytes makes the function build a secret on its stack: nothing else is written. *)
Theorem C68_value : forall cfg x3 m p msg, xxh_force_memory_access (x3_xxh x3) <> 2 -> message_at cfg m p msg ->
  kSecret_there cfg x3 m ->
  ((asserting cfg x3 = true -> mlen msg <> 8) -> XXH3_64bits cfg x3 p (mlen msg) m = Ok (xxh3_64_plain msg, m)) /\
  XXH3_128bits cfg x3 p (mlen msg) m = Ok (xxh3_128_plain msg, m) /\
  (forall local seed, local_there cfg x3 m local p msg -> seed < 2 ^ 64 ->
    ((asserting cfg x3 = true -> mlen msg <> 8) ->
      exists m', XXH3_64bits_withSeed cfg x3 local p (mlen msg) seed m = Ok (xxh3_64_seed seed msg, m') /\ only m m' local 192) /\
    exists m', XXH3_128bits_withSeed cfg x3 local p (mlen msg) seed m = Ok (xxh3_128_seed seed msg, m') /\ only m m' local 192).
Proof.
  intros cfg x3 m p msg D (Hm & Ha & Hp) (Hk & Hka & Hk0). rewrite kSecret_default in Hk.
  assert (Hp' : mlen msg <> 0 -> p <> 0) by (intro; apply Hp; now apply nonempty).
  assert (HK : here cfg m (x3_kSecret x3) default_secret) by (split; [exact Hk|rewrite default_length; exact Hka]).
  assert (HM : here cfg m p msg) by (split; assumption).
  split; [intro A; now apply plain64_ok|]. split; [now apply plain128_ok|].
  intros local seed (L1 & L2 & L3 & L4 & L5) S. split; [intro A; now apply withSeed64_ok|now apply withSeed128_ok].
Qed.
Print Assumptions C68_value.

(** The test program's functions.  The one named XXH3_128 returns 64 of the 128 bits. *)
Theorem C68_thunk : forall cfg x3 m p msg local seed, xxh_force_memory_access (x3_xxh x3) <> 2 -> message_at cfg m p msg ->
  kSecret_there cfg x3 m -> local_there cfg x3 m local p msg -> seed < 2 ^ 64 -> x3_debug x3 = false ->
  (exists m', thunk_XXH3_64 cfg x3 local p (mlen msg) seed m = Ok (xxh3_64_seed seed msg, m') /\ only m m' local 192) /\
  (exists m', thunk_XXH3_128 cfg x3 local p (mlen msg) seed m = Ok (fst (xxh3_128_seed seed msg), m') /\ only m m' local 192).
Proof.
  intros cfg x3 m p msg local seed D Hm Hk Hl S X. destruct (C68_value cfg x3 m p msg D Hm Hk) as (_ & _ & V).
  destruct (V local seed Hl S) as (V64 & m' & E & O). split.
  - apply V64. unfold asserting. now rewrite X.
  - exists m'. split; [|exact O]. unfold thunk_XXH3_128. now ok E.
Qed.
Print Assumptions C68_thunk.

(** Those 64 bits are what XXH3_64 returns, for messages of 1 to 3 and of more than 240
    bytes: comparing the quality of both compares nothing there. *)
Theorem C68_low_half : forall sec seed msg, (1 <= mlen msg <= 3 \/ 240 < mlen msg) ->
  fst (xxh3_128_seed seed msg) = xxh3_64_seed seed msg /\ fst (xxh3_128_secret sec msg) = xxh3_64_secret sec msg.
Proof.
  assert (G : forall a b seed msg, (1 <= mlen msg <= 3 \/ 240 < mlen msg) -> fst (xxh3_128 a b seed msg) = xxh3_64 a b seed msg).
  { intros a b seed msg L. unfold xxh3_128, xxh3_64. cbv zeta.
    destruct (N.leb_spec (mlen msg) 16).
    - unfold short_128, short_64. cbv zeta. replace (mlen msg =? 0) with false by lia.
      replace (mlen msg <? 4) with true by lia. reflexivity.
    - replace (mlen msg <=? 128) with false by lia. replace (mlen msg <=? 240) with false by lia. reflexivity. }
  intros. unfold xxh3_128_seed, xxh3_64_seed, xxh3_128_secret, xxh3_64_secret. split; apply G; assumption.
Qed.
Print Assumptions C68_low_half.
Example C68_halves_differ : fst (xxh3_128_seed 0 []) <> xxh3_64_seed 0 [] /\ fst (xxh3_128_seed 0 (Demo.key 5)) <> xxh3_64_seed 0 (Demo.key 5) /\
  fst (xxh3_128_seed 0 (Demo.key 9)) <> xxh3_64_seed 0 (Demo.key 9).
Proof. vm_compute. repeat split; discriminate. Qed.

(** ** The assertion that is wrong *)
(** XXH3_len_4to8_64b asserts len < 8 and is called for 8 bytes: a build that asserts stops
    for every such message, every secret and seed. *)
Theorem C68_eight_bytes : forall cfg x3 m p q secretSize local seed, asserting cfg x3 = true ->
  136 <= secretSize -> p <> 0 ->
  (q <> 0 -> XXH3_64bits_withSecret cfg x3 p 8 q secretSize m = Abort) /\
  (x3_kSecret x3 <> 0 -> XXH3_64bits cfg x3 p 8 m = Abort /\ XXH3_64bits_withSeed cfg x3 local p 8 seed m = Abort).
Proof.
  intros cfg x3 m p q secretSize local seed A Z P.
  assert (G : forall q n s f, q <> 0 -> 136 <= n -> XXH3_64bits_internal cfg x3 p 8 s q n f m = Abort).
  { clear q secretSize Z seed. intros q n s f Q Z. unfold XXH3_64bits_internal, XXH3_SECRET_SIZE_MIN. asserted.
    cbn [N.leb N.compare Pos.compare Pos.compare_cont]. unfold XXH3_len_0to16_64b. asserted.
    cbn [N.ltb N.leb N.compare Pos.compare Pos.compare_cont]. unfold XXH3_len_4to8_64b. do 2 asserted. unfold bind at 1, XXH_ASSERT, assert_.
    unfold asserting in A. apply andb_prop in A. destruct A as [-> A]. destruct (ndebug cfg); [discriminate A|]. reflexivity. }
  split; [intro; now apply G|]. intro K. split; apply G; try assumption; discriminate.
Qed.
Print Assumptions C68_eight_bytes.

(** ** Direct memory access *)
(** With method 2 of tests/xxhash/xxhash.h:766-768 messages of more than 128 bytes cannot be
    hashed at all, however they and the secret are placed: some reads are at the secret's
    address and some at odd distances from it. *)
Definition done {A} (x : M A) (m : mem) : Prop := exists v, x m = Ok v.
Lemma done_bind : forall A B (x : M A) (k : A -> M B) m, done (bind x k) m -> done x m /\ exists a m', x m = Ok (a, m') /\ done (k a) m'.
Proof.
  intros A B x k m (v & E). unfold bind in E. unfold done. destruct (x m) as [[a m']| | | | |] eqn:X; try discriminate E.
  split; [now exists (a, m')|]. exists a, m'. split; [reflexivity|now exists v].
Qed.
Lemma done_first : forall A n i (body : N -> A -> M A) a m, done (for_loop (S n) i body a) m -> done (body i a) m.
Proof. intros A n i body a m H. cbn [for_loop] in H. now apply done_bind in H. Qed.
Lemma done_loop_prop : forall A (Q : Prop) n i (body : N -> A -> M A) a m, n <> O ->
  (forall i a m, done (body i a) m -> Q) -> done (for_loop n i body a) m -> Q.
Proof. intros A Q [|n] i body a m Z H D; [contradiction|]. apply done_first in D. exact (H _ _ _ D). Qed.
Section Direct.
  Variable (cfg : config) (x3 : xxh3_build).
  Hypothesis Hd : xxh_force_memory_access (x3_xxh x3) = 2.
  Lemma done_rd : forall p m, done (XXH_readLE64 cfg (x3_xxh x3) p) m -> p mod 4 = 0.
  Proof.
    intros p m (v & E). unfold XXH_readLE64, XXH_read64, deref, bind in E. rewrite Hd in E. cbn [N.eqb Pos.eqb] in E.
    destruct (N.eqb_spec (p mod alignment cfg 8) 0) as [H|H]; [|discriminate E].
    unfold alignment in H. destruct (wide cfg); cbn in H; lia.
  Qed.
  Lemma padd_mod4 : forall p k, padd cfg p k mod 4 = (p + k) mod 4.
  Proof. intros p k. unfold padd, addr_space. destruct (ptr64 cfg); lia. Qed.
  Lemma psub_mod4 : forall p k, k <= addr_space cfg -> (psub cfg p k + k) mod 4 = p mod 4.
  Proof. intros p k L. unfold psub. unfold addr_space in *. destruct (ptr64 cfg); lia. Qed.
  Ltac step H := apply done_bind in H; destruct H as [? (? & ? & _ & H)].
  Lemma done_mix16 : forall p q s m, done (XXH3_mix16B cfg x3 p q s) m -> q mod 4 = 0.
  Proof. intros p q s m H. unfold XXH3_mix16B in H. do 2 step H. apply done_bind in H. destruct H as [H _]. exact (done_rd _ _ H). Qed.
  Lemma done_plus16 : forall p q s a m, done (add_mix16B cfg x3 p q s a) m -> q mod 4 = 0.
  Proof. intros p q s a m H. unfold add_mix16B in H. apply done_bind in H. destruct H as [H _]. exact (done_mix16 _ _ _ _ H). Qed.
  Lemma done_stripe : forall p q acc m, done (XXH3_accumulate_512 cfg x3 p q acc) m -> q mod 4 = 0.
  Proof.
    intros p q acc m H. unfold XXH3_accumulate_512 in H. change 8%nat with (S 7) in H. apply done_first in H. step H.
    apply done_bind in H. destruct H as [H _]. apply done_rd in H. rewrite padd_mod4 in H. lia.
  Qed.
  Lemma done_accumulate : forall p q n acc m, n <> 0 -> done (XXH3_accumulate cfg x3 p q n acc) m -> q mod 4 = 0.
  Proof.
    intros p q n acc m Z H. unfold XXH3_accumulate in H. replace (N.to_nat n) with (S (N.to_nat (n - 1))) in H by lia.
    apply done_first in H. apply done_stripe in H. rewrite padd_mod4 in H. lia.
  Qed.
  Lemma done_long : forall p len q n acc m, 64 < len < addr_space cfg -> done (XXH3_hashLong_internal_loop cfg x3 p len q n acc) m -> q mod 4 = 0.
  Proof.
    intros p len q n acc m L H. unfold XXH3_hashLong_internal_loop in H. cbv zeta in H.
    assert (PL : psub cfg len 1 = len - 1) by (apply psub_small; lia). rewrite PL in H.
    set (k := psub cfg n 64 / 8) in H. destruct (N.eqb_spec k 0) as [Z|Z]; [destruct H as (v & H); discriminate H|].
    step H. pose proof H as H'. apply done_bind in H. destruct H as [HF (a & m2 & _ & H)].
    destruct (N.eqb_spec ((len - 1) / (64 * k)) 0) as [B|B].
    - step H. step H. apply done_bind in H. destruct H as [H _].
      apply done_accumulate in H; [exact H|]. rewrite B. clear - L. lia.
    - assert (E : forall n, n <> 0 -> N.to_nat n = S (N.to_nat (n - 1))) by (clear; intros; lia). rewrite (E _ B) in HF.
      apply done_first in HF. apply done_bind in HF. destruct HF as [HF _]. apply done_accumulate in HF; assumption.
  Qed.
  Lemma done_merge : forall acc q s m, done (XXH3_mergeAccs cfg x3 acc q s) m -> q mod 4 = 0.
  Proof.
    intros acc q s m H. unfold XXH3_mergeAccs in H. apply done_bind in H. destruct H as [H _].
    change 4%nat with (S 3) in H. apply done_first in H. apply done_bind in H. destruct H as [H _]. unfold XXH3_mix2Accs in H.
    apply done_bind in H. destruct H as [H _]. apply done_rd in H. rewrite padd_mod4 in H. lia.
  Qed.
  Lemma no_long64 : forall p len q n m, 64 < len < addr_space cfg -> ~ done (XXH3_hashLong_64b_internal cfg x3 p len q n) m.
  Proof.
    intros p len q n m L H. unfold XXH3_hashLong_64b_internal in H. apply done_bind in H. destruct H as [HF (a & m1 & _ & H)].
    step H. apply done_long in HF; [|exact L]. apply done_merge in H. rewrite padd_mod4 in H. lia.
  Qed.
  Lemma no_mid64 : forall p len q n s m, ~ done (XXH3_len_129to240_64b cfg x3 p len q n s) m.
  Proof.
    intros p len q n s m H. unfold XXH3_len_129to240_64b in H. do 2 step H. apply done_bind in H. destruct H as [HF (a & m1 & _ & H)].
    do 2 step H. apply done_bind in H. destruct H as [H _]. change 8%nat with (S 7) in HF. apply done_first in HF.
    apply done_plus16 in HF. apply done_plus16 in H. rewrite padd_mod4 in HF. unfold XXH3_SECRET_SIZE_MIN, XXH3_MIDSIZE_LASTOFFSET in H.
    assert (A : 17 <= addr_space cfg) by (unfold addr_space; destruct (ptr64 cfg); discriminate).
    pose proof (psub_mod4 (padd cfg q 136) 17 A) as P. rewrite padd_mod4 in P. lia.
  Qed.
  Lemma done_plus32 : forall acc p1 p2 q s m, done (XXH128_mix32B cfg x3 acc p1 p2 q s) m -> q mod 4 = 0.
  Proof.
    intros [a b] p1 p2 q s m H. unfold XXH128_mix32B in H. apply done_bind in H. destruct H as [H _]. apply done_mix16 in H.
    rewrite padd_mod4 in H. lia.
  Qed.
  Lemma no_mid128 : forall p len q n s m, ~ done (XXH3_len_129to240_128b cfg x3 p len q n s) m.
  Proof.
    intros p len q n s m H. unfold XXH3_len_129to240_128b in H. do 2 step H. apply done_bind in H. destruct H as [HF (a & m1 & _ & H)].
    do 2 step H. apply done_bind in H. destruct H as [H _]. change 4%nat with (S 3) in HF. apply done_first in HF.
    apply done_plus32 in HF. apply done_plus32 in H. rewrite padd_mod4 in HF. unfold XXH3_SECRET_SIZE_MIN, XXH3_MIDSIZE_LASTOFFSET in H.
    assert (A : 17 <= addr_space cfg /\ 16 <= addr_space cfg) by (unfold addr_space; destruct (ptr64 cfg); split; discriminate).
    pose proof (psub_mod4 (padd cfg q 136) 17 (proj1 A)) as P. rewrite padd_mod4 in P.
    pose proof (psub_mod4 (psub cfg (padd cfg q 136) 17) 16 (proj2 A)) as P2. lia.
  Qed.
  Lemma no_long128 : forall p len q n m, 64 < len < addr_space cfg -> ~ done (XXH3_hashLong_128b_internal cfg x3 p len q n) m.
  Proof.
    intros p len q n m L H. unfold XXH3_hashLong_128b_internal in H. apply done_bind in H. destruct H as [HF (a & m1 & _ & H)].
    step H. apply done_long in HF; [|exact L]. apply done_bind in H. destruct H as [H _]. apply done_merge in H. rewrite padd_mod4 in H. lia.
  Qed.
End Direct.
Theorem C68_method_2 : forall cfg x3 m p len q secretSize local seed v, xxh_force_memory_access (x3_xxh x3) = 2 ->
  128 < len < addr_space cfg ->
  XXH3_64bits_withSecret cfg x3 p len q secretSize m <> Ok v /\ XXH3_64bits cfg x3 p len m <> Ok v /\
  XXH3_64bits_withSeed cfg x3 local p len seed m <> Ok v /\
  forall v, XXH3_128bits_withSecret cfg x3 p len q secretSize m <> Ok v /\ XXH3_128bits cfg x3 p len m <> Ok v /\
  XXH3_128bits_withSeed cfg x3 local p len seed m <> Ok v.
Proof.
  intros cfg x3 m p len q secretSize local seed v D L.
  assert (G : forall q n s f, (forall m, ~ done (f p len s q n) m) -> ~ done (XXH3_64bits_internal cfg x3 p len s q n f) m).
  { intros q' n s f F H. unfold XXH3_64bits_internal, XXH3_MIDSIZE_MAX in H. apply done_bind in H. destruct H as [_ (? & m1 & _ & H)].
    replace (len <=? 16) with false in H by lia. replace (len <=? 128) with false in H by lia. revert H.
    destruct (len <=? 240); [now apply no_mid64|apply F]. }
  assert (G' : forall q n s f, (forall m, ~ done (f p len s q n) m) -> ~ done (XXH3_128bits_internal cfg x3 p len s q n f) m).
  { intros q' n s f F H. unfold XXH3_128bits_internal, XXH3_MIDSIZE_MAX in H. apply done_bind in H. destruct H as [_ (? & m1 & _ & H)].
    replace (len <=? 16) with false in H by lia. replace (len <=? 128) with false in H by lia. revert H.
    destruct (len <=? 240); [now apply no_mid128|apply F]. }
  assert (L' : 64 < len < addr_space cfg) by lia.
  assert (T : forall q n m, ~ done (XXH3_hashLong_64b_internal cfg x3 p len q n) m) by (intros; now apply no_long64).
  assert (T' : forall q n m, ~ done (XXH3_hashLong_128b_internal cfg x3 p len q n) m) by (intros; now apply no_long128).
  assert (N : forall A (x : M A) r, ~ done x m -> x m <> Ok r) by (intros A x r H E; apply H; now exists r).
  split; [|split; [|split; [|intro w; split; [|split]]]]; apply N.
  - apply G. intro. apply T.
  - apply G. intro. apply T.
  - apply G. intros m' H. unfold XXH3_hashLong_64b_withSeed in H. destruct (seed =? 0); [exact (T _ _ _ H)|].
    apply done_bind in H. destruct H as [_ (? & ? & _ & H)]. exact (T _ _ _ H).
  - apply G'. intro. apply T'.
  - apply G'. intro. apply T'.
  - apply G'. intros m' H. unfold XXH3_hashLong_128b_withSeed in H. destruct (seed =? 0); [exact (T' _ _ _ H)|].
    apply done_bind in H. destruct H as [_ (? & ? & _ & H)]. exact (T' _ _ _ H).
Qed.
Print Assumptions C68_method_2.

(** ** Cases *)
Example C68_known : xxh3_64_plain [] = 0x2d06800538d394c2 /\ xxh3_64_plain [x61; x62; x63] = 0x78af5f94892f3950 /\
  xxh3_128_plain [] = (0x6001c324468d497f, 0x99aa06d3014798d8).
Proof. vm_compute. repeat split. Qed.
(** 1200 bytes at an odd address, with a seed, in builds with different byte orders and
    widths of pointers, one of them with assertions *)
Definition x3_demo : xxh3_build := Build_xxh3_build xb_default false 4096.
Definition x3_sparc : xxh3_build := Build_xxh3_build xb_sparc true 4096.
Definition x3_mem : mem := write (sea 20001 (Demo.key 1200) xee) 4096 XXH3_kSecret_bytes.
Example C68_case : exists m1 m2, thunk_XXH3_64 x86_64 x3_demo 8192 20001 1200 5 x3_mem = Ok (xxh3_64_seed 5 (Demo.key 1200), m1) /\
  XXH3_64bits_withSeed mips32 x3_sparc 8192 20001 1200 5 x3_mem = Ok (xxh3_64_seed 5 (Demo.key 1200), m2) /\
  only x3_mem m1 8192 192 /\ only x3_mem m2 8192 192.
Proof.
  assert (L : mlen (Demo.key 1200) = 1200) by (unfold mlen; now rewrite key_length).
  assert (Hm : bytes_at x3_mem 20001 (Demo.key 1200)).
  { unfold x3_mem. apply write_bytes_at_other; [right; discriminate|apply write_bytes_at]. }
  assert (Hk : bytes_at x3_mem 4096 XXH3_kSecret_bytes) by apply write_bytes_at.
  assert (Hl : mapped x3_mem 8192 192).
  { unfold x3_mem. apply write_mapped. unfold sea. apply write_mapped. intros i _. discriminate. }
  assert (V : forall cfg x3, xxh_force_memory_access (x3_xxh x3) <> 2 -> x3_kSecret x3 = 4096 ->
    exists m', XXH3_64bits_withSeed cfg x3 8192 20001 1200 5 x3_mem = Ok (xxh3_64_seed 5 (Demo.key 1200), m') /\ only x3_mem m' 8192 192).
  { intros cfg x3 D K. assert (A : 40000 < addr_space cfg) by (unfold addr_space; destruct (ptr64 cfg); reflexivity).
    destruct (C68_value cfg x3 x3_mem 20001 (Demo.key 1200) D) as (_ & _ & V).
    - split; [exact Hm|]. split; [rewrite L; lia|discriminate].
    - unfold kSecret_there. rewrite K. split; [exact Hk|]. split; [lia|discriminate].
    - destruct (V 8192 5) as (W & _); [|reflexivity|].
      + unfold local_there. rewrite K. split; [exact Hl|]. split; [lia|]. split; [discriminate|]. split; [right; discriminate|left; discriminate].
      + rewrite L in W. apply W. discriminate. }
  destruct (V x86_64 x3_demo) as (m1 & E1 & O1); [discriminate|reflexivity|].
  destruct (V mips32 x3_sparc) as (m2 & E2 & O2); [discriminate|reflexivity|].
  exists m1, m2. unfold thunk_XXH3_64. exact (conj E1 (conj E2 (conj O1 O2))).
Qed.
(** a build with assertions and a message of 8 bytes; and one with direct access *)
Example C68_eight_case : XXH3_64bits_withSeed mips32 x3_sparc 8192 20001 8 5 x3_mem = Abort.
Proof. apply (C68_eight_bytes mips32 x3_sparc x3_mem 20001 1 136 8192 5); [reflexivity|discriminate|discriminate|discriminate]. Qed.
Example C68_method_case : XXH3_64bits mips32 (Build_xxh3_build xb_armv6 false 4096) 20000 160 x3_mem = Undef MisalignedAccess.
Proof. vm_compute. reflexivity. Qed.
