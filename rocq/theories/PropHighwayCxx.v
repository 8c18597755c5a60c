(** C58, C59: HighwayHash in C++, the portable class, which the test program checks. *)
From Coq Require Import ZArith NArith Arith List Bool Lia Strings.Byte.
From Coq Require Import ZifyN ZifyNat ZifyBool.
From Verif Require Import Bytes CSem Bits Spec NBits CSemFacts OpsFacts FetchFacts KeyMem CtxMem StreamFacts Demo SelfcheckSpec T1ha2
  Effects Highway HighwaySpec HighwayFacts HighwayCat PropHighway PropHighway2 HighwayCxx HighwayTemplates HighwayPortable.
Import ListNotations.
Local Open Scope N_scope.

(** ** What the templates compute for a class with correct operations *)
(** the result of 256 bits as four words *)
Definition four (x : N * N) : N * N * N * N :=
  (fst x mod 2 ^ 64, fst x / 2 ^ 64, snd x mod 2 ^ 64, snd x / 2 ^ 64).
Lemma four_ok : forall h0 h1 h2 h3 x, (h1 * 2 ^ 64 + h0, h3 * 2 ^ 64 + h2) = x -> good_quad (h0, h1, h2, h3) -> (h0, h1, h2, h3) = four x.
Proof.
  intros h0 h1 h2 h3 x <- (L0 & L1 & L2 & L3). unfold four. cbn [fst snd].
  rewrite !N.div_add_l by discriminate. rewrite !(N.div_small _ (2 ^ 64)), !N.add_0_r by assumption.
  rewrite !(N.add_comm (_ * _)), !N.mod_add by discriminate. now rewrite !N.mod_small by assumption.
Qed.
(** HighwayHashT, for all keys and messages at all addresses *)
Definition T_computes (cfg : config) {St : Type} (ops : hh_ops St) (absorb : N * N * N * N -> list byte -> hstate) : Prop :=
  forall m key p msg, good_quad key -> bytes_at m p msg -> p + mlen msg < addr_space cfg ->
    HighwayHashT64 ops cfg (op_Reset ops key) p (mlen msg) m = Ok (hh_out64 (absorb key msg), m) /\
    HighwayHashT128 ops cfg (op_Reset ops key) p (mlen msg) m = Ok (hh_out128 (absorb key msg), m) /\
    HighwayHashT256 ops cfg (op_Reset ops key) p (mlen msg) m = Ok (four (hh_out256 (absorb key msg)), m).
(** HighwayHashCat of any number of fragments that are anywhere apart from the
    buffer, which is aligned to [al] bytes; nothing else is written *)
Definition Cat_computes (cfg : config) {St : Type} (ops : hh_ops St) (al : N) (absorb : N * N * N * N -> list byte -> hstate) : Prop :=
  forall m key buffer parts ls, good_quad key -> mapped m buffer 32 -> buffer + 32 < addr_space cfg -> buffer mod al = 0 ->
    Forall2 (fragment_in cfg buffer m) parts ls ->
    exists m', only m m' buffer 32 /\
      HighwayHashCat64 ops cfg buffer key parts m = Ok (hh_out64 (absorb key (concat ls)), m') /\
      HighwayHashCat128 ops cfg buffer key parts m = Ok (hh_out128 (absorb key (concat ls)), m') /\
      HighwayHashCat256 ops cfg buffer key parts m = Ok (four (hh_out256 (absorb key (concat ls))), m').

Section Sound.
  Context {St : Type}.
  Variables (cfg : config) (ops : hh_ops St) (abs : St -> hstate) (pd : list byte -> list byte) (al : N).
  Hypothesis SO : hh_sound cfg ops abs pd al.
  Lemma T_computes_sound : T_computes cfg ops (hh_absorb_with pd).
  Proof.
    intros m key p msg K H A. destruct (T_ok cfg ops abs pd al SO p msg key m K H A) as (st & E & C & G). rewrite <- C.
    split; [unfold HighwayHashT64; ok E; now rewrite (sound_Finalize64 _ _ _ _ _ SO)|].
    split; [unfold HighwayHashT128; ok E; now rewrite (sound_Finalize128 _ _ _ _ _ SO)|].
    unfold HighwayHashT256. ok E. pose proof (sound_Finalize256 _ _ _ _ _ SO st G) as F.
    destruct (op_Finalize256 ops st) as [[[h0 h1] h2] h3]. destruct F as [F F']. unfold ret. now rewrite (four_ok _ _ _ _ _ F F').
  Qed.
  Lemma Cat_computes_sound : Cat_computes cfg ops al (hh_absorb_with pd).
  Proof.
    intros m key buffer parts ls K M A AL P.
    destruct (catT_new_ok cfg ops abs pd al SO key buffer m K M A AL) as (cat & m1 & E1 & C1 & O1).
    assert (P1 : Forall2 (fragment_in cfg buffer m1) parts ls).
    { eapply Forall2_imp; [|exact P]. intros [q k] l (E' & B' & L' & D'). repeat split; try assumption.
      cbn [fst snd] in *. eapply only_bytes; [exact O1| |exact B']. unfold apart in D'. lia. }
    destruct (catT_fragments_ok cfg ops abs pd al SO key buffer parts ls cat [] m1 P1 A AL C1) as (cat' & m2 & E2 & C2 & O2).
    cbn [app] in C2. destruct (catT_state_ok cfg ops abs pd al SO key buffer cat' _ m2 C2 A) as (st & E3 & C3 & G).
    exists m2. split; [now apply only_trans with m1|]. rewrite <- C3.
    unfold HighwayHashCat64, HighwayHashCat128, HighwayHashCat256, CatT_Finalize64, CatT_Finalize128, CatT_Finalize256.
    split; [ok E1; ok E2; ok E3; now rewrite (sound_Finalize64 _ _ _ _ _ SO)|].
    split; [ok E1; ok E2; ok E3; now rewrite (sound_Finalize128 _ _ _ _ _ SO)|].
    ok E1. ok E2. ok E3. pose proof (sound_Finalize256 _ _ _ _ _ SO st G) as F.
    destruct (op_Finalize256 ops st) as [[[h0 h1] h2] h3]. destruct F as [F F']. unfold ret. now rewrite (four_ok _ _ _ _ _ F F').
  Qed.
End Sound.
(** the function with a key in memory *)
Lemma Target_computes : forall cfg St (ops : hh_ops St) absorb, T_computes cfg ops absorb ->
  forall m q key p msg, good_quad key -> key_in cfg q key m -> bytes_at m p msg -> p + mlen msg < addr_space cfg ->
    HighwayHash64_Target ops cfg q p (mlen msg) m = Ok (hh_out64 (absorb key msg), m).
Proof.
  intros cfg St ops absorb T m q [[[k0 k1] k2] k3] p msg G (A & K) H P. unfold HighwayHash64_Target.
  ok (load_key_ok cfg m q k0 k1 k2 k3 A G K). now apply T.
Qed.

(** ** C58: the portable class *)
(** Little-endian builds compute HighwayHash, with results of all three sizes.  Unlike
    the C code this needs no bound on the length beyond that the message is in the
    address space. *)
Theorem C58_little : forall cfg, big_endian cfg = false -> T_computes cfg portable hh_absorb.
Proof.
  intros cfg E. pose proof (T_computes_sound cfg portable conv _ _ (portable_sound cfg)) as T. unfold cxx_pad in T. rewrite E in T. exact T.
Qed.
Print Assumptions C58_little.
(** Big-endian builds compute something else: the bytes at the end of a message are
    padded in reverse order. *)
Theorem C58_big : forall cfg, big_endian cfg = true -> T_computes cfg portable (hh_absorb_with pad_reversed).
Proof.
  intros cfg E. pose proof (T_computes_sound cfg portable conv _ _ (portable_sound cfg)) as T. unfold cxx_pad in T. rewrite E in T. exact T.
Qed.
Print Assumptions C58_big.
(** So on little-endian builds C and C++ agree. *)
Theorem C58_agree : forall cfg m q key p msg seed, big_endian cfg = false -> good_quad key -> seed < 2 ^ 64 -> key_in cfg q key m ->
  bytes_at m p msg -> p + mlen msg < addr_space cfg -> mlen msg + 32 < addr_space cfg ->
  HighwayHash64_Portable cfg q p (mlen msg) m = HighwayHash64_pure_c cfg q p (mlen msg) m /\
  thunk_HighwayHash64_Target portable cfg p (mlen msg) seed m = thunk_HighwayHash64_pure_c cfg p (mlen msg) seed m.
Proof.
  intros cfg m q key p msg seed E G S K H A A'. split.
  - unfold HighwayHash64_Portable. rewrite (Target_computes cfg _ _ _ (C58_little cfg E) m q key p msg G K H A).
    symmetry. now apply C54_value.
  - rewrite (C54_thunk cfg m p msg seed S H A A'). apply (C58_little cfg E m (seed, seed, seed, seed) p msg); [|exact H|exact A].
    exact (conj S (conj S (conj S S))).
Qed.
Print Assumptions C58_agree.

(** On big-endian builds the states after the message differ exactly if the padded
    bytes do, *)
Theorem C58_states : forall key msg, good_quad key ->
  (hh_absorb_with pad_reversed key msg = hh_absorb key msg <-> rest 32 msg = [] \/ pad_reversed (rest 32 msg) = pad (rest 32 msg)).
Proof.
  intros key msg K. unfold hh_absorb, hh_absorb_with. pose proof (good_packets (blocks 32 msg) _ (good_init key K)) as G.
  set (s := fold_left _ _ _) in *. clearbody s. pose proof (rest_lt msg) as L. set (r := rest 32 msg) in *. clearbody r.
  destruct r as [|x r]; [now split; [left|]|]. cbn [hh_rest_with].
  assert (LL : (1 <= length (x :: r) <= 31)%nat) by (cbn [length] in *; lia).
  assert (PL : length (pad (x :: r)) = 32%nat /\ length (pad_reversed (x :: r)) = 32%nat).
  { split; [now apply packet_of_pad|]. exact (proj2 (cxx_packet_pad mips32 (x :: r) LL)). }
  split.
  - intro E. right. apply words_inj; try apply PL.
    eapply step_words; [| | |exact E]; [|apply good_words, PL|apply good_words, PL]. apply good_length; [unfold mlen; lia|exact G].
  - intros [X|X]; [discriminate X|]. now rewrite X.
Qed.
Print Assumptions C58_states.
(** and these are equal only if the last bytes read the same in both directions (16
    bytes and more) or the bytes after the last multiple of four are zero. *)
Theorem C58_pads : forall r, (1 <= length r <= 31)%nat ->
  (pad_reversed r = pad r <->
   if (16 <=? length r)%nat then rev (skipn (length r - 4) r) = skipn (length r - 4) r
   else Forall (fun b => b = x00) (skipn (4 * (length r / 4)) r)).
Proof.
  intros r L. unfold pad_reversed, pad. cbv zeta. destruct (Nat.leb_spec 16 (length r)) as [B|B].
  - split; [|now intros ->]. intro E. now do 2 apply app_inv_head in E.
  - assert (LS : length (skipn (4 * (length r / 4)) r) = (length r mod 4)%nat).
    { rewrite skipn_length. pose proof (Nat.div_mod (length r) 4 ltac:(discriminate)). lia. }
    assert (LM : (length r mod 4 < 4)%nat) by (apply Nat.mod_upper_bound; discriminate).
    set (t := skipn _ _) in *. split.
    + intro E. do 2 apply app_inv_head in E. destruct t as [|x [|y [|z [|]]]]; cbn [length last3 rev app repeat] in *; try lia; inversion E; repeat constructor; congruence.
    + intro E. f_equal. f_equal. destruct t as [|x [|y [|z [|]]]]; cbn [length] in *; try lia; repeat match goal with H : Forall _ (_ :: _) |- _ => apply Forall_cons_iff in H; destruct H as [? H]; subst end; reflexivity.
Qed.
Print Assumptions C58_pads.

(** The check passes on all little-endian builds *)
Theorem C58_verify_little : forall cfg data key1 key2 m, big_endian cfg = false ->
  data + 65 < addr_space cfg -> apart data 65 key1 32 -> apart data 65 key2 32 ->
  mapped m data 65 -> key_in cfg key1 test_key1 m -> key_in cfg key2 test_key2 m ->
  exists m', HighwayHash64_verify cfg data key1 key2 (HighwayHash64_Portable cfg) m = Ok (false, m') /\ only m m' data 65.
Proof.
  intros cfg data key1 key2 m BE A D1 D2 M K1 K2.
  assert (F : hh_computes cfg (HighwayHash64_Portable cfg) highway64).
  { intros m0 q key p msg G K H P _. exact (Target_computes cfg _ _ _ (C58_little cfg BE) m0 q key p msg G K H P). }
  destruct (hh_verify_computes cfg _ _ F data key1 key2 A D1 D2 m M K1 K2) as (m' & E & O).
  exists m'. split; [|exact O]. rewrite E, hh_passes. reflexivity.
Qed.
Print Assumptions C58_verify_little.
(** and fails on all big-endian builds: the test program cannot succeed there. *)
Definition highway64_reversed (key : N * N * N * N) (msg : list byte) : N := hh_out64 (hh_absorb_with pad_reversed key msg).
Lemma hh_big_fails : hh_fails highway64_reversed = true.
Proof. vm_compute. reflexivity. Qed.
Theorem C58_verify_big_refuted : forall cfg data key1 key2 m, big_endian cfg = true ->
  data + 65 < addr_space cfg -> apart data 65 key1 32 -> apart data 65 key2 32 ->
  mapped m data 65 -> key_in cfg key1 test_key1 m -> key_in cfg key2 test_key2 m ->
  exists m', HighwayHash64_verify cfg data key1 key2 (HighwayHash64_Portable cfg) m = Ok (true, m') /\ only m m' data 65.
Proof.
  intros cfg data key1 key2 m BE A D1 D2 M K1 K2.
  assert (F : hh_computes cfg (HighwayHash64_Portable cfg) highway64_reversed).
  { intros m0 q key p msg G K H P _. exact (Target_computes cfg _ _ _ (C58_big cfg BE) m0 q key p msg G K H P). }
  destruct (hh_verify_computes cfg _ _ F data key1 key2 A D1 D2 m M K1 K2) as (m' & E & O).
  exists m'. split; [|exact O]. rewrite E, hh_big_fails. reflexivity.
Qed.
Print Assumptions C58_verify_big_refuted.
(** the first of the 65 recorded values that it misses is for two bytes (a single one is
    not noticed as it is zero) *)
Example C58_which : map (fun i => nth i kExpected64 0 =? highway64_reversed test_key1 (counting i)) [0; 1; 2]%nat = [true; true; false].
Proof. vm_compute. reflexivity. Qed.
(** [C54_verify_hyp] shows the hypotheses met *)
Example C58_verify_mips32 : hh_failed_of (HighwayHash64_verify mips32 16385 4096 8192 (HighwayHash64_Portable mips32) (hh_mem mips32)) = Some true.
Proof.
  destruct C54_verify_hyp as (K1 & K2 & M).
  destruct (C58_verify_big_refuted mips32 16385 4096 8192 (hh_mem mips32) eq_refl eq_refl ltac:(right; discriminate) ltac:(right; discriminate) M K1 K2) as (m' & E & _).
  now rewrite E.
Qed.
Example C58_case :
  match HighwayHash64_Portable x86_64 4096 16385 7 (write (hh_mem x86_64) 16385 (counting 7)) with Ok (v, _) => v = highway64 test_key1 (counting 7) | _ => False end.
Proof. vm_compute. reflexivity. Qed.

(** Whatever the arguments, nothing is written; with more memory mapped the outcome is
    the same unless it was a fault. *)
Lemma tame_load3_return : forall cfg p n, tame (Load3_AllowReadBeforeAndReturn cfg p n).
Proof. intros. unfold Load3_AllowReadBeforeAndReturn. tame. Qed.
Lemma tame_load3_unordered : forall cfg p n, tame (Load3_AllowUnordered cfg p n).
Proof. intros. unfold Load3_AllowUnordered. tame. Qed.
#[export] Hint Resolve tame_load3_return tame_load3_unordered : tame.
Lemma tame_pt_Update : forall cfg p st, tame (pt_Update cfg p st).
Proof. intros. unfold pt_Update. tame. Qed.
Lemma tame_pt_UpdateRemainder : forall cfg p n st, tame (pt_UpdateRemainder cfg p n st).
Proof. intros. unfold pt_UpdateRemainder. cbv zeta. tame. Qed.
#[export] Hint Resolve tame_pt_Update tame_pt_UpdateRemainder : tame.
Lemma tame_T_loop : forall St (ops : hh_ops St) cfg, (forall p st, tame (op_Update ops cfg p st)) ->
  forall fuel p n i st, tame (HighwayHashT_loop ops fuel cfg p n i st).
Proof. intros St ops cfg T. induction fuel; intros; cbn [HighwayHashT_loop]; tame. Qed.
Lemma tame_Target : forall St (ops : hh_ops St) cfg, (forall p st, tame (op_Update ops cfg p st)) -> (forall p n st, tame (op_UpdateRemainder ops cfg p n st)) ->
  forall q p n, tame (HighwayHash64_Target ops cfg q p n).
Proof.
  intros St ops cfg T1 T2 q p n. unfold HighwayHash64_Target, load_key, HighwayHashT64, HighwayHashT_state. pose proof (tame_T_loop St ops cfg T1) as T3.
  cbv zeta. tame.
Qed.
Theorem C58_reads : forall cfg q p len,
  local (HighwayHash64_Portable cfg q p len) /\ reader (HighwayHash64_Portable cfg q p len).
Proof.
  intros cfg q p len. change (tame (HighwayHash64_Portable cfg q p len)). apply tame_Target; intros; cbn [portable op_Update op_UpdateRemainder]; tame.
Qed.
Print Assumptions C58_reads.

(** The templates do not call it with no bytes left, and must not: there the rotation by
    none of the bits shifts by 32. *)
Theorem C58_none_left : forall cfg p st m, pt_UpdateRemainder cfg p 0 st m = Undef OverwideShift.
Proof. intros cfg p [v0 [[[a b] c] d] m0 m1] m. reflexivity. Qed.
Print Assumptions C58_none_left.

(** ** C59: hashing of fragments *)
(** "The final result is the same as HighwayHashT of the concatenation of all the
    ranges" (tests/highwayhash/highwayhash.h:113-114), in all builds *)
Theorem C59_cat : forall cfg, Cat_computes cfg portable 1 (hh_absorb_with (cxx_pad cfg)) /\ T_computes cfg portable (hh_absorb_with (cxx_pad cfg)).
Proof.
  intro cfg. split; [exact (Cat_computes_sound cfg portable conv _ _ (portable_sound cfg))|exact (T_computes_sound cfg portable conv _ _ (portable_sound cfg))].
Qed.
Print Assumptions C59_cat.
Theorem C59_same : forall cfg m key buffer parts ls p, good_quad key -> mapped m buffer 32 -> buffer + 32 < addr_space cfg ->
  Forall2 (fragment_in cfg buffer m) parts ls -> bytes_at m p (concat ls) -> p + mlen (concat ls) < addr_space cfg ->
  exists v m', HighwayHashCat64 portable cfg buffer key parts m = Ok (v, m') /\
    HighwayHashT64 portable cfg (op_Reset portable key) p (mlen (concat ls)) m = Ok (v, m).
Proof.
  intros cfg m key buffer parts ls p K M A P H A'. destruct (C59_cat cfg) as [C T].
  destruct (C m key buffer parts ls K M A (N.mod_1_r _) P) as (m' & _ & E & _).
  destruct (T m key p (concat ls) K H A') as (E' & _). eauto.
Qed.
Print Assumptions C59_same.
(** "[num_bytes] == 0 has no effect" (:132), whatever the pointer is *)
Theorem C59_empty : forall cfg buffer p cat m, ct_usage cat < 32 -> CatT_Append portable cfg buffer p 0 cat m = Ok (cat, m).
Proof.
  intros cfg buffer p [st u] m U. cbn [ct_usage] in U. pose proof (addr_space_pos cfg) as AS. unfold CatT_Append. cbn [ct_state ct_usage].
  rewrite psub_small by lia. destruct (N.ltb_spec 0 (32 - u)) as [_|X]; [|lia]. cbn [portable op_AppendPartial]. unfold pt_AppendPartial.
  change (N.to_nat 0) with 0%nat. cbn [copy_each]. rewrite bind_ret. rewrite padd_small, N.add_0_r by lia. reflexivity.
Qed.
Print Assumptions C59_empty.
(** [Finalize] "must be called exactly once" (:182): it may be called again, and
    [Append] after it, since neither the object nor the buffer is changed. *)
Theorem C59_again : forall cfg buffer cat m v m', CatT_Finalize64 portable cfg buffer cat m = Ok (v, m') ->
  m' = m /\ CatT_Finalize64 portable cfg buffer cat m' = Ok (v, m').
Proof.
  intros cfg buffer cat m v m' E. assert (T : tame (CatT_Finalize64 portable cfg buffer cat)).
  { unfold CatT_Finalize64, CatT_state. cbn [portable op_UpdateRemainder]. tame. }
  destruct T as [_ R]. pose proof (R m v m' E). subst m'. now split.
Qed.
Print Assumptions C59_again.

(** concrete cases: 100 bytes in fragments of 5, 0, 27, 40 and 28; 31 bytes in fragments of 5, 0 and 26 *)
Example C59_case :
  (match HighwayHashCat64 portable x86_64 4096 test_key1 cat_parts cat_mem with Ok (v, _) => v = highway64 test_key1 (counting 100) | _ => False end) /\
  (match HighwayHashCat64 portable mips32 4096 test_key1 [(8193, 5); (8198, 0); (8198, 26)] cat_mem with
   | Ok (v, _) => v = highway64_reversed test_key1 (counting 31) /\ v <> highway64 test_key1 (counting 31) | _ => False end).
Proof. vm_compute. split; [reflexivity|split; [reflexivity|discriminate]]. Qed.
Example C59_case_hyp : mapped cat_mem 4096 32 /\ Forall2 (fragment_in x86_64 4096 cat_mem) cat_parts
    (map (fun x => firstn (N.to_nat (snd x)) (skipn (N.to_nat (fst x - 8193)) (counting 100))) cat_parts).
Proof.
  split.
  - apply (bytes_at_mapped _ _ (repeat x00 32)), write_bytes_at.
  - unfold cat_parts. cbn [map fst snd]. repeat (constructor; [split; [vm_compute; reflexivity|];
      split; [apply bytes_at_check; vm_compute; reflexivity|]; split; [vm_compute; reflexivity|left; vm_compute; discriminate]|]).
    constructor.
Qed.
