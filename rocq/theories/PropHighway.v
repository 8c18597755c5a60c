(** C54, C55: HighwayHash in C, the copy that the test program checks and compares with. *)
From Coq Require Import ZArith NArith Arith List Bool Lia Strings.Byte.
From Coq Require Import ZifyN ZifyNat ZifyBool.
From Verif Require Import Bytes CSem Bits Spec NBits CSemFacts OpsFacts FetchFacts KeyMem CtxMem StreamFacts Demo SelfcheckSpec T1ha2
  Effects Highway HighwaySpec HighwayFacts HighwayCat.
Import ListNotations.
Local Open Scope N_scope.

Lemma bytes_at_check : forall m p l,
  forallb (fun i => match m (p + N.of_nat i), nth_error l i with Some a, Some b => Byte.eqb a b | _, _ => false end) (seq 0 (length l)) = true ->
  bytes_at m p l.
Proof.
  intros m p l H i b E. rewrite forallb_forall in H.
  assert (L : (i < length l)%nat) by (apply nth_error_Some; congruence).
  specialize (H i ltac:(apply in_seq; lia)). cbv beta in H. rewrite E in H. destruct (m (p + N.of_nat i)) as [a|]; [|discriminate].
  apply Byte.byte_dec_bl in H. now subst.
Qed.
Lemma Forall2_imp : forall A B (P Q : A -> B -> Prop) l l', (forall a b, P a b -> Q a b) -> Forall2 P l l' -> Forall2 Q l l'.
Proof. intros A B P Q l l' I H. induction H; constructor; auto. Qed.

(** ** C54: it computes its specification *)
(** a key of four uint64_t in memory *)
Definition key_in (cfg : config) (q : N) (key : N * N * N * N) (m : mem) : Prop :=
  let '(k0, k1, k2, k3) := key in
  q + 32 <= addr_space cfg /\ bytes_at m q (flat_map (CtxMem.native cfg 8) [k0; k1; k2; k3]).
(** [fn] computes [f] *)
Definition hh_computes (cfg : config) (fn : N -> N -> N -> M N) (f : N * N * N * N -> list byte -> N) : Prop :=
  forall m q key p msg, good_quad key -> key_in cfg q key m -> bytes_at m p msg ->
    p + mlen msg < addr_space cfg -> mlen msg + 32 < addr_space cfg -> fn q p (mlen msg) m = Ok (f key msg, m).

(** In all builds, for all keys and for messages at all addresses.  [size + 32] must
    not overflow size_t. *)
Theorem C54_value : forall cfg, hh_computes cfg (HighwayHash64_pure_c cfg) highway64.
Proof.
  intros cfg m q [[[k0 k1] k2] k3] p msg G (A & K) H P L. unfold HighwayHash64_pure_c.
  ok (load_key_ok cfg m q k0 k1 k2 k3 A G K). unfold HighwayHash64_key.
  destruct (process_ok cfg m p msg _ G H P L) as (st & E & C & GS). ok E.
  unfold highway64. rewrite <- C. now rewrite finalize64_ok.
Qed.
Print Assumptions C54_value.

(** all three sizes of the result, and the test program's function *)
Definition words (x : N) : N * N := (x mod 2 ^ 64, x / 2 ^ 64).
Lemma fin256_ok : forall st, good (conv st) -> HighwayHashFinalize256_pure_c st =
  (fst (words (fst (hh_out256 (conv st)))), snd (words (fst (hh_out256 (conv st)))),
   fst (words (snd (hh_out256 (conv st)))), snd (words (snd (hh_out256 (conv st))))).
Proof.
  intros st G. pose proof (finalize256_ok st G) as F. destruct (HighwayHashFinalize256_pure_c st) as [[[h0 h1] h2] h3].
  destruct F as (<- & L0 & L1 & L2 & L3). unfold words. cbn [fst snd].
  rewrite !N.div_add_l by discriminate. rewrite !(N.div_small _ (2 ^ 64)), !N.add_0_r by assumption.
  rewrite !(N.add_comm (_ * _)), !N.mod_add by discriminate. now rewrite !N.mod_small by assumption.
Qed.
Theorem C54_sizes : forall cfg m key p msg, good_quad key -> bytes_at m p msg ->
  p + mlen msg < addr_space cfg -> mlen msg + 32 < addr_space cfg ->
  HighwayHash64_key cfg key p (mlen msg) m = Ok (highway64 key msg, m) /\
  HighwayHash128_key cfg key p (mlen msg) m = Ok (highway128 key msg, m) /\
  HighwayHash256_key cfg key p (mlen msg) m
    = Ok ((fst (words (fst (highway256 key msg))), snd (words (fst (highway256 key msg))),
           fst (words (snd (highway256 key msg))), snd (words (snd (highway256 key msg)))), m).
Proof.
  intros cfg m key p msg G H P L.
  destruct (process_ok cfg m p msg _ G H P L) as (st & E & C & GS).
  unfold HighwayHash64_key, HighwayHash128_key, HighwayHash256_key, highway64, highway128, highway256. rewrite <- C.
  split; [ok E; now rewrite finalize64_ok|]. split; [ok E; now rewrite finalize128_ok|].
  ok E. now rewrite fin256_ok.
Qed.
Print Assumptions C54_sizes.
Theorem C54_thunk : forall cfg m p msg seed, seed < 2 ^ 64 -> bytes_at m p msg ->
  p + mlen msg < addr_space cfg -> mlen msg + 32 < addr_space cfg ->
  thunk_HighwayHash64_pure_c cfg p (mlen msg) seed m = Ok (HighwayHash64 msg seed, m).
Proof.
  intros cfg m p msg seed S H P L. apply (C54_sizes cfg m (seed, seed, seed, seed) p msg); try assumption.
  exact (conj S (conj S (conj S S))).
Qed.
Print Assumptions C54_thunk.

(** The last part must not be empty (tests/highwayhash/pure_c.h:26): it is undefined
    then, in all builds, states and memories. *)
Theorem C54_remainder_0 : forall cfg bytes st m, exists why, HighwayHashUpdateRemainder_pure_c cfg bytes 0 st m = Undef why.
Proof.
  intros cfg bytes [[[[a0 a1] a2] a3] v1 c d] m. exists OverwideShift. reflexivity.
Qed.
Print Assumptions C54_remainder_0.

(** Whatever the arguments, nothing is written; with more memory mapped the
    outcome is the same unless it was a fault. *)
Lemma tame_read64 : forall p, tame (Read64 p).
Proof. intros. unfold Read64. tame. Qed.
#[export] Hint Resolve tame_read64 : tame.
Lemma tame_packet : forall cfg p st, tame (HighwayHashUpdatePacket_pure_c cfg p st).
Proof. intros. unfold HighwayHashUpdatePacket_pure_c. tame. Qed.
#[export] Hint Resolve tame_packet : tame.
Lemma tame_rotate : forall n q, tame (Rotate32By n q).
Proof. intros n [[[a b] c] d]. unfold Rotate32By. destruct (_ || _)%bool; tame. Qed.
#[export] Hint Resolve tame_rotate : tame.
Lemma tame_remainder : forall cfg p n st, tame (HighwayHashUpdateRemainder_pure_c cfg p n st).
Proof.
  intros cfg p n [[[[a0 a1] a2] a3] v1 c d]. unfold HighwayHashUpdateRemainder_pure_c. cbv zeta. cbn [hh_v0 hh_v1 hh_mul0 hh_mul1].
  tame.
Qed.
#[export] Hint Resolve tame_remainder : tame.
Lemma tame_process_loop : forall fuel cfg data size i st, tame (ProcessAll_loop fuel cfg data size i st).
Proof. induction fuel; intros; cbn [ProcessAll_loop]; tame. Qed.
#[export] Hint Resolve tame_process_loop : tame.
Theorem C54_reads : forall cfg q p len,
  local (HighwayHash64_pure_c cfg q p len) /\ reader (HighwayHash64_pure_c cfg q p len).
Proof.
  intros cfg q p len. change (tame (HighwayHash64_pure_c cfg q p len)).
  unfold HighwayHash64_pure_c, load_key, HighwayHash64_key, ProcessAll. tame.
Qed.
Print Assumptions C54_reads.

(** ** The recorded values *)
Definition counting (n : nat) : list byte := map (fun i => n2b (N.of_nat i)) (seq 0 n).
Definition test_key1 : N * N * N * N := (0x0706050403020100, 0x0F0E0D0C0B0A0908, 0x1716151413121110, 0x1F1E1D1C1B1A1918).
Definition test_key2 : N * N * N * N := (1, 2, 3, 4).
Definition last_message : list byte := map (fun i => n2b (N.of_nat (128 + i))) (seq 0 33).
Theorem C54_recorded :
  map (fun i => highway64 test_key1 (counting i)) (seq 0 65) = kExpected64 /\
  highway64 test_key2 last_message = 0x53c516cce478cad7.
Proof. split; vm_compute; reflexivity. Qed.
Print Assumptions C54_recorded.

(** what HighwayHash64_verify finds of any code that computes [f] *)
Definition hh_fails (f : N * N * N * N -> list byte -> N) : bool :=
  existsb (fun x => negb (snd x =? f test_key1 (counting (fst x)))) (List.combine (seq 0 65) kExpected64)
  || negb (0x53c516cce478cad7 =? f test_key2 last_message).

Section Verify.
  Variables (cfg : config) (fn : N -> N -> N -> M N) (f : N * N * N * N -> list byte -> N).
  Hypothesis F : hh_computes cfg fn f.
  Variables (data key1 key2 : N).
  Hypothesis A : data + 65 < addr_space cfg.
  Hypothesis D1 : apart data 65 key1 32.
  Hypothesis D2 : apart data 65 key2 32.

  Lemma good_key1 : good_quad test_key1. Proof. repeat split; reflexivity. Qed.
  Lemma good_key2 : good_quad test_key2. Proof. repeat split; reflexivity. Qed.
  Lemma key_in_only : forall q key m m', apart data 65 q 32 -> only m m' data 65 -> key_in cfg q key m -> key_in cfg q key m'.
  Proof.
    intros q [[[k0 k1] k2] k3] m m' AP O [L B]. split; [exact L|]. eapply only_bytes; [exact O| |exact B].
    unfold mlen. cbn [flat_map]. rewrite !app_length, !native_length. unfold apart in AP. cbn [length]. lia.
  Qed.
  Lemma counting_S : forall i, counting (S i) = counting i ++ [n2b (N.of_nat i)].
  Proof. intros. unfold counting. rewrite seq_S, map_app. reflexivity. Qed.
  Lemma counting_len : forall i, length (counting i) = i.
  Proof. intros. unfold counting. now rewrite map_length, seq_length. Qed.

  Lemma verify64_ok : forall expected i m, (i + length expected <= 65)%nat -> mapped m data 65 -> bytes_at m data (counting i) ->
    key_in cfg key1 test_key1 m ->
    exists m', verify64_from cfg fn data key1 (N.of_nat i) expected m
      = Ok (existsb (fun x => negb (snd x =? f test_key1 (counting (fst x)))) (List.combine (seq i (length expected)) expected), m') /\
      only m m' data 65.
  Proof.
    induction expected as [|e expected IH]; intros i m L M B K.
    - exists m. split; [reflexivity|apply only_refl].
    - cbn [verify64_from length seq List.combine existsb fst snd]. cbn [length] in L.
      rewrite padd_small by lia.
      assert (M1 : mapped m (data + N.of_nat i) (length [n2b (N.of_nat i)])).
      { intros j J. cbn [length] in J. replace (data + N.of_nat i + N.of_nat j) with (data + N.of_nat (i + j)) by lia. apply M. lia. }
      rewrite (bind_ok _ _ _ _ _ _ _ (store_bytes_ok _ _ _ M1)).
      assert (O1 : only m (write m (data + N.of_nat i) [n2b (N.of_nat i)]) (data + N.of_nat i) 1) by now apply only_write.
      assert (O1' : only m (write m (data + N.of_nat i) [n2b (N.of_nat i)]) data 65) by (eapply only_weaken; [exact O1|lia|lia]).
      set (m1 := write m (data + N.of_nat i) [n2b (N.of_nat i)]) in *.
      assert (K1 : key_in cfg key1 test_key1 m1) by (eapply key_in_only; eassumption).
      assert (LC : mlen (counting i) = N.of_nat i) by (unfold mlen; now rewrite counting_len).
      assert (B1 : bytes_at m1 data (counting i)) by (eapply only_bytes; [exact O1| |exact B]; lia).
      pose proof (F m1 key1 test_key1 data (counting i) good_key1 K1 B1) as E. rewrite LC in E.
      pose proof (addr_space_pos cfg).
      unfold TestHash64. rewrite bind_assoc. ok (E ltac:(lia) ltac:(lia)). rewrite bind_ret.
      destruct (IH (S i) m1) as (m' & E' & O').
      + lia.
      + eapply only_mapped; [exact O1'|exact M].
      + rewrite counting_S. apply bytes_at_app. split; [exact B1|]. rewrite counting_len. exact (write_bytes_at m _ _).
      + exact K1.
      + replace (N.of_nat i + 1) with (N.of_nat (S i)) by lia. ok E'. exists m'. split; [reflexivity|]. now apply only_trans with m1.
  Qed.

  Lemma fill128_ok : forall n i m, (i + n <= 33)%nat -> mapped m data 65 ->
    bytes_at m data (map (fun i => n2b (N.of_nat (128 + i))) (seq 0 i)) ->
    exists m', fill128 cfg data n (N.of_nat i) m = Ok (tt, m') /\ only m m' data 65 /\
      bytes_at m' data (map (fun i => n2b (N.of_nat (128 + i))) (seq 0 (i + n))).
  Proof.
    induction n as [|n IH]; intros i m L M B.
    - exists m. rewrite Nat.add_0_r. split; [reflexivity|]. split; [apply only_refl|exact B].
    - cbn [fill128]. rewrite padd_small by lia.
      assert (M1 : mapped m (data + N.of_nat i) (length [n2b (128 + N.of_nat i)])).
      { intros j J. cbn [length] in J. replace (data + N.of_nat i + N.of_nat j) with (data + N.of_nat (i + j)) by lia. apply M. lia. }
      rewrite (bind_ok _ _ _ _ _ _ _ (store_bytes_ok _ _ _ M1)).
      assert (O1 : only m (write m (data + N.of_nat i) [n2b (128 + N.of_nat i)]) (data + N.of_nat i) 1) by now apply only_write.
      assert (O1' : only m (write m (data + N.of_nat i) [n2b (128 + N.of_nat i)]) data 65) by (eapply only_weaken; [exact O1|lia|lia]).
      pose proof (write_bytes_at m (data + N.of_nat i) [n2b (128 + N.of_nat i)]) as W.
      set (m1 := write m (data + N.of_nat i) [n2b (128 + N.of_nat i)]) in *.
      destruct (IH (S i) m1) as (m' & E' & O' & B').
      + lia.
      + eapply only_mapped; [exact O1'|exact M].
      + rewrite seq_S, map_app. apply bytes_at_app. split.
        * eapply only_bytes; [exact O1| |exact B]. unfold mlen. rewrite map_length, seq_length. lia.
        * rewrite map_length, seq_length. cbn [map]. replace (N.of_nat (128 + (0 + i))) with (128 + N.of_nat i) by lia. exact W.
      + replace (N.of_nat i + 1) with (N.of_nat (S i)) by lia. exists m'. split; [exact E'|].
        split; [now apply only_trans with m1|]. now replace (i + S n)%nat with (S i + n)%nat by lia.
  Qed.

  Lemma hh_verify_computes : forall m, mapped m data 65 -> key_in cfg key1 test_key1 m -> key_in cfg key2 test_key2 m ->
    exists m', HighwayHash64_verify cfg data key1 key2 fn m = Ok (hh_fails f, m') /\ only m m' data 65.
  Proof.
    intros m M K1 K2. unfold HighwayHash64_verify. pose proof (addr_space_pos cfg) as AS.
    assert (M0 : mapped m data (length (repeat x00 65))) by exact M.
    rewrite (bind_ok _ _ _ _ _ _ _ (store_bytes_ok _ _ _ M0)).
    assert (O0 : only m (write m data (repeat x00 65)) data 65) by now apply only_write.
    set (m0 := write m data (repeat x00 65)) in *.
    destruct (verify64_ok kExpected64 0 m0) as (m1 & E1 & O1).
    - cbn [length kExpected64]. lia.
    - eapply only_mapped; [exact O0|exact M].
    - apply bytes_at_nil.
    - eapply key_in_only; eassumption.
    - change (N.of_nat 0) with 0 in E1. ok E1.
      assert (O01 : only m m1 data 65) by now apply only_trans with m0.
      destruct (fill128_ok 33 0 m1) as (m2 & E2 & O2 & B2).
      + lia.
      + eapply only_mapped; [exact O01|exact M].
      + apply bytes_at_nil.
      + change (N.of_nat 0) with 0 in E2. ok E2.
        assert (O02 : only m m2 data 65) by now apply only_trans with m1.
        pose proof (F m2 key2 test_key2 data last_message good_key2 (key_in_only _ _ _ _ D2 O02 K2) B2) as E.
        change (mlen last_message) with 33 in E. unfold TestHash64. rewrite bind_assoc. ok (E ltac:(lia) ltac:(lia)). rewrite bind_ret.
        exists m2. split; [reflexivity|exact O02].
  Qed.
End Verify.

Lemma existsb_recorded : forall (f : nat -> N) l, existsb (fun x => negb (snd x =? f (fst x))) (List.combine l (map f l)) = false.
Proof. intros f. induction l as [|i l IH]; [reflexivity|]. cbn [map List.combine existsb fst snd]. now rewrite N.eqb_refl. Qed.
Lemma hh_passes : hh_fails highway64 = false.
Proof.
  destruct C54_recorded as [E1 E2]. unfold hh_fails. rewrite <- E1, E2.
  now rewrite (existsb_recorded (fun i => highway64 test_key1 (counting i)) (seq 0 65)).
Qed.

(** The check passes in all builds. *)
Theorem C54_verify : forall cfg data key1 key2 m, data + 65 < addr_space cfg -> apart data 65 key1 32 -> apart data 65 key2 32 ->
  mapped m data 65 -> key_in cfg key1 test_key1 m -> key_in cfg key2 test_key2 m ->
  exists m', HighwayHash64_verify cfg data key1 key2 (HighwayHash64_pure_c cfg) m = Ok (false, m') /\ only m m' data 65.
Proof.
  intros cfg data key1 key2 m A D1 D2 M K1 K2.
  destruct (hh_verify_computes cfg (HighwayHash64_pure_c cfg) highway64 (C54_value cfg) data key1 key2 A D1 D2 m M K1 K2) as (m' & E & O).
  exists m'. split; [|exact O]. rewrite E, hh_passes. reflexivity.
Qed.
Print Assumptions C54_verify.

(** concrete cases: the keys at 4096 and 8192, the array at 16385 *)
Definition hh_mem (cfg : config) : mem :=
  write (write (fun _ => Some x00) 4096 (flat_map (CtxMem.native cfg 8) kTestKey1)) 8192 (flat_map (CtxMem.native cfg 8) kTestKey2).
Definition hh_failed_of (o : outcome (bool * mem)) : option bool := match o with Ok (b, _) => Some b | _ => None end.
Example C54_verify_hyp : key_in mips32 4096 test_key1 (hh_mem mips32) /\ key_in mips32 8192 test_key2 (hh_mem mips32) /\
  mapped (hh_mem mips32) 16385 65.
Proof.
  split; [|split].
  - split; [vm_compute; discriminate|]. apply bytes_at_check. vm_compute. reflexivity.
  - split; [vm_compute; discriminate|]. apply bytes_at_check. vm_compute. reflexivity.
  - unfold hh_mem. do 2 apply write_mapped. intros i L. discriminate.
Qed.
Example C54_verify_mips32 : hh_failed_of (HighwayHash64_verify mips32 16385 4096 8192 (HighwayHash64_pure_c mips32) (hh_mem mips32)) = Some false.
Proof.
  destruct C54_verify_hyp as (K1 & K2 & M).
  destruct (C54_verify mips32 16385 4096 8192 (hh_mem mips32) eq_refl ltac:(right; discriminate) ltac:(right; discriminate) M K1 K2) as (m' & E & _).
  now rewrite E.
Qed.
(** a function that differs from it for one message of those checked is noticed *)
Example C54_verify_notices : hh_fails (fun key msg => if mlen msg =? 2 then N.lxor 1 (highway64 key msg) else highway64 key msg) = true.
Proof.
  unfold hh_fails. apply orb_true_intro. left. apply existsb_exists. exists (2%nat, nth 2 kExpected64 0). split; [|vm_compute; reflexivity].
  cbn [List.combine seq kExpected64 nth In]. auto.
Qed.
(** the other sizes *)
Example C54_sizes_case : let m := write (fun _ => None) 8193 (counting 150) in
  let run {A} (h : N -> M A) := map (fun n => match h n m with Ok (v, _) => Some v | _ => None end) [7; 94] in
  let lens := [7; 94]%nat in
  run (HighwayHash128_key mips32 test_key1 8193) = map (fun n => Some (highway128 test_key1 (counting n))) lens /\
  run (HighwayHash256_key sparc64 test_key2 8193)
    = map (fun n => let '(x, y) := highway256 test_key2 (counting n) in Some (fst (words x), snd (words x), fst (words y), snd (words y))) lens.
Proof. split; vm_compute; reflexivity. Qed.

(** ** C55: hashing with multiple calls *)
(** a call for each part of the message: address and length *)
Fixpoint cat_appends (cfg : config) (packet : N) (parts : list (N * N)) (cat : HighwayHashCat) : M HighwayHashCat :=
  match parts with
  | [] => ret cat
  | (p, n) :: parts => cat <- HighwayHashCatAppend_pure_c cfg packet p n cat ;; cat_appends cfg packet parts cat
  end.
(** the parts, in a memory, apart from the buffer *)
Definition part_in (cfg : config) (packet : N) (m : mem) (part : N * N) (l : list byte) : Prop :=
  snd part = mlen l /\ bytes_at m (fst part) l /\ fst part + mlen l < addr_space cfg /\ apart packet 32 (fst part) (mlen l).

Lemma appends_ok : forall cfg packet key parts ls cat msg m, Forall2 (part_in cfg packet m) parts ls -> packet + 32 < addr_space cfg ->
  cat_holds key packet cat msg m ->
  exists cat' m', cat_appends cfg packet parts cat m = Ok (cat', m') /\ cat_holds key packet cat' (msg ++ concat ls) m' /\ only m m' packet 32.
Proof.
  intros cfg packet key. induction parts as [|[p n] parts IH]; intros ls cat msg m P A C; inversion P; subst.
  - exists cat, m. cbn [concat]. rewrite app_nil_r. split; [reflexivity|]. split; [exact C|apply only_refl].
  - destruct H1 as (E & B & L & D). cbn [fst snd] in *. subst n. cbn [cat_appends concat].
    destruct (append_ok cfg key packet cat msg y p m C B L A D) as (cat1 & m1 & E1 & C1 & O1). ok E1.
    destruct (IH l' cat1 (msg ++ y) m1) as (cat2 & m2 & E2 & C2 & O2); [|exact A|exact C1|].
    + eapply Forall2_imp; [|eassumption]. intros [q k] l (E' & B' & L' & D'). repeat split; try assumption.
      cbn [fst snd] in *. eapply only_bytes; [exact O1| |exact B']. unfold apart in D'. lia.
    + exists cat2, m2. split; [exact E2|]. rewrite app_assoc. split; [exact C2|]. now apply only_trans with m1.
Qed.

(** However the message is cut into parts, wherever they are, the results are those
    of the functions for the whole message; outside of the buffer nothing is written. *)
Theorem C55_cat : forall cfg packet key parts ls m, good_quad key -> packet + 32 < addr_space cfg -> mapped m packet 32 ->
  Forall2 (part_in cfg packet m) parts ls ->
  exists cat m', cat_appends cfg packet parts (HighwayHashCatStart_pure_c key) m = Ok (cat, m') /\ only m m' packet 32 /\
    let msg := concat ls in
    HighwayHashCatFinish64_pure_c cfg packet cat m' = Ok (highway64 key msg, m') /\
    HighwayHashCatFinish128_pure_c cfg packet cat m' = Ok (highway128 key msg, m') /\
    HighwayHashCatFinish256_pure_c cfg packet cat m'
      = Ok ((fst (words (fst (highway256 key msg))), snd (words (fst (highway256 key msg))),
             fst (words (snd (highway256 key msg))), snd (words (snd (highway256 key msg)))), m').
Proof.
  intros cfg packet key parts ls m G A M P.
  destruct (appends_ok cfg packet key parts ls _ [] m P A (start_holds key packet m G M)) as (cat & m' & E & C & O).
  exists cat, m'. split; [exact E|]. split; [exact O|]. cbn [app] in C. cbv zeta.
  destruct (finish_ok cfg key packet cat _ m' C A) as (st & EF & CS & GS).
  unfold HighwayHashCatFinish64_pure_c, HighwayHashCatFinish128_pure_c, HighwayHashCatFinish256_pure_c, highway64, highway128, highway256.
  rewrite <- CS. split; [ok EF; now rewrite finalize64_ok|]. split; [ok EF; now rewrite finalize128_ok|].
  ok EF. now rewrite fin256_ok.
Qed.
Print Assumptions C55_cat.

(** So two ways to cut a message give the same results, and results may be taken
    between the calls: they do not change what comes later. *)
Theorem C55_cuts : forall cfg packet key parts parts' ls ls' m, good_quad key -> packet + 32 < addr_space cfg -> mapped m packet 32 ->
  Forall2 (part_in cfg packet m) parts ls -> Forall2 (part_in cfg packet m) parts' ls' -> concat ls = concat ls' ->
  exists cat m1 cat' m2 v, cat_appends cfg packet parts (HighwayHashCatStart_pure_c key) m = Ok (cat, m1) /\
    cat_appends cfg packet parts' (HighwayHashCatStart_pure_c key) m = Ok (cat', m2) /\
    HighwayHashCatFinish64_pure_c cfg packet cat m1 = Ok (v, m1) /\ HighwayHashCatFinish64_pure_c cfg packet cat' m2 = Ok (v, m2).
Proof.
  intros cfg packet key parts parts' ls ls' m G A M P P' E.
  destruct (C55_cat cfg packet key parts ls m G A M P) as (cat & m1 & E1 & _ & F1 & _).
  destruct (C55_cat cfg packet key parts' ls' m G A M P') as (cat' & m2 & E2 & _ & F2 & _).
  rewrite <- E in F2. exists cat, m1, cat', m2, (highway64 key (concat ls)). auto.
Qed.
Print Assumptions C55_cuts.
Theorem C55_between : forall cfg packet cat m, tame (HighwayHashCatFinish64_pure_c cfg packet cat) /\
  (forall v m', HighwayHashCatFinish64_pure_c cfg packet cat m = Ok (v, m') -> m' = m).
Proof.
  intros cfg packet cat m. assert (T : tame (HighwayHashCatFinish64_pure_c cfg packet cat)).
  { unfold HighwayHashCatFinish64_pure_c, CatFinish. tame. }
  split; [exact T|]. destruct T as [_ R]. intros v m' E. exact (R m v m' E).
Qed.
Print Assumptions C55_between.

(** concrete case: 100 bytes in parts of 5, 0, 27, 40 and 28 *)
Definition cat_parts : list (N * N) := [(8193, 5); (8198, 0); (8198, 27); (8225, 40); (8265, 28)].
Definition cat_mem : mem := write (write (fun _ => None) 8193 (counting 100)) 4096 (repeat x00 32).
Example C55_case : match cat_appends mips32 4096 cat_parts (HighwayHashCatStart_pure_c test_key1) cat_mem with
  | Ok (cat, m) => cat_num cat = 4 /\ match HighwayHashCatFinish64_pure_c mips32 4096 cat m with Ok (v, _) => v = highway64 test_key1 (counting 100) | _ => False end
  | _ => False end.
Proof. vm_compute. split; reflexivity. Qed.
Example C55_case_hyp : mapped cat_mem 4096 32 /\
  Forall2 (part_in mips32 4096 cat_mem) cat_parts
    (map (fun x => firstn (N.to_nat (snd x)) (skipn (N.to_nat (fst x - 8193)) (counting 100))) cat_parts).
Proof.
  split.
  - apply (bytes_at_mapped _ _ (repeat x00 32)), write_bytes_at.
  - unfold cat_parts. cbn [map fst snd]. repeat (constructor; [split; [vm_compute; reflexivity|];
      split; [apply bytes_at_check; vm_compute; reflexivity|]; split; [vm_compute; reflexivity|left; vm_compute; discriminate]|]).
    constructor.
Qed.
