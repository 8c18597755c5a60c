(** C51, C52, C53: StadtX, the copy that the test program checks and compares with. *)
From Coq Require Import ZArith NArith Arith List Bool Lia Strings.Byte Strings.String.
From Coq Require Import ZifyN ZifyNat ZifyBool.
From Verif Require Import Bytes CSem Bits Spec NBits CSemFacts OpsFacts KeyMem CtxMem StreamFacts OneShot RefVals Demo Selfcheck SelfcheckSpec T1ha2
  Effects TestMain TestFacts VerifyFacts WyhashSpec WyhashFacts PropWyhash Stadtx StadtxSpec StadtxFacts OtherVals Inject Onto.
Import ListNotations.
Local Open Scope N_scope.

(** ** C51: StadtX computes its specification *)
(** In all builds, for all states, for keys at all addresses.  [key_len + 4] must not
    overflow size_t. *)
Theorem C51_value : forall cfg m s0 s1 s2 s3 p msg,
  bytes_at m p msg -> p + mlen msg < addr_space cfg -> mlen msg + 4 < addr_space cfg ->
  stadtx_hash_with_state cfg (s0, s1, s2, s3) p (mlen msg) m = Ok (stadtx s0 s1 s2 s3 msg, m).
Proof. intros. now apply stadtx_ok. Qed.
Print Assumptions C51_value.

(** the test program's *)
Theorem C51_thunk : forall cfg m p msg seed,
  bytes_at m p msg -> p + mlen msg < addr_space cfg -> mlen msg + 4 < addr_space cfg ->
  thunk_StadtX cfg p (mlen msg) seed m = Ok (StadtX msg seed, m).
Proof. intros. unfold thunk_StadtX, StadtX. now apply C51_value. Qed.
Print Assumptions C51_thunk.

Lemma tame_stadtx_byte : forall cfg key i, tame (stadtx_byte cfg key i).
Proof. intros. unfold stadtx_byte. tame. Qed.
#[export] Hint Resolve tame_stadtx_byte : tame.
Lemma tame_stadtx_short_word : forall cfg x, tame (stadtx_short_word cfg x).
Proof. intros cfg [[a b] c]. unfold stadtx_short_word. tame. Qed.
Lemma tame_stadtx_short_tail : forall cfg len x, tame (stadtx_short_tail cfg len x).
Proof.
  intros cfg len [[a b] c]. unfold stadtx_short_tail. cbv zeta. unfold when. tame.
Qed.
Lemma tame_stadtx_loop : forall cfg x, tame (stadtx_loop cfg x).
Proof. intros cfg [[[[[a b] c] d] e] f]. unfold stadtx_loop. tame. Qed.
Lemma tame_stadtx_long_words : forall cfg x, tame (stadtx_long_words cfg x).
Proof. intros cfg [[[[[a b] c] d] e] f]. unfold stadtx_long_words. cbv zeta. unfold when. tame. Qed.
Lemma tame_stadtx_long_tail : forall cfg x, tame (stadtx_long_tail cfg x).
Proof. intros cfg [[[[[a b] c] d] e] f]. unfold stadtx_long_tail. cbv zeta. unfold when. tame. Qed.
#[export] Hint Resolve tame_stadtx_short_word tame_stadtx_short_tail tame_stadtx_loop tame_stadtx_long_words tame_stadtx_long_tail : tame.

(** Whatever the arguments, nothing is written; with more memory mapped the
    outcome is the same unless it was a fault. *)
Theorem C51_reads : forall cfg state p len,
  local (stadtx_hash_with_state cfg state p len) /\ reader (stadtx_hash_with_state cfg state p len).
Proof.
  intros cfg [[[s0 s1] s2] s3] p len. change (tame (stadtx_hash_with_state cfg (s0, s1, s2, s3) p len)).
  unfold stadtx_hash_with_state. cbv zeta. destruct (len <? 32).
  - unfold when. tame.
  - apply tame_bind; [apply tame_do_while; tame|]. tame.
Qed.
Print Assumptions C51_reads.

(** The recorded values are those of the specification. *)
Theorem C51_recorded : map (fun x => StadtX (fst x) (snd x)) messages = refval_StadtX.
Proof. vm_compute. reflexivity. Qed.
Print Assumptions C51_recorded.

(** what the check finds with any table of recorded values *)
Lemma stadtx_verify : forall cfg pattern long refs rs m,
  pattern + 64 < addr_space cfg -> long + 512 < addr_space cfg -> refs + 648 < addr_space cfg ->
  refs mod alignment cfg 8 = 0 -> apart long 512 refs 648 -> List.length rs = 81%nat -> (forall r, In r rs -> r < 2 ^ 64) ->
  refs_at cfg refs rs m -> bytes_at m pattern t1ha_test_pattern -> mapped m long 512 ->
  exists m', verify cfg pattern long (thunk_StadtX cfg) refs m = Ok (if list_eq_dec N.eq_dec refval_StadtX rs then false else true, m') /\
    only m m' long 512.
Proof.
  intros cfg pattern long refs rs m L1 L2 L3 AL A1 RL RB R HP ML. rewrite <- C51_recorded.
  apply (verify_computes cfg (fun _ => True) (thunk_StadtX cfg) StadtX pattern long refs rs m); try assumption.
  - intros d l s. exact (proj2 (C51_reads cfg (s, s, s, s) d l)).
  - intros m0 p msg seed _ B L LE S. apply C51_thunk; try assumption. lia.
  - exact (fun _ _ _ t => t).
  - exact I.
Qed.
Lemma refval_StadtX_lt : forall r, In r refval_StadtX -> r < 2 ^ 64.
Proof.
  assert (F : forallb (fun r => r <? 2 ^ 64) refval_StadtX = true) by (vm_compute; reflexivity).
  intros r IN. rewrite forallb_forall in F. apply F in IN. now apply N.ltb_lt in IN.
Qed.
(** The check of the test program passes in all builds. *)
Theorem C51_verify : forall cfg pattern long refs m,
  pattern + 64 < addr_space cfg -> long + 512 < addr_space cfg -> refs + 648 < addr_space cfg ->
  refs mod alignment cfg 8 = 0 -> apart long 512 refs 648 -> refs_at cfg refs refval_StadtX m ->
  bytes_at m pattern t1ha_test_pattern -> mapped m long 512 ->
  exists m', verify cfg pattern long (thunk_StadtX cfg) refs m = Ok (false, m') /\ only m m' long 512.
Proof.
  intros cfg pattern long refs m L1 L2 L3 AL A1 R HP ML.
  destruct (stadtx_verify cfg pattern long refs refval_StadtX m L1 L2 L3 AL A1 eq_refl refval_StadtX_lt R HP ML) as (m' & E & O).
  exists m'. split; [|exact O]. rewrite E. now destruct (list_eq_dec N.eq_dec refval_StadtX refval_StadtX).
Qed.
Print Assumptions C51_verify.

(** concrete cases: table at 8192, pattern at 4096 *)
Definition stadtx_mem (cfg : config) : mem :=
  write (write (fun _ => Some x00) 8192 (flat_map (CtxMem.native cfg 8) refval_StadtX)) 4096 t1ha_test_pattern.
Example C51_verify_hyp : forall cfg rs m0, List.length rs = 81%nat -> mapped m0 16384 512 ->
  let m := write (write m0 8192 (flat_map (CtxMem.native cfg 8) rs)) 4096 t1ha_test_pattern in
  refs_at cfg 8192 rs m /\ bytes_at m 4096 t1ha_test_pattern /\ mapped m 16384 512.
Proof.
  intros cfg rs m0 L M0 m. subst m. pose proof (table_size cfg rs) as T1. rewrite L in T1. change (8 * N.of_nat 81) with 648 in T1.
  assert (T3 : N.of_nat (List.length t1ha_test_pattern) = 64) by reflexivity. unfold mlen in T1. split; [|split].
  - apply refs_table; [exact L|]. apply write_bytes_at_other; [rewrite T1, T3; right; discriminate|]. apply write_bytes_at.
  - apply write_bytes_at.
  - now do 2 apply write_mapped.
Qed.
Example C51_verify_mips32 : failed_of (verify mips32 4096 16384 (thunk_StadtX mips32) 8192 (stadtx_mem mips32)) = Some false.
Proof.
  destruct (C51_verify_hyp mips32 refval_StadtX (fun _ => Some x00) eq_refl ltac:(discriminate)) as (R & P & M).
  destruct (C51_verify mips32 4096 16384 8192 _ eq_refl eq_refl eq_refl eq_refl ltac:(right; discriminate) R P M)
    as (m' & E & _). change (stadtx_mem mips32) with (write (write (fun _ => Some x00) 8192 (flat_map (CtxMem.native mips32 8) refval_StadtX)) 4096 t1ha_test_pattern).
  now rewrite E.
Qed.
(** one bit of the last recorded value wrong *)
Definition wrong_StadtX : list N := firstn 80 refval_StadtX ++ [N.lxor (nth 80 refval_StadtX 0) 1].
Example C51_verify_notices :
  let m := write (write (fun _ => Some x00) 8192 (flat_map (CtxMem.native x86_64 8) wrong_StadtX)) 4096 t1ha_test_pattern in
  failed_of (verify x86_64 4096 16384 (thunk_StadtX x86_64) 8192 m) = Some true.
Proof.
  intros m. destruct (C51_verify_hyp x86_64 wrong_StadtX (fun _ => Some x00) eq_refl ltac:(discriminate)) as (R & P & M).
  fold m in R, P, M. clearbody m.
  destruct (stadtx_verify x86_64 4096 16384 8192 wrong_StadtX m eq_refl eq_refl eq_refl eq_refl ltac:(right; discriminate) eq_refl) as (m' & E & _);
    try assumption.
  - intros r I. apply in_app_or in I. destruct I as [I|[<-|[]]]; [|reflexivity].
    apply refval_StadtX_lt. rewrite <- (firstn_skipn 80 refval_StadtX). apply in_or_app. now left.
  - rewrite E. destruct (list_eq_dec N.eq_dec refval_StadtX wrong_StadtX) as [Q|]; [|reflexivity].
    apply (f_equal (fun l => nth 80 l 0)) in Q. vm_compute in Q. discriminate Q.
Qed.
(** other states, byte order, pointer size and address *)
Example C51_other_states :
  let m := write (fun _ => None) 8193 (firstn 150 pattern_long) in
  map (fun n => match stadtx_hash_with_state sparc64 (1, 2, 3, 2 ^ 64 - 1) 8193 n m with Ok (v, _) => Some v | _ => None end) [0; 7; 31; 32; 94; 150]
  = map (fun n => Some (stadtx 1 2 3 (2 ^ 64 - 1) (firstn n pattern_long))) [0; 7; 31; 32; 94; 150]%nat.
Proof. vm_compute. reflexivity. Qed.

(** ** C52: what the comments say of the seeding (tests/stadtx/stadtx_hash.h:15-24, 37-45) *)
Lemma shr64_shiftr : forall x s, x < 2 ^ 64 -> shr64 x s = N.shiftr x s.
Proof. intros x s H. unfold shr64. now rewrite u64_small. Qed.
Definition shr_step (k x : N) : N := N.lxor x (shr64 x k).
Definition shl_step (k x : N) : N := N.lxor x (shl64 x k).
Lemma shr_step_lt : forall k x, x < 2 ^ 64 -> shr_step k x < 2 ^ 64.
Proof. intros k x H. unfold shr_step. rewrite shr64_shiftr, N.shiftr_div_pow2 by exact H. now apply xorshift_lt. Qed.
Lemma shl_step_lt : forall k x, x < 2 ^ 64 -> shl_step k x < 2 ^ 64.
Proof. intros k x H. unfold shl_step. apply lxor_lt; [exact H|]. unfold shl64, u64. apply N.mod_lt. discriminate. Qed.
Lemma shr_step_inj : forall k x y, k <> 0 -> x < 2 ^ 64 -> y < 2 ^ 64 -> shr_step k x = shr_step k y -> x = y.
Proof. intros k x y K X Y. unfold shr_step. rewrite !shr64_shiftr by assumption. now apply shiftr_xor_inj. Qed.
Lemma shl_step_inj : forall k x y, k <> 0 -> x < 2 ^ 64 -> y < 2 ^ 64 -> shl_step k x = shl_step k y -> x = y.
Proof. intros k x y K X Y. now apply shiftl_xor_inj. Qed.
Lemma scramble_eq : forall v p, STADTX_SCRAMBLE64 v p
  = shr_step 46 (shl_step 15 (shr_step 19 (mul64 (shr_step 30 (shl_step 35 (shr_step 13 v))) p))).
Proof. reflexivity. Qed.

Lemma mul64_lt64 : forall x p, mul64 x p < 2 ^ 64.
Proof. intros. unfold mul64, u64. apply N.mod_lt. discriminate. Qed.
#[local] Opaque shr_step shl_step mul64.
Lemma scramble_lt : forall v p, v < 2 ^ 64 -> STADTX_SCRAMBLE64 v p < 2 ^ 64.
Proof. intros v p V. rewrite scramble_eq. apply shr_step_lt, shl_step_lt, shr_step_lt, mul64_lt64. Qed.
Lemma scramble_inj : forall p v w, N.odd p = true -> v < 2 ^ 64 -> w < 2 ^ 64 ->
  STADTX_SCRAMBLE64 v p = STADTX_SCRAMBLE64 w p -> v = w.
Proof.
  intros p v w O V W E. destruct (odd_inverse p O) as (q & Q). rewrite !scramble_eq in E.
  apply shr_step_inj in E; [|discriminate|apply shl_step_lt, shr_step_lt, mul64_lt64..].
  apply shl_step_inj in E; [|discriminate|apply shr_step_lt, mul64_lt64..].
  apply shr_step_inj in E; [|discriminate|apply mul64_lt64..].
  apply (mulw_inj p q) in E; [|exact Q|apply shr_step_lt, shl_step_lt, shr_step_lt; assumption..].
  apply shr_step_inj in E; [|discriminate|apply shl_step_lt, shr_step_lt; assumption..].
  apply shl_step_inj in E; [|discriminate|apply shr_step_lt; assumption..].
  now apply shr_step_inj in E.
Qed.
#[local] Transparent shr_step shl_step mul64.
#[local] Opaque STADTX_SCRAMBLE64.
(** The macro permutes the 64-bit words when its second argument is odd; what is not
    zero does not become zero. *)
Theorem C52_scramble : forall p, N.odd p = true ->
  (forall v, v < 2 ^ 64 -> STADTX_SCRAMBLE64 v p < 2 ^ 64) /\
  (forall t, t < 2 ^ 64 -> exists! v, v < 2 ^ 64 /\ STADTX_SCRAMBLE64 v p = t) /\
  (forall v, v < 2 ^ 64 -> (STADTX_SCRAMBLE64 v p = 0 <-> v = 0)).
Proof.
  intros p O. split; [|split].
  - intros v. apply scramble_lt.
  - intros t T. destruct (inj_onto (2 ^ 64) (fun v => STADTX_SCRAMBLE64 v p)) with (y := t) as (v & V & E).
    + intros v. apply scramble_lt.
    + intros x y. now apply scramble_inj.
    + exact T.
    + exists v. split; [now split|]. intros w (W & F). apply (scramble_inj p); try assumption. now rewrite F.
  - intros v V. split; [|now intros ->]. intro E. apply (scramble_inj p); [exact O|exact V|reflexivity|]. now rewrite E.
Qed.
Print Assumptions C52_scramble.
#[local] Transparent STADTX_SCRAMBLE64.
(** odd is needed *)
Example C52_scramble_even : STADTX_SCRAMBLE64 1 0 = 0 /\
  STADTX_SCRAMBLE64 5 0x801178846e899d17 <> STADTX_SCRAMBLE64 5 0xdd51e5d1c9a5a151.
Proof. split; vm_compute; [reflexivity|discriminate]. Qed.

Lemma xor_zero : forall x y, N.lxor x y = 0 -> x = y.
Proof. intros x y. apply N.lxor_eq. Qed.
Lemma lxor_differ : forall s a b, N.lxor s a = N.lxor s b -> a = b.
Proof. intros s a b. apply xor_inj. Qed.
Lemma lxor_cancel : forall s a, N.lxor s (N.lxor s a) = a.
Proof. intros. now rewrite <- N.lxor_assoc, N.lxor_nilpotent, N.lxor_0_l. Qed.
(** a word of the state before it is scrambled *)
Definition masked (s a z : N) : N := if N.lxor s a =? 0 then z else N.lxor s a.
Lemma masked_pair : forall s a b y z, a <> b -> y <> 0 -> z <> 0 -> y <> N.lxor a b -> z <> N.lxor a b -> y <> a -> z <> b ->
  a <> 0 -> b <> 0 ->
  masked s a y <> 0 /\ masked s b z <> 0 /\ masked s a y <> masked s b z /\ masked s a y <> s /\ masked s b z <> s.
Proof.
  intros s a b y z AB Y Z YA ZA YB ZB A0 B0. unfold masked.
  destruct (N.eqb_spec (N.lxor s a) 0) as [E|E]; destruct (N.eqb_spec (N.lxor s b) 0) as [F|F].
  - apply N.lxor_eq in E, F. congruence.
  - apply N.lxor_eq in E. subst s. repeat split; try assumption.
    intro G. apply B0. rewrite <- (lxor_cancel a b), G. apply N.lxor_nilpotent.
  - apply N.lxor_eq in F. subst s. rewrite N.lxor_comm in ZA. repeat split; try assumption; [congruence|].
    intro G. apply A0. rewrite <- (lxor_cancel b a), G. apply N.lxor_nilpotent.
  - repeat split; try assumption.
    + intro G. apply AB. now apply lxor_differ in G.
    + intro G. apply A0. rewrite <- (lxor_cancel s a), G. apply N.lxor_nilpotent.
    + intro G. apply B0. rewrite <- (lxor_cancel s b), G. apply N.lxor_nilpotent.
Qed.
Lemma masked_inj : forall s t a b y z, a <> b -> y <> z ->
  masked s a y = masked t a y -> masked s b z = masked t b z -> s = t.
Proof.
  intros s t a b y z AB YZ. unfold masked.
  assert (C : forall u v c, N.lxor u c = N.lxor v c -> u = v).
  { intros u v c E. rewrite !(N.lxor_comm _ c) in E. now apply lxor_differ in E. }
  destruct (N.eqb_spec (N.lxor s a) 0) as [E|E]; destruct (N.eqb_spec (N.lxor t a) 0) as [F|F];
    destruct (N.eqb_spec (N.lxor s b) 0) as [G|G]; destruct (N.eqb_spec (N.lxor t b) 0) as [H|H]; intros P Q;
    try (now apply C in P); try (now apply C in Q);
    repeat match goal with H : N.lxor _ _ = 0 |- _ => apply N.lxor_eq in H end; try congruence.
  - subst s t. destruct YZ. rewrite P, <- Q. apply N.lxor_comm.
  - subst s t. destruct YZ. rewrite <- P, Q. apply N.lxor_comm.
Qed.

Lemma stadtx_masks_eq : forall seed0 seed1, stadtx_masks seed0 seed1
  = (masked seed0 0x43f6a8885a308d31 1, masked seed1 0x3198a2e03707344a 2,
     masked seed0 0x4093822299f31d00 4, masked seed1 0x82efa98ec4e6c894 8).
Proof. reflexivity. Qed.
Lemma masked_lt : forall s a z, s < 2 ^ 64 -> a < 2 ^ 64 -> z < 2 ^ 64 -> masked s a z < 2 ^ 64.
Proof. intros. unfold masked. destruct (_ =? _); [assumption|now apply lxor_lt]. Qed.

(** Before the scrambling: a) to e); all four words are nonzero, those made of the
    same word of the seed are different from it and from each other.  For all seeds. *)
Theorem C52_masks : forall seed0 seed1, let '(a, b, c, d) := stadtx_masks seed0 seed1 in
  (a <> 0 /\ b <> 0 /\ c <> 0 /\ d <> 0) /\ a <> c /\ b <> d /\ (a <> seed0 /\ b <> seed1 /\ c <> seed0 /\ d <> seed1).
Proof.
  intros seed0 seed1. rewrite stadtx_masks_eq.
  destruct (masked_pair seed0 0x43f6a8885a308d31 0x4093822299f31d00 1 4) as (A & B & C & D & E);
    try (vm_compute; discriminate).
  destruct (masked_pair seed1 0x3198a2e03707344a 0x82efa98ec4e6c894 2 8) as (A' & B' & C' & D' & E');
    try (vm_compute; discriminate).
  repeat split; assumption.
Qed.
Print Assumptions C52_masks.

Lemma scramble_nonzero : forall v p, N.odd p = true -> v < 2 ^ 64 -> v <> 0 -> STADTX_SCRAMBLE64 v p <> 0.
Proof. intros v p O V Z E. apply Z. exact (proj1 (proj2 (proj2 (C52_scramble p O)) v V) E). Qed.
#[local] Opaque STADTX_SCRAMBLE64.
(** After it: four nonzero words. *)
Theorem C52_state : forall seed0 seed1, seed0 < 2 ^ 64 -> seed1 < 2 ^ 64 ->
  let '(a, b, c, d) := stadtx_seed_state seed0 seed1 in
  (a <> 0 /\ b <> 0 /\ c <> 0 /\ d <> 0) /\ (a < 2 ^ 64 /\ b < 2 ^ 64 /\ c < 2 ^ 64 /\ d < 2 ^ 64).
Proof.
  intros seed0 seed1 S0 S1. pose proof (C52_masks seed0 seed1) as M. unfold stadtx_seed_state. rewrite stadtx_masks_eq in *.
  destruct M as ((A & B & C & D) & _). cbv zeta.
  assert (L0 := masked_lt seed0 0x43f6a8885a308d31 1 S0 eq_refl eq_refl). assert (L1 := masked_lt seed1 0x3198a2e03707344a 2 S1 eq_refl eq_refl).
  assert (L2 := masked_lt seed0 0x4093822299f31d00 4 S0 eq_refl eq_refl). assert (L3 := masked_lt seed1 0x82efa98ec4e6c894 8 S1 eq_refl eq_refl).
  split; repeat split; repeat (apply scramble_nonzero || apply scramble_lt || assumption || reflexivity).
Qed.
Print Assumptions C52_state.

(** Different seeds give different states. *)
Theorem C52_seeds : forall s0 s1 t0 t1, s0 < 2 ^ 64 -> s1 < 2 ^ 64 -> t0 < 2 ^ 64 -> t1 < 2 ^ 64 ->
  stadtx_seed_state s0 s1 = stadtx_seed_state t0 t1 -> s0 = t0 /\ s1 = t1.
Proof.
  intros s0 s1 t0 t1 S0 S1 T0 T1 E. unfold stadtx_seed_state in E. rewrite !stadtx_masks_eq in E. cbv zeta in E.
  injection E as A B C D.
  repeat (apply scramble_inj in A; [|reflexivity|repeat (apply scramble_lt || apply masked_lt || assumption || reflexivity)..]).
  repeat (apply scramble_inj in B; [|reflexivity|repeat (apply scramble_lt || apply masked_lt || assumption || reflexivity)..]).
  repeat (apply scramble_inj in C; [|reflexivity|repeat (apply scramble_lt || apply masked_lt || assumption || reflexivity)..]).
  repeat (apply scramble_inj in D; [|reflexivity|repeat (apply scramble_lt || apply masked_lt || assumption || reflexivity)..]).
  split.
  - refine (masked_inj s0 t0 _ _ _ _ _ _ A C); discriminate.
  - refine (masked_inj s1 t1 _ _ _ _ _ _ B D); discriminate.
Qed.
Print Assumptions C52_seeds.
#[local] Transparent STADTX_SCRAMBLE64.
(** A single word of the state does not tell the seeds apart. *)
Example C52_one_word : fst (fst (fst (stadtx_seed_state 0x43f6a8885a308d31 0))) = fst (fst (fst (stadtx_seed_state 0x43f6a8885a308d30 0))) /\
  stadtx_seed_state 0x43f6a8885a308d31 0 <> stadtx_seed_state 0x43f6a8885a308d30 0 /\
  stadtx_masks 0x43f6a8885a308d31 0x82efa98ec4e6c894 = (1, 0xb3770b6ef3e1fcde, 0x03652aaac3c39031, 8).
Proof. vm_compute. repeat split. discriminate. Qed.

(** Two of the eight "primes" are none (tests/stadtx/stadtx_hash.h:15-16, 65, 69). *)
Theorem C52_primes_refuted : 0xdd51e5d1c9a5a151 = 13 * 1226752341899202901 /\ 0xcd95d1e509b995cd = 5 * 2962795466189197609.
Proof. split; reflexivity. Qed.
Print Assumptions C52_primes_refuted.

(** ** C53 (refuted): no part of the key can be made up for by another *)
Lemma words_3 : forall x y z r, List.length x = 8%nat -> List.length y = 8%nat -> List.length z = 8%nat -> (List.length r < 8)%nat ->
  words (x ++ y ++ z ++ r) = [le_num x; le_num y; le_num z].
Proof. intros. now rewrite !words_cons, words_none. Qed.
Lemma le8_word : forall w, w < 2 ^ 64 -> le_num (le_bytes 8 w) = w.
Proof. intros. rewrite le_num_le_bytes. now apply N.mod_small. Qed.

Lemma add_sub_back : forall r t, t < 2 ^ 64 -> add r (sub t r) = t.
Proof.
  intros r t T. unfold add, sub. change (2 ^ 64) with 18446744073709551616 in *. rewrite N.add_mod_idemp_r by discriminate.
  rewrite (N.mod_small t) by exact T.
  pose proof (N.mod_lt r 18446744073709551616 ltac:(discriminate)). pose proof (N.div_mod r 18446744073709551616 ltac:(discriminate)).
  set (d := r / 18446744073709551616) in *. set (e := r mod _) in *. clearbody d e.
  replace (r + (t + 18446744073709551616 - e)) with (t + (1 + d) * 18446744073709551616) by lia.
  rewrite N.mod_add by discriminate. now apply N.mod_small.
Qed.
Lemma short_word_lt : forall v w, snd v < 2 ^ 64 -> fst (short_word v w) < 2 ^ 64 /\ snd (short_word v w) < 2 ^ 64.
Proof.
  intros [a b] w B. unfold short_word. cbn [fst snd] in *. split; [|apply add_lt64]. apply xor_lt64; [|exact B]. now apply rotr_lt64.
Qed.
(** a word can take the first half of the state anywhere, the second half follows *)
Lemma short_word_onto : forall v t, snd v < 2 ^ 64 -> t < 2 ^ 64 ->
  exists w, w < 2 ^ 64 /\ short_word v w = (t, add (rotr (snd v) 53) t).
Proof.
  intros [a b] t B T. cbn [fst snd] in *. destruct (word_onto a b 0x9c1b8e1e9628323f 17 t eq_refl ltac:(discriminate) B T) as (w & W & E).
  exists w. split; [exact W|]. unfold short_word. cbv zeta. cbn [fst snd]. now rewrite E.
Qed.
Lemma two_words : forall v t, snd v < 2 ^ 64 -> fst t < 2 ^ 64 -> forall u, u < 2 ^ 64 -> snd t = add (rotr u 53) (fst t) ->
  exists w w', w < 2 ^ 64 /\ w' < 2 ^ 64 /\ short_word (short_word v w) w' = t.
Proof.
  intros v [ta tb] B TA u U TB. cbn [fst snd] in *.
  destruct (short_word_onto v (sub u (rotr (snd v) 53)) B (sub_lt64 _ _)) as (w & W & E).
  rewrite add_sub_back in E by exact U.
  destruct (short_word_onto (sub u (rotr (snd v) 53), u) ta U TA) as (w' & W' & E').
  exists w, w'. split; [exact W|split; [exact W'|]]. rewrite E, E', TB. reflexivity.
Qed.

Lemma short_word_snd : forall v w, snd (short_word v w) = add (rotr (snd v) 53) (fst (short_word v w)).
Proof. intros v w. reflexivity. Qed.
(** Keys of 24 to 31 bytes: whatever the state and the first word, there are second
    and third words with which the hash is that of the given key. *)
Theorem C53_words_refuted : forall s0 s1 s2 s3 x y z x' k, s1 < 2 ^ 64 -> (k < 8)%nat ->
  List.length x = 8%nat -> List.length y = 8%nat -> List.length z = 8%nat -> List.length x' = 8%nat ->
  exists y' z', List.length y' = 8%nat /\ List.length z' = 8%nat /\
    forall r, List.length r = k -> stadtx s0 s1 s2 s3 (x' ++ y' ++ z' ++ r) = stadtx s0 s1 s2 s3 (x ++ y ++ z ++ r).
Proof.
  intros s0 s1 s2 s3 x y z x' k S1 K X Y Z X'.
  assert (V : forall x y z r, List.length x = 8%nat -> List.length y = 8%nat -> List.length z = 8%nat -> List.length r = k ->
    stadtx s0 s1 s2 s3 (x ++ y ++ z ++ r)
    = short_mix (short_rest (short_word (short_word (short_word
        (xor s0 (mulw (24 + N.of_nat k + 1) 0xb89b0f8e1655514f), xor s1 (mulw (24 + N.of_nat k + 2) 0x8c6f736011bd5127))
        (le_num x)) (le_num y)) (le_num z)) r)).
  { clear - K. intros x y z r X Y Z R. unfold stadtx.
    assert (ML : mlen (x ++ y ++ z ++ r) = 24 + N.of_nat k) by (unfold mlen; rewrite !app_length; lia). rewrite ML.
    destruct (Nat.ltb_spec (List.length (x ++ y ++ z ++ r)) 32) as [_|C]; [|rewrite !app_length in C; lia].
    rewrite words_3 by (assumption || lia). rewrite !rest_cons, rest_none by (discriminate || assumption || lia). reflexivity. }
  set (v := (xor s0 (mulw (24 + N.of_nat k + 1) 0xb89b0f8e1655514f), xor s1 (mulw (24 + N.of_nat k + 2) 0x8c6f736011bd5127))) in *.
  assert (B : snd v < 2 ^ 64) by (apply xor_lt64; [exact S1|apply mulw_lt64]). clearbody v.
  assert (B1 := proj2 (short_word_lt v (le_num x) B)). assert (B1' := proj2 (short_word_lt v (le_num x') B)).
  assert (B2 := proj2 (short_word_lt _ (le_num y) B1)). assert (B3 := short_word_lt _ (le_num z) B2).
  destruct (two_words (short_word v (le_num x')) (short_word (short_word (short_word v (le_num x)) (le_num y)) (le_num z)) B1'
    (proj1 B3) _ B2 (short_word_snd _ _)) as (w & w' & W & W' & E).
  exists (le_bytes 8 w), (le_bytes 8 w'). split; [apply le_bytes_length|split; [apply le_bytes_length|]].
  intros r R. rewrite !V by (assumption || apply le_bytes_length). rewrite !le8_word by assumption. now rewrite E.
Qed.
Print Assumptions C53_words_refuted.

(** Keys of 64 bytes or more: whatever the state and the first blocks of 32 bytes,
    there is a next block with which the hash is that of the given key. *)
Lemma group_of_le : forall w0 w1 w2 w3 i w, nth_error [w0; w1; w2; w3] i = Some w ->
  group 8 i (le_bytes 8 w0 ++ le_bytes 8 w1 ++ le_bytes 8 w2 ++ le_bytes 8 w3) = le_bytes 8 w.
Proof.
  intros w0 w1 w2 w3 i w E.
  assert (G : forall a b j, List.length a = 8%nat -> group 8 (S j) (a ++ b) = group 8 j b).
  { intros a b j L. unfold group. f_equal. rewrite Nat.mul_succ_r, Nat.add_comm. rewrite <- L at 1. apply skipn_exact. }
  destruct i as [|[|[|[|i]]]]; cbn [nth_error] in E; [| | | |destruct i; discriminate]; injection E as ->;
    rewrite ?G by apply le_bytes_length.
  1-3: apply group_first, le_bytes_length.
  unfold group. cbn [Nat.mul skipn]. apply firstn_all2. now rewrite le_bytes_length.
Qed.
Lemma block_onto : forall v t, let '(a, b, c, d) := v in let '(a', b', c', d') := t in
  c < 2 ^ 64 -> d < 2 ^ 64 -> a' < 2 ^ 64 -> b' < 2 ^ 64 -> c' < 2 ^ 64 -> d' < 2 ^ 64 ->
  exists g, List.length g = 32%nat /\ long_block v g = t.
Proof.
  intros [[[a b] c] d] [[[a' b'] c'] d'] C D A' B' C' D'.
  destruct (word_onto a d 0x802910e3 (64 - 57) a' eq_refl ltac:(discriminate) D A') as (w0 & W0 & E0).
  destruct (word_onto b c 0x819b13af (64 - 63) b' eq_refl ltac:(discriminate) C B') as (w1 & W1 & E1).
  destruct (word_add_onto c a' 0x91cb27e5 47 c' eq_refl ltac:(discriminate) C') as (w2 & W2 & E2).
  destruct (word_sub_onto d b' 0xc1a269c1 11 d' eq_refl ltac:(discriminate) D') as (w3 & W3 & E3).
  exists (le_bytes 8 w0 ++ le_bytes 8 w1 ++ le_bytes 8 w2 ++ le_bytes 8 w3). split; [now rewrite !app_length, !le_bytes_length|].
  unfold long_block. cbv zeta.
  rewrite (group_of_le w0 w1 w2 w3 0 w0 eq_refl), (group_of_le w0 w1 w2 w3 1 w1 eq_refl), (group_of_le w0 w1 w2 w3 2 w2 eq_refl),
    (group_of_le w0 w1 w2 w3 3 w3 eq_refl), !le8_word by assumption.
  unfold rotl. rewrite E0, E1, E2, E3. reflexivity.
Qed.
Definition small4 (v : N * N * N * N) : Prop :=
  let '(a, b, c, d) := v in a < 2 ^ 64 /\ b < 2 ^ 64 /\ c < 2 ^ 64 /\ d < 2 ^ 64.
Lemma long_block_small : forall v g, small4 v -> small4 (long_block v g).
Proof.
  intros [[[a b] c] d] g (A & B & C & D). unfold long_block, small4. cbv zeta. unfold rotl.
  repeat split; [apply xor_lt64; [apply rotr_lt64; lia|assumption]..|apply add_lt64|apply sub_lt64].
Qed.
Lemma long_blocks_small : forall gs v, small4 v -> small4 (fold_left long_block gs v).
Proof. induction gs as [|g gs IH]; intros v S; [exact S|]. apply IH. now apply long_block_small. Qed.
Theorem C53_blocks_refuted : forall s0 s1 s2 s3 a a' g n,
  s0 < 2 ^ 64 -> s1 < 2 ^ 64 -> s2 < 2 ^ 64 -> s3 < 2 ^ 64 ->
  List.length a = List.length a' -> Nat.modulo (List.length a) 32 = 0%nat -> List.length g = 32%nat ->
  exists g', List.length g' = 32%nat /\
    forall r, List.length r = n -> stadtx s0 s1 s2 s3 (a' ++ g' ++ r) = stadtx s0 s1 s2 s3 (a ++ g ++ r).
Proof.
  intros s0 s1 s2 s3 a a' g n S0 S1 S2 S3 LA MA LG.
  set (i := (List.length a / 32)%nat). assert (LI : List.length a = (32 * i)%nat) by (apply Nat.div_exact; [discriminate|exact MA]).
  set (l := mlen a + 32 + N.of_nat n).
  set (v := (xor s0 (mulw (l + 1) 0xb89b0f8e1655514f), xor s1 (mulw (l + 2) 0x8c6f736011bd5127),
             xor s2 (mulw (l + 3) 0x8f29bd94edce7b39), xor s3 (mulw (l + 4) 0x9c1b8e1e9628323f))).
  assert (V : forall a g r, List.length a = (32 * i)%nat -> mlen a + 32 + N.of_nat n = l -> List.length g = 32%nat -> List.length r = n ->
    stadtx s0 s1 s2 s3 (a ++ g ++ r)
    = let v := fold_left long_block (first_groups 32 (n / 32) r) (long_block (fold_left long_block (first_groups 32 i a) v) g) in
      let '(a, b, c, d) := long_words v (words (rest 32 r)) in
      long_mix (long_rest (xor a (mulw (mlen (rest 32 r) + 1) 0x9c1b8e1e9628323f), b, c, d) (rest 8 (rest 32 r)))).
  { subst v. clear LA MA LG LI. intros x y r LA E LG LR. clearbody i l. unfold stadtx.
    assert (ML : mlen (x ++ y ++ r) = l) by (rewrite <- E; unfold mlen; rewrite !app_length; lia). rewrite ML.
    assert (LB : List.length (x ++ y) = (32 * (i + 1))%nat) by (rewrite app_length; lia).
    destruct (Nat.ltb_spec (List.length (x ++ y ++ r)) 32) as [C|_]; [rewrite !app_length in C; lia|].
    assert (D : (List.length (x ++ y ++ r) / 32 = i + 1 + n / 32)%nat).
    { rewrite app_assoc, app_length, LB, LR, Nat.mul_comm, Nat.add_comm, Nat.div_add by discriminate. lia. }
    assert (R : rest 32 (x ++ y ++ r) = rest 32 r).
    { unfold rest. rewrite D, LR, Nat.mul_add_distr_l, <- LB, app_assoc. apply skipn_exact. }
    rewrite R, D, app_assoc, first_groups_cat by exact LB. rewrite first_groups_cat by exact LA.
    replace (first_groups 32 1 y) with [y].
    2:{ rewrite <- (app_nil_r y) at 2. now rewrite first_groups_app. }
    rewrite !fold_left_app. reflexivity. }
  assert (SV : small4 v) by (unfold v, small4; repeat split; apply xor_lt64; (assumption || apply mulw_lt64)).
  assert (G := long_block_small _ g (long_blocks_small (first_groups 32 i a) v SV)).
  assert (F := long_blocks_small (first_groups 32 i a') v SV).
  pose proof (block_onto (fold_left long_block (first_groups 32 i a') v) (long_block (fold_left long_block (first_groups 32 i a) v) g)) as X.
  assert (Y : exists g', List.length g' = 32%nat /\
    long_block (fold_left long_block (first_groups 32 i a') v) g' = long_block (fold_left long_block (first_groups 32 i a) v) g).
  { destruct (long_block (fold_left long_block (first_groups 32 i a) v) g) as [[[ta tb] tc] td].
    destruct (fold_left long_block (first_groups 32 i a') v) as [[[va vb] vc] vd].
    unfold small4 in F, G. apply X; easy. }
  destruct Y as (g' & LG' & E). exists g'. split; [exact LG'|]. intros r LR.
  rewrite (V a' g' r), (V a g r) by (assumption || reflexivity || congruence || (unfold l, mlen; now rewrite LA)).
  now rewrite E.
Qed.
Print Assumptions C53_blocks_refuted.

(** concrete cases, both of the test program's hash with the seed 42 *)
Example C53_words_case :
  let key := list_byte_of_string "the quick brown fox jumps over" in
  let other := (list_byte_of_string "any word" ++ le_bytes 8 0xe261b8e72010295b ++ le_bytes 8 0xfc8ef12533ec11a3 ++ list_byte_of_string "s over")%list in
  StadtX key 42 = StadtX other 42 /\ key <> other /\ List.length key = 30%nat /\ StadtX key 43 <> StadtX other 43.
Proof. vm_compute. repeat split; discriminate. Qed.
Example C53_blocks_case :
  let key := list_byte_of_string "thirty-two bytes of one message.and another thirty-two, the same tail" in
  let other := (list_byte_of_string "any other thirty-two bytes will " ++
    flat_map (le_bytes 8) [0xa44dfcbef80a16ca; 0x33683f4590303b00; 0xa79c717296c4f60f; 0xeffa6b5c7836b7fa] ++ list_byte_of_string " tail")%list in
  StadtX key 42 = StadtX other 42 /\ key <> other /\ List.length key = 69%nat.
Proof. vm_compute. repeat split; discriminate. Qed.

(** The same of the code of the test program, in all builds. *)
Theorem C53_code_refuted : forall cfg m seed p a a' g r, seed < 2 ^ 64 ->
  List.length a = List.length a' -> Nat.modulo (List.length a) 32 = 0%nat -> List.length g = 32%nat ->
  let len := mlen (a ++ g ++ r) in
  bytes_at m p (a ++ g ++ r) -> p + len < addr_space cfg -> len + 4 < addr_space cfg ->
  exists g', List.length g' = 32%nat /\
    forall m' p', bytes_at m' p' (a' ++ g' ++ r) -> p' + len < addr_space cfg ->
    exists h, thunk_StadtX cfg p len seed m = Ok (h, m) /\ thunk_StadtX cfg p' len seed m' = Ok (h, m').
Proof.
  intros cfg m seed p a a' g r S LA MA LG len B L L4.
  destruct (C53_blocks_refuted seed seed seed seed a a' g (List.length r) S S S S LA MA LG) as (g' & LG' & E).
  exists g'. split; [exact LG'|]. intros m' p' B' L'. exists (StadtX (a ++ g ++ r) seed). split.
  - now apply C51_thunk.
  - assert (EL : len = mlen (a' ++ g' ++ r)) by (unfold len, mlen; rewrite !app_length; lia).
    rewrite EL in *. rewrite C51_thunk by assumption. unfold StadtX. now rewrite E.
Qed.
Print Assumptions C53_code_refuted.
