(** Properties of the arithmetic helpers and of the word readers of
    src/t1ha_bits.h. *)
From Coq Require Import ZArith NArith Arith List Bool Lia Strings.Byte.
From Coq Require Import ZifyN ZifyNat ZifyBool.
From Verif Require Import Bytes CSem Bits T1ha2 T1ha1 Spec CSemFacts OpsFacts FetchFacts TailFacts KeyMem PageFacts
  Wide128Facts Demo.
Import ListNotations.
Local Open Scope N_scope.

(** ** C19: every implementation of the 64x64->128 multiplication is exact. *)
Theorem C19_mul_exact : forall cfg a b, a < 2 ^ 64 -> b < 2 ^ 64 ->
  exists l h, mul_64x64_128 cfg a b = (l, h) /\ l + 2 ^ 64 * h = a * b /\ l < 2 ^ 64 /\ h < 2 ^ 64.
Proof.
  intros cfg a b A B. rewrite mul_64x64_128_eq, !u64_small by assumption.
  exists ((a * b) mod 2 ^ 64), ((a * b) / 2 ^ 64). split; [reflexivity|].
  pose proof (N.div_mod (a * b) (2 ^ 64) ltac:(discriminate)) as D.
  split; [lia|]. split; [apply N.mod_lt; discriminate|].
  apply N.div_lt_upper_bound; [discriminate|]. apply N.mul_lt_mono; assumption.
Qed.
Print Assumptions C19_mul_exact.

(** mux64 folds that product; mixup64 splits it between two registers *)
Theorem C19_mux : forall cfg v p, v < 2 ^ 64 -> p < 2 ^ 64 ->
  mux64 cfg v p = N.lxor ((v * p) mod 2 ^ 64) ((v * p) / 2 ^ 64).
Proof. intros cfg v p V P. rewrite mux64_eq by exact P. unfold fold_xor, lo, hi, xor. now rewrite (N.mod_small v). Qed.
Print Assumptions C19_mux.

Theorem C19_mixup : forall cfg a b v p, a < 2 ^ 64 -> b < 2 ^ 64 -> v < 2 ^ 64 -> p < 2 ^ 64 ->
  let t := ((b + v) mod 2 ^ 64) * p in
  mixup64 cfg a b v p = (N.lxor a (t mod 2 ^ 64), (b + t / 2 ^ 64) mod 2 ^ 64).
Proof.
  intros cfg a b v p A B V P t. rewrite mixup64_eq by exact P. unfold mix, lo, hi, add, xor. cbn [fst snd].
  rewrite !N.mod_mod by discriminate. reflexivity.
Qed.
Print Assumptions C19_mixup.

(** the portable code with the worst carries *)
Example C19_case : mul_64x64_128 mips32 (2 ^ 64 - 1) (2 ^ 64 - 1) = (1, 2 ^ 64 - 2) /\
  mul_64x64_128 win32 0xFFFFFFFF00000001 0xFFFFFFFFFFFFFFFF = (0x00000000FFFFFFFF, 0xFFFFFFFF00000000) /\
  mux64 ppc64 (2 ^ 63 + 5) prime_3 = mux64 win32 (2 ^ 63 + 5) prime_3.
Proof. vm_compute. repeat split. Qed.

(** ** C20: the 128-bit helpers compute modulo 2^128, with and without a native
    128-bit type. *)
Theorem C20_not128 : forall cfg x, halves_ok x ->
  num128 (not128 cfg x) = 2 ^ 128 - 1 - num128 x /\ halves_ok (not128 cfg x).
Proof. exact not128_ok. Qed.
Print Assumptions C20_not128.
Theorem C20_left128 : forall cfg x s, halves_ok x -> s < 128 ->
  exists r, left128 cfg x s = Ok r /\ num128 r = (num128 x * 2 ^ s) mod 2 ^ 128 /\ halves_ok r.
Proof. exact left128_ok. Qed.
Print Assumptions C20_left128.
Theorem C20_right128 : forall cfg x s, halves_ok x -> s < 128 ->
  exists r, right128 cfg x s = Ok r /\ num128 r = num128 x / 2 ^ s /\ halves_ok r.
Proof. exact right128_ok. Qed.
Print Assumptions C20_right128.
Theorem C20_or128 : forall cfg x y, halves_ok x -> halves_ok y ->
  num128 (or128 cfg x y) = N.lor (num128 x) (num128 y) /\ halves_ok (or128 cfg x y).
Proof. exact or128_ok. Qed.
Print Assumptions C20_or128.
Theorem C20_xor128 : forall cfg x y, halves_ok x -> halves_ok y ->
  num128 (xor128 cfg x y) = N.lxor (num128 x) (num128 y) /\ halves_ok (xor128 cfg x y).
Proof. exact xor128_ok. Qed.
Print Assumptions C20_xor128.
(** rotation: the low [k] bits go to the top *)
Theorem C20_rot128 : forall cfg x s, halves_ok x -> (int128 cfg = true -> s mod 128 <> 0) ->
  exists r, rot128 cfg x s = Ok r /\
    num128 r = num128 x / 2 ^ (s mod 128) + (num128 x mod 2 ^ (s mod 128)) * 2 ^ (128 - s mod 128) /\
    halves_ok r.
Proof. exact rot128_ok. Qed.
Print Assumptions C20_rot128.
Theorem C20_add128 : forall cfg x y, halves_ok x -> halves_ok y ->
  num128 (add128 cfg x y) = (num128 x + num128 y) mod 2 ^ 128 /\ halves_ok (add128 cfg x y).
Proof. exact add128_ok. Qed.
Print Assumptions C20_add128.
Theorem C20_mul128 : forall cfg x y, halves_ok x -> halves_ok y ->
  num128 (mul128 cfg x y) = (num128 x * num128 y) mod 2 ^ 128 /\ halves_ok (mul128 cfg x y).
Proof. exact mul128_ok. Qed.
Print Assumptions C20_mul128.

(** With a native 128-bit type, a rotation by a multiple of 128 shifts by 128,
    which is undefined. *)
Theorem C20_rot128_by_0_refuted : forall cfg x s, int128 cfg = true -> s mod 128 = 0 ->
  rot128 cfg x s = Undef OverwideShift.
Proof.
  intros cfg x s I S. unfold rot128. rewrite I, land127, S. reflexivity.
Qed.
Print Assumptions C20_rot128_by_0_refuted.

Example C20_case : let x := U128 (2 ^ 64 - 3) 7 in halves_ok x /\
  rot128 mips32 x 70 = Ok (U128 17582052945254416384 2305843009213693951) /\
  rot128 x86_64 x 70 = rot128 mips32 x 70 /\ int128 mips32 = false /\ int128 x86_64 = true /\
  rot128 mips32 x 128 = Ok x /\ rot128 x86_64 x 128 = Undef OverwideShift /\
  mul128 mips32 x x = U128 9 (2 ^ 64 - 48).
Proof. vm_compute. repeat split. Qed.

(** ** C21: fetches and tail reads return the number denoted by the bytes. *)
Theorem C21_fetch16 : forall cfg m p l, bytes_at m p l -> length l = 2%nat -> p + 2 <= addr_space cfg ->
  fetch16_le_unaligned cfg p m = Ok (le_num l, m) /\ fetch16_be_unaligned cfg p m = Ok (be_num l, m) /\
  (p mod 2 = 0 -> fetch16_le_aligned cfg p m = Ok (le_num l, m) /\ fetch16_be_aligned cfg p m = Ok (be_num l, m)).
Proof.
  intros cfg m p l B L A. split; [now apply fetch16_le_unaligned_ok|]. split; [now apply fetch16_be_unaligned_ok|].
  intro AL. split; [now apply fetch16_le_aligned_ok|now apply fetch16_be_aligned_ok].
Qed.
Print Assumptions C21_fetch16.
Theorem C21_fetch32 : forall cfg m p l, bytes_at m p l -> length l = 4%nat -> p + 4 <= addr_space cfg ->
  fetch32_le_unaligned cfg p m = Ok (le_num l, m) /\ fetch32_be_unaligned cfg p m = Ok (be_num l, m) /\
  (p mod 4 = 0 -> fetch32_le_aligned cfg p m = Ok (le_num l, m) /\ fetch32_be_aligned cfg p m = Ok (be_num l, m)).
Proof.
  intros cfg m p l B L A. split; [now apply fetch32_le_unaligned_ok|]. split; [now apply fetch32_be_unaligned_ok|].
  intro AL. split; [now apply fetch32_le_aligned_ok|now apply fetch32_be_aligned_ok].
Qed.
Print Assumptions C21_fetch32.
Theorem C21_fetch64 : forall cfg m p l, bytes_at m p l -> length l = 8%nat -> p + 8 <= addr_space cfg ->
  fetch64_le_unaligned cfg p m = Ok (le_num l, m) /\ fetch64_be_unaligned cfg p m = Ok (be_num l, m) /\
  (p mod alignment cfg 8 = 0 ->
   fetch64_le_aligned cfg p m = Ok (le_num l, m) /\ fetch64_be_aligned cfg p m = Ok (be_num l, m)).
Proof.
  intros cfg m p l B L A. split; [now apply fetch64_le_unaligned_ok|]. split; [now apply fetch64_be_unaligned_ok|].
  intro AL. split; [now apply fetch64_le_aligned_ok|now apply fetch64_be_aligned_ok].
Qed.
Print Assumptions C21_fetch64.

(** tail readers: [tail] is the remaining length, of which only the value modulo
    the word size is used *)
Theorem C21_tail64_unaligned : forall cfg m p l tail, key_at cfg m p l -> (1 <= length l <= 8)%nat ->
  tail mod 8 = mlen l mod 8 -> tail < addr_space cfg ->
  tail64_le_unaligned cfg p tail m = Ok (le_num l, m) /\
  (be_tail_builds cfg -> tail64_be_unaligned cfg p tail m = Ok (be_num l, m)).
Proof.
  intros cfg m p l tail K L T A. pose proof K as (B & P & _).
  pose proof (around_ok cfg m 3 p l ltac:(lia) ltac:(lia) K) as AR. change (N.to_nat (2 ^ 3)) with 8%nat in AR.
  split; [|intro BB]; [apply tail64_le_unaligned_ok|apply tail64_be_unaligned_ok]; auto; lia.
Qed.
Print Assumptions C21_tail64_unaligned.
Theorem C21_tail64_aligned : forall cfg m p l tail, key_at cfg m p l -> (1 <= length l <= 8)%nat ->
  tail mod 8 = mlen l mod 8 -> tail < addr_space cfg -> p mod alignment cfg 8 = 0 ->
  (fast_oneshot cfg = true -> wide cfg = true) ->
  tail64_le_aligned cfg p tail m = Ok (le_num l, m) /\ tail64_be_aligned cfg p tail m = Ok (be_num l, m).
Proof.
  intros cfg m p l tail K L T A AL W. pose proof K as (B & P & _).
  pose proof (al8_after cfg m p l ltac:(lia) K AL W) as AF.
  split; [apply tail64_le_aligned_ok|apply tail64_be_aligned_ok]; auto; lia.
Qed.
Print Assumptions C21_tail64_aligned.
Theorem C21_tail32_unaligned : forall cfg m p l tail, key_at cfg m p l -> (1 <= length l <= 4)%nat ->
  tail mod 4 = mlen l mod 4 -> tail < addr_space cfg ->
  tail32_le_unaligned cfg p tail m = Ok (le_num l, m) /\ tail32_be_unaligned cfg p tail m = Ok (be_num l, m).
Proof.
  intros cfg m p l tail K L T A. pose proof K as (B & P & _).
  pose proof (around_ok cfg m 2 p l ltac:(lia) ltac:(lia) K) as AR. change (N.to_nat (2 ^ 2)) with 4%nat in AR.
  split; [apply tail32_le_unaligned_ok|apply tail32_be_unaligned_ok]; auto; lia.
Qed.
Print Assumptions C21_tail32_unaligned.
Theorem C21_tail32_aligned : forall cfg m p l tail, key_at cfg m p l -> (1 <= length l <= 4)%nat ->
  tail mod 4 = mlen l mod 4 -> tail < addr_space cfg -> p mod 4 = 0 ->
  tail32_le_aligned cfg p tail m = Ok (le_num l, m) /\ tail32_be_aligned cfg p tail m = Ok (be_num l, m).
Proof.
  intros cfg m p l tail K L T A AL. pose proof K as (B & P & _).
  pose proof (after_ok cfg m 2 p l ltac:(lia) ltac:(lia) K (fun _ => AL)) as AF. change (N.to_nat (2 ^ 2)) with 4%nat in AF.
  split; [apply tail32_le_aligned_ok|apply tail32_be_aligned_ok]; auto; lia.
Qed.
Print Assumptions C21_tail32_aligned.

(** the five bytes before a page end, read from below; three bytes of a strict machine *)
Example C21_case : key_at x86_64 (pages 4096 8187 (key 5) xff) 8187 (key 5) /\
  key_at sparc64 (pages 8192 8189 (key 3) xff) 8189 (key 3) /\ be_tail_builds x86_64 /\
  match tail64_be_unaligned x86_64 8187 5 (pages 4096 8187 (key 5) xff) with
  | Ok (v, _) => v = be_num (key 5) | _ => False end.
Proof.
  split; [apply (pages_key_at x86_64); [now apply page_4096|reflexivity]|].
  split; [apply (pages_key_at sparc64); [now apply page_8192|reflexivity]|].
  split; [intros _; reflexivity|vm_compute; reflexivity].
Qed.

(** ** C36: with efficient unaligned access on a big-endian host and without
    reading below the key, tail64_be_unaligned refers to a function that is
    declared nowhere. *)
Theorem C36_be_tail_refuted : forall cfg p tail m,
  unaligned cfg = Efficient -> big_endian cfg = true -> oneshot cfg = false ->
  tail64_be_unaligned cfg p tail m = NoBuild.
Proof.
  intros cfg p tail m U B O. unfold tail64_be_unaligned, has_underside, fast_oneshot, is_efficient. rewrite U, B, O.
  cbn [andb orb negb]. reflexivity.
Qed.
Print Assumptions C36_be_tail_refuted.

(** for example t1ha1_be of a four-byte key *)
Example C36_case : unaligned ppc64_exact = Efficient /\ big_endian ppc64_exact = true /\ oneshot ppc64_exact = false /\
  t1ha1_be ppc64_exact 64 4 0 (island 64 (key 4)) = NoBuild /\ ~ be_tail_builds ppc64_exact.
Proof.
  split; [reflexivity|]. split; [reflexivity|]. split; [reflexivity|]. split; [vm_compute; reflexivity|].
  intro H. specialize (H eq_refl). discriminate.
Qed.

(** ** C19, carries: the three carry helpers add exactly, in every build. *)
Theorem C19_carry : forall cfg c x y, c <= 1 -> x < 2 ^ 64 -> y < 2 ^ 64 ->
  (exists k s, add64carry_first cfg x y = (k, s) /\ s + 2 ^ 64 * k = x + y /\ s < 2 ^ 64) /\
  (exists k s, add64carry_next cfg c x y = (k, s) /\ s + 2 ^ 64 * k = x + y + c /\ s < 2 ^ 64) /\
  add64carry_last cfg c x y = (x + y + c) mod 2 ^ 64.
Proof.
  intros cfg c x y C X Y. assert (c < 2) as C2 by lia.
  rewrite (add64carry_first_eq cfg x y X Y), (add64carry_next_eq cfg c x y X Y C2), (add64carry_last_eq cfg c x y X Y C2).
  split; [|split; [|reflexivity]]; eexists _, _; (split; [reflexivity|]).
  - pose proof (N.div_mod (x + y) W64 ltac:(discriminate)) as D.
    split; [change (2 ^ 64) with W64; lia|apply N.mod_lt; discriminate].
  - pose proof (N.div_mod (x + y + c) W64 ltac:(discriminate)) as D.
    split; [change (2 ^ 64) with W64; lia|apply N.mod_lt; discriminate].
Qed.
Print Assumptions C19_carry.

Example C19_carry_case :
  add64carry_next mips32 1 (2 ^ 64 - 1) (2 ^ 64 - 1) = (1, 2 ^ 64 - 1) /\ add64carry_next win32 1 0 (2 ^ 64 - 1) = (1, 0) /\ add64carry_first mips32 (2 ^ 63) (2 ^ 63) = (1, 0).
Proof. vm_compute. repeat split. Qed.
