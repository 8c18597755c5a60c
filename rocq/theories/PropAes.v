(** Properties of the AES-accelerated functions, and of the loops of all
    functions. *)
From Coq Require Import ZArith NArith Arith List Bool Lia Strings.Byte.
From Coq Require Import ZifyN ZifyNat ZifyBool.
From Verif Require Import Bytes CSem Bits T1ha2 T1ha1 T1ha0 Aes Ia32aes Spec AesSpec NBits CSemFacts OpsFacts KeyMem
  PageFacts T1ha2Facts T1ha1Facts AesFacts Ia32aesFacts OneShot OneShotFacts Demo.
Import ListNotations.
Local Open Scope N_scope.

(** ** C04: the variants without AVX2 compute one function, whichever SIMD code
    path takes the halves out of a register; the AVX2 variant computes its own. *)
Theorem C04_noavx : forall cfg m p msg seed, key_at cfg m p msg -> seed < 2 ^ 64 ->
  (32 < mlen msg -> 127 <= p + mlen msg) ->
  t1ha0_ia32aes_noavx cfg p (mlen msg) seed m = Ok (t1ha0_aes_a msg seed, m).
Proof. exact t1ha0_ia32aes_a_ok. Qed.
Print Assumptions C04_noavx.

Theorem C04_avx : forall cfg m p msg seed, key_at cfg m p msg -> seed < 2 ^ 64 ->
  (32 < mlen msg -> 127 <= p + mlen msg) ->
  t1ha0_ia32aes_avx cfg p (mlen msg) seed m = Ok (t1ha0_aes_a msg seed, m).
Proof. exact t1ha0_ia32aes_a_ok. Qed.
Print Assumptions C04_avx.

Theorem C04_avx2 : forall cfg m p msg seed, key_at cfg m p msg -> seed < 2 ^ 64 ->
  (ulong64 cfg = true \/ mlen msg < 2 ^ 32) ->
  (32 < mlen msg -> p + mlen msg + 112 < addr_space cfg) ->
  t1ha0_ia32aes_avx2 cfg p (mlen msg) seed m = Ok (t1ha0_aes_b msg seed, m).
Proof. exact t1ha0_ia32aes_avx2_ok. Qed.
Print Assumptions C04_avx2.

(** The AES round of the specification is the one of FIPS-197: the example of
    appendix B, first round (state after AddRoundKey, round key 1, next state). *)
Example C04_fips197 :
  bytes_of (enc (word_of (map n2b [0x19; 0x3d; 0xe3; 0xbe; 0xa0; 0xf4; 0xe2; 0x2b;
                                   0x9a; 0xc6; 0x8d; 0x2a; 0xe9; 0xf8; 0x48; 0x08]))
                (word_of (map n2b [0xa0; 0xfa; 0xfe; 0x17; 0x88; 0x54; 0x2c; 0xb1;
                                   0x23; 0xa3; 0x39; 0x39; 0x2a; 0x6c; 0x76; 0x05])))
  = map n2b [0xa4; 0x9c; 0x7f; 0xf2; 0x68; 0x9f; 0x35; 0x2b;
             0x6b; 0x5b; 0xea; 0x43; 0x02; 0x6a; 0x50; 0x49].
Proof. vm_compute. reflexivity. Qed.

(** 333 bytes: two 128-byte blocks and a remainder with every kind of step *)
Example C04_case :
  key_at x86_64 (pages 4096 8000 (key 333) xff) 8000 (key 333) /\
  key_at win32 (pages 4096 8001 (key 333) x00) 8001 (key 333) /\
  8001 + mlen (key 333) + 112 < addr_space win32.
Proof.
  split; [apply (pages_key_at x86_64); [now apply page_4096|reflexivity]|].
  split; [apply (pages_key_at win32); [now apply page_4096|reflexivity]|reflexivity].
Qed.
Definition returned (r : outcome (N * mem)) : option N := match r with Ok (v, _) => Some v | _ => None end.
Example C04_case_run :
  returned (t1ha0_ia32aes_noavx x86_64 8000 333 7 (pages 4096 8000 (key 333) xff))
  = returned (t1ha0_ia32aes_noavx win32 8001 333 7 (pages 4096 8001 (key 333) x00)) /\
  returned (t1ha0_ia32aes_avx2 x86_64 8000 333 7 (pages 4096 8000 (key 333) xff))
  = returned (t1ha0_ia32aes_avx2 win32 8001 333 7 (pages 4096 8001 (key 333) x00)) /\
  returned (t1ha0_ia32aes_noavx x86_64 8000 333 7 (pages 4096 8000 (key 333) xff))
  <> returned (t1ha0_ia32aes_avx2 x86_64 8000 333 7 (pages 4096 8000 (key 333) xff)).
Proof. vm_compute. repeat split. discriminate. Qed.

(** ** C27: up to 32 bytes the three AES functions are t1ha2_atonce. *)
Theorem C27_short : forall f cfg m p msg seed,
  f = AesNoavx \/ f = AesAvx \/ f = AesAvx2 ->
  mlen msg <= 32 -> seed < 2 ^ 64 -> whole_words_ok cfg -> key_at cfg m p msg ->
  call f cfg p (mlen msg) seed m = t1ha2_atonce cfg p (mlen msg) seed m.
Proof.
  intros f cfg m p msg seed F L S W K. rewrite t1ha2_atonce_ok by assumption.
  assert (R : room f cfg p (mlen msg)).
  { destruct F as [-> | [-> | ->]]; cbn [room]; try (intro; lia).
    split; [right|intro; lia]. assert (32 < 2 ^ 32) by reflexivity. lia. }
  rewrite call_ok; [|assumption|destruct F as [-> | [-> | ->]]; exact I|assumption|assumption].
  replace (value f msg seed) with (t1ha2_64 msg seed); [reflexivity|].
  destruct F as [-> | [-> | ->]]; cbn [value]; unfold t1ha2_64, t1ha0_aes_a, t1ha0_aes_b;
    replace (mlen msg <=? 32) with true by lia; reflexivity.
Qed.
Print Assumptions C27_short.

(** With efficient unaligned access (every x86 build) they even behave alike in
    any memory whatsoever: the same faults, or the same value. *)
Theorem C27_short_any_memory : forall f cfg m p len seed,
  f = AesNoavx \/ f = AesAvx \/ f = AesAvx2 ->
  len <= 32 -> unaligned cfg = Efficient ->
  call f cfg p len seed m = t1ha2_atonce cfg p len seed m.
Proof.
  intros f cfg m p len seed F L U.
  assert (E : aes_tail cfg seed len p len m = t1ha2_atonce cfg p len seed m).
  { rewrite aes_tail_eq. unfold t1ha2_atonce, use_unaligned64, is_efficient. rewrite U. cbn [orb].
    replace (32 <? len) with false by lia. reflexivity. }
  rewrite <- E.
  destruct F as [-> | [-> | ->]]; cbn [call];
    unfold t1ha0_ia32aes_noavx, t1ha0_ia32aes_avx, t1ha0_ia32aes_a, t1ha0_ia32aes_avx2;
    replace (32 <? len) with false by lia; reflexivity.
Qed.
Print Assumptions C27_short_any_memory.

Example C27_case : unaligned x86_64 = Efficient /\ unaligned linux32 = Efficient /\
  whole_words_ok win32 /\ key_at win32 (pages 4096 4079 (key 31) xff) 4079 (key 31) /\
  returned (t1ha0_ia32aes_avx2 win32 4079 31 7 (pages 4096 4079 (key 31) xff)) = Some (t1ha2_64 (key 31) 7) /\
  t1ha0_ia32aes_noavx linux32 4079 31 7 (fun _ => None) = Fault 4079.
Proof.
  split; [reflexivity|]. split; [reflexivity|]. split; [intros _; now right|].
  split; [apply (pages_key_at win32); [now apply page_4096|reflexivity]|].
  split; vm_compute; reflexivity.
Qed.

(** It ends there: at 33 bytes they differ. *)
Example C27_limit : returned (t1ha0_ia32aes_noavx x86_64 8000 33 7 (pages 4096 8000 (key 33) xff))
  <> Some (t1ha2_64 (key 33) 7).
Proof. vm_compute. discriminate. Qed.

(** ** C34: where unsigned long has the width of size_t, the AVX2 function takes
    all bytes of a key of any length into account, as its specification says. *)
Theorem C34_lp64 : forall cfg m p msg seed, ulong64 cfg = true ->
  key_at cfg m p msg -> seed < 2 ^ 64 -> (32 < mlen msg -> p + mlen msg + 112 < addr_space cfg) ->
  t1ha0_ia32aes_avx2 cfg p (mlen msg) seed m = Ok (t1ha0_aes_b msg seed, m).
Proof. intros. apply t1ha0_ia32aes_avx2_ok; auto. Qed.
Print Assumptions C34_lp64.

(** On Win64, [len & ~15ul] keeps only the low 32 bits of the length.  A key of
    a multiple of 4 GiB is not read at all, so any two such keys collide. *)
Lemma avx2_llp64 : forall cfg m p k seed, ptr64 cfg = true -> ulong64 cfg = false ->
  seed < 2 ^ 64 -> 0 < k -> k < 2 ^ 32 -> p + 112 < 2 ^ 64 ->
  t1ha0_ia32aes_avx2 cfg p (k * 2 ^ 32) seed m
  = Ok (aes_finish [] ((k * 2 ^ 32, seed), enc (k * 2 ^ 32, seed) (P1, P0)), m).
Proof.
  intros cfg m p k seed P U S K0 K1 A.
  set (n := k * 2 ^ 32).
  assert (N64 : n < W64).
  { unfold n. change W64 with (2 ^ 32 * 2 ^ 32). apply N.mul_lt_mono_pos_r; [reflexivity|assumption]. }
  assert (L0 : forall x, x < 2 ^ 32 -> N.land n x = 0).
  { intros x X. unfold n. rewrite <- N.shiftl_mul_pow2. apply N.bits_inj. intro i.
    rewrite N.bits_0, N.land_spec. destruct (N.lt_ge_cases i 32) as [H|H].
    - rewrite N.shiftl_spec_low by assumption. reflexivity.
    - rewrite andb_comm. replace (N.testbit x i) with false; [reflexivity|].
      destruct (N.eq_dec x 0) as [->|X0]; [now rewrite N.bits_0|].
      rewrite N.bits_above_log2; [reflexivity|]. apply N.log2_lt_pow2; [lia|].
      apply N.lt_le_trans with (2 ^ 32); [assumption|]. apply N.pow_le_mono_r; [discriminate|assumption]. }
  assert (AS : addr_space cfg = W64) by (unfold addr_space; now rewrite P).
  change (2 ^ 64) with W64 in *.
  assert (P0' : padd cfg p 0 = p) by (rewrite padd_small; [lia|rewrite AS; lia]).
  assert (P112 : padd cfg p 112 = p + 112) by (rewrite padd_small; [lia|rewrite AS; lia]).
  unfold t1ha0_ia32aes_avx2.
  replace (32 <? n) with true by (unfold n; change (2 ^ 32) with 4294967296; lia).
  unfold not15ul. rewrite U. rewrite !L0 by reflexivity. cbv zeta. rewrite P0'.
  change (negb (0 =? 0)) with false. cbv iota.
  set (X := (n, seed)). assert (OX : ok2 X) by (split; assumption).
  assert (OP : ok2 (P1, P0)) by (split; reflexivity).
  rewrite (set_epi64x_pack seed n N64 S). fold X.
  change prime_0 with P0. change prime_1 with P1.
  rewrite (set_epi64x_pack P0 P1 eq_refl eq_refl).
  rewrite aesenc_eq by assumption.
  set (Y := enc X (P1, P0)). assert (OY : ok2 Y) by (now apply enc_ok2).
  assert (G : forall (T : Type) (f : aes_vars -> M T), bind (ret (XY (pack X) (pack Y) p)) f m = f (XY (pack X) (pack Y) p) m) by reflexivity.
  assert (B : forall (T T' : Type) (e : M T) (f : T -> M T') v, e m = Ok (v, m) -> bind e f m = f v m)
    by (intros T T' e f v E; unfold bind; now rewrite E).
  pose proof (aes_finish_eq cfg (X, Y) (conj OX OY)) as F. cbn [fst snd] in F.
  unfold aes_finish. set (AB := add2 (dec X (enc Y X)) Y) in *.
  rewrite (B _ _ _ _ (fst AB, snd AB, p, 0)).
  2: { rewrite G. cbn [av]. rewrite P112. replace (p + 112 <? p) with false by lia.
       cbv iota. rewrite G. erewrite B.
       2: { rewrite (while_unfold m aes_vars (aes_pair cfg) (fun s => av s <? p)). cbn [av].
            rewrite N.ltb_irrefl. reflexivity. }
       cbn [ax ay av]. rewrite F. destruct AB as [a b]. reflexivity. }
  destruct AB as [a b]. cbn [fst snd]. change (tail_ab [] (a, b)) with (a, b). rewrite <- (final64_eq cfg). reflexivity.
Qed.

Theorem C34_llp64_refuted : exists cfg n msg msg',
  ptr64 cfg = true /\ ulong64 cfg = false /\ page_ok cfg /\ n = 2 ^ 32 /\
  mlen msg = n /\ mlen msg' = n /\ msg <> msg' /\
  (forall p m p' m' seed, key_at cfg m p msg -> key_at cfg m' p' msg' ->
     seed < 2 ^ 64 -> p + n + 112 < addr_space cfg -> p' + n + 112 < addr_space cfg ->
     exists r, t1ha0_ia32aes_avx2 cfg p n seed m = Ok (r, m) /\
               t1ha0_ia32aes_avx2 cfg p' n seed m' = Ok (r, m')) /\
  (* not even mapped memory is needed *)
  (forall p seed, seed < 2 ^ 64 -> p + n + 112 < addr_space cfg ->
     exists r, t1ha0_ia32aes_avx2 cfg p n seed (fun _ => None) = Ok (r, fun _ => None)).
Proof.
  assert (R : forall (b : byte) n, mlen (repeat b (N.to_nat n)) = n).
  { intros b n. unfold mlen. rewrite repeat_length. lia. }
  assert (D : forall n, n <> 0 -> repeat x00 (N.to_nat n) <> repeat x01 (N.to_nat n)).
  { intros n Z E. apply (f_equal (hd x02)) in E.
    assert (N.to_nat n <> 0%nat) by lia. destruct (N.to_nat n) as [|k]; [congruence|]. discriminate E. }
  exists win64, (2 ^ 32), (repeat x00 (N.to_nat (2 ^ 32))), (repeat x01 (N.to_nat (2 ^ 32))).
  split; [reflexivity|]. split; [reflexivity|]. split; [now apply page_4096|]. split; [reflexivity|].
  split; [apply R|]. split; [apply R|]. split; [apply D; discriminate|].
  assert (H : forall p m seed, seed < 2 ^ 64 -> p + 2 ^ 32 + 112 < addr_space win64 ->
    t1ha0_ia32aes_avx2 win64 p (2 ^ 32) seed m
    = Ok (aes_finish [] ((2 ^ 32, seed), enc (2 ^ 32, seed) (P1, P0)), m)).
  { intros p m seed S A. change (addr_space win64) with (2 ^ 64) in A.
    pose proof (avx2_llp64 win64 m p 1 seed eq_refl eq_refl S eq_refl eq_refl) as E.
    rewrite N.mul_1_l in E. apply E. lia. }
  split.
  - intros p m p' m' seed _ _ S A A'. eexists. split; now apply H.
  - intros p seed S A. eexists. now apply H.
Qed.
Print Assumptions C34_llp64_refuted.

(** ** C35: loops. *)
(** The control skeleton of the loops of t1ha2, t1ha1, t1ha0_32 ([B] = 32, 32,
    16): whatever the body does, if it advances the pointer by [B], exactly
    [len / B] iterations are made: with less fuel the loop is not finished, with
    that or more it is, and the pointer is at the start of the remainder. *)
Lemma do_while_count : forall cfg (S : Type) (body : S * N -> M (S * N)) B e, 0 < B -> e < addr_space cfg ->
  (forall s v m, v + B < addr_space cfg -> exists s' m', body (s, v) m = Ok ((s', v + B), m')) ->
  forall fuel s v r m, B <= r -> v + r = e ->
    (N.of_nat fuel < r / B -> do_while fuel body (fun x => snd x <? e - (B - 1)) (s, v) m = Stuck) /\
    (r / B <= N.of_nat fuel -> exists s' m',
       do_while fuel body (fun x => snd x <? e - (B - 1)) (s, v) m = Ok ((s', v + B * (r / B)), m')).
Proof.
  intros cfg S body B e B0 E H fuel. induction fuel as [|fuel IH]; intros s v r m L V.
  - split; [reflexivity|]. intro F. exfalso.
    assert (B / B <= r / B) by (apply N.div_le_mono; lia). rewrite N.div_same in * by lia. lia.
  - cbn [do_while]. destruct (H s v m ltac:(lia)) as (s1 & m1 & E1). unfold bind. rewrite E1. cbn [snd].
    destruct (N.lt_ge_cases (r - B) B) as [G|G].
    + assert (D : r / B = 1).
      { symmetry. apply N.div_unique with (r - B); lia. }
      replace (v + B <? e - (B - 1)) with false by lia. split; [lia|].
      intros _. exists s1, m1. rewrite D, N.mul_1_r. reflexivity.
    + replace (v + B <? e - (B - 1)) with true by lia.
      destruct (IH s1 (v + B) (r - B) m1 G ltac:(lia)) as [I1 I2].
      assert (D : r / B = (r - B) / B + 1).
      { replace r with ((r - B) + 1 * B) at 1 by lia. apply N.div_add. lia. }
      split; [intro; apply I1; lia|]. intro F.
      destruct (I2 ltac:(lia)) as (s2 & m2 & E2). exists s2, m2. rewrite E2. do 3 f_equal. lia.
Qed.

Theorem C35_do_while_exact : forall cfg (S : Type) (body : S * N -> M (S * N)) B data len,
  0 < B -> B <= len -> data + len < addr_space cfg ->
  (forall s v m, v + B < addr_space cfg -> exists s' m', body (s, v) m = Ok ((s', v + B), m')) ->
  forall fuel s m,
    let detent := psub cfg (padd cfg data len) (B - 1) in
    let run := do_while fuel body (fun x => snd x <? detent) (s, data) m in
    (N.of_nat fuel < len / B -> run = Stuck) /\
    (len / B <= N.of_nat fuel -> exists s' m', run = Ok ((s', data + B * (len / B)), m')).
Proof.
  intros cfg S body B data len B0 L A H fuel s m. cbv zeta.
  rewrite (padd_small cfg data len A), psub_small by lia.
  now apply (do_while_count cfg S body B (data + len)).
Qed.
Print Assumptions C35_do_while_exact.

(** The loops themselves, with their bodies: all blocks in order, and the pointer
    at the remainder. *)
Theorem C35_t1ha2_loop : forall cfg m t p msg,
  whole_words_ok cfg -> key_at cfg m p msg -> 32 <= mlen msg ->
  T1HA2_LOOP cfg (fetch64_le cfg (use_unaligned64 cfg p)) (emb t) p (mlen msg) m
  = Ok ((emb (fold_left absorb (blocks 32 msg) t), p + 32 * (mlen msg / 32)), m).
Proof.
  intros cfg m t p msg W K L. pose proof (reads_le cfg m p msg W K) as [H _]. pose proof K as (_ & A & _).
  unfold mlen in L. rewrite (T1HA2_LOOP_ok cfg m _ t p msg ltac:(lia) H A).
  do 3 f_equal. unfold mlen. lia.
Qed.
Print Assumptions C35_t1ha2_loop.

(** The 128-byte loop of t1ha0_ia32aes_noavx/avx ([B] = 128), provided that
    data + len - 127 does not wrap below zero. *)
Lemma while_count : forall cfg (body : aes_vars -> M aes_vars) B e, 0 < B -> B - 1 <= e -> e < addr_space cfg ->
  (forall s m, av s + B < addr_space cfg -> exists s' m', body s m = Ok (s', m') /\ av s' = av s + B) ->
  forall fuel s r m, av s + r = e ->
    (N.of_nat fuel < r / B -> while_ fuel body (fun s => av s <? e - (B - 1)) s m = Stuck) /\
    (r / B <= N.of_nat fuel -> exists s' m',
       while_ fuel body (fun s => av s <? e - (B - 1)) s m = Ok (s', m') /\ av s' = av s + B * (r / B)).
Proof.
  intros cfg body B e B0 BE E H fuel. induction fuel as [|fuel IH]; intros s r m V; cbn [while_];
    (destruct (N.lt_ge_cases r B) as [G|G];
     [rewrite N.div_small by assumption; replace (av s <? e - (B - 1)) with false by lia;
      split; [lia|intros _; exists s, m; split; [reflexivity|lia]]|]);
    replace (av s <? e - (B - 1)) with true by lia.
  - split; [reflexivity|]. intro F. exfalso.
    assert (B / B <= r / B) by (apply N.div_le_mono; lia). rewrite N.div_same in * by lia. lia.
  - assert (D : r / B = (r - B) / B + 1).
    { replace r with ((r - B) + 1 * B) at 1 by lia. apply N.div_add. lia. }
    destruct (N.lt_ge_cases (av s + B) (addr_space cfg)) as [Q|Q]; [|lia].
    destruct (H s m Q) as (s1 & m1 & E1 & A1). unfold bind. rewrite E1.
    destruct (IH s1 (r - B) m1 ltac:(lia)) as [I1 I2].
    split; [intro; apply I1; lia|]. intro F.
    destruct (I2 ltac:(lia)) as (s2 & m2 & E2 & A2). exists s2, m2. split; [exact E2|]. rewrite A2, A1, D. lia.
Qed.

Theorem C35_while_exact : forall cfg (body : aes_vars -> M aes_vars) B s len,
  0 < B -> B - 1 <= av s + len -> av s + len < addr_space cfg ->
  (forall s m, av s + B < addr_space cfg -> exists s' m', body s m = Ok (s', m') /\ av s' = av s + B) ->
  forall fuel m,
    let detent := psub cfg (padd cfg (av s) len) (B - 1) in
    let run := while_ fuel body (fun s => av s <? detent) s m in
    (N.of_nat fuel < len / B -> run = Stuck) /\
    (len / B <= N.of_nat fuel -> exists s' m', run = Ok (s', m') /\ av s' = av s + B * (len / B)).
Proof.
  intros cfg body B s len B0 BE A H fuel m. cbv zeta.
  rewrite (padd_small cfg (av s) len A), psub_small by lia.
  now apply (while_count cfg body B (av s + len)).
Qed.
Print Assumptions C35_while_exact.

(** a loop that counts: 3 blocks of 32 bytes in 100 bytes, 2 of 128 in 300 *)
Example C35_case :
  (exists m', do_while 3 (fun x : N * N => ret (fst x + 1, snd x + 32))
     (fun x => snd x <? psub x86_64 (padd x86_64 5000 100) 31) (0, 5000) (fun _ => None)
   = Ok ((3, 5096), m')) /\
  (exists m', while_ 2 (fun s => ret (XY (ax s + 1) 0 (av s + 128)))
     (fun s => av s <? psub linux32 (padd linux32 5000 300) 127) (XY 0 0 5000) (fun _ => None)
   = Ok (XY 2 0 5256, m')).
Proof. split; eexists; vm_compute; reflexivity. Qed.

(** The two AES bodies do wrap around at the ends of the address space: a short
    key at a very low address makes t1ha0_ia32aes_noavx/avx read beyond it, and
    a key near the top makes t1ha0_ia32aes_avx2 do so. *)
Theorem C35_low_address_refuted : exists cfg p msg, 
  p <> 0 /\ 32 < mlen msg /\ key_at cfg (island p msg) p msg /\
  forall seed, t1ha0_ia32aes_noavx cfg p (mlen msg) seed (island p msg) = Fault (p + mlen msg).
Proof.
  exists x86_64_asan, 32, (key 64). split; [discriminate|]. split; [reflexivity|].
  split; [now apply island_key_at|]. intro seed. vm_compute. reflexivity.
Qed.
Print Assumptions C35_low_address_refuted.

Theorem C35_high_address_refuted : exists cfg p msg,
  32 < mlen msg /\ key_at cfg (island p msg) p msg /\
  forall seed, t1ha0_ia32aes_avx2 cfg p (mlen msg) seed (island p msg) = Fault (p + mlen msg).
Proof.
  exists x86_64_asan, (2 ^ 64 - 100), (key 64). split; [reflexivity|].
  split; [now apply island_key_at|]. intro seed. vm_compute. reflexivity.
Qed.
Print Assumptions C35_high_address_refuted.
