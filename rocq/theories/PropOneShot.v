(** Properties of the one-shot functions. *)
From Coq Require Import ZArith NArith Arith List Bool Lia Strings.Byte.
From Coq Require Import ZifyN ZifyNat ZifyBool.
From Verif Require Import Bytes CSem Bits T1ha2 T1ha1 T1ha0 Aes Ia32aes Spec AesSpec CSemFacts KeyMem CtxMem
  T1ha2Facts T1ha1Facts OneShot OneShotFacts Demo.
Import ListNotations.
Local Open Scope N_scope.

(** ** C01: t1ha2_atonce and t1ha2_atonce128 compute one function of the key
    bytes and the seed, in every build. *)
Theorem C01_atonce : forall cfg m p msg seed,
  whole_words_ok cfg -> key_at cfg m p msg ->
  t1ha2_atonce cfg p (mlen msg) seed m = Ok (t1ha2_64 msg seed, m).
Proof. exact t1ha2_atonce_ok. Qed.
Print Assumptions C01_atonce.

Theorem C01_atonce128 : forall cfg m x p msg seed,
  whole_words_ok cfg -> key_at cfg m p msg ->
  mapped m x 8 -> x mod alignment cfg 8 = 0 -> (x + 8 <= p \/ p + mlen msg <= x) ->
  t1ha2_atonce128 cfg x p (mlen msg) seed m
  = Ok (fst (t1ha2_128 msg seed), write m x (native cfg 8 (snd (t1ha2_128 msg seed)))).
Proof. exact t1ha2_atonce128_ok. Qed.
Print Assumptions C01_atonce128.

(** a 75-byte key that straddles a page, in a release build for x86-64, and the
    same key misaligned on a strict big-endian machine *)
Example C01_case_x86_64 :
  whole_words_ok x86_64 /\ key_at x86_64 (pages 4096 8150 (key 75) xff) 8150 (key 75) /\
  t1ha2_64 (key 75) 42 = 10104237854036346708.
Proof.
  split; [intros _; now left|].
  split; [apply (pages_key_at x86_64); [now apply page_4096|reflexivity]|vm_compute; reflexivity].
Qed.
Example C01_case_sparc64 :
  whole_words_ok sparc64 /\ key_at sparc64 (pages 8192 8150 (key 75) x00) 8150 (key 75) /\
  key_at sparc64 (pages 8192 8152 (key 75) x00) 8152 (key 75).
Proof.
  split; [intros _; now left|].
  split; (apply (pages_key_at sparc64); [now apply page_8192|reflexivity]).
Qed.
(** both machines compute that number when the model is run *)
Definition returns (r : outcome (N * mem)) : option N := match r with Ok (v, _) => Some v | _ => None end.
Example C01_case_run :
  returns (t1ha2_atonce x86_64 8150 75 42 (pages 4096 8150 (key 75) xff)) = Some 10104237854036346708 /\
  returns (t1ha2_atonce sparc64 8150 75 42 (pages 8192 8150 (key 75) x00)) = Some 10104237854036346708 /\
  returns (t1ha2_atonce sparc64 8152 75 42 (pages 8192 8152 (key 75) x00)) = Some 10104237854036346708.
Proof. vm_compute. repeat split. Qed.
Example C01_case_128 :
  let m := write (island 96 (key 40)) 80 (key 8) in
  whole_words_ok mips32_exact /\ key_at mips32_exact m 96 (key 40) /\ mapped m 80 8.
Proof.
  split; [discriminate|]. split.
  - split; [|split; [reflexivity|discriminate]].
    apply write_bytes_at_other; [|apply island_bytes]. rewrite !key_length. lia.
  - assert (H : bytes_at (write (island 96 (key 40)) 80 (key 8)) 80 (key 8)) by apply write_bytes_at.
    apply bytes_at_mapped in H. rewrite key_length in H. exact H.
Qed.

(** ** C02: t1ha1_le and t1ha1_be. *)
Theorem C02_t1ha1_le : forall cfg m p msg seed,
  whole_words_ok cfg -> key_at cfg m p msg ->
  t1ha1_le cfg p (mlen msg) seed m = Ok (t1ha1_64 le_num msg seed, m).
Proof. exact t1ha1_le_ok. Qed.
Print Assumptions C02_t1ha1_le.

Theorem C02_t1ha1_be : forall cfg m p msg seed,
  whole_words_ok cfg -> be_tail_builds cfg -> key_at cfg m p msg ->
  t1ha1_be cfg p (mlen msg) seed m = Ok (t1ha1_64 be_num msg seed, m).
Proof. exact t1ha1_be_ok. Qed.
Print Assumptions C02_t1ha1_be.

Example C02_case_ppc64 :
  whole_words_ok ppc64 /\ be_tail_builds ppc64 /\ key_at ppc64 (pages 4096 4093 (key 61) xa5) 4093 (key 61).
Proof.
  split; [intros _; now left|]. split; [discriminate|].
  apply (pages_key_at ppc64); [now apply page_4096|reflexivity].
Qed.
Example C02_case_sparc64 :
  whole_words_ok sparc64 /\ be_tail_builds sparc64 /\ key_at sparc64 (pages 8192 8191 (key 61) xa5) 8191 (key 61).
Proof.
  split; [intros _; now left|]. split; [intros _; reflexivity|].
  apply (pages_key_at sparc64); [now apply page_8192|reflexivity].
Qed.

(** ** C03: t1ha0_32le and t1ha0_32be, in every build without exception. *)
Theorem C03_t1ha0_32le : forall cfg m p msg seed, seed < 2 ^ 64 -> key_at cfg m p msg ->
  t1ha0_32le cfg p (mlen msg) seed m = Ok (t1ha0_32 le_num msg seed, m).
Proof. exact t1ha0_32le_ok. Qed.
Print Assumptions C03_t1ha0_32le.

Theorem C03_t1ha0_32be : forall cfg m p msg seed, seed < 2 ^ 64 -> key_at cfg m p msg ->
  t1ha0_32be cfg p (mlen msg) seed m = Ok (t1ha0_32 be_num msg seed, m).
Proof. exact t1ha0_32be_ok. Qed.
Print Assumptions C03_t1ha0_32be.

Example C03_case_mips32 : key_at mips32 (pages 4096 4092 (key 3) x77) 4092 (key 3).
Proof. apply (pages_key_at mips32); [now apply page_4096|reflexivity]. Qed.
Example C03_case_linux32 : key_at linux32 (pages 4096 4001 (key 99) x77) 4001 (key 99).
Proof. apply (pages_key_at linux32); [now apply page_4096|reflexivity]. Qed.

(** ** C05: neighbouring bytes, the address and the build do not influence a
    hash value. *)
Theorem C05_locality : forall f cfg cfg' m m' p p' msg seed,
  seed < 2 ^ 64 -> usable f cfg -> usable f cfg' ->
  room f cfg p (mlen msg) -> room f cfg' p' (mlen msg) ->
  key_at cfg m p msg -> key_at cfg' m' p' msg ->
  exists r, call f cfg p (mlen msg) seed m = Ok (r, m) /\ call f cfg' p' (mlen msg) seed m' = Ok (r, m').
Proof.
  intros f cfg cfg' m m' p p' msg seed S U U' R R' K K'. exists (value f msg seed).
  split; now apply call_ok.
Qed.
Print Assumptions C05_locality.

(** the same key surrounded by 0xff, by zeros, and by unmapped memory *)
Example C05_case :
  usable Hash1le x86_64 /\ usable Hash1le mips32_exact /\
  key_at x86_64 (sea 4090 (key 13) xff) 4090 (key 13) /\
  key_at x86_64 (sea 4090 (key 13) x00) 4090 (key 13) /\
  key_at mips32_exact (island 4090 (key 13)) 4090 (key 13) /\
  sea 4090 (key 13) xff 4089 <> sea 4090 (key 13) x00 4089.
Proof.
  split; [intros _; now left|]. split; [discriminate|].
  split; [apply sea_key_at; [now apply page_4096|reflexivity]|].
  split; [apply sea_key_at; [now apply page_4096|reflexivity]|].
  split; [now apply island_key_at|discriminate].
Qed.

(** the AES variants, on two x86 machines *)
Example C05_case_aes :
  usable AesAvx2 x86_64 /\ usable AesAvx2 linux32 /\ usable AesNoavx linux32 /\
  room AesAvx2 x86_64 8000 (mlen (key 333)) /\ room AesAvx2 linux32 4097 (mlen (key 333)) /\
  room AesNoavx linux32 4097 (mlen (key 333)) /\
  key_at x86_64 (sea 8000 (key 333) xff) 8000 (key 333) /\
  key_at linux32 (pages 4096 4097 (key 333) x00) 4097 (key 333).
Proof.
  repeat (split; [first [exact I|split; [now left|reflexivity]|split; [now right|reflexivity]|
    cbn [room]; intros _; vm_compute; discriminate]|]).
  split; [apply sea_key_at; [now apply page_4096|reflexivity]|].
  apply (pages_key_at linux32); [now apply page_4096|reflexivity].
Qed.

(** ** C06: no function touches a page without key bytes. *)
Theorem C06_page_safe : forall f cfg p msg fill seed,
  seed < 2 ^ 64 -> usable f cfg -> page_ok cfg -> p + mlen msg < addr_space cfg ->
  room f cfg p (mlen msg) ->
  call f cfg p (mlen msg) seed (pages (pagesize cfg) p msg fill)
  = Ok (value f msg seed, pages (pagesize cfg) p msg fill).
Proof. intros. apply call_ok; auto. now apply pages_key_at. Qed.
Print Assumptions C06_page_safe.

(** in that memory all other pages are unmapped *)
Theorem C06_other_pages_unmapped : forall size p msg fill a, size <> 0 ->
  (forall i, i < mlen msg -> a / size <> (p + i) / size) -> pages size p msg fill a = None.
Proof. intros. now apply pages_none. Qed.
Print Assumptions C06_other_pages_unmapped.

Example C06_case : usable Atonce x86_64 /\ page_ok x86_64 /\
  pages 4096 8187 (key 5) x00 8192 = None /\ pages 4096 8192 (key 5) x00 8191 = None /\
  returns (t1ha2_atonce x86_64 8187 5 1 (pages 4096 8187 (key 5) x00)) = Some 16945452205847369803 /\
  returns (t1ha2_atonce x86_64 8192 5 1 (pages 4096 8192 (key 5) x00)) = Some 16945452205847369803.
Proof.
  split; [intros _; now left|]. split; [now apply page_4096|]. split; [reflexivity|]. split; [reflexivity|].
  split; vm_compute; reflexivity.
Qed.

(** On 32-bit machines without unaligned loads, whole 64-bit words are fetched
    from 4-aligned addresses at the tail: a one-byte key in the last word of a
    page makes t1ha2 and t1ha1 touch the next page. *)
Theorem C06_strict_align_32_refuted : exists cfg p msg,
  page_ok cfg /\ p + mlen msg < addr_space cfg /\ mlen msg = 1 /\
  ptr64 cfg = false /\ unaligned cfg = Unable /\
  (forall seed, t1ha2_atonce cfg p 1 seed (pages (pagesize cfg) p msg x00) = Fault (p + 4)) /\
  (forall seed, t1ha1_le cfg p 1 seed (pages (pagesize cfg) p msg x00) = Fault (p + 4)) /\
  (forall seed, t1ha1_be cfg p 1 seed (pages (pagesize cfg) p msg x00) = Fault (p + 4)) /\
  (p + 4) / pagesize cfg <> p / pagesize cfg.
Proof.
  exists mips32, 4092, (key 1). split; [now apply page_4096|].
  repeat split; try reflexivity; try discriminate.
Qed.
Print Assumptions C06_strict_align_32_refuted.

(** ** C07: without whole-word tail reads only key bytes are read. *)
Theorem C07_exact_bounds : forall f cfg p msg seed,
  seed < 2 ^ 64 -> fast_oneshot cfg = false -> (f = Hash1be -> be_tail_builds cfg) ->
  p + mlen msg < addr_space cfg -> room f cfg p (mlen msg) ->
  call f cfg p (mlen msg) seed (island p msg) = Ok (value f msg seed, island p msg).
Proof.
  intros f cfg p msg seed S F B A R. apply call_ok; auto.
  - assert (W : whole_words_ok cfg) by (intro; congruence).
    destruct f; cbn [usable]; auto.
  - now apply island_key_at.
Qed.
Print Assumptions C07_exact_bounds.

Theorem C07_nothing_else_mapped : forall p msg a,
  a < p \/ p + mlen msg <= a -> island p msg a = None.
Proof. exact island_none. Qed.
Print Assumptions C07_nothing_else_mapped.

Example C07_case : fast_oneshot x86_64_asan = false /\ fast_oneshot mips32_exact = false /\
  be_tail_builds mips32_exact /\ be_tail_builds x86_64_asan /\
  101 + mlen (key 47) < addr_space mips32_exact /\
  returns (t1ha1_be mips32_exact 101 47 5 (island 101 (key 47))) = Some (t1ha1_64 be_num (key 47) 5).
Proof.
  split; [reflexivity|]. split; [reflexivity|]. split; [intros _; reflexivity|]. split; [intros _; reflexivity|].
  split; vm_compute; reflexivity.
Qed.

(** ** C08: empty keys need no memory, in any build, at any address. *)
Theorem C08_empty : forall f cfg m p seed, seed < 2 ^ 64 ->
  call f cfg p 0 seed m = Ok (value f [] seed, m).
Proof. exact call_empty. Qed.
Print Assumptions C08_empty.

Theorem C08_empty128 : forall cfg m x p seed, mapped m x 8 -> x mod alignment cfg 8 = 0 ->
  t1ha2_atonce128 cfg x p 0 seed m
  = Ok (fst (t1ha2_128 [] seed), write m x (native cfg 8 (snd (t1ha2_128 [] seed)))).
Proof. exact atonce128_empty. Qed.
Print Assumptions C08_empty128.

(** a null pointer, with no mapped memory at all *)
Example C08_case : call Hash1be mips32 0 0 3 (fun _ => None) = Ok (value Hash1be [] 3, fun _ => None).
Proof. now apply C08_empty. Qed.

(** ** C09: one-shot functions change no byte; t1ha2_atonce128 changes only the
    eight bytes of its extra result. *)
Theorem C09_no_side_effect : forall f cfg m p msg seed r m',
  seed < 2 ^ 64 -> usable f cfg -> room f cfg p (mlen msg) -> key_at cfg m p msg ->
  call f cfg p (mlen msg) seed m = Ok (r, m') -> forall a, m' a = m a.
Proof.
  intros f cfg m p msg seed r m' S U R K E a. rewrite call_ok in E by assumption. congruence.
Qed.
Print Assumptions C09_no_side_effect.

Theorem C09_atonce128_writes : forall cfg m x p msg seed r m',
  whole_words_ok cfg -> key_at cfg m p msg ->
  mapped m x 8 -> x mod alignment cfg 8 = 0 -> (x + 8 <= p \/ p + mlen msg <= x) ->
  t1ha2_atonce128 cfg x p (mlen msg) seed m = Ok (r, m') ->
  (forall a, a < x \/ x + 8 <= a -> m' a = m a) /\ bytes_at m' p msg.
Proof.
  intros cfg m x p msg seed r m' W K MX AX D E.
  rewrite (C01_atonce128 cfg m x p msg seed W K MX AX D) in E. injection E as _ <-.
  assert (L : length (native cfg 8 (snd (t1ha2_128 msg seed))) = 8%nat).
  { unfold native. destruct (big_endian cfg); [unfold be_bytes; rewrite rev_length|]; apply le_bytes_length. }
  assert (O : forall a, a < x \/ x + 8 <= a -> write m x (native cfg 8 (snd (t1ha2_128 msg seed))) a = m a).
  { intros a A. apply write_out. rewrite L. lia. }
  split; [exact O|]. destruct K as [B _]. intros i b H. rewrite O; [now apply B|].
  assert ((i < length msg)%nat) by (apply nth_error_Some; congruence). unfold mlen in D. lia.
Qed.
Print Assumptions C09_atonce128_writes.

Example C09_case : usable Hash0_32be sparc64 /\ key_at sparc64 (pages 8192 77 (key 18) x01) 77 (key 18).
Proof. split; [exact I|]. apply (pages_key_at sparc64); [now apply page_8192|reflexivity]. Qed.

(** ** C33: results are 64-bit numbers. *)
Theorem C33_results : forall f cfg m p msg seed r m',
  seed < 2 ^ 64 -> usable f cfg -> room f cfg p (mlen msg) -> key_at cfg m p msg ->
  call f cfg p (mlen msg) seed m = Ok (r, m') -> r < 2 ^ 64.
Proof.
  intros f cfg m p msg seed r m' S U R K E. rewrite call_ok in E by assumption.
  injection E as <- _. apply value_lt.
Qed.
Print Assumptions C33_results.

Theorem C33_results128 : forall msg seed, seed < 2 ^ 64 -> mlen msg < 2 ^ 64 ->
  fst (t1ha2_128 msg seed) < 2 ^ 64 /\ snd (t1ha2_128 msg seed) < 2 ^ 64.
Proof. exact t1ha2_128_lt. Qed.
Print Assumptions C33_results128.

Theorem C33_results_stream : forall x y msg, x < 2 ^ 64 -> y < 2 ^ 64 ->
  t1ha2_stream64 x y msg < 2 ^ 64 /\
  fst (t1ha2_stream128 x y msg) < 2 ^ 64 /\ snd (t1ha2_stream128 x y msg) < 2 ^ 64.
Proof. intros. split; [apply stream64_lt|now apply stream128_lt]. Qed.
Print Assumptions C33_results_stream.

Example C33_case : t1ha2_128 (key 45) (2 ^ 64 - 1) = (7482472675464134339, 3460657149140718682).
Proof. vm_compute. reflexivity. Qed.
