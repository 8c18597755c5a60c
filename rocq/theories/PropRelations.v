(** More relations between results: one-shot and streaming, different seeds. *)
From Coq Require Import ZArith NArith Arith List Bool Lia Strings.Byte.
From Coq Require Import ZifyN ZifyNat ZifyBool.
From Verif Require Import Bytes CSem Bits T1ha2 T1ha1 T1ha0 Aes Ia32aes Spec AesSpec CSemFacts KeyMem CtxMem StreamFacts
  T1ha2Facts T1ha1Facts Api ApiFacts OneShot OneShotFacts Demo PropOneShot PropStream PropAlgebra.
Import ListNotations.
Local Open Scope N_scope.

(** ** C40: a streamed result is the one-shot result of another key. *)
(** the key: the message followed by its length in bits, top bit flipped *)
Lemma padded_length : forall msg, mlen (padded msg) = mlen msg + 8.
Proof. intro msg. unfold padded, mlen. rewrite app_length, le_bytes_length. lia. Qed.

Lemma stream64_atonce : forall msg x, 24 < mlen msg ->
  t1ha2_stream64 x (mlen msg + 8) msg = t1ha2_64 (padded msg) x.
Proof.
  intros msg x L. unfold t1ha2_64. rewrite padded_length.
  destruct (mlen msg + 8 <=? 32) eqn:E; [lia|]. reflexivity.
Qed.

Lemma stream128_atonce : forall msg x, mlen msg <> 24 ->
  t1ha2_stream128 x (mlen msg + 8) msg = t1ha2_128 (padded msg) x.
Proof.
  intros msg x L. unfold t1ha2_128. rewrite padded_length.
  destruct (mlen msg + 8 <=? 32) eqn:E; [|reflexivity].
  assert (H : (length (padded msg) < 32)%nat) by (pose proof (padded_length msg); unfold mlen in *; lia).
  unfold t1ha2_stream128, stream_state, blocks, rest. rewrite (Nat.div_small _ _ H). reflexivity.
Qed.

Theorem C40_stream_is_atonce : forall cfg c chunks m x bits cfg' m' p,
  let msg := content chunks in
  ctx_ptr cfg c -> ctx_mapped cfg m c -> Forall (chunk_ok cfg m c) chunks -> final_ready cfg c m bits 0 ->
  x < 2 ^ 64 -> 24 < mlen msg -> mlen msg + 8 < 2 ^ 64 ->
  whole_words_ok cfg' -> key_at cfg' m' p (padded msg) ->
  exists r n, stream cfg c x (mlen msg + 8) chunks bits 0 m = Ok (r, n) /\
              t1ha2_atonce cfg' p (mlen msg + 8) x m' = Ok (r, m').
Proof.
  intros cfg c chunks m x bits cfg' m' p msg CP M C R X L B W K.
  destruct (C11_stream64 cfg c CP chunks m x (mlen msg + 8) bits M X B C R) as (n & E).
  exists (t1ha2_64 (padded msg) x), n. split.
  - rewrite E. unfold msg in *. now rewrite stream64_atonce.
  - rewrite <- padded_length. now apply t1ha2_atonce_ok.
Qed.
Print Assumptions C40_stream_is_atonce.

Theorem C40_stream128_is_atonce128 : forall cfg c chunks m x bits extra cfg' m' p e,
  let msg := content chunks in
  ctx_ptr cfg c -> ctx_mapped cfg m c -> Forall (chunk_ok cfg m c) chunks ->
  extra <> 0 -> final_ready cfg c m bits extra ->
  x < 2 ^ 64 -> mlen msg <> 24 -> mlen msg + 8 < 2 ^ 64 ->
  whole_words_ok cfg' -> key_at cfg' m' p (padded msg) ->
  mapped m' e 8 -> e mod alignment cfg' 8 = 0 -> (e + 8 <= p \/ p + mlen (padded msg) <= e) ->
  exists r h n, stream cfg c x (mlen msg + 8) chunks bits extra m = Ok (r, n) /\ bytes_at n extra (native cfg 8 h) /\
                t1ha2_atonce128 cfg' e p (mlen msg + 8) x m' = Ok (r, write m' e (native cfg' 8 h)).
Proof.
  intros cfg c chunks m x bits extra cfg' m' p e msg CP M C EN R X L B W K ME AE D.
  destruct (C11_stream128 cfg c CP chunks m x (mlen msg + 8) bits extra EN M X B C R) as (n & E & H).
  unfold msg in *. rewrite stream128_atonce in * by assumption.
  exists (fst (t1ha2_128 (padded (content chunks)) x)), (snd (t1ha2_128 (padded (content chunks)) x)), n.
  split; [exact E|]. split; [exact H|]. rewrite <- padded_length. now apply t1ha2_atonce128_ok.
Qed.
Print Assumptions C40_stream128_is_atonce128.

(** 77 bytes streamed in four chunks on x86-64, the 85-byte key on a strict
    big-endian machine *)
Example C40_case : ctx_ptr x86_64 4096 /\ ctx_mapped x86_64 ram 4096 /\ Forall (chunk_ok x86_64 ram 4096) cut_a /\
  final_ready x86_64 4096 ram 12288 0 /\ mlen (content cut_a) = 77 /\ whole_words_ok sparc64 /\
  key_at sparc64 (pages 8192 8150 (padded (content cut_a)) x00) 8150 (padded (content cut_a)) /\
  t1ha2_stream64 5 85 (content cut_a) = 13294712143141419840.
Proof.
  split; [apply ctx_4096|]. split; [apply ram_ctx|]. split; [apply cut_a_ok; vm_compute; discriminate|].
  split; [apply ready_x86_0|]. split; [reflexivity|]. split; [intros _; now left|].
  split; [apply (pages_key_at sparc64); [now apply page_8192|reflexivity]|vm_compute; reflexivity].
Qed.

(** ** C41: under t1ha1 a short key is only an offset to the seed. *)
(** groups of a short key: the key itself *)
Lemma groups_short : forall l, (1 <= length l <= 8)%nat -> groups 8 l = [l].
Proof.
  intros l L. unfold groups. replace ((length l + (8 - 1)) / 8)%nat with 1%nat.
  - cbn [seq map]. unfold group. replace (8 * 0)%nat with 0%nat by reflexivity. rewrite skipn_O.
    now rewrite firstn_all2 by (destruct L; assumption).
  - replace (length l + (8 - 1))%nat with (1 * 8 + (length l - 1))%nat by lia.
    rewrite Nat.div_add_l by lia. rewrite Nat.div_small by lia. reflexivity.
Qed.

Lemma t1ha1_short : forall num l seed, (1 <= length l <= 8)%nat ->
  t1ha1_64 num l seed = t1ha1_finish (add seed (fold_xor (num l) P1), mlen l).
Proof.
  intros num l seed L. unfold t1ha1_64.
  destruct (mlen l <=? 32) eqn:E; [|unfold mlen in E; lia]. now rewrite groups_short.
Qed.

(** the number a byte string of the given function denotes *)
Definition denotes (f : hash_fn) : list byte -> N := match f with Hash1be => be_num | _ => le_num end.

Theorem C41_refuted : forall f msg msg', f = Hash1le \/ f = Hash1be ->
  length msg = length msg' -> (1 <= length msg <= 8)%nat ->
  exists offset, forall seed, seed < 2 ^ 64 -> forall cfg m p cfg' m' p',
    usable f cfg -> key_at cfg m p msg -> usable f cfg' -> key_at cfg' m' p' msg' ->
    exists v, call f cfg p (mlen msg) seed m = Ok (v, m) /\
              call f cfg' p' (mlen msg') ((seed + offset) mod 2 ^ 64) m' = Ok (v, m').
Proof.
  intros f msg msg' F L B.
  set (x := fold_xor (denotes f msg) P1). set (y := fold_xor (denotes f msg') P1).
  exists (x + (2 ^ 64 - y mod 2 ^ 64)). intros seed S cfg m p cfg' m' p' U K U' K'.
  exists (value f msg seed). rewrite !call_ok; try assumption; try (destruct F as [->| ->]; exact I);
    try (apply N.mod_lt; discriminate). split; [reflexivity|]. do 2 f_equal.
  assert (Z : add ((seed + (x + (2 ^ 64 - y mod 2 ^ 64))) mod 2 ^ 64) y = add seed x).
  { unfold add. rewrite N.add_mod_idemp_l by discriminate.
    rewrite <- (N.add_mod_idemp_r _ y) by discriminate.
    pose proof (N.mod_lt y (2 ^ 64)) as Y.
    replace (seed + (x + (2 ^ 64 - y mod 2 ^ 64)) + y mod 2 ^ 64) with (seed + x + 1 * 2 ^ 64).
    - now rewrite N.mod_add.
    - assert (y mod 2 ^ 64 < 2 ^ 64) by (apply Y; discriminate). lia. }
  assert (E : mlen msg' = mlen msg) by (unfold mlen; congruence).
  destruct F as [->| ->]; cbn [value]; rewrite !t1ha1_short by lia; cbn [denotes] in *; fold x y; now rewrite Z, E.
Qed.
Print Assumptions C41_refuted.

(** "abc" under the seed 1 hashes like "xyz" under another one *)
Example C41_case :
  returns (t1ha1_le x86_64_asan 96 3 1 (island 96 [x61; x62; x63]))
  = returns (t1ha1_le x86_64_asan 96 3
      ((1 + (fold_xor 0x636261 P1 + (2 ^ 64 - fold_xor 0x7a7978 P1))) mod 2 ^ 64) (island 96 [x78; x79; x7a])) /\
  returns (t1ha1_le x86_64_asan 96 3 1 (island 96 [x61; x62; x63])) <> None.
Proof. vm_compute. split; [reflexivity|discriminate]. Qed.
