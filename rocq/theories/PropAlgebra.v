(** Relations between the functions, and collisions. *)
From Coq Require Import ZArith NArith Arith List Bool Lia Strings.Byte.
From Coq Require Import ZifyN ZifyNat ZifyBool.
From Verif Require Import Bytes CSem Bits T1ha2 T1ha1 T1ha0 Aes Ia32aes Spec AesSpec CSemFacts KeyMem CtxMem StreamFacts
  OpsFacts AesFacts Ia32aesFacts T1ha2Facts T1ha1Facts Api ApiFacts OneShot OneShotFacts Demo PropOneShot PropStream
  WordRev Inject Collide Collide31.
Import ListNotations.
Ltac Zify.zify_post_hook ::= Z.div_mod_to_equations.
Local Open Scope N_scope.

(** The two functions return the same number for the key [msg] resp. [msg'],
    in every build in which they are usable and wherever the keys lie. *)
Definition same_result (f : hash_fn) (msg : list byte) (g : hash_fn) (msg' : list byte) (seed : N) : Prop :=
  forall cfg m p cfg' m' p',
    usable f cfg -> room f cfg p (mlen msg) -> key_at cfg m p msg ->
    usable g cfg' -> room g cfg' p' (mlen msg') -> key_at cfg' m' p' msg' ->
    exists v, call f cfg p (mlen msg) seed m = Ok (v, m) /\ call g cfg' p' (mlen msg') seed m' = Ok (v, m').

Lemma same_value : forall f msg g msg' seed, seed < 2 ^ 64 ->
  value f msg seed = value g msg' seed -> same_result f msg g msg' seed.
Proof.
  intros f msg g msg' seed S E cfg m p cfg' m' p' U R K U' R' K'. exists (value f msg seed).
  rewrite !call_ok by assumption. rewrite E. split; reflexivity.
Qed.

(** the same for t1ha2_atonce128 with the second result at [x] resp. [x'] *)
Definition same_result128 (msg msg' : list byte) (seed : N) : Prop :=
  forall cfg m x p cfg' m' x' p',
    whole_words_ok cfg -> key_at cfg m p msg -> mapped m x 8 -> x mod alignment cfg 8 = 0 -> (x + 8 <= p \/ p + mlen msg <= x) ->
    whole_words_ok cfg' -> key_at cfg' m' p' msg' -> mapped m' x' 8 -> x' mod alignment cfg' 8 = 0 ->
    (x' + 8 <= p' \/ p' + mlen msg' <= x') ->
    exists v h, t1ha2_atonce128 cfg x p (mlen msg) seed m = Ok (v, write m x (native cfg 8 h)) /\
                t1ha2_atonce128 cfg' x' p' (mlen msg') seed m' = Ok (v, write m' x' (native cfg' 8 h)).
Lemma same_value128 : forall msg msg' seed, t1ha2_128 msg seed = t1ha2_128 msg' seed -> same_result128 msg msg' seed.
Proof.
  intros msg msg' seed E cfg m x p cfg' m' x' p' W K M A D W' K' M' A' D'.
  exists (fst (t1ha2_128 msg seed)), (snd (t1ha2_128 msg seed)).
  rewrite !t1ha2_atonce128_ok by assumption. rewrite E. split; reflexivity.
Qed.

(** ** C28: the big-endian variant is the little-endian one on the key with
    every word reversed. *)
(** [k]-byte groups reversed one by one; the last may be shorter *)
Fixpoint reverse_words (n k : nat) (l : list byte) : list byte :=
  match n with
  | O => []
  | S n => match l with [] => [] | _ => rev (firstn k l) ++ reverse_words n k (skipn k l) end
  end.
Lemma reverse_words_eq : forall n k l, (2 <= k)%nat -> (length l <= n)%nat -> reverse_words n k l = rev_groups k l.
Proof.
  induction n as [|n IH]; intros k l K L.
  { destruct l; [|cbn in L; lia]. cbn. now rewrite rev_groups_short by (cbn; lia). }
  destruct l as [|b l]; [cbn; now rewrite rev_groups_short by (cbn; lia)|]. cbn [reverse_words].
  destruct (Nat.leb_spec (length (b :: l)) k) as [H|H].
  - rewrite firstn_all2, skipn_all2 by lia. rewrite (rev_groups_short k (b :: l)) by assumption.
    replace (reverse_words n k []) with (@nil byte) by (destruct n; reflexivity). apply app_nil_r.
  - rewrite <- (firstn_skipn k (b :: l)) at 3. rewrite rev_groups_app by (try lia; apply firstn_length_le; lia).
    f_equal. apply IH; [assumption|]. rewrite skipn_length. lia.
Qed.

Theorem C28_t1ha1 : forall msg seed, seed < 2 ^ 64 ->
  same_result Hash1be msg Hash1le (reverse_words (length msg) 8 msg) seed.
Proof.
  intros msg seed S. apply same_value; [exact S|]. rewrite reverse_words_eq by lia. apply t1ha1_rev.
Qed.
Print Assumptions C28_t1ha1.

Theorem C28_t1ha0 : forall msg seed, seed < 2 ^ 64 ->
  same_result Hash0_32be msg Hash0_32le (reverse_words (length msg) 4 msg) seed.
Proof.
  intros msg seed S. apply same_value; [exact S|]. rewrite reverse_words_eq by lia. apply t1ha0_rev.
Qed.
Print Assumptions C28_t1ha0.

Example C28_case :
  let rev4 := reverse_words 11 4 (key 11) in
  nth 0 rev4 x00 = nth 3 (key 11) x00 /\ nth 8 rev4 x00 = nth 10 (key 11) x00 /\ rev4 <> key 11 /\
  returns (t1ha0_32be x86_64 100 11 42 (island 100 (key 11))) = returns (t1ha0_32le x86_64 512 11 42 (sea 512 rev4 xff)) /\
  returns (t1ha0_32be x86_64 100 11 42 (island 100 (key 11))) <> returns (t1ha0_32le x86_64 100 11 42 (island 100 (key 11))).
Proof. vm_compute. repeat split; discriminate. Qed.

(** ** C29: t1ha0_32 loses nothing of the last word. *)
Definition is_32 (f : hash_fn) : Prop := f = Hash0_32le \/ f = Hash0_32be.

(** two keys that differ in the last word only (complete or not) never collide,
    unless that word is the end of a whole 16-byte block of a long key *)
Theorem C29_last_word : forall f cfg m m' p p' l u v seed r,
  is_32 f -> seed < 2 ^ 64 -> key_at cfg m p (l ++ u) -> key_at cfg m' p' (l ++ v) ->
  (length l mod 4 = 0)%nat -> (1 <= length u <= 4)%nat -> length v = length u ->
  (length l + length u <= 16 \/ (length l + length u) mod 16 <> 0)%nat ->
  call f cfg p (mlen (l ++ u)) seed m = Ok (r, m) -> call f cfg p' (mlen (l ++ v)) seed m' = Ok (r, m') ->
  u = v.
Proof.
  intros f cfg m m' p p' l u v seed r F S K K' D U V C E E'.
  assert (G : usable f cfg) by (destruct F as [->| ->]; exact I).
  assert (R1 : forall q n, room f cfg q n) by (destruct F as [->| ->]; exact (fun _ _ => I)).
  rewrite call_ok in E, E' by auto.
  assert (Q : value f (l ++ u) seed = value f (l ++ v) seed) by congruence.
  destruct F as [->| ->]; cbn [value] in Q.
  - now apply (t1ha0_last_word le_num le_num_lt le_num_inj l u v seed).
  - now apply (t1ha0_last_word be_num be_num_lt be_num_inj l u v seed).
Qed.
Print Assumptions C29_last_word.

(** in particular different keys of the same length up to 4 *)
Theorem C29_short : forall f cfg m m' p p' u v seed r,
  is_32 f -> seed < 2 ^ 64 -> key_at cfg m p u -> key_at cfg m' p' v ->
  (length u <= 4)%nat -> length v = length u ->
  call f cfg p (mlen u) seed m = Ok (r, m) -> call f cfg p' (mlen v) seed m' = Ok (r, m') -> u = v.
Proof.
  intros f cfg m m' p p' u v seed r F S K K' U V E E'.
  destruct u as [|b u]; [now destruct v|].
  refine (C29_last_word f cfg m m' p p' [] (b :: u) v seed r F S K K' eq_refl _ V _ E E'); cbn [length] in *; lia.
Qed.
Print Assumptions C29_short.

(** for the empty key different seeds give different results *)
Theorem C29_empty_seeds : forall f cfg p p' m m' s t r,
  is_32 f -> s < 2 ^ 64 -> t < 2 ^ 64 ->
  call f cfg p 0 s m = Ok (r, m) -> call f cfg p' 0 t m' = Ok (r, m') -> s = t.
Proof.
  intros f cfg p p' m m' s t r F S T E E'.
  assert (G : usable f cfg) by (destruct F as [->| ->]; exact I).
  rewrite call_empty in E, E' by assumption.
  assert (Q : value f [] s = value f [] t) by congruence.
  destruct F as [->| ->]; cbn [value] in Q.
  - exact (t1ha0_empty_seed le_num s t S T Q).
  - exact (t1ha0_empty_seed be_num s t S T Q).
Qed.
Print Assumptions C29_empty_seeds.

(** a key of 39 bytes, the last word of which has three *)
Example C29_case :
  let l := key 36 in let u := [x01; x02; x03] in let v := [x01; x02; x04] in
  (length l mod 4 = 0)%nat /\ (1 <= length u <= 4)%nat /\ ((length l + length u) mod 16 <> 0)%nat /\
  key_at mips32_exact (island 97 (l ++ u)) 97 (l ++ u) /\
  returns (t1ha0_32be mips32_exact 97 39 7 (island 97 (l ++ u))) = Some (t1ha0_32 be_num (l ++ u) 7) /\
  returns (t1ha0_32be mips32_exact 97 39 7 (island 97 (l ++ v))) = Some (t1ha0_32 be_num (l ++ v) 7).
Proof.
  cbv zeta. split; [reflexivity|]. split; [cbn; lia|]. split; [discriminate|].
  split; [now apply island_key_at|]. vm_compute. split; reflexivity.
Qed.

(** ** C30: two different blocks with the same effect. *)
(** the size of a block *)
Definition block_of (f : hash_fn) : nat :=
  match f with Hash0_32le | Hash0_32be => 16 | AesNoavx | AesAvx | AesAvx2 => 128 | _ => 32 end.

(** For every seed, every prefix of whole blocks and every suffix there are two
    different blocks that make the function collide. *)
Theorem C30_refuted : forall f pre suf seed,
  In f [Atonce; Hash1le; Hash1be; Hash0_32le; Hash0_32be] -> seed < 2 ^ 64 ->
  (length pre mod block_of f = 0)%nat -> pre ++ suf <> [] ->
  exists b b', length b = block_of f /\ length b' = block_of f /\ b <> b' /\
    same_result f (pre ++ b ++ suf) f (pre ++ b' ++ suf) seed.
Proof.
  intros f pre suf seed F S D N.
  assert (L : forall b b' : list byte, length b = block_of f -> length b' = block_of f ->
    mlen (pre ++ b ++ suf) = mlen (pre ++ b' ++ suf) /\ N.of_nat (block_of f) < mlen (pre ++ b ++ suf)).
  { intros b b' B B'. unfold mlen. rewrite !app_length, B, B'. split; [reflexivity|].
    destruct pre; [destruct suf; [now elim N|]|]; cbn [length]; lia. }
  assert (T1 : forall num enc, (forall w, length (enc w) = 8%nat) -> (forall w, w < 2 ^ 64 -> num (enc w) = w) ->
    exists b b' : list byte, length b = 32%nat /\ length b' = 32%nat /\ b <> b' /\
     (mlen (pre ++ b ++ suf) = mlen (pre ++ b' ++ suf) /\ 32 < mlen (pre ++ b ++ suf) ->
      (length pre mod 32 = 0)%nat ->
      t1ha1_64 num (pre ++ b ++ suf) seed = t1ha1_64 num (pre ++ b' ++ suf) seed)).
  { intros num enc EL NE.
    set (s := fold_left (absorb1 num) (blocks 32 pre)
      (t1ha1_start seed (N.of_nat (length pre + (32 + length suf))))).
    destruct (twins_length num enc EL NE 0 0 (qc s) (qd s)) as [A B].
    exists (twin_a enc 0 0 (qc s) (qd s)), (twin_b enc 0 0 (qc s) (qd s)).
    split; [exact A|]. split; [exact B|]. split; [now apply (twins_differ num enc EL NE)|].
    intros [_ Q] D'. apply (t1ha1_mid pre _ _ suf D' A B); [exact Q|].
    cbv zeta.
    replace (mlen (pre ++ twin_a enc 0 0 (qc s) (qd s) ++ suf)) with (N.of_nat (length pre + (32 + length suf)))
      by (unfold mlen; now rewrite !app_length, A).
    fold s. now apply (absorb1_twins num enc EL NE). }
  assert (T0 : forall num enc, (forall w, length (enc w) = 4%nat) -> (forall w, w < 2 ^ 32 -> num (enc w) = w) ->
    exists b b' : list byte, length b = 16%nat /\ length b' = 16%nat /\ b <> b' /\
     (mlen (pre ++ b ++ suf) = mlen (pre ++ b' ++ suf) /\ 16 < mlen (pre ++ b ++ suf) ->
      (length pre mod 16 = 0)%nat ->
      t1ha0_32 num (pre ++ b ++ suf) seed = t1ha0_32 num (pre ++ b' ++ suf) seed)).
  { intros num enc EL NE.
    set (s := fold_left (absorb0 num) (blocks 16 pre)
      (t1ha0_start (t1ha0_init seed (N.of_nat (length pre + (16 + length suf)))))).
    destruct (twins0_length num enc EL NE (qc s) (qd s)) as [A B].
    exists (twin0_a enc (qc s) (qd s)), (twin0_b enc (qc s) (qd s)).
    split; [exact A|]. split; [exact B|]. split; [now apply (twins0_differ num enc EL NE)|].
    intros [_ Q] D'. apply (t1ha0_mid pre _ _ suf num seed D' A B); [exact Q|].
    cbv zeta.
    replace (mlen (pre ++ twin0_a enc (qc s) (qd s) ++ suf)) with (N.of_nat (length pre + (16 + length suf)))
      by (unfold mlen; now rewrite !app_length, A).
    fold s. now apply (absorb0_twins num enc EL NE). }
  cbn [In] in F. destruct F as [<-|[<-|[<-|[<-|[<-|[]]]]]]; cbn [block_of] in *.
  - set (s := absorb_all (start seed (N.of_nat (length pre + (32 + length suf)))) (blocks 32 pre)).
    destruct (twins_length le_num (le_bytes 8) (le_bytes_length 8) le8 0 0 (qc s) (qd s)) as [A B].
    exists (twin_a (le_bytes 8) 0 0 (qc s) (qd s)), (twin_b (le_bytes 8) 0 0 (qc s) (qd s)).
    split; [exact A|]. split; [exact B|].
    split; [now apply (twins_differ le_num (le_bytes 8) (le_bytes_length 8) le8)|].
    apply same_value; [exact S|]. apply (t1ha2_mid pre _ _ suf D A B); [apply (L _ _ A B)|].
    cbv zeta.
    replace (mlen (pre ++ twin_a (le_bytes 8) 0 0 (qc s) (qd s) ++ suf)) with (N.of_nat (length pre + (32 + length suf)))
      by (unfold mlen; now rewrite !app_length, A).
    fold s. now apply absorb_twins.
  - destruct (T1 le_num (le_bytes 8) (le_bytes_length 8) le8) as (b & b' & B & B' & DF & E).
    exists b, b'. repeat split; try assumption. apply same_value; [exact S|]. apply E; [now apply L|exact D].
  - destruct (T1 be_num (be_bytes 8) (be_bytes_length 8) be8) as (b & b' & B & B' & DF & E).
    exists b, b'. repeat split; try assumption. apply same_value; [exact S|]. apply E; [now apply L|exact D].
  - destruct (T0 le_num (le_bytes 4) (le_bytes_length 4) le4) as (b & b' & B & B' & DF & E).
    exists b, b'. repeat split; try assumption. apply same_value; [exact S|]. apply E; [now apply L|exact D].
  - destruct (T0 be_num (be_bytes 4) (be_bytes_length 4) be4) as (b & b' & B & B' & DF & E).
    exists b, b'. repeat split; try assumption. apply same_value; [exact S|]. apply E; [now apply L|exact D].
Qed.
Print Assumptions C30_refuted.

(** For t1ha2 there are 2^128 such pairs for one seed, prefix and suffix: the
    first two words of the block are free; t1ha2_atonce128 collides with them. *)
Theorem C30_t1ha2_refuted : forall pre suf seed, seed < 2 ^ 64 ->
  (length pre mod 32 = 0)%nat -> pre ++ suf <> [] ->
  exists w2 w3 w2' w3', (w2 <> w2' /\ w2 < 2 ^ 64 /\ w3 < 2 ^ 64 /\ w2' < 2 ^ 64 /\ w3' < 2 ^ 64) /\
    forall w0 w1, w0 < 2 ^ 64 -> w1 < 2 ^ 64 ->
      let b := le_bytes 8 w0 ++ le_bytes 8 w1 ++ le_bytes 8 w2 ++ le_bytes 8 w3 in
      let b' := le_bytes 8 w0 ++ le_bytes 8 w1 ++ le_bytes 8 w2' ++ le_bytes 8 w3' in
      same_result Atonce (pre ++ b ++ suf) Atonce (pre ++ b' ++ suf) seed /\
      same_result128 (pre ++ b ++ suf) (pre ++ b' ++ suf) seed.
Proof.
  intros pre suf seed S D N.
  set (s := absorb_all (start seed (N.of_nat (length pre + (32 + length suf)))) (blocks 32 pre)).
  exists (minus (2 ^ 64 - 1) (qd s)), (minus 0 (qc s)), (minus 0 (qd s)), (minus (2 ^ 64 - 1) (qc s)).
  split; [repeat split; try apply minus_lt; apply minus_neq|].
  intros w0 w1 H0 H1.
  destruct (twins_length le_num (le_bytes 8) (le_bytes_length 8) le8 w0 w1 (qc s) (qd s)) as [A B].
  assert (Q : 32 < mlen (pre ++ twin_a (le_bytes 8) w0 w1 (qc s) (qd s) ++ suf)).
  { unfold mlen. rewrite !app_length, A. destruct pre; [destruct suf; [now elim N|]|]; cbn [length]; lia. }
  destruct (t1ha2_mid pre _ _ suf D A B seed Q) as [E E'].
  { cbv zeta.
    replace (mlen (pre ++ twin_a (le_bytes 8) w0 w1 (qc s) (qd s) ++ suf)) with (N.of_nat (length pre + (32 + length suf)))
      by (unfold mlen; now rewrite !app_length, A).
    fold s. now apply absorb_twins. }
  cbv zeta. split; [now apply same_value|now apply same_value128].
Qed.
Print Assumptions C30_t1ha2_refuted.

(** The streaming functions collide with two such blocks whatever is appended
    and however the two messages are cut into chunks; the blocks do not depend
    on the suffix. *)
Theorem C30_stream_refuted : forall pre x y, x < 2 ^ 64 -> y < 2 ^ 64 -> (length pre mod 32 = 0)%nat ->
  exists b b', length b = 32%nat /\ length b' = 32%nat /\ b <> b' /\
    forall suf cfg c m chunks bits cfg' c' m' chunks' bits',
      ctx_ptr cfg c -> ctx_mapped cfg m c -> Forall (chunk_ok cfg m c) chunks -> final_ready cfg c m bits 0 ->
      ctx_ptr cfg' c' -> ctx_mapped cfg' m' c' -> Forall (chunk_ok cfg' m' c') chunks' ->
      final_ready cfg' c' m' bits' 0 ->
      content chunks = pre ++ b ++ suf -> content chunks' = pre ++ b' ++ suf ->
      exists r n n', stream cfg c x y chunks bits 0 m = Ok (r, n) /\
                     stream cfg' c' x y chunks' bits' 0 m' = Ok (r, n').
Proof.
  intros pre x y X Y D. set (s := absorb_all (start x y) (blocks 32 pre)).
  destruct (twins_length le_num (le_bytes 8) (le_bytes_length 8) le8 0 0 (qc s) (qd s)) as [A B].
  exists (twin_a (le_bytes 8) 0 0 (qc s) (qd s)), (twin_b (le_bytes 8) 0 0 (qc s) (qd s)).
  split; [exact A|]. split; [exact B|].
  split; [now apply (twins_differ le_num (le_bytes 8) (le_bytes_length 8) le8)|].
  intros suf cfg c m chunks bits cfg' c' m' chunks' bits' CP M C R CP' M' C' R' E1 E2.
  destruct (C11_stream64 cfg c CP chunks m x y bits M X Y C R) as (n & F1).
  destruct (C11_stream64 cfg' c' CP' chunks' m' x y bits' M' X Y C' R') as (n' & F2).
  exists (t1ha2_stream64 x y (content chunks)), n, n'. split; [exact F1|]. rewrite F2. do 2 f_equal.
  rewrite E1, E2. symmetry. apply (stream_mid pre _ _ suf D A B). cbv zeta. fold s. now apply absorb_twins.
Qed.
Print Assumptions C30_stream_refuted.

(** What does hold: for a given pair of registers mixup64 takes a word in
    without loss. *)
Theorem C30_mixup64 : forall cfg a b v w prime, N.odd prime = true -> prime < 2 ^ 64 ->
  v < 2 ^ 64 -> w < 2 ^ 64 ->
  fst (mixup64 cfg a b v prime) = fst (mixup64 cfg a b w prime) -> v = w.
Proof.
  intros cfg a b v w prime O P V W E. rewrite !mixup64_eq in E by exact P.
  destruct (odd_inverse prime O) as [q Q]. exact (mix_fst_inj prime q v w a b Q V W E).
Qed.
Print Assumptions C30_mixup64.
Theorem C30_mixup32 : forall a b v w prime, N.odd prime = true -> prime < 2 ^ 32 ->
  v < 2 ^ 32 -> w < 2 ^ 32 ->
  fst (mixup32 a b v prime) = fst (mixup32 a b w prime) -> v = w.
Proof.
  intros a b v w prime O P V W E. rewrite !mixup32_eq in E by exact P.
  destruct (odd_inverse prime O) as [q Q].
  apply (mix_32_fst_inj prime q v w a b); try assumption.
  change (2 ^ 64) with (2 ^ 32 * 2 ^ 32) in Q.
  assert (Z : (prime * q) mod (2 ^ 32 * 2 ^ 32) mod 2 ^ 32 = 1) by now rewrite Q.
  rewrite N.mod_mul_r, N.add_mod_idemp_l in Z by discriminate.
  rewrite (N.mul_comm (2 ^ 32)), N.mod_add in Z by discriminate. exact Z.
Qed.
Print Assumptions C30_mixup32.

(** Seed 5, prefix of one block, suffix of three bytes: the two keys, and the model run on them. *)
Definition C30_b (a : bool) : list byte :=
  let s := absorb_all (start 5 67) (blocks 32 (key 32)) in
  (if a then twin_a else twin_b) (le_bytes 8) 11 22 (qc s) (qd s).
Example C30_case :
  let k a := key 32 ++ C30_b a ++ [x61; x62; x63] in
  k true <> k false /\
  returns (t1ha2_atonce x86_64 96 67 5 (island 96 (k true))) = returns (t1ha2_atonce x86_64 96 67 5 (island 96 (k false))) /\
  returns (t1ha2_atonce x86_64 96 67 6 (island 96 (k true))) <> returns (t1ha2_atonce x86_64 96 67 6 (island 96 (k false))).
Proof. vm_compute. repeat split; discriminate. Qed.

(** ** C31: a fixed pair of keys that collides for over a fifth of all seeds. *)
Theorem C31_refuted :
  exists msg msg' : list byte, msg <> msg' /\ length msg = 40%nat /\ length msg' = 40%nat /\
  exists (seeds : N -> N) (n : N),
    2 ^ 64 < 5 * n /\
    (forall i, i < n -> seeds i < 2 ^ 64) /\
    (forall i j, i < n -> j < n -> seeds i = seeds j -> i = j) /\
    forall i, i < n -> same_result Atonce msg Atonce msg' (seeds i) /\ same_result128 msg msg' (seeds i).
Proof.
  exists (pair_a ++ repeat x00 8), (pair_b ++ repeat x00 8).
  split; [intro E; now apply app_inv_tail, pair_differ in E|]. split; [reflexivity|]. split; [reflexivity|].
  exists weak_seed, weak_seeds. split; [exact weak_seeds_many|]. split; [exact weak_seed_lt|].
  split; [exact weak_seed_inj|]. intros i H.
  destruct (weak_pair (repeat x00 8) i eq_refl H) as [E E'].
  split; [apply same_value; [now apply weak_seed_lt|exact E]|now apply same_value128].
Qed.
Print Assumptions C31_refuted.

(** the two keys run for one of these seeds and for another seed *)
Example C31_case :
  let a := pair_a ++ repeat x00 8 in let b := pair_b ++ repeat x00 8 in
  weak_seed 123456789012345678 = 15184010581362873460 /\
  returns (t1ha2_atonce x86_64 96 40 15184010581362873460 (island 96 a))
  = returns (t1ha2_atonce x86_64 96 40 15184010581362873460 (island 96 b)) /\
  returns (t1ha2_atonce x86_64 96 40 0 (island 96 a)) <> returns (t1ha2_atonce x86_64 96 40 0 (island 96 b)).
Proof. vm_compute. repeat split; discriminate. Qed.

(** ** C32: keys that collide for all seeds under t1ha1. *)
Theorem C32_refuted : forall f, f = Hash1le \/ f = Hash1be ->
  exists msg msg' : list byte, msg <> msg' /\ length msg = 8%nat /\ length msg' = 8%nat /\
  forall seed, seed < 2 ^ 64 -> same_result f msg f msg' seed.
Proof.
  intros f [->| ->].
  - exists (le_bytes 8 eq_a), (le_bytes 8 eq_b). split; [vm_compute; discriminate|]. split; [reflexivity|].
    split; [reflexivity|]. intros seed S. apply same_value; [exact S|]. apply t1ha1_pair.
  - exists (be_bytes 8 eq_a), (be_bytes 8 eq_b). split; [vm_compute; discriminate|]. split; [reflexivity|].
    split; [reflexivity|]. intros seed S. apply same_value; [exact S|]. apply t1ha1_pair.
Qed.
Print Assumptions C32_refuted.
Example C32_case :
  returns (t1ha1_le x86_64 96 8 0xfedcba9876543210 (island 96 (le_bytes 8 eq_a)))
  = returns (t1ha1_le x86_64 96 8 0xfedcba9876543210 (island 96 (le_bytes 8 eq_b))) /\
  returns (t1ha1_be x86_64 96 8 17 (island 96 (be_bytes 8 eq_a)))
  = returns (t1ha1_be x86_64 96 8 17 (island 96 (be_bytes 8 eq_b))) /\
  returns (t1ha1_be x86_64 96 8 17 (island 96 (be_bytes 8 eq_a))) <> None.
Proof. vm_compute. repeat split; discriminate. Qed.

(** ** C37: under t1ha0_ia32aes_noavx and _avx every key with a whole block
    collides for all seeds with 2^128 - 1 other keys. *)
(** the 16 bytes of the number [i] *)
Definition vector (i : N) : word128 := (i mod 2 ^ 64, i / 2 ^ 64).
Lemma vector_ok2 : forall i, i < 2 ^ 128 -> ok2 (vector i).
Proof.
  intros i H. unfold vector. split; cbn [fst snd]; [apply N.mod_lt; discriminate|].
  apply N.div_lt_upper_bound; [discriminate|]. exact H.
Qed.
Lemma vector_inj : forall i j, vector i = vector j -> i = j.
Proof.
  intros i j E. pose proof (f_equal fst E) as E1. pose proof (f_equal snd E) as E2. unfold vector in E1, E2.
  cbn [fst snd] in E1, E2.
  rewrite (N.div_mod i (2 ^ 64)), (N.div_mod j (2 ^ 64)), E1, E2 by discriminate. reflexivity.
Qed.
Theorem C37_refuted : forall f pre b suf, f = AesNoavx \/ f = AesAvx ->
  (length pre mod 128 = 0)%nat -> length b = 128%nat ->
  exists others : N -> list byte,
    (forall i, i < 2 ^ 128 -> length (others i) = 128%nat) /\
    (forall i j, i < 2 ^ 128 -> j < 2 ^ 128 -> others i = others j -> i = j) /\
    forall i seed, i < 2 ^ 128 -> seed < 2 ^ 64 ->
      same_result f (pre ++ b ++ suf) f (pre ++ others i ++ suf) seed.
Proof.
  intros f pre b suf F D B. exists (fun i => partner b (vector i)). split; [|split].
  - intros i _. apply partner_length.
  - intros i j I J E. apply partner_inj in E; auto using vector_ok2. now apply vector_inj.
  - intros i seed I S. apply same_value; [exact S|].
    assert (E : t1ha0_aes_a (pre ++ b ++ suf) seed = t1ha0_aes_a (pre ++ partner b (vector i) ++ suf) seed).
    { apply t1ha0_aes_a_mid; auto using partner_length. apply partner_absorb; auto using vector_ok2. }
    destruct F as [->| ->]; exact E.
Qed.
Print Assumptions C37_refuted.

Example C37_case :
  let a := key 131 in let b := partner (firstn 128 (key 131)) (vector 77) ++ skipn 128 (key 131) in
  a <> b /\
  returns (t1ha0_ia32aes_noavx x86_64 96 131 0x123456789 (island 96 a))
  = returns (t1ha0_ia32aes_noavx x86_64 96 131 0x123456789 (island 96 b)) /\
  returns (t1ha0_ia32aes_avx x86_64 96 131 0 (island 96 a))
  = returns (t1ha0_ia32aes_avx x86_64 96 131 0 (island 96 b)) /\
  returns (t1ha0_ia32aes_noavx x86_64 96 131 0 (island 96 a)) <> None.
Proof. vm_compute. repeat split; discriminate. Qed.
