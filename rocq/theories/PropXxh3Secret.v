(** C73, C75: what is known of the secrets that XXH3_generateSecret makes. *)
From Coq Require Import ZArith NArith Arith List Bool Lia Strings.Byte.
From Coq Require Import ZifyN ZifyNat ZifyBool.
From Verif Require Import Bytes CSem Bits Spec NBits CSemFacts OpsFacts FetchFacts KeyMem CtxMem StreamFacts SelfcheckSpec Shipped Onto Demo Ia32aes Ia32aesFacts
  HighwayCat Xxhash XxhashSpec XxhashFacts XxhashStream PropXxhash Xxh3 Xxh3Spec Xxh3Facts Xxh3Secret Xxh3Stream Xxh3Utils PropXxhash2 PropXxh3 PropXxh3Inject PropXxh3Collide
  PropXxh3Utils PropXxh3Generate.
Import ListNotations.
Ltac Zify.zify_post_hook ::= Z.div_mod_to_equations.
Local Open Scope N_scope.

(** ** Seeds that are told apart *)
Lemma canonical_inj : forall a b, sized a -> sized b -> canonical a = canonical b -> a = b.
Proof.
  intros a b A B E. unfold canonical in E. apply (f_equal (@rev byte)) in E. rewrite !rev_involutive in E. apply (f_equal le_num) in E.
  rewrite !le_num_le_bytes in E. destruct a as [a1 a2], b as [b1 b2]. destruct A as [A1' A2'], B as [B1' B2']. unfold number in E. cbn [fst snd] in *.
  change (256 ^ N.of_nat 16) with (2 ^ 64 * 2 ^ 64) in E. change (2 ^ 64) with 18446744073709551616 in *. rewrite !N.mod_small in E by lia. f_equal; lia.
Qed.
Lemma generated_first : forall s t, s <> [] -> t <> [] -> generated s = generated t -> xxh3_128_seed 0 s = xxh3_128_seed 0 t.
Proof.
  intros [|x s] [|y t] S T E; [congruence..|]. unfold generated in E. apply halves_inj in E; [|unfold first_part; now rewrite !canonical_length].
  unfold xxh3_128_seed. apply proj1 in E. unfold first_part, xxh3_128_seed in E. revert E. apply canonical_inj; apply sized_128.
Qed.
(** No two seeds of 1 to 3 bytes give the same secret, nor do two of the same length up to
    16 bytes. *)
Theorem C73_seeds : forall s t, (1 <= mlen s <= 3 /\ 1 <= mlen t <= 3) \/ (mlen s = mlen t /\ 4 <= mlen s <= 16) ->
  generated s = generated t -> s = t.
Proof.
  intros s t L E. assert (S : s <> []) by (intros ->; cbn in L; lia). assert (T : t <> []) by (intros ->; cbn in L; lia).
  apply generated_first in E; try assumption. unfold xxh3_128_seed in E. destruct L as [[L1 L2]|[L1 L2]].
  - now apply (C70_tiny default_secret (custom_secret 0) 0).
  - now apply (proj2 (C70_same_length default_secret (custom_secret 0) 0 s t L1)).
Qed.
Print Assumptions C73_seeds.

(** ** Seeds that are not *)
Lemma cycle_prefix : forall a b, 96 <= mlen a -> cycle (a ++ b) = firstn 96 a.
Proof.
  intros a b L. unfold cycle, mlen in *. assert (A : (96 <= length a)%nat) by lia. clear L.
  transitivity (map (fun i => nth i a x00) (seq 0 96)).
  - apply map_ext_in. intros i I. apply in_seq in I. rewrite app_length, Nat.mod_small by lia. apply app_nth1. lia.
  - pose proof (firstn_skipn 96 a) as EA. assert (F : length (firstn 96 a) = 96%nat) by (rewrite firstn_length; lia).
    set (h := firstn 96 a) in *. set (r := skipn 96 a) in *. clearbody h r. subst a. transitivity (map (fun i => nth i h x00) (seq 0 96)).
    + apply map_ext_in. intros i I. apply in_seq in I. apply app_nth1. lia.
    + rewrite <- F. clear. induction h as [|x h IH]; [reflexivity|]. cbn [length seq map]. f_equal. rewrite <- seq_shift, map_map. exact IH.
Qed.
(** 2^32 seeds, of any length over 240 bytes, with the same secret. *)
Theorem C73_collide : forall j pre mid rest x y x' y', mlen pre = 64 * j -> 2 <= j -> j mod 16 <> 15 -> mlen mid = 56 -> 64 <= mlen rest ->
  x < 2 ^ 32 -> y < 2 ^ 32 -> x' < 2 ^ 32 -> y' < 2 ^ 32 -> (x + y) mod 2 ^ 32 = (x' + y') mod 2 ^ 32 ->
  let s := far_msg default_secret pre mid rest x y in
  let t := far_msg default_secret pre mid rest x' y' in
  generated s = generated t /\ (s = t -> x = x').
Proof.
  intros j pre mid rest x y x' y' LP J JJ LM LR X Y X' Y' E s t.
  assert (C0 : custom_secret 0 = default_secret) by (vm_compute; reflexivity).
  assert (PD : period default_secret = 16) by reflexivity.
  assert (LT : 168 < mlen pre + mlen rest) by (clear - LP LR J; lia).
  assert (PJ : (j + 1) mod period default_secret <> 0) by (rewrite PD; clear - JJ; lia).
  destruct (C71_anywhere default_secret default_secret 0 j pre mid rest x y x' y' LP LM LR LT ltac:(discriminate) PJ X Y X' Y' E) as (Q & _ & H).
  fold s t in Q, H. split; [|exact Q].
  assert (F : first_part s = first_part t) by (unfold first_part, xxh3_128_seed; rewrite C0, H; reflexivity).
  assert (P96 : 96 <= mlen pre) by (clear - LP J; lia).
  assert (CY : cycle s = cycle t) by (unfold s, t, far_msg; cbv zeta; rewrite !cycle_prefix by exact P96; reflexivity).
  assert (NE : forall x y, far_msg default_secret pre mid rest x y <> []).
  { intros u v Z. unfold far_msg in Z. cbv zeta in Z. apply app_eq_nil in Z. destruct Z as [-> _]. now apply P96. }
  unfold generated. destruct s as [|s0 s1] eqn:ES; [now apply NE in ES|]. destruct t as [|t0 t1] eqn:ET; [now apply NE in ET|].
  rewrite F. f_equal. assert (PT : forall k, part (s0 :: s1) k = part (t0 :: t1) k) by (intro k; unfold part; rewrite CY, F; reflexivity).
  clear - PT. generalize (seq 1 11). intro l. induction l as [|k l IH]; [reflexivity|]. cbn [flat_map]. now rewrite PT, IH.
Qed.
Print Assumptions C73_collide.
Example C73_collide_case : let s := far_msg default_secret (Demo.key 128) (Demo.key 56) (Demo.key 64) 0 5 in
  let t := far_msg default_secret (Demo.key 128) (Demo.key 56) (Demo.key 64) 3 2 in
  mlen s = 264 /\ s <> t /\ generated s = generated t.
Proof.
  intros s t. destruct (C73_collide 2 (Demo.key 128) (Demo.key 56) (Demo.key 64) 0 5 3 2 eq_refl ltac:(discriminate) ltac:(discriminate) eq_refl ltac:(discriminate)
    eq_refl eq_refl eq_refl eq_refl eq_refl) as [E N].
  split; [reflexivity|]. split; [|exact E]. intro Q. apply N in Q. discriminate Q.
Qed.

(** ** A structured secret *)
(** The number of a segment is added to the word of the seed, so the words can be chosen to
    make all the sums the same. *)
Definition flat_seed (h : list byte) (c : N) : list byte := h ++ flat_map (fun k => le_bytes 8 (sub c k)) (map N.of_nat (seq 1 11)).
Lemma flat_length : forall h c, mlen h = 8 -> mlen (flat_seed h c) = 96.
Proof. intros h c H. unfold flat_seed. rewrite mlen_app, H. cbn [seq map flat_map]. rewrite !mlen_app, !mlen_le. reflexivity. Qed.
Lemma words_before : forall c a n, mlen (flat_map (fun k => le_bytes 8 (sub c k)) (map N.of_nat (seq a n))) = 8 * N.of_nat n.
Proof. intros c a n. revert a. induction n as [|n IH]; intro a; [reflexivity|]. cbn [seq map flat_map]. rewrite mlen_app, mlen_le, IH. lia. Qed.
Lemma flat_word : forall h c k, mlen h = 8 -> (1 <= k <= 11)%nat -> w8 (flat_seed h c) (8 * N.of_nat k) = sub c (N.of_nat k).
Proof.
  intros h c k H K. unfold flat_seed. replace 11%nat with ((k - 1) + (1 + (11 - k)))%nat by lia. rewrite !seq_app, !map_app, !flat_map_app.
  replace (1 + (k - 1))%nat with k by lia. rewrite app_assoc. change (seq k 1) with [k]. cbn [map flat_map]. rewrite app_nil_r.
  apply w8_num; [apply sub_lt64|]. rewrite mlen_app, words_before. lia.
Qed.
Lemma sub_add : forall c k, c < 2 ^ 64 -> k < 2 ^ 64 -> add (sub c k) k = c.
Proof.
  intros c k C K. unfold add, sub. rewrite N.add_mod_idemp_l by discriminate. rewrite (N.mod_small k) by exact K.
  change (2 ^ 64) with 18446744073709551616 in *. lia.
Qed.
(** For every choice of eight bytes and of a word this is a seed of 96 bytes whose secret is
    sixteen bytes and then eleven times the same sixteen bytes. *)
Theorem C75_flat : forall h c, mlen h = 8 -> c < 2 ^ 64 -> let s := flat_seed h c in mlen s = 96 /\
  exists a q, mlen a = 16 /\ mlen q = 16 /\ generated s = a ++ concat (repeat q 11).
Proof.
  intros h c H C s. unfold s. clear s. pose proof (flat_length h c H) as L. split; [exact L|].
  exists (first_part (flat_seed h c)), (canonical (xxh3_128_seed c (first_part (flat_seed h c)))).
  split; [apply first_length|]. split; [unfold mlen; now rewrite canonical_length|].
  assert (PT : forall k, (1 <= k <= 11)%nat -> part (flat_seed h c) k = canonical (xxh3_128_seed c (first_part (flat_seed h c)))).
  { intros k K. unfold part. assert (CY : cycle (flat_seed h c) = flat_seed h c).
    { pose proof (cycle_prefix (flat_seed h c) [] ltac:(rewrite L; discriminate)) as P. rewrite app_nil_r in P. rewrite P. apply firstn_all2. unfold mlen in L. lia. }
    rewrite CY, flat_word by assumption. rewrite sub_add; [reflexivity|exact C|]. change (2 ^ 64) with 18446744073709551616. lia. }
  unfold generated. destruct (flat_seed h c) as [|x s] eqn:ES; [discriminate L|]. rewrite <- ES in *. clear ES x s. f_equal.
  cbn [seq flat_map]. rewrite !PT by lia. reflexivity.
Qed.
Print Assumptions C75_flat.

(** ** What a structured secret does *)
Lemma stripe_comm : forall sec i i' l j l' j' v, stripe_3 sec i l j (stripe_3 sec i' l' j' v) = stripe_3 sec i' l' j' (stripe_3 sec i l j v).
Proof.
  intros. unfold stripe_3 at 1 3. apply each_ext. intros k K. unfold stripe_3. rewrite !lane_of by exact K. rewrite !add_all. f_equal. ring.
Qed.
Lemma stripe_window : forall sec i i' l j v, (forall k, k < 8 -> w8 sec (i + 8 * k) = w8 sec (i' + 8 * k)) -> stripe_3 sec i l j v = stripe_3 sec i' l j v.
Proof. intros sec i i' l j v H. unfold stripe_3. apply each_ext. intros k K. now rewrite H. Qed.
(** Where the secret repeats after sixteen bytes, a stripe and the one after the next can be
    exchanged. *)
Theorem C75_swap : forall sec lsec seed j pre a b c rest, mlen pre = 64 * j -> mlen a = 64 -> mlen b = 64 -> mlen c = 64 -> 64 <= mlen rest ->
  136 <= mlen lsec -> let r := j mod period lsec in r + 2 < period lsec ->
  (forall k, k < 8 -> w8 lsec (8 * r + 8 * k) = w8 lsec (8 * r + 8 * k + 16)) ->
  xxh3_64 sec lsec seed (pre ++ a ++ b ++ c ++ rest) = xxh3_64 sec lsec seed (pre ++ c ++ b ++ a ++ rest) /\
  xxh3_128 sec lsec seed (pre ++ a ++ b ++ c ++ rest) = xxh3_128 sec lsec seed (pre ++ c ++ b ++ a ++ rest).
Proof.
  intros sec lsec seed j pre a b c rest LP LA LB LC LR LS r R W.
  assert (LEN : forall a c, mlen a = 64 -> mlen c = 64 -> mlen (pre ++ a ++ b ++ c ++ rest) = 64 * j + 192 + mlen rest).
  { intros x y X Y. rewrite !mlen_app, LP, LB, X, Y. clear. lia. }
  assert (V : long_3 lsec (pre ++ a ++ b ++ c ++ rest) = long_3 lsec (pre ++ c ++ b ++ a ++ rest)).
  { unfold long_3. rewrite !LEN by assumption.
    assert (T : forall x y s v i, mlen x = 64 -> mlen y = 64 -> i + 64 <= mlen rest -> stripe_3 lsec s (pre ++ x ++ b ++ y ++ rest) (64 * j + 192 + i) v = stripe_3 lsec s rest i v).
    { intros x y s v i X Y I. pose proof (stripe_mid lsec s (pre ++ x ++ b ++ y) rest [] i v I) as Q. rewrite app_nil_r, <- !app_assoc in Q.
      rewrite <- Q. f_equal. rewrite !mlen_app, LP, LB, X, Y. clear. lia. }
    replace (64 * j + 192 + mlen rest - 64) with (64 * j + 192 + (mlen rest - 64)) by (clear - LR; lia). rewrite !T by (try assumption; clear - LR; lia). f_equal.
    unfold stripes_3. replace ((64 * j + 192 + mlen rest - 1) / 64) with (j + 3 + (mlen rest - 1) / 64).
    2:{ replace (64 * j + 192 + mlen rest - 1) with (mlen rest - 1 + (j + 3) * 64) by (clear - LR; lia). rewrite N.div_add by discriminate. apply N.add_comm. }
    rewrite !below_add, !fold_left_app. fold (stripes_3 lsec (pre ++ a ++ b ++ c ++ rest) j) (stripes_3 lsec (pre ++ c ++ b ++ a ++ rest) j).
    rewrite !stripes_app by (rewrite LP; apply N.le_refl). set (v0 := stripes_3 lsec pre j). clearbody v0.
    change (below_n 3) with [0; 1; 2]. cbn [map fold_left]. rewrite N.add_0_r.
    assert (S : forall x y, mlen x = 64 -> mlen y = 64 -> let l := pre ++ x ++ b ++ y ++ rest in forall s v,
      stripe_3 lsec s l (64 * j) v = stripe_3 lsec s x 0 v /\ stripe_3 lsec s l (64 * (j + 1)) v = stripe_3 lsec s b 0 v /\ stripe_3 lsec s l (64 * (j + 2)) v = stripe_3 lsec s y 0 v).
    { intros x y X Y l s v. unfold l. split; [|split].
      - rewrite <- (stripe_mid lsec s pre x (b ++ y ++ rest)) by (rewrite X; discriminate). f_equal. rewrite LP. clear. lia.
      - rewrite <- (stripe_mid lsec s (pre ++ x) b (y ++ rest)) by (rewrite LB; discriminate). rewrite <- !app_assoc. f_equal. rewrite mlen_app, LP, X. clear. lia.
      - rewrite <- (stripe_mid lsec s (pre ++ x ++ b) y rest) by (rewrite Y; discriminate). rewrite <- !app_assoc. f_equal. rewrite !mlen_app, LP, X, LB. clear. lia. }
    pose proof (S a c LA LC) as SA. pose proof (S c a LC LA) as SC. clear S. cbv zeta in SA, SC.
    assert (P0 : period lsec <> 0) by (clear - R; lia).
    assert (N1 : (j + 1) mod period lsec = r + 1) by (apply mod_next; [reflexivity|clear - R; lia]).
    assert (N2 : (j + 2) mod period lsec = r + 2) by (apply mod_next; [reflexivity|exact R]).
    replace (fold_left (step_3 lsec (pre ++ c ++ b ++ a ++ rest))) with (fold_left (step_3 lsec (pre ++ c ++ b ++ a ++ rest))) by reflexivity.
    assert (H3 : step_3 lsec (pre ++ a ++ b ++ c ++ rest) (step_3 lsec (pre ++ a ++ b ++ c ++ rest) (step_3 lsec (pre ++ a ++ b ++ c ++ rest) v0 j) (j + 1)) (j + 2) =
      step_3 lsec (pre ++ c ++ b ++ a ++ rest) (step_3 lsec (pre ++ c ++ b ++ a ++ rest) (step_3 lsec (pre ++ c ++ b ++ a ++ rest) v0 j) (j + 1)) (j + 2)).
    { unfold step_3. cbv zeta. replace (j + 1 + 1) with (j + 2) by (clear; lia). rewrite N1, N2. fold r.
      replace (r + 1 =? 0) with false by (clear; lia). replace (r + 2 =? 0) with false by (clear; lia). cbv iota.
      match goal with |- (if _ then scramble _ _ ?u else _) = (if _ then scramble _ _ ?w else _) => assert (G : u = w); [|now rewrite G] end.
      repeat match goal with |- context [stripe_3 lsec ?s (pre ++ a ++ b ++ c ++ rest) (64 * j) ?v] => rewrite (proj1 (SA s v)) end.
      repeat match goal with |- context [stripe_3 lsec ?s (pre ++ a ++ b ++ c ++ rest) (64 * (j + 1)) ?v] => rewrite (proj1 (proj2 (SA s v))) end.
      repeat match goal with |- context [stripe_3 lsec ?s (pre ++ a ++ b ++ c ++ rest) (64 * (j + 2)) ?v] => rewrite (proj2 (proj2 (SA s v))) end.
      repeat match goal with |- context [stripe_3 lsec ?s (pre ++ c ++ b ++ a ++ rest) (64 * j) ?v] => rewrite (proj1 (SC s v)) end.
      repeat match goal with |- context [stripe_3 lsec ?s (pre ++ c ++ b ++ a ++ rest) (64 * (j + 1)) ?v] => rewrite (proj1 (proj2 (SC s v))) end.
      repeat match goal with |- context [stripe_3 lsec ?s (pre ++ c ++ b ++ a ++ rest) (64 * (j + 2)) ?v] => rewrite (proj2 (proj2 (SC s v))) end.
      assert (WW : forall l v, stripe_3 lsec (8 * (r + 2)) l 0 v = stripe_3 lsec (8 * r) l 0 v).
      { intros l v. apply stripe_window. intros k K. rewrite (W k K). f_equal. clear. lia. }
      rewrite !WW. rewrite (stripe_comm lsec (8 * r) _ c), (stripe_comm lsec (8 * r) _ c), (stripe_comm lsec (8 * (r + 1))). reflexivity. }
    rewrite H3. apply fold_same. intros v i IN. apply in_map_iff in IN. destruct IN as (i0 & <- & IN). apply in_below in IN. unfold step_3.
    replace (64 * (j + 3 + i0)) with (64 * j + 192 + 64 * i0) by (clear; lia). rewrite !T by (try assumption; clear - IN; lia). reflexivity. }
  unfold xxh3_64, xxh3_128. cbv zeta. rewrite !LEN, V by assumption.
  assert (G : 240 < 64 * j + 192 + mlen rest) by (clear - LR; lia).
  replace (64 * j + 192 + mlen rest <=? 16) with false by (clear - G; lia). replace (64 * j + 192 + mlen rest <=? 128) with false by (clear - G; lia).
  replace (64 * j + 192 + mlen rest <=? 240) with false by (clear - G; lia). split; reflexivity.
Qed.
Print Assumptions C75_swap.

Lemma repeats : forall a q i, mlen a = 16 -> mlen q = 16 -> 16 <= i -> i + 24 <= 192 -> i mod 8 = 0 ->
  w8 (a ++ concat (repeat q 11)) i = w8 (a ++ concat (repeat q 11)) (i + 16).
Proof.
  intros a q i A Q I J D. set (k := N.to_nat ((i - 16) / 16)). set (o := (i - 16) mod 16).
  assert (O : o = 0 \/ o = 8) by (unfold o; lia). assert (IK : i = 16 + 16 * N.of_nat k + o) by (unfold k, o; clear - I; lia).
  assert (K : (k <= 9)%nat) by (clear - IK J O; lia). clearbody k o.
  assert (W : forall n, (n <= 10)%nat -> w8 (a ++ concat (repeat q 11)) (16 + 16 * N.of_nat n + o) = w8 q o).
  { intros n N. replace 11%nat with (n + (1 + (10 - n)))%nat by lia. rewrite !repeat_app, !concat_app. change (concat (repeat q 1)) with (q ++ []). rewrite app_nil_r, app_assoc.
    replace (16 + 16 * N.of_nat n + o) with (mlen (a ++ concat (repeat q n)) + o).
    - apply w8_mid. rewrite Q. clear - O. lia.
    - rewrite mlen_app, A. replace (mlen (concat (repeat q n))) with (16 * N.of_nat n); [reflexivity|]. clear - Q. induction n as [|n IH]; [reflexivity|].
      cbn [repeat concat]. rewrite mlen_app, <- IH, Q. lia. }
  replace (i + 16) with (16 + 16 * N.of_nat (S k) + o) by (clear - IK; lia). rewrite W by lia. rewrite IK. apply W. lia.
Qed.
(** With such a secret stripes can be exchanged nearly anywhere in a message. *)
Theorem C75_seeded_swap : forall h c, mlen h = 8 -> c < 2 ^ 64 -> let s := flat_seed h c in
  mlen s = 96 /\ forall j pre a b d rest, mlen pre = 64 * j -> mlen a = 64 -> mlen b = 64 -> mlen d = 64 -> 64 <= mlen rest -> 2 <= j mod 16 <= 13 ->
    xxh3_64_secret (generated s) (pre ++ a ++ b ++ d ++ rest) = xxh3_64_secret (generated s) (pre ++ d ++ b ++ a ++ rest) /\
    xxh3_128_secret (generated s) (pre ++ a ++ b ++ d ++ rest) = xxh3_128_secret (generated s) (pre ++ d ++ b ++ a ++ rest).
Proof.
  intros h c H C s. destruct (C75_flat h c H C) as (S1 & u & q & U & Q & G). fold s in S1, G. split; [exact S1|].
  intros j pre a b d rest LP LA LB LD LR J. pose proof (generated_length s) as GL.
  assert (PG : period (generated s) = 16) by (unfold period; rewrite GL; reflexivity).
  unfold xxh3_64_secret, xxh3_128_secret. apply (C75_swap (generated s) (generated s) 0 j); try assumption; rewrite ?GL, ?PG; try discriminate; [clear - J; lia|].
  intros k K. rewrite G. apply repeats; try assumption; try (clear - J K; lia).
Qed.
Print Assumptions C75_seeded_swap.
Example C75_case : let s := flat_seed (Demo.key 8) 77 in let pre := Demo.key 128 in let a := Demo.key 64 in let b := repeat x00 64 in let c := repeat xff 64 in
  pre ++ a ++ b ++ c ++ Demo.key 70 <> pre ++ c ++ b ++ a ++ Demo.key 70 /\
  xxh3_128_secret (generated s) (pre ++ a ++ b ++ c ++ Demo.key 70) = xxh3_128_secret (generated s) (pre ++ c ++ b ++ a ++ Demo.key 70).
Proof.
  cbv zeta. split; [intro E; apply app_inv_head in E; discriminate E|].
  pose proof (C75_seeded_swap (Demo.key 8) 77 eq_refl eq_refl) as T. cbv zeta in T. apply proj2 in T.
  specialize (T 2 (Demo.key 128) (Demo.key 64) (repeat x00 64) (repeat xff 64) (Demo.key 70)).
  assert (A1 : mlen (Demo.key 128) = 64 * 2) by reflexivity. assert (A2 : mlen (Demo.key 64) = 64) by reflexivity.
  assert (A3 : mlen (repeat x00 64) = 64) by reflexivity. assert (A4 : mlen (repeat xff 64) = 64) by reflexivity.
  assert (A5 : 64 <= mlen (Demo.key 70)) by discriminate. assert (A6 : 2 <= 2 mod 16 <= 13) by (split; discriminate).
  specialize (T A1 A2 A3 A4 A5 A6). exact (proj2 T).
Qed.
