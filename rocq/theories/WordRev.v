(** Reversing the bytes of each word turns the little-endian hashes into the
    big-endian ones. *)
From Coq Require Import ZArith NArith Arith List Bool Lia Strings.Byte.
From Coq Require Import ZifyN ZifyNat ZifyBool.
From Verif Require Import Bytes Spec CSemFacts ReadFacts.
Import ListNotations.
Local Open Scope N_scope.

(** every group of [k] bytes (the last one possibly shorter) reversed *)
Definition rev_groups (k : nat) (l : list byte) : list byte := concat (map (@rev byte) (groups k l)).

Lemma rev_groups_app : forall k b l, k <> 0%nat -> length b = k ->
  rev_groups k (b ++ l) = rev b ++ rev_groups k l.
Proof. intros. unfold rev_groups. rewrite groups_app by assumption. reflexivity. Qed.

Lemma rev_groups_short : forall k l, (2 <= k)%nat -> (length l <= k)%nat -> rev_groups k l = rev l.
Proof.
  intros k l K L. unfold rev_groups. destruct l as [|x l].
  - now rewrite groups_nil.
  - rewrite groups_short by (cbn [length] in *; lia). cbn [map concat]. apply app_nil_r.
Qed.

Lemma rev_groups_length : forall k l, (2 <= k)%nat -> length (rev_groups k l) = length l.
Proof.
  intros k l K. remember (length l) as n eqn:E. revert l E.
  induction n as [n IH] using lt_wf_ind. intros l E.
  destruct (Nat.le_gt_cases (length l) k) as [L|L].
  - rewrite rev_groups_short by assumption. now rewrite rev_length.
  - rewrite <- (firstn_skipn k l). assert (F : length (firstn k l) = k) by (rewrite firstn_length_le; lia).
    rewrite rev_groups_app by lia. rewrite app_length, rev_length, F.
    rewrite (IH (length (skipn k l))); rewrite ?skipn_length; lia.
Qed.

Lemma group_rev : forall k i l, (2 <= k)%nat -> group k i (rev_groups k l) = rev (group k i l).
Proof.
  intros k i l K. revert i. remember (length l) as n eqn:E. revert l E.
  induction n as [n IH] using lt_wf_ind. intros l E i.
  destruct (Nat.le_gt_cases (length l) k) as [L|L].
  - rewrite rev_groups_short by assumption. unfold group. destruct i as [|i].
    + rewrite Nat.mul_0_r. cbn [skipn]. rewrite !firstn_all2; rewrite ?rev_length; auto.
    + rewrite !skipn_all2 by (rewrite ?rev_length; nia). now rewrite firstn_nil.
  - rewrite <- (firstn_skipn k l). assert (F : length (firstn k l) = k) by (rewrite firstn_length_le; lia).
    rewrite rev_groups_app by lia. destruct i as [|i].
    + rewrite !group_0_app; rewrite ?rev_length; auto.
    + rewrite !group_S_app; rewrite ?rev_length; auto.
      apply (IH (length (skipn k l))); rewrite ?skipn_length; lia.
Qed.

(** ** A word of a block or of the remainder is a word of the message *)
Lemma skipn_add : forall (a b : nat) (l : list byte), skipn a (skipn b l) = skipn (b + a) l.
Proof.
  intros a b. revert a. induction b as [|b IH]; intros a l; [reflexivity|].
  destruct l as [|x l]; [now rewrite !skipn_nil|]. cbn [skipn Nat.add]. apply IH.
Qed.
Lemma group_of_group : forall k c i j l, (i < c)%nat ->
  group k i (group (k * c) j l) = group k (c * j + i) l.
Proof.
  intros k c i j l H. unfold group. rewrite skipn_firstn_comm, firstn_firstn.
  rewrite Nat.min_l by nia. rewrite skipn_add. do 2 f_equal. nia.
Qed.
Lemma group_of_rest : forall k c i l, group k i (rest (k * c) l) = group k (c * (length l / (k * c)) + i) l.
Proof. intros k c i l. unfold group, rest. rewrite skipn_add. do 2 f_equal. nia. Qed.

Section Rev.
  Variables (k c : nat).
  Hypothesis K : (2 <= k)%nat.
  Hypothesis C : c <> 0%nat.
  Variables (T : Type) (f : T -> (nat -> N) -> T).
  (** the step looks at the words with index below [c] only *)
  Hypothesis f_ext : forall t w w', (forall i, (i < c)%nat -> w i = w' i) -> f t w = f t w'.
  Definition step (num : list byte -> N) (t : T) (blk : list byte) : T := f t (fun i => num (group k i blk)).

  Lemma fold_rev : forall l t,
    fold_left (step be_num) (blocks (k * c) l) t = fold_left (step le_num) (blocks (k * c) (rev_groups k l)) t.
  Proof.
    intros l. unfold blocks. rewrite rev_groups_length by assumption.
    induction (seq 0 (length l / (k * c))) as [|j js IH]; intro t; [reflexivity|].
    cbn [map fold_left]. rewrite <- IH. f_equal. unfold step. apply f_ext. intros i I.
    rewrite !group_of_group, group_rev by assumption. reflexivity.
  Qed.

  Lemma words_rev : forall l, map be_num (groups k l) = map le_num (groups k (rev_groups k l)).
  Proof.
    intros l. unfold groups. rewrite rev_groups_length by assumption. rewrite !map_map.
    apply map_ext. intro i. now rewrite group_rev.
  Qed.
  Lemma words_rest_rev : forall l,
    map be_num (groups k (rest (k * c) l)) = map le_num (groups k (rest (k * c) (rev_groups k l))).
  Proof.
    intros l. unfold groups. rewrite !map_map.
    rewrite !rest_length by nia. rewrite rev_groups_length by assumption.
    apply map_ext. intro i. rewrite !group_of_rest. now rewrite group_rev, rev_groups_length by assumption.
  Qed.
End Rev.

Lemma mlen_rev_groups : forall k l, (2 <= k)%nat -> mlen (rev_groups k l) = mlen l.
Proof. intros. unfold mlen. now rewrite rev_groups_length. Qed.

Definition absorb1_words (s : st4) (w : nat -> N) : st4 :=
  let q := rotr (add (w 2%nat) (qd s)) 17 in
  let p := rotr (add (w 3%nat) (qc s)) 17 in
  Q (xor (qa s) (mulw P1 (add (xor (w 0%nat) q) (w 3%nat))))
    (xor (qb s) (mulw P0 (add (xor (w 1%nat) p) (w 2%nat))))
    (add (qc s) (xor (qa s) (rotr (w 0%nat) 41)))
    (sub (qd s) (xor (qb s) (rotr (w 1%nat) 31))).
Definition absorb0_words (s : st4) (w : nat -> N) : st4 :=
  let d13 := add_32 (w 1%nat) (rotr_32 (add_32 (w 3%nat) (qd s)) 17) in
  let c02 := xor (w 0%nat) (rotr_32 (add_32 (w 2%nat) (qc s)) 11) in
  Q (mul_32 R0 (xor d13 (w 2%nat)))
    (mul_32 R1 (add_32 c02 (w 3%nat)))
    (xor (qc s) (rotr_32 (add_32 (qb s) (w 1%nat)) 7))
    (xor (qd s) (rotr_32 (add_32 (qa s) (w 0%nat)) 3)).

Lemma t1ha1_rev : forall msg seed, t1ha1_64 be_num msg seed = t1ha1_64 le_num (rev_groups 8 msg) seed.
Proof.
  intros msg seed. unfold t1ha1_64. rewrite mlen_rev_groups by lia.
  rewrite <- words_rev by lia.
  rewrite (words_rest_rev 8 4 ltac:(lia) ltac:(lia) msg : map be_num (groups 8 (rest 32 msg)) = _).
  rewrite (fold_rev 8 4 ltac:(lia) st4 absorb1_words
    ltac:(intros t w w' E; unfold absorb1_words; rewrite !E by lia; reflexivity) msg
    : forall t, fold_left (absorb1 be_num) (blocks 32 msg) t = _).
  reflexivity.
Qed.

Lemma t1ha0_rev : forall msg seed, t1ha0_32 be_num msg seed = t1ha0_32 le_num (rev_groups 4 msg) seed.
Proof.
  intros msg seed. unfold t1ha0_32. rewrite mlen_rev_groups by lia.
  rewrite <- words_rev by lia.
  rewrite (words_rest_rev 4 4 ltac:(lia) ltac:(lia) msg : map be_num (groups 4 (rest 16 msg)) = _).
  rewrite (fold_rev 4 4 ltac:(lia) st4 absorb0_words
    ltac:(intros t w w' E; unfold absorb0_words; rewrite !E by lia; reflexivity) msg
    : forall t, fold_left (absorb0 be_num) (blocks 16 msg) t = _).
  reflexivity.
Qed.
