(** The interface between the memory level and the hash bodies: which words a
    pair of functions (fetch, tail) reads from a message, and the common shape
    of the block loops and of the fall-through switches. *)
From Coq Require Import ZArith NArith Arith List Bool Lia Strings.Byte.
From Coq Require Import ZifyN ZifyNat ZifyBool.
From Verif Require Import Bytes CSem Bits T1ha2 T1ha0 Spec NBits CSemFacts OpsFacts FetchFacts TailFacts.
Import ListNotations.
Ltac Zify.zify_post_hook ::= Z.div_mod_to_equations.
Local Open Scope N_scope.

  Lemma group_app_l : forall k i b r, (k * i + k <= length b)%nat ->
    group k i (b ++ r) = group k i b.
  Proof.
    intros k i b r H. unfold group. rewrite skipn_app, firstn_app.
    rewrite skipn_length. replace (k - (length b - k * i))%nat with 0%nat by lia.
    cbn [firstn]. now rewrite app_nil_r.
  Qed.
  Lemma group_app_r : forall k i j b r, length b = (k * j)%nat ->
    group k (j + i) (b ++ r) = group k i r.
  Proof.
    intros k i j b r H. unfold group. rewrite skipn_app, H.
    rewrite skipn_all2 by nia. cbn [app]. do 2 f_equal. nia.
  Qed.


Section Fetches.
  Variables (m : mem) (k : nat) (num : list byte -> N) (fetch : N -> M N).
  (** every complete [k]-byte group of [msg], stored from [v] on, is fetched *)
  Definition fetches (v : N) (msg : list byte) : Prop :=
    forall i, (k * i + k <= length msg)%nat ->
      fetch (v + N.of_nat (k * i)) m = Ok (num (group k i msg), m).

  Lemma fetches_l : forall v b r, fetches v (b ++ r) -> fetches v b.
  Proof.
    intros v b r H i Hi. rewrite <- (group_app_l k i b r) by assumption.
    apply H. rewrite app_length. lia.
  Qed.
  Lemma fetches_r : forall j v b r, length b = (k * j)%nat -> fetches v (b ++ r) ->
    fetches (v + N.of_nat (k * j)) r.
  Proof.
    intros j v b r L H i Hi. rewrite <- (group_app_r k i j b r L).
    replace (v + N.of_nat (k * j) + N.of_nat (k * i)) with (v + N.of_nat (k * (j + i))) by nia.
    apply H. rewrite app_length. nia.
  Qed.
  Lemma fetches_first : forall v b r, length b = k -> fetches v (b ++ r) ->
    fetch v m = Ok (num b, m).
  Proof.
    intros v b r L H. specialize (H 0%nat). rewrite Nat.mul_0_r in H. cbn [N.of_nat] in H.
    rewrite N.add_0_r, group_0_app in H by assumption. apply H. rewrite app_length. lia.
  Qed.
End Fetches.

Section Tails.
  Variables (cfg : config) (m : mem) (k : nat) (num : list byte -> N) (tail : N -> N -> M N).
  (** and the last, possibly incomplete one is obtained by [tail] *)
  Definition tails (v : N) (msg : list byte) : Prop :=
    forall i t, (k * i < length msg <= k * i + k)%nat ->
      t mod N.of_nat k = mlen msg mod N.of_nat k -> t < addr_space cfg ->
      tail (v + N.of_nat (k * i)) t m = Ok (num (skipn (k * i) msg), m).

  Lemma tails_r : forall j v b r, k <> 0%nat -> length b = (k * j)%nat -> tails v (b ++ r) ->
    tails (v + N.of_nat (k * j)) r.
  Proof.
    intros j v b r K L H i t Hi Ht Hs.
    replace (v + N.of_nat (k * j) + N.of_nat (k * i)) with (v + N.of_nat (k * (j + i))) by nia.
    rewrite (H (j + i)%nat t).
    - do 3 f_equal. rewrite skipn_app, L. rewrite skipn_all2 by nia. cbn [app]. f_equal. nia.
    - rewrite app_length. nia.
    - rewrite Ht. unfold mlen. rewrite app_length, L.
      replace (N.of_nat (k * j + length r)) with (N.of_nat (length r) + N.of_nat j * N.of_nat k) by nia.
      rewrite N.mod_add by lia. reflexivity.
    - assumption.
  Qed.
  Lemma tails_last : forall v l t, (1 <= length l <= k)%nat -> tails v l ->
    t mod N.of_nat k = mlen l mod N.of_nat k -> t < addr_space cfg ->
    tail v t m = Ok (num l, m).
  Proof.
    intros v l t L H Ht Hs. specialize (H 0%nat t). rewrite Nat.mul_0_r in H. cbn [N.of_nat skipn] in H.
    rewrite N.add_0_r in H. apply H; [lia|assumption|assumption].
  Qed.

End Tails.

Section Reads.
  Variables (cfg : config) (m : mem) (k : nat) (num : list byte -> N).
  Variables (fetch : N -> M N) (tail : N -> N -> M N).

  Definition reads (v : N) (msg : list byte) : Prop :=
    fetches m k num fetch v msg /\ tails cfg m k num tail v msg.

  Lemma reads_r : forall j v b r, k <> 0%nat -> length b = (k * j)%nat -> reads v (b ++ r) ->
    reads (v + N.of_nat (k * j)) r.
  Proof.
    intros j v b r K L [H1 H2]. split; [now apply fetches_r with b|now apply tails_r with b].
  Qed.

  (** ** The fall-through switch *)
  Section Chain.
    Variables (S T : Type) (emb : T -> S).
    Variables (F4 F3 F2 : S * N -> M (S * N)) (F1 : S * N -> M (S * N)).
    Variables (g4 g3 g2 g1 : N -> T -> T) (len : N).
    Hypothesis k_big : (2 <= k)%nat.
    Hypothesis H4 : forall t v w, fetch v m = Ok (w, m) ->
      F4 (emb t, v) m = Ok ((emb (g4 w t), padd cfg v (N.of_nat k)), m).
    Hypothesis H3 : forall t v w, fetch v m = Ok (w, m) ->
      F3 (emb t, v) m = Ok ((emb (g3 w t), padd cfg v (N.of_nat k)), m).
    Hypothesis H2 : forall t v w, fetch v m = Ok (w, m) ->
      F2 (emb t, v) m = Ok ((emb (g2 w t), padd cfg v (N.of_nat k)), m).
    Hypothesis H1 : forall t v w, tail v len m = Ok (w, m) ->
      F1 (emb t, v) m = Ok ((emb (g1 w t), v), m).

    Lemma head : forall l : list byte, (k < length l)%nat ->
      exists b r, l = b ++ r /\ length b = k /\ length r = (length l - k)%nat.
    Proof.
      intros l H. exists (firstn k l), (skipn k l).
      rewrite firstn_skipn, firstn_length_le, skipn_length by lia. auto.
    Qed.

    Lemma next : forall v b r, length b = k -> reads v (b ++ r) -> reads (v + N.of_nat k) r.
    Proof.
      intros v b r L H. pose proof (reads_r 1 v b r ltac:(lia) ltac:(lia) H) as N1.
      now rewrite Nat.mul_1_r in N1.
    Qed.

    Lemma mod_next : forall b r, length b = k ->
      mlen (b ++ r) mod N.of_nat k = mlen r mod N.of_nat k.
    Proof.
      intros b r L. unfold mlen. rewrite app_length, L.
      replace (N.of_nat (k + length r)) with (N.of_nat (length r) + 1 * N.of_nat k) by lia.
      rewrite N.mod_add by lia. reflexivity.
    Qed.

    Lemma chain_ok : forall R (K : S * N -> M R) e v l t,
      (length l <= 4 * k)%nat -> reads v l -> v + mlen l < addr_space cfg ->
      len mod N.of_nat k = mlen l mod N.of_nat k -> len < addr_space cfg ->
      e = ((length l + (k - 1)) / k)%nat ->
      exists v',
        (sv <- when (Nat.leb 4 e) F4 (emb t, v) ;;
         sv <- when (Nat.leb 3 e) F3 sv ;;
         sv <- when (Nat.leb 2 e) F2 sv ;;
         sv <- when (Nat.leb 1 e) F1 sv ;; K sv) m
        = K (emb (tail_with [g4; g3; g2; g1] (map num (groups k l)) t), v') m.
    Proof.
      intros R K e v l t L H A E EA Ee.
      assert (C0 : (length l = 0 \/ 1 <= length l <= k \/ k < length l)%nat) by lia.
      destruct C0 as [C0|[C0|C0]].
      { destruct l; [|discriminate]. exists v. cbn [length] in Ee.
        rewrite Nat.div_small in Ee by lia. subst e. cbn [Nat.leb when].
        rewrite !bind_ret. rewrite groups_nil by assumption. reflexivity. }
      { exists v. assert (e = 1%nat) by (subst e; symmetry; apply Nat.div_unique with (r := (length l - 1)%nat); lia).
        clear Ee. subst e. cbn [Nat.leb when]. rewrite !bind_ret.
        ok (H1 t v _ (tails_last cfg m k num tail v l len C0 (proj2 H) E EA)).
        rewrite groups_short by assumption. reflexivity. }
      unfold mlen in A.
      destruct (head l C0) as (b1 & l1 & -> & L1 & _).
      rewrite app_length, L1 in L, C0, Ee, A.
      rewrite groups_app by lia.
      rewrite mod_next in E by assumption.
      pose proof (fetches_first m k num fetch v b1 l1 L1 (proj1 H)) as R1. apply next in H; [|assumption].
      assert (C1 : (1 <= length l1 <= k \/ k < length l1)%nat) by lia.
      destruct C1 as [C1|C1].
      { eexists. assert (e = 2%nat) by (subst e; symmetry; apply Nat.div_unique with (r := (length l1 - 1)%nat); lia).
        clear Ee. subst e. cbn [Nat.leb when]. rewrite !bind_ret.
        ok (H2 t v _ R1). rewrite padd_small by lia.
        ok (H1 (g2 (num b1) t) _ _ (tails_last cfg m k num tail _ l1 len C1 (proj2 H) E EA)).
        rewrite groups_short by assumption. reflexivity. }
      destruct (head l1 C1) as (b2 & l2 & -> & L2 & _).
      rewrite app_length, L2 in L, C1, Ee, A.
      rewrite groups_app by lia.
      rewrite mod_next in E by assumption.
      pose proof (fetches_first m k num fetch _ b2 l2 L2 (proj1 H)) as R2. apply next in H; [|assumption].
      assert (C2 : (1 <= length l2 <= k \/ k < length l2)%nat) by lia.
      destruct C2 as [C2|C2].
      { eexists. assert (e = 3%nat) by (subst e; symmetry; apply Nat.div_unique with (r := (length l2 - 1)%nat); lia).
        clear Ee. subst e. cbn [Nat.leb when]. rewrite !bind_ret.
        ok (H3 t v _ R1). rewrite padd_small by lia.
        ok (H2 (g3 (num b1) t) _ _ R2). rewrite padd_small by lia.
        ok (H1 (g2 (num b2) (g3 (num b1) t)) _ _ (tails_last cfg m k num tail _ l2 len C2 (proj2 H) E EA)).
        rewrite groups_short by assumption. reflexivity. }
      destruct (head l2 C2) as (b3 & l3 & -> & L3 & _).
      rewrite app_length, L3 in L, C2, Ee, A.
      rewrite groups_app by lia.
      rewrite mod_next in E by assumption.
      pose proof (fetches_first m k num fetch _ b3 l3 L3 (proj1 H)) as R3. apply next in H; [|assumption].
      assert (C3 : (1 <= length l3 <= k)%nat) by lia.
      eexists. assert (e = 4%nat) by (subst e; symmetry; apply Nat.div_unique with (r := (length l3 - 1)%nat); lia).
      clear Ee. subst e. cbn [Nat.leb when].
      ok (H4 t v _ R1). rewrite padd_small by lia.
      ok (H3 (g4 (num b1) t) _ _ R2). rewrite padd_small by lia.
      ok (H2 (g3 (num b2) (g4 (num b1) t)) _ _ R3). rewrite padd_small by lia.
      ok (H1 (g2 (num b3) (g3 (num b2) (g4 (num b1) t))) _ _ (tails_last cfg m k num tail _ l3 len C3 (proj2 H) E EA)).
      rewrite groups_short by assumption. reflexivity.
    Qed.
  End Chain.
End Reads.

(** entry points of the two kinds of switch *)
Lemma below : forall (P : N -> bool) n, forallb (fun i => P (N.of_nat i)) (seq 0 (S n)) = true ->
  forall x, x <= N.of_nat n -> P x = true.
Proof.
  intros P n H x Hx. rewrite forallb_forall in H.
  rewrite <- (Nnat.N2Nat.id x). apply H. apply in_seq. lia.
Qed.
Lemma switch8_eq : forall l, (length l <= 32)%nat ->
  switch8 (mlen l) = ((length l + (8 - 1)) / 8)%nat.
Proof.
  intros l H. unfold mlen. generalize dependent (length l). intros n H.
  pose proof (below (fun x => Nat.eqb (switch8 x) ((N.to_nat x + (8 - 1)) / 8)) 32 eq_refl (N.of_nat n) ltac:(lia)) as E.
  apply Nat.eqb_eq in E. now rewrite Nnat.Nat2N.id in E.
Qed.
Lemma switch4_eq : forall l, (length l <= 16)%nat ->
  switch4 (mlen l) = ((length l + (4 - 1)) / 4)%nat.
Proof.
  intros l H. unfold mlen. generalize dependent (length l). intros n H.
  pose proof (below (fun x => Nat.eqb (switch4 x) ((N.to_nat x + (4 - 1)) / 4)) 16 eq_refl (N.of_nat n) ltac:(lia)) as E.
  apply Nat.eqb_eq in E. now rewrite Nnat.Nat2N.id in E.
Qed.
