(** Facts about memory, loads and stores, and loops. *)
From Coq Require Import ZArith NArith Arith List Bool Lia Strings.Byte.
From Coq Require Import ZifyN ZifyNat ZifyBool.
From Verif Require Import Bytes CSem Spec.
Import ListNotations.
Ltac Zify.zify_post_hook ::= Z.div_mod_to_equations.
Local Open Scope N_scope.

Lemma bind_ok : forall A B (x : M A) (k : A -> M B) m a m',
  x m = Ok (a, m') -> bind x k m = k a m'.
Proof. intros. unfold bind. now rewrite H. Qed.

Lemma bind_ret : forall A B (a : A) (k : A -> M B) m, bind (ret a) k m = k a m.
Proof. reflexivity. Qed.

(** [bytes_at m p l]: the bytes [l] are stored from address [p] on. *)
Definition bytes_at (m : mem) (p : N) (l : list byte) : Prop :=
  forall i b, nth_error l i = Some b -> m (p + N.of_nat i) = Some b.

(** [mapped m p n]: the [n] bytes from [p] on are mapped. *)
Definition mapped (m : mem) (p : N) (n : nat) : Prop :=
  forall i, (i < n)%nat -> m (p + N.of_nat i) <> None.

Lemma bytes_at_nil : forall m p, bytes_at m p [].
Proof. intros m p i b H. destruct i; discriminate. Qed.

Lemma bytes_at_cons : forall m p b l,
  bytes_at m p (b :: l) <-> m p = Some b /\ bytes_at m (p + 1) l.
Proof.
  intros m p b l. split.
  - intro H. split.
    + specialize (H 0%nat b eq_refl). cbn in H. now rewrite N.add_0_r in H.
    + intros i c Hi. specialize (H (S i) c Hi).
      replace (p + 1 + N.of_nat i) with (p + N.of_nat (S i)) by lia. exact H.
  - intros [H0 H1] i c Hi. destruct i as [|i].
    + cbn in Hi. injection Hi as <-. cbn. now rewrite N.add_0_r.
    + specialize (H1 i c Hi). replace (p + N.of_nat (S i)) with (p + 1 + N.of_nat i) by lia.
      exact H1.
Qed.

Lemma bytes_at_app : forall m p a b,
  bytes_at m p (a ++ b) <-> bytes_at m p a /\ bytes_at m (p + N.of_nat (length a)) b.
Proof.
  intros m p a. revert p. induction a as [|x a IH]; intros p b.
  - cbn [app length]. rewrite N.add_0_r. split; [|tauto].
    intro H. split; [apply bytes_at_nil|exact H].
  - cbn [app length]. rewrite !bytes_at_cons, IH.
    replace (p + N.of_nat (S (length a))) with (p + 1 + N.of_nat (length a)) by lia. tauto.
Qed.

Lemma bytes_at_mapped : forall m p l, bytes_at m p l -> mapped m p (length l).
Proof.
  intros m p l H i Hi. apply nth_error_Some in Hi.
  destruct (nth_error l i) eqn:E; [|congruence]. rewrite (H i b E). discriminate.
Qed.

Lemma mapped_bytes_at : forall m n p, mapped m p n ->
  exists l, length l = n /\ bytes_at m p l.
Proof.
  intros m n. induction n as [|n IH]; intros p H.
  - exists []. split; [reflexivity|apply bytes_at_nil].
  - destruct (m p) as [b|] eqn:E.
    + destruct (IH (p + 1)) as (l & L & B).
      { intros i Hi. specialize (H (S i)).
        replace (p + N.of_nat (S i)) with (p + 1 + N.of_nat i) in H by lia. apply H. lia. }
      exists (b :: l). split; [cbn; lia|]. apply bytes_at_cons. auto.
    + exfalso. apply (H 0%nat); [lia|]. cbn. now rewrite N.add_0_r.
Qed.

Lemma mapped_split : forall m p a b,
  mapped m p (a + b) <-> mapped m p a /\ mapped m (p + N.of_nat a) b.
Proof.
  intros m p a b. split.
  - intro H. split.
    + intros i Hi. apply H. lia.
    + intros i Hi. replace (p + N.of_nat a + N.of_nat i) with (p + N.of_nat (a + i)) by lia.
      apply H. lia.
  - intros [H1 H2] i Hi. destruct (Nat.lt_ge_cases i a) as [L|L].
    + now apply H1.
    + replace (p + N.of_nat i) with (p + N.of_nat a + N.of_nat (i - a)) by lia. apply H2. lia.
Qed.

Lemma bytes_at_firstn : forall m p n l, bytes_at m p l -> bytes_at m p (firstn n l).
Proof.
  intros m p n l H. rewrite <- (firstn_skipn n l) in H. apply bytes_at_app in H. tauto.
Qed.

Lemma bytes_at_skipn : forall m p n l, bytes_at m p l -> (n <= length l)%nat ->
  bytes_at m (p + N.of_nat n) (skipn n l).
Proof.
  intros m p n l H L. rewrite <- (firstn_skipn n l) in H. apply bytes_at_app in H.
  rewrite firstn_length_le in H by assumption. tauto.
Qed.

Lemma bytes_at_fun : forall m p a b,
  bytes_at m p a -> bytes_at m p b -> length a = length b -> a = b.
Proof.
  intros m p a. revert p. induction a as [|x a IH]; intros p [|y b] Ha Hb L;
    cbn in L; try lia; [reflexivity|].
  apply bytes_at_cons in Ha. apply bytes_at_cons in Hb.
  destruct Ha as [Ha1 Ha2], Hb as [Hb1 Hb2]. f_equal; [congruence|].
  apply (IH (p + 1)); auto.
Qed.

Lemma load8_ok : forall m p b, m p = Some b -> load8 p m = Ok (b, m).
Proof. intros. unfold load8. now rewrite H. Qed.

Lemma load_bytes_ok : forall l m p,
  bytes_at m p l -> load_bytes (length l) p m = Ok (l, m).
Proof.
  induction l as [|b l IH]; intros m p H; cbn [length load_bytes]; [reflexivity|].
  apply bytes_at_cons in H. destruct H as [H0 H1].
  rewrite (bind_ok _ _ _ _ _ _ _ (load8_ok _ _ _ H0)).
  now rewrite (bind_ok _ _ _ _ _ _ _ (IH _ _ H1)).
Qed.

Lemma load_uint_ok : forall cfg m p l n,
  bytes_at m p l -> length l = n ->
  load_uint cfg n p m = Ok (if big_endian cfg then be_num l else le_num l, m).
Proof.
  intros cfg m p l n H <-. unfold load_uint.
  now rewrite (bind_ok _ _ _ _ _ _ _ (load_bytes_ok _ _ _ H)).
Qed.

(** ** Stores *)
Lemma check_mapped_ok : forall n p m, mapped m p n -> check_mapped n p m = Ok (tt, m).
Proof.
  induction n as [|n IH]; intros p m H; cbn [check_mapped]; [reflexivity|].
  destruct (m p) as [b|] eqn:E.
  - rewrite (bind_ok _ _ _ _ _ _ _ (load8_ok _ _ _ E)). apply IH.
    intros i Hi. specialize (H (S i)).
    replace (p + N.of_nat (S i)) with (p + 1 + N.of_nat i) in H by lia. apply H. lia.
  - exfalso. apply (H 0%nat); [lia|]. cbn. now rewrite N.add_0_r.
Qed.

Lemma store_bytes_ok : forall l p m,
  mapped m p (length l) -> store_bytes p l m = Ok (tt, write m p l).
Proof.
  intros l p m H. unfold store_bytes. now rewrite (bind_ok _ _ _ _ _ _ _ (check_mapped_ok _ _ _ H)).
Qed.

(** [write] in pointwise form. *)
Lemma write_in : forall m p l i b,
  nth_error l i = Some b -> write m p l (p + N.of_nat i) = Some b.
Proof.
  intros m p l i b H. unfold write.
  assert (i < length l)%nat by (apply nth_error_Some; congruence).
  replace (p <=? p + N.of_nat i) with true by lia.
  replace (p + N.of_nat i <? p + N.of_nat (length l)) with true by lia.
  cbn [andb]. replace (N.to_nat (p + N.of_nat i - p)) with i by lia. exact H.
Qed.

Lemma write_out : forall m p l x,
  x < p \/ p + N.of_nat (length l) <= x -> write m p l x = m x.
Proof.
  intros m p l x H. unfold write.
  destruct ((p <=? x) && (x <? p + N.of_nat (length l))) eqn:E; [lia|reflexivity].
Qed.

Lemma write_bytes_at : forall m p l, bytes_at (write m p l) p l.
Proof. intros m p l i b H. now apply write_in. Qed.

Lemma write_bytes_at_other : forall m p l q k,
  q + N.of_nat (length k) <= p \/ p + N.of_nat (length l) <= q ->
  bytes_at m q k -> bytes_at (write m p l) q k.
Proof.
  intros m p l q k D H i b Hi.
  assert (i < length k)%nat by (apply nth_error_Some; congruence).
  rewrite write_out by lia. now apply H.
Qed.

Lemma write_mapped : forall m p l q n, mapped m q n -> mapped (write m p l) q n.
Proof.
  intros m p l q n H i Hi. unfold write.
  destruct ((p <=? q + N.of_nat i) && (q + N.of_nat i <? p + N.of_nat (length l))) eqn:E.
  - apply nth_error_Some. lia.
  - now apply H.
Qed.

Lemma store_uint_ok : forall cfg m p n v,
  mapped m p n ->
  store_uint cfg n p v m = Ok (tt, write m p (if big_endian cfg then be_bytes n v else le_bytes n v)).
Proof.
  intros cfg m p n v H. unfold store_uint. apply store_bytes_ok.
  destruct (big_endian cfg); [rewrite be_bytes_length|rewrite le_bytes_length]; exact H.
Qed.

Lemma assert_ok : forall cfg c m, c = true -> assert_ cfg c m = Ok (tt, m).
Proof. intros cfg c m ->. unfold assert_. now destruct (ndebug cfg). Qed.

(** ** Pointer arithmetic without wrap-around *)
Lemma addr_space_pos : forall cfg, W32 <= addr_space cfg.
Proof. intro cfg. unfold addr_space. destruct (ptr64 cfg); lia. Qed.

Lemma addr_space_le : forall cfg, addr_space cfg <= W64.
Proof. intro cfg. unfold addr_space. destruct (ptr64 cfg); lia. Qed.

Lemma padd_small : forall cfg p k, p + k < addr_space cfg -> padd cfg p k = p + k.
Proof. intros. unfold padd. now apply N.mod_small. Qed.

Lemma psub_small : forall cfg p k, k <= p -> p < addr_space cfg -> psub cfg p k = p - k.
Proof.
  intros cfg p k H1 H2. unfold psub. pose proof (addr_space_pos cfg).
  rewrite (N.mod_small k) by lia.
  replace (p + addr_space cfg - k) with ((p - k) + 1 * addr_space cfg) by lia.
  rewrite N.mod_add by lia. apply N.mod_small. lia.
Qed.

(** ** Cutting a message into blocks *)
Lemma blocks_nil : forall k l, (length l < k)%nat -> blocks k l = [].
Proof. intros k l H. unfold blocks. now rewrite Nat.div_small. Qed.

Lemma rest_short : forall k l, (length l < k)%nat -> rest k l = l.
Proof. intros k l H. unfold rest. rewrite Nat.div_small by assumption. now rewrite Nat.mul_0_r. Qed.

Lemma div_plus_one : forall k n, k <> 0%nat -> ((k + n) / k = S (n / k))%nat.
Proof.
  intros k n Hk. replace (k + n)%nat with (n + 1 * k)%nat by lia.
  rewrite Nat.div_add by assumption. lia.
Qed.

Lemma group_0_app : forall k b l, length b = k -> group k 0 (b ++ l) = b.
Proof.
  intros k b l H. unfold group. rewrite Nat.mul_0_r. cbn [skipn].
  rewrite firstn_app, H, Nat.sub_diag. cbn [firstn]. rewrite app_nil_r.
  rewrite <- H. apply firstn_all.
Qed.

Lemma group_S_app : forall k i b l, length b = k -> group k (S i) (b ++ l) = group k i l.
Proof.
  intros k i b l H. unfold group. f_equal.
  rewrite skipn_app, H. rewrite skipn_all2 by nia. cbn [app].
  f_equal. nia.
Qed.

Lemma blocks_app : forall k b l, k <> 0%nat -> length b = k -> blocks k (b ++ l) = b :: blocks k l.
Proof.
  intros k b l Hk H. unfold blocks. rewrite app_length, H, div_plus_one by assumption.
  cbn [seq map]. rewrite group_0_app by assumption. f_equal.
  rewrite <- seq_shift, map_map. apply map_ext. intro i. now apply group_S_app.
Qed.

Lemma rest_app : forall k b l, k <> 0%nat -> length b = k -> rest k (b ++ l) = rest k l.
Proof.
  intros k b l Hk H. unfold rest. rewrite app_length, H, div_plus_one by assumption.
  generalize (length l / k)%nat as q; intro q.
  rewrite skipn_app, skipn_all2 by nia. cbn [app]. f_equal. nia.
Qed.

Lemma rest_length : forall k l, k <> 0%nat -> length (rest k l) = (length l mod k)%nat.
Proof.
  intros k l Hk. unfold rest. rewrite skipn_length.
  pose proof (Nat.div_mod (length l) k Hk). lia.
Qed.

Lemma groups_nil : forall k, (2 <= k)%nat -> groups k [] = [].
Proof. intros k H. unfold groups. cbn [length]. now rewrite Nat.div_small by lia. Qed.

Lemma groups_short : forall k l, (1 <= length l <= k)%nat -> groups k l = [l].
Proof.
  intros k l H. unfold groups.
  replace ((length l + (k - 1)) / k)%nat with 1%nat.
  - cbn [seq map]. unfold group. rewrite Nat.mul_0_r. cbn [skipn].
    now rewrite firstn_all2 by lia.
  - apply Nat.div_unique with (r := (length l - 1)%nat); lia.
Qed.

Lemma groups_app : forall k b l, k <> 0%nat -> length b = k -> groups k (b ++ l) = b :: groups k l.
Proof.
  intros k b l Hk H. unfold groups.
  rewrite app_length, H, <- Nat.add_assoc, div_plus_one by assumption.
  cbn [seq map]. rewrite group_0_app by assumption. f_equal.
  rewrite <- seq_shift, map_map. apply map_ext. intro i. now apply group_S_app.
Qed.

(** ** The block loop common to all hashes: the state [s] absorbs the blocks of
    [msg] one by one while the pointer moves on.  [I v msg] says that what
    follows from [v] on can be read. *)
Section Loop.
  Variables (cfg : config) (S T : Type) (B : nat).
  Variable (emb : T -> S).
  Variable (step : T -> list byte -> T).
  Variable (body : S * N -> M (S * N)).
  Variable (m : mem).
  Variable (I : N -> list byte -> Prop).
  Hypothesis B_pos : (2 <= B)%nat.
  Hypothesis I_step : forall v b r, length b = B -> I v (b ++ r) -> I (v + N.of_nat B) r.
  Hypothesis body_ok : forall t v b r,
    length b = B -> I v (b ++ r) -> v + N.of_nat B < addr_space cfg ->
    body (emb t, v) m = Ok ((emb (step t b), v + N.of_nat B), m).

  Lemma block_loop : forall n msg t v e,
    n = (length msg / B)%nat -> n <> 0%nat ->
    I v msg -> v + mlen msg = e -> e < addr_space cfg ->
    do_while n body (fun x => snd x <? e - (N.of_nat B - 1)) (emb t, v) m
    = Ok ((emb (fold_left step (blocks B msg) t), v + N.of_nat (B * n)%nat), m).
  Proof.
    induction n as [|n IH]; intros msg t v e Hn Hn0 Hat He Hw; [lia|].
    assert (HB : B <> 0%nat) by lia.
    assert (Hlen : (B <= length msg)%nat).
    { destruct (Nat.le_gt_cases B (length msg)) as [?|G]; [assumption|].
      rewrite Nat.div_small in Hn by assumption. discriminate. }
    assert (Hb : length (firstn B msg) = B) by (rewrite firstn_length_le; lia).
    rewrite <- (firstn_skipn B msg) in Hn, Hat, He. rewrite <- (firstn_skipn B msg).
    generalize dependent (skipn B msg). generalize dependent (firstn B msg).
    intros b Hb r Hn Hat He. clear Hlen msg.
    pose proof (I_step v b r Hb Hat) as Hat2.
    unfold mlen in He. rewrite app_length, Hb in He.
    rewrite app_length, Hb, div_plus_one in Hn by assumption. injection Hn as Hn.
    cbn [do_while]. rewrite (bind_ok _ _ _ _ _ _ _ (body_ok t v b r Hb Hat ltac:(lia))).
    cbn [snd]. rewrite blocks_app by assumption. cbn [fold_left].
    pose proof (Nat.div_mod (length r) B HB) as DM.
    pose proof (Nat.mod_upper_bound (length r) B HB) as MU. rewrite <- Hn in DM.
    destruct n as [|n].
    - replace (v + N.of_nat B <? e - (N.of_nat B - 1)) with false by lia.
      unfold ret. rewrite Nat.mul_1_r. rewrite blocks_nil by lia. reflexivity.
    - replace (v + N.of_nat B <? e - (N.of_nat B - 1)) with true by (symmetry; apply N.ltb_lt; nia).
      rewrite (IH r _ (v + N.of_nat B) e); auto; try (unfold mlen; lia).
      do 3 f_equal. rewrite (Nat.mul_succ_r B (Datatypes.S n)). lia.
  Qed.
End Loop.
