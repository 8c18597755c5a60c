(** The scalar XXH3 computes its specification. *)
From Coq Require Import ZArith NArith Arith List Bool Lia Strings.Byte.
From Coq Require Import ZifyN ZifyNat ZifyBool.
From Verif Require Import Bytes CSem Bits Spec NBits CSemFacts OpsFacts FetchFacts CtxMem HighwayFacts
  Xxhash XxhashSpec XxhashFacts Xxh3 Xxh3Spec Onto HighwayCat.
Import ListNotations.
Ltac Zify.zify_post_hook ::= Z.div_mod_to_equations.
Local Open Scope N_scope.

(** ** Arithmetic *)
Lemma mult32to64_eq : forall x y, XXH_mult32to64 x y = (x mod W32) * (y mod W32).
Proof. intros. exact (mul_32x32_64_eq x y). Qed.

Lemma mult64to128_eq : forall cfg x y, x < 2 ^ 64 -> y < 2 ^ 64 -> XXH_mult64to128 cfg x y = (lo x y, hi x y).
Proof.
  intros cfg x y Hx Hy. change (2 ^ 64) with W64 in *. unfold XXH_mult64to128, lo, hi. change (2 ^ 64) with W64.
  rewrite (N.mod_small x) by exact Hx. destruct (int128 cfg).
  - assert (x * y < W128) by nia. unfold u128. rewrite N.mod_small by assumption.
    cbv zeta. rewrite N.shiftr_div_pow2. change (2 ^ 64) with W64. unfold u64. f_equal.
    apply N.mod_small. apply N.div_lt_upper_bound; [discriminate|]. lia.
  - rewrite !mult32to64_eq. unfold shr64. rewrite !N.shiftr_div_pow2. rewrite (u64_small x), (u64_small y) by assumption.
    change 0xFFFFFFFF with (N.ones 32). rewrite !N.land_ones. change (2 ^ 32) with W32.
    assert (Ex : x = x mod W32 + W32 * (x / W32)) by lia.
    assert (Ey : y = y mod W32 + W32 * (y / W32)) by lia.
    assert (x mod W32 < W32) by lia. assert (y mod W32 < W32) by lia.
    assert (x / W32 < W32) by lia. assert (y / W32 < W32) by lia.
    rewrite !(N.mod_mod) by discriminate.
    rewrite !(N.mod_small (x / W32)), !(N.mod_small (y / W32)) by assumption.
    set (x0 := x mod W32) in *. set (x1 := x / W32) in *.
    set (y0 := y mod W32) in *. set (y1 := y / W32) in *. clearbody x0 x1 y0 y1.
    assert (P : x * y = x0 * y0 + W32 * (x1 * y0) + W32 * (x0 * y1) + W64 * (x1 * y1)).
    { rewrite Ex, Ey. lia. }
    rewrite P. clear P Ex Ey Hx Hy x y.
    assert (x0 * y0 <= (W32 - 1) * (W32 - 1)) by nia.
    assert (x1 * y0 <= (W32 - 1) * (W32 - 1)) by nia.
    assert (x0 * y1 <= (W32 - 1) * (W32 - 1)) by nia.
    assert (x1 * y1 <= (W32 - 1) * (W32 - 1)) by nia.
    set (ll := x0 * y0) in *. set (lh := x1 * y0) in *.
    set (hl := x0 * y1) in *. set (hh := x1 * y1) in *. clearbody ll lh hl hh. clear x0 x1 y0 y1 H H0 H1 H2.
    cbv zeta. unfold add64. rewrite !(u64_small ll), !(u64_small lh) by lia.
    rewrite (u64_small (ll / W32 + lh mod W32)) by lia.
    rewrite (u64_small (ll / W32 + lh mod W32 + hl)) by lia.
    set (c := ll / W32 + lh mod W32 + hl). assert (c < W64) by (unfold c; lia).
    rewrite (u64_small c) by assumption. rewrite (u64_small (lh / W32 + c / W32)) by lia.
    rewrite (u64_small (lh / W32 + c / W32 + hh)) by (unfold c; lia).
    unfold shl64. rewrite N.shiftl_mul_pow2. change 64 with (32 + 32) in *. unfold u64. change W64 with (2 ^ (32 + 32)) at 1.
    rewrite mod_pow2_mul. rewrite lor_high_low by lia. unfold c. clear c H. change (2 ^ 32) with W32. f_equal; lia.
Qed.
Lemma mulfold_eq : forall cfg x y, x < 2 ^ 64 -> y < 2 ^ 64 -> XXH3_mul128_fold64 cfg x y = mulfold x y.
Proof. intros. unfold XXH3_mul128_fold64. now rewrite mult64to128_eq. Qed.
Lemma xorshift_eq : forall x r, XXH_xorshift64 x r = fold_64 x r.
Proof. intros. unfold XXH_xorshift64. now rewrite shr64_eq. Qed.
Lemma avalanche_eq : forall h, XXH3_avalanche h = finish h.
Proof. intros. unfold XXH3_avalanche. now rewrite !xorshift_eq. Qed.
Lemma rrmxmx_eq : forall h len, XXH3_rrmxmx h len = blend h len.
Proof. intros. unfold XXH3_rrmxmx, blend. rewrite !rotl64_eq by lia. now rewrite !xorshift_eq, !shr64_eq. Qed.
Lemma turn32_eq : forall cfg x, x < 2 ^ 32 -> XXH_swap32 cfg x = turn_32 x.
Proof.
  intros cfg x H. unfold turn_32. rewrite <- (swap32_le cfg) by apply le_bytes_length. f_equal. symmetry.
  rewrite le_num_le_bytes. now apply N.mod_small.
Qed.
Lemma turn64_eq : forall cfg x, x < 2 ^ 64 -> XXH_swap64 cfg x = turn_64 x.
Proof.
  intros cfg x H. unfold turn_64. rewrite <- (swap64_le cfg) by apply le_bytes_length. f_equal. symmetry.
  rewrite le_num_le_bytes. now apply N.mod_small.
Qed.
Lemma word_at_lt : forall k l i, word_at k l i < 256 ^ N.of_nat k.
Proof.
  intros. unfold word_at. pose proof (le_num_lt (firstn k (skipn (N.to_nat i) l))) as L.
  eapply N.lt_le_trans; [exact L|]. apply N.pow_le_mono_r; [lia|]. pose proof (firstn_le_length k (skipn (N.to_nat i) l)). lia.
Qed.
Lemma w8_lt : forall l i, w8 l i < 2 ^ 64.
Proof. intros. exact (word_at_lt 8 l i). Qed.
Lemma w4_lt : forall l i, w4 l i < 2 ^ 32.
Proof. intros. exact (word_at_lt 4 l i). Qed.

(** ** Loops *)
Lemma below_S : forall n, below_n (N.of_nat (S n)) = below_n (N.of_nat n) ++ [N.of_nat n].
Proof. intro n. unfold below_n. rewrite !Nat2N.id, seq_S, map_app. reflexivity. Qed.
Lemma below_add : forall a b, below_n (a + b) = below_n a ++ map (N.add a) (below_n b).
Proof.
  intros a b. unfold below_n. rewrite N2Nat.inj_add, seq_app, map_app. f_equal. cbn [Nat.add].
  rewrite map_map. generalize (N.to_nat b) as n. intro n. induction n as [|n IH]; [reflexivity|].
  rewrite !seq_S, !map_app, IH. cbn [map]. do 2 f_equal. lia.
Qed.
Lemma in_below : forall n k, In k (below_n n) <-> k < n.
Proof.
  intros n k. unfold below_n. rewrite in_map_iff. split.
  - intros (i & <- & H). apply in_seq in H. lia.
  - intro H. exists (N.to_nat k). split; [lia|]. apply in_seq. lia.
Qed.

Lemma for_loop_snoc : forall A n i (body : N -> A -> M A) a m b m1,
  for_loop n i body a m = Ok (b, m1) -> for_loop (S n) i body a m = body (i + N.of_nat n) b m1.
Proof.
  intros A n. induction n as [|n IH]; intros i body a m b m1 H.
  - cbn [for_loop] in *. unfold ret in H. injection H as -> ->. cbn [N.of_nat]. rewrite N.add_0_r.
    unfold bind. destruct (body i b m1) as [[? ?]| | | | |]; reflexivity.
  - cbn [for_loop] in H |- *. unfold bind in H |- *. destruct (body i a m) as [[a1 m2]| | | | |]; try discriminate H.
    specialize (IH (i + 1) body a1 m2 b m1 H). cbn [for_loop] in IH. unfold bind in IH. rewrite IH. f_equal. lia.
Qed.
(** a loop that leaves the memory alone is a fold *)
Lemma for_loop_ok : forall A (P : A -> Prop) (f : A -> N -> A) n (body : N -> A -> M A) a m,
  P a -> (forall k b, k < N.of_nat n -> P b -> body k b m = Ok (f b k, m) /\ P (f b k)) ->
  for_loop n 0 body a m = Ok (fold_left f (below_n (N.of_nat n)) a, m) /\ P (fold_left f (below_n (N.of_nat n)) a).
Proof.
  intros A P f n body a m Ha H. induction n as [|n IH]; [split; [reflexivity|exact Ha]|].
  destruct IH as [E Q]; [intros k b L; apply H; lia|]. rewrite below_S, fold_left_app. cbn [fold_left].
  rewrite (for_loop_snoc _ _ _ _ _ _ _ _ E). rewrite N.add_0_l. apply H; [lia|exact Q].
Qed.
Lemma for_loop_fold : forall A (f : A -> N -> A) n (body : N -> A -> M A) a m,
  (forall k b, k < N.of_nat n -> body k b m = Ok (f b k, m)) ->
  for_loop n 0 body a m = Ok (fold_left f (below_n (N.of_nat n)) a, m).
Proof.
  intros A f n body a m H. apply (for_loop_ok A (fun _ => True) f n body a m I). intros k b L _. split; [now apply H|exact I].
Qed.

(** ** Reads *)
(** whether XXH_ASSERT stops the program *)
Definition asserting (cfg : config) (x3 : xxh3_build) : bool := x3_debug x3 && negb (ndebug cfg).

Lemma ASSERT_ok : forall cfg x3 c m, (asserting cfg x3 = true -> c = true) -> XXH_ASSERT cfg x3 c m = Ok (tt, m).
Proof.
  intros cfg x3 c m H. unfold XXH_ASSERT, asserting in *. destruct (x3_debug x3); [|reflexivity].
  unfold assert_. destruct (ndebug cfg); [reflexivity|]. now rewrite H.
Qed.
Ltac asserted := match goal with
  |- bind (XXH_ASSERT ?c ?x ?b) _ ?m = _ => rewrite (bind_ok _ _ _ _ _ _ _ (ASSERT_ok c x b m ltac:(intros _; lia))) end.

(** the loop at the front of the goal is the fold of [f] *)
Ltac loop f := match goal with |- bind (for_loop ?n 0 ?body ?a) _ ?m = _ =>
  let E := fresh in
  cut (for_loop n 0 body a m = Ok (fold_left f (below_n (N.of_nat n)) a, m));
  [intro E; rewrite (bind_ok _ _ _ _ _ _ _ E); clear E|apply for_loop_fold] end; [|]; cycle 1.

(** ** Lanes *)
Lemma eight : forall A (v : list A), length v = 8%nat ->
  exists a b c d e f g h, v = [a; b; c; d; e; f; g; h].
Proof.
  intros A v H. do 8 (destruct v as [|? v]; [discriminate H|]). destruct v; [|discriminate H]. repeat eexists.
Qed.
Lemma acc_set_length : forall v i x, i < N.of_nat 8 -> length v = 8%nat -> length (acc_set v i x) = 8%nat.
Proof. intros v i x H L. unfold acc_set. rewrite app_length. cbn [length]. rewrite firstn_length, skipn_length. lia. Qed.
Definition lane_step (w k : N -> N) (v : list N) (i : N) : list N :=
  let key := N.lxor (w i) (k i) in
  let v := acc_set v (N.lxor i 1) (add64 (acc_get v (N.lxor i 1)) (w i)) in
  acc_set v i (add64 (acc_get v i) (XXH_mult32to64 (N.land key 0xFFFFFFFF) (shr64 key 32))).
Lemma lane_step_length : forall w k v i, i < N.of_nat 8 -> length v = 8%nat -> length (lane_step w k v i) = 8%nat.
Proof.
  intros w k v i H L. unfold lane_step. apply acc_set_length; [exact H|]. apply acc_set_length; [|exact L].
  apply (lxor_lt 3); [exact H|reflexivity].
Qed.
Lemma halves_eq : forall x, x < 2 ^ 64 -> XXH_mult32to64 (N.land x 0xFFFFFFFF) (shr64 x 32) = halves x.
Proof.
  intros x H. rewrite mult32to64_eq. change 0xFFFFFFFF with (N.ones 32). rewrite N.land_ones, shr64_eq.
  rewrite (N.mod_small x (2 ^ 64)) by exact H. unfold halves, mulw. change (2 ^ 32) with W32. change (2 ^ 64) with W64 in *.
  rewrite N.mod_mod by discriminate. rewrite (N.mod_small (x / W32)) by lia. symmetry. apply N.mod_small.
  assert (x mod W32 < W32) by lia. assert (x / W32 < W32) by lia. nia.
Qed.
Lemma add_swap : forall a b c, add (add a b) c = add (add a c) b.
Proof. intros. unfold add. rewrite !N.add_mod_idemp_l by discriminate. f_equal. lia. Qed.
Lemma lane_steps : forall w k v, length v = 8%nat -> (forall i, w i < 2 ^ 64) -> (forall i, k i < 2 ^ 64) ->
  fold_left (lane_step w k) (below_n (N.of_nat 8)) v =
  each (fun i => add (add (lane v i) (w (beside i))) (halves (xor (w i) (k i)))).
Proof.
  intros w k v L Hw Hk. destruct (eight _ v L) as (a & b & c & d & e & f & g & h & ->).
  set (M := fun i => XXH_mult32to64 (N.land (N.lxor (w i) (k i)) 0xFFFFFFFF) (shr64 (N.lxor (w i) (k i)) 32)).
  assert (S0 : forall a b c d e f g h, lane_step w k [a; b; c; d; e; f; g; h] 0 = [add64 a (M 0); add64 b (w 0); c; d; e; f; g; h]) by reflexivity.
  assert (S1 : forall a b c d e f g h, lane_step w k [a; b; c; d; e; f; g; h] 1 = [add64 a (w 1); add64 b (M 1); c; d; e; f; g; h]) by reflexivity.
  assert (S2 : forall a b c d e f g h, lane_step w k [a; b; c; d; e; f; g; h] 2 = [a; b; add64 c (M 2); add64 d (w 2); e; f; g; h]) by reflexivity.
  assert (S3 : forall a b c d e f g h, lane_step w k [a; b; c; d; e; f; g; h] 3 = [a; b; add64 c (w 3); add64 d (M 3); e; f; g; h]) by reflexivity.
  assert (S4 : forall a b c d e f g h, lane_step w k [a; b; c; d; e; f; g; h] 4 = [a; b; c; d; add64 e (M 4); add64 f (w 4); g; h]) by reflexivity.
  assert (S5 : forall a b c d e f g h, lane_step w k [a; b; c; d; e; f; g; h] 5 = [a; b; c; d; add64 e (w 5); add64 f (M 5); g; h]) by reflexivity.
  assert (S6 : forall a b c d e f g h, lane_step w k [a; b; c; d; e; f; g; h] 6 = [a; b; c; d; e; f; add64 g (M 6); add64 h (w 6)]) by reflexivity.
  assert (S7 : forall a b c d e f g h, lane_step w k [a; b; c; d; e; f; g; h] 7 = [a; b; c; d; e; f; add64 g (w 7); add64 h (M 7)]) by reflexivity.
  assert (HM : forall i, M i = halves (xor (w i) (k i))) by (intro i; apply halves_eq, lxor_lt; auto).
  change (below_n (N.of_nat 8)) with [0; 1; 2; 3; 4; 5; 6; 7]. cbn [fold_left].
  rewrite S0, S1, S2, S3, S4, S5, S6, S7. rewrite !HM, !add64_eq. clear.
  rewrite (add_swap a), (add_swap c), (add_swap e), (add_swap g). reflexivity.
Qed.
Lemma set_steps : forall (F : N -> N -> N) v, length v = 8%nat ->
  fold_left (fun a k => acc_set a k (F k (acc_get a k))) (below_n (N.of_nat 8)) v = each (fun i => F i (lane v i)).
Proof.
  intros F v L. destruct (eight _ v L) as (a & b & c & d & e & f & g & h & ->). reflexivity.
Qed.
Lemma each_length : forall f, length (each f) = 8%nat.
Proof. intro f. reflexivity. Qed.

Section Here.
  Variable (cfg : config) (x3 : xxh3_build).
  (** the bytes [l] are at [a] *)
  Definition here (m : mem) (a : N) (l : list byte) : Prop := bytes_at m a l /\ a + mlen l < addr_space cfg.

  Lemma here_part : forall m a l i k, here m a l -> i + N.of_nat k <= mlen l ->
    bytes_at m (a + i) (firstn k (skipn (N.to_nat i) l)) /\ length (firstn k (skipn (N.to_nat i) l)) = k.
  Proof.
    intros m a l i k [H A] L. unfold mlen in *. split.
    - apply bytes_at_firstn. replace (a + i) with (a + N.of_nat (N.to_nat i)) by lia. apply bytes_at_skipn; [exact H|lia].
    - rewrite firstn_length, skipn_length. lia.
  Qed.
  Lemma byte_at_i : forall m a l i, here m a l -> (i < length l)%nat ->
    byte_of cfg a (N.of_nat i) m = Ok (b2n (nth i l Byte.x00), m).
  Proof.
    intros m a l i [H A] L. unfold mlen in A. apply byte_of_ok; [|lia]. apply H.
    destruct (nth_error l i) eqn:E; [now rewrite (nth_error_nth _ _ _ E)|apply nth_error_None in E; lia].
  Qed.
  (** pointers *)
  Lemma at_i : forall m a l i, here m a l -> i <= mlen l -> padd cfg a i = a + i.
  Proof. intros m a l i [_ A] L. apply padd_small. lia. Qed.
  Lemma at_ij : forall m a l i j, here m a l -> i + j <= mlen l -> padd cfg (a + i) j = a + (i + j).
  Proof. intros m a l i j [_ A] L. rewrite N.add_assoc. apply padd_small. lia. Qed.
  Lemma back_i : forall m a l n i, here m a l -> n <= mlen l -> i <= n -> psub cfg (padd cfg a n) i = a + (n - i).
  Proof. intros m a l n i [_ A] L L2. rewrite padd_small by lia. rewrite psub_small by lia. lia. Qed.

  Hypothesis Hd : xxh_force_memory_access (x3_xxh x3) <> 2.
  Lemma fine_any : forall n p, fine cfg (x3_xxh x3) false n p.
  Proof. intros n p E. cbn [orb] in E. apply N.eqb_eq in E. contradiction. Qed.
  Lemma rd64_at : forall m a l i, here m a l -> i + 8 <= mlen l -> XXH_readLE64 cfg (x3_xxh x3) (a + i) m = Ok (w8 l i, m).
  Proof.
    intros m a l i H L. destruct (here_part m a l i 8 H ltac:(lia)) as [B E]. destruct H as [_ A].
    apply readLE64_ok; [exact B|exact E|lia|apply fine_any].
  Qed.
  Lemma rd32_at : forall m a l i, here m a l -> i + 4 <= mlen l -> XXH_readLE32 cfg (x3_xxh x3) (a + i) m = Ok (w4 l i, m).
  Proof.
    intros m a l i H L. destruct (here_part m a l i 4 H ltac:(lia)) as [B E]. destruct H as [_ A].
    apply readLE32_ok; [exact B|exact E|lia|apply fine_any].
  Qed.
  Section Values.
    Variables (m : mem) (p q seed : N) (msg sec : list byte).
    Hypothesis (Hm : here m p msg) (Hs : here m q sec) (Hz : 136 <= mlen sec).
    Let len := mlen msg.

    (** the four bytes made of the key *)
    Lemma packed_eq : 1 <= len -> len <= 3 ->
      let c i := b2n (nth i msg Byte.x00) in
      N.lor (N.lor (N.lor (shl32 (c 0%nat) 16) (shl32 (c (length msg / 2)%nat) 24)) (shl32 (c (length msg - 1)%nat) 0)) (shl32 (u32 len) 8)
      = packed msg.
    Proof.
      intros L1 L3. unfold packed. cbv beta zeta.
      set (c1 := nth 0 msg Byte.x00). set (c2 := nth (length msg / 2) msg Byte.x00). set (c3 := nth (length msg - 1) msg Byte.x00).
      rewrite !shl32_byte by lia. rewrite u32_small by lia. unfold shl32. rewrite N.shiftl_mul_pow2.
      rewrite u32_small by (change (2 ^ 8) with 256; lia). fold len.
      pose proof (b2n_lt c1). pose proof (b2n_lt c2). pose proof (b2n_lt c3).
      replace (N.lor (N.lor (N.lor (b2n c1 * 2 ^ 16) (b2n c2 * 2 ^ 24)) (b2n c3 * 2 ^ 0)) (len * 2 ^ 8))
        with (N.lor (N.lor (N.lor (b2n c3) (len * 2 ^ 8)) (b2n c1 * 2 ^ 16)) (b2n c2 * 2 ^ 24)).
      2:{ change (2 ^ 0) with 1. rewrite N.mul_1_r. apply N.bits_inj. intro k. rewrite !N.lor_spec.
          destruct (N.testbit (b2n c1 * 2 ^ 16) k), (N.testbit (b2n c2 * 2 ^ 24) k), (N.testbit (b2n c3) k), (N.testbit (len * 2 ^ 8) k); reflexivity. }
      destruct (lor_step (b2n c3) len 8 ltac:(assumption) ltac:(lia)) as [-> L4].
      destruct (lor_step _ (b2n c1) 16 L4 ltac:(assumption)) as [-> L5].
      destruct (lor_step _ (b2n c2) 24 L5 ltac:(assumption)) as [-> _]. lia.
    Qed.
    Lemma packed_lt : 1 <= len -> len <= 3 -> packed msg < 2 ^ 32.
    Proof.
      intros L1 L3. unfold packed. cbv beta zeta. fold len. repeat match goal with |- context [b2n ?c] => pose proof (b2n_lt c); generalize dependent (b2n c); intros end.
      lia.
    Qed.
    Lemma three_bytes : 1 <= len -> len <= 3 -> forall A (k : N -> N -> N -> M A),
      (c1 <- byte_of cfg p 0 ;; c2 <- byte_of cfg p (N.shiftr len 1) ;; c3 <- byte_of cfg p (len - 1) ;; k c1 c2 c3) m =
      (let c i := b2n (nth i msg Byte.x00) in k (c 0%nat) (c (length msg / 2)%nat) (c (length msg - 1)%nat) m).
    Proof.
      intros L1 L3 A k.
      pose proof (byte_at_i m p msg 0 Hm ltac:(unfold len, mlen in *; lia)) as R0.
      pose proof (byte_at_i m p msg (length msg / 2) Hm ltac:(unfold len, mlen in *; lia)) as R1.
      pose proof (byte_at_i m p msg (length msg - 1) Hm ltac:(unfold len, mlen in *; lia)) as R2.
      replace (N.of_nat (length msg / 2)) with (N.shiftr len 1) in R1
        by (rewrite N.shiftr_div_pow2; unfold len, mlen; change (2 ^ 1) with 2; lia).
      replace (N.of_nat (length msg - 1)) with (len - 1) in R2 by (unfold len, mlen; lia).
      ok R0. ok R1. ok R2. reflexivity.
    Qed.
    Lemma sec32 : forall i, i + 4 <= 136 -> XXH_readLE32 cfg (x3_xxh x3) (padd cfg q i) m = Ok (w4 sec i, m).
    Proof. intros i L. rewrite (at_i m q sec i Hs) by lia. apply rd32_at; [exact Hs|lia]. Qed.
    Lemma sec64 : forall i, i + 8 <= 136 -> XXH_readLE64 cfg (x3_xxh x3) (padd cfg q i) m = Ok (w8 sec i, m).
    Proof. intros i L. rewrite (at_i m q sec i Hs) by lia. apply rd64_at; [exact Hs|lia]. Qed.
    Lemma sec32_0 : XXH_readLE32 cfg (x3_xxh x3) q m = Ok (w4 sec 0, m).
    Proof. rewrite <- (N.add_0_r q) at 1. apply rd32_at; [exact Hs|lia]. Qed.
    Lemma msg32_0 : 4 <= len -> XXH_readLE32 cfg (x3_xxh x3) p m = Ok (w4 msg 0, m).
    Proof. intro L. rewrite <- (N.add_0_r p) at 1. apply rd32_at; [exact Hm|fold len; lia]. Qed.
    Lemma msg64_0 : 8 <= len -> XXH_readLE64 cfg (x3_xxh x3) p m = Ok (w8 msg 0, m).
    Proof. intro L. rewrite <- (N.add_0_r p) at 1. apply rd64_at; [exact Hm|fold len; lia]. Qed.
    Lemma msg32_back : 4 <= len -> XXH_readLE32 cfg (x3_xxh x3) (psub cfg (padd cfg p len) 4) m = Ok (w4 msg (len - 4), m).
    Proof. intro L. rewrite (back_i m p msg len 4 Hm) by (fold len; lia). apply rd32_at; [exact Hm|fold len; lia]. Qed.
    Lemma msg64_back : 8 <= len -> XXH_readLE64 cfg (x3_xxh x3) (psub cfg (padd cfg p len) 8) m = Ok (w8 msg (len - 8), m).
    Proof. intro L. rewrite (back_i m p msg len 8 Hm) by (fold len; lia). apply rd64_at; [exact Hm|fold len; lia]. Qed.

    Lemma len_1to3_ok : q <> 0 -> p <> 0 -> 1 <= len -> len <= 3 ->
      XXH3_len_1to3_64b cfg x3 p len q seed m =
      Ok (mix_bits_64 (xor (packed msg) (add (xor (w4 sec 0) (w4 sec 4)) seed)), m).
    Proof.
      intros Hq Hp L1 L3. unfold XXH3_len_1to3_64b. do 3 asserted. rewrite (three_bytes L1 L3).
      cbv beta zeta. rewrite (packed_eq L1 L3). ok sec32_0. ok (sec32 4 ltac:(lia)). unfold ret. now rewrite avalanche64_eq.
    Qed.

    Lemma seed_eq : N.lxor seed (shl64 (XXH_swap32 cfg (u32 seed)) 32) = seed_2 seed.
    Proof.
      unfold seed_2, xor. f_equal. rewrite turn32_eq by apply u32_lt. rewrite u32_eq.
      assert (T : turn_32 (seed mod 2 ^ 32) < W32).
      { unfold turn_32, be_num. pose proof (le_num_lt (rev (le_bytes 4 (seed mod 2 ^ 32)))) as T.
        rewrite rev_length, le_bytes_length in T. exact T. }
      unfold shl64. rewrite N.shiftl_mul_pow2. rewrite u64_small by (change (2 ^ 32) with W32 in *; lia). apply N.mul_comm.
    Qed.
    Lemma two_words : forall a b, a < 2 ^ 32 -> b < 2 ^ 32 -> add64 a (shl64 b 32) = a + 2 ^ 32 * b.
    Proof.
      intros a b Ha Hb. unfold add64, shl64. rewrite N.shiftl_mul_pow2. change (2 ^ 32) with W32 in *.
      rewrite (u64_small (_ * _)) by lia. rewrite u64_small by lia. lia.
    Qed.
    Lemma len_4to8_ok : q <> 0 -> p <> 0 -> 4 <= len -> len <= 8 -> (asserting cfg x3 = true -> len <> 8) ->
      XXH3_len_4to8_64b cfg x3 p len q seed m =
      Ok (blend (xor (w4 msg (len - 4) + 2 ^ 32 * w4 msg 0) (sub (xor (w8 sec 8) (w8 sec 16)) (seed_2 seed))) len, m).
    Proof.
      intros Hq Hp L4 L8 HA. unfold XXH3_len_4to8_64b. do 2 asserted.
      ok (ASSERT_ok cfg x3 ((4 <=? len) && (len <? 8)) m ltac:(intro E; specialize (HA E); lia)).
      ok (msg32_0 L4). ok (msg32_back L4). ok (sec64 8 ltac:(lia)). ok (sec64 16 ltac:(lia)).
      unfold ret. cbv zeta. rewrite rrmxmx_eq, seed_eq, two_words by apply w4_lt. reflexivity.
    Qed.

    Lemma len_9to16_ok : q <> 0 -> p <> 0 -> 9 <= len -> len <= 16 ->
      XXH3_len_9to16_64b cfg x3 p len q seed m =
      (let a := xor (w8 msg 0) (add (xor (w8 sec 24) (w8 sec 32)) seed) in
       let b := xor (w8 msg (len - 8)) (sub (xor (w8 sec 40) (w8 sec 48)) seed) in
       Ok (finish (add (add (add len (turn_64 a)) b) (mulfold a b)), m)).
    Proof.
      intros Hq Hp L9 L16. unfold XXH3_len_9to16_64b. do 3 asserted.
      ok (sec64 24 ltac:(lia)). ok (sec64 32 ltac:(lia)). ok (sec64 40 ltac:(lia)). ok (sec64 48 ltac:(lia)).
      ok (msg64_0 ltac:(lia)). ok (msg64_back ltac:(lia)). unfold ret. cbv zeta.
      change N.lxor with xor. rewrite !add64_eq, !sub64_eq.
      rewrite avalanche_eq, turn64_eq, mulfold_eq; [reflexivity|..]; apply xor_lt64; try apply w8_lt; try apply add_lt64; apply sub_lt64.
    Qed.
    Lemma len_0to16_ok : q <> 0 -> (len <> 0 -> p <> 0) -> len <= 16 -> (asserting cfg x3 = true -> len <> 8) ->
      XXH3_len_0to16_64b cfg x3 p len q seed m = Ok (short_64 sec seed msg, m).
    Proof.
      intros Hq Hp L HA. unfold XXH3_len_0to16_64b, short_64. fold len. asserted. cbv zeta.
      destruct (N.ltb_spec 8 len); [|destruct (N.leb_spec 4 len); [|destruct (N.eqb_spec len 0); cbn [negb]]].
      - rewrite len_9to16_ok by (try apply Hp; lia). cbv zeta. replace (len =? 0) with false by lia. replace (len <? 4) with false by lia.
        now replace (len <=? 8) with false by lia.
      - rewrite len_4to8_ok by (try apply Hp; auto; lia). cbv zeta. replace (len =? 0) with false by lia. replace (len <? 4) with false by lia.
        now replace (len <=? 8) with true by lia.
      - ok (sec64 56 ltac:(lia)). ok (sec64 64 ltac:(lia)). unfold ret. now rewrite avalanche64_eq.
      - rewrite len_1to3_ok by (try apply Hp; lia). now replace (len <? 4) with true by lia.
    Qed.

    (** ** Mid range *)
    Lemma mix16B_at : forall i j s, j + 16 <= len -> i + 16 <= mlen sec ->
      XXH3_mix16B cfg x3 (p + j) (q + i) s m = Ok (mix16 sec i s msg j, m).
    Proof.
      intros i j s Hj Hi. unfold XXH3_mix16B. rewrite (at_ij m p msg j 8 Hm), (at_ij m q sec i 8 Hs) by (fold len; lia).
      ok (rd64_at m p msg j Hm ltac:(fold len; lia)). ok (rd64_at m p msg (j + 8) Hm ltac:(fold len; lia)).
      ok (rd64_at m q sec i Hs ltac:(lia)). ok (rd64_at m q sec (i + 8) Hs ltac:(lia)). unfold ret. rewrite mulfold_eq; [reflexivity|..];
        apply xor_lt64; try apply w8_lt; [apply add_lt64|apply sub_lt64].
    Qed.
    Lemma plus16_at : forall i j s acc, j + 16 <= len -> i + 16 <= mlen sec ->
      add_mix16B cfg x3 (p + j) (q + i) s acc m = Ok (plus16 sec i s msg j acc, m).
    Proof. intros i j s acc Hj Hi. unfold add_mix16B. ok (mix16B_at i j s Hj Hi). reflexivity. Qed.
    Lemma plus16_front : forall i j s acc, j + 16 <= len -> i + 16 <= mlen sec ->
      add_mix16B cfg x3 (padd cfg p j) (padd cfg q i) s acc m = Ok (plus16 sec i s msg j acc, m).
    Proof.
      intros i j s acc Hj Hi. rewrite (at_i m p msg j Hm), (at_i m q sec i Hs) by (fold len; lia). now apply plus16_at.
    Qed.
    Lemma plus16_back : forall i k s acc, 16 <= k -> k <= len -> i + 16 <= mlen sec ->
      add_mix16B cfg x3 (psub cfg (padd cfg p len) k) (padd cfg q i) s acc m = Ok (plus16 sec i s msg (len - k) acc, m).
    Proof.
      intros i k s acc Hk Hj Hi. rewrite (back_i m p msg len k Hm), (at_i m q sec i Hs) by (fold len; lia). apply plus16_at; lia.
    Qed.
    Ltac back i k := match goal with |- bind (add_mix16B _ _ _ _ ?s ?a) _ _ = _ =>
      rewrite (bind_ok _ _ _ _ _ _ _ (plus16_back i k s a ltac:(lia) ltac:(lia) ltac:(lia))); rewrite ?bind_assoc end.
    Ltac front i j := match goal with |- bind (add_mix16B _ _ _ _ ?s ?a) _ _ = _ =>
      rewrite (bind_ok _ _ _ _ _ _ _ (plus16_front i j s a ltac:(lia) ltac:(lia))); rewrite ?bind_assoc end.
    Ltac both i j i2 k := front i j; back i2 k.
    Lemma len_17to128_ok : 17 <= len -> len <= 128 ->
      XXH3_len_17to128_64b cfg x3 p len q (mlen sec) seed m = Ok (mid_64 sec seed msg, m).
    Proof.
      intros L17 L128. unfold XXH3_len_17to128_64b, mid_64. fold len. unfold XXH3_SECRET_SIZE_MIN. do 2 asserted. cbv zeta.
      assert (G : forall k n, rev (below_n (N.of_nat n)) = k -> (len - 1) / 32 + 1 = N.of_nat n -> rev (below_n ((len - 1) / 32 + 1)) = k)
        by (intros k n <- ->; reflexivity).
      destruct (N.ltb_spec 32 len); [destruct (N.ltb_spec 64 len); [destruct (N.ltb_spec 96 len)|]|]; rewrite ?bind_assoc.
      - rewrite (G [3; 2; 1; 0] 4%nat eq_refl ltac:(lia)). cbn [fold_left].
        both 96 48 112 64. both 64 32 80 48. both 32 16 48 32. both 0 0 16 16.
        unfold ret. now rewrite avalanche_eq.
      - rewrite (G [2; 1; 0] 3%nat eq_refl ltac:(lia)). cbn [fold_left]. rewrite ?bind_ret, ?bind_assoc.
        both 64 32 80 48. both 32 16 48 32. both 0 0 16 16. unfold ret. now rewrite avalanche_eq.
      - rewrite (G [1; 0] 2%nat eq_refl ltac:(lia)). cbn [fold_left]. rewrite ?bind_ret, ?bind_assoc.
        both 32 16 48 32. both 0 0 16 16. unfold ret. now rewrite avalanche_eq.
      - rewrite (G [0] 1%nat eq_refl ltac:(lia)). cbn [fold_left]. rewrite ?bind_ret.
        both 0 0 16 16. unfold ret. now rewrite avalanche_eq.
    Qed.
    Lemma len_129to240_ok : 129 <= len -> len <= 240 ->
      XXH3_len_129to240_64b cfg x3 p len q (mlen sec) seed m = Ok (mid2_64 sec seed msg, m).
    Proof.
      intros L1 L2. unfold XXH3_len_129to240_64b, mid2_64. fold len.
      unfold XXH3_SECRET_SIZE_MIN, XXH3_MIDSIZE_MAX, XXH3_MIDSIZE_STARTOFFSET, XXH3_MIDSIZE_LASTOFFSET. do 2 asserted. cbv zeta.
      loop (fun acc i => plus16 sec (16 * i) seed msg (16 * i) acc); [intros k b H; apply plus16_front; lia|].
      asserted. rewrite avalanche_eq.
      loop (fun acc i => plus16 sec (16 * i + 3) seed msg (16 * (i + 8)) acc).
      { intros k b H.
        rewrite (at_i m p msg (16 * (k + 8)) Hm), (at_i m q sec (16 * k) Hs), (at_ij m q sec (16 * k) 3 Hs) by (fold len; lia).
        apply plus16_at; lia. }
      rewrite N2Nat.id. rewrite (back_i m q sec 136 17 Hs) by lia.
      rewrite (back_i m p msg len 16 Hm) by (fold len; lia).
      ok (plus16_at (136 - 17) (len - 16) seed
            (fold_left (fun acc i => plus16 sec (16 * i + 3) seed msg (16 * (i + 8)) acc) (below_n (len / 16 - 8))
              (finish (fold_left (fun acc i => plus16 sec (16 * i) seed msg (16 * i) acc) (below_n (N.of_nat 8)) (mul64 len XXH_PRIME64_1))))
            ltac:(lia) ltac:(lia)).
      unfold ret. now rewrite avalanche_eq.
    Qed.

    (** ** Long keys *)
    Lemma accumulate_512_at : forall i j v, length v = 8%nat -> j + 64 <= len -> i + 64 <= mlen sec ->
      XXH3_accumulate_512 cfg x3 (p + j) (q + i) v m = Ok (stripe_3 sec i msg j v, m).
    Proof.
      intros i j v Lv Hj Hi. unfold XXH3_accumulate_512.
      refine (eq_trans (proj1 (for_loop_ok (list N) (fun a => length a = 8%nat)
        (lane_step (fun k => w8 msg (j + 8 * k)) (fun k => w8 sec (i + 8 * k))) 8 _ v m Lv _)) _).
      - intros k a Lk La. split; [|apply lane_step_length; [exact Lk|exact La]].
        rewrite (at_ij m p msg j (8 * k) Hm), (at_ij m q sec i (k * 8) Hs) by (fold len; lia).
        ok (rd64_at m p msg (j + 8 * k) Hm ltac:(fold len; lia)). ok (rd64_at m q sec (i + k * 8) Hs ltac:(lia)).
        rewrite (N.mul_comm k 8). reflexivity.
      - rewrite (lane_steps _ _ v Lv (fun k => w8_lt _ _) (fun k => w8_lt _ _)). reflexivity.
    Qed.
    Lemma scramble_at : forall i v, length v = 8%nat -> i + 64 <= mlen sec ->
      XXH3_scrambleAcc cfg x3 (q + i) v m = Ok (scramble sec i v, m).
    Proof.
      intros i v Lv Hi. unfold XXH3_scrambleAcc.
      refine (eq_trans (proj1 (for_loop_ok (list N) (fun a => length a = 8%nat)
        (fun a k => acc_set a k (mulw (xor (fold_64 (acc_get a k) 47) (w8 sec (i + 8 * k))) A1)) 8 _ v m Lv _)) _).
      - intros k a Lk La. split; [|apply acc_set_length; [exact Lk|exact La]].
        rewrite (at_ij m q sec i (8 * k) Hs) by lia. ok (rd64_at m q sec (i + 8 * k) Hs ltac:(lia)).
        cbv zeta. rewrite xorshift_eq. reflexivity.
      - rewrite (set_steps (fun k a => mulw (xor (fold_64 a 47) (w8 sec (i + 8 * k))) A1) v Lv). reflexivity.
    Qed.

    (** stripes from [k0] on, with the secret from its beginning *)
    Lemma accumulate_at : forall k0 n v, length v = 8%nat -> 64 * (k0 + n) <= len -> 8 * n + 56 <= mlen sec ->
      XXH3_accumulate cfg x3 (p + 64 * k0) q n v m =
      Ok (fold_left (fun v k => stripe_3 sec (8 * k) msg (64 * (k0 + k)) v) (below_n n) v, m).
    Proof.
      intros k0 n v Lv Hj Hi. unfold XXH3_accumulate.
      refine (eq_trans (proj1 (for_loop_ok (list N) (fun a => length a = 8%nat)
        (fun v k => stripe_3 sec (8 * k) msg (64 * (k0 + k)) v) (N.to_nat n) _ v m Lv _)) _).
      - intros k a Lk La. split; [|reflexivity].
        rewrite (at_ij m p msg (64 * k0) (k * 64) Hm), (at_i m q sec (k * 8) Hs) by (fold len; lia).
        rewrite accumulate_512_at by (try exact La; lia). do 3 f_equal; lia.
      - now rewrite N2Nat.id.
    Qed.

    Lemma fold_length : forall (k0 : N) l v, length v = 8%nat ->
      length (fold_left (fun v k => stripe_3 sec (8 * k) msg (64 * (k0 + k)) v) l v) = 8%nat.
    Proof. intros k0 l. induction l as [|k l IH]; intros v H; [exact H|]. cbn [fold_left]. apply IH. reflexivity. Qed.
    Lemma stripes_snoc : forall n, stripes_3 sec msg (n + 1) = step_3 sec msg (stripes_3 sec msg n) n.
    Proof.
      intro n. unfold stripes_3. rewrite below_add, fold_left_app. cbn [fold_left map].
      change (below_n 1) with [0]. cbn [map fold_left]. now rewrite N.add_0_r.
    Qed.
    Lemma stripes_length : forall n, length (stripes_3 sec msg n) = 8%nat.
    Proof.
      intro n. induction n as [|n IH] using N.peano_ind; [reflexivity|]. rewrite <- N.add_1_r, stripes_snoc.
      unfold step_3. destruct (_ =? 0); reflexivity.
    Qed.
    Lemma per_pos : 9 <= period sec.
    Proof. unfold period. lia. Qed.
    (** part of a block *)
    Lemma part_eq : forall b n, n <= period sec - 1 ->
      fold_left (fun v k => stripe_3 sec (8 * k) msg (64 * (b * period sec + k)) v) (below_n n) (stripes_3 sec msg (b * period sec))
      = stripes_3 sec msg (b * period sec + n).
    Proof.
      intros b n. pose proof per_pos as PP. induction n as [|n IH] using N.peano_ind; intro H; [now rewrite N.add_0_r|].
      rewrite <- N.add_1_r, below_add, fold_left_app, IH by lia. change (below_n 1) with [0]. cbn [map fold_left].
      rewrite N.add_0_r, N.add_assoc, stripes_snoc. unfold step_3.
      assert (E : (b * period sec + n) mod period sec = n).
      { rewrite N.add_comm, N.mod_add by lia. apply N.mod_small. lia. }
      assert (E1 : (b * period sec + n + 1) mod period sec = n + 1).
      { rewrite <- N.add_assoc, N.add_comm, N.mod_add by lia. apply N.mod_small. lia. }
      rewrite E, E1. now replace (n + 1 =? 0) with false by lia.
    Qed.
    Lemma block_eq : forall b,
      scramble sec (mlen sec - 64)
        (fold_left (fun v k => stripe_3 sec (8 * k) msg (64 * (b * period sec + k)) v) (below_n (period sec)) (stripes_3 sec msg (b * period sec)))
      = stripes_3 sec msg ((b + 1) * period sec).
    Proof.
      intro b. pose proof per_pos as PP. replace (below_n (period sec)) with (below_n (period sec - 1 + 1)) by (f_equal; lia).
      rewrite below_add, fold_left_app, part_eq by lia. change (below_n 1) with [0]. cbn [map fold_left]. rewrite N.add_0_r.
      replace ((b + 1) * period sec) with (b * period sec + (period sec - 1) + 1) by lia. rewrite stripes_snoc. unfold step_3.
      set (n := period sec - 1) in *.
      assert (E : (b * period sec + n) mod period sec = n).
      { rewrite N.add_comm, N.mod_add by lia. apply N.mod_small. lia. }
      assert (E1 : (b * period sec + n + 1) mod period sec = 0).
      { replace (b * period sec + n + 1) with ((b + 1) * period sec) by lia. apply N.mod_mul. lia. }
      rewrite E, E1. reflexivity.
    Qed.
    Lemma hashLong_loop_ok : 64 < len -> mlen sec < addr_space cfg ->
      XXH3_hashLong_internal_loop cfg x3 p len q (mlen sec) XXH3_INIT_ACC m = Ok (long_3 sec msg, m).
    Proof.
      intros L Ls. unfold XXH3_hashLong_internal_loop. pose proof per_pos as PP.
      assert (La : len < addr_space cfg) by (destruct Hm as [_ A]; fold len in A; lia).
      rewrite (psub_small cfg (mlen sec) 64), (psub_small cfg len 1) by lia. fold (period sec).
      replace (period sec =? 0) with false by lia. cbv zeta.
      set (B := (len - 1) / (64 * period sec)).
      assert (EB : (len - 1) / 64 / period sec = B) by (unfold B; rewrite N.div_div by lia; reflexivity).
      pose proof (N.div_mod ((len - 1) / 64) (period sec) ltac:(lia)) as ED.
      pose proof (N.mod_lt ((len - 1) / 64) (period sec) ltac:(lia)) as EL. rewrite EB in ED.
      set (r := ((len - 1) / 64) mod period sec) in *. set (P := period sec) in *.
      assert (HP : 8 * P + 64 <= mlen sec) by (unfold P, period; lia).
      assert (HB : P * B <= (len - 1) / 64) by lia.
      unfold XXH3_SECRET_SIZE_MIN. asserted.
      assert (E : for_loop (N.to_nat B) 0
        (fun n acc => acc <- XXH3_accumulate cfg x3 (padd cfg p (n * (64 * P))) q P acc ;;
                      XXH3_scrambleAcc cfg x3 (psub cfg (padd cfg q (mlen sec)) 64) acc) XXH3_INIT_ACC m
        = Ok (stripes_3 sec msg (B * P), m)).
      { assert (G : forall n, n <= B -> for_loop (N.to_nat n) 0
          (fun n acc => acc <- XXH3_accumulate cfg x3 (padd cfg p (n * (64 * P))) q P acc ;;
                        XXH3_scrambleAcc cfg x3 (psub cfg (padd cfg q (mlen sec)) 64) acc) XXH3_INIT_ACC m
          = Ok (stripes_3 sec msg (n * P), m)); [|exact (G B (N.le_refl B))].
        intro n. induction n as [|n IH] using N.peano_ind; intro Hn; [reflexivity|].
        rewrite N2Nat.inj_succ, (for_loop_snoc _ _ _ _ _ _ _ _ (IH ltac:(lia))), N2Nat.id, N.add_0_l.
        assert (Hk : 64 * (n * P + P) <= len).
        { assert (P * (n + 1) <= P * B) by (apply N.mul_le_mono_l; lia). lia. }
        rewrite (at_i m p msg (n * (64 * P)) Hm) by (fold len; lia).
        replace (n * (64 * P)) with (64 * (n * P)) by lia.
        ok (accumulate_at (n * P) P (stripes_3 sec msg (n * P)) (stripes_length _) ltac:(lia) ltac:(lia)).
        rewrite (back_i m q sec (mlen sec) 64 Hs) by lia. rewrite scramble_at; [|apply fold_length, stripes_length|lia].
        rewrite <- N.add_1_r. unfold P. now rewrite block_eq. }
      ok E. clear E. asserted.
      assert (F0 : (len - 1 - 64 * P * B) / 64 = r).
      { rewrite <- N.mul_assoc. clear - ED HB. generalize dependent (P * B). intros t ED HB. lia. }
      assert (F1 : 64 * (B * P + r) <= len /\ 64 * (B * P) <= len).
      { rewrite (N.mul_comm B P). clear - ED L. generalize dependent (P * B). intros t ED. lia. }
      assert (F2 : 8 * r + 56 <= mlen sec) by (clear - HP EL; lia).
      rewrite F0. ok (ASSERT_ok cfg x3 (r <=? mlen sec / 8) m ltac:(intros _; clear - F2; lia)).
      replace (B * (64 * P)) with (64 * (B * P)) by (clear; lia). rewrite (at_i m p msg (64 * (B * P)) Hm) by apply F1.
      ok (accumulate_at (B * P) r (stripes_3 sec msg (B * P)) (stripes_length _) (proj1 F1) F2).
      unfold P at 1 2. rewrite part_eq by (fold P; clear - EL; lia). fold P.
      assert (Aq : q + mlen sec < addr_space cfg) by (destruct Hs; assumption).
      clear HP HB EL EB F0 F1 F2 PP.
      rewrite (back_i m p msg len 64 Hm) by (fold len; clear - L; lia).
      rewrite (back_i m q sec (mlen sec) 64 Hs) by (clear - Hz; lia).
      rewrite (psub_small cfg (q + (mlen sec - 64)) 7) by (clear - Hz Aq; lia).
      replace (q + (mlen sec - 64) - 7) with (q + (mlen sec - 71)) by (clear - Hz; lia).
      rewrite accumulate_512_at; [|apply stripes_length|clear - L; lia|clear - Hz; lia].
      unfold long_3. fold len. do 4 f_equal. rewrite ED. apply f_equal2; [apply N.mul_comm|reflexivity].
    Qed.

    Lemma merge_at : forall i v start, length v = 8%nat -> Forall (fun a => a < 2 ^ 64) v -> i + 64 <= mlen sec ->
      XXH3_mergeAccs cfg x3 v (q + i) start m = Ok (merge_3 sec i v start, m).
    Proof.
      intros i v start Lv Fv Hi. unfold XXH3_mergeAccs, merge_3.
      assert (Hl : forall k, lane v k < 2 ^ 64).
      { intro k. unfold lane. destruct (nth_in_or_default (N.to_nat k) v 0) as [I| ->]; [|reflexivity].
        rewrite Forall_forall in Fv. now apply Fv. }
      loop (fun acc k => add acc (mulfold (xor (lane v (2 * k)) (w8 sec (i + 16 * k))) (xor (lane v (2 * k + 1)) (w8 sec (i + 16 * k + 8))))).
      - intros k a Hk. rewrite (at_ij m q sec i (16 * k) Hs) by lia. unfold XXH3_mix2Accs. rewrite bind_assoc.
        ok (rd64_at m q sec (i + 16 * k) Hs ltac:(lia)). rewrite (at_ij m q sec (i + 16 * k) 8 Hs) by lia. rewrite bind_assoc.
        ok (rd64_at m q sec (i + 16 * k + 8) Hs ltac:(lia)). rewrite bind_ret. unfold ret.
        assert (G : forall n c, acc_get (skipn n v) (N.of_nat c) = lane v (N.of_nat (n + c))).
        { intros n c. unfold acc_get, lane. rewrite !Nat2N.id. rewrite <- (firstn_skipn n v) at 2.
          destruct (Nat.le_gt_cases n (length v)).
          - rewrite app_nth2; rewrite firstn_length_le by lia; [f_equal; lia|lia].
          - rewrite skipn_all2 by lia. rewrite app_nil_r. rewrite (nth_overflow (firstn _ _)) by (rewrite firstn_length; lia). now destruct c. }
        pose proof (G (N.to_nat (2 * k)) 0%nat) as G0. pose proof (G (N.to_nat (2 * k)) 1%nat) as G1.
        cbn [N.of_nat Pos.of_succ_nat] in G0, G1. rewrite G0, G1. rewrite Nat.add_0_r, N2Nat.id.
        replace (N.of_nat (N.to_nat (2 * k) + 1)) with (2 * k + 1) by lia.
        rewrite mulfold_eq; [reflexivity|..]; apply xor_lt64; auto using w8_lt.
      - unfold ret. now rewrite avalanche_eq.
    Qed.
    Lemma stripe_lt : forall i j v, Forall (fun a => a < 2 ^ 64) (stripe_3 sec i msg j v).
    Proof.
      intros. unfold stripe_3, each. apply Forall_forall. intros x H. apply in_map_iff in H. destruct H as (k & <- & _). apply add_lt64.
    Qed.
    Lemma hashLong_64b_ok : 64 < len ->
      XXH3_hashLong_64b_internal cfg x3 p len q (mlen sec) m = Ok (merge_3 sec 11 (long_3 sec msg) (mulw len B1), m).
    Proof.
      intro L. unfold XXH3_hashLong_64b_internal. ok (hashLong_loop_ok L ltac:(destruct Hs; lia)). asserted.
      rewrite (at_i m q sec 11 Hs) by lia. apply merge_at; [reflexivity|apply stripe_lt|lia].
    Qed.
    Lemma hashLong_128b_ok : 64 < len ->
      XXH3_hashLong_128b_internal cfg x3 p len q (mlen sec) m =
      Ok ((merge_3 sec 11 (long_3 sec msg) (mulw len B1), merge_3 sec (mlen sec - 75) (long_3 sec msg) (compl (mulw len B2))), m).
    Proof.
      intro L. unfold XXH3_hashLong_128b_internal. ok (hashLong_loop_ok L ltac:(destruct Hs; lia)). asserted.
      rewrite (at_i m q sec 11 Hs) by lia.
      ok (merge_at 11 (long_3 sec msg) (mul64 len XXH_PRIME64_1) eq_refl (stripe_lt _ _ _) ltac:(lia)).
      rewrite (back_i m q sec (mlen sec) 64 Hs) by lia.
      rewrite (psub_small cfg (q + (mlen sec - 64)) 11) by (destruct Hs; lia).
      replace (q + (mlen sec - 64) - 11) with (q + (mlen sec - 75)) by lia.
      ok (merge_at (mlen sec - 75) (long_3 sec msg) (not64 (mul64 len XXH_PRIME64_2)) eq_refl (stripe_lt _ _ _) ltac:(lia)).
      unfold ret. rewrite not64_eq. reflexivity.
    Qed.

    (** ** 128 bits *)
    Lemma len_1to3_128_ok : q <> 0 -> p <> 0 -> 1 <= len -> len <= 3 ->
      XXH3_len_1to3_128b cfg x3 p len q seed m =
      Ok ((mix_bits_64 (xor (packed msg) (add (xor (w4 sec 0) (w4 sec 4)) seed)),
           mix_bits_64 (xor (left_32 (turn_32 (packed msg)) 13) (sub (xor (w4 sec 8) (w4 sec 12)) seed))), m).
    Proof.
      intros Hq Hp L1 L3. unfold XXH3_len_1to3_128b. do 3 asserted. rewrite (three_bytes L1 L3).
      cbv beta zeta. rewrite (packed_eq L1 L3). ok sec32_0. ok (sec32 4 ltac:(lia)). ok (sec32 8 ltac:(lia)). ok (sec32 12 ltac:(lia)).
      unfold ret. rewrite !avalanche64_eq, rotl32_eq, turn32_eq by (try lia; now apply packed_lt). reflexivity.
    Qed.
    Lemma len_4to8_128_ok : q <> 0 -> p <> 0 -> 4 <= len -> len <= 8 ->
      XXH3_len_4to8_128b cfg x3 p len q seed m =
      (let a := xor (w4 msg 0 + 2 ^ 32 * w4 msg (len - 4)) (add (xor (w8 sec 16) (w8 sec 24)) (seed_2 seed)) in
       let b := B1 + 4 * len in
       let h := add (hi a b) (2 * lo a b) in
       let l := xor (lo a b) (h / 2 ^ 3) in
       Ok ((fold_64 (mulw (fold_64 l 35) C2) 28, finish h), m)).
    Proof.
      intros Hq Hp L4 L8. unfold XXH3_len_4to8_128b. do 3 asserted.
      ok (msg32_0 L4). ok (msg32_back L4). ok (sec64 16 ltac:(lia)). ok (sec64 24 ltac:(lia)).
      cbv zeta. rewrite seed_eq, two_words by apply w4_lt. change N.lxor with xor. change add64 with add.
      set (a := xor (w4 msg 0 + 2 ^ 32 * w4 msg (len - 4)) (add (xor (w8 sec 16) (w8 sec 24)) (seed_2 seed))).
      assert (Ha : a < 2 ^ 64).
      { apply xor_lt64; [|apply add_lt64]. pose proof (w4_lt msg 0). pose proof (w4_lt msg (len - 4)). change (2 ^ 32) with W32 in *. change (2 ^ 64) with W64. lia. }
      replace (add XXH_PRIME64_1 (N.shiftl len 2)) with (B1 + 4 * len).
      2:{ rewrite N.shiftl_mul_pow2. change (2 ^ 2) with 4. unfold add. rewrite N.mod_small; [change XXH_PRIME64_1 with B1; lia|].
          change (2 ^ 64) with W64. change XXH_PRIME64_1 with 11400714785074694791. lia. }
      set (b := B1 + 4 * len). assert (Hb : b < 2 ^ 64) by (unfold b, B1; change (2 ^ 64) with W64; lia).
      rewrite mult64to128_eq by assumption.
      assert (Eh : add (hi a b) (shl64 (lo a b) 1) = add (hi a b) (2 * lo a b)).
      { unfold shl64. rewrite N.shiftl_mul_pow2. change (2 ^ 1) with 2. rewrite u64_eq. unfold add.
        rewrite N.add_mod_idemp_r by discriminate. f_equal. lia. }
      rewrite Eh. set (h := add (hi a b) (2 * lo a b)). assert (Hh : h < 2 ^ 64) by apply add_lt64.
      unfold ret. rewrite !xorshift_eq, avalanche_eq, shr64_eq, (N.mod_small h) by exact Hh. reflexivity.
    Qed.
    Lemma high_half : forall b, b < 2 ^ 64 -> N.land b 0xFFFFFFFF00000000 = b / 2 ^ 32 * 2 ^ 32.
    Proof.
      intros b H. change 0xFFFFFFFF00000000 with (N.ones 32 * 2 ^ 32). rewrite land_mask. f_equal. apply N.mod_small.
      apply N.div_lt_upper_bound; [discriminate|exact H].
    Qed.
    Lemma len_9to16_128_ok : q <> 0 -> p <> 0 -> 9 <= len -> len <= 16 ->
      XXH3_len_9to16_128b cfg x3 p len q seed m =
      (let a := xor (xor (w8 msg 0) (w8 msg (len - 8))) (sub (xor (w8 sec 32) (w8 sec 40)) seed) in
       let b := xor (w8 msg (len - 8)) (add (xor (w8 sec 48) (w8 sec 56)) seed) in
       let h := add (hi a B1) (b / 2 ^ 32 * 2 ^ 32 + b mod 2 ^ 32 * A2) in
       let l := xor (add (lo a B1) (2 ^ 54 * (len - 1))) (turn_64 h) in
       Ok ((finish (lo l B2), finish (add (hi l B2) (mulw h B2))), m)).
    Proof.
      intros Hq Hp L9 L16. unfold XXH3_len_9to16_128b. do 3 asserted.
      ok (sec64 32 ltac:(lia)). ok (sec64 40 ltac:(lia)). ok (sec64 48 ltac:(lia)). ok (sec64 56 ltac:(lia)).
      ok (msg64_0 ltac:(lia)). ok (msg64_back ltac:(lia)). cbv zeta. change N.lxor with xor. rewrite sub64_eq.
      change (add64 (xor (w8 sec 48) (w8 sec 56)) seed) with (add (xor (w8 sec 48) (w8 sec 56)) seed).
      set (a := xor (xor (w8 msg 0) (w8 msg (len - 8))) (sub (xor (w8 sec 32) (w8 sec 40)) seed)).
      set (b := xor (w8 msg (len - 8)) (add (xor (w8 sec 48) (w8 sec 56)) seed)).
      assert (Ha : a < 2 ^ 64) by (apply xor_lt64; [apply xor_lt64; apply w8_lt|apply sub_lt64]).
      assert (Hb : b < 2 ^ 64) by (apply xor_lt64; [apply w8_lt|apply add_lt64]).
      change XXH_PRIME64_1 with B1. rewrite mult64to128_eq by (assumption || reflexivity).
      assert (Eh : (if negb (ptr64 cfg) then
          add64 (hi a B1) (add64 (N.land b 0xFFFFFFFF00000000) (XXH_mult32to64 (u32 b) XXH_PRIME32_2))
        else add64 (hi a B1) (add64 b (XXH_mult32to64 (u32 b) (XXH_PRIME32_2 - 1)))) = add (hi a B1) (b / 2 ^ 32 * 2 ^ 32 + b mod 2 ^ 32 * A2)).
      { rewrite !mult32to64_eq, high_half by exact Hb. rewrite !u32_eq. change (2 ^ 32) with W32. rewrite !N.mod_mod by discriminate.
        change (XXH_PRIME32_2 mod W32) with A2. change ((XXH_PRIME32_2 - 1) mod W32) with (A2 - 1).
        assert (S : b + b mod W32 * (A2 - 1) = b / W32 * W32 + b mod W32 * A2).
        { pose proof (N.div_mod b W32 ltac:(discriminate)) as D. unfold A2 in *. lia. }
        unfold add64, add, u64. change (2 ^ 64) with W64. rewrite !N.add_mod_idemp_r by discriminate. rewrite S. now destruct (negb (ptr64 cfg)). }
      rewrite Eh. clear Eh. set (h := add (hi a B1) (b / 2 ^ 32 * 2 ^ 32 + b mod 2 ^ 32 * A2)). assert (Hh : h < 2 ^ 64) by apply add_lt64.
      rewrite turn64_eq by exact Hh.
      replace (shl64 (len - 1) 54) with (2 ^ 54 * (len - 1)).
      2:{ unfold shl64. rewrite N.shiftl_mul_pow2, u64_small; [lia|]. change (2 ^ 54) with 18014398509481984. lia. }
      rewrite add64_eq. set (l := xor (add (lo a B1) (2 ^ 54 * (len - 1))) (turn_64 h)).
      assert (Hl : l < 2 ^ 64).
      { apply xor_lt64; [apply add_lt64|]. unfold turn_64, be_num. pose proof (le_num_lt (rev (le_bytes 8 h))) as T.
        rewrite rev_length, le_bytes_length in T. exact T. }
      change XXH_PRIME64_2 with B2. rewrite mult64to128_eq by (assumption || reflexivity). unfold ret. rewrite !avalanche_eq. reflexivity.
    Qed.
    Lemma len_0to16_128_ok : q <> 0 -> (len <> 0 -> p <> 0) -> len <= 16 ->
      XXH3_len_0to16_128b cfg x3 p len q seed m = Ok (short_128 sec seed msg, m).
    Proof.
      intros Hq Hp L. unfold XXH3_len_0to16_128b, short_128. fold len. asserted. cbv zeta.
      destruct (N.ltb_spec 8 len); [|destruct (N.leb_spec 4 len); [|destruct (N.eqb_spec len 0); cbn [negb]]].
      - rewrite len_9to16_128_ok by (try apply Hp; lia). cbv zeta. replace (len =? 0) with false by lia. replace (len <? 4) with false by lia.
        now replace (len <=? 8) with false by lia.
      - rewrite len_4to8_128_ok by (try apply Hp; auto; lia). cbv zeta. replace (len =? 0) with false by lia. replace (len <? 4) with false by lia.
        now replace (len <=? 8) with true by lia.
      - ok (sec64 64 ltac:(lia)). ok (sec64 72 ltac:(lia)). ok (sec64 80 ltac:(lia)). ok (sec64 88 ltac:(lia)). unfold ret. now rewrite !avalanche64_eq.
      - rewrite len_1to3_128_ok by (try apply Hp; lia). now replace (len <? 4) with true by lia.
    Qed.
    Lemma mix32B_at : forall i j1 j2 s acc, j1 + 16 <= len -> j2 + 16 <= len -> i + 32 <= mlen sec ->
      XXH128_mix32B cfg x3 acc (p + j1) (p + j2) (q + i) s m = Ok (plus32 sec i s msg j1 j2 acc, m).
    Proof.
      intros i j1 j2 s [lo hi] H1 H2 Hi. unfold XXH128_mix32B, plus32. cbn [fst snd].
      rewrite (at_ij m q sec i 0 Hs), (at_ij m q sec i 16 Hs), (at_ij m p msg j1 8 Hm), (at_ij m p msg j2 8 Hm) by (fold len; lia). rewrite N.add_0_r.
      ok (mix16B_at i j1 s ltac:(lia) ltac:(lia)).
      ok (rd64_at m p msg j2 Hm ltac:(fold len; lia)). ok (rd64_at m p msg (j2 + 8) Hm ltac:(fold len; lia)).
      ok (mix16B_at (i + 16) j2 s ltac:(lia) ltac:(lia)).
      ok (rd64_at m p msg j1 Hm ltac:(fold len; lia)). ok (rd64_at m p msg (j1 + 8) Hm ltac:(fold len; lia)). reflexivity.
    Qed.
    Lemma mid_128_eq : forall acc, XXH3_mid_128b len seed acc = finish_128 len seed acc.
    Proof. intros [lo hi]. unfold XXH3_mid_128b, finish_128. cbn [fst snd]. now rewrite !avalanche_eq. Qed.
    Lemma pair_at : forall i j k s acc, j + 16 <= len -> 16 <= k -> k <= len -> i + 32 <= mlen sec ->
      XXH128_mix32B cfg x3 acc (padd cfg p j) (psub cfg (padd cfg p len) k) (padd cfg q i) s m = Ok (plus32 sec i s msg j (len - k) acc, m).
    Proof.
      intros i j k s acc H1 H2 H3 H4. rewrite (at_i m p msg j Hm), (back_i m p msg len k Hm), (at_i m q sec i Hs) by (fold len; lia).
      apply mix32B_at; lia.
    Qed.
    Ltac pair_ i j k := match goal with |- bind (XXH128_mix32B _ _ ?a _ _ _ ?s) _ _ = _ =>
      rewrite (bind_ok _ _ _ _ _ _ _ (pair_at i j k s a ltac:(lia) ltac:(lia) ltac:(lia) ltac:(lia))); rewrite ?bind_assoc end.
    Lemma len_17to128_128_ok : 17 <= len -> len <= 128 ->
      XXH3_len_17to128_128b cfg x3 p len q (mlen sec) seed m = Ok (mid_128 sec seed msg, m).
    Proof.
      intros L17 L128. unfold XXH3_len_17to128_128b, mid_128. fold len. unfold XXH3_SECRET_SIZE_MIN. do 2 asserted. cbv zeta.
      assert (G : forall k n, rev (below_n (N.of_nat n)) = k -> (len - 1) / 32 + 1 = N.of_nat n -> rev (below_n ((len - 1) / 32 + 1)) = k)
        by (intros k n <- ->; reflexivity).
      assert (Z : forall acc, XXH128_mix32B cfg x3 acc p (psub cfg (padd cfg p len) 16) q seed m = Ok (plus32 sec (32 * 0) seed msg (16 * 0) (len - 16 * (0 + 1)) acc, m)).
      { intro acc. rewrite <- (pair_at (32 * 0) (16 * 0) (16 * (0 + 1)) seed acc) by lia.
        change (32 * 0) with 0. change (16 * 0) with 0. rewrite (at_i m p msg 0 Hm), (at_i m q sec 0 Hs) by lia. now rewrite !N.add_0_r. }
      destruct (N.ltb_spec 32 len); [destruct (N.ltb_spec 64 len); [destruct (N.ltb_spec 96 len)|]|]; rewrite ?bind_assoc.
      - rewrite (G [3; 2; 1; 0] 4%nat eq_refl ltac:(lia)). cbn [fold_left].
        pair_ 96 48 64. pair_ 64 32 48. pair_ 32 16 32. rewrite (bind_ok _ _ _ _ _ _ _ (Z _)). unfold ret. now rewrite mid_128_eq.
      - rewrite (G [2; 1; 0] 3%nat eq_refl ltac:(lia)). cbn [fold_left]. rewrite ?bind_ret, ?bind_assoc.
        pair_ 64 32 48. pair_ 32 16 32. rewrite (bind_ok _ _ _ _ _ _ _ (Z _)). unfold ret. now rewrite mid_128_eq.
      - rewrite (G [1; 0] 2%nat eq_refl ltac:(lia)). cbn [fold_left]. rewrite ?bind_ret, ?bind_assoc.
        pair_ 32 16 32. rewrite (bind_ok _ _ _ _ _ _ _ (Z _)). unfold ret. now rewrite mid_128_eq.
      - rewrite (G [0] 1%nat eq_refl ltac:(lia)). cbn [fold_left]. rewrite ?bind_ret.
        rewrite (bind_ok _ _ _ _ _ _ _ (Z _)). unfold ret. now rewrite mid_128_eq.
    Qed.
    Lemma len_129to240_128_ok : 129 <= len -> len <= 240 ->
      XXH3_len_129to240_128b cfg x3 p len q (mlen sec) seed m = Ok (mid2_128 sec seed msg, m).
    Proof.
      intros L1 L2. unfold XXH3_len_129to240_128b, mid2_128. fold len.
      unfold XXH3_SECRET_SIZE_MIN, XXH3_MIDSIZE_MAX, XXH3_MIDSIZE_STARTOFFSET, XXH3_MIDSIZE_LASTOFFSET. do 2 asserted. cbv zeta.
      loop (fun acc i => plus32 sec (32 * i) seed msg (32 * i) (32 * i + 16) acc).
      { intros k b H. rewrite (at_i m p msg (32 * k) Hm), (at_ij m p msg (32 * k) 16 Hm), (at_i m q sec (32 * k) Hs) by (fold len; lia).
        apply mix32B_at; lia. }
      asserted. rewrite !avalanche_eq.
      loop (fun acc i => plus32 sec (32 * i + 3) seed msg (32 * (i + 4)) (32 * (i + 4) + 16) acc).
      { intros k b H. rewrite (at_i m p msg (32 * (k + 4)) Hm), (at_ij m p msg (32 * (k + 4)) 16 Hm), (at_i m q sec 3 Hs),
          (at_ij m q sec 3 (32 * k) Hs) by (fold len; lia). rewrite (N.add_comm 3). apply mix32B_at; lia. }
      rewrite N2Nat.id. rewrite (back_i m q sec 136 17 Hs), (back_i m p msg len 16 Hm), (back_i m p msg len 32 Hm) by (fold len; lia).
      rewrite (psub_small cfg (q + (136 - 17)) 16) by (destruct Hs; lia). replace (q + (136 - 17) - 16) with (q + 103) by lia.
      rewrite sub64_eq. match goal with |- bind (XXH128_mix32B _ _ ?a _ _ _ ?s) _ _ = _ =>
        rewrite (bind_ok _ _ _ _ _ _ _ (mix32B_at 103 (len - 16) (len - 32) s a ltac:(lia) ltac:(lia) ltac:(lia))) end.
      unfold ret. now rewrite mid_128_eq.
    Qed.

    (** ** The dispatch on the length *)
    Lemma bits64_ok : forall f r, q <> 0 -> (len <> 0 -> p <> 0) -> (asserting cfg x3 = true -> len <> 8) ->
      (240 < len -> f p len seed q (mlen sec) m = r) -> (len <= 240 -> r = Ok (xxh3_64 sec sec seed msg, m)) ->
      XXH3_64bits_internal cfg x3 p len seed q (mlen sec) f m = r.
    Proof.
      intros f r Hq Hp HA Hf Hr. unfold XXH3_64bits_internal, XXH3_SECRET_SIZE_MIN, XXH3_MIDSIZE_MAX. asserted.
      unfold xxh3_64 in Hr. fold len in Hr. cbv zeta in Hr.
      destruct (N.leb_spec len 16); [rewrite Hr by lia; now apply len_0to16_ok|].
      destruct (N.leb_spec len 128); [rewrite Hr by lia; apply len_17to128_ok; lia|].
      destruct (N.leb_spec len 240); [rewrite Hr by lia; apply len_129to240_ok; lia|]. apply Hf. lia.
    Qed.
    Lemma bits128_ok : forall f r, q <> 0 -> (len <> 0 -> p <> 0) ->
      (240 < len -> f p len seed q (mlen sec) m = r) -> (len <= 240 -> r = Ok (xxh3_128 sec sec seed msg, m)) ->
      XXH3_128bits_internal cfg x3 p len seed q (mlen sec) f m = r.
    Proof.
      intros f r Hq Hp Hf Hr. unfold XXH3_128bits_internal, XXH3_SECRET_SIZE_MIN, XXH3_MIDSIZE_MAX. asserted.
      unfold xxh3_128 in Hr. fold len in Hr. cbv zeta in Hr.
      destruct (N.leb_spec len 16); [rewrite Hr by lia; now apply len_0to16_128_ok|].
      destruct (N.leb_spec len 128); [rewrite Hr by lia; apply len_17to128_128_ok; lia|].
      destruct (N.leb_spec len 240); [rewrite Hr by lia; apply len_129to240_128_ok; lia|]. apply Hf. lia.
    Qed.
  End Values.
End Here.
