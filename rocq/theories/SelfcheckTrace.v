(** The self-check of an arbitrary function, which may fault, write to memory
    and so on: it does the same as calling the function on the 81 probes and
    comparing. *)
From Coq Require Import ZArith NArith Arith List Bool Lia Strings.Byte.
From Coq Require Import ZifyN ZifyNat ZifyBool.
From Verif Require Import Bytes CSem Bits Spec NBits CSemFacts FetchFacts KeyMem CtxMem StreamFacts OneShot
  Dispatch Selfcheck SelfcheckSpec SelfcheckFacts.
Import ListNotations.
Ltac Zify.zify_post_hook ::= Z.div_mod_to_equations.
Local Open Scope N_scope.

Lemma bind_assoc : forall A B C (X : M A) (f : A -> M B) (g : B -> M C) m,
  bind (bind X f) g m = bind X (fun a => bind (f a) g) m.
Proof. intros. unfold bind. destruct (X m) as [[a m']| | | | |]; reflexivity. Qed.
Lemma bind_ext : forall A B (X : M A) (f g : A -> M B) m, (forall a m, f a m = g a m) -> bind X f m = bind X g m.
Proof. intros A B X f g m H. unfold bind. destruct (X m) as [[a m']| | | | |]; [apply H|reflexivity..]. Qed.
Lemma bind_cong : forall A B (X Y : M A) (f g : A -> M B) m, X m = Y m -> (forall a m, f a m = g a m) -> bind X f m = bind Y g m.
Proof. intros A B X Y f g m E H. unfold bind. rewrite E. destruct (Y m) as [[a m']| | | | |]; [apply H|reflexivity..]. Qed.
Lemma bind_same : forall A B (X : M A) (f g : A -> M B) m,
  (forall a m', X m = Ok (a, m') -> f a m' = g a m') -> bind X f m = bind X g m.
Proof. intros A B X f g m H. unfold bind. destruct (X m) as [[a m']| | | | |] eqn:E; [now apply H|reflexivity..]. Qed.
Lemma bind_ret_l : forall A B (a : A) (f : A -> M B) m, bind (ret a) f m = f a m.
Proof. reflexivity. Qed.

Lemma fill_frame : forall l p m m', fill p l m = Ok (tt, m') -> only m m' p (mlen l).
Proof.
  induction l as [|x l IH]; intros p m m' H; cbn [fill] in H.
  - injection H as <-. apply only_refl.
  - unfold bind in H. destruct (store_bytes p [x] m) as [[[] m1]| | | | |] eqn:E; try discriminate.
    assert (m1 = write m p [x]).
    { unfold store_bytes, bind in E. destruct (check_mapped 1 p m) as [[u m2]| | | | |] eqn:E2;
        change (length [x]) with 1%nat in E; rewrite E2 in E; try discriminate.
      assert (m2 = m).
      { clear -E2. cbn [check_mapped] in E2. unfold bind in E2. unfold load8 in E2.
        destruct (m p); [|discriminate]. now injection E2. }
      subst. unfold ret in E. cbn in E. congruence. }
    subst m1. apply only_trans with (write m p [x]).
    + eapply only_weaken; [now apply only_write|lia|unfold mlen; cbn [length]; lia].
    + eapply only_weaken; [exact (IH _ _ _ H)|lia|unfold mlen; cbn [length]; lia].
Qed.

Section Trace.
  Variables (cfg : config) (hash : hash_code).

  Fixpoint checks (ps : list (N * N * N)) (s : bool * N) : M (bool * N) :=
    match ps with
    | [] => ret s
    | (d, l, seed) :: ps => s' <- check cfg hash d l seed s ;; checks ps s'
    end.
  Lemma checks_app : forall ps qs s m, checks (ps ++ qs) s m = (s' <- checks ps s ;; checks qs s') m.
  Proof.
    induction ps as [|[[d l] x] ps IH]; intros qs s m; [reflexivity|]. cbn [app checks].
    rewrite bind_assoc. apply bind_ext. intros a m'. apply IH.
  Qed.

  (** a loop that does one check per turn *)
  Lemma for_checks : forall n first (body : N -> (bool * N) * N -> M ((bool * N) * N)) (p : nat -> N * N * N) (seed : nat -> N),
    (forall i s m, (i < n)%nat -> body (first + N.of_nat i) (s, seed i) m
        = (s' <- checks [p i] s ;; ret (s', seed (S i))) m) ->
    forall s m, for_ first n body (s, seed 0%nat) m = (s' <- checks (map p (seq 0 n)) s ;; ret (s', seed n)) m.
  Proof.
    induction n as [|n IH]; intros first body p seed H s m; [reflexivity|].
    cbn [for_ seq map]. rewrite <- seq_shift, map_map.
    change (p 0%nat :: ?l) with ([p 0%nat] ++ l).
    rewrite (bind_cong _ _ _ _ _ _ m (checks_app _ _ s m) (fun a m => eq_refl)), bind_assoc.
    assert (H0 := H 0%nat s m ltac:(lia)). rewrite N.add_0_r in H0.
    rewrite (bind_cong _ _ _ _ _ _ m H0 (fun a m => eq_refl)), bind_assoc.
    apply bind_ext. intros s' m'. rewrite bind_ret_l.
    apply (IH (first + 1) body (fun i => p (S i)) (fun i => seed (S i))).
    intros i s0 m0 L. replace (first + 1 + N.of_nat i) with (first + N.of_nat (S i)) by lia. apply H. lia.
  Qed.
  Lemma for_checks' : forall n first (body : N -> bool * N -> M (bool * N)) (p : nat -> N * N * N),
    (forall i s m, (i < n)%nat -> body (first + N.of_nat i) s m = checks [p i] s m) ->
    forall s m, for_ first n body s m = checks (map p (seq 0 n)) s m.
  Proof.
    induction n as [|n IH]; intros first body p H s m; [reflexivity|].
    cbn [for_ seq map]. rewrite <- seq_shift, map_map.
    change (p 0%nat :: ?l) with ([p 0%nat] ++ l).
    rewrite checks_app. 
    assert (H0 := H 0%nat s m ltac:(lia)). rewrite N.add_0_r in H0.
    apply bind_cong; [exact H0|]. intros s' m'.
    apply (IH (first + 1) body (fun i => p (S i))).
    intros i s0 m0 L. replace (first + 1 + N.of_nat i) with (first + N.of_nat (S i)) by lia. apply H. lia.
  Qed.
  Lemma for_fill : forall long n k m, long + N.of_nat (k + n) < addr_space cfg ->
    for_ (N.of_nat k) n (fun i (_ : unit) => store_bytes (padd cfg long i) [n2b i]) tt m
    = fill (long + N.of_nat k) (map (fun i => n2b (N.of_nat i)) (seq k n)) m.
  Proof.
    induction n as [|n IH]; intros k m L; [reflexivity|]. cbn [for_ seq map fill].
    rewrite padd_small' by lia. apply bind_ext. intros [] m'.
    replace (N.of_nat k + 1) with (N.of_nat (S k)) by lia. rewrite IH by lia.
    now replace (long + N.of_nat (S k)) with (long + N.of_nat k + 1) by lia.
  Qed.

  Variables (pattern long refs : N).
  Hypothesis pattern_room : pattern + 64 < addr_space cfg.
  Hypothesis long_room : long + 512 < addr_space cfg.

  Lemma selfcheck_checks : forall m, t1ha_selfcheck cfg pattern long hash refs m
    = (s <- checks (short_probes pattern) (false, refs) ;;
       fill long pattern_long ;;;
       s <- checks (long_probes long) s ;;
       ret (if fst s : bool then (-1)%Z else 0%Z)) m.
  Proof.
    intro m. unfold t1ha_selfcheck. cbv zeta. unfold short_probes.
    change ([(0, 0, 0); (0, 0, 2 ^ 64 - 1); (pattern, 64, 0)] ++ ?l)
      with ((0, 0, 0) :: (0, 0, 2 ^ 64 - 1) :: (pattern, 64, 0) :: l).
    cbn [checks]. rewrite bind_assoc. apply bind_ext. clear m. intros s m.
    rewrite bind_assoc. apply bind_ext. clear m. intros s1 m.
    rewrite bind_assoc. apply bind_ext. clear s s1 m. intros s m.
    rewrite (bind_cong _ _ _ _ _ _ m (checks_app _ _ s m) (fun a m => eq_refl)), bind_assoc.
    set (p1 := fun i => (pattern, N.of_nat (S i), 2 ^ (N.of_nat i))).
    assert (P1 : map (fun i => (pattern, N.of_nat i, 2 ^ (N.of_nat i - 1))) (seq 1 63) = map p1 (seq 0 63)).
    { rewrite <- seq_shift, map_map. apply map_ext. intro i. unfold p1.
      now replace (N.of_nat (S i) - 1) with (N.of_nat i) by lia. }
    rewrite P1.
    etransitivity.
    { eapply bind_cong; [|intros a m1; reflexivity].
      change (s, 1) with (s, (fun i => 2 ^ N.of_nat i) 0%nat).
      apply for_checks with (p := p1) (seed := fun i => 2 ^ N.of_nat i).
      intros i s0 m0 L. cbn [fst snd]. unfold p1. cbn [checks]. rewrite bind_assoc.
      replace (1 + N.of_nat i) with (N.of_nat (S i)) by lia. rewrite shl_pow by exact L. apply bind_ext. reflexivity. }
    rewrite bind_assoc. apply bind_ext. clear s m. intros s m. rewrite bind_ret_l. cbn [fst].
    set (p2 := fun i => (pattern + N.of_nat (S i), 64 - N.of_nat (S i), 2 ^ 64 - 2 ^ N.of_nat (S i))).
    assert (P2 : map (fun i => (pattern + N.of_nat i, 64 - N.of_nat i, 2 ^ 64 - 2 ^ N.of_nat i)) (seq 1 7) = map p2 (seq 0 7)).
    { rewrite <- seq_shift, map_map. reflexivity. }
    rewrite P2.
    etransitivity.
    { eapply bind_cong; [|intros a m1; reflexivity].
      change (s, not64 0) with (s, (fun i => 2 ^ 64 - 2 ^ N.of_nat i) 0%nat).
      apply for_checks with (p := p2) (seed := fun i => 2 ^ 64 - 2 ^ N.of_nat i).
      intros i s0 m0 L. cbn [fst snd]. unfold p2. cbn [checks]. rewrite bind_assoc.
      replace (1 + N.of_nat i) with (N.of_nat (S i)) by lia. rewrite shl_ones by exact L.
      rewrite padd_small' by lia. apply bind_ext. reflexivity. }
    rewrite bind_assoc. apply bind_ext. clear s m. intros s m. rewrite bind_ret_l. cbn [fst snd].
    apply bind_cong.
    { pose proof (for_fill long 512 0 m ltac:(lia)) as F. rewrite N.add_0_r in F. exact F. }
    intros _ m1. apply bind_cong; [|reflexivity].
    unfold long_probes. apply for_checks'. intros i s0 m0 L.
    rewrite N.add_0_l. rewrite padd_small' by lia. cbn [checks].
    rewrite (N.mul_comm 17). change (2 ^ 64 - 2 ^ N.of_nat 7) with (2 ^ 64 - 2 ^ 7).
    unfold bind at 1. destruct (check cfg hash _ _ _ s0 m0) as [[a m']| | | | |]; reflexivity.
  Qed.

  (** ** The checks, given the table *)
  Variable rs : list N.
  Hypothesis rs_length : length rs = 81%nat.
  Hypothesis rs_lt : forall r, In r rs -> r < 2 ^ 64.
  Hypothesis refs_al : refs mod alignment cfg 8 = 0.
  Hypothesis refs_room : refs + 648 < addr_space cfg.
  Hypothesis keeps_table : forall d l s m v m', refs_at cfg refs rs m -> hash d l s m = Ok (v, m') -> refs_at cfg refs rs m'.

  Lemma table_read : forall m k, (k < 81)%nat -> refs_at cfg refs rs m ->
    read_aligned cfg 8 (refs + 8 * N.of_nat k) m = Ok (nth k rs 0, m).
  Proof.
    intros m k K R. apply read_native.
    - clear -refs_al. unfold alignment in *. destruct (wide cfg); lia.
    - now apply R.
    - apply rs_lt, nth_In. lia.
  Qed.
  Lemma table_next : forall k, (k < 81)%nat -> padd cfg (refs + 8 * N.of_nat k) 8 = refs + 8 * N.of_nat (S k).
  Proof. intros k K. rewrite padd_small' by lia. lia. Qed.

  Lemma checks_release : ndebug cfg = true -> forall ps k failed m, (k + length ps <= 81)%nat -> refs_at cfg refs rs m ->
    checks ps (failed, refs + 8 * N.of_nat k) m
    = (vs <- run_probes hash ps ;;
       ret (failed || (if list_eq_dec N.eq_dec vs (firstn (length ps) (skipn k rs)) then false else true),
            refs + 8 * N.of_nat (k + length ps))) m.
  Proof.
    intro D. induction ps as [|[[d l] x] ps IH]; intros k failed m L R; cbn [checks run_probes length].
    - cbn. rewrite orb_false_r, Nat.add_0_r. reflexivity.
    - cbn [length] in L. unfold check. rewrite bind_assoc.
      rewrite (bind_ok _ _ _ _ _ _ _ (table_read m k ltac:(lia) R)).
      unfold probe. rewrite !bind_assoc. apply bind_same. intros v m' E.
      apply (keeps_table _ _ _ _ _ _ R) in E. rewrite bind_assoc.
      unfold assert_. rewrite D. change (bind (ret tt) ?f m') with (f tt m'). cbv beta.
      rewrite bind_assoc. change (bind (ret ?a) ?f m') with (f a m'). cbv beta.
      change (bind (ret ?a) ?f m') with (f a m'). cbv beta.
      rewrite table_next by lia. rewrite IH by (lia || exact E).
      rewrite ?bind_assoc. apply bind_ext. intros vs m2. rewrite ?bind_ret_l.
      unfold ret. f_equal. f_equal. f_equal; [|do 2 f_equal; lia].
      assert (S1 : skipn k rs = nth k rs 0 :: skipn (S k) rs).
      { clear -L rs_length. revert k L. generalize (length ps) as n. intros n k L.
        assert (K : (k < length rs)%nat) by lia. clear -K. revert k K. induction rs as [|r l IH]; intros k K; [cbn in K; lia|].
        destruct k; [reflexivity|]. cbn in K. cbn [skipn nth]. rewrite IH by lia. reflexivity. }
      rewrite S1. cbn [firstn].
      destruct (N.eqb_spec v (nth k rs 0)) as [->|NE]; cbn [negb].
      + rewrite orb_false_r. f_equal.
        destruct (list_eq_dec _ _ _) as [->|N1]; destruct (list_eq_dec _ _ _) as [E2|N2]; try reflexivity; exfalso; auto.
        * congruence.
      + rewrite orb_true_r. cbn [orb]. destruct (list_eq_dec _ (v :: vs) _) as [E2|N2]; [congruence|]. now rewrite orb_true_r.
  Qed.

  Lemma checks_debug : ndebug cfg = false -> forall ps k m, (k + length ps <= 81)%nat -> refs_at cfg refs rs m ->
    checks ps (false, refs + 8 * N.of_nat k) m
    = (run_asserting hash ps (firstn (length ps) (skipn k rs)) ;;;
       ret (false, refs + 8 * N.of_nat (k + length ps))) m.
  Proof.
    intro D. induction ps as [|[[d l] x] ps IH]; intros k m L R; cbn [checks run_asserting length].
    - cbn. rewrite Nat.add_0_r. reflexivity.
    - cbn [length] in L. unfold check. rewrite bind_assoc.
      rewrite (bind_ok _ _ _ _ _ _ _ (table_read m k ltac:(lia) R)).
      assert (S1 : skipn k rs = nth k rs 0 :: skipn (S k) rs).
      { clear -L rs_length. revert k L. generalize (length ps) as n. intros n k L.
        assert (K : (k < length rs)%nat) by lia. clear -K. revert k K. induction rs as [|r l IH]; intros k K; [cbn in K; lia|].
        destruct k; [reflexivity|]. cbn in K. cbn [skipn nth]. rewrite IH by lia. reflexivity. }
      rewrite S1. cbn [firstn run_asserting].
      unfold probe. rewrite !bind_assoc. apply bind_same. intros v m' E.
      apply (keeps_table _ _ _ _ _ _ R) in E.
      unfold assert_. rewrite D. destruct (v =? nth k rs 0) eqn:V; [|reflexivity].
      do 4 (rewrite ?bind_assoc; rewrite ?bind_ret_l). cbn [negb orb].
      rewrite table_next by lia. rewrite IH by (lia || exact E).
      apply bind_ext. intros vs m2. unfold ret. do 4 f_equal. lia.
  Qed.

  Lemma run_probes_length : forall ps m vs m', run_probes hash ps m = Ok (vs, m') -> length vs = length ps.
  Proof.
    induction ps as [|[[d l] s] ps IH]; intros m vs m' H; cbn [run_probes] in H.
    - injection H as <- <-. reflexivity.
    - unfold bind in H. destruct (hash d l s m) as [[v m1]| | | | |]; try discriminate.
      destruct (run_probes hash ps m1) as [[ws m2]| | | | |] eqn:E; try discriminate.
      injection H as <- <-. cbn. f_equal. now apply IH in E.
  Qed.
  Lemma run_probes_keep : forall ps m vs m', refs_at cfg refs rs m -> run_probes hash ps m = Ok (vs, m') -> refs_at cfg refs rs m'.
  Proof.
    induction ps as [|[[d l] s] ps IH]; intros m vs m' R H; cbn [run_probes] in H.
    - injection H as <- <-. exact R.
    - unfold bind in H. destruct (hash d l s m) as [[v m1]| | | | |] eqn:E1; try discriminate.
      destruct (run_probes hash ps m1) as [[ws m2]| | | | |] eqn:E; try discriminate.
      injection H as <- <-. eapply IH; [|exact E]. eapply keeps_table; eauto.
  Qed.
  Lemma run_asserting_keep : forall ps l m m', refs_at cfg refs rs m -> run_asserting hash ps l m = Ok (tt, m') -> refs_at cfg refs rs m'.
  Proof.
    induction ps as [|[[d l] s] ps IH]; intros [|r q] m m' R H; cbn [run_asserting] in H;
      try (injection H as <-; exact R).
    unfold bind in H. destruct (hash d l s m) as [[v m1]| | | | |] eqn:E1; try discriminate.
    destruct (v =? r); [|discriminate]. eapply IH; [|exact H]. eapply keeps_table; eauto.
  Qed.
  Hypothesis table_apart : apart long 512 refs 648.
  Lemma fill_keep : forall m m', refs_at cfg refs rs m -> fill long pattern_long m = Ok (tt, m') -> refs_at cfg refs rs m'.
  Proof.
    intros m m' R H k K. eapply only_bytes; [apply fill_frame; exact H| |now apply R].
    change (mlen pattern_long) with 512. unfold mlen, apart in *. rewrite native_length. lia.
  Qed.

  Lemma selfcheck_release : ndebug cfg = true -> forall m, refs_at cfg refs rs m ->
    t1ha_selfcheck cfg pattern long hash refs m
    = (vs <- run_probes hash (short_probes pattern) ;;
       fill long pattern_long ;;;
       ws <- run_probes hash (long_probes long) ;;
       ret (if list_eq_dec N.eq_dec (vs ++ ws) rs then 0%Z else (-1)%Z)) m.
  Proof.
    intros D m R. rewrite selfcheck_checks.
    replace (false, refs) with (false, refs + 8 * N.of_nat 0) by (f_equal; lia).
    etransitivity; [eapply bind_cong; [apply (checks_release D); [cbn; lia|exact R]|intros a m1; reflexivity]|].
    rewrite bind_assoc. apply bind_same. intros vs m1 E1.
    pose proof (run_probes_length _ _ _ _ E1) as LV. apply (run_probes_keep _ _ _ _ R) in E1.
    rewrite bind_ret_l. apply bind_same. intros [] m2 E2. apply (fill_keep _ _ E1) in E2. cbn [orb].
    change (0 + length (short_probes pattern))%nat with 73%nat.
    etransitivity; [eapply bind_cong; [apply (checks_release D); [cbn; lia|exact E2]|intros a m3; reflexivity]|].
    rewrite bind_assoc. apply bind_same. intros ws m3 E3.
    pose proof (run_probes_length _ _ _ _ E3) as LW. rewrite bind_ret_l.
    unfold ret. cbn [fst]. f_equal. f_equal.
    change (length (short_probes pattern)) with 73%nat in *. change (length (long_probes long)) with 8%nat in *.
    change (skipn 0 rs) with rs.
    assert (RS : rs = firstn 73 rs ++ firstn 8 (skipn 73 rs)).
    { rewrite <- (firstn_skipn 73 rs) at 1. f_equal. symmetry. apply firstn_all2. rewrite skipn_length. lia. }
    destruct (list_eq_dec _ vs _) as [->|NV]; cbn [orb].
    - destruct (list_eq_dec _ ws _) as [->|NW].
      + rewrite <- RS. destruct (list_eq_dec _ rs rs); congruence.
      + destruct (list_eq_dec _ _ rs) as [E|N0]; [|reflexivity]. exfalso. apply NW.
        rewrite RS in E at 2. now apply app_inv_head in E.
    - destruct (list_eq_dec _ (vs ++ ws) rs) as [E|N0]; [|reflexivity]. exfalso. apply NV.
      rewrite <- E. rewrite <- LV. symmetry. rewrite firstn_app, firstn_all, Nat.sub_diag. cbn. apply app_nil_r.
  Qed.

  Lemma selfcheck_debug : ndebug cfg = false -> forall m, refs_at cfg refs rs m ->
    t1ha_selfcheck cfg pattern long hash refs m
    = (run_asserting hash (short_probes pattern) (firstn 73 rs) ;;;
       fill long pattern_long ;;;
       run_asserting hash (long_probes long) (skipn 73 rs) ;;;
       ret 0%Z) m.
  Proof.
    intros D m R. rewrite selfcheck_checks.
    replace (false, refs) with (false, refs + 8 * N.of_nat 0) by (f_equal; lia).
    etransitivity; [eapply bind_cong; [apply (checks_debug D); [cbn; lia|exact R]|intros a m1; reflexivity]|].
    change (length (short_probes pattern)) with 73%nat. change (skipn 0 rs) with rs.
    rewrite bind_assoc. apply bind_same. intros [] m1 E1. apply (run_asserting_keep _ _ _ _ R) in E1.
    rewrite bind_ret_l. apply bind_same. intros [] m2 E2. apply (fill_keep _ _ E1) in E2.
    change (0 + 73)%nat with 73%nat.
    etransitivity; [eapply bind_cong; [apply (checks_debug D); [cbn; lia|exact E2]|intros a m3; reflexivity]|].
    change (length (long_probes long)) with 8%nat.
    rewrite (firstn_all2 (n := 8)) by (rewrite skipn_length; lia).
    rewrite bind_assoc. apply bind_same. intros [] m3 E3. reflexivity.
  Qed.

  Lemma asserting_probes : forall ps l m m', length l = length ps ->
    (run_asserting hash ps l m = Ok (tt, m') <-> run_probes hash ps m = Ok (l, m')).
  Proof.
    clear. induction ps as [|[[d n] s] ps IH]; intros [|x l] m m' L; try discriminate; cbn [run_asserting run_probes].
    - unfold ret. split; intro H; injection H as ->; reflexivity.
    - cbn in L. unfold bind. destruct (hash d n s m) as [[y m1]| | | | |]; try (split; discriminate).
      destruct (N.eqb_spec y x) as [->|NE].
      + rewrite (IH l m1 m' ltac:(lia)). split.
        * intros ->. reflexivity.
        * destruct (run_probes hash ps m1) as [[vs m2]| | | | |]; try discriminate. unfold ret. intro H.
          injection H as -> ->. reflexivity.
      + split; [discriminate|]. destruct (run_probes hash ps m1) as [[vs m2]| | | | |]; try discriminate.
        unfold ret. intro H. injection H as -> ->. now exfalso.
  Qed.

  (** all probes get the recorded answers *)
  Definition all_right (m m' : mem) : Prop :=
    exists vs m1 m2 ws, run_probes hash (short_probes pattern) m = Ok (vs, m1) /\
      fill long pattern_long m1 = Ok (tt, m2) /\
      run_probes hash (long_probes long) m2 = Ok (ws, m') /\ vs ++ ws = rs.

  Lemma selfcheck_zero : forall m m', refs_at cfg refs rs m ->
    (t1ha_selfcheck cfg pattern long hash refs m = Ok (0%Z, m') <-> all_right m m').
  Proof.
    intros m m' R. destruct (ndebug cfg) eqn:D.
    - rewrite (selfcheck_release D m R). unfold all_right, bind. split.
      + intro H. destruct (run_probes hash (short_probes pattern) m) as [[vs m1]| | | | |] eqn:E1; try discriminate.
        destruct (fill long pattern_long m1) as [[[] m2]| | | | |] eqn:E2; try discriminate.
        destruct (run_probes hash (long_probes long) m2) as [[ws m3]| | | | |] eqn:E3; try discriminate.
        unfold ret in H. destruct (list_eq_dec _ _ _) as [E|N0]; [|discriminate]. injection H as <-.
        exists vs, m1, m2, ws. auto.
      + intros (vs & m1 & m2 & ws & E1 & E2 & E3 & E). rewrite E1, E2, E3, E. unfold ret.
        destruct (list_eq_dec _ rs rs); [reflexivity|now exfalso].
    - rewrite (selfcheck_debug D m R). unfold all_right, bind.
      assert (L1 : length (firstn 73 rs) = length (short_probes pattern)) by (rewrite firstn_length, rs_length; reflexivity).
      assert (L2 : length (skipn 73 rs) = length (long_probes long)) by (rewrite skipn_length, rs_length; reflexivity).
      split.
      + intro H. destruct (run_asserting hash (short_probes pattern) _ m) as [[[] m1]| | | | |] eqn:E1; try discriminate.
        destruct (fill long pattern_long m1) as [[[] m2]| | | | |] eqn:E2; try discriminate.
        destruct (run_asserting hash (long_probes long) _ m2) as [[[] m3]| | | | |] eqn:E3; try discriminate.
        injection H as <-. apply (asserting_probes _ _ _ _ L1) in E1. apply (asserting_probes _ _ _ _ L2) in E3.
        exists (firstn 73 rs), m1, m2, (skipn 73 rs). repeat split; auto. apply firstn_skipn.
      + intros (vs & m1 & m2 & ws & E1 & E2 & E3 & E).
        pose proof (run_probes_length _ _ _ _ E1) as LV.
        assert (V : vs = firstn 73 rs).
        { rewrite <- E. rewrite <- LV, firstn_app in *. change (length (short_probes pattern)) with 73%nat in LV.
          rewrite LV. rewrite firstn_all2 by lia. rewrite Nat.sub_diag. cbn. symmetry. apply app_nil_r. }
        assert (W : ws = skipn 73 rs).
        { rewrite <- E. change (length (short_probes pattern)) with 73%nat in LV.
          rewrite skipn_app, LV, Nat.sub_diag, skipn_all2 by lia. reflexivity. }
        subst vs ws. apply (asserting_probes _ _ _ _ L1) in E1. apply (asserting_probes _ _ _ _ L2) in E3.
        rewrite E1, E2, E3. reflexivity.
  Qed.
End Trace.

(** ** Keeping a table while something else is checked *)
Section Keep.
  Variables (cfg : config) (hash : hash_code) (pattern long refs : N).
  Hypothesis pattern_room : pattern + 64 < addr_space cfg.
  Hypothesis long_room : long + 512 < addr_space cfg.
  Variable P : mem -> Prop.
  Hypothesis hash_keeps : forall d l s m v m', P m -> hash d l s m = Ok (v, m') -> P m'.
  Hypothesis fill_keeps : forall m m', only m m' long 512 -> P m -> P m'.

  Lemma load_keeps : forall n p m l m', load_bytes n p m = Ok (l, m') -> m' = m.
  Proof.
    clear. induction n as [|n IH]; intros p m l m' H; cbn [load_bytes] in H.
    - now injection H as _ <-.
    - unfold bind, load8 in H. destruct (m p) as [x|]; [|discriminate].
      destruct (load_bytes n (p + 1) m) as [[l2 m2]| | | | |] eqn:E; try discriminate.
      injection H as _ <-. eapply IH; eauto.
  Qed.
  Lemma read_keeps : forall n p m v m', read_aligned cfg n p m = Ok (v, m') -> m' = m.
  Proof.
    intros n p m v m' H. unfold read_aligned in H.
    assert (G : load_uint cfg n p m = Ok (v, m')).
    { destruct (ia32 cfg || is_efficient cfg); [exact H|]. destruct (_ =? 0); [exact H|discriminate]. }
    clear H. unfold load_uint, bind in G. destruct (load_bytes n p m) as [[l m2]| | | | |] eqn:E; try discriminate.
    apply load_keeps in E. subst. unfold ret in G. congruence.
  Qed.
  Lemma check_keeps : forall d l s st m st' m', P m -> check cfg hash d l s st m = Ok (st', m') -> P m'.
  Proof.
    intros d l s [failed q] m st' m' PM H. unfold check, probe, bind in H.
    destruct (read_aligned cfg 8 q m) as [[x m1]| | | | |] eqn:E; try discriminate.
    apply read_keeps in E. subst m1.
    destruct (hash d l s m) as [[y m1]| | | | |] eqn:E; try discriminate.
    apply (hash_keeps _ _ _ _ _ _ PM) in E. unfold assert_ in H.
    destruct (ndebug cfg); [|destruct (y =? x)]; cbn in H; try discriminate; now injection H as _ <-.
  Qed.
  Lemma checks_keep : forall ps st m st' m', P m -> checks cfg hash ps st m = Ok (st', m') -> P m'.
  Proof.
    induction ps as [|[[d l] s] ps IH]; intros st m st' m' PM H; cbn [checks] in H.
    - now injection H as _ <-.
    - unfold bind in H. destruct (check cfg hash d l s st m) as [[st1 m1]| | | | |] eqn:E; try discriminate.
      eapply IH; [|exact H]. eapply check_keeps; eauto.
  Qed.
  Lemma selfcheck_keeps : forall m z m', P m -> t1ha_selfcheck cfg pattern long hash refs m = Ok (z, m') -> P m'.
  Proof.
    intros m z m' PM H. rewrite selfcheck_checks in H by assumption. unfold bind in H.
    destruct (checks cfg hash (short_probes pattern) _ m) as [[st1 m1]| | | | |] eqn:E1; try discriminate.
    destruct (fill long pattern_long m1) as [[[] m2]| | | | |] eqn:E2; try discriminate.
    destruct (checks cfg hash (long_probes long) _ m2) as [[st3 m3]| | | | |] eqn:E3; try discriminate.
    injection H as _ <-. eapply checks_keep; [|exact E3]. eapply fill_keeps; [|eapply checks_keep; [exact PM|exact E1]].
    apply fill_frame in E2. exact E2.
  Qed.
End Keep.
