(** Lemmas about the model of the test program. *)
From Coq Require Import ZArith NArith Arith List Bool Lia Strings.Byte Strings.String.
From Coq Require Import ZifyN ZifyNat ZifyBool.
From Verif Require Import Bytes CSem Bits OneShot Dispatch DispatchFacts Selfcheck SelfcheckSpec SelfcheckTrace TestMain TestSpec.
Import ListNotations.
Local Open Scope N_scope.

(** ** verify *)
(** the build with asserts switched off *)
Definition release (cfg : config) : config :=
  {| big_endian := big_endian cfg; ptr64 := ptr64 cfg; ulong64 := ulong64 cfg; ia32 := ia32 cfg; unaligned := unaligned cfg;
     oneshot := oneshot cfg; asan := asan cfg; pagesize := pagesize cfg; mul := mul cfg; carry := carry cfg;
     int128 := int128 cfg; swap_builtin := swap_builtin cfg; ndebug := true; off_total := off_total cfg; simd := simd cfg |}.

Lemma for_ext : forall S n first (f g : N -> S -> M S) s m, (forall i s m, f i s m = g i s m) ->
  for_ first n f s m = for_ first n g s m.
Proof.
  intros S n. induction n as [|n IH]; intros first f g s m H; [reflexivity|]. cbn [for_].
  apply bind_cong; [apply H|]. intros a m'. now apply IH.
Qed.

Lemma test_check_release : forall cfg hash d l s st m,
  test_check cfg hash d l s st m = check (release cfg) hash d l s st m.
Proof.
  intros cfg hash d l s [failed refs] m. unfold test_check, check.
  change (read_aligned (release cfg) 8 refs) with (read_aligned cfg 8 refs).
  apply bind_ext. intros r m1. unfold test_probe, probe. rewrite !bind_assoc. apply bind_ext. intros v m2.
  unfold assert_, bind, ret. cbn [ndebug release]. now rewrite (N.eqb_sym v r).
Qed.

Lemma verify_release : forall cfg pattern long hash refs m,
  verify cfg pattern long hash refs m
  = (z <- t1ha_selfcheck (release cfg) pattern long hash refs ;; ret (negb (z =? 0)%Z)) m.
Proof.
  intros cfg pattern long hash refs m. unfold verify, t1ha_selfcheck. cbv zeta.
  rewrite bind_assoc. apply bind_cong; [apply test_check_release|]. clear m. intros s m.
  rewrite bind_assoc. apply bind_cong; [apply test_check_release|]. clear s m. intros s m.
  rewrite bind_assoc. apply bind_cong; [apply test_check_release|]. clear s m. intros s m.
  rewrite bind_assoc. apply bind_cong.
  { apply for_ext. intros i x m0. apply bind_cong; [apply test_check_release|reflexivity]. }
  clear s m. intros x m. rewrite bind_assoc. apply bind_cong.
  { apply for_ext. intros i y m0. apply bind_cong; [apply test_check_release|reflexivity]. }
  clear x m. intros x m. rewrite bind_assoc. apply bind_cong; [reflexivity|]. clear m. intros [] m.
  rewrite bind_assoc. apply bind_cong.
  { apply for_ext. intros i y m0. apply test_check_release. }
  intros s m0. unfold bind, ret. now destruct (fst s).
Qed.

(** [Y] does at least what [X] does *)
Definition follows {A} (X Y : M A) : Prop := forall m r, X m = Ok r -> Y m = Ok r.
Lemma follows_refl : forall A (X : M A), follows X X.
Proof. now intros A X m r H. Qed.
Lemma follows_bind : forall A B (X Y : M A) (f g : A -> M B), follows X Y -> (forall a, follows (f a) (g a)) ->
  follows (bind X f) (bind Y g).
Proof.
  intros A B X Y f g H K m r E. unfold bind in *. destruct (X m) as [[a m']| | | | |] eqn:EX; try discriminate.
  rewrite (H m _ EX). now apply K.
Qed.
Lemma follows_for : forall S n first (f g : N -> S -> M S) s, (forall i s, follows (f i s) (g i s)) ->
  follows (for_ first n f s) (for_ first n g s).
Proof.
  intros S n. induction n as [|n IH]; intros first f g s H; [apply follows_refl|]. cbn [for_].
  apply follows_bind; [apply H|]. intro a. now apply IH.
Qed.
Lemma follows_check : forall cfg hash d l s st, follows (check cfg hash d l s st) (test_check cfg hash d l s st).
Proof.
  intros cfg hash d l s [failed refs]. unfold check, test_check. apply follows_bind; [apply follows_refl|]. intro r.
  apply follows_bind; [|intro x; apply follows_refl].
  unfold probe, test_probe. apply follows_bind; [apply follows_refl|]. intros v m x E.
  unfold bind, assert_, ret in *. rewrite (N.eqb_sym r v). destruct (ndebug cfg); [exact E|].
  destruct (v =? r); [exact E|discriminate].
Qed.
Lemma follows_selfcheck : forall cfg pattern long hash refs m z m',
  t1ha_selfcheck cfg pattern long hash refs m = Ok (z, m') ->
  verify cfg pattern long hash refs m = Ok (negb (z =? 0)%Z, m').
Proof.
  intros cfg pattern long hash refs m z m' H.
  assert (F : follows (z <- t1ha_selfcheck cfg pattern long hash refs ;; ret (negb (z =? 0)%Z))
                      (verify cfg pattern long hash refs)).
  { clear. intros m r E. unfold t1ha_selfcheck in E. cbv zeta in E. unfold verify. cbv zeta. revert m r E.
    intros m r E. repeat rewrite bind_assoc in E. revert E. 
    apply (follows_bind _ _ _ _ _ _ (follows_check cfg hash _ _ _ _)). intros s. clear m r.
    intros m r E. rewrite bind_assoc in E. revert E.
    apply (follows_bind _ _ _ _ _ _ (follows_check cfg hash _ _ _ _)). clear s. intros s. clear m r.
    intros m r E. rewrite bind_assoc in E. revert E.
    apply (follows_bind _ _ _ _ _ _ (follows_check cfg hash _ _ _ _)). clear s. intros s. clear m r.
    intros m r E. rewrite bind_assoc in E. revert E. apply follows_bind.
    { apply follows_for. intros i x. apply follows_bind; [apply follows_check|intro a; apply follows_refl]. }
    clear s m r. intros x m r E. rewrite bind_assoc in E. revert E. apply follows_bind.
    { apply follows_for. intros i y. apply follows_bind; [apply follows_check|intro a; apply follows_refl]. }
    clear x m r. intros x m r E. rewrite bind_assoc in E. revert E. apply follows_bind; [apply follows_refl|].
    intros [] m1 r1 E. rewrite bind_assoc in E. revert E. apply follows_bind.
    { apply follows_for. intros i y. apply follows_check. }
    intros s m2 r2 E. unfold bind, ret in *. now destruct (fst s). }
  apply F. unfold bind. rewrite H. reflexivity.
Qed.

(** ** Flags *)
Lemma any_of_zero : forall x l, (N.land x (any_of l) =? 0) = forallb (fun m => N.land x m =? 0) l.
Proof.
  intros x l. induction l as [|m l IH]; cbn [any_of fold_right forallb].
  - now rewrite N.land_0_r.
  - rewrite N.land_lor_distr_r. change (fold_right N.lor 0 l) with (any_of l). rewrite <- IH.
    destruct (N.eqb_spec (N.land x m) 0) as [E|E]; cbn [andb].
    + now rewrite E, N.lor_0_l.
    + apply N.eqb_neq. intro Z. apply N.lor_eq_0_iff in Z. now destruct Z.
Qed.

(** ** Arguments *)
Definition opt_of (p : parsed) : option N := match p with Go f => Some (opt f) | Return_ _ => None end.
Definition status_of (p : parsed) : option Z := match p with Go _ => None | Return_ z => Some z end.

(** the selected options do not depend on the disabled ones *)
Lemma try_options_opt : forall a l f g, opt f = opt g ->
  option_map opt (try_options a l f) = option_map opt (try_options a l g).
Proof.
  intros a l f g E. induction l as [|[name flag] l IH]; [reflexivity|]. cbn [try_options]. unfold option_.
  destruct (String.eqb a _); [cbn; now rewrite E|]. destruct (String.eqb a _); [cbn; now rewrite E|]. exact IH.
Qed.
Lemma argument_opt : forall b ghz a f g, opt f = opt g ->
  opt_of (argument b ghz a f) = opt_of (argument b ghz a g) /\ status_of (argument b ghz a f) = status_of (argument b ghz a g).
Proof.
  intros b ghz a f g E. unfold argument.
  assert (T := try_options_opt a (option_names b) f g E). revert T.
  generalize (try_options a (option_names b) f) as x, (try_options a (option_names b) g) as y. intros x y T.
  repeat match goal with
  | |- context [if ?c then _ else _] => destruct c
  | |- context [match x with _ => _ end] => destruct x, y; cbn in T; try discriminate
  end; unfold opt_of, status_of, set_, disable; cbn [opt]; rewrite ?E; try (split; reflexivity).
  all: injection T as ->; split; reflexivity.
Qed.
Lemma arguments_opt : forall b ghz l f g, opt f = opt g ->
  opt_of (arguments b ghz l f) = opt_of (arguments b ghz l g) /\ status_of (arguments b ghz l f) = status_of (arguments b ghz l g).
Proof.
  intros b ghz l. induction l as [|a l IH]; intros f g E; cbn [arguments]; [cbn; now rewrite E|].
  destruct (argument_opt b ghz a f g E) as (O & S).
  destruct (argument b ghz a f), (argument b ghz a g); cbn in O, S; try discriminate.
  - injection O as O. now apply IH.
  - injection S as ->. now split.
Qed.
Lemma arguments_app : forall b ghz l1 l2 f, arguments b ghz (l1 ++ l2) f =
  match arguments b ghz l1 f with Go f' => arguments b ghz l2 f' | r => r end.
Proof.
  intros b ghz l1 l2. induction l1 as [|a l1 IH]; intro f; [reflexivity|]. cbn [app arguments].
  destruct (argument b ghz a f); [apply IH|reflexivity].
Qed.
Lemma parse_some : forall b ghz a l, parse b ghz (a :: l) =
  match arguments b ghz (a :: l) {| opt := 0; dis := 0 |} with Go f => Go (with_defaults f) | r => r end.
Proof. reflexivity. Qed.
Lemma parse_mid : forall b ghz l1 a l2, parse b ghz (l1 ++ a :: l2) =
  match arguments b ghz (l1 ++ a :: l2) {| opt := 0; dis := 0 |} with Go f => Go (with_defaults f) | r => r end.
Proof. intros b ghz [|x l1] a l2; reflexivity. Qed.

Lemma bit_pow : forall k, bit k = 2 ^ k.
Proof. intro k. apply N.shiftl_1_l. Qed.
Lemma bit_zero : forall x k, (N.land x (bit k) =? 0) = negb (N.testbit x k).
Proof. intros x k. rewrite bit_pow. apply land_pow2. Qed.

(** nothing but the starting-over options takes an option back *)
Lemma try_options_in : forall a l f f', try_options a l f = Some f' ->
  exists name flag, In (name, flag) l /\
    ((a = "--" ++ name)%string /\ f' = set_ f flag \/ (a = "--no-" ++ name)%string /\ f' = disable f flag).
Proof.
  intros a l f f' H. induction l as [|[name flag] l IH]; [discriminate|]. cbn [try_options] in H. unfold option_ in H.
  destruct (String.eqb_spec a ("--" ++ name)) as [E|_].
  { injection H as <-. exists name, flag. split; [now left|]. left. now split. }
  destruct (String.eqb_spec a ("--no-" ++ name)) as [E|_].
  { injection H as <-. exists name, flag. split; [now left|]. right. now split. }
  destruct (IH H) as (n & fl & I & C). exists n, fl. split; [now right|exact C].
Qed.

Lemma is_eq : forall a s, is a s = true -> a = s.
Proof. intros a s H. unfold is in H. now apply String.eqb_eq in H. Qed.

Lemma argument_keeps : forall b ghz a f f' k, argument b ghz a f = Go f' -> restarts a = false ->
  N.testbit (opt f) k = true -> N.testbit (opt f') k = true.
Proof.
  intros b ghz a f f' k H R T.
  assert (RR : is a "--test-quiet" = false /\ is a "--hash-stdin-strings" = false /\
               is a "--test-only" = false /\ is a "--no-bench" = false).
  { unfold restarts in R. cbn [existsb] in R. unfold is. rewrite !(String.eqb_sym _ a).
    destruct (a =? "--test-quiet")%string, (a =? "--hash-stdin-strings")%string, (a =? "--test-only")%string,
      (a =? "--no-bench")%string; try discriminate. repeat split; reflexivity. }
  destruct RR as (R1 & R2 & R3 & R4). unfold argument in H. rewrite R1, R2, R3, R4 in H. cbn [orb] in H.
  assert (L : forall m, N.testbit (N.lor (opt f) m) k = true) by (intro m; now rewrite N.lor_spec, T).
  repeat match type of H with
  | (if ?c then _ else _) = _ => destruct c; [first [discriminate | injection H as <-; cbn [opt set_ disable]; first [exact T | apply L] | idtac]|]
  end; try discriminate; try (injection H as <-; cbn [opt set_ disable]; first [exact T | apply L]).
  destruct (try_options a (option_names b) f) as [f''|] eqn:E.
  - injection H as <-. apply try_options_in in E. destruct E as (name & flag & _ & [(_ & ->)|(_ & ->)]); [apply L|exact T].
  - destruct (_ || _); discriminate.
Qed.
Lemma arguments_keep : forall b ghz l f f' k, arguments b ghz l f = Go f' -> Forall (fun a => restarts a = false) l ->
  N.testbit (opt f) k = true -> N.testbit (opt f') k = true.
Proof.
  intros b ghz l. induction l as [|a l IH]; intros f f' k H R T; cbn [arguments] in H; [now injection H as <-|].
  inversion R; subst. destruct (argument b ghz a f) as [g|] eqn:E; [|discriminate].
  eapply IH; [exact H|assumption|]. eapply argument_keeps; eassumption.
Qed.

Lemma argument_disabled : forall b ghz a f f' k, argument b ghz a f = Go f' -> brings_back a = false ->
  N.testbit bench_size_flags k = false -> k < 32 ->
  N.testbit (dis f) k = true -> N.testbit (dis f') k = true.
Proof.
  intros b ghz a f f' k H R S K T.
  assert (RR : is a "--bench-all" = false /\ is a "--all-funcs" = false).
  { unfold brings_back in R. cbn [existsb] in R. unfold is. rewrite !(String.eqb_sym _ a).
    destruct (a =? "--bench-all")%string, (a =? "--all-funcs")%string; try discriminate. split; reflexivity. }
  destruct RR as (R1 & R2). unfold argument in H. rewrite R1, R2 in H.
  assert (L : forall m, N.testbit (N.lor (dis f) m) k = true) by (intro m; now rewrite N.lor_spec, T).
  assert (A : N.testbit (N.land (dis f) (not32 bench_size_flags)) k = true).
  { rewrite N.land_spec, T. unfold not32. rewrite N.lxor_spec. change (u32 bench_size_flags) with bench_size_flags.
    rewrite S. change 4294967295 with (N.ones 32). rewrite N.ones_spec_low by exact K. reflexivity. }
  repeat match type of H with
  | (if ?c then _ else _) = _ => destruct c; [first [discriminate | injection H as <-; cbn [dis set_ disable]; first [exact T | apply L | exact A] | idtac]|]
  end; try discriminate; try (injection H as <-; cbn [dis set_ disable]; first [exact T | apply L | exact A]).
  destruct (try_options a (option_names b) f) as [f''|] eqn:E.
  - injection H as <-. apply try_options_in in E. destruct E as (name & flag & _ & [(_ & ->)|(_ & ->)]); [exact T|apply L].
  - destruct (_ || _); discriminate.
Qed.
Lemma arguments_disabled : forall b ghz l f f' k, arguments b ghz l f = Go f' -> Forall (fun a => brings_back a = false) l ->
  N.testbit bench_size_flags k = false -> k < 32 ->
  N.testbit (dis f) k = true -> N.testbit (dis f') k = true.
Proof.
  intros b ghz l. induction l as [|a l IH]; intros f f' k H R S K T; cbn [arguments] in H; [now injection H as <-|].
  inversion R; subst. destruct (argument b ghz a f) as [g|] eqn:E; [|discriminate].
  eapply IH; [exact H|assumption|exact S|exact K|]. eapply argument_disabled; eassumption.
Qed.

Lemma with_defaults_dis : forall f, dis (with_defaults f) = dis f.
Proof. intro f. unfold with_defaults. destruct (N.eqb _ 0); destruct (N.eqb _ 0); reflexivity. Qed.
Lemma with_defaults_keeps : forall f k, N.testbit (opt f) k = true -> N.testbit (opt (with_defaults f)) k = true.
Proof.
  intros f k T. unfold with_defaults. destruct (N.eqb _ 0); destruct (N.eqb _ 0); cbn [opt set_]; rewrite ?N.lor_spec, ?T; reflexivity.
Qed.
Lemma with_defaults_opt : forall f g, opt f = opt g -> opt (with_defaults f) = opt (with_defaults g).
Proof.
  intros [x d] [y e] E. cbn [opt] in E. subst y. unfold with_defaults, is_option_set, set_. cbn [opt dis].
  destruct (N.eqb (N.land x bench_funcs_flags) 0); cbn [opt dis]; destruct (N.eqb _ 0); reflexivity.
Qed.
Lemma cpu_flags_dis : forall b c f, dis (cpu_flags b c f) = dis f.
Proof. intros b c f. unfold cpu_flags. destruct (fetched b); [|reflexivity]. destruct (some_bit (basic_ecx c) _), (has_bits _ _), (some_bit _ _); reflexivity. Qed.

(** the processor only affects the flags 28, 29 and 30 *)
Lemma cpu_flags_land : forall b c f m, N.land m (any_of [bench_aes; bench_avx; bench_avx2]) = 0 -> m < 2 ^ 32 ->
  N.land (opt (cpu_flags b c f)) m = N.land (opt f) m.
Proof.
  intros b c f m Z L.
  assert (C : forall x k, In (bit k) [bench_aes; bench_avx; bench_avx2] -> k < 32 ->
    N.land (N.land x (not32 (bit k))) m = N.land x m).
  { intros x k I K. rewrite <- N.land_assoc. f_equal. apply N.bits_inj. intro j. rewrite N.land_spec.
    destruct (N.testbit m j) eqn:TM; [|apply andb_false_r]. rewrite andb_true_r.
    assert (J : j < 32).
    { destruct (N.ltb_spec j 32); [assumption|]. rewrite N.bits_above_log2 in TM; [discriminate|].
      destruct (N.eq_dec m 0) as [->|NZ]; [rewrite N.bits_0 in TM; discriminate|].
      apply N.log2_lt_pow2 in L; lia. }
    unfold not32. rewrite N.lxor_spec. change 4294967295 with (N.ones 32). rewrite N.ones_spec_low by exact J.
    unfold u32. change W32 with (2 ^ 32). rewrite N.mod_pow2_bits_low by exact J.
    rewrite bit_pow. destruct (N.eqb_spec k j) as [->|NE].
    - exfalso. apply (f_equal (fun y => N.testbit y j)) in Z. rewrite N.bits_0, N.land_spec, TM in Z. cbn [andb] in Z.
      assert (A : forall l, In (bit j) l -> N.testbit (any_of l) j = true).
      { clear. intros l. induction l as [|y l IH]; intros [].
        - subst y. cbn [any_of fold_right]. now rewrite N.lor_spec, bit_pow, N.pow2_bits_true.
        - cbn [any_of fold_right]. rewrite N.lor_spec. change (fold_right N.lor 0 l) with (any_of l). rewrite IH by assumption.
          apply orb_true_r. }
      rewrite A in Z by exact I. discriminate.
    - rewrite N.pow2_bits_false by exact NE. reflexivity. }
  unfold cpu_flags. destruct (fetched b); [|reflexivity].
  unfold bench_aes, bench_avx, bench_avx2 in *.
  destruct (some_bit (basic_ecx c) _), (has_bits _ _), (some_bit _ _); cbn [clear opt];
    rewrite ?C by (first [now left | now right; left | now right; right; left | reflexivity]); reflexivity.
Qed.
Lemma cpu_flags_set : forall b c f m, N.land m (any_of [bench_aes; bench_avx; bench_avx2]) = 0 -> m < 2 ^ 32 ->
  is_option_set (cpu_flags b c f) m = is_option_set f m.
Proof. intros b c f m Z L. unfold is_option_set. now rewrite cpu_flags_land. Qed.
Lemma bench_sizes_opt : forall f g, N.land (opt f) bench_size_flags = N.land (opt g) bench_size_flags -> bench_sizes f = bench_sizes g.
Proof.
  intros f g E. unfold bench_sizes. f_equal.
  assert (S : forall m, N.land bench_size_flags m = m -> is_option_set f m = is_option_set g m).
  { intros m M. unfold is_option_set. rewrite <- M at 1. rewrite N.land_assoc, E, <- N.land_assoc, M. reflexivity. }
  cbn [filter fst]. rewrite !S by reflexivity. reflexivity.
Qed.
Lemma cpu_sizes : forall b c f, bench_sizes (cpu_flags b c f) = bench_sizes f.
Proof. intros b c f. apply bench_sizes_opt. now apply cpu_flags_land. Qed.

(** some size is always left *)
Lemma some_size : forall f, bench_sizes (with_defaults f) <> [].
Proof.
  intro f. set (g := with_defaults f).
  assert (NZ : N.land (opt g) bench_size_flags <> 0).
  { assert (A : forall h, N.land (opt (if N.eqb (N.land (opt h) bench_size_flags) 0
        then set_ h (N.land default_option_flags bench_size_flags) else h)) bench_size_flags <> 0).
    { intro h. destruct (N.eqb_spec (N.land (opt h) bench_size_flags) 0) as [E|E]; [|exact E].
      unfold set_. cbn [opt]. rewrite N.land_lor_distr_l, E. discriminate. }
    apply A. }
  clearbody g. intro B. apply NZ. unfold bench_sizes in B. apply map_eq_nil in B. cbn [filter fst] in B.
  apply N.eqb_eq. change bench_size_flags with (any_of [bench_tiny; bench_small; bench_medium; bench_large; bench_huge]).
  rewrite any_of_zero. unfold is_option_set in B. cbn [forallb].
  destruct (N.land (opt g) bench_tiny =? 0); [|discriminate]. destruct (N.land (opt g) bench_small =? 0); [|discriminate].
  destruct (N.land (opt g) bench_medium =? 0); [|discriminate]. destruct (N.land (opt g) bench_large =? 0); [|discriminate].
  destruct (N.land (opt g) bench_huge =? 0); [|discriminate]. reflexivity.
Qed.

(** ** Standard input *)
Lemma take_line_nl : forall l s, ~ In newline l -> take_line (l ++ newline :: s) = (l ++ [newline], s, false).
Proof.
  intros l s N. induction l as [|c l IH]; [reflexivity|]. cbn [app take_line].
  destruct (Byte.eqb c newline) eqn:E; [apply Byte.byte_dec_bl in E; exfalso; apply N; now left|].
  rewrite IH; [reflexivity|]. intro I. apply N. now right.
Qed.
Lemma take_line_end : forall l, ~ In newline l -> take_line l = (l, [], true).
Proof.
  intros l N. induction l as [|c l IH]; [reflexivity|]. cbn [take_line].
  destruct (Byte.eqb c newline) eqn:E; [apply Byte.byte_dec_bl in E; exfalso; apply N; now left|].
  rewrite IH; [reflexivity|]. intro I. apply N. now right.
Qed.
Lemma take_max_nl : forall l s k, ~ In newline l -> (List.length l < k)%nat ->
  take_max k (l ++ newline :: s) = (l ++ [newline], s, false).
Proof.
  intros l s. induction l as [|c l IH]; intros [|k] N K; cbn in K; try lia; [reflexivity|]. cbn [app take_max].
  destruct (Byte.eqb c newline) eqn:E; [apply Byte.byte_dec_bl in E; exfalso; apply N; now left|].
  rewrite IH; [reflexivity| |lia]. intro I. apply N. now right.
Qed.
Lemma take_max_end : forall l k, ~ In newline l -> (List.length l <= k)%nat ->
  take_max k l = (l, [], (List.length l <? k)%nat).
Proof.
  intros l. induction l as [|c l IH]; intros [|k] N K; cbn in K; try lia; try reflexivity. cbn [take_max].
  destruct (Byte.eqb c newline) eqn:E; [apply Byte.byte_dec_bl in E; exfalso; apply N; now left|].
  rewrite IH; [reflexivity| |lia]. intro I. apply N. now right.
Qed.
Lemma take_max_more : forall l s k, ~ In newline l -> List.length l = k -> take_max k (l ++ s) = (l, s, false).
Proof.
  intros l s. induction l as [|c l IH]; intros k N K; subst k; [reflexivity|]. cbn [List.length app take_max].
  destruct (Byte.eqb c newline) eqn:E; [apply Byte.byte_dec_bl in E; exfalso; apply N; now left|].
  rewrite (IH (List.length l)); [reflexivity| |reflexivity]. intro I. apply N. now right.
Qed.
Lemma take_max_length : forall k s l r eof, take_max (S k) s = (l, r, eof) -> s <> [] -> (List.length r < List.length s)%nat.
Proof.
  assert (A : forall k s l r eof, take_max k s = (l, r, eof) -> (List.length r <= List.length s)%nat).
  { intro k. induction k as [|k IH]; intros s l r eof H; cbn [take_max] in H; [injection H as <- <- <-; lia|].
    destruct s as [|c s]; [injection H as <- <- <-; cbn; lia|].
    destruct (Byte.eqb c newline); [injection H as <- <- <-; cbn; lia|].
    destruct (take_max k s) as [[l' r'] e'] eqn:E. injection H as <- <- <-. apply IH in E. cbn. lia. }
  intros k s l r eof H NE. destruct s as [|c s]; [now elim NE|]. cbn [take_max] in H.
  destruct (Byte.eqb c newline); [injection H as <- <- <-; cbn; lia|].
  destruct (take_max k s) as [[l' r'] e'] eqn:E. injection H as <- <- <-. apply A in E. cbn. lia.
Qed.
Lemma c_string_id : forall l, ~ In x00 l -> c_string l = l.
Proof.
  intros l N. induction l as [|c l IH]; [reflexivity|]. cbn [c_string].
  destruct (Byte.eqb c x00) eqn:E; [apply Byte.byte_dec_bl in E; exfalso; apply N; now left|].
  rewrite IH; [reflexivity|]. intro I. apply N. now right.
Qed.
Lemma chunks_eof : forall how n s, chunks how n true s = Some [].
Proof. intros how [|n] s; reflexivity. Qed.

Lemma getline_chunks : forall s ls, lines s ls -> forall n, (List.length s < n)%nat -> chunks None n false s = Some ls.
Proof.
  intros s ls H. induction H as [|l NE N|l s ls N H IH]; intros n L; (destruct n as [|n]; [lia|]).
  - reflexivity.
  - cbn [chunks read_chunk]. unfold getline. destruct l as [|c l]; [now elim NE|].
    rewrite take_line_end by exact N. now rewrite chunks_eof.
  - cbn [chunks read_chunk]. unfold getline. destruct (l ++ newline :: s) as [|c t] eqn:E; [now destruct l|].
    rewrite <- E, take_line_nl by exact N. rewrite IH; [reflexivity|]. apply (f_equal (@List.length byte)) in E.
    rewrite app_length in E. cbn in E, L. lia.
Qed.
Lemma fgets_chunks : forall size s ls, lines s ls -> (2 <= size)%nat ->
  Forall (fun l => (List.length l < size)%nat) ls -> ~ In x00 s ->
  forall n, (List.length s < n)%nat -> chunks (Some size) n false s = Some ls.
Proof.
  intros size s ls H. induction H as [|l NE N|l s ls N H IH]; intros Z F NUL n L; (destruct n as [|n]; [lia|]).
  - reflexivity.
  - inversion F; subst. cbn [chunks read_chunk]. unfold fgets. destruct l as [|c l]; [now elim NE|].
    rewrite take_max_end by (first [exact N | lia]). cbn [option_map]. rewrite c_string_id by exact NUL.
    destruct (_ <? _)%nat; [now rewrite chunks_eof|]. destruct n as [|n]; [cbn in L; lia|]. reflexivity.
  - inversion F as [|x y F1 F2]; subst. rewrite app_length in F1. cbn in F1. cbn [chunks read_chunk]. unfold fgets.
    destruct (l ++ newline :: s) as [|c t] eqn:E; [now destruct l|].
    rewrite <- E, take_max_nl by (first [exact N | lia]). cbn [option_map]. rewrite c_string_id.
    + rewrite IH; [reflexivity|exact Z|exact F2| |].
      * intro I. apply NUL. rewrite <- E. apply in_or_app. right. now right.
      * apply (f_equal (@List.length byte)) in E. rewrite app_length in E. cbn in E, L. lia.
    + intro I. apply NUL. rewrite <- E. apply in_app_or in I. apply in_or_app. destruct I as [I|[I|[]]]; [now left|discriminate I].
Qed.
Lemma lines_exist : forall s, exists ls, lines s ls.
Proof.
  assert (A : forall s, (exists l r, s = l ++ newline :: r /\ ~ In newline l) \/ ~ In newline s).
  { intro s. induction s as [|c s IH]; [right; intros []|].
    destruct (Byte.eqb c newline) eqn:E.
    - apply Byte.byte_dec_bl in E. subst c. left. exists [], s. split; [reflexivity|intros []].
    - assert (NE : c <> newline) by (intro X; subst c; discriminate E).
      destruct IH as [(l & r & -> & N)|N].
      + left. exists (c :: l), r. split; [reflexivity|]. intros [X|X]; [now apply NE|now apply N].
      + right. intros [X|X]; [now apply NE|now apply N]. }
  intro s. remember (List.length s) as n eqn:E. revert s E. induction n as [n IH] using lt_wf_ind. intros s ->.
  destruct (A s) as [(l & r & -> & N)|N].
  - destruct (IH (List.length r)) with (s := r) as (ls & H); [rewrite app_length; cbn; lia|reflexivity|].
    exists ((l ++ [newline]) :: ls). now apply lines_more.
  - destruct s as [|c s]; [exists []; constructor|]. exists [c :: s]. now apply lines_last.
Qed.
Lemma fgets_ends : forall size, (2 <= size)%nat -> forall n s eof, (List.length s < n)%nat ->
  exists l, chunks (Some size) n eof s = Some l.
Proof.
  intros size Z n. induction n as [|n IH]; intros s eof L; [lia|]. cbn [chunks]. destruct eof; [now exists []|].
  cbn [read_chunk]. unfold fgets. destruct s as [|c s]; [now exists []|].
  destruct (take_max (size - 1) (c :: s)) as [[l r] e] eqn:E. cbn [option_map].
  destruct size as [|[|k]]; try lia. apply take_max_length in E; [|discriminate]. cbn in L, E.
  destruct (IH r e) as (ls & H); [lia|]. rewrite H. now exists (c_string l :: ls).
Qed.
Definition how_ok (how : option nat) : Prop := match how with None => True | Some n => (2 <= n)%nat end.
Lemma stdin_ends : forall how s, how_ok how -> exists l, stdin_chunks how s = Some l.
Proof.
  intros [size|] s H; unfold stdin_chunks.
  - apply fgets_ends; [exact H|lia].
  - destruct (lines_exist s) as (ls & L). exists ls. apply getline_chunks; [exact L|lia].
Qed.

(** ** main *)
Lemma choose_cpu : forall b c f, choose b (cpu_flags b c f) = choose b f.
Proof.
  intros b c f. unfold choose, is_selected. rewrite cpu_flags_dis, !cpu_flags_set by reflexivity. reflexivity.
Qed.
Lemma main_hash : forall b c w args f h, parse b (w_ghz w) args = Go f -> is_option_set f hash_stdin_strings = true ->
  w_selfcheck w = 0%Z -> choose b f = Some h ->
  forall l, stdin_chunks (w_how w) (w_stdin w) = Some l ->
  exists t, main b c w args = Some (t ++ [Hashes h (map (w_hash w h) l)], exit_success).
Proof.
  intros b c w args f h P H S C l L. unfold main. rewrite P, S. cbn [negb Z.eqb].
  rewrite cpu_flags_set, H, choose_cpu, C, L by reflexivity. eexists. reflexivity.
Qed.

(** ** Sizes *)
Lemma argument_sizes : forall b ghz a f f', argument b ghz a f = Go f' -> asks_size a = false ->
  N.land (opt f) bench_size_flags = 0 -> N.land (opt f') bench_size_flags = 0.
Proof.
  intros b ghz a f f' H R T.
  assert (L : forall m, N.land m bench_size_flags = 0 -> N.land (N.lor (opt f) m) bench_size_flags = 0).
  { intros m Z. now rewrite N.land_lor_distr_l, T, Z. }
  assert (A : forall m, N.land (N.land (opt f) m) bench_size_flags = 0).
  { intro m. rewrite <- N.land_assoc, (N.land_comm m), N.land_assoc, T. apply N.land_0_l. }
  assert (NI : forall s, In s ["--tiny"; "--small"; "--medium"; "--large"; "--huge"; "--all-sizes"; "--bench-all"]%string -> a <> s).
  { intros s I ->. assert (E : asks_size s = true).
    { unfold asks_size. apply existsb_exists. exists s. split; [exact I|apply String.eqb_refl]. }
    congruence. }
  unfold argument in H.
  repeat match type of H with
  | (if is a ?s then _ else _) = _ => destruct (is a s) eqn:?
  | (if ?c then _ else _) = _ => destruct c
  end; try discriminate; try (injection H as <-; cbn [opt set_ disable];
    first [exact T | apply A | reflexivity | apply L; reflexivity
          | unfold any_of; cbn [fold_right]; rewrite N.land_lor_distr_l, A; reflexivity | idtac]).
  - exfalso. apply (NI "--bench-all"%string); [cbn; tauto|now apply is_eq].
  - exfalso. apply (NI "--all-sizes"%string); [cbn; tauto|now apply is_eq].
  - apply L. unfold available_eas_flags. destruct (aesni_available b), (e2k b); reflexivity.
  - destruct (try_options a (option_names b) f) as [f''|] eqn:E.
    + injection H as <-. apply try_options_in in E. destruct E as (name & flag & I & [(E & ->)|(_ & ->)]); [|exact T].
      cbn [opt set_]. apply L. unfold option_names in I. rewrite !in_app_iff in I.
      destruct I as [I|[I|[I|[I|I]]]];
        try (match type of I with In _ (if ?x then _ else _) => destruct x end);
        cbn [In] in I; repeat (destruct I as [I|I]; [injection I as <- <-; first [reflexivity
          | exfalso; revert E; apply NI; cbn; tauto]|]); contradiction I.
    + destruct (_ || _); discriminate.
Qed.
