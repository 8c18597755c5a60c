(** C42-C48: the test program. *)
From Coq Require Import ZArith NArith Arith List Bool Lia Strings.Byte Strings.String.
From Coq Require Import ZifyN ZifyNat ZifyBool.
From Verif Require Import Bytes CSem Bits OneShot Demo Dispatch DispatchFacts Selfcheck SelfcheckSpec SelfcheckTrace
  SelfcheckDemo PropSelfcheck TestMain TestSpec TestFacts.
Import ListNotations.
Local Open Scope N_scope.

(** ** C42: verify() *)
(** In all builds, with asserts or without: all 81 probes are made, in the order
    of the table, and the result is "failed" iff some value is not the recorded
    one.  ([hash] is any code that leaves the table alone.) *)
Theorem C42_probes : forall cfg pattern long refs rs hash m,
  pattern + 64 < addr_space cfg -> long + 512 < addr_space cfg -> refs + 648 < addr_space cfg ->
  refs mod alignment cfg 8 = 0 -> apart long 512 refs 648 ->
  List.length rs = 81%nat -> (forall r, In r rs -> r < 2 ^ 64) -> refs_at cfg refs rs m ->
  (forall d l s m x m', refs_at cfg refs rs m -> hash d l s m = Ok (x, m') -> refs_at cfg refs rs m') ->
  verify cfg pattern long hash refs m
  = (vs <- run_probes hash (short_probes pattern) ;;
     fill long pattern_long ;;;
     ws <- run_probes hash (long_probes long) ;;
     ret (if list_eq_dec N.eq_dec (vs ++ ws) rs then false else true)) m.
Proof.
  intros cfg pattern long refs rs hash m H1 H2 H3 H4 H5 H6 H7 H8 H9. rewrite verify_release.
  rewrite (bind_cong _ _ _ _ _ _ m (C22_release (release cfg) pattern long refs rs hash m eq_refl H1 H2 H3 H4 H5 H6 H7 H8 H9)
    (fun a m => eq_refl)).
  rewrite bind_assoc. apply bind_ext. intros vs m1. rewrite bind_assoc. apply bind_ext. intros [] m2.
  rewrite bind_assoc. apply bind_ext. intros ws m3. unfold bind, ret. now destruct (list_eq_dec N.eq_dec (vs ++ ws) rs).
Qed.
Print Assumptions C42_probes.

(** Whenever the self-check of a function comes to an end, verify() of the same
    function says the same and leaves the same memory. *)
Theorem C42_agrees : forall cfg pattern long hash refs m z m',
  t1ha_selfcheck cfg pattern long hash refs m = Ok (z, m') ->
  verify cfg pattern long hash refs m = Ok (negb (z =? 0)%Z, m').
Proof. exact follows_selfcheck. Qed.
Print Assumptions C42_agrees.

(** The shipped functions pass. *)
Theorem C42_shipped : forall b c v f m, image_ok b v m -> in_build b f = true -> runnable b c f ->
  exists m', verify (base b) (v_pattern v) (v_long v) (shipped b c v f) (v_refs v f) m = Ok (false, m') /\
             same_except (locals b v) m m'.
Proof.
  intros b c v f m I B R. destruct (C23_each b c v f m I B R) as (m' & E & S). exists m'. split; [|exact S].
  now apply C42_agrees in E.
Qed.
Print Assumptions C42_shipped.

Example C42_right : exists m', verify x86_64 4096 16384 length_hash 8192 (table_mem x86_64 length_table) = Ok (false, m').
Proof. destruct C22_verdict_holds as (m' & E & _). exists m'. apply (C42_agrees _ _ _ _ _ _ _ _ E). Qed.
(** one bit wrong in the last value, with asserts: the self-check stops the
    program, verify() reports it *)
Definition failed_of (o : outcome (bool * mem)) : option bool := match o with Ok (x, _) => Some x | _ => None end.
Example C42_wrong_last :
  let m := table_mem sparc64 (firstn 80 length_table ++ [N.lxor (nth 80 length_table 0) (2 ^ 63)]) in
  t1ha_selfcheck sparc64 4096 16384 length_hash 8192 m = Abort /\
  failed_of (verify sparc64 4096 16384 length_hash 8192 m) = Some true.
Proof. split; vm_compute; reflexivity. Qed.
Example C42_x86_64 : exists m',
  verify x86_64 4096 8192 (shipped (plain_build x86_64) haswell demo_frame (Fn AesAvx2)) (16384 + 648 * 7) (demo_mem x86_64)
  = Ok (false, m').
Proof.
  destruct (C42_shipped (plain_build x86_64) haswell demo_frame (Fn AesAvx2) (demo_mem x86_64) demo_x86_64 eq_refl) as (m' & E & _).
  - split; [reflexivity|reflexivity].
  - exists m'. exact E.
Qed.

(** ** C43: the exit status *)
(** A failing self-check: EXIT_FAILURE, and nothing is run after it. *)
Theorem C43_selfcheck : forall b c w args f, parse b (w_ghz w) args = Go f -> w_selfcheck w <> 0%Z ->
  main b c w args = Some ([Selfcheck (w_selfcheck w)], exit_failure).
Proof.
  intros b c w args f P S. unfold main. rewrite P. destruct (Z.eqb_spec (w_selfcheck w) 0); [contradiction|reflexivity].
Qed.
Print Assumptions C43_selfcheck.

(** "Verification FAILED!" is printed iff verify() of one of the library's
    functions failed, or that of a hash for comparison other than the two
    accelerated variants of HighwayHash. *)
Theorem C43_message : forall b c w args f t s, parse b (w_ghz w) args = Go f -> w_selfcheck w = 0%Z ->
  main b c w args = Some (t, s) ->
  (In VerificationFailed t <->
   exists g, In (Verify g true) t /\ g <> Other HighwaySse41 /\ g <> Other HighwayAvx2).
Proof.
  intros b c w args f t s P S M. unfold main in M. rewrite P, S in M. cbn [negb Z.eqb] in M.
  set (lib := map _ (verified_lib b c)) in M. set (other := map _ (verified_other b c)) in M.
  set (failed := _ || _) in M. set (tests := Selfcheck 0 :: _) in M.
  assert (T : exists rest, t = tests ++ rest /\ (In VerificationFailed rest -> False) /\ (forall g, In (Verify g true) rest -> False)).
  { destruct (is_option_set _ _).
    - destruct (choose _ _) as [h|].
      + destruct (stdin_chunks _ _) as [l|]; [|discriminate]. injection M as <- <-. eexists. split; [reflexivity|].
        split; [intros [X|[]]; discriminate X|intros g [X|[]]; discriminate X].
      + injection M as <- <-. exists []. rewrite app_nil_r. split; [reflexivity|split; [intros []|intros g []]].
    - destruct (w_clock w).
      + injection M as <- <-. eexists. split; [reflexivity|]. split.
        * intro X. apply in_map_iff in X. destruct X as (n & X & _). discriminate X.
        * intros g X. apply in_map_iff in X. destruct X as (n & X & _). discriminate X.
      + injection M as <- <-. exists []. rewrite app_nil_r. split; [reflexivity|split; [intros []|intros g []]]. }
  destruct T as (rest & -> & R1 & R2). clear M s.
  assert (V : In VerificationFailed (tests ++ rest) <-> failed = true).
  { rewrite in_app_iff. unfold tests. split.
    - intros [[X|X]|X]; [discriminate X| |now elim R1].
      rewrite in_app_iff in X. destruct X as [X|X].
      { apply in_map_iff in X. destruct X as (y & X & _). discriminate X. }
      rewrite in_app_iff in X. destruct X as [X|[X|X]]; [apply in_map_iff in X; destruct X as (y & X & _); discriminate X|discriminate X|].
      rewrite in_app_iff in X. destruct X as [X|X]; [apply in_map_iff in X; destruct X as (y & X & _); discriminate X|].
      destruct failed; [reflexivity|destruct X].
    - intros ->. left. right. rewrite !in_app_iff. right. right. right. rewrite in_app_iff. right. now left. }
  rewrite V. clear V.
  assert (OT : other = removelast other ++ skipn (List.length other - 1) other).
  { generalize other as l. clear. intro l. induction l as [|x [|y l] IH]; [reflexivity|reflexivity|].
    change (removelast (x :: y :: l)) with (x :: removelast (y :: l)).
    replace (List.length (x :: y :: l) - 1)%nat with (S (List.length (y :: l) - 1)) by (cbn; lia).
    change (skipn (S (List.length (y :: l) - 1)) (x :: y :: l)) with (skipn (List.length (y :: l) - 1) (y :: l)).
    cbn [app]. now rewrite <- IH. }
  assert (W : forall g, In (Verify g true) (tests ++ rest) <-> In (g, true) lib \/ exists x, In (g, x, true) other).
  { intro g. rewrite in_app_iff. unfold tests. split.
    - intros [[X|X]|X]; [discriminate X| |now elim (R2 g)].
      rewrite in_app_iff in X. destruct X as [X|X].
      { apply in_map_iff in X. destruct X as ([y z] & X & I). injection X as <- <-. now left. }
      right. rewrite OT. rewrite in_app_iff in X. destruct X as [X|[X|X]]; [|discriminate X|].
      + apply in_map_iff in X. destruct X as ([[y x] z] & X & I). cbn [fst snd] in X. injection X as <- <-. exists x.
        apply in_or_app. now left.
      + rewrite in_app_iff in X. destruct X as [X|X]; [|destruct failed; [destruct X as [X|[]]; discriminate X|destruct X]].
        apply in_map_iff in X. destruct X as ([[y x] z] & X & I). cbn [fst snd] in X. injection X as <- <-. exists x.
        apply in_or_app. now right.
    - intro X. left. right. rewrite in_app_iff. destruct X as [X|(x & X)].
      { left. apply in_map_iff. now exists (g, true). }
      right. rewrite OT in X. rewrite in_app_iff in X. rewrite in_app_iff. destruct X as [X|X].
      + left. apply in_map_iff. now exists (g, x, true).
      + right. right. rewrite in_app_iff. left. apply in_map_iff. now exists (g, x, true). }
  assert (G : forall g, In g (map fst lib) -> g <> Other HighwaySse41 /\ g <> Other HighwayAvx2).
  { intros g I. unfold lib in I. rewrite map_map in I. apply in_map_iff in I. destruct I as (y & <- & _). split; discriminate. }
  assert (O : forall g x z, In (g, x, z) other -> x = true <-> g <> Other HighwaySse41 /\ g <> Other HighwayAvx2).
  { intros g x z I. unfold other in I. apply in_map_iff in I. destruct I as ([y u] & X & I). cbn [fst snd] in X. injection X as <- <- <-.
    clear -I. unfold verified_other in I. rewrite !in_app_iff in I.
    destruct I as [I|[I|[I|I]]].
    - destruct I as [I|[I|[]]]; injection I as <- <-; split; intros; try split; try discriminate; reflexivity.
    - destruct (ia32 (base b)); [|destruct I]. rewrite in_app_iff in I. destruct I as [I|I].
      + destruct (some_bit _ _); [|destruct I]. destruct I as [I|[]]. injection I as <- <-. split; [discriminate|]. intros (X & _). now elim X.
      + destruct (some_bit _ _); [|destruct I]. destruct I as [I|[]]. injection I as <- <-. split; [discriminate|]. intros (_ & X). now elim X.
    - destruct (e2k b); [|destruct I]. destruct I as [I|[]]. injection I as <- <-. split; [discriminate|]. intros (X & _). now elim X.
    - destruct I as [I|[I|[]]]; injection I as <- <-; split; intros; try split; try discriminate; reflexivity. }
  unfold failed. rewrite orb_true_iff, !existsb_exists. split.
  - intros [([g z] & I & E)|([[g x] z] & I & E)]; cbn [fst snd] in E.
    + subst z. exists g. split; [apply W; now left|]. apply G. apply in_map_iff. now exists (g, true).
    + apply andb_prop in E. destruct E as (-> & ->). exists g. split; [apply W; right; now exists true|]. now apply (O g true true).
  - intros (g & I & NG). apply W in I. destruct I as [I|(x & I)].
    + left. now exists (g, true).
    + right. exists (g, x, true). split; [exact I|]. cbn [fst snd]. now rewrite (proj2 (O g x true I) NG).
Qed.
Print Assumptions C43_message.

(** The status does not tell: as soon as the self-check passes, the program
    exits with success whatever verify() says, unless it is told to hash its
    input (usage: "--test-quiet - quiet perform tests and exit with status"). *)
Theorem C43_status_refuted : forall b c w args f, parse b (w_ghz w) args = Go f -> w_selfcheck w = 0%Z ->
  is_option_set f hash_stdin_strings = false -> exists t, main b c w args = Some (t, exit_success).
Proof.
  intros b c w args f P S H. unfold main. rewrite P, S, cpu_flags_set, H by reflexivity. cbn [negb Z.eqb].
  destruct (w_clock w); eexists; reflexivity.
Qed.
Print Assumptions C43_status_refuted.

(** a world where every comparison fails but the self-check passes; [failing]:
    which verifications fail *)
Definition world_of (failing : callee -> bool) : world :=
  {| w_ghz := fun _ => true; w_selfcheck := 0; w_failed := failing; w_wyhash_selftest := true; w_clock := true;
     w_stdin := []; w_how := None; w_hash := fun _ _ => 0 |}.
Example C43_quiet_success : exists t,
  main (plain_build x86_64) haswell (world_of (fun _ => true)) ["--test-quiet"%string] = Some (t, exit_success) /\
  In VerificationFailed t /\ In (Verify (Lib (Fn Atonce)) true) t.
Proof. eexists. split; [vm_compute; reflexivity|]. split; cbn; tauto. Qed.
(** AVX2 code of HighwayHash and the self-test of wyhash wrong: not even a message *)
Example C43_silent : exists t,
  main (plain_build x86_64) haswell (world_of (fun g => match g with Other HighwayAvx2 => true | _ => false end)) [] = Some (t, exit_success) /\
  In (Verify (Other HighwayAvx2) true) t /\ In (WyhashSelftest true) t /\ ~ In VerificationFailed t.
Proof.
  eexists. split; [vm_compute; reflexivity|]. repeat split; try (cbn; tauto).
  cbn. intro H. repeat (destruct H as [H|H]; [discriminate H|]). exact H.
Qed.
Example C43_failed : main (plain_build x86_64) haswell {| w_ghz := fun _ => true; w_selfcheck := -1; w_failed := fun _ => false;
    w_wyhash_selftest := false; w_clock := true; w_stdin := []; w_how := None; w_hash := fun _ _ => 0 |} []
  = Some ([Selfcheck (-1)], exit_failure).
Proof. reflexivity. Qed.

(** ** C44: what is benchmarked *)
(** Sizes: one that is asked for is used, unless a later option starts over;
    if none is asked for, tiny and large. *)
Theorem C44_requested : forall b c ghz l1 name size l2 f, In (name, size) size_options ->
  parse b ghz (l1 ++ ("--" ++ name)%string :: l2) = Go f -> Forall (fun a => restarts a = false) l2 ->
  In size (bench_sizes (cpu_flags b c f)).
Proof.
  intros b c ghz l1 name size l2 f I P R. rewrite cpu_sizes, parse_mid, arguments_app in *. 
  destruct (arguments b ghz l1 _) as [g|]; [|discriminate]. cbn [arguments] in P.
  destruct (argument b ghz ("--" ++ name) g) as [g'|] eqn:A; [|discriminate].
  destruct (arguments b ghz l2 g') as [h|] eqn:E; [|discriminate]. injection P as <-.
  assert (K : forall k, N.testbit (opt g') k = true -> (N.land (opt (with_defaults h)) (bit k) =? 0) = false).
  { intros k T. rewrite bit_zero. rewrite with_defaults_keeps; [reflexivity|]. eapply arguments_keep; eassumption. }
  assert (B : forall k, opt g' = N.lor (opt g) (bit k) -> N.testbit (opt g') k = true).
  { intros k ->. now rewrite N.lor_spec, bit_pow, N.pow2_bits_true, orb_true_r. }
  unfold bench_sizes. apply in_map_iff.
  destruct I as [I|[I|[I|[I|[I|[]]]]]]; injection I as <- <-; cbn in A; 
    destruct (t1ha0_disabled b), (t1ha1_disabled b), (t1ha2_disabled b); cbn in A; injection A as <-.
  all: first
   [ exists (bench_tiny, 7); split; [reflexivity|]; apply filter_In; split; [cbn; tauto|]; unfold is_option_set; cbn [fst];
     apply negb_true_iff; apply (K 16); apply B; reflexivity
   | exists (bench_small, 63); split; [reflexivity|]; apply filter_In; split; [cbn; tauto|]; unfold is_option_set; cbn [fst];
     apply negb_true_iff; apply (K 17); apply B; reflexivity
   | exists (bench_medium, 1024); split; [reflexivity|]; apply filter_In; split; [cbn; tauto|]; unfold is_option_set; cbn [fst];
     apply negb_true_iff; apply (K 18); apply B; reflexivity
   | exists (bench_large, 1024 * 16); split; [reflexivity|]; apply filter_In; split; [cbn; tauto|]; unfold is_option_set; cbn [fst];
     apply negb_true_iff; apply (K 19); apply B; reflexivity
   | exists (bench_huge, 1024 * 256); split; [reflexivity|]; apply filter_In; split; [cbn; tauto|]; unfold is_option_set; cbn [fst];
     apply negb_true_iff; apply (K 20); apply B; reflexivity ].
Qed.
Print Assumptions C44_requested.
Theorem C44_default : forall b c ghz args f, parse b ghz args = Go f -> Forall (fun a => asks_size a = false) args ->
  bench_sizes (cpu_flags b c f) = [7; 16384].
Proof.
  intros b c ghz args f P A. rewrite cpu_sizes.
  transitivity (bench_sizes {| opt := default_option_flags; dis := 0 |}); [|reflexivity].
  apply bench_sizes_opt. cbn [opt]. destruct args as [|a args]; [injection P as <-; reflexivity|].
  rewrite parse_some in P.
  assert (Z : forall l g g', Forall (fun a => asks_size a = false) l -> arguments b ghz l g = Go g' ->
    N.land (opt g) bench_size_flags = 0 -> N.land (opt g') bench_size_flags = 0).
  { clear. intro l. induction l as [|a l IH]; intros g g' A H T; cbn [arguments] in H; [now injection H as <-|].
    inversion A; subst. destruct (argument b ghz a g) as [h|] eqn:E; [|discriminate].
    apply (IH h g'); [assumption|exact H|]. eapply argument_sizes; eassumption. }
  destruct (arguments b ghz (a :: args) _) as [g|] eqn:E; [|discriminate]. injection P as <-.
  apply Z in E; [|exact A|reflexivity]. clear -E. unfold with_defaults.
  destruct (N.eqb (N.land (opt g) bench_funcs_flags) 0).
  - unfold set_. cbn [opt].
    assert (X : N.land (N.lor (opt g) (if is_option_set g hash_stdin_strings then bench_2
                else N.land default_option_flags bench_funcs_flags)) bench_size_flags = 0).
    { rewrite N.land_lor_distr_l, E. destruct (is_option_set g hash_stdin_strings); reflexivity. }
    rewrite X. cbn [N.eqb opt]. rewrite N.land_lor_distr_l, X. reflexivity.
  - rewrite E. cbn [N.eqb]. unfold set_. cbn [opt]. rewrite N.land_lor_distr_l, E. reflexivity.
Qed.
Print Assumptions C44_default.

(** A function that is excluded by one of its names is not benchmarked, unless a
    later option brings it back. *)
Theorem C44_excluded : forall b c ghz l1 name l2 f g,
  parse b ghz (l1 ++ ("--no-" ++ name)%string :: l2) = Go f -> Forall (fun a => brings_back a = false) l2 ->
  In g (benched b c (cpu_flags b c f)) -> ~ In name (names g).
Proof.
  intros b c ghz l1 name l2 f g P R I NI. rewrite parse_mid, arguments_app in P.
  destruct (arguments b ghz l1 _) as [g1|]; [|discriminate]. cbn [arguments] in P.
  destruct (argument b ghz ("--no-" ++ name) g1) as [g2|] eqn:A; [|discriminate].
  destruct (arguments b ghz l2 g2) as [h|] eqn:E; [|discriminate]. injection P as <-.
  assert (D : dis (cpu_flags b c (with_defaults h)) = dis h) by now rewrite cpu_flags_dis, with_defaults_dis.
  set (fl := cpu_flags b c (with_defaults h)) in *. clearbody fl.
  assert (K : forall k, N.testbit bench_size_flags k = false -> k < 32 -> dis g2 = N.lor (dis g1) (bit k) ->
    N.testbit (dis fl) k = true).
  { intros k S L G. rewrite D. eapply arguments_disabled; [exact E|exact R|exact S|exact L|].
    rewrite G, N.lor_spec, bit_pow, N.pow2_bits_true. apply orb_true_r. }
  assert (KA : aesni_available b = true -> dis g2 = N.lor (dis g1) (available_eas_flags b) -> N.testbit (dis fl) 28 = true).
  { intros V G. rewrite D. eapply arguments_disabled; [exact E|exact R|reflexivity|reflexivity|].
    rewrite G, N.lor_spec. unfold available_eas_flags. rewrite V. destruct (e2k b); apply orb_true_r. }
  assert (SEL : forall l k, is_selected fl (any_of l) = true -> In (bit k) l -> N.testbit (dis fl) k = false).
  { intros l k X IK. unfold is_selected in X. apply andb_prop in X. destruct X as (_ & X). rewrite any_of_zero in X.
    rewrite forallb_forall in X. specialize (X _ IK). rewrite bit_zero in X. now apply negb_true_iff in X. }
  assert (NK : forall l k, is_selected fl (any_of l) = true -> In (bit k) l -> N.testbit bench_size_flags k = false -> k < 32 ->
    dis g2 = N.lor (dis g1) (bit k) -> False).
  { intros l k X IK S L G. assert (X1 := SEL l k X IK). rewrite (K k S L G) in X1. discriminate X1. }
  assert (NA : forall l, is_selected fl (any_of l) = true -> In (bit 28) l -> aesni_available b = true ->
    argument b ghz "--no-aes" g1 = Go g2 -> False).
  { intros l X IK V G. assert (X1 := SEL l 28 X IK). rewrite KA in X1; [discriminate X1|exact V|]. clear -V G.
    cbn in G. unfold available_eas_flags in *. rewrite V in *. destruct (e2k b); cbn in G |- *; now injection G as <-. }
  clear K KA.
  unfold benched in I. cbv beta zeta in I.
  repeat match type of I with
  | In _ (_ ++ _) => apply in_app_or in I; destruct I as [I|I]
  | In _ (if ?x then _ else _) => destruct x eqn:?; [|destruct I]
  | In _ _ => cbn [In] in I; repeat (destruct I as [I|I]; [subst g|]); try contradiction I
  end;
  cbn [names In] in NI; repeat (destruct NI as [NI|NI]; [subst name|]); try contradiction NI;
  try (match goal with S : is_selected _ (any_of [bench_aes]) = true |- _ => exact (NA _ S (or_introl eq_refl) eq_refl A) end);
  cbn in A; destruct (t1ha0_disabled b), (t1ha1_disabled b), (t1ha2_disabled b); try discriminate; cbn in A;
  try discriminate A; injection A as <-;
  match goal with
  | S : is_selected _ (any_of ?l) = true |- _ =>
      first
        [ exact (NK l 4 S ltac:(repeat first [left; reflexivity | right]) eq_refl eq_refl eq_refl)
        | exact (NK l 5 S ltac:(repeat first [left; reflexivity | right]) eq_refl eq_refl eq_refl)
        | exact (NK l 6 S ltac:(repeat first [left; reflexivity | right]) eq_refl eq_refl eq_refl)
        | exact (NK l 7 S ltac:(repeat first [left; reflexivity | right]) eq_refl eq_refl eq_refl)
        | exact (NK l 8 S ltac:(repeat first [left; reflexivity | right]) eq_refl eq_refl eq_refl)
        | exact (NK l 9 S ltac:(repeat first [left; reflexivity | right]) eq_refl eq_refl eq_refl)
        | exact (NK l 10 S ltac:(repeat first [left; reflexivity | right]) eq_refl eq_refl eq_refl)
        | exact (NK l 24 S ltac:(repeat first [left; reflexivity | right]) eq_refl eq_refl eq_refl)
        | exact (NK l 25 S ltac:(repeat first [left; reflexivity | right]) eq_refl eq_refl eq_refl)
        | exact (NK l 26 S ltac:(repeat first [left; reflexivity | right]) eq_refl eq_refl eq_refl)
        | exact (NK l 27 S ltac:(repeat first [left; reflexivity | right]) eq_refl eq_refl eq_refl) ]
  end.
Qed.
Print Assumptions C44_excluded.

(** Benchmarks cannot be switched off: every accepted command line that does not
    hash the input runs some, provided there is a clock.  (usage: "--test-only,
    --no-bench - perform tests, but don't benchmarking") *)
Theorem C44_off_refuted : forall b c w args f, parse b (w_ghz w) args = Go f -> w_selfcheck w = 0%Z ->
  is_option_set f hash_stdin_strings = false -> w_clock w = true ->
  exists t size fs, main b c w args = Some (t, exit_success) /\ In (Bench size fs) t.
Proof.
  intros b c w args f P S H K. unfold main. rewrite P, S, cpu_flags_set, H, K by reflexivity. cbn [negb Z.eqb].
  destruct (bench_sizes (cpu_flags b c f)) as [|n l] eqn:E.
  - exfalso. rewrite cpu_sizes in E. destruct args as [|a args]; [injection P as <-; discriminate E|].
    rewrite parse_some in P. destruct (arguments _ _ _ _) as [g|]; [|discriminate]. injection P as <-. now apply some_size in E.
  - eexists _, n, (benched b c (cpu_flags b c f)). split; [reflexivity|]. apply in_or_app. right. now left.
Qed.
Print Assumptions C44_off_refuted.

(** A size cannot be excluded: --no-tiny and the like change nothing.  (usage:
    "--tiny, --no-tiny - include/exclude 5 bytes, i.e tiny keys") *)
Theorem C44_no_size_refuted : forall b c ghz l1 name size l2 f g, In (name, size) size_options ->
  parse b ghz (l1 ++ ("--no-" ++ name)%string :: l2) = Go f -> parse b ghz (l1 ++ l2) = Go g ->
  bench_sizes (cpu_flags b c f) = bench_sizes (cpu_flags b c g).
Proof.
  intros b c ghz l1 name size l2 f g I P Q. rewrite !cpu_sizes. rewrite parse_mid, arguments_app in P.
  assert (A : forall x, exists y, argument b ghz ("--no-" ++ name) x = Go y /\ opt y = opt x).
  { intro x. destruct I as [I|[I|[I|[I|[I|[]]]]]]; injection I as <- <-; cbn;
      destruct (t1ha0_disabled b), (t1ha1_disabled b), (t1ha2_disabled b); cbn; eexists; split; reflexivity. }
  apply bench_sizes_opt. f_equal.
  assert (Q' : l1 ++ l2 = [] \/ match arguments b ghz (l1 ++ l2) {| opt := 0; dis := 0 |} with Go f => Go (with_defaults f) | r => r end = Go g).
  { destruct (l1 ++ l2); [now left|right; exact Q]. }
  destruct Q' as [Z|Q'].
  - apply app_eq_nil in Z. destruct Z as (-> & ->). cbn [arguments app] in P.
    destruct (A {| opt := 0; dis := 0 |}) as (y & E & O). rewrite E in P. cbn [arguments] in P. injection P as <-.
    cbn [app] in Q. injection Q as <-. cbn [opt] in *. rewrite (with_defaults_opt y {| opt := 0; dis := 0 |} O). reflexivity.
  - rewrite arguments_app in Q'. destruct (arguments b ghz l1 _) as [x|]; [|discriminate]. cbn [arguments] in P.
    destruct (A x) as (y & E & O). rewrite E in P. destruct (arguments_opt b ghz l2 y x O) as (O2 & _).
    destruct (arguments b ghz l2 y) as [f'|]; [|discriminate]. destruct (arguments b ghz l2 x) as [g'|]; [|discriminate].
    injection P as <-. injection Q' as <-. apply with_defaults_opt. now injection O2.
Qed.
Print Assumptions C44_no_size_refuted.

(** --no-le does not exclude t1ha2.  (usage: "--le, --no-le - include/exclude
    little-endian targets, i.e. t1ha0_32le(), t1ha2...") *)
Theorem C44_le_refuted : forall b c ghz f, t1ha2_disabled b = false -> parse b ghz ["--no-le"%string] = Go f ->
  In (Lib (Fn Atonce)) (benched b c (cpu_flags b c f)).
Proof.
  intros b c ghz f D P. cbn in P. rewrite D in P.
  assert (E : f = {| opt := default_option_flags; dis := bench_le |}).
  { destruct (t1ha0_disabled b), (t1ha1_disabled b); cbn in P; now injection P as <-. }
  subst f. clear P. unfold benched. rewrite D. apply in_or_app. left. cbn [negb].
  assert (S : is_selected (cpu_flags b c {| opt := default_option_flags; dis := bench_le |}) (any_of [bench_64; bench_2]) = true).
  { unfold is_selected. rewrite cpu_flags_dis, cpu_flags_set by reflexivity. reflexivity. }
  rewrite S. now left.
Qed.
Print Assumptions C44_le_refuted.

Definition benches (o : option (list event * Z)) : list (N * list callee) :=
  match o with
  | Some (t, _) => flat_map (fun e => match e with Bench n fs => [(n, fs)] | _ => [] end) t
  | None => []
  end.
Example C44_huge : map fst (benches (main (plain_build x86_64) haswell (world_of (fun _ => false)) ["--no-1"; "--huge"; "-v"]%string)) = [262144].
Proof. reflexivity. Qed.
Example C44_no_1 : benches (main (plain_build sparc64) old_cpu (world_of (fun _ => false)) ["--1"; "--2"; "--no-1"]%string)
  = [(7, [Lib (Fn Atonce); Lib Thunk128; Lib ThunkStream; Lib ThunkStream128]);
     (16384, [Lib (Fn Atonce); Lib Thunk128; Lib ThunkStream; Lib ThunkStream128])].
Proof. reflexivity. Qed.
Example C44_test_only : map fst (benches (main (plain_build x86_64) haswell (world_of (fun _ => false)) ["--test-only"%string])) = [7; 16384].
Proof. reflexivity. Qed.
Example C44_no_tiny : map fst (benches (main (plain_build x86_64) haswell (world_of (fun _ => false)) ["--no-tiny"%string])) = [7; 16384].
Proof. reflexivity. Qed.
Example C44_no_le_t1ha2 : In (Lib (Fn Atonce))
  (flat_map snd (benches (main (plain_build x86_64) haswell (world_of (fun _ => false)) ["--no-le"%string]))).
Proof. cbn. tauto. Qed.

(** ** C45: the function for --hash-stdin-strings *)
(** the run ends well and prints the hashes by [h] of the input, cut in [l] *)
Definition hashes_with (b : build) (c : cpu) (w : world) (args : list string) (h : callee) : Prop :=
  exists t l, main b c w args = Some (t ++ [Hashes h (map (w_hash w h) l)], exit_success).
Definition stdin_option : string := "--hash-stdin-strings".

(** Without further options: t1ha2_atonce; an error in builds without t1ha2. *)
Theorem C45_default : forall b c w, w_selfcheck w = 0%Z -> how_ok (w_how w) ->
  if t1ha2_disabled b then exists t, main b c w [stdin_option] = Some (t, exit_failure)
  else hashes_with b c w [stdin_option] (Lib (Fn Atonce)).
Proof.
  intros b c w S H. destruct (stdin_ends (w_how w) (w_stdin w) H) as (l & L).
  set (f := {| opt := any_of [test_quiet; hash_stdin_strings; bench_2; bench_tiny; bench_large]; dis := 0 |}).
  assert (P : parse b (w_ghz w) [stdin_option] = Go f) by reflexivity.
  destruct (t1ha2_disabled b) eqn:D.
  - unfold main. rewrite P, S, cpu_flags_set, choose_cpu by reflexivity. cbn [negb Z.eqb]. change (is_option_set f hash_stdin_strings) with true. cbn iota.
    assert (C : choose b f = None) by (unfold choose; rewrite D; destruct (t1ha1_disabled b), (t1ha0_disabled b); reflexivity).
    rewrite C. eexists. reflexivity.
  - assert (C : choose b f = Some (Lib (Fn Atonce))) by (unfold choose; rewrite D; reflexivity).
    destruct (main_hash b c w _ f _ P eq_refl S C l L) as (t & E). now exists t, l.
Qed.
Print Assumptions C45_default.

(** Every function can be had somehow. *)
Theorem C45_reachable : forall b c w, w_selfcheck w = 0%Z -> how_ok (w_how w) ->
  t1ha2_disabled b = false -> t1ha1_disabled b = false -> t1ha0_disabled b = false ->
  forall args h, In (args, h)
   [(["--highway"], Other HighwayPureC); (["--xxhash"], Other Xxh64); (["--xxhash"; "--no-64"], Other Xxh32);
    (["--stadtx"], Other StadtX); (["--wyhash"], Other Wyhash); (["--2"], Lib (Fn Atonce));
    (["--1"], Lib (Fn Hash1le)); (["--1"; "--no-le"], Lib (Fn Hash1be));
    (["--0"], Lib (Fn Hash0_32le)); (["--0"; "--no-le"], Lib (Fn Hash0_32be)); (["--0"; "--no-32"], T1ha0);
    (["--xxhash"; "--no-64"; "--no-32"], Other Xxh3_64)]%string ->
  hashes_with b c w (stdin_option :: args) h.
Proof.
  intros b c w S H D2 D1 D0 args h I. destruct (stdin_ends (w_how w) (w_stdin w) H) as (l & L).
  assert (A : forall f, parse b (w_ghz w) (stdin_option :: args) = Go f -> is_option_set f hash_stdin_strings = true ->
    choose b f = Some h -> hashes_with b c w (stdin_option :: args) h).
  { intros f P F C. destruct (main_hash b c w _ f _ P F S C l L) as (t & E). now exists t, l. }
  repeat (destruct I as [I|I]; [injection I as <- <-;
    eapply A; [cbn; rewrite ?D0, ?D1, ?D2; cbn; reflexivity|reflexivity|unfold choose; rewrite ?D0, ?D1, ?D2; reflexivity]|]).
  destruct I.
Qed.
Print Assumptions C45_reachable.

(** But not by naming its properties: each of these picks another function. *)
Theorem C45_by_name_refuted : forall b c w, w_selfcheck w = 0%Z -> how_ok (w_how w) ->
  t1ha2_disabled b = false -> t1ha1_disabled b = false -> t1ha0_disabled b = false ->
  forall args wanted h, In (args, wanted, h)
   [(["--64"; "--2"], Lib (Fn Atonce), Other Xxh64); (["--64"; "--1"; "--le"], Lib (Fn Hash1le), Other Xxh64);
    (["--1"; "--be"], Lib (Fn Hash1be), Lib (Fn Hash1le)); (["--32"; "--0"; "--le"], Lib (Fn Hash0_32le), Other Xxh32);
    (["--0"; "--le"], Lib (Fn Hash0_32le), Lib (Fn Hash1le)); (["--0"; "--be"], Lib (Fn Hash0_32be), Lib (Fn Hash1be));
    (["--32"; "--xxhash"], Other Xxh32, Other Xxh64)]%string ->
  wanted <> h /\ hashes_with b c w (stdin_option :: args) h.
Proof.
  intros b c w S H D2 D1 D0 args wanted h I. destruct (stdin_ends (w_how w) (w_stdin w) H) as (l & L).
  assert (A : forall f, parse b (w_ghz w) (stdin_option :: args) = Go f -> is_option_set f hash_stdin_strings = true ->
    choose b f = Some h -> hashes_with b c w (stdin_option :: args) h).
  { intros f P F C. destruct (main_hash b c w _ f _ P F S C l L) as (t & E). now exists t, l. }
  repeat (destruct I as [I|I]; [injection I as <- <- <-; split; [discriminate|];
    eapply A; [cbn; rewrite ?D0, ?D1, ?D2; cbn; reflexivity|reflexivity|unfold choose; rewrite ?D0, ?D1, ?D2; reflexivity]|]).
  destruct I.
Qed.
Print Assumptions C45_by_name_refuted.

(** With --64 and nothing excluded it is never a function of this library. *)
Theorem C45_64_refuted : forall b f, N.testbit (opt f) 25 = true -> dis f = 0 ->
  choose b f = Some (Other HighwayPureC) \/ choose b f = Some (Other Xxh64).
Proof.
  intros b f T D. unfold choose. destruct (is_selected f (any_of [bench_highwayhash])); [now left|right].
  assert (S : is_selected f (any_of [bench_64; bench_xxhash]) = true).
  { unfold is_selected, is_option_set. rewrite D, N.land_0_l, any_of_zero. cbn [forallb]. unfold bench_64.
    rewrite bit_zero, T. reflexivity. }
  now rewrite S.
Qed.
Print Assumptions C45_64_refuted.

Example C45_64_holds : exists f, parse (plain_build x86_64) (fun _ => true) [stdin_option; "--64"; "--1"]%string = Go f /\
  N.testbit (opt f) 25 = true /\ dis f = 0.
Proof. eexists. split; [reflexivity|]. split; reflexivity. Qed.
Definition hash_world : world :=
  {| w_ghz := fun _ => true; w_selfcheck := 0; w_failed := fun _ => false; w_wyhash_selftest := false; w_clock := true;
     w_stdin := [x61; x0a; x62; x63]; w_how := None; w_hash := fun f l => match f with Lib (Fn g) => value g l 42 | _ => 0 end |}.
Example C45_be : hashes_with (plain_build x86_64) haswell hash_world [stdin_option; "--1"; "--no-le"]%string (Lib (Fn Hash1be)).
Proof. apply C45_reachable; try reflexivity. cbn. tauto. Qed.

(** ** C46: lines of the standard input *)
(** Every text has lines. *)
Theorem C46_lines : forall s, exists ls, lines s ls /\ List.concat ls = s.
Proof.
  intro s. destruct (lines_exist s) as (ls & H). exists ls. split; [exact H|].
  induction H as [|l NE N|l s ls N H IH]; [reflexivity|apply app_nil_r|]. cbn [List.concat]. rewrite IH, <- app_assoc. reflexivity.
Qed.
Print Assumptions C46_lines.

(** With getline: the hash of each line, with its newline, in order. *)
Theorem C46_getline : forall b c w args f h ls, parse b (w_ghz w) args = Go f ->
  is_option_set f hash_stdin_strings = true -> w_selfcheck w = 0%Z -> choose b f = Some h ->
  w_how w = None -> lines (w_stdin w) ls ->
  exists t, main b c w args = Some (t ++ [Hashes h (map (w_hash w h) ls)], exit_success).
Proof.
  intros b c w args f h ls P F S C W L. eapply main_hash; try eassumption. rewrite W. unfold stdin_chunks.
  apply getline_chunks; [exact L|lia].
Qed.
Print Assumptions C46_getline.

(** With fgets: the same, if all lines fit into the buffer and contain no NUL. *)
Theorem C46_fgets : forall b c w args f h size ls, parse b (w_ghz w) args = Go f ->
  is_option_set f hash_stdin_strings = true -> w_selfcheck w = 0%Z -> choose b f = Some h ->
  w_how w = Some size -> (2 <= size)%nat -> lines (w_stdin w) ls ->
  Forall (fun l => (List.length l < size)%nat) ls -> ~ In x00 (w_stdin w) ->
  exists t, main b c w args = Some (t ++ [Hashes h (map (w_hash w h) ls)], exit_success).
Proof.
  intros b c w args f h size ls P F S C W Z L LN NUL. eapply main_hash; try eassumption. rewrite W. unfold stdin_chunks.
  apply fgets_chunks; [exact L|exact Z|exact LN|exact NUL|lia].
Qed.
Print Assumptions C46_fgets.

(** Otherwise not.  A line that does not fit is taken for two lines ... *)
Theorem C46_long_refuted : forall size, (2 <= size)%nat -> exists s ls chunks,
  lines s ls /\ stdin_chunks (Some size) s = Some chunks /\ List.length ls = 1%nat /\ List.length chunks = 2%nat.
Proof.
  intros size Z. set (l := repeat x61 (size - 1)). exists (l ++ [x61]), [l ++ [x61]], [l; [x61]].
  assert (N : ~ In newline l) by (intro I; apply repeat_spec in I; discriminate I).
  assert (NUL : ~ In x00 l) by (intro I; apply repeat_spec in I; discriminate I).
  assert (LL : List.length l = (size - 1)%nat) by apply repeat_length.
  split; [|split; [|split; reflexivity]].
  - apply lines_last; [now destruct l|]. intro I. apply in_app_or in I. destruct I as [I|[I|[]]]; [now apply N|discriminate I].
  - unfold stdin_chunks. rewrite app_length. cbn [List.length]. rewrite LL. 
    replace (size - 1 + 1)%nat with (S (S (size - 2)))%nat by lia. cbn [chunks read_chunk]. unfold fgets at 1.
    destruct (l ++ [x61]) as [|y t] eqn:E; [now destruct l|]. rewrite <- E, take_max_more by (first [exact N|exact LL]).
    cbn [option_map]. rewrite c_string_id by exact NUL. unfold fgets.
    rewrite take_max_end by (first [intros [I|[]]; discriminate I|cbn; lia]). cbn [option_map List.length].
    rewrite c_string_id by (intros [I|[]]; discriminate I).
    destruct (1 <? size - 1)%nat; reflexivity.
Qed.
Print Assumptions C46_long_refuted.
(** ... and bytes after a NUL are dropped. *)
Theorem C46_nul_refuted : forall size, (5 <= size)%nat ->
  lines [x61; x00; x62; x0a] [[x61; x00; x62; x0a]] /\
  stdin_chunks (Some size) [x61; x00; x62; x0a] = Some [[x61]].
Proof.
  intros size Z. split.
  - apply (lines_more [x61; x00; x62] [] []); [|constructor]. intros [I|[I|[I|[]]]]; discriminate I.
  - unfold stdin_chunks. cbn [List.length chunks read_chunk]. unfold fgets at 1.
    change [x61; x00; x62; x0a] with ([x61; x00; x62] ++ newline :: []).
    rewrite take_max_nl; [reflexivity| |cbn; lia]. intros [I|[I|[I|[]]]]; discriminate I.
Qed.
Print Assumptions C46_nul_refuted.

Lemma hash_world_lines : lines [x61; x0a; x62; x63] [[x61; x0a]; [x62; x63]].
Proof.
  apply (lines_more [x61]); [intros [I|[]]; discriminate I|].
  apply lines_last; [discriminate|]. intros [I|[I|[]]]; discriminate I.
Qed.
Example C46_case : exists t, main (plain_build x86_64) haswell hash_world [stdin_option]
  = Some (t ++ [Hashes (Lib (Fn Atonce)) [value Atonce [x61; x0a] 42; value Atonce [x62; x63] 42]], exit_success).
Proof. now apply (C46_getline (plain_build x86_64) haswell hash_world [stdin_option] _ (Lib (Fn Atonce)) _ eq_refl eq_refl eq_refl eq_refl eq_refl hash_world_lines). Qed.
Example C46_fgets_case : stdin_chunks (Some 3%nat) [x61; x0a; x62; x63] = Some [[x61; x0a]; [x62; x63]] /\
  stdin_chunks (Some 2%nat) [x61; x0a; x62; x63] = Some [[x61]; [x0a]; [x62]; [x63]].
Proof. split; reflexivity. Qed.

(** ** C47: nothing is called that the processor cannot run *)
Lemma basic_ecx_bit : forall c i, i < 32 -> N.testbit (basic_ecx c) i = (1 <=? cpuid_max c) && N.testbit (leaf1_ecx c) i.
Proof.
  intros c i H. unfold basic_ecx, u32. change W32 with (2 ^ 32).
  destruct (1 <=? cpuid_max c); cbn [andb]; [|apply N.bits_0]. now rewrite N.mod_pow2_bits_low.
Qed.
Lemma extended_7_bit : forall c, some_bit (extended_7_ebx c) 32 = true -> has_avx2 c = true.
Proof.
  intros c H. unfold some_bit in H. change 32 with (2 ^ 5) in H. rewrite land_pow2, negb_involutive in H.
  unfold extended_7_ebx, u32, has_avx2 in *. change W32 with (2 ^ 32) in H.
  destruct (1 <=? cpuid_max c), (7 <=? cpuid_max c); cbn [andb] in *; try (rewrite N.bits_0 in H; discriminate).
  now rewrite N.mod_pow2_bits_low in H.
Qed.
Lemma aes_bit : forall c, some_bit (basic_ecx c) 0x02000000 = has_aes c.
Proof.
  intro c. unfold some_bit. change 0x02000000 with (2 ^ 25). rewrite land_pow2, negb_involutive. now apply basic_ecx_bit.
Qed.
Lemma sse41_bit : forall c, some_bit (basic_ecx c) (bit 19) = has_sse41 c.
Proof.
  intro c. unfold some_bit. rewrite bit_zero, negb_involutive. now apply basic_ecx_bit.
Qed.
Lemma avx_bits : forall c, has_bits (basic_ecx c) 0x1A000000 = true ->
  has_aes c = true /\ has_osxsave c = true /\ has_avx c = true.
Proof.
  intros c H. unfold has_bits in H. apply N.eqb_eq in H. unfold has_aes, has_osxsave, has_avx.
  rewrite <- !basic_ecx_bit by reflexivity.
  assert (T : forall i, N.testbit 0x1A000000 i = true -> N.testbit (basic_ecx c) i = true).
  { intros i B. rewrite <- H, N.land_spec in B. apply andb_prop in B. apply B. }
  repeat split; apply T; reflexivity.
Qed.
Lemma clear_bit : forall f k j, N.testbit (opt (clear f (bit k))) j = true -> N.testbit (opt f) j = true /\ (k < 32 -> k <> j).
Proof.
  intros f k j H. cbn [opt clear] in H. rewrite N.land_spec in H. apply andb_prop in H. destruct H as (H & C). split; [exact H|].
  intros K E. subst j. unfold not32 in C. rewrite N.lxor_spec in C. unfold u32 in C. change W32 with (2 ^ 32) in C.
  rewrite N.mod_pow2_bits_low in C by exact K. rewrite bit_pow, N.pow2_bits_true in C.
  change 4294967295 with (N.ones 32) in C. rewrite N.ones_spec_low in C by exact K. discriminate.
Qed.
Lemma cpu_flags_aes : forall b c f, fetched b = true ->
  (N.testbit (opt (cpu_flags b c f)) 28 = true -> has_aes c = true) /\
  (N.testbit (opt (cpu_flags b c f)) 29 = true -> has_osxsave c = true /\ has_avx c = true) /\
  (N.testbit (opt (cpu_flags b c f)) 30 = true -> has_avx2 c = true).
Proof.
  intros b c f F. unfold cpu_flags. rewrite F, aes_bit. cbv zeta.
  set (f1 := if has_aes c then f else clear f bench_aes).
  set (f2 := if has_bits _ _ then f1 else clear f1 bench_avx).
  set (f3 := if some_bit _ _ then f2 else clear f2 bench_avx2).
  assert (K3 : forall j, N.testbit (opt f3) j = true -> N.testbit (opt f2) j = true).
  { intros j T. unfold f3 in T. destruct (some_bit _ _); [exact T|]. now apply clear_bit in T. }
  assert (K2 : forall j, N.testbit (opt f2) j = true -> N.testbit (opt f1) j = true).
  { intros j T. unfold f2 in T. destruct (has_bits _ _); [exact T|]. now apply clear_bit in T. }
  repeat split.
  - intro T. apply K3, K2 in T. unfold f1 in T. destruct (has_aes c); [reflexivity|].
    apply clear_bit in T. destruct T as (_ & T). now elim (T eq_refl).
  - apply K3 in H. unfold f2 in H. destruct (has_bits _ _) eqn:E; [now apply avx_bits in E|].
    apply clear_bit in H. destruct H as (_ & T). now elim (T eq_refl).
  - apply K3 in H. unfold f2 in H. destruct (has_bits _ _) eqn:E; [now apply avx_bits in E|].
    apply clear_bit in H. destruct H as (_ & T). now elim (T eq_refl).
  - intro T. unfold f3 in T. destruct (some_bit _ _) eqn:E; [now apply extended_7_bit|].
    apply clear_bit in T. destruct T as (_ & T). now elim (T eq_refl).
Qed.
Lemma selected_bit : forall f k, is_selected f (any_of [bit k]) = true -> N.testbit (opt f) k = true.
Proof.
  intros f k S. unfold is_selected, is_option_set in S. apply andb_prop in S. destruct S as (S & _).
  rewrite any_of_zero in S. cbn [forallb] in S. rewrite andb_true_r, bit_zero, negb_involutive in S. exact S.
Qed.

(** On a machine where AVX2 is announced only together with AVX and with an
    operating system that saves the AVX state, every command line. *)
Theorem C47_runs : forall b c w args t s,
  (has_osxsave c = true -> N.testbit (xcr0 c) 1 = true /\ N.testbit (xcr0 c) 2 = true) ->
  (has_avx2 c = true -> has_avx c = true /\ has_osxsave c = true) ->
  (aesni_available b = true -> e2k b = true \/ ia32 (base b) = true) ->
  main b c w args = Some (t, s) ->
  forall g, In g (calls t) -> can_run b c g = true.
Proof.
  intros b c w args t s X Y Z M g I. unfold can_run. destruct (e2k b) eqn:E2K; [reflexivity|]. cbn [orb].
  assert (AE : has_osxsave c = true -> avx_enabled c = true).
  { intro H. unfold avx_enabled. destruct (X H) as (-> & ->). now rewrite H. }
  unfold main in M. destruct (parse b (w_ghz w) args) as [f|]; [|injection M as <- <-; destruct I].
  destruct (negb (w_selfcheck w =? 0)%Z); [injection M as <- <-; destruct I|].
  cbv zeta in M. set (fl := cpu_flags b c f) in M. set (other := map _ (verified_other b c)) in M.
  set (tests := Selfcheck 0 :: _) in M.
  assert (CT : forall l, calls (map (fun x : callee * bool * bool => Verify (fst (fst x)) (snd x)) l) = map (fun x => fst (fst x)) l).
  { clear. intro l. induction l as [|x l IH]; [reflexivity|]. cbn. now rewrite <- IH. }
  assert (CL : forall l, calls (map (fun x : callee * bool => Verify (fst x) (snd x)) l) = map fst l).
  { clear. intro l. induction l as [|x l IH]; [reflexivity|]. cbn. now rewrite <- IH. }
  assert (CA : forall x y, calls (x ++ y) = calls x ++ calls y) by (intros; apply flat_map_app).
  assert (T : In g (calls tests) -> In g (map Lib (verified_lib b c)) \/ In g (map (fun x => Other (fst x)) (verified_other b c))).
  { intro H. unfold tests in H. change (calls (Selfcheck 0 :: ?l)) with (calls l) in H.
    rewrite CA, CL, map_map in H. apply in_app_or in H. destruct H as [H|H]; [now left|]. right.
    assert (O : forall l, incl l other -> In g (map (fun x : callee * bool * bool => fst (fst x)) l) -> In g (map (fun x => Other (fst x)) (verified_other b c))).
    { intros l IL H1. apply in_map_iff in H1. destruct H1 as (x & <- & H1). apply IL in H1. unfold other in H1.
      apply in_map_iff in H1. destruct H1 as (y & <- & H1). cbn [fst]. apply in_map_iff. now exists y. }
    rewrite CA in H. apply in_app_or in H. destruct H as [H|H].
    - rewrite CT in H. apply O in H; [exact H|]. clear. intros x H. revert H. generalize other as l. intro l.
      induction l as [|a [|a' l] IH]; [easy|intros []|]. intros [->|H]; [now left|]. right. now apply IH.
    - change (calls (WyhashSelftest _ :: ?l)) with (calls l) in H. rewrite CA in H. apply in_app_or in H. destruct H as [H|H].
      + rewrite CT in H. apply O in H; [exact H|]. clear. intros x H. rewrite <- (firstn_skipn (List.length other - 1) other).
        apply in_or_app. now right.
      + destruct (_ || _); destruct H. }
  assert (VL : In g (map Lib (verified_lib b c)) -> match g with Lib (Fn f) => executes c f | _ => true end = true).
  { intro H. apply in_map_iff in H. destruct H as (p & <- & H). unfold verified_lib in H. rewrite E2K, aes_bit in H.
    repeat match type of H with
    | In _ (_ ++ _) => apply in_app_or in H; destruct H as [H|H]
    | In _ (if ?x then _ else _) => destruct x eqn:?; try (now destruct H)
    | In _ _ => cbn [In] in H; repeat (destruct H as [H|H]; [subst p|]); try contradiction H
    end; cbn [executes]; try reflexivity; try assumption.
    - destruct (avx_bits c) as (A1 & A2 & A3); [assumption|]. now rewrite A1, A3, AE.
    - destruct (avx_bits c) as (A1 & A2 & A3); [assumption|]. rewrite A1, A3, AE, extended_7_bit by assumption. reflexivity. }
  assert (VO : forall h, In (Other h) (map (fun x => Other (fst x)) (verified_other b c)) \/
      In (Other h) (benched b c fl) \/ h <> HighwaySse41 /\ h <> HighwayAvx2 ->
      match h with HighwaySse41 => has_sse41 c | HighwayAvx2 => has_avx c && has_avx2 c && avx_enabled c | _ => true end = true).
  { assert (A2 : some_bit (extended_7_ebx c) 32 = true -> has_avx c && has_avx2 c && avx_enabled c = true).
    { intro H. apply extended_7_bit in H. destruct (Y H) as (A & B). now rewrite A, H, AE. }
    intros h [H|[H|(N1 & N2)]].
    - apply in_map_iff in H. destruct H as ([k u] & H & I1). cbn [fst] in H. injection H as ->. unfold verified_other in I1.
      unfold seen_ecx, seen_ebx in I1. rewrite E2K in I1.
      repeat match type of I1 with
      | In _ (_ ++ _) => apply in_app_or in I1; destruct I1 as [I1|I1]
      | In _ (if fetched _ then _ else _) => fail 1
      | In _ (if ia32 _ then _ else _) => destruct (ia32 (base b)); [|now destruct I1]
      | In _ (if some_bit ?x ?y then _ else _) => destruct (some_bit x y) eqn:?; [|now destruct I1]
      | In _ [] => destruct I1
      | In _ (_ :: _) => cbn [In] in I1; repeat (destruct I1 as [I1|I1]; [injection I1 as <- <-|]); try contradiction I1
      end; try reflexivity.
      + destruct (fetched b); [now rewrite <- sse41_bit|discriminate].
      + destruct (fetched b); [now apply A2|discriminate].
    - unfold benched in H. cbv beta zeta in H. rewrite E2K in H.
      repeat match type of H with
      | In _ (_ ++ _) => apply in_app_or in H; destruct H as [H|H]
      | In _ (if ?x then _ else _) => destruct x eqn:?; try (now destruct H)
      | In _ _ => cbn [In] in H; repeat (destruct H as [H|H]; [try discriminate H; try (injection H as <-)|]); try contradiction H
      end; try reflexivity.
      + now rewrite <- sse41_bit.
      + now apply A2.
    - destruct h; try reflexivity; congruence. }
  assert (B : In g (benched b c fl) -> match g with
    | Lib (Fn f) => executes c f
    | Variant (Noavx_a | Noavx_b) => has_aes c
    | Variant (Avx_a | Avx_b) => has_aes c && has_avx c && avx_enabled c
    | Variant (Avx2_a | Avx2_b) => has_aes c && has_avx c && has_avx2 c && avx_enabled c
    | _ => true end = true).
  { intro H. unfold benched in H. cbv beta zeta in H. rewrite E2K in H.
    assert (F : t1ha0_disabled b = false -> aesni_available b = true -> fetched b = true).
    { intros A1 A2. unfold fetched. now rewrite A1, A2, E2K. }
    assert (A := cpu_flags_aes b c f). fold fl in A.
    repeat match type of H with
    | In _ (_ ++ _) => apply in_app_or in H; destruct H as [H|H]
    | In _ (if ?x then _ else _) => destruct x eqn:?; try (now destruct H)
    | In _ _ => cbn [In] in H; repeat (destruct H as [H|H]; [subst g|]); try contradiction H
    end; try reflexivity;
    (destruct A as (A1 & A2 & A3); [apply F; [now apply negb_true_iff|reflexivity]|]);
    (match goal with S : is_selected fl (any_of [bench_aes]) = true |- _ => apply selected_bit in S; apply A1 in S end);
    try (match goal with S : is_selected fl (any_of [bench_avx]) = true |- _ => apply selected_bit in S; apply A2 in S; destruct S end);
    try (match goal with S : is_selected fl (any_of [bench_avx2]) = true |- _ => apply selected_bit in S; apply A3 in S; destruct (Y S) end);
    cbn [executes]; rewrite ?AE by assumption;
    repeat match goal with Q : _ = true |- _ => rewrite Q end; reflexivity. }
  assert (T0 : g = T1ha0 -> match t1ha0_target b c with Some f => executes c f | None => true end = true).
  { intros _. destruct (t1ha0_target b c) as [h|] eqn:TT; [|reflexivity]. eapply target_executes; [exact X|exact TT]. }
  assert (DONE : In g (calls tests) \/ In g (benched b c fl) -> 
    match g with
    | Lib (Fn f0) => executes c f0
    | T1ha0 => match t1ha0_target b c with Some f0 => executes c f0 | None => true end
    | Variant (Noavx_a | Noavx_b) => has_aes c
    | Variant (Avx_a | Avx_b) => has_aes c && has_avx c && avx_enabled c
    | Variant (Avx2_a | Avx2_b) => has_aes c && has_avx c && has_avx2 c && avx_enabled c
    | Other HighwaySse41 => has_sse41 c
    | Other HighwayAvx2 => has_avx c && has_avx2 c && avx_enabled c
    | _ => true
    end = true).
  { intros [H|H].
    - apply T in H. destruct H as [H|H].
      + assert (V := VL H). apply in_map_iff in H. destruct H as (p & <- & _). exact V.
      + destruct g as [p| |v|h]; try (apply in_map_iff in H; destruct H as (q & H & _); discriminate H).
        assert (V := VO h (or_introl H)). exact V.
    - destruct g as [p| |v|h]; [exact (B H)|now apply T0|exact (B H)|exact (VO h (or_intror (or_introl H)))]. }
  assert (TR : forall (x : list event) z, Some (x, z) = Some (t, s) -> t = x) by (intros; congruence).
  destruct (is_option_set fl hash_stdin_strings).
  - destruct (choose b fl) as [h|] eqn:C.
    + destruct (stdin_chunks _ _) as [l|]; [|discriminate]. apply TR in M. rewrite M in I.
      rewrite CA in I. apply in_app_or in I. destruct I as [I|I]; [apply DONE; now left|].
      destruct I as [<-|[]]. clear -C T0 E2K. unfold choose in C.
      repeat match type of C with (if ?x then _ else _) = _ => destruct x; [injection C as <-; first [reflexivity | now apply T0]|] end.
      discriminate C.
    + apply TR in M. rewrite M in I. apply DONE. now left.
  - destruct (w_clock w); apply TR in M; rewrite M in I; [|apply DONE; now left].
    rewrite CA in I. apply in_app_or in I. destruct I as [I|I]; [apply DONE; now left|]. apply DONE. right.
    clear -I. induction (bench_sizes fl) as [|n l IH]; [destruct I|]. cbn [map calls flat_map] in I. apply in_app_or in I.
    destruct I as [I|I]; [exact I|now apply IH].
Qed.
Print Assumptions C47_runs.

(** The condition on AVX2 is needed, though the library itself does without it: on
    a processor with AVX2 under a system without XSAVE the program executes AVX2
    instructions, of HighwayHash even by default, and of t1ha0_ia32aes_avx2 with
    --aes. *)
Definition no_xsave : cpu := {| cpuid_max := 13; leaf1_ecx := 0x77FAFBBF; leaf7_ebx := 0x27AB; xcr0 := 0 |}.
Theorem C47_avx2_refuted :
  let b := plain_build x86_64 in
  (exists f, t1ha0_target b no_xsave = Some f /\ executes no_xsave f = true) /\
  (exists t s, main b no_xsave (world_of (fun _ => false)) [] = Some (t, s) /\
     In (Other HighwayAvx2) (calls t) /\ can_run b no_xsave (Other HighwayAvx2) = false) /\
  (exists t s, main b no_xsave (world_of (fun _ => false)) ["--aes"%string] = Some (t, s) /\
     In (Variant Avx2_b) (calls t) /\ can_run b no_xsave (Variant Avx2_b) = false).
Proof.
  split; [|split].
  - exists AesNoavx. split; vm_compute; reflexivity.
  - do 2 eexists. split; [vm_compute; reflexivity|]. split; [cbn; tauto|vm_compute; reflexivity].
  - do 2 eexists. split; [vm_compute; reflexivity|]. split; [cbn; tauto|vm_compute; reflexivity].
Qed.
Print Assumptions C47_avx2_refuted.
Example C47_haswell : (has_osxsave haswell = true -> N.testbit (xcr0 haswell) 1 = true /\ N.testbit (xcr0 haswell) 2 = true) /\
  (has_avx2 haswell = true -> has_avx haswell = true /\ has_osxsave haswell = true) /\
  exists t s, main (plain_build x86_64) haswell (world_of (fun _ => false)) ["--all-funcs"%string; "--aes"%string] = Some (t, s) /\
    In (Variant Avx2_b) (calls t) /\ In (Other HighwayAvx2) (calls t).
Proof.
  split; [intros _; split; reflexivity|]. split; [intros _; split; reflexivity|].
  do 2 eexists. split; [vm_compute; reflexivity|]. split; cbn; tauto.
Qed.

(** ** C48: --bench-all *)
(** Whether a run that hashes no input was asked for. *)
Definition no_input (a : string) : bool := negb (String.eqb a "--hash-stdin-strings") && negb (String.eqb a "--bench-all").
Lemma argument_no_input : forall b ghz a f f', argument b ghz a f = Go f' -> no_input a = true ->
  N.testbit (opt f) 2 = false -> N.testbit (opt f') 2 = false.
Proof.
  intros b ghz a f f' H R T. unfold no_input in R. apply andb_prop in R. destruct R as (R1 & R2).
  apply negb_true_iff in R1, R2. unfold argument, is in H. rewrite !(String.eqb_sym _ a), R1, R2 in H.
  assert (L : forall m, N.testbit m 2 = false -> N.testbit (N.lor (opt f) m) 2 = false) by (intros m Z; now rewrite N.lor_spec, T, Z).
  repeat match type of H with
  | (if ?c then _ else _) = _ => destruct c; [first [discriminate | injection H as <-; cbn [opt set_ disable];
      first [exact T | apply L; reflexivity | now rewrite N.land_spec, T | reflexivity] | idtac]|]
  end; try discriminate; try (injection H as <-; cbn [opt set_ disable]; first [exact T | apply L; unfold available_eas_flags;
    destruct (aesni_available b), (e2k b); reflexivity]).
  destruct (try_options a (option_names b) f) as [f''|] eqn:E.
  - injection H as <-. apply try_options_in in E. destruct E as (name & flag & I & [(_ & ->)|(_ & ->)]); [|exact T].
    cbn [opt set_]. apply L. clear -I. unfold option_names in I. 
    destruct (t1ha0_disabled b), (t1ha1_disabled b), (t1ha2_disabled b); cbn [app In] in I;
      repeat (destruct I as [I|I]; [injection I as <- <-; reflexivity|]); destruct I.
  - destruct (_ || _); discriminate.
Qed.
Lemma arguments_no_input : forall b ghz l f f', arguments b ghz l f = Go f' -> forallb no_input l = true ->
  N.testbit (opt f) 2 = false -> N.testbit (opt f') 2 = false.
Proof.
  intros b ghz l. induction l as [|a l IH]; intros f f' H R T; cbn [arguments] in H; [now injection H as <-|].
  cbn [forallb] in R. apply andb_prop in R. destruct R as (R1 & R2).
  destruct (argument b ghz a f) as [g|] eqn:E; [|discriminate].
  eapply IH; [exact H|assumption|]. eapply argument_no_input; eassumption.
Qed.
Lemma hash_stdin_bit : forall f, is_option_set f hash_stdin_strings = N.testbit (opt f) 2.
Proof. intro f. unfold is_option_set, hash_stdin_strings. now rewrite bit_zero, negb_involutive. Qed.
Lemma with_defaults_bit2 : forall f, N.testbit (opt (with_defaults f)) 2 = N.testbit (opt f) 2.
Proof.
  intro f. unfold with_defaults. destruct (N.eqb _ 0), (is_option_set f _); cbv zeta; destruct (N.eqb _ 0);
    cbn [opt set_]; rewrite ?N.lor_spec; destruct (N.testbit (opt f) 2); reflexivity.
Qed.
Lemma parse_no_input : forall b ghz l f, parse b ghz l = Go f -> forallb no_input l = true ->
  is_option_set f hash_stdin_strings = false.
Proof.
  intros b ghz l f P R. rewrite hash_stdin_bit. destruct l as [|a l]; [injection P as <-; reflexivity|].
  rewrite parse_some in P. destruct (arguments _ _ _ _) as [g|] eqn:E; [|discriminate]. injection P as <-.
  rewrite with_defaults_bit2. eapply arguments_no_input; [exact E|exact R|reflexivity].
Qed.

(** Whoever asks for a size, and not for input to be hashed, gets it run. *)
Theorem C48_size_runs : forall b c w l1 name size l2 f, In (name, size) size_options ->
  let args := (l1 ++ ("--" ++ name)%string :: l2)%list in
  parse b (w_ghz w) args = Go f -> Forall (fun a => restarts a = false) l2 ->
  forallb no_input args = true -> w_selfcheck w = 0%Z -> w_clock w = true ->
  exists t fs, main b c w args = Some (t, exit_success) /\ In (Bench size fs) t.
Proof.
  intros b c w l1 name size l2 f I args P R NI S K. assert (J := C44_requested b c (w_ghz w) l1 name size l2 f I P R).
  assert (N1 := parse_no_input b (w_ghz w) args f P NI).
  unfold main. rewrite P, S, cpu_flags_set, N1, K by reflexivity. cbn [negb Z.eqb].
  eexists _, (benched b c (cpu_flags b c f)). split; [reflexivity|]. apply in_or_app. right.
  apply in_map_iff. now exists size.
Qed.
Print Assumptions C48_size_runs.

(** --bench-all runs no benchmark: it sets every bit, that of --hash-stdin-strings
    among them, so the program hashes its input instead (tests/main.c:194-198 and
    382), with the first function of the list. *)
Theorem C48_all_refuted : forall b c w l1 l2 t s,
  main b c w (l1 ++ "--bench-all"%string :: l2) = Some (t, s) -> Forall (fun a => restarts a = false) l2 ->
  forall size fs, ~ In (Bench size fs) t.
Proof.
  intros b c w l1 l2 t s M R size fs I. unfold main in M.
  destruct (parse b (w_ghz w) _) as [f|] eqn:P; [|injection M as <- <-; destruct I].
  assert (H : is_option_set f hash_stdin_strings = true).
  { rewrite parse_mid, arguments_app in P. destruct (arguments b (w_ghz w) l1 _) as [g|]; [|discriminate].
    cbn [arguments] in P. destruct (argument b (w_ghz w) "--bench-all" g) as [g'|] eqn:A; [|discriminate].
    destruct (arguments b (w_ghz w) l2 g') as [h|] eqn:E; [|discriminate]. injection P as <-.
    rewrite hash_stdin_bit. apply with_defaults_keeps. eapply arguments_keep; [exact E|exact R|].
    injection A as <-. cbn [opt]. rewrite N.lor_spec. apply orb_true_r. }
  destruct (negb (w_selfcheck w =? 0)%Z); [injection M as <- <-; destruct I as [I|[]]; discriminate|].
  cbv zeta in M. rewrite cpu_flags_set, H in M by reflexivity.
  assert (V : forall A (x : A -> callee) (y : A -> bool) l, ~ In (Bench size fs) (map (fun a => Verify (x a) (y a)) l)).
  { intros A x y l J. apply in_map_iff in J. destruct J as (a & J & _). discriminate J. }
  assert (TS : forall v, In (Bench size fs) v -> forall A (x : A -> callee) (y : A -> bool) l B (x' : B -> callee) (y' : B -> bool) l1 l2 z (q : bool),
    v = Selfcheck 0 :: map (fun a => Verify (x a) (y a)) l ++ map (fun a => Verify (x' a) (y' a)) l1 ++
      WyhashSelftest z :: map (fun a => Verify (x' a) (y' a)) l2 ++ (if q then [VerificationFailed] else []) -> False).
  { intros v J A x y l B x' y' l3 l4 z q ->. destruct J as [J|J]; [discriminate J|].
    apply in_app_or in J. destruct J as [J|J]; [now apply V in J|].
    apply in_app_or in J. destruct J as [J|J]; [now apply V in J|]. destruct J as [J|J]; [discriminate J|].
    apply in_app_or in J. destruct J as [J|J]; [now apply V in J|]. destruct q; [destruct J as [J|[]]; discriminate J|destruct J]. }
  assert (TR : forall (x : list event) z, Some (x, z) = Some (t, s) -> t = x) by (intros; congruence).
  destruct (choose b _) as [h|].
  - destruct (stdin_chunks _ _) as [l|]; [|discriminate]. apply TR in M. rewrite M in I. apply in_app_or in I.
    destruct I as [I|[I|[]]]; [|discriminate I]. eapply TS; [exact I|reflexivity].
  - apply TR in M. rewrite M in I. eapply TS; [exact I|reflexivity].
Qed.
Print Assumptions C48_all_refuted.
Example C48_all_case : exists t, main (plain_build x86_64) haswell hash_world ["--bench-all"%string] =
  Some (t ++ [Hashes (Other HighwayPureC) [0; 0]], exit_success).
Proof.
  assert (H := main_hash (plain_build x86_64) haswell hash_world ["--bench-all"%string]).
  change [0; 0] with (map (w_hash hash_world (Other HighwayPureC)) [[x61; x0a]; [x62; x63]]).
  eapply H; reflexivity.
Qed.
Example C48_size_case : forallb no_input ["--aes"; "--tiny"; "-v"]%string = true /\
  exists fs, In (7, fs) (benches (main (plain_build x86_64) haswell hash_world ["--aes"; "--tiny"; "-v"]%string)) /\
    In (Lib (Fn AesAvx2)) fs.
Proof. split; [reflexivity|]. eexists. split; [vm_compute; left; reflexivity|]. cbn. tauto. Qed.
