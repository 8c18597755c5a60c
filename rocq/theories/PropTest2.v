(** C44, C45 continued: which command lines are accepted, what starts over, what runs
    without options and with --all-funcs, and which function hashes the input. *)
From Coq Require Import ZArith NArith Arith List Bool Lia Strings.Byte Strings.String.
From Coq Require Import ZifyN ZifyNat ZifyBool.
From Verif Require Import Bytes CSem Bits OneShot Demo Dispatch DispatchFacts Selfcheck SelfcheckSpec SelfcheckTrace
  SelfcheckDemo PropSelfcheck TestMain TestSpec TestFacts PropTest.
Import ListNotations.
Local Open Scope N_scope.

(** ** Accepted command lines *)
(** the words after "--" and "--no-" *)
Definition words (b : build) : list string :=
  (["xxhash"; "stadtx"; "wyhash"; "highwayhash"; "highway"] ++
   (if t1ha0_disabled b then [] else ["0"]) ++ (if t1ha1_disabled b then [] else ["1"]) ++ (if t1ha2_disabled b then [] else ["2"]) ++
   ["le"; "be"; "32"; "64"; "tiny"; "small"; "medium"; "large"; "huge"])%list%string.
(** what the usage text lists, tests/main.c:52-101 (and --no-bench, -v) *)
Definition accepted (b : build) (ghz : string -> bool) (a : string) : bool :=
  existsb (String.eqb a)
    ["--test-quiet"; "--hash-stdin-strings"; "--test-only"; "--no-bench"; "--test-verbose"; "--bench-verbose"; "--verbose"; "-v";
     "--bench-all"; "--all-funcs"; "--all-sizes"; "--no-aes"]%string ||
  String.eqb a "--aes" && aesni_available b ||
  prefix "--GHz=" a && ghz (substring 6 (String.length a - 6) a) ||
  existsb (fun w => String.eqb a ("--" ++ w) || String.eqb a ("--no-" ++ w))%string (words b).

Lemma try_options_found : forall a l f,
  match try_options a l f with Some _ => true | None => false end = existsb (fun w => String.eqb a ("--" ++ w) || String.eqb a ("--no-" ++ w))%string (map fst l).
Proof.
  intros a l f. induction l as [|[name flag] l IH]; [reflexivity|]. cbn [try_options map existsb fst]. unfold option_.
  destruct (String.eqb a ("--" ++ name)); [reflexivity|]. destruct (String.eqb a ("--no-" ++ name)); [reflexivity|]. exact IH.
Qed.
Lemma option_words : forall b, map fst (option_names b) = words b.
Proof. intro b. unfold option_names, words. destruct (t1ha0_disabled b), (t1ha1_disabled b), (t1ha2_disabled b); reflexivity. Qed.
Lemma prefix_GHz : forall a, prefix "--GHz=" a = true -> exists r, a = ("--GHz=" ++ r)%string.
Proof.
  intros a P.
  do 6 (destruct a as [|? a]; [discriminate P|]; cbn [prefix] in P; match type of P with (if ?x then _ else _) = _ => destruct x as [<-|]; [|discriminate P] end).
  now exists a.
Qed.
Lemma argument_accepted : forall b ghz a f,
  if accepted b ghz a then exists f', argument b ghz a f = Go f'
  else argument b ghz a f = Return_ (if String.eqb a "--help" || String.eqb a "-h" then exit_success else exit_failure).
Proof.
  intros b ghz a f. pose proof (try_options_found a (option_names b) f) as T. rewrite option_words in T.
  unfold accepted. rewrite <- T. clear T.
  assert (AE : (available_eas_flags b =? 0) = negb (aesni_available b)) by (unfold available_eas_flags; destruct (aesni_available b), (e2k b); reflexivity).
  unfold argument, is. rewrite AE. rewrite !(String.eqb_sym _ a). cbn [existsb].
  Local Ltac lit a s := destruct (String.eqb_spec a s) as [->|_]; [cbn; first [eexists; reflexivity | idtac]|].
  lit a "--test-quiet"%string. lit a "--hash-stdin-strings"%string. lit a "--test-only"%string. lit a "--no-bench"%string.
  lit a "--test-verbose"%string. lit a "--bench-verbose"%string. lit a "--verbose"%string. lit a "-v"%string.
  lit a "--bench-all"%string. lit a "--all-funcs"%string. lit a "--all-sizes"%string.
  destruct (String.eqb_spec a "--no-aes") as [->|_]; [cbn; destruct (aesni_available b); eexists; reflexivity|].
  destruct (String.eqb_spec a "--aes") as [->|_].
  { cbn. destruct (aesni_available b); cbn; [eexists; reflexivity|].
    destruct (t1ha0_disabled b), (t1ha1_disabled b), (t1ha2_disabled b); reflexivity. }
  cbn [orb andb]. destruct (prefix "--GHz=" a) eqn:P; cbn [andb orb].
  - destruct (ghz _); cbn [orb]; [eexists; reflexivity|].
    assert (NX : try_options a (option_names b) f = None).
    { apply prefix_GHz in P. destruct P as (r & ->).
      unfold option_names. destruct (t1ha0_disabled b), (t1ha1_disabled b), (t1ha2_disabled b); reflexivity. }
    rewrite NX. destruct (String.eqb_spec a "--help") as [->|_]; [discriminate P|]. destruct (String.eqb_spec a "-h") as [->|_]; [discriminate P|]. reflexivity.
  - destruct (try_options a (option_names b) f) as [f'|]; [eexists; reflexivity|]. destruct (_ || _); reflexivity.
Qed.
(** The first argument that is not accepted ends the program, with success iff it asks
    for help; if all are accepted the program goes on. *)
Theorem C44_accepted : forall b ghz args,
  match find (fun a => negb (accepted b ghz a)) args with
  | None => exists f, parse b ghz args = Go f
  | Some a => parse b ghz args = Return_ (if String.eqb a "--help" || String.eqb a "-h" then exit_success else exit_failure)
  end.
Proof.
  intros b ghz args.
  assert (A : forall l f, match find (fun a => negb (accepted b ghz a)) l with
    | None => exists f', arguments b ghz l f = Go f'
    | Some a => arguments b ghz l f = Return_ (if String.eqb a "--help" || String.eqb a "-h" then exit_success else exit_failure) end).
  { induction l as [|a l IH]; intro f; cbn [find arguments]; [now exists f|]. pose proof (argument_accepted b ghz a f) as X.
    destruct (accepted b ghz a); cbn [negb]; [|now rewrite X]. destruct X as (f' & ->). apply IH. }
  destruct args as [|a l]; [cbn [find]; eexists; reflexivity|]. specialize (A (a :: l) {| opt := 0; dis := 0 |}). rewrite parse_some.
  destruct (find _ _) as [x|]; [now rewrite A|]. destruct A as (f' & ->). eexists; reflexivity.
Qed.
Print Assumptions C44_accepted.
Example C44_accepted_case : find (fun a => negb (accepted (plain_build sparc64) (fun _ => false) a)) ["--no-aes"; "--no-le"; "--aes"; "-h"]%string = Some "--aes"%string.
Proof. reflexivity. Qed.

(** ** Starting over *)
(** Whatever was asked for before --test-quiet, --test-only or --no-bench is forgotten:
    the same sizes are run as without the arguments before, the same choice is made
    whether the input is hashed, and no more functions are benchmarked. *)
Lemma argument_dis : forall b ghz a f g f' g', argument b ghz a f = Go f' -> argument b ghz a g = Go g' ->
  (forall k, N.testbit (dis g) k = true -> N.testbit (dis f) k = true) -> forall k, N.testbit (dis g') k = true -> N.testbit (dis f') k = true.
Proof.
  intros b ghz a f g f' g' F G D.
  assert (L : forall m k, N.testbit (N.lor (dis g) m) k = true -> N.testbit (N.lor (dis f) m) k = true).
  { intros m k. rewrite !N.lor_spec, !orb_true_iff. intros [T|T]; [left; now apply D|now right]. }
  assert (A : forall m k, N.testbit (N.land (dis g) m) k = true -> N.testbit (N.land (dis f) m) k = true).
  { intros m k. rewrite !N.land_spec, !andb_true_iff. intros [T U]. split; [now apply D|exact U]. }
  unfold argument in F, G.
  repeat match type of F with
  | (if ?c then _ else _) = _ => destruct c; [first [discriminate | injection F as <-; injection G as <-; cbn [dis set_ disable]; first [exact D | apply L | apply A | now intros | idtac] | idtac]|]
  end; try discriminate; try (injection F as <-; injection G as <-; cbn [dis set_ disable]; first [exact D | apply L | apply A]).
  revert F G. induction (option_names b) as [|[name flag] l IH]; cbn [try_options]; [destruct (_ || _); discriminate|]. unfold option_.
  destruct (String.eqb a ("--" ++ name)); [intros F G; injection F as <-; injection G as <-; exact D|].
  destruct (String.eqb a ("--no-" ++ name)); [intros F G; injection F as <-; injection G as <-; apply L|]. exact IH.
Qed.
Lemma arguments_dis : forall b ghz l f g f' g', arguments b ghz l f = Go f' -> arguments b ghz l g = Go g' ->
  (forall k, N.testbit (dis g) k = true -> N.testbit (dis f) k = true) -> forall k, N.testbit (dis g') k = true -> N.testbit (dis f') k = true.
Proof.
  intros b ghz l. induction l as [|a l IH]; intros f g f' g' F G D; cbn [arguments] in F, G; [injection F as <-; injection G as <-; exact D|].
  destruct (argument b ghz a f) as [f1|] eqn:F1; [|discriminate]. destruct (argument b ghz a g) as [g1|] eqn:G1; [|discriminate].
  eapply IH; [exact F|exact G|]. eapply argument_dis; eassumption.
Qed.
(** equal but for --test-verbose *)
Definition same_opt (x y : N) : Prop := forall k, 0 < k -> N.testbit x k = N.testbit y k.
Lemma same_land : forall x y m, same_opt x y -> N.testbit m 0 = false -> N.land x m = N.land y m.
Proof.
  intros x y m S M. apply N.bits_inj. intro k. rewrite !N.land_spec. destruct (N.eq_dec k 0) as [->|]; [now rewrite M, !andb_false_r|].
  rewrite S by lia. reflexivity.
Qed.
Lemma argument_same : forall b ghz a f g, same_opt (opt f) (opt g) ->
  match argument b ghz a f, argument b ghz a g with Go f', Go g' => same_opt (opt f') (opt g') | Return_ x, Return_ y => x = y | _, _ => False end.
Proof.
  intros b ghz a f g S.
  assert (L : forall m, same_opt (N.lor (opt f) m) (N.lor (opt g) m)) by (intros m k K; now rewrite !N.lor_spec, S).
  assert (A : forall m, same_opt (N.land (opt f) m) (N.land (opt g) m)) by (intros m k K; now rewrite !N.land_spec, S).
  unfold argument.
  repeat match goal with |- context [if ?c then _ else _] =>
    match c with N.eqb _ _ => destruct c | is _ _ => destruct c | is _ _ || is _ _ => destruct c | prefix _ _ => destruct c | ghz _ => destruct c end end;
    cbn [opt set_ disable]; try reflexivity; try apply L; try apply A; try exact S; try (intros k K; reflexivity).
  all: try (rewrite (same_land _ _ bench_funcs_flags S eq_refl); intros k K; reflexivity).
  - induction (option_names b) as [|[name flag] l IH]; cbn [try_options]; [reflexivity|]. unfold option_.
    destruct (String.eqb a ("--" ++ name)); [apply L|]. destruct (String.eqb a ("--no-" ++ name)); [exact S|]. exact IH.
  - induction (option_names b) as [|[name flag] l IH]; cbn [try_options]; [reflexivity|]. unfold option_.
    destruct (String.eqb a ("--" ++ name)); [apply L|]. destruct (String.eqb a ("--no-" ++ name)); [exact S|]. exact IH.
Qed.
Lemma arguments_same : forall b ghz l f g, same_opt (opt f) (opt g) ->
  match arguments b ghz l f, arguments b ghz l g with Go f', Go g' => same_opt (opt f') (opt g') | Return_ x, Return_ y => x = y | _, _ => False end.
Proof.
  intros b ghz l. induction l as [|a l IH]; intros f g S; cbn [arguments]; [exact S|]. pose proof (argument_same b ghz a f g S) as A.
  destruct (argument b ghz a f), (argument b ghz a g); try contradiction; [now apply IH|exact A].
Qed.
Lemma same_defaults : forall f g, same_opt (opt f) (opt g) -> same_opt (opt (with_defaults f)) (opt (with_defaults g)).
Proof.
  intros f g S. unfold with_defaults. rewrite (same_land _ _ bench_funcs_flags S eq_refl). unfold is_option_set. rewrite (same_land _ _ hash_stdin_strings S eq_refl).
  assert (L : forall m, same_opt (N.lor (opt f) m) (N.lor (opt g) m)) by (intros m k K; now rewrite !N.lor_spec, S).
  set (m := if negb _ then _ else _). destruct (N.land (opt g) bench_funcs_flags =? 0).
  - change (opt (set_ f m)) with (N.lor (opt f) m). change (opt (set_ g m)) with (N.lor (opt g) m).
    rewrite (same_land _ _ bench_size_flags (L m) eq_refl). destruct (N.land (N.lor (opt g) m) bench_size_flags =? 0); cbn [opt set_]; [|apply L].
    intros k K. rewrite !(N.lor_spec _ (N.land _ _)), (L m k K). reflexivity.
  - rewrite (same_land _ _ bench_size_flags S eq_refl). destruct (N.land (opt g) bench_size_flags =? 0); cbn [opt set_]; [apply L|exact S].
Qed.
Lemma same_cpu : forall b c f g, same_opt (opt f) (opt g) -> same_opt (opt (cpu_flags b c f)) (opt (cpu_flags b c g)).
Proof.
  intros b c f g S. unfold cpu_flags. destruct (fetched b); [|exact S].
  assert (C : forall f g m, same_opt (opt f) (opt g) -> same_opt (opt (clear f m)) (opt (clear g m))).
  { intros f0 g0 m S0 k K. cbn [clear opt]. now rewrite !N.land_spec, S0. }
  destruct (some_bit (basic_ecx c) _), (has_bits _ _), (some_bit _ _); repeat apply C; exact S.
Qed.
Lemma benched_mono : forall b c f g, (forall m, N.testbit m 0 = false -> is_selected f m = true -> is_selected g m = true) ->
  forall h, In h (benched b c f) -> In h (benched b c g).
Proof.
  intros b c f g S h. unfold benched.
  assert (W : forall m l l', N.testbit (any_of m) 0 = false -> (In h l -> In h l') ->
    In h (if is_selected f (any_of m) then l else []) -> In h (if is_selected g (any_of m) then l' else [])).
  { intros m l l' M I. specialize (S _ M). destruct (is_selected f _); [|now intros []]. rewrite S by reflexivity. exact I. }
  assert (P : forall l1 l2 l3 l4, (In h l1 -> In h l3) -> (In h l2 -> In h l4) -> In h (l1 ++ l2) -> In h (l3 ++ l4)).
  { intros l1 l2 l3 l4 A B. rewrite !in_app_iff. tauto. }
  assert (B : forall x l l', (In h l -> In h l') -> In h (if x : bool then l else []) -> In h (if x then l' else [])).
  { intros x l l' I. destruct x; [exact I|now intros []]. }
  repeat first [apply P | apply W; [reflexivity|] | apply B | exact (fun x => x)].
Qed.
Theorem C44_restart : forall b c ghz a l1 l2 f, In a ["--test-quiet"; "--test-only"; "--no-bench"]%string ->
  parse b ghz (l1 ++ a :: l2) = Go f ->
  exists f', parse b ghz (a :: l2) = Go f' /\ bench_sizes (cpu_flags b c f) = bench_sizes (cpu_flags b c f') /\
    is_option_set f hash_stdin_strings = is_option_set f' hash_stdin_strings /\
    forall h, In h (benched b c (cpu_flags b c f)) -> In h (benched b c (cpu_flags b c f')).
Proof.
  intros b c ghz a l1 l2 f I P. rewrite parse_mid, arguments_app in P.
  destruct (arguments b ghz l1 _) as [f0|]; [|discriminate]. cbn [arguments] in P.
  assert (A : exists f1 g1, argument b ghz a f0 = Go f1 /\ argument b ghz a {| opt := 0; dis := 0 |} = Go g1 /\ same_opt (opt f1) (opt g1) /\
    forall k, N.testbit (dis g1) k = true -> N.testbit (dis f1) k = true).
  { destruct I as [<-|[<-|[<-|[]]]]; (do 2 eexists; split; [reflexivity|]; split; [reflexivity|]; split; [|intros k T; rewrite N.bits_0 in T; discriminate T]);
      intros k K; [reflexivity| |]; cbn [opt]; unfold test_verbose; rewrite !N.land_spec, N.bits_0, bit_pow, N.pow2_bits_false, andb_false_r by lia; reflexivity. }
  destruct A as (f1 & g1 & F & G & S & D). rewrite F in P. destruct (arguments b ghz l2 f1) as [f2|] eqn:F2; [|discriminate]. injection P as <-.
  pose proof (arguments_same b ghz l2 f1 g1 S) as X. rewrite F2 in X. destruct (arguments b ghz l2 g1) as [g2|] eqn:G2; [|contradiction].
  exists (with_defaults g2). rewrite parse_some. cbn [arguments]. rewrite G, G2. split; [reflexivity|].
  pose proof (same_defaults _ _ X) as Y. split; [|split].
  - rewrite !cpu_sizes. apply bench_sizes_opt. now apply same_land.
  - unfold is_option_set. now rewrite (same_land _ _ hash_stdin_strings Y eq_refl).
  - apply benched_mono. intros m M. unfold is_selected, is_option_set. rewrite (same_land _ _ m (same_cpu b c _ _ Y) M), !cpu_flags_dis, !with_defaults_dis.
    rewrite !andb_true_iff, !N.eqb_eq. intros (O & Z). split; [exact O|]. apply N.bits_inj. intro k. rewrite N.bits_0, N.land_spec.
    destruct (N.testbit (dis g2) k) eqn:T; [|reflexivity]. apply (arguments_dis b ghz l2 f1 g1 f2 g2 F2 G2 D) in T.
    apply (f_equal (fun x => N.testbit x k)) in Z. rewrite N.land_spec, T, N.bits_0 in Z. exact Z.
Qed.
Print Assumptions C44_restart.
Example C44_restart_case : map fst (benches (main (plain_build x86_64) haswell (world_of (fun _ => false)) ["--huge"; "--1"; "--test-quiet"; "--small"]%string)) = [63].
Proof. reflexivity. Qed.

(** ** Without options, and with --all-funcs *)
Definition hash_fn_eq_dec : forall f g : hash_fn, {f = g} + {f <> g}.
Proof. decide equality. Defined.
Definition callee_eq_dec : forall f g : callee, {f = g} + {f <> g}.
Proof. repeat decide equality. Defined.
Definition inb (g : callee) (l : list callee) : bool := if in_dec callee_eq_dec g l then true else false.
Lemma inb_In : forall g l, inb g l = true <-> In g l.
Proof. intros g l. unfold inb. destruct (in_dec _ _ _); split; intros; try assumption; try reflexivity; try discriminate; contradiction. Qed.
Lemma inb_app : forall g l1 l2, inb g (l1 ++ l2) = inb g l1 || inb g l2.
Proof. intros g l1 l2. apply eq_true_iff_eq. rewrite orb_true_iff, !inb_In. apply in_app_iff. Qed.
Lemma inb_if : forall g (x : bool) l, inb g (if x then l else []) = x && inb g l.
Proof. intros g [] l; reflexivity. Qed.

(** what runs without options: the functions of the build, of the two byte orders only
    the native one, those for 32 bits only if pointers are small, none that needs AES;
    of HighwayHash those that the processor has instructions for *)
Definition highway_runs (b : build) (c : cpu) (h : other_hash) : bool :=
  match h with
  | HighwaySse41 => ia32 (base b) && some_bit (basic_ecx c) (bit 19) || e2k b
  | HighwayAvx2 => ia32 (base b) && some_bit (extended_7_ebx c) 32
  | _ => true
  end.
Definition plain_runs (b : build) (c : cpu) (g : callee) : bool :=
  match g with
  | Lib (Fn Atonce) | Lib Thunk128 | Lib ThunkStream | Lib ThunkStream128 => negb (t1ha2_disabled b)
  | Lib (Fn Hash1le) => negb (t1ha1_disabled b) && negb (big_endian (base b))
  | Lib (Fn Hash1be) => negb (t1ha1_disabled b) && big_endian (base b)
  | T1ha0 => negb (t1ha0_disabled b)
  | Lib (Fn Hash0_32le) => negb (t1ha0_disabled b) && negb (wide (base b)) && negb (big_endian (base b))
  | Lib (Fn Hash0_32be) => negb (t1ha0_disabled b) && negb (wide (base b)) && big_endian (base b)
  | Lib (Fn (AesNoavx | AesAvx | AesAvx2)) | Variant _ => false
  | Other h => highway_runs b c h
  end.
(** with --all-funcs: all of the build, those with AES if the processor has the
    instructions *)
Definition all_runs (b : build) (c : cpu) (g : callee) : bool :=
  let aes := negb (t1ha0_disabled b) && aesni_available b && (e2k b || some_bit (basic_ecx c) 0x02000000) in
  match g with
  | Lib (Fn Atonce) | Lib Thunk128 | Lib ThunkStream | Lib ThunkStream128 => negb (t1ha2_disabled b)
  | Lib (Fn (Hash1le | Hash1be)) => negb (t1ha1_disabled b)
  | T1ha0 | Lib (Fn (Hash0_32le | Hash0_32be)) => negb (t1ha0_disabled b)
  | Lib (Fn AesNoavx) | Variant (Noavx_a | Noavx_b) => aes
  | Lib (Fn AesAvx) | Variant (Avx_a | Avx_b) => aes && (e2k b || has_bits (basic_ecx c) 0x1A000000)
  | Lib (Fn AesAvx2) | Variant (Avx2_a | Avx2_b) => aes && negb (e2k b) && some_bit (extended_7_ebx c) 32
  | Other h => highway_runs b c h
  end.

(** [benched] in terms of what is selected *)
Lemma benched_inb : forall b c f g, In g (benched b c f) <-> inb g (benched b c f) = true.
Proof. intros. now rewrite inb_In. Qed.
Lemma selected_cpu : forall b c f m, N.land m (any_of [bench_aes; bench_avx; bench_avx2]) = 0 -> m < 2 ^ 32 ->
  is_selected (cpu_flags b c f) m = is_selected f m.
Proof. intros b c f m Z L. unfold is_selected. now rewrite cpu_flags_set, cpu_flags_dis. Qed.
Ltac inb_cases := repeat (rewrite inb_app || rewrite inb_if);
  repeat match goal with |- context [inb ?g (?x :: ?l)] => let v := eval vm_compute in (inb g (x :: l)) in change (inb g (x :: l)) with v end;
  rewrite ?andb_true_r, ?andb_false_r, ?orb_false_r; cbn [orb andb].
Theorem C44_plain : forall b c ghz f, parse b ghz [] = Go f ->
  forall g, In g (benched b c (cpu_flags b c f)) <-> plain_runs b c g = true.
Proof.
  intros b c ghz f P g. injection P as <-. rewrite benched_inb. unfold benched. cbv zeta.
  set (fl := {| opt := default_option_flags; dis := default_disabled_option_flags b |}).
  assert (NA : is_selected (cpu_flags b c fl) (any_of [bench_aes]) = false).
  { unfold is_selected, is_option_set. apply andb_false_iff. left. unfold bench_aes. cbn [any_of fold_right]. rewrite N.lor_0_r, bit_zero, negb_involutive.
    unfold cpu_flags. destruct (fetched b); [|reflexivity]. destruct (some_bit (basic_ecx c) _), (has_bits _ _), (some_bit _ _); reflexivity. }
  rewrite NA, !selected_cpu by reflexivity. subst fl.
  assert (S : forall l, N.land default_option_flags (any_of l) <> 0 ->
    is_selected {| opt := default_option_flags; dis := default_disabled_option_flags b |} (any_of l) = (N.land (default_disabled_option_flags b) (any_of l) =? 0)).
  { intros l NZ. unfold is_selected, is_option_set. cbn [opt dis]. apply N.eqb_neq in NZ. rewrite NZ. reflexivity. }
  rewrite !S by (vm_compute; discriminate). clear S NA. unfold default_disabled_option_flags.
  destruct g as [[[]| | |]| |[]|[]]; inb_cases; unfold plain_runs, highway_runs;
    destruct (big_endian (base b)), (wide (base b)); cbn; rewrite ?andb_true_r, ?andb_false_r, ?orb_false_r; tauto.
Qed.
Print Assumptions C44_plain.
Example C44_plain_case : forall g, In g [Lib (Fn Hash1be); Lib (Fn Hash0_32be); T1ha0; Other Xxh3_128] -> plain_runs (plain_build mips32) old_cpu g = true.
Proof. intros g I. repeat (destruct I as [<-|I]; [reflexivity|]). destruct I. Qed.

(** an option that excludes *)
Definition excludes (a : string) : bool := prefix "--no-" a.
Lemma argument_excludes : forall b ghz a f f', argument b ghz a f = Go f' -> excludes a = false ->
  forall k, N.testbit (dis f) k = false -> N.testbit (dis f') k = false.
Proof.
  intros b ghz a f f' H R k T.
  assert (A : forall m, N.testbit (N.land (dis f) m) k = false) by (intro m; now rewrite N.land_spec, T).
  assert (NA : is a "--no-aes" = false) by (unfold is; destruct (String.eqb_spec "--no-aes" a) as [<-|]; [discriminate R|reflexivity]).
  unfold argument in H. rewrite NA in H.
  repeat match type of H with
  | (if ?c then _ else _) = _ => destruct c; [first [discriminate | injection H as <-; cbn [dis set_ disable]; first [exact T | apply A | apply N.bits_0 | idtac] | idtac]|]
  end; try discriminate; try (injection H as <-; cbn [dis set_ disable]; first [exact T | apply A]).
  destruct (try_options a (option_names b) f) as [f''|] eqn:E; [|destruct (_ || _); discriminate].
  injection H as <-. apply try_options_in in E. destruct E as (name & flag & _ & [(_ & ->)|(-> & ->)]); [exact T|]. cbn in R. destruct name; discriminate R.
Qed.
Lemma arguments_excludes : forall b ghz l f f', arguments b ghz l f = Go f' -> Forall (fun a => excludes a = false) l ->
  forall k, N.testbit (dis f) k = false -> N.testbit (dis f') k = false.
Proof.
  intros b ghz l. induction l as [|a l IH]; intros f f' H R k T; cbn [arguments] in H; [now injection H as <-|].
  inversion R; subst. destruct (argument b ghz a f) as [g|] eqn:E; [|discriminate]. eapply IH; [exact H|assumption|]. eapply argument_excludes; eassumption.
Qed.
(** --all-funcs runs all, unless a later option starts over or excludes. *)
Theorem C44_all_funcs : forall b c ghz l1 l2 f, parse b ghz (l1 ++ "--all-funcs"%string :: l2) = Go f ->
  Forall (fun a => restarts a = false) l2 -> Forall (fun a => excludes a = false) l2 ->
  forall g, In g (benched b c (cpu_flags b c f)) <-> all_runs b c g = true.
Proof.
  intros b c ghz l1 l2 f P R X g. rewrite parse_mid, arguments_app in P.
  destruct (arguments b ghz l1 _) as [f0|]; [|discriminate]. cbn [arguments] in P.
  change (argument b ghz "--all-funcs" f0) with (Go {| opt := N.lor (opt f0) bench_funcs_flags; dis := N.land (dis f0) (not32 bench_funcs_flags) |}) in P. cbv iota in P.
  destruct (arguments b ghz l2 _) as [f1|] eqn:F1; [|discriminate]. injection P as <-.
  assert (O : forall k, N.testbit bench_funcs_flags k = true -> N.testbit (opt (with_defaults f1)) k = true).
  { intros k T. apply with_defaults_keeps. apply (arguments_keep b ghz l2 _ f1 k F1 R). cbn [opt]. now rewrite N.lor_spec, T, orb_true_r. }
  assert (D : forall k, N.testbit bench_funcs_flags k = true -> N.testbit (dis (with_defaults f1)) k = false).
  { intros k T. rewrite with_defaults_dis. apply (arguments_excludes b ghz l2 _ f1 F1 X k). cbn [dis]. rewrite N.land_spec.
    assert (K : k < 32).
    { destruct (N.ltb_spec k 32); [assumption|]. rewrite N.bits_above_log2 in T; [discriminate T|]. eapply N.lt_le_trans; [|eassumption]. reflexivity. }
    unfold not32. change (u32 bench_funcs_flags) with bench_funcs_flags. rewrite N.lxor_spec, T. change 4294967295 with (N.ones 32). rewrite N.ones_spec_low by exact K.
    apply andb_false_r. }
  clear F1 R X. set (fl := with_defaults f1) in *. clearbody fl. clear f1 f0 l1 l2.
  assert (S : forall x l, forallb (fun k => N.testbit bench_funcs_flags k) (x :: l) = true -> is_selected fl (any_of (map bit (x :: l))) = true).
  { intros x l A. rewrite forallb_forall in A. unfold is_selected, is_option_set. rewrite !any_of_zero. apply andb_true_iff. split.
    - cbn [map forallb]. rewrite bit_zero, O by (apply A; now left). reflexivity.
    - apply forallb_forall. intros m I. apply in_map_iff in I. destruct I as (k & <- & I). rewrite bit_zero, D by (now apply A). reflexivity. }
  assert (C : forall k, In k [28; 29; 30] -> is_selected (cpu_flags b c fl) (any_of [bit k]) = N.testbit (opt (cpu_flags b c fl)) k).
  { intros k I. unfold is_selected, is_option_set. cbn [any_of fold_right]. rewrite N.lor_0_r, !bit_zero, cpu_flags_dis, D, negb_involutive; [apply andb_true_r|].
    destruct I as [<-|[<-|[<-|[]]]]; reflexivity. }
  rewrite benched_inb. unfold benched. cbv zeta.
  unfold bench_aes, bench_avx, bench_avx2. rewrite (C 28), (C 29), (C 30) by (cbn; tauto).
  assert (AV : forall k, In k [28; 29; 30] -> N.testbit (opt fl) k = true) by (intros k I; apply O; destruct I as [<-|[<-|[<-|[]]]]; reflexivity).
  assert (CL : forall x k j, N.testbit (opt (clear x (bit k))) j = N.testbit (opt x) j && N.testbit (not32 (bit k)) j) by (intros x k j; cbn [clear opt]; apply N.land_spec).
  assert (B : negb (t1ha0_disabled b) && aesni_available b = true ->
     N.testbit (opt (cpu_flags b c fl)) 28 = e2k b || some_bit (basic_ecx c) 0x02000000 /\
     N.testbit (opt (cpu_flags b c fl)) 29 = e2k b || has_bits (basic_ecx c) 0x1A000000 /\
     (e2k b = false -> N.testbit (opt (cpu_flags b c fl)) 30 = some_bit (extended_7_ebx c) 32)).
  { intros E. unfold cpu_flags, fetched. rewrite E. unfold bench_aes, bench_avx, bench_avx2. destruct (e2k b); cbn [negb andb orb].
    - rewrite !AV by (cbn; tauto). repeat split; discriminate.
    - destruct (some_bit (basic_ecx c) _), (has_bits _ _), (some_bit _ _); rewrite ?CL, ?AV by (cbn; tauto); repeat split. }
  rewrite !selected_cpu by reflexivity.
  rewrite (S 25 [10] eq_refl : is_selected fl (any_of [bench_64; bench_2]) = true).
  rewrite (S 25 [26; 9] eq_refl : is_selected fl (any_of [bench_64; bench_le; bench_1]) = true).
  rewrite (S 25 [27; 9] eq_refl : is_selected fl (any_of [bench_64; bench_be; bench_1]) = true).
  rewrite (S 8 [] eq_refl : is_selected fl (any_of [bench_0]) = true).
  rewrite (S 24 [26; 8] eq_refl : is_selected fl (any_of [bench_32; bench_le; bench_0]) = true).
  rewrite (S 24 [27; 8] eq_refl : is_selected fl (any_of [bench_32; bench_be; bench_0]) = true).
  rewrite (S 4 [] eq_refl : is_selected fl (any_of [bench_xxhash]) = true).
  rewrite (S 6 [] eq_refl : is_selected fl (any_of [bench_stadtx]) = true).
  rewrite (S 5 [] eq_refl : is_selected fl (any_of [bench_highwayhash]) = true).
  rewrite (S 7 [] eq_refl : is_selected fl (any_of [bench_wyhash]) = true).
  clear S C O D AV CL. destruct g as [[[]| | |]| |[]|[]]; inb_cases; unfold all_runs, highway_runs; cbn [negb]; try tauto.
  all: destruct (negb (t1ha0_disabled b)) eqn:T0; cbn [andb orb]; [|rewrite ?andb_false_r; cbn; tauto].
  all: try tauto; destruct (aesni_available b) eqn:AV; cbn [andb orb]; try tauto.
  all: destruct (B eq_refl) as (-> & B29 & B30); rewrite ?B29; try tauto.
  all: try (destruct (e2k b) eqn:E2K; cbn [negb andb orb]; rewrite ?andb_false_r; [tauto|]; rewrite B30 by reflexivity; rewrite ?andb_true_r; tauto).
Qed.
Print Assumptions C44_all_funcs.
Example C44_all_funcs_case : let fs := snd (hd (0, []) (benches (main (plain_build x86_64) haswell (world_of (fun _ => false)) ["--no-0"; "--all-funcs"; "--tiny"]%string))) in
  In (Variant Avx2_a) fs /\ In (Lib (Fn Hash0_32be)) fs /\ List.length fs = 28%nat.
Proof. vm_compute. tauto. Qed.

(** ** C45: the function for the input *)
(** the words that name functions and their properties *)
Definition function_words (b : build) : list string :=
  (["xxhash"; "stadtx"; "wyhash"; "highwayhash"; "highway"] ++
   (if t1ha0_disabled b then [] else ["0"]) ++ (if t1ha1_disabled b then [] else ["1"]) ++ (if t1ha2_disabled b then [] else ["2"]) ++
   ["le"; "be"; "32"; "64"])%list%string.
Definition asked (args : list string) (w : string) : bool := existsb (fun a => String.eqb a ("--" ++ w)) args.
Definition excluded (args : list string) (w : string) : bool := existsb (fun a => String.eqb a ("--no-" ++ w)) args.
(** the functions in the order in which they are tried, with their words *)
Definition preference (b : build) : list (callee * list string) :=
  ([(Other HighwayPureC, ["highwayhash"; "highway"]); (Other Xxh64, ["64"; "xxhash"]); (Other Xxh32, ["32"; "xxhash"]);
    (Other StadtX, ["64"; "stadtx"]); (Other Wyhash, ["64"; "wyhash"])] ++
   (if t1ha2_disabled b then [] else [(Lib (Fn Atonce), ["64"; "2"])]) ++
   (if t1ha1_disabled b then [] else [(Lib (Fn Hash1le), ["64"; "le"; "1"]); (Lib (Fn Hash1be), ["64"; "be"; "1"])]) ++
   (if t1ha0_disabled b then [] else [(Lib (Fn Hash0_32le), ["32"; "le"; "0"]); (Lib (Fn Hash0_32be), ["32"; "be"; "0"]); (T1ha0, ["0"])]) ++
   [(Other Xxh3_64, ["xxhash"])])%list%string.
(** with no word asked for, as if --2 was *)
Definition wanted (b : build) (args : list string) : list string :=
  if existsb (asked args) (function_words b) then args else "--2"%string :: args.
Definition preferred (b : build) (args : list string) : option (callee * list string) :=
  find (fun e => existsb (asked (wanted b args)) (snd e) && negb (existsb (excluded args) (snd e))) (preference b).

(** the flags of a command line made of such words only *)
Definition word_flags : list (string * N) :=
  [("xxhash", 4); ("stadtx", 6); ("wyhash", 7); ("highwayhash", 5); ("highway", 5); ("0", 8); ("1", 9); ("2", 10);
   ("le", 26); ("be", 27); ("32", 24); ("64", 25)]%string.
Definition mask_of (pre a : string) : N := any_of (map (fun x => if String.eqb a (pre ++ fst x) then bit (snd x) else 0) word_flags).
Lemma word_argument : forall b ghz w f, In w (function_words b) ->
  argument b ghz ("--" ++ w) f = Go {| opt := N.lor (opt f) (mask_of "--" ("--" ++ w)); dis := N.lor (dis f) (mask_of "--no-" ("--" ++ w)) |} /\
  argument b ghz ("--no-" ++ w) f = Go {| opt := N.lor (opt f) (mask_of "--" ("--no-" ++ w)); dis := N.lor (dis f) (mask_of "--no-" ("--no-" ++ w)) |}.
Proof.
  intros b ghz w [o d] I. unfold function_words in I. unfold argument, option_names.
  destruct (t1ha0_disabled b), (t1ha1_disabled b), (t1ha2_disabled b); cbn [app In] in I;
    repeat (destruct I as [<-|I]; [split; cbn; rewrite ?N.lor_0_r; reflexivity|]); destruct I.
Qed.
Definition by_words (b : build) (args : list string) : Prop :=
  Forall (fun a => exists w, In w (function_words b) /\ (a = "--" ++ w \/ a = "--no-" ++ w)%string) args.
Lemma word_arguments : forall b ghz args f, by_words b args ->
  arguments b ghz args f = Go {| opt := N.lor (opt f) (any_of (map (mask_of "--") args)); dis := N.lor (dis f) (any_of (map (mask_of "--no-") args)) |}.
Proof.
  intros b ghz args. induction args as [|a args IH]; intros [o d] W; cbn [arguments map any_of fold_right].
  - cbn [opt dis]. now rewrite !N.lor_0_r.
  - inversion W as [|x l (w & I & E) W']; subst. destruct (word_argument b ghz w {| opt := o; dis := d |} I) as (A1 & A2).
    change (fold_right N.lor 0 (map (mask_of "--") args)) with (any_of (map (mask_of "--") args)).
    change (fold_right N.lor 0 (map (mask_of "--no-") args)) with (any_of (map (mask_of "--no-") args)).
    destruct E as [->| ->]; [rewrite A1|rewrite A2]; rewrite IH by exact W'; cbn [opt dis]; now rewrite !N.lor_assoc.
Qed.
Lemma any_of_bit : forall l k, N.testbit (any_of l) k = existsb (fun m => N.testbit m k) l.
Proof.
  intros l k. induction l as [|m l IH]; cbn [any_of fold_right existsb]; [apply N.bits_0|]. rewrite N.lor_spec. now rewrite <- IH.
Qed.
Lemma existsb_map' : forall A B (p : B -> bool) (g : A -> B) l, existsb p (map g l) = existsb (fun x => p (g x)) l.
Proof. intros A B p g l. induction l as [|x l IH]; [reflexivity|]. cbn. now rewrite IH. Qed.
Lemma existsb_ext' : forall A (p q : A -> bool) l, (forall x, p x = q x) -> existsb p l = existsb q l.
Proof. intros A p q l E. induction l as [|x l IH]; [reflexivity|]. cbn. now rewrite E, IH. Qed.
Lemma existsb_or : forall A (p q : A -> bool) l, existsb (fun x => p x || q x) l = existsb p l || existsb q l.
Proof. intros A p q l. induction l as [|x l IH]; [reflexivity|]. cbn [existsb]. rewrite IH. destruct (p x), (q x), (existsb p l); reflexivity. Qed.
Lemma existsb_none : forall A (l : list A), existsb (fun _ => false) l = false.
Proof. intros A l. now induction l. Qed.
Lemma mask_bit : forall pre args k, N.testbit (any_of (map (mask_of pre) args)) k =
  existsb (fun x => (snd x =? k) && existsb (fun a => String.eqb a (pre ++ fst x)) args) word_flags.
Proof.
  intros pre args k. rewrite any_of_bit, existsb_map'. unfold mask_of.
  rewrite (existsb_ext' _ _ (fun a => existsb (fun x => (snd x =? k) && String.eqb a (pre ++ fst x)) word_flags)).
  2:{ intro a. rewrite any_of_bit, existsb_map'. apply existsb_ext'. intro x. destruct (String.eqb a (pre ++ fst x)).
      - rewrite bit_pow, andb_true_r. destruct (N.eqb_spec (snd x) k) as [->|NE]; [apply N.pow2_bits_true|now apply N.pow2_bits_false].
      - rewrite andb_false_r. apply N.bits_0. }
  induction word_flags as [|x l IH]; cbn [existsb]; [apply existsb_none|].
  rewrite existsb_or, IH. f_equal. destruct (snd x =? k); cbn [andb]; [reflexivity|apply existsb_none].
Qed.
Lemma asked_word : forall b args w, by_words b args -> In w ["0"; "1"; "2"]%string -> asked args w = true -> In w (function_words b).
Proof.
  intros b args w W I A. unfold asked in A. apply existsb_exists in A. destruct A as (a & IA & E). apply String.eqb_eq in E. subst a.
  unfold by_words in W. rewrite Forall_forall in W. destruct (W _ IA) as (v & IV & [E|E]); [cbn in E; injection E as ->; exact IV|].
  destruct I as [<-|[<-|[<-|[]]]]; discriminate E.
Qed.
Lemma wanted_word : forall b args w, by_words b args -> In w ["0"; "1"; "2"]%string -> asked args w = true -> existsb (asked args) (function_words b) = true.
Proof. intros b args w W I A. apply existsb_exists. exists w. split; [now apply (asked_word b args)|exact A]. Qed.
Lemma choose_preferred : forall b ghz args f, by_words b args -> parse b ghz (stdin_option :: args) = Go f ->
  choose b f = option_map fst (preferred b args) /\ is_option_set f hash_stdin_strings = true.
Proof.
  intros b ghz args f W P. rewrite parse_some in P. cbn [arguments] in P. change (argument b ghz stdin_option {| opt := 0; dis := 0 |}) with (Go {| opt := 6; dis := 0 |}) in P.
  cbv iota in P. rewrite word_arguments in P by exact W. cbn [opt dis] in P. rewrite N.lor_0_l in P. set (o6 := N.lor 6 _) in P. injection P as <-. subst o6.
  set (A := any_of (map (mask_of "--") args)). set (D := any_of (map (mask_of "--no-") args)).
  assert (MB : forall k, N.testbit A k = existsb (fun x => (snd x =? k) && asked args (fst x)) word_flags) by (intro k; apply mask_bit).
  assert (MD : forall k, N.testbit D k = existsb (fun x => (snd x =? k) && excluded args (fst x)) word_flags) by (intro k; apply mask_bit).
  clearbody A D.
  assert (NONE : (N.land (N.lor 6 A) bench_funcs_flags =? 0) = negb (existsb (asked args) (function_words b))).
  { unfold bench_funcs_flags. rewrite any_of_zero. cbn [forallb]. unfold bench_0, bench_1, bench_2, bench_32, bench_64, bench_le, bench_be, bench_xxhash, bench_highwayhash, bench_stadtx, bench_wyhash.
    rewrite !bit_zero, !N.lor_spec, !MB. unfold word_flags. cbn [existsb fst snd N.eqb Pos.eqb andb orb N.testbit Pos.testbit N.pred Pos.pred_N Pos.pred_double].
    pose proof (wanted_word b args "0" W ltac:(cbn; tauto)) as W0. pose proof (wanted_word b args "1" W ltac:(cbn; tauto)) as W1. pose proof (wanted_word b args "2" W ltac:(cbn; tauto)) as W2.
    revert W0 W1 W2. unfold function_words.
    destruct (t1ha0_disabled b), (t1ha1_disabled b), (t1ha2_disabled b); cbn [app existsb];
    destruct (asked args "xxhash"), (asked args "stadtx"), (asked args "wyhash"), (asked args "highwayhash"), (asked args "highway"); cbn [orb negb andb]; try reflexivity;
    destruct (asked args "0"), (asked args "1"), (asked args "2"), (asked args "le"), (asked args "be"), (asked args "32"), (asked args "64"); cbn [orb negb andb]; intros W0 W1 W2;
      first [reflexivity | discriminate (W0 eq_refl) | discriminate (W1 eq_refl) | discriminate (W2 eq_refl)]. }
  set (fl := with_defaults {| opt := N.lor 6 A; dis := D |}).
  assert (HB : forall k, N.testbit bench_size_flags k = false -> N.testbit (opt fl) k = N.testbit 6 k || N.testbit A k || negb (existsb (asked args) (function_words b)) && (k =? 10)).
  { intros k K. unfold fl, with_defaults. cbn [opt]. rewrite NONE. unfold is_option_set. cbn [opt].
    assert (H6 : (N.land (N.lor 6 A) hash_stdin_strings =? 0) = false) by (unfold hash_stdin_strings; rewrite bit_zero, N.lor_spec; reflexivity).
    rewrite H6. cbn [negb]. cbv zeta.
    assert (SZ : forall g, N.testbit (opt (if N.land (opt g) bench_size_flags =? 0 then set_ g (N.land default_option_flags bench_size_flags) else g)) k = N.testbit (opt g) k).
    { intro g. destruct (N.land (opt g) bench_size_flags =? 0); [|reflexivity]. cbn [opt set_]. now rewrite N.lor_spec, N.land_spec, K, andb_false_r, orb_false_r. }
    rewrite SZ. destruct (existsb (asked args) (function_words b)); cbn [negb opt set_ andb]; [now rewrite N.lor_spec, orb_false_r|].
    rewrite !N.lor_spec. unfold bench_2. rewrite bit_pow. f_equal. destruct (N.eqb_spec k 10) as [->|NE]; [apply N.pow2_bits_true|]. apply N.pow2_bits_false; congruence. }
  assert (HD : dis fl = D) by (unfold fl; now rewrite with_defaults_dis).
  clearbody fl.
  assert (SEL : forall ks, is_selected fl (any_of (map bit ks)) = existsb (N.testbit (opt fl)) ks && negb (existsb (N.testbit D) ks)).
  { intro ks. unfold is_selected, is_option_set. rewrite HD, !any_of_zero.
    assert (Z : forall x, forallb (fun m => N.land x m =? 0) (map bit ks) = negb (existsb (N.testbit x) ks)).
    { intro x. induction ks as [|k l IH]; [reflexivity|]. cbn [map forallb existsb]. rewrite IH, bit_zero. now rewrite negb_orb. }
    now rewrite !Z, negb_involutive. }
  assert (WA : forall w, asked (wanted b args) w = asked args w || negb (existsb (asked args) (function_words b)) && String.eqb "--2" ("--" ++ w)).
  { intro w. unfold wanted. destruct (existsb (asked args) (function_words b)); cbn [negb andb]; [now rewrite orb_false_r|].
    unfold asked. cbn [existsb]. apply orb_comm. }
  split; [|unfold is_option_set, hash_stdin_strings; rewrite bit_zero, HB by reflexivity; reflexivity].
  unfold choose. cbv zeta.
  rewrite (SEL [5] : is_selected fl (any_of [bench_highwayhash]) = _).
  rewrite (SEL [25; 4] : is_selected fl (any_of [bench_64; bench_xxhash]) = _). rewrite (SEL [24; 4] : is_selected fl (any_of [bench_32; bench_xxhash]) = _).
  rewrite (SEL [25; 6] : is_selected fl (any_of [bench_64; bench_stadtx]) = _). rewrite (SEL [25; 7] : is_selected fl (any_of [bench_64; bench_wyhash]) = _).
  rewrite (SEL [25; 10] : is_selected fl (any_of [bench_64; bench_2]) = _). rewrite (SEL [25; 26; 9] : is_selected fl (any_of [bench_64; bench_le; bench_1]) = _).
  rewrite (SEL [25; 27; 9] : is_selected fl (any_of [bench_64; bench_be; bench_1]) = _). rewrite (SEL [24; 26; 8] : is_selected fl (any_of [bench_32; bench_le; bench_0]) = _).
  rewrite (SEL [24; 27; 8] : is_selected fl (any_of [bench_32; bench_be; bench_0]) = _). rewrite (SEL [8] : is_selected fl (any_of [bench_0]) = _).
  rewrite (SEL [4] : is_selected fl (any_of [bench_xxhash]) = _).
  clear SEL NONE. unfold preferred, preference. cbn [existsb]. rewrite !HB by reflexivity. rewrite !MB, !MD. unfold word_flags.
  cbn [existsb fst snd N.eqb Pos.eqb andb orb N.testbit Pos.testbit N.pred Pos.pred_N Pos.pred_double].
  destruct (t1ha0_disabled b), (t1ha1_disabled b), (t1ha2_disabled b); cbn [app find negb andb snd existsb]; rewrite !WA;
  repeat match goal with |- context [String.eqb ?x ?y] => let v := eval vm_compute in (String.eqb x y) in change (String.eqb x y) with v end;
  rewrite ?andb_false_r, ?andb_true_r, ?orb_false_r;
  repeat match goal with |- context [if ?c then _ else _] => destruct c; try reflexivity end.
Qed.
(** The input is hashed with the first function in the list one of whose words was
    asked for and none excluded; if there is none, the program fails. *)
Theorem C45_position : forall b c w args, by_words b args -> w_selfcheck w = 0%Z -> how_ok (w_how w) ->
  match preferred b args with
  | Some (h, _) => hashes_with b c w (stdin_option :: args) h
  | None => exists t, main b c w (stdin_option :: args) = Some (t, exit_failure)
  end.
Proof.
  intros b c w args W S H. destruct (stdin_ends (w_how w) (w_stdin w) H) as (l & L).
  assert (P : exists f, parse b (w_ghz w) (stdin_option :: args) = Go f).
  { rewrite parse_some. cbn [arguments]. change (argument b (w_ghz w) stdin_option {| opt := 0; dis := 0 |}) with (Go {| opt := 6; dis := 0 |}). cbv iota.
    rewrite word_arguments by exact W. eexists; reflexivity. }
  destruct P as (f & P). destruct (choose_preferred b (w_ghz w) args f W P) as (C & F).
  destruct (preferred b args) as [[h ws]|]; cbn [option_map fst] in C.
  - destruct (main_hash b c w _ f _ P F S C l L) as (t & E). now exists t, l.
  - unfold main. rewrite P, S, cpu_flags_set, choose_cpu, F, C by reflexivity. cbn [negb Z.eqb]. eexists. reflexivity.
Qed.
Print Assumptions C45_position.
Example C45_position_case : forall b, by_words b ["--64"; "--no-xxhash"; "--no-stadtx"; "--no-wyhash"]%string /\
  (t1ha2_disabled b = false -> preferred b ["--64"; "--no-xxhash"; "--no-stadtx"; "--no-wyhash"]%string = Some (Lib (Fn Atonce), ["64"; "2"]%string)).
Proof.
  intro b. split.
  - repeat constructor; [exists "64"%string|exists "xxhash"%string|exists "stadtx"%string|exists "wyhash"%string]; (split; [|cbn; tauto]); unfold function_words; rewrite !in_app_iff; cbn; tauto.
  - unfold preferred, wanted, function_words, preference. intros ->. destruct (t1ha0_disabled b), (t1ha1_disabled b); reflexivity.
Qed.
