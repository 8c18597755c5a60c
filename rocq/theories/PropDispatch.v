(** C24, C26: how t1ha0 is bound. *)
From Coq Require Import ZArith NArith Arith List Bool Lia Strings.Byte.
From Coq Require Import ZifyN ZifyNat ZifyBool.
From Verif Require Import Bytes CSem Spec CSemFacts KeyMem OneShot OneShotFacts Demo Dispatch DispatchFacts Threads
  Selfcheck SelfcheckSpec SelfcheckDemo.
Import ListNotations.
Local Open Scope N_scope.

(** ** C24 *)
(** The processor announces everything the chosen function needs.  (Bits of
    CPUID: Intel SDM vol. 2A, table 3-8.) *)
Theorem C24_announced : forall b c f, t1ha0_resolve b c = Some f ->
  match f with
  | AesNoavx => has_aes c = true
  | AesAvx => has_aes c = true /\ has_avx c = true /\ has_osxsave c = true
  | AesAvx2 => has_aes c = true /\ has_avx c = true /\ has_osxsave c = true /\ has_avx2 c = true
  | _ => True
  end.
Proof.
  intros b c f H. apply resolve_cases in H. destruct H as [->|(_ & _ & _ & HA & ->)].
  - unfold portable_choice. destruct (wide (base b) && _), (negb (t1ha1_disabled b)), (big_endian (base b)); exact I.
  - destruct (has_osxsave c), (has_avx c); cbn [andb]; auto. destruct (has_avx2 c); auto.
Qed.
Print Assumptions C24_announced.

(** If the operating system saves the AVX state whenever it says that it uses
    XSAVE, t1ha0 ends in a function that the processor executes. *)
Theorem C24_supported : forall b c f,
  (has_osxsave c = true -> N.testbit (xcr0 c) 1 = true /\ N.testbit (xcr0 c) 2 = true) ->
  t1ha0_target b c = Some f -> executes c f = true.
Proof. exact target_executes. Qed.
Print Assumptions C24_supported.

(** ... and it then returns the value of that function. *)
Theorem C24_value : forall b c f,
  (has_osxsave c = true -> N.testbit (xcr0 c) 1 = true /\ N.testbit (xcr0 c) 2 = true) ->
  t1ha0_target b c = Some f ->
  forall m p msg seed, seed < 2 ^ 64 -> usable f (base b) -> room f (base b) p (mlen msg) -> key_at (base b) m p msg ->
  exec b c f p (mlen msg) seed m = Ok (value f msg seed, m).
Proof.
  intros b c f X T m p msg seed S U R K. unfold exec. rewrite (target_executes b c f X T), orb_true_r. now apply call_ok.
Qed.
Print Assumptions C24_value.

(** The assumption is needed: t1ha_ia32_AVX_avail looks at OSXSAVE but not at
    XCR0 (Intel SDM vol. 1, 14.3 wants both).  An operating system that uses
    XSAVE but has not enabled the AVX state gets an AVX function, which traps. *)
Theorem C24_xcr0_refuted : exists b c f,
  t1ha0_target b c = Some f /\ executes c f = false /\
  forall p len seed m, exec b c f p len seed m = Undef IllegalInstruction.
Proof.
  exists (plain_build x86_64), {| cpuid_max := 13; leaf1_ecx := 0x7FFAFBBF; leaf7_ebx := 0x27AB; xcr0 := 3 |}, AesAvx2.
  split; [vm_compute; reflexivity|]. split; [vm_compute; reflexivity|]. reflexivity.
Qed.
Print Assumptions C24_xcr0_refuted.

(** The function is compiled in. *)
Theorem C24_enabled : forall b c f, t1ha0_target b c = Some f -> in_build b (Fn f) = true.
Proof.
  intros b c f H. unfold t1ha0_target in H. destruct (t1ha0_disabled b) eqn:D0; [discriminate|].
  assert (PC : in_build b (Fn (portable_choice b)) = true).
  { unfold portable_choice. destruct (wide (base b)), (t1ha1_disabled b) eqn:D1, (t1ha2_disabled b) eqn:D2;
      cbn [andb orb negb]; destruct (big_endian (base b)); cbn [in_build]; rewrite ?D0, ?D1, ?D2; reflexivity. }
  destruct (runtime_select b); [|now injection H as <-].
  apply resolve_cases in H. destruct H as [->|(A & _ & E & _ & ->)]; [exact PC|].
  destruct (has_osxsave c && has_avx c); [destruct (has_avx2 c)|]; cbn [in_build]; rewrite D0, A, ?E; reflexivity.
Qed.
Print Assumptions C24_enabled.

(** With run-time selection on x86 the fastest function that the processor
    executes is taken; without AES instructions, or without run-time selection,
    the native-endian portable one, 64-bit if there is one in the build. *)
Theorem C24_best : forall b c,
  (has_osxsave c = true -> N.testbit (xcr0 c) 1 = true /\ N.testbit (xcr0 c) 2 = true) ->
  t1ha0_disabled b = false -> runtime_select b = true -> aesni_available b = true -> ia32 (base b) = true -> e2k b = false ->
  exists f, t1ha0_target b c = Some f /\
    (executes c AesAvx2 = true -> f = AesAvx2) /\
    (executes c AesAvx2 = false -> executes c AesAvx = true -> f = AesAvx) /\
    (executes c AesAvx2 = false -> executes c AesAvx = false -> executes c AesNoavx = true -> f = AesNoavx) /\
    (executes c AesNoavx = false -> f = portable_choice b).
Proof.
  intros b c X D RS A I E. unfold t1ha0_target. rewrite D, RS, (resolve_eq b c A I E).
  eexists. split; [reflexivity|]. cbn [executes]. unfold avx_enabled.
  destruct (has_aes c); cbn [andb]; [|repeat split; discriminate || reflexivity].
  destruct (has_osxsave c).
  - destruct (X eq_refl) as (-> & ->). destruct (has_avx c), (has_avx2 c); cbn [andb]; repeat split; try discriminate; auto.
  - cbn [andb]. rewrite !andb_false_r. repeat split; try discriminate; auto.
Qed.
Print Assumptions C24_best.
Theorem C24_portable : forall b c, t1ha0_disabled b = false ->
  runtime_select b = false \/ aesni_available b = false \/ ia32 (base b) = false ->
  t1ha0_target b c = Some
    (if wide (base b) && negb (t1ha1_disabled b) then if big_endian (base b) then Hash1be else Hash1le
     else if wide (base b) && negb (t1ha2_disabled b) then Atonce
     else if big_endian (base b) then Hash0_32be else Hash0_32le).
Proof.
  intros b c D H. assert (T : t1ha0_target b c = Some (portable_choice b)).
  { unfold t1ha0_target. rewrite D. destruct (runtime_select b); [|reflexivity].
    apply resolve_portable. destruct H as [H|H]; [discriminate|exact H]. }
  rewrite T. unfold portable_choice.
  destruct (wide (base b)), (t1ha1_disabled b), (t1ha2_disabled b); reflexivity.
Qed.
Print Assumptions C24_portable.

Example C24_haswell : t1ha0_target (plain_build x86_64) haswell = Some AesAvx2 /\ executes haswell AesAvx2 = true.
Proof. split; vm_compute; reflexivity. Qed.
Example C24_westmere : t1ha0_target (plain_build linux32) westmere = Some AesNoavx /\ executes westmere AesAvx = false.
Proof. split; vm_compute; reflexivity. Qed.
Example C24_old_cpu : t1ha0_target (plain_build x86_64) old_cpu = Some Hash1le /\
  t1ha0_target (plain_build win32) old_cpu = Some Hash0_32le /\ t1ha0_target (plain_build sparc64) old_cpu = Some Hash1be.
Proof. repeat split; vm_compute; reflexivity. Qed.
Example C24_value_holds : exec (plain_build x86_64) haswell AesAvx2 4096 100 7 (sea 4096 (key 100) x00)
  = Ok (value AesAvx2 (key 100) 7, sea 4096 (key 100) x00).
Proof.
  apply (C24_value (plain_build x86_64) haswell AesAvx2 (fun _ => conj eq_refl eq_refl) (proj1 C24_haswell)
           (sea 4096 (key 100) x00) 4096 (key 100) 7).
  - reflexivity.
  - exact I.
  - split; [left; reflexivity|]. intros _. reflexivity.
  - apply sea_key_at; [now apply page_4096|reflexivity].
Qed.

(** ** C26 *)
(** [calls]: for each thread the calls of t1ha0 it makes, one after the other.
    Whatever the schedule, after [n] steps the pointer has only had the values
    proxy and [r] (the resolved function); no thread has jumped anywhere else;
    each has finished a prefix of its calls, each with the outcome of [r]; there
    were at most five steps per call; and unless all calls are finished, some
    thread can go on. *)
Theorem C26_lazy : forall b c r, t1ha0_resolve b c = Some r ->
  forall calls n h ts, run_ b c n ([Proxy], starting 0 calls) (h, ts) ->
  (forall t, In t h -> t = Proxy \/ t = Code r) /\
  Forall2 (fun l t => at_ t <> Crashed /\
             exists finished, l = finished ++ todo t /\
               done_ t = map (fun q => (q, exec b c r (rq_data q) (rq_len q) (rq_seed q) (rq_mem q))) finished)
          calls ts /\
  (n <= 5 * length (concat calls))%nat /\
  ((exists s, moves b c (h, ts) s) \/
   Forall2 (fun l t => todo t = [] /\
              done_ t = map (fun q => (q, exec b c r (rq_data q) (rq_len q) (rq_seed q) (rq_mem q))) l) calls ts).
Proof.
  intros b c r R calls n h ts U.
  destruct (threads_ok b c r R Proxy 0%nat (or_introl eq_refl) calls n h ts U) as ((k & ->) & A & B & C).
  split; [|auto]. intros t [<-|T]; [now left|]. right. now apply repeat_spec in T.
Qed.
Print Assumptions C26_lazy.

(** With the constructor (src/t1ha0.c:453-457) the pointer is null first and
    [r] afterwards.  The same holds for threads that start after it. *)
Theorem C26_constructor : forall b c r, t1ha0_resolve b c = Some r ->
  forall calls n h ts, run_ b c n ([Null; Code r], starting 1 calls) (h, ts) ->
  Forall2 (fun l t => at_ t <> Crashed /\
             exists finished, l = finished ++ todo t /\
               done_ t = map (fun q => (q, exec b c r (rq_data q) (rq_len q) (rq_seed q) (rq_mem q))) finished)
          calls ts /\
  (n <= 5 * length (concat calls))%nat /\
  ((exists s, moves b c (h, ts) s) \/
   Forall2 (fun l t => todo t = [] /\
              done_ t = map (fun q => (q, exec b c r (rq_data q) (rq_len q) (rq_seed q) (rq_mem q))) l) calls ts).
Proof.
  intros b c r R calls n h ts U.
  destruct (threads_ok b c r R Null 1%nat (or_intror (le_n 1)) calls n h ts U) as (_ & A & B & C). auto.
Qed.
Print Assumptions C26_constructor.

(** A call made earlier (say from another constructor) jumps through null. *)
Theorem C26_before_constructor_refuted : exists b c r,
  t1ha0_resolve b c = Some r /\
  forall rq, exists t, run_ b c 2 ([Null], starting 0 [[rq]]) ([Null], [t]) /\ at_ t = Crashed.
Proof.
  exists (plain_build x86_64), haswell, AesAvx2. split; [vm_compute; reflexivity|]. intro rq.
  exists {| at_ := Crashed; todo := [rq]; done_ := []; seen := 0%nat |}. split; [|reflexivity].
  eapply run_S; [|eapply run_S; [|apply run_0]].
  - eapply (move _ _ [Null] [Null] [] _ _ []). eapply step_read with (j := 0%nat); [lia|reflexivity].
  - eapply (move _ _ [Null] [Null] [] _ _ []). eapply step_null.
Qed.
Print Assumptions C26_before_constructor_refuted.

(** Two threads, both in the proxy at once: both calls end with the value of
    the AVX2 function. *)
Example C26_race : exists h ts,
  let q := {| rq_mem := sea 4096 (key 100) x00; rq_data := 4096; rq_len := 100; rq_seed := 7 |} in
  run_ (plain_build x86_64) haswell 10 ([Proxy], starting 0 [[q]; [q]]) (h, ts) /\
  Forall (fun t => done_ t = [(q, Ok (value AesAvx2 (key 100) 7, sea 4096 (key 100) x00))]) ts /\ length ts = 2%nat /\
  h = [Proxy; Code AesAvx2; Code AesAvx2].
Proof.
  set (b := plain_build x86_64). set (m := sea 4096 (key 100) x00).
  set (q := {| rq_mem := m; rq_data := 4096; rq_len := 100; rq_seed := 7 |}).
  assert (R : t1ha0_resolve b haswell = Some AesAvx2) by (vm_compute; reflexivity).
  pose proof C24_value_holds as V. fold b in V.
  exists [Proxy; Code AesAvx2; Code AesAvx2].
  exists [{| at_ := Idle; todo := []; done_ := outcomes b haswell AesAvx2 [q]; seen := 1%nat |};
          {| at_ := Idle; todo := []; done_ := outcomes b haswell AesAvx2 [q]; seen := 2%nat |}].
  cbv zeta. split; [|split; [|split; reflexivity]].
  - unfold outcomes. cbn [map rq_mem rq_data rq_len rq_seed starting]. fold m.
    set (o := exec b haswell AesAvx2 4096 100 7 m).
    (* the first thread reads the pointer, then the second; both resolve *)
    eapply run_S; [eapply (move _ _ _ _ [] _ _ [_]); eapply step_read with (j := 0%nat); [lia|reflexivity]|].
    eapply run_S; [eapply (move _ _ _ _ [_] _ _ []); eapply step_read with (j := 0%nat); [lia|reflexivity]|].
    eapply run_S; [eapply (move _ _ _ _ [] _ _ [_]); eapply step_proxy|].
    eapply run_S; [eapply (move _ _ _ _ [_] _ _ []); eapply step_proxy|].
    eapply run_S; [eapply (move _ _ _ _ [] _ _ [_]); eapply step_store; exact R|].
    eapply run_S; [eapply (move _ _ _ _ [_] _ _ []); eapply step_store; exact R|].
    eapply run_S; [eapply (move _ _ _ _ [] _ _ [_]); eapply step_reread with (j := 1%nat) (t := Code AesAvx2); [cbn; lia|reflexivity]|].
    eapply run_S; [eapply (move _ _ _ _ [_] _ _ []); eapply step_reread with (j := 2%nat) (t := Code AesAvx2); [cbn; lia|reflexivity]|].
    eapply run_S; [eapply (move _ _ _ _ [] _ _ [_]); eapply step_run|].
    eapply run_S; [eapply (move _ _ _ _ [_] _ _ []); eapply step_run|].
    cbn [rq_mem rq_data rq_len rq_seed app q]. fold m. fold o. apply run_0.
  - unfold outcomes. cbn [map rq_mem rq_data rq_len rq_seed q]. fold m. fold m in V. rewrite V.
    constructor; [reflexivity|]. constructor; [reflexivity|constructor].
Qed.
