(** C22, C23, C25: the self-check. *)
From Coq Require Import ZArith NArith Arith List Bool Lia Strings.Byte.
From Coq Require Import ZifyN ZifyNat ZifyBool.
From Verif Require Import Bytes CSem Bits T1ha2 Spec CSemFacts KeyMem CtxMem StreamFacts OneShot OneShotFacts Demo Dispatch DispatchFacts
  RefVals Selfcheck SelfcheckSpec SelfcheckFacts SelfcheckTrace Recorded Shipped Coverage SelfcheckDemo.
Import ListNotations.
Local Open Scope N_scope.

(** ** C22 *)
(** [rs] is the table at [refs].  [hash] is any code: it may fault, change
    memory, or depend on anything; but it does not write to the table.

    Without asserts: all probes are made, in this order, whatever comes out; the
    verdict is 0 iff the values are the recorded ones, else -1.  Apart from what
    [hash] does, only the local array is written, and only the table is read. *)
Theorem C22_release : forall cfg pattern long refs rs hash m,
  ndebug cfg = true ->
  pattern + 64 < addr_space cfg -> long + 512 < addr_space cfg -> refs + 648 < addr_space cfg ->
  refs mod alignment cfg 8 = 0 -> apart long 512 refs 648 ->
  length rs = 81%nat -> (forall r, In r rs -> r < 2 ^ 64) -> refs_at cfg refs rs m ->
  (forall d l s m x m', refs_at cfg refs rs m -> hash d l s m = Ok (x, m') -> refs_at cfg refs rs m') ->
  t1ha_selfcheck cfg pattern long hash refs m
  = (vs <- run_probes hash (short_probes pattern) ;;
     fill long pattern_long ;;;
     ws <- run_probes hash (long_probes long) ;;
     ret (if list_eq_dec N.eq_dec (vs ++ ws) rs then 0%Z else (-1)%Z)) m.
Proof. intros. now apply selfcheck_release. Qed.
Print Assumptions C22_release.

(** With asserts: the first wrong value ends the program; else the verdict is 0. *)
Theorem C22_debug : forall cfg pattern long refs rs hash m,
  ndebug cfg = false ->
  pattern + 64 < addr_space cfg -> long + 512 < addr_space cfg -> refs + 648 < addr_space cfg ->
  refs mod alignment cfg 8 = 0 -> apart long 512 refs 648 ->
  length rs = 81%nat -> (forall r, In r rs -> r < 2 ^ 64) -> refs_at cfg refs rs m ->
  (forall d l s m x m', refs_at cfg refs rs m -> hash d l s m = Ok (x, m') -> refs_at cfg refs rs m') ->
  t1ha_selfcheck cfg pattern long hash refs m
  = (run_asserting hash (short_probes pattern) (firstn 73 rs) ;;;
     fill long pattern_long ;;;
     run_asserting hash (long_probes long) (skipn 73 rs) ;;;
     ret 0%Z) m.
Proof. intros. now apply selfcheck_debug. Qed.
Print Assumptions C22_debug.

(** In all builds: 0 iff all 81 calls return, with the recorded values. *)
Theorem C22_zero : forall cfg pattern long refs rs hash m m',
  pattern + 64 < addr_space cfg -> long + 512 < addr_space cfg -> refs + 648 < addr_space cfg ->
  refs mod alignment cfg 8 = 0 -> apart long 512 refs 648 ->
  length rs = 81%nat -> (forall r, In r rs -> r < 2 ^ 64) -> refs_at cfg refs rs m ->
  (forall d l s m x m', refs_at cfg refs rs m -> hash d l s m = Ok (x, m') -> refs_at cfg refs rs m') ->
  (t1ha_selfcheck cfg pattern long hash refs m = Ok (0%Z, m') <->
   exists vs m1 m2 ws, run_probes hash (short_probes pattern) m = Ok (vs, m1) /\
     fill long pattern_long m1 = Ok (tt, m2) /\
     run_probes hash (long_probes long) m2 = Ok (ws, m') /\ vs ++ ws = rs).
Proof. intros. now apply selfcheck_zero. Qed.
Print Assumptions C22_zero.

(** A function [h] of the arguments that leaves memory alone: the verdict. *)
Theorem C22_verdict : forall cfg pattern long refs rs hash h m,
  pattern + 64 < addr_space cfg -> long + 512 < addr_space cfg -> refs + 648 < addr_space cfg ->
  refs mod alignment cfg 8 = 0 -> apart long 512 refs 648 -> mapped m long 512 ->
  length rs = 81%nat -> (forall r, In r rs -> r < 2 ^ 64) -> refs_at cfg refs rs m ->
  (forall d l s, In (d, l, s) (short_probes pattern) -> hash d l s m = Ok (h (d, l, s), m)) ->
  (forall d l s m', In (d, l, s) (long_probes long) -> only m m' long 512 -> bytes_at m' long pattern_long ->
     hash d l s m' = Ok (h (d, l, s), m')) ->
  if list_eq_dec N.eq_dec (map h (probes pattern long)) rs
  then exists m', t1ha_selfcheck cfg pattern long hash refs m = Ok (0%Z, m') /\ only m m' long 512
  else if ndebug cfg
       then exists m', t1ha_selfcheck cfg pattern long hash refs m = Ok ((-1)%Z, m') /\ only m m' long 512
       else t1ha_selfcheck cfg pattern long hash refs m = Abort.
Proof.
  intros cfg pattern long refs rs hash h m PR LR RR AL AP ML L LT R HS HL.
  assert (Y := selfcheck_yields cfg pattern long refs rs hash h L LT AL RR PR LR
    (fun m' => m' = m) (fun m' => only m m' long 512 /\ bytes_at m' long pattern_long)).
  unfold yields in Y.
  assert (MM : any_mismatch pattern long rs h =
    if list_eq_dec N.eq_dec (map h (probes pattern long)) rs then false else true).
  { unfold any_mismatch, mismatch. destruct (list_eq_dec _ _ _) as [E|NE].
    - destruct (existsb _ _) eqn:X; [|reflexivity]. apply existsb_exists in X. destruct X as (k & K & X).
      apply in_seq in K. rewrite <- E in X. rewrite (nth_indep _ 0 (h (0, 0, 0))), map_nth, N.eqb_refl in X
        by (rewrite map_length; change (length (probes pattern long)) with 81%nat; lia). discriminate.
    - destruct (existsb _ _) eqn:X; [reflexivity|]. exfalso. apply NE.
      apply nth_ext with (d := h (0, 0, 0)) (d' := 0).
      { rewrite map_length, L. reflexivity. }
      intros k K. rewrite map_length in K. change (length (probes pattern long)) with 81%nat in K. rewrite map_nth.
      destruct (N.eqb_spec (h (nth k (probes pattern long) (0, 0, 0))) (nth k rs 0)) as [E|NEQ]; [exact E|].
      assert (T : existsb (fun k => negb (h (nth k (probes pattern long) (0, 0, 0)) =? nth k rs 0)) (seq 0 81) = true).
      { apply existsb_exists. exists k. split; [apply in_seq; lia|]. apply N.eqb_neq in NEQ. now rewrite NEQ. }
      congruence. }
  rewrite MM in Y. specialize (fun a b d e f g => Y a b d e f g m eq_refl).
  assert (KT : forall m', only m m' long 512 -> refs_at cfg refs rs m').
  { intros m' O k K. eapply only_bytes; [exact O| |now apply R]. unfold mlen, apart in *. rewrite native_length. lia. }
  specialize (Y ltac:(intros ? ->; exact R) ltac:(intros m' (O & _); now apply KT) ltac:(intros ? ->; exact ML)
    ltac:(intros ? m' -> O B; now split)
    ltac:(intros d l s I ? ->; exists m; split; [now apply HS|reflexivity])
    ltac:(intros d l s I m' (O & B); exists m'; split; [now apply HL|now split])).
  destruct (list_eq_dec _ _ _).
  - rewrite andb_false_r in Y. destruct Y as (m' & E & O & _). now exists m'.
  - rewrite andb_true_r in Y. destruct (ndebug cfg); cbn [negb] in Y; [|exact Y].
    destruct Y as (m' & E & O & _). now exists m'.
Qed.
Print Assumptions C22_verdict.

(** A function that returns the length of its input; its table at 8192; the
    pattern at 4096 and the array at 16384. *)
Definition length_hash : hash_code := fun d l s => ret l.
Definition length_table : list N := map (fun p => snd (fst p)) (probes 4096 16384).
Definition table_mem (cfg : config) (rs : list N) : mem := write (fun _ => Some x00) 8192 (flat_map (native cfg 8) rs).
Definition verdict_of (o : outcome (Z * mem)) : option Z := match o with Ok (z, _) => Some z | _ => None end.
Example C22_right : verdict_of (t1ha_selfcheck x86_64 4096 16384 length_hash 8192 (table_mem x86_64 length_table)) = Some 0%Z.
Proof. vm_compute. reflexivity. Qed.
(** the last value wrong by one bit *)
Example C22_wrong_last :
  verdict_of (t1ha_selfcheck x86_64 4096 16384 length_hash 8192
    (table_mem x86_64 (firstn 80 length_table ++ [N.lxor (nth 80 length_table 0) (2 ^ 63)]))) = Some (-1)%Z /\
  t1ha_selfcheck sparc64 4096 16384 length_hash 8192
    (table_mem sparc64 (firstn 80 length_table ++ [N.lxor (nth 80 length_table 0) (2 ^ 63)])) = Abort.
Proof. split; vm_compute; reflexivity. Qed.
(** a function that faults on the empty input *)
Example C22_faulty : t1ha_selfcheck x86_64 4096 16384 (fun d l s => x <- load8 d ;; ret (b2n x)) 8192
    (fun a => if a =? 0 then None else Some x00) = Fault 0.
Proof. vm_compute. reflexivity. Qed.
Lemma length_refs : refs_at x86_64 8192 length_table (table_mem x86_64 length_table).
Proof.
  assert (B : bytes_at (table_mem x86_64 length_table) 8192 (flat_map (native x86_64 8) length_table)) by apply write_bytes_at.
  revert B. generalize (table_mem x86_64 length_table) as m. intros m B k K.
  assert (T : forallb (fun k => if list_eq_dec byte_eq_dec (firstn 8 (skipn (8 * k) (flat_map (native x86_64 8) length_table)))
    (native x86_64 8 (nth k length_table 0)) then true else false) (seq 0 81) = true) by (vm_compute; reflexivity).
  rewrite forallb_forall in T. specialize (T k ltac:(apply in_seq; lia)). destruct (list_eq_dec _ _ _) as [E|]; [|discriminate].
  rewrite <- E. apply bytes_at_firstn. replace (8192 + 8 * N.of_nat k) with (8192 + N.of_nat (8 * k)) by lia.
  apply bytes_at_skipn; [exact B|]. assert (LN : length (flat_map (native x86_64 8) length_table) = 648%nat) by (vm_compute; reflexivity).
  rewrite LN. lia.
Qed.
Example C22_verdict_holds : exists m',
  t1ha_selfcheck x86_64 4096 16384 length_hash 8192 (table_mem x86_64 length_table) = Ok (0%Z, m') /\
  only (table_mem x86_64 length_table) m' 16384 512.
Proof.
  assert (V := C22_verdict x86_64 4096 16384 8192 length_table length_hash (fun p => snd (fst p)) (table_mem x86_64 length_table)).
  fold length_table in V. destruct (list_eq_dec N.eq_dec length_table length_table) as [_|N0]; [|now exfalso]. apply V.
  - reflexivity.
  - reflexivity.
  - reflexivity.
  - reflexivity.
  - right. discriminate.
  - intros i _. unfold table_mem, write. destruct (_ && _) eqn:E; [|discriminate]. apply nth_error_Some. lia.
  - reflexivity.
  - intros r I. assert (F : forallb (fun r => r <? 2 ^ 64) length_table = true) by (vm_compute; reflexivity).
    rewrite forallb_forall in F. specialize (F r I). apply N.ltb_lt. exact F.
  - exact length_refs.
  - reflexivity.
  - reflexivity.
Qed.

(** ** C23 *)
(** The recorded values are those of the specification. *)
Theorem C23_tables : forall f, map (fun x => expected f (fst x) (snd x)) messages = recorded f.
Proof. exact recorded_ok. Qed.
Print Assumptions C23_tables.

(** The code of each function that is in the build passes, if it can run, on
    every build and processor, from every memory that contains the constants,
    and only the local variables are changed. *)
Theorem C23_each : forall b c v f m, image_ok b v m -> in_build b f = true -> runnable b c f ->
  exists m', check_fn b v (shipped b c v) f m = Ok (0%Z, m') /\ same_except (locals b v) m m'.
Proof.
  intros b c v f m I B R. destruct (check_fn_ok b c v f m I B R) as (m' & E & _ & S). now exists m'.
Qed.
Print Assumptions C23_each.

(** All together; the conditions are those of C06, C24 and C36. *)
Theorem C23_all : forall b c v m, image_ok b v m ->
  whole_words_ok (base b) ->
  (t1ha1_disabled b = false -> be_tail_builds (base b)) ->
  (has_osxsave c = true -> N.testbit (xcr0 c) 1 = true /\ N.testbit (xcr0 c) 2 = true) ->
  (aesni_available b = true -> e2k b = true \/ ia32 (base b) = true) ->
  exists m', selfcheck_all_enabled b c v (shipped b c v) m = Ok (0%Z, m') /\ same_except (locals b v) m m'.
Proof.
  intros b c v m I W B A E. destruct (selfcheck_all_ok b c v W B A E m I) as (m' & X & _ & S). now exists m'.
Qed.
Print Assumptions C23_all.

Example C23_x86_64 : exists m', selfcheck_all_enabled (plain_build x86_64) haswell demo_frame
    (shipped (plain_build x86_64) haswell demo_frame) (demo_mem x86_64) = Ok (0%Z, m') /\
  same_except (locals (plain_build x86_64) demo_frame) (demo_mem x86_64) m'.
Proof.
  apply C23_all; [exact demo_x86_64|intros _; left; reflexivity|intros _ _; reflexivity|intros _; split; reflexivity|].
  intros _. right. reflexivity.
Qed.
Example C23_sparc64 : exists m', selfcheck_all_enabled (plain_build sparc64) old_cpu demo_frame
    (shipped (plain_build sparc64) old_cpu demo_frame) (demo_mem sparc64) = Ok (0%Z, m') /\
  same_except (locals (plain_build sparc64) demo_frame) (demo_mem sparc64) m'.
Proof.
  apply C23_all; [exact demo_sparc64|intros _; left; reflexivity|intros _ _; reflexivity|intro H; discriminate H|].
  intro H. discriminate H.
Qed.

(** ** C25 *)
(** [code]: what the functions do in the program at hand, right or wrong.  If
    one of the two self-checks returns 0, then the function that t1ha0 is bound
    to was checked and passed. *)
Theorem C25_covered : forall b c v code f, t1ha0_target b c = Some f ->
  forall m m', selfcheck_t1ha0 b c v code m = Ok (0%Z, m') \/ selfcheck_all_enabled b c v code m = Ok (0%Z, m') ->
  exists m1 m2, check_fn b v code (Fn f) m1 = Ok (0%Z, m2).
Proof.
  intros b c v code f T m m' [H|H];
    [apply (target_ran b c v code (fun _ => True) (fun _ _ _ _ _ _ => I) f T m m' I) in H
    |apply (target_ran_all b c v code (fun _ => True) (fun _ _ _ _ _ _ => I) f T m m' I) in H];
    destruct H as (m1 & m2 & _ & E); now exists m1, m2.
Qed.
Print Assumptions C25_covered.

(** ... on all 81 probes, if the table of that function stays intact. *)
Theorem C25_values : forall b c v code f, t1ha0_target b c = Some f ->
  v_refs v (Fn f) mod alignment (base b) 8 = 0 -> v_refs v (Fn f) + 648 < addr_space (base b) ->
  v_pattern v + 64 < addr_space (base b) -> v_long v + 512 < addr_space (base b) ->
  apart (v_long v) 512 (v_refs v (Fn f)) 648 ->
  (forall g d l s m x m', refs_at (base b) (v_refs v (Fn f)) (recorded (Fn f)) m ->
     code g d l s m = Ok (x, m') -> refs_at (base b) (v_refs v (Fn f)) (recorded (Fn f)) m') ->
  forall m m', refs_at (base b) (v_refs v (Fn f)) (recorded (Fn f)) m ->
    selfcheck_t1ha0 b c v code m = Ok (0%Z, m') \/ selfcheck_all_enabled b c v code m = Ok (0%Z, m') ->
    exists ma vs mb mc ws md, run_probes (code (Fn f)) (short_probes (v_pattern v)) ma = Ok (vs, mb) /\
      fill (v_long v) pattern_long mb = Ok (tt, mc) /\
      run_probes (code (Fn f)) (long_probes (v_long v)) mc = Ok (ws, md) /\ vs ++ ws = recorded (Fn f).
Proof.
  intros b c v code f T A1 A2 A3 A4 A5 K m m' R H.
  destruct (target_checked b c v code f T A1 A2 A3 A4 A5 K m m' R H) as (ma & md & vs & mb & mc & ws & X).
  exists ma, vs, mb, mc, ws, md. exact X.
Qed.
Print Assumptions C25_values.

(** the AVX2 machine of C23_x86_64: all hypotheses can be met *)
Example C25_covered_holds : exists m1 m2,
  check_fn (plain_build x86_64) demo_frame (shipped (plain_build x86_64) haswell demo_frame) (Fn AesAvx2) m1 = Ok (0%Z, m2).
Proof.
  destruct C23_x86_64 as (m' & H & _).
  apply (C25_covered (plain_build x86_64) haswell demo_frame (shipped (plain_build x86_64) haswell demo_frame) AesAvx2) with (m := demo_mem x86_64) (m' := m').
  - vm_compute. reflexivity.
  - right. exact H.
Qed.
(** code that returns 0 for everything does not pass *)
Example C25_wrong : forall m m',
  refs_at x86_64 (v_refs demo_frame (Fn AesAvx2)) t1ha_refval_ia32aes_b m ->
  selfcheck_t1ha0 (plain_build x86_64) haswell demo_frame (fun f d l s => ret 0) m <> Ok (0%Z, m').
Proof.
  intros m m' R H.
  destruct (C25_values (plain_build x86_64) haswell demo_frame (fun f d l s => ret 0) AesAvx2) with (m := m) (m' := m')
    as (ma & vs & mb & mc & ws & md & E1 & _ & _ & E).
  - vm_compute. reflexivity.
  - reflexivity.
  - reflexivity.
  - reflexivity.
  - reflexivity.
  - left. discriminate.
  - intros g d l s m1 x m2 R1 E. injection E as _ <-. exact R1.
  - exact R.
  - left. exact H.
  - assert (V : vs = map (fun _ => 0) (short_probes (v_pattern demo_frame))).
    { clear -E1. revert E1. generalize (short_probes (v_pattern demo_frame)) as ps. intro ps. revert vs ma mb.
      induction ps as [|[[d l] s] ps IH]; intros vs ma mb E; cbn [run_probes] in E; unfold bind, ret in E.
      - now injection E as <- _.
      - destruct (run_probes (fun _ _ _ => fun m : mem => Ok (0, m)) ps ma) as [[ws m2]| | | | |] eqn:E2; try discriminate.
        injection E as <- _. cbn [map]. f_equal. eapply IH. exact E2. }
    assert (NZ : nth 3 (recorded (Fn AesAvx2)) 0 <> 0) by (vm_compute; discriminate).
    apply NZ. rewrite <- E. rewrite app_nth1; [|rewrite V; cbn; lia]. rewrite V. reflexivity.
Qed.
