(** A concrete program image for the self-check. *)
From Coq Require Import ZArith NArith Arith List Bool Lia Strings.Byte.
From Coq Require Import ZifyN ZifyNat ZifyBool.
From Verif Require Import Bytes CSem Bits T1ha2 Spec CSemFacts KeyMem CtxMem StreamFacts OneShot RefVals Demo
  Dispatch Selfcheck SelfcheckSpec SelfcheckFacts.
Import ListNotations.
Local Open Scope N_scope.

(** everything enabled, nothing set by the user *)
Definition plain_build (cfg : config) : build :=
  {| base := cfg; t1ha2_disabled := false; t1ha1_disabled := false; t1ha0_disabled := false; e2k := false;
     old_msvc_x86 := false; aesni_option := None; select_option := None; indirect := false; constructors := false |}.

(** an AVX2 machine under an operating system that saves the AVX state *)
Definition haswell : cpu := {| cpuid_max := 13; leaf1_ecx := 0x7FFAFBBF; leaf7_ebx := 0x27AB; xcr0 := 7 |}.
(** AES but no AVX *)
Definition westmere : cpu := {| cpuid_max := 11; leaf1_ecx := 0x029EE3FF; leaf7_ebx := 0; xcr0 := 0 |}.
(** neither *)
Definition old_cpu : cpu := {| cpuid_max := 2; leaf1_ecx := 0; leaf7_ebx := 0; xcr0 := 0 |}.

Definition all_fns : list probe_fn :=
  [Fn Atonce; Fn Hash1le; Fn Hash1be; Fn Hash0_32le; Fn Hash0_32be; Fn AesNoavx; Fn AesAvx; Fn AesAvx2;
   Thunk128; ThunkStream; ThunkStream128].
Definition fn_index (f : probe_fn) : nat :=
  match f with
  | Fn Atonce => 0 | Fn Hash1le => 1 | Fn Hash1be => 2 | Fn Hash0_32le => 3 | Fn Hash0_32be => 4
  | Fn AesNoavx => 5 | Fn AesAvx => 6 | Fn AesAvx2 => 7 | Thunk128 => 8 | ThunkStream => 9 | ThunkStream128 => 10
  end.
Definition demo_frame : frame :=
  {| v_pattern := 4096; v_long := 8192; v_refs := fun f => 16384 + 648 * N.of_nat (fn_index f);
     v_unused := 12288; v_ctx := 12304; v_bits := 12416 |}.
Definition demo_tables (cfg : config) : list byte := flat_map (fun f => flat_map (native cfg 8) (recorded f)) all_fns.
Definition demo_mem (cfg : config) : mem :=
  write (write (fun _ => Some x00) 4096 t1ha_test_pattern) 16384 (demo_tables cfg).

(** all of memory is mapped *)
Lemma demo_full : forall cfg a, demo_mem cfg a <> None.
Proof.
  intros cfg a. unfold demo_mem.
  assert (W : forall m p l, (forall x, m x <> None) -> forall x, write m p l x <> None).
  { intros m p l H x. unfold write. destruct ((p <=? x) && (x <? p + N.of_nat (length l))) eqn:E; [|apply H].
    apply nth_error_Some. lia. }
  apply W. apply W. discriminate.
Qed.

Lemma demo_bytes : forall cfg, bytes_at (demo_mem cfg) 16384 (demo_tables cfg).
Proof. intro cfg. unfold demo_mem. generalize (demo_tables cfg) as l. intro l. apply write_bytes_at. Qed.

(** [l] consists of the tables *)
Definition tables_ok (cfg : config) (l : list byte) : bool :=
  (mlen l =? 7128) &&
  forallb (fun f => forallb (fun k => if list_eq_dec byte_eq_dec
      (firstn 8 (skipn (648 * fn_index f + 8 * k) l)) (native cfg 8 (nth k (recorded f) 0)) then true else false)
    (seq 0 81)) all_fns.

Lemma demo_image : forall cfg, page_ok cfg -> layout_ok cfg ->
  tables_ok cfg (demo_tables cfg) = true ->
  image_ok (plain_build cfg) demo_frame (demo_mem cfg).
Proof.
  intros cfg P L T. apply andb_prop in T. destruct T as (TL & T). apply N.eqb_eq in TL. unfold mlen in TL.
  assert (AS : 4294967296 <= addr_space cfg) by apply addr_space_pos.
  assert (SZ : sizeof_ctx cfg <= 80) by (unfold sizeof_ctx; destruct L as [->|[-> _]]; lia).
  assert (MP : forall p n, mapped (demo_mem cfg) p n) by (intros p n i _; apply demo_full).
  constructor; cbn [base plain_build v_pattern v_long v_refs v_unused v_ctx v_bits demo_frame].
  - unfold demo_mem. apply write_bytes_at_other; [|apply write_bytes_at].
    change (length t1ha_test_pattern) with 64%nat. lia.
  - intros f _ k K. assert (IN : In f all_fns) by (destruct f as [[]| | |]; cbn; tauto).
    rewrite forallb_forall in T. specialize (T f IN). rewrite forallb_forall in T. specialize (T k ltac:(apply in_seq; lia)).
    destruct (list_eq_dec _ _ _) as [E|]; [|discriminate]. rewrite <- E.
    replace (16384 + 648 * N.of_nat (fn_index f) + 8 * N.of_nat k) with (16384 + N.of_nat (648 * fn_index f + 8 * k)) by lia.
    pose proof (demo_bytes cfg) as BT.
    assert (I : (fn_index f <= 10)%nat) by (destruct f as [[]| | |]; cbn; lia).
    clear -BT TL K I. revert BT TL. generalize (demo_mem cfg) as m. generalize (demo_tables cfg) as l. intros l m BT TL.
    assert (J : (648 * fn_index f + 8 * k <= length l)%nat) by lia.
    revert J. generalize (648 * fn_index f + 8 * k)%nat as j. intros j J.
    apply bytes_at_firstn. now apply bytes_at_skipn.
  - intros f _. assert (fn_index f <= 10)%nat by (destruct f as [[]| | |]; cbn; lia). split; [|lia].
    unfold alignment. destruct (wide cfg).
    + replace (16384 + 648 * N.of_nat (fn_index f)) with ((2048 + 81 * N.of_nat (fn_index f)) * 8) by lia. apply N.mod_mul; discriminate.
    + replace (16384 + 648 * N.of_nat (fn_index f)) with ((4096 + 162 * N.of_nat (fn_index f)) * 4) by lia. apply N.mod_mul; discriminate.
  - intros _. split; [exact P|]. split; intros i a _ _; apply demo_full.
  - lia.
  - apply MP.
  - split; [apply MP|]. split; [discriminate|]. unfold alignment. destruct (wide cfg); reflexivity.
  - split; [split; [apply MP|split; apply MP]|]. split; [exact L|]. split; [discriminate|].
    split; [unfold alignment; destruct (wide cfg); reflexivity|]. lia.
  - split; [apply MP|]. split; [discriminate|]. split; [unfold alignment; destruct (wide cfg); reflexivity|lia].
  - unfold locals, scratch, apart. cbn [fst snd base plain_build v_pattern v_long v_refs v_unused v_ctx v_bits demo_frame].
    repeat constructor; cbn [fst snd]; lia.
  - intros q Q. unfold locals, scratch, apart in *. cbn [In base plain_build v_long v_unused v_ctx v_bits demo_frame] in Q.
    destruct Q as [<-|[<-|[<-|[<-|[]]]]]; cbn [fst snd]; lia.
  - intros f q _ Q. unfold locals, scratch, apart in *. cbn [In base plain_build v_long v_unused v_ctx v_bits demo_frame] in Q.
    destruct Q as [<-|[<-|[<-|[<-|[]]]]]; cbn [fst snd]; lia.
Qed.

Lemma demo_x86_64 : image_ok (plain_build x86_64) demo_frame (demo_mem x86_64).
Proof. apply demo_image; [now apply page_4096|now left|vm_compute; reflexivity]. Qed.
Lemma demo_sparc64 : image_ok (plain_build sparc64) demo_frame (demo_mem sparc64).
Proof. apply demo_image; [first [now apply page_4096|now apply page_8192]|now left|vm_compute; reflexivity]. Qed.
