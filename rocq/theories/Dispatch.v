(** How t1ha0 is bound to an implementation: CPU detection, t1ha0_resolve, the
    static choice, and the function pointer that is replaced at run time. *)
From Coq Require Import NArith List Bool.
From Verif Require Import Bytes CSem OneShot.
Import ListNotations.
Local Open Scope N_scope.

(** ** Builds *)
(** The options of a build that matter here, beside [config]. *)
Record build : Type := {
  base : config;
  t1ha2_disabled : bool;        (* T1HA2_DISABLED defined *)
  t1ha1_disabled : bool;        (* T1HA1_DISABLED defined *)
  t1ha0_disabled : bool;        (* T1HA0_DISABLED defined *)
  e2k : bool;                   (* __e2k__ defined *)
  old_msvc_x86 : bool;          (* _M_IX86 defined and _MSC_VER <= 1800 *)
  aesni_option : option bool;   (* T1HA0_AESNI_AVAILABLE as given by the user *)
  select_option : option bool;  (* T1HA0_RUNTIME_SELECT as given by the user *)
  indirect : bool;              (* T1HA_USE_INDIRECT_FUNCTIONS *)
  constructors : bool           (* __GNUC_PREREQ(4, 0) || __has_attribute(__constructor__) *)
}.

(** T1HA0_AESNI_AVAILABLE, t1ha.h:593-600 *)
Definition aesni_available (b : build) : bool :=
  match aesni_option b with
  | Some v => v
  | None => e2k b || (ia32 (base b) && negb (old_msvc_x86 b))
  end.
(** T1HA0_RUNTIME_SELECT, t1ha.h:603-609 *)
Definition runtime_select (b : build) : bool :=
  match select_option b with
  | Some v => v
  | None => aesni_available b && negb (e2k b)
  end.

(** ** The processor and the operating system *)
Record cpu : Type := {
  cpuid_max : N;    (* highest CPUID leaf, 0 without the instruction *)
  leaf1_ecx : N;    (* CPUID.1:ECX *)
  leaf7_ebx : N;    (* CPUID.(7,0):EBX *)
  xcr0 : N          (* extended control register 0: the state that the system saves *)
}.

(** src/t1ha0.c:361-386; both branches (gcc, MSVC) do the same *)
Definition t1ha_ia32cpu_features (c : cpu) : N :=
  let features := if 1 <=? cpuid_max c then u32 (leaf1_ecx c) else 0 in
  let extended := if (1 <=? cpuid_max c) && (7 <=? cpuid_max c) then u32 (leaf7_ebx c) else 0 in
  N.lor features (shl64 extended 32).
(** src/t1ha_bits.h:1236-1240 *)
Definition t1ha_ia32_AESNI_avail (features : N) : bool := negb (N.land features 0x02000000 =? 0).
(** src/t1ha_bits.h:1242-1246 *)
Definition t1ha_ia32_AVX_avail (features : N) : bool := N.land features 0x1A000000 =? 0x1A000000.
(** src/t1ha_bits.h:1248-1252 *)
Definition t1ha_ia32_AVX2_avail (features : N) : bool := negb (N.land (shr64 features 32) 32 =? 0).

(** ** The choice *)
(** The part of src/t1ha0.c:403-425, t1ha.h:639-666 and 668-709 that does not
    look at the CPU; [None]: does not compile or does not link *)
Definition portable_choice (b : build) : hash_fn :=
  if wide (base b) && (negb (t1ha1_disabled b) || negb (t1ha2_disabled b)) then
    if negb (t1ha1_disabled b) then (if big_endian (base b) then Hash1be else Hash1le) else Atonce
  else (if big_endian (base b) then Hash0_32be else Hash0_32le).
(** src/t1ha0.c:391-426.  The AVX2 function is not declared on e2k (t1ha.h:622). *)
Definition t1ha0_resolve (b : build) (c : cpu) : option hash_fn :=
  if aesni_available b && ia32 (base b) then
    if e2k b then None else
    let features := t1ha_ia32cpu_features c in
    if t1ha_ia32_AESNI_avail features then
      if t1ha_ia32_AVX_avail features then
        Some (if t1ha_ia32_AVX2_avail features then AesAvx2 else AesAvx)
      else Some AesNoavx
    else Some (portable_choice b)
  else Some (portable_choice b).
(** What t1ha0 (t1ha.h:631-709) ends up in, once bound. *)
Definition t1ha0_target (b : build) (c : cpu) : option hash_fn :=
  if t1ha0_disabled b then None
  else if runtime_select b then t1ha0_resolve b c
  else Some (portable_choice b).

(** ** Execution on a processor *)
(** The compiler flags (Makefile:77-87: -maes; -mavx -maes; -mavx2 -mavx -maes)
    allow these instructions in the AES functions.  AVX instructions trap unless
    the system has enabled their state in XCR0 (Intel SDM vol. 1, 14.3). *)
Definition has_aes (c : cpu) : bool := (1 <=? cpuid_max c) && N.testbit (leaf1_ecx c) 25.
Definition has_avx (c : cpu) : bool := (1 <=? cpuid_max c) && N.testbit (leaf1_ecx c) 28.
Definition has_osxsave (c : cpu) : bool := (1 <=? cpuid_max c) && N.testbit (leaf1_ecx c) 27.
Definition has_avx2 (c : cpu) : bool := (7 <=? cpuid_max c) && N.testbit (leaf7_ebx c) 5.
Definition avx_enabled (c : cpu) : bool := has_osxsave c && N.testbit (xcr0 c) 1 && N.testbit (xcr0 c) 2.
Definition executes (c : cpu) (f : hash_fn) : bool :=
  match f with
  | AesNoavx => has_aes c
  | AesAvx => has_aes c && has_avx c && avx_enabled c
  | AesAvx2 => has_aes c && has_avx c && has_avx2 c && avx_enabled c
  | _ => true
  end.
(** calling [f] on the processor [c]; on e2k the compiler expands the AES
    intrinsics into other instructions *)
Definition exec (b : build) (c : cpu) (f : hash_fn) (data len seed : N) : M N :=
  if e2k b || executes c f then call f (base b) data len seed else undef IllegalInstruction.

(** ** The function pointer, src/t1ha0.c:439-459 and t1ha.h:635-640 *)
(** what t1ha0_funcptr can point to *)
Inductive target : Type := Null | Proxy | Code (f : hash_fn).

(** a call of t1ha0: the memory it finds, and its arguments *)
Record request : Type := { rq_mem : mem; rq_data : N; rq_len : N; rq_seed : N }.

(** Where a thread stands.
    [Idle]: not inside t1ha0;
    [Jump t]: t1ha0_funcptr has been read as [t] and is about to be called;
    [Resolving]: in t1ha0_proxy, before the store (src/t1ha0.c:450);
    [Reading]: in t1ha0_proxy, after the store, about to read the pointer again (line 451);
    [Crashed]: jumped through a null pointer. *)
Inductive pc : Type := Idle | Jump (t : target) | Resolving | Reading | Crashed.

(** A thread: position, remaining calls of t1ha0, finished ones with their
    outcome, and the index of the newest value of t1ha0_funcptr it has seen. *)
Record thread : Type := {
  at_ : pc;
  todo : list request;
  done_ : list (request * outcome (N * mem));
  seen : nat
}.

(** One step of one thread.  [h] is the list of all values the pointer ever had,
    oldest first.  A read yields any value that is not older than what this
    thread has seen: this is what relaxed atomic accesses guarantee, and weaker
    than interleaving.  (The plain accesses of the C code are treated as atomic;
    strictly by C11 they race.) *)
Inductive step_ (b : build) (c : cpu) : list target -> thread -> list target -> thread -> Prop :=
| step_read : forall h t rq rest d s j,
    (s <= j)%nat -> nth_error h j = Some t ->
    step_ b c h {| at_ := Idle; todo := rq :: rest; done_ := d; seen := s |}
              h {| at_ := Jump t; todo := rq :: rest; done_ := d; seen := j |}
| step_proxy : forall h l d s,
    step_ b c h {| at_ := Jump Proxy; todo := l; done_ := d; seen := s |}
              h {| at_ := Resolving; todo := l; done_ := d; seen := s |}
| step_store : forall h l d s f,
    t1ha0_resolve b c = Some f ->
    step_ b c h {| at_ := Resolving; todo := l; done_ := d; seen := s |}
              (h ++ [Code f]) {| at_ := Reading; todo := l; done_ := d; seen := length h |}
| step_reread : forall h l d s t j,
    (s <= j)%nat -> nth_error h j = Some t ->
    step_ b c h {| at_ := Reading; todo := l; done_ := d; seen := s |}
              h {| at_ := Jump t; todo := l; done_ := d; seen := j |}
| step_run : forall h f rq rest d s,
    step_ b c h {| at_ := Jump (Code f); todo := rq :: rest; done_ := d; seen := s |}
              h {| at_ := Idle; todo := rest;
                   done_ := d ++ [(rq, exec b c f (rq_data rq) (rq_len rq) (rq_seed rq) (rq_mem rq))];
                   seen := s |}
| step_null : forall h l d s,
    step_ b c h {| at_ := Jump Null; todo := l; done_ := d; seen := s |}
              h {| at_ := Crashed; todo := l; done_ := d; seen := s |}.

(** any thread may move *)
Inductive moves (b : build) (c : cpu) : list target * list thread -> list target * list thread -> Prop :=
| move : forall h h' l t t' r, step_ b c h t h' t' -> moves b c (h, l ++ t :: r) (h', l ++ t' :: r).
(** [n] moves *)
Inductive run_ (b : build) (c : cpu) : nat -> list target * list thread -> list target * list thread -> Prop :=
| run_0 : forall s, run_ b c 0 s s
| run_S : forall n s s1 s2, moves b c s s1 -> run_ b c n s1 s2 -> run_ b c (S n) s s2.

(** Threads before their first call, given the calls each is going to make;
    [s]: they know of the first [s] changes of the pointer. *)
Definition starting (s : nat) (calls : list (list request)) : list thread :=
  map (fun l => {| at_ := Idle; todo := l; done_ := []; seen := s |}) calls.
