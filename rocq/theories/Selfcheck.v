(** The self-check: src/t1ha_selfcheck.c, t1ha2_selfcheck.c, t1ha1_selfcheck.c,
    t1ha0_selfcheck.c, t1ha_selfcheck_all.c. *)
From Coq Require Import ZArith NArith List Bool Strings.Byte.
From Verif Require Import Bytes CSem Bits T1ha2 T1ha1 T1ha0 Aes Ia32aes OneShot Dispatch.
Import ListNotations.
Local Open Scope N_scope.

(** a function as t1ha_selfcheck gets it: data, length, seed *)
Definition hash_code : Type := N -> N -> N -> M N.

(** for (i = first; n times; i++) body *)
Fixpoint for_ {S : Type} (first : N) (n : nat) (body : N -> S -> M S) (s : S) : M S :=
  match n with
  | O => ret s
  | Datatypes.S n => s' <- body first s ;; for_ (first + 1) n body s'
  end.

(** src/t1ha_selfcheck.c:55-61 *)
Definition probe (cfg : config) (hash : hash_code) (reference data len seed : N) : M bool :=
  actual <- hash data len seed ;;
  assert_ cfg (actual =? reference) ;;;
  ret (negb (actual =? reference)).

(** [failed |= probe(hash, *reference_values++, data, len, seed)];
    the state is [failed] and the pointer *)
Definition check (cfg : config) (hash : hash_code) (data len seed : N) (s : bool * N) : M (bool * N) :=
  let '(failed, refs) := s in
  reference <- read_aligned cfg 8 refs ;;
  x <- probe cfg hash reference data len seed ;;
  ret (failed || x, padd cfg refs 8).

(** src/t1ha_selfcheck.c:63-98; [pattern] is the address of t1ha_test_pattern,
    [pattern_long] that of the local array *)
Definition t1ha_selfcheck (cfg : config) (pattern pattern_long : N) (hash : hash_code) (refs : N) : M Z :=
  let zero := 0 in
  s <- check cfg hash 0 0 zero (false, refs) ;;
  s <- check cfg hash 0 0 (not64 zero) s ;;
  s <- check cfg hash pattern 64 zero s ;;
  x <- for_ 1 63 (fun i x =>
         s <- check cfg hash pattern i (snd x) (fst x) ;;
         ret (s, shl64 (snd x) 1)) (s, 1) ;;
  x <- for_ 1 7 (fun i x =>
         let seed := shl64 (snd x) 1 in
         s <- check cfg hash (padd cfg pattern i) (64 - i) seed (fst x) ;;
         ret (s, seed)) (fst x, not64 zero) ;;
  let seed := snd x in
  for_ 0 512 (fun i (_ : unit) => store_bytes (padd cfg pattern_long i) [n2b i]) tt ;;;
  s <- for_ 0 8 (fun i s => check cfg hash (padd cfg pattern_long i) (128 + i * 17) seed s) (fst x) ;;
  ret (if fst s : bool then (-1)%Z else 0%Z).

(** ** What is checked *)
(** the functions given to t1ha_selfcheck: the hash functions, and the three
    thunks of src/t1ha2_selfcheck.c:150-175 *)
Inductive probe_fn : Type := Fn (f : hash_fn) | Thunk128 | ThunkStream | ThunkStream128.

(** Addresses: t1ha_test_pattern, the arrays of reference values, and the local
    variables (all different objects; [v_unused] and [v_ctx] of the thunks,
    [v_bits] of t1ha2_final). *)
Record frame : Type := {
  v_pattern : N;
  v_long : N;
  v_refs : probe_fn -> N;
  v_unused : N;
  v_ctx : N;
  v_bits : N
}.

(** src/t1ha2_selfcheck.c:150-154, 160-166, 168-175; a hash function as it runs
    on the processor [c] *)
Definition shipped (b : build) (c : cpu) (v : frame) (f : probe_fn) : hash_code :=
  let cfg := base b in
  match f with
  | Fn f => fun data len seed => exec b c f data len seed
  | Thunk128 => fun data len seed => t1ha2_atonce128 cfg (v_unused v) data len seed
  | ThunkStream => fun data len seed =>
      t1ha2_init cfg (v_ctx v) seed seed ;;;
      t1ha2_update cfg (v_ctx v) data len ;;;
      t1ha2_final cfg (v_bits v) (v_ctx v) 0
  | ThunkStream128 => fun data len seed =>
      t1ha2_init cfg (v_ctx v) seed seed ;;;
      t1ha2_update cfg (v_ctx v) data len ;;;
      t1ha2_final cfg (v_bits v) (v_ctx v) (v_unused v)
  end.

Section Checks.
  Variables (b : build) (c : cpu) (v : frame).
  (** the code that is checked; [shipped b c v] unless miscompiled *)
  Variable code : probe_fn -> hash_code.

  (** [x() | y()] and [rc |= y()].  (The order of the two calls is unspecified
      in C; here from left to right.) *)
  Definition or_ (x y : M Z) : M Z := rx <- x ;; ry <- y ;; ret (Z.lor rx ry).

  (** t1ha_selfcheck(f, table of f): src/t1ha2_selfcheck.c:147, 157, 178, 179;
      t1ha1_selfcheck.c:101, 105; t1ha0_selfcheck.c:149, 153, 158, 162, 167 *)
  Definition check_fn (f : probe_fn) : M Z :=
    t1ha_selfcheck (base b) (v_pattern v) (v_long v) (code f) (v_refs v f).

  (** src/t1ha2_selfcheck.c:146-148 *)
  Definition selfcheck_t1ha2_atonce : M Z := check_fn (Fn Atonce).
  (** src/t1ha2_selfcheck.c:156-158 *)
  Definition selfcheck_t1ha2_atonce128 : M Z := check_fn Thunk128.
  (** src/t1ha2_selfcheck.c:177-180 *)
  Definition selfcheck_t1ha2_stream : M Z := or_ (check_fn ThunkStream) (check_fn ThunkStream128).
  (** src/t1ha2_selfcheck.c:182-185 *)
  Definition selfcheck_t1ha2 : M Z :=
    or_ (or_ selfcheck_t1ha2_atonce selfcheck_t1ha2_atonce128) selfcheck_t1ha2_stream.
  (** src/t1ha1_selfcheck.c:100-110 *)
  Definition selfcheck_t1ha1_le : M Z := check_fn (Fn Hash1le).
  Definition selfcheck_t1ha1_be : M Z := check_fn (Fn Hash1be).
  Definition selfcheck_t1ha1 : M Z := or_ selfcheck_t1ha1_le selfcheck_t1ha1_be.
  (** src/t1ha0_selfcheck.c:148-168 *)
  Definition selfcheck_t1ha0_32le : M Z := check_fn (Fn Hash0_32le).
  Definition selfcheck_t1ha0_32be : M Z := check_fn (Fn Hash0_32be).
  Definition selfcheck_t1ha0_noavx : M Z := check_fn (Fn AesNoavx).
  Definition selfcheck_t1ha0_avx : M Z := check_fn (Fn AesAvx).
  Definition selfcheck_t1ha0_avx2 : M Z := check_fn (Fn AesAvx2).

  (** src/t1ha0_selfcheck.c:172-202.  Line 189 needs t1ha_ia32cpu_features, which
      exists only on ia32. *)
  Definition selfcheck_t1ha0 : M Z :=
    rc <- or_ selfcheck_t1ha0_32le selfcheck_t1ha0_32be ;;
    rc <- (if wide (base b) && (negb (t1ha1_disabled b) || negb (t1ha2_disabled b)) then
             if t1ha1_disabled b then or_ (ret rc) selfcheck_t1ha2 else or_ (ret rc) selfcheck_t1ha1
           else ret rc) ;;
    if aesni_available b then
      if e2k b then
        rc <- or_ (ret rc) selfcheck_t1ha0_noavx ;;
        or_ (ret rc) selfcheck_t1ha0_avx
      else if ia32 (base b) then
        let features := t1ha_ia32cpu_features c in
        if t1ha_ia32_AESNI_avail features then
          rc <- or_ (ret rc) selfcheck_t1ha0_noavx ;;
          if t1ha_ia32_AVX_avail features then
            rc <- or_ (ret rc) selfcheck_t1ha0_avx ;;
            if t1ha_ia32_AVX2_avail features then or_ (ret rc) selfcheck_t1ha0_avx2 else ret rc
          else ret rc
        else ret rc
      else nobuild
    else ret rc.

  (** src/t1ha_selfcheck_all.c:47-63 *)
  Definition selfcheck_all_enabled : M Z :=
    rc <- (if t1ha2_disabled b then ret 0%Z else or_ (ret 0%Z) selfcheck_t1ha2) ;;
    rc <- (if t1ha1_disabled b then ret rc else or_ (ret rc) selfcheck_t1ha1) ;;
    if t1ha0_disabled b then ret rc else or_ (ret rc) selfcheck_t1ha0.
End Checks.
