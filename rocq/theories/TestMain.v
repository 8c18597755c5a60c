(** The test program: tests/main.c, tests/test.c, the choices of tests/bench.c
    and the flags of tests/common.h.

    Not modelled: what is printed, except the hash values of
    --hash-stdin-strings; errors of malloc, printf and of reading; the clocks
    (tests/mera.c); the optimiser check of lines 533-536. *)
From Coq Require Import ZArith NArith List Bool Strings.Byte Strings.String.
From Verif Require Import Bytes CSem Bits OneShot Dispatch Selfcheck.
Import ListNotations.
Local Open Scope N_scope.

(** ** tests/test.c *)
(** tests/test.c:59-74: as src/t1ha_selfcheck.c:55-61, without the assert *)
Definition test_probe (hash : hash_code) (check data len seed : N) : M bool :=
  value <- hash data len seed ;;
  ret (negb (check =? value)).

(** [failed |= probe(hash, caption, *reference_values++, data, len, seed)] *)
Definition test_check (cfg : config) (hash : hash_code) (data len seed : N) (s : bool * N) : M (bool * N) :=
  let '(failed, refs) := s in
  reference <- read_aligned cfg 8 refs ;;
  x <- test_probe hash reference data len seed ;;
  ret (failed || x, padd cfg refs 8).

(** tests/test.c:76-117; the captions are left out (the longest, "bin63-1p63",
    fits into caption[32]) *)
Definition verify (cfg : config) (pattern pattern_long : N) (hash : hash_code) (refs : N) : M bool :=
  let zero := 0 in
  s <- test_check cfg hash 0 0 zero (false, refs) ;;
  s <- test_check cfg hash 0 0 (not64 zero) s ;;
  s <- test_check cfg hash pattern 64 zero s ;;
  x <- for_ 1 63 (fun i x =>
         s <- test_check cfg hash pattern i (snd x) (fst x) ;;
         ret (s, shl64 (snd x) 1)) (s, 1) ;;
  x <- for_ 1 7 (fun i x =>
         let seed := shl64 (snd x) 1 in
         s <- test_check cfg hash (padd cfg pattern i) (64 - i) seed (fst x) ;;
         ret (s, seed)) (fst x, not64 zero) ;;
  let seed := snd x in
  for_ 0 512 (fun i (_ : unit) => store_bytes (padd cfg pattern_long i) [n2b i]) tt ;;;
  s <- for_ 0 8 (fun i s => test_check cfg hash (padd cfg pattern_long i) (128 + i * 17) seed s) (fst x) ;;
  ret (fst s).

(** ** Flags, tests/common.h:44-90 *)
Definition bit (k : N) : N := N.shiftl 1 k.
Definition test_verbose := bit 0.
Definition test_quiet := bit 1.
Definition hash_stdin_strings := bit 2.
Definition bench_verbose := bit 3.
Definition bench_xxhash := bit 4.
Definition bench_highwayhash := bit 5.
Definition bench_stadtx := bit 6.
Definition bench_wyhash := bit 7.
Definition bench_0 := bit 8.
Definition bench_1 := bit 9.
Definition bench_2 := bit 10.
Definition bench_tiny := bit 16.
Definition bench_small := bit 17.
Definition bench_medium := bit 18.
Definition bench_large := bit 19.
Definition bench_huge := bit 20.
Definition bench_32 := bit 24.
Definition bench_64 := bit 25.
Definition bench_le := bit 26.
Definition bench_be := bit 27.
Definition bench_aes := bit 28.
Definition bench_avx := bit 29.
Definition bench_avx2 := bit 30.
Definition user_wanna_aes := bit 31.
Definition any_of (l : list N) : N := fold_right N.lor 0 l.
(** tests/common.h:69-70 *)
Definition bench_size_flags : N := any_of [bench_tiny; bench_small; bench_medium; bench_large; bench_huge].
(** tests/common.h:85-89 *)
Definition bench_funcs_flags : N :=
  any_of [bench_0; bench_1; bench_2; bit 11; bit 12; bit 13; bit 14; bit 15; bench_32; bench_64; bench_le; bench_be;
          bit 28; bit 29; bit 30; bit 31; bench_xxhash; bench_highwayhash; bench_stadtx; bench_wyhash].

(** option_flags and disabled_option_flags, tests/main.c:49 *)
Record flags : Type := { opt : N; dis : N }.
(** tests/common.h:94-96 *)
Definition is_option_set (f : flags) (mask : N) : bool := negb (N.land (opt f) mask =? 0).
(** tests/common.h:98-100 *)
Definition is_selected (f : flags) (mask : N) : bool := is_option_set f mask && (N.land (dis f) mask =? 0).

Definition set_ (f : flags) (mask : N) : flags := {| opt := N.lor (opt f) mask; dis := dis f |}.
Definition disable (f : flags) (mask : N) : flags := {| opt := opt f; dis := N.lor (dis f) mask |}.
Definition clear (f : flags) (mask : N) : flags := {| opt := N.land (opt f) (not32 mask); dis := dis f |}.

(** tests/main.c:28-30 *)
Definition default_option_flags : N :=
  any_of [bench_0; bench_1; bench_2; bench_xxhash; bench_highwayhash; bench_stadtx; bench_wyhash; bench_tiny; bench_large].
(** tests/main.c:32-39 *)
Definition available_eas_flags (b : build) : N :=
  if aesni_available b then
    N.lor (any_of [bench_aes; bench_avx; user_wanna_aes]) (if e2k b then 0 else bench_avx2)
  else 0.
(** tests/main.c:41-47 *)
Definition default_disabled_option_flags (b : build) : N :=
  N.lor (if big_endian (base b) then bench_le else bench_be) (if wide (base b) then bench_32 else 0).

(** ** Arguments *)
Local Open Scope string_scope.
(** tests/main.c:103-113 *)
Definition option_ (arg name : string) (flag : N) (f : flags) : option flags :=
  if String.eqb arg ("--" ++ name) then Some (set_ f flag)
  else if String.eqb arg ("--no-" ++ name) then Some (disable f flag)
  else None.
(** tests/main.c:229-271: the names given to option(), in this order *)
Definition option_names (b : build) : list (string * N) :=
  ([("xxhash", bench_xxhash); ("stadtx", bench_stadtx); ("wyhash", bench_wyhash);
    ("highwayhash", bench_highwayhash); ("highway", bench_highwayhash)] ++
   (if t1ha0_disabled b then [] else [("0", bench_0)]) ++
   (if t1ha1_disabled b then [] else [("1", bench_1)]) ++
   (if t1ha2_disabled b then [] else [("2", bench_2)]) ++
   [("le", bench_le); ("be", bench_be); ("32", bench_32); ("64", bench_64);
    ("tiny", bench_tiny); ("small", bench_small); ("medium", bench_medium); ("large", bench_large); ("huge", bench_huge)])%list.
Fixpoint try_options (arg : string) (l : list (string * N)) (f : flags) : option flags :=
  match l with
  | [] => None
  | (name, flag) :: l => match option_ arg name flag f with Some f' => Some f' | None => try_options arg l f end
  end.

(** go on with these flags, or return from main *)
Inductive parsed : Type := Go (f : flags) | Return_ (status : Z).
(** EXIT_SUCCESS, EXIT_FAILURE *)
Definition exit_success : Z := 0.
Definition exit_failure : Z := 1.
Definition is (arg name : string) : bool := String.eqb name arg.

(** One turn of the loop, tests/main.c:155-280.  [ghz]: whether strtod makes an
    acceptable number of the text after "--GHz=" (lines 184-192). *)
Definition argument (b : build) (ghz : string -> bool) (arg : string) (f : flags) : parsed :=
  if is arg "--test-quiet" then Go {| opt := test_quiet; dis := dis f |}
  else if is arg "--hash-stdin-strings" then
    Go {| opt := any_of [N.land (opt f) bench_funcs_flags; test_quiet; hash_stdin_strings]; dis := dis f |}
  else if is arg "--test-only" || is arg "--no-bench" then Go {| opt := N.land (opt f) test_verbose; dis := dis f |}
  else if is arg "--test-verbose" then Go (set_ f test_verbose)
  else if is arg "--bench-verbose" then Go (set_ f bench_verbose)
  else if is arg "--verbose" || is arg "-v" then Go (set_ f (N.lor bench_verbose test_verbose))
  else if prefix "--GHz=" arg then
    if ghz (substring 6 (String.length arg - 6) arg) then Go f else Return_ exit_failure
  else if is arg "--bench-all" then
    Go {| opt := N.lor (opt f) (not32 (N.lor test_verbose bench_verbose)); dis := 0%N |}
  else if is arg "--all-funcs" then
    Go {| opt := N.lor (opt f) bench_funcs_flags; dis := N.land (dis f) (not32 bench_funcs_flags) |}
  else if is arg "--all-sizes" then
    Go {| opt := N.lor (opt f) bench_size_flags; dis := N.land (dis f) (not32 bench_size_flags) |}
  else if is arg "--aes" then
    if N.eqb (available_eas_flags b) 0 then Return_ exit_failure else Go (set_ f (available_eas_flags b))
  else if is arg "--no-aes" then
    if N.eqb (available_eas_flags b) 0 then Go f else Go (disable f (available_eas_flags b))
  else match try_options arg (option_names b) f with
       | Some f' => Go f'
       | None => if is arg "--help" || is arg "-h" then Return_ exit_success else Return_ exit_failure
       end.
(** tests/main.c:154-281 *)
Fixpoint arguments (b : build) (ghz : string -> bool) (args : list string) (f : flags) : parsed :=
  match args with
  | [] => Go f
  | a :: args => match argument b ghz a f with Go f' => arguments b ghz args f' | r => r end
  end.
(** tests/main.c:282-287 *)
Definition with_defaults (f : flags) : flags :=
  let f := if N.eqb (N.land (opt f) bench_funcs_flags) 0
           then set_ f (if is_option_set f hash_stdin_strings then bench_2 else N.land default_option_flags bench_funcs_flags)
           else f in
  if N.eqb (N.land (opt f) bench_size_flags) 0 then set_ f (N.land default_option_flags bench_size_flags) else f.
(** tests/main.c:153-291; [args] is argv without argv[0] *)
Definition parse (b : build) (ghz : string -> bool) (args : list string) : parsed :=
  match args with
  | [] => Go {| opt := default_option_flags; dis := default_disabled_option_flags b |}
  | _ => match arguments b ghz args {| opt := 0; dis := 0 |} with Go f => Go (with_defaults f) | r => r end
  end.
Local Close Scope string_scope.

(** ** Functions that are called *)
(** the other hashes, tests/common.h:133-188 *)
Inductive other_hash : Type :=
  HighwayPureC | HighwayPortable | HighwaySse41 | HighwayAvx2 | Xxh32 | Xxh64 | Xxh3_64 | Xxh3_128 | StadtX | Wyhash.
(** the variants built for the benchmark only, tests/4bench_t1ha0_ia32aes_*.c *)
Inductive bench_variant : Type := Noavx_a | Noavx_b | Avx_a | Avx_b | Avx2_a | Avx2_b.
(** [T1ha0]: t1ha0(), whatever it is bound to *)
Inductive callee : Type := Lib (f : probe_fn) | T1ha0 | Variant (v : bench_variant) | Other (h : other_hash).

(** ia32_cpu_features.basic.ecx and .extended_7.ebx after
    ia32_fetch_cpu_features(), tests/mera.c:1000-1010 and 1026-1041 *)
Definition basic_ecx (c : cpu) : N := if 1 <=? cpuid_max c then u32 (leaf1_ecx c) else 0.
Definition extended_7_ebx (c : cpu) : N := if (1 <=? cpuid_max c) && (7 <=? cpuid_max c) then u32 (leaf7_ebx c) else 0.

(** tests/main.c:332 is compiled *)
Definition fetched (b : build) : bool := negb (t1ha0_disabled b) && aesni_available b && negb (e2k b).
(** the two words at lines 357-366; zero (a static variable) if not fetched *)
Definition seen_ecx (b : build) (c : cpu) : N := if fetched b then basic_ecx c else 0.
Definition seen_ebx (b : build) (c : cpu) : N := if fetched b then extended_7_ebx c else 0.

Definition has_bits (x mask : N) : bool := N.land x mask =? mask.
Definition some_bit (x mask : N) : bool := negb (N.land x mask =? 0).

(** tests/main.c:309-355: what is given to verify() *)
Definition verified_lib (b : build) (c : cpu) : list probe_fn :=
  (if t1ha2_disabled b then [] else [Fn Atonce; Thunk128; ThunkStream; ThunkStream128]) ++
  (if t1ha1_disabled b then [] else [Fn Hash1le; Fn Hash1be]) ++
  (if t1ha0_disabled b then [] else
     [Fn Hash0_32le; Fn Hash0_32be] ++
     if aesni_available b then
       if e2k b then [Fn AesNoavx; Fn AesAvx]
       else if some_bit (basic_ecx c) 0x02000000 then
         [Fn AesNoavx] ++
         if has_bits (basic_ecx c) 0x1A000000 then
           [Fn AesAvx] ++ if some_bit (extended_7_ebx c) 32 then [Fn AesAvx2] else []
         else []
       else []
     else []).
(** tests/main.c:345-353: flags cleared according to the processor *)
Definition cpu_flags (b : build) (c : cpu) (f : flags) : flags :=
  if fetched b then
    let f := if some_bit (basic_ecx c) 0x02000000 then f else clear f bench_aes in
    let f := if has_bits (basic_ecx c) 0x1A000000 then f else clear f bench_avx in
    if some_bit (extended_7_ebx c) 32 then f else clear f bench_avx2
  else f.
(** tests/main.c:357-376; with each, whether the result goes into [failed] *)
Definition verified_other (b : build) (c : cpu) : list (other_hash * bool) :=
  [(HighwayPureC, true); (HighwayPortable, true)] ++
  (if ia32 (base b) then
     (if some_bit (seen_ecx b c) (bit 19) then [(HighwaySse41, false)] else []) ++
     (if some_bit (seen_ebx b c) 32 then [(HighwayAvx2, false)] else [])
   else []) ++
  (if e2k b then [(HighwaySse41, false)] else []) ++
  [(StadtX, true); (Wyhash, true)].

(** tests/main.c:388-436 *)
Definition choose (b : build) (f : flags) : option callee :=
  let sel l := is_selected f (any_of l) in
  if sel [bench_highwayhash] then Some (Other HighwayPureC)
  else if sel [bench_64; bench_xxhash] then Some (Other Xxh64)
  else if sel [bench_32; bench_xxhash] then Some (Other Xxh32)
  else if sel [bench_64; bench_stadtx] then Some (Other StadtX)
  else if sel [bench_64; bench_wyhash] then Some (Other Wyhash)
  else if negb (t1ha2_disabled b) && sel [bench_64; bench_2] then Some (Lib (Fn Atonce))
  else if negb (t1ha1_disabled b) && sel [bench_64; bench_le; bench_1] then Some (Lib (Fn Hash1le))
  else if negb (t1ha1_disabled b) && sel [bench_64; bench_be; bench_1] then Some (Lib (Fn Hash1be))
  else if negb (t1ha0_disabled b) && sel [bench_32; bench_le; bench_0] then Some (Lib (Fn Hash0_32le))
  else if negb (t1ha0_disabled b) && sel [bench_32; bench_be; bench_0] then Some (Lib (Fn Hash0_32be))
  else if negb (t1ha0_disabled b) && sel [bench_0] then Some T1ha0
  else if sel [bench_xxhash] then Some (Other Xxh3_64)
  else None.

(** tests/bench.c:75-158: the functions called for each size of keys.  The
    features have been fetched by then on ia32 (tests/mera.c:1390-1391). *)
Definition benched (b : build) (c : cpu) (f : flags) : list callee :=
  let when (x : bool) (l : list callee) := if x then l else [] in
  let sel l := is_selected f (any_of l) in
  when (negb (t1ha2_disabled b))
    (when (sel [bench_64; bench_2]) [Lib (Fn Atonce); Lib Thunk128; Lib ThunkStream; Lib ThunkStream128]) ++
  when (negb (t1ha1_disabled b))
    (when (sel [bench_64; bench_le; bench_1]) [Lib (Fn Hash1le)] ++
     when (sel [bench_64; bench_be; bench_1]) [Lib (Fn Hash1be)]) ++
  when (negb (t1ha0_disabled b))
    (when (sel [bench_0]) [T1ha0] ++
     when (sel [bench_32; bench_le; bench_0]) [Lib (Fn Hash0_32le)] ++
     when (sel [bench_32; bench_be; bench_0]) [Lib (Fn Hash0_32be)] ++
     when (aesni_available b)
       (when (sel [bench_aes])
         ([Variant Noavx_a; Variant Noavx_b; Lib (Fn AesNoavx)] ++
          when (sel [bench_avx]) [Variant Avx_a; Variant Avx_b; Lib (Fn AesAvx)] ++
          when (negb (e2k b)) (when (sel [bench_avx2]) [Variant Avx2_a; Variant Avx2_b; Lib (Fn AesAvx2)])))) ++
  when (sel [bench_xxhash]) [Other Xxh32; Other Xxh64; Other Xxh3_64; Other Xxh3_128] ++
  when (sel [bench_stadtx]) [Other StadtX] ++
  when (sel [bench_highwayhash])
    ([Other HighwayPureC; Other HighwayPortable] ++
     when (ia32 (base b))
       (when (some_bit (basic_ecx c) (bit 19)) [Other HighwaySse41] ++
        when (some_bit (extended_7_ebx c) 32) [Other HighwayAvx2]) ++
     when (e2k b) [Other HighwaySse41]) ++
  when (sel [bench_wyhash]) [Other Wyhash].
(** tests/main.c:537-546: the sizes *)
Definition bench_sizes (f : flags) : list N :=
  map snd (filter (fun x => is_option_set f (fst x))
    [(bench_tiny, 7); (bench_small, 63); (bench_medium, 1024); (bench_large, 1024 * 16); (bench_huge, 1024 * 256)]).

(** ** Standard input *)
Definition newline : byte := x0a.
(** getline(): the next line with its newline, what is left, and whether the
    end of the file was met *)
Fixpoint take_line (s : list byte) : list byte * list byte * bool :=
  match s with
  | [] => ([], [], true)
  | c :: s => if Byte.eqb c newline then ([c], s, false)
              else let '(l, r, eof) := take_line s in (c :: l, r, eof)
  end.
Definition getline (s : list byte) : option (list byte) * list byte * bool :=
  match s with
  | [] => (None, [], true)
  | _ => let '(l, r, eof) := take_line s in (Some l, r, eof)
  end.
(** fgets(buffer, size, stdin): at most size - 1 bytes *)
Fixpoint take_max (k : nat) (s : list byte) : list byte * list byte * bool :=
  match k with
  | O => ([], s, false)
  | S k => match s with
           | [] => ([], [], true)
           | c :: s => if Byte.eqb c newline then ([c], s, false)
                       else let '(l, r, eof) := take_max k s in (c :: l, r, eof)
           end
  end.
Definition fgets (size : nat) (s : list byte) : option (list byte) * list byte * bool :=
  match s with
  | [] => (None, [], true)
  | _ => let '(l, r, eof) := take_max (size - 1) s in (Some l, r, eof)
  end.
(** the bytes before the first NUL: what strlen() sees *)
Fixpoint c_string (l : list byte) : list byte :=
  match l with
  | [] => []
  | c :: l => if Byte.eqb c x00 then [] else c :: c_string l
  end.
(** How a line is read, tests/main.c:456-476: [None] with getline, [Some size]
    with fgets into a buffer of this size. *)
Definition read_chunk (how : option nat) (s : list byte) : option (list byte) * list byte * bool :=
  match how with
  | None => getline s
  | Some size => let '(l, r, eof) := fgets size s in (option_map c_string l, r, eof)
  end.
(** tests/main.c:455-483: what is given to the hash function, in order.  [turns]
    bounds the number of turns; [None]: not finished. *)
Fixpoint chunks (how : option nat) (turns : nat) (eof : bool) (s : list byte) : option (list (list byte)) :=
  if eof then Some []
  else match turns with
       | O => None
       | S turns =>
           match read_chunk how s with
           | (None, _, true) => Some []
           | (None, _, false) => None
           | (Some l, r, eof) => option_map (cons l) (chunks how turns eof r)
           end
       end.
(** The loop makes at most one turn per byte and one more. *)
Definition stdin_chunks (how : option nat) (s : list byte) : option (list (list byte)) :=
  chunks how (S (List.length s)) false s.

(** ** main *)
(** What the program meets: results of the checks it makes, a clock or none, the
    standard input, and the functions themselves (at seed 42, line 480). *)
Record world : Type := {
  w_ghz : string -> bool;
  w_selfcheck : Z;                 (* t1ha_selfcheck__all_enabled() *)
  w_failed : callee -> bool;       (* verify() and HighwayHash64_verify() of this function *)
  w_wyhash_selftest : bool;
  w_clock : bool;                  (* mera_init() *)
  w_stdin : list byte;
  w_how : option nat;
  w_hash : callee -> list byte -> N
}.
(** What the program does. *)
Inductive event : Type :=
| Selfcheck (result : Z)
| Verify (f : callee) (failed : bool)
| WyhashSelftest (failed : bool)
| VerificationFailed
| Hashes (f : callee) (values : list N)
| Bench (size : N) (fs : list callee).

(** tests/main.c:152-550; [None]: does not end *)
Definition main (b : build) (c : cpu) (w : world) (args : list string) : option (list event * Z) :=
  match parse b (w_ghz w) args with
  | Return_ status => Some ([], status)
  | Go f =>
      if negb (w_selfcheck w =? 0)%Z then Some ([Selfcheck (w_selfcheck w)], exit_failure)
      else
        let f := cpu_flags b c f in
        let lib := map (fun g => (Lib g, w_failed w (Lib g))) (verified_lib b c) in
        let other := map (fun x => (Other (fst x), snd x, w_failed w (Other (fst x)))) (verified_other b c) in
        let failed := existsb snd lib || existsb (fun x => snd (fst x) && snd x) other in
        let tests := Selfcheck 0 :: map (fun x => Verify (fst x) (snd x)) lib ++
          map (fun x => Verify (fst (fst x)) (snd x)) (removelast other) ++
          WyhashSelftest (w_wyhash_selftest w) ::
          map (fun x => Verify (fst (fst x)) (snd x)) (skipn (List.length other - 1) other) ++
          (if failed then [VerificationFailed] else []) in
        if is_option_set f hash_stdin_strings then
          match choose b f with
          | None => Some (tests, exit_failure)
          | Some h =>
              match stdin_chunks (w_how w) (w_stdin w) with
              | None => None
              | Some l => Some (tests ++ [Hashes h (map (w_hash w h) l)], exit_success)
              end
          end
        else if w_clock w then Some (tests ++ map (fun n => Bench n (benched b c f)) (bench_sizes f), exit_success)
        else Some (tests, exit_success)
  end.
