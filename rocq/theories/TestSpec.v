(** What the test program is expected to do: tests/main.c:52-101 (usage) read as
    a specification. *)
From Coq Require Import ZArith NArith List Bool Strings.Byte Strings.String.
From Verif Require Import Bytes CSem OneShot Dispatch Selfcheck TestMain.
Import ListNotations.
Local Open Scope N_scope.

(** The sizes one can ask for, tests/main.c:64-69, and the number of bytes that
    stands for each in tests/main.c:537-546 (the usage text says 5 and 31 for the
    first two). *)
Definition size_options : list (string * N) :=
  [("tiny", 7); ("small", 63); ("medium", 1024); ("large", 16384); ("huge", 262144)]%string.
(** options that ask for a size *)
Definition asks_size (a : string) : bool :=
  existsb (String.eqb a) ["--tiny"; "--small"; "--medium"; "--large"; "--huge"; "--all-sizes"; "--bench-all"]%string.
(** options that start over *)
Definition restarts (a : string) : bool :=
  existsb (String.eqb a) ["--test-quiet"; "--hash-stdin-strings"; "--test-only"; "--no-bench"]%string.
(** options that bring back what was excluded *)
Definition brings_back (a : string) : bool := existsb (String.eqb a) ["--bench-all"; "--all-funcs"]%string.

(** The names by which a function can be excluded, tests/main.c:74-100. *)
Definition names (f : callee) : list string :=
  match f with
  | Lib (Fn Atonce) | Lib Thunk128 | Lib ThunkStream | Lib ThunkStream128 => ["2"; "64"]
  | Lib (Fn Hash1le) => ["1"; "64"; "le"]
  | Lib (Fn Hash1be) => ["1"; "64"; "be"]
  | Lib (Fn Hash0_32le) => ["0"; "32"; "le"]
  | Lib (Fn Hash0_32be) => ["0"; "32"; "be"]
  | Lib (Fn _) | Variant _ => ["aes"]
  | T1ha0 => ["0"]
  | Other StadtX => ["stadtx"]
  | Other Wyhash => ["wyhash"]
  | Other (Xxh32 | Xxh64 | Xxh3_64 | Xxh3_128) => ["xxhash"]
  | Other _ => ["highway"; "highwayhash"]
  end%string.

(** The lines of a text. *)
Inductive lines : list byte -> list (list byte) -> Prop :=
| lines_none : lines [] []
| lines_last : forall l, l <> [] -> ~ In newline l -> lines l [l]
| lines_more : forall l s ls, ~ In newline l -> lines s ls -> lines (l ++ newline :: s) ((l ++ [newline]) :: ls).

(** What the processor and the system must offer for a function. *)
Definition has_sse41 (c : cpu) : bool := (1 <=? cpuid_max c) && N.testbit (leaf1_ecx c) 19.
Definition can_run (b : build) (c : cpu) (f : callee) : bool :=
  e2k b ||
  match f with
  | Lib (Fn f) => executes c f
  | Lib _ => true
  | T1ha0 => match t1ha0_target b c with Some f => executes c f | None => true end
  | Variant (Noavx_a | Noavx_b) => has_aes c
  | Variant (Avx_a | Avx_b) => has_aes c && has_avx c && avx_enabled c
  | Variant (Avx2_a | Avx2_b) => has_aes c && has_avx c && has_avx2 c && avx_enabled c
  | Other HighwaySse41 => has_sse41 c
  | Other HighwayAvx2 => has_avx c && has_avx2 c && avx_enabled c
  | Other _ => true
  end.
(** the functions a run calls *)
Definition calls (l : list event) : list callee :=
  flat_map (fun e => match e with Verify f _ => [f] | Hashes f _ => [f] | Bench _ fs => fs | _ => [] end) l.
