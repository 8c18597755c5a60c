(** The one-shot hash functions under one name each, so that a property
    can be stated for all of them at once. *)
From Coq Require Import NArith List Bool Strings.Byte.
From Verif Require Import Bytes CSem Bits T1ha2 T1ha1 T1ha0 Aes Ia32aes Spec AesSpec CSemFacts KeyMem.
Import ListNotations.
Local Open Scope N_scope.

(** The functions declared in t1ha.h:496, 544, 547, 588, 590 and 620-623 *)
Inductive hash_fn : Type :=
  Atonce | Hash1le | Hash1be | Hash0_32le | Hash0_32be | AesNoavx | AesAvx | AesAvx2.

(** the C function: src/t1ha2.c:202, src/t1ha1.c:129, 145, src/t1ha0.c:326, 342,
    src/t1ha0_ia32aes_a.h:49, src/t1ha0_ia32aes_b.h:49 *)
Definition call (f : hash_fn) (cfg : config) (data len seed : N) : M N :=
  match f with
  | Atonce => t1ha2_atonce cfg data len seed
  | Hash1le => t1ha1_le cfg data len seed
  | Hash1be => t1ha1_be cfg data len seed
  | Hash0_32le => t1ha0_32le cfg data len seed
  | Hash0_32be => t1ha0_32be cfg data len seed
  | AesNoavx => t1ha0_ia32aes_noavx cfg data len seed
  | AesAvx => t1ha0_ia32aes_avx cfg data len seed
  | AesAvx2 => t1ha0_ia32aes_avx2 cfg data len seed
  end.

(** its specification *)
Definition value (f : hash_fn) (msg : list byte) (seed : N) : N :=
  match f with
  | Atonce => t1ha2_64 msg seed
  | Hash1le => t1ha1_64 le_num msg seed
  | Hash1be => t1ha1_64 be_num msg seed
  | Hash0_32le => t1ha0_32 le_num msg seed
  | Hash0_32be => t1ha0_32 be_num msg seed
  | AesNoavx | AesAvx => t1ha0_aes_a msg seed
  | AesAvx2 => t1ha0_aes_b msg seed
  end.

(** the builds in which it compiles and does not need the exception of C06 *)
Definition usable (f : hash_fn) (cfg : config) : Prop :=
  match f with
  | Atonce | Hash1le => whole_words_ok cfg
  | Hash1be => whole_words_ok cfg /\ be_tail_builds cfg
  | Hash0_32le | Hash0_32be | AesNoavx | AesAvx | AesAvx2 => True
  end.

(** where an [n]-byte key may lie, besides fitting into the address space: the
    AES functions compute data + len - 127 resp. v + 7 (112 bytes further), which
    must not wrap around, and where unsigned long is narrower than size_t the
    AVX2 function takes only the low 32 bits of the length (see C34, C35) *)
Definition room (f : hash_fn) (cfg : config) (p n : N) : Prop :=
  match f with
  | AesNoavx | AesAvx => 32 < n -> 127 <= p + n
  | AesAvx2 => (ulong64 cfg = true \/ n < 2 ^ 32) /\ (32 < n -> p + n + 112 < addr_space cfg)
  | _ => True
  end.
