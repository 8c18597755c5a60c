(** Concrete builds, keys and memories, used in the examples that stand beside
    the theorems, and in counterexamples. *)
From Coq Require Import ZArith NArith Arith List Bool Lia Strings.Byte.
From Coq Require Import ZifyN ZifyNat ZifyBool.
From Verif Require Import Bytes CSem Spec CSemFacts KeyMem.
Import ListNotations.
Local Open Scope N_scope.

(** ** Builds *)
(** gcc or clang, release build, Linux x86-64 *)
Definition x86_64 : config :=
  {| big_endian := false; ptr64 := true; ulong64 := true; ia32 := true; unaligned := Efficient;
     oneshot := true; asan := false; pagesize := 4096; mul := MulNative; carry := CarryBuiltin;
     int128 := true; swap_builtin := true; ndebug := true; off_total := 72; simd := SimdX64Sse41 |}.
(** the same with the address sanitizer and assertions *)
Definition x86_64_asan : config :=
  {| big_endian := false; ptr64 := true; ulong64 := true; ia32 := true; unaligned := Efficient;
     oneshot := true; asan := true; pagesize := 4096; mul := MulNative; carry := CarryBuiltin;
     int128 := true; swap_builtin := true; ndebug := false; off_total := 72; simd := SimdX64Sse41 |}.
(** Win64: unsigned long has 32 bits *)
Definition win64 : config :=
  {| big_endian := false; ptr64 := true; ulong64 := false; ia32 := true; unaligned := Efficient;
     oneshot := true; asan := false; pagesize := 4096; mul := MulNative; carry := CarryBuiltin;
     int128 := false; swap_builtin := true; ndebug := true; off_total := 72; simd := SimdX64 |}.
(** a 64-bit big-endian machine without unaligned loads, portable C only, debug build *)
Definition sparc64 : config :=
  {| big_endian := true; ptr64 := true; ulong64 := true; ia32 := false; unaligned := Unable;
     oneshot := true; asan := false; pagesize := 8192; mul := MulPortable; carry := CarryPortable;
     int128 := false; swap_builtin := false; ndebug := false; off_total := 72; simd := SimdX64 |}.
(** a 32-bit big-endian machine without unaligned loads, byte-exact tail reads *)
Definition mips32_exact : config :=
  {| big_endian := true; ptr64 := false; ulong64 := false; ia32 := false; unaligned := Unable;
     oneshot := false; asan := false; pagesize := 4096; mul := MulPortable; carry := CarryPortable;
     int128 := false; swap_builtin := false; ndebug := false; off_total := 72; simd := SimdX64 |}.
(** the same with whole-word tail reads *)
Definition mips32 : config :=
  {| big_endian := true; ptr64 := false; ulong64 := false; ia32 := false; unaligned := Unable;
     oneshot := true; asan := false; pagesize := 4096; mul := MulPortable; carry := CarryPortable;
     int128 := false; swap_builtin := false; ndebug := false; off_total := 72; simd := SimdX64 |}.
(** 32-bit x86, MSVC *)
Definition win32 : config :=
  {| big_endian := false; ptr64 := false; ulong64 := false; ia32 := true; unaligned := Efficient;
     oneshot := true; asan := false; pagesize := 4096; mul := MulPortable; carry := CarryMsvc32;
     int128 := false; swap_builtin := true; ndebug := true; off_total := 72; simd := SimdX86Sse41 |}.
(** 32-bit x86, gcc: uint64_t is 4-aligned *)
Definition linux32 : config :=
  {| big_endian := false; ptr64 := false; ulong64 := false; ia32 := true; unaligned := Efficient;
     oneshot := true; asan := false; pagesize := 4096; mul := MulPortable; carry := CarryBuiltin;
     int128 := false; swap_builtin := true; ndebug := true; off_total := 68; simd := SimdX86 |}.
(** a big-endian machine with efficient unaligned loads (POWER), whole-word tail reads *)
Definition ppc64 : config :=
  {| big_endian := true; ptr64 := true; ulong64 := true; ia32 := false; unaligned := Efficient;
     oneshot := true; asan := false; pagesize := 4096; mul := MulHigh; carry := CarryPortable;
     int128 := true; swap_builtin := true; ndebug := true; off_total := 72; simd := SimdX64 |}.
(** the same with byte-exact tail reads *)
Definition ppc64_exact : config :=
  {| big_endian := true; ptr64 := true; ulong64 := true; ia32 := false; unaligned := Efficient;
     oneshot := false; asan := false; pagesize := 4096; mul := MulHigh; carry := CarryPortable;
     int128 := true; swap_builtin := true; ndebug := true; off_total := 72; simd := SimdX64 |}.

(** ** Keys *)
(** a key of [n] bytes without a simple pattern *)
Definition key (n : nat) : list byte := map (fun i => let i := N.of_nat i in n2b (i * i * 37 + i * 11 + 5)) (seq 0 n).

Lemma mlen_key : forall n, mlen (key n) = N.of_nat n.
Proof. intro. unfold mlen, key. now rewrite map_length, seq_length. Qed.
Lemma key_length : forall n, length (key n) = n.
Proof. intro. unfold key. now rewrite map_length, seq_length. Qed.

(** ** Memories *)
(** nothing but the bytes [l] at [p] is mapped *)
Definition island (p : N) (l : list byte) : mem := write (fun _ => None) p l.

(** the bytes [l] at [p]; the rest of their pages holds [fill]; nothing else is mapped *)
Definition pages (size p : N) (l : list byte) (fill : byte) : mem :=
  fun a => if mlen l =? 0 then None
           else if (p <=? a) && (a <? p + mlen l) then nth_error l (N.to_nat (a - p))
           else if (p / size <=? a / size) && (a / size <=? (p + mlen l - 1) / size) then Some fill
           else None.

(** everything is mapped: the bytes [l] at [p] and [fill] elsewhere *)
Definition sea (p : N) (l : list byte) (fill : byte) : mem := write (fun _ => Some fill) p l.

Lemma island_bytes : forall p l, bytes_at (island p l) p l.
Proof. intros. apply write_bytes_at. Qed.

Lemma island_none : forall p l a, a < p \/ p + mlen l <= a -> island p l a = None.
Proof. intros p l a H. unfold island. now rewrite write_out by (unfold mlen in H; lia). Qed.

Lemma pages_bytes : forall size p l fill, bytes_at (pages size p l fill) p l.
Proof.
  intros size p l fill i b H. unfold pages.
  assert (L : (i < length l)%nat) by (apply nth_error_Some; congruence).
  replace (mlen l =? 0) with false by (unfold mlen; lia).
  replace ((p <=? p + N.of_nat i) && (p + N.of_nat i <? p + mlen l)) with true by (unfold mlen; lia).
  replace (N.to_nat (p + N.of_nat i - p)) with i by lia. exact H.
Qed.

Lemma pages_none : forall size p l fill a,
  (forall i, i < mlen l -> a / size <> (p + i) / size) -> size <> 0 -> pages size p l fill a = None.
Proof.
  intros size p l fill a H Z. unfold pages.
  destruct (N.eqb_spec (mlen l) 0) as [E|E]; [reflexivity|].
  destruct ((p <=? a) && (a <? p + mlen l)) eqn:I.
  { exfalso. apply (H (a - p)); [lia|]. f_equal. lia. }
  destruct ((p / size <=? a / size) && (a / size <=? (p + mlen l - 1) / size)) eqn:J; [|reflexivity].
  exfalso.
  assert (A1 : a / size <> p / size) by (rewrite <- (N.add_0_r p) at 1; apply H; lia).
  assert (A2 : a / size <> (p + mlen l - 1) / size).
  { replace (p + mlen l - 1) with (p + (mlen l - 1)) by lia. apply H. lia. }
  (* the page of a lies strictly between, so all of it is inside the key *)
  assert (B1 : p / size < a / size) by lia.
  assert (B2 : a / size < (p + mlen l - 1) / size) by lia.
  pose proof (N.div_mod a size Z) as D. pose proof (N.mod_lt a size Z) as M.
  pose proof (N.div_mod p size Z) as D1. pose proof (N.mod_lt p size Z) as M1.
  pose proof (N.div_mod (p + mlen l - 1) size Z) as D2.
  assert (C1 : p <= a) by nia.
  assert (C2 : a < p + mlen l) by nia.
  lia.
Qed.

Lemma pages_rounded : forall cfg p l fill, page_rounded cfg (pages (pagesize cfg) p l fill) p (mlen l).
Proof.
  intros cfg p l fill i a I E. unfold pages.
  replace (mlen l =? 0) with false by lia.
  destruct ((p <=? a) && (a <? p + mlen l)) eqn:R.
  - apply nth_error_Some. unfold mlen in *. lia.
  - destruct (N.eq_dec (pagesize cfg) 0) as [Z|Z].
    + rewrite Z. assert (forall x, x / 0 = 0) as Q by (now intros []). rewrite !Q. discriminate.
    + assert (p / pagesize cfg <= a / pagesize cfg) by (rewrite E; apply N.div_le_mono; lia).
      assert (a / pagesize cfg <= (p + mlen l - 1) / pagesize cfg) by (rewrite E; apply N.div_le_mono; lia).
      replace ((p / pagesize cfg <=? a / pagesize cfg)
               && (a / pagesize cfg <=? (p + mlen l - 1) / pagesize cfg)) with true by lia.
      discriminate.
Qed.

Lemma pages_key_at : forall cfg p l fill, page_ok cfg -> p + mlen l < addr_space cfg ->
  key_at cfg (pages (pagesize cfg) p l fill) p l.
Proof. intros. split; [apply pages_bytes|]. split; auto. intro. split; auto. apply pages_rounded. Qed.

Lemma island_key_at : forall cfg p l, fast_oneshot cfg = false -> p + mlen l < addr_space cfg ->
  key_at cfg (island p l) p l.
Proof. intros. split; [apply island_bytes|]. split; auto. congruence. Qed.

Lemma page_4096 : forall cfg, pagesize cfg = 4096 -> page_ok cfg.
Proof. intros cfg E. exists 12. split; [lia|exact E]. Qed.
Lemma page_8192 : forall cfg, pagesize cfg = 8192 -> page_ok cfg.
Proof. intros cfg E. exists 13. split; [lia|exact E]. Qed.

Lemma sea_key_at : forall cfg p l fill, page_ok cfg -> p + mlen l < addr_space cfg ->
  key_at cfg (sea p l fill) p l.
Proof.
  intros. split; [apply write_bytes_at|]. split; auto. intro. split; auto.
  intros i a I E. unfold sea.
  destruct (N.lt_ge_cases a p) as [L|L]; [rewrite write_out by (unfold mlen in *; lia); discriminate|].
  destruct (N.lt_ge_cases a (p + mlen l)) as [G|G]; [|rewrite write_out by (unfold mlen in *; lia); discriminate].
  unfold write. replace ((p <=? a) && (a <? p + N.of_nat (length l))) with true by (unfold mlen in *; lia).
  apply nth_error_Some. unfold mlen in *. lia.
Qed.
