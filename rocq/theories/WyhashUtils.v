(** Model of the utility functions of tests/wyhash/wyhash.h, which the test
    program does not call.  Definitions only.  The pointers [seed] of wyrand() and
    [secret] of make_secret() are values that go in and come out; no function here
    reads memory. *)
From Coq Require Import NArith ZArith QArith List Bool.
From Verif Require Import CSem Wyhash.
Import ListNotations.
Local Open Scope N_scope.

(** tests/wyhash/wyhash.h:182-184, one element of the array *)
Definition wyp (i : nat) : N := nth i _wyp 0.

(** tests/wyhash/wyhash.h:185-190 *)
Definition wyhash64 (native : bool) (A B : N) : N :=
  let A := N.lxor A (wyp 0) in
  let B := N.lxor B (wyp 1) in
  let '(A, B) := _wymum native A B in
  _wymix native (N.lxor A (wyp 0)) (N.lxor B (wyp 1)).

(** tests/wyhash/wyhash.h:191-194: the result, and [*seed] afterwards *)
Definition wyrand (native : bool) (seed : N) : N * N :=
  let seed := add64 seed (wyp 0) in
  (_wymix native seed (N.lxor seed (wyp 1)), seed).

(** tests/wyhash/wyhash.h:195-198.  A double is a rational number: [r >> 12] has 52
    bits and the factor is a power of two, so that nothing is rounded. *)
Definition wy2u01 (r : N) : Q := (inject_Z (Z.of_N (shr64 r 12)) * (1 # 2 ^ 52))%Q.

(** tests/wyhash/wyhash.h:199-204.  The sum has 23 bits; nothing is rounded. *)
Definition wy2gau (r : N) : Q :=
  let n := add64 (add64 (N.land r 0x1fffff) (N.land (shr64 r 21) 0x1fffff)) (N.land (shr64 r 42) 0x1fffff) in
  (inject_Z (Z.of_N n) * (1 # 2 ^ 20) - 3)%Q.

(** tests/wyhash/wyhash.h:206-215 *)
Definition portable_popcount (x : N) : N :=
  let x := sub64 x (N.land (shr64 x 1) 0x5555555555555555) in
  let x := add64 (N.land x 0x3333333333333333) (N.land (shr64 x 2) 0x3333333333333333) in
  let x := N.land (add64 x (shr64 x 4)) 0x0f0f0f0f0f0f0f0f in
  let x := add64 x (shr64 x 8) in
  let x := add64 x (shr64 x 16) in
  let x := add64 x (shr64 x 32) in
  u32 (N.land x 0x7f).

(** tests/wyhash/wyhash.h:218-223: the array [c] *)
Definition wysecret_bytes : list N :=
  [15; 23; 27; 29; 30; 39; 43; 45; 46; 51; 53; 54;
   57; 58; 60; 71; 75; 77; 78; 83; 85; 86; 89; 90;
   92; 99; 101; 102; 105; 106; 108; 113; 114; 116; 120; 135;
   139; 141; 142; 147; 149; 150; 153; 154; 156; 163; 165; 166;
   169; 170; 172; 177; 178; 180; 184; 195; 197; 198; 201; 202;
   204; 209; 210; 212; 216; 225; 226; 228; 232; 240].

(** tests/wyhash/wyhash.h:228-230: the loop over j from [8 * (8 - n)] on.  The
    word, and the seed afterwards.  [sizeof(c)] is the length of the array. *)
Fixpoint make_word (native : bool) (n : nat) (j word seed : N) : N * N :=
  match n with
  | O => (word, seed)
  | S n =>
      let '(r, seed) := wyrand native seed in
      make_word native n (j + 8)
        (N.lor word (shl64 (nth (N.to_nat (r mod N.of_nat (length wysecret_bytes))) wysecret_bytes 0) j)) seed
  end.

(** tests/wyhash/wyhash.h:235-239: whether [ok] remains set; [earlier] is
    [secret[0]] to [secret[i - 1]] *)
Definition distances_ok (earlier : list N) (word : N) : bool :=
  forallb (fun s => portable_popcount (N.lxor s word) =? 32) earlier.

(** tests/wyhash/wyhash.h:242-246: whether [ok] remains set.  None: no fuel. *)
Fixpoint trial (fuel : nat) (j word : N) : option bool :=
  if j <? 0x100000000 then
    match fuel with
    | O => None
    | S fuel => if word mod j =? 0 then Some false else trial fuel (add64 j 2) word
    end
  else Some true.

(** tests/wyhash/wyhash.h:231-246: [ok] at the end of the body of the do loop
    ([continue] goes to the condition of that loop) *)
Definition word_ok (tfuel : nat) (earlier : list N) (word : N) : option bool :=
  if word mod 2 =? 0 then Some false
  else if negb (distances_ok earlier word) then Some false
  else trial tfuel 3 word.

(** tests/wyhash/wyhash.h:226-247: the do loop.  None: no fuel. *)
Fixpoint make_element (native : bool) (fuel tfuel : nat) (earlier : list N) (seed : N) : option (N * N) :=
  match fuel with
  | O => None
  | S fuel =>
      let '(word, seed) := make_word native 8 0 0 seed in
      match word_ok tfuel earlier word with
      | None => None
      | Some true => Some (word, seed)
      | Some false => make_element native fuel tfuel earlier seed
      end
  end.

(** tests/wyhash/wyhash.h:224-248: [n] more rounds of the loop over i *)
Fixpoint make_elements (native : bool) (fuel tfuel : nat) (n : nat) (earlier : list N) (seed : N) : option (list N) :=
  match n with
  | O => Some earlier
  | S n =>
      match make_element native fuel tfuel earlier seed with
      | None => None
      | Some (word, seed) => make_elements native fuel tfuel n (earlier ++ [word]) seed
      end
  end.
(** tests/wyhash/wyhash.h:217-249: the array [secret] afterwards.  None: not done
    within [fuel] rounds of one do loop, or [tfuel] of one trial division. *)
Definition make_secret (native : bool) (fuel tfuel : nat) (seed : N) : option (list N) :=
  make_elements native fuel tfuel 5 [] seed.
