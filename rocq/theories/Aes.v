(** The SSE2 / AES-NI intrinsics used by src/t1ha0_ia32aes_a.h and
    src/t1ha0_ia32aes_b.h.  The intrinsics are not part of /repo; their meaning
    follows the Intel SDM, with the S-box tables of FIPS-197.  A [__m128i] is a
    128-bit number; byte [i] of the register is bits 8i..8i+7.
    Definitions only. *)
From Coq Require Import NArith List Bool Strings.Byte.
From Verif Require Import Bytes CSem.
Import ListNotations.
Local Open Scope N_scope.

(** FIPS-197 figure 7 (used by _mm_aesenc_si128, src/t1ha0_ia32aes_a.h:55). *)
Definition sbox_table : list N :=
  [ 99; 124; 119; 123; 242; 107; 111; 197; 48; 1; 103; 43; 254; 215; 171; 118;
    202; 130; 201; 125; 250; 89; 71; 240; 173; 212; 162; 175; 156; 164; 114; 192;
    183; 253; 147; 38; 54; 63; 247; 204; 52; 165; 229; 241; 113; 216; 49; 21;
    4; 199; 35; 195; 24; 150; 5; 154; 7; 18; 128; 226; 235; 39; 178; 117;
    9; 131; 44; 26; 27; 110; 90; 160; 82; 59; 214; 179; 41; 227; 47; 132;
    83; 209; 0; 237; 32; 252; 177; 91; 106; 203; 190; 57; 74; 76; 88; 207;
    208; 239; 170; 251; 67; 77; 51; 133; 69; 249; 2; 127; 80; 60; 159; 168;
    81; 163; 64; 143; 146; 157; 56; 245; 188; 182; 218; 33; 16; 255; 243; 210;
    205; 12; 19; 236; 95; 151; 68; 23; 196; 167; 126; 61; 100; 93; 25; 115;
    96; 129; 79; 220; 34; 42; 144; 136; 70; 238; 184; 20; 222; 94; 11; 219;
    224; 50; 58; 10; 73; 6; 36; 92; 194; 211; 172; 98; 145; 149; 228; 121;
    231; 200; 55; 109; 141; 213; 78; 169; 108; 86; 244; 234; 101; 122; 174; 8;
    186; 120; 37; 46; 28; 166; 180; 198; 232; 221; 116; 31; 75; 189; 139; 138;
    112; 62; 181; 102; 72; 3; 246; 14; 97; 53; 87; 185; 134; 193; 29; 158;
    225; 248; 152; 17; 105; 217; 142; 148; 155; 30; 135; 233; 206; 85; 40; 223;
    140; 161; 137; 13; 191; 230; 66; 104; 65; 153; 45; 15; 176; 84; 187; 22 ].

(** FIPS-197 figure 14 (used by _mm_aesdec_si128, src/t1ha0_ia32aes_a.h:76). *)
Definition inv_sbox_table : list N :=
  [ 82; 9; 106; 213; 48; 54; 165; 56; 191; 64; 163; 158; 129; 243; 215; 251;
    124; 227; 57; 130; 155; 47; 255; 135; 52; 142; 67; 68; 196; 222; 233; 203;
    84; 123; 148; 50; 166; 194; 35; 61; 238; 76; 149; 11; 66; 250; 195; 78;
    8; 46; 161; 102; 40; 217; 36; 178; 118; 91; 162; 73; 109; 139; 209; 37;
    114; 248; 246; 100; 134; 104; 152; 22; 212; 164; 92; 204; 93; 101; 182; 146;
    108; 112; 72; 80; 253; 237; 185; 218; 94; 21; 70; 87; 167; 141; 157; 132;
    144; 216; 171; 0; 140; 188; 211; 10; 247; 228; 88; 5; 184; 179; 69; 6;
    208; 44; 30; 143; 202; 63; 15; 2; 193; 175; 189; 3; 1; 19; 138; 107;
    58; 145; 17; 65; 79; 103; 220; 234; 151; 242; 207; 206; 240; 180; 230; 115;
    150; 172; 116; 34; 231; 173; 53; 133; 226; 249; 55; 232; 28; 117; 223; 110;
    71; 241; 26; 113; 29; 41; 197; 137; 111; 183; 98; 14; 170; 24; 190; 27;
    252; 86; 62; 75; 198; 210; 121; 32; 154; 219; 192; 254; 120; 205; 90; 244;
    31; 221; 168; 51; 136; 7; 199; 49; 177; 18; 16; 89; 39; 128; 236; 95;
    96; 81; 127; 169; 25; 181; 74; 13; 45; 229; 122; 159; 147; 201; 156; 239;
    160; 224; 59; 77; 174; 42; 245; 176; 200; 235; 187; 60; 131; 83; 153; 97;
    23; 43; 4; 126; 186; 119; 214; 38; 225; 105; 20; 99; 85; 33; 12; 125 ].

(** Table lookup, built once as a list of bytes. *)
Definition sbox_bytes : list byte := Eval vm_compute in map n2b sbox_table.
Definition inv_sbox_bytes : list byte := Eval vm_compute in map n2b inv_sbox_table.
Definition sub_byte (b : byte) : byte := nth (N.to_nat (b2n b)) sbox_bytes x00.
Definition inv_sub_byte (b : byte) : byte := nth (N.to_nat (b2n b)) inv_sbox_bytes x00.

(** Multiplication by x in GF(2^8), on numbers below 256. *)
Definition xtime (a : N) : N :=
  let d := N.shiftl a 1 in
  if N.testbit a 7 then N.lxor (N.land d 255) 0x1b else d.

(** Intel SDM, ShiftRows on the 16 bytes of a register: byte [4c + r] of the
    result is byte [4((c + r) mod 4) + r] of the operand. *)
Definition shift_rows (l : list byte) : list byte :=
  map (fun i => nth i l x00) [0; 5; 10; 15; 4; 9; 14; 3; 8; 13; 2; 7; 12; 1; 6; 11]%nat.
Definition inv_shift_rows (l : list byte) : list byte :=
  map (fun i => nth i l x00) [0; 13; 10; 7; 4; 1; 14; 11; 8; 5; 2; 15; 12; 9; 6; 3]%nat.

(** MixColumns on one column of four bytes. *)
Definition mix_column (a0 a1 a2 a3 : N) : list N :=
  let x2 := xtime in let x3 a := N.lxor (xtime a) a in
  [ N.lxor (N.lxor (N.lxor (x2 a0) (x3 a1)) a2) a3;
    N.lxor (N.lxor (N.lxor a0 (x2 a1)) (x3 a2)) a3;
    N.lxor (N.lxor (N.lxor a0 a1) (x2 a2)) (x3 a3);
    N.lxor (N.lxor (N.lxor (x3 a0) a1) a2) (x2 a3) ].

(** InvMixColumns on one column (multipliers 14, 11, 13, 9). *)
Definition inv_mix_column (a0 a1 a2 a3 : N) : list N :=
  let x2 := xtime in
  let x4 a := xtime (xtime a) in
  let x8 a := xtime (xtime (xtime a)) in
  let x9 a := N.lxor (x8 a) a in
  let xb a := N.lxor (N.lxor (x8 a) (x2 a)) a in
  let xd a := N.lxor (N.lxor (x8 a) (x4 a)) a in
  let xe a := N.lxor (N.lxor (x8 a) (x4 a)) (x2 a) in
  [ N.lxor (N.lxor (N.lxor (xe a0) (xb a1)) (xd a2)) (x9 a3);
    N.lxor (N.lxor (N.lxor (x9 a0) (xe a1)) (xb a2)) (xd a3);
    N.lxor (N.lxor (N.lxor (xd a0) (x9 a1)) (xe a2)) (xb a3);
    N.lxor (N.lxor (N.lxor (xb a0) (xd a1)) (x9 a2)) (xe a3) ].

(** Apply a column transformation to the four columns of a register. *)
Fixpoint columns (f : N -> N -> N -> N -> list N) (l : list byte) : list byte :=
  match l with
  | a :: b :: c :: d :: r =>
      map n2b (f (b2n a) (b2n b) (b2n c) (b2n d)) ++ columns f r
  | _ => []
  end.

(** _mm_aesenc_si128(state, key) *)
Definition aesenc (s k : N) : N :=
  let l := le_bytes 16 s in
  N.lxor (le_num (columns mix_column (map sub_byte (shift_rows l)))) (u128 k).

(** _mm_aesdec_si128(state, key) *)
Definition aesdec (s k : N) : N :=
  let l := le_bytes 16 s in
  N.lxor (le_num (columns inv_mix_column (map inv_sub_byte (inv_shift_rows l)))) (u128 k).

(** _mm_set_epi64x(e1, e0) *)
Definition set_epi64x (e1 e0 : N) : N := u64 e0 + W64 * u64 e1.
(** Lane access. *)
Definition lane64 (x i : N) : N := u64 (N.shiftr x (64 * i)).
Definition lane32 (x i : N) : N := u32 (N.shiftr x (32 * i)).
(** _mm_add_epi64, _mm_sub_epi64: lane-wise, modulo 2^64 *)
Definition add_epi64 (x y : N) : N :=
  set_epi64x (add64 (lane64 x 1) (lane64 y 1)) (add64 (lane64 x 0) (lane64 y 0)).
Definition sub_epi64 (x y : N) : N :=
  set_epi64x (sub64 (lane64 x 1) (lane64 y 1)) (sub64 (lane64 x 0) (lane64 y 0)).
(** _mm_xor_si128 *)
Definition xor_si128 (x y : N) : N := N.lxor (u128 x) (u128 y).
(** _mm_unpackhi_epi64(x, y): high lane of x in the low lane, high lane of y in the high lane *)
Definition unpackhi_epi64 (x y : N) : N := set_epi64x (lane64 y 1) (lane64 x 1).
(** _mm_shuffle_epi32(x, imm): lane i of the result is lane ((imm >> 2i) & 3) of x *)
Definition shuffle_epi32 (x imm : N) : N :=
  let sel i := lane32 x (N.land (N.shiftr imm (2 * i)) 3) in
  sel 0 + W32 * sel 1 + W64 * sel 2 + W64 * W32 * sel 3.
(** An int converted to uint64_t: sign extension. *)
Definition sext32 (x : N) : N := if N.testbit x 31 then W64 - W32 + u32 x else u32 x.
(** _mm_loadu_si128: no alignment requirement *)
Definition loadu (p : N) : M N := l <- load_bytes 16 p ;; ret (le_num l).
