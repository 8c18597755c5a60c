(** The table-driven AES rounds of the model are the algebraic rounds of the
    specification; vector registers are pairs of 64-bit halves. *)
From Coq Require Import ZArith NArith Arith List Bool Lia Strings.Byte.
From Coq Require Import ZifyN ZifyNat ZifyBool.
From Verif Require Import Bytes CSem Bits Aes Ia32aes Spec AesSpec NBits CSemFacts OpsFacts.
Import ListNotations.
Ltac Zify.zify_post_hook ::= Z.div_mod_to_equations.
Local Open Scope N_scope.

(** ** Bytes *)
Definition all_bytes : list byte := Eval vm_compute in map (fun i => n2b (N.of_nat i)) (seq 0 256).
Lemma all_bytes_in : forall b, In b all_bytes.
Proof.
  intro b. assert (E : all_bytes = map (fun i => n2b (N.of_nat i)) (seq 0 256)) by (vm_compute; reflexivity).
  rewrite E. apply in_map_iff. exists (N.to_nat (b2n b)).
  rewrite Nnat.N2Nat.id, n2b_b2n. split; [reflexivity|]. apply in_seq. pose proof (b2n_lt b). lia.
Qed.
Lemma for_bytes : forall P : byte -> bool, forallb P all_bytes = true -> forall b, P b = true.
Proof. intros P H b. rewrite forallb_forall in H. apply H, all_bytes_in. Qed.

(** the inverses of all bytes *)
Definition ginv_table : list N := Eval vm_compute in map (fun b => ginv (b2n b)) all_bytes.
Lemma ginv_table_ok : forall b, ginv (b2n b) = nth (N.to_nat (b2n b)) ginv_table 0.
Proof.
  intro b. pose proof (for_bytes (fun b => ginv (b2n b) =? nth (N.to_nat (b2n b)) ginv_table 0) ltac:(vm_compute; reflexivity) b) as H.
  now apply N.eqb_eq in H.
Qed.
Lemma sub_byte_eq : forall b, b2n (sub_byte b) = gsub (b2n b).
Proof.
  intro b. unfold gsub. rewrite ginv_table_ok.
  pose proof (for_bytes (fun b => b2n (sub_byte b) =? affine (nth (N.to_nat (b2n b)) ginv_table 0)) ltac:(vm_compute; reflexivity) b) as H.
  now apply N.eqb_eq in H.
Qed.
Lemma inv_sub_byte_eq : forall b, b2n (inv_sub_byte b) = ginv_sub (b2n b).
Proof.
  intro b. unfold ginv_sub.
  pose proof (for_bytes (fun b => (b2n (n2b (inv_affine (b2n b))) =? inv_affine (b2n b)) &&
    (b2n (inv_sub_byte b) =? nth (N.to_nat (inv_affine (b2n b))) ginv_table 0)) ltac:(vm_compute; reflexivity) b) as H.
  apply andb_prop in H. destruct H as [H1 H2]. apply N.eqb_eq in H1, H2. rewrite H2, <- H1. symmetry. apply ginv_table_ok.
Qed.

(** the multipliers that occur in the two matrices *)
Lemma gmul_small : forall b, let a := b2n b in
  gmul 1 a = a /\ gmul 2 a = xtime a /\ gmul 3 a = N.lxor (xtime a) a /\
  gmul 9 a = N.lxor (xtime (xtime (xtime a))) a /\
  gmul 11 a = N.lxor (N.lxor (xtime (xtime (xtime a))) (xtime a)) a /\
  gmul 13 a = N.lxor (N.lxor (xtime (xtime (xtime a))) (xtime (xtime a))) a /\
  gmul 14 a = N.lxor (N.lxor (xtime (xtime (xtime a))) (xtime (xtime a))) (xtime a).
Proof.
  intros b a.
  pose proof (for_bytes (fun b => let a := b2n b in
    (gmul 1 a =? a) && (gmul 2 a =? xtime a) && (gmul 3 a =? N.lxor (xtime a) a) &&
    (gmul 9 a =? N.lxor (xtime (xtime (xtime a))) a) &&
    (gmul 11 a =? N.lxor (N.lxor (xtime (xtime (xtime a))) (xtime a)) a) &&
    (gmul 13 a =? N.lxor (N.lxor (xtime (xtime (xtime a))) (xtime (xtime a))) a) &&
    (gmul 14 a =? N.lxor (N.lxor (xtime (xtime (xtime a))) (xtime (xtime a))) (xtime a)))
    ltac:(vm_compute; reflexivity) b) as H.
  cbv zeta in H. fold a in H. repeat (apply andb_prop in H; destruct H as [H ?E]).
  repeat split; now apply N.eqb_eq.
Qed.

Lemma mix_column_eq : forall a b c d : byte,
  mix_column (b2n a) (b2n b) (b2n c) (b2n d)
  = map (mat_row [2; 3; 1; 1] (fun r => nth r [b2n a; b2n b; b2n c; b2n d] 0)) [0; 1; 2; 3]%nat.
Proof.
  intros a b c d.
  destruct (gmul_small a) as (A1 & A2 & A3 & _). destruct (gmul_small b) as (B1 & B2 & B3 & _).
  destruct (gmul_small c) as (C1 & C2 & C3 & _). destruct (gmul_small d) as (D1 & D2 & D3 & _).
  cbv zeta in *. unfold mat_row, mix_column. cbn [map fold_right nth Nat.add Nat.sub Nat.modulo Nat.divmod fst snd].
  rewrite A1, A2, A3, B1, B2, B3, C1, C2, C3, D1, D2, D3.
  rewrite !N.lxor_0_r, !N.lxor_assoc. reflexivity.
Qed.
Lemma inv_mix_column_eq : forall a b c d : byte,
  inv_mix_column (b2n a) (b2n b) (b2n c) (b2n d)
  = map (mat_row [14; 11; 13; 9] (fun r => nth r [b2n a; b2n b; b2n c; b2n d] 0)) [0; 1; 2; 3]%nat.
Proof.
  intros a b c d.
  destruct (gmul_small a) as (_ & _ & _ & A1 & A2 & A3 & A4). destruct (gmul_small b) as (_ & _ & _ & B1 & B2 & B3 & B4).
  destruct (gmul_small c) as (_ & _ & _ & C1 & C2 & C3 & C4). destruct (gmul_small d) as (_ & _ & _ & D1 & D2 & D3 & D4).
  cbv zeta in *. unfold mat_row, inv_mix_column. cbn [map fold_right nth Nat.add Nat.sub Nat.modulo Nat.divmod fst snd].
  rewrite A1, A2, A3, A4, B1, B2, B3, B4, C1, C2, C3, C4, D1, D2, D3, D4.
  rewrite !N.lxor_0_r, !N.lxor_assoc. reflexivity.
Qed.

(** ** The round on 16 bytes *)
Lemma sixteen : forall l : list byte, length l = 16%nat ->
  exists a b c d e f g h i j k o p q r s, l = [a; b; c; d; e; f; g; h; i; j; k; o; p; q; r; s].
Proof.
  intros l H. do 16 (destruct l as [|? l]; [discriminate|]). destruct l; [|discriminate].
  repeat eexists.
Qed.
Lemma mat_row_ext : forall m c c' r, c 0%nat = c' 0%nat -> c 1%nat = c' 1%nat -> c 2%nat = c' 2%nat ->
  c 3%nat = c' 3%nat -> n2b (mat_row m c r) = n2b (mat_row m c' r).
Proof. intros m c c' r H0 H1 H2 H3. unfold mat_row. cbn [fold_right]. now rewrite H0, H1, H2, H3. Qed.
Lemma cons_eq : forall (A : Type) (x y : A) l l', x = y -> l = l' -> x :: l = y :: l'.
Proof. now intros A x y l l' -> ->. Qed.
Local Opaque gsub ginv_sub.
Lemma enc_round_eq : forall l, length l = 16%nat ->
  columns mix_column (map sub_byte (shift_rows l)) = round [2; 3; 1; 1] (enc_cell l).
Proof.
  intros l L. destruct (sixteen l L) as (a & b & c & d & e & f & g & h & i & j & k & o & p & q & r & s & ->).
  unfold shift_rows. cbn [map nth columns]. rewrite !mix_column_eq.
  unfold round. cbn [map seq app].
  repeat (apply cons_eq; [apply mat_row_ext; cbn [nth]; rewrite sub_byte_eq; reflexivity|]). reflexivity.
Qed.
Lemma dec_round_eq : forall l, length l = 16%nat ->
  columns inv_mix_column (map inv_sub_byte (inv_shift_rows l)) = round [14; 11; 13; 9] (dec_cell l).
Proof.
  intros l L. destruct (sixteen l L) as (a & b & c & d & e & f & g & h & i & j & k & o & p & q & r & s & ->).
  unfold inv_shift_rows. cbn [map nth columns]. rewrite !inv_mix_column_eq.
  unfold round. cbn [map seq app].
  repeat (apply cons_eq; [apply mat_row_ext; cbn [nth]; rewrite inv_sub_byte_eq; reflexivity|]). reflexivity.
Qed.

(** ** Registers *)
(** the register that holds the word [w] *)
Definition pack (w : word128) : N := fst w + W64 * snd w.
Definition ok2 (w : word128) : Prop := fst w < W64 /\ snd w < W64.

Lemma lane0_pack : forall w, ok2 w -> lane64 (pack w) 0 = fst w.
Proof.
  intros [a b] [A B]. unfold lane64, pack, u64. cbn [fst snd] in *. rewrite N.mul_0_r, N.shiftr_0_r.
  rewrite N.mul_comm, N.mod_add by discriminate. now apply N.mod_small.
Qed.
Lemma lane1_pack : forall w, ok2 w -> lane64 (pack w) 1 = snd w.
Proof.
  intros [a b] [A B]. unfold lane64, pack, u64. cbn [fst snd] in *. rewrite N.mul_1_r, N.shiftr_div_pow2.
  change (2 ^ 64) with W64. rewrite N.mul_comm, N.div_add by discriminate.
  rewrite N.div_small, N.add_0_l by assumption. now apply N.mod_small.
Qed.
Lemma set_epi64x_pack : forall h l, l < W64 -> h < W64 -> set_epi64x h l = pack (l, h).
Proof. intros h l L H. unfold set_epi64x, pack, u64. now rewrite !N.mod_small by assumption. Qed.
Lemma pack_lt : forall w, ok2 w -> pack w < 2 ^ 128.
Proof. intros [a b] [A B]. unfold pack. cbn [fst snd] in *. change (2 ^ 128) with (W64 * W64). nia. Qed.

Lemma add_lt : forall x y, add x y < W64.
Proof. intros. unfold add. apply N.mod_lt. discriminate. Qed.
Lemma sub_lt : forall x y, sub x y < W64.
Proof. intros. unfold sub. apply N.mod_lt. discriminate. Qed.
Lemma xor_lt : forall x y, x < W64 -> y < W64 -> xor x y < W64.
Proof. intros. now apply (lxor_lt 64). Qed.

Lemma add2_ok2 : forall u v, ok2 (add2 u v).
Proof. intros. split; apply add_lt. Qed.
Lemma sub2_ok2 : forall u v, ok2 (sub2 u v).
Proof. intros. split; apply sub_lt. Qed.
Lemma xor2_ok2 : forall u v, ok2 u -> ok2 v -> ok2 (xor2 u v).
Proof. intros u v [U1 U2] [V1 V2]. split; now apply xor_lt. Qed.

Lemma add_epi64_eq : forall u v, ok2 u -> ok2 v -> add_epi64 (pack u) (pack v) = pack (add2 u v).
Proof.
  intros u v U V. unfold add_epi64. rewrite !lane0_pack, !lane1_pack by assumption.
  rewrite set_epi64x_pack; [reflexivity|apply add_lt|apply add_lt].
Qed.
Lemma sub64_eq : forall x y, x < W64 -> y < W64 -> sub64 x y = sub x y.
Proof.
  intros x y X Y. unfold sub64, sub. unfold u64. change (2 ^ 64) with W64.
  rewrite ?(N.mod_small x), ?(N.mod_small y) by assumption. f_equal; lia.
Qed.
Lemma sub_epi64_eq : forall u v, ok2 u -> ok2 v -> sub_epi64 (pack u) (pack v) = pack (sub2 u v).
Proof.
  intros u v U V. unfold sub_epi64. rewrite !lane0_pack, !lane1_pack by assumption.
  destruct U, V. rewrite !sub64_eq by assumption.
  rewrite set_epi64x_pack; [reflexivity|apply sub_lt|apply sub_lt].
Qed.
Lemma lxor_pack : forall u v, ok2 u -> ok2 v -> N.lxor (pack u) (pack v) = pack (xor2 u v).
Proof.
  intros u v U V. destruct (xor2_ok2 u v U V) as [X1 X2]. destruct U as [U1 U2], V as [V1 V2].
  unfold pack in *. rewrite !(N.mul_comm W64). change W64 with (2 ^ 64) in *.
  rewrite <- !(lor_low_high 64) by assumption.
  apply N.bits_inj. intro i. rewrite N.lxor_spec, !N.lor_spec. unfold xor2, xor. cbn [fst snd].
  rewrite <- !N.shiftl_mul_pow2. rewrite N.lxor_spec.
  destruct (N.ltb_spec i 64) as [H|H].
  - rewrite !N.shiftl_spec_low by assumption. now rewrite !orb_false_r.
  - rewrite !N.shiftl_spec_high' by assumption.
    assert (Z : forall x, x < 2 ^ 64 -> N.testbit x i = false).
    { intros x Hx. destruct (N.eq_dec x 0) as [->|Nz]; [apply N.bits_0|].
      apply N.bits_above_log2. apply N.log2_lt_pow2 in Hx; lia. }
    rewrite !Z by assumption. cbn [orb xorb]. now rewrite N.lxor_spec.
Qed.
Lemma xor_si128_eq : forall u v, ok2 u -> ok2 v -> xor_si128 (pack u) (pack v) = pack (xor2 u v).
Proof.
  intros u v U V. unfold xor_si128, u128. rewrite !N.mod_small by now apply pack_lt. now apply lxor_pack.
Qed.

Lemma le_bytes_split : forall a b x, le_bytes (a + b) x = le_bytes a x ++ le_bytes b (x / 256 ^ N.of_nat a).
Proof.
  induction a as [|a IH]; intros b x.
  - cbn [Nat.add le_bytes app N.of_nat]. now rewrite N.pow_0_r, N.div_1_r.
  - cbn [Nat.add le_bytes app]. rewrite IH. do 2 f_equal.
    rewrite Nnat.Nat2N.inj_succ, N.pow_succ_r'. rewrite N.div_div; [reflexivity|discriminate|].
    apply N.pow_nonzero. discriminate.
Qed.
Lemma le_bytes_mod : forall n x, le_bytes n (x mod 256 ^ N.of_nat n) = le_bytes n x.
Proof.
  intros n x. apply le_num_inj; [now rewrite !le_bytes_length|].
  rewrite !le_num_le_bytes. apply N.mod_mod. apply N.pow_nonzero. discriminate.
Qed.
Lemma le_bytes_pack : forall w, ok2 w -> le_bytes 16 (pack w) = bytes_of w.
Proof.
  intros w H. pose proof (lane0_pack w H) as L0. pose proof (lane1_pack w H) as L1.
  destruct H as [H0 H1]. change 16%nat with (8 + 8)%nat. rewrite le_bytes_split. unfold bytes_of. f_equal.
  - rewrite <- L0. unfold lane64. rewrite N.mul_0_r, N.shiftr_0_r. unfold u64.
    change W64 with (256 ^ N.of_nat 8). now rewrite le_bytes_mod.
  - rewrite <- L1. unfold lane64. rewrite N.mul_1_r, N.shiftr_div_pow2. unfold u64.
    change W64 with (256 ^ N.of_nat 8). rewrite le_bytes_mod. reflexivity.
Qed.
Lemma word_of_ok2 : forall l, length l = 16%nat -> ok2 (word_of l).
Proof.
  intros l L. unfold word_of. split; cbn [fst snd].
  - pose proof (le_num_lt (firstn 8 l)) as H. rewrite firstn_length_le in H by lia. exact H.
  - pose proof (le_num_lt (skipn 8 l)) as H. rewrite skipn_length, L in H. exact H.
Qed.
Lemma le_num_word : forall l, length l = 16%nat -> le_num l = pack (word_of l).
Proof.
  intros l L. rewrite <- (firstn_skipn 8 l) at 1. rewrite le_num_app, firstn_length_le by lia. reflexivity.
Qed.
Lemma round_length : forall m f, length (round m f) = 16%nat.
Proof. intros. unfold round. now rewrite map_length, seq_length. Qed.
Lemma bytes_of_length : forall w, length (bytes_of w) = 16%nat.
Proof. intro w. unfold bytes_of. now rewrite app_length, !le_bytes_length. Qed.

Lemma enc_ok2 : forall s k, ok2 k -> ok2 (enc s k).
Proof. intros s k K. apply xor2_ok2; [apply word_of_ok2, round_length|exact K]. Qed.
Lemma dec_ok2 : forall s k, ok2 k -> ok2 (dec s k).
Proof. intros s k K. apply xor2_ok2; [apply word_of_ok2, round_length|exact K]. Qed.

Lemma aesenc_eq : forall s k, ok2 s -> ok2 k -> aesenc (pack s) (pack k) = pack (enc s k).
Proof.
  intros s k S K. unfold aesenc. rewrite le_bytes_pack, enc_round_eq by (assumption || apply bytes_of_length).
  rewrite le_num_word by apply round_length. unfold u128. rewrite N.mod_small by now apply pack_lt.
  rewrite lxor_pack; [reflexivity|apply word_of_ok2, round_length|exact K].
Qed.
Lemma aesdec_eq : forall s k, ok2 s -> ok2 k -> aesdec (pack s) (pack k) = pack (dec s k).
Proof.
  intros s k S K. unfold aesdec. rewrite le_bytes_pack, dec_round_eq by (assumption || apply bytes_of_length).
  rewrite le_num_word by apply round_length. unfold u128. rewrite N.mod_small by now apply pack_lt.
  rewrite lxor_pack; [reflexivity|apply word_of_ok2, round_length|exact K].
Qed.

(** ** Taking the two halves out of a register *)
Lemma lane32_64 : forall x i, i < 2 -> lane32 x i = u32 (N.shiftr (lane64 x 0) (32 * i)).
Proof.
  intros x i H. unfold lane32, lane64. rewrite N.mul_0_r, N.shiftr_0_r. unfold u32, u64.
  change W32 with (2 ^ 32). change W64 with (2 ^ 64). rewrite <- !N.land_ones.
  apply N.bits_inj. intro j. rewrite !N.land_spec, !N.shiftr_spec', N.land_spec.
  destruct (N.ltb_spec j 32) as [J|J].
  - rewrite (N.ones_spec_low 64) by lia. now rewrite andb_true_r.
  - rewrite (N.ones_spec_high 32) by lia. now rewrite !andb_false_r.
Qed.
Lemma lane32_hi : forall x i, lane32 x (2 + i) = lane32 (N.shiftr x 64) i.
Proof. intros x i. unfold lane32. rewrite N.shiftr_shiftr. do 2 f_equal. lia. Qed.
Lemma shl_sext : forall x, shl64 (sext32 (u32 x)) 32 = u32 x * 2 ^ 32.
Proof.
  intro x. unfold shl64, sext32. assert (B : u32 x < W32) by (apply N.mod_lt; discriminate).
  assert (U : u32 (u32 x) = u32 x) by (unfold u32; apply N.mod_mod; discriminate).
  rewrite U. unfold u64. rewrite N.shiftl_mul_pow2. change (2 ^ 32) with W32.
  destruct (N.testbit (u32 x) 31).
  - replace ((W64 - W32 + u32 x) * W32) with (u32 x * W32 + (W32 - 1) * W64) by lia.
    rewrite N.mod_add by discriminate. apply N.mod_small. lia.
  - apply N.mod_small. lia.
Qed.
Lemma join_halves : forall x, x < W64 ->
  N.lor (u32 x) (shl64 (sext32 (u32 (N.shiftr x 32))) 32) = x.
Proof.
  intros x H. rewrite shl_sext. rewrite lor_low_high by (apply N.mod_lt; discriminate).
  unfold u32. rewrite N.shiftr_div_pow2. change (2 ^ 32) with W32.
  rewrite (N.mod_small (x / W32)) by lia. lia.
Qed.
Lemma unpackhi_pack : forall w, ok2 w -> unpackhi_epi64 (pack w) (pack w) = pack (snd w, snd w).
Proof.
  intros w H. unfold unpackhi_epi64. rewrite lane1_pack by exact H.
  destruct H. now rewrite set_epi64x_pack.
Qed.
Lemma lane32_pack : forall w, ok2 w ->
  lane32 (pack w) 0 = u32 (fst w) /\ lane32 (pack w) 1 = u32 (N.shiftr (fst w) 32) /\
  lane32 (pack w) 2 = u32 (snd w) /\ lane32 (pack w) 3 = u32 (N.shiftr (snd w) 32).
Proof.
  intros w H. pose proof (lane0_pack w H) as L0. pose proof (lane1_pack w H) as L1.
  split; [|split; [|split]].
  - rewrite lane32_64, L0 by lia. now rewrite N.mul_0_r, N.shiftr_0_r.
  - rewrite lane32_64, L0 by lia. now rewrite N.mul_1_r.
  - change 2 with (2 + 0). rewrite lane32_hi, lane32_64 by lia. rewrite N.mul_0_r, N.shiftr_0_r.
    f_equal. rewrite <- L1. unfold lane64. now rewrite N.mul_0_r, N.shiftr_0_r, N.mul_1_r.
  - change 3 with (2 + 1). rewrite lane32_hi, lane32_64 by lia. rewrite N.mul_1_r.
    do 2 f_equal. rewrite <- L1. unfold lane64. now rewrite N.mul_0_r, N.shiftr_0_r, N.mul_1_r.
Qed.
Lemma shuffle1_lane0 : forall x, lane32 (shuffle_epi32 x 1) 0 = lane32 x 1.
Proof.
  intro x. unfold shuffle_epi32.
  change (N.land (N.shiftr 1 (2 * 0)) 3) with 1.
  set (s0 := lane32 x 1). generalize (lane32 x (N.land (N.shiftr 1 (2 * 1)) 3)) (lane32 x (N.land (N.shiftr 1 (2 * 2)) 3))
    (lane32 x (N.land (N.shiftr 1 (2 * 3)) 3)). intros s1 s2 s3.
  assert (s0 < W32) by (apply N.mod_lt; discriminate).
  unfold lane32. rewrite N.mul_0_r, N.shiftr_0_r. unfold u32.
  replace (s0 + W32 * s1 + W64 * s2 + W64 * W32 * s3) with (s0 + (s1 + W32 * s2 + W64 * s3) * W32) by lia.
  rewrite N.mod_add by discriminate. now apply N.mod_small.
Qed.
Lemma extract_ab_eq : forall cfg w, ok2 w -> extract_ab cfg (pack w) = w.
Proof.
  intros cfg w H. pose proof H as [H0 H1]. unfold extract_ab.
  destruct (lane32_pack w H) as (A0 & A1 & A2 & A3).
  destruct (simd cfg); cbv zeta.
  - rewrite lane0_pack, lane1_pack by exact H. now destruct w.
  - rewrite unpackhi_pack, !lane0_pack by (assumption || split; assumption). now destruct w.
  - rewrite A0, A1, A2, A3, !join_halves by assumption. now destruct w.
  - rewrite unpackhi_pack, !shuffle1_lane0 by exact H.
    destruct (lane32_pack (snd w, snd w) (conj H1 H1)) as (B0 & B1 & _). cbn [fst snd] in B0, B1.
    rewrite A0, A1, B0, B1, !join_halves by assumption. now destruct w.
Qed.
