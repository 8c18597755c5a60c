(** HighwayHash: the model of the C code computes the specification. *)
From Coq Require Import ZArith NArith Arith List Bool Lia Strings.Byte.
From Coq Require Import ZifyN ZifyNat ZifyBool.
From Verif Require Import Bytes CSem Bits Spec NBits CSemFacts OpsFacts FetchFacts CtxMem T1ha2 Onto Highway HighwaySpec.
Import ListNotations.
Ltac Zify.zify_post_hook ::= Z.div_mod_to_equations.
Local Open Scope N_scope.

(** ** Bytes in words *)
(** the byte [b] as the [k]-th of a word *)
Definition put (k : N) (b : byte) : N := b2n b * 2 ^ (8 * k).
Lemma put_lt : forall k b, put k b < 2 ^ (8 * (k + 1)).
Proof.
  intros k b. unfold put. replace (8 * (k + 1)) with (8 + 8 * k) by lia. rewrite N.pow_add_r.
  apply N.mul_lt_mono_pos_r; [apply pow2_pos|]. apply b2n_lt.
Qed.
Lemma put_land : forall j k a b, j <> k -> N.land (put j a) (put k b) = 0.
Proof.
  assert (W : forall j k a b, j < k -> N.land (put j a) (put k b) = 0).
  { intros j k a b H. replace (put k b) with (b2n b * 2 ^ (8 * (k - (j + 1))) * 2 ^ (8 * (j + 1))).
    - apply land_low_high, put_lt.
    - unfold put. rewrite <- N.mul_assoc, <- N.pow_add_r. f_equal. f_equal. lia. }
  intros j k a b H. destruct (N.lt_total j k) as [L|[L|L]]; [now apply W|contradiction|rewrite N.land_comm; now apply W].
Qed.
Lemma lor_add : forall a b, N.land a b = 0 -> N.lor a b = a + b.
Proof.
  intros a b H. rewrite N.add_nocarry_lxor by exact H. symmetry. now apply N.lxor_lor.
Qed.
Lemma put_shiftr : forall k s b, s <= k -> N.shiftr (put k b) (8 * s) = put (k - s) b.
Proof.
  intros k s b H. unfold put. rewrite N.shiftr_div_pow2. replace (8 * k) with (8 * (k - s) + 8 * s) at 1 by lia.
  rewrite N.pow_add_r, N.mul_assoc. apply N.div_mul, N.pow_nonzero. discriminate.
Qed.
Lemma put_shl64 : forall k s b, k + s <= 7 -> shl64 (put k b) (8 * s) = put (k + s) b.
Proof.
  intros k s b H. unfold shl64. rewrite N.shiftl_mul_pow2. unfold put. rewrite <- N.mul_assoc, <- N.pow_add_r.
  replace (8 * k + 8 * s) with (8 * (k + s)) by lia. apply u64_small.
  eapply N.lt_le_trans; [apply (put_lt (k + s) b)|]. change W64 with (2 ^ 64). apply N.pow_le_mono_r; lia.
Qed.
Lemma put_small : forall k b, k <= 7 -> put k b < 2 ^ 64.
Proof. intros k b H. eapply N.lt_le_trans; [apply put_lt|]. apply N.pow_le_mono_r; lia. Qed.
Lemma put_shr64 : forall k s b, k <= 7 -> s <= k -> shr64 (put k b) (8 * s) = put (k - s) b.
Proof. intros k s b H L. unfold shr64. rewrite u64_small by now apply put_small. now apply put_shiftr. Qed.
Lemma put_shr64_2 : forall j k s a b, j <= 7 -> k <= 7 -> s <= j -> s <= k ->
  shr64 (N.lor (put j a) (put k b)) (8 * s) = N.lor (put (j - s) a) (put (k - s) b).
Proof.
  intros j k s a b J K L1 L2. unfold shr64. rewrite u64_small by (apply (lor_lt 64); now apply put_small).
  rewrite N.shiftr_lor, !put_shiftr by assumption. reflexivity.
Qed.
(** taking a byte out *)
Lemma le_digit : forall n x k, (k < n)%nat -> b2n (nth k (le_bytes n x) x00) = (x / 2 ^ (8 * N.of_nat k)) mod 256.
Proof.
  induction n as [|n IH]; intros x k K; [lia|]. destruct k as [|k]; cbn [le_bytes nth].
  - rewrite b2n_n2b. cbn [N.of_nat]. rewrite N.mul_0_r, N.pow_0_r, N.div_1_r. reflexivity.
  - rewrite IH by lia. rewrite N.div_div by (try apply N.pow_nonzero; discriminate). f_equal. f_equal.
    change 256 with (2 ^ 8). rewrite <- N.pow_add_r. f_equal. lia.
Qed.
Lemma mask_put : forall k x mask, (k < 8)%nat -> mask = 255 * 2 ^ (8 * N.of_nat k) ->
  N.land x mask = put (N.of_nat k) (nth k (le_bytes 8 x) x00).
Proof.
  intros k x mask K ->. unfold put. rewrite le_digit by exact K. change 255 with (N.ones 8). rewrite land_mask. reflexivity.
Qed.
Lemma low_put : forall x, shl64 x 56 = put 7 (nth 0 (le_bytes 8 x) x00).
Proof.
  intro x. unfold shl64, put, u64. rewrite le_digit by lia. rewrite N.shiftl_mul_pow2. cbn [N.of_nat]. rewrite N.mul_0_r, N.pow_0_r, N.div_1_r.
  change W64 with (2 ^ (56 + 8)). rewrite mod_pow2_mul. reflexivity.
Qed.
Ltac disj := rewrite ?N.land_lor_distr_l, ?N.land_lor_distr_r, !put_land by discriminate; reflexivity.
Ltac sums := repeat match goal with |- context [N.lor ?a ?b] => rewrite (lor_add a b) by disj end.

Lemma zipper_ok : forall y x p q, ZipperMergeAndAdd y x q p = (add q (snd (zip x y)), add p (fst (zip x y))).
Proof.
  intros y x p q. unfold ZipperMergeAndAdd. cbv zeta.
  rewrite !(mask_put 0 y 0xff), !(mask_put 1 y 0xff00), !(mask_put 2 y 0xff0000), !(mask_put 3 y 0xff000000), !(mask_put 4 y 0xff00000000),
    !(mask_put 5 y 0xff0000000000), !(mask_put 6 y 0xff000000000000), !(mask_put 7 y 0xff00000000000000) by (lia || reflexivity).
  rewrite !(mask_put 1 x 0xff00), !(mask_put 2 x 0xff0000), !(mask_put 3 x 0xff000000), !(mask_put 4 x 0xff00000000),
    !(mask_put 5 x 0xff0000000000), !(mask_put 6 x 0xff000000000000), !(mask_put 7 x 0xff00000000000000) by (lia || reflexivity).
  rewrite low_put. unfold zip, zip_bytes, zip_order.
  assert (LX := le_bytes_length 8 x). assert (LY := le_bytes_length 8 y).
  remember (le_bytes 8 x) as lx. remember (le_bytes 8 y) as ly. clear Heqlx Heqly.
  do 8 (destruct lx as [|? lx]; [discriminate LX|]). destruct lx; [|discriminate LX].
  do 8 (destruct ly as [|? ly]; [discriminate LY|]). destruct ly; [|discriminate LY]. clear LX LY.
  cbn [nth app map firstn skipn N.of_nat Pos.of_succ_nat Pos.succ fst snd].
  change 24 with (8 * 3). change 16 with (8 * 2). change (shr64 (put 7 b14)) with (shr64 (put 7 b14)).
  change (shl64 (put 1 b0) 32) with (shl64 (put 1 b0) (8 * 4)).
  change (shr64 (put 7 b14) 8) with (shr64 (put 7 b14) (8 * 1)).
  change (shr64 (put 6 b5) 8) with (shr64 (put 6 b5) (8 * 1)).
  change (shl64 (put 0 b7) 48) with (shl64 (put 0 b7) (8 * 6)).
  rewrite !put_shr64_2, !put_shr64, !put_shl64 by discriminate.
  cbn [N.sub N.add Pos.sub_mask Pos.add Pos.succ Pos.pred_double Pos.double_mask Pos.succ_double_mask Pos.double_pred_mask Pos.pred_mask].
  repeat match goal with |- context [put (?a - ?b)] => let v := eval vm_compute in (a - b) in change (a - b) with v end.
  repeat match goal with |- context [put (?a + ?b)] => let v := eval vm_compute in (a + b) in change (a + b) with v end.
  sums. unfold put. cbn [le_num]. unfold add64, add, u64. change W64 with (2 ^ 64).
  repeat match goal with |- context [2 ^ (8 * ?k)] => let v := eval vm_compute in (2 ^ (8 * k)) in change (2 ^ (8 * k)) with v end.
  match goal with |- (?a mod _, ?b mod _) = (?c mod _, ?d mod _) => replace c with a; [replace d with b; [reflexivity|]|] end; lia.
Qed.

(** ** The state *)
Definition conv (st : HighwayHashState) : hstate :=
  let '(a0, a1, a2, a3) := hh_v0 st in let '(b0, b1, b2, b3) := hh_v1 st in
  let '(c0, c1, c2, c3) := hh_mul0 st in let '(d0, d1, d2, d3) := hh_mul1 st in
  (Col a0 b0 c0 d0, Col a1 b1 c1 d1, Col a2 b2 c2 d2, Col a3 b3 c3 d3).
(** all words are below 2^64 *)
Definition good_col (c : column) : Prop := ca c < 2 ^ 64 /\ cb c < 2 ^ 64 /\ cc c < 2 ^ 64 /\ cd c < 2 ^ 64.
Definition good (s : hstate) : Prop :=
  let '(s0, s1, s2, s3) := s in good_col s0 /\ good_col s1 /\ good_col s2 /\ good_col s3.
Definition good_quad (q : N * N * N * N) : Prop :=
  let '(a, b, c, d) := q in a < 2 ^ 64 /\ b < 2 ^ 64 /\ c < 2 ^ 64 /\ d < 2 ^ 64.

Lemma product_lt : forall x y, y < 2 ^ 64 -> (x mod 2 ^ 32) * (y / 2 ^ 32) < 2 ^ 64.
Proof.
  intros x y Y. assert (A : x mod 2 ^ 32 < 2 ^ 32) by (apply N.mod_lt; discriminate).
  assert (B : y / 2 ^ 32 < 2 ^ 32) by (apply N.div_lt_upper_bound; [discriminate|exact Y]).
  change (2 ^ 64) with (2 ^ 32 * 2 ^ 32). apply N.mul_lt_mono; assumption.
Qed.
Lemma good_col_step : forall c w, good_col c -> good_col (col_step c w).
Proof.
  intros c w (A & B & C & D). unfold col_step. repeat split; cbn [ca cb cc cd]; try apply add_lt64;
    apply xor_lt64; try assumption; apply product_lt; [assumption|apply add_lt64].
Qed.
Lemma good_half : forall p w, good_col (fst p) -> good_col (snd p) ->
  good_col (fst (half_step p w)) /\ good_col (snd (half_step p w)).
Proof.
  intros [s t] [x y] S T. unfold half_step. cbn [fst snd] in *.
  apply (good_col_step _ x) in S. apply (good_col_step _ y) in T.
  destruct (col_step s x) as [a b c d], (col_step t y) as [a' b' c' d'].
  unfold zip_a. destruct (zip _ _) as [u v]. cbn [ca cb cc cd]. unfold zip_b. destruct (zip _ _) as [u' v']. cbn [ca cb cc cd fst snd].
  destruct S as (_ & _ & S1 & S2), T as (_ & _ & T1 & T2). cbn [ca cb cc cd] in *. repeat split; cbn [ca cb cc cd]; try assumption; apply add_lt64.
Qed.
Lemma good_step : forall s w, good s -> good (hh_step s w).
Proof.
  intros [[[s0 s1] s2] s3] [[[w0 w1] w2] w3] (G0 & G1 & G2 & G3). unfold hh_step.
  destruct (good_half (s0, s1) (w0, w1) G0 G1) as [H0 H1]. destruct (good_half (s2, s3) (w2, w3) G2 G3) as [H2 H3].
  exact (conj H0 (conj H1 (conj H2 H3))).
Qed.

Lemma update_lane_ok : forall a b c d w, good_col (Col a b c d) ->
  Update_lane a b c d w = let s := col_step (Col a b c d) w in (ca s, cb s, cc s, cd s).
Proof.
  intros a b c d w (A & B & C & D). cbn [ca cb cc cd] in *. unfold Update_lane, col_step. cbn [ca cb cc cd].
  change (add64 b (add64 c w)) with (add b (add c w)). change (add64 a d) with (add a d).
  assert (P : forall x y, y < 2 ^ 64 -> mul64 (N.land x 0xffffffff) (shr64 y 32) = (x mod 2 ^ 32) * (y / 2 ^ 32)).
  { intros x y Y. unfold mul64, shr64. change 0xffffffff with (N.ones 32). rewrite N.land_ones, N.shiftr_div_pow2.
    rewrite (u64_small y) by exact Y. apply u64_small, product_lt, Y. }
  cbv zeta. rewrite !P by (assumption || apply add_lt64). reflexivity.
Qed.
Lemma col_eta : forall s, Col (ca s) (cb s) (cc s) (cd s) = s.
Proof. now intros []. Qed.
Lemma update_ok : forall lanes st, good (conv st) -> conv (Update lanes st) = hh_step (conv st) lanes.
Proof.
  intros [[[l0 l1] l2] l3] [[[[a0 a1] a2] a3] [[[b0 b1] b2] b3] [[[c0 c1] c2] c3] [[[d0 d1] d2] d3]].
  unfold conv at 1 3. cbn [hh_v0 hh_v1 hh_mul0 hh_mul1]. intros (G0 & G1 & G2 & G3).
  unfold Update. cbn [hh_v0 hh_v1 hh_mul0 hh_mul1].
  rewrite !update_lane_ok by assumption. cbv zeta. unfold hh_step, half_step. cbn [fst snd].
  destruct (col_step (Col a0 b0 c0 d0) l0) as [e0 f0 g0 h0], (col_step (Col a1 b1 c1 d1) l1) as [e1 f1 g1 h1],
    (col_step (Col a2 b2 c2 d2) l2) as [e2 f2 g2 h2], (col_step (Col a3 b3 c3 d3) l3) as [e3 f3 g3 h3].
  cbn [ca cb cc cd]. unfold zip_a. cbn [ca cb cc cd]. rewrite !(zipper_ok f1 f0), !(zipper_ok f3 f2).
  destruct (zip f0 f1) as [x0 x1], (zip f2 f3) as [x2 x3]. cbn [fst snd]. rewrite !zipper_ok. unfold zip_b. cbn [ca cb cc cd].
  destruct (zip (add e0 x0) (add e1 x1)) as [y0 y1], (zip (add e2 x2) (add e3 x3)) as [y2 y3]. cbn [fst snd].
  unfold conv. cbn [hh_v0 hh_v1 hh_mul0 hh_mul1]. reflexivity.
Qed.

Lemma swap_ok : forall x, x < 2 ^ 64 -> hh_swap x = swap_halves x.
Proof.
  intros x X. unfold hh_swap, swap_halves, shr64, shl64, u64. rewrite N.shiftr_div_pow2, N.shiftl_mul_pow2.
  change W64 with (2 ^ (32 + 32)). rewrite mod_pow2_mul. rewrite (N.mod_small x) by exact X.
  apply lor_low_high. apply N.div_lt_upper_bound; [discriminate|exact X].
Qed.
Lemma swap_lt : forall x, x < 2 ^ 64 -> swap_halves x < 2 ^ 64.
Proof.
  intros x X. unfold swap_halves. assert (A : x mod 2 ^ 32 < 2 ^ 32) by (apply N.mod_lt; discriminate).
  assert (B : x / 2 ^ 32 < 2 ^ 32) by (apply N.div_lt_upper_bound; [discriminate|exact X]).
  change (2 ^ 64) with (2 ^ 32 * 2 ^ 32). change (2 ^ 32) with 4294967296 in *. lia.
Qed.
Lemma reset_ok : forall key, good_quad key ->
  conv (HighwayHashReset_pure_c key) = hh_init key /\ good (hh_init key).
Proof.
  intros [[[k0 k1] k2] k3] (K0 & K1 & K2 & K3). unfold HighwayHashReset_pure_c, conv. cbn [hh_v0 hh_v1 hh_mul0 hh_mul1].
  unfold hh_init, col_init. rewrite !swap_ok by assumption. split; [reflexivity|].
  repeat split; cbn [ca cb cc cd]; try reflexivity; apply xor_lt64; try assumption; try reflexivity; now apply swap_lt.
Qed.
Lemma round_ok : forall st, good (conv st) -> conv (PermuteAndUpdate st) = hh_round (conv st) /\ good (hh_round (conv st)).
Proof.
  intros st G. unfold PermuteAndUpdate. rewrite update_ok by exact G.
  destruct st as [[[[a0 a1] a2] a3] [[[b0 b1] b2] b3] [[[c0 c1] c2] c3] [[[d0 d1] d2] d3]].
  unfold Permute. unfold conv in *. cbn [hh_v0 hh_v1 hh_mul0 hh_mul1] in *. unfold hh_round. cbn [ca].
  pose proof G as ((A0 & _) & (A1 & _) & (A2 & _) & (A3 & _)). cbn [ca] in A0, A1, A2, A3.
  rewrite !swap_ok by assumption. split; [reflexivity|]. now apply good_step.
Qed.
Lemma rounds_ok : forall n st, good (conv st) ->
  conv (PermuteAndUpdate_times n st) = hh_rounds n (conv st) /\ good (hh_rounds n (conv st)).
Proof.
  intros n st G. induction n as [|n [IH1 IH2]]; [now split|]. unfold PermuteAndUpdate_times, hh_rounds in *. cbn [Nat.iter nat_rect].
  rewrite <- IH1 in IH2. destruct (round_ok _ IH2) as [R1 R2]. rewrite IH1 in R1, R2. now split.
Qed.

Lemma sum4 : forall a b c d, add64 (add64 (add64 a b) c) d = (a + b + c + d) mod 2 ^ 64.
Proof.
  intros. unfold add64, u64. change W64 with (2 ^ 64). rewrite N.add_mod_idemp_l, <- N.add_assoc, N.add_mod_idemp_l by discriminate.
  f_equal. lia.
Qed.
Lemma finalize64_ok : forall st, good (conv st) -> HighwayHashFinalize64_pure_c st = hh_out64 (conv st).
Proof.
  intros st G. unfold HighwayHashFinalize64_pure_c, hh_out64. destruct (rounds_ok 4 st G) as [<- _].
  destruct (PermuteAndUpdate_times 4 st) as [[[[a0 a1] a2] a3] [[[b0 b1] b2] b3] [[[c0 c1] c2] c3] [[[d0 d1] d2] d3]].
  unfold conv. cbn [hh_v0 hh_v1 hh_mul0 hh_mul1 ca cb cc cd]. rewrite !sum4. reflexivity.
Qed.
Lemma finalize128_ok : forall st, good (conv st) -> HighwayHashFinalize128_pure_c st = hh_out128 (conv st).
Proof.
  intros st G. unfold HighwayHashFinalize128_pure_c, hh_out128. destruct (rounds_ok 6 st G) as [<- _].
  destruct (PermuteAndUpdate_times 6 st) as [[[[a0 a1] a2] a3] [[[b0 b1] b2] b3] [[[c0 c1] c2] c3] [[[d0 d1] d2] d3]].
  unfold conv. cbn [hh_v0 hh_v1 hh_mul0 hh_mul1 ca cb cc cd]. rewrite !sum4. reflexivity.
Qed.

Lemma xor_pair : forall a b c d, b < 2 ^ 64 -> d < 2 ^ 64 ->
  N.lxor (a * 2 ^ 64 + b) (c * 2 ^ 64 + d) = N.lxor a c * 2 ^ 64 + N.lxor b d.
Proof.
  intros a b c d B D. assert (X : N.lxor b d < 2 ^ 64) by now apply lxor_lt.
  rewrite !(N.add_comm _ b), !(N.add_comm _ d), !(N.add_comm _ (N.lxor b d)), <- !lor_low_high by assumption.
  rewrite <- !N.shiftl_mul_pow2. apply N.bits_inj. intro i.
  rewrite !N.lxor_spec, !N.lor_spec, N.lxor_spec. destruct (N.lt_ge_cases i 64) as [L|L].
  - rewrite !N.shiftl_spec_low by exact L. now rewrite !orb_false_r.
  - rewrite !N.shiftl_spec_high', N.lxor_spec by exact L.
    rewrite (proj1 (small_bits b 64) B), (proj1 (small_bits d 64) D) by exact L. reflexivity.
Qed.
Lemma reduction_ok : forall a3 a2 a1 a0, a2 < 2 ^ 64 -> a1 < 2 ^ 64 -> a0 < 2 ^ 64 ->
  let '(m1, m0) := ModularReduction a3 a2 a1 a0 in
  m1 * 2 ^ 64 + m0 = reduce ((a3 mod 2 ^ 62) * 2 ^ 64 + a2) (a1 * 2 ^ 64 + a0) /\ m1 < 2 ^ 64 /\ m0 < 2 ^ 64.
Proof.
  intros a3 a2 a1 a0 A2 A1 A0. unfold ModularReduction, reduce, xor. change 0x3FFFFFFFFFFFFFFF with (N.ones 62). rewrite N.land_ones.
  assert (B : a3 mod 2 ^ 62 < 2 ^ 62) by (apply N.mod_lt; discriminate). set (b := a3 mod 2 ^ 62) in *. clearbody b. cbv zeta.
  unfold shl64, shr64, u64. rewrite (N.mod_small a2) by exact A2. rewrite !N.shiftl_mul_pow2, !N.shiftr_div_pow2.
  rewrite (N.mod_small (b * 2 ^ 1)), (N.mod_small (b * 2 ^ 2)) by (change (2 ^ 62) with 4611686018427387904 in B; change (2 ^ 1) with 2; change (2 ^ 2) with 4; lia).
  rewrite (lor_high_low 1 (a2 / 2 ^ 63)), (lor_high_low 2 (a2 / 2 ^ 62)) by (apply N.div_lt_upper_bound; [discriminate|exact A2]).
  change W64 with (2 ^ 64).
  replace (2 * (b * 2 ^ 64 + a2)) with ((a2 / 2 ^ 63 + b * 2 ^ 1) * 2 ^ 64 + (a2 * 2 ^ 1) mod 2 ^ 64)
    by (change (2 ^ 1) with 2; change (2 ^ 63) with 9223372036854775808; change (2 ^ 64) with 18446744073709551616 in *; lia).
  replace (4 * (b * 2 ^ 64 + a2)) with ((a2 / 2 ^ 62 + b * 2 ^ 2) * 2 ^ 64 + (a2 * 2 ^ 2) mod 2 ^ 64)
    by (change (2 ^ 2) with 4; change (2 ^ 62) with 4611686018427387904; change (2 ^ 64) with 18446744073709551616 in *; lia).
  assert (M : forall x, x mod 2 ^ 64 < 2 ^ 64) by (intro; apply N.mod_lt; discriminate).
  rewrite !xor_pair by (assumption || apply M || apply lxor_lt; apply M). rewrite <- !N.lxor_assoc. split; [reflexivity|].
  change (2 ^ 62) with 4611686018427387904 in *. change (2 ^ 63) with 9223372036854775808 in *.
  split; repeat apply lxor_lt; try assumption; try apply M; change (2 ^ 64) with 18446744073709551616 in *;
    change (2 ^ 1) with 2; change (2 ^ 2) with 4; lia.
Qed.
Lemma finalize256_ok : forall st, good (conv st) ->
  let '(h0, h1, h2, h3) := HighwayHashFinalize256_pure_c st in
  (h1 * 2 ^ 64 + h0, h3 * 2 ^ 64 + h2) = hh_out256 (conv st) /\ good_quad (h0, h1, h2, h3).
Proof.
  intros st G. unfold HighwayHashFinalize256_pure_c, hh_out256. destruct (rounds_ok 10 st G) as [<- _].
  destruct (PermuteAndUpdate_times 10 st) as [[[[a0 a1] a2] a3] [[[b0 b1] b2] b3] [[[c0 c1] c2] c3] [[[d0 d1] d2] d3]].
  unfold conv. cbn [hh_v0 hh_v1 hh_mul0 hh_mul1 ca cb cc cd]. change add64 with add.
  pose proof (reduction_ok (add b1 d1) (add b0 d0) (add a1 c1) (add a0 c0) (add_lt64 _ _) (add_lt64 _ _) (add_lt64 _ _)) as R1.
  pose proof (reduction_ok (add b3 d3) (add b2 d2) (add a3 c3) (add a2 c2) (add_lt64 _ _) (add_lt64 _ _) (add_lt64 _ _)) as R2.
  destruct (ModularReduction (add b1 d1) _ _ _) as [h1 h0], (ModularReduction (add b3 d3) _ _ _) as [h3 h2].
  destruct R1 as (<- & L1 & L0), R2 as (<- & L3 & L2). now repeat split.
Qed.

(** ** Packets *)
Lemma group_part : forall i l, group 8 i l = firstn 8 (skipn (8 * i) l).
Proof. reflexivity. Qed.
Lemma read64_ok : forall l, length l = 8%nat -> Read64_of l = le_num l.
Proof.
  intros l L. do 8 (destruct l as [|? l]; [discriminate L|]). destruct l; [|discriminate L]. unfold Read64_of. cbn [nth].
  assert (P : forall b, b2n b = put 0 b) by (intro; unfold put; now rewrite N.mul_1_r).
  assert (Q : forall k b, k <= 7 -> shl64 (b2n b) (8 * k) = put k b) by (intros; rewrite P, put_shl64 by assumption; reflexivity).
  pose proof (Q 1 b0 ltac:(discriminate)) as Q1. pose proof (Q 2 b1 ltac:(discriminate)) as Q2. pose proof (Q 3 b2 ltac:(discriminate)) as Q3.
  pose proof (Q 4 b3 ltac:(discriminate)) as Q4. pose proof (Q 5 b4 ltac:(discriminate)) as Q5. pose proof (Q 6 b5 ltac:(discriminate)) as Q6.
  pose proof (Q 7 b6 ltac:(discriminate)) as Q7. cbn [N.mul Pos.mul Pos.add Pos.succ] in Q1, Q2, Q3, Q4, Q5, Q6, Q7.
  rewrite Q1, Q2, Q3, Q4, Q5, Q6, Q7, (P b).
  sums. unfold put. cbn [le_num].
  repeat match goal with |- context [2 ^ (8 * ?k)] => let v := eval vm_compute in (2 ^ (8 * k)) in change (2 ^ (8 * k)) with v end. lia.
Qed.
Lemma packet_local_ok : forall l st, length l = 32%nat -> good (conv st) ->
  conv (UpdatePacket_local l st) = hh_packet (conv st) l /\ good (hh_packet (conv st) l).
Proof.
  intros l st L G. unfold UpdatePacket_local, hh_packet. split; [|now apply good_step]. rewrite update_ok by exact G. f_equal.
  unfold packet_words, group. rewrite !read64_ok by (rewrite firstn_length, skipn_length; lia). reflexivity.
Qed.
Section Memory.
  Variables (cfg : config) (m : mem).
  Lemma read64_mem : forall p l, length l = 8%nat -> bytes_at m p l -> Read64 p m = Ok (le_num l, m).
  Proof.
    intros p l L H. unfold Read64. rewrite <- L. ok (load_bytes_ok l m p H). unfold ret. now rewrite read64_ok.
  Qed.
  Lemma packet_ok : forall p l st, length l = 32%nat -> bytes_at m p l -> p + 32 <= addr_space cfg -> good (conv st) ->
    exists st', HighwayHashUpdatePacket_pure_c cfg p st m = Ok (st', m) /\ conv st' = hh_packet (conv st) l /\ good (conv st').
  Proof.
    intros p l st L H A G. exists (Update (packet_words l) st).
    assert (U : conv (Update (packet_words l) st) = hh_packet (conv st) l) by (unfold hh_packet; now apply update_ok).
    split; [|split; [exact U|rewrite U; now apply good_step]].
    assert (W : forall i, (i < 4)%nat -> Read64 (padd cfg p (8 * N.of_nat i)) m = Ok (le_num (group 8 i l), m)).
    { intros i I. rewrite padd_small by lia. apply read64_mem; [unfold group; rewrite firstn_length, skipn_length; lia|].
      unfold group. apply bytes_at_firstn. replace (8 * N.of_nat i) with (N.of_nat (8 * i)) by lia. apply bytes_at_skipn; [exact H|lia]. }
    unfold HighwayHashUpdatePacket_pure_c. ok (W 0%nat ltac:(lia)). ok (W 1%nat ltac:(lia)). ok (W 2%nat ltac:(lia)). ok (W 3%nat ltac:(lia)).
    reflexivity.
  Qed.
End Memory.

(** ** The remainder *)
Lemma rotl32_ok : forall x n, x < 2 ^ 32 -> 0 < n < 32 -> N.lor (shl32 x n) (shr32 x (32 - n)) = rotl32 x n /\ rotl32 x n < 2 ^ 32.
Proof.
  intros x n X H. unfold shl32, shr32, rotl32, u32. rewrite N.shiftl_mul_pow2, N.shiftr_div_pow2. change W32 with (2 ^ 32).
  rewrite (N.mod_small x) by exact X.
  assert (E : (x * 2 ^ n) mod 2 ^ 32 = (x mod 2 ^ (32 - n)) * 2 ^ n) by (replace 32 with (n + (32 - n)) at 1 by lia; apply mod_pow2_mul).
  assert (B : x / 2 ^ (32 - n) < 2 ^ n).
  { apply N.div_lt_upper_bound; [apply N.pow_nonzero; discriminate|]. rewrite <- N.pow_add_r. now replace (32 - n + n) with 32 by lia. }
  rewrite E, lor_high_low by exact B. split; [lia|].
  assert (C : x mod 2 ^ (32 - n) < 2 ^ (32 - n)) by (apply N.mod_lt, N.pow_nonzero; discriminate).
  assert (D : 2 ^ 32 = 2 ^ (32 - n) * 2 ^ n) by (rewrite <- N.pow_add_r; f_equal; lia). nia.
Qed.
Lemma rotate_ok : forall x n, x < 2 ^ 64 -> 0 < n < 32 -> rotate_halves n x = rotl_halves x n /\ rotl_halves x n < 2 ^ 64.
Proof.
  intros x n X H. unfold rotate_halves, rotl_halves. cbv zeta. change 0xffffffff with (N.ones 32). rewrite N.land_ones.
  unfold shr64. rewrite u64_small by exact X. rewrite N.shiftr_div_pow2. unfold u32. change W32 with (2 ^ 32).
  rewrite N.mod_mod by discriminate.
  assert (B : x / 2 ^ 32 < 2 ^ 32) by (apply N.div_lt_upper_bound; [discriminate|exact X]). rewrite (N.mod_small (x / _)) by exact B.
  destruct (rotl32_ok (x mod 2 ^ 32) n ltac:(apply N.mod_lt; discriminate) H) as [-> L1].
  destruct (rotl32_ok (x / 2 ^ 32) n B H) as [-> L2].
  set (r := rotl32 (x mod 2 ^ 32) n) in *. set (t := rotl32 (x / 2 ^ 32) n) in *. clearbody r t.
  unfold shl64. rewrite N.shiftl_mul_pow2. assert (T : t * 2 ^ 32 < 2 ^ 64) by (change (2 ^ 64) with (2 ^ 32 * 2 ^ 32); apply N.mul_lt_mono_pos_r; [reflexivity|exact L2]).
  rewrite u64_small by exact T. rewrite lor_low_high by exact L1. split; [reflexivity|].
  change (2 ^ 64) with (2 ^ 32 * 2 ^ 32) in *. change (2 ^ 32) with 4294967296 in *. lia.
Qed.
Lemma length_ok : forall n st, good (conv st) -> 0 < n < 32 ->
  let '(a0, a1, a2, a3) := hh_v0 st in
  let pair := add64 (shl64 n 32) n in
  exists v1, (forall m, Rotate32By n (hh_v1 st) m = Ok (v1, m)) /\
    conv (HHS (add64 a0 pair, add64 a1 pair, add64 a2 pair, add64 a3 pair) v1 (hh_mul0 st) (hh_mul1 st))
    = map_columns (col_length n) (conv st) /\ good (map_columns (col_length n) (conv st)).
Proof.
  intros n [[[[a0 a1] a2] a3] [[[b0 b1] b2] b3] [[[c0 c1] c2] c3] [[[d0 d1] d2] d3]]. unfold conv. cbn [hh_v0 hh_v1 hh_mul0 hh_mul1].
  intros (G0 & G1 & G2 & G3) H.
  exists (rotate_halves n b0, rotate_halves n b1, rotate_halves n b2, rotate_halves n b3). split; [|split].
  - intro m. unfold Rotate32By. destruct (N.eqb_spec n 0); [lia|]. destruct (N.leb_spec 32 n); [lia|]. reflexivity.
  - unfold map_columns, col_length. cbn [ca cb cc cd].
    rewrite !(fun x X => proj1 (rotate_ok x n X H)) by (apply G0 || apply G1 || apply G2 || apply G3).
    assert (P : add64 (shl64 n 32) n = n * (2 ^ 32 + 1)).
    { unfold add64, shl64, u64. rewrite N.shiftl_mul_pow2. change W64 with 18446744073709551616. change (2 ^ 32) with 4294967296. lia. }
    rewrite P. reflexivity.
  - unfold map_columns, col_length. cbn [ca cb cc cd]. destruct G0 as (A0 & B0 & C0 & D0), G1 as (A1 & B1 & C1 & D1), G2 as (A2 & B2 & C2 & D2), G3 as (A3 & B3 & C3 & D3).
    cbn [ca cb cc cd] in *. repeat split; cbn [ca cb cc cd]; try assumption; try apply add_lt64; now apply rotate_ok.
Qed.

(** the local array *)
Definition packet_of (r : list byte) : list byte :=
  let n := length r in
  let q := (4 * (n / 4))%nat in
  let packet := firstn q r ++ repeat x00 (32 - length (firstn q r)) in
  if (16 <=? n)%nat then firstn 28 packet ++ [nth (n - 4) r x00; nth (n - 3) r x00; nth (n - 2) r x00; nth (n - 1) r x00]
  else if (n mod 4 =? 0)%nat then packet
  else firstn 16 packet ++ [nth q r x00; nth (q + n mod 4 / 2) r x00; nth (n - 1) r x00] ++ skipn 19 packet.
Lemma packet_of_pad : forall r, (1 <= length r <= 31)%nat -> packet_of r = pad r /\ length (pad r) = 32%nat.
Proof.
  intros r H. do 32 (destruct r as [|? r]; [try (cbn [length] in H; lia); split; reflexivity|]). cbn [length] in H. lia.
Qed.
Lemma land_3 : forall x, N.land x 3 = x mod 4.
Proof. intro x. change 3 with (N.ones 2). apply N.land_ones. Qed.
Lemma land_31 : forall x, N.land x 31 = x mod 32.
Proof. intro x. change 31 with (N.ones 5). apply N.land_ones. Qed.
Lemma land_16 : forall x, x < 32 -> (N.land x 16 =? 0) = negb (16 <=? x).
Proof.
  intros x H. change 16 with (N.ones 1 * 2 ^ 4) at 1. rewrite land_mask. change (2 ^ 4) with 16. change (2 ^ 1) with 2.
  destruct (N.leb_spec 16 x) as [L|L]; cbn [negb].
  - assert (E : x / 16 = 1) by lia. rewrite E. reflexivity.
  - assert (E : x / 16 = 0) by lia. rewrite E. reflexivity.
Qed.

Section Remainder.
  Variables (cfg : config) (m : mem).
  Lemma byte_at_ok : forall p l i, bytes_at m p l -> (i < length l)%nat -> load8 (p + N.of_nat i) m = Ok (nth i l x00, m).
  Proof.
    intros p l i H L. apply load8_ok. apply H. now apply nth_error_nth'.
  Qed.
  Lemma remainder_ok : forall p r st, (1 <= length r <= 31)%nat -> bytes_at m p r -> p + mlen r < addr_space cfg -> good (conv st) ->
    exists st', HighwayHashUpdateRemainder_pure_c cfg p (mlen r) st m = Ok (st', m) /\ conv st' = hh_rest (conv st) r /\ good (conv st').
  Proof.
    intros p r st L H A G. pose proof (addr_space_pos cfg) as AS.
    assert (NL : 0 < mlen r < 32) by (unfold mlen; lia).
    pose proof (length_ok (mlen r) st G NL) as LO. unfold HighwayHashUpdateRemainder_pure_c.
    destruct (hh_v0 st) as [[[a0 a1] a2] a3]. destruct LO as (v1 & R & C & G'). rewrite (bind_ok _ _ _ _ _ _ _ (R m)).
    set (st1 := HHS _ v1 _ _) in *. clearbody st1. rewrite <- C in G'.
    destruct (packet_of_pad r L) as [PP PL].
    destruct (packet_local_ok (pad r) st1 PL G') as [U GU].
    exists (UpdatePacket_local (pad r) st1). split; [|split].
    - rewrite land_3. set (q := (4 * (length r / 4))%nat).
      assert (Q : mlen r - mlen r mod 4 = N.of_nat q) by (unfold mlen, q; lia). rewrite Q, Nat2N.id.
      assert (QL : (q <= length r)%nat) by (unfold q; lia).
      assert (QN : N.of_nat q + mlen r mod 4 = mlen r) by (rewrite <- Q; pose proof (N.mod_le (mlen r) 4 ltac:(discriminate)); lia).
      assert (QM : N.of_nat (length r mod 4) = mlen r mod 4) by (unfold mlen; lia).
      assert (MN : mlen r = N.of_nat (length r)) by reflexivity.
      assert (LQ : length (firstn q r) = q) by (rewrite firstn_length; lia).
      rewrite <- LQ at 1. ok (load_bytes_ok (firstn q r) m p (bytes_at_firstn _ _ _ _ H)).
      rewrite land_16, negb_involutive by lia. rewrite <- PP. unfold packet_of. fold q.
      assert (PA : padd cfg p (N.of_nat q) = p + N.of_nat q) by (apply padd_small; unfold mlen in A; lia). rewrite PA.
      destruct (N.leb_spec 16 (mlen r)) as [B|B].
      + destruct (Nat.leb_spec 16 (length r)) as [B'|B']; [|unfold mlen in B; lia].
        assert (BY : forall i k, (i + length r = k + 4)%nat -> (k < length r)%nat ->
          load8 (psub cfg (padd cfg (p + N.of_nat q) (N.of_nat i + mlen r mod 4)) 4) m = Ok (nth k r x00, m)).
        { intros i k E K. assert (X : p + N.of_nat q + (N.of_nat i + mlen r mod 4) = p + N.of_nat k + 4) by lia.
          assert (Y : p + N.of_nat k + 4 <= p + mlen r + 3) by (unfold mlen; lia).
          unfold psub, padd. rewrite X. rewrite (N.mod_small 4) by lia.
          destruct (N.lt_ge_cases (p + N.of_nat k + 4) (addr_space cfg)) as [S|S].
          - rewrite (N.mod_small (p + N.of_nat k + 4)) by exact S.
            replace (p + N.of_nat k + 4 + addr_space cfg - 4) with (p + N.of_nat k + 1 * addr_space cfg) by lia.
            rewrite N.mod_add, N.mod_small by lia. now apply byte_at_ok.
          - replace (p + N.of_nat k + 4) with (p + N.of_nat k + 4 - addr_space cfg + 1 * addr_space cfg) by lia.
            rewrite N.mod_add by lia. rewrite (N.mod_small (p + N.of_nat k + 4 - addr_space cfg)) by lia.
            replace (p + N.of_nat k + 4 - addr_space cfg + addr_space cfg - 4) with (p + N.of_nat k) by lia.
            rewrite N.mod_small by (unfold mlen in A; lia). now apply byte_at_ok. }
        ok (BY 0%nat (length r - 4)%nat ltac:(lia) ltac:(lia)). ok (BY 1%nat (length r - 3)%nat ltac:(lia) ltac:(lia)).
        ok (BY 2%nat (length r - 2)%nat ltac:(lia) ltac:(lia)). ok (BY 3%nat (length r - 1)%nat ltac:(lia) ltac:(lia)).
        reflexivity.
      + destruct (Nat.leb_spec 16 (length r)) as [B'|B']; [unfold mlen in B; lia|].
        destruct (N.eqb_spec (mlen r mod 4) 0) as [Z|Z]; cbn [negb];
          (destruct (Nat.eqb_spec (length r mod 4) 0) as [Z'|Z']; [try (unfold mlen in Z; lia)|try (unfold mlen in Z; lia)]).
        * reflexivity.
        * assert (BY : forall x k, x = N.of_nat (k - q) -> (q <= k < length r)%nat -> load8 (padd cfg (p + N.of_nat q) x) m = Ok (nth k r x00, m)).
          { intros x k -> K. rewrite padd_small by (unfold mlen in A; lia).
            replace (p + N.of_nat q + N.of_nat (k - q)) with (p + N.of_nat k) by lia. apply byte_at_ok; [exact H|lia]. }
          ok (BY 0 q ltac:(lia) ltac:(unfold q; lia)).
          ok (BY (N.shiftr (mlen r mod 4) 1) (q + length r mod 4 / 2)%nat
                ltac:(rewrite N.shiftr_div_pow2; change (2 ^ 1) with 2; unfold mlen; lia) ltac:(unfold q; lia)).
          ok (BY (mlen r mod 4 - 1) (length r - 1)%nat ltac:(unfold mlen, q; lia) ltac:(unfold q; lia)).
          reflexivity.
    - rewrite U, C. unfold hh_rest, hh_rest_with. destruct r; [cbn [length] in L; lia|reflexivity].
    - rewrite U. exact GU.
  Qed.

  (** ** All of a message *)
  Lemma loop_ok : forall fuel l p base st, bytes_at m (p + base) l -> p + base + mlen l < addr_space cfg -> base + mlen l + 32 < addr_space cfg ->
    (length l / 32 < fuel)%nat -> good (conv st) ->
    exists st', ProcessAll_loop fuel cfg p (base + mlen l) base st m
                = Ok ((base + 32 * (mlen l / 32), st'), m) /\
      conv st' = fold_left hh_packet (blocks 32 l) (conv st) /\ good (conv st').
  Proof.
    induction fuel as [|fuel IH]; intros l p base st H A A' F G; [lia|]. cbn [ProcessAll_loop].
    destruct (Nat.le_gt_cases 32 (length l)) as [C|C].
    - assert (E : l = firstn 32 l ++ skipn 32 l) by (symmetry; apply firstn_skipn).
      assert (L1 : length (firstn 32 l) = 32%nat) by (rewrite firstn_length; lia).
      set (b := firstn 32 l) in *. set (r := skipn 32 l) in *. clearbody b r. subst l.
      assert (ML : mlen (b ++ r) = 32 + mlen r) by (unfold mlen; rewrite app_length; lia).
      rewrite ML in *. rewrite padd_small by lia. destruct (N.leb_spec (base + 32) (base + (32 + mlen r))) as [_|X]; [|lia].
      apply bytes_at_app in H. destruct H as [H1 H2]. rewrite L1 in H2.
      rewrite padd_small by lia.
      destruct (packet_ok cfg m (p + base) b st L1 H1 ltac:(lia) G) as (st1 & E1 & C1 & G1). ok E1.
      replace (p + base + N.of_nat 32) with (p + (base + 32)) in H2 by lia.
      destruct (IH r p (base + 32) st1 H2 ltac:(lia) ltac:(lia)) as (st2 & E2 & C2 & G2); [|exact G1|].
      { rewrite app_length, L1, div_plus_one in F by discriminate. lia. }
      exists st2. replace (base + (32 + mlen r)) with (base + 32 + mlen r) by lia. rewrite E2. split; [|split; [|exact G2]].
      + replace (base + 32 * ((32 + mlen r) / 32)) with (base + 32 + 32 * (mlen r / 32)) by lia. reflexivity.
      + rewrite C2, blocks_app by (discriminate || exact L1). cbn [fold_left]. now rewrite C1.
    - exists st. rewrite padd_small by (unfold mlen in *; lia).
      destruct (N.leb_spec (base + 32) (base + mlen l)) as [X|_]; [unfold mlen in X; lia|].
      rewrite blocks_nil by exact C. cbn [fold_left]. split; [|now split].
      replace (mlen l / 32) with 0 by (unfold mlen; lia). now rewrite N.mul_0_r, N.add_0_r.
  Qed.
  Lemma process_ok : forall p msg key, good_quad key -> bytes_at m p msg -> p + mlen msg < addr_space cfg -> mlen msg + 32 < addr_space cfg ->
    exists st, ProcessAll cfg p (mlen msg) key m = Ok (st, m) /\ conv st = hh_absorb key msg /\ good (conv st).
  Proof.
    intros p msg key K H A A'. unfold ProcessAll. destruct (reset_ok key K) as [R G].
    rewrite <- R in G.
    destruct (loop_ok (S (N.to_nat (mlen msg / 32))) msg p 0 _ ltac:(now rewrite N.add_0_r) ltac:(lia) ltac:(lia) ltac:(unfold mlen; lia) G)
      as (st1 & E1 & C1 & G1).
    rewrite N.add_0_l in E1. ok E1. rewrite N.add_0_l, land_31.
    assert (LR : length (rest 32 msg) = (length msg mod 32)%nat) by now apply rest_length.
    assert (MR : mlen (rest 32 msg) = mlen msg mod 32) by (unfold mlen; lia).
    rewrite R in C1. unfold hh_absorb, hh_absorb_with. rewrite <- C1, <- MR.
    destruct (N.eqb_spec (mlen (rest 32 msg)) 0) as [Z|Z]; cbn [negb].
    - exists st1. split; [reflexivity|]. unfold mlen in Z. destruct (rest 32 msg); [|discriminate Z]. now split.
    - assert (HR : bytes_at m (p + 32 * (mlen msg / 32)) (rest 32 msg)).
      { unfold rest. replace (32 * (mlen msg / 32)) with (N.of_nat (32 * (length msg / 32))) by (unfold mlen; lia).
        apply bytes_at_skipn; [exact H|lia]. }
      rewrite padd_small by lia. apply remainder_ok; [unfold mlen in Z; lia|exact HR|unfold mlen in *; lia|exact G1].
  Qed.
  Lemma load_key_ok : forall q k0 k1 k2 k3, q + 32 <= addr_space cfg -> good_quad (k0, k1, k2, k3) ->
    bytes_at m q (flat_map (native cfg 8) [k0; k1; k2; k3]) -> load_key cfg q m = Ok ((k0, k1, k2, k3), m).
  Proof.
    intros q k0 k1 k2 k3 A (K0 & K1 & K2 & K3) H.
    assert (NL : forall x, length (native cfg 8 x) = 8%nat) by (intro; unfold native; destruct (big_endian cfg); [apply be_bytes_length|apply le_bytes_length]).
    cbn [flat_map] in H. rewrite app_nil_r in H.
    apply bytes_at_app in H. destruct H as [H0 H]. apply bytes_at_app in H. destruct H as [H1 H]. apply bytes_at_app in H. destruct H as [H2 H3].
    rewrite !NL in *.
    assert (LD : forall a x, x < 2 ^ 64 -> bytes_at m a (native cfg 8 x) -> load_uint cfg 8 a m = Ok (x, m)).
    { intros a x X B. rewrite (load_uint_ok cfg m a _ 8 B) by apply NL. unfold native.
      destruct (big_endian cfg); [rewrite be_num_be_bytes|rewrite le_num_le_bytes]; rewrite N.mod_small by exact X; reflexivity. }
    unfold load_key. rewrite !padd_small by lia. rewrite N.add_0_r.
    replace (q + N.of_nat 8) with (q + 8) in * by lia. replace (q + 8 + N.of_nat 8) with (q + 16) in * by lia.
    replace (q + 16 + N.of_nat 8) with (q + 24) in * by lia.
    ok (LD _ _ K0 H0). ok (LD _ _ K1 H1). ok (LD _ _ K2 H2). ok (LD _ _ K3 H3). reflexivity.
  Qed.
End Remainder.
