(** The word operations of the model agree with the arithmetic of the
    specification, for every build configuration. *)
From Coq Require Import ZArith NArith List Bool Lia Strings.Byte.
From Coq Require Import ZifyN ZifyNat ZifyBool.
From Verif Require Import Bytes CSem Bits T1ha1 Spec NBits.
Ltac Zify.zify_post_hook ::= Z.div_mod_to_equations.
Local Open Scope N_scope.

Lemma W64_pow : W64 = 2 ^ 64. Proof. reflexivity. Qed.
Lemma W32_pow : W32 = 2 ^ 32. Proof. reflexivity. Qed.
Lemma W128_pow : W128 = 2 ^ 128. Proof. reflexivity. Qed.

Lemma u64_eq : forall x, u64 x = x mod 2 ^ 64. Proof. reflexivity. Qed.
Lemma u32_eq : forall x, u32 x = x mod 2 ^ 32. Proof. reflexivity. Qed.

Lemma u64_lt : forall x, u64 x < W64. Proof. intro. unfold u64. lia. Qed.
Lemma u32_lt : forall x, u32 x < W32. Proof. intro. unfold u32. lia. Qed.
Lemma u64_small : forall x, x < W64 -> u64 x = x. Proof. intros. now apply N.mod_small. Qed.
Lemma u32_small : forall x, x < W32 -> u32 x = x. Proof. intros. now apply N.mod_small. Qed.
Lemma u64_u64 : forall x, u64 (u64 x) = u64 x. Proof. intro. apply u64_small, u64_lt. Qed.
Lemma u32_u32 : forall x, u32 (u32 x) = u32 x. Proof. intro. apply u32_small, u32_lt. Qed.

Lemma add64_eq : forall x y, add64 x y = add x y. Proof. reflexivity. Qed.
Lemma mul64_eq : forall x y, mul64 x y = mulw x y. Proof. reflexivity. Qed.
Lemma sub64_eq : forall x y, sub64 x y = sub x y. Proof. reflexivity. Qed.
Lemma add32_eq : forall x y, add32 x y = add_32 x y. Proof. reflexivity. Qed.
Lemma mul32_eq : forall x y, mul32 x y = mul_32 x y. Proof. reflexivity. Qed.

Lemma not64_eq : forall x, not64 x = compl x.
Proof.
  intro x. unfold not64, compl. change 18446744073709551615 with (2 ^ 64 - 1).
  rewrite lxor_ones_sub; [reflexivity|]. rewrite u64_eq. apply N.mod_lt. discriminate.
Qed.

Lemma not32_eq : forall x, not32 x = compl_32 x.
Proof.
  intro x. unfold not32, compl_32. change 4294967295 with (2 ^ 32 - 1).
  rewrite lxor_ones_sub; [reflexivity|]. rewrite u32_eq. apply N.mod_lt. discriminate.
Qed.

Lemma rot64_eq : forall x s, s <= 64 -> rot64 x s = rotr x s.
Proof.
  intros x s H. unfold rot64, rotr, shr64, shl64. rewrite u64_u64.
  change (x mod 2 ^ 64) with (u64 x).
  rewrite N.shiftr_div_pow2, N.shiftl_mul_pow2.
  rewrite (u64_eq (u64 x * _)).
  replace (2 ^ 64) with (2 ^ ((64 - s) + s)) by (f_equal; lia).
  rewrite mod_pow2_mul. apply lor_low_high.
  apply N.div_lt_upper_bound; [apply N.pow_nonzero; lia|].
  rewrite <- N.pow_add_r. replace (s + (64 - s)) with 64 by lia. apply u64_lt.
Qed.

Lemma rot32_eq : forall x s, s <= 32 -> rot32 x s = rotr_32 x s.
Proof.
  intros x s H. unfold rot32, rotr_32, shr32, shl32. rewrite u32_u32.
  change (x mod 2 ^ 32) with (u32 x).
  rewrite N.shiftr_div_pow2, N.shiftl_mul_pow2.
  rewrite (u32_eq (u32 x * _)).
  replace (2 ^ 32) with (2 ^ ((32 - s) + s)) by (f_equal; lia).
  rewrite mod_pow2_mul. apply lor_low_high.
  apply N.div_lt_upper_bound; [apply N.pow_nonzero; lia|].
  rewrite <- N.pow_add_r. replace (s + (32 - s)) with 32 by lia. apply u32_lt.
Qed.

(** ** Carries *)
Lemma divmod_is : forall n d q r, r < d -> n = d * q + r -> n / d = q /\ n mod d = r.
Proof.
  intros n d q r Hr E. split; [symmetry; now apply (N.div_unique n d q r)
                              |symmetry; now apply (N.mod_unique n d q r)].
Qed.

(** two chained 32-bit additions with carry are one 64-bit addition *)
Lemma addcarry_pair : forall c x y, x < W64 -> y < W64 -> c < 2 ->
  let l := (c + x mod W32 + y mod W32) mod W32 in
  let c1 := (c + x mod W32 + y mod W32) / W32 in
  let h := (c1 + x / W32 + y / W32) mod W32 in
  let c2 := (c1 + x / W32 + y / W32) / W32 in
  (x + y + c) / W64 = c2 /\ (x + y + c) mod W64 = l + W32 * h.
Proof.
  intros c x y Hx Hy Hc l c1 h c2.
  pose proof (N.div_mod x W32 ltac:(discriminate)) as Ex.
  pose proof (N.div_mod y W32 ltac:(discriminate)) as Ey.
  pose proof (N.div_mod (c + x mod W32 + y mod W32) W32 ltac:(discriminate)) as E1.
  pose proof (N.mod_lt (c + x mod W32 + y mod W32) W32 ltac:(discriminate)) as L1.
  pose proof (N.div_mod (c1 + x / W32 + y / W32) W32 ltac:(discriminate)) as E2.
  pose proof (N.mod_lt (c1 + x / W32 + y / W32) W32 ltac:(discriminate)) as L2.
  fold c1 in E1. fold l in E1, L1. fold c2 in E2. fold h in E2, L2.
  clearbody l h c1 c2. revert Ex Ey E1 E2.
  generalize (x mod W32) (x / W32) (y mod W32) (y / W32). intros.
  apply divmod_is; lia.
Qed.

Lemma addcarry_halves : forall x, x < W64 ->
  u32 (u32 x) = x mod W32 /\ u32 (u32 (shr64 x 32)) = x / W32.
Proof.
  intros x H. rewrite !u32_u32. split; [reflexivity|].
  unfold shr64. rewrite u64_small, N.shiftr_div_pow2 by assumption.
  apply u32_small. apply N.div_lt_upper_bound; [discriminate|exact H].
Qed.

Lemma add64carry_first_eq : forall cfg x y, x < W64 -> y < W64 ->
  add64carry_first cfg x y = ((x + y) / W64, (x + y) mod W64).
Proof.
  intros cfg x y Hx Hy. unfold add64carry_first. rewrite !u64_small by assumption.
  destruct (carry cfg).
  - reflexivity.
  - unfold add64, u64. f_equal. destruct (N.ltb_spec ((x + y) mod W64) y); lia.
  - unfold addcarry_u32.
    destruct (addcarry_halves x Hx) as [-> ->]. destruct (addcarry_halves y Hy) as [-> ->].
    destruct (addcarry_pair 0 x y Hx Hy ltac:(lia)) as [E1 E2]. rewrite N.add_0_r in E1, E2.
    rewrite E1, E2. reflexivity.
Qed.

Lemma add64carry_next_eq : forall cfg c x y, x < W64 -> y < W64 -> c < 2 ->
  add64carry_next cfg c x y = ((x + y + c) / W64, (x + y + c) mod W64).
Proof.
  intros cfg c x y Hx Hy Hc. unfold add64carry_next. rewrite !u64_small by assumption.
  destruct (carry cfg).
  - unfold add64, u64. f_equal. lia.
  - unfold add64, u64. f_equal; [|lia].
    assert (E : ((x + y) mod W64 + c) mod W64 = (x + y + c) mod W64) by lia. rewrite E.
    destruct (N.ltb_spec ((x + y + c) mod W64) y), (N.eqb_spec c 0),
      (N.eqb_spec ((x + y + c) mod W64) y); cbn [negb orb andb]; lia.
  - unfold addcarry_u32.
    destruct (addcarry_halves x Hx) as [-> ->]. destruct (addcarry_halves y Hy) as [-> ->].
    destruct (addcarry_pair c x y Hx Hy Hc) as [E1 E2].
    rewrite E1, E2. reflexivity.
Qed.

Lemma add64carry_last_eq : forall cfg c x y, x < W64 -> y < W64 -> c < 2 ->
  add64carry_last cfg c x y = (x + y + c) mod W64.
Proof.
  intros cfg c x y Hx Hy Hc. unfold add64carry_last. rewrite !u64_small by assumption.
  destruct (carry cfg).
  - unfold add64, u64. lia.
  - unfold add64, u64. lia.
  - unfold addcarry_u32.
    destruct (addcarry_halves x Hx) as [-> ->]. destruct (addcarry_halves y Hy) as [-> ->].
    destruct (addcarry_pair c x y Hx Hy Hc) as [E1 E2].
    rewrite E2. reflexivity.
Qed.

(** ** Multiplication *)
Lemma mul_32x32_64_eq : forall a b, mul_32x32_64 a b = (a mod W32) * (b mod W32).
Proof.
  intros. unfold mul_32x32_64, mul64, u32. apply u64_small.
  assert (a mod W32 < W32) by lia. assert (b mod W32 < W32) by lia. nia.
Qed.

Lemma mul_64x64_128_eq : forall cfg a b,
  mul_64x64_128 cfg a b = ((u64 a * u64 b) mod W64, (u64 a * u64 b) / W64).
Proof.
  intros cfg a b. unfold mul_64x64_128.
  pose proof (u64_lt a) as Ha. pose proof (u64_lt b) as Hb.
  set (x := u64 a) in *. set (y := u64 b) in *. clearbody x y. clear a b.
  destruct (mul cfg).
  - assert (x * y < W128) by nia. unfold u128. rewrite N.mod_small by assumption.
    rewrite N.shiftr_div_pow2. change (2 ^ 64) with W64. unfold u64. f_equal.
    apply N.mod_small. apply N.div_lt_upper_bound; [discriminate|]. lia.
  - reflexivity.
  - rewrite !mul_32x32_64_eq. unfold shr64. rewrite !N.shiftr_div_pow2.
    rewrite !u64_small by assumption. change (2 ^ 32) with W32. unfold u32.
    assert (Ex : x = x mod W32 + W32 * (x / W32)) by lia.
    assert (Ey : y = y mod W32 + W32 * (y / W32)) by lia.
    assert (x mod W32 < W32) by lia. assert (y mod W32 < W32) by lia.
    assert (x / W32 < W32) by lia. assert (y / W32 < W32) by lia.
    rewrite !(N.mod_mod) by discriminate.
    rewrite !(N.mod_small (x / W32)), !(N.mod_small (y / W32)) by assumption.
    set (x0 := x mod W32) in *. set (x1 := x / W32) in *.
    set (y0 := y mod W32) in *. set (y1 := y / W32) in *. clearbody x0 x1 y0 y1.
    assert (P : x * y = x0 * y0 + W32 * (x1 * y0) + W32 * (x0 * y1) + W64 * (x1 * y1)).
    { rewrite Ex, Ey. lia. }
    rewrite P. clear P Ex Ey Ha Hb x y.
    assert (x0 * y0 <= (W32 - 1) * (W32 - 1)) by nia.
    assert (x1 * y0 <= (W32 - 1) * (W32 - 1)) by nia.
    assert (x0 * y1 <= (W32 - 1) * (W32 - 1)) by nia.
    assert (x1 * y1 <= (W32 - 1) * (W32 - 1)) by nia.
    set (ll := x0 * y0) in *. set (lh := x1 * y0) in *.
    set (hl := x0 * y1) in *. set (hh := x1 * y1) in *. clearbody ll lh hl hh.
    unfold shl64. rewrite !N.shiftl_mul_pow2. change (2 ^ 32) with W32. unfold u64.
    rewrite !(N.mod_small lh), !(N.mod_small hl) by lia.
    rewrite add64carry_first_eq by lia.
    rewrite add64carry_last_eq by lia.
    rewrite add64carry_first_eq by lia.
    rewrite add64carry_last_eq by lia.
    clear H H0 H1 H2 x0 x1 y0 y1.
    assert (D : forall a n, n <> 0 -> exists q r, a = r + n * q /\ r < n /\ a / n = q /\ a mod n = r).
    { intros a n Z. exists (a / n), (a mod n). pose proof (N.div_mod a n Z). pose proof (N.mod_lt a n Z). repeat split; [lia|assumption]. }
    destruct (D lh W32 ltac:(discriminate)) as (b & a & E1 & B1 & -> & _).
    destruct (D hl W32 ltac:(discriminate)) as (d & c & E2 & B2 & -> & _).
    assert (M : forall r q, r < W32 -> ((r + W32 * q) * W32) mod W64 = r * W32).
    { intros r q R. replace ((r + W32 * q) * W32) with (r * W32 + q * W64) by lia. rewrite N.mod_add by discriminate. apply N.mod_small. lia. }
    rewrite E1, E2, !M by assumption.
    destruct (D (ll + a * W32) W64 ltac:(discriminate)) as (q1 & r1 & F1 & C1 & -> & ->).
    destruct (D (r1 + c * W32) W64 ltac:(discriminate)) as (q2 & r2 & F2 & C2 & -> & ->).
    replace (ll + W32 * (a + W32 * b) + W32 * (c + W32 * d) + W64 * hh) with (r2 + (hh + b + d + q1 + q2) * W64) by lia.
    rewrite N.mod_add, N.div_add, (N.mod_small r2), (N.div_small r2) by (discriminate || assumption).
    rewrite (N.mod_small (hh + b + q1)) by lia. rewrite N.mod_small by lia. f_equal. lia.
Qed.

Lemma mul_64x64_128_spec : forall cfg v p, p < W64 ->
  mul_64x64_128 cfg v p = (lo v p, hi v p).
Proof.
  intros. rewrite mul_64x64_128_eq, (u64_small p) by assumption. reflexivity.
Qed.

Lemma mux64_eq : forall cfg v p, p < W64 -> mux64 cfg v p = fold_xor v p.
Proof. intros. unfold mux64. now rewrite mul_64x64_128_spec. Qed.

Lemma mixup64_eq : forall cfg a b v p, p < W64 -> mixup64 cfg a b v p = mix p v (a, b).
Proof. intros. unfold mixup64, mix. now rewrite mul_64x64_128_spec. Qed.

Lemma prime_0_eq : prime_0 = P0. Proof. reflexivity. Qed.
Lemma prime_1_eq : prime_1 = P1. Proof. reflexivity. Qed.
Lemma prime_2_eq : prime_2 = P2. Proof. reflexivity. Qed.
Lemma prime_3_eq : prime_3 = P3. Proof. reflexivity. Qed.
Lemma prime_4_eq : prime_4 = P4. Proof. reflexivity. Qed.
Lemma prime_5_eq : prime_5 = P5. Proof. reflexivity. Qed.
Lemma prime_6_eq : prime_6 = P6. Proof. reflexivity. Qed.

Lemma final64_eq : forall cfg a b, final64 cfg a b = finish64 (a, b).
Proof.
  intros. unfold final64, finish64. rewrite mux64_eq by reflexivity.
  rewrite !rot64_eq by discriminate. reflexivity.
Qed.

Lemma mix64_eq : forall v p, mix64 v p = let m := mulw v p in xor m (rotr m 41).
Proof. intros. unfold mix64. rewrite rot64_eq by discriminate. reflexivity. Qed.

Lemma final_weak_avalanche_eq : forall cfg a b,
  final_weak_avalanche cfg a b = t1ha1_finish (a, b).
Proof.
  intros. unfold final_weak_avalanche, t1ha1_finish.
  rewrite mux64_eq, mix64_eq, rot64_eq by (reflexivity || discriminate). reflexivity.
Qed.

Lemma mixup32_eq : forall a b v p, p < W32 -> mixup32 a b v p = mix_32 p v (a, b).
Proof.
  intros a b v p Hp. unfold mixup32, mix_32. cbn [fst snd].
  rewrite mul_32x32_64_eq, (N.mod_small p) by assumption.
  change (add32 b v) with ((b + v) mod W32). change (add_32 b v) with ((b + v) mod W32).
  rewrite !N.mod_mod by discriminate.
  change (2 ^ 32) with W32. set (t := (b + v) mod W32).
  assert (Ht : t < W32) by (unfold t; lia). clearbody t.
  assert (t * p < W64) by nia. unfold shr64. rewrite u64_small by assumption.
  rewrite N.shiftr_div_pow2. change (2 ^ 32) with W32. unfold u32.
  rewrite (N.mod_small (t * p / W32)) by (apply N.div_lt_upper_bound; lia).
  reflexivity.
Qed.

Lemma final32_eq : forall a b, final32 a b = t1ha0_finish (a, b).
Proof.
  intros a b. unfold final32, t1ha0_finish. rewrite rot32_eq by discriminate.
  assert (R : rotr_32 (u32 a) 13 = rotr_32 a 13).
  { unfold rotr_32. change (2 ^ 32) with W32. unfold u32. now rewrite N.mod_mod. }
  rewrite R. unfold shl64. rewrite N.shiftl_mul_pow2.
  rewrite u64_small by (change (2 ^ 32) with W32; pose proof (u32_lt a); lia).
  rewrite lor_low_high.
  2:{ apply lxor_lt; [apply u32_lt|]. rewrite <- rot32_eq by discriminate.
      unfold rot32. apply lor_lt; change (2 ^ 32) with W32.
      - unfold shr32. rewrite N.shiftr_div_pow2, u32_u32.
        pose proof (u32_lt a). apply N.div_lt_upper_bound; [discriminate|].
        change (2 ^ 13) with 8192. lia.
      - apply u32_lt. }
  rewrite (N.mul_comm (u32 a)).
  change (b mod 2 ^ 32) with (u32 b). change (a mod 2 ^ 32) with (u32 a). unfold xor.
  cbv zeta. change mul64 with mulw. change prime_0 with P0. change prime_4 with P4. change prime_6 with P6.
  set (x := mulw _ P0). assert (Hx : x < W64) by apply u64_lt. clearbody x.
  unfold shr64. rewrite (u64_small x), N.shiftr_div_pow2 by assumption.
  set (y := mulw _ P4). assert (Hy : y < W64) by apply u64_lt. clearbody y.
  rewrite (u64_small y), N.shiftr_div_pow2 by assumption. reflexivity.
Qed.
