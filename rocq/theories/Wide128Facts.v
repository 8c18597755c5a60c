(** The 128-bit helpers compute modulo 2^128. *)
From Coq Require Import ZArith NArith Arith List Bool Lia.
From Coq Require Import ZifyN ZifyNat ZifyBool.
From Verif Require Import Bytes CSem Bits NBits OpsFacts.
Local Open Scope N_scope.

(** both halves are 64-bit numbers *)
Definition halves_ok (x : u128_t) : Prop := ul x < 2 ^ 64 /\ uh x < 2 ^ 64.
(** the number that a pair of halves stands for *)
Definition num128 (x : u128_t) : N := ul x + 2 ^ 64 * uh x.

Lemma v128_num : forall x, v128 x = num128 x. Proof. reflexivity. Qed.

Lemma num128_lt : forall x, halves_ok x -> num128 x < 2 ^ 128.
Proof.
  intros x [A B]. unfold num128. change (2 ^ 128) with (2 ^ 64 * 2 ^ 64).
  set (K := 2 ^ 64) in *. nia.
Qed.

Lemma of128_ok : forall v, v < 2 ^ 128 -> num128 (of128 v) = v /\ halves_ok (of128 v).
Proof.
  intros v V. unfold of128, num128, halves_ok. cbn [ul uh]. change W64 with (2 ^ 64).
  assert (D : v / 2 ^ 64 < 2 ^ 64).
  { apply N.div_lt_upper_bound; [discriminate|]. exact V. }
  rewrite (u64_small (v / 2 ^ 64)) by exact D. rewrite u64_eq.
  split; [|split; [apply N.mod_lt; discriminate|exact D]].
  pose proof (N.div_mod v (2 ^ 64) ltac:(discriminate)). lia.
Qed.

Lemma high_bits : forall n x i, x < 2 ^ n -> n <= i -> N.testbit x i = false.
Proof.
  intros n x i X I. destruct (N.eq_dec x 0) as [->|Z]; [apply N.bits_0|].
  apply N.bits_above_log2. apply N.lt_le_trans with n; [|exact I].
  apply N.log2_lt_pow2; lia.
Qed.

Lemma num128_bits : forall x i, halves_ok x ->
  N.testbit (num128 x) i = if i <? 64 then N.testbit (ul x) i else N.testbit (uh x) (i - 64).
Proof.
  intros x i [A B]. unfold num128. rewrite (N.mul_comm (2 ^ 64)), <- lor_low_high by exact A.
  rewrite N.lor_spec. destruct (N.ltb_spec i 64) as [L|L].
  - rewrite N.mul_pow2_bits_low by exact L. apply orb_false_r.
  - rewrite N.mul_pow2_bits_high by exact L. now rewrite (high_bits 64) by assumption.
Qed.

Lemma shl_bits : forall w x s i,
  N.testbit (N.shiftl x s mod 2 ^ w) i = (i <? w) && (s <=? i) && N.testbit x (i - s).
Proof.
  intros w x s i. destruct (N.ltb_spec i w) as [L|L].
  - rewrite N.mod_pow2_bits_low by exact L. destruct (N.leb_spec s i) as [S|S].
    + now rewrite N.shiftl_spec_high' by exact S.
    + now rewrite N.shiftl_spec_low by exact S.
  - now rewrite N.mod_pow2_bits_high by exact L.
Qed.

Lemma shl_mul : forall w x s, N.shiftl x s mod 2 ^ w = (x * 2 ^ s) mod 2 ^ w.
Proof. intros. now rewrite N.shiftl_mul_pow2. Qed.

Lemma not128_ok : forall cfg x, halves_ok x ->
  num128 (not128 cfg x) = 2 ^ 128 - 1 - num128 x /\ halves_ok (not128 cfg x).
Proof.
  intros cfg x H. pose proof (num128_lt x H) as L. unfold not128. destruct (int128 cfg).
  - change (v128 x) with (num128 x).
    change 340282366920938463463374607431768211455 with (2 ^ 128 - 1).
    rewrite lxor_ones_sub by exact L. apply of128_ok. lia.
  - destruct H as [A B]. rewrite !not64_eq. unfold num128, halves_ok, Spec.compl. cbn [ul uh].
    rewrite !N.mod_small by assumption. lia.
Qed.

Lemma or128_ok : forall cfg x y, halves_ok x -> halves_ok y ->
  num128 (or128 cfg x y) = N.lor (num128 x) (num128 y) /\ halves_ok (or128 cfg x y).
Proof.
  intros cfg x y X Y. unfold or128. destruct (int128 cfg).
  - apply of128_ok. apply lor_lt; now apply num128_lt.
  - assert (H : halves_ok (U128 (N.lor (ul x) (ul y)) (N.lor (uh x) (uh y)))).
    { destruct X, Y. split; cbn [ul uh]; now apply lor_lt. }
    split; [|exact H]. apply N.bits_inj. intro i.
    rewrite N.lor_spec, !num128_bits by assumption. cbn [ul uh]. rewrite !N.lor_spec.
    now destruct (i <? 64).
Qed.

Lemma xor128_ok : forall cfg x y, halves_ok x -> halves_ok y ->
  num128 (xor128 cfg x y) = N.lxor (num128 x) (num128 y) /\ halves_ok (xor128 cfg x y).
Proof.
  intros cfg x y X Y. unfold xor128. destruct (int128 cfg).
  - apply of128_ok. apply lxor_lt; now apply num128_lt.
  - assert (H : halves_ok (U128 (N.lxor (ul x) (ul y)) (N.lxor (uh x) (uh y)))).
    { destruct X, Y. split; cbn [ul uh]; now apply lxor_lt. }
    split; [|exact H]. apply N.bits_inj. intro i.
    rewrite N.lxor_spec, !num128_bits by assumption. cbn [ul uh]. rewrite !N.lxor_spec.
    now destruct (i <? 64).
Qed.

Lemma left128_ok : forall cfg x s, halves_ok x -> s < 128 ->
  exists r, left128 cfg x s = Ok r /\ num128 r = (num128 x * 2 ^ s) mod 2 ^ 128 /\ halves_ok r.
Proof.
  intros cfg x s H S. unfold left128. replace (s <? 128) with true by lia.
  rewrite andb_false_r. rewrite <- shl_mul.
  destruct (int128 cfg).
  - unfold c_shl, obind. replace (s <? 128) with true by lia. change (v128 x) with (num128 x).
    exists (of128 (N.shiftl (num128 x) s mod 2 ^ 128)). split; [reflexivity|]. apply of128_ok. apply N.mod_lt. discriminate.
  - destruct (N.ltb_spec s 64) as [L|L].
    + unfold c_shl. replace (s <? 64) with true by lia. cbn [obind].
      set (hi := N.shiftl (uh x) s mod 2 ^ 64).
      set (lo := N.shiftl (ul x) s mod 2 ^ 64).
      assert (E : (if negb (s =? 0) then c_shr 64 (ul x) (64 - s) else Ok 0)
                  = Ok (if s =? 0 then 0 else N.shiftr (ul x) (64 - s))).
      { destruct (N.eqb_spec s 0) as [->|Z]; [reflexivity|]. cbn [negb]. unfold c_shr.
        now replace (64 - s <? 64) with true by lia. }
      rewrite E. cbn [obind].
      set (mid := if s =? 0 then 0 else N.shiftr (ul x) (64 - s)).
      exists (U128 lo (N.lor hi mid)). split; [reflexivity|].
      assert (M : mid < 2 ^ 64).
      { unfold mid. destruct (s =? 0); [reflexivity|]. rewrite N.shiftr_div_pow2.
        apply N.le_lt_trans with (ul x); [|apply H]. apply N.div_le_upper_bound; [apply N.pow_nonzero; discriminate|].
        pose proof (pow2_pos (64 - s)). nia. }
      assert (HR : halves_ok (U128 lo (N.lor hi mid))).
      { split; cbn [ul uh]; [apply N.mod_lt; discriminate|]. apply lor_lt; [apply N.mod_lt; discriminate|exact M]. }
      split; [|exact HR]. apply N.bits_inj. intro i.
      rewrite num128_bits by exact HR. cbn [ul uh]. rewrite shl_bits, num128_bits by exact H.
      rewrite N.lor_spec. unfold lo, hi. rewrite !shl_bits.
      destruct (N.ltb_spec i 64) as [I|I].
      * replace (i <? 128) with true by lia. cbn [andb].
        destruct (N.leb_spec s i); [|reflexivity]. now replace (i - s <? 64) with true by lia.
      * assert (EM : N.testbit mid (i - 64) = (i - s <? 64) && N.testbit (ul x) (i - s)).
        { unfold mid. destruct (N.eqb_spec s 0) as [->|Z].
          - rewrite N.bits_0. replace (i - 0 <? 64) with false by lia. reflexivity.
          - rewrite N.shiftr_spec'. replace (i - 64 + (64 - s)) with (i - s) by lia.
            destruct (N.ltb_spec (i - s) 64) as [Q|Q]; [reflexivity|].
            rewrite (high_bits 64); [reflexivity|apply H|exact Q]. }
        rewrite EM. destruct (N.ltb_spec i 128) as [J|J].
        -- replace (i - 64 <? 64) with true by lia. replace (s <=? i) with true by lia. cbn [andb].
           destruct (N.ltb_spec (i - s) 64) as [Q|Q].
           ++ replace (s <=? i - 64) with false by lia. reflexivity.
           ++ replace (s <=? i - 64) with true by lia. cbn [andb].
              replace (i - 64 - s) with (i - s - 64) by lia. apply orb_false_r.
        -- replace (i - 64 <? 64) with false by lia. cbn [andb orb].
           replace (i - s <? 64) with false by lia. reflexivity.
    + cbn [obind]. unfold c_shl. replace (s - 64 <? 64) with true by lia. cbn [obind].
      exists (U128 0 (N.shiftl (ul x) (s - 64) mod 2 ^ 64)). split; [reflexivity|].
      assert (HR : halves_ok (U128 0 (N.shiftl (ul x) (s - 64) mod 2 ^ 64))).
      { split; cbn [ul uh]; [reflexivity|apply N.mod_lt; discriminate]. }
      split; [|exact HR]. apply N.bits_inj. intro i.
      rewrite num128_bits by exact HR. cbn [ul uh]. rewrite !shl_bits, num128_bits by exact H.
      rewrite N.bits_0. destruct (N.ltb_spec i 64) as [I|I].
      * replace (s <=? i) with false by lia. now rewrite andb_false_r.
      * destruct (N.ltb_spec i 128) as [J|J]; [|now replace (i - 64 <? 64) with false by lia].
        replace (i - 64 <? 64) with true by lia. cbn [andb].
        destruct (N.leb_spec s i) as [K|K]; [|now replace (s - 64 <=? i - 64) with false by lia].
        replace (s - 64 <=? i - 64) with true by lia. cbn [andb].
        replace (i - s <? 64) with true by lia. f_equal. lia.
Qed.

Lemma right128_ok : forall cfg x s, halves_ok x -> s < 128 ->
  exists r, right128 cfg x s = Ok r /\ num128 r = num128 x / 2 ^ s /\ halves_ok r.
Proof.
  intros cfg x s H S. unfold right128. replace (s <? 128) with true by lia.
  rewrite andb_false_r. rewrite <- N.shiftr_div_pow2.
  destruct (int128 cfg).
  - unfold c_shr, obind. replace (s <? 128) with true by lia. change (v128 x) with (num128 x).
    exists (of128 (N.shiftr (num128 x) s)). split; [reflexivity|]. apply of128_ok.
    rewrite N.shiftr_div_pow2. apply N.le_lt_trans with (num128 x); [|now apply num128_lt].
    apply N.div_le_upper_bound; [apply N.pow_nonzero; discriminate|]. pose proof (pow2_pos s). nia.
  - assert (SL : forall y k, y < 2 ^ 64 -> N.shiftr y k < 2 ^ 64).
    { intros y k Y. rewrite N.shiftr_div_pow2. apply N.le_lt_trans with y; [|exact Y].
      apply N.div_le_upper_bound; [apply N.pow_nonzero; discriminate|]. pose proof (pow2_pos k). nia. }
    destruct (N.ltb_spec s 64) as [L|L].
    + assert (E : (if negb (s =? 0) then c_shl 64 (uh x) (64 - s) else Ok 0)
                  = Ok (if s =? 0 then 0 else N.shiftl (uh x) (64 - s) mod 2 ^ 64)).
      { destruct (N.eqb_spec s 0) as [->|Z]; [reflexivity|]. cbn [negb]. unfold c_shl.
        now replace (64 - s <? 64) with true by lia. }
      rewrite E. cbn [obind]. unfold c_shr. replace (s <? 64) with true by lia. cbn [obind].
      set (mid := if s =? 0 then 0 else N.shiftl (uh x) (64 - s) mod 2 ^ 64).
      exists (U128 (N.lor mid (N.shiftr (ul x) s)) (N.shiftr (uh x) s)). split; [reflexivity|].
      assert (M : mid < 2 ^ 64) by (unfold mid; destruct (s =? 0); [reflexivity|apply N.mod_lt; discriminate]).
      assert (HR : halves_ok (U128 (N.lor mid (N.shiftr (ul x) s)) (N.shiftr (uh x) s))).
      { destruct H as [A B]. split; cbn [ul uh]; auto. apply lor_lt; auto. }
      split; [|exact HR]. apply N.bits_inj. intro i.
      rewrite num128_bits by exact HR. cbn [ul uh]. rewrite N.lor_spec, !N.shiftr_spec', num128_bits by exact H.
      destruct (N.ltb_spec i 64) as [I|I].
      * unfold mid. destruct (N.eqb_spec s 0) as [->|Z].
        -- rewrite N.bits_0. cbn [orb]. replace (i + 0 <? 64) with true by lia. reflexivity.
        -- rewrite shl_bits. replace (i <? 64) with true by lia. cbn [andb].
           destruct (N.ltb_spec (i + s) 64) as [Q|Q].
           ++ replace (64 - s <=? i) with false by lia. reflexivity.
           ++ replace (64 - s <=? i) with true by lia. cbn [andb].
              rewrite (high_bits 64 (ul x)) by (apply H || exact Q). rewrite orb_false_r. f_equal. lia.
      * replace (i + s <? 64) with false by lia. f_equal. lia.
    + unfold c_shr. replace (s - 64 <? 64) with true by lia. cbn [obind].
      exists (U128 (N.shiftr (uh x) (s - 64)) 0). split; [reflexivity|].
      assert (HR : halves_ok (U128 (N.shiftr (uh x) (s - 64)) 0)).
      { destruct H as [A B]. split; cbn [ul uh]; auto. reflexivity. }
      split; [|exact HR]. apply N.bits_inj. intro i.
      rewrite num128_bits by exact HR. cbn [ul uh]. rewrite N.bits_0, !N.shiftr_spec', num128_bits by exact H.
      replace (i + s <? 64) with false by lia.
      destruct (N.ltb_spec i 64) as [I|I]; [f_equal; lia|].
      symmetry. apply (high_bits 64); [apply H|lia].
Qed.

Lemma land127 : forall s, N.land s 127 = s mod 128.
Proof. intro. change 127 with (N.ones 7). apply N.land_ones. Qed.

Lemma rot128_ok : forall cfg x s, halves_ok x -> (int128 cfg = true -> s mod 128 <> 0) ->
  exists r, rot128 cfg x s = Ok r /\
    num128 r = num128 x / 2 ^ (s mod 128) + (num128 x mod 2 ^ (s mod 128)) * 2 ^ (128 - s mod 128) /\
    halves_ok r.
Proof.
  intros cfg x s H Z. unfold rot128. rewrite land127.
  assert (S : s mod 128 < 128) by (apply N.mod_lt; discriminate).
  set (k := s mod 128) in *. pose proof (num128_lt x H) as XL.
  assert (E : N.lor ((num128 x * 2 ^ (128 - k)) mod 2 ^ 128) (num128 x / 2 ^ k)
              = num128 x / 2 ^ k + (num128 x mod 2 ^ k) * 2 ^ (128 - k)).
  { replace (2 ^ 128) with (2 ^ ((128 - k) + k)) by (f_equal; lia).
    rewrite mod_pow2_mul. apply lor_high_low.
    apply N.div_lt_upper_bound; [apply N.pow_nonzero; discriminate|].
    rewrite <- N.pow_add_r. now replace (k + (128 - k)) with 128 by lia. }
  destruct (int128 cfg) eqn:I.
  - unfold c_shl, c_shr. specialize (Z eq_refl).
    replace (128 - k <? 128) with true by lia. replace (k <? 128) with true by lia. cbn [obind].
    change (v128 x) with (num128 x). rewrite shl_mul, N.shiftr_div_pow2, E.
    exists (of128 (num128 x / 2 ^ k + num128 x mod 2 ^ k * 2 ^ (128 - k))). split; [reflexivity|].
    apply of128_ok. rewrite <- E. apply lor_lt; [apply N.mod_lt; discriminate|].
    apply N.le_lt_trans with (num128 x); [|exact XL].
    apply N.div_le_upper_bound; [apply N.pow_nonzero; discriminate|]. pose proof (pow2_pos k). nia.
  - destruct (N.eqb_spec k 0) as [K|K]; cbn [negb].
    + exists x. split; [reflexivity|]. rewrite K. change (2 ^ 0) with 1. rewrite N.mod_1_r, N.div_1_r.
      split; [lia|exact H].
    + destruct (left128_ok cfg x (128 - k) H ltac:(lia)) as (a & Ea & Na & Ha).
      destruct (right128_ok cfg x k H S) as (b & Eb & Nb & Hb).
      rewrite Ea. cbn [obind]. rewrite Eb. cbn [obind].
      destruct (or128_ok cfg a b Ha Hb) as [O1 O2].
      exists (or128 cfg a b). split; [reflexivity|]. split; [|exact O2]. rewrite O1, Na, Nb. exact E.
Qed.

Lemma add128_ok : forall cfg x y, halves_ok x -> halves_ok y ->
  num128 (add128 cfg x y) = (num128 x + num128 y) mod 2 ^ 128 /\ halves_ok (add128 cfg x y).
Proof.
  intros cfg x y X Y. unfold add128. destruct (int128 cfg).
  - apply of128_ok. apply N.mod_lt. discriminate.
  - destruct X as [X1 X2], Y as [Y1 Y2]. rewrite add64carry_first_eq by assumption.
    change W64 with (2 ^ 64). set (K := 2 ^ 64) in *.
    assert (C : (ul x + ul y) / K < 2) by (apply N.div_lt_upper_bound; unfold K in *; lia).
    rewrite add64carry_last_eq by assumption. change W64 with K.
    unfold num128, halves_ok. cbn [ul uh]. fold K.
    assert (K0 : K <> 0) by discriminate.
    split; [|split; apply N.mod_lt; exact K0].
    pose proof (N.div_mod (ul x + ul y) K K0) as D1.
    pose proof (N.mod_lt (ul x + ul y) K K0) as M1.
    set (c := (ul x + ul y) / K) in *. set (l := (ul x + ul y) mod K) in *.
    pose proof (N.div_mod (uh x + uh y + c) K K0) as D2.
    pose proof (N.mod_lt (uh x + uh y + c) K K0) as M2.
    set (d := (uh x + uh y + c) / K) in *. set (h := (uh x + uh y + c) mod K) in *.
    apply N.mod_unique with (q := d).
    + change (2 ^ 128) with (K * K). nia.
    + change (2 ^ 128) with (K * K). nia.
Qed.

Lemma mul128_ok : forall cfg x y, halves_ok x -> halves_ok y ->
  num128 (mul128 cfg x y) = (num128 x * num128 y) mod 2 ^ 128 /\ halves_ok (mul128 cfg x y).
Proof.
  intros cfg x y X Y. unfold mul128. destruct (int128 cfg).
  - apply of128_ok. apply N.mod_lt. discriminate.
  - destruct X as [X1 X2], Y as [Y1 Y2]. rewrite mul_64x64_128_eq, !u64_small by assumption.
    unfold num128, halves_ok. cbn [ul uh]. unfold add64, mul64, u64.
    change W64 with (2 ^ 64). set (K := 2 ^ 64) in *. assert (K0 : K <> 0) by discriminate.
    split; [|split; apply N.mod_lt; exact K0].
    rewrite <- N.add_mod by exact K0. rewrite N.add_mod_idemp_r by exact K0.
    pose proof (N.div_mod (ul x * ul y) K K0) as D1. pose proof (N.mod_lt (ul x * ul y) K K0) as M1.
    set (q := ul x * ul y / K) in *. set (l := (ul x * ul y) mod K) in *.
    set (t := q + (ul x * uh y + ul y * uh x)).
    pose proof (N.div_mod t K K0) as D2. pose proof (N.mod_lt t K K0) as M2.
    set (d := t / K) in *. set (h := t mod K) in *.
    apply N.mod_unique with (q := d + uh x * uh y); change (2 ^ 128) with (K * K).
    + nia.
    + transitivity (ul x * ul y + K * (ul x * uh y + ul y * uh x) + K * K * (uh x * uh y)); [ring|].
      rewrite D1. transitivity (l + K * t + K * K * (uh x * uh y)); [unfold t; ring|]. rewrite D2. ring.
Qed.
