(** wyhash: the model computes the specification. *)
From Coq Require Import ZArith NArith Arith List Bool Lia Strings.Byte.
From Coq Require Import ZifyN ZifyNat ZifyBool.
From Verif Require Import Bytes CSem Bits Spec NBits CSemFacts OpsFacts FetchFacts CtxMem StreamFacts Wyhash WyhashSpec.
Import ListNotations.
Ltac Zify.zify_post_hook ::= Z.div_mod_to_equations.
Local Open Scope N_scope.

(** ** The product *)
Lemma wymum_ok : forall native A B, A < W64 -> B < W64 -> _wymum native A B = ((A * B) mod 2 ^ 64, A * B / 2 ^ 64).
Proof.
  intros native A B HA HB. unfold _wymum. destruct native.
  - assert (A * B < W128) by (change W128 with (W64 * W64); nia).
    unfold u128. rewrite N.mod_small by assumption. rewrite N.shiftr_div_pow2. f_equal.
    apply u64_small. apply N.div_lt_upper_bound; [discriminate|]. exact H.
  - unfold shr64. rewrite !N.shiftr_div_pow2, (u64_small A), (u64_small B) by assumption. change (2 ^ 32) with W32.
    set (ha := A / W32). set (hb := B / W32). set (la := u32 A). set (lb := u32 B).
    assert (EA : A = W32 * ha + la) by (unfold ha, la, u32; apply N.div_mod; discriminate).
    assert (EB : B = W32 * hb + lb) by (unfold hb, lb, u32; apply N.div_mod; discriminate).
    assert (LA : la < W32) by apply u32_lt. assert (LB : lb < W32) by apply u32_lt.
    assert (HAs : ha < W32) by (apply N.div_lt_upper_bound; [discriminate|exact HA]).
    assert (HBs : hb < W32) by (apply N.div_lt_upper_bound; [discriminate|exact HB]).
    clearbody ha hb la lb. subst A B.
    assert (P : forall x y, x < W32 -> y < W32 -> mul64 x y = x * y /\ x * y <= (W32 - 1) * (W32 - 1)).
    { intros x y X Y. assert (x * y <= (W32 - 1) * (W32 - 1)) by nia. split; [|assumption]. apply u64_small.
      eapply N.le_lt_trans; [eassumption|reflexivity]. }
    destruct (P ha hb HAs HBs) as (-> & Q1). destruct (P ha lb HAs LB) as (-> & Q2).
    destruct (P hb la HBs LA) as (-> & Q3). destruct (P la lb LA LB) as (-> & Q4).
    replace ((W32 * ha + la) * (W32 * hb + lb)) with (W64 * (ha * hb) + W32 * (ha * lb) + W32 * (hb * la) + la * lb)
      by (change W64 with (W32 * W32); ring).
    set (rh := ha * hb) in *. set (rm0 := ha * lb) in *. set (rm1 := hb * la) in *. set (rl := la * lb) in *.
    clearbody rh rm0 rm1 rl. clear -Q1 Q2 Q3 Q4. change ((W32 - 1) * (W32 - 1)) with 18446744065119617025 in *.
    rewrite !u64_small by lia. unfold shl64. rewrite !N.shiftl_mul_pow2. change (2 ^ 32) with W32. change (2 ^ 64) with W64.
    assert (D : forall x, u64 (x * W32) = W32 * (x mod W32)) by (intro x; unfold u64; lia).
    rewrite !D.
    assert (E0 : rm0 = W32 * (rm0 / W32) + rm0 mod W32) by (apply N.div_mod; discriminate).
    assert (E1 : rm1 = W32 * (rm1 / W32) + rm1 mod W32) by (apply N.div_mod; discriminate).
    assert (L0 : rm0 mod W32 < W32) by lia. assert (L1 : rm1 mod W32 < W32) by lia.
    assert (H0 : rm0 / W32 < W32) by lia. assert (H1 : rm1 / W32 < W32) by lia.
    set (m0 := rm0 mod W32) in *. set (m1 := rm1 mod W32) in *. set (d0 := rm0 / W32) in *. set (d1 := rm1 / W32) in *.
    clearbody m0 m1 d0 d1. subst rm0 rm1. clear D.
    set (t := add64 rl (W32 * m0)).
    assert (T : rl + W32 * m0 = t + W64 * (if t <? rl then 1 else 0) /\ t < W64).
    { unfold t, add64, u64. destruct (N.ltb_spec ((rl + W32 * m0) mod W64) rl); lia. }
    destruct T as (T & TL). clearbody t.
    set (lo' := add64 t (W32 * m1)).
    assert (L : t + W32 * m1 = lo' + W64 * (if lo' <? t then 1 else 0) /\ lo' < W64).
    { unfold lo', add64, u64. destruct (N.ltb_spec ((t + W32 * m1) mod W64) t); lia. }
    destruct L as (L & LL). clearbody lo'.
    set (c0 := if t <? rl then 1 else 0) in *. set (c1 := if lo' <? t then 1 else 0) in *.
    assert (C0 : c0 <= 1) by (unfold c0; destruct (t <? rl); lia).
    assert (C1 : c1 <= 1) by (unfold c1; destruct (lo' <? t); lia). clearbody c0 c1.
    assert (X : W64 * rh + W32 * (W32 * d0 + m0) + W32 * (W32 * d1 + m1) + rl = W64 * (rh + d0 + d1 + c0 + c1) + lo').
    { change W64 with (W32 * W32) in *. nia. }
    destruct (divmod_is _ W64 (rh + d0 + d1 + c0 + c1) lo' LL X) as (-> & ->). f_equal.
    unfold add64, u64. lia.
Qed.
Lemma wymix_ok : forall native A B, A < W64 -> B < W64 -> _wymix native A B = mum A B.
Proof. intros native A B HA HB. unfold _wymix, mum. now rewrite wymum_ok. Qed.
Lemma mum_lt : forall x y, x < W64 -> y < W64 -> mum x y < W64.
Proof.
  intros x y X Y. unfold mum, xor. apply (lxor_lt 64).
  - apply N.mod_lt. discriminate.
  - apply N.div_lt_upper_bound; [discriminate|]. change (2 ^ 64) with W64. nia.
Qed.
Lemma xor_lt : forall x y, x < W64 -> y < W64 -> xor x y < W64.
Proof. intros. now apply (lxor_lt 64). Qed.

(** ** Cutting *)
Lemma first_groups_app : forall k n b r, length b = k -> first_groups k (S n) (b ++ r) = b :: first_groups k n r.
Proof.
  intros k n b r L. unfold first_groups. cbn [seq map]. f_equal; [now apply group_0_app|].
  rewrite <- seq_shift, map_map. apply map_ext. intro i. now apply group_S_app.
Qed.
Lemma before_last_app : forall k b r, k <> 0%nat -> length b = k -> r <> [] -> before_last k (b ++ r) = S (before_last k r).
Proof.
  intros k b r K L R. unfold before_last. rewrite app_length, L. destruct r as [|x r]; [contradiction|]. cbn [length].
  replace (k + S (length r) - 1)%nat with (k + (S (length r) - 1))%nat by lia. now rewrite div_plus_one.
Qed.
Lemma before_last_zero : forall k l, k <> 0%nat -> (length l <= k)%nat -> before_last k l = 0%nat.
Proof. intros k l K L. unfold before_last. apply Nat.div_small. lia. Qed.
Lemma head_of : forall k (l : list byte), (k < length l)%nat ->
  exists b r, l = b ++ r /\ length b = k /\ r <> [] /\ length r = (length l - k)%nat.
Proof.
  intros k l H. exists (firstn k l), (skipn k l). rewrite firstn_skipn, firstn_length_le, skipn_length by lia.
  repeat split. intro E. assert (length (skipn k l) = 0%nat) by now rewrite E. rewrite skipn_length in H0. lia.
Qed.
Lemma le_num_8 : forall l : list byte, (length l <= 8)%nat -> le_num l < W64.
Proof.
  intros l L. eapply N.lt_le_trans; [apply le_num_lt|]. change W64 with (256 ^ 8). apply N.pow_le_mono_r; lia.
Qed.
Lemma word_lt : forall i g, le_num (group 8 i g) < W64.
Proof. intros. apply le_num_8. unfold group. rewrite firstn_length. lia. Qed.

Section Wyhash.
  Variables (cfg : config) (native : bool) (m : mem) (secret : N).
  Variables S0 S1 S2 S3 S4 : N.
  Hypothesis secrets_lt : S0 < W64 /\ S1 < W64 /\ S2 < W64 /\ S3 < W64 /\ S4 < W64.
  Hypothesis secrets_at : forall i s, nth_error [S0; S1; S2; S3; S4] i = Some s ->
    bytes_at m (secret + 8 * N.of_nat i) (CtxMem.native cfg 8 s).
  Hypothesis secret_fits : secret + 40 <= addr_space cfg.

  Lemma wyr8_ok : forall p l, bytes_at m p l -> length l = 8%nat -> _wyr8 cfg p m = Ok (le_num l, m).
  Proof.
    intros p l H L. unfold _wyr8. ok (load_uint_ok cfg m p l 8 H L). unfold ret.
    destruct (big_endian cfg); [|reflexivity]. do 2 f_equal.
    rewrite <- (rev_involutive l) at 2. fold (be_num (rev l)). f_equal. unfold be_num.
    rewrite <- L, <- (rev_length l). apply le_bytes_le_num.
  Qed.
  Lemma wyr4_ok : forall p l, bytes_at m p l -> length l = 4%nat -> _wyr4 cfg p m = Ok (le_num l, m).
  Proof.
    intros p l H L. unfold _wyr4. ok (load_uint_ok cfg m p l 4 H L). unfold ret.
    destruct (big_endian cfg); [|reflexivity]. do 2 f_equal.
    rewrite <- (rev_involutive l) at 2. fold (be_num (rev l)). f_equal. unfold be_num.
    rewrite <- L, <- (rev_length l). apply le_bytes_le_num.
  Qed.
  (** the word number [i] of a message *)
  Lemma word_ok : forall p l i, bytes_at m p l -> p + mlen l < addr_space cfg -> (8 * i + 8 <= length l)%nat ->
    _wyr8 cfg (p + 8 * N.of_nat i) m = Ok (le_num (group 8 i l), m).
  Proof.
    intros p l i H A L. apply wyr8_ok.
    - unfold group. replace (p + 8 * N.of_nat i) with (p + N.of_nat (8 * i)) by lia.
      apply bytes_at_firstn, bytes_at_skipn; [exact H|lia].
    - unfold group. rewrite firstn_length, skipn_length. lia.
  Qed.
  Lemma secret_ok : forall i s, nth_error [S0; S1; S2; S3; S4] i = Some s -> wysecret cfg secret (N.of_nat i) m = Ok (s, m).
  Proof.
    intros i s H. unfold wysecret.
    assert (I : (i < 5)%nat) by (apply (proj1 (nth_error_Some [S0; S1; S2; S3; S4] i)); congruence).
    rewrite padd_small by lia. assert (B := secrets_at i s H).
    assert (SL : s < W64).
    { destruct secrets_lt as (? & ? & ? & ? & ?). do 5 (destruct i as [|i]; [now injection H as <-|]). destruct i; discriminate. }
    rewrite (load_uint_ok cfg m _ _ 8 B) by apply native_length. do 2 f_equal. unfold CtxMem.native.
    destruct (big_endian cfg).
    - rewrite be_num_be_bytes. change (256 ^ N.of_nat 8) with W64. now apply N.mod_small.
    - rewrite le_num_le_bytes. change (256 ^ N.of_nat 8) with W64. now apply N.mod_small.
  Qed.

  Lemma lanes_lt : forall s t g, s < W64 -> t < W64 ->
    fst (lanes S1 S2 S3 S4 (s, t) g) < W64 /\ snd (lanes S1 S2 S3 S4 (s, t) g) < W64.
  Proof.
    intros s t g HS HT. destruct secrets_lt as (B0 & B1 & B2 & B3 & B4). cbn [lanes fst snd].
    split; apply xor_lt; apply mum_lt; apply xor_lt; auto using word_lt.
  Qed.

  Lemma step_ok : forall s t p i b r, length b = 64%nat -> bytes_at m p (b ++ r) -> p + mlen (b ++ r) < addr_space cfg ->
    s < W64 -> t < W64 -> 64 <= i -> i < W64 ->
    wyhash_step cfg native secret (s, t, p, i) m
    = Ok ((fst (lanes S1 S2 S3 S4 (s, t) b), snd (lanes S1 S2 S3 S4 (s, t) b), p + 64, i - 64), m).
  Proof.
    intros s t p i b r L H A HS HT I1 I2. destruct secrets_lt as (B0 & B1 & B2 & B3 & B4). unfold wyhash_step.
    assert (LL : mlen (b ++ r) = 64 + mlen r) by (unfold mlen; rewrite app_length, L; lia).
    rewrite !padd_small by lia.
    assert (W : forall k q, (k < 8)%nat -> q = p + 8 * N.of_nat k -> _wyr8 cfg q m = Ok (le_num (group 8 k b), m)).
    { intros k q K ->. apply word_ok; [|unfold mlen in *; lia|lia].
      rewrite <- (firstn_all b), L. replace b with (firstn 64 (b ++ r)); [now apply bytes_at_firstn; apply bytes_at_firstn|].
      rewrite firstn_app, L, <- L, firstn_all, Nat.sub_diag. apply app_nil_r. }
    ok (W 0%nat p ltac:(lia) ltac:(lia)). ok (secret_ok 1 S1 eq_refl). ok (W 1%nat (p + 8) ltac:(lia) ltac:(lia)).
    ok (W 2%nat (p + 16) ltac:(lia) ltac:(lia)). ok (secret_ok 2 S2 eq_refl). ok (W 3%nat (p + 24) ltac:(lia) ltac:(lia)).
    ok (W 4%nat (p + 32) ltac:(lia) ltac:(lia)). ok (secret_ok 3 S3 eq_refl). ok (W 5%nat (p + 40) ltac:(lia) ltac:(lia)).
    ok (W 6%nat (p + 48) ltac:(lia) ltac:(lia)). ok (secret_ok 4 S4 eq_refl). ok (W 7%nat (p + 56) ltac:(lia) ltac:(lia)).
    rewrite !wymix_ok by (apply xor_lt; auto using word_lt). unfold ret. cbn [lanes fst snd]. do 3 f_equal.
    unfold sub64, u64. lia.
  Qed.

  Lemma loop_ok : forall n fuel msg s t p, (64 < length msg)%nat -> n = before_last 64 msg -> (n <= fuel)%nat ->
    bytes_at m p msg -> p + mlen msg < addr_space cfg -> s < W64 -> t < W64 ->
    do_while fuel (wyhash_step cfg native secret) (fun x : N * N * N * N => 64 <? snd x) (s, t, p, mlen msg) m
    = Ok (let st := fold_left (lanes S1 S2 S3 S4) (first_groups 64 n msg) (s, t) in
          (fst st, snd st, p + 64 * N.of_nat n, mlen msg - 64 * N.of_nat n), m).
  Proof.
    induction n as [|n IH]; intros fuel msg s t p L N1 F H A HS HT.
    { unfold before_last in N1. assert (0 < (length msg - 1) / 64)%nat by (apply Nat.div_str_pos; lia). lia. }
    destruct fuel as [|fuel]; [lia|].
    destruct (head_of 64 msg L) as (b & r & -> & Lb & R & LR).
    rewrite before_last_app in N1 by (auto; lia). apply Nat.succ_inj in N1.
    rewrite app_length in LR.
    assert (LL : mlen (b ++ r) = 64 + mlen r) by (unfold mlen; rewrite app_length, Lb; lia).
    assert (Rp : 1 <= mlen r) by (destruct r; [contradiction|unfold mlen; cbn [length]; lia]).
    pose proof (addr_space_le cfg) as AL.
    cbn [do_while]. rewrite (bind_ok _ _ _ _ _ _ _ (step_ok s t p (mlen (b ++ r)) b r Lb H A HS HT ltac:(lia) ltac:(lia))).
    cbn [snd]. rewrite first_groups_app by assumption. cbn [fold_left].
    destruct (lanes_lt s t b HS HT) as (X1 & X2). destruct (lanes S1 S2 S3 S4 (s, t) b) as [s' t']. cbn [fst snd] in *.
    replace (mlen (b ++ r) - 64) with (mlen r) by lia.
    apply bytes_at_app in H. destruct H as [_ H]. rewrite Lb in H. change (N.of_nat 64) with 64 in H.
    destruct (N.ltb_spec 64 (mlen r)) as [C|C].
    - rewrite (IH fuel r s' t' (p + 64)); auto; [|unfold mlen in C; lia|lia|lia].
      cbv zeta. replace (p + 64 * N.of_nat (S n)) with (p + 64 + 64 * N.of_nat n) by lia.
      replace (mlen (b ++ r) - 64 * N.of_nat (S n)) with (mlen r - 64 * N.of_nat n) by lia. reflexivity.
    - assert (n = 0%nat) as -> by (rewrite N1; apply before_last_zero; [discriminate|unfold mlen in C; lia]).
      unfold ret. cbn [first_groups seq map fold_left fst snd].
      replace (p + 64 * N.of_nat 1) with (p + 64) by lia.
      replace (mlen (b ++ r) - 64 * N.of_nat 1) with (mlen r) by lia. reflexivity.
  Qed.

  Lemma finish16_ok : forall l p len s, (length l <= 16)%nat -> bytes_at m p l -> p + mlen l < addr_space cfg ->
    len < W64 -> s < W64 ->
    _wyfinish16 cfg native p len s secret (mlen l) m
    = Ok (let '(a, b) := last_words l in mum (xor S1 len) (mum (xor a S1) (xor b s)), m).
  Proof.
    intros l p len s L H A HL HS. destruct secrets_lt as (B0 & B1 & B2 & B3 & B4). unfold _wyfinish16.
    assert (K : forall ab, fst ab < W64 -> snd ab < W64 ->
      (s1 <- wysecret cfg secret 1 ;;
       ret (_wymix native (N.lxor s1 len) (_wymix native (N.lxor (fst ab) s1) (N.lxor (snd ab) s)))) m
      = Ok (mum (xor S1 len) (mum (xor (fst ab) S1) (xor (snd ab) s)), m)).
    { intros ab Ha Hb. ok (secret_ok 1 S1 eq_refl). unfold ret.
      rewrite (wymix_ok native (N.lxor (fst ab) S1)) by (apply xor_lt; auto).
      rewrite wymix_ok; [reflexivity|now apply xor_lt|]. apply mum_lt; apply xor_lt; auto. }
    assert (FS : forall k, (k <= length l)%nat -> bytes_at m p (firstn k l) /\ length (firstn k l) = k /\
      bytes_at m (p + mlen l - N.of_nat k) (skipn (length l - k) l) /\ length (skipn (length l - k) l) = k).
    { intros k HK. split; [now apply bytes_at_firstn|]. rewrite firstn_length_le, skipn_length by lia.
      split; [reflexivity|]. split; [|lia]. replace (p + mlen l - N.of_nat k) with (p + N.of_nat (length l - k)) by (unfold mlen; lia).
      apply bytes_at_skipn; [exact H|lia]. }
    assert (PS : forall k, k <= mlen l -> psub cfg (padd cfg p (mlen l)) k = p + mlen l - k).
    { intros k HK. rewrite padd_small, psub_small by lia. reflexivity. }
    unfold last_words. 
    destruct (N.leb_spec (mlen l) 8) as [C8|C8].
    - destruct (N.leb_spec 4 (mlen l)) as [C4|C4].
      + replace (length l =? 0)%nat with false by (unfold mlen in *; lia).
        replace (length l <? 4)%nat with false by (unfold mlen in *; lia).
        replace (length l <=? 8)%nat with true by (unfold mlen in *; lia).
        destruct (FS 4%nat ltac:(unfold mlen in *; lia)) as (F1 & F2 & F3 & F4). change (N.of_nat 4) with 4 in F3.
        rewrite (bind_ok _ _ _ _ _ (le_num (firstn 4 l), le_num (skipn (length l - 4) l)) m).
        * apply K; apply le_num_8; cbn [fst snd]; lia.
        * ok (wyr4_ok _ _ F1 F2). rewrite PS by lia. ok (wyr4_ok _ _ F3 F4). reflexivity.
      + destruct (N.eqb_spec (mlen l) 0) as [C0|C0]; cbn [negb].
        * replace (length l =? 0)%nat with true by (unfold mlen in *; lia). rewrite bind_ret. now apply (K (0, 0)).
        * replace (length l =? 0)%nat with false by (unfold mlen in *; lia).
          replace (length l <? 4)%nat with true by (unfold mlen in *; lia).
          set (n := length l). assert (NL : (1 <= n < 4)%nat) by (unfold n, mlen in *; lia).
          assert (B : forall i, (i < n)%nat -> load8 (p + N.of_nat i) m = Ok (nth i l x00, m)).
          { intros i I. apply load8_ok. apply H. apply nth_error_nth'. exact I. }
          rewrite (bind_ok _ _ _ _ _ (be_num [nth 0 l x00; nth (n / 2) l x00; nth (n - 1) l x00], 0) m).
          -- apply K; cbn [fst snd]; [|reflexivity].
             eapply N.lt_trans; [apply be_num_lt|reflexivity].
          -- rewrite (bind_ok _ _ _ _ _ (be_num [nth 0 l x00; nth (n / 2) l x00; nth (n - 1) l x00]) m); [reflexivity|].
             unfold _wyr3. assert (EN : mlen l = N.of_nat n) by reflexivity. rewrite EN.
             unfold shr32. rewrite u32_u32, u32_small by (clear -NL; lia). rewrite N.shiftr_div_pow2. change (2 ^ 1) with 2.
             rewrite !padd_small by lia.
             assert (E1 := B 0%nat ltac:(lia)). rewrite N.add_0_r in E1. ok E1.
             assert (E2 := B (n / 2)%nat ltac:(apply Nat.div_lt; lia)).
             replace (N.of_nat n / 2) with (N.of_nat (n / 2)) by (clear; lia). ok E2.
             assert (E3 := B (n - 1)%nat ltac:(lia)).
             replace (N.of_nat n - 1) with (N.of_nat (n - 1)) by (clear -NL; lia). ok E3.
             unfold ret. do 2 f_equal. unfold be_num. cbn [rev app le_num].
             pose proof (b2n_lt (nth 0 l x00)). pose proof (b2n_lt (nth (n / 2) l x00)). pose proof (b2n_lt (nth (n - 1) l x00)).
             generalize dependent (b2n (nth 0 l x00)). generalize dependent (b2n (nth (n / 2) l x00)).
             generalize dependent (b2n (nth (n - 1) l x00)). clear. intros z Z y Y x X.
             unfold shl64. rewrite !N.shiftl_mul_pow2, !u64_small by (change (2 ^ 16) with 65536; change (2 ^ 8) with 256; lia).
             replace (x * 2 ^ 16) with (x * 2 ^ 8 * 2 ^ 8) by (change (2 ^ 16) with (2 ^ 8 * 2 ^ 8); ring).
             assert (O : N.lor (x * 2 ^ 8 * 2 ^ 8) (y * 2 ^ 8) = (x * 2 ^ 8 + y) * 2 ^ 8).
             { rewrite <- !N.shiftl_mul_pow2, <- N.shiftl_lor, !N.shiftl_mul_pow2, lor_high_low by exact Y.
               change (2 ^ 8) with 256. ring. }
             rewrite O, lor_high_low by exact Z. change (2 ^ 8) with 256. ring.
    - replace (length l =? 0)%nat with false by (unfold mlen in *; lia).
      replace (length l <? 4)%nat with false by (unfold mlen in *; lia).
      replace (length l <=? 8)%nat with false by (unfold mlen in *; lia).
      destruct (FS 8%nat ltac:(unfold mlen in *; lia)) as (F1 & F2 & F3 & F4). change (N.of_nat 8) with 8 in F3.
      rewrite (bind_ok _ _ _ _ _ (le_num (firstn 8 l), le_num (skipn (length l - 8) l)) m).
      + apply K; apply le_num_8; cbn [fst snd]; lia.
      + ok (wyr8_ok _ _ F1 F2). rewrite PS by lia. ok (wyr8_ok _ _ F3 F4). reflexivity.
  Qed.

  Lemma lane_lt : forall s g, s < W64 -> lane S1 s g < W64.
  Proof.
    intros s g HS. destruct secrets_lt as (B0 & B1 & B2 & B3 & B4). apply mum_lt; apply xor_lt; auto using word_lt.
  Qed.

  Lemma finish_ok : forall k fuel l p len s, k = before_last 16 l -> (k <= fuel)%nat -> bytes_at m p l ->
    p + mlen l < addr_space cfg -> len < W64 -> s < W64 ->
    _wyfinish fuel cfg native p len s secret (mlen l) m
    = Ok (let s := fold_left (lane S1) (first_groups 16 k l) s in
          let '(a, b) := last_words (skipn (16 * k) l) in mum (xor S1 len) (mum (xor a S1) (xor b s)), m).
  Proof.
    destruct secrets_lt as (B0 & B1 & B2 & B3 & B4).
    induction k as [|k IH]; intros fuel l p len s K F H A HL HS.
    - assert (L : (length l <= 16)%nat).
      { unfold before_last in K. destruct (Nat.le_gt_cases (length l) 16) as [?|G]; [assumption|].
        assert (0 < (length l - 1) / 16)%nat by (apply Nat.div_str_pos; lia). lia. }
      assert (E : _wyfinish fuel cfg native p len s secret (mlen l) = _wyfinish16 cfg native p len s secret (mlen l)).
      { destruct fuel; cbn [_wyfinish]; replace (mlen l <=? 16) with true by (unfold mlen; lia); reflexivity. }
      rewrite E, finish16_ok by assumption. reflexivity.
    - assert (L : (16 < length l)%nat).
      { destruct (Nat.le_gt_cases (length l) 16) as [G|?]; [|assumption].
        rewrite before_last_zero in K by (discriminate || assumption). discriminate. }
      destruct fuel as [|fuel]; [lia|].
      destruct (head_of 16 l L) as (b & r & -> & Lb & R & LR).
      rewrite before_last_app in K by (auto; lia). apply Nat.succ_inj in K.
      assert (LL : mlen (b ++ r) = 16 + mlen r) by (unfold mlen; rewrite app_length, Lb; lia).
      assert (Rp : 1 <= mlen r) by (destruct r; [contradiction|unfold mlen; cbn [length]; lia]).
      pose proof (addr_space_le cfg) as AL.
      pose proof H as H'. apply bytes_at_app in H'. destruct H' as [Hb Hr]. rewrite Lb in Hr. change (N.of_nat 16) with 16 in Hr.
      cbn [_wyfinish]. replace (mlen (b ++ r) <=? 16) with false by lia.
      assert (W0 := word_ok p b 0 Hb ltac:(unfold mlen in *; lia) ltac:(lia)). rewrite N.mul_0_r, N.add_0_r in W0.
      assert (W1 := word_ok p b 1 Hb ltac:(unfold mlen in *; lia) ltac:(lia)). change (8 * N.of_nat 1) with 8 in W1.
      ok W0. ok (secret_ok 1 S1 eq_refl). rewrite !padd_small by lia. ok W1.
      rewrite wymix_ok by (apply xor_lt; auto using word_lt). 
      replace (sub64 (mlen (b ++ r)) 16) with (mlen r) by (unfold sub64, u64; lia).
      fold (xor (le_num (group 8 0 b)) S1). fold (xor (le_num (group 8 1 b)) s). fold (lane S1 s b).
      rewrite (IH fuel r (p + 16) len (lane S1 s b)); auto using lane_lt; try lia.
      rewrite first_groups_app by assumption. cbn [fold_left]. cbv zeta.
      replace (skipn (16 * S k) (b ++ r)) with (skipn (16 * k) r); [reflexivity|].
      rewrite skipn_app, Lb, (skipn_all2 b) by lia. cbn [app]. f_equal. lia.
  Qed.

  Theorem wyhash_ok : forall msg p seed, bytes_at m p msg -> p + mlen msg < addr_space cfg -> seed < W64 ->
    wyhash cfg native p (mlen msg) seed secret m = Ok (wy S0 S1 S2 S3 S4 msg seed, m).
  Proof.
    intros msg p seed H A HS. destruct secrets_lt as (B0 & B1 & B2 & B3 & B4). pose proof (addr_space_le cfg) as AL.
    unfold wyhash. ok (secret_ok 0 S0 eq_refl). set (s := N.lxor seed S0).
    assert (HX : s < W64) by now apply xor_lt.
    assert (SK : forall n, (n * 64 <= length msg - 1)%nat -> mlen (skipn (64 * n) msg) = mlen msg - 64 * N.of_nat n).
    { intros n N1. unfold mlen. rewrite skipn_length. lia. }
    assert (LS : forall ms s t, s < W64 -> t < W64 -> fst (fold_left (lanes S1 S2 S3 S4) ms (s, t)) < W64 /\
        snd (fold_left (lanes S1 S2 S3 S4) ms (s, t)) < W64).
    { induction ms as [|g ms IH]; intros s1 t1 H1 H2; cbn [fold_left]; [now split|].
      destruct (lanes_lt s1 t1 g H1 H2). destruct (lanes S1 S2 S3 S4 (s1, t1) g). now apply IH. }
    assert (BL : forall msg' : list byte, (length msg' <= 64)%nat -> (before_last 16 msg' <= 4)%nat).
    { intros msg' L. unfold before_last. assert ((length msg' - 1) / 16 <= 63 / 16)%nat by (apply Nat.div_le_mono; lia).
      change (63 / 16)%nat with 3%nat in *. lia. }
    unfold wy. fold s. change (xor seed S0) with s.
    destruct (N.ltb_spec 64 (mlen msg)) as [C|C].
    - set (n := before_last 64 msg).
      assert (N1 : (n * 64 <= length msg - 1 < n * 64 + 64)%nat).
      { unfold n, before_last. pose proof (Nat.div_mod (length msg - 1) 64 ltac:(lia)).
        pose proof (Nat.mod_upper_bound (length msg - 1) 64 ltac:(lia)). lia. }
      assert (NZ : n <> 0%nat) by (unfold mlen in C; lia).
      assert (LP := loop_ok n (N.to_nat (mlen msg / 64)) msg s s p ltac:(unfold mlen in C; lia) eq_refl
        ltac:(unfold mlen; lia) H A HX HX).
      cbv zeta in LP. destruct (LS (first_groups 64 n msg) s s HX HX) as (X1 & X2).
      destruct (fold_left (lanes S1 S2 S3 S4) (first_groups 64 n msg) (s, s)) as [s' t'] eqn:FE. cbn [fst snd] in *.
      rewrite (bind_ok _ _ _ _ _ (N.lxor s' t', p + 64 * N.of_nat n, mlen msg - 64 * N.of_nat n) m)
        by (ok LP; reflexivity).
      rewrite <- SK by lia.
      rewrite (finish_ok (before_last 16 (skipn (64 * n) msg))); auto.
      + cbv zeta. clearbody n. destruct n; [contradiction|]. reflexivity.
      + apply BL. rewrite skipn_length. lia.
      + replace (p + 64 * N.of_nat n) with (p + N.of_nat (64 * n)) by lia. apply bytes_at_skipn; [exact H|lia].
      + rewrite SK by lia. unfold mlen in *. lia.
      + lia.
      + now apply xor_lt.
    - rewrite bind_ret. replace (before_last 64 msg) with 0%nat by (symmetry; apply before_last_zero; [discriminate|unfold mlen in C; lia]).
      change (skipn (64 * 0) msg) with msg. rewrite (finish_ok (before_last 16 msg)); auto.
      + apply BL. unfold mlen in C. lia.
      + lia.
  Qed.
End Wyhash.
