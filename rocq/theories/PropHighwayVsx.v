(** C77: HighwayHash in C++ for POWER8, which is compiled and linked into the test program
    but never called. *)
From Coq Require Import ZArith NArith Arith List Bool Lia Strings.Byte.
From Coq Require Import ZifyN ZifyNat ZifyBool.
From Verif Require Import Bytes CSem Bits Spec NBits CSemFacts OpsFacts FetchFacts KeyMem CtxMem StreamFacts Demo SelfcheckSpec T1ha2
  Effects Highway HighwaySpec HighwayFacts HighwayCat PropHighway PropHighway2 HighwayCxx HighwayTemplates HighwayPortable PropHighwayCxx
  HighwaySimd HighwaySimdFacts HighwaySimdSound Xxhash HighwayVsx HighwayVsxFacts.
Import ListNotations.
Ltac Zify.zify_post_hook ::= Z.div_mod_to_equations.
Local Open Scope N_scope.

(** ** Vectors in memory, on machines of either byte order *)
Definition bytes_in (be : bool) (n : nat) (x : N) : list byte := if be then be_bytes n x else le_bytes n x.
Definition num_in (be : bool) (l : list byte) : N := if be then be_num l else le_num l.

Lemma le_bytes_pair : forall x y, x < 2 ^ 32 -> y < 2 ^ 32 -> le_bytes 8 (y * 2 ^ 32 + x) = le_bytes 4 x ++ le_bytes 4 y.
Proof.
  intros x y X Y. rewrite <- (le_bytes_le_num (le_bytes 4 x ++ le_bytes 4 y)). rewrite app_length, !le_bytes_length. f_equal.
  rewrite le_num_app, !le_num_le_bytes, le_bytes_length. change (256 ^ N.of_nat 4) with (2 ^ 32). rewrite !N.mod_small by assumption. lia.
Qed.
Lemma le_num_pair : forall x y, x < 2 ^ 64 -> y < 2 ^ 64 -> le_num (le_bytes 8 x ++ le_bytes 8 y) = y * 2 ^ 64 + x.
Proof.
  intros x y X Y. rewrite le_num_app, !le_num_le_bytes, le_bytes_length. change (256 ^ N.of_nat 8) with (2 ^ 64). rewrite !N.mod_small by assumption. lia.
Qed.
(** A cast to another type of vector keeps the bytes. *)
Theorem C77_casts : forall be,
  (forall e0 e1 e2 e3, e0 < 2 ^ 32 -> e1 < 2 ^ 32 -> e2 < 2 ^ 32 -> e3 < 2 ^ 32 ->
    vec_bytes be (as64 be (e0, e1, e2, e3)) = flat_map (bytes_in be 4) [e0; e1; e2; e3]) /\
  (forall x y, x < 2 ^ 64 -> y < 2 ^ 64 ->
    let '(e0, e1, e2, e3) := as32 be (x, y) in flat_map (bytes_in be 4) [e0; e1; e2; e3] = vec_bytes be (x, y)) /\
  (forall l, length l = 16%nat -> vec_bytes be (vec_of_bytes be l) = l).
Proof.
  assert (A : forall be e0 e1 e2 e3, e0 < 2 ^ 32 -> e1 < 2 ^ 32 -> e2 < 2 ^ 32 -> e3 < 2 ^ 32 ->
    vec_bytes be (as64 be (e0, e1, e2, e3)) = flat_map (bytes_in be 4) [e0; e1; e2; e3]).
  { intros be e0 e1 e2 e3 E0 E1 E2 E3. unfold as64. destruct be; unfold vec_bytes; cbn [fst snd flat_map bytes_in]; rewrite app_nil_r.
    - unfold be_bytes. rewrite !le_bytes_pair, !rev_app_distr by assumption. now rewrite <- app_assoc.
    - rewrite !le_bytes_pair by assumption. now rewrite <- app_assoc. }
  intros be. split; [exact (A be)|split].
  - intros x y X Y.
    assert (H : forall z, z < 2 ^ 64 -> z / 2 ^ 32 < 2 ^ 32 /\ z mod 2 ^ 32 < 2 ^ 32 /\ z / 2 ^ 32 * 2 ^ 32 + z mod 2 ^ 32 = z).
    { intros z Z. split; [apply N.div_lt_upper_bound; [discriminate|exact Z]|]. split; [apply N.mod_lt; discriminate|].
      pose proof (N.div_mod z (2 ^ 32) ltac:(discriminate)). lia. }
    destruct (H x X) as (X1 & X2 & X3). destruct (H y Y) as (Y1 & Y2 & Y3). unfold as32.
    destruct be; rewrite <- A by assumption; unfold as64; now rewrite X3, Y3.
  - intros l L. unfold vec_of_bytes, vec_bytes. cbn [fst snd].
    assert (L1 : length (firstn 8 l) = 8%nat) by (rewrite firstn_length; lia).
    assert (L2 : length (firstn 8 (skipn 8 l)) = 8%nat) by (rewrite firstn_length, skipn_length; lia).
    assert (E : firstn 8 l ++ firstn 8 (skipn 8 l) = l).
    { rewrite (firstn_all2 (skipn 8 l)) by (rewrite skipn_length; lia). apply firstn_skipn. }
    destruct be.
    + assert (B : forall k, length k = 8%nat -> be_bytes 8 (be_num k) = k) by (intros k <-; apply be_bytes_be_num). now rewrite !B.
    + assert (B : forall k, length k = 8%nat -> le_bytes 8 (le_num k) = k) by (intros k <-; apply le_bytes_le_num). now rewrite !B.
Qed.
(** The shift is that of a number of 128 bits in the order of the machine. *)
Theorem C77_shift : forall be x y n, x < 2 ^ 64 -> y < 2 ^ 64 ->
  num_in be (vec_bytes be (vec_sll be (x, y) n)) = (num_in be (vec_bytes be (x, y)) * 2 ^ n) mod 2 ^ 128.
Proof.
  intros be x y n X Y.
  assert (H : forall r, r mod 2 ^ 128 / 2 ^ 64 < 2 ^ 64 /\ (r mod 2 ^ 128) mod 2 ^ 64 < 2 ^ 64 /\
    r mod 2 ^ 128 / 2 ^ 64 * 2 ^ 64 + (r mod 2 ^ 128) mod 2 ^ 64 = r mod 2 ^ 128).
  { intros r. split; [apply N.div_lt_upper_bound; [discriminate|]; apply N.mod_lt; discriminate|]. split; [apply N.mod_lt; discriminate|].
    pose proof (N.div_mod (r mod 2 ^ 128) (2 ^ 64) ltac:(discriminate)). lia. }
  destruct be; unfold vec_sll, num_in, vec_bytes; cbn [fst snd].
  - unfold be_num, be_bytes. rewrite !rev_app_distr, !rev_involutive. destruct (H ((x * 2 ^ 64 + y) * 2 ^ n)) as (H1 & H2 & H3).
    now rewrite !le_num_pair, H3 by assumption.
  - destruct (H ((y * 2 ^ 64 + x) * 2 ^ n)) as (H1 & H2 & H3). now rewrite !le_num_pair, H3 by assumption.
Qed.
Example C77_vectors_example :
  vec_bytes true (as64 true (1, 2, 3, 4)) = map n2b [0; 0; 0; 1; 0; 0; 0; 2; 0; 0; 0; 3; 0; 0; 0; 4] /\
  vec_sll true (1, 2 ^ 63) 1 = (3, 0) /\ vec_sll false (2 ^ 63, 1) 1 = (0, 3).
Proof. vm_compute. auto. Qed.

(** ** Little-endian machines *)
Lemma vsx_T_any : forall be cfg p n st m, p mod 4 = 0 \/ n mod 16 < 4 ->
  HighwayHashT64 (vsx be) cfg st p n m = HighwayHashT64 (vsx_any be) cfg st p n m /\
  HighwayHashT128 (vsx be) cfg st p n m = HighwayHashT128 (vsx_any be) cfg st p n m /\
  HighwayHashT256 (vsx be) cfg st p n m = HighwayHashT256 (vsx_any be) cfg st p n m.
Proof.
  intros be cfg p n st m H. unfold HighwayHashT64, HighwayHashT128, HighwayHashT256, bind. rewrite !vsx_state_any by exact H.
  destruct (HighwayHashT_state (vsx_any be) cfg p n st m) as [[s0 m0]| | | | |]; unfold vsx, vsx_any, vsx_with, ret;
    cbn [op_Finalize64 op_Finalize128 op_Finalize256]; split; [|split| |split| |split| |split| |split| |split]; reflexivity.
Qed.
(** It computes HighwayHash, with results of all three sizes, of every message that is
    aligned to four bytes or of which less than four bytes are left after the multiples of
    16. *)
Theorem C77_value : forall cfg m key p msg, big_endian cfg = false -> good_quad key -> bytes_at m p msg -> p + mlen msg < addr_space cfg ->
  p mod 4 = 0 \/ mlen msg mod 16 < 4 ->
  HighwayHashT64 (vsx false) cfg (vsx_Reset key) p (mlen msg) m = Ok (hh_out64 (hh_absorb key msg), m) /\
  HighwayHashT128 (vsx false) cfg (vsx_Reset key) p (mlen msg) m = Ok (hh_out128 (hh_absorb key msg), m) /\
  HighwayHashT256 (vsx false) cfg (vsx_Reset key) p (mlen msg) m = Ok (four (hh_out256 (hh_absorb key msg)), m).
Proof.
  intros cfg m key p msg LE K H A AL. destruct (T_computes_sound cfg (vsx_any false) _ _ _ (vsx_any_sound cfg LE) m key p msg K H A) as (F1 & F2 & F3).
  destruct (vsx_T_any false cfg p (mlen msg) (vsx_Reset key) m AL) as (E1 & E2 & E3). rewrite E1, E2, E3.
  split; [exact F1|]. split; [exact F2|exact F3].
Qed.
Print Assumptions C77_value.
(** So it agrees with the implementation in C, and its thunk as well. *)
Theorem C77_agree : forall cfg m q key p msg seed, big_endian cfg = false -> good_quad key -> seed < 2 ^ 64 -> key_in cfg q key m ->
  bytes_at m p msg -> p + mlen msg < addr_space cfg -> mlen msg + 32 < addr_space cfg -> p mod 4 = 0 \/ mlen msg mod 16 < 4 ->
  HighwayHash64_VSX cfg q p (mlen msg) m = HighwayHash64_pure_c cfg q p (mlen msg) m /\
  thunk_HighwayHash64_Target (vsx (big_endian cfg)) cfg p (mlen msg) seed m = thunk_HighwayHash64_pure_c cfg p (mlen msg) seed m.
Proof.
  intros cfg m q [[[k0 k1] k2] k3] p msg seed LE G S (AK & K) H A A' AL. split.
  - rewrite (C54_value cfg m q (k0, k1, k2, k3) p msg G (conj AK K) H A A'). unfold HighwayHash64_VSX, HighwayHash64_Target.
    ok (load_key_ok cfg m q k0 k1 k2 k3 AK G K). rewrite LE. exact (proj1 (C77_value cfg m _ p msg LE G H A AL)).
  - rewrite (C54_thunk cfg m p msg seed S H A A'). rewrite LE.
    assert (G' : good_quad (seed, seed, seed, seed)) by exact (conj S (conj S (conj S S))).
    exact (proj1 (C77_value cfg m _ p msg LE G' H A AL)).
Qed.
Print Assumptions C77_agree.
(** Fragments may be anywhere: what is left of them is read from the buffer, which the
    class aligns (tests/highwayhash/highwayhash.h:196-199). *)
Lemma vsx_cat_state : forall be cfg buffer cat m, buffer mod 4 = 0 -> CatT_state (vsx be) cfg buffer cat m = CatT_state (vsx_any be) cfg buffer cat m.
Proof.
  intros be cfg buffer cat m B. unfold CatT_state. destruct (negb _); [|reflexivity].
  change (op_UpdateRemainder (vsx be)) with (vsx_UpdateRemainder be). rewrite vsx_remainder_any by now left. reflexivity.
Qed.
Lemma vsx_cat_finalize : forall be cfg buffer cat m, buffer mod 4 = 0 ->
  CatT_Finalize64 (vsx be) cfg buffer cat m = CatT_Finalize64 (vsx_any be) cfg buffer cat m /\
  CatT_Finalize128 (vsx be) cfg buffer cat m = CatT_Finalize128 (vsx_any be) cfg buffer cat m /\
  CatT_Finalize256 (vsx be) cfg buffer cat m = CatT_Finalize256 (vsx_any be) cfg buffer cat m.
Proof.
  intros be cfg buffer cat m H. unfold CatT_Finalize64, CatT_Finalize128, CatT_Finalize256, bind. rewrite !vsx_cat_state by exact H.
  destruct (CatT_state (vsx_any be) cfg buffer cat m) as [[s0 m0]| | | | |]; unfold vsx, vsx_any, vsx_with, ret;
    cbn [op_Finalize64 op_Finalize128 op_Finalize256]; split; [|split| |split| |split| |split| |split| |split]; reflexivity.
Qed.
Theorem C77_cat : forall cfg, big_endian cfg = false -> Cat_computes cfg (vsx false) 4 hh_absorb.
Proof.
  intros cfg LE m key buffer parts ls K M A AL F.
  destruct (Cat_computes_sound cfg (vsx_any false) _ _ _ (vsx_any_sound cfg LE) m key buffer parts ls K M A (N.mod_1_r _) F) as (m' & O & E1 & E2 & E3).
  exists m'. split; [exact O|]. unfold hh_absorb. rewrite <- E1, <- E2, <- E3. clear E1 E2 E3.
  assert (X : forall be, CatT_fragments (vsx be) cfg buffer parts = CatT_fragments (vsx_any be) cfg buffer parts) by reflexivity.
  assert (Y : forall be, CatT_new (vsx be) cfg buffer key = CatT_new (vsx_any be) cfg buffer key) by reflexivity.
  unfold HighwayHashCat64, HighwayHashCat128, HighwayHashCat256. rewrite !Y. unfold bind.
  destruct (CatT_new (vsx_any false) cfg buffer key m) as [[c0 m0]| | | | |]; [|split; [|split]; reflexivity ..].
  rewrite !X. destruct (CatT_fragments (vsx_any false) cfg buffer parts c0 m0) as [[c1 m1]| | | | |]; [|split; [|split]; reflexivity ..].
  apply vsx_cat_finalize. exact AL.
Qed.
Print Assumptions C77_cat.

(** ** Messages that are not aligned *)
(** All others are undefined behaviour, on machines of both byte orders: the words at the
    end are read through a pointer to uint32_t (tests/highwayhash/hh_vsx.h:285-301). *)
Lemma vsx_loop_runs : forall be cfg fuel p t base st m (l : list byte), bytes_at m p l -> p + mlen l < addr_space cfg -> t <= mlen l -> t mod 32 = 0 -> base mod 32 = 0 ->
  base <= t -> t < base + 32 * N.of_nat fuel -> exists st', HighwayHashT_loop (vsx be) fuel cfg p t base st m = Ok (st', m).
Proof.
  intros be cfg. induction fuel as [|fuel IH]; intros p t base st m l H A T T32 B32 B F; [lia|]. cbn [HighwayHashT_loop].
  destruct (N.ltb_spec base t) as [L|L]; [|now exists st]. rewrite padd_small by lia.
  assert (R : forall k, (N.to_nat base + k + 16 <= length l)%nat -> exists v, LoadUnaligned be (p + base + N.of_nat k) m = Ok (v, m)).
  { intros k KL. unfold LoadUnaligned.
    assert (L16 : length (firstn 16 (skipn (N.to_nat base + k) l)) = 16%nat) by (rewrite firstn_length, skipn_length; lia).
    assert (B16 : bytes_at m (p + base + N.of_nat k) (firstn 16 (skipn (N.to_nat base + k) l))).
    { apply bytes_at_firstn. replace (p + base + N.of_nat k) with (p + N.of_nat (N.to_nat base + k)) by lia. apply bytes_at_skipn; [exact H|lia]. }
    pose proof (load_bytes_ok _ m _ B16) as E. rewrite L16 in E. ok E. eexists. reflexivity. }
  change (op_Update (vsx be)) with (vsx_Update be). unfold vsx_Update.
  destruct (R 0%nat) as (v0 & E0); [unfold mlen in *; lia|]. rewrite N.add_0_r in E0. rewrite bind_assoc. ok E0.
  rewrite padd_small by (unfold mlen in *; lia). destruct (R 16%nat) as (v1 & E1); [unfold mlen in *; lia|]. rewrite bind_assoc. ok E1. rewrite bind_ret.
  rewrite padd_small by lia. apply (IH p t (base + 32) _ m l); try assumption; lia.
Qed.
Lemma load_misaligned : forall be cfg p n m, p mod 4 <> 0 -> 4 <= n mod 16 -> n < 32 -> vsx_LoadMultipleOfFour be cfg p n m = Undef MisalignedAccess.
Proof.
  intros be cfg p n m P N4 L. unfold vsx_LoadMultipleOfFour. destruct (land_8_4 n L) as [-> ->]. rewrite !negb_involutive.
  assert (D : deref cfg 4 p = undef MisalignedAccess). { unfold deref. change (alignment cfg 4) with 4. apply N.eqb_neq in P. now rewrite P. }
  rewrite D. destruct (2 <=? n mod 16 / 4) eqn:E2; [reflexivity|].
  assert (E : n mod 16 / 4 = 1) by lia. rewrite E. reflexivity.
Qed.
Lemma vsx_state_misaligned : forall be cfg m st p msg, bytes_at m p msg -> p + mlen msg < addr_space cfg -> p mod 4 <> 0 -> 4 <= mlen msg mod 16 ->
  HighwayHashT_state (vsx be) cfg p (mlen msg) st m = Undef MisalignedAccess.
Proof.
  intros be cfg m st p msg H A P L. unfold HighwayHashT_state. cbv zeta. rewrite land_31'.
  destruct (vsx_loop_runs be cfg (S (N.to_nat (mlen msg / 32))) p (mlen msg - mlen msg mod 32) 0 st m msg H A) as (st' & E); try lia.
  ok E. destruct (N.eqb_spec (mlen msg mod 32) 0) as [Z|Z]; [lia|]. cbn [negb]. change (op_UpdateRemainder (vsx be)) with (vsx_UpdateRemainder be).
  set (n := mlen msg mod 32) in *. assert (N32 : n < 32) by (unfold n; lia). assert (N16 : 4 <= n mod 16) by (unfold n; lia).
  unfold vsx_UpdateRemainder, vsx_UpdateRemainder_with. cbv zeta. rewrite padd_small by lia.
  assert (P' : (p + (mlen msg - n)) mod 4 <> 0) by (unfold n; lia).
  destruct (N.leb_spec 16 n) as [B|B].
  - rewrite land_16, negb_involutive by lia. apply N.leb_le in B. rewrite B. apply N.leb_le in B.
    set (k := N.to_nat (mlen msg - n)). assert (L16 : length (firstn 16 (skipn k msg)) = 16%nat) by (rewrite firstn_length, skipn_length; unfold k, n, mlen in *; lia).
    assert (B16 : bytes_at m (p + (mlen msg - n)) (firstn 16 (skipn k msg))).
    { apply bytes_at_firstn. replace (p + (mlen msg - n)) with (p + N.of_nat k) by (unfold k; lia). apply bytes_at_skipn; [exact H|unfold k, mlen; lia]. }
    unfold LoadUnaligned. rewrite <- L16 at 1. rewrite bind_assoc. ok (load_bytes_ok _ m _ B16). rewrite bind_ret.
    unfold bind. rewrite load_misaligned; [reflexivity| |exact N16|exact N32]. rewrite padd_mod4 by reflexivity. exact P'.
  - rewrite land_16, negb_involutive by lia. apply N.leb_gt in B. rewrite B.
    unfold bind. now rewrite load_misaligned.
Qed.
Theorem C77_misaligned : forall cfg m key p msg, bytes_at m p msg -> p + mlen msg < addr_space cfg -> p mod 4 <> 0 -> 4 <= mlen msg mod 16 ->
  let ops := vsx (big_endian cfg) in
  HighwayHashT64 ops cfg (vsx_Reset key) p (mlen msg) m = Undef MisalignedAccess /\
  HighwayHashT128 ops cfg (vsx_Reset key) p (mlen msg) m = Undef MisalignedAccess /\
  HighwayHashT256 ops cfg (vsx_Reset key) p (mlen msg) m = Undef MisalignedAccess /\
  (forall q, good_quad key -> key_in cfg q key m -> HighwayHash64_VSX cfg q p (mlen msg) m = Undef MisalignedAccess).
Proof.
  intros cfg m key p msg H A P L ops.
  assert (E : forall st, HighwayHashT_state ops cfg p (mlen msg) st m = Undef MisalignedAccess) by (intro st; now apply vsx_state_misaligned).
  unfold HighwayHashT64, HighwayHashT128, HighwayHashT256. split; [unfold bind; now rewrite E|]. split; [unfold bind; now rewrite E|].
  split; [unfold bind; now rewrite E|]. intros q G K. destruct key as [[[k0 k1] k2] k3]. destruct K as (AK & K).
  unfold HighwayHash64_VSX, HighwayHash64_Target. fold ops. ok (load_key_ok cfg m q k0 k1 k2 k3 AK G K). unfold HighwayHashT64, bind. now rewrite E.
Qed.
Print Assumptions C77_misaligned.

(** ** The check that the test program leaves out *)
(** With the array of the check at a multiple of four it would pass on little-endian
    machines. *)
Lemma verify64_ext : forall cfg fn fn' data key, (forall n m, fn key data n m = fn' key data n m) ->
  forall expected i m, verify64_from cfg fn data key i expected m = verify64_from cfg fn' data key i expected m.
Proof.
  intros cfg fn fn' data key E. induction expected as [|e expected IH]; intros i m; [reflexivity|]. cbn [verify64_from]. unfold TestHash64, bind.
  destruct (store_bytes _ _ m) as [[u m1]| | | | |]; try reflexivity. rewrite E. destruct (fn' key data i m1) as [[v m2]| | | | |]; try reflexivity.
  cbn [ret]. rewrite IH. reflexivity.
Qed.
Theorem C77_verify : forall cfg data key1 key2 m, big_endian cfg = false ->
  data + 65 < addr_space cfg -> apart data 65 key1 32 -> apart data 65 key2 32 ->
  mapped m data 65 -> key_in cfg key1 test_key1 m -> key_in cfg key2 test_key2 m -> data mod 4 = 0 ->
  exists m', HighwayHash64_verify cfg data key1 key2 (HighwayHash64_VSX cfg) m = Ok (false, m') /\ only m m' data 65.
Proof.
  intros cfg data key1 key2 m LE A D1 D2 M K1 K2 AL.
  assert (F : hh_computes cfg (HighwayHash64_Target (vsx_any false) cfg) highway64).
  { intros m0 q key p msg G K H P _. exact (Target_computes cfg _ _ _ (T_computes_sound cfg _ _ _ _ (vsx_any_sound cfg LE)) m0 q key p msg G K H P). }
  destruct (hh_verify_computes cfg _ _ F data key1 key2 A D1 D2 m M K1 K2) as (m' & E & O).
  exists m'. split; [|exact O]. rewrite hh_passes in E. rewrite <- E. unfold HighwayHash64_verify.
  assert (X : forall q n m0, HighwayHash64_VSX cfg q data n m0 = HighwayHash64_Target (vsx_any false) cfg q data n m0).
  { intros q n m0. unfold HighwayHash64_VSX, HighwayHash64_Target. rewrite LE. unfold bind. destruct (load_key cfg q m0) as [[k m1]| | | | |]; [|reflexivity ..].
    exact (proj1 (vsx_T_any false cfg data n (vsx_Reset k) m1 (or_introl AL))). }
  unfold TestHash64, bind. destruct (store_bytes data (repeat x00 65) m) as [[u m0]| | | | |]; [|reflexivity ..].
  rewrite (verify64_ext cfg _ (HighwayHash64_Target (vsx_any false) cfg) data key1 (X key1)).
  destruct (verify64_from _ _ _ _ _ _ m0) as [[f m1]| | | | |]; [|reflexivity ..].
  destruct (fill128 cfg data 33 0 m1) as [[u' m2]| | | | |]; [|reflexivity ..]. now rewrite X.
Qed.
Print Assumptions C77_verify.

(** ** Big-endian machines *)
(** There it computes something else: already without a message. *)
Definition vsx_big_empty : N := vsx_Finalize64 true (vsx_Reset test_key1).
Lemma vsx_big_differs : (nth 0 kExpected64 0 =? vsx_big_empty) = false.
Proof. vm_compute. reflexivity. Qed.
Lemma vsx_big_value : forall cfg m q p, big_endian cfg = true -> key_in cfg q test_key1 m -> HighwayHash64_VSX cfg q p 0 m = Ok (vsx_big_empty, m).
Proof.
  intros cfg m q p BE K. unfold HighwayHash64_VSX, HighwayHash64_Target. rewrite BE. unfold test_key1 in K. destruct K as (AK & K).
  assert (G : good_quad test_key1) by (repeat split; reflexivity). unfold test_key1 in G. ok (load_key_ok cfg m q _ _ _ _ AK G K). reflexivity.
Qed.
Theorem C77_big_refuted : forall cfg m q p, big_endian cfg = true -> key_in cfg q test_key1 m ->
  exists v, HighwayHash64_VSX cfg q p 0 m = Ok (v, m) /\ v <> highway64 test_key1 [].
Proof.
  intros cfg m q p BE K. exists vsx_big_empty. split; [now apply vsx_big_value|]. pose proof vsx_big_differs as D.
  rewrite <- (proj1 C54_recorded) in D. cbn [seq map nth] in D. change (counting 0) with (@nil byte) in D.
  apply N.eqb_neq in D. intro E. apply D. symmetry. exact E.
Qed.
Print Assumptions C77_big_refuted.
(** So the check cannot pass there. *)
Theorem C77_big_verify : forall cfg data key1 key2 m m', big_endian cfg = true -> data + 65 < addr_space cfg -> apart data 65 key1 32 ->
  mapped m data 65 -> key_in cfg key1 test_key1 m -> HighwayHash64_verify cfg data key1 key2 (HighwayHash64_VSX cfg) m <> Ok (false, m').
Proof.
  intros cfg data key1 key2 m m' BE A D1 M K1 E. unfold HighwayHash64_verify in E.
  assert (M0 : mapped m data (length (repeat x00 65))) by exact M.
  rewrite (bind_ok _ _ _ _ _ _ _ (store_bytes_ok _ _ _ M0)) in E.
  assert (O0 : only m (write m data (repeat x00 65)) data 65) by now apply only_write.
  set (m0 := write m data (repeat x00 65)) in *. clearbody m0.
  assert (MM : mapped m0 data 65) by (eapply only_mapped; [exact O0|exact M]).
  assert (KK : forall x, only m x data 65 -> key_in cfg key1 test_key1 x) by (intros x O; eapply key_in_only; eassumption).
  change kExpected64 with (nth 0 kExpected64 0 :: tl kExpected64) in E. generalize dependent (tl kExpected64). intros others E.
  pose proof vsx_big_differs as D. generalize dependent (nth 0 kExpected64 0). intros first E D. cbn [verify64_from] in E. rewrite padd_small, N.add_0_r in E by lia.
  assert (M1 : mapped m0 data (length [n2b 0])) by (intros i I; apply MM; cbn [length] in I; lia).
  rewrite bind_assoc in E. rewrite (bind_ok _ _ _ _ _ _ _ (store_bytes_ok _ _ _ M1)) in E.
  assert (O1 : only m0 (write m0 data [n2b 0]) data 65) by (eapply only_weaken; [now apply only_write|lia|cbn; lia]).
  set (m1 := write m0 data [n2b 0]) in *. clearbody m1. unfold TestHash64 at 1 in E. rewrite !bind_assoc in E.
  rewrite (bind_ok _ _ _ _ _ _ _ (vsx_big_value cfg m1 key1 data BE (KK m1 (only_trans _ _ _ _ _ O0 O1)))) in E. rewrite bind_ret in E.
  rewrite D in E. cbn [negb orb] in E.
  unfold bind in E. destruct (verify64_from _ _ _ _ _ others m1) as [[g m2]| | | | |]; [|discriminate E ..]. unfold ret in E.
  destruct (fill128 cfg data 33 0 m2) as [[u m3]| | | | |]; [|discriminate E ..].
  destruct (TestHash64 _ _ _ _ _ m3) as [[h m4]| | | | |]; discriminate E.
Qed.
Print Assumptions C77_big_verify.

(** ** What is read *)
(** Whatever the arguments, nothing is written; with more memory mapped the outcome is
    the same unless it was a fault. *)
Lemma tame_vsx_multiple : forall be cfg p n, tame (vsx_LoadMultipleOfFour be cfg p n).
Proof. intros. unfold vsx_LoadMultipleOfFour, deref. tame. Qed.
#[local] Hint Resolve tame_vsx_multiple : tame.
Theorem C77_reads : forall cfg q p len, local (HighwayHash64_VSX cfg q p len) /\ reader (HighwayHash64_VSX cfg q p len).
Proof.
  intros cfg q p len. change (tame (HighwayHash64_VSX cfg q p len)). apply tame_Target; intros.
  - change (op_Update (vsx (big_endian cfg))) with (vsx_Update (big_endian cfg)). unfold vsx_Update, LoadUnaligned. tame.
  - change (op_UpdateRemainder (vsx (big_endian cfg))) with (vsx_UpdateRemainder (big_endian cfg)). unfold vsx_UpdateRemainder, vsx_UpdateRemainder_with, LoadUnaligned. cbv zeta. tame.
Qed.
Print Assumptions C77_reads.

(** concrete cases: on a 64-bit little-endian machine 39 bytes at an aligned address, 35 at an odd one,
    39 at an odd one, 100 in fragments *)
Example C77_case :
  let m p n := write (fun _ => None) p (counting n) in
  HighwayHashT64 (vsx false) x86_64 (vsx_Reset test_key1) 16384 39 (m 16384 39%nat) = Ok (highway64 test_key1 (counting 39), m 16384 39%nat) /\
  HighwayHashT64 (vsx false) x86_64 (vsx_Reset test_key1) 16385 35 (m 16385 35%nat) = Ok (highway64 test_key1 (counting 35), m 16385 35%nat) /\
  HighwayHashT64 (vsx false) x86_64 (vsx_Reset test_key1) 16385 39 (m 16385 39%nat) = Undef MisalignedAccess /\
  (match HighwayHashCat64 (vsx false) x86_64 4096 test_key1 cat_parts cat_mem with Ok (v, _) => v = highway64 test_key1 (counting 100) | _ => False end).
Proof.
  assert (G : good_quad test_key1) by (repeat split; reflexivity). cbv zeta.
  split; [exact (proj1 (C77_value x86_64 _ test_key1 16384 (counting 39) eq_refl G (write_bytes_at _ _ _) eq_refl (or_introl eq_refl)))|].
  split; [exact (proj1 (C77_value x86_64 _ test_key1 16385 (counting 35) eq_refl G (write_bytes_at _ _ _) eq_refl (or_intror eq_refl)))|].
  split; [refine (proj1 (C77_misaligned x86_64 _ test_key1 16385 (counting 39) (write_bytes_at _ _ _) eq_refl _ _)); vm_compute; discriminate|].
  destruct C59_case_hyp as [M F]. destruct (C77_cat x86_64 eq_refl cat_mem test_key1 4096 cat_parts _ G M eq_refl eq_refl F) as (m' & _ & E & _). rewrite E.
  unfold highway64. f_equal.
Qed.
(** the hypotheses about keys and arrays *)
Example C77_verify_hyp : key_in sparc64 4096 test_key1 (hh_mem sparc64) /\ mapped (hh_mem sparc64) 16384 65 /\
  key_in x86_64 4096 test_key1 (hh_mem x86_64) /\ key_in x86_64 8192 test_key2 (hh_mem x86_64) /\ mapped (hh_mem x86_64) 16384 65.
Proof.
  assert (K1 : forall cfg, addr_space cfg = W64 -> key_in cfg 4096 test_key1 (hh_mem cfg) <-> bytes_at (hh_mem cfg) 4096 (flat_map (CtxMem.native cfg 8) kTestKey1)).
  { intros cfg A. unfold key_in. rewrite A. split; [intros [_ B]; exact B|intro B; split; [vm_compute; discriminate|exact B]]. }
  assert (M : forall cfg, mapped (hh_mem cfg) 16384 65) by (intro; unfold hh_mem; do 2 apply write_mapped; intros i L; discriminate).
  split; [apply K1; [reflexivity|]; apply bytes_at_check; vm_compute; reflexivity|]. split; [apply M|].
  split; [apply K1; [reflexivity|]; apply bytes_at_check; vm_compute; reflexivity|]. split; [|apply M].
  split; [vm_compute; discriminate|]. apply bytes_at_check. vm_compute. reflexivity.
Qed.
