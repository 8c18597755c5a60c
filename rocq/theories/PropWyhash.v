(** C49, C50: wyhash, the copy that the test program checks and compares with. *)
From Coq Require Import ZArith NArith Arith List Bool Lia Strings.Byte Strings.String.
From Coq Require Import ZifyN ZifyNat ZifyBool.
From Verif Require Import Bytes CSem Bits Spec NBits CSemFacts KeyMem CtxMem StreamFacts OneShot RefVals Demo Selfcheck SelfcheckSpec
  Effects TestMain TestFacts VerifyFacts Wyhash WyhashSpec WyhashFacts OtherVals.
Import ListNotations.
Local Open Scope N_scope.

(** [secrets] are in memory at [q] as an array of uint64_t *)
Definition secrets_in (cfg : config) (q : N) (secrets : list N) (m : mem) : Prop :=
  q + 40 <= addr_space cfg /\ bytes_at m q (flat_map (CtxMem.native cfg 8) secrets).

Lemma secrets_each_at : forall cfg q secrets m, bytes_at m q (flat_map (CtxMem.native cfg 8) secrets) ->
  forall i s, nth_error secrets i = Some s -> bytes_at m (q + 8 * N.of_nat i) (CtxMem.native cfg 8 s).
Proof.
  intros cfg q secrets m H. revert q H. induction secrets as [|x l IH]; intros q H i s E; [destruct i; discriminate|].
  cbn [flat_map] in H. apply bytes_at_app in H. destruct H as (H1 & H2).
  destruct i as [|i].
  - injection E as <-. now rewrite N.add_0_r.
  - assert (L : mlen (CtxMem.native cfg 8 x) = 8) by (unfold mlen; now rewrite native_length).
    unfold mlen in L. rewrite L in H2. specialize (IH _ H2 i s E).
    now replace (q + 8 * N.of_nat (S i)) with (q + 8 + 8 * N.of_nat i) by lia.
Qed.
Lemma secrets_each : forall cfg q secrets m, secrets_in cfg q secrets m ->
  forall i s, nth_error secrets i = Some s -> bytes_at m (q + 8 * N.of_nat i) (CtxMem.native cfg 8 s).
Proof. intros cfg q secrets m (_ & H). now apply secrets_each_at. Qed.

(** ** C49: wyhash computes its specification *)
(** In all builds (byte order, pointer size, multiplication), for all secrets, keys
    at all addresses and all seeds. *)
Theorem C49_value : forall cfg nat m q S0 S1 S2 S3 S4 p msg seed,
  S0 < 2 ^ 64 -> S1 < 2 ^ 64 -> S2 < 2 ^ 64 -> S3 < 2 ^ 64 -> S4 < 2 ^ 64 ->
  secrets_in cfg q [S0; S1; S2; S3; S4] m ->
  bytes_at m p msg -> p + mlen msg < addr_space cfg -> seed < 2 ^ 64 ->
  wyhash cfg nat p (mlen msg) seed q m = Ok (wy S0 S1 S2 S3 S4 msg seed, m).
Proof.
  intros cfg nat m q S0 S1 S2 S3 S4 p msg seed B0 B1 B2 B3 B4 SI H L HS.
  apply wyhash_ok; try assumption; [repeat split; assumption| |apply SI].
  exact (secrets_each _ _ _ _ SI).
Qed.
Print Assumptions C49_value.

(** with the secrets of the test program *)
Theorem C49_thunk : forall cfg nat m wyp p msg seed,
  secrets_in cfg wyp _wyp m -> bytes_at m p msg -> p + mlen msg < addr_space cfg -> seed < 2 ^ 64 ->
  thunk_wyhash_v7 cfg nat wyp p (mlen msg) seed m = Ok (wyhash_v7 msg seed, m).
Proof. intros. unfold thunk_wyhash_v7, wyhash_v7. now apply C49_value. Qed.
Print Assumptions C49_thunk.

(** Whatever the arguments, nothing is written; with more memory mapped the
    outcome is the same unless it was a fault. *)
Lemma tame_wyr8 : forall cfg p, tame (_wyr8 cfg p).
Proof. intros. unfold _wyr8. tame. Qed.
Lemma tame_wyr4 : forall cfg p, tame (_wyr4 cfg p).
Proof. intros. unfold _wyr4. tame. Qed.
Lemma tame_wyr3 : forall cfg p k, tame (_wyr3 cfg p k).
Proof. intros. unfold _wyr3. tame. Qed.
Lemma tame_wysecret : forall cfg q i, tame (wysecret cfg q i).
Proof. intros. unfold wysecret. tame. Qed.
#[export] Hint Resolve tame_wyr8 tame_wyr4 tame_wyr3 tame_wysecret : tame.
Lemma tame_wyfinish16 : forall cfg nat p len seed q i, tame (_wyfinish16 cfg nat p len seed q i).
Proof. intros. unfold _wyfinish16. tame. Qed.
#[export] Hint Resolve tame_wyfinish16 : tame.
Lemma tame_wyfinish : forall fuel cfg nat p len seed q i, tame (_wyfinish fuel cfg nat p len seed q i).
Proof. induction fuel as [|fuel IH]; intros; cbn [_wyfinish]; tame. Qed.
Lemma tame_wyhash_step : forall cfg nat q x, tame (wyhash_step cfg nat q x).
Proof. intros cfg nat q [[[a b] c] d]. unfold wyhash_step. tame. Qed.
#[export] Hint Resolve tame_wyfinish tame_wyhash_step : tame.
Theorem C49_reads : forall cfg nat p len seed q, local (wyhash cfg nat p len seed q) /\ reader (wyhash cfg nat p len seed q).
Proof.
  intros. change (tame (wyhash cfg nat p len seed q)). unfold wyhash. cbv zeta. apply tame_bind; [tame|]. intro s0.
  apply tame_bind; [|tame].
  destruct (64 <? len); [|tame]. apply tame_bind; [apply tame_do_while; tame|]. tame.
Qed.
Print Assumptions C49_reads.

(** The recorded values are those of the specification. *)
Theorem C49_recorded : map (fun x => wyhash_v7 (fst x) (snd x)) messages = refval_wyhash_v7.
Proof. vm_compute. reflexivity. Qed.
Print Assumptions C49_recorded.

(** The check of the test program passes in all builds. *)
Theorem C49_verify : forall cfg nat wyp pattern long refs m,
  secrets_in cfg wyp _wyp m -> apart long 512 wyp 40 ->
  pattern + 64 < addr_space cfg -> long + 512 < addr_space cfg -> refs + 648 < addr_space cfg ->
  refs mod alignment cfg 8 = 0 -> apart long 512 refs 648 -> refs_at cfg refs refval_wyhash_v7 m ->
  bytes_at m pattern t1ha_test_pattern -> mapped m long 512 ->
  exists m', verify cfg pattern long (thunk_wyhash_v7 cfg nat wyp) refs m = Ok (false, m') /\ only m m' long 512.
Proof.
  intros cfg nat wyp pattern long refs m SI A L1 L2 L3 AL A1 R HP ML.
  destruct (verify_computes cfg (secrets_in cfg wyp _wyp) (thunk_wyhash_v7 cfg nat wyp) wyhash_v7 pattern long refs
    refval_wyhash_v7 m) as (m' & E & O); try assumption.
  - intros d l s. exact (proj2 (C49_reads cfg nat d l s wyp)).
  - intros m0 p msg seed P B L _ S. now apply C49_thunk.
  - intros m0 m0' O (F & B). split; [exact F|]. eapply only_bytes; [exact O| |exact B].
    unfold apart in A. change (mlen (flat_map (CtxMem.native cfg 8) _wyp)) with (N.of_nat (List.length (flat_map (CtxMem.native cfg 8) _wyp))).
    unfold _wyp. cbn [flat_map]. rewrite !app_length, !native_length. cbn [List.length]. lia.
  - reflexivity.
  - assert (F : forallb (fun r => r <? 2 ^ 64) refval_wyhash_v7 = true) by (vm_compute; reflexivity).
    intros r I. rewrite forallb_forall in F. apply F in I. now apply N.ltb_lt in I.
  - exists m'. split; [|exact O]. rewrite E. destruct (list_eq_dec N.eq_dec _ refval_wyhash_v7) as [|NE]; [reflexivity|].
    destruct (NE C49_recorded).
Qed.
Print Assumptions C49_verify.

(** So does the additional self-test. *)
Definition selftest_strings : list (list byte) :=
  map list_byte_of_string
    [""; "a"; "abc"; "message digest"; "abcdefghijklmnopqrstuvwxyz";
     "ABCDEFGHIJKLMNOPQRSTUVWXYZabcdefghijklmnopqrstuvwxyz0123456789";
     "12345678901234567890123456789012345678901234567890123456789012345678901234567890"]%string.
Theorem C49_selftest : forall cfg nat wyp ps m, secrets_in cfg wyp _wyp m ->
  Forall2 (fun p s => bytes_at m p s /\ p + mlen s < addr_space cfg) ps selftest_strings ->
  wyhash_v7_selftest cfg nat wyp ps m = Ok (false, m).
Proof.
  intros cfg nat wyp ps m SI F. unfold wyhash_v7_selftest.
  assert (V : Forall2 (fun s x => let '(len, seed, v) := x in len = mlen s /\ seed < 2 ^ 64 /\ v = wyhash_v7 s seed)
                selftest_strings wyhash_selftest_values).
  { repeat constructor. }
  revert V. generalize wyhash_selftest_values. induction F as [|p s ps ss (B & L) F IH]; intros l V.
  - inversion V. reflexivity.
  - inversion V as [|s' [[len seed] v] ss' l' (-> & S & ->) V']. subst. cbn [wyhash_selftest_from].
    rewrite (bind_ok _ _ _ _ _ _ _ (C49_thunk cfg nat m wyp p s seed SI B L S : wyhash _ _ _ _ _ _ _ = _)).
    rewrite N.eqb_refl. cbn [negb orb]. now apply IH.
Qed.
Print Assumptions C49_selftest.

(** concrete cases: table at 8192, secrets at 12288, pattern at 4096 *)
Definition wy_mem (cfg : config) : mem :=
  write (write (write (fun _ => Some x00) 8192 (flat_map (CtxMem.native cfg 8) refval_wyhash_v7))
               12288 (flat_map (CtxMem.native cfg 8) _wyp)) 4096 t1ha_test_pattern.
Definition failed_of (o : outcome (bool * mem)) : option bool := match o with Ok (x, _) => Some x | _ => None end.
Lemma refs_table : forall cfg refs rs m, List.length rs = 81%nat -> bytes_at m refs (flat_map (CtxMem.native cfg 8) rs) -> refs_at cfg refs rs m.
Proof.
  intros cfg refs rs m L H k K. apply (secrets_each_at cfg refs rs m H k). apply nth_error_nth'. lia.
Qed.
Lemma table_size : forall cfg rs, mlen (flat_map (CtxMem.native cfg 8) rs) = 8 * N.of_nat (List.length rs).
Proof.
  intros cfg. induction rs as [|x l IH]; [reflexivity|]. cbn [flat_map List.length]. unfold mlen in *. rewrite app_length, native_length. lia.
Qed.
Example C49_verify_hyp : forall cfg, 65536 < addr_space cfg -> let m := wy_mem cfg in secrets_in cfg 12288 _wyp m /\
  refs_at cfg 8192 refval_wyhash_v7 m /\ bytes_at m 4096 t1ha_test_pattern /\ mapped m 16384 512.
Proof.
  intros cfg A m. subst m. unfold wy_mem. pose proof (table_size cfg refval_wyhash_v7) as T1. pose proof (table_size cfg _wyp) as T2.
  change (8 * N.of_nat (List.length refval_wyhash_v7)) with 648 in T1. change (8 * N.of_nat (List.length _wyp)) with 40 in T2.
  assert (T3 : N.of_nat (List.length t1ha_test_pattern) = 64) by reflexivity. unfold mlen in T1, T2.
  split; [|split; [|split]].
  - split; [lia|]. apply write_bytes_at_other; [rewrite T2, T3; right; discriminate|]. apply write_bytes_at.
  - apply refs_table; [reflexivity|]. apply write_bytes_at_other; [rewrite T1, T3; right; discriminate|].
    apply write_bytes_at_other; [rewrite T1, T2; left; discriminate|]. apply write_bytes_at.
  - apply write_bytes_at.
  - do 3 apply write_mapped. intros i L. discriminate.
Qed.
Example C49_verify_sparc64 : failed_of (verify sparc64 4096 16384 (thunk_wyhash_v7 sparc64 false 12288) 8192 (wy_mem sparc64)) = Some false.
Proof.
  destruct (C49_verify_hyp sparc64 eq_refl) as (S & R & P & M).
  destruct (C49_verify sparc64 false 12288 4096 16384 8192 _ S ltac:(right; discriminate) eq_refl eq_refl eq_refl eq_refl ltac:(right; discriminate) R P M)
    as (m' & E & _). now rewrite E.
Qed.
(** one bit of one secret wrong *)
Example C49_verify_notices :
  failed_of (verify x86_64 4096 16384 (thunk_wyhash_v7 x86_64 true 12288) 8192 (write (wy_mem x86_64) 12320 [x4e])) = Some true.
Proof. vm_compute. reflexivity. Qed.
Definition wy_strings : list N := [0; 20480; 20481; 20484; 20498; 20524; 20586].
Definition wy_selftest_mem (cfg : config) : mem := write (wy_mem cfg) 20480 (List.concat selftest_strings).
(** the hypotheses of the theorem hold there *)
Example C49_selftest_hyp : secrets_in sparc64 12288 _wyp (wy_selftest_mem sparc64) /\
  Forall2 (fun p s => bytes_at (wy_selftest_mem sparc64) p s /\ p + mlen s < addr_space sparc64) wy_strings selftest_strings.
Proof.
  assert (B : bytes_at (wy_selftest_mem sparc64) 20480 (List.concat selftest_strings)) by apply write_bytes_at.
  split.
  - split; [vm_compute; discriminate|]. intros i b E.
    assert (L : (i < 40)%nat) by (change 40%nat with (List.length (flat_map (CtxMem.native sparc64 8) _wyp)); apply nth_error_Some; congruence).
    clear B. do 40 (destruct i as [|i]; [rewrite <- E; vm_compute; reflexivity|]). lia.
  - assert (P : forall k n, bytes_at (wy_selftest_mem sparc64) (20480 + N.of_nat k) (firstn n (skipn k (List.concat selftest_strings))))
      by (intros; now apply bytes_at_part).
    repeat constructor.
    + intros i b E. destruct i; discriminate.
    + exact (P 0 1)%nat.
    + exact (P 1 3)%nat.
    + exact (P 4 14)%nat.
    + exact (P 18 26)%nat.
    + exact (P 44 62)%nat.
    + exact (P 106 80)%nat.
Qed.
Example C49_selftest_sparc64 : failed_of (wyhash_v7_selftest sparc64 true 12288 wy_strings (wy_selftest_mem sparc64)) = Some false.
Proof. destruct C49_selftest_hyp as (S & F). now rewrite (C49_selftest sparc64 true 12288 wy_strings _ S F). Qed.
(** other secrets, other multiplication, byte order, pointer size and address *)
Example C49_other_secrets : let secrets := [1; 2; 3; 2 ^ 64 - 1; 0] in
  let m := write (write (fun _ => None) 4096 (flat_map (CtxMem.native mips32 8) secrets)) 8193 (firstn 150 pattern_long) in
  match wyhash mips32 false 8193 150 7 4096 m with Ok (v, _) => v = wy 1 2 3 (2 ^ 64 - 1) 0 (firstn 150 pattern_long) 7 | _ => False end.
Proof. vm_compute. reflexivity. Qed.

(** ** C50 (refuted): no two keys collide under all seeds *)
Lemma mum_0_l : forall y, mum 0 y = 0.
Proof. reflexivity. Qed.
Lemma mum_0_r : forall x, mum x 0 = 0.
Proof. intro x. unfold mum. rewrite N.mul_0_r. reflexivity. Qed.
Lemma xor_same : forall x, xor x x = 0.
Proof. intro. apply N.lxor_nilpotent. Qed.

(** Keys of 9 to 16 bytes that begin with the second secret have the value 0,
    whatever the seed, the other secrets and the rest of the key. *)
Lemma firstn_exact : forall A (x y : list A), firstn (List.length x) (x ++ y) = x.
Proof. intros. rewrite firstn_app, Nat.sub_diag, firstn_all. apply app_nil_r. Qed.
Lemma skipn_exact : forall A (x y : list A) n, skipn (List.length x + n) (x ++ y) = skipn n y.
Proof. induction x as [|a x IH]; intros y n; [reflexivity|apply IH]. Qed.
Theorem C50_zero_refuted : forall S0 S1 S2 S3 S4 rest seed, S1 < 2 ^ 64 -> (1 <= List.length rest <= 8)%nat ->
  wy S0 S1 S2 S3 S4 (le_bytes 8 S1 ++ rest) seed = 0.
Proof.
  intros S0 S1 S2 S3 S4 rest seed B L. unfold wy.
  assert (LL : (9 <= List.length (le_bytes 8 S1 ++ rest) <= 16)%nat) by (rewrite app_length, le_bytes_length; lia).
  assert (BZ : forall k l, k <> 0%nat -> (List.length l <= k)%nat -> before_last k l = 0%nat) by (intros; now apply before_last_zero).
  rewrite (BZ 64%nat (le_bytes 8 S1 ++ rest)) by lia. cbv beta iota zeta. rewrite Nat.mul_0_r. cbn [skipn].
  rewrite (BZ 16%nat (le_bytes 8 S1 ++ rest)) by lia. rewrite Nat.mul_0_r. cbn [skipn first_groups seq map fold_left].
  unfold last_words. cbv zeta.
  destruct (Nat.eqb_spec (List.length (le_bytes 8 S1 ++ rest)) 0); [lia|].
  destruct (Nat.ltb_spec (List.length (le_bytes 8 S1 ++ rest)) 4); [lia|].
  destruct (Nat.leb_spec (List.length (le_bytes 8 S1 ++ rest)) 8); [lia|].
  assert (FA : firstn 8 (le_bytes 8 S1 ++ rest) = le_bytes 8 S1) by (rewrite <- (le_bytes_length 8 S1) at 1; apply firstn_exact).
  rewrite FA.
  rewrite le_num_le_bytes, N.mod_small by exact B. rewrite xor_same, mum_0_l, mum_0_r. reflexivity.
Qed.
Print Assumptions C50_zero_refuted.

(** Of a key of at most 64 bytes: all that comes before a group of 16 bytes that
    begins with the second secret, the seed and the rest of the group do not
    matter. *)
Lemma first_groups_cat : forall k i b r n, List.length b = (k * i)%nat ->
  first_groups k (i + n) (b ++ r) = first_groups k i b ++ first_groups k n r.
Proof.
  intros k i. induction i as [|i IH]; intros b r n L.
  - rewrite Nat.mul_0_r in L. destruct b; [reflexivity|discriminate].
  - assert (E : b = firstn k b ++ skipn k b) by (symmetry; apply firstn_skipn).
    assert (L1 : List.length (firstn k b) = k) by (rewrite firstn_length; lia).
    assert (L2 : List.length (skipn k b) = (k * i)%nat) by (rewrite skipn_length; lia).
    rewrite E. cbn [Nat.add]. rewrite <- app_assoc, !first_groups_app by exact L1. cbn [app]. f_equal. now apply IH.
Qed.
Lemma before_last_cat : forall k i b r, k <> 0%nat -> List.length b = (k * i)%nat -> r <> [] ->
  before_last k (b ++ r) = (i + before_last k r)%nat.
Proof.
  intros k i. induction i as [|i IH]; intros b r K L R.
  - rewrite Nat.mul_0_r in L. destruct b; [reflexivity|discriminate].
  - assert (E : b = firstn k b ++ skipn k b) by (symmetry; apply firstn_skipn).
    assert (L1 : List.length (firstn k b) = k) by (rewrite firstn_length; lia).
    assert (L2 : List.length (skipn k b) = (k * i)%nat) by (rewrite skipn_length; lia).
    rewrite E, <- app_assoc. rewrite before_last_app; [|exact K|exact L1|].
    + cbn [Nat.add]. f_equal. now apply IH.
    + intro X. apply app_eq_nil in X. now apply R.
Qed.
Lemma group_first : forall x y, List.length x = 8%nat -> group 8 0 (x ++ y) = x.
Proof. intros x y L. unfold group. cbn [Nat.mul skipn]. rewrite <- L. apply firstn_exact. Qed.

Theorem C50_forgets_refuted : forall S0 S1 S2 S3 S4 a a' x x' r seed seed', S1 < 2 ^ 64 ->
  List.length a = List.length a' -> Nat.modulo (List.length a) 16 = 0%nat -> List.length x = 8%nat -> List.length x' = 8%nat ->
  r <> [] -> (List.length (a ++ le_bytes 8 S1 ++ x ++ r) <= 64)%nat ->
  wy S0 S1 S2 S3 S4 (a ++ le_bytes 8 S1 ++ x ++ r) seed = wy S0 S1 S2 S3 S4 (a' ++ le_bytes 8 S1 ++ x' ++ r) seed'.
Proof.
  intros S0 S1 S2 S3 S4 a a' x x' r seed seed' B LA MA LX LX' R L.
  assert (V : forall a x seed, Nat.modulo (List.length a) 16 = 0%nat -> List.length x = 8%nat ->
    (List.length (a ++ le_bytes 8 S1 ++ x ++ r) <= 64)%nat ->
    wy S0 S1 S2 S3 S4 (a ++ le_bytes 8 S1 ++ x ++ r) seed
    = let k := before_last 16 r in
      let s := fold_left (lane S1) (first_groups 16 k r) 0 in
      let '(y, z) := last_words (skipn (16 * k) r) in
      mum (xor S1 (mlen a + 16 + mlen r)) (mum (xor y S1) (xor z s))).
  { clear -B R. intros a x seed MA LX L.
    set (i := (List.length a / 16)%nat). assert (LA : List.length a = (16 * i)%nat) by (apply Nat.div_exact; [discriminate|exact MA]).
    assert (E : a ++ le_bytes 8 S1 ++ x ++ r = (a ++ le_bytes 8 S1 ++ x) ++ r) by now rewrite <- !app_assoc.
    assert (LB : List.length (a ++ le_bytes 8 S1 ++ x) = (16 * (i + 1))%nat).
    { rewrite !app_length, le_bytes_length. lia. }
    assert (ML : mlen (a ++ le_bytes 8 S1 ++ x ++ r) = mlen a + 16 + mlen r).
    { unfold mlen. rewrite !app_length, le_bytes_length. lia. }
    unfold wy. rewrite ML, (before_last_zero 64) by (exact L || discriminate). cbv beta iota zeta. rewrite Nat.mul_0_r.
    change (skipn 0 (a ++ le_bytes 8 S1 ++ x ++ r)) with (a ++ le_bytes 8 S1 ++ x ++ r). rewrite E.
    rewrite (before_last_cat 16 (i + 1)) by (exact LB || exact R || discriminate).
    rewrite Nat.mul_add_distr_l, <- LB, skipn_exact.
    rewrite first_groups_cat by exact LB. rewrite first_groups_cat by exact LA.
    rewrite !fold_left_app.
    replace (first_groups 16 1 (le_bytes 8 S1 ++ x)) with [le_bytes 8 S1 ++ x].
    2:{ rewrite <- (app_nil_r (le_bytes 8 S1 ++ x)) at 2. rewrite first_groups_app; [reflexivity|].
        rewrite app_length, le_bytes_length. lia. }
    cbn [fold_left]. unfold lane at 2. rewrite group_first by apply le_bytes_length.
    rewrite le_num_le_bytes, N.mod_small by exact B. rewrite xor_same, mum_0_l. reflexivity. }
  rewrite (V a x seed MA LX L), (V a' x' seed').
  - unfold mlen. now rewrite LA.
  - now rewrite <- LA.
  - exact LX'.
  - rewrite !app_length, le_bytes_length in *. lia.
Qed.
Print Assumptions C50_forgets_refuted.

(** Of a longer key: all that comes before a group of 64 bytes whose words 0, 2, 4
    and 6 are the other secrets, the seed and the other words do not matter. *)
Definition blocks (S1 S2 S3 S4 : N) (g : list byte) : Prop :=
  List.length g = 64%nat /\ le_num (group 8 0 g) = S1 /\ le_num (group 8 2 g) = S2 /\
  le_num (group 8 4 g) = S3 /\ le_num (group 8 6 g) = S4.
Theorem C50_forgets_long_refuted : forall S0 S1 S2 S3 S4 a a' g g' r seed seed',
  blocks S1 S2 S3 S4 g -> blocks S1 S2 S3 S4 g' ->
  List.length a = List.length a' -> Nat.modulo (List.length a) 64 = 0%nat -> r <> [] ->
  wy S0 S1 S2 S3 S4 (a ++ g ++ r) seed = wy S0 S1 S2 S3 S4 (a' ++ g' ++ r) seed'.
Proof.
  intros S0 S1 S2 S3 S4 a a' g g' r seed seed' B B' LA MA R.
  assert (V : forall a g seed, Nat.modulo (List.length a) 64 = 0%nat -> blocks S1 S2 S3 S4 g ->
    wy S0 S1 S2 S3 S4 (a ++ g ++ r) seed
    = let n := before_last 64 r in
      let '(s, t) := fold_left (lanes S1 S2 S3 S4) (first_groups 64 n r) (0, 0) in
      let s := xor s t in
      let msg' := skipn (64 * n) r in
      let k := before_last 16 msg' in
      let s := fold_left (lane S1) (first_groups 16 k msg') s in
      let '(y, z) := last_words (skipn (16 * k) msg') in
      mum (xor S1 (mlen a + 64 + mlen r)) (mum (xor y S1) (xor z s))).
  { clear -R. intros a g seed MA (LG & G1 & G2 & G3 & G4).
    set (i := (List.length a / 64)%nat). assert (LA : List.length a = (64 * i)%nat) by (apply Nat.div_exact; [discriminate|exact MA]).
    assert (LB : List.length (a ++ g) = (64 * (i + 1))%nat) by (rewrite app_length; lia).
    assert (ML : mlen (a ++ g ++ r) = mlen a + 64 + mlen r) by (unfold mlen; rewrite !app_length; lia).
    unfold wy. rewrite ML, app_assoc.
    rewrite (before_last_cat 64 (i + 1)) by (exact LB || exact R || discriminate).
    rewrite Nat.mul_add_distr_l, <- LB, skipn_exact.
    rewrite first_groups_cat by exact LB. rewrite first_groups_cat by exact LA.
    replace (first_groups 64 1 g) with [g].
    2:{ rewrite <- (app_nil_r g) at 2. now rewrite first_groups_app. }
    rewrite !fold_left_app. cbn [fold_left].
    destruct (fold_left (lanes S1 S2 S3 S4) (first_groups 64 i a) (xor seed S0, xor seed S0)) as [s t].
    replace (lanes S1 S2 S3 S4 (s, t) g) with (0, 0).
    2:{ unfold lanes. cbv beta iota. rewrite G1, G2, G3, G4, !xor_same, ?mum_0_l. reflexivity. }
    cbv zeta.
    destruct (fold_left (lanes S1 S2 S3 S4) (first_groups 64 (before_last 64 r) r) (0, 0)) as [s' t'].
    replace (i + 1 + before_last 64 r)%nat with (S (i + before_last 64 r)) by lia. reflexivity. }
  rewrite (V a g seed MA B), (V a' g' seed').
  - unfold mlen. now rewrite LA.
  - now rewrite <- LA.
  - exact B'.
Qed.
Print Assumptions C50_forgets_long_refuted.

(** concrete cases, with the secrets of the test program *)
Definition wy_secret_1 : list byte := le_bytes 8 0xe7037ed1a0b428db.
Example C50_zero_case :
  map (fun k => wyhash_v7 (wy_secret_1 ++ k) 12345)
    [list_byte_of_string "12345678"; list_byte_of_string "xyz"; [x00]]%string = [0; 0; 0] /\
  wyhash_v7 (le_bytes 8 (0xe7037ed1a0b428db + 1) ++ list_byte_of_string "12345678") 12345 <> 0.
Proof. split; vm_compute; [reflexivity|discriminate]. Qed.
Example C50_forgets_case :
  let a := list_byte_of_string "sixteen letters.some 16 letters." in
  let a' := list_byte_of_string "other letters !!and still others" in
  let r := list_byte_of_string "the end" in
  wyhash_v7 (a ++ wy_secret_1 ++ list_byte_of_string "abcdefgh" ++ r) 1
  = wyhash_v7 (a' ++ wy_secret_1 ++ list_byte_of_string "ABCDEFGH" ++ r) 99 /\
  wyhash_v7 (a ++ list_byte_of_string "--------abcdefgh" ++ r) 1 <> wyhash_v7 (a' ++ list_byte_of_string "--------abcdefgh" ++ r) 1.
Proof. split; vm_compute; [reflexivity|discriminate]. Qed.
Definition wy_blocker (b : byte) : list byte :=
  flat_map (fun s => le_bytes 8 s ++ repeat b 8) (tl _wyp).
Example C50_forgets_long_case : blocks 0xe7037ed1a0b428db 0x8ebc6af09c88c6e3 0x589965cc75374cc3 0x1d8e4e27c47d124f (wy_blocker x41) /\
  wyhash_v7 (pattern_long ++ wy_blocker x41 ++ [x01; x02]) 1 = wyhash_v7 (rev pattern_long ++ wy_blocker x7a ++ [x01; x02]) 2.
Proof. split; [repeat split; vm_compute; reflexivity|vm_compute; reflexivity]. Qed.

(** The same of the code of the test program, in all builds: the hash of such keys
    is 0 under every seed. *)
Theorem C50_code_refuted : forall cfg nat m wyp p rest seed, secrets_in cfg wyp _wyp m ->
  bytes_at m p (wy_secret_1 ++ rest) -> p + 8 + mlen rest < addr_space cfg -> seed < 2 ^ 64 -> (1 <= List.length rest <= 8)%nat ->
  thunk_wyhash_v7 cfg nat wyp p (8 + mlen rest) seed m = Ok (0, m).
Proof.
  intros cfg nat m wyp p rest seed SI B L S LR.
  assert (E : 8 + mlen rest = mlen (wy_secret_1 ++ rest)) by (unfold mlen; rewrite app_length, Nat2N.inj_add; reflexivity).
  rewrite E, (C49_thunk cfg nat m wyp p (wy_secret_1 ++ rest) seed SI B) by (exact S || lia).
  do 2 f_equal. now apply C50_zero_refuted.
Qed.
Print Assumptions C50_code_refuted.
