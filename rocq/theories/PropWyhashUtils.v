(** C78: the utility functions of tests/wyhash/wyhash.h. *)
From Coq Require Import ZArith NArith QArith Arith List Bool Lia FinFun.
From Coq Require Import ZifyN ZifyNat ZifyBool.
From Verif Require Import CSem Spec NBits CSemFacts Inject Onto Primes Wyhash WyhashSpec WyhashFacts WyhashUtils WyhashUtilsFacts.
Import ListNotations.
Local Open Scope N_scope.

(** ** portable_popcount() counts the bits that are set *)
Theorem C78_popcount : forall x, x < 2 ^ 64 -> portable_popcount x = N.of_nat (weight_of 64 x).
Proof. exact popcount_ok. Qed.
Example C78_popcount_example : portable_popcount 0xffffffffffffffff = 64 /\ portable_popcount (wyp 0) = 32.
Proof. vm_compute. auto. Qed.

(** ** The table of make_secret() is that of all bytes with four bits set, in order *)
Theorem C78_table : wysecret_bytes = filter (fun b => Nat.eqb (weight_of 8 b) 4) (map N.of_nat (seq 0 256)).
Proof. vm_compute. reflexivity. Qed.

(** ** What make_secret() writes, whenever it ends *)
Theorem C78_secret : forall native fuel tfuel seed r, seed < 2 ^ 64 -> make_secret native fuel tfuel seed = Some r ->
  length r = 5%nat /\
  (forall w, In w r -> w < 2 ^ 64 /\ is_prime w /\ forall k, k < 8 -> weight_of 8 (w / 256 ^ k mod 256) = 4%nat) /\
  (forall i j x y, i <> j -> nth_error r i = Some x -> nth_error r j = Some y -> weight_of 64 (N.lxor x y) = 32%nat).
Proof.
  intros native fuel tfuel seed r S H. unfold make_secret in H. rewrite elements_native in H by exact S.
  destruct (elements_ok fuel tfuel 5 [] seed r S) as ((G1 & G2) & L); [|exact H|].
  { split; [intros w []|]. intros i j x y _ X. destruct i; discriminate X. }
  split; [exact L|]. split.
  - intros w I. destruct (G1 w I) as ((T1 & T2) & P). repeat split; try assumption; try apply P.
    intros k K. specialize (T2 k K). rewrite C78_table in T2. apply filter_In in T2. now apply Nat.eqb_eq.
  - intros i j x y IJ X Y. destruct (Nat.lt_ge_cases i j) as [C|C]; [exact (G2 i j x y C X Y)|].
    rewrite N.lxor_comm. apply (G2 j i y x); [lia|exact Y|exact X].
Qed.
(** It depends on the seed alone, not on the multiplication or on how long we wait. *)
Theorem C78_secret_same : forall native fuel tfuel native' fuel' tfuel' seed r r', seed < 2 ^ 64 ->
  make_secret native fuel tfuel seed = Some r -> make_secret native' fuel' tfuel' seed = Some r' -> r = r'.
Proof.
  intros native fuel tfuel native' fuel' tfuel' seed r r' S H K. unfold make_secret in *. rewrite elements_native in H, K by exact S.
  exact (elements_same _ _ _ _ _ _ _ _ _ H K).
Qed.
(** The trial division, that of 2^31 numbers at most, accepts exactly the primes. *)
Theorem C78_trial : forall tfuel w, 2 ^ 31 <= N.of_nat tfuel -> N.odd w = true -> 2 ^ 32 <= w -> w < 2 ^ 64 ->
  (trial tfuel 3 w = Some true <-> is_prime w) /\ (trial tfuel 3 w = Some false <-> ~ is_prime w).
Proof.
  intros tfuel w F O G L.
  assert (Z : w mod 2 <> 0) by (rewrite <- N.bit0_mod, N.bit0_odd, O; discriminate).
  assert (T : trial tfuel 3 w = Some true <-> is_prime w).
  { split; [|now apply prime_trial]. change (2 ^ 32) with 4294967296 in G. apply trial_prime; [exact Z|lia|exact L]. }
  split; [exact T|]. change (2 ^ 31) with 2147483648 in F. destruct (trial_total tfuel 3 w ltac:(lia)) as ([|] & E).
  - split; [congruence|]. intros Np. now apply T in E.
  - split; [|auto]. intros _ P. apply T in P. congruence.
Qed.
Definition demo_primes : list certificate :=
  [(30681907, 2, [(1291, 1%nat, 3837018); (233, 1%nat, 12625400)]);
   (2884099259, 2, [(30681907, 1%nat, 396013215)]);
   (5768198519, 2, [(2884099259, 1%nat, 1922732840)]);
   (69218382229, 2, [(5768198519, 1%nat, 28076125246)]);
   (3264420583610670221, 2, [(69218382229, 1%nat, 561117868805124214)]);
   (26160493, 2, [(641, 1%nat, 11771358); (179, 1%nat, 12995993)]);
   (59197, 2, [(4933, 1%nat, 42963)]);
   (2178165708554860679, 2, [(26160493, 1%nat, 1413275239675668559); (59197, 1%nat, 799576112474701714)]);
   (145969, 2, [(3041, 1%nat, 74436)]);
   (23355041, 2, [(145969, 1%nat, 13995215)]);
   (1491653, 2, [(1033, 1%nat, 952409); (19, 2%nat, 151841)]);
   (14211796818340908713, 2, [(23355041, 1%nat, 12080931732407883540); (1491653, 1%nat, 4139974615534073808)]);
   (63313, 2, [(1319, 1%nat, 1399)]);
   (77874991, 2, [(63313, 1%nat, 71766567)]);
   (8234648607940254347, 2, [(77874991, 1%nat, 5208203039112227937); (13553, 1%nat, 5520058584283840538)]);
   (53553289, 2, [(11213, 1%nat, 17272183)]);
   (16307190713657, 2, [(53553289, 1%nat, 9307329483754)]);
   (8278443208932257993, 2, [(16307190713657, 1%nat, 3174537162283985858)])].
Definition demo_factors : list (N * N) :=
  [(0xaaa38b87a90f8d17, 5)].
Definition demo_secret : list N :=
  [0x2d4d8d39a3965c8d; 0x1e3a662be8597887; 0xc53a71e8b13c8ea9; 0x72475947a6719a8b; 0x72e2f03cc9a6f0c9].
Lemma demo_checked : (match check [] demo_primes with Some r => forallb (fun p => existsb (N.eqb p) r) demo_secret | None => false end) = true.
Proof. vm_compute. reflexivity. Qed.
Lemma demo_secret_primes : Forall is_prime demo_secret.
Proof.
  pose proof demo_checked as H. destruct (check [] demo_primes) as [r|] eqn:E; [|discriminate H].
  pose proof (check_ok demo_primes [] r (Forall_nil _) E) as P. apply Forall_forall. intros p I.
  apply (proj1 (forallb_forall _ _) H) in I. apply existsb_exists in I. destruct I as (x & I & X). apply N.eqb_eq in X. subst x.
  exact (proj1 (Forall_forall _ _) P p I).
Qed.
Lemma demo_elements : elements_by (oracle demo_secret demo_factors) 137 5 [] 15347012 = Some demo_secret.
Proof. vm_compute. reflexivity. Qed.
(** With the seed 15347012 it ends, after 137 words. *)
Example C78_secret_example : forall native tfuel, 2 ^ 31 <= N.of_nat tfuel -> make_secret native 137 tfuel 15347012 = Some demo_secret.
Proof.
  intros native tfuel F. unfold make_secret. rewrite elements_native by reflexivity.
  apply (elements_by_ok (oracle demo_secret demo_factors) tfuel); [|reflexivity|intros x []|exact demo_elements].
  intros w b G. now apply oracle_ok; [exact demo_secret_primes|exact F|].
Qed.
(** The secret that the test program passes to wyhash() is none of these: the highest
    byte of its first word, 0xa0, has two bits set. *)
Theorem C78_default_refuted : forall native fuel tfuel seed, seed < 2 ^ 64 -> make_secret native fuel tfuel seed <> Some _wyp.
Proof.
  intros native fuel tfuel seed S H. apply C78_secret in H; [|exact S]. destruct H as (_ & H & _).
  destruct (H (wyp 0) ltac:(now left)) as (_ & _ & B). specialize (B 7 ltac:(reflexivity)). vm_compute in B. discriminate B.
Qed.

(** ** wyrand() *)
(** the state after [k] calls, and the value of the call after these *)
Definition rand_state (native : bool) (seed : N) (k : nat) : N := Nat.iter k (fun s => snd (wyrand native s)) seed.
Definition rand_value (native : bool) (seed : N) (k : nat) : N := fst (wyrand native (rand_state native seed k)).

Theorem C78_rand_state : forall native seed k, seed < 2 ^ 64 ->
  rand_state native seed k = (seed + N.of_nat k * 0xa0761d6478bd642f) mod 2 ^ 64.
Proof.
  intros native seed k S. induction k as [|k IH].
  - cbn [rand_state Nat.iter nat_rect]. rewrite N.mul_0_l, N.add_0_r. symmetry. now apply N.mod_small.
  - change (rand_state native seed (Datatypes.S k)) with (snd (wyrand native (rand_state native seed k))).
    unfold wyrand. cbv zeta. cbn [snd]. rewrite IH. unfold add64, u64. change W64 with (2 ^ 64). rewrite N.add_mod_idemp_l by discriminate.
    f_equal. change (wyp 0) with 0xa0761d6478bd642f. rewrite Nat2N.inj_succ, N.mul_succ_l. lia.
Qed.
Theorem C78_rand_value : forall native seed k, seed < 2 ^ 64 ->
  rand_value native seed k = let s := rand_state native seed (S k) in mum s (N.lxor s 0xe7037ed1a0b428db).
Proof.
  intros native seed k S. unfold rand_value. change (rand_state native seed (Datatypes.S k)) with (snd (wyrand native (rand_state native seed k))).
  assert (L : rand_state native seed k < W64) by (rewrite C78_rand_state by exact S; apply N.mod_lt; discriminate).
  rewrite wyrand_ok by exact L. reflexivity.
Qed.
(** The period is 2^64, and all states occur. *)
Theorem C78_rand_period : forall native seed i j, seed < 2 ^ 64 ->
  rand_state native seed i = rand_state native seed j <-> N.of_nat i mod 2 ^ 64 = N.of_nat j mod 2 ^ 64.
Proof.
  intros native seed i j S. rewrite !C78_rand_state by exact S. destruct (odd_inverse 0xa0761d6478bd642f eq_refl) as (q & Q).
  assert (R : forall i, (seed + N.of_nat i * 0xa0761d6478bd642f) mod 2 ^ 64 = (seed + mulw (N.of_nat i mod 2 ^ 64) 0xa0761d6478bd642f) mod 2 ^ 64).
  { intros n. unfold mulw. rewrite N.mul_mod_idemp_l, N.add_mod_idemp_r by discriminate. reflexivity. }
  rewrite !R. split; [|intros ->; reflexivity]. intros E. apply add_inj in E; [|discriminate|apply mulw_lt64..].
  apply (mulw_inj _ q) in E; [exact E|exact Q|apply N.mod_lt; discriminate..].
Qed.
Theorem C78_rand_all_states : forall native seed t, seed < 2 ^ 64 -> t < 2 ^ 64 ->
  exists k, N.of_nat k < 2 ^ 64 /\ rand_state native seed k = t.
Proof.
  intros native seed t S T.
  destruct (inj_onto (2 ^ 64) (fun x => rand_state native seed (N.to_nat x))) with (y := t) as (x & X & E); [| |exact T|].
  - intros x _. rewrite C78_rand_state by exact S. apply N.mod_lt. discriminate.
  - intros x y X Y E. apply C78_rand_period in E; [|exact S]. now rewrite !N2Nat.id, !N.mod_small in E.
  - exists (N.to_nat x). now rewrite N2Nat.id.
Qed.
(** But not all values: within one period some word does not occur, as zero occurs twice. *)
Theorem C78_rand_values_refuted : forall native seed, seed < 2 ^ 64 ->
  ~ (forall v, v < 2 ^ 64 -> exists k, rand_value native seed k = v).
Proof.
  intros native seed S H.
  set (f := fun s => mum s (N.lxor s 0xe7037ed1a0b428db)).
  assert (O : forall v, v < 2 ^ 64 -> exists s, s < 2 ^ 64 /\ f s = v).
  { intros v V. destruct (H v V) as (k & <-). exists (rand_state native seed (Datatypes.S k)).
    split; [rewrite C78_rand_state by exact S; apply N.mod_lt; discriminate|]. now rewrite C78_rand_value. }
  assert (B : forall s, s < 2 ^ 64 -> f s < 2 ^ 64).
  { intros s L. apply mum_lt; [exact L|]. apply (lxor_lt 64); [exact L|reflexivity]. }
  assert (E : f 0 = f 0xe7037ed1a0b428db) by (vm_compute; reflexivity).
  assert (Z : 0 < 2 ^ 64) by reflexivity. assert (Z1 : 0xe7037ed1a0b428db < 2 ^ 64) by reflexivity.
  clearbody f. clear H S seed native. revert Z Z1 O B. generalize (2 ^ 64) as n. intros n Z Z1 O B.
  set (k := N.to_nat n). assert (K : n = N.of_nat k) by (unfold k; now rewrite N2Nat.id). clearbody k. subst n.
  set (g := fun x => N.to_nat (f (N.of_nat x))).
  assert (G : bFun k g). { intros x X. unfold g. specialize (B (N.of_nat x) ltac:(lia)). lia. }
  assert (J : bInjective k g).
  { apply (proj2 (bInjective_bSurjective G)). intros y Y. destruct (O (N.of_nat y) ltac:(lia)) as (s & L & F). exists (N.to_nat s).
    unfold g. rewrite N2Nat.id, F. split; lia. }
  specialize (J (N.to_nat 0) (N.to_nat 0xe7037ed1a0b428db) ltac:(lia) ltac:(lia)). unfold g in J. rewrite !N2Nat.id, E in J.
  specialize (J eq_refl). apply N2Nat.inj in J. discriminate J.
Qed.
Example C78_rand_example : forall native, rand_value native (2 ^ 64 - 0xa0761d6478bd642f) 0 = 0 /\ rand_value native 0x468d616d27f6c4ac 0 = 0.
Proof. intros [|]; vm_compute; auto. Qed.

(** ** wyhash64() *)
Theorem C78_wyhash64 : forall native A B, A < 2 ^ 64 -> B < 2 ^ 64 ->
  wyhash64 native A B =
    let p := N.lxor A 0xa0761d6478bd642f * N.lxor B 0xe7037ed1a0b428db in
    mum (N.lxor (p mod 2 ^ 64) 0xa0761d6478bd642f) (N.lxor (p / 2 ^ 64) 0xe7037ed1a0b428db).
Proof.
  intros native A B LA LB. unfold wyhash64. cbv zeta.
  pose proof (lxor_lt 64 A (wyp 0) LA wyp0_lt) as L0. pose proof (lxor_lt 64 B (wyp 1) LB wyp1_lt) as L1.
  rewrite wymum_ok by assumption. change 0xa0761d6478bd642f with (wyp 0). change 0xe7037ed1a0b428db with (wyp 1).
  set (a := N.lxor A (wyp 0)) in *. set (b := N.lxor B (wyp 1)) in *.
  apply wymix_ok; apply (lxor_lt 64); [apply N.mod_lt; discriminate|exact wyp0_lt| |exact wyp1_lt].
  apply N.div_lt_upper_bound; [discriminate|]. apply N.mul_lt_mono; assumption.
Qed.
(** One argument alone, if it is the constant, makes the other one irrelevant. *)
Theorem C78_wyhash64_blind : forall native A B, A < 2 ^ 64 -> B < 2 ^ 64 ->
  wyhash64 native 0xa0761d6478bd642f B = mum 0xa0761d6478bd642f 0xe7037ed1a0b428db /\
  wyhash64 native A 0xe7037ed1a0b428db = mum 0xa0761d6478bd642f 0xe7037ed1a0b428db.
Proof.
  intros native A B LA LB. rewrite !C78_wyhash64 by (assumption || reflexivity). cbv zeta.
  rewrite !N.lxor_nilpotent, N.mul_0_l, N.mul_0_r, N.mod_0_l, N.div_0_l, !N.lxor_0_l by discriminate. now split.
Qed.
Example C78_wyhash64_example : wyhash64 false 0 0 <> wyhash64 true 0 1 /\
  wyhash64 false 0xa0761d6478bd642f 0 = wyhash64 true 0xa0761d6478bd642f 1.
Proof. vm_compute. split; [discriminate|reflexivity]. Qed.

(** ** wy2u01() and wy2gau() *)
Lemma Q_scaled : forall (n : Z) (d : positive), (inject_Z n * (1 # d) == n # d)%Q.
Proof. intros. unfold Qeq. cbn. lia. Qed.
(** a multiple of 2^-52 in [0, 1), which a double holds; the low 12 bits do not matter *)
Theorem C78_u01 : forall r, r < 2 ^ 64 ->
  (wy2u01 r == Z.of_N (r / 2 ^ 12) # 2 ^ 52)%Q /\ (Z.of_N (r / 2 ^ 12) < 2 ^ 53)%Z /\ (0 <= wy2u01 r /\ wy2u01 r < 1)%Q.
Proof.
  intros r L. assert (E : (wy2u01 r == Z.of_N (r / 2 ^ 12) # 2 ^ 52)%Q).
  { unfold wy2u01. rewrite Q_scaled. unfold shr64, u64. now rewrite N.mod_small, N.shiftr_div_pow2 by exact L. }
  split; [exact E|]. change (2 ^ 64) with 18446744073709551616 in L. change (2 ^ 12) with 4096 in *.
  assert (B : r / 4096 < 4503599627370496) by lia. set (k := r / 4096) in *. clearbody k.
  split; [change (2 ^ 53)%Z with 9007199254740992%Z; lia|]. rewrite E. unfold Qle, Qlt. cbn [Qnum Qden].
  change (Z.pos (2 ^ 52)) with 4503599627370496%Z. lia.
Qed.
Theorem C78_u01_same : forall r s, r < 2 ^ 64 -> s < 2 ^ 64 -> (wy2u01 r == wy2u01 s)%Q <-> r / 2 ^ 12 = s / 2 ^ 12.
Proof.
  intros r s R S. destruct (C78_u01 r R) as (E & _). destruct (C78_u01 s S) as (F & _). rewrite E, F. unfold Qeq. cbn [Qnum Qden].
  change (Z.pos (2 ^ 52)) with 4503599627370496%Z. lia.
Qed.
Example C78_u01_example : (wy2u01 (2 ^ 63) == 1 # 2)%Q /\ (wy2u01 (2 ^ 64 - 1) == (2 ^ 52 - 1) # 2 ^ 52)%Q.
Proof. split; reflexivity. Qed.

(** the three fields of 21 bits *)
Definition gau_sum (r : N) : N := r mod 2 ^ 21 + r / 2 ^ 21 mod 2 ^ 21 + r / 2 ^ 42 mod 2 ^ 21.
Lemma gau_fields : forall a b c t, a < 2097152 -> b < 2097152 -> c < 2097152 ->
  gau_sum (a + 2097152 * (b + 2097152 * (c + 2097152 * t))) = a + b + c.
Proof.
  intros a b c t A B C. unfold gau_sum. change (2 ^ 42) with (2097152 * 2097152). change (2 ^ 21) with 2097152.
  rewrite <- N.div_div by discriminate.
  assert (D : forall x y, x < 2097152 -> (x + 2097152 * y) / 2097152 = y).
  { intros x y X. rewrite N.mul_comm, N.div_add, N.div_small by (discriminate || exact X). reflexivity. }
  assert (M : forall x y, x < 2097152 -> (x + 2097152 * y) mod 2097152 = x).
  { intros x y X. rewrite N.mul_comm, N.mod_add by discriminate. now apply N.mod_small. }
  now rewrite !D, !M by assumption.
Qed.
Lemma fields_of : forall r, r < 2 ^ 64 -> exists a b c t, a < 2097152 /\ b < 2097152 /\ c < 2097152 /\ t < 2 /\
  r = a + 2097152 * (b + 2097152 * (c + 2097152 * t)).
Proof.
  intros r L. set (K := 2097152).
  assert (G : forall x, x = x mod K + K * (x / K) /\ x mod K < K).
  { intros x. split; [rewrite N.add_comm; apply N.div_mod; discriminate|apply N.mod_lt; discriminate]. }
  destruct (G r) as (G1 & B1). destruct (G (r / K)) as (G2 & B2). destruct (G (r / K / K)) as (G3 & B3).
  exists (r mod K), (r / K mod K), (r / K / K mod K), (r / K / K / K). rewrite <- G3, <- G2. repeat split; try assumption.
  rewrite !N.div_div by discriminate. apply N.div_lt_upper_bound; [discriminate|]. exact L.
Qed.
(** a multiple of 2^-20 from -3 to 3 - 3 * 2^-20; the highest bit does not matter *)
Theorem C78_gau : forall r, r < 2 ^ 64 ->
  (wy2gau r == (Z.of_N (gau_sum r) - 3 * 2 ^ 20) # 2 ^ 20)%Q /\ gau_sum r < 2 ^ 53 /\
  (- (3) <= wy2gau r /\ wy2gau r <= 3 - (3 # 2 ^ 20))%Q /\ gau_sum r = gau_sum (r mod 2 ^ 63).
Proof.
  intros r L. assert (F : forall x, N.land x 0x1fffff = x mod 2 ^ 21) by (intros; exact (N.land_ones x 21)).
  assert (M : forall x, x mod 2 ^ 21 < 2097152) by (intros; apply N.mod_lt; discriminate).
  assert (B : gau_sum r <= 3 * 2097151).
  { unfold gau_sum. pose proof (M r). pose proof (M (r / 2 ^ 21)). pose proof (M (r / 2 ^ 42)). lia. }
  assert (E : (wy2gau r == (Z.of_N (gau_sum r) - 3 * 2 ^ 20) # 2 ^ 20)%Q).
  { unfold wy2gau. cbv zeta. rewrite !F. unfold shr64, u64. rewrite (N.mod_small r W64) by exact L. rewrite !N.shiftr_div_pow2.
    unfold add64, u64. rewrite (N.mod_small (r mod 2 ^ 21 + _)).
    2:{ pose proof (M r). pose proof (M (r / 2 ^ 21)). lia. }
    change (r mod 2 ^ 21 + r / 2 ^ 21 mod 2 ^ 21 + r / 2 ^ 42 mod 2 ^ 21) with (gau_sum r). rewrite N.mod_small by lia.
    rewrite Q_scaled. set (k := gau_sum r) in *. clearbody k. unfold Qeq, Qminus, Qplus, Qopp. cbn [Qnum Qden].
    change (Z.pos (2 ^ 20)) with 1048576%Z. change (Z.pos (2 ^ 20 * 1)) with 1048576%Z. change (2 ^ 20)%Z with 1048576%Z. lia. }
  split; [exact E|]. split; [change (2 ^ 53) with 9007199254740992; lia|]. split.
  - rewrite E. set (k := gau_sum r) in *. clearbody k. unfold Qle, Qminus, Qplus, Qopp. cbn [Qnum Qden inject_Z].
    change (Z.pos (2 ^ 20)) with 1048576%Z. change (Z.pos (1 * 2 ^ 20)) with 1048576%Z. change (2 ^ 20)%Z with 1048576%Z. lia.
  - clear - L. destruct (fields_of r L) as (a & b & c & t & A & B & C & T & ->). rewrite gau_fields by assumption.
    replace (a + 2097152 * (b + 2097152 * (c + 2097152 * t))) with (a + 2097152 * (b + 2097152 * (c + 2097152 * 0)) + t * 2 ^ 63)
      by (change (2 ^ 63) with 9223372036854775808; lia).
    rewrite N.mod_add, N.mod_small by (discriminate || (change (2 ^ 63) with 9223372036854775808; lia)). now rewrite gau_fields.
Qed.
(** The values do not balance: [r] and its complement give the same sum, less than
    zero, for every [r], so that the mean over all words is - 3 * 2^-21. *)
Theorem C78_gau_mirror : forall r, r < 2 ^ 64 -> (wy2gau r + wy2gau (2 ^ 64 - 1 - r) == - (3 # 2 ^ 20))%Q.
Proof.
  intros r L. assert (L' : 2 ^ 64 - 1 - r < 2 ^ 64) by (change (2 ^ 64) with 18446744073709551616 in *; lia).
  destruct (C78_gau r L) as (E & _). destruct (C78_gau _ L') as (F & _). rewrite E, F.
  assert (G : gau_sum r + gau_sum (2 ^ 64 - 1 - r) = 3 * 2097151).
  { clear - L. destruct (fields_of r L) as (a & b & c & t & A & B & C & T & ->). rewrite gau_fields by assumption.
    replace (2 ^ 64 - 1 - (a + 2097152 * (b + 2097152 * (c + 2097152 * t)))) with
      ((2097151 - a) + 2097152 * ((2097151 - b) + 2097152 * ((2097151 - c) + 2097152 * (1 - t))))
      by (change (2 ^ 64) with 18446744073709551616; lia).
    rewrite gau_fields by (clear; lia). lia. }
  clear E F L L'. set (a := gau_sum r) in *. set (b := gau_sum (2 ^ 64 - 1 - r)) in *. clearbody a b.
  unfold Qeq, Qplus, Qopp. cbn [Qnum Qden]. change (Z.pos (2 ^ 20 * 2 ^ 20)) with 1099511627776%Z.
  change (Z.pos (2 ^ 20)) with 1048576%Z. change (2 ^ 20)%Z with 1048576%Z. lia.
Qed.
Example C78_gau_example : (wy2gau 0 == - (3))%Q /\ (wy2gau (2 ^ 63 - 1) == 3 - (3 # 2 ^ 20))%Q.
Proof. split; reflexivity. Qed.
