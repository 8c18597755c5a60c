(** C72, C74: hashes of 128 bits in order and in bytes, and states on the heap. *)
From Coq Require Import ZArith NArith Arith List Bool Lia Strings.Byte.
From Coq Require Import ZifyN ZifyNat ZifyBool.
From Verif Require Import Bytes CSem Bits Spec NBits CSemFacts OpsFacts FetchFacts KeyMem CtxMem StreamFacts Demo
  HighwayCat Xxhash XxhashSpec XxhashFacts XxhashStream PropXxhash Xxh3 Xxh3Spec Xxh3Facts Xxh3Secret Xxh3Utils PropXxh3.
Import ListNotations.
Ltac Zify.zify_post_hook ::= Z.div_mod_to_equations.
Local Open Scope N_scope.

(** ** C72: hashes of 128 bits *)
(** a hash is a number, and its canonical form the bytes of it, the uppermost first *)
Definition number (h : two) : N := fst h + 2 ^ 64 * snd h.
Definition canonical (h : two) : list byte := rev (le_bytes 16 (number h)).
Definition sized (h : two) : Prop := fst h < 2 ^ 64 /\ snd h < 2 ^ 64.
(** the sign of a comparison *)
Definition sign (c : comparison) : Z := match c with Lt => (-1)%Z | Eq => 0%Z | Gt => 1%Z end.

Lemma number_inj : forall a b, sized a -> sized b -> number a = number b -> a = b.
Proof. intros [l h] [l' h'] [A B] [A' B'] E. unfold number in E. cbn [fst snd] in *. f_equal; lia. Qed.
Lemma canonical_halves : forall h, sized h -> canonical h = be_bytes 8 (snd h) ++ be_bytes 8 (fst h).
Proof.
  intros [l h] [A B]. cbn [fst snd] in *. unfold canonical, number, be_bytes. cbn [fst snd].
  assert (E : le_bytes 16 (l + 2 ^ 64 * h) = le_bytes 8 l ++ le_bytes 8 h).
  { pose proof (le_bytes_le_num (le_bytes 8 l ++ le_bytes 8 h)) as E. rewrite le_num_app, !le_num_le_bytes, app_length, !le_bytes_length in E.
    change (256 ^ N.of_nat 8) with (2 ^ 64) in E. rewrite !N.mod_small in E by assumption. exact E. }
  rewrite E. apply rev_app_distr.
Qed.
Lemma canonical_length : forall h, length (canonical h) = 16%nat.
Proof. intro h. unfold canonical. now rewrite rev_length, le_bytes_length. Qed.

(** comparing bytes is comparing the numbers they are, the uppermost byte first *)
Lemma memcmp_num : forall a b, length a = length b -> memcmp a b = sign (be_num a ?= be_num b).
Proof.
  induction a as [|x a IH]; intros [|y b] L; try discriminate L; [reflexivity|]. cbn [memcmp]. injection L as L.
  change (x :: a) with ([x] ++ a). change (y :: b) with ([y] ++ b). rewrite !be_num_app. rewrite IH by exact L. rewrite <- L.
  change (be_num [x]) with (b2n x + 256 * 0). change (be_num [y]) with (b2n y + 256 * 0).
  pose proof (be_num_lt a) as A. pose proof (be_num_lt b) as B. rewrite <- L in B. set (P := 256 ^ N.of_nat (length a)) in *.
  replace (b2n x + 256 * 0) with (b2n x) by lia. replace (b2n y + 256 * 0) with (b2n y) by lia.
  destruct (N.ltb_spec (b2n x) (b2n y)) as [H|H].
  - assert (H1 : b2n x * P + be_num a < b2n y * P + be_num b) by nia. apply N.compare_lt_iff in H1. now rewrite H1.
  - destruct (N.ltb_spec (b2n y) (b2n x)) as [H'|H'].
    + assert (H1 : b2n y * P + be_num b < b2n x * P + be_num a) by nia. apply N.compare_gt_iff in H1. now rewrite H1.
    + replace (b2n y) with (b2n x) by lia. f_equal. destruct (N.compare_spec (be_num a) (be_num b)) as [C|C|C]; symmetry;
        [apply N.compare_eq_iff|apply N.compare_lt_iff|apply N.compare_gt_iff]; lia.
Qed.
Lemma memcmp_eq : forall a b, length a = length b -> (memcmp a b = 0%Z <-> a = b).
Proof.
  intros a b L. rewrite memcmp_num by exact L. split; intro H.
  - apply be_num_inj; [exact L|]. apply N.compare_eq_iff. destruct (be_num a ?= be_num b); [reflexivity|discriminate H..].
  - subst. now rewrite N.compare_refl.
Qed.
Lemma halves_inj : forall (a b c d : list byte), length a = length c -> a ++ b = c ++ d -> a = c /\ b = d.
Proof.
  induction a as [|x a IH]; intros b [|y c] d L E; try discriminate L; [now split|]. injection E as E1 E2. injection L as L.
  destruct (IH b c d L E2) as [-> ->]. now subst.
Qed.
Lemma object64_length : forall cfg v, length (object64 cfg v) = 8%nat.
Proof. intros cfg v. unfold object64. destruct (big_endian cfg); [apply be_bytes_length|apply le_bytes_length]. Qed.
Lemma object64_inj : forall cfg v w, v < 2 ^ 64 -> w < 2 ^ 64 -> object64 cfg v = object64 cfg w -> v = w.
Proof.
  intros cfg v w V W E. unfold object64 in E. destruct (big_endian cfg).
  - apply (f_equal be_num) in E. rewrite !be_num_be_bytes in E. now rewrite !N.mod_small in E.
  - apply (f_equal le_num) in E. rewrite !le_num_le_bytes in E. now rewrite !N.mod_small in E.
Qed.

(** Equality is that of the numbers, in all builds *)
Theorem C72_equal : forall cfg a b, sized a -> sized b ->
  XXH128_isEqual cfg a b = (if number a =? number b then 1%Z else 0%Z).
Proof.
  intros cfg a b A B. unfold XXH128_isEqual.
  assert (L : length (object128 cfg a) = length (object128 cfg b)) by (unfold object128; now rewrite !app_length, !object64_length).
  destruct (N.eqb_spec (number a) (number b)) as [E|E].
  - apply number_inj in E; try assumption. subst b. destruct (memcmp_eq _ _ L) as [_ H]. now rewrite H.
  - destruct (Z.eqb_spec (memcmp (object128 cfg a) (object128 cfg b)) 0) as [H|H]; [|reflexivity]. exfalso. apply E.
    apply (memcmp_eq _ _ L) in H. unfold object128 in H. apply halves_inj in H; [|now rewrite !object64_length]. destruct H as [H1 H2].
    apply object64_inj in H1; [|apply A|apply B]. apply object64_inj in H2; [|apply A|apply B]. unfold number. now rewrite H1, H2.
Qed.
Print Assumptions C72_equal.

(** The order for qsort is that of the numbers, for hashes at aligned addresses *)
Definition hash_at (cfg : config) (m : mem) (p : N) (h : two) : Prop :=
  bytes_at m p (object128 cfg h) /\ p mod alignment cfg 8 = 0 /\ p + 16 <= addr_space cfg.
Lemma deref128_ok : forall cfg m p h, sized h -> hash_at cfg m p h -> deref128 cfg p m = Ok (h, m).
Proof.
  intros cfg m p [l h] [A B] (H & AL & AD). cbn [fst snd] in *. unfold object128 in H. cbn [fst snd] in H.
  apply bytes_at_app in H. rewrite object64_length in H. destruct H as [H1 H2]. change (N.of_nat 8) with 8 in H2.
  assert (G : forall v, v < 2 ^ 64 -> (if big_endian cfg then be_num (object64 cfg v) else le_num (object64 cfg v)) = v).
  { intros v V. unfold object64. destruct (big_endian cfg); [rewrite be_num_be_bytes|rewrite le_num_le_bytes]; now apply N.mod_small. }
  unfold deref128. ok (deref_ok cfg m p _ 8%nat H1 (object64_length cfg l) AL). rewrite padd_small by lia.
  assert (AL8 : (p + 8) mod alignment cfg 8 = 0).
  { revert AL. unfold alignment. destruct (wide cfg); cbn; lia. }
  ok (deref_ok cfg m (p + 8) _ 8%nat H2 (object64_length cfg h) AL8). unfold ret. now rewrite !G.
Qed.
Theorem C72_order : forall cfg m p q a b, sized a -> sized b -> hash_at cfg m p a -> hash_at cfg m q b ->
  XXH128_cmp cfg p q m = Ok (sign (number a ?= number b), m).
Proof.
  intros cfg m p q a b A B HA HB. unfold XXH128_cmp. ok (deref128_ok cfg m p a A HA). ok (deref128_ok cfg m q b B HB).
  destruct a as [l h], b as [l' h'], A as [A1 A2], B as [B1 B2]. cbn [fst snd] in *. unfold number. cbn [fst snd].
  destruct (N.compare_spec (l + 2 ^ 64 * h) (l' + 2 ^ 64 * h')) as [C|C|C];
    destruct (N.ltb_spec h h'); destruct (N.ltb_spec h' h); destruct (N.ltb_spec l l'); destruct (N.ltb_spec l' l);
    cbn [Z.sub Z.eqb negb sign]; try reflexivity; exfalso; lia.
Qed.
Print Assumptions C72_order.
(** The bytes of the objects themselves are in another order, on machines of both kinds *)
Theorem C72_objects_refuted : forall cfg, ~ (forall a b, sized a -> sized b -> memcmp (object128 cfg a) (object128 cfg b) = sign (number a ?= number b)).
Proof.
  intros cfg H. specialize (H (1, 0) (0, 1)). assert (S1 : sized (1, 0)) by (split; reflexivity). assert (S2 : sized (0, 1)) by (split; reflexivity).
  specialize (H S1 S2). unfold object128, object64 in H. destruct (big_endian cfg); vm_compute in H; discriminate H.
Qed.
Print Assumptions C72_objects_refuted.
(** but those of the canonical form are in that order. *)
Theorem C72_canonical_order : forall a b, sized a -> sized b -> memcmp (canonical a) (canonical b) = sign (number a ?= number b).
Proof.
  intros a b A B. rewrite memcmp_num by now rewrite !canonical_length.
  assert (G : forall h, sized h -> be_num (canonical h) = number h).
  { clear. intros h [A B]. unfold canonical. change (rev (le_bytes 16 (number h))) with (be_bytes 16 (number h)). rewrite be_num_be_bytes.
    apply N.mod_small. change (256 ^ N.of_nat 16) with (2 ^ 64 * 2 ^ 64). unfold number. nia. }
  now rewrite !G.
Qed.
Print Assumptions C72_canonical_order.

(** The canonical form is the same in all builds, nothing else is written, and reading it
    gives the hash. *)
Lemma be64_of : forall cfg x, x < 2 ^ 64 -> (if big_endian cfg then be_bytes 8 (if big_endian cfg then x else XXH_swap64 cfg x)
  else le_bytes 8 (if big_endian cfg then x else XXH_swap64 cfg x)) = be_bytes 8 x.
Proof.
  intros cfg x X. destruct (big_endian cfg); [reflexivity|]. rewrite swap64_eq, bswap64_eq, u64_small by exact X. apply le_of_be.
Qed.
Lemma canonicalFromHash_ok : forall cfg dst h m, sized h -> mapped m dst 16 -> dst + 16 <= addr_space cfg ->
  exists m', XXH128_canonicalFromHash cfg dst h m = Ok (tt, m') /\ bytes_at m' dst (canonical h) /\ only m m' dst 16.
Proof.
  intros cfg dst [l h] m [A B] MP AD. cbn [fst snd] in *.
  assert (E : XXH128_canonicalFromHash cfg dst (l, h) = (store_uint cfg 8 dst (if big_endian cfg then h else XXH_swap64 cfg h) ;;;
    store_uint cfg 8 (padd cfg dst 8) (if big_endian cfg then l else XXH_swap64 cfg l))).
  { unfold XXH128_canonicalFromHash. now destruct (big_endian cfg). }
  rewrite E. clear E. change 16%nat with (8 + 8)%nat in MP. apply mapped_split in MP. destruct MP as [M1 M2]. change (N.of_nat 8) with 8 in M2.
  rewrite padd_small by lia.
  assert (S1 : store_uint cfg 8 dst (if big_endian cfg then h else XXH_swap64 cfg h) m = Ok (tt, write m dst (be_bytes 8 h)))
    by (rewrite store_uint_ok by exact M1; now rewrite be64_of).
  assert (L8 : forall x, mlen (be_bytes 8 x) = 8) by (intro; unfold mlen; now rewrite be_bytes_length).
  set (m1 := write m dst (be_bytes 8 h)) in *. assert (M3 : mapped m1 (dst + 8) 8) by (apply write_mapped; exact M2).
  assert (S2 : store_uint cfg 8 (dst + 8) (if big_endian cfg then l else XXH_swap64 cfg l) m1 = Ok (tt, write m1 (dst + 8) (be_bytes 8 l)))
    by (rewrite store_uint_ok by exact M3; now rewrite be64_of).
  ok S1. rewrite S2. assert (O2 : only m1 (write m1 (dst + 8) (be_bytes 8 l)) (dst + 8) 8) by (apply only_write; unfold mlen; now rewrite be_bytes_length).
  assert (O1 : only m m1 dst 8) by (apply only_write; unfold mlen; now rewrite be_bytes_length).
  exists (write m1 (dst + 8) (be_bytes 8 l)). split; [reflexivity|]. split.
  - rewrite canonical_halves by (split; assumption). cbn [fst snd]. apply bytes_at_app. rewrite be_bytes_length. change (N.of_nat 8) with 8. split.
    + apply (only_bytes _ _ _ _ _ _ O2); [rewrite L8; lia|]. apply write_bytes_at.
    + apply write_bytes_at.
  - destruct O1 as [P1 Q1], O2 as [P2 Q2]. split; [intros a Ha; rewrite P2, P1 by lia; reflexivity|auto].
Qed.
Theorem C72_canonical : forall cfg xb dst h m, sized h -> mapped m dst 16 -> dst + 16 <= addr_space cfg ->
  (xxh_force_memory_access xb = 2 -> dst mod alignment cfg 8 = 0) ->
  exists m', XXH128_canonicalFromHash cfg dst h m = Ok (tt, m') /\ bytes_at m' dst (canonical h) /\ only m m' dst 16 /\
    XXH128_hashFromCanonical cfg xb dst m' = Ok (h, m').
Proof.
  intros cfg xb dst h m S MP AD AL. destruct (canonicalFromHash_ok cfg dst h m S MP AD) as (m' & E & B & O). exists m'.
  split; [exact E|]. split; [exact B|]. split; [exact O|]. rewrite canonical_halves in B by exact S. apply bytes_at_app in B.
  rewrite be_bytes_length in B. destruct B as [B1 B2]. change (N.of_nat 8) with 8 in B2. destruct S as [S1 S2], h as [l h]. cbn [fst snd] in *.
  assert (AL8 : dst mod alignment cfg 8 = 0 -> (dst + 8) mod alignment cfg 8 = 0) by (unfold alignment; destruct (wide cfg); cbn; lia).
  unfold XXH128_hashFromCanonical.
  assert (F : fine cfg xb false 8 dst) by (intro F; cbn [orb] in F; apply AL; now apply N.eqb_eq).
  assert (F8 : fine cfg xb false 8 (dst + 8)) by (intro F8; cbn [orb] in F8; apply AL8, AL; now apply N.eqb_eq).
  assert (A1 : dst + 8 <= addr_space cfg) by lia. assert (A2 : dst + 8 + 8 <= addr_space cfg) by lia.
  ok (readBE64_ok cfg xb m' dst _ B1 (be_bytes_length 8 h) A1 F). rewrite padd_small by lia.
  ok (readBE64_ok cfg xb m' (dst + 8) _ B2 (be_bytes_length 8 l) A2 F8). unfold ret. rewrite !be_num_be_bytes.
  now rewrite !N.mod_small by assumption.
Qed.
Print Assumptions C72_canonical.

(** a hash at an aligned and its canonical form at an odd address, on any machine *)
Definition h1 : two := (0xFFFFFFFFFFFFFFFF, 1).
Definition h2 : two := (2, 2).
Definition h_mem (cfg : config) : mem := write (write (sea 4096 [] x55) 4096 (object128 cfg h1)) 4112 (object128 cfg h2).
Example C72_case : forall cfg,
  XXH128_cmp cfg 4096 4112 (h_mem cfg) = Ok ((-1)%Z, h_mem cfg) /\ XXH128_isEqual cfg h1 h2 = 0%Z /\ XXH128_isEqual cfg h2 h2 = 1%Z /\
  canonical h2 = [x00; x00; x00; x00; x00; x00; x00; x02; x00; x00; x00; x00; x00; x00; x00; x02] /\
  exists m', XXH128_canonicalFromHash cfg 5001 h2 (h_mem cfg) = Ok (tt, m') /\ bytes_at m' 5001 (canonical h2) /\
    XXH128_hashFromCanonical cfg xb_default 5001 m' = Ok (h2, m').
Proof.
  intros cfg. assert (S1 : sized h1) by (split; reflexivity). assert (S2 : sized h2) by (split; reflexivity).
  assert (L : forall h, length (object128 cfg h) = 16%nat) by (intro; unfold object128; now rewrite app_length, !object64_length).
  assert (AD : forall n, n < 10000 -> n < addr_space cfg) by (intro n; unfold addr_space; destruct (ptr64 cfg); lia).
  assert (AL : 4096 mod alignment cfg 8 = 0 /\ 4112 mod alignment cfg 8 = 0) by (unfold alignment; destruct (wide cfg); now split).
  assert (M : forall p n, mapped (h_mem cfg) p n).
  { intros p n. unfold h_mem. apply write_mapped, write_mapped. unfold sea. apply write_mapped. intros i _. discriminate. }
  split; [|split; [|split; [|split]]].
  - change (-1)%Z with (sign (number h1 ?= number h2)). apply C72_order; try assumption.
    + split; [|split; [apply AL|apply N.lt_le_incl, AD; reflexivity]]. unfold h_mem.
      assert (O : forall m, only m (write m 4112 (object128 cfg h2)) 4112 16) by (intro; apply only_write; unfold mlen; now rewrite L).
      apply (only_bytes _ _ _ _ _ _ (O _)); [unfold mlen; rewrite L; lia|]. apply write_bytes_at.
    + split; [|split; [apply AL|apply N.lt_le_incl, AD; reflexivity]]. apply write_bytes_at.
  - rewrite C72_equal by assumption. reflexivity.
  - rewrite C72_equal by assumption. reflexivity.
  - reflexivity.
  - destruct (C72_canonical cfg xb_default 5001 h2 (h_mem cfg)) as (m' & E & B & _ & R); [exact S2|apply M|apply N.lt_le_incl, AD; reflexivity|discriminate|].
    exists m'. split; [exact E|]. split; [exact B|exact R].
Qed.

(** ** C74: states on the heap *)
Section Heap.
  Variable (cfg : config) (x3 : xxh3_build).
  Lemma land_mask : forall base k, N.land base (2 ^ k - 1) = base mod 2 ^ k.
  Proof. intros base k. rewrite <- N.land_ones, N.ones_equiv, N.pred_sub. reflexivity. Qed.
  (** For every alignment the comment allows and every block that malloc gives: the pointer
      is aligned and what is asked for is in the block; one byte before it is written, and
      later, whatever the caller has written, the block is what is freed. *)
  Theorem C74_aligned : forall m base s k, 3 <= k <= 7 -> s <> 0 -> base <> 0 -> let align := 2 ^ k in
    base + (s + align) <= addr_space cfg -> mapped m base (N.to_nat (s + align)) ->
    exists ptr m', XXH_alignedMalloc cfg x3 base s align m = Ok (ptr, m') /\ ptr mod align = 0 /\
      base <= ptr - 1 /\ ptr <> 0 /\ ptr + s <= base + (s + align) /\ only m m' (ptr - 1) 1 /\
      (forall m'', only m' m'' ptr s -> XXH_alignedFree cfg ptr m'' = Ok (Some base, m'')).
  Proof.
    intros m base s k K S B align AD MP.
    assert (AL : align <= 128 /\ 8 <= align /\ align = 2 * 2 ^ (k - 1)).
    { assert (E : k = 3 \/ k = 4 \/ k = 5 \/ k = 6 \/ k = 7) by lia. unfold align. destruct E as [-> |[-> |[-> |[-> | ->]]]]; repeat split; discriminate. }
    assert (Z : align <> 0) by lia. pose proof (N.mod_lt base align Z) as R. pose proof (N.div_mod base align Z) as D.
    remember (align - base mod align) as o eqn:Ho. assert (OB : 1 <= o <= align) by (clear - Ho R; lia).
    remember (base + o) as ptr eqn:Hptr. assert (P : ptr < addr_space cfg) by (clear - Hptr AD OB S; lia).
    assert (PM : ptr mod align = 0).
    { replace ptr with ((base / align + 1) * align) by (clear - Hptr Ho R D; nia). now apply N.mod_mul. }
    assert (E : XXH_alignedMalloc cfg x3 base s align m = Ok (ptr, write m (ptr - 1) (le_bytes 1 o))).
    { unfold XXH_alignedMalloc. rewrite (psub_small cfg align 1) by (clear - AL AD B; lia). rewrite (padd_small cfg s align) by (clear - AD B; lia).
      assert (C1 : (align <=? 128) && (8 <=? align) = true) by (clear - AL; lia). ok (ASSERT_ok cfg x3 _ m (fun _ => C1)).
      assert (LA : N.land align (align - 1) =? 0 = true).
      { unfold align. rewrite land_mask. apply N.eqb_eq. apply N.mod_same. exact Z. }
      ok (ASSERT_ok cfg x3 _ m (fun _ => LA)).
      assert (C3 : negb (s =? 0) && (s <? s + align) = true) by (clear - S Z; lia). ok (ASSERT_ok cfg x3 _ m (fun _ => C3)).
      replace (base =? 0) with false by (clear - B; lia). cbn [negb].
      assert (LB : N.land base (align - 1) = base mod align) by apply land_mask. rewrite LB.
      rewrite (psub_small cfg align) by (clear - R AD AL S; lia). rewrite <- Ho. rewrite (padd_small cfg base) by (rewrite <- Hptr; exact P). rewrite <- Hptr.
      assert (C4 : ptr mod align =? 0 = true) by now rewrite PM. ok (ASSERT_ok cfg x3 _ m (fun _ => C4)).
      rewrite psub_small by (clear - Hptr P OB; lia).
      assert (ST : store_bytes (ptr - 1) (le_bytes 1 o) m = Ok (tt, write m (ptr - 1) (le_bytes 1 o))).
      { apply store_bytes_ok. intros i I. rewrite le_bytes_length in I. replace (ptr - 1 + N.of_nat i) with (base + N.of_nat (N.to_nat (ptr - 1 - base) + i)) by (clear - Hptr OB; lia).
        apply MP. clear - Hptr OB I S. lia. }
      ok ST. reflexivity. }
    set (m' := write m (ptr - 1) (le_bytes 1 o)) in *.
    exists ptr, m'. split; [exact E|]. split; [exact PM|]. split; [clear - Hptr OB; lia|]. split; [clear - Hptr OB; lia|]. split; [clear - Hptr OB; lia|].
    split; [apply only_write; reflexivity|]. intros m'' O. unfold XXH_alignedFree. replace (ptr =? 0) with false by (clear - Hptr OB; lia). cbn [negb].
    rewrite (psub_small cfg ptr 1) by (clear - Hptr OB P; lia).
    assert (W : bytes_at m'' (ptr - 1) (le_bytes 1 o)).
    { apply (only_bytes _ _ _ _ _ _ O); [unfold mlen; rewrite le_bytes_length; clear - Hptr OB; lia|]. apply write_bytes_at. }
    cbn [le_bytes] in W. specialize (W 0%nat (n2b o) eq_refl). change (N.of_nat 0) with 0 in W.
    assert (BO : byte_of cfg (ptr - 1) 0 m'' = Ok (b2n (n2b o), m'')) by (apply byte_of_ok; [exact W|clear - P; lia]).
    ok BO. assert (BN : b2n (n2b o) = o).
    { rewrite b2n_n2b. apply N.mod_small. clear - OB AL. lia. }
    rewrite BN. unfold ret. do 3 f_equal. rewrite psub_small by (clear - Hptr P; lia). clear - Hptr. lia.
  Qed.
  (** no memory: NULL, and freeing that frees nothing *)
  Theorem C74_none : forall m s k, 3 <= k <= 7 -> s <> 0 -> s + 2 ^ k < addr_space cfg ->
    XXH_alignedMalloc cfg x3 0 s (2 ^ k) m = Ok (0, m) /\ XXH_alignedFree cfg 0 m = Ok (None, m).
  Proof.
    intros m s k K S AD. set (align := 2 ^ k) in *.
    assert (AL : align <= 128 /\ 8 <= align).
    { assert (E : k = 3 \/ k = 4 \/ k = 5 \/ k = 6 \/ k = 7) by lia. unfold align. destruct E as [-> |[-> |[-> |[-> | ->]]]]; split; discriminate. }
    split; [|reflexivity]. unfold XXH_alignedMalloc. rewrite (psub_small cfg align 1) by lia. rewrite (padd_small cfg s align) by lia.
    ok (ASSERT_ok cfg x3 ((align <=? 128) && (8 <=? align)) m ltac:(lia)).
    assert (LA : N.land align (align - 1) =? 0 = true).
    { unfold align. rewrite land_mask. apply N.eqb_eq. apply N.mod_same. fold align. lia. }
    ok (ASSERT_ok cfg x3 _ m (fun _ => LA)). ok (ASSERT_ok cfg x3 (negb (s =? 0) && (s <? s + align)) m ltac:(lia)). reflexivity.
  Qed.
  (** a state: its size is that of the members with both widths of pointers *)
  Theorem C74_state : forall m base, base <> 0 -> base + 640 <= addr_space cfg -> mapped m base 640 ->
    exists st m', XXH3_createState cfg x3 base m = Ok (st, m') /\ st mod 64 = 0 /\ st <> 0 /\ base < st /\ st + 576 <= base + 640 /\
      mapped m' st 576 /\ only m m' (st - 1) 1 /\
      (forall m'', only m' m'' st 576 -> XXH3_freeState cfg st m'' = Ok ((XXH_OK, Some base), m'')).
  Proof.
    intros m base B AD MP. assert (SZ : sizeof_XXH3_state cfg = 576) by (unfold sizeof_XXH3_state; now destruct (ptr64 cfg)).
    destruct (C74_aligned m base 576 6) as (st & m' & E & A1 & A2 & A3 & A4 & O & F); [lia|discriminate|exact B|exact AD|exact MP|].
    change (2 ^ 6) with 64 in *. exists st, m'. unfold XXH3_createState. rewrite SZ. split; [exact E|]. split; [exact A1|]. split; [exact A3|].
    split; [lia|]. split; [lia|]. split.
    - intros i I. apply (proj2 O). replace (st + N.of_nat i) with (base + N.of_nat (N.to_nat (st - base) + i)) by lia. apply MP. lia.
    - split; [exact O|]. intros m'' O''. unfold XXH3_freeState. now ok (F m'' O'').
  Qed.
  (** The limit of 128 is needed: with 256 the offset does not fit into the byte, and
      another pointer is freed, if nothing is asserted. *)
  Theorem C74_256_refuted : forall m base s, asserting cfg x3 = false -> s <> 0 -> base <> 0 -> base mod 256 = 0 ->
    base + (s + 256) <= addr_space cfg -> mapped m base (N.to_nat (s + 256)) ->
    exists m', XXH_alignedMalloc cfg x3 base s 256 m = Ok (base + 256, m') /\ XXH_alignedFree cfg (base + 256) m' = Ok (Some (base + 256), m').
  Proof.
    intros m base s A S B BM AD MP. assert (NA : forall c, XXH_ASSERT cfg x3 c m = Ok (tt, m)) by (intro; apply ASSERT_ok; rewrite A; discriminate).
    exists (write m (base + 255) (le_bytes 1 256)). split.
    - unfold XXH_alignedMalloc. rewrite (psub_small cfg 256 1) by lia. ok (NA ((256 <=? 128) && (8 <=? 256))).
      ok (NA (N.land 256 (256 - 1) =? 0)). ok (NA (negb (s =? 0) && (s <? padd cfg s 256))). replace (base =? 0) with false by lia. cbn [negb].
      change (256 - 1) with (2 ^ 8 - 1). rewrite land_mask. change (2 ^ 8) with 256. rewrite BM. rewrite (psub_small cfg 256 0) by lia. change (256 - 0) with 256.
      rewrite (padd_small cfg base 256) by lia. ok (NA ((base + 256) mod 256 =? 0)). rewrite psub_small by lia.
      replace (base + 256 - 1) with (base + 255) by lia.
      assert (ST : store_bytes (base + 255) (le_bytes 1 256) m = Ok (tt, write m (base + 255) (le_bytes 1 256))).
      { apply store_bytes_ok. intros i I. rewrite le_bytes_length in I. replace (base + 255 + N.of_nat i) with (base + N.of_nat (255 + i)) by lia. apply MP. lia. }
      ok ST. reflexivity.
    - unfold XXH_alignedFree. replace (base + 256 =? 0) with false by lia. cbn [negb]. rewrite (psub_small cfg (base + 256) 1) by lia.
      pose proof (write_bytes_at m (base + 255) (le_bytes 1 256)) as W. specialize (W 0%nat x00 eq_refl).
      assert (BO : byte_of cfg (base + 256 - 1) 0 (write m (base + 255) (le_bytes 1 256)) = Ok (b2n x00, write m (base + 255) (le_bytes 1 256))).
      { apply byte_of_ok; [|lia]. replace (base + 256 - 1) with (base + 255) by lia. exact W. }
      ok BO. change (b2n x00) with 0. rewrite psub_small by lia. unfold ret. do 3 f_equal. lia.
  Qed.
End Heap.
Print Assumptions C74_aligned.
Print Assumptions C74_none.
Print Assumptions C74_state.
Print Assumptions C74_256_refuted.

(** a block at an odd address, and one that is aligned already *)
Example C74_case : forall cfg x3,
  exists m', XXH3_createState cfg x3 4099 (sea 4096 [] x55) = Ok (4160, m') /\ XXH3_freeState cfg 4160 m' = Ok ((XXH_OK, Some 4099), m') /\
  exists m', XXH3_createState cfg x3 4096 (sea 4096 [] x55) = Ok (4160, m') /\ XXH3_freeState cfg 4160 m' = Ok ((XXH_OK, Some 4096), m').
Proof.
  intros cfg x3. assert (A : 40000 < addr_space cfg) by (unfold addr_space; destruct (ptr64 cfg); reflexivity).
  assert (M : forall p n, mapped (sea 4096 [] x55) p n) by (intros p n; unfold sea; apply write_mapped; intros i _; discriminate).
  assert (H : forall base, base = 4099 \/ base = 4096 -> exists m', XXH3_createState cfg x3 base (sea 4096 [] x55) = Ok (4160, m') /\ XXH3_freeState cfg 4160 m' = Ok ((XXH_OK, Some base), m')).
  { intros base B. destruct (C74_state cfg x3 (sea 4096 [] x55) base) as (st & m' & E & D & _ & L & H & _ & _ & F); [lia|lia|apply M|].
    assert (S : st = 4160) by (clear - B D L H; lia). rewrite S in E, F. exists m'. split; [exact E|]. apply F. split; auto. }
  destruct (H 4099 (or_introl eq_refl)) as (m' & E & F). exists m'. split; [exact E|]. split; [exact F|]. exact (H 4096 (or_intror eq_refl)).
Qed.
Example C74_256_case : exists m', XXH_alignedMalloc x86_64 x3_demo 4096 100 256 (sea 4096 [] x55) = Ok (4352, m') /\
  XXH_alignedFree x86_64 4352 m' = Ok (Some 4352, m').
Proof. apply (C74_256_refuted x86_64 x3_demo (sea 4096 [] x55) 4096 100); try reflexivity; try discriminate. unfold sea. apply write_mapped. intros i _. discriminate. Qed.
