(** C80: the life of a state of XXH3 on the heap: XXH3_createState, the calls of C80_stream, XXH3_freeState. *)
From Coq Require Import ZArith NArith Arith List Bool Lia Strings.Byte.
From Coq Require Import ZifyN ZifyNat ZifyBool.
From Verif Require Import Bytes CSem Bits Spec NBits CSemFacts OpsFacts FetchFacts KeyMem CtxMem StreamFacts SelfcheckSpec Demo
  Xxhash XxhashSpec XxhashFacts PropXxhash Xxh3 Xxh3Spec Xxh3Facts Xxh3Secret Xxh3State Xxh3Utils PropXxh3 PropXxh3Stream PropXxh3Utils
  Xxh3Simd PropXxh3Simd Xxh3SimdState PropXxh3SimdStream.
Import ListNotations.
Ltac Zify.zify_post_hook ::= Z.div_mod_to_equations.
Local Open Scope N_scope.

(** ** The calls *)
(** [base] is what malloc returns, and the second part of the result is what free gets *)
Definition life_v (cfg : config) (x3 : xxh3_build) (v0 v1 v2 : xxh_vector) (local acc base : N) (how : start) (chunks more : list part) (s : XXH3_state)
  : M ((list N * (N * two) * (N * two)) * (N * option N)) :=
  st <- XXH3_createState cfg x3 base ;;
  r <- stream_v cfg x3 v0 v1 v2 local acc st how chunks more s ;;
  f <- XXH3_freeState cfg st ;;
  ret (r, f).

(** ** Where things are *)
(** apart from the block of 640 bytes on the heap and the local arrays *)
Definition clear_of (local acc base p n : N) : Prop := apart base 640 p n /\ apart acc 64 p n /\ apart local 64 p n.
Definition key_at (cfg : config) (local acc base : N) (m : mem) (q : N) (sec : list byte) : Prop :=
  bytes_at m q sec /\ q <> 0 /\ q + mlen sec < addr_space cfg /\ clear_of local acc base q (mlen sec).
Definition part_at (cfg : config) (local acc base : N) (m : mem) (c : part) : Prop :=
  let '(v, (p, l)) := c in
  made_for cfg v /\ bytes_at m p l /\ p <> 0 /\ p + mlen l + 255 < addr_space cfg /\ clear_of local acc base p (mlen l).
Definition start_at (cfg : config) (x3 : xxh3_build) (local acc base : N) (m : mem) (how : start) : Prop :=
  match how with
  | Plain => key_at cfg local acc base m (x3_kSecret x3) XXH3_kSecret_bytes
  | With_secret q sec => 136 <= mlen sec /\ key_at cfg local acc base m q sec
  | With_seed seed => seed < 2 ^ 64 /\ key_at cfg local acc base m (x3_kSecret x3) XXH3_kSecret_bytes /\ x3_kSecret x3 mod 64 = 0
  end.
Definition places (cfg : config) (v1 v2 : xxh_vector) (local acc base : N) (m : mem) : Prop :=
  (mapped m base 640 /\ base + 640 <= addr_space cfg /\ base <> 0) /\
  (mapped m acc 64 /\ acc + 64 < addr_space cfg /\ acc <> 0 /\ acc mod XXH_ACC_ALIGN v1 = 0 /\ acc mod XXH_ACC_ALIGN v2 = 0) /\
  (mapped m local 64 /\ local + 64 < addr_space cfg /\ local <> 0) /\
  apart acc 64 base 640 /\ apart local 64 base 640 /\ apart acc 64 local 64.

(** freeing reads the byte before the state only *)
Lemma free_byte : forall cfg st m m' r, st <> 0 -> st < addr_space cfg -> m' (st - 1) = m (st - 1) ->
  XXH3_freeState cfg st m = Ok (r, m) -> XXH3_freeState cfg st m' = Ok (r, m').
Proof.
  intros cfg st m m' r Z A H. unfold XXH3_freeState, XXH_alignedFree. replace (st =? 0) with false by lia. cbn [negb].
  rewrite (psub_small cfg st 1) by lia. unfold byte_of. rewrite (padd_small cfg (st - 1) 0), N.add_0_r by lia.
  unfold bind, load8, ret. rewrite H. destruct (m (st - 1)) as [b|]; [|discriminate]. intro E. injection E as <-. reflexivity.
Qed.
(** what is apart from the block is apart from the state in it *)
Lemma clear_away : forall local acc base st p n, base < st -> st + 576 <= base + 640 -> clear_of local acc base p n -> away local acc st p n.
Proof. intros local acc base st p n B S (C1 & C2 & C3). split; [|now split]. unfold apart in *. lia. Qed.

(** ** C80_life *)
(** A state that XXH3_createState makes from any block that malloc gives is aligned for
    every variant.  What is fed into it has the values of C80_stream, and then
    XXH3_freeState frees this block.  Only the block and the local arrays are written. *)
Theorem C80_life : forall cfg x3 v0 v1 v2 local acc base how chunks more s m, xxh_force_memory_access (x3_xxh x3) <> 2 ->
  made_for cfg v0 -> made_for cfg v1 -> made_for cfg v2 ->
  places cfg v1 v2 local acc base m -> start_at cfg x3 local acc base m how -> Forall (part_at cfg local acc base m) (chunks ++ more) ->
  mlen (bytes_of (chunks ++ more)) < 2 ^ 64 ->
  (asserting cfg x3 = true -> mlen (bytes_of chunks) <> 8 /\ mlen (bytes_of (chunks ++ more)) <> 8) ->
  exists m', life_v cfg x3 v0 v1 v2 local acc base how chunks more s m =
      Ok (((repeat XXH_OK (S (length (chunks ++ more))),
            (value64 how (bytes_of chunks), value128 how (bytes_of chunks)),
            (value64 how (bytes_of (chunks ++ more)), value128 how (bytes_of (chunks ++ more)))),
           (XXH_OK, Some base)), m') /\
    (forall a, a < base \/ base + 640 <= a -> a < acc \/ acc + 64 <= a -> a < local \/ local + 64 <= a -> m' a = m a).
Proof.
  intros cfg x3 v0 v1 v2 local acc base how chunks more s m D F0 F1 F2 PL HS F T A.
  destruct PL as ((M1 & M2 & M3) & (M4 & M5 & M6 & M7 & M8) & (M9 & M10 & M11) & P1 & P2 & P3).
  destruct (C74_state cfg x3 m base M3 M2 M1) as (st & m1 & E1 & S64 & S0 & SB & SE & SM & O1 & FR).
  assert (KEEP : forall p l, clear_of local acc base p (mlen l) -> bytes_at m p l -> bytes_at m1 p l).
  { intros p l (C & _) B. apply (only_bytes m m1 (st - 1) 1); [exact O1| |exact B]. clear - C SB SE. unfold apart in C. lia. }
  assert (KEY : forall q sec, key_at cfg local acc base m q sec -> key_in cfg local acc st m1 q sec).
  { intros q sec (K1 & K2 & K3 & K4). split; [exact (KEEP q sec K4 K1)|]. split; [exact K2|]. split; [exact K3|]. exact (clear_away _ _ _ _ _ _ SB SE K4). }
  assert (ST : state_v cfg v1 v2 local acc st m1).
  { split; [split; [|split; [clear - SE M2; lia|split; [exact S0|exact S64]]]|].
    - intros i I. apply SM. clear - I. lia.
    - split; [split; [exact (only_mapped _ _ _ _ _ _ O1 M4)|split; [exact M5|split; [exact M6|split; [exact M7|exact M8]]]]|].
      split; [split; [exact (only_mapped _ _ _ _ _ _ O1 M9)|split; [exact M10|exact M11]]|].
      unfold apart in *. split; [clear - P1 SB SE; lia|]. split; [clear - P2 SB SE; lia|exact P3]. }
  assert (HS' : start_v cfg x3 local acc st m1 how).
  { destruct how as [|q sec|seed]; cbn [start_at start_v] in *; [now apply KEY|destruct HS as [H1 H2]; split; [exact H1|now apply KEY]|].
    destruct HS as (H1 & H2 & H3). split; [exact H1|]. split; [now apply KEY|exact H3]. }
  assert (F' : Forall (part_in cfg local acc st m1) (chunks ++ more)).
  { eapply Forall_impl; [|exact F]. intros [v [p l]] (A0 & A1 & A2 & A3 & A4). split; [exact A0|]. split; [exact (KEEP p l A4 A1)|]. split; [exact A2|].
    split; [exact A3|exact (clear_away _ _ _ _ _ _ SB SE A4)]. }
  destruct (C80_stream cfg x3 v0 v1 v2 local acc st how chunks more s m1 D F0 F1 F2 ST HS' F' T A) as (m' & E & O & _).
  exists m'. split.
  - unfold life_v. ok E1. ok E. assert (FM : XXH3_freeState cfg st m' = Ok ((XXH_OK, Some base), m')).
    { apply (free_byte cfg st m1); [exact S0|clear - SE M2; lia| |exact (FR m1 (only_refl m1 st 576))].
      apply O; [left; clear - S0; lia| |]; unfold apart in *; [clear - P1 SB SE|clear - P2 SB SE]; lia. }
    ok FM. reflexivity.
  - intros a H1 H2 H3. rewrite O; [apply (proj1 O1)| | |]; [clear - H1 SB SE; lia|clear - H1 SB SE; lia|exact H2|exact H3].
Qed.
Print Assumptions C80_life.

(** ** Case *)
(** blocks of every alignment: the calls of C80_case on a state from malloc *)
Lemma life_demo : forall cfg x3 v0 v1 v2 v3 base, xxh_force_memory_access (x3_xxh x3) <> 2 -> x3_kSecret x3 = 4096 ->
  made_for cfg v0 -> made_for cfg v1 -> made_for cfg v2 -> made_for cfg v3 -> 12000 < base -> base < 13000 -> exists m',
  life_v cfg x3 v0 v1 v2 8192 8448 base Plain [(v3, (20001, firstn 300 (Demo.key 1200)))] [(v0, (20301, skipn 300 (Demo.key 1200)))] (S3 [] 1 2 3 4 5 6 7) x3_mem =
    Ok (((repeat XXH_OK 3,
         (value64 Plain (firstn 300 (Demo.key 1200)), value128 Plain (firstn 300 (Demo.key 1200))),
         (value64 Plain (Demo.key 1200), value128 Plain (Demo.key 1200))), (XXH_OK, Some base)), m').
Proof.
  intros cfg x3 v0 v1 v2 v3 base D K F0 F1 F2 F3 B1 B2.
  assert (L : mlen (Demo.key 1200) = 1200) by (unfold mlen; now rewrite key_length).
  assert (A : 40000 < addr_space cfg) by (unfold addr_space; destruct (ptr64 cfg); reflexivity).
  assert (Hm : bytes_at x3_mem 20001 (Demo.key 1200)).
  { unfold x3_mem. apply write_bytes_at_other; [right; discriminate|apply write_bytes_at]. }
  assert (Hk : bytes_at x3_mem 4096 XXH3_kSecret_bytes) by apply write_bytes_at.
  assert (Hl : forall p n, mapped x3_mem p n).
  { intros p n. unfold x3_mem. apply write_mapped. unfold sea. apply write_mapped. intros i _. discriminate. }
  rewrite <- (firstn_skipn 300 (Demo.key 1200)) in Hm. apply bytes_at_app in Hm. destruct Hm as [H1 H2].
  assert (L1 : mlen (firstn 300 (Demo.key 1200)) = 300) by (unfold mlen; rewrite firstn_length, key_length; reflexivity).
  assert (L2 : mlen (skipn 300 (Demo.key 1200)) = 900) by (unfold mlen; rewrite skipn_length, key_length; reflexivity).
  unfold mlen in L1. rewrite L1 in H2. fold (mlen (firstn 300 (Demo.key 1200))) in L1.
  set (c1 := (v3, (20001, firstn 300 (Demo.key 1200))) : part). set (c2 := (v0, (20301, skipn 300 (Demo.key 1200))) : part).
  assert (C1 : bytes_of [c1] = firstn 300 (Demo.key 1200)) by apply app_nil_r.
  assert (C2 : bytes_of ([c1] ++ [c2]) = Demo.key 1200).
  { transitivity (firstn 300 (Demo.key 1200) ++ skipn 300 (Demo.key 1200)); [|apply firstn_skipn].
    unfold bytes_of, c1, c2. cbn [app flat_map snd]. now rewrite app_nil_r. }
  assert (KL : mlen XXH3_kSecret_bytes = 192) by reflexivity.
  destruct (C80_life cfg x3 v0 v1 v2 8192 8448 base Plain [c1] [c2] (S3 [] 1 2 3 4 5 6 7) x3_mem D F0 F1 F2) as (m' & E & _).
  - split; [split; [apply Hl|clear - A B1 B2; lia]|]. split; [split; [apply Hl|]|].
    + split; [clear - A; lia|]. split; [discriminate|]. split; [destruct v1|destruct v2]; reflexivity.
    + split; [split; [apply Hl|clear - A; lia]|]. unfold apart. clear - B1 B2. lia.
  - cbn [start_at]. rewrite K. split; [exact Hk|]. split; [discriminate|]. rewrite KL. split; [clear - A; lia|]. unfold clear_of, apart. clear - B1 B2. lia.
  - apply Forall_cons; [|apply Forall_cons; [|apply Forall_nil]].
    + split; [exact F3|]. split; [exact H1|]. split; [discriminate|]. rewrite L1. split; [clear - A; lia|]. unfold clear_of, apart. clear - B1 B2. lia.
    + split; [exact F0|]. split; [exact H2|]. split; [discriminate|]. rewrite L2. split; [clear - A; lia|]. unfold clear_of, apart. clear - B1 B2. lia.
  - rewrite C2, L. reflexivity.
  - intros _. rewrite C1, C2, L, L1. split; discriminate.
  - exists m'. rewrite C1, C2 in E. exact E.
Qed.
(** a block at an odd address, and one that is aligned already *)
Example C80_life_case : exists m1 m2 h1 h2,
  life_v x86_64 x3_demo XXH_AVX2 XXH_AVX512 XXH_SSE2 8192 8448 12321 Plain
    [(XXH_SCALAR, (20001, firstn 300 (Demo.key 1200)))] [(XXH_AVX2, (20301, skipn 300 (Demo.key 1200)))] (S3 [] 1 2 3 4 5 6 7) x3_mem =
    Ok ((repeat XXH_OK 3, h1, h2, (XXH_OK, Some 12321)), m1) /\
  life_v sparc64 x3_sparc XXH_VSX XXH_VSX XXH_SCALAR 8192 8448 12288 Plain
    [(XXH_SCALAR, (20001, firstn 300 (Demo.key 1200)))] [(XXH_VSX, (20301, skipn 300 (Demo.key 1200)))] (S3 [] 1 2 3 4 5 6 7) x3_mem =
    Ok ((repeat XXH_OK 3, h1, h2, (XXH_OK, Some 12288)), m2).
Proof.
  destruct (life_demo x86_64 x3_demo XXH_AVX2 XXH_AVX512 XXH_SSE2 XXH_SCALAR 12321) as [m1 E1];
    [discriminate|reflexivity|right; right; reflexivity|right; right; reflexivity|right; right; reflexivity|left; reflexivity|reflexivity|reflexivity|].
  destruct (life_demo sparc64 x3_sparc XXH_VSX XXH_VSX XXH_SCALAR XXH_SCALAR 12288) as [m2 E2];
    [discriminate|reflexivity|right; left; reflexivity|right; left; reflexivity|left; reflexivity|left; reflexivity|reflexivity|reflexivity|].
  exists m1, m2. eexists _, _. exact (conj E1 E2).
Qed.
