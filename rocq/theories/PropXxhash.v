(** C63, C64, C65: XXH32 and XXH64, which the test program compares with. *)
From Coq Require Import ZArith NArith Arith List Bool Lia Strings.Byte.
From Coq Require Import ZifyN ZifyNat ZifyBool.
From Verif Require Import Bytes CSem Bits Spec NBits CSemFacts OpsFacts FetchFacts KeyMem CtxMem StreamFacts Demo SelfcheckSpec
  Effects HighwayFacts HighwayCat Xxhash XxhashSpec XxhashFacts XxhashStream.
Import ListNotations.
Ltac Zify.zify_post_hook ::= Z.div_mod_to_equations.
Local Open Scope N_scope.

(** ** C63: they compute their specification *)
(** In all builds and with all tuning parameters.  The direct access of method 2 needs
    an aligned message. *)
Theorem C63_value : forall cfg xb m p msg seed, bytes_at m p msg -> p + mlen msg < addr_space cfg -> p <> 0 \/ msg = [] ->
  ((xxh_force_memory_access xb = 2 -> p mod alignment cfg 4 = 0) -> XXH32 cfg xb p (mlen msg) seed m = Ok (xxh32 msg seed, m)) /\
  ((xxh_force_memory_access xb = 2 -> p mod alignment cfg 8 = 0) -> XXH64 cfg xb p (mlen msg) seed m = Ok (xxh64 msg seed, m)).
Proof. intros. split; intro; [now apply XXH32_ok|now apply XXH64_ok]. Qed.
Print Assumptions C63_value.

(** The test program's functions.  XXH_32 keeps only 32 bits of its seed. *)
Lemma mod_add_32 : forall x y, add_32 (x mod 2 ^ 32) y = add_32 x y.
Proof. intros. unfold add_32. now rewrite N.add_mod_idemp_l by discriminate. Qed.
Lemma xxh32_seed : forall msg seed, xxh32 msg (seed mod 2 ^ 32) = xxh32 msg seed.
Proof.
  intros msg seed. unfold xxh32.
  assert (E : begin_32 (seed mod 2 ^ 32) = begin_32 seed).
  { unfold begin_32, sub_32. rewrite N.mod_mod, !mod_add_32 by discriminate. reflexivity. }
  rewrite E, mod_add_32. reflexivity.
Qed.
Theorem C63_thunk : forall cfg xb m p msg seed, xxh_force_memory_access xb <> 2 -> bytes_at m p msg ->
  p + mlen msg < addr_space cfg -> p <> 0 \/ msg = [] ->
  thunk_XXH_32 cfg xb p (mlen msg) seed m = Ok (xxh32 msg seed, m) /\
  thunk_XXH_32 cfg xb p (mlen msg) (seed + 2 ^ 32) m = Ok (xxh32 msg seed, m) /\
  thunk_XXH_64 cfg xb p (mlen msg) seed m = Ok (xxh64 msg seed, m).
Proof.
  intros cfg xb m p msg seed X H A Z. unfold thunk_XXH_32, thunk_XXH_64.
  split; [|split].
  - rewrite XXH32_ok by (try assumption; contradiction). rewrite u32_eq. now rewrite xxh32_seed.
  - rewrite XXH32_ok by (try assumption; contradiction). rewrite u32_eq, <- (xxh32_seed msg seed).
    rewrite <- (N.mul_1_l (2 ^ 32)) at 1. now rewrite N.mod_add by discriminate.
  - apply XXH64_ok; try assumption. contradiction.
Qed.
Print Assumptions C63_thunk.

(** With XXH_ACCEPT_NULL_INPUT_POINTER "the result for null input pointers is the same as a
    zero-length input" (tests/xxhash/xxhash.h:791-797), whatever the length is. *)
Theorem C63_null : forall cfg xb m len seed, xxh_accept_null_input_pointer xb = true ->
  XXH32 cfg xb 0 len seed m = Ok (xxh32 [] seed, m) /\ XXH64 cfg xb 0 len seed m = Ok (xxh64 [] seed, m).
Proof.
  intros cfg xb m len seed A.
  assert (E32 : forall align, XXH32_endian_align cfg xb 0 len seed align = XXH32_endian_align cfg xb 0 (mlen []) seed align).
  { intro align. unfold XXH32_endian_align. rewrite A. reflexivity. }
  assert (E64 : forall align, XXH64_endian_align cfg xb 0 len seed align = XXH64_endian_align cfg xb 0 (mlen []) seed align).
  { intro align. unfold XXH64_endian_align. rewrite A. reflexivity. }
  pose proof (addr_space_pos cfg) as AP.
  split.
  - rewrite <- (XXH32_ok cfg xb m [] 0 seed); [unfold XXH32; now rewrite !E32|apply bytes_at_nil|cbn; lia|now right|].
    intros _. reflexivity.
  - rewrite <- (XXH64_ok cfg xb m [] 0 seed); [unfold XXH64; now rewrite !E64|apply bytes_at_nil|cbn; lia|now right|].
    intros _. unfold alignment. now destruct (wide cfg).
Qed.
Print Assumptions C63_null.

(** Method 2 "violates the C standard" (tests/xxhash/xxhash.h:766-768): a message that is not
    aligned and not very short is undefined behaviour, whatever the memory holds. *)
Lemma read_method_2 : forall cfg xb p m, xxh_force_memory_access xb = 2 -> p mod 4 <> 0 ->
  XXH_readLE32_align cfg xb false p m = Undef MisalignedAccess.
Proof.
  intros cfg xb p m X A. unfold XXH_readLE32_align, XXH_readLE32, XXH_read32, deref. rewrite X. cbn [negb N.eqb Pos.eqb alignment].
  destruct (N.eqb_spec (p mod 4) 0) as [Z|_]; [contradiction|]. reflexivity.
Qed.
Lemma bind_undef : forall A B (x : M A) (k : A -> M B) m why, x m = Undef why -> bind x k m = Undef why.
Proof. intros A B x k m why E. unfold bind. now rewrite E. Qed.
Theorem C63_method_2 : forall cfg xb p len seed m, xxh_force_memory_access xb = 2 -> p mod 4 <> 0 -> 4 <= len ->
  XXH32 cfg xb p len seed m = Undef MisalignedAccess.
Proof.
  intros cfg xb p len seed m X A L. unfold XXH32.
  replace (N.land p 3 =? 0) with false by (rewrite land_3; lia). rewrite andb_false_r.
  unfold XXH32_endian_align. destruct (N.eqb_spec p 0) as [Z|_]; [subst p; discriminate A || (exfalso; apply A; reflexivity)|].
  rewrite andb_false_r. cbv beta iota zeta.
  assert (R := fun m => read_method_2 cfg xb p m X A).
  destruct (N.leb_spec 16 len) as [C|C].
  - apply bind_undef, bind_undef. cbn [do_while]. apply bind_undef. unfold XXH32_start, four_rounds. now apply bind_undef.
  - rewrite bind_ret. cbv beta iota. rewrite land_15, N.mod_small by exact C. unfold XXH32_finalize. cbv zeta.
    rewrite land_15, N.mod_small by exact C. destruct (xxh_reroll xb).
    + apply bind_undef. cbn [while_len]. destruct (N.leb_spec 4 len) as [_|Y]; [|lia]. apply bind_undef. now apply bind_undef.
    + rewrite switch32 by exact C. apply bind_undef. replace (N.to_nat (len / 4)) with (S (N.to_nat (len / 4 - 1))) by lia.
      cbn [repeat app run_steps]. apply bind_undef. now apply bind_undef.
Qed.
Print Assumptions C63_method_2.

(** Whatever the arguments, nothing is written; with more memory mapped the
    outcome is the same unless it was a fault. *)
Lemma tame_deref : forall cfg n p, tame (deref cfg n p).
Proof. intros. unfold deref. tame. Qed.
#[export] Hint Resolve tame_deref : tame.
Lemma tame_byte_of : forall cfg p i, tame (byte_of cfg p i).
Proof. intros. unfold byte_of. tame. Qed.
#[export] Hint Resolve tame_byte_of : tame.
Lemma tame_readLE32 : forall cfg xb p, tame (XXH_readLE32 cfg xb p).
Proof. intros. unfold XXH_readLE32, XXH_read32. tame. Qed.
Lemma tame_readLE64 : forall cfg xb p, tame (XXH_readLE64 cfg xb p).
Proof. intros. unfold XXH_readLE64, XXH_read64. tame. Qed.
#[export] Hint Resolve tame_readLE32 tame_readLE64 : tame.
Lemma tame_readLE32_align : forall cfg xb a p, tame (XXH_readLE32_align cfg xb a p).
Proof. intros. unfold XXH_readLE32_align. tame. Qed.
Lemma tame_readLE64_align : forall cfg xb a p, tame (XXH_readLE64_align cfg xb a p).
Proof. intros. unfold XXH_readLE64_align. tame. Qed.
#[export] Hint Resolve tame_readLE32_align tame_readLE64_align : tame.
Lemma tame_while_len : forall fuel n step x len, (forall x, tame (step x)) -> tame (while_len fuel n step x len).
Proof. intros fuel n step x len T. revert x len. induction fuel as [|fuel IH]; intros; cbn [while_len]; tame. Qed.
Lemma tame_run_steps : forall step steps x, (forall n x, tame (step n x)) -> tame (run_steps step steps x).
Proof. intros step steps x T. revert x. induction steps as [|n steps IH]; intros; cbn [run_steps]; tame. Qed.
Lemma tame_four_rounds : forall cfg k read round x, (forall p, tame (read p)) -> tame (four_rounds cfg k read round x).
Proof. intros cfg k read round [[[[a b] c] d] p] T. unfold four_rounds. tame. Qed.
Lemma tame_process : forall cfg xb a x, tame (XXH_PROCESS1 cfg x) /\ tame (XXH_PROCESS4 cfg xb a x) /\
  tame (XXH_PROCESS1_64 cfg x) /\ tame (XXH_PROCESS4_64 cfg xb a x) /\ tame (XXH_PROCESS8_64 cfg xb a x).
Proof.
  intros cfg xb a [h p]. unfold XXH_PROCESS1, XXH_PROCESS4, XXH_PROCESS1_64, XXH_PROCESS4_64, XXH_PROCESS8_64.
  split; [tame|]. split; [tame|]. split; [tame|]. split; tame.
Qed.
Lemma tame_finalize32 : forall cfg xb h p len a, tame (XXH32_finalize cfg xb h p len a).
Proof.
  intros. unfold XXH32_finalize. cbv zeta. pose proof (fun x => tame_process cfg xb a x) as T. destruct (xxh_reroll xb).
  - apply tame_bind; [apply tame_while_len; intro x; apply T|]. intros [x n]. apply tame_bind; [apply tame_while_len; intro; apply T|].
    intros [[y z] t]. tame.
  - destruct (switch_steps _ _); [|tame]. apply tame_bind; [|intro; tame]. apply tame_run_steps. intros n x. unfold XXH32_step.
    destruct (n =? 4); apply T.
Qed.
Lemma tame_finalize64 : forall cfg xb h p len a, tame (XXH64_finalize cfg xb h p len a).
Proof.
  intros. unfold XXH64_finalize. cbv zeta. pose proof (fun x => tame_process cfg xb a x) as T. destruct (_ || _).
  - apply tame_bind; [apply tame_while_len; intro x; apply T|]. intros [x n]. apply tame_bind.
    + destruct (4 <=? n); [|tame]. apply tame_bind; [apply T|intro; tame].
    + intros [y k]. apply tame_bind; [apply tame_while_len; intro; apply T|]. intros [[z t] u]. tame.
  - destruct (switch_steps _ _); [|tame]. apply tame_bind; [|intro; tame]. apply tame_run_steps. intros n x. unfold XXH64_step.
    destruct (n =? 8); [apply T|]. destruct (n =? 4); apply T.
Qed.
#[export] Hint Resolve tame_finalize32 tame_finalize64 : tame.
Lemma tame_endian32 : forall cfg xb p len seed a, tame (XXH32_endian_align cfg xb p len seed a).
Proof.
  intros. unfold XXH32_endian_align. destruct (_ && _); cbv beta iota zeta.
  - change (16 <=? 0) with false. cbv iota. tame.
  - destruct (16 <=? len); [|tame]. apply tame_bind; [|intros [h q]; tame]. apply tame_bind; [|intro; tame].
    apply tame_do_while. intro. apply tame_four_rounds. intro. tame.
Qed.
Lemma tame_endian64 : forall cfg xb p len seed a, tame (XXH64_endian_align cfg xb p len seed a).
Proof.
  intros. unfold XXH64_endian_align. destruct (_ && _); cbv beta iota zeta.
  - change (32 <=? 0) with false. cbv iota. tame.
  - destruct (32 <=? len); [|tame]. apply tame_bind; [|intros [h q]; tame]. apply tame_bind; [|intro; tame].
    apply tame_do_while. intro. apply tame_four_rounds. intro. tame.
Qed.
Theorem C63_reads : forall cfg xb p len seed,
  local (XXH32 cfg xb p len seed) /\ reader (XXH32 cfg xb p len seed) /\
  local (XXH64 cfg xb p len seed) /\ reader (XXH64 cfg xb p len seed).
Proof.
  intros. assert (T32 : tame (XXH32 cfg xb p len seed)) by (unfold XXH32; destruct (_ && _); apply tame_endian32).
  assert (T64 : tame (XXH64 cfg xb p len seed)) by (unfold XXH64; destruct (_ && _); apply tame_endian64).
  exact (conj (proj1 T32) (conj (proj2 T32) T64)).
Qed.
Print Assumptions C63_reads.

(** the tuning parameters that tests/xxhash/xxhash.h chooses on x86-64, and others *)
Definition xb_default : xxh_build := Build_xxh_build 0 false false false false.
Definition xb_sparc : xxh_build := Build_xxh_build 3 true true true true.
Definition xb_armv6 : xxh_build := Build_xxh_build 2 false true false true.
(** well-known values *)
Example C63_known : xxh32 [] 0 = 0x02cc5d05 /\ xxh32 [x61; x62; x63] 0 = 0x32d153ff /\
  xxh64 [] 0 = 0xef46db3751d8e999 /\ xxh64 [x61; x62; x63] 0 = 0x44bc2cf5ad770999.
Proof. vm_compute. repeat split. Qed.
(** a message of 77 bytes at an odd address, in builds with different byte orders *)
Definition odd_mem : mem := sea 20001 (Demo.key 77) xee.
Lemma odd_bytes : bytes_at odd_mem 20001 (Demo.key 77).
Proof. apply write_bytes_at. Qed.
Example C63_case : XXH64 x86_64 xb_default 20001 77 5 odd_mem = XXH64 sparc64 xb_sparc 20001 77 5 odd_mem /\
  XXH32 mips32 xb_sparc 20001 77 5 odd_mem = XXH32 x86_64 xb_default 20001 77 5 odd_mem /\
  XXH32 mips32 xb_armv6 20001 77 5 odd_mem = Undef MisalignedAccess.
Proof.
  assert (L : mlen (Demo.key 77) = 77) by (unfold mlen; now rewrite key_length).
  split; [|split].
  - rewrite <- L. rewrite !XXH64_ok; try apply odd_bytes; try (rewrite L; reflexivity); try (left; discriminate); try discriminate. reflexivity.
  - rewrite <- L. rewrite !XXH32_ok; try apply odd_bytes; try (rewrite L; reflexivity); try (left; discriminate); try discriminate. reflexivity.
  - apply C63_method_2; [reflexivity|discriminate|discriminate].
Qed.

(** ** C64: multiple calls *)
(** XXH32_update for each of the chunks, an address and the bytes there; the error codes *)
Fixpoint feed32 (cfg : config) (xb : xxh_build) (buf : N) (chunks : list (N * list byte)) (st : XXH32_state) : M (list N * XXH32_state) :=
  match chunks with
  | [] => ret ([], st)
  | (p, l) :: chunks => y <- XXH32_update cfg xb buf p (mlen l) st ;; z <- feed32 cfg xb buf chunks (snd y) ;; ret (fst y :: fst z, snd z)
  end.
Fixpoint feed64 (cfg : config) (xb : xxh_build) (buf : N) (chunks : list (N * list byte)) (st : XXH64_state) : M (list N * XXH64_state) :=
  match chunks with
  | [] => ret ([], st)
  | (p, l) :: chunks => y <- XXH64_update cfg xb buf p (mlen l) st ;; z <- feed64 cfg xb buf chunks (snd y) ;; ret (fst y :: fst z, snd z)
  end.
(** one after another; a digest may be taken at any time *)
Definition stream32 (cfg : config) (xb : xxh_build) (buf seed : N) (chunks more : list (N * list byte)) : M (list N * N * N) :=
  y <- XXH32_reset cfg buf seed ;;
  z <- feed32 cfg xb buf chunks (snd y) ;;
  h <- XXH32_digest cfg xb buf (snd z) ;;
  z' <- feed32 cfg xb buf more (snd z) ;;
  h' <- XXH32_digest cfg xb buf (snd z') ;;
  ret (fst y :: fst z ++ fst z', h, h').
Definition stream64 (cfg : config) (xb : xxh_build) (buf seed : N) (chunks more : list (N * list byte)) : M (list N * N * N) :=
  y <- XXH64_reset cfg buf seed ;;
  z <- feed64 cfg xb buf chunks (snd y) ;;
  h <- XXH64_digest cfg xb buf (snd z) ;;
  z' <- feed64 cfg xb buf more (snd z) ;;
  h' <- XXH64_digest cfg xb buf (snd z') ;;
  ret (fst y :: fst z ++ fst z', h, h').
Definition contents (chunks : list (N * list byte)) : list byte := flat_map snd chunks.

(** A chunk is readable, apart from the buffer of [size] bytes, and neither in the first 16
    bytes of the memory nor in the last 32. *)
Definition chunk_in (cfg : config) (buf size : N) (m : mem) (c : N * list byte) : Prop :=
  let '(p, l) := c in
  bytes_at m p l /\ 16 <= p /\ p + mlen l + 32 < addr_space cfg /\ apart buf size p (mlen l).

Section Streams.
  Variable (cfg : config) (xb : xxh_build) (buf seed : N).
  Hypothesis method : xxh_force_memory_access xb <> 2.
  Hypothesis buf_0 : buf <> 0.

  Lemma read32_any : forall m p w, bytes_at m p w -> length w = 4%nat -> p + N.of_nat 4 <= addr_space cfg -> True ->
    XXH_readLE32 cfg xb p m = Ok (le_num w, m).
  Proof. intros m p w H L A _. apply readLE32_ok; auto. intro E. cbn [orb] in E. apply N.eqb_eq in E. contradiction. Qed.
  Lemma read64_any : forall m p w, bytes_at m p w -> length w = 8%nat -> p + N.of_nat 8 <= addr_space cfg -> True ->
    XXH_readLE64 cfg xb p m = Ok (le_num w, m).
  Proof. intros m p w H L A _. apply readLE64_ok; auto. intro E. cbn [orb] in E. apply N.eqb_eq in E. contradiction. Qed.

  (** what a state holds *)
  Definition in32 (msg : list byte) (st : XXH32_state) (m : mem) : Prop :=
    holds 4 round_32 (begin_32 seed) msg (x32_v st) (x32_memsize st) buf m /\
    x32_total_len_32 st = mlen msg mod 2 ^ 32 /\ x32_large_len st = (if 16 <=? mlen msg then 1 else 0).
  Definition in64 (msg : list byte) (st : XXH64_state) (m : mem) : Prop :=
    holds 8 round_64 (begin_64 seed) msg (x64_v st) (x64_memsize st) buf m /\ x64_total_len st = mlen msg mod 2 ^ 64.

  Lemma update32_ok : forall msg st m p l, in32 msg st m -> buf + 16 < addr_space cfg -> chunk_in cfg buf 16 m (p, l) ->
    exists st' m', XXH32_update cfg xb buf p (mlen l) st m = Ok ((XXH_OK, st'), m') /\ in32 (msg ++ l) st' m' /\ only m m' buf 16.
  Proof.
    intros msg st m p l (HO & T & LG) BA (H & P & A & D). unfold XXH32_update.
    destruct (N.eqb_spec p 0) as [Z|_]; [lia|]. cbv zeta.
    destruct (update_buffer_ok cfg 4 (XXH_readLE32 cfg xb) XXH32_round round_32 (fun p bEnd => p <=? psub cfg bEnd 16)
      ltac:(lia) round32_eq read32_any (begin_32 seed) msg (x32_v st) (x32_memsize st) buf l p m) as (v' & ms' & m' & E & HO' & O); auto; try lia.
    - intros q Q1 Q2. rewrite psub_small by lia. change (4 * N.of_nat 4) with 16. lia.
    - change (4 * N.of_nat 4) with 16 in *. change (N.of_nat 4) with 4 in *. ok E. eexists _, m'. split; [reflexivity|].
      split; [|exact O]. unfold in32. cbn [x32_v x32_memsize x32_total_len_32 x32_large_len]. split; [exact HO'|].
      assert (ML : mlen (msg ++ l) = mlen msg + mlen l) by (unfold mlen; rewrite app_length; lia).
      assert (TT : add32 (x32_total_len_32 st) (u32 (mlen l)) = (mlen msg + mlen l) mod 2 ^ 32).
      { unfold add32. rewrite !u32_eq, T. now rewrite <- N.add_mod by discriminate. }
      rewrite ML, TT, LG. split; [reflexivity|]. change (2 ^ 32) with 4294967296.
      destruct (N.leb_spec 16 (mlen msg)) as [C1|C1].
      + destruct (N.leb_spec 16 (mlen msg + mlen l)) as [C2|C2]; [|lia]. now destruct (_ || _).
      + destruct (N.leb_spec 16 (mlen l)) as [C2|C2]; destruct (N.leb_spec 16 (mlen msg + mlen l)) as [C3|C3];
          destruct (N.leb_spec 16 ((mlen msg + mlen l) mod 4294967296)) as [C4|C4]; try reflexivity; lia.
  Qed.
  Lemma update64_ok : forall msg st m p l, in64 msg st m -> buf + 32 < addr_space cfg -> chunk_in cfg buf 32 m (p, l) ->
    exists st' m', XXH64_update cfg xb buf p (mlen l) st m = Ok ((XXH_OK, st'), m') /\ in64 (msg ++ l) st' m' /\ only m m' buf 32.
  Proof.
    intros msg st m p l (HO & T) BA (H & P & A & D). unfold XXH64_update.
    destruct (N.eqb_spec p 0) as [Z|_]; [lia|]. cbv zeta.
    destruct (update_buffer_ok cfg 8 (XXH_readLE64 cfg xb) XXH64_round round_64 (fun p bEnd => padd cfg p 32 <=? bEnd)
      ltac:(lia) round64_eq read64_any (begin_64 seed) msg (x64_v st) (x64_memsize st) buf l p m) as (v' & ms' & m' & E & HO' & O); auto; try lia.
    - intros q Q1 Q2. rewrite padd_small by lia. change (4 * N.of_nat 8) with 32. lia.
    - change (4 * N.of_nat 8) with 32 in *. change (N.of_nat 8) with 8 in *. ok E. eexists _, m'. split; [reflexivity|].
      split; [|exact O]. unfold in64. cbn [x64_v x64_memsize x64_total_len]. split; [exact HO'|].
      assert (ML : mlen (msg ++ l) = mlen msg + mlen l) by (unfold mlen; rewrite app_length; lia).
      unfold add64. rewrite u64_eq, T, ML. now rewrite N.add_mod_idemp_l by discriminate.
  Qed.

  Lemma feed32_ok : forall chunks msg st m, in32 msg st m -> buf + 16 < addr_space cfg -> Forall (chunk_in cfg buf 16 m) chunks ->
    exists st' m', feed32 cfg xb buf chunks st m = Ok ((repeat XXH_OK (length chunks), st'), m') /\ in32 (msg ++ contents chunks) st' m' /\ only m m' buf 16.
  Proof.
    induction chunks as [|[p l] chunks IH]; intros msg st m S BA F.
    - exists st, m. cbn [feed32 contents flat_map length repeat]. rewrite app_nil_r. split; [reflexivity|]. split; [exact S|apply only_refl].
    - apply Forall_cons_iff in F. destruct F as [F1 F2]. cbn [feed32].
      destruct (update32_ok msg st m p l S BA F1) as (st1 & m1 & E1 & S1 & O1). ok E1. cbn [fst snd].
      destruct (IH (msg ++ l) st1 m1 S1 BA) as (st2 & m2 & E2 & S2 & O2).
      { eapply Forall_impl; [|exact F2]. intros [q k] (A1 & A2 & A3 & A4). split; [|auto].
        eapply only_bytes; [exact O1| |exact A1]. unfold apart in A4. lia. }
      ok E2. cbn [fst snd]. exists st2, m2. cbn [length repeat contents flat_map snd]. rewrite app_assoc.
      split; [reflexivity|]. split; [exact S2|]. now apply only_trans with m1.
  Qed.
  Lemma feed64_ok : forall chunks msg st m, in64 msg st m -> buf + 32 < addr_space cfg -> Forall (chunk_in cfg buf 32 m) chunks ->
    exists st' m', feed64 cfg xb buf chunks st m = Ok ((repeat XXH_OK (length chunks), st'), m') /\ in64 (msg ++ contents chunks) st' m' /\ only m m' buf 32.
  Proof.
    induction chunks as [|[p l] chunks IH]; intros msg st m S BA F.
    - exists st, m. cbn [feed64 contents flat_map length repeat]. rewrite app_nil_r. split; [reflexivity|]. split; [exact S|apply only_refl].
    - apply Forall_cons_iff in F. destruct F as [F1 F2]. cbn [feed64].
      destruct (update64_ok msg st m p l S BA F1) as (st1 & m1 & E1 & S1 & O1). ok E1. cbn [fst snd].
      destruct (IH (msg ++ l) st1 m1 S1 BA) as (st2 & m2 & E2 & S2 & O2).
      { eapply Forall_impl; [|exact F2]. intros [q k] (A1 & A2 & A3 & A4). split; [|auto].
        eapply only_bytes; [exact O1| |exact A1]. unfold apart in A4. lia. }
      ok E2. cbn [fst snd]. exists st2, m2. cbn [length repeat contents flat_map snd]. rewrite app_assoc.
      split; [reflexivity|]. split; [exact S2|]. now apply only_trans with m1.
  Qed.

  Lemma third_32 : forall v msg, (length msg < 16)%nat -> v = fold_left (stripe 4 round_32) (blocks 16 msg) (begin_32 seed) -> snd (fst v) = add_32 seed 0.
  Proof. intros v msg L ->. rewrite blocks_nil by exact L. reflexivity. Qed.
  Lemma digest32_ok : forall msg st m, in32 msg st m -> buf + 16 < addr_space cfg -> buf mod alignment cfg 4 = 0 ->
    XXH32_digest cfg xb buf st m = Ok (xxh32 msg seed, m).
  Proof.
    intros msg st m ((V & MS & HB & MP) & T & LG) BA AL. unfold XXH32_digest. change (4 * 4)%nat with 16%nat in *.
    assert (LR : (length (rest 16 msg) < 16)%nat) by (rewrite rest_length by discriminate; apply Nat.mod_upper_bound; discriminate).
    destruct (x32_v st) as [[[a b] c] d] eqn:EV. rewrite <- EV in *. cbv zeta.
    rewrite (finalize32_ok cfg xb m true _ buf (rest 16 msg)); auto.
    - unfold xxh32. do 4 f_equal. rewrite T, LG. change (add32 ?x ?y) with (add_32 x y). rewrite add_32_mod. f_equal.
      destruct (N.leb_spec 16 (mlen msg)) as [C|C].
      + cbn [N.eqb negb]. rewrite converge32_eq, V. reflexivity.
      + cbn [N.eqb negb]. replace c with (snd (fst (x32_v st))) by (rewrite EV; reflexivity).
        rewrite (third_32 _ msg) by (exact V || (unfold mlen in C; lia)). change (add32 ?x ?y) with (add_32 x y).
        unfold add_32. rewrite N.add_0_r, N.add_mod_idemp_l by discriminate. reflexivity.
    - rewrite MS, land_15. apply N.mod_small. unfold mlen. lia.
    - unfold mlen. lia.
    - intros _. exact AL.
  Qed.
  Lemma third_64 : forall v msg, (length msg < 32)%nat -> v = fold_left (stripe 8 round_64) (blocks 32 msg) (begin_64 seed) -> snd (fst v) = add seed 0.
  Proof. intros v msg L ->. rewrite blocks_nil by exact L. reflexivity. Qed.
  Lemma digest64_ok : forall msg st m, in64 msg st m -> mlen msg < 2 ^ 64 -> buf + 32 < addr_space cfg -> buf mod alignment cfg 8 = 0 ->
    XXH64_digest cfg xb buf st m = Ok (xxh64 msg seed, m).
  Proof.
    intros msg st m ((V & MS & HB & MP) & T) TL BA AL. unfold XXH64_digest. change (4 * 8)%nat with 32%nat in *.
    assert (LR : (length (rest 32 msg) < 32)%nat) by (rewrite rest_length by discriminate; apply Nat.mod_upper_bound; discriminate).
    destruct (x64_v st) as [[[a b] c] d] eqn:EV. rewrite <- EV in *. cbv zeta.
    rewrite N.mod_small in T by exact TL. rewrite T.
    rewrite (finalize64_ok cfg xb m true _ buf (rest 32 msg)); auto.
    - unfold xxh64. do 4 f_equal. change (add64 ?x ?y) with (add x y). f_equal.
      destruct (N.leb_spec 32 (mlen msg)) as [C|C].
      + rewrite converge64_eq, V. reflexivity.
      + replace c with (snd (fst (x64_v st))) by (rewrite EV; reflexivity).
        rewrite (third_64 _ msg) by (exact V || (unfold mlen in C; lia)). change (add64 ?x ?y) with (add x y).
        unfold add. rewrite N.add_0_r, N.add_mod_idemp_l by discriminate. reflexivity.
    - rewrite land_31, (mlen_rest 32) by lia. change (N.of_nat 32) with 32. unfold addr_space. destruct (ptr64 cfg); lia.
    - unfold mlen. lia.
    - intros _. exact AL.
  Qed.
End Streams.

(** Cut into any chunks, at any addresses, the message has the value of the one call; so
    has what came before a digest.  The total length of XXH32 may exceed 32 bits.
    Nothing but the state is written. *)
Theorem C64_stream32 : forall cfg xb buf seed chunks more m, xxh_force_memory_access xb <> 2 -> buf <> 0 -> buf + 16 < addr_space cfg ->
  buf mod alignment cfg 4 = 0 -> mapped m buf 16 -> Forall (chunk_in cfg buf 16 m) (chunks ++ more) ->
  exists m', stream32 cfg xb buf seed chunks more m =
      Ok ((repeat XXH_OK (S (length (chunks ++ more))), xxh32 (contents chunks) seed, xxh32 (contents (chunks ++ more)) seed), m') /\
    only m m' buf 16.
Proof.
  intros cfg xb buf seed chunks more m X BN BA AL MP F. unfold stream32, XXH32_reset.
  assert (E0 : store_bytes buf (repeat x00 16) m = Ok (tt, write m buf (repeat x00 16))) by (apply store_bytes_ok; exact MP).
  rewrite bind_assoc. ok E0. rewrite bind_ret. cbn [fst snd].
  assert (O0 : only m (write m buf (repeat x00 16)) buf 16) by now apply only_write.
  set (m0 := write m buf (repeat x00 16)) in *. clearbody m0.
  assert (F0 : forall m1 l, only m m1 buf 16 -> Forall (chunk_in cfg buf 16 m) l -> Forall (chunk_in cfg buf 16 m1) l).
  { intros m1 l O FL. eapply Forall_impl; [|exact FL]. intros [q k] (A1 & A2 & A3 & A4). split; [|auto].
    eapply only_bytes; [exact O| |exact A1]. unfold apart in A4. lia. }
  apply Forall_app in F. destruct F as [F1 F2].
  assert (S0 : in32 buf seed [] (X32 0 0 (XXH32_start seed) 0) m0).
  { split; [|split; reflexivity]. split; [reflexivity|]. split; [reflexivity|]. split; [apply bytes_at_nil|].
    eapply only_mapped; [exact O0|exact MP]. }
  destruct (feed32_ok cfg xb buf seed X BN chunks [] _ m0 S0 BA (F0 _ _ O0 F1)) as (st1 & m1 & E1 & S1 & O1). ok E1. cbn [fst snd app] in *.
  ok (digest32_ok cfg xb buf seed X BN (contents chunks) st1 m1 S1 BA AL).
  assert (O01 : only m m1 buf 16) by (now apply only_trans with m0).
  destruct (feed32_ok cfg xb buf seed X BN more _ st1 m1 S1 BA (F0 _ _ O01 F2)) as (st2 & m2 & E2 & S2 & O2). ok E2. cbn [fst snd].
  ok (digest32_ok cfg xb buf seed X BN _ st2 m2 S2 BA AL).
  exists m2. split; [|now apply only_trans with m1].
  unfold contents. rewrite flat_map_app, app_length, <- repeat_app. reflexivity.
Qed.
Print Assumptions C64_stream32.
Theorem C64_stream64 : forall cfg xb buf seed chunks more m, xxh_force_memory_access xb <> 2 -> buf <> 0 -> buf + 32 < addr_space cfg ->
  buf mod alignment cfg 8 = 0 -> mapped m buf 32 -> Forall (chunk_in cfg buf 32 m) (chunks ++ more) -> mlen (contents (chunks ++ more)) < 2 ^ 64 ->
  exists m', stream64 cfg xb buf seed chunks more m =
      Ok ((repeat XXH_OK (S (length (chunks ++ more))), xxh64 (contents chunks) seed, xxh64 (contents (chunks ++ more)) seed), m') /\
    only m m' buf 32.
Proof.
  intros cfg xb buf seed chunks more m X BN BA AL MP F TL. unfold stream64, XXH64_reset.
  assert (E0 : store_bytes buf (repeat x00 32) m = Ok (tt, write m buf (repeat x00 32))) by (apply store_bytes_ok; exact MP).
  rewrite bind_assoc. ok E0. rewrite bind_ret. cbn [fst snd].
  assert (O0 : only m (write m buf (repeat x00 32)) buf 32) by now apply only_write.
  set (m0 := write m buf (repeat x00 32)) in *. clearbody m0.
  assert (F0 : forall m1 l, only m m1 buf 32 -> Forall (chunk_in cfg buf 32 m) l -> Forall (chunk_in cfg buf 32 m1) l).
  { intros m1 l O FL. eapply Forall_impl; [|exact FL]. intros [q k] (A1 & A2 & A3 & A4). split; [|auto].
    eapply only_bytes; [exact O| |exact A1]. unfold apart in A4. lia. }
  apply Forall_app in F. destruct F as [F1 F2].
  assert (CA : contents (chunks ++ more) = contents chunks ++ contents more) by apply flat_map_app. rewrite CA in *.
  assert (S0 : in64 buf seed [] (X64 0 (XXH64_start seed) 0) m0).
  { split; [|reflexivity]. split; [reflexivity|]. split; [reflexivity|]. split; [apply bytes_at_nil|].
    eapply only_mapped; [exact O0|exact MP]. }
  destruct (feed64_ok cfg xb buf seed X BN chunks [] _ m0 S0 BA (F0 _ _ O0 F1)) as (st1 & m1 & E1 & S1 & O1). ok E1. cbn [fst snd app] in *.
  ok (digest64_ok cfg xb buf seed X BN (contents chunks) st1 m1 S1 ltac:(unfold mlen in *; rewrite app_length in TL; lia) BA AL).
  assert (O01 : only m m1 buf 32) by (now apply only_trans with m0).
  destruct (feed64_ok cfg xb buf seed X BN more _ st1 m1 S1 BA (F0 _ _ O01 F2)) as (st2 & m2 & E2 & S2 & O2). ok E2. cbn [fst snd].
  ok (digest64_ok cfg xb buf seed X BN _ st2 m2 S2 TL BA AL).
  exists m2. split; [|now apply only_trans with m1].
  rewrite app_length, <- repeat_app. reflexivity.
Qed.
Print Assumptions C64_stream64.

(** "xxHash's default behavior is to dereference" a null pointer (tests/xxhash/xxhash.h:793): not
    when streaming, where it is an error even to add nothing, although one call may hash
    nothing at that address. *)
Theorem C64_null : forall cfg xb m buf len st32 st64 seed, xxh_accept_null_input_pointer xb = false ->
  XXH32_update cfg xb buf 0 len st32 m = Ok ((XXH_ERROR, st32), m) /\
  XXH64_update cfg xb buf 0 len st64 m = Ok ((XXH_ERROR, st64), m) /\
  XXH32 cfg xb 0 0 seed m = Ok (xxh32 [] seed, m) /\ XXH64 cfg xb 0 0 seed m = Ok (xxh64 [] seed, m).
Proof.
  intros cfg xb m buf len st32 st64 seed A. unfold XXH32_update, XXH64_update. rewrite A. split; [reflexivity|]. split; [reflexivity|].
  pose proof (addr_space_pos cfg) as AP. destruct (C63_value cfg xb m 0 [] seed) as [E1 E2]; [apply bytes_at_nil|cbn; lia|now right|].
  split; [apply E1|apply E2]; intros _; [reflexivity|]. unfold alignment. now destruct (wide cfg).
Qed.
Print Assumptions C64_null.

(** 77 bytes in three chunks, one of them empty, and two more after a digest *)
Definition xx_mem : mem := sea 20001 (Demo.key 100) xee.
Definition xx_part (i n : nat) : N * list byte := (20001 + N.of_nat i, firstn n (skipn i (Demo.key 100))).
Lemma xx_mapped : forall p n, mapped xx_mem p n.
Proof.
  intros p n i _. unfold xx_mem, sea, write.
  destruct ((20001 <=? p + N.of_nat i) && (p + N.of_nat i <? 20001 + N.of_nat (length (Demo.key 100)))) eqn:E;
    [|discriminate].
  apply nth_error_Some. lia.
Qed.
Lemma xx_part_in : forall cfg size i n, (i + n <= 100)%nat -> size <= 32 -> chunk_in cfg 4096 size xx_mem (xx_part i n).
Proof.
  intros cfg size i n H S. unfold xx_part, chunk_in. pose proof (addr_space_pos cfg).
  assert (L : mlen (firstn n (skipn i (Demo.key 100))) = N.of_nat n).
  { unfold mlen. rewrite firstn_length_le; [reflexivity|]. rewrite skipn_length, key_length. lia. }
  split; [|rewrite L; unfold apart; lia]. apply bytes_at_firstn. apply bytes_at_skipn; [apply write_bytes_at|rewrite key_length; lia].
Qed.
Example C64_case : forall cfg, exists m',
  stream64 cfg xb_default 4096 7 [xx_part 0 1; xx_part 1 40; xx_part 41 0] [xx_part 41 30; xx_part 71 6] xx_mem =
    Ok (([0; 0; 0; 0; 0; 0], xxh64 (firstn 41 (Demo.key 100)) 7, xxh64 (firstn 77 (Demo.key 100)) 7), m').
Proof.
  intro cfg. pose proof (addr_space_pos cfg).
  assert (E : forall l, forallb (fun x => Nat.leb (fst x + snd x) 100) l = true ->
    Forall (chunk_in cfg 4096 32 xx_mem) (map (fun x => xx_part (fst x) (snd x)) l)).
  { intros l FL. apply Forall_forall. intros c I. apply in_map_iff in I. destruct I as ((i & n) & <- & I).
    rewrite forallb_forall in FL. apply FL in I. cbn [fst snd] in *. apply Nat.leb_le in I. apply xx_part_in; lia. }
  destruct (C64_stream64 cfg xb_default 4096 7 [xx_part 0 1; xx_part 1 40; xx_part 41 0] [xx_part 41 30; xx_part 71 6] xx_mem) as (m' & E1 & _).
  - discriminate.
  - discriminate.
  - lia.
  - unfold alignment. now destruct (wide cfg).
  - apply xx_mapped.
  - exact (E [(0, 1); (1, 40); (41, 0); (41, 30); (71, 6)]%nat eq_refl).
  - vm_compute. reflexivity.
  - exists m'. rewrite E1. vm_compute. reflexivity.
Qed.

(** The place of the chunks matters: XXH64_update asks [p+32 <= bEnd] (1989), and at the
    end of the memory the sum is a small number.  Here 24 bytes are in the buffer, and 8
    bytes are added that end 8 bytes before the end of the memory.  The function then reads
    what follows them. *)
Definition top_mem : mem :=
  fun a => if (4096 <=? a) && (a <? 4128) then Some x00 else if (2 ^ 64 - 16 <=? a) && (a <? 2 ^ 64 - 8) then Some x00 else None.
Theorem C64_anywhere_refuted :
  exists st, in64 4096 0 (repeat x00 24) st top_mem /\ bytes_at top_mem (2 ^ 64 - 16) (repeat x00 8) /\
    XXH64_update x86_64 xb_default 4096 (2 ^ 64 - 16) 8 st top_mem = Fault (2 ^ 64 - 8).
Proof.
  exists (X64 24 (begin_64 0) 24). split; [|split].
  - split; [|reflexivity]. split; [reflexivity|]. split; [reflexivity|]. split.
    + change (rest (4 * 8) (repeat x00 24)) with (repeat x00 24). intros i b E. assert (I : (i < 24)%nat) by (pose proof (proj1 (nth_error_Some (repeat x00 24) i)) as W; rewrite repeat_length in W; apply W; rewrite E; discriminate).
      rewrite nth_error_repeat in E by exact I. injection E as <-. unfold top_mem.
      replace ((4096 <=? 4096 + N.of_nat i) && (4096 + N.of_nat i <? 4128)) with true by lia. reflexivity.
    + intros i I. unfold top_mem. replace ((4096 <=? 4096 + N.of_nat i) && (4096 + N.of_nat i <? 4128)) with true by lia. discriminate.
  - intros i b E. do 8 (destruct i as [|i]; [injection E as <-; reflexivity|]). destruct i; discriminate.
  - vm_compute. reflexivity.
Qed.
Print Assumptions C64_anywhere_refuted.

(** ** C65: canonical representation *)
(** The bytes are the big-endian ones in all builds, and reading them again gives the hash. *)
Lemma readBE32_ok : forall cfg xb m p l, bytes_at m p l -> length l = 4%nat -> p + 4 <= addr_space cfg -> fine cfg xb false 4 p ->
  XXH_readBE32 cfg xb p m = Ok (be_num l, m).
Proof.
  intros cfg xb m p l H L A F. unfold XXH_readBE32. destruct (N.eqb_spec (xxh_force_memory_access xb) 3) as [E|E].
  - destruct l as [|b0 [|b1 [|b2 [|b3 [|]]]]]; try discriminate L.
    apply bytes_at_cons in H. destruct H as [H0 H]. apply bytes_at_cons in H. destruct H as [H1 H].
    apply bytes_at_cons in H. destruct H as [H2 H]. apply bytes_at_cons in H. destruct H as [H3 _].
    rewrite <- (N.add_0_r p) in H0. replace (p + 1 + 1) with (p + 2) in * by lia. replace (p + 2 + 1) with (p + 3) in * by lia.
    ok (byte_of_ok cfg m p 3 b3 H3 ltac:(lia)). ok (byte_of_ok cfg m p 2 b2 H2 ltac:(lia)).
    ok (byte_of_ok cfg m p 1 b1 H1 ltac:(lia)). ok (byte_of_ok cfg m p 0 b0 H0 ltac:(lia)).
    unfold ret. do 3 f_equal. rewrite !shl32_byte by lia. unfold be_num. cbn [rev app le_num].
    pose proof (b2n_lt b0). pose proof (b2n_lt b1). pose proof (b2n_lt b2). pose proof (b2n_lt b3).
    destruct (lor_step (b2n b3) (b2n b2) 8 ltac:(assumption) ltac:(assumption)) as [-> L1].
    destruct (lor_step _ (b2n b1) 16 L1 ltac:(assumption)) as [-> L2].
    destruct (lor_step _ (b2n b0) 24 L2 ltac:(assumption)) as [-> _]. lia.
  - assert (R : XXH_read32 cfg xb p m = Ok (if big_endian cfg then be_num l else le_num l, m)).
    { unfold XXH_read32. unfold fine in F. cbn [orb] in F. destruct (N.eqb_spec (xxh_force_memory_access xb) 2) as [E2|E2].
      - apply deref_ok; auto.
      - now apply load_uint_ok. }
    ok R. destruct (big_endian cfg); [reflexivity|]. now rewrite swap32_le.
Qed.
Lemma readBE64_ok : forall cfg xb m p l, bytes_at m p l -> length l = 8%nat -> p + 8 <= addr_space cfg -> fine cfg xb false 8 p ->
  XXH_readBE64 cfg xb p m = Ok (be_num l, m).
Proof.
  intros cfg xb m p l H L A F. unfold XXH_readBE64. destruct (N.eqb_spec (xxh_force_memory_access xb) 3) as [E|E].
  - destruct l as [|b0 [|b1 [|b2 [|b3 [|b4 [|b5 [|b6 [|b7 [|]]]]]]]]]; try discriminate L.
    apply bytes_at_cons in H. destruct H as [H0 H]. apply bytes_at_cons in H. destruct H as [H1 H].
    apply bytes_at_cons in H. destruct H as [H2 H]. apply bytes_at_cons in H. destruct H as [H3 H].
    apply bytes_at_cons in H. destruct H as [H4 H]. apply bytes_at_cons in H. destruct H as [H5 H].
    apply bytes_at_cons in H. destruct H as [H6 H]. apply bytes_at_cons in H. destruct H as [H7 _].
    rewrite <- (N.add_0_r p) in H0. replace (p + 1 + 1) with (p + 2) in * by lia. replace (p + 2 + 1) with (p + 3) in * by lia.
    replace (p + 3 + 1) with (p + 4) in * by lia. replace (p + 4 + 1) with (p + 5) in * by lia.
    replace (p + 5 + 1) with (p + 6) in * by lia. replace (p + 6 + 1) with (p + 7) in * by lia.
    ok (byte_of_ok cfg m p 7 b7 H7 ltac:(lia)). ok (byte_of_ok cfg m p 6 b6 H6 ltac:(lia)).
    ok (byte_of_ok cfg m p 5 b5 H5 ltac:(lia)). ok (byte_of_ok cfg m p 4 b4 H4 ltac:(lia)).
    ok (byte_of_ok cfg m p 3 b3 H3 ltac:(lia)). ok (byte_of_ok cfg m p 2 b2 H2 ltac:(lia)).
    ok (byte_of_ok cfg m p 1 b1 H1 ltac:(lia)). ok (byte_of_ok cfg m p 0 b0 H0 ltac:(lia)).
    unfold ret. do 3 f_equal. rewrite !shl64_byte by lia. unfold be_num. cbn [rev app le_num].
    rewrite lor_sum8 by apply b2n_lt. lia.
  - assert (R : XXH_read64 cfg xb p m = Ok (if big_endian cfg then be_num l else le_num l, m)).
    { unfold XXH_read64. unfold fine in F. cbn [orb] in F. destruct (N.eqb_spec (xxh_force_memory_access xb) 2) as [E2|E2].
      - apply deref_ok; auto.
      - now apply load_uint_ok. }
    ok R. destruct (big_endian cfg); [reflexivity|]. now rewrite swap64_le.
Qed.
Lemma le_of_be : forall n x, le_bytes n (be_num (le_bytes n x)) = be_bytes n x.
Proof.
  intros n x. unfold be_num, be_bytes. pose proof (le_bytes_le_num (rev (le_bytes n x))) as E.
  now rewrite rev_length, le_bytes_length in E.
Qed.

(** The bytes are the big-endian ones in all builds, nothing else is written, and reading them
    again gives the hash. *)
Theorem C65_canonical32 : forall cfg xb dst hash m, hash < 2 ^ 32 -> mapped m dst 4 -> dst + 4 <= addr_space cfg ->
  (xxh_force_memory_access xb = 2 -> dst mod alignment cfg 4 = 0) ->
  exists m', XXH32_canonicalFromHash cfg dst hash m = Ok (tt, m') /\ bytes_at m' dst (rev (le_bytes 4 hash)) /\ only m m' dst 4 /\
    XXH32_hashFromCanonical cfg xb dst m' = Ok (hash, m').
Proof.
  intros cfg xb dst hash m H MP A AL. exists (write m dst (be_bytes 4 hash)). split; [|split; [|split]].
  - unfold XXH32_canonicalFromHash. cbv zeta. rewrite store_uint_ok by exact MP. destruct (big_endian cfg); [reflexivity|].
    rewrite swap32_eq, bswap32_eq, u32_small by exact H. now rewrite le_of_be.
  - apply write_bytes_at.
  - apply only_write. unfold mlen. now rewrite be_bytes_length.
  - unfold XXH32_hashFromCanonical. rewrite (readBE32_ok cfg xb _ dst (be_bytes 4 hash)).
    + rewrite be_num_be_bytes. now rewrite N.mod_small by exact H.
    + apply write_bytes_at.
    + apply be_bytes_length.
    + exact A.
    + intro E. cbn [orb] in E. apply AL. now apply N.eqb_eq.
Qed.
Print Assumptions C65_canonical32.
Theorem C65_canonical64 : forall cfg xb dst hash m, hash < 2 ^ 64 -> mapped m dst 8 -> dst + 8 <= addr_space cfg ->
  (xxh_force_memory_access xb = 2 -> dst mod alignment cfg 8 = 0) ->
  exists m', XXH64_canonicalFromHash cfg dst hash m = Ok (tt, m') /\ bytes_at m' dst (rev (le_bytes 8 hash)) /\ only m m' dst 8 /\
    XXH64_hashFromCanonical cfg xb dst m' = Ok (hash, m').
Proof.
  intros cfg xb dst hash m H MP A AL. exists (write m dst (be_bytes 8 hash)). split; [|split; [|split]].
  - unfold XXH64_canonicalFromHash. cbv zeta. rewrite store_uint_ok by exact MP. destruct (big_endian cfg); [reflexivity|].
    rewrite swap64_eq, bswap64_eq, u64_small by exact H. now rewrite le_of_be.
  - apply write_bytes_at.
  - apply only_write. unfold mlen. now rewrite be_bytes_length.
  - unfold XXH64_hashFromCanonical. rewrite (readBE64_ok cfg xb _ dst (be_bytes 8 hash)).
    + rewrite be_num_be_bytes. now rewrite N.mod_small by exact H.
    + apply write_bytes_at.
    + apply be_bytes_length.
    + exact A.
    + intro E. cbn [orb] in E. apply AL. now apply N.eqb_eq.
Qed.
Print Assumptions C65_canonical64.

(** the hash of nothing at an odd address *)
Example C65_case : exists m', XXH32_canonicalFromHash linux32 4097 0x02cc5d05 xx_mem = Ok (tt, m') /\
  bytes_at m' 4097 [x02; xcc; x5d; x05] /\ XXH32_hashFromCanonical sparc64 xb_default 4097 m' = Ok (0x02cc5d05, m').
Proof.
  destruct (C65_canonical32 linux32 xb_default 4097 0x02cc5d05 xx_mem) as (m' & E1 & E2 & _ & _);
    [reflexivity|apply xx_mapped|discriminate|discriminate|].
  exists m'. split; [exact E1|]. split; [exact E2|].
  unfold XXH32_hashFromCanonical. now rewrite (readBE32_ok _ _ _ _ _ E2).
Qed.
