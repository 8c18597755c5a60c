(** Facts about the one-shot functions that hold for all of them. *)
From Coq Require Import ZArith NArith Arith List Bool Lia Strings.Byte.
From Coq Require Import ZifyN ZifyNat ZifyBool.
From Verif Require Import Bytes CSem Bits T1ha2 T1ha1 T1ha0 Aes Ia32aes Spec AesSpec NBits CSemFacts OpsFacts KeyMem
  T1ha2Facts T1ha1Facts AesFacts Ia32aesFacts OneShot Demo.
Import ListNotations.
Local Open Scope N_scope.

Lemma call_ok : forall f cfg m p msg seed, seed < 2 ^ 64 -> usable f cfg -> room f cfg p (mlen msg) ->
  key_at cfg m p msg -> call f cfg p (mlen msg) seed m = Ok (value f msg seed, m).
Proof.
  intros [] cfg m p msg seed S U R K; cbn [call value usable room] in *.
  - now apply t1ha2_atonce_ok.
  - now apply t1ha1_le_ok.
  - now apply t1ha1_be_ok.
  - now apply t1ha0_32le_ok.
  - now apply t1ha0_32be_ok.
  - now apply t1ha0_ia32aes_a_ok.
  - now apply t1ha0_ia32aes_a_ok.
  - destruct R. now apply t1ha0_ia32aes_avx2_ok.
Qed.

(** ** Empty keys *)
Lemma call_empty : forall f cfg m p seed, seed < 2 ^ 64 ->
  call f cfg p 0 seed m = Ok (value f [] seed, m).
Proof.
  intros f cfg m p seed S.
  set (m0 := island 0 []).
  set (g := {| big_endian := big_endian cfg; ptr64 := ptr64 cfg; ulong64 := ulong64 cfg;
               ia32 := ia32 cfg; unaligned := unaligned cfg; oneshot := false; asan := asan cfg;
               pagesize := pagesize cfg; mul := mul cfg; carry := carry cfg; int128 := int128 cfg;
               swap_builtin := swap_builtin cfg; ndebug := ndebug cfg; off_total := off_total cfg;
               simd := simd cfg |}).
  assert (K : key_at g (island 0 []) 0 []).
  { apply island_key_at; [reflexivity|]. pose proof (addr_space_pos g). unfold mlen. cbn [length]. lia. }
  destruct f.
  - assert (E : call Atonce cfg p 0 seed m = Ok (final64 cfg seed 0, m)) by reflexivity.
    assert (G : call Atonce g 0 0 seed m0 = Ok (final64 cfg seed 0, m0)) by reflexivity.
    rewrite E. change 0 with (mlen []) in G at 2.
    rewrite (call_ok Atonce g m0 0 [] seed S) in G; [|discriminate|exact I|exact K].
    congruence.
  - assert (E : call Hash1le cfg p 0 seed m = Ok (final_weak_avalanche cfg seed 0, m)).
    { cbn [call]. unfold t1ha1_le. now destruct (is_efficient cfg), (misaligned64 cfg p). }
    assert (G : call Hash1le g 0 0 seed m0 = Ok (final_weak_avalanche cfg seed 0, m0)).
    { cbn [call]. unfold t1ha1_le. now destruct (is_efficient g), (misaligned64 g 0). }
    rewrite E. change 0 with (mlen []) in G at 2.
    rewrite (call_ok Hash1le g m0 0 [] seed S) in G; [|discriminate|exact I|exact K].
    congruence.
  - (* little- and big-endian agree on the empty key *)
    assert (E : call Hash1be cfg p 0 seed m = Ok (final_weak_avalanche cfg seed 0, m)).
    { cbn [call]. unfold t1ha1_be. now destruct (is_efficient cfg), (misaligned64 cfg p). }
    assert (G : call Hash1le g 0 0 seed m0 = Ok (final_weak_avalanche cfg seed 0, m0)).
    { cbn [call]. unfold t1ha1_le. now destruct (is_efficient g), (misaligned64 g 0). }
    rewrite E. change 0 with (mlen []) in G at 2.
    rewrite (call_ok Hash1le g m0 0 [] seed S) in G; [|discriminate|exact I|exact K].
    change (value Hash1be [] seed) with (value Hash1le [] seed). congruence.
  - assert (E : forall c q n, call Hash0_32le c q 0 seed n =
        Ok (final32 (add32 (rot32 (u32 0) 17) (u32 seed)) (N.lxor (u32 0) (u32 (shr64 seed 32))), n)).
    { intros. cbn [call]. unfold t1ha0_32le. now destruct (is_efficient c), (misaligned32 c q). }
    rewrite E. pose proof (E g 0 m0) as G. change 0 with (mlen []) in G at 2.
    rewrite (call_ok Hash0_32le g m0 0 [] seed S) in G; [|exact I|exact I|exact K]. congruence.
  - assert (E : forall c q n, call Hash0_32be c q 0 seed n =
        Ok (final32 (add32 (rot32 (u32 0) 17) (u32 seed)) (N.lxor (u32 0) (u32 (shr64 seed 32))), n)).
    { intros. cbn [call]. unfold t1ha0_32be. now destruct (is_efficient c), (misaligned32 c q). }
    rewrite E. pose proof (E g 0 m0) as G. change 0 with (mlen []) in G at 2.
    rewrite (call_ok Hash0_32be g m0 0 [] seed S) in G; [|exact I|exact I|exact K]. congruence.
  - assert (E : forall c q n, call AesNoavx c q 0 seed n = Ok (final64 c seed 0, n)) by reflexivity.
    rewrite E. pose proof (E g 0 m0) as G. change 0 with (mlen []) in G at 2.
    rewrite (call_ok AesNoavx g m0 0 [] seed S) in G; [|exact I|discriminate|exact K].
    change (final64 g seed 0) with (final64 cfg seed 0) in G. congruence.
  - assert (E : forall c q n, call AesAvx c q 0 seed n = Ok (final64 c seed 0, n)) by reflexivity.
    rewrite E. pose proof (E g 0 m0) as G. change 0 with (mlen []) in G at 2.
    rewrite (call_ok AesAvx g m0 0 [] seed S) in G; [|exact I|discriminate|exact K].
    change (final64 g seed 0) with (final64 cfg seed 0) in G. congruence.
  - assert (E : forall c q n, call AesAvx2 c q 0 seed n = Ok (final64 c seed 0, n)) by reflexivity.
    rewrite E. pose proof (E g 0 m0) as G. change 0 with (mlen []) in G at 2.
    rewrite (call_ok AesAvx2 g m0 0 [] seed S) in G; [|exact I|split; [now right|discriminate]|exact K].
    change (final64 g seed 0) with (final64 cfg seed 0) in G. congruence.
Qed.

(** t1ha2_atonce128 on an empty key only writes its extra result *)
Lemma atonce128_empty : forall cfg m x p seed,
  mapped m x 8 -> x mod alignment cfg 8 = 0 ->
  t1ha2_atonce128 cfg x p 0 seed m
  = Ok (fst (t1ha2_128 [] seed),
        write m x (if big_endian cfg then be_bytes 8 (snd (t1ha2_128 [] seed))
                   else le_bytes 8 (snd (t1ha2_128 [] seed)))).
Proof.
  intros cfg m x p seed MX AX. unfold t1ha2_atonce128.
  replace (overlap x 8 p 0) with false by (unfold overlap; lia).
  change (32 <? 0) with false. cbn iota. rewrite bind_ret. cbn iota beta.
  rewrite init_eq.
  rewrite (bind_ok _ _ _ _ _ (emb (start seed 0), finish128 (start seed 0)) m).
  2:{ assert (T : T1HA2_TAIL_ABCD cfg (fetch64_le cfg (use_unaligned64 cfg p))
                    (tail64_le cfg (use_unaligned64 cfg p)) (emb (start seed 0)) p 0 m
                  = Ok (emb (start seed 0), final128 cfg (qa (start seed 0)) (qb (start seed 0))
                                             (qc (start seed 0)) (qd (start seed 0)), m)) by reflexivity.
      rewrite T. do 3 f_equal. apply final128_eq. }
  rewrite (bind_ok _ _ _ _ _ tt (write m x (if big_endian cfg then be_bytes 8 (snd (t1ha2_128 [] seed))
                   else le_bytes 8 (snd (t1ha2_128 [] seed))))); [reflexivity|].
  apply write_aligned_ok; [|exact MX]. now intros _.
Qed.

(** ** Results are 64-bit numbers *)
Lemma hi_lt : forall x p, p < 2 ^ 64 -> hi x p < 2 ^ 64.
Proof.
  intros x p P. unfold hi. apply N.div_lt_upper_bound; [discriminate|].
  pose proof (N.mod_lt x (2 ^ 64) ltac:(discriminate)) as M.
  set (K := 2 ^ 64) in *. set (y := x mod K) in *. clearbody y. assert (0 < K) by reflexivity. nia.
Qed.
Lemma lo_lt : forall x p, lo x p < 2 ^ 64.
Proof. intros. apply N.mod_lt. discriminate. Qed.
Lemma fold_xor_lt : forall x p, p < 2 ^ 64 -> fold_xor x p < 2 ^ 64.
Proof. intros. apply lxor_lt; [apply lo_lt|now apply hi_lt]. Qed.
Lemma add_lt64 : forall x y, add x y < 2 ^ 64.
Proof. intros. apply N.mod_lt. discriminate. Qed.
Lemma mulw_lt64 : forall x y, mulw x y < 2 ^ 64.
Proof. intros. apply N.mod_lt. discriminate. Qed.

Lemma value_lt : forall f msg seed, value f msg seed < 2 ^ 64.
Proof.
  assert (F2 : forall ab, finish64 ab < 2 ^ 64).
  { intros [a b]. apply fold_xor_lt. reflexivity. }
  assert (F1 : forall ab, t1ha1_finish ab < 2 ^ 64) by (intros [a b]; apply add_lt64).
  assert (F0 : forall ab, t1ha0_finish ab < 2 ^ 64) by (intros [a b]; apply mulw_lt64).
  intros [] msg seed; cbn [value]; unfold t1ha2_64, t1ha1_64, t1ha0_32, t1ha0_aes_a, t1ha0_aes_b, aes_finish;
    cbv zeta; (destruct (mlen msg <=? _); [now auto|]);
    repeat match goal with |- context [let '(_, _) := ?x in _] => destruct x end; auto.
Qed.

Lemma mix_lt : forall p v xy, fst xy < 2 ^ 64 -> fst (mix p v xy) < 2 ^ 64 /\ snd (mix p v xy) < 2 ^ 64.
Proof. intros p v xy H. split; [apply lxor_lt; [exact H|apply lo_lt]|apply add_lt64]. Qed.

Definition st64 (s : st4) : Prop := qa s < 2 ^ 64 /\ qb s < 2 ^ 64 /\ qc s < 2 ^ 64 /\ qd s < 2 ^ 64.

Lemma finish128_lt : forall s, st64 s -> fst (finish128 s) < 2 ^ 64 /\ snd (finish128 s) < 2 ^ 64.
Proof.
  intros [a b c d] (A & B & C & D). cbn [qa qb qc qd] in *. unfold finish128. cbn [qa qb qc qd].
  pose proof (mix_lt P0 (xor (rotr c 41) d) (a, b) A) as M1.
  destruct (mix P0 (xor (rotr c 41) d) (a, b)) as [a1 b1]. cbn [fst snd] in M1.
  pose proof (mix_lt P6 (xor (rotr d 23) a1) (b1, c) (proj2 M1)) as M2.
  destruct (mix P6 (xor (rotr d 23) a1) (b1, c)) as [b2 c2]. cbn [fst snd] in M2.
  pose proof (mix_lt P5 (xor (rotr a1 19) b2) (c2, d) (proj2 M2)) as M3.
  destruct (mix P5 (xor (rotr a1 19) b2) (c2, d)) as [c3 d3]. cbn [fst snd] in M3.
  pose proof (mix_lt P4 (xor (rotr b2 31) c3) (d3, a1) (proj2 M3)) as M4.
  destruct (mix P4 (xor (rotr b2 31) c3) (d3, a1)) as [d4 a4]. cbn [fst snd] in M4.
  cbn [fst snd]. split; [apply lxor_lt; tauto|apply add_lt64].
Qed.

Lemma tail_with_inv : forall (S : Type) (I : S -> Prop) steps words s,
  (forall f, In f steps -> forall v s, I s -> I (f v s)) -> I s -> I (tail_with steps words s).
Proof.
  intros S I steps words s H. unfold tail_with.
  set (l := combine (skipn (length steps - length words) steps) words).
  assert (L : forall fw, In fw l -> forall v s, I s -> I (fst fw v s)).
  { intros [f w] J. cbn [fst]. apply H. apply in_combine_l in J.
    revert J. generalize (length steps - length words)%nat. clear.
    intros n. revert steps. induction n as [|n IH]; intros [|x l] J; cbn [skipn] in J; auto.
    right. now apply IH. }
  clearbody l. revert s. induction l as [|fw l IH]; intros s Hs; [exact Hs|].
  cbn [fold_left]. apply IH; [intros; apply L; [now right|assumption]|]. apply L; [now left|exact Hs].
Qed.

Lemma tail_abcd_lt : forall l s, st64 s -> st64 (tail_abcd l s).
Proof.
  intros l s H. unfold tail_abcd. apply (tail_with_inv st4 st64); [|exact H].
  intros f F v [a b c d] (A & B & C & D). cbn [qa qb qc qd] in *.
  assert (M : forall p v xy, fst xy < 2 ^ 64 -> forall x y, mix p v xy = (x, y) -> x < 2 ^ 64 /\ y < 2 ^ 64).
  { intros p w xy X x y E. pose proof (mix_lt p w xy X) as Q. rewrite E in Q. exact Q. }
  unfold abcd_steps in F. cbn [In] in F. destruct F as [<-|[<-|[<-|[<-|[]]]]]; cbn [qa qb qc qd];
    match goal with |- context [let '(_, _) := mix ?p ?v ?xy in _] =>
      pose proof (M p v xy) as Q; destruct (mix p v xy) as [x y] end;
    cbn [fst] in Q; (destruct (Q ltac:(assumption) x y eq_refl));
    repeat split; cbn [qa qb qc qd]; assumption.
Qed.

Lemma absorb_lt : forall bs s, st64 s -> st64 (absorb_all s bs).
Proof.
  induction bs as [|b bs IH]; intros s H; [exact H|]. cbn [absorb_all fold_left]. apply IH.
  destruct H as (A & B & C & D). unfold absorb. repeat split; cbn [qa qb qc qd];
    (apply lxor_lt; [assumption|]); apply N.mod_lt; discriminate.
Qed.

Lemma start_lt : forall x y, x < 2 ^ 64 -> y < 2 ^ 64 -> st64 (start x y).
Proof. intros. unfold start. repeat split; cbn [qa qb qc qd]; auto; apply add_lt64. Qed.

Lemma t1ha2_128_lt : forall msg seed, seed < 2 ^ 64 -> mlen msg < 2 ^ 64 ->
  fst (t1ha2_128 msg seed) < 2 ^ 64 /\ snd (t1ha2_128 msg seed) < 2 ^ 64.
Proof.
  intros msg seed S L. unfold t1ha2_128. cbv zeta.
  destruct (mlen msg <=? 32); apply finish128_lt, tail_abcd_lt; [|apply absorb_lt]; now apply start_lt.
Qed.

Lemma stream64_lt : forall x y msg, t1ha2_stream64 x y msg < 2 ^ 64.
Proof.
  intros. unfold t1ha2_stream64.
  destruct (tail_ab (rest 32 (padded msg)) (squeeze (stream_state x y (padded msg)))) as [a b].
  apply fold_xor_lt. reflexivity.
Qed.

Lemma stream128_lt : forall x y msg, x < 2 ^ 64 -> y < 2 ^ 64 ->
  fst (t1ha2_stream128 x y msg) < 2 ^ 64 /\ snd (t1ha2_stream128 x y msg) < 2 ^ 64.
Proof.
  intros. unfold t1ha2_stream128, stream_state.
  apply finish128_lt, tail_abcd_lt, absorb_lt. now apply start_lt.
Qed.
