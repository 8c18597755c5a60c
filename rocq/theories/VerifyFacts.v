(** verify() of tests/test.c for any code that only reads and computes a function
    of the message and the seed. *)
From Coq Require Import ZArith NArith Arith List Bool Lia Strings.Byte.
From Coq Require Import ZifyN ZifyNat ZifyBool.
From Verif Require Import Bytes CSem Bits Spec CSemFacts OpsFacts KeyMem CtxMem StreamFacts OneShot RefVals Dispatch Selfcheck
  SelfcheckSpec SelfcheckFacts SelfcheckTrace Effects TestMain TestFacts PropTest.
Import ListNotations.
Local Open Scope N_scope.

(** [hash] computes [f] of the messages of at most 512 bytes in memories with [P] *)
Definition computes (cfg : config) (P : mem -> Prop) (hash : hash_code) (f : list byte -> N -> N) : Prop :=
  forall m p msg seed, P m -> bytes_at m p msg -> p + mlen msg < addr_space cfg -> mlen msg <= 512 -> seed < 2 ^ 64 ->
    hash p (mlen msg) seed m = Ok (f msg seed, m).

Lemma fill_does : forall l p m, mapped m p (length l) ->
  exists m', fill p l m = Ok (tt, m') /\ bytes_at m' p l /\ only m m' p (mlen l).
Proof.
  induction l as [|x l IH]; intros p m H.
  - exists m. split; [reflexivity|]. split; [apply bytes_at_nil|apply only_refl].
  - cbn [fill]. assert (M1 : mapped m p (length [x])) by (intros i Hi; apply H; cbn [length] in *; lia).
    rewrite (bind_ok _ _ _ _ _ _ _ (store_bytes_ok _ _ _ M1)).
    assert (O1 : only m (write m p [x]) p 1) by now apply only_write.
    destruct (IH (p + 1) (write m p [x])) as (m' & E & B & O).
    { eapply only_mapped; [exact O1|]. intros i Hi. replace (p + 1 + N.of_nat i) with (p + N.of_nat (S i)) by lia.
      apply H. cbn [length]. lia. }
    exists m'. split; [exact E|]. split.
    + apply bytes_at_cons. split; [|exact B]. destruct O as [O _]. rewrite O by lia.
      pose proof (write_bytes_at m p [x] 0%nat _ eq_refl) as W. now rewrite N.add_0_r in W.
    + apply only_trans with (write m p [x]); (eapply only_weaken; [eassumption|lia|unfold mlen; cbn [length]; lia]).
Qed.

Lemma bytes_at_part : forall m p l k n, bytes_at m p l -> bytes_at m (p + N.of_nat k) (firstn n (skipn k l)).
Proof.
  intros m p l k n H i b E. replace (p + N.of_nat k + N.of_nat i) with (p + N.of_nat (k + i)) by lia. apply H.
  assert (i < n)%nat.
  { destruct (Nat.lt_ge_cases i n); [assumption|]. rewrite (proj2 (nth_error_None _ _)) in E; [discriminate|].
    rewrite firstn_length. lia. }
  clear H. revert n i b E H0. induction k as [|k IH] in l |- *; intros n i b E L.
  - cbn [skipn] in E. rewrite <- E. revert l i L E. induction n as [|n IHn]; intros l i L E; [lia|].
    destruct l as [|x l]; [destruct i; discriminate|]. destruct i; [reflexivity|]. apply (IHn l i); [lia|exact E].
  - destruct l as [|x l]; [rewrite skipn_nil, firstn_nil in E; destruct i; discriminate|]. cbn [skipn] in E.
    cbn [Nat.add nth_error]. now apply (IH l n i).
Qed.

Lemma in_messages_lt : forall x s, In (x, s) messages -> s < 2 ^ 64.
Proof.
  assert (H : forallb (fun x => snd x <? 2 ^ 64) messages = true) by (vm_compute; reflexivity).
  intros x s I. rewrite forallb_forall in H. apply H in I. now apply N.ltb_lt in I.
Qed.

(** the probes are the messages *)
Definition probe_is (m : mem) (cfg : config) (q : N * N * N) (x : list byte * N) : Prop :=
  let '(d, l, s) := q in l = mlen (fst x) /\ s = snd x /\ bytes_at m d (fst x) /\ d + l < addr_space cfg.
Lemma short_probes_are : forall cfg m pattern, bytes_at m pattern t1ha_test_pattern -> pattern + 64 < addr_space cfg ->
  Forall2 (probe_is m cfg) (short_probes pattern) short_messages.
Proof.
  intros cfg m pattern H L. unfold short_probes, short_messages.
  assert (P0 : 0 < addr_space cfg) by (eapply N.le_lt_trans; [apply N.le_0_l|exact L]).
  apply Forall2_app; [|apply Forall2_app].
  - repeat constructor; cbn [fst snd]; try (apply bytes_at_nil); try exact P0; [exact H|exact L].
  - assert (F : forall i, In i (seq 1 63) -> probe_is m cfg (pattern, N.of_nat i, 2 ^ (N.of_nat i - 1)) (firstn i t1ha_test_pattern, 2 ^ (N.of_nat i - 1))).
    { intros i I. apply in_seq in I. split; [|split; [reflexivity|split]]; cbn [fst snd].
      - unfold mlen. rewrite firstn_length_le; [reflexivity|]. change (length t1ha_test_pattern) with 64%nat. lia.
      - pose proof (bytes_at_part m pattern t1ha_test_pattern 0 i H) as Q. now rewrite N.add_0_r in Q.
      - lia. }
    revert F. generalize (seq 1 63). induction l as [|a l IH]; intro F; [constructor|].
    cbn [map]. constructor; [apply F; now left|]. apply IH. intros i I. apply F. now right.
  - assert (F : forall i, In i (seq 1 7) -> probe_is m cfg (pattern + N.of_nat i, 64 - N.of_nat i, 2 ^ 64 - 2 ^ N.of_nat i)
        (skipn i t1ha_test_pattern, 2 ^ 64 - 2 ^ N.of_nat i)).
    { intros i I. apply in_seq in I. split; [|split; [reflexivity|split]]; cbn [fst snd].
      - unfold mlen. rewrite skipn_length. change (length t1ha_test_pattern) with 64%nat. lia.
      - rewrite <- (firstn_all (skipn i t1ha_test_pattern)). now apply bytes_at_part.
      - lia. }
    revert F. generalize (seq 1 7). induction l as [|a l IH]; intro F; [constructor|].
    cbn [map]. constructor; [apply F; now left|]. apply IH. intros i I. apply F. now right.
Qed.
Lemma long_probes_are : forall cfg m long, bytes_at m long pattern_long -> long + 512 < addr_space cfg ->
  Forall2 (probe_is m cfg) (long_probes long) long_messages.
Proof.
  intros cfg m long H L. unfold long_probes, long_messages.
  assert (F : forall i, In i (seq 0 8) -> probe_is m cfg (long + N.of_nat i, 128 + 17 * N.of_nat i, 2 ^ 64 - 2 ^ 7)
      (firstn (128 + 17 * i) (skipn i pattern_long), 2 ^ 64 - 2 ^ 7)).
  { intros i I. apply in_seq in I. split; [|split; [reflexivity|split]]; cbn [fst snd].
    - unfold mlen. rewrite firstn_length_le; [lia|]. rewrite skipn_length. unfold pattern_long.
      rewrite map_length, seq_length. lia.
    - now apply bytes_at_part.
    - lia. }
  revert F. generalize (seq 0 8). induction l as [|a l IH]; intro F; [constructor|].
  cbn [map]. constructor; [apply F; now left|]. apply IH. intros i I. apply F. now right.
Qed.

Lemma run_probes_computes : forall cfg P hash f m, computes cfg P hash f -> P m ->
  forall ps xs, Forall2 (probe_is m cfg) ps xs -> (forall x, In x xs -> mlen (fst x) <= 512 /\ snd x < 2 ^ 64) ->
  run_probes hash ps m = Ok (map (fun x => f (fst x) (snd x)) xs, m).
Proof.
  intros cfg P hash f m C PM ps xs F. induction F as [|[[d l] s] [msg seed] ps xs (E1 & E2 & B & L) F IH]; intro LT; [reflexivity|].
  cbn [fst snd] in *. subst l s. cbn [run_probes map fst snd].
  rewrite (bind_ok _ _ _ _ _ _ _ (C m d msg seed PM B L (proj1 (LT _ (or_introl eq_refl))) (proj2 (LT _ (or_introl eq_refl))))).
  rewrite (bind_ok _ _ _ _ _ _ _ (IH (fun x I => LT x (or_intror I)))). reflexivity.
Qed.

Theorem verify_computes : forall cfg P hash f pattern long refs rs m,
  (forall d l s, reader (hash d l s)) -> computes cfg P hash f ->
  (forall m m', only m m' long 512 -> P m -> P m') -> P m ->
  pattern + 64 < addr_space cfg -> long + 512 < addr_space cfg -> refs + 648 < addr_space cfg ->
  refs mod alignment cfg 8 = 0 -> apart long 512 refs 648 ->
  length rs = 81%nat -> (forall r, In r rs -> r < 2 ^ 64) -> refs_at cfg refs rs m ->
  bytes_at m pattern t1ha_test_pattern -> mapped m long 512 ->
  exists m', verify cfg pattern long hash refs m
             = Ok (if list_eq_dec N.eq_dec (map (fun x => f (fst x) (snd x)) messages) rs then false else true, m') /\
             only m m' long 512.
Proof.
  intros cfg P hash f pattern long refs rs m RD C PK PM L1 L2 L3 AL A1 R1 R2 R3 HP ML.
  assert (K : forall d l s m x m', refs_at cfg refs rs m -> hash d l s m = Ok (x, m') -> refs_at cfg refs rs m').
  { intros d l s m0 x m0' R E. apply RD in E. now subst. }
  rewrite (C42_probes cfg pattern long refs rs hash m L1 L2 L3 AL A1 R1 R2 R3 K).
  assert (LE : forallb (fun x : list byte * N => mlen (fst x) <=? 512) messages = true) by (vm_compute; reflexivity).
  assert (LT : forall x, In x messages -> mlen (fst x) <= 512 /\ snd x < 2 ^ 64).
  { intros [y s] I. split; [|exact (in_messages_lt _ _ I)].
    rewrite forallb_forall in LE. apply N.leb_le. exact (LE _ I). }
  assert (LT1 : forall x, In x short_messages -> mlen (fst x) <= 512 /\ snd x < 2 ^ 64) by (intros x I; apply LT; unfold messages; apply in_or_app; now left).
  assert (LT2 : forall x, In x long_messages -> mlen (fst x) <= 512 /\ snd x < 2 ^ 64) by (intros x I; apply LT; unfold messages; apply in_or_app; now right).
  rewrite (bind_ok _ _ _ _ _ _ _ (run_probes_computes cfg P hash f m C PM _ _ (short_probes_are cfg m pattern HP L1) LT1)).
  assert (LL : length pattern_long = 512%nat) by (unfold pattern_long; now rewrite map_length, seq_length).
  destruct (fill_does pattern_long long m) as (m' & E & B & O); [rewrite LL; exact ML|].
  assert (ML512 : mlen pattern_long = 512) by (unfold mlen; now rewrite LL). rewrite ML512 in O.
  rewrite (bind_ok _ _ _ _ _ _ _ E).
  rewrite (bind_ok _ _ _ _ _ _ _ (run_probes_computes cfg P hash f m' C (PK _ _ O PM) _ _ (long_probes_are cfg m' long B L2) LT2)).
  exists m'. split; [|exact O]. unfold ret. unfold messages. rewrite map_app. reflexivity.
Qed.
