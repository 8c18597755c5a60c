(** What the modelled functions can do to memory, whatever their arguments are:
    which bytes they may change, and that bytes they do not touch do not matter. *)
From Coq Require Import ZArith NArith Arith List Bool Lia Strings.Byte.
From Coq Require Import ZifyN ZifyNat ZifyBool.
From Verif Require Import Bytes CSem Bits T1ha2 T1ha1 T1ha0 Aes Ia32aes OneShot Dispatch Selfcheck CSemFacts CtxMem.
Import ListNotations.
Local Open Scope N_scope.

(** [n] has all of [m], and possibly more *)
Definition sub_mem (m n : mem) : Prop := forall q b, m q = Some b -> n q = Some b.

(** Running [x] with more memory: the same outcome unless it was a fault, and the
    additional bytes are left alone.  A fault names a byte that is not mapped.
    Nothing is mapped or unmapped. *)
Definition local {A} (x : M A) : Prop :=
  (forall m n, sub_mem m n ->
     match x m with
     | Ok (a, m') => exists n', x n = Ok (a, n') /\ sub_mem m' n' /\ forall q, m q = None -> n' q = n q
     | Fault _ => True
     | o => x n = o
     end) /\
  (forall m p, x m = Fault p -> m p = None) /\
  (forall m a m', x m = Ok (a, m') -> forall q, m' q = None <-> m q = None).

(** [x] never changes memory *)
Definition reader {A} (x : M A) : Prop := forall m a m', x m = Ok (a, m') -> m' = m.

(** [x] changes only bytes in [R] *)
Definition writes {A} (R : N -> Prop) (x : M A) : Prop :=
  forall m a m', x m = Ok (a, m') -> forall q, ~ R q -> m' q = m q.

(** ** The combinators *)
Lemma local_ret : forall A (a : A), local (ret a).
Proof.
  intros A a. split; [|split].
  - intros m n S. exists n. repeat split; exact S.
  - discriminate.
  - intros m b m' E q. injection E as _ <-. reflexivity.
Qed.

Lemma local_bind : forall A B (x : M A) (k : A -> M B),
  local x -> (forall a, local (k a)) -> local (bind x k).
Proof.
  intros A B x k (X1 & X2 & X3) K. split; [|split].
  - intros m n S. specialize (X1 m n S). unfold bind. destruct (x m) as [(a, m')|p|w| | |] eqn:E;
      try (now rewrite X1); [|exact I].
    destruct X1 as (n' & X & S' & F). rewrite X. destruct (K a) as (K1 & _ & _).
    specialize (K1 m' n' S'). destruct (k a m') as [(b, m2)|p|w| | |]; try assumption.
    destruct K1 as (n2 & K1 & S2 & F2). exists n2. split; [exact K1|]. split; [exact S2|].
    intros q Q. rewrite F2 by (apply (X3 _ _ _ E); exact Q). apply F, Q.
  - intros m p. unfold bind. destruct (x m) as [(a, m')|q|w| | |] eqn:E; try discriminate; intro H.
    + apply (X3 _ _ _ E). now apply (K a).
    + injection H as ->. now apply X2.
  - intros m b m2. unfold bind. destruct (x m) as [(a, m')|q|w| | |] eqn:E; try discriminate; intros H q.
    rewrite (proj2 (proj2 (K a)) _ _ _ H q). apply (X3 _ _ _ E).
Qed.

Lemma local_undef : forall A w, local (@undef A w).
Proof. intros. split; [|split]; try discriminate. reflexivity. Qed.
Lemma local_abort : forall A, local (@abort A).
Proof. intros. split; [|split]; try discriminate. reflexivity. Qed.
Lemma local_nobuild : forall A, local (@nobuild A).
Proof. intros. split; [|split]; try discriminate. reflexivity. Qed.
Lemma local_stuck : forall A, local (@stuck A).
Proof. intros. split; [|split]; try discriminate. reflexivity. Qed.

Lemma local_load8 : forall p, local (load8 p).
Proof.
  intro p. unfold load8. split; [|split].
  - intros m n S. destruct (m p) as [b|] eqn:E; [|exact I]. exists n. rewrite (S _ _ E). repeat split; exact S.
  - intros m q. destruct (m p) eqn:E; [discriminate|]. intro H. now injection H as <-.
  - intros m a m'. destruct (m p) eqn:E; [|discriminate]. intros H q. injection H as _ <-. reflexivity.
Qed.

Lemma reader_ret : forall A (a : A), reader (ret a).
Proof. intros A a m b m' E. now injection E as _ <-. Qed.
Lemma reader_bind : forall A B (x : M A) (k : A -> M B),
  reader x -> (forall a, reader (k a)) -> reader (bind x k).
Proof.
  intros A B x k X K m b m2. unfold bind. destruct (x m) as [(a, m')| | | | |] eqn:E; try discriminate.
  intro H. apply K in H. apply X in E. congruence.
Qed.
Lemma reader_undef : forall A w, reader (@undef A w).
Proof. discriminate. Qed.
Lemma reader_abort : forall A, reader (@abort A).
Proof. discriminate. Qed.
Lemma reader_nobuild : forall A, reader (@nobuild A).
Proof. discriminate. Qed.
Lemma reader_stuck : forall A, reader (@stuck A).
Proof. discriminate. Qed.
Lemma reader_load8 : forall p, reader (load8 p).
Proof. intros p m a m'. unfold load8. destruct (m p); [|discriminate]. intro E. now injection E as _ <-. Qed.

(** both at once: what holds of all code that only reads *)
Definition tame {A} (x : M A) : Prop := local x /\ reader x.

Lemma tame_ret : forall A (a : A), tame (ret a).
Proof. split; [apply local_ret|apply reader_ret]. Qed.
Lemma tame_bind : forall A B (x : M A) (k : A -> M B),
  tame x -> (forall a, tame (k a)) -> tame (bind x k).
Proof.
  intros A B x k (L & R) K. split; [apply local_bind|apply reader_bind]; auto; intro a; apply K.
Qed.
Lemma tame_undef : forall A w, tame (@undef A w).
Proof. split; [apply local_undef|apply reader_undef]. Qed.
Lemma tame_abort : forall A, tame (@abort A).
Proof. split; [apply local_abort|apply reader_abort]. Qed.
Lemma tame_nobuild : forall A, tame (@nobuild A).
Proof. split; [apply local_nobuild|apply reader_nobuild]. Qed.
Lemma tame_stuck : forall A, tame (@stuck A).
Proof. split; [apply local_stuck|apply reader_stuck]. Qed.
Lemma tame_load8 : forall p, tame (load8 p).
Proof. split; [apply local_load8|apply reader_load8]. Qed.

Create HintDb tame.
#[export] Hint Resolve tame_ret tame_undef tame_abort tame_nobuild tame_stuck tame_load8 : tame.

(** take a program apart: sequences, decisions, tuples *)
Ltac tame :=
  repeat first
    [ progress intros
    | solve [auto with tame]
    | apply tame_bind
    | match goal with
      | |- tame (if ?c then _ else _) => destruct c
      | |- tame ((if ?c then _ else _) _) => destruct c
      | |- tame ((if ?c then _ else _) _ _) => destruct c
      | |- tame (match ?x with _ => _ end) => destruct x
      end ].

Lemma tame_load_bytes : forall n p, tame (load_bytes n p).
Proof. induction n as [|n IH]; intro p; cbn [load_bytes]; tame. Qed.
Lemma tame_check_mapped : forall n p, tame (check_mapped n p).
Proof. induction n as [|n IH]; intro p; cbn [check_mapped]; tame. Qed.
Lemma tame_assert : forall cfg c, tame (assert_ cfg c).
Proof. intros. unfold assert_. tame. Qed.
#[export] Hint Resolve tame_load_bytes tame_check_mapped tame_assert : tame.
Lemma tame_load_uint : forall cfg n p, tame (load_uint cfg n p).
Proof. intros. unfold load_uint. tame. Qed.
Lemma tame_do_while : forall S fuel (body : S -> M S) cond s,
  (forall s, tame (body s)) -> tame (do_while fuel body cond s).
Proof. intros S fuel body cond s B. revert s. induction fuel as [|f IH]; intro s; cbn [do_while]; tame. Qed.
Lemma tame_while : forall S fuel (body : S -> M S) cond s,
  (forall s, tame (body s)) -> tame (while_ fuel body cond s).
Proof. intros S fuel body cond s B. revert s. induction fuel as [|f IH]; intro s; cbn [while_]; tame. Qed.
Lemma tame_when : forall S c (f : S -> M S) s, (forall s, tame (f s)) -> tame (when c f s).
Proof. intros. unfold when. tame. Qed.
Lemma tame_switch : forall A n (cases : list (N * M A)), Forall (fun x => tame (snd x)) cases -> tame (switch_ n cases).
Proof.
  intros A n cases F. induction F as [|(k, x) l X _ IH]; cbn [switch_]; [auto with tame|].
  destruct (n =? k); assumption.
Qed.
#[export] Hint Resolve tame_load_uint : tame.

(** ** The functions that only read *)
Lemma tame_read_unaligned : forall cfg n p, tame (read_unaligned cfg n p).
Proof. intros. unfold read_unaligned. tame. Qed.
Lemma tame_read_aligned : forall cfg n p, tame (read_aligned cfg n p).
Proof. intros. unfold read_aligned. tame. Qed.
#[export] Hint Resolve tame_read_unaligned tame_read_aligned : tame.

Lemma tame_fetch16_le_aligned : forall cfg p, tame (fetch16_le_aligned cfg p).
Proof. intros. unfold fetch16_le_aligned. tame. Qed.
#[export] Hint Resolve tame_fetch16_le_aligned : tame.
Lemma tame_fetch16_le_unaligned : forall cfg p, tame (fetch16_le_unaligned cfg p).
Proof. intros. unfold fetch16_le_unaligned. tame. Qed.
#[export] Hint Resolve tame_fetch16_le_unaligned : tame.
Lemma tame_fetch32_le_aligned : forall cfg p, tame (fetch32_le_aligned cfg p).
Proof. intros. unfold fetch32_le_aligned. tame. Qed.
#[export] Hint Resolve tame_fetch32_le_aligned : tame.
Lemma tame_fetch32_le_unaligned : forall cfg p, tame (fetch32_le_unaligned cfg p).
Proof. intros. unfold fetch32_le_unaligned. tame. Qed.
#[export] Hint Resolve tame_fetch32_le_unaligned : tame.
Lemma tame_fetch64_le_aligned : forall cfg p, tame (fetch64_le_aligned cfg p).
Proof. intros. unfold fetch64_le_aligned. tame. Qed.
#[export] Hint Resolve tame_fetch64_le_aligned : tame.
Lemma tame_fetch64_le_unaligned : forall cfg p, tame (fetch64_le_unaligned cfg p).
Proof. intros. unfold fetch64_le_unaligned. tame. Qed.
#[export] Hint Resolve tame_fetch64_le_unaligned : tame.
Lemma tame_fetch16_be_aligned : forall cfg p, tame (fetch16_be_aligned cfg p).
Proof. intros. unfold fetch16_be_aligned. tame. Qed.
#[export] Hint Resolve tame_fetch16_be_aligned : tame.
Lemma tame_fetch16_be_unaligned : forall cfg p, tame (fetch16_be_unaligned cfg p).
Proof. intros. unfold fetch16_be_unaligned. tame. Qed.
#[export] Hint Resolve tame_fetch16_be_unaligned : tame.
Lemma tame_fetch32_be_aligned : forall cfg p, tame (fetch32_be_aligned cfg p).
Proof. intros. unfold fetch32_be_aligned. tame. Qed.
#[export] Hint Resolve tame_fetch32_be_aligned : tame.
Lemma tame_fetch32_be_unaligned : forall cfg p, tame (fetch32_be_unaligned cfg p).
Proof. intros. unfold fetch32_be_unaligned. tame. Qed.
#[export] Hint Resolve tame_fetch32_be_unaligned : tame.
Lemma tame_fetch64_be_aligned : forall cfg p, tame (fetch64_be_aligned cfg p).
Proof. intros. unfold fetch64_be_aligned. tame. Qed.
#[export] Hint Resolve tame_fetch64_be_aligned : tame.
Lemma tame_fetch64_be_unaligned : forall cfg p, tame (fetch64_be_unaligned cfg p).
Proof. intros. unfold fetch64_be_unaligned. tame. Qed.
#[export] Hint Resolve tame_fetch64_be_unaligned : tame.

Ltac tame_cases := apply tame_switch; repeat (apply Forall_cons; [cbn [snd]; tame|]); try apply Forall_nil.

Lemma tame_or_bytes : forall cfg acc p k shift, tame (or_bytes cfg acc p k shift).
Proof. intros cfg acc p k. revert acc. induction k as [|k IH]; intros; cbn [or_bytes]; tame. Qed.
#[export] Hint Resolve tame_or_bytes : tame.
Lemma tame_tail64_le_bytes : forall cfg p tail, tame (tail64_le_bytes cfg p tail).
Proof. intros. unfold tail64_le_bytes. tame_cases. Qed.
Lemma tame_tail64_be_bytes : forall cfg p tail, tame (tail64_be_bytes cfg p tail).
Proof. intros. unfold tail64_be_bytes. tame_cases. Qed.
Lemma tame_tail32_le_bytes : forall cfg p tail, tame (tail32_le_bytes cfg p tail).
Proof. intros. unfold tail32_le_bytes. tame_cases. Qed.
Lemma tame_tail32_be_bytes : forall cfg p tail, tame (tail32_be_bytes cfg p tail).
Proof. intros. unfold tail32_be_bytes. tame_cases. Qed.
Lemma tame_tail64_le_words : forall cfg f16 f32 f64 p tail, (forall p, tame (f16 p)) -> (forall p, tame (f32 p)) -> (forall p, tame (f64 p)) ->
  tame (tail64_le_words cfg f16 f32 f64 p tail).
Proof. intros. unfold tail64_le_words. tame_cases. Qed.
Lemma tame_tail64_be_words : forall cfg f16 f32 f64 c4 p tail, (forall p, tame (f16 p)) -> (forall p, tame (f32 p)) -> (forall p, tame (f64 p)) -> tame c4 ->
  tame (tail64_be_words cfg f16 f32 f64 c4 p tail).
Proof. intros. unfold tail64_be_words. tame_cases. Qed.
Lemma tame_tail32_le_words : forall cfg f16 f32 p tail, (forall p, tame (f16 p)) -> (forall p, tame (f32 p)) ->
  tame (tail32_le_words cfg f16 f32 p tail).
Proof. intros. unfold tail32_le_words. tame_cases. Qed.
Lemma tame_tail32_be_words : forall cfg f16 f32 p tail, (forall p, tame (f16 p)) -> (forall p, tame (f32 p)) ->
  tame (tail32_be_words cfg f16 f32 p tail).
Proof. intros. unfold tail32_be_words. tame_cases. Qed.
#[export] Hint Resolve tame_tail64_le_bytes tame_tail64_be_bytes tame_tail32_le_bytes tame_tail32_be_bytes
  tame_tail64_le_words tame_tail64_be_words tame_tail32_le_words tame_tail32_be_words : tame.
Lemma tame_tail64_le_aligned : forall cfg p tail, tame (tail64_le_aligned cfg p tail).
Proof. intros. unfold tail64_le_aligned. tame. Qed.
#[export] Hint Resolve tame_tail64_le_aligned : tame.
Lemma tame_tail64_le_unaligned : forall cfg p tail, tame (tail64_le_unaligned cfg p tail).
Proof. intros. unfold tail64_le_unaligned. tame. Qed.
#[export] Hint Resolve tame_tail64_le_unaligned : tame.
Lemma tame_tail64_be_aligned : forall cfg p tail, tame (tail64_be_aligned cfg p tail).
Proof. intros. unfold tail64_be_aligned. tame. Qed.
#[export] Hint Resolve tame_tail64_be_aligned : tame.
Lemma tame_tail64_be_unaligned : forall cfg p tail, tame (tail64_be_unaligned cfg p tail).
Proof. intros. unfold tail64_be_unaligned. tame. Qed.
#[export] Hint Resolve tame_tail64_be_unaligned : tame.
Lemma tame_tail32_le_aligned : forall cfg p tail, tame (tail32_le_aligned cfg p tail).
Proof. intros. unfold tail32_le_aligned. tame. Qed.
#[export] Hint Resolve tame_tail32_le_aligned : tame.
Lemma tame_tail32_le_unaligned : forall cfg p tail, tame (tail32_le_unaligned cfg p tail).
Proof. intros. unfold tail32_le_unaligned. tame. Qed.
#[export] Hint Resolve tame_tail32_le_unaligned : tame.
Lemma tame_tail32_be_aligned : forall cfg p tail, tame (tail32_be_aligned cfg p tail).
Proof. intros. unfold tail32_be_aligned. tame. Qed.
#[export] Hint Resolve tame_tail32_be_aligned : tame.
Lemma tame_tail32_be_unaligned : forall cfg p tail, tame (tail32_be_unaligned cfg p tail).
Proof. intros. unfold tail32_be_unaligned. tame. Qed.
#[export] Hint Resolve tame_tail32_be_unaligned : tame.

Lemma tame_T1HA2_UPDATE : forall cfg fetch s v, (forall p, tame (fetch p)) -> tame (T1HA2_UPDATE cfg fetch s v).
Proof. intros. unfold T1HA2_UPDATE. tame. Qed.
Lemma tame_T1HA1_STEP : forall cfg fetch s v, (forall p, tame (fetch p)) -> tame (T1HA1_STEP cfg fetch s v).
Proof. intros. unfold T1HA1_STEP. tame. Qed.
Lemma tame_T1HA0_STEP : forall cfg fetch s v, (forall p, tame (fetch p)) -> tame (T1HA0_STEP cfg fetch s v).
Proof. intros. unfold T1HA0_STEP. tame. Qed.
#[export] Hint Resolve tame_T1HA2_UPDATE tame_T1HA1_STEP tame_T1HA0_STEP : tame.
Lemma tame_T1HA2_LOOP : forall cfg fetch s data len, (forall p, tame (fetch p)) -> tame (T1HA2_LOOP cfg fetch s data len).
Proof. intros. unfold T1HA2_LOOP. apply tame_do_while. tame. Qed.
#[export] Hint Resolve tame_T1HA2_LOOP : tame.

Ltac tame_steps := repeat (first [apply tame_when | apply tame_do_while | apply tame_while | progress tame]).

Lemma tame_T1HA2_TAIL_AB : forall cfg fetch tail s data len,
  (forall p, tame (fetch p)) -> (forall p n, tame (tail p n)) -> tame (T1HA2_TAIL_AB cfg fetch tail s data len).
Proof. intros. unfold T1HA2_TAIL_AB. tame_steps. Qed.
Lemma tame_T1HA2_TAIL_ABCD : forall cfg fetch tail s data len,
  (forall p, tame (fetch p)) -> (forall p n, tame (tail p n)) -> tame (T1HA2_TAIL_ABCD cfg fetch tail s data len).
Proof. intros. unfold T1HA2_TAIL_ABCD. tame_steps. Qed.
Lemma tame_T1HA1_BODY : forall cfg fetch tail a b data len seed,
  (forall p, tame (fetch p)) -> (forall p n, tame (tail p n)) -> tame (T1HA1_BODY cfg fetch tail a b data len seed).
Proof. intros. unfold T1HA1_BODY. tame_steps. Qed.
Lemma tame_T1HA0_BODY : forall cfg fetch tail a b data len,
  (forall p, tame (fetch p)) -> (forall p n, tame (tail p n)) -> tame (T1HA0_BODY cfg fetch tail a b data len).
Proof. intros. unfold T1HA0_BODY. tame_steps. Qed.
Lemma tame_fetch64_le : forall cfg un p, tame (fetch64_le cfg un p).
Proof. intros. unfold fetch64_le. tame. Qed.
Lemma tame_tail64_le : forall cfg un p n, tame (tail64_le cfg un p n).
Proof. intros. unfold tail64_le. tame. Qed.
#[export] Hint Resolve tame_T1HA2_TAIL_AB tame_T1HA2_TAIL_ABCD tame_T1HA1_BODY tame_T1HA0_BODY
  tame_fetch64_le tame_tail64_le : tame.
Lemma tame_loadu : forall p, tame (loadu p).
Proof. intros. unfold loadu. tame. Qed.
#[export] Hint Resolve tame_loadu : tame.
Lemma tame_aes_pair : forall cfg s, tame (aes_pair cfg s).
Proof. intros. unfold aes_pair. tame. Qed.
Lemma tame_aes_a_block : forall cfg s, tame (aes_a_block cfg s).
Proof. intros. unfold aes_a_block. tame. Qed.
Lemma tame_aes_b_block : forall cfg s, tame (aes_b_block cfg s).
Proof. intros. unfold aes_b_block. tame. Qed.
Lemma tame_aes_tail : forall cfg a b data len, tame (aes_tail cfg a b data len).
Proof. intros. unfold aes_tail. tame_steps. Qed.
#[export] Hint Resolve tame_aes_pair tame_aes_a_block tame_aes_b_block tame_aes_tail : tame.

(** All one-shot functions, with any arguments. *)
Lemma tame_call : forall f cfg data len seed, tame (call f cfg data len seed).
Proof.
  intros. destruct f; cbn [call];
    unfold t1ha2_atonce, t1ha1_le, t1ha1_be, t1ha0_32le, t1ha0_32be, t1ha0_ia32aes_noavx, t1ha0_ia32aes_avx,
      t1ha0_ia32aes_a, t1ha0_ia32aes_avx2; tame_steps.
Qed.

(** ** The functions that also write *)
Lemma tame_local : forall A (x : M A), tame x -> local x.
Proof. intros A x H. apply H. Qed.

Lemma check_mapped_all : forall n p m m', check_mapped n p m = Ok (tt, m') -> mapped m p n.
Proof.
  induction n as [|n IH]; intros p m m' E i I; [lia|]. cbn [check_mapped] in E. unfold bind, load8 in E.
  destruct (m p) as [b|] eqn:B; [|discriminate]. destruct i as [|i].
  - replace (p + N.of_nat 0) with p by lia. congruence.
  - replace (p + N.of_nat (S i)) with (p + 1 + N.of_nat i) by lia. apply (IH _ _ _ E). lia.
Qed.

Lemma local_store_bytes : forall p l, local (store_bytes p l).
Proof.
  intros p l. pose proof (tame_check_mapped (length l) p) as ((C1 & C2 & _) & CR). unfold store_bytes.
  split; [|split].
  - intros m n S. specialize (C1 m n S). unfold bind.
    destruct (check_mapped (length l) p m) as [([], m')| | | | |] eqn:E; try (now rewrite C1); [|exact I].
    destruct C1 as (n' & C1 & _). rewrite C1. pose proof (CR _ _ _ E) as ->. pose proof (CR _ _ _ C1) as ->.
    pose proof (check_mapped_all _ _ _ _ E) as MP.
    exists (write n p l). split; [reflexivity|]. split.
    + intros q b. unfold write. destruct ((p <=? q) && (q <? p + N.of_nat (length l))); auto.
    + intros q Q. apply write_out. destruct (N.lt_ge_cases q p) as [|L]; [now left|right].
      destruct (N.lt_ge_cases q (p + N.of_nat (length l))) as [H|]; [|assumption].
      exfalso. apply (MP (N.to_nat (q - p))); [lia|]. now replace (p + N.of_nat (N.to_nat (q - p))) with q by lia.
  - intros m q. unfold bind. destruct (check_mapped (length l) p m) as [([], m')| | | | |] eqn:E; try discriminate.
    intro H. injection H as ->. now apply C2.
  - intros m a m2. unfold bind. destruct (check_mapped (length l) p m) as [([], m')| | | | |] eqn:E; try discriminate.
    intros H q. injection H as _ <-. pose proof (CR _ _ _ E) as ->.
    pose proof (check_mapped_all _ _ _ _ E) as MP. unfold write.
    destruct ((p <=? q) && (q <? p + N.of_nat (length l))) eqn:D; [|reflexivity].
    split; intro X; exfalso.
    + apply nth_error_None in X. lia.
    + apply (MP (N.to_nat (q - p))); [lia|]. now replace (p + N.of_nat (N.to_nat (q - p))) with q by lia.
Qed.

Create HintDb local.
#[export] Hint Resolve tame_local local_store_bytes : local.
Ltac local :=
  repeat first
    [ progress intros
    | solve [auto with local tame]
    | apply local_bind
    | match goal with
      | |- local (if ?c then _ else _) => destruct c
      | |- local (match ?x with _ => _ end) => destruct x
      end ].

Lemma local_write_aligned : forall cfg n p v, local (write_aligned cfg n p v).
Proof. intros. unfold write_aligned, store_uint. local. Qed.
Lemma local_memcpy : forall cfg d s n, local (memcpy cfg d s n).
Proof. intros. unfold memcpy. local. Qed.
#[export] Hint Resolve local_write_aligned local_memcpy : local.
Lemma tame_load_state : forall cfg c, tame (load_state cfg c).
Proof. intros. unfold load_state. tame. Qed.
Lemma local_store_state : forall cfg c s, local (store_state cfg c s).
Proof. intros. unfold store_state. local. Qed.
#[export] Hint Resolve tame_load_state : tame.
#[export] Hint Resolve local_store_state : local.

Lemma local_atonce128 : forall cfg x data len seed, local (t1ha2_atonce128 cfg x data len seed).
Proof. intros. unfold t1ha2_atonce128. local. Qed.
Lemma local_init : forall cfg c x y, local (t1ha2_init cfg c x y).
Proof. intros. unfold t1ha2_init, store_partial, store_total. local. Qed.
Lemma local_update : forall cfg c data len, local (t1ha2_update cfg c data len).
Proof. intros. unfold t1ha2_update, store_partial, store_total, load_partial, load_total. local. Qed.
#[export] Hint Resolve local_init local_update local_atonce128 : local.
Lemma local_final : forall cfg bits c extra, local (t1ha2_final cfg bits c extra).
Proof. intros. unfold t1ha2_final, load_partial, load_total. local. Qed.
#[export] Hint Resolve local_final : local.

(** ** Where they write *)
Definition span (p n : N) (q : N) : Prop := p <= q < p + n.

Lemma writes_reader : forall A R (x : M A), reader x -> writes R x.
Proof. intros A R x H m a m' E q _. now rewrite (H _ _ _ E). Qed.
Lemma writes_tame : forall A R (x : M A), tame x -> writes R x.
Proof. intros A R x H. now apply writes_reader, H. Qed.
Lemma writes_bind : forall A B R (x : M A) (k : A -> M B),
  writes R x -> (forall a, writes R (k a)) -> writes R (bind x k).
Proof.
  intros A B R x k X K m b m2. unfold bind. destruct (x m) as [(a, m')| | | | |] eqn:E; try discriminate.
  intros H q Q. rewrite (K a _ _ _ H q Q). now apply (X _ _ _ E).
Qed.
Lemma writes_weaken : forall A (R R' : N -> Prop) (x : M A), (forall q, R q -> R' q) -> writes R x -> writes R' x.
Proof. intros A R R' x H X m a m' E q Q. apply (X _ _ _ E). auto. Qed.
Lemma writes_store_bytes : forall p l, writes (span p (N.of_nat (length l))) (store_bytes p l).
Proof.
  intros p l m a m'. unfold store_bytes, bind.
  destruct (check_mapped (length l) p m) as [([], m1)| | | | |] eqn:E; try discriminate.
  intros H q Q. injection H as _ <-. rewrite (proj2 (tame_check_mapped _ _) _ _ _ E).
  apply write_out. unfold span in Q. lia.
Qed.
Lemma native_len : forall (cfg : config) n v, length (if big_endian cfg then be_bytes n v else le_bytes n v) = n.
Proof. intros. destruct (big_endian cfg); [apply be_bytes_length|apply le_bytes_length]. Qed.
Lemma writes_aligned : forall cfg n p v, writes (span p (N.of_nat n)) (write_aligned cfg n p v).
Proof.
  intros. unfold write_aligned, store_uint.
  assert (S : writes (span p (N.of_nat n)) (store_bytes p (if big_endian cfg then be_bytes n v else le_bytes n v))).
  { rewrite <- (native_len cfg n v) at 1. apply writes_store_bytes. }
  destruct (ia32 cfg || is_efficient cfg); [exact S|].
  destruct (p mod alignment cfg n =? 0); [exact S|apply writes_tame; auto with tame].
Qed.
Lemma load_bytes_len : forall n p m l m', load_bytes n p m = Ok (l, m') -> length l = n.
Proof.
  induction n as [|n IH]; intros p m l m' E; cbn [load_bytes] in E; [now injection E as <- _|].
  unfold bind, load8 in E. destruct (m p); [|discriminate].
  destruct (load_bytes n (p + 1) m) as [(r, m1)| | | | |] eqn:L; try discriminate.
  injection E as <- _. cbn [length]. f_equal. now apply (IH _ _ _ _ L).
Qed.
Lemma writes_memcpy : forall cfg d s n, writes (span d n) (memcpy cfg d s n).
Proof.
  intros cfg d s n. unfold memcpy. destruct ((d =? 0) || (s =? 0)); [apply writes_tame; auto with tame|].
  destruct ((s <? d + n) && (d <? s + n) && negb (n =? 0)); [apply writes_tame; auto with tame|].
  intros m a m'. unfold bind. destruct (load_bytes (N.to_nat n) s m) as [(l, m1)| | | | |] eqn:E; try discriminate.
  intros H q Q. rewrite (writes_store_bytes _ _ _ _ _ H).
  - now rewrite (proj2 (tame_load_bytes _ _) _ _ _ E).
  - rewrite (load_bytes_len _ _ _ _ _ E). unfold span in *. lia.
Qed.

(** atonce128 writes the eight bytes of the result *)
Lemma writes_atonce128 : forall cfg x data len seed, writes (span x 8) (t1ha2_atonce128 cfg x data len seed).
Proof.
  intros. unfold t1ha2_atonce128. destruct (overlap x 8 data len); [apply writes_tame; auto with tame|].
  apply writes_bind; [apply writes_tame; tame|]. intros ((s, d), l). cbv beta iota zeta.
  apply writes_bind; [apply writes_tame; tame|]. intro y.
  apply writes_bind; [apply (writes_aligned cfg 8)|]. intro. apply writes_tame; auto with tame.
Qed.

Section Context.
  Variables (cfg : config) (c : N).
  Hypothesis LO : layout_ok cfg.
  Hypothesis RM : c + sizeof_ctx cfg <= addr_space cfg.

  Lemma layout_sizes : 64 + N.of_nat (sizeof_ptr cfg) <= off_total cfg /\ off_total cfg <= 72 /\ sizeof_ctx cfg = off_total cfg + 8.
  Proof.
    unfold sizeof_ctx, sizeof_ptr. destruct LO as [->|(-> & -> & _)]; [|lia]. destruct (ptr64 cfg); lia.
  Qed.

  Lemma in_ctx : forall i, i < sizeof_ctx cfg -> padd cfg c i = c + i.
  Proof. intros i I. unfold padd. apply N.mod_small. lia. Qed.

  Lemma writes_field : forall n i v, i + N.of_nat n <= sizeof_ctx cfg -> n <> 0%nat ->
    writes (span c (sizeof_ctx cfg)) (write_aligned cfg n (padd cfg c i) v).
  Proof.
    intros n i v I Z. rewrite in_ctx by lia. eapply writes_weaken; [|apply writes_aligned].
    intro q. unfold span. lia.
  Qed.

  Lemma ptr_nonzero : sizeof_ptr cfg <> 0%nat.
  Proof. unfold sizeof_ptr. destruct (ptr64 cfg); discriminate. Qed.

  Lemma writes_store_state : forall s, writes (span c (sizeof_ctx cfg)) (store_state cfg c s).
  Proof.
    intro s. pose proof layout_sizes. unfold store_state.
    repeat (apply writes_bind; [apply writes_field; [lia|discriminate]|intro]). apply writes_field; [lia|discriminate].
  Qed.
  Lemma writes_store_partial : forall v, writes (span c (sizeof_ctx cfg)) (store_partial cfg c v).
  Proof. intro v. pose proof layout_sizes. apply writes_field; [lia|apply ptr_nonzero]. Qed.
  Lemma writes_store_total : forall v, writes (span c (sizeof_ctx cfg)) (store_total cfg c v).
  Proof. intro v. pose proof layout_sizes. apply writes_field; [lia|discriminate]. Qed.

  (** t1ha2_init writes into the context only *)
  Lemma writes_init : forall x y, writes (span c (sizeof_ctx cfg)) (t1ha2_init cfg c x y).
  Proof.
    intros. unfold t1ha2_init. apply writes_bind; [apply writes_store_state|intro].
    apply writes_bind; [apply writes_store_partial|intro]. apply writes_store_total.
  Qed.

  Lemma writes_buffer : forall k s n, k + n <= 32 ->
    writes (span c (sizeof_ctx cfg)) (memcpy cfg (padd cfg (buffer cfg c) k) s n).
  Proof.
    intros k s n K. pose proof layout_sizes. unfold buffer. rewrite in_ctx by lia.
    replace (padd cfg (c + 32) k) with (c + 32 + k) by (unfold padd; symmetry; apply N.mod_small; lia).
    eapply writes_weaken; [|apply writes_memcpy]. intro q. unfold span. lia.
  Qed.

  Lemma writes_buffer_start : forall s n, n <= 32 ->
    writes (span c (sizeof_ctx cfg)) (memcpy cfg (buffer cfg c) s n).
  Proof.
    intros s n K. pose proof layout_sizes. unfold buffer. rewrite in_ctx by lia.
    eapply writes_weaken; [|apply writes_memcpy]. intro q. unfold span. lia.
  Qed.

  (** a field is read as before after a change elsewhere *)
  Lemma load_bytes_same : forall n p m m', (forall q, span p (N.of_nat n) q -> m' q = m q) ->
    forall l, load_bytes n p m = Ok (l, m) -> load_bytes n p m' = Ok (l, m').
  Proof.
    induction n as [|n IH]; intros p m m' S l E; cbn [load_bytes] in *; [now injection E as <-|].
    unfold bind, load8 in *. rewrite S by (unfold span; lia). destruct (m p) as [b|]; [|discriminate].
    destruct (load_bytes n (p + 1) m) as [(r, m1)| | | | |] eqn:L; try discriminate.
    pose proof (proj2 (tame_load_bytes _ _) _ _ _ L) as ->.
    assert (S' : forall q, span (p + 1) (N.of_nat n) q -> m' q = m q) by (intros; apply S; unfold span in *; lia).
    rewrite (IH _ m m' S' _ L). now injection E as <-.
  Qed.
  Lemma read_aligned_same : forall n p m m' v, (forall q, span p (N.of_nat n) q -> m' q = m q) ->
    read_aligned cfg n p m = Ok (v, m) -> read_aligned cfg n p m' = Ok (v, m').
  Proof.
    intros n p m m' v S. unfold read_aligned, load_uint, bind.
    assert (H : forall l m1, load_bytes n p m = Ok (l, m1) -> load_bytes n p m' = Ok (l, m')).
    { intros l m1 L. pose proof (proj2 (tame_load_bytes _ _) _ _ _ L) as ->. now apply (load_bytes_same _ _ m). }
    destruct (ia32 cfg || is_efficient cfg); [|destruct (p mod alignment cfg n =? 0); [|discriminate]];
      (destruct (load_bytes n p m) as [(l, m1)| | | | |]; try discriminate; rewrite (H l m1 eq_refl);
       unfold ret; intro E; f_equal; f_equal; congruence).
  Qed.

  (** t1ha2_update writes into the context only, wherever the data are and
      however long, if the context says that at most 32 bytes are pending *)
  Lemma writes_update : forall data len m m' k,
    load_partial cfg c m = Ok (k, m) -> k <= 32 ->
    t1ha2_update cfg c data len m = Ok (tt, m') -> forall q, ~ span c (sizeof_ctx cfg) q -> m' q = m q.
  Proof.
    intros data len m m' k P K E q Q. pose proof layout_sizes as LS. revert E. unfold t1ha2_update.
    destruct (overlap c (sizeof_ctx cfg) data len); [discriminate|].
    unfold bind at 1. destruct (load_total cfg c m) as [(total, m0)| | | | |] eqn:E0; try discriminate.
    pose proof (proj2 (tame_read_aligned _ _ _) _ _ _ E0) as ->. clear E0.
    unfold bind at 1. destruct (store_total cfg c (add64 total len) m) as [([], m1)| | | | |] eqn:E1; try discriminate.
    rewrite <- (writes_store_total _ _ _ _ E1 q Q).
    unfold bind at 1. replace (load_partial cfg c m1) with (Ok (k, m1)).
    2:{ symmetry. apply (read_aligned_same _ _ m); [|exact P]. intros r R.
        apply (writes_aligned _ _ _ _ _ _ _ E1). unfold span in *. rewrite in_ctx in * by lia. lia. }
    assert (AS : 64 <= addr_space cfg) by (unfold addr_space; destruct (ptr64 cfg); discriminate).
    assert (D : psub cfg 32 k = 32 - k).
    { unfold psub. rewrite (N.mod_small k) by lia. replace (32 + addr_space cfg - k) with (32 - k + 1 * addr_space cfg) by lia.
      rewrite N.mod_add by lia. apply N.mod_small. lia. }
    rewrite D. clear P E1 D total m.
    assert (W : forall A (x : M A) a n n', writes (span c (sizeof_ctx cfg)) x -> x n = Ok (a, n') -> n' q = n q).
    { intros A x a n n' X E. exact (X _ _ _ E q Q). }
    revert m1. match goal with |- forall m, ?x m = _ -> _ => intros m1 E; refine (W _ x tt m1 m' _ E); clear E W end.
    apply writes_bind.
    - destruct (negb (k =? 0)); [|apply writes_tame; auto with tame].
      set (chunk := if 32 - k <=? len then 32 - k else len).
      assert (C : k + chunk <= 32) by (unfold chunk; destruct (32 - k <=? len) eqn:L; lia).
      apply writes_bind; [apply writes_buffer; exact C|intro].
      apply writes_bind; [apply writes_store_partial|intro].
      destruct (padd cfg k chunk <? 32); [apply writes_tame; tame|].
      apply writes_bind; [apply writes_store_partial|intro].
      apply writes_bind; [apply writes_tame; tame|intro].
      apply writes_bind; [apply writes_tame; tame|intro].
      apply writes_bind; [apply writes_store_state|intro]. apply writes_tame; tame.
    - intros [(d, l)|]; [|apply writes_tame; auto with tame].
      assert (F : forall d l, l <= 32 -> writes (span c (sizeof_ctx cfg))
                (if negb (l =? 0) then store_partial cfg c l ;;; memcpy cfg (buffer cfg c) d l else ret tt)).
      { intros d' l' L. destruct (negb (l' =? 0)); [|apply writes_tame; auto with tame].
        apply writes_bind; [apply writes_store_partial|intro]. now apply writes_buffer_start. }
      destruct (32 <=? l) eqn:L.
      + intros n a n' E. revert E. unfold bind at 1.
        match goal with |- context [match ?x n with _ => _ end] => destruct (x n) as [((d', l'), n1)| | | | |] eqn:E1 end;
          try discriminate.
        assert (L' : l' <= 32 /\ forall r, ~ span c (sizeof_ctx cfg) r -> n1 r = n r).
        { split.
          - revert E1. unfold bind.
            destruct (load_state cfg c n) as [(s, n2)| | | | |]; try discriminate.
            destruct (T1HA2_LOOP cfg (fetch64_le cfg (use_unaligned64 cfg d)) s d l n2) as [(sd, n3)| | | | |]; try discriminate.
            destruct (store_state cfg c (fst sd) n3) as [([], n4)| | | | |]; try discriminate.
            unfold ret. intro H. assert (l' = N.land l 31) by congruence. subst l'.
            change 31 with (N.ones 5). rewrite N.land_ones. pose proof (N.mod_lt l (2 ^ 5)). lia.
          - match type of E1 with ?x n = _ => assert (X : writes (span c (sizeof_ctx cfg)) x) end.
            { apply writes_bind; [apply writes_tame; tame|intro].
              apply writes_bind; [apply writes_tame; tame|intro].
              apply writes_bind; [apply writes_store_state|intro]. apply writes_tame; tame. }
            exact (X _ _ _ E1). }
        destruct L' as (L' & N1). intros E r R. rewrite <- (N1 r R). exact (F _ _ L' _ _ _ E r R).
      + cbv beta iota zeta. intros n a n' E. change (bind (ret (d, l)) ?k n) with (k (d, l) n) in E.
        cbv beta iota in E. exact (F d l ltac:(lia) _ _ _ E).
  Qed.

  (** t1ha2_final writes into the context, its local variable and the extra
      result only *)
  Lemma writes_final : forall bits extra m r m' k,
    load_partial cfg c m = Ok (k, m) -> k <= 32 ->
    (bits + 8 <= c \/ c + sizeof_ctx cfg <= bits) ->
    t1ha2_final cfg bits c extra m = Ok (r, m') ->
    forall q, ~ span c (sizeof_ctx cfg) q -> ~ span bits 8 q -> (extra = 0 \/ ~ span extra 8 q) -> m' q = m q.
  Proof.
    intros bits extra m r m' k P K A E q Q1 Q2 Q3. pose proof layout_sizes as LS. revert E. unfold t1ha2_final.
    destruct (negb (extra =? 0) && overlap c (sizeof_ctx cfg) extra 8); [discriminate|].
    unfold bind at 1. destruct (load_total cfg c m) as [(total, m0)| | | | |] eqn:E0; try discriminate.
    pose proof (proj2 (tame_read_aligned _ _ _) _ _ _ E0) as ->. clear E0. cbv zeta.
    unfold bind at 1.
    match goal with |- context [write_aligned cfg 8 bits ?v m] =>
      destruct (write_aligned cfg 8 bits v m) as [([], m1)| | | | |] eqn:E1; try discriminate end.
    rewrite <- (writes_aligned _ _ _ _ _ _ _ E1 q Q2).
    assert (P1 : load_partial cfg c m1 = Ok (k, m1)).
    { apply (read_aligned_same _ _ m); [|exact P]. intros x X. apply (writes_aligned _ _ _ _ _ _ _ E1).
      unfold span in *. rewrite in_ctx in * by lia. lia. }
    unfold bind at 1. destruct (t1ha2_update cfg c bits 8 m1) as [([], m2)| | | | |] eqn:E2; try discriminate.
    rewrite <- (writes_update _ _ _ _ _ P1 K E2 q Q1).
    clear P P1 E1 E2. destruct (extra =? 0) eqn:X.
    - intro E. match type of E with ?x m2 = _ => assert (W : writes (span c (sizeof_ctx cfg)) x) end.
      { apply writes_bind; [apply writes_tame; tame|intro].
        apply writes_bind; [apply writes_tame; unfold load_partial; tame|intro].
        apply writes_bind; [apply writes_tame; tame|intro].
        apply writes_bind; [apply writes_store_state|intro]. apply writes_tame; tame. }
      exact (W _ _ _ E q Q1).
    - intro E. match type of E with ?x m2 = _ =>
        assert (W : writes (fun q => span c (sizeof_ctx cfg) q \/ span extra 8 q) x) end.
      { apply writes_bind; [apply writes_tame; tame|intro].
        apply writes_bind; [apply writes_tame; unfold load_partial; tame|intro].
        apply writes_bind; [apply writes_tame; tame|intro].
        apply writes_bind; [eapply writes_weaken; [|apply writes_store_state]; tauto|intro].
        apply writes_bind; [eapply writes_weaken; [|apply (writes_aligned cfg 8)]; tauto|intro].
        apply writes_tame; tame. }
      apply (W _ _ _ E q). intros [H|H]; [exact (Q1 H)|]. destruct Q3 as [->|Q3]; [discriminate|exact (Q3 H)].
  Qed.
End Context.
