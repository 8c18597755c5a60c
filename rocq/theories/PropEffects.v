(** Properties that hold for all arguments whatsoever, valid or not: where the
    functions can write, and that memory they do not need has no influence. *)
From Coq Require Import ZArith NArith Arith List Bool Lia Strings.Byte.
From Coq Require Import ZifyN ZifyNat ZifyBool.
From Verif Require Import Bytes CSem Bits T1ha2 T1ha1 T1ha0 Aes Ia32aes Spec CSemFacts KeyMem CtxMem OneShot
  Effects Demo PropStream PropOneShot.
Import ListNotations.
Local Open Scope N_scope.

(** ** C38: no arguments make a call write outside of its results. *)
Theorem C38_oneshot : forall f cfg data len seed m r m',
  call f cfg data len seed m = Ok (r, m') -> m' = m.
Proof. intros f cfg data len seed. exact (proj2 (tame_call f cfg data len seed)). Qed.
Print Assumptions C38_oneshot.

Theorem C38_atonce128 : forall cfg x data len seed m r m',
  t1ha2_atonce128 cfg x data len seed m = Ok (r, m') -> forall a, a < x \/ x + 8 <= a -> m' a = m a.
Proof.
  intros cfg x data len seed m r m' E a A. apply (writes_atonce128 _ _ _ _ _ _ _ _ E). unfold span. lia.
Qed.
Print Assumptions C38_atonce128.

Theorem C38_init : forall cfg c x y m m', layout_ok cfg -> c + sizeof_ctx cfg <= addr_space cfg ->
  t1ha2_init cfg c x y m = Ok (tt, m') -> forall a, a < c \/ c + sizeof_ctx cfg <= a -> m' a = m a.
Proof.
  intros cfg c x y m m' L R E a A. apply (writes_init cfg c L R _ _ _ _ _ E). unfold span. lia.
Qed.
Print Assumptions C38_init.

(** The data pointer and the length are arbitrary; of the context only the count
    of pending bytes must be sane. *)
Theorem C38_update : forall cfg c data len m m' k, layout_ok cfg -> c + sizeof_ctx cfg <= addr_space cfg ->
  load_partial cfg c m = Ok (k, m) -> k <= 32 ->
  t1ha2_update cfg c data len m = Ok (tt, m') -> forall a, a < c \/ c + sizeof_ctx cfg <= a -> m' a = m a.
Proof.
  intros cfg c data len m m' k L R P K E a A. apply (writes_update cfg c L R _ _ _ _ _ P K E). unfold span. lia.
Qed.
Print Assumptions C38_update.

Theorem C38_final : forall cfg c bits extra m r m' k, layout_ok cfg -> c + sizeof_ctx cfg <= addr_space cfg ->
  load_partial cfg c m = Ok (k, m) -> k <= 32 -> (bits + 8 <= c \/ c + sizeof_ctx cfg <= bits) ->
  t1ha2_final cfg bits c extra m = Ok (r, m') ->
  forall a, a < c \/ c + sizeof_ctx cfg <= a -> a < bits \/ bits + 8 <= a ->
            extra = 0 \/ a < extra \/ extra + 8 <= a -> m' a = m a.
Proof.
  intros cfg c bits extra m r m' k L R P K B E a A1 A2 A3.
  apply (writes_final cfg c L R _ _ _ _ _ _ P K B E); unfold span; lia.
Qed.
Print Assumptions C38_final.

(** A context in the middle of a message, data that lie across its own end: the
    hypotheses hold, and so do they for a context full of garbage whose count is
    sane. *)
Definition garbage : mem := write ram 4160 (le_bytes 8 7).
Example C38_case : layout_ok x86_64 /\ 4096 + sizeof_ctx x86_64 <= addr_space x86_64 /\
  load_partial x86_64 4096 garbage = Ok (7, garbage) /\
  (exists m', t1ha2_update x86_64 4096 20090 1000 garbage = Ok (tt, m')).
Proof.
  split; [now left|]. split; [discriminate|]. split; [vm_compute; reflexivity|].
  assert (V : (match t1ha2_update x86_64 4096 20090 1000 garbage with Ok (tt, _) => true | _ => false end) = true)
    by (vm_compute; reflexivity).
  destruct (t1ha2_update x86_64 4096 20090 1000 garbage) as [([], m')| | | | |]; try discriminate V. now exists m'.
Qed.

(** Results and contexts that overlap the data they are computed from are
    outside of the contract (the parameters are [restrict]), for all positions
    in which they have a byte in common. *)
Theorem C38_restrict : forall cfg p n q k a m, span p n a -> span q k a ->
  (n = 8 -> forall seed, t1ha2_atonce128 cfg p q k seed m = Undef RestrictOverlap) /\
  (n = sizeof_ctx cfg -> t1ha2_update cfg p q k m = Undef RestrictOverlap) /\
  (n = sizeof_ctx cfg -> k = 8 -> q <> 0 -> forall bits, t1ha2_final cfg bits p q m = Undef RestrictOverlap).
Proof.
  intros cfg p n q k a m A B.
  assert (O : overlap p n q k = true) by (unfold overlap, span in *; lia).
  split; [|split]; intros; subst.
  - unfold t1ha2_atonce128. now rewrite O.
  - unfold t1ha2_update. now rewrite O.
  - unfold t1ha2_final. destruct (q =? 0) eqn:Z; [lia|]. cbn [negb andb]. now rewrite O.
Qed.
Print Assumptions C38_restrict.
Example C38_restrict_case : span 4096 8 4103 /\ span 4103 100 4103 /\ span 4096 (sizeof_ctx x86_64) 4103.
Proof. unfold span. repeat split; try discriminate; reflexivity. Qed.

(** With a larger count t1ha2_update does write behind the context (release
    builds; the count is not checked anywhere). *)
Theorem C38_bad_count_refuted : exists cfg c data len m m' a k,
  ctx_ptr cfg c /\ load_partial cfg c m = Ok (k, m) /\
  t1ha2_update cfg c data len m = Ok (tt, m') /\ c + sizeof_ctx cfg <= a /\ m' a <> m a.
Proof.
  set (m := write ram 4160 (le_bytes 8 100)).
  assert (V : (match t1ha2_update x86_64 4096 20001 5 m with
               | Ok (tt, m') => match m' 4228 with Some b => negb (Byte.eqb b xee) | None => false end
               | _ => false end) = true) by (vm_compute; reflexivity).
  destruct (t1ha2_update x86_64 4096 20001 5 m) as [([], m')| | | | |] eqn:E; try discriminate V.
  exists x86_64, 4096, 20001, 5, m, m', 4228, 100.
  split; [apply ctx_4096|]. split; [vm_compute; reflexivity|]. split; [exact E|]. split; [discriminate|].
  replace (m 4228) with (Some xee) by reflexivity. intro H. rewrite H in V. discriminate V.
Qed.
Print Assumptions C38_bad_count_refuted.

(** ** C39: more mapped memory changes nothing.  [sub_mem m n]: [n] has all of
    [m], and possibly more. *)
Theorem C39_oneshot : forall f cfg data len seed m n r m', sub_mem m n ->
  call f cfg data len seed m = Ok (r, m') -> call f cfg data len seed n = Ok (r, n).
Proof.
  intros f cfg data len seed m n r m' S E. destruct (tame_call f cfg data len seed) as ((L & _) & R).
  specialize (L m n S). rewrite E in L. destruct L as (n' & L & _). now rewrite (R _ _ _ L) in L.
Qed.
Print Assumptions C39_oneshot.

(** The other outcomes are also the same, and a fault is due to a byte that is
    really missing. *)
Theorem C39_oneshot_errors : forall f cfg data len seed m,
  match call f cfg data len seed m with
  | Ok _ => True
  | Fault q => m q = None
  | o => forall n, sub_mem m n -> call f cfg data len seed n = o
  end.
Proof.
  intros f cfg data len seed m. destruct (tame_call f cfg data len seed) as ((L & F & _) & _).
  destruct (call f cfg data len seed m) as [(r, m')|q|w| | |] eqn:E; [exact I|now apply F| | | |];
    intros n S; specialize (L m n S); now rewrite E in L.
Qed.
Print Assumptions C39_oneshot_errors.

(** The same for the functions that write: same result, the same bytes in the
    part that both memories have, and the rest of the larger memory untouched. *)
Definition unaffected {A} (x : M A) : Prop := forall m n a m', sub_mem m n -> x m = Ok (a, m') ->
  exists n', x n = Ok (a, n') /\ sub_mem m' n' /\ forall q, m q = None -> n' q = n q.

Theorem C39_writers : forall cfg,
  (forall x data len seed, unaffected (t1ha2_atonce128 cfg x data len seed)) /\
  (forall c x y, unaffected (t1ha2_init cfg c x y)) /\
  (forall c data len, unaffected (t1ha2_update cfg c data len)) /\
  (forall bits c extra, unaffected (t1ha2_final cfg bits c extra)).
Proof.
  intro cfg.
  assert (H : forall A (x : M A), local x -> unaffected x).
  { intros A x (L & _) m n a m' S E. specialize (L m n S). now rewrite E in L. }
  repeat split; intros; apply H; auto with local.
Qed.
Print Assumptions C39_writers.

(** A fault of these functions is due to a missing byte, too, and none of them
    maps or unmaps anything. *)
Definition honest {A} (x : M A) : Prop := forall m,
  match x m with
  | Ok (_, m') => forall q, m' q = None <-> m q = None
  | Fault q => m q = None
  | _ => True
  end.

Theorem C39_writers_faults : forall cfg,
  (forall x data len seed, honest (t1ha2_atonce128 cfg x data len seed)) /\
  (forall c x y, honest (t1ha2_init cfg c x y)) /\
  (forall c data len, honest (t1ha2_update cfg c data len)) /\
  (forall bits c extra, honest (t1ha2_final cfg bits c extra)).
Proof.
  intro cfg.
  assert (H : forall A (x : M A), local x -> honest x).
  { intros A x (_ & F & K) m. destruct (x m) as [(a, m')|q|w| | |] eqn:E; try exact I; [exact (K _ _ _ E)|now apply F]. }
  repeat split; intros; apply H; auto with local.
Qed.
Print Assumptions C39_writers_faults.

(** a key alone in memory, in a build that reads exactly the key, and the same
    key among other data *)
Example C39_case : sub_mem (island 20000 (key 100)) ram /\
  call Atonce x86_64_asan 20000 100 7 (island 20000 (key 100)) = Ok (t1ha2_64 (key 100) 7, island 20000 (key 100)) /\
  (exists a, island 20000 (key 100) a = None /\ ram a <> None).
Proof.
  split; [|split].
  - intros q b. unfold island, ram, sea, write. destruct ((20000 <=? q) && _); [tauto|discriminate].
  - apply (C07_exact_bounds Atonce x86_64_asan 20000 (key 100) 7); try reflexivity; try exact I. discriminate.
  - exists 5. split; [reflexivity|discriminate].
Qed.
