(** Threads that share the function pointer of t1ha0. *)
From Coq Require Import NArith Arith List Bool Lia.
From Verif Require Import Bytes CSem OneShot Dispatch.
Import ListNotations.

(** the finished calls [l], each with the outcome of [f] *)
Definition outcomes (b : build) (c : cpu) (f : hash_fn) (l : list request) : list (request * outcome (N * mem)) :=
  map (fun rq => (rq, exec b c f (rq_data rq) (rq_len rq) (rq_seed rq) (rq_mem rq))) l.

Section Threads.
  Variables (b : build) (c : cpu) (r : hash_fn).
  Hypothesis R : t1ha0_resolve b c = Some r.
  (** the value of the pointer before the first store, and how many of the
      stores all threads know of at the start *)
  Variables (first : target) (known : nat).
  Hypothesis K : first = Proxy \/ (1 <= known)%nat.

  (** all values of the pointer *)
  Definition history (h : list target) : Prop := exists n, h = first :: repeat (Code r) n /\ (known <= n)%nat.

  Definition pc_ok (h : list target) (p : pc) (s : nat) (todo : list request) : Prop :=
    match p with
    | Idle => True
    | Jump t => todo <> [] /\ (t = Proxy \/ t = Code r)
    | Resolving => todo <> []
    | Reading => todo <> [] /\ (1 <= s)%nat
    | Crashed => False
    end.
  Definition thread_ok (h : list target) (calls : list request) (t : thread) : Prop :=
    (known <= seen t < length h)%nat /\ pc_ok h (at_ t) (seen t) (todo t) /\
    exists fin, calls = fin ++ todo t /\ done_ t = outcomes b c r fin.
  Definition state_ok (calls : list (list request)) (s : list target * list thread) : Prop :=
    history (fst s) /\ Forall2 (thread_ok (fst s)) calls (snd s).

  Lemma history_read : forall h j t, history h -> nth_error h j = Some t -> (known <= j)%nat ->
    (t = Proxy \/ t = Code r) /\ ((1 <= j)%nat -> t = Code r).
  Proof.
    intros h j t (n & -> & L) E G. destruct j as [|j].
    - cbn in E. injection E as <-. split; [|lia]. destruct K as [->|K1]; [now left|lia].
    - cbn in E. apply nth_error_In, repeat_spec in E. auto.
  Qed.
  Lemma history_store : forall h, history h -> history (h ++ [Code r]).
  Proof.
    intros h (n & -> & L). exists (S n). split; [|lia]. cbn [app]. f_equal.
    change [Code r] with (repeat (Code r) 1). rewrite <- repeat_app. f_equal. lia.
  Qed.

  Lemma thread_more : forall h h' calls t, thread_ok h calls t -> (length h <= length h')%nat -> thread_ok h' calls t.
  Proof. intros h h' calls t (A & B & C) L. split; [lia|]. split; [exact B|exact C]. Qed.

  Lemma step_ok : forall calls h t h' t', history h -> thread_ok h calls t -> step_ b c h t h' t' ->
    history h' /\ (length h <= length h')%nat /\ thread_ok h' calls t'.
  Proof.
    intros calls h t h' t' H (A & B & fin & F & D) S. destruct S; cbn [seen at_ todo done_] in *.
    - destruct (history_read _ _ _ H H1 ltac:(lia)) as (T & _).
      split; [exact H|]. split; [lia|]. split; [|split].
      + cbn. split; [lia|]. apply nth_error_Some. congruence.
      + cbn. split; [discriminate|exact T].
      + exists fin. auto.
    - split; [exact H|]. split; [lia|]. split; [exact A|]. split; [exact (proj1 B)|]. exists fin. auto.
    - rewrite R in H0. injection H0 as <-. split; [now apply history_store|].
      rewrite app_length. cbn [length]. split; [lia|]. split; [|split].
      + cbn. rewrite app_length. cbn. lia.
      + cbn. split; [exact B|]. lia.
      + exists fin. auto.
    - destruct (history_read _ _ _ H H1 ltac:(lia)) as (T & _).
      split; [exact H|]. split; [lia|]. split; [|split].
      + cbn. split; [lia|]. apply nth_error_Some. congruence.
      + cbn. split; [exact (proj1 B)|exact T].
      + exists fin. auto.
    - destruct B as (_ & [T|T]); [discriminate|]. injection T as ->.
      split; [exact H|]. split; [lia|]. split; [exact A|]. split; [exact I|].
      exists (fin ++ [rq]). split; [rewrite F, <- app_assoc; reflexivity|].
      cbn. rewrite D. unfold outcomes. now rewrite map_app.
    - destruct B as (_ & [T|T]); discriminate.
  Qed.

  Lemma moves_ok : forall calls s s', state_ok calls s -> moves b c s s' -> state_ok calls s'.
  Proof.
    intros calls s s' (H & F) M. destruct M as [h h' l t t' q S]. cbn [fst snd] in *.
    apply Forall2_app_inv_r in F. destruct F as (c1 & c2 & F1 & F2 & ->).
    inversion F2 as [|x ? c3 ? T F3]; subst.
    destruct (step_ok _ _ _ _ _ H T S) as (H' & L & T'). split; [exact H'|]. cbn [fst snd].
    assert (MORE : forall cs ts, Forall2 (thread_ok h) cs ts -> Forall2 (thread_ok h') cs ts).
    { intros cs ts G. induction G; constructor; eauto using thread_more. }
    apply Forall2_app; [auto|]. constructor; auto.
  Qed.
  Lemma run_ok : forall calls n s s', state_ok calls s -> run_ b c n s s' -> state_ok calls s'.
  Proof. intros calls n s s' H U. induction U; eauto using moves_ok. Qed.

  Lemma start_ok : forall calls, state_ok calls (first :: repeat (Code r) known, starting known calls).
  Proof.
    intro calls. split; [exists known; auto|]. cbn [fst snd]. unfold starting.
    induction calls as [|l calls IH]; [constructor|]. cbn [map]. constructor; [|exact IH].
    split; [|split].
    - cbn. rewrite repeat_length. lia.
    - exact I.
    - exists []. auto.
  Qed.

  (** ** Progress *)
  Lemma progress : forall calls h ts, state_ok calls (h, ts) ->
    (exists s', moves b c (h, ts) s') \/ Forall2 (fun l t => at_ t = Idle /\ todo t = [] /\ done_ t = outcomes b c r l) calls ts.
  Proof.
    intros calls h ts (H & F). cbn [fst snd] in *.
    assert (G : (exists l t q, ts = l ++ t :: q /\ exists h' t', step_ b c h t h' t') \/
                Forall2 (fun l t => at_ t = Idle /\ todo t = [] /\ done_ t = outcomes b c r l) calls ts).
    { induction F as [|l t cs ts T F IH]; [right; constructor|].
      destruct T as (A & B & fin & FI & D).
      assert (NX : exists x, nth_error h (seen t) = Some x).
      { destruct (nth_error h (seen t)) eqn:E; [eauto|]. apply nth_error_None in E. lia. }
      destruct NX as (x & X).
      destruct t as [p todo0 done0 s]. cbn [at_ todo done_ seen] in *.
      destruct p as [|t| | |].
      - destruct todo0 as [|rq rest].
        + destruct IH as [(l1 & t1 & q1 & -> & S)|IH].
          * left. eexists (_ :: l1), t1, q1. split; [reflexivity|exact S].
          * right. constructor; [|exact IH]. cbn. rewrite app_nil_r in FI. now subst.
        + left. eexists [], _, ts. split; [reflexivity|]. do 2 eexists. eapply step_read; [|exact X]. lia.
      - destruct B as (NE & [->| ->]).
        + left. eexists [], _, ts. split; [reflexivity|]. do 2 eexists. apply step_proxy.
        + destruct todo0 as [|rq rest]; [now exfalso|].
          left. eexists [], _, ts. split; [reflexivity|]. do 2 eexists. apply step_run.
      - left. eexists [], _, ts. split; [reflexivity|]. do 2 eexists. apply step_store. exact R.
      - left. eexists [], _, ts. split; [reflexivity|]. do 2 eexists. eapply step_reread; [|exact X]. lia.
      - destruct B. }
    destruct G as [(l & t & q & -> & h' & t' & S)|G]; [left; eexists; econstructor; exact S|now right].
  Qed.

  (** ** Every call takes at most five steps *)
  Definition weight (t : thread) : nat :=
    5 * length (todo t) - match at_ t with
                          | Idle => 0 | Jump Proxy => 1 | Resolving => 2 | Reading => 3 | Jump _ => 4 | Crashed => 5
                          end.
  Definition total (ts : list thread) : nat := list_sum (map weight ts).

  Lemma step_weight : forall calls h t h' t', history h -> thread_ok h calls t -> step_ b c h t h' t' ->
    (weight t' < weight t)%nat.
  Proof.
    intros calls h t h' t' H (A & B & _) S. destruct S; unfold weight; cbn [seen at_ todo done_] in *.
    - destruct (history_read _ _ _ H H1 ltac:(lia)) as ([->| ->] & _); cbn [length]; lia.
    - destruct B as (NE & _). destruct l; [now exfalso|]. cbn [length]. lia.
    - cbn in B. destruct l; [now exfalso|]. cbn [length]. lia.
    - destruct B as (NE & S1). destruct (history_read _ _ _ H H1 ltac:(lia)) as (_ & T). rewrite (T ltac:(lia)).
      destruct l; [now exfalso|]. cbn [length]. lia.
    - cbn [length]. lia.
    - destruct B as (_ & [T|T]); discriminate.
  Qed.
  Lemma run_weight : forall calls n s s', state_ok calls s -> run_ b c n s s' -> (n + total (snd s') <= total (snd s))%nat.
  Proof.
    intros calls n s s' H U. induction U as [|n s s1 s2 M U IH]; [lia|].
    pose proof (moves_ok _ _ _ H M) as H1. specialize (IH H1).
    destruct M as [h h' l t t' q S]. destruct H as (H & F). cbn [fst snd] in *.
    apply Forall2_app_inv_r in F. destruct F as (c1 & c2 & F1 & F2 & ->).
    inversion F2 as [|x ? c3 ? T F3]; subst. pose proof (step_weight _ _ _ _ _ H T S) as W.
    unfold total in *. rewrite map_app, list_sum_app in *. cbn [map list_sum fold_right] in *.
    unfold list_sum in *. cbn [fold_right] in *. lia.
  Qed.
  Lemma start_weight : forall s calls, total (starting s calls) = (5 * length (concat calls))%nat.
  Proof.
    intros s. unfold total, starting. induction calls as [|l calls IH]; [reflexivity|].
    cbn [map concat]. rewrite app_length. cbn [list_sum fold_right]. unfold list_sum in *. cbn [fold_right].
    rewrite IH. unfold weight. cbn [todo at_]. lia.
  Qed.

  (** ** Summary *)
  Lemma threads_ok : forall calls n h ts,
    run_ b c n (first :: repeat (Code r) known, starting known calls) (h, ts) ->
    (exists k, h = first :: repeat (Code r) k) /\
    Forall2 (fun l t => at_ t <> Crashed /\ exists fin, l = fin ++ todo t /\ done_ t = outcomes b c r fin) calls ts /\
    (n <= 5 * length (concat calls))%nat /\
    ((exists s', moves b c (h, ts) s') \/ Forall2 (fun l t => todo t = [] /\ done_ t = outcomes b c r l) calls ts).
  Proof.
    intros calls n h ts U. pose proof (run_ok _ _ _ _ (start_ok calls) U) as S. destruct S as (H & F). cbn [fst snd] in *.
    split; [|split; [|split]].
    - destruct H as (k & -> & _). eauto.
    - clear -F. induction F as [|l t cs ts T F IH]; [constructor|]. constructor; [|exact IH].
      destruct T as (_ & B & E). split; [|exact E]. intro C. rewrite C in B. exact B.
    - pose proof (run_weight _ _ _ _ (start_ok calls) U) as W. cbn [snd] in W. rewrite start_weight in W. lia.
    - destruct (progress calls h ts (conj H F)) as [P|P]; [now left|right].
      clear -P. induction P as [|l t cs ts T F IH]; [constructor|]. constructor; [|exact IH]. tauto.
  Qed.
End Threads.
