(** A simple sufficient condition for a history to be legal: the caller's
    buffers lie apart from all contexts and from the memory that receives
    results, and are not changed during the history. *)
From Coq Require Import ZArith NArith Arith List Bool Lia Strings.Byte.
From Coq Require Import ZifyN ZifyNat ZifyBool.
From Verif Require Import Bytes CSem Bits T1ha2 Spec CSemFacts CtxMem StreamFacts Api ApiFacts.
Import ListNotations.
Local Open Scope N_scope.

Section Static.
  Variables (cfg : config) (cs : list N) (bits extra : N).
  Hypothesis CS : contexts_ok cfg cs.

  (** where results are stored *)
  Definition scratch (m : mem) : Prop :=
    (bits <> 0 /\ mapped m bits 8 /\ bits mod alignment cfg 8 = 0 /\ bits + 8 < addr_space cfg /\
     forall c, In c cs -> apart c (sizeof_ctx cfg) bits 8) /\
    (extra <> 0 -> mapped m extra 8 /\ extra mod alignment cfg 8 = 0 /\
     forall c, In c cs -> apart c (sizeof_ctx cfg) extra 8).

  (** one operation, given the addresses [live] of initialised contexts *)
  Definition plain (m : mem) (live : N -> bool) (o : op) : Prop :=
    match o with
    | Init c x y => In c cs /\ x < 2 ^ 64 /\ y < 2 ^ 64
    | Update c p data =>
        In c cs /\ live c = true /\ bytes_at m p data /\ p <> 0 /\ p + mlen data < addr_space cfg /\
        (forall c', In c' cs -> apart c' (sizeof_ctx cfg) p (mlen data)) /\
        apart bits 8 p (mlen data) /\ apart extra 8 p (mlen data)
    | Final c b e => In c cs /\ live c = true /\ b = bits /\ (e = 0 \/ e = extra)
    | Env _ => False
    end.
  Definition live_after (live : N -> bool) (o : op) : N -> bool :=
    match o with
    | Init c _ _ => fun c' => if c' =? c then true else live c'
    | Final c _ _ => fun c' => if c' =? c then false else live c'
    | _ => live
    end.
  Fixpoint plain_history (m : mem) (live : N -> bool) (h : list op) : Prop :=
    match h with
    | [] => True
    | o :: h => plain m live o /\ plain_history m (live_after live o) h
    end.

  (** [m] may differ from [m0] only in contexts and scratch memory *)
  Definition same_outside (m0 m : mem) : Prop :=
    (forall a, (forall c, In c cs -> a < c \/ c + sizeof_ctx cfg <= a) ->
               (a < bits \/ bits + 8 <= a) -> (a < extra \/ extra + 8 <= a) -> m a = m0 a) /\
    (forall a, m0 a <> None -> m a <> None).

  Lemma plain_legal : forall h m0 m live a,
    scratch m0 -> same_outside m0 m -> represents cfg cs a m ->
    (forall c, In c cs -> live c = true -> a c <> None) ->
    plain_history m0 live h -> legal_history cfg cs h a m.
  Proof.
    induction h as [|o h IH]; intros m0 m live a SC SO R LV P; [exact I|].
    destruct P as [P PH]. pose proof SC as [(B0 & BM & BA & BS & BD) EX].
    assert (MP : forall q n, mapped m0 q n -> mapped m q n).
    { intros q n H i Hi. apply SO. now apply H. }
    assert (L : legal cfg cs o a m).
    { destruct o as [c x y|c p data|c b e|m']; cbn [plain legal] in *.
      - exact P.
      - destruct P as (P1 & P2 & P3 & P4 & P5 & P6 & P7 & P8).
        split; [exact P1|]. split; [now apply LV|]. unfold chunk_ok.
        split; [|split; [exact P4|split; [exact P5|]]].
        + intros i d Hi. assert ((i < length data)%nat) by (apply nth_error_Some; congruence).
          rewrite (proj1 SO); [now apply P3| | |].
          * intros c' Hc'. specialize (P6 c' Hc'). unfold apart, mlen in P6. lia.
          * unfold apart, mlen in P7. lia.
          * unfold apart, mlen in P8. lia.
        + right. specialize (P6 c P1). unfold apart in P6. lia.
      - destruct P as (P1 & P2 & PB & P3). subst b. split; [exact P1|]. split; [now apply LV|].
        split.
        + split; [exact B0|]. split; [now apply MP|]. split; [exact BA|]. split; [exact BS|exact BD].
        + intro EN. destruct P3 as [P3|P3]; [contradiction|subst e]. destruct (EX EN) as (E1 & E2 & E3).
          split; [now apply MP|]. split; [exact E2|exact E3].
      - contradiction. }
    split; [exact L|]. intros r m1 E.
    destruct (step_ok cfg cs CS o a m R L) as (m2 & E2 & R2).
    rewrite E in E2. injection E2 as -> ->.
    apply (IH m0 m2 (live_after live o)); auto.
    - (* frame of the step *)
      assert (TR : (forall q, (forall c, In c cs -> q < c \/ c + sizeof_ctx cfg <= q) ->
                   (q < bits \/ bits + 8 <= q) -> (q < extra \/ extra + 8 <= q) -> m2 q = m q) /\
                   (forall q, m q <> None -> m2 q <> None)).
      { destruct o as [c x y|c p data|c b e|m']; cbn [plain legal step] in *.
        - destruct L as (Hc & X & Y). pose proof (proj1 CS c Hc) as CP.
          assert (CM : ctx_mapped cfg m c).
          { pose proof (R c Hc) as Rc. destruct (a c) as [[[x0 y0] msg]|]; [|exact Rc].
            eapply in_progress_mapped; eauto. apply Rc. }
          destruct (t1ha2_init_ok cfg c CP m x y CM X Y) as (m3 & E3 & _ & O3).
          rewrite (bind_ok _ _ _ _ _ _ _ E3) in E. assert (m2 = m3) as -> by (unfold ret in E; congruence).
          split; [|apply O3]. intros q Q1 _ _. apply O3. now apply Q1.
        - destruct L as (Hc & LL & C1 & C2 & C3 & C4). pose proof (proj1 CS c Hc) as CP.
          pose proof (R c Hc) as Rc. destruct (a c) as [[[x y] msg]|]; [|congruence].
          destruct Rc as (X & Y & Rc).
          destruct (t1ha2_update_ok cfg c CP m x y msg p data Rc X Y C1 C3 (or_introl C2) C4)
            as (m3 & E3 & _ & O3).
          rewrite (bind_ok _ _ _ _ _ _ _ E3) in E. assert (m2 = m3) as -> by (unfold ret in E; congruence).
          split; [|apply O3]. intros q Q1 _ _. apply O3. now apply Q1.
        - destruct L as (Hc & LL & L1 & L2). pose proof (proj1 CS c Hc) as CP.
          destruct P as (_ & _ & PB & P3). subst b.
          pose proof (R c Hc) as Rc. destruct (a c) as [[[x y] msg]|]; [|congruence].
          destruct Rc as (X & Y & Rc).
          assert (FR : final_ready cfg c m bits e).
          { split; [apply L1|]. split; [apply L1|]. split; [apply L1|]. split; [apply L1|].
            split; [|intro EN; split; [now apply L2|split; [now apply L2|]]].
            - destruct L1 as (_ & _ & _ & _ & D). specialize (D c Hc). unfold apart in D. lia.
            - destruct (L2 EN) as (_ & _ & D). specialize (D c Hc). unfold apart in D. lia. }
          assert (FF : final_frame cfg c m m2 bits e).
          { destruct (N.eqb_spec e 0) as [->|EN].
            - destruct (t1ha2_final64_ok cfg c CP m x y msg bits Rc X Y FR) as (m3 & E3 & _ & F3).
              rewrite (bind_ok _ _ _ _ _ _ _ E3) in E. assert (m2 = m3) as -> by (unfold ret in E; congruence). exact F3.
            - destruct (t1ha2_final128_ok cfg c CP m x y msg bits e EN Rc X Y FR) as (m3 & E3 & B3 & _ & F3).
              rewrite (bind_ok _ _ _ _ _ _ _ E3) in E. unfold peek in E.
              set (l := native cfg 8 (snd (t1ha2_stream128 x y msg))) in *.
              assert (Ll : 8%nat = length l) by (unfold l; now rewrite native_length).
              rewrite Ll, (bind_ok _ _ _ _ _ _ _ (load_bytes_ok l m3 e B3)) in E.
              assert (m2 = m3) as -> by (unfold ret in E; congruence). exact F3. }
          split; [|apply FF]. intros q Q1 Q2 Q3. apply FF; auto.
          destruct P3 as [P3|P3]; [now left|subst e; now right].
        - contradiction. }
      destruct TR as [T1 T2]. split.
      + intros q Q1 Q2 Q3. rewrite T1 by assumption. now apply SO.
      + intros q Hq. apply T2, SO, Hq.
    - (* live contexts stay represented *)
      intros c Hc LL. destruct o as [c' x y|c' p data|c' b e|m']; cbn [live_after astep] in *.
      + cbn [snd]. unfold set. destruct (N.eqb_spec c c'); [discriminate|auto].
      + pose proof (LV c Hc LL) as A. destruct (a c') as [[[x y] msg]|]; cbn [snd]; [|exact A].
        unfold set. destruct (N.eqb_spec c c'); [discriminate|exact A].
      + destruct (N.eqb_spec c c') as [->|NE]; [discriminate|].
        pose proof (LV c Hc LL) as A. destruct (a c') as [[[x y] msg]|]; cbn [snd]; [|exact A].
        unfold set. destruct (N.eqb_spec c c'); [contradiction|exact A].
      + contradiction.
  Qed.

  (** so such a program sees the abstract results *)
  Theorem plain_history_ok : forall h m, scratch m -> (forall c, In c cs -> ctx_mapped cfg m c) ->
    plain_history m (fun _ => false) h ->
    exists m', run cfg h m = Ok (fst (arun cfg h (fun _ => None)), m').
  Proof.
    intros h m SC CM P.
    assert (R : represents cfg cs (fun _ => None) m) by (intros c Hc; now apply CM).
    destruct (history_ok cfg cs CS h (fun _ => None) m R) as (m' & E & _).
    - eapply plain_legal; eauto; [split; auto|discriminate].
    - now exists m'.
  Qed.
End Static.
