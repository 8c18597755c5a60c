(** Streams and histories: the model refines the abstract machine. *)
From Coq Require Import ZArith NArith Arith List Bool Lia Strings.Byte.
From Coq Require Import ZifyN ZifyNat ZifyBool.
From Verif Require Import Bytes CSem Bits T1ha2 Spec NBits CSemFacts OpsFacts FetchFacts
  TailFacts ReadFacts KeyMem PageFacts T1ha2Facts CtxMem StreamFacts Api.
Import ListNotations.
Ltac Zify.zify_post_hook ::= Z.div_mod_to_equations.
Local Open Scope N_scope.


(** what a context holds depends on its own bytes only *)
Lemma in_progress_agree : forall cfg c m m' x y msg, ctx_ptr cfg c ->
  (forall i, i < sizeof_ctx cfg -> m' (c + i) = m (c + i)) ->
  in_progress cfg m c x y msg -> in_progress cfg m' c x y msg.
Proof.
  intros cfg c m m' x y msg CP E (H0 & H1 & H2 & H3 & H4).
  pose proof (layout_bounds cfg c CP) as LB. pose proof (rest_lt msg) as RL. unfold sizeof_ctx in E.
  assert (BA : forall k l, k + mlen l <= off_total cfg + 8 -> bytes_at m (c + k) l -> bytes_at m' (c + k) l).
  { intros k l K B i b Hi. assert (i < length l)%nat by (apply nth_error_Some; congruence).
    rewrite <- N.add_assoc, E by (unfold mlen in K; lia). rewrite N.add_assoc. now apply B. }
  unfold in_progress, ctx_is. split; [|split; [|split; [|split]]].
  - rewrite <- (N.add_0_r c) in H0. rewrite <- (N.add_0_r c) at 1. apply BA; [|exact H0].
    unfold mlen. rewrite !app_length, !native_length. lia.
  - intros i Hi. rewrite <- N.add_assoc, E by lia. rewrite N.add_assoc. now apply H1.
  - apply BA; [unfold mlen; lia|exact H2].
  - apply BA; [rewrite native_mlen; lia|exact H3].
  - apply BA; [rewrite native_mlen; lia|exact H4].
Qed.

Lemma ctx_mapped_agree : forall cfg c m m', ctx_ptr cfg c ->
  (forall i, i < sizeof_ctx cfg -> m (c + i) <> None -> m' (c + i) <> None) ->
  ctx_mapped cfg m c -> ctx_mapped cfg m' c.
Proof.
  intros cfg c m m' CP E (H0 & H1 & H2). pose proof (layout_bounds cfg c CP) as LB. unfold sizeof_ctx in E.
  repeat split.
  - intros i Hi. apply E; [lia|]. now apply H0.
  - intros i Hi. rewrite <- N.add_assoc. apply E; [lia|]. rewrite N.add_assoc. now apply H1.
  - intros i Hi. rewrite <- N.add_assoc. apply E; [lia|]. rewrite N.add_assoc. now apply H2.
Qed.

(** ** One stream *)
Section OneStream.
  Variables (cfg : config) (c : N).
  Hypothesis CP : ctx_ptr cfg c.

  Lemma updates_ok : forall chunks m x y msg,
    in_progress cfg m c x y msg -> x < 2 ^ 64 -> y < 2 ^ 64 -> Forall (chunk_ok cfg m c) chunks ->
    exists m', updates cfg c chunks m = Ok (tt, m') /\
      in_progress cfg m' c x y (msg ++ content chunks) /\ only m m' c (sizeof_ctx cfg).
  Proof.
    induction chunks as [|[p data] chunks IH]; intros m x y msg H X Y C.
    - exists m. split; [reflexivity|]. unfold content. cbn. rewrite app_nil_r. split; [exact H|apply only_refl].
    - inversion C as [|? ? CO C5]; subst. destruct CO as (C1 & C2 & C3 & C4).
      destruct (t1ha2_update_ok cfg c CP m x y msg p data H X Y C1 C3 (or_introl C2) C4) as (m1 & E1 & H1 & O1).
      destruct (IH m1 x y (msg ++ data) H1 X Y) as (m2 & E2 & H2 & O2).
      + eapply Forall_impl; [|exact C5]. intros [q d] CD. destruct CD as (D1 & D2 & D3 & D4). unfold chunk_ok. repeat split; auto.
        destruct D4 as [->|D4]; [apply bytes_at_nil|]. eapply only_bytes; [exact O1| |exact D1]. lia.
      + exists m2. split; [|split].
        * cbn [updates]. ok E1. exact E2.
        * unfold content in *. cbn [map concat snd]. now rewrite app_assoc.
        * eapply only_trans; eassumption.
  Qed.

  (** everything up to the call of t1ha2_final *)
  Lemma fed_ok : forall chunks m x y, ctx_mapped cfg m c -> x < 2 ^ 64 -> y < 2 ^ 64 ->
    Forall (chunk_ok cfg m c) chunks ->
    exists m', (t1ha2_init cfg c x y ;;; updates cfg c chunks) m = Ok (tt, m') /\
      in_progress cfg m' c x y (content chunks) /\ only m m' c (sizeof_ctx cfg).
  Proof.
    intros chunks m x y M X Y C.
    destruct (t1ha2_init_ok cfg c CP m x y M X Y) as (m1 & E1 & H1 & O1).
    destruct (updates_ok chunks m1 x y [] H1 X Y) as (m2 & E2 & H2 & O2).
    - eapply Forall_impl; [|exact C]. intros [q d] CD. destruct CD as (D1 & D2 & D3 & D4). unfold chunk_ok. repeat split; auto.
      destruct D4 as [->|D4]; [apply bytes_at_nil|]. eapply only_bytes; [exact O1| |exact D1]. lia.
    - exists m2. split; [ok E1; exact E2|]. split; [exact H2|]. eapply only_trans; eassumption.
  Qed.

  Lemma final_ready_only : forall m m' bits extra, only m m' c (sizeof_ctx cfg) ->
    final_ready cfg c m bits extra -> final_ready cfg c m' bits extra.
  Proof.
    intros m m' bits extra O (B0 & BM & BA & BS & BD & R). repeat split; auto.
    - eapply only_mapped; eassumption.
    - eapply only_mapped; [exact O|]. now apply R.
    - now apply R.
    - now apply R.
  Qed.

  Lemma frame_after : forall m m1 m2 bits extra, only m m1 c (sizeof_ctx cfg) ->
    final_frame cfg c m1 m2 bits extra -> final_frame cfg c m m2 bits extra.
  Proof.
    intros m m1 m2 bits extra O [F1 F2]. split.
    - intros a A1 A2 A3. rewrite F1 by assumption. now apply O.
    - intros a Ha. apply F2, O, Ha.
  Qed.

  Theorem stream64_ok : forall chunks m x y bits, ctx_mapped cfg m c -> x < 2 ^ 64 -> y < 2 ^ 64 ->
    Forall (chunk_ok cfg m c) chunks -> final_ready cfg c m bits 0 ->
    exists m', stream cfg c x y chunks bits 0 m = Ok (t1ha2_stream64 x y (content chunks), m') /\
      final_frame cfg c m m' bits 0.
  Proof.
    intros chunks m x y bits M X Y C R. destruct (fed_ok chunks m x y M X Y C) as (m1 & E1 & H1 & O1).
    destruct (t1ha2_final64_ok cfg c CP m1 x y _ bits H1 X Y (final_ready_only _ _ _ _ O1 R)) as (m2 & E2 & _ & F).
    exists m2. split; [|eapply frame_after; eassumption].
    unfold stream. unfold bind in *. destruct (t1ha2_init cfg c x y m) as [[t mt]| | | | |]; try discriminate.
    rewrite E1. exact E2.
  Qed.

  Theorem stream128_ok : forall chunks m x y bits extra, extra <> 0 ->
    ctx_mapped cfg m c -> x < 2 ^ 64 -> y < 2 ^ 64 ->
    Forall (chunk_ok cfg m c) chunks -> final_ready cfg c m bits extra ->
    exists m', stream cfg c x y chunks bits extra m = Ok (fst (t1ha2_stream128 x y (content chunks)), m') /\
      bytes_at m' extra (native cfg 8 (snd (t1ha2_stream128 x y (content chunks)))) /\
      final_frame cfg c m m' bits extra.
  Proof.
    intros chunks m x y bits extra EN M X Y C R. destruct (fed_ok chunks m x y M X Y C) as (m1 & E1 & H1 & O1).
    destruct (t1ha2_final128_ok cfg c CP m1 x y _ bits extra EN H1 X Y (final_ready_only _ _ _ _ O1 R))
      as (m2 & E2 & B2 & _ & F).
    exists m2. split; [|split; [exact B2|eapply frame_after; eassumption]].
    unfold stream. unfold bind in *. destruct (t1ha2_init cfg c x y m) as [[t mt]| | | | |]; try discriminate.
    rewrite E1. exact E2.
  Qed.

  (** *** Zero-length updates *)
  Lemma write_same : forall m p l a, bytes_at m p l -> write m p l a = m a.
  Proof.
    intros m p l a B. destruct (N.lt_ge_cases a p) as [L|L]; [apply write_out; lia|].
    destruct (N.lt_ge_cases a (p + N.of_nat (length l))) as [L2|L2]; [|apply write_out; lia].
    replace a with (p + N.of_nat (N.to_nat (a - p))) by lia.
    destruct (nth_error l (N.to_nat (a - p))) as [b|] eqn:E.
    - rewrite (write_in _ _ _ _ _ E). now rewrite (B _ _ E).
    - apply nth_error_None in E. lia.
  Qed.

  Theorem update_nothing : forall m x y msg p, in_progress cfg m c x y msg ->
    p < addr_space cfg -> (p <> 0 \/ rest 32 msg = []) ->
    exists m', t1ha2_update cfg c p 0 m = Ok (tt, m') /\ forall a, m' a = m a.
  Proof.
    intros m x y msg p H A NZ. pose proof (layout_bounds cfg c CP) as LB. pose proof (ctx_room cfg c CP) as CR.
    pose proof (rest_lt msg) as RL. pose proof (addr_space_pos cfg) as AP.
    pose proof H as (H0 & H1 & H2 & H3 & H4).
    assert (T : mlen msg mod 2 ^ 64 < W64) by (apply N.mod_lt; discriminate).
    set (t := mlen msg mod 2 ^ 64) in *. set (buf := rest 32 msg) in *.
    unfold t1ha2_update. cbv zeta.
    replace (overlap c (sizeof_ctx cfg) p 0) with false by (unfold overlap; lia).
    ok (load_total_ok cfg c CP m _ _ _ _ H T).
    unfold add64, u64. rewrite N.add_0_r, N.mod_small by exact T.
    set (m1 := write m (c + off_total cfg) (native cfg 8 t)).
    assert (E1 : store_total cfg c t m = Ok (tt, m1)).
    { unfold store_total. rewrite ctx_padd by (assumption || lia). apply write_native; [now apply al_ctx_total|].
      apply bytes_at_mapped in H4. now rewrite native_length in H4. }
    assert (S1 : forall a, m1 a = m a) by (intro a; now apply write_same).
    assert (BS : forall m' q l, (forall a, m' a = m a) -> bytes_at m q l -> bytes_at m' q l).
    { intros m' q l S B i b Hi. rewrite S. now apply B. }
    assert (MS : forall m' q n, (forall a, m' a = m a) -> mapped m q n -> mapped m' q n).
    { intros m' q n S B i Hi. rewrite S. now apply B. }
    assert (FS : forall m', (forall a, m' a = m a) -> fields cfg m' c (stream_state x y msg) buf (mlen buf) t).
    { intros m' S. repeat split; eauto. }
    ok E1. ok (load_partial_ok cfg c CP m1 _ _ _ _ (FS m1 S1) ltac:(unfold mlen; lia)).
    destruct (N.eqb_spec (mlen buf) 0) as [Z|Z]; cbn [negb].
    - rewrite bind_ret. cbv beta iota. replace (32 <=? 0) with false by lia. rewrite bind_ret.
      cbv beta iota. cbn [N.eqb negb]. exists m1. split; [reflexivity|exact S1].
    - assert (P0' : p <> 0).
      { destruct NZ as [?|NZ]; [assumption|]. rewrite NZ in Z. now cbn in Z. }
      rewrite psub_small by (unfold mlen; lia). unfold buffer. rewrite (ctx_padd cfg c CP 32) by lia.
      rewrite (padd_small cfg (c + 32)) by (unfold mlen; lia).
      replace (32 - mlen buf <=? 0) with false by (unfold mlen; lia).
      set (m2 := write m1 (c + 32 + mlen buf) []).
      assert (E2 : memcpy cfg (c + 32 + mlen buf) p (mlen []) m1 = Ok (tt, m2)).
      { apply memcpy_ok; auto; [lia|apply bytes_at_nil|]. intros i Hi. cbn in Hi. lia. }
      assert (S2 : forall a, m2 a = m a) by (intro a; unfold m2; rewrite write_same by apply bytes_at_nil; apply S1).
      change (mlen []) with 0 in E2.
      rewrite (padd_small cfg (mlen buf)) by (unfold mlen; lia). rewrite N.add_0_r.
      set (m3 := write m2 (c + 64) (native cfg (sizeof_ptr cfg) (mlen buf))).
      assert (E3 : store_partial cfg c (mlen buf) m2 = Ok (tt, m3)).
      { unfold store_partial. rewrite ctx_padd by (assumption || lia). apply write_native; [now apply al_ctx_ptr|].
        apply (MS m2 _ _ S2). apply bytes_at_mapped in H3. now rewrite native_length in H3. }
      assert (S3 : forall a, m3 a = m a).
      { intro a. unfold m3. rewrite write_same; [apply S2|]. now apply BS. }
      exists m3. split; [|exact S3].
      rewrite (bind_ok _ _ _ _ _ None m3); [reflexivity|].
      rewrite (bind_ok _ _ _ _ _ _ _ E2), (bind_ok _ _ _ _ _ _ _ E3).
      replace (mlen buf <? 32) with true by (unfold mlen; lia).
      rewrite (bind_ok _ _ _ _ _ tt m3); [reflexivity|]. apply assert_ok. lia.
  Qed.

  (** *** Copying a context *)
  Lemma relocate : forall m m' c' x y msg, ctx_ptr cfg c' ->
    (forall i, i < sizeof_ctx cfg -> m' (c' + i) = m (c + i)) ->
    in_progress cfg m c x y msg -> in_progress cfg m' c' x y msg.
  Proof.
    intros m m' c' x y msg CP' E (H0 & H1 & H2 & H3 & H4).
    pose proof (layout_bounds cfg c CP) as LB. pose proof (rest_lt msg) as RL. unfold sizeof_ctx in E.
    assert (BA : forall k l, k + mlen l <= off_total cfg + 8 -> bytes_at m (c + k) l -> bytes_at m' (c' + k) l).
    { intros k l K B i b Hi. assert (i < length l)%nat by (apply nth_error_Some; congruence).
      rewrite <- N.add_assoc, E by (unfold mlen in K; lia). rewrite N.add_assoc. now apply B. }
    unfold in_progress, ctx_is. split; [|split; [|split; [|split]]].
    - rewrite <- (N.add_0_r c) in H0. rewrite <- (N.add_0_r c') at 1. apply BA; [|exact H0].
      unfold mlen. rewrite !app_length, !native_length. lia.
    - intros i Hi. rewrite <- N.add_assoc, E by lia. rewrite N.add_assoc. now apply H1.
    - apply BA; [unfold mlen; lia|exact H2].
    - apply BA; [rewrite native_mlen; lia|exact H3].
    - apply BA; [rewrite native_mlen; lia|exact H4].
  Qed.
End OneStream.

(** ** Histories *)
Section History.
  Variables (cfg : config) (cs : list N).
  Hypothesis CS : contexts_ok cfg cs.

  Lemma represents_agree : forall a m m', represents cfg cs a m ->
    (forall c i, In c cs -> i < sizeof_ctx cfg -> m' (c + i) = m (c + i)) -> represents cfg cs a m'.
  Proof.
    intros a m m' R E c Hc. specialize (R c Hc). pose proof (proj1 CS c Hc) as CP.
    destruct (a c) as [[[x y] msg]|].
    - destruct R as (X & Y & R). split; [exact X|split; [exact Y|]]. eapply in_progress_agree; [exact CP| |exact R]. intros; apply E; auto.
    - eapply ctx_mapped_agree; [exact CP| |exact R]. intros i Hi Hm. now rewrite E.
  Qed.

  (** a call on [c] leaves the other contexts alone *)
  Lemma represents_set : forall a m m' c v, In c cs -> represents cfg cs a m ->
    (forall c' i, In c' cs -> c' <> c -> i < sizeof_ctx cfg -> m' (c' + i) = m (c' + i)) ->
    match v with
    | Some (x, y, msg) => x < 2 ^ 64 /\ y < 2 ^ 64 /\ in_progress cfg m' c x y msg
    | None => ctx_mapped cfg m' c
    end -> represents cfg cs (set a c v) m'.
  Proof.
    intros a m m' c v Hc R E V c' Hc'. unfold set. destruct (N.eqb_spec c' c) as [->|NE]; [exact V|].
    specialize (R c' Hc'). pose proof (proj1 CS c' Hc') as CP.
    destruct (a c') as [[[x y] msg]|].
    - destruct R as (X & Y & R). split; [exact X|split; [exact Y|]]. eapply in_progress_agree; [exact CP| |exact R]. intros; apply E; auto.
    - eapply ctx_mapped_agree; [exact CP| |exact R]. intros i Hi Hm. now rewrite E.
  Qed.

  Lemma only_others : forall m m' c, In c cs -> only m m' c (sizeof_ctx cfg) ->
    forall c' i, In c' cs -> c' <> c -> i < sizeof_ctx cfg -> m' (c' + i) = m (c' + i).
  Proof.
    intros m m' c Hc O c' i Hc' NE Hi. apply O.
    pose proof (proj2 CS c' c Hc' Hc NE) as D. unfold apart in D. lia.
  Qed.

  Lemma step_ok : forall o a m, represents cfg cs a m -> legal cfg cs o a m ->
    exists m', step cfg o m = Ok (fst (astep cfg o a), m') /\
      represents cfg cs (snd (astep cfg o a)) m'.
  Proof.
    intros o a m R L. destruct o as [c x y|c p data|c bits extra|m'].
    - destruct L as (Hc & X & Y). pose proof (proj1 CS c Hc) as CP.
      assert (CM : ctx_mapped cfg m c).
      { pose proof (R c Hc) as Rc. destruct (a c) as [[[x0 y0] msg]|]; [|exact Rc].
        eapply in_progress_mapped; eauto. apply Rc. }
      destruct (t1ha2_init_ok cfg c CP m x y CM X Y) as (m1 & E1 & H1 & O1).
      exists m1. cbn [step astep fst snd]. split; [ok E1; reflexivity|].
      eapply represents_set; eauto using only_others.
    - destruct L as (Hc & S & C1 & C2 & C3 & C4). pose proof (proj1 CS c Hc) as CP.
      pose proof (R c Hc) as Rc. cbn [step astep].
      destruct (a c) as [[[x y] msg]|]; [|congruence]. destruct Rc as (X & Y & Rc).
      destruct (t1ha2_update_ok cfg c CP m x y msg p data Rc X Y C1 C3 (or_introl C2) C4) as (m1 & E1 & H1 & O1).
      exists m1. cbn [fst snd]. split; [ok E1; reflexivity|].
      eapply represents_set; eauto using only_others.
    - destruct L as (Hc & S & (B0 & BM & BA & BS & BD) & EX). pose proof (proj1 CS c Hc) as CP.
      pose proof (R c Hc) as Rc. cbn [step astep].
      destruct (a c) as [[[x y] msg]|]; [|congruence]. destruct Rc as (X & Y & Rc).
      assert (FR : final_ready cfg c m bits extra).
      { repeat split; auto.
        - pose proof (BD c Hc) as D. unfold apart in D. lia.
        - now apply EX.
        - now apply EX.
        - destruct (EX H) as (_ & _ & D). specialize (D c Hc). unfold apart in D. lia. }
      assert (OT : forall m', final_frame cfg c m m' bits extra ->
        forall c' i, In c' cs -> c' <> c -> i < sizeof_ctx cfg -> m' (c' + i) = m (c' + i)).
      { intros m' [F _] c' i Hc' NE Hi. pose proof (proj2 CS c' c Hc' Hc NE) as D. pose proof (BD c' Hc') as D2.
        unfold apart in *. apply F; [lia|lia|]. destruct (N.eq_dec extra 0) as [->|EN]; [now left|right].
        destruct (EX EN) as (_ & _ & D3). specialize (D3 c' Hc'). unfold apart in D3. lia. }
      destruct (N.eqb_spec extra 0) as [->|EN].
      + destruct (t1ha2_final64_ok cfg c CP m x y msg bits Rc X Y FR) as (m1 & E1 & M1 & F1).
        exists m1. cbn [fst snd]. split; [ok E1; reflexivity|]. eapply represents_set; eauto.
      + destruct (t1ha2_final128_ok cfg c CP m x y msg bits extra EN Rc X Y FR) as (m1 & E1 & B1 & M1 & F1).
        exists m1. cbn [fst snd]. split; [|eapply represents_set; eauto].
        ok E1. unfold peek. set (l := native cfg 8 (snd (t1ha2_stream128 x y msg))) in *.
        assert (Ll : 8%nat = length l) by (unfold l; now rewrite native_length).
        rewrite Ll. ok (load_bytes_ok l m1 extra B1). reflexivity.
    - exists m'. cbn [step astep fst snd]. split; [reflexivity|]. eapply represents_agree; eauto.
  Qed.

  Theorem history_ok : forall h a m, represents cfg cs a m -> legal_history cfg cs h a m ->
    exists m', run cfg h m = Ok (fst (arun cfg h a), m') /\ represents cfg cs (snd (arun cfg h a)) m'.
  Proof.
    induction h as [|o h IH]; intros a m R L.
    - exists m. split; [reflexivity|exact R].
    - destruct L as [L1 L2]. destruct (step_ok o a m R L1) as (m1 & E1 & R1).
      destruct (IH _ m1 R1 (L2 _ _ E1)) as (m2 & E2 & R2).
      exists m2. cbn [run arun]. ok E1. ok E2.
      destruct (astep cfg o a) as [r a1]. cbn [fst snd] in *.
      destruct (arun cfg h a1) as [rs a2]. cbn [fst snd] in *. auto.
  Qed.
End History.

(** results of a history that works with one context only, from its
    initialisation on, do not depend on what the context held before *)
Lemma arun_one : forall cfg c h a a',
  (forall o, In o h -> match o with Init c' _ _ | Update c' _ _ | Final c' _ _ => c' = c | Env _ => True end) ->
  a c = a' c -> fst (arun cfg h a) = fst (arun cfg h a').
Proof.
  intros cfg c h. induction h as [|o h IH]; intros a a' H E; [reflexivity|].
  cbn [arun]. assert (H' : forall o, In o h -> match o with Init c' _ _ | Update c' _ _ | Final c' _ _ => c' = c | Env _ => True end)
    by (intros; apply H; now right).
  pose proof (H o (or_introl eq_refl)) as Ho.
  assert (S : fst (astep cfg o a) = fst (astep cfg o a') /\ snd (astep cfg o a) c = snd (astep cfg o a') c).
  { destruct o as [c' x y|c' p d|c' b e|m']; cbn [astep].
    - subst c'. cbn [fst snd]. unfold set. now rewrite N.eqb_refl.
    - subst c'. rewrite E. destruct (a' c) as [[[x y] msg]|] eqn:E'; cbn [fst snd]; [unfold set; now rewrite N.eqb_refl|split; congruence].
    - subst c'. rewrite E. destruct (a' c) as [[[x y] msg]|] eqn:E'; cbn [fst snd]; [unfold set; now rewrite N.eqb_refl|split; congruence].
    - auto. }
  destruct S as [S1 S2]. specialize (IH _ _ H' S2).
  destruct (astep cfg o a) as [r a1], (astep cfg o a') as [r' a1']. cbn [fst snd] in *.
  destruct (arun cfg h a1), (arun cfg h a1'). cbn [fst] in *. congruence.
Qed.
