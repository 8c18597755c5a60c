(** XXH3 with multiple calls: what a state holds. *)
From Coq Require Import ZArith NArith Arith List Bool Lia Strings.Byte.
From Coq Require Import ZifyN ZifyNat ZifyBool.
From Verif Require Import Bytes CSem Bits Spec NBits CSemFacts OpsFacts FetchFacts CtxMem StreamFacts SelfcheckSpec
  HighwayFacts HighwayCat Xxhash XxhashSpec XxhashFacts Xxh3 Xxh3Spec Xxh3Facts Xxh3Secret Xxh3State.
Import ListNotations.
Ltac Zify.zify_post_hook ::= Z.div_mod_to_equations.
Local Open Scope N_scope.

Lemma mlen_app : forall a b, mlen (a ++ b) = mlen a + mlen b.
Proof. intros. unfold mlen. rewrite app_length. lia. Qed.
Lemma cut_at : forall (l : list byte) n, n <= mlen l -> exists a b, l = a ++ b /\ mlen a = n.
Proof.
  intros l n H. exists (firstn (N.to_nat n) l), (skipn (N.to_nat n) l). split; [symmetry; apply firstn_skipn|].
  unfold mlen in *. rewrite firstn_length. lia.
Qed.
Lemma here_app : forall cfg m p a b, here cfg m p (a ++ b) -> here cfg m p a /\ here cfg m (p + mlen a) b.
Proof.
  intros cfg m p a b [H A]. rewrite mlen_app in A. apply bytes_at_app in H. destruct H as [H1 H2].
  split; (split; [assumption|lia]).
Qed.

(** ** Stripes *)
Lemma w8_mid : forall a l b i, i + 8 <= mlen l -> w8 (a ++ l ++ b) (mlen a + i) = w8 l i.
Proof.
  intros a l b i H. unfold w8, word_at, mlen in *. f_equal.
  rewrite skipn_app. rewrite skipn_all2 by lia. cbn [app].
  replace (N.to_nat (N.of_nat (length a) + i) - length a)%nat with (N.to_nat i) by lia.
  rewrite skipn_app, firstn_app, skipn_length. replace (8 - (length l - N.to_nat i))%nat with 0%nat by lia.
  cbn [firstn]. apply app_nil_r.
Qed.
Lemma each_ext : forall f g, (forall k, k < 8 -> f k = g k) -> each f = each g.
Proof. intros f g H. unfold each. apply map_ext_in. intros k I. apply H. now apply in_below in I. Qed.
Lemma beside_lt : forall k, k < 8 -> beside k < 8.
Proof.
  intros k H. unfold beside. assert (C : k = 0 \/ k = 1 \/ k = 2 \/ k = 3 \/ k = 4 \/ k = 5 \/ k = 6 \/ k = 7) by lia.
  repeat (destruct C as [->|C]; [reflexivity|]). now subst k.
Qed.
Lemma stripe_mid : forall sec i a l b j v, j + 64 <= mlen l -> stripe_3 sec i (a ++ l ++ b) (mlen a + j) v = stripe_3 sec i l j v.
Proof.
  intros sec i a l b j v H. unfold stripe_3. apply each_ext. intros k K. pose proof (beside_lt k K).
  rewrite <- !N.add_assoc, !w8_mid by lia. reflexivity.
Qed.
Lemma stripes_app : forall sec a b n, 64 * n <= mlen a -> stripes_3 sec (a ++ b) n = stripes_3 sec a n.
Proof.
  intros sec a b n. induction n as [|n IH] using N.peano_ind; intro H; [reflexivity|].
  rewrite <- N.add_1_r, !stripes_snoc, IH by lia. unfold step_3.
  pose proof (stripe_mid sec (8 * (n mod period sec)) [] a b (64 * n) (stripes_3 sec a n) ltac:(lia)) as E.
  cbn [app] in E. change (mlen []) with 0 in E. rewrite N.add_0_l in E. now rewrite E.
Qed.
(** from the stripe [J] on, which is [s] stripes after a scramble, [n] stripes at most to the next one *)
Definition run (sec l : list byte) (s : N) (n : N) (v : lanes) : lanes :=
  fold_left (fun v k => stripe_3 sec (8 * (s + k)) l (64 * k) v) (below_n n) v.
Lemma run_snoc : forall sec l s n v, run sec l s (n + 1) v = stripe_3 sec (8 * (s + n)) l (64 * n) (run sec l s n v).
Proof.
  intros. unfold run. rewrite below_add, fold_left_app. change (below_n 1) with [0]. cbn [map fold_left]. now rewrite N.add_0_r.
Qed.
Lemma run_length : forall sec l s n v, length v = 8%nat -> length (run sec l s n v) = 8%nat.
Proof. intros sec l s n v L. induction n as [|n IH] using N.peano_ind; [exact L|]. rewrite <- N.add_1_r, run_snoc. reflexivity. Qed.
Lemma mod_next : forall J s p n, J mod p = s -> s + n < p -> (J + n) mod p = s + n.
Proof.
  intros J s p n E L. assert (p <> 0) by lia. rewrite <- N.add_mod_idemp_l, E by assumption. now apply N.mod_small.
Qed.
Lemma mod_full : forall J s p n, J mod p = s -> s + n = p -> p <> 0 -> (J + n) mod p = 0.
Proof. intros J s p n E L Z. rewrite <- N.add_mod_idemp_l, E, L by assumption. now apply N.mod_same. Qed.
Lemma stripe_of : forall sec d l J n i v, mlen d = 64 * J -> 64 * (n + 1) <= mlen l ->
  stripe_3 sec i (d ++ l) (64 * (J + n)) v = stripe_3 sec i l (64 * n) v.
Proof.
  intros sec d l J n i v D L. pose proof (stripe_mid sec i d l [] (64 * n) v ltac:(lia)) as E. rewrite app_nil_r in E.
  rewrite <- E. f_equal. lia.
Qed.
Lemma run_part : forall sec d l J n, mlen d = 64 * J -> 64 * n <= mlen l -> J mod period sec + n < period sec ->
  run sec l (J mod period sec) n (stripes_3 sec d J) = stripes_3 sec (d ++ l) (J + n).
Proof.
  intros sec d l J n D. induction n as [|n IH] using N.peano_ind; intros L P.
  - rewrite N.add_0_r, stripes_app by lia. reflexivity.
  - rewrite <- N.add_1_r, run_snoc, IH, N.add_assoc, stripes_snoc by lia. unfold step_3.
    rewrite <- N.add_assoc, (mod_next J (J mod period sec) (period sec) (n + 1)) by (auto; lia).
    replace (J mod period sec + (n + 1) =? 0) with false by lia.
    rewrite (mod_next J (J mod period sec) (period sec) n) by (auto; lia). now rewrite stripe_of by (auto; lia).
Qed.
Lemma run_full : forall sec d l J n, mlen d = 64 * J -> 64 * n <= mlen l -> J mod period sec + n = period sec -> n <> 0 ->
  scramble sec (mlen sec - 64) (run sec l (J mod period sec) n (stripes_3 sec d J)) = stripes_3 sec (d ++ l) (J + n).
Proof.
  intros sec d l J n D L P Z. replace n with (n - 1 + 1) in * by lia. set (k := n - 1) in *. clearbody k. clear Z.
  rewrite run_snoc, run_part, N.add_assoc, stripes_snoc by (auto; lia). unfold step_3.
  rewrite <- N.add_assoc, (mod_full J (J mod period sec) (period sec) (k + 1)) by (auto; lia). cbn [N.eqb].
  rewrite (mod_next J (J mod period sec) (period sec) k) by (auto; lia). now rewrite stripe_of by (auto; lia).
Qed.

Lemma tail_eq : forall (a b x y : list byte), a ++ x = b ++ y -> length x = length y -> x = y.
Proof.
  intros a. induction a as [|c a IH]; intros b x y E L.
  - destruct b as [|c b]; [exact E|]. cbn [app] in E. subst x. cbn [length] in L. rewrite app_length in L. lia.
  - destruct b as [|c' b].
    + cbn [app] in E. subst y. cbn [length] in L. rewrite app_length in L. lia.
    + cbn [app] in E. injection E as _ E. exact (IH b x y E L).
Qed.
Lemma only_here : forall cfg m m' p n a l, only m m' p n -> (a + mlen l <= p \/ p + n <= a) -> here cfg m a l -> here cfg m' a l.
Proof. intros cfg m m' p n a l O D [H A]. split; [|exact A]. exact (only_bytes m m' p n a l O D H). Qed.

Section Stream.
  Variable (cfg : config) (x3 : xxh3_build).
  Hypothesis Hd : xxh_force_memory_access (x3_xxh x3) <> 2.
  Variables (q : N) (sec : list byte).
  Hypothesis Hz : 136 <= mlen sec.

  Lemma accumulate_from : forall m p l s n v, here cfg m p l -> here cfg m q sec -> length v = 8%nat ->
    64 * n <= mlen l -> 8 * (s + n) + 56 <= mlen sec ->
    XXH3_accumulate cfg x3 p (q + 8 * s) n v m = Ok (run sec l s n v, m).
  Proof.
    intros m p l s n v Hl Hs Lv Hj Hi. unfold XXH3_accumulate, run.
    refine (eq_trans (proj1 (for_loop_ok (list N) (fun a => length a = 8%nat)
      (fun v k => stripe_3 sec (8 * (s + k)) l (64 * k) v) (N.to_nat n) _ v m Lv _)) _).
    - intros k a Lk La. split; [|reflexivity].
      rewrite (at_i cfg m p l (k * 64) Hl), (at_ij cfg m q sec (8 * s) (k * 8) Hs) by lia.
      rewrite (accumulate_512_at cfg x3 Hd m p q l sec Hl Hs Hz) by (auto; lia). do 3 f_equal; lia.
    - now rewrite N2Nat.id.
  Qed.

  Lemma consume_ok : forall m d J p l n, mlen d = 64 * J -> here cfg m p l -> here cfg m q sec -> 64 * n <= mlen l -> n <= period sec ->
    XXH3_consumeStripes cfg x3 (stripes_3 sec d J) (J mod period sec) (period sec) p n q (mlen sec - 64) m =
    Ok ((stripes_3 sec (d ++ l) (J + n), (J + n) mod period sec), m).
  Proof.
    intros m d J p l n D Hl Hs L P. unfold XXH3_consumeStripes.
    assert (PP : 9 <= period sec) by (unfold period; lia). assert (PZ : 8 * period sec <= mlen sec - 64) by (unfold period; lia).
    assert (SL : mlen sec < addr_space cfg) by (destruct Hs; lia). assert (LL : mlen l < addr_space cfg) by (destruct Hl; lia).
    assert (S : J mod period sec < period sec) by (apply N.mod_lt; lia).
    set (s := J mod period sec) in *. assert (Es : s = J mod period sec) by reflexivity. clearbody s.
    asserted. asserted. rewrite (psub_small cfg (period sec) s) by lia.
    rewrite (at_i cfg m q sec (s * 8) Hs), (N.mul_comm s 8) by lia.
    destruct (N.leb_spec (period sec - s) n) as [C|C].
    - cbv zeta. rewrite (psub_small cfg n) by lia.
      ok (accumulate_from m p l s (period sec - s) (stripes_3 sec d J) Hl Hs (stripes_length d sec J) ltac:(lia) ltac:(lia)).
      rewrite (at_i cfg m q sec (mlen sec - 64) Hs) by lia.
      ok (scramble_at cfg x3 Hd m q l sec Hs Hz (mlen sec - 64) (run sec l s (period sec - s) (stripes_3 sec d J)) (run_length _ _ _ _ _ (stripes_length d sec J)) ltac:(lia)).
      rewrite Es at 2. rewrite Es at 2.
      rewrite run_full by (rewrite <- ?Es; auto; lia). rewrite <- Es.
      set (t := period sec - s) in *. assert (Et : J + n = J + t + (n - t)) by lia.
      destruct (cut_at l (64 * t)) as (l1 & l2 & El & L1); [lia|]. subst l. rewrite mlen_app in *.
      destruct (here_app cfg m p l1 l2 Hl) as [H1 H2].
      assert (E : stripes_3 sec (d ++ l1 ++ l2) (J + t) = stripes_3 sec (d ++ l1) (J + t)).
      { rewrite app_assoc. apply stripes_app. rewrite mlen_app. lia. }
      rewrite E. rewrite (at_i cfg m p (l1 ++ l2) (t * 64) Hl), (N.mul_comm t 64), <- L1 by (rewrite mlen_app; lia).
      assert (M0 : (J + t) mod period sec = 0) by (apply (mod_full J s); auto; lia).
      pose proof (accumulate_from m (p + mlen l1) l2 0 (n - t) (stripes_3 sec (d ++ l1) (J + t)) H2 Hs (stripes_length _ sec _) ltac:(lia) ltac:(lia)) as A.
      rewrite N.mul_0_r, N.add_0_r in A. ok A. rewrite Et.
      pose proof (run_part sec (d ++ l1) l2 (J + t) (n - t)) as R. rewrite M0 in R. rewrite R by (rewrite ?mlen_app; lia).
      rewrite <- app_assoc. unfold ret. rewrite (mod_next (J + t) 0 (period sec) (n - t) M0) by lia. now rewrite N.add_0_l.
    - ok (accumulate_from m p l s n (stripes_3 sec d J) Hl Hs (stripes_length d sec J) ltac:(lia) ltac:(lia)).
      rewrite Es at 1. rewrite run_part by (rewrite <- ?Es; auto; lia). rewrite padd_small by lia.
      rewrite (mod_next J s) by (auto; lia). reflexivity.
  Qed.

  Let per := period sec.
  Let lim := mlen sec - 64.
  Let feed4 (y : (list N * N) * N) : M ((list N * N) * N) :=
    c <- XXH3_consumeStripes cfg x3 (fst (fst y)) (snd (fst y)) per (snd y) 4 q lim ;; ret (c, padd cfg (snd y) 256).
  (** the accumulators and the counter after [d] *)
  Let after (d : list byte) (C : N) : list N * N := (stripes_3 sec d (4 * C), (4 * C) mod per).

  Lemma feed4_ok : forall m d C p l, mlen d = 256 * C -> here cfg m p l -> here cfg m q sec -> mlen l = 256 ->
    XXH3_consumeStripes cfg x3 (fst (after d C)) (snd (after d C)) per p 4 q lim m = Ok (after (d ++ l) (C + 1), m).
  Proof.
    intros m d C p l D Hl Hs L. unfold after, per, lim. cbn [fst snd].
    rewrite (consume_ok m d (4 * C) p l 4) by (auto; try lia; unfold period; lia).
    now replace (4 * (C + 1)) with (4 * C + 4) by lia.
  Qed.

  Lemma loop_ok : forall fuel m d C l p e, mlen d = 256 * C -> here cfg m p l -> here cfg m q sec -> 256 < mlen l ->
    e = p + mlen l - 256 -> mlen l / 256 <= N.of_nat fuel ->
    exists k c r, l = c ++ r /\ mlen c = 256 * k /\ k <> 0 /\ 1 <= mlen r <= 256 /\
      do_while fuel feed4 (fun y => snd y <? e) (after d C, p) m = Ok ((after (d ++ c) (C + k), p + mlen c), m).
  Proof.
    induction fuel as [|fuel IH]; intros m d C l p e D Hl Hs L E F; [lia|].
    destruct (cut_at l 256) as (c0 & l' & El & L0); [lia|]. subst l. rewrite mlen_app in *.
    pose proof (here_app cfg m p c0 l' Hl) as [H1 H2]. cbn [do_while].
    assert (E1 : feed4 (after d C, p) m = Ok ((after (d ++ c0) (C + 1), p + 256), m)).
    { unfold feed4. cbn [fst snd]. pose proof (feed4_ok m d C p c0 D H1 Hs L0) as E1. unfold after in E1 at 1 2. cbn [fst snd] in E1.
      ok E1. unfold ret. rewrite padd_small by (destruct Hl as [_ A]; rewrite mlen_app in A; lia). reflexivity. }
    ok E1. cbn [snd]. destruct (N.ltb_spec (p + 256) e) as [X|X].
    - rewrite L0 in H2. destruct (IH m (d ++ c0) (C + 1) l' (p + 256) e) as (k & c & r & E2 & L2 & K & LR & E3); auto; try lia.
      { rewrite mlen_app. lia. }
      subst l'. exists (k + 1), (c0 ++ c), r. split; [now rewrite app_assoc|]. split; [rewrite mlen_app; lia|]. split; [lia|]. split; [exact LR|].
      rewrite E3, mlen_app, L0, app_assoc. do 3 f_equal; [f_equal|]; lia.
    - exists 1, c0, l'. split; [reflexivity|]. split; [lia|]. split; [discriminate|]. split; [lia|]. unfold ret. now rewrite L0.
  Qed.

  (** from the first assertion of XXH3_update on *)
  Let ender (st e len : N) (mk : list N -> N -> N -> XXH3_state) (y : (list N * N) * N) : M (N * XXH3_state) :=
    XXH_ASSERT cfg x3 (snd y <? e) ;;;
    y <- (if padd cfg (snd y) 256 <? e then
            y <- do_while (S (N.to_nat (len / 256))) feed4 (fun y => snd y <? psub cfg e 256) y ;;
            memcpy cfg (psub cfg (padd cfg (padd cfg st 256) 256) 64) (psub cfg (snd y) 64) 64 ;;;
            ret y
          else ret y) ;;
    XXH_ASSERT cfg x3 (snd y <? e) ;;;
    memcpy cfg (padd cfg st 256) (snd y) (psub cfg e (snd y)) ;;;
    ret (XXH_OK, mk (fst (fst y)) (snd (fst y)) (u32 (psub cfg e (snd y)))).

  Lemma ender_ok : forall m st d C l p len mk, mlen d = 256 * C -> here cfg m p l -> here cfg m q sec -> l <> [] -> mlen l <= len ->
    p <> 0 -> p + mlen l + 255 < addr_space cfg -> st + 512 < addr_space cfg -> mapped m (st + 256) 256 ->
    apart (st + 256) 256 p (mlen l) -> (forall d0 e, d = d0 ++ e -> mlen e = 64 -> bytes_at m (st + 448) e) ->
    exists k c r m', l = c ++ r /\ mlen c = 256 * k /\ 1 <= mlen r <= 256 /\
      ender st (p + mlen l) len mk (after d C, p) m = Ok ((XXH_OK, mk (fst (after (d ++ c) (C + k))) (snd (after (d ++ c) (C + k))) (mlen r)), m') /\
      bytes_at m' (st + 256) r /\ (mlen r < 64 -> forall d0 e, d ++ c = d0 ++ e -> mlen e = 64 -> bytes_at m' (st + 448) e) /\
      only m m' (st + 256) 256.
  Proof.
    intros m st d C l p len mk D Hl Hs NE LE P A A' MP AP TL. unfold apart in AP.
    assert (LP : mlen l <> 0) by (unfold mlen; destruct l; [contradiction|cbn [length]; lia]).
    assert (X : exists k c r m1, l = c ++ r /\ mlen c = 256 * k /\ 1 <= mlen r <= 256 /\
      (if padd cfg p 256 <? p + mlen l then
            y <- do_while (S (N.to_nat (len / 256))) feed4 (fun y => snd y <? psub cfg (p + mlen l) 256) (after d C, p) ;;
            memcpy cfg (psub cfg (padd cfg (padd cfg st 256) 256) 64) (psub cfg (snd y) 64) 64 ;;;
            ret y
          else ret (after d C, p)) m = Ok ((after (d ++ c) (C + k), p + mlen c), m1) /\
      (forall d0 e, d ++ c = d0 ++ e -> mlen e = 64 -> bytes_at m1 (st + 448) e) /\ only m m1 (st + 256) 256).
    { rewrite (padd_small cfg p) by lia. destruct (N.ltb_spec (p + 256) (p + mlen l)) as [X|X].
      - rewrite (psub_small cfg (p + mlen l)) by lia.
        destruct (loop_ok (S (N.to_nat (len / 256))) m d C l p (p + mlen l - 256) D Hl Hs) as (k & c & r & E & LC & K & LR & E2); try lia; auto.
        subst l. rewrite mlen_app in *. ok E2. cbn [snd].
        destruct (cut_at c (mlen c - 64)) as (c1 & e1 & Ec & L1); [lia|]. assert (Le1 : mlen e1 = 64) by (assert (mlen c = mlen c1 + mlen e1) by (rewrite Ec at 1; apply mlen_app); lia).
        destruct (here_app _ _ _ _ _ Hl) as [Hc _]. pose proof Hc as Hc0. rewrite Ec in Hc. destruct (here_app _ _ _ _ _ Hc) as [_ He]. rewrite L1 in He.
        rewrite (padd_small cfg st), (padd_small cfg (st + 256)), (psub_small cfg (st + 256 + 256)), (psub_small cfg (p + mlen c)) by lia.
        replace (st + 256 + 256 - 64) with (st + 448) by lia. replace (p + mlen c - 64) with (p + (mlen c - 64)) by lia.
        assert (MC : memcpy cfg (st + 448) (p + (mlen c - 64)) 64 m = Ok (tt, write m (st + 448) e1)).
        { pose proof (memcpy_ok cfg m (st + 448) (p + (mlen c - 64)) e1) as MK. rewrite Le1 in MK.
          apply MK; [lia|lia|exact (proj1 He)| |right; lia].
          intros i I. replace (st + 448 + N.of_nat i) with (st + 256 + N.of_nat (192 + i)) by lia. apply MP. unfold mlen in Le1. lia. }
        ok MC. assert (O : only m (write m (st + 448) e1) (st + 448) 64) by (now apply only_write).
        pose proof (write_bytes_at m (st + 448) e1) as WB. set (m1 := write m (st + 448) e1) in *. clearbody m1.
        exists k, c, r, m1. split; [reflexivity|]. split; [exact LC|]. split; [exact LR|]. split; [reflexivity|]. split.
        + intros d0 e Ed Le. assert (e = e1) as ->; [|exact WB]. rewrite Ec in Ed. rewrite app_assoc in Ed.
          symmetry in Ed. apply (tail_eq _ _ _ _ Ed). unfold mlen in *. lia.
        + eapply only_weaken; [exact O|lia|lia].
      - exists 0, [], l, m. split; [reflexivity|]. split; [reflexivity|]. split; [lia|].
        rewrite app_nil_r. change (mlen []) with 0. rewrite !N.add_0_r. split; [reflexivity|]. split; [exact TL|apply only_refl]. }
    destruct X as (k & c & r & m1 & E & LC & LR & EX & T1 & O1). exists k, c, r.
    subst l. rewrite mlen_app in *.
    destruct (here_app _ _ _ _ _ Hl) as [_ Hr].
    assert (MC : memcpy cfg (st + 256) (p + mlen c) (mlen r) m1 = Ok (tt, write m1 (st + 256) r)).
    { apply memcpy_ok; [lia|lia| | |right; lia].
      - eapply only_bytes; [exact O1| |exact (proj1 Hr)]. lia.
      - intros i I. apply (only_mapped _ _ _ _ _ _ O1 MP). unfold mlen in LR. lia. }
    assert (O : only m1 (write m1 (st + 256) r) (st + 256) (mlen r)) by (now apply only_write).
    pose proof (write_bytes_at m1 (st + 256) r) as WB. set (m2 := write m1 (st + 256) r) in *. clearbody m2.
    exists m2. split; [reflexivity|]. split; [exact LC|]. split; [exact LR|]. split.
    { unfold ender. cbn [snd fst]. asserted. ok EX. cbn [snd fst]. asserted. rewrite (padd_small cfg st), psub_small by lia.
      replace (p + (mlen c + mlen r) - (p + mlen c)) with (mlen r) by lia. ok MC. unfold ret. rewrite u32_small by lia. reflexivity. }
    split; [exact WB|]. split.
    - intros L64 d0 e Ed Le. apply (only_bytes _ _ _ _ _ _ O); [lia|]. exact (T1 d0 e Ed Le).
    - eapply only_trans; [exact O1|]. eapply only_weaken; [exact O|lia|lia].
  Qed.

  (** the state [s] at [st] has been fed [msg] *)
  Definition fed (msg : list byte) (seed ext st : N) (s : XXH3_state) (m : mem) : Prop :=
    exists C d t, msg = d ++ t /\ mlen d = 256 * C /\ mlen t <= 256 /\ (t = [] -> d = []) /\
      s = S3 (stripes_3 sec d (4 * C)) (mlen t) (period sec) ((4 * C) mod period sec) (mlen sec - 64) (mlen msg) seed ext /\
      bytes_at m (st + 256) t /\ (mlen t < 64 -> forall d0 e, d = d0 ++ e -> mlen e = 64 -> bytes_at m (st + 448) e) /\
      mapped m (st + 256) 256.

  Variables (seed ext st : N).
  Hypothesis (Hst : st + 512 < addr_space cfg) (Hst0 : st <> 0).
  Hypothesis (Hext : (if ext =? 0 then st + 64 else ext) = q).
  Hypothesis (Hap : q + mlen sec <= st + 256 \/ st + 512 <= q).

  Lemma secret_ok : forall s, s3_extSecret s = ext -> secret_of cfg st s = q.
  Proof. intros s E. unfold secret_of, customSecret_of. rewrite E, padd_small by lia. exact Hext. Qed.

  Lemma update_ok : forall msg s m p l, fed msg seed ext st s m -> here cfg m p l -> here cfg m q sec -> p <> 0 ->
    p + mlen l + 255 < addr_space cfg -> apart (st + 256) 256 p (mlen l) -> mlen (msg ++ l) < 2 ^ 64 ->
    exists s' m', XXH3_update cfg x3 st p (mlen l) s m = Ok ((XXH_OK, s'), m') /\ fed (msg ++ l) seed ext st s' m' /\
      only m m' (st + 256) 256.
  Proof.
    intros msg s m p l (C & d & t & Em & D & LT & NE & Es & BT & TL & MP) Hl Hs P A AP T64.
    unfold XXH3_update. replace (p =? 0) with false by lia. rewrite Es. rewrite secret_ok by reflexivity.
    cbn [s3_acc s3_bufferedSize s3_nbStripesPerBlock s3_nbStripesSoFar s3_secretLimit s3_totalLen s3_seed s3_extSecret].
    unfold buffer_of, XXH3_INTERNALBUFFER_SIZE, XXH3_INTERNALBUFFER_STRIPES. cbv zeta.
    assert (TT : add64 (mlen msg) (mlen l) = mlen (msg ++ l)).
    { unfold add64. rewrite mlen_app in *. rewrite u64_eq. apply N.mod_small. exact T64. }
    rewrite TT. unfold apart in AP. pose proof Hl as [Hlb Hla].
    rewrite (padd_small cfg p (mlen l)), (padd_small cfg (mlen t)), (padd_small cfg st) by lia.
    destruct (N.leb_spec (mlen t + mlen l) 256) as [X|X].
    - rewrite (padd_small cfg (st + 256)) by lia.
      assert (MC : memcpy cfg (st + 256 + mlen t) p (mlen l) m = Ok (tt, write m (st + 256 + mlen t) l)).
      { apply memcpy_ok; [lia|exact P|exact Hlb| |right; lia].
        intros i I. replace (st + 256 + mlen t + N.of_nat i) with (st + 256 + N.of_nat (length t + i)) by (unfold mlen; lia).
        apply MP. unfold mlen in X. lia. }
      ok MC. assert (O : only m (write m (st + 256 + mlen t) l) (st + 256 + mlen t) (mlen l)) by (now apply only_write).
      pose proof (write_bytes_at m (st + 256 + mlen t) l) as WB. set (m1 := write m (st + 256 + mlen t) l) in *. clearbody m1.
      assert (O' : only m m1 (st + 256) 256) by (eapply only_weaken; [exact O|lia|lia]).
      eexists _, m1. split; [unfold ret; reflexivity|]. split; [|exact O'].
      exists C, d, (t ++ l). split; [subst msg; now rewrite app_assoc|]. split; [exact D|]. split; [rewrite mlen_app; exact X|].
      split. { intro Z. apply app_eq_nil in Z. destruct Z as [Z _]. now apply NE. }
      split. { unfold add32. rewrite !u32_small by (rewrite ?u32_small; lia). now rewrite (mlen_app t l). }
      split. { apply bytes_at_app. split; [|exact WB]. eapply only_bytes; [exact O| |exact BT]. lia. }
      split; [|eapply only_mapped; [exact O'|exact MP]].
      intros L64 d0 e Ed Le. rewrite mlen_app in L64. eapply only_bytes; [exact O| |refine (TL _ d0 e Ed Le); lia]. lia.
    - destruct (N.eqb_spec (mlen t) 0) as [Z|Z]; cbn [negb].
      + assert (t = []) as -> by (destruct t; [reflexivity|discriminate Z]). specialize (NE eq_refl). subst d. cbn [app] in Em. subst msg.
        rewrite bind_ret. change (mlen []) with 0 in D. assert (C = 0) as -> by lia.
        destruct (ender_ok m st [] 0 l p (mlen l) (fun acc soFar b => S3 acc b per soFar lim (mlen ([] ++ l)) seed ext)) as (k & c & r & m' & El & LC & LR & E & WB & T2 & O); auto.
        { intro El. subst l. cbn in X. lia. }
        { lia. }
        { intros d0 e Ed Le. symmetry in Ed. apply app_eq_nil in Ed. destruct Ed as [_ ->]. discriminate Le. }
        unfold ender in E. rewrite !(padd_small cfg st 256) in E by lia. eexists _, m'. split; [exact E|]. split; [|exact O].
        exists k, c, r. split; [exact El|]. split; [exact LC|]. split; [lia|]. split; [intro; subst r; cbn in LR; lia|].
        split; [reflexivity|]. split; [exact WB|]. split; [exact T2|eapply only_mapped; [exact O|exact MP]].
      + (* the buffer gets full *)
        assert (SB : sub32 256 (mlen t) = 256 - mlen t).
        { unfold sub32. rewrite (u32_small 256), (u32_small (mlen t)) by lia.
          rewrite u32_eq. replace (256 + W32 - mlen t) with (256 - mlen t + 1 * 2 ^ 32) by (change (2 ^ 32) with 4294967296; lia).
          rewrite N.mod_add by discriminate. apply N.mod_small. change (2 ^ 32) with 4294967296. lia. }
        rewrite SB. destruct (cut_at l (256 - mlen t)) as (l1 & l2 & El & L1); [lia|]. subst l. rewrite mlen_app in *.
        destruct (here_app _ _ _ _ _ Hl) as [H1 H2].
        rewrite (padd_small cfg (st + 256)) by lia.
        assert (MC : memcpy cfg (st + 256 + mlen t) p (256 - mlen t) m = Ok (tt, write m (st + 256 + mlen t) l1)).
        { rewrite <- L1. apply memcpy_ok; [lia|exact P|exact (proj1 H1)| |right; lia].
          intros i I. replace (st + 256 + mlen t + N.of_nat i) with (st + 256 + N.of_nat (length t + i)) by (unfold mlen; lia).
          apply MP. unfold mlen in L1. unfold mlen in LT. lia. }
        rewrite bind_assoc. ok MC. assert (O1 : only m (write m (st + 256 + mlen t) l1) (st + 256 + mlen t) (mlen l1)) by (now apply only_write).
        pose proof (write_bytes_at m (st + 256 + mlen t) l1) as WB1. set (m1 := write m (st + 256 + mlen t) l1) in *. clearbody m1.
        assert (O1' : only m m1 (st + 256) 256) by (eapply only_weaken; [exact O1|lia|lia]).
        assert (HB : here cfg m1 (st + 256) (t ++ l1)).
        { split; [|rewrite mlen_app; lia]. apply bytes_at_app. split; [|exact WB1]. eapply only_bytes; [exact O1| |exact BT]. lia. }
        assert (LB : mlen (t ++ l1) = 256) by (rewrite mlen_app; lia).
        assert (Hs1 : here cfg m1 q sec) by (eapply only_here; [exact O1'| |exact Hs]; lia).
        pose proof (feed4_ok m1 d C (st + 256) (t ++ l1) D HB Hs1 LB) as EF. unfold after in EF at 1 2. cbn [fst snd] in EF.
        unfold per, lim in EF. rewrite bind_assoc. ok EF. rewrite bind_ret. rewrite (padd_small cfg p) by lia.
        assert (Hl2 : here cfg m1 (p + mlen l1) l2) by (eapply only_here; [exact O1'| |exact H2]; lia).
        destruct (ender_ok m1 st (d ++ t ++ l1) (C + 1) l2 (p + mlen l1) (mlen l1 + mlen l2) (fun acc soFar b => S3 acc b per soFar lim (mlen (msg ++ l1 ++ l2)) seed ext))
          as (k & c & r & m' & El & LC & LR & E & WB & T2 & O); auto.
        { rewrite mlen_app, LB. lia. }
        { intro El. subst l2. change (mlen []) with 0 in X. lia. }
        { lia. }
        { lia. }
        { lia. }
        { eapply only_mapped; [exact O1'|exact MP]. }
        { unfold apart. lia. }
        { intros d0 e Ed Le. destruct (cut_at (t ++ l1) 192) as (x & y & Ex & Lx); [lia|].
          assert (Ly : mlen y = 64) by (rewrite Ex, mlen_app in LB; lia).
          rewrite Ex, app_assoc in Ed. symmetry in Ed. apply tail_eq in Ed; [|unfold mlen in *; lia]. subst e.
          destruct HB as [HB _]. rewrite Ex in HB. apply bytes_at_app in HB. destruct HB as [_ HB].
          replace (st + 448) with (st + 256 + N.of_nat (length x)) by (unfold mlen in Lx; lia). exact HB. }
        unfold ender in E. rewrite !(padd_small cfg st 256) in E by lia. replace (p + (mlen l1 + mlen l2)) with (p + mlen l1 + mlen l2) by lia. rewrite <- L1.
        eexists _, m'. split; [exact E|]. split; [|eapply only_trans; [exact O1'|exact O]].
        exists (C + 1 + k), (d ++ (t ++ l1) ++ c), r. subst msg l2. split; [now rewrite !app_assoc|].
        split; [rewrite !mlen_app, LC in *; lia|]. split; [lia|]. split; [intro; subst r; cbn in LR; lia|].
        split; [rewrite !app_assoc; reflexivity|]. split; [exact WB|]. split; [|eapply only_mapped; [exact O|eapply only_mapped; [exact O1'|exact MP]]].
        intros L64 d0 e Ed Le. apply (T2 L64 d0 e); [|exact Le]. rewrite <- Ed. now rewrite !app_assoc.
  Qed.

  Lemma sub32_small : forall a b, b <= a -> a < 2 ^ 32 -> sub32 a b = a - b.
  Proof.
    intros a b L A. unfold sub32. rewrite (u32_small a), (u32_small b) by (rewrite ?u32_eq; lia).
    rewrite u32_eq. replace (a + W32 - b) with (a - b + 1 * 2 ^ 32) by (change (2 ^ 32) with 4294967296; lia).
    rewrite N.mod_add by discriminate. apply N.mod_small. lia.
  Qed.

  Variables (local : N).
  Hypothesis (Hl0 : local <> 0) (Hla : local + 64 < addr_space cfg).
  Hypothesis (Hlst : apart local 64 (st + 256) 256) (Hlq : apart local 64 q (mlen sec)).

  Lemma digest_long_ok : forall msg s m, fed msg seed ext st s m -> here cfg m q sec -> mapped m local 64 -> 240 < mlen msg ->
    exists m', XXH3_digest_long cfg x3 local st s q m = Ok (long_3 sec msg, m') /\ only m m' local 64 /\ here cfg m' q sec.
  Proof.
    intros msg s m (C & d & t & Em & D & LT & NE & Es & BT & TL & MP) Hs ML L240.
    assert (PP : 9 <= period sec) by (unfold period; lia). assert (Hsa : q + mlen sec < addr_space cfg) by apply Hs.
    assert (Lm : mlen msg = mlen d + mlen t) by (rewrite Em; apply mlen_app).
    unfold XXH3_digest_long. rewrite Es.
    cbn [s3_acc s3_bufferedSize s3_nbStripesPerBlock s3_nbStripesSoFar s3_secretLimit s3_totalLen s3_seed s3_extSecret].
    unfold buffer_of. cbv zeta. rewrite (padd_small cfg st), (padd_small cfg q), (psub_small cfg (q + (mlen sec - 64))) by lia.
    replace (q + (mlen sec - 64) - 7) with (q + (mlen sec - 71)) by lia.
    assert (HB : here cfg m (st + 256) t) by (split; [exact BT|lia]). unfold apart in *.
    destruct (N.leb_spec 64 (mlen t)) as [X|X].
    - exists m. split; [|split; [apply only_refl|exact Hs]]. rewrite sub32_small by (change (2 ^ 32) with 4294967296; lia).
      set (n := (mlen t - 1) / 64). assert (Ln : 64 * n < mlen t /\ mlen t <= 64 * n + 64) by (unfold n; lia).
      ok (consume_ok m d (4 * C) (st + 256) t n ltac:(lia) HB Hs ltac:(lia) ltac:(lia)). cbn [fst].
      rewrite (back_i cfg m (st + 256) t (mlen t) 64 HB) by lia.
      rewrite (accumulate_512_at cfg x3 Hd m (st + 256) q t sec HB Hs Hz) by (try apply stripes_length; lia).
      unfold long_3. rewrite <- Em. replace ((mlen msg - 1) / 64) with (4 * C + n) by lia.
      pose proof (stripe_mid sec (mlen sec - 71) d t [] (mlen t - 64) (stripes_3 sec msg (4 * C + n)) ltac:(lia)) as E.
      rewrite app_nil_r, <- Em in E. rewrite <- E. do 3 f_equal. lia.
    - assert (Zt : mlen t <> 0).
      { intro Zt. assert (t = []) as -> by (destruct t; [reflexivity|discriminate Zt]). specialize (NE eq_refl). subst d. cbn in Lm. lia. }
      destruct (cut_at d (mlen d - 64)) as (d0 & e & Ed & Ld0); [lia|]. assert (Le : mlen e = 64) by (assert (mlen d = mlen d0 + mlen e) by (rewrite Ed at 1; apply mlen_app); lia).
      specialize (TL X d0 e Ed Le).
      destruct (cut_at e (mlen t)) as (e1 & e2 & Ee & Le1); [lia|]. assert (Le2 : mlen e2 = 64 - mlen t) by (assert (mlen e = mlen e1 + mlen e2) by (rewrite Ee at 1; apply mlen_app); lia).
      rewrite Ee in TL. apply bytes_at_app in TL. destruct TL as [_ TL]. change (N.of_nat (length e1)) with (mlen e1) in TL. rewrite Le1 in TL.
      rewrite sub32_small by (change (2 ^ 32) with 4294967296; lia).
      rewrite (padd_small cfg (st + 256)), (psub_small cfg (st + 256 + 256)), (padd_small cfg local) by lia.
      replace (st + 256 + 256 - (64 - mlen t)) with (st + 448 + mlen t) by lia.
      assert (M1 : memcpy cfg local (st + 448 + mlen t) (64 - mlen t) m = Ok (tt, write m local e2)).
      { rewrite <- Le2. apply memcpy_ok; [exact Hl0|lia|exact TL| |right; lia]. intros i I. apply ML. unfold mlen in *. lia. }
      assert (O1 : only m (write m local e2) local (mlen e2)) by (now apply only_write).
      pose proof (write_bytes_at m local e2) as W1. set (m1 := write m local e2) in *. clearbody m1.
      assert (M2 : memcpy cfg (local + (64 - mlen t)) (st + 256) (mlen t) m1 = Ok (tt, write m1 (local + (64 - mlen t)) t)).
      { apply memcpy_ok; [lia|lia|eapply only_bytes; [exact O1| |exact BT]; lia| |right; lia].
        intros i I. replace (local + (64 - mlen t) + N.of_nat i) with (local + N.of_nat (length e2 + i)) by (unfold mlen in *; lia).
        apply (only_mapped _ _ _ _ _ _ O1 ML). unfold mlen in *. lia. }
      assert (O2 : only m1 (write m1 (local + (64 - mlen t)) t) (local + (64 - mlen t)) (mlen t)) by (now apply only_write).
      pose proof (write_bytes_at m1 (local + (64 - mlen t)) t) as W2. set (m2 := write m1 (local + (64 - mlen t)) t) in *. clearbody m2.
      assert (O : only m m2 local 64).
      { eapply only_trans; [eapply only_weaken; [exact O1|lia|lia]|eapply only_weaken; [exact O2|lia|lia]]. }
      assert (HL : here cfg m2 local (e2 ++ t)).
      { split; [|rewrite mlen_app; lia]. apply bytes_at_app. split; [eapply only_bytes; [exact O2| |exact W1]; lia|].
        change (N.of_nat (length e2)) with (mlen e2). rewrite Le2. exact W2. }
      assert (Hs2 : here cfg m2 q sec) by (eapply only_here; [exact O| |exact Hs]; lia).
      exists m2. split; [|split; [exact O|exact Hs2]]. asserted. ok M1. ok M2.
      pose proof (accumulate_512_at cfg x3 Hd m2 local q (e2 ++ t) sec HL Hs2 Hz (mlen sec - 71) 0 (stripes_3 sec d (4 * C)) (stripes_length d sec _)) as A.
      rewrite N.add_0_r in A. rewrite A by (rewrite ?mlen_app; lia). clear A.
      unfold long_3. replace ((mlen msg - 1) / 64) with (4 * C) by lia.
      pose proof (stripe_mid sec (mlen sec - 71) (d0 ++ e1) (e2 ++ t) [] 0 (stripes_3 sec d (4 * C)) ltac:(rewrite mlen_app; lia)) as E.
      rewrite app_nil_r in E. replace ((d0 ++ e1) ++ e2 ++ t) with msg in E by (rewrite Em, Ed, Ee, <- !app_assoc; reflexivity).
      rewrite <- E, Em, stripes_app, <- Em by lia. do 3 f_equal. rewrite mlen_app. lia.
  Qed.

  Hypothesis Hk : seed <> 0 -> x3_kSecret x3 <> 0.
  Lemma digest64_ok : forall msg s m, fed msg seed ext st s m -> here cfg m q sec -> mapped m local 64 -> q <> 0 -> mlen msg < 2 ^ 64 ->
    (seed <> 0 -> here cfg m (x3_kSecret x3) default_secret) -> (asserting cfg x3 = true -> mlen msg <> 8) ->
    exists m', XXH3_64bits_digest cfg x3 local st s m = Ok (if seed =? 0 then xxh3_64_secret sec msg else xxh3_64 default_secret sec seed msg, m') /\
      only m m' local 64.
  Proof.
    intros msg s m F Hs ML Hq T64 HK HA. pose proof F as (C & d & t & Em & D & LT & NE & Es & BT & TL & MP). assert (Hsa : q + mlen sec < addr_space cfg) by apply Hs.
    assert (Lm : mlen msg = mlen d + mlen t) by (rewrite Em; apply mlen_app).
    unfold XXH3_64bits_digest. rewrite secret_ok by (rewrite Es; reflexivity).
    assert (Et : s3_totalLen s = mlen msg) by (rewrite Es; reflexivity). assert (Esd : s3_seed s = seed) by (rewrite Es; reflexivity).
    assert (Esl : s3_secretLimit s = mlen sec - 64) by (rewrite Es; reflexivity). rewrite Et, Esd, Esl. unfold XXH3_MIDSIZE_MAX, xxh3_64_secret.
    destruct (N.ltb_spec 240 (mlen msg)) as [X|X].
    - destruct (digest_long_ok msg s m F Hs ML X) as (m' & E & O & Hs'). exists m'. split; [|exact O]. ok E.
      rewrite (padd_small cfg q) by lia.
      rewrite (merge_at cfg x3 Hd m' q msg sec Hs' Hz) by (try apply stripe_lt; try reflexivity; lia).
      rewrite !long_64 by exact X. now destruct (seed =? 0).
    - assert (C = 0) as -> by lia. assert (d = []) as -> by (unfold mlen in D; destruct d; [reflexivity|discriminate D]). cbn [app] in Em. subst t.
      assert (HB : here cfg m (st + 256) msg) by (split; [exact BT|lia]).
      exists m. split; [|apply only_refl]. rewrite N.mod_small by lia. unfold buffer_of. rewrite (padd_small cfg st) by lia.
      destruct (N.eqb_spec seed 0) as [Z|Z]; cbn [negb].
      + rewrite (padd_small cfg (mlen sec - 64)) by lia. replace (mlen sec - 64 + 64) with (mlen sec) by lia.
        apply withSecret64_ok; auto. lia.
      + unfold XXH3_64bits_withSeed. replace XXH_SECRET_DEFAULT_SIZE with (mlen default_secret) by apply default_length.
        apply (bits64_ok cfg x3 Hd m (st + 256) (x3_kSecret x3) seed msg default_secret HB (HK Z)); auto; try lia.
        * rewrite default_length. lia.
        * intros _. now rewrite (same_short_64 default_secret sec default_secret seed msg) by lia.
  Qed.
  Lemma digest128_ok : forall msg s m, fed msg seed ext st s m -> here cfg m q sec -> mapped m local 64 -> q <> 0 -> mlen msg < 2 ^ 64 ->
    (seed <> 0 -> here cfg m (x3_kSecret x3) default_secret) ->
    exists m', XXH3_128bits_digest cfg x3 local st s m = Ok (if seed =? 0 then xxh3_128_secret sec msg else xxh3_128 default_secret sec seed msg, m') /\
      only m m' local 64.
  Proof.
    intros msg s m F Hs ML Hq T64 HK. pose proof F as (C & d & t & Em & D & LT & NE & Es & BT & TL & MP). assert (Hsa : q + mlen sec < addr_space cfg) by apply Hs.
    assert (Lm : mlen msg = mlen d + mlen t) by (rewrite Em; apply mlen_app).
    unfold XXH3_128bits_digest. rewrite secret_ok by (rewrite Es; reflexivity).
    assert (Et : s3_totalLen s = mlen msg) by (rewrite Es; reflexivity). assert (Esd : s3_seed s = seed) by (rewrite Es; reflexivity).
    assert (Esl : s3_secretLimit s = mlen sec - 64) by (rewrite Es; reflexivity). rewrite Et, Esd, Esl. unfold XXH3_MIDSIZE_MAX, xxh3_128_secret.
    destruct (N.ltb_spec 240 (mlen msg)) as [X|X].
    - destruct (digest_long_ok msg s m F Hs ML X) as (m' & E & O & Hs'). exists m'. split; [|exact O]. ok E.
      rewrite (padd_small cfg (mlen sec - 64)) by lia. asserted.
      rewrite !(padd_small cfg q), (padd_small cfg (q + (mlen sec - 64))), !psub_small by (rewrite ?psub_small; lia).
      ok (merge_at cfg x3 Hd m' q msg sec Hs' Hz 11 (long_3 sec msg) (mul64 (mlen msg) XXH_PRIME64_1) eq_refl (stripe_lt _ _ _ _ _) ltac:(lia)).
      replace (q + (mlen sec - 64) + 64 - 64 - 11) with (q + (mlen sec - 75)) by lia.
      ok (merge_at cfg x3 Hd m' q msg sec Hs' Hz (mlen sec - 75) (long_3 sec msg) (not64 (mul64 (mlen msg) XXH_PRIME64_2)) eq_refl (stripe_lt _ _ _ _ _) ltac:(lia)).
      rewrite !long_128 by exact X. unfold ret. rewrite not64_eq. destruct (seed =? 0); reflexivity.
    - assert (C = 0) as -> by lia. assert (d = []) as -> by (unfold mlen in D; destruct d; [reflexivity|discriminate D]). cbn [app] in Em. subst t.
      assert (HB : here cfg m (st + 256) msg) by (split; [exact BT|lia]).
      exists m. split; [|apply only_refl]. rewrite N.mod_small by lia. unfold buffer_of. rewrite (padd_small cfg st) by lia.
      destruct (N.eqb_spec seed 0) as [Z|Z]; cbn [negb].
      + rewrite (padd_small cfg (mlen sec - 64)) by lia. replace (mlen sec - 64 + 64) with (mlen sec) by lia.
        apply withSecret128_ok; auto. lia.
      + unfold XXH3_128bits_withSeed. replace XXH_SECRET_DEFAULT_SIZE with (mlen default_secret) by apply default_length.
        apply (bits128_ok cfg x3 Hd m (st + 256) (x3_kSecret x3) seed msg default_secret HB (HK Z)); auto; try lia.
        * rewrite default_length. lia.
        * intros _. now rewrite (same_short_128 default_secret sec default_secret seed msg) by lia.
  Qed.
End Stream.

(** ** Starting *)
Section Reset.
  Variable (cfg : config) (x3 : xxh3_build).
  Hypothesis Hd : xxh_force_memory_access (x3_xxh x3) <> 2.
  Variables (st : N) (m : mem).
  Hypothesis (Hst : st + 512 < addr_space cfg) (Hst0 : st <> 0) (Hm : mapped m (st + 64) 448).

  Lemma reset_internal_ok : forall seed q sec, 136 <= mlen sec -> q <> 0 -> mlen sec < addr_space cfg ->
    exists s m', XXH3_64bits_reset_internal cfg x3 st seed q (mlen sec) m = Ok (s, m') /\ fed sec [] seed q st s m' /\
      s3_extSecret s = q /\ only m m' (st + 64) 448.
  Proof.
    intros seed q sec Hz Hq Ha. set (m1 := write m (st + 64) (repeat x00 448)).
    assert (O : only m m1 (st + 64) 448) by now apply only_write.
    assert (E : store_bytes (st + 64) (repeat x00 448) m = Ok (tt, m1)) by (apply store_bytes_ok; rewrite repeat_length; exact Hm).
    clearbody m1. exists (S3 XXH3_INIT_ACC 0 (period sec) 0 (mlen sec - 64) 0 seed q), m1.
    split; [|split; [|split; [reflexivity|exact O]]].
    - unfold XXH3_64bits_reset_internal, XXH3_SECRET_SIZE_MIN. asserted. rewrite padd_small by lia. ok E. asserted. asserted.
      cbv zeta. rewrite psub_small by lia. reflexivity.
    - exists 0, [], []. split; [reflexivity|]. split; [reflexivity|]. split; [discriminate|]. split; [reflexivity|].
      split; [rewrite N.mod_0_l by (unfold period; lia); reflexivity|]. split; [apply bytes_at_nil|]. split.
      + intros _ d0 e Ed Le. symmetry in Ed. apply app_eq_nil in Ed. destruct Ed as [_ ->]. discriminate Le.
      + intros i I. replace (st + 256 + N.of_nat i) with (st + 64 + N.of_nat (192 + i)) by lia. apply (only_mapped _ _ _ _ _ _ O Hm). lia.
  Qed.

  Lemma reset_secret_ok : forall s0 q sec, 136 <= mlen sec -> q <> 0 -> mlen sec < addr_space cfg ->
    exists s m', XXH3_64bits_reset_withSecret cfg x3 st q (mlen sec) s0 m = Ok ((XXH_OK, s), m') /\ fed sec [] 0 q st s m' /\
      only m m' (st + 64) 448.
  Proof.
    intros s0 q sec Hz Hq Ha. destruct (reset_internal_ok 0 q sec Hz Hq Ha) as (s & m' & E & F & _ & O). exists s, m'.
    split; [|split; [exact F|exact O]]. unfold XXH3_64bits_reset_withSecret. replace (st =? 0) with false by lia. ok E.
    replace (q =? 0) with false by lia. unfold XXH3_SECRET_SIZE_MIN. now replace (mlen sec <? 136) with false by lia.
  Qed.
  Lemma reset_ok : forall s0, x3_kSecret x3 <> 0 ->
    exists s m', XXH3_64bits_reset cfg x3 st s0 m = Ok ((XXH_OK, s), m') /\ fed default_secret [] 0 (x3_kSecret x3) st s m' /\
      only m m' (st + 64) 448.
  Proof.
    intros s0 Hq. destruct (reset_internal_ok 0 (x3_kSecret x3) default_secret) as (s & m' & E & F & _ & O); try assumption.
    { rewrite default_length. discriminate. }
    { rewrite default_length. lia. }
    exists s, m'. split; [|split; [exact F|exact O]]. unfold XXH3_64bits_reset. replace (st =? 0) with false by lia.
    rewrite default_length in E. ok E. reflexivity.
  Qed.
  Lemma reset_seed_ok : forall s0 seed, x3_kSecret x3 <> 0 -> here cfg m (x3_kSecret x3) default_secret ->
    apart (st + 64) 448 (x3_kSecret x3) 192 -> seed < 2 ^ 64 ->
    exists s m', XXH3_64bits_reset_withSeed cfg x3 st seed s0 m = Ok ((XXH_OK, s), m') /\ fed (custom_secret seed) [] seed 0 st s m' /\
      here cfg m' (st + 64) (custom_secret seed) /\ only m m' (st + 64) 448.
  Proof.
    intros s0 seed Hq Hk Hap Hseed. assert (Lc : mlen (custom_secret seed) = 192) by (unfold mlen; now rewrite custom_length).
    destruct (reset_internal_ok seed (x3_kSecret x3) (custom_secret seed)) as (s & m1 & E & F & X & O); try (rewrite Lc; lia); try assumption.
    assert (Hk1 : here cfg m1 (x3_kSecret x3) default_secret) by (eapply only_here; [exact O| |exact Hk]; rewrite default_length; unfold apart in Hap; lia).
    assert (M1 : mapped m1 (st + 64) 192) by (intros i I; apply (only_mapped _ _ _ _ _ _ O Hm); lia).
    destruct (initCustomSecret_ok cfg x3 Hd m1 (st + 64) seed Hk1 M1) as (m2 & E2 & B2 & O2); try assumption; [lia|unfold apart in Hap; lia|].
    eexists _, m2. split; [|split; [|split; [split; [exact B2|rewrite Lc; lia]|]]].
    - unfold XXH3_64bits_reset_withSeed. replace (st =? 0) with false by lia. rewrite Lc in E. ok E. unfold customSecret_of.
      rewrite padd_small by lia. ok E2. reflexivity.
    - destruct F as (C & d & t & Em & D & LT & NE & Es & BT & TL & MP). exists C, d, t. split; [exact Em|]. split; [exact D|]. split; [exact LT|].
      split; [exact NE|]. split; [rewrite Es; reflexivity|]. split; [eapply only_bytes; [exact O2| |exact BT]; lia|].
      split; [|eapply only_mapped; [exact O2|exact MP]]. intros L64 d0 e Ed Le. eapply only_bytes; [exact O2| |exact (TL L64 d0 e Ed Le)]. lia.
    - eapply only_trans; [exact O|]. eapply only_weaken; [exact O2|lia|lia].
  Qed.
End Reset.
