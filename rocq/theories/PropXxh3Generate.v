(** C73: XXH3_generateSecret. *)
From Coq Require Import ZArith NArith Arith List Bool Lia Strings.Byte.
From Coq Require Import ZifyN ZifyNat ZifyBool.
From Verif Require Import Bytes CSem Bits Spec NBits CSemFacts OpsFacts FetchFacts KeyMem CtxMem StreamFacts SelfcheckSpec Shipped Onto Demo Ia32aes Ia32aesFacts
  HighwayCat Xxhash XxhashSpec XxhashFacts XxhashStream PropXxhash Xxh3 Xxh3Spec Xxh3Facts Xxh3Secret Xxh3Stream Xxh3Utils PropXxhash2 PropXxh3 PropXxh3Inject PropXxh3Collide
  PropXxh3Utils.
Import ListNotations.
Ltac Zify.zify_post_hook ::= Z.div_mod_to_equations.
Local Open Scope N_scope.

(** ** Specification *)
(** the first 96 bytes of the seed repeated without end *)
Definition cycle (s : list byte) : list byte := map (fun i => nth (i mod length s) s x00) (seq 0 96).
(** the hash of the seed, and eleven hashes of that with the words of the repeated seed but
    for the first *)
Definition first_part (s : list byte) : list byte := canonical (xxh3_128_seed 0 s).
Definition part (s : list byte) (k : nat) : list byte :=
  canonical (xxh3_128_seed (add (w8 (cycle s) (8 * N.of_nat k)) (N.of_nat k)) (first_part s)).
Definition generated (s : list byte) : list byte :=
  match s with [] => default_secret | _ => first_part s ++ flat_map (part s) (seq 1 11) end.

Lemma sized_128 : forall sec lsec seed msg, sized (xxh3_128 sec lsec seed msg).
Proof.
  assert (T : forall h, mix_bits_64 h < 2 ^ 64) by (intro; unfold mix_bits_64; apply fold_64_lt, mulw_lt64).
  intros sec lsec seed msg. unfold xxh3_128, sized, short_128, mid_128, mid2_128, finish_128, merge_3. cbv zeta.
  repeat match goal with |- context [if ?c then _ else _] => destruct c end; cbn [fst snd]; split; try apply finish_lt; try apply sub_lt64; try apply T.
  apply fold_64_lt, mulw_lt64.
Qed.
Lemma cycle_length : forall s, length (cycle s) = 96%nat.
Proof. intro s. unfold cycle. now rewrite map_length, seq_length. Qed.
Lemma cycle_cut : forall s a, (a <= 96)%nat -> firstn a (cycle s) = map (fun i => nth (i mod length s) s x00) (seq 0 a).
Proof.
  intros s a A. unfold cycle. replace 96%nat with (a + (96 - a))%nat by lia. rewrite seq_app, map_app, firstn_app.
  rewrite map_length, seq_length, Nat.sub_diag, firstn_O, app_nil_r. apply firstn_all2. now rewrite map_length, seq_length.
Qed.
Lemma firstn_next : forall (l : list byte) a d, (a < length l)%nat -> firstn (S a) l = firstn a l ++ [nth a l d].
Proof.
  induction l as [|x l IH]; intros a d A; [cbn in A; lia|]. destruct a as [|a]; [reflexivity|]. cbn [length] in A.
  change (firstn (S (S a)) (x :: l)) with (x :: firstn (S a) l). rewrite (IH a d) by lia. reflexivity.
Qed.
Lemma cycle_next : forall s a n, (a + n <= 96)%nat -> length s <> 0%nat -> (a mod length s = 0)%nat -> firstn (a + n) (cycle s) = firstn a (cycle s) ++ firstn n (cycle s).
Proof.
  intros s a n L Z P. rewrite !cycle_cut by lia. rewrite seq_app, map_app. f_equal. cbn [Nat.add].
  replace (seq a n) with (map (fun i => a + i)%nat (seq 0 n)).
  - rewrite map_map. apply map_ext. intro i. rewrite (Nat.add_mod a i) by exact Z. rewrite P. cbn [Nat.add]. now rewrite Nat.mod_mod.
  - clear. revert a. induction n as [|n IH]; intro a; [reflexivity|]. cbn [seq map]. f_equal; [lia|]. rewrite <- seq_shift, map_map. rewrite <- (IH (S a)).
    apply map_ext. intro. lia.
Qed.
Lemma first_length : forall s, mlen (first_part s) = 16.
Proof. intro. unfold mlen, first_part. now rewrite canonical_length. Qed.
Lemma part_length : forall s k, mlen (part s k) = 16.
Proof. intros. unfold mlen, part. now rewrite canonical_length. Qed.
Lemma parts_length : forall s ks, mlen (flat_map (part s) ks) = 16 * N.of_nat (length ks).
Proof.
  intros s ks. induction ks as [|k ks IH]; [reflexivity|]. cbn [flat_map length]. rewrite mlen_app, part_length, IH. lia.
Qed.
Lemma generated_length : forall s, mlen (generated s) = 192.
Proof.
  intros [|x s]; [reflexivity|]. unfold generated. rewrite mlen_app, first_length, parts_length, seq_length. reflexivity.
Qed.

(** ** The code *)
Section Generate.
  Variable (cfg : config) (x3 : xxh3_build).
  Hypothesis Hd : xxh_force_memory_access (x3_xxh x3) <> 2.

  (** copying what there is until there is enough *)
  Lemma fill_ok : forall seeds s, s <> [] -> seeds <> 0 -> seeds + 96 < addr_space cfg -> forall fuel filled m,
    96 <= filled + N.of_nat fuel -> 0 < filled <= 96 -> (filled = 96 \/ filled mod mlen s = 0) ->
    bytes_at m seeds (firstn (N.to_nat filled) (cycle s)) -> mapped m seeds 96 ->
    exists m', while_ fuel (fun filled =>
      let toFill := if 96 - filled <? filled then 96 - filled else filled in
      memcpy cfg (padd cfg seeds filled) seeds toFill ;;;
      ret (filled + toFill)) (fun filled => filled <? 96) filled m = Ok (96, m') /\ bytes_at m' seeds (cycle s) /\ only m m' seeds 96.
  Proof.
    intros seeds s Hs S0 SA. assert (LS : mlen s <> 0) by (destruct s; [contradiction|discriminate]).
    induction fuel as [|fuel IH]; intros filled m F R P B MP.
    - assert (E : filled = 96) by lia. subst filled. exists m. split; [reflexivity|]. split; [|apply only_refl].
      rewrite firstn_all2 in B by (rewrite cycle_length; lia). exact B.
    - rewrite while_unfold. destruct (N.ltb_spec filled 96) as [L|L].
      + destruct P as [P|P]; [lia|]. cbv zeta. set (n := if 96 - filled <? filled then 96 - filled else filled).
        assert (N0 : 0 < n <= filled /\ filled + n <= 96 /\ (filled + n = 96 \/ n = filled)).
        { unfold n. destruct (N.ltb_spec (96 - filled) filled); lia. }
        set (piece := firstn (N.to_nat n) (cycle s)).
        assert (PL : length piece = N.to_nat n) by (unfold piece; rewrite firstn_length, cycle_length; lia).
        assert (PM : mlen piece = n) by (unfold mlen; lia).
        rewrite (padd_small cfg seeds filled) by lia.
        assert (MC : memcpy cfg (seeds + filled) seeds n m = Ok (tt, write m (seeds + filled) piece)).
        { rewrite <- PM. apply memcpy_ok; [lia|exact S0| | |rewrite PM; lia].
          - replace piece with (firstn (N.to_nat n) (firstn (N.to_nat filled) (cycle s))); [now apply bytes_at_firstn|].
            rewrite firstn_firstn. unfold piece. f_equal. lia.
          - intros i I. replace (seeds + filled + N.of_nat i) with (seeds + N.of_nat (N.to_nat filled + i)) by lia. apply MP. lia. }
        rewrite bind_assoc. ok MC. rewrite bind_ret. assert (O : only m (write m (seeds + filled) piece) (seeds + filled) n) by (apply only_write; now rewrite PM).
        set (m1 := write m (seeds + filled) piece) in *.
        assert (B1 : bytes_at m1 seeds (firstn (N.to_nat (filled + n)) (cycle s))).
        { assert (E : firstn (N.to_nat (filled + n)) (cycle s) = firstn (N.to_nat filled) (cycle s) ++ piece).
          { unfold piece. rewrite N2Nat.inj_add. apply cycle_next; [lia|unfold mlen in LS; lia|]. clear - P LS. unfold mlen in *.
            apply Nat2N.inj. rewrite Nat2N.inj_mod, N2Nat.id. exact P. }
          rewrite E. apply bytes_at_app. rewrite firstn_length, cycle_length, Nat.min_l by lia. split.
          - apply (only_bytes _ _ _ _ _ _ O); [unfold mlen; rewrite firstn_length, cycle_length; lia|exact B].
          - replace (seeds + N.of_nat (N.to_nat filled)) with (seeds + filled) by lia. apply write_bytes_at. }
        destruct (IH (filled + n) m1) as (m' & E' & B' & O').
        * lia.
        * lia.
        * destruct N0 as (_ & _ & [N0|N0]); [now left|right]. rewrite N0. rewrite N.add_mod by exact LS. rewrite P. now rewrite N.mod_small by lia.
        * exact B1.
        * apply (only_mapped _ _ _ _ _ _ O MP).
        * exists m'. split; [exact E'|]. split; [exact B'|]. apply (only_trans _ m1); [|exact O']. apply (only_weaken _ _ _ _ _ _ O); lia.
      + assert (E : filled = 96) by lia. subst filled. exists m. split; [reflexivity|]. split; [|apply only_refl].
        rewrite firstn_all2 in B by (rewrite cycle_length; lia). exact B.
  Qed.

  (** ** The eleven other parts *)
  Variables (f : gs_frame) (buffer : N) (s : list byte).
  Let k := x3_kSecret x3.
  Let scr := gs_scrambler f.
  Let seeds := gs_seeds f.
  Let seg := gs_segment f.
  Let local := gs_local f.
  Hypothesis (K0 : k <> 0) (B0 : buffer <> 0) (C0 : scr <> 0) (S0 : seeds <> 0) (G0 : seg <> 0) (L0 : local <> 0).
  Hypothesis (BA : buffer + 192 < addr_space cfg) (CA : scr + 16 < addr_space cfg) (SA : seeds + 96 < addr_space cfg)
    (GA : seg + 16 < addr_space cfg) (LA : local + 192 < addr_space cfg).
  Hypothesis (KB : apart k 192 buffer 192) (KC : apart k 192 scr 16) (KS : apart k 192 seeds 96) (KG : apart k 192 seg 16) (KL : apart k 192 local 192).
  Hypothesis (BC : apart buffer 192 scr 16) (BS : apart buffer 192 seeds 96) (BG : apart buffer 192 seg 16) (BL : apart buffer 192 local 192).
  Hypothesis (CS : apart scr 16 seeds 96) (CG : apart scr 16 seg 16) (CL : apart scr 16 local 192).
  Hypothesis (SG : apart seeds 96 seg 16) (SL : apart seeds 96 local 192) (GL : apart seg 16 local 192).
  Let objects : list (N * N) := [(buffer, 192); (scr, 16); (seeds, 96); (seg, 16); (local, 192)].
  Definition ready (m : mem) : Prop :=
    here cfg m k default_secret /\ mapped m seg 16 /\ mapped m local 192 /\ mapped m buffer 192 /\
    here cfg m scr (first_part s) /\ here cfg m seeds (cycle s).

  Lemma segments_ok : forall n i m, (i + n = 12)%nat -> (1 <= i)%nat -> ready m ->
    bytes_at m buffer (first_part s ++ flat_map (part s) (seq 1 (i - 1))) ->
    exists m', for_loop n (N.of_nat i) (fun segnb _ =>
      v <- XXH_readLE64 cfg (x3_xxh x3) (padd cfg seeds (8 * segnb)) ;;
      h <- XXH128 cfg x3 local scr 16 (add64 v segnb) ;;
      XXH128_canonicalFromHash cfg seg h ;;;
      memcpy cfg (padd cfg buffer (segnb * 16)) seg 16) tt m = Ok (tt, m') /\
      bytes_at m' buffer (first_part s ++ flat_map (part s) (seq 1 11)) /\ same_except objects m m'.
  Proof.
    induction n as [|n IH]; intros i m E I (HK & MG & ML & MB & HC & HS) B.
    - exists m. replace (i - 1)%nat with 11%nat in B by lia. split; [reflexivity|]. split; [exact B|]. apply same_except_refl.
    - cbn [for_loop]. rewrite (padd_small cfg seeds) by (clear - E SA; lia).
      assert (LC : mlen (cycle s) = 96) by (unfold mlen; now rewrite cycle_length).
      assert (R : XXH_readLE64 cfg (x3_xxh x3) (seeds + 8 * N.of_nat i) m = Ok (w8 (cycle s) (8 * N.of_nat i), m)).
      { apply (rd64_at cfg x3 Hd m seeds (cycle s)); [exact HS|rewrite LC; clear - E; lia]. }
      rewrite bind_assoc. ok R. clear R.
      destruct (withSeed128_ok cfg x3 Hd m scr (first_part s) HC (fun _ => C0) HK K0 local (add (w8 (cycle s) (8 * N.of_nat i)) (N.of_nat i)) ML LA L0 (add_lt64 _ _))
        as (m1 & E1 & O1); [unfold apart in KL; clear - KL; lia|rewrite first_length; unfold apart in CL; clear - CL; lia|].
      rewrite first_length in E1. fold (XXH128 cfg x3 local scr 16 (add (w8 (cycle s) (8 * N.of_nat i)) (N.of_nat i))) in E1.
      change (add64 (w8 (cycle s) (8 * N.of_nat i)) (N.of_nat i)) with (add (w8 (cycle s) (8 * N.of_nat i)) (N.of_nat i)).
      rewrite !bind_assoc. ok E1. clear E1.
      assert (MG1 : mapped m1 seg 16) by (apply (only_mapped _ _ _ _ _ _ O1 MG)).
      destruct (canonicalFromHash_ok cfg seg _ m1 (sized_128 default_secret (custom_secret (add (w8 (cycle s) (8 * N.of_nat i)) (N.of_nat i)))
        (add (w8 (cycle s) (8 * N.of_nat i)) (N.of_nat i)) (first_part s)) MG1) as (m2 & E2 & W2 & O2); [clear - GA; lia|].
      fold (xxh3_128_seed (add (w8 (cycle s) (8 * N.of_nat i)) (N.of_nat i)) (first_part s)) in E2, W2. fold (part s i) in W2.
      rewrite !bind_assoc. ok E2. clear E2. rewrite (padd_small cfg buffer) by (clear - E BA; lia).
      assert (MB2 : mapped m2 buffer 192) by (apply (only_mapped _ _ _ _ _ _ O2), (only_mapped _ _ _ _ _ _ O1 MB)).
      assert (LP : length (part s i) = 16%nat) by apply canonical_length.
      assert (E3 : memcpy cfg (buffer + N.of_nat i * 16) seg 16 m2 = Ok (tt, write m2 (buffer + N.of_nat i * 16) (part s i))).
      { pose proof (memcpy_ok cfg m2 (buffer + N.of_nat i * 16) seg (part s i)) as MK. rewrite part_length in MK. apply MK.
        - clear - B0. lia.
        - exact G0.
        - exact W2.
        - rewrite LP. intros j J. replace (buffer + N.of_nat i * 16 + N.of_nat j) with (buffer + N.of_nat (i * 16 + j)) by (clear; lia). apply MB2. clear - E J. lia.
        - right. unfold apart in BG. clear - BG E. lia. }
      ok E3. clear E3. set (m3 := write m2 (buffer + N.of_nat i * 16) (part s i)).
      assert (O3 : only m2 m3 (buffer + N.of_nat i * 16) 16) by (apply only_write; now rewrite part_length).
      assert (O3' : only m2 m3 buffer 192) by (apply (only_weaken _ _ _ _ _ _ O3); clear - E; lia).
      assert (LF : mlen (first_part s ++ flat_map (part s) (seq 1 (i - 1))) = N.of_nat i * 16).
      { rewrite mlen_app, first_length, parts_length, seq_length. clear - I. lia. }
      replace (N.of_nat i + 1) with (N.of_nat (S i)) by (clear; lia).
      assert (SE : same_except objects m m3).
      { apply (same_except_trans _ _ m1); [apply (same_except_only _ _ _ _ _ O1); right; right; right; right; left; reflexivity|].
        apply (same_except_trans _ _ m2); [apply (same_except_only _ _ _ _ _ O2); right; right; right; left; reflexivity|].
        apply (same_except_only _ _ _ _ _ O3'). left. reflexivity. }
      assert (T : forall a l, here cfg m a l -> apart a (mlen l) local 192 -> apart a (mlen l) seg 16 -> apart a (mlen l) buffer 192 -> here cfg m3 a l).
      { intros a l H A1 A2 A3. unfold apart in *. apply (only_here cfg m2 m3 buffer 192); [exact O3'|clear - A3; lia|].
        apply (only_here cfg m1 m2 seg 16); [exact O2|clear - A2; lia|]. apply (only_here cfg m m1 local 192); [exact O1|clear - A1; lia|]. exact H. }
      assert (TM : forall a j, mapped m a j -> mapped m3 a j).
      { intros a j H. apply (only_mapped _ _ _ _ _ _ O3), (only_mapped _ _ _ _ _ _ O2), (only_mapped _ _ _ _ _ _ O1 H). }
      destruct (IH (S i) m3) as (m' & E' & B' & S').
      + clear - E. lia.
      + clear. lia.
      + split; [apply T; [exact HK| | |]; rewrite default_length; assumption|]. split; [now apply TM|]. split; [now apply TM|]. split; [now apply TM|].
        split; apply T; try assumption; try (rewrite first_length; unfold apart in *; clear - CL CG BC; lia);
          rewrite LC; unfold apart in *; clear - SL SG BS; lia.
      + replace (S i - 1)%nat with (i - 1 + 1)%nat by (clear - I; lia). rewrite seq_app, flat_map_app. cbn [seq flat_map]. rewrite app_nil_r.
        replace (1 + (i - 1))%nat with i by (clear - I; lia). rewrite app_assoc. apply bytes_at_app. split.
        * apply (only_bytes _ _ _ _ _ _ O3); [rewrite LF; clear; lia|]. apply (only_bytes _ _ _ _ _ _ O2); [rewrite LF; unfold apart in BG; clear - BG E; lia|].
          apply (only_bytes _ _ _ _ _ _ O1); [rewrite LF; unfold apart in BL; clear - BL E; lia|]. exact B.
        * fold (mlen (first_part s ++ flat_map (part s) (seq 1 (i - 1)))). rewrite LF. apply write_bytes_at.
      + exists m'. split; [exact E'|]. split; [exact B'|]. apply (same_except_trans _ _ _ _ SE S').
  Qed.

  (** the whole *)
  Lemma generate_ok : forall m p, s <> [] -> here cfg m p s -> p <> 0 -> here cfg m k default_secret ->
    mapped m buffer 192 -> mapped m scr 16 -> mapped m seeds 96 -> mapped m seg 16 -> mapped m local 192 ->
    apart p (mlen s) scr 16 -> apart p (mlen s) seeds 96 -> apart p (mlen s) local 192 ->
    exists m', XXH3_generateSecret cfg x3 f buffer p (mlen s) m = Ok (tt, m') /\ bytes_at m' buffer (generated s) /\ same_except objects m m'.
  Proof.
    intros m p NE HP P0 HK MB MC MS MG ML PC PS PL.
    assert (LS : mlen s <> 0) by (destruct s; [contradiction|discriminate]).
    unfold XXH3_generateSecret. fold k scr seeds seg local.
    assert (A1 : negb (buffer =? 0) = true) by (clear - B0; lia). ok (ASSERT_ok cfg x3 _ m (fun _ => A1)).
    replace (mlen s =? 0) with false by (clear - LS; lia).
    assert (A2 : negb (p =? 0) = true) by (clear - P0; lia). ok (ASSERT_ok cfg x3 _ m (fun _ => A2)).
    destruct (withSeed128_ok cfg x3 Hd m p s HP (fun _ => P0) HK K0 local 0 ML LA L0 eq_refl) as (m1 & E1 & O1);
      [unfold apart in KL; clear - KL; lia|unfold apart in PL; clear - PL; lia|].
    fold (XXH128 cfg x3 local p (mlen s) 0) in E1. ok E1. clear E1.
    assert (MC1 : mapped m1 scr 16) by (apply (only_mapped _ _ _ _ _ _ O1 MC)).
    destruct (canonicalFromHash_ok cfg scr (xxh3_128_seed 0 s) m1 (sized_128 _ _ _ _) MC1) as (m2 & E2 & W2 & O2); [clear - CA; lia|].
    fold (first_part s) in W2. ok E2. clear E2. cbv zeta.
    set (n := if 96 <? mlen s then 96 else mlen s).
    assert (NB : 0 < n <= 96 /\ n <= mlen s /\ (n = 96 \/ n = mlen s)) by (unfold n; destruct (N.ltb_spec 96 (mlen s)); clear - H LS; lia).
    assert (HP2 : here cfg m2 p s).
    { apply (only_here cfg m1 m2 scr 16); [exact O2|unfold apart in PC; clear - PC; lia|].
      apply (only_here cfg m m1 local 192); [exact O1|unfold apart in PL; clear - PL; lia|exact HP]. }
    set (piece := firstn (N.to_nat n) s).
    assert (PE : piece = firstn (N.to_nat n) (cycle s)).
    { rewrite cycle_cut by (clear - NB; lia). unfold piece. assert (Q : (N.to_nat n <= length s)%nat) by (unfold mlen in NB; clear - NB; lia).
      clear - Q. revert Q. generalize (N.to_nat n). intro a. induction a as [|a IH]; intro Q; [reflexivity|].
      rewrite seq_S, map_app, <- IH by lia. cbn [map Nat.add]. rewrite Nat.mod_small by lia.
      apply firstn_next. exact Q. }
    assert (PN : mlen piece = n) by (unfold mlen, piece; rewrite firstn_length; unfold mlen in NB; clear - NB; lia).
    assert (MS2 : mapped m2 seeds 96) by (apply (only_mapped _ _ _ _ _ _ O2), (only_mapped _ _ _ _ _ _ O1 MS)).
    assert (E3 : memcpy cfg seeds p n m2 = Ok (tt, write m2 seeds piece)).
    { rewrite <- PN at 1. apply memcpy_ok; [exact S0|exact P0|apply bytes_at_firstn; exact (proj1 HP2)| |].
      - intros j J. apply MS2. unfold mlen in PN. clear - PN J NB. lia.
      - right. rewrite PN. unfold apart in PS. clear - PS NB. lia. }
    ok E3. clear E3. set (m3 := write m2 seeds piece).
    assert (O3 : only m2 m3 seeds 96).
    { apply (only_weaken _ _ seeds n); [apply only_write; now rewrite PN|clear; lia|clear - NB; lia]. }
    destruct (fill_ok seeds s NE S0 SA 96 n m3) as (m4 & E4 & W4 & O4).
    - clear; lia.
    - clear - NB; lia.
    - destruct NB as (_ & _ & [NB|NB]); [now left|right]. rewrite NB. now apply N.mod_same.
    - rewrite <- PE. apply write_bytes_at.
    - apply (only_mapped _ _ _ _ _ _ O3 MS2).
    - ok E4. clear E4. assert (O34 : only m2 m4 seeds 96) by (apply (only_trans _ m3); assumption).
      assert (TM : forall a j, mapped m a j -> mapped m4 a j).
      { intros a j H. apply (only_mapped _ _ _ _ _ _ O34), (only_mapped _ _ _ _ _ _ O2), (only_mapped _ _ _ _ _ _ O1 H). }
      assert (LF : length (first_part s) = 16%nat) by apply canonical_length.
      assert (W24 : bytes_at m4 scr (first_part s)).
      { apply (only_bytes _ _ _ _ _ _ O34); [rewrite first_length; unfold apart in CS; clear - CS; lia|exact W2]. }
      assert (E5 : memcpy cfg buffer scr 16 m4 = Ok (tt, write m4 buffer (first_part s))).
      { pose proof (memcpy_ok cfg m4 buffer scr (first_part s)) as MK. rewrite first_length in MK. apply MK; [exact B0|exact C0|exact W24| |].
        - rewrite LF. intros j J. apply (TM _ _ MB). clear - J. lia.
        - right. unfold apart in BC. clear - BC. lia. }
      ok E5. clear E5. set (m5 := write m4 buffer (first_part s)).
      assert (O5 : only m4 m5 buffer 192).
      { apply (only_weaken _ _ buffer 16); [apply only_write; now rewrite first_length|clear; lia|clear; lia]. }
      assert (TM5 : forall a j, mapped m a j -> mapped m5 a j) by (intros a j H; apply (only_mapped _ _ _ _ _ _ O5), TM, H).
      assert (RD : ready m5).
      { split; [|split; [now apply TM5|split; [now apply TM5|split; [now apply TM5|split]]]].
        - apply (only_here cfg m4 m5 buffer 192); [exact O5|rewrite default_length; unfold apart in KB; clear - KB; lia|].
          apply (only_here cfg m2 m4 seeds 96); [exact O34|rewrite default_length; unfold apart in KS; clear - KS; lia|].
          apply (only_here cfg m1 m2 scr 16); [exact O2|rewrite default_length; unfold apart in KC; clear - KC; lia|].
          apply (only_here cfg m m1 local 192); [exact O1|rewrite default_length; unfold apart in KL; clear - KL; lia|exact HK].
        - apply (only_here cfg m4 m5 buffer 192); [exact O5|rewrite first_length; unfold apart in BC; clear - BC; lia|]. split; [exact W24|rewrite first_length; exact CA].
        - assert (LC : mlen (cycle s) = 96) by (unfold mlen; now rewrite cycle_length).
          apply (only_here cfg m4 m5 buffer 192); [exact O5|rewrite LC; unfold apart in BS; clear - BS; lia|]. split; [exact W4|rewrite LC; exact SA]. }
      destruct (segments_ok 11 1 m5 eq_refl (le_n 1) RD) as (m' & E' & B' & S').
      + cbn [Nat.sub seq flat_map]. rewrite app_nil_r. apply write_bytes_at.
      + exists m'. split; [exact E'|]. split.
        * unfold generated. destruct s; [contradiction|exact B'].
        * apply (same_except_trans _ _ m1); [apply (same_except_only _ _ _ _ _ O1); right; right; right; right; left; reflexivity|].
          apply (same_except_trans _ _ m2); [apply (same_except_only _ _ _ _ _ O2); right; left; reflexivity|].
          apply (same_except_trans _ _ m4); [apply (same_except_only _ _ _ _ _ O34); right; right; left; reflexivity|].
          apply (same_except_trans _ _ m5); [apply (same_except_only _ _ _ _ _ O5); left; reflexivity|]. exact S'.
  Qed.
End Generate.

(** ** The properties *)
(** an array of [n] bytes that can be read and written *)
Definition array (cfg : config) (m : mem) (a : N) (n : nat) : Prop := mapped m a n /\ a + N.of_nat n < addr_space cfg /\ a <> 0.
Definition all_apart : list (N * N) -> Prop := ForallOrdPairs (fun a b => apart (fst a) (snd a) (fst b) (snd b)).
(** the caller's buffer and the local arrays *)
Definition frame_there (cfg : config) (x3 : xxh3_build) (m : mem) (f : gs_frame) (buffer : N) : Prop :=
  array cfg m buffer 192 /\ array cfg m (gs_scrambler f) 16 /\ array cfg m (gs_seeds f) 96 /\ array cfg m (gs_segment f) 16 /\
  array cfg m (gs_local f) 192 /\
  all_apart [(x3_kSecret x3, 192); (buffer, 192); (gs_scrambler f, 16); (gs_seeds f, 96); (gs_segment f, 16); (gs_local f, 192)].

(** For every seed the 192 bytes are those of the specification, and nothing else of the
    caller's is written.  The seed may overlap the buffer: a seed can be replaced by its
    secret.  Without a seed it is the default secret, wherever [customSeed] points. *)
Theorem C73_value : forall cfg x3 f m buffer p s, xxh_force_memory_access (x3_xxh x3) <> 2 -> kSecret_there cfg x3 m ->
  frame_there cfg x3 m f buffer -> (s <> [] -> message_at cfg m p s) ->
  apart p (mlen s) (gs_scrambler f) 16 -> apart p (mlen s) (gs_seeds f) 96 -> apart p (mlen s) (gs_local f) 192 ->
  exists m', XXH3_generateSecret cfg x3 f buffer p (mlen s) m = Ok (tt, m') /\ bytes_at m' buffer (generated s) /\
    same_except [(buffer, 192); (gs_scrambler f, 16); (gs_seeds f, 96); (gs_segment f, 16); (gs_local f, 192)] m m'.
Proof.
  intros cfg x3 f m buffer p s D (Hk & Hka & Hk0) ((MB & BA & B0) & (MC & CA & C0) & (MS & SA & S0) & (MG & GA & G0) & (ML & LA & L0) & AP) HM PC PS PL.
  rewrite kSecret_default in Hk. assert (HK : here cfg m (x3_kSecret x3) default_secret) by (split; [exact Hk|rewrite default_length; exact Hka]).
  unfold all_apart in AP.
  repeat match goal with H : ForallOrdPairs _ (_ :: _) |- _ => inversion H; clear H; subst end.
  repeat match goal with H : Forall _ (_ :: _) |- _ => inversion H; clear H; subst end. cbn [fst snd] in *.
  destruct s as [|x s].
  - exists (write m buffer default_secret). assert (O : only m (write m buffer default_secret) buffer 192) by now apply only_write.
    split; [|split; [apply write_bytes_at|eapply same_except_only; [exact O|now left]]].
    unfold XXH3_generateSecret. ok (ASSERT_ok cfg x3 (negb (buffer =? 0)) m (fun _ => ltac:(lia))). change (mlen []) with 0. cbv iota. change (0 =? 0) with true. cbv iota.
    pose proof (memcpy_ok cfg m buffer (x3_kSecret x3) default_secret B0 Hk0 Hk) as MK. rewrite default_length in MK. apply MK; [exact MB|].
    right. match goal with H : apart (x3_kSecret x3) 192 buffer 192 |- _ => clear - H; unfold apart in H; lia end.
  - destruct HM as (P1 & P2 & P3); [discriminate|]. apply generate_ok; auto; try discriminate; try (split; assumption). apply P3. discriminate.
Qed.
Print Assumptions C73_value.

(** The secret can be used: the hash with it is that of the specification, whatever the
    message, also one that was there before. *)
Theorem C73_use : forall cfg x3 f m buffer p s q msg, xxh_force_memory_access (x3_xxh x3) <> 2 -> kSecret_there cfg x3 m ->
  frame_there cfg x3 m f buffer -> (s <> [] -> message_at cfg m p s) ->
  apart p (mlen s) (gs_scrambler f) 16 -> apart p (mlen s) (gs_seeds f) 96 -> apart p (mlen s) (gs_local f) 192 ->
  message_at cfg m q msg -> Forall (fun a => apart q (mlen msg) (fst a) (snd a))
    [(buffer, 192); (gs_scrambler f, 16); (gs_seeds f, 96); (gs_segment f, 16); (gs_local f, 192)] ->
  exists m', XXH3_generateSecret cfg x3 f buffer p (mlen s) m = Ok (tt, m') /\
    ((asserting cfg x3 = true -> mlen msg <> 8) ->
      XXH3_64bits_withSecret cfg x3 q (mlen msg) buffer 192 m' = Ok (xxh3_64_secret (generated s) msg, m')) /\
    XXH3_128bits_withSecret cfg x3 q (mlen msg) buffer 192 m' = Ok (xxh3_128_secret (generated s) msg, m').
Proof.
  intros cfg x3 f m buffer p s q msg D HK HF HM PC PS PL (Q1 & Q2 & Q3) AP.
  destruct (C73_value cfg x3 f m buffer p s D HK HF HM PC PS PL) as (m' & E & B & O). exists m'. split; [exact E|].
  destruct HF as ((MB & BA & B0) & _). change (N.of_nat 192) with 192 in BA. pose proof (C68_secret cfg x3 m' q msg buffer (generated s) D) as T. rewrite generated_length in T.
  apply T; [|exact B|exact BA|exact B0|discriminate]. split; [|split; assumption]. intros i b I.
  rewrite (proj1 O); [exact (Q1 i b I)|]. assert (IL : (i < length msg)%nat) by (apply nth_error_Some; now rewrite I).
  intros [a n] IN. rewrite Forall_forall in AP. specialize (AP _ IN). unfold apart in AP. cbn [fst snd] in *. unfold mlen in AP. clear - AP IL. lia.
Qed.
Print Assumptions C73_use.

(** In place, on two machines, then used. *)
Example C73_case : forall cfg x3, (cfg = x86_64 /\ x3 = x3_demo) \/ (cfg = mips32 /\ x3 = x3_sparc) ->
  exists m', XXH3_generateSecret cfg x3 (Build_gs_frame 8192 8208 8304 8320) 20001 20001 200 x3_mem = Ok (tt, m') /\
    bytes_at m' 20001 (generated (Demo.key 200)) /\
    XXH3_64bits_withSecret cfg x3 20401 7 20001 192 m' = Ok (xxh3_64_secret (generated (Demo.key 200)) (firstn 7 (skipn 400 (Demo.key 1200))), m').
Proof.
  intros cfg x3 C. assert (A : 40000 < addr_space cfg) by (unfold addr_space; destruct (ptr64 cfg); reflexivity).
  assert (D : xxh_force_memory_access (x3_xxh x3) <> 2) by (destruct C as [[_ ->]|[_ ->]]; discriminate).
  assert (K : x3_kSecret x3 = 4096) by (destruct C as [[_ ->]|[_ ->]]; reflexivity). clear C.
  assert (Hm : bytes_at x3_mem 20001 (Demo.key 1200)).
  { unfold x3_mem. apply write_bytes_at_other; [right; discriminate|apply write_bytes_at]. }
  assert (Hk : bytes_at x3_mem 4096 XXH3_kSecret_bytes) by apply write_bytes_at.
  assert (Hl : forall p n, mapped x3_mem p n).
  { intros p n. unfold x3_mem. apply write_mapped. unfold sea. apply write_mapped. intros i _. discriminate. }
  assert (E1 : Demo.key 1200 = Demo.key 200 ++ skipn 200 (Demo.key 1200)) by reflexivity.
  assert (E2 : Demo.key 1200 = firstn 400 (Demo.key 1200) ++ firstn 7 (skipn 400 (Demo.key 1200)) ++ skipn 407 (Demo.key 1200)) by reflexivity.
  assert (L : mlen (Demo.key 200) = 200) by reflexivity. assert (L7 : mlen (firstn 7 (skipn 400 (Demo.key 1200))) = 7) by reflexivity.
  assert (L4 : N.of_nat (length (firstn 400 (Demo.key 1200))) = 400) by reflexivity.
  assert (H1 : bytes_at x3_mem 20001 (Demo.key 200)) by (rewrite E1 in Hm; apply bytes_at_app in Hm; exact (proj1 Hm)).
  assert (H2 : bytes_at x3_mem 20401 (firstn 7 (skipn 400 (Demo.key 1200)))).
  { rewrite E2 in Hm. apply bytes_at_app in Hm. rewrite L4 in Hm. change (20001 + 400) with 20401 in Hm. apply proj2, bytes_at_app in Hm. exact (proj1 Hm). }
  assert (K1 : kSecret_there cfg x3 x3_mem) by (unfold kSecret_there; rewrite K; split; [exact Hk|split; [lia|discriminate]]).
  assert (F1 : frame_there cfg x3 x3_mem (Build_gs_frame 8192 8208 8304 8320) 20001).
  { unfold frame_there, array. rewrite K. cbn [gs_scrambler gs_seeds gs_segment gs_local].
    assert (AR : forall a n, a <> 0 -> (n <= 192)%nat -> a <= 30000 -> mapped x3_mem a n /\ a + N.of_nat n < addr_space cfg /\ a <> 0).
    { intros a n A0 N1 A1. split; [apply Hl|]. split; [clear - A N1 A1; lia|exact A0]. }
    do 5 (split; [apply AR; [discriminate|clear; lia|discriminate]|]).
    unfold all_apart. repeat (constructor; [repeat (constructor; [unfold apart; cbn [fst snd]; clear; lia|]); constructor|]). constructor. }
  set (s7 := firstn 7 (skipn 400 (Demo.key 1200))) in *. clearbody s7. clear E1 E2 L4 Hm.
  assert (S : forall P, P -> Demo.key 200 <> [] -> P) by auto.
  destruct (C73_value cfg x3 (Build_gs_frame 8192 8208 8304 8320) x3_mem 20001 20001 (Demo.key 200) D K1 F1) as (m' & E & B & _).
  { intros _. split; [exact H1|]. rewrite L. split; [clear - A; lia|discriminate]. }
  1-3: rewrite L; unfold apart; cbn [gs_scrambler gs_seeds gs_local]; clear; lia.
  destruct (C73_use cfg x3 (Build_gs_frame 8192 8208 8304 8320) x3_mem 20001 20001 (Demo.key 200) 20401 s7 D K1 F1) as (m2 & EE & U & _).
  { intros _. split; [exact H1|]. rewrite L. split; [clear - A; lia|discriminate]. }
  1-3: rewrite L; unfold apart; cbn [gs_scrambler gs_seeds gs_local]; clear; lia.
  { split; [exact H2|]. rewrite L7. split; [clear - A; lia|discriminate]. }
  { rewrite L7. cbn [gs_scrambler gs_seeds gs_local gs_segment]. repeat (constructor; [unfold apart; cbn [fst snd]; clear; lia|]). constructor. }
  rewrite L in E, EE. rewrite E in EE. injection EE as <-. exists m'. split; [exact E|]. split; [exact B|].
  rewrite L7 in U. apply U. intros _. discriminate.
Qed.
