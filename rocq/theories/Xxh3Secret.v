(** The secret derived from a seed, and the functions with a seed. *)
From Coq Require Import ZArith NArith Arith List Bool Lia Strings.Byte.
From Coq Require Import ZifyN ZifyNat ZifyBool.
From Verif Require Import Bytes CSem Bits Spec NBits CSemFacts OpsFacts FetchFacts CtxMem StreamFacts HighwayFacts
  Xxhash XxhashSpec XxhashFacts Xxh3 Xxh3Spec Onto HighwayCat Xxh3Facts.
Import ListNotations.
Ltac Zify.zify_post_hook ::= Z.div_mod_to_equations.
Local Open Scope N_scope.

Lemma flat_words_length : forall ws, length (flat_map (le_bytes 8) ws) = (8 * length ws)%nat.
Proof. induction ws as [|w ws IH]; [reflexivity|]. cbn [flat_map length]. rewrite app_length, le_bytes_length. lia. Qed.
Lemma words_at : forall ws i, Forall (fun w => w < 2 ^ 64) ws -> (i < length ws)%nat ->
  w8 (flat_map (le_bytes 8) ws) (8 * N.of_nat i) = nth i ws 0.
Proof.
  induction ws as [|w ws IH]; intros i F L; [cbn [length] in L; lia|]. inversion F as [|? ? Hw F']; subst.
  unfold w8, word_at. cbn [flat_map]. destruct i as [|i].
  - change (N.to_nat (8 * N.of_nat 0)) with 0%nat. cbn [skipn nth].
    rewrite firstn_app, le_bytes_length, Nat.sub_diag, firstn_O, app_nil_r, firstn_all2 by (rewrite le_bytes_length; lia).
    rewrite le_num_le_bytes. now apply N.mod_small.
  - rewrite skipn_app, le_bytes_length, skipn_all2 by (rewrite le_bytes_length; lia). cbn [app nth].
    replace (N.to_nat (8 * N.of_nat (S i)) - 8)%nat with (N.to_nat (8 * N.of_nat i)) by lia.
    cbn [length] in L. rewrite <- (IH i F' ltac:(lia)). reflexivity.
Qed.
Lemma seeded_length : forall seed n ws, (length ws <= 2 * n)%nat -> length (seeded seed ws) = length ws.
Proof.
  intros seed n. induction n as [|n IH]; intros ws L; destruct ws as [|a [|b ws]]; try reflexivity; cbn [length] in L; [lia|].
  cbn [seeded length]. rewrite IH by lia. reflexivity.
Qed.
Lemma seeded_nth : forall seed i ws, (2 * i + 1 < length ws)%nat ->
  nth (2 * i) (seeded seed ws) 0 = add (nth (2 * i) ws 0) seed /\ nth (2 * i + 1) (seeded seed ws) 0 = sub (nth (2 * i + 1) ws 0) seed.
Proof.
  intros seed i. induction i as [|i IH]; intros ws L; destruct ws as [|a [|b ws]]; cbn [length] in L; try lia; [split; reflexivity|].
  replace (2 * S i)%nat with (S (S (2 * i))) by lia. replace (S (S (2 * i)) + 1)%nat with (S (S (2 * i + 1))) by lia.
  cbn [seeded nth]. apply IH. lia.
Qed.
Lemma default_small : Forall (fun w => w < 2 ^ 64) default_words.
Proof. repeat constructor. Qed.
Lemma default_length : mlen default_secret = 192.
Proof. unfold mlen, default_secret. rewrite flat_words_length. reflexivity. Qed.
Lemma custom_length : forall seed, length (custom_secret seed) = 192%nat.
Proof. intro seed. unfold custom_secret. rewrite flat_words_length. rewrite (seeded_length seed 12) by (cbn; lia). reflexivity. Qed.
Lemma seeded_0 : forall n ws, (length ws <= 2 * n)%nat -> Forall (fun w => w < 2 ^ 64) ws -> seeded 0 ws = ws.
Proof.
  intro n. induction n as [|n IH]; intros ws L F; destruct ws as [|a [|b ws]]; try reflexivity; cbn [length] in L; [lia|].
  inversion F as [|? ? Ha F1]; subst. inversion F1 as [|? ? Hb F2]; subst. cbn [seeded]. rewrite IH by (auto; lia).
  unfold add, sub. rewrite N.add_0_r, (N.mod_small a), (N.mod_small b) by assumption. change (0 mod 2 ^ 64) with 0. rewrite N.sub_0_r.
  replace (b + 2 ^ 64) with (b + 1 * 2 ^ 64) by lia. rewrite N.mod_add by discriminate. now rewrite N.mod_small.
Qed.
Lemma custom_0 : custom_secret 0 = default_secret.
Proof. unfold custom_secret, default_secret. now rewrite (seeded_0 12) by (apply default_small || (cbn; lia)). Qed.
Lemma firstn_two : forall A (l : list A) n d, (n + 1 < length l)%nat -> firstn (n + 2) l = firstn n l ++ [nth n l d; nth (n + 1) l d].
Proof.
  intros A l. induction l as [|a l IH]; intros n d L; [cbn [length] in L; lia|]. destruct n as [|n].
  - destruct l; [cbn [length] in L; lia|]. reflexivity.
  - cbn [Nat.add firstn app nth]. f_equal. apply IH. cbn [length] in L. lia.
Qed.

Section Secret.
  Variable (cfg : config) (x3 : xxh3_build).
  Hypothesis Hd : xxh_force_memory_access (x3_xxh x3) <> 2.
  Let k := x3_kSecret x3.

  Lemma writeLE64_ok : forall m a v, v < 2 ^ 64 -> mapped m a 8 -> XXH_writeLE64 cfg a v m = Ok (tt, write m a (le_bytes 8 v)).
  Proof.
    intros m a v H Hm. unfold XXH_writeLE64. rewrite (store_uint_ok cfg m a 8 _ Hm). do 3 f_equal.
    destruct (big_endian cfg); [|reflexivity]. rewrite turn64_eq by exact H. unfold turn_64.
    pose proof (be_bytes_be_num (le_bytes 8 v)) as E. now rewrite le_bytes_length in E.
  Qed.

  Lemma initCustomSecret_ok : forall m c seed, here cfg m k default_secret -> mapped m c 192 -> c + 192 < addr_space cfg ->
    c + 192 <= k \/ k + 192 <= c -> seed < 2 ^ 64 ->
    exists m', XXH3_initCustomSecret cfg x3 c seed m = Ok (tt, m') /\ bytes_at m' c (custom_secret seed) /\ only m m' c 192.
  Proof.
    intros m c seed Hk Hc Hs Hap Hseed. unfold XXH3_initCustomSecret. fold k.
    set (body := fun (i : N) (_ : unit) => _). set (ws := seeded seed default_words).
    assert (Lw : length ws = 24%nat) by (unfold ws; rewrite (seeded_length seed 12) by (cbn; lia); reflexivity).
    assert (G : forall n, (n <= 12)%nat -> exists m', for_loop n 0 body tt m = Ok (tt, m') /\
      bytes_at m' c (flat_map (le_bytes 8) (firstn (2 * n) ws)) /\ only m m' c 192).
    { induction n as [|n IH]; intro L.
      - exists m. split; [reflexivity|]. split; [apply bytes_at_nil|apply only_refl].
      - destruct (IH ltac:(lia)) as (m1 & E & B & O). rewrite (for_loop_snoc _ _ _ _ _ _ _ _ E). rewrite N.add_0_l.
        assert (Hk1 : here cfg m1 k default_secret).
        { destruct Hk as [Hb Ha]. split; [|exact Ha]. apply (only_bytes m m1 c 192 k default_secret O); [|exact Hb].
          rewrite default_length. lia. }
        assert (Hc1 : mapped m1 c 192) by (now apply (only_mapped m m1 c 192 c 192 O)).
        unfold body. set (i := N.of_nat n).
        rewrite (at_i cfg m1 k default_secret (16 * i) Hk1) by (rewrite default_length; lia).
        ok (rd64_at cfg x3 Hd m1 k default_secret (16 * i) Hk1 ltac:(rewrite default_length; lia)).
        rewrite (at_ij cfg m1 k default_secret (16 * i) 8 Hk1) by (rewrite default_length; lia).
        ok (rd64_at cfg x3 Hd m1 k default_secret (16 * i + 8) Hk1 ltac:(rewrite default_length; lia)).
        rewrite (padd_small cfg c (16 * i)) by lia. rewrite (padd_small cfg (c + 16 * i) 8) by lia.
        assert (R1 : w8 default_secret (16 * i) = nth (2 * n) default_words 0).
        { replace (16 * i) with (8 * N.of_nat (2 * n)) by lia. apply words_at; [apply default_small|change (length default_words) with 24%nat; lia]. }
        assert (R2 : w8 default_secret (16 * i + 8) = nth (2 * n + 1) default_words 0).
        { replace (16 * i + 8) with (8 * N.of_nat (2 * n + 1)) by lia. apply words_at; [apply default_small|change (length default_words) with 24%nat; lia]. }
        rewrite R1, R2.
        destruct (seeded_nth seed n default_words ltac:(change (length default_words) with 24%nat; lia)) as [N1 N2]. fold ws in N1, N2.
        change add64 with add. change sub64 with sub. rewrite <- N1, <- N2.
        assert (B1 : nth (2 * n) ws 0 < 2 ^ 64) by (rewrite N1; apply add_lt64).
        assert (B2 : nth (2 * n + 1) ws 0 < 2 ^ 64) by (rewrite N2; apply sub_lt64).
        set (x := nth (2 * n) ws 0) in *. set (y := nth (2 * n + 1) ws 0) in *.
        assert (M1 : mapped m1 (c + 16 * i) 8).
        { intros j Hj. replace (c + 16 * i + N.of_nat j) with (c + N.of_nat (16 * n + j)) by lia. apply Hc1. lia. }
        assert (M2 : mapped (write m1 (c + 16 * i) (le_bytes 8 x)) (c + 16 * i + 8) 8).
        { apply write_mapped. intros j Hj. replace (c + 16 * i + 8 + N.of_nat j) with (c + N.of_nat (16 * n + 8 + j)) by lia. apply Hc1. lia. }
        ok (writeLE64_ok m1 (c + 16 * i) x B1 M1). rewrite (writeLE64_ok _ _ y B2 M2).
        eexists. split; [reflexivity|]. split.
        + replace (2 * S n)%nat with (2 * n + 2)%nat by lia. rewrite (firstn_two _ ws (2 * n) 0) by lia. fold x y.
          rewrite flat_map_app. cbn [flat_map]. rewrite app_nil_r. apply bytes_at_app. rewrite flat_words_length, firstn_length_le by lia.
          replace (c + N.of_nat (8 * (2 * n))) with (c + 16 * i) by lia. split; [|apply bytes_at_app; split].
          * apply write_bytes_at_other; [rewrite flat_words_length, firstn_length_le by lia; lia|].
            apply write_bytes_at_other; [rewrite flat_words_length, firstn_length_le by lia; lia|exact B].
          * apply write_bytes_at_other; [rewrite !le_bytes_length; lia|]. apply write_bytes_at.
          * rewrite le_bytes_length. apply write_bytes_at.
        + apply (only_trans _ m1); [exact O|]. apply (only_trans _ (write m1 (c + 16 * i) (le_bytes 8 x))).
          * apply (only_weaken _ _ (c + 16 * i) 8); [|lia|lia]. apply only_write. unfold mlen. now rewrite le_bytes_length.
          * apply (only_weaken _ _ (c + 16 * i + 8) 8); [|lia|lia]. apply only_write. unfold mlen. now rewrite le_bytes_length. }
    destruct (G 12%nat ltac:(lia)) as (m' & E & B & O). exists m'. split; [exact E|]. split; [|exact O].
    unfold custom_secret. fold ws. replace ws with (firstn (2 * 12) ws) by (apply firstn_all2; lia). exact B.
  Qed.
End Secret.

(** ** The entry points *)
Lemma same_short_64 : forall a b c seed (msg : list byte), mlen msg <= 240 -> xxh3_64 a b seed msg = xxh3_64 a c seed msg.
Proof. intros a b c seed msg L. unfold xxh3_64. cbv zeta. do 2 (destruct (_ <=? _); [reflexivity|]). now replace (mlen msg <=? 240) with true by lia. Qed.
Lemma same_short_128 : forall a b c seed (msg : list byte), mlen msg <= 240 -> xxh3_128 a b seed msg = xxh3_128 a c seed msg.
Proof. intros a b c seed msg L. unfold xxh3_128. cbv zeta. do 2 (destruct (_ <=? _); [reflexivity|]). now replace (mlen msg <=? 240) with true by lia. Qed.
Lemma long_64 : forall a b seed (msg : list byte), 240 < mlen msg -> xxh3_64 a b seed msg = merge_3 b 11 (long_3 b msg) (mulw (mlen msg) B1).
Proof.
  intros a b seed msg L. unfold xxh3_64. cbv zeta. replace (mlen msg <=? 16) with false by lia. replace (mlen msg <=? 128) with false by lia.
  now replace (mlen msg <=? 240) with false by lia.
Qed.
Lemma long_128 : forall a b seed (msg : list byte), 240 < mlen msg -> xxh3_128 a b seed msg =
  (merge_3 b 11 (long_3 b msg) (mulw (mlen msg) B1), merge_3 b (mlen b - 75) (long_3 b msg) (compl (mulw (mlen msg) B2))).
Proof.
  intros a b seed msg L. unfold xxh3_128. cbv zeta. replace (mlen msg <=? 16) with false by lia. replace (mlen msg <=? 128) with false by lia.
  now replace (mlen msg <=? 240) with false by lia.
Qed.

Section Entry.
  Variable (cfg : config) (x3 : xxh3_build).
  Hypothesis Hd : xxh_force_memory_access (x3_xxh x3) <> 2.
  Let k := x3_kSecret x3.
  Variables (m : mem) (p : N) (msg : list byte).
  Hypothesis (Hm : here cfg m p msg) (Hp : mlen msg <> 0 -> p <> 0).

  Section Given.
    Variables (q : N) (sec : list byte).
    Hypothesis (Hs : here cfg m q sec) (Hz : 136 <= mlen sec) (Hq : q <> 0).
    Lemma withSecret64_ok : (asserting cfg x3 = true -> mlen msg <> 8) ->
      XXH3_64bits_withSecret cfg x3 p (mlen msg) q (mlen sec) m = Ok (xxh3_64_secret sec msg, m).
    Proof.
      intro HA. unfold XXH3_64bits_withSecret, xxh3_64_secret.
      apply (bits64_ok cfg x3 Hd m p q 0 msg sec Hm Hs Hz); auto.
      intro L. unfold XXH3_hashLong_64b_withSecret. rewrite long_64 by exact L.
      apply (hashLong_64b_ok cfg x3 Hd m p q msg sec Hm Hs Hz). lia.
    Qed.
    Lemma withSecret128_ok : XXH3_128bits_withSecret cfg x3 p (mlen msg) q (mlen sec) m = Ok (xxh3_128_secret sec msg, m).
    Proof.
      unfold XXH3_128bits_withSecret, xxh3_128_secret.
      apply (bits128_ok cfg x3 Hd m p q 0 msg sec Hm Hs Hz); auto.
      intro L. unfold XXH3_hashLong_128b_withSecret. rewrite long_128 by exact L.
      apply (hashLong_128b_ok cfg x3 Hd m p q msg sec Hm Hs Hz). lia.
    Qed.
  End Given.

  Hypothesis (Hk : here cfg m k default_secret) (Hk0 : k <> 0).
  Lemma plain64_ok : (asserting cfg x3 = true -> mlen msg <> 8) -> XXH3_64bits cfg x3 p (mlen msg) m = Ok (xxh3_64_plain msg, m).
  Proof. intro HA. change (xxh3_64_plain msg) with (xxh3_64_secret default_secret msg).
    rewrite <- (withSecret64_ok k default_secret Hk) by (auto; rewrite default_length; discriminate).
    unfold XXH3_64bits, XXH3_64bits_withSecret, XXH_SECRET_DEFAULT_SIZE. fold k. rewrite default_length.
    reflexivity.
  Qed.
  Lemma plain128_ok : XXH3_128bits cfg x3 p (mlen msg) m = Ok (xxh3_128_plain msg, m).
  Proof. change (xxh3_128_plain msg) with (xxh3_128_secret default_secret msg).
    rewrite <- (withSecret128_ok k default_secret Hk) by (auto; rewrite default_length; discriminate).
    unfold XXH3_128bits, XXH3_128bits_withSecret, XXH_SECRET_DEFAULT_SIZE. fold k. rewrite default_length.
    reflexivity.
  Qed.

  Variables (local seed : N).
  Hypothesis (Hl : mapped m local 192) (Hla : local + 192 < addr_space cfg) (Hl0 : local <> 0) (Hseed : seed < 2 ^ 64)
    (Hlk : local + 192 <= k \/ k + 192 <= local) (Hlp : local + 192 <= p \/ p + mlen msg <= local).
  Lemma fresh_secret : exists m', XXH3_initCustomSecret cfg x3 local seed m = Ok (tt, m') /\
    here cfg m' local (custom_secret seed) /\ here cfg m' p msg /\ only m m' local 192.
  Proof.
    destruct (initCustomSecret_ok cfg x3 Hd m local seed Hk Hl Hla Hlk Hseed) as (m' & E & B & O).
    assert (Lc : mlen (custom_secret seed) = 192) by (unfold mlen; now rewrite custom_length).
    exists m'. split; [exact E|]. split; [split; [exact B|rewrite Lc; exact Hla]|]. split; [|exact O].
    destruct Hm as [Hb Ha]. split; [|exact Ha]. apply (only_bytes m m' local 192 p msg O); [lia|exact Hb].
  Qed.
  Lemma withSeed64_ok : (asserting cfg x3 = true -> mlen msg <> 8) ->
    exists m', XXH3_64bits_withSeed cfg x3 local p (mlen msg) seed m = Ok (xxh3_64_seed seed msg, m') /\ only m m' local 192.
  Proof.
    intro HA. assert (Hz : 136 <= mlen default_secret) by (rewrite default_length; discriminate).
    unfold XXH3_64bits_withSeed, xxh3_64_seed. fold k.
    replace XXH_SECRET_DEFAULT_SIZE with (mlen default_secret) by apply default_length.
    destruct (N.leb_spec (mlen msg) 240) as [L|L].
    - exists m. split; [|apply only_refl]. apply (bits64_ok cfg x3 Hd m p k seed msg default_secret Hm Hk Hz); auto; [lia|].
      intro L'. now rewrite (same_short_64 _ (custom_secret seed) default_secret seed msg).
    - rewrite long_64 by exact L. destruct (N.eqb_spec seed 0) as [E0|E0].
      + exists m. split; [|apply only_refl]. apply (bits64_ok cfg x3 Hd m p k seed msg default_secret Hm Hk Hz); auto; [|lia].
        intros _. unfold XXH3_hashLong_64b_withSeed. rewrite E0. cbn [N.eqb]. rewrite custom_0.
        fold k. replace XXH_SECRET_DEFAULT_SIZE with (mlen default_secret) by apply default_length.
        apply (hashLong_64b_ok cfg x3 Hd m p k msg default_secret Hm Hk Hz). lia.
      + destruct fresh_secret as (m' & E & B & Hp' & O). exists m'. split; [|exact O].
        apply (bits64_ok cfg x3 Hd m p k seed msg default_secret Hm Hk Hz); auto; [|lia].
        intros _. unfold XXH3_hashLong_64b_withSeed. replace (seed =? 0) with false by lia. ok E.
        assert (Lc : mlen (custom_secret seed) = 192) by (unfold mlen; now rewrite custom_length).
        replace XXH_SECRET_DEFAULT_SIZE with (mlen (custom_secret seed)) by exact Lc.
        apply (hashLong_64b_ok cfg x3 Hd m' p local msg (custom_secret seed) Hp' B); lia.
  Qed.
  Lemma withSeed128_ok :
    exists m', XXH3_128bits_withSeed cfg x3 local p (mlen msg) seed m = Ok (xxh3_128_seed seed msg, m') /\ only m m' local 192.
  Proof.
    assert (Hz : 136 <= mlen default_secret) by (rewrite default_length; discriminate).
    unfold XXH3_128bits_withSeed, xxh3_128_seed. fold k.
    replace XXH_SECRET_DEFAULT_SIZE with (mlen default_secret) by apply default_length.
    destruct (N.leb_spec (mlen msg) 240) as [L|L].
    - exists m. split; [|apply only_refl]. apply (bits128_ok cfg x3 Hd m p k seed msg default_secret Hm Hk Hz); auto; [lia|].
      intro L'. now rewrite (same_short_128 _ (custom_secret seed) default_secret seed msg).
    - rewrite long_128 by exact L. destruct (N.eqb_spec seed 0) as [E0|E0].
      + exists m. split; [|apply only_refl]. apply (bits128_ok cfg x3 Hd m p k seed msg default_secret Hm Hk Hz); auto; [|lia].
        intros _. unfold XXH3_hashLong_128b_withSeed. rewrite E0. cbn [N.eqb]. rewrite custom_0.
        fold k. replace XXH_SECRET_DEFAULT_SIZE with (mlen default_secret) by apply default_length.
        apply (hashLong_128b_ok cfg x3 Hd m p k msg default_secret Hm Hk Hz). lia.
      + destruct fresh_secret as (m' & E & B & Hp' & O). exists m'. split; [|exact O].
        apply (bits128_ok cfg x3 Hd m p k seed msg default_secret Hm Hk Hz); auto; [|lia].
        intros _. unfold XXH3_hashLong_128b_withSeed. replace (seed =? 0) with false by lia. ok E.
        assert (Lc : mlen (custom_secret seed) = 192) by (unfold mlen; now rewrite custom_length).
        replace XXH_SECRET_DEFAULT_SIZE with (mlen (custom_secret seed)) by exact Lc.
        apply (hashLong_128b_ok cfg x3 Hd m' p local msg (custom_secret seed) Hp' B); lia.
  Qed.
End Entry.
