(** HighwayHash in C++: the operations of HHStatePortable are correct. *)
From Coq Require Import ZArith NArith Arith List Bool Lia Strings.Byte.
From Coq Require Import ZifyN ZifyNat ZifyBool.
From Verif Require Import Bytes CSem Bits Spec NBits CSemFacts OpsFacts FetchFacts CtxMem StreamFacts SelfcheckSpec T1ha2
  Onto Highway HighwaySpec HighwayFacts HighwayCat HighwayCxx HighwayTemplates.
Import ListNotations.
Ltac Zify.zify_post_hook ::= Z.div_mod_to_equations.
Local Open Scope N_scope.

(** ** The steps are those of the C code *)
Lemma add_lor : forall a b, a < 2 ^ 64 -> b < 2 ^ 64 -> N.land a b = 0 -> add64 a b = N.lor a b.
Proof.
  intros a b A B D. unfold add64. rewrite <- lor_add by exact D. apply u64_small. now apply (lor_lt 64).
Qed.
Ltac puts64 := first [now apply put_small | apply (lor_lt 64); puts64].
Ltac lors := repeat match goal with |- context [add64 ?a ?b] => rewrite (add_lor a b) by (disj || puts64) end.
Lemma pt_zipper_eq : forall v1 v0 a1 a0, pt_ZipperMergeAndAdd v1 v0 a1 a0 = ZipperMergeAndAdd v1 v0 a1 a0.
Proof.
  intros y x q p. unfold pt_ZipperMergeAndAdd, ZipperMergeAndAdd, MASK. cbv zeta.
  change (shl64 255 (0 * 8)) with 0xff. change (shl64 255 (1 * 8)) with 0xff00. change (shl64 255 (2 * 8)) with 0xff0000.
  change (shl64 255 (3 * 8)) with 0xff000000. change (shl64 255 (4 * 8)) with 0xff00000000. change (shl64 255 (5 * 8)) with 0xff0000000000.
  change (shl64 255 (6 * 8)) with 0xff000000000000. change (shl64 255 (7 * 8)) with 0xff00000000000000.
  rewrite !(mask_put 0 y 0xff), !(mask_put 1 y 0xff00), !(mask_put 2 y 0xff0000), !(mask_put 3 y 0xff000000), !(mask_put 4 y 0xff00000000),
    !(mask_put 5 y 0xff0000000000), !(mask_put 6 y 0xff000000000000), !(mask_put 7 y 0xff00000000000000) by (lia || reflexivity).
  rewrite !(mask_put 1 x 0xff00), !(mask_put 2 x 0xff0000), !(mask_put 3 x 0xff000000), !(mask_put 4 x 0xff00000000),
    !(mask_put 5 x 0xff0000000000), !(mask_put 6 x 0xff000000000000), !(mask_put 7 x 0xff00000000000000) by (lia || reflexivity).
  rewrite !low_put. cbn [N.of_nat Pos.of_succ_nat Pos.succ].
  generalize (nth 0 (le_bytes 8 x) x00) (nth 1 (le_bytes 8 x) x00) (nth 2 (le_bytes 8 x) x00) (nth 3 (le_bytes 8 x) x00)
    (nth 4 (le_bytes 8 x) x00) (nth 5 (le_bytes 8 x) x00) (nth 6 (le_bytes 8 x) x00) (nth 7 (le_bytes 8 x) x00)
    (nth 0 (le_bytes 8 y) x00) (nth 1 (le_bytes 8 y) x00) (nth 2 (le_bytes 8 y) x00) (nth 3 (le_bytes 8 y) x00)
    (nth 4 (le_bytes 8 y) x00) (nth 5 (le_bytes 8 y) x00) (nth 6 (le_bytes 8 y) x00) (nth 7 (le_bytes 8 y) x00).
  intros x0 x1 x2 x3 x4 x5 x6 x7 y0 y1 y2 y3 y4 y5 y6 y7.
  rewrite (add_lor (put 3 y3) (put 4 x4)), (add_lor (put 3 x3) (put 4 y4)), (add_lor (put 5 x5) (put 6 y6)) by (disj || puts64).
  change 24 with (8 * 3). change 16 with (8 * 2). change (shl64 (put 1 x1) 32) with (shl64 (put 1 x1) (8 * 4)).
  change (shr64 (put 7 y7) 8) with (shr64 (put 7 y7) (8 * 1)). change (shr64 (put 6 x6) 8) with (shr64 (put 6 x6) (8 * 1)).
  change (shl64 (put 0 y0) 48) with (shl64 (put 0 y0) (8 * 6)).
  rewrite !put_shr64_2, !put_shr64, !put_shl64 by discriminate.
  repeat match goal with |- context [put (?a - ?b)] => let v := eval vm_compute in (a - b) in change (a - b) with v end.
  repeat match goal with |- context [put (?a + ?b)] => let v := eval vm_compute in (a + b) in change (a + b) with v end.
  lors. reflexivity.
Qed.
Lemma pt_lane_eq : forall a b c d w, pt_lane a (add64 (add64 b w) c) c d = Update_lane a b c d w.
Proof.
  intros a b c d w. unfold pt_lane, Update_lane.
  assert (E : add64 (add64 b w) c = add64 b (add64 c w)).
  { unfold add64, u64. rewrite N.add_mod_idemp_l, N.add_mod_idemp_r by discriminate. f_equal. lia. }
  rewrite E. assert (L : forall x, N.land x 0xffffffff = u32 x) by (intro x; apply (N.land_ones x 32)).
  cbv zeta. now rewrite !L.
Qed.
Lemma pt_UpdateLanes_eq : forall w st, pt_UpdateLanes w st = Update w st.
Proof.
  intros [[[w0 w1] w2] w3] [[[[a0 a1] a2] a3] [[[b0 b1] b2] b3] [[[c0 c1] c2] c3] [[[d0 d1] d2] d3]].
  unfold pt_UpdateLanes, Update, lanes2. cbn [hh_v0 hh_v1 hh_mul0 hh_mul1]. rewrite !pt_lane_eq.
  destruct (Update_lane a0 _ _ _ _) as [[[e0 f0] g0] h0], (Update_lane a1 _ _ _ _) as [[[e1 f1] g1] h1],
    (Update_lane a2 _ _ _ _) as [[[e2 f2] g2] h2], (Update_lane a3 _ _ _ _) as [[[e3 f3] g3] h3].
  rewrite !(pt_zipper_eq f1 f0), !(pt_zipper_eq f3 f2).
  destruct (ZipperMergeAndAdd f1 f0 _ _) as [i1 i0], (ZipperMergeAndAdd f3 f2 _ _) as [i3 i2]. now rewrite !pt_zipper_eq.
Qed.
Lemma pt_Reset_eq : forall key, pt_Reset key = HighwayHashReset_pure_c key.
Proof. now intros [[[k0 k1] k2] k3]. Qed.
Lemma pt_rounds_eq : forall n st, Nat.iter n pt_PermuteAndUpdate st = PermuteAndUpdate_times n st.
Proof.
  intros n st. unfold PermuteAndUpdate_times. induction n as [|n IH]; [reflexivity|]. cbn [Nat.iter nat_rect] in *.
  unfold Nat.iter in IH. rewrite IH. unfold pt_PermuteAndUpdate at 1. rewrite pt_UpdateLanes_eq. reflexivity.
Qed.
Lemma pt_Finalize_eq : forall st, pt_Finalize64 st = HighwayHashFinalize64_pure_c st /\
  pt_Finalize128 st = HighwayHashFinalize128_pure_c st /\ pt_Finalize256 st = HighwayHashFinalize256_pure_c st.
Proof.
  intro st. unfold pt_Finalize64, pt_Finalize128, pt_Finalize256, HighwayHashFinalize64_pure_c, HighwayHashFinalize128_pure_c, HighwayHashFinalize256_pure_c.
  rewrite !pt_rounds_eq. generalize (PermuteAndUpdate_times 4 st) (PermuteAndUpdate_times 6 st) (PermuteAndUpdate_times 10 st). intros s4 s6 s10.
  split; [reflexivity|]. split; reflexivity.
Qed.

(** ** Packets *)
Lemma le64_native : forall cfg l, length l = 8%nat -> host_from_le64 cfg (native_num cfg l) = le_num l.
Proof. intros cfg l L. unfold host_from_le64, native_num. destruct (big_endian cfg); [now apply bswap64_be|reflexivity]. Qed.
Lemma le32_native : forall cfg l, length l = 4%nat -> host_from_le32 cfg (native_num cfg l) = le_num l.
Proof. intros cfg l L. unfold host_from_le32, native_num. destruct (big_endian cfg); [now apply bswap32_be|reflexivity]. Qed.
Lemma pt_local_eq : forall cfg l st, length l = 32%nat -> pt_Update_local cfg l st = UpdatePacket_local l st.
Proof.
  intros cfg l st L. unfold pt_Update_local, UpdatePacket_local. rewrite pt_UpdateLanes_eq.
  rewrite !le64_native, !read64_ok by (rewrite firstn_length, skipn_length; lia). reflexivity.
Qed.
Lemma pt_packet_ok : forall cfg l st, length l = 32%nat -> good (conv st) -> conv (pt_Update_local cfg l st) = hh_packet (conv st) l.
Proof. intros cfg l st L G. rewrite pt_local_eq by exact L. now apply packet_local_ok. Qed.

(** ** The remainder *)
Lemma load_before_ok : forall cfg m from l4 n, length l4 = 4%nat -> bytes_at m (from + n - 4) l4 -> 4 <= from + n -> n < 4 ->
  from + n <= addr_space cfg -> Load3_AllowReadBeforeAndReturn cfg from n m = Ok (le_num l4, m).
Proof.
  intros cfg m from l4 n L H LO N4 A. pose proof (addr_space_pos cfg) as AS. unfold Load3_AllowReadBeforeAndReturn.
  assert (P : psub cfg (padd cfg from n) 4 = from + n - 4).
  { destruct (N.eq_dec (from + n) (addr_space cfg)) as [E|E].
    - unfold padd, psub. rewrite E, N.mod_same by lia. rewrite (N.mod_small 4) by lia. rewrite N.add_0_l. apply N.mod_small. lia.
    - rewrite padd_small, psub_small by lia. reflexivity. }
  rewrite P, <- L. ok (load_bytes_ok l4 m _ H). now rewrite le32_native.
Qed.
Lemma unordered_ok : forall cfg m from t, (length t <= 3)%nat -> bytes_at m from t -> from + mlen t <= addr_space cfg ->
  Load3_AllowUnordered cfg from (mlen t) m = Ok (le_num (last3 t), m).
Proof.
  intros cfg m from t L H A. pose proof (addr_space_pos cfg) as AS. unfold Load3_AllowUnordered.
  assert (V : forall x y z, add64 (add64 (b2n x) (shl64 (b2n y) 8)) (shl64 (b2n z) 16) = le_num [x; y; z]).
  { intros x y z. unfold add64, shl64, u64. rewrite !N.shiftl_mul_pow2. cbn [le_num]. pose proof (b2n_lt x). pose proof (b2n_lt y). pose proof (b2n_lt z).
    change (2 ^ 8) with 256. change (2 ^ 16) with 65536. change W64 with 18446744073709551616. lia. }
  assert (B : forall i k, i = N.of_nat k -> (k < length t)%nat -> load8 (padd cfg from i) m = Ok (nth k t x00, m)).
  { intros i k -> K. rewrite padd_small by (unfold mlen in A; lia). now apply byte_at_ok. }
  destruct t as [|x [|y [|z [|]]]]; cbn [length] in L; try lia; cbn [mlen]; unfold mlen in *; cbn [length] in *.
  - reflexivity.
  - change (N.of_nat 1 =? 0) with false. cbv iota. ok (B 0 0%nat eq_refl ltac:(lia)). ok (B (N.shiftr (N.of_nat 1) 1) 0%nat eq_refl ltac:(lia)).
    ok (B (N.of_nat 1 - 1) 0%nat eq_refl ltac:(lia)). unfold ret. now rewrite V.
  - change (N.of_nat 2 =? 0) with false. cbv iota. ok (B 0 0%nat eq_refl ltac:(lia)). ok (B (N.shiftr (N.of_nat 2) 1) 1%nat eq_refl ltac:(lia)).
    ok (B (N.of_nat 2 - 1) 1%nat eq_refl ltac:(lia)). unfold ret. now rewrite V.
  - change (N.of_nat 3 =? 0) with false. cbv iota. ok (B 0 0%nat eq_refl ltac:(lia)). ok (B (N.shiftr (N.of_nat 3) 1) 1%nat eq_refl ltac:(lia)).
    ok (B (N.of_nat 3 - 1) 2%nat eq_refl ltac:(lia)). unfold ret. now rewrite V.
Qed.
Lemma native_le4 : forall cfg l, length l = 4%nat -> native cfg 4 (le_num l) = if big_endian cfg then rev l else l.
Proof.
  intros cfg l L. unfold native, be_bytes. rewrite <- L. rewrite le_bytes_le_num. reflexivity.
Qed.
Lemma native_le3 : forall cfg l, length l = 3%nat ->
  native cfg 8 (le_num l) = if big_endian cfg then repeat x00 5 ++ rev l else l ++ repeat x00 5.
Proof.
  intros cfg l L. assert (E : le_num l = le_num (l ++ repeat x00 5)).
  { do 3 (destruct l as [|? l]; [discriminate L|]). destruct l; [|discriminate L]. reflexivity. }
  assert (L8 : length (l ++ repeat x00 5) = 8%nat) by (rewrite app_length, L; reflexivity).
  rewrite E. unfold native, be_bytes. rewrite <- L8. rewrite le_bytes_le_num. rewrite rev_app_distr. reflexivity.
Qed.
(** how a build pads *)
Definition cxx_pad (cfg : config) : list byte -> list byte := if big_endian cfg then pad_reversed else pad.
Definition cxx_packet (cfg : config) (r : list byte) : list byte :=
  let n := length r in
  let q := (4 * (n / 4))%nat in
  let packet := firstn q r ++ repeat x00 (32 - length (firstn q r)) in
  if (16 <=? n)%nat then firstn 28 packet ++ (if big_endian cfg then rev (skipn (n - 4) r) else skipn (n - 4) r)
  else firstn 16 packet ++ (if big_endian cfg then repeat x00 5 ++ rev (last3 (skipn q r)) else last3 (skipn q r) ++ repeat x00 5) ++ skipn 24 packet.
Lemma cxx_packet_pad : forall cfg r, (1 <= length r <= 31)%nat -> cxx_packet cfg r = cxx_pad cfg r /\ length (cxx_pad cfg r) = 32%nat.
Proof.
  intros cfg r H. unfold cxx_packet, cxx_pad. destruct (big_endian cfg).
  - do 32 (destruct r as [|? r]; [try (cbn [length] in H; lia); split; reflexivity|]). cbn [length] in H. lia.
  - do 32 (destruct r as [|? r]; [try (cbn [length] in H; lia); split; reflexivity|]). cbn [length] in H. lia.
Qed.
Lemma last3_length : forall t, length (last3 t) = 3%nat.
Proof. now intros [|x [|y [|z ?]]]. Qed.
Lemma lanes1_add : forall st pair, let '(a0, a1, a2, a3) := hh_v0 st in
  lanes1 (fun x => add64 x pair) (hh_v0 st) = (add64 a0 pair, add64 a1 pair, add64 a2 pair, add64 a3 pair).
Proof. intros st pair. now destruct (hh_v0 st) as [[[a0 a1] a2] a3]. Qed.
Lemma pt_remainder_ok : forall cfg m p r st, (1 <= length r <= 31)%nat -> bytes_at m p r -> p + mlen r < addr_space cfg -> good (conv st) ->
  exists st', pt_UpdateRemainder cfg p (mlen r) st m = Ok (st', m) /\ conv st' = hh_rest_with (cxx_pad cfg) (conv st) r.
Proof.
  intros cfg m p r st L H A G. pose proof (addr_space_pos cfg) as AS.
  assert (NL : 0 < mlen r < 32) by (unfold mlen; lia).
  pose proof (length_ok (mlen r) st G NL) as LO. unfold pt_UpdateRemainder. cbv zeta.
  pose proof (lanes1_add st (add64 (shl64 (mlen r) 32) (mlen r))) as LA.
  destruct (hh_v0 st) as [[[a0 a1] a2] a3]. rewrite LA. clear LA. destruct LO as (v1 & R & C & G'). rewrite (bind_ok _ _ _ _ _ _ _ (R m)).
  set (st1 := HHS _ v1 _ _) in *. clearbody st1. rewrite <- C in G'.
  destruct (cxx_packet_pad cfg r L) as [PP PL].
  exists (pt_Update_local cfg (cxx_pad cfg r) st1). split.
  - rewrite land_3. set (q := (4 * (length r / 4))%nat).
    assert (Q : mlen r - mlen r mod 4 = N.of_nat q) by (unfold mlen, q; lia). rewrite Q, Nat2N.id.
    assert (QL : (q <= length r)%nat) by (unfold q; lia).
    assert (QN : N.of_nat q + mlen r mod 4 = mlen r) by (rewrite <- Q; pose proof (N.mod_le (mlen r) 4 ltac:(discriminate)); lia).
    assert (LQ : length (firstn q r) = q) by (rewrite firstn_length; lia).
    rewrite <- LQ at 1. ok (load_bytes_ok (firstn q r) m p (bytes_at_firstn _ _ _ _ H)).
    rewrite land_16, negb_involutive by lia. rewrite <- PP. unfold cxx_packet. fold q.
    assert (PA : padd cfg p (N.of_nat q) = p + N.of_nat q) by (apply padd_small; unfold mlen in A; lia). rewrite PA.
    destruct (N.leb_spec 16 (mlen r)) as [B|B].
    + destruct (Nat.leb_spec 16 (length r)) as [B'|B']; [|unfold mlen in B; lia].
      assert (L4 : length (skipn (length r - 4) r) = 4%nat) by (rewrite skipn_length; lia).
      assert (H4 : bytes_at m (p + N.of_nat q + mlen r mod 4 - 4) (skipn (length r - 4) r)).
      { replace (p + N.of_nat q + mlen r mod 4 - 4) with (p + N.of_nat (length r - 4)) by (unfold mlen in *; lia). apply bytes_at_skipn; [exact H|lia]. }
      ok (load_before_ok cfg m (p + N.of_nat q) _ (mlen r mod 4) L4 H4 ltac:(lia) ltac:(lia) ltac:(lia)).
      rewrite native_le4 by exact L4. reflexivity.
    + destruct (Nat.leb_spec 16 (length r)) as [B'|B']; [unfold mlen in B; lia|].
      assert (LS : length (skipn q r) = (length r mod 4)%nat) by (rewrite skipn_length; unfold q; lia).
      assert (MS : mlen r mod 4 = mlen (skipn q r)) by (unfold mlen; lia). rewrite MS.
      ok (unordered_ok cfg m (p + N.of_nat q) (skipn q r) ltac:(lia) (bytes_at_skipn _ _ _ _ H QL) ltac:(lia)).
      rewrite native_le3 by apply last3_length. reflexivity.
  - rewrite pt_packet_ok by assumption. rewrite C. unfold hh_rest_with. destruct r; [cbn [length] in L; lia|reflexivity].
Qed.

(** ** All of them *)
Lemma portable_sound : forall cfg, hh_sound cfg portable conv (cxx_pad cfg) 1.
Proof.
  intro cfg. pose proof (addr_space_pos cfg) as AS. constructor; cbn [portable op_Reset op_Update op_UpdateRemainder op_Finalize64 op_Finalize128 op_Finalize256
    op_ZeroInitialize op_CopyPartial op_AppendPartial op_AppendAndUpdate].
  - intros key K. rewrite pt_Reset_eq. now apply reset_ok.
  - intros m p l st L H A G. unfold pt_Update. exists (pt_Update_local cfg l st). split; [|now apply pt_packet_ok].
    rewrite <- L. ok (load_bytes_ok l m p H). reflexivity.
  - intros. now apply pt_remainder_ok.
  - intros st G. destruct (pt_Finalize_eq st) as (-> & _). now apply finalize64_ok.
  - intros st G. destruct (pt_Finalize_eq st) as (_ & -> & _). now apply finalize128_ok.
  - intros st G. destruct (pt_Finalize_eq st) as (_ & _ & ->). now apply finalize256_ok.
  - intros m b M A _. unfold pt_ZeroInitialize. assert (M0 : mapped m b (length (repeat x00 32))) by exact M.
    exists (write m b (repeat x00 32)). split; [exact (store_bytes_ok _ _ _ M0)|]. now apply only_write.
  - intros m p l b L H A M A' _ D. unfold pt_CopyPartial. replace (N.to_nat (mlen l)) with (length l) by (unfold mlen; lia).
    destruct (copy_each_ok cfg l b p m H) as (m' & E & B & O).
    + intros i I. apply M. lia.
    + unfold apart, mlen in *. lia.
    + unfold mlen. lia.
    + exact A.
    + exists m'. split; [exact E|]. split; [exact B|]. eapply only_weaken; [exact O|lia|unfold mlen; lia].
  - intros m p l b old L H A M A' _ D B. unfold pt_AppendPartial. replace (N.to_nat (mlen l)) with (length l) by (unfold mlen; lia).
    rewrite padd_small by (unfold mlen; lia).
    destruct (copy_each_ok cfg l (b + mlen old) p m H) as (m' & E & B' & O).
    + intros i I. replace (b + mlen old + N.of_nat i) with (b + N.of_nat (length old + i)) by (unfold mlen; lia). apply M. lia.
    + unfold apart, mlen in *. lia.
    + unfold mlen. lia.
    + exact A.
    + exists m'. split; [exact E|]. split.
      * apply bytes_at_app. split; [|exact B']. eapply only_bytes; [exact O| |exact B]. lia.
      * eapply only_weaken; [exact O|lia|unfold mlen; lia].
  - intros m p l b old st L LO H A M A' _ D B G. unfold pt_AppendAndUpdate, tmp_of.
    replace (N.to_nat (mlen l)) with (length l) by (unfold mlen; lia). replace (N.to_nat (mlen old)) with (length old) by (unfold mlen; lia).
    exists (pt_Update_local cfg (old ++ l) st). split; [|apply pt_packet_ok; [rewrite app_length; lia|exact G]].
    rewrite bind_assoc. ok (load_bytes_ok old m b B). rewrite bind_assoc. ok (load_bytes_ok l m p H).
    destruct (N.eqb_spec (mlen old + mlen l) 32) as [_|X]; [reflexivity|unfold mlen in X; lia].
Qed.
