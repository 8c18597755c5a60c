(** C56, C57: what the steps of HighwayHash keep, and what its comments say. *)
From Coq Require Import ZArith NArith Arith List Bool Lia Permutation Strings.Byte.
From Coq Require Import ZifyN ZifyNat ZifyBool.
From Verif Require Import Bytes CSem Bits Spec NBits CSemFacts OpsFacts Inject Onto KeyMem StreamFacts Highway HighwaySpec HighwayFacts HighwayCat PropHighway.
Import ListNotations.
Local Open Scope N_scope.

(** ** C56: no step loses anything *)
Lemma add_inj64 : forall c x y, x < 2 ^ 64 -> y < 2 ^ 64 -> add c x = add c y -> x = y.
Proof. intros c x y X Y E. apply (add_inj (2 ^ 64) c); [discriminate|exact X|exact Y|exact E]. Qed.
Lemma add_comm64 : forall x y, add x y = add y x.
Proof. intros. unfold add. now rewrite N.add_comm. Qed.
Lemma add_inj_l : forall c x y, x < 2 ^ 64 -> y < 2 ^ 64 -> add x c = add y c -> x = y.
Proof. intros c x y X Y. rewrite !(add_comm64 _ c). now apply add_inj64. Qed.
Lemma xor_inj_l : forall c x y, xor x c = xor y c -> x = y.
Proof. intros c x y. unfold xor. rewrite !(N.lxor_comm _ c). apply xor_inj. Qed.
Lemma add_assoc64 : forall x y z, add x (add y z) = add y (add x z).
Proof.
  intros. unfold add. rewrite !N.add_mod_idemp_r by discriminate. now rewrite N.add_assoc, (N.add_comm x y), <- N.add_assoc.
Qed.

(** what a step with the word [w] leaves of a column: all but the sum of [cb] and [w] *)
Definition same_col (s s' : column) (w w' : N) : Prop :=
  ca s = ca s' /\ cc s = cc s' /\ cd s = cd s' /\ add (cb s) w = add (cb s') w'.
Lemma col_step_inj : forall s s' w w', good_col s -> good_col s' -> col_step s w = col_step s' w' -> same_col s s' w w'.
Proof.
  intros [a b c d] [a' b' c' d'] w w' (A & B & C & D) (A' & B' & C' & D') E. unfold col_step in E. cbn [ca cb cc cd] in *.
  injection E as E1 E2 E3 E4. rewrite E2, E1 in E4. apply xor_inj_l in E4. subst d'.
  apply add_inj_l in E1; [|assumption..]. subst a'. rewrite E2 in E3. apply xor_inj_l in E3. subst c'.
  rewrite !(add_assoc64 _ c) in E2. apply add_inj64 in E2; [|apply add_lt64..]. unfold same_col. cbn [ca cb cc cd]. auto.
Qed.
Lemma zip_a_inj : forall s t s' t', good_col s -> good_col t -> good_col s' -> good_col t' ->
  zip_a (s, t) = zip_a (s', t') -> s = s' /\ t = t'.
Proof.
  intros [a b c d] [e f g h] [a' b' c' d'] [e' f' g' h'] (A & _) (B & _) (A' & _) (B' & _) E. unfold zip_a in E. cbn [ca cb cc cd] in *.
  destruct (zip b f) as [x y] eqn:Z, (zip b' f') as [x' y'] eqn:Z'. injection E as E1 -> -> -> E2 -> -> ->.
  rewrite Z in Z'. injection Z' as <- <-. apply add_inj_l in E1; [|assumption..]. apply add_inj_l in E2; [|assumption..]. now subst.
Qed.
Lemma zip_b_inj : forall s t s' t', good_col s -> good_col t -> good_col s' -> good_col t' ->
  zip_b (s, t) = zip_b (s', t') -> s = s' /\ t = t'.
Proof.
  intros [a b c d] [e f g h] [a' b' c' d'] [e' f' g' h'] (_ & A & _) (_ & B & _) (_ & A' & _) (_ & B' & _) E. unfold zip_b in E. cbn [ca cb cc cd] in *.
  destruct (zip a e) as [x y] eqn:Z, (zip a' e') as [x' y'] eqn:Z'. injection E as -> E1 -> -> -> E2 -> ->.
  rewrite Z in Z'. injection Z' as <- <-. apply add_inj_l in E1; [|assumption..]. apply add_inj_l in E2; [|assumption..]. now subst.
Qed.
Lemma good_zip_a : forall s t, good_col s -> good_col t -> good_col (fst (zip_a (s, t))) /\ good_col (snd (zip_a (s, t))).
Proof.
  intros s t (S1 & S2 & S3 & S4) (T1 & T2 & T3 & T4). unfold zip_a. destruct (zip _ _) as [x y]. cbn [fst snd].
  split; repeat split; cbn [ca cb cc cd]; try assumption; apply add_lt64.
Qed.
Lemma half_inj : forall s t s' t' w v w' v', good_col s -> good_col t -> good_col s' -> good_col t' ->
  half_step (s, t) (w, v) = half_step (s', t') (w', v') -> same_col s s' w w' /\ same_col t t' v v'.
Proof.
  intros s t s' t' w v w' v' S T S' T' E. unfold half_step in E. cbn [fst snd] in E.
  pose proof (good_col_step s w S) as G1. pose proof (good_col_step t v T) as G2.
  pose proof (good_col_step s' w' S') as G1'. pose proof (good_col_step t' v' T') as G2'.
  destruct (good_zip_a _ _ G1 G2) as [H1 H2]. destruct (good_zip_a _ _ G1' G2') as [H1' H2'].
  rewrite (surjective_pairing (zip_a (col_step s w, _))), (surjective_pairing (zip_a (col_step s' w', _))) in E.
  apply zip_b_inj in E; [|assumption..]. destruct E as [E1 E2].
  assert (E : zip_a (col_step s w, col_step t v) = zip_a (col_step s' w', col_step t' v')) by now apply injective_projections.
  apply zip_a_inj in E; [|assumption..]. destruct E as [F1 F2]. split; now apply col_step_inj.
Qed.
Lemma quad_inj : forall A (a b c d a' b' c' d' : A), (a, b, c, d) = (a', b', c', d') -> a = a' /\ b = b' /\ c = c' /\ d = d'.
Proof. intros A a b c d a' b' c' d' E. injection E as -> -> -> ->. auto. Qed.
Definition same_state (s s' : hstate) (w w' : N * N * N * N) : Prop :=
  let '(s0, s1, s2, s3) := s in let '(t0, t1, t2, t3) := s' in
  let '(w0, w1, w2, w3) := w in let '(v0, v1, v2, v3) := w' in
  same_col s0 t0 w0 v0 /\ same_col s1 t1 w1 v1 /\ same_col s2 t2 w2 v2 /\ same_col s3 t3 w3 v3.
#[local] Opaque half_step.
(** After a step the state tells the state before except for the sums of its second
    row and the words. *)
Theorem C56_step : forall s s' w w', good s -> good s' -> hh_step s w = hh_step s' w' -> same_state s s' w w'.
Proof.
  intros [[[s0 s1] s2] s3] [[[t0 t1] t2] t3] [[[w0 w1] w2] w3] [[[v0 v1] v2] v3] (G0 & G1 & G2 & G3) (H0 & H1 & H2 & H3) E.
  unfold hh_step in E. apply quad_inj in E. destruct E as (E0 & E1 & E2 & E3).
  assert (A : half_step (s0, s1) (w0, w1) = half_step (t0, t1) (v0, v1)) by now apply injective_projections.
  assert (B : half_step (s2, s3) (w2, w3) = half_step (t2, t3) (v2, v3)) by now apply injective_projections.
  apply half_inj in A; [|assumption..]. apply half_inj in B; [|assumption..]. destruct A as [A0 A1], B as [B0 B1].
  exact (conj A0 (conj A1 (conj B0 B1))).
Qed.
Print Assumptions C56_step.

Lemma same_col_eq : forall s s' w, good_col s -> good_col s' -> same_col s s' w w -> s = s'.
Proof.
  intros [a b c d] [a' b' c' d'] w (_ & B & _) (_ & B' & _) (E1 & E2 & E3 & E4). cbn [ca cb cc cd] in *. subst.
  apply add_inj_l in E4; [|assumption..]. now subst.
Qed.
Lemma same_state_eq : forall s s' w, good s -> good s' -> same_state s s' w w -> s = s'.
Proof.
  intros [[[s0 s1] s2] s3] [[[t0 t1] t2] t3] [[[w0 w1] w2] w3] (G0 & G1 & G2 & G3) (H0 & H1 & H2 & H3) (E0 & E1 & E2 & E3).
  apply same_col_eq in E0; [|assumption..]. apply same_col_eq in E1; [|assumption..]. apply same_col_eq in E2; [|assumption..].
  apply same_col_eq in E3; [|assumption..]. now subst.
Qed.
Lemma step_inj : forall s s' w, good s -> good s' -> hh_step s w = hh_step s' w -> s = s'.
Proof. intros s s' w G G' E. apply (same_state_eq s s' w G G'). now apply C56_step. Qed.
Lemma step_words : forall s w w', good s -> good_quad w -> good_quad w' -> hh_step s w = hh_step s w' -> w = w'.
Proof.
  intros s w w' G W W' E. apply C56_step in E; [|exact G..].
  destruct s as [[[s0 s1] s2] s3], w as [[[w0 w1] w2] w3], w' as [[[v0 v1] v2] v3], W as (W0 & W1 & W2 & W3), W' as (V0 & V1 & V2 & V3).
  destruct E as ((_ & _ & _ & E0) & (_ & _ & _ & E1) & (_ & _ & _ & E2) & (_ & _ & _ & E3)).
  apply add_inj64 in E0; [|assumption..]. apply add_inj64 in E1; [|assumption..]. apply add_inj64 in E2; [|assumption..].
  apply add_inj64 in E3; [|assumption..]. now subst.
Qed.
Lemma good_words : forall l, length l = 32%nat -> good_quad (packet_words l).
Proof.
  intros l L. assert (W : forall i, (i < 4)%nat -> le_num (group 8 i l) < 2 ^ 64).
  { intros i I. eapply N.lt_le_trans; [apply le_num_lt|]. rewrite group_part, firstn_length, skipn_length.
    replace (Nat.min 8 (length l - 8 * i)) with 8%nat by lia. discriminate. }
  repeat split; apply W; lia.
Qed.
Lemma words_inj : forall l l', length l = 32%nat -> length l' = 32%nat -> packet_words l = packet_words l' -> l = l'.
Proof.
  intros l l' L L' E. unfold packet_words in E. injection E as E0 E1 E2 E3.
  assert (LG : forall i x, length x = 32%nat -> (i < 4)%nat -> length (group 8 i x) = 8%nat).
  { intros i x X I. rewrite group_part, firstn_length, skipn_length. lia. }
  assert (C : forall x, length x = 32%nat -> x = group 8 0 x ++ group 8 1 x ++ group 8 2 x ++ group 8 3 x).
  { intros x X. do 32 (destruct x as [|? x]; [discriminate X|]). destruct x; [reflexivity|discriminate X]. }
  rewrite (C l L), (C l' L'). apply le_num_inj in E0, E1, E2, E3; try (rewrite !LG by (assumption || lia); reflexivity).
  now rewrite E0, E1, E2, E3.
Qed.
Lemma good_packet : forall s l, good s -> good (hh_packet s l).
Proof. intros. now apply good_step. Qed.
Lemma good_packets : forall ls s, good s -> good (fold_left hh_packet ls s).
Proof. induction ls as [|l ls IH]; intros s G; [exact G|]. cbn [fold_left]. apply IH. now apply good_packet. Qed.
Lemma packets_inj : forall ls s s', good s -> good s' -> fold_left hh_packet ls s = fold_left hh_packet ls s' -> s = s'.
Proof.
  induction ls as [|l ls IH]; intros s s' G G' E; [exact E|]. cbn [fold_left] in E. apply IH in E; [|now apply good_packet..].
  now apply step_inj in E.
Qed.

(** the part before the last packet *)
Lemma rotl32_inj : forall n x y, 0 < n < 32 -> x < 2 ^ 32 -> y < 2 ^ 32 -> rotl32 x n = rotl32 y n -> x = y.
Proof.
  intros n x y NB X Y E.
  assert (F : forall z, z < 2 ^ 32 -> rotl32 z n / 2 ^ n = z mod 2 ^ (32 - n) /\ rotl32 z n mod 2 ^ n = z / 2 ^ (32 - n)).
  { intros z Z. unfold rotl32. assert (P : 2 ^ 32 = 2 ^ (32 - n) * 2 ^ n) by (rewrite <- N.pow_add_r; f_equal; lia).
    rewrite P in Z |- *. assert (N0 : 2 ^ n <> 0) by (apply N.pow_nonzero; discriminate).
    assert (N1 : 2 ^ (32 - n) <> 0) by (apply N.pow_nonzero; discriminate).
    rewrite N.mul_mod_distr_r by assumption. rewrite N.mul_comm in Z.
    assert (D : z / 2 ^ (32 - n) < 2 ^ n) by (apply N.div_lt_upper_bound; [exact N1|now rewrite N.mul_comm]).
    rewrite N.div_add_l by exact N0. rewrite (N.div_small _ _ D), N.add_0_r. split; [reflexivity|].
    rewrite N.add_comm, N.mod_add by exact N0. now apply N.mod_small. }
  destruct (F x X) as [F1 F2], (F y Y) as [F3 F4]. rewrite E in F1, F2. rewrite F1 in F3. rewrite F2 in F4.
  rewrite (N.div_mod x (2 ^ (32 - n))), (N.div_mod y (2 ^ (32 - n))) by (apply N.pow_nonzero; discriminate). now rewrite F3, F4.
Qed.
Lemma rotl_halves_inj : forall n x y, 0 < n < 32 -> x < 2 ^ 64 -> y < 2 ^ 64 -> rotl_halves x n = rotl_halves y n -> x = y.
Proof.
  intros n x y NB X Y E. unfold rotl_halves in E.
  assert (M : forall z, z mod 2 ^ 32 < 2 ^ 32) by (intro; apply N.mod_lt; discriminate).
  assert (D : forall z, z < 2 ^ 64 -> z / 2 ^ 32 < 2 ^ 32) by (intros z Z; apply N.div_lt_upper_bound; [discriminate|exact Z]).
  assert (L : forall z, z < 2 ^ 32 -> rotl32 z n < 2 ^ 32) by (intros z Z; exact (proj2 (rotl32_ok z n Z NB))).
  pose proof (L _ (M x)) as L1. pose proof (L _ (M y)) as L2.
  assert (E1 : rotl32 (x mod 2 ^ 32) n = rotl32 (y mod 2 ^ 32) n /\ rotl32 (x / 2 ^ 32) n = rotl32 (y / 2 ^ 32) n).
  { change (2 ^ 32) with 4294967296 in *. set (p := rotl32 (x mod _) n) in *. set (q := rotl32 (y mod _) n) in *. clearbody p q. lia. }
  destruct E1 as [E1 E2]. apply rotl32_inj in E1; [|exact NB|apply M..]. apply rotl32_inj in E2; [|exact NB|now apply D..].
  rewrite (N.div_mod x (2 ^ 32)), (N.div_mod y (2 ^ 32)) by discriminate. now rewrite E1, E2.
Qed.
Lemma col_length_inj : forall n n' s, 0 < n < 32 -> 0 < n' < 32 -> good_col s -> ca (col_length n s) = ca (col_length n' s) -> n = n'.
Proof.
  intros n n' s B B' G E. cbn [ca col_length] in E. apply add_inj64 in E; [lia|change (2 ^ 32) with 4294967296; change (2 ^ 64) with 18446744073709551616; lia..].
Qed.
Lemma col_length_state : forall n s s', 0 < n < 32 -> good_col s -> good_col s' -> col_length n s = col_length n s' -> s = s'.
Proof.
  intros n [a b c d] [a' b' c' d'] B (G1 & G2 & _) (G1' & G2' & _) E. cbn [ca cb] in *. unfold col_length in E. cbn [ca cb cc cd] in E.
  injection E as E1 E2 -> ->. apply add_inj_l in E1; [|assumption..]. apply rotl_halves_inj in E2; [|assumption..]. now subst.
Qed.
Lemma good_length : forall n s, 0 < n < 32 -> good s -> good (map_columns (col_length n) s).
Proof.
  intros n [[[s0 s1] s2] s3] B (G0 & G1 & G2 & G3).
  assert (H : forall s, good_col s -> good_col (col_length n s)).
  { intros s (S1 & S2 & S3 & S4). repeat split; cbn [ca cb cc cd col_length]; try assumption; [apply add_lt64|exact (proj2 (rotate_ok _ n S2 B))]. }
  exact (conj (H _ G0) (conj (H _ G1) (conj (H _ G2) (H _ G3)))).
Qed.
Lemma pad_inj : forall r r', length r = length r' -> (1 <= length r <= 31)%nat -> pad r = pad r' -> r = r'.
Proof.
  intros r r' L B E.
  do 32 (destruct r as [|? r]; [destruct r' as [|? r']; [clear L B|discriminate L]|destruct r' as [|? r']; [discriminate L|]];
    [cbn in E; congruence|]). cbn [length] in B. lia.
Qed.
Lemma rest_state_inj : forall r s s', (length r < 32)%nat -> good s -> good s' -> hh_rest s r = hh_rest s' r -> s = s'.
Proof.
  intros r s s' L G G' E. destruct r as [|x r]; [exact E|]. unfold hh_rest, hh_rest_with in E.
  assert (B : 0 < mlen (x :: r) < 32) by (unfold mlen; cbn [length] in *; lia). set (n := mlen (x :: r)) in *. clearbody n.
  apply step_inj in E; [|now apply good_length..].
  destruct s as [[[s0 s1] s2] s3], s' as [[[t0 t1] t2] t3], G as (G0 & G1 & G2 & G3), G' as (H0 & H1 & H2 & H3).
  unfold map_columns in E. pose proof (f_equal (fun x => fst (fst (fst x))) E) as E0. pose proof (f_equal (fun x => snd (fst (fst x))) E) as E1.
  pose proof (f_equal (fun x => snd (fst x)) E) as E2. pose proof (f_equal snd E) as E3. cbv beta in E0, E1, E2. cbn [fst snd] in *.
  apply col_length_state in E0; [|assumption..]. apply col_length_state in E1; [|assumption..]. apply col_length_state in E2; [|assumption..].
  apply col_length_state in E3; [|assumption..]. now subst.
Qed.
Lemma rest_bytes_inj : forall r r' s, (1 <= length r <= 31)%nat -> (1 <= length r' <= 31)%nat -> good s -> hh_rest s r = hh_rest s r' -> r = r'.
Proof.
  intros r r' s B B' G E.
  assert (N1 : 0 < mlen r < 32) by (unfold mlen; lia). assert (N2 : 0 < mlen r' < 32) by (unfold mlen; lia).
  assert (E' : hh_packet (map_columns (col_length (mlen r)) s) (pad r) = hh_packet (map_columns (col_length (mlen r')) s) (pad r')).
  { destruct r as [|x r]; [cbn [length] in B; lia|]. destruct r' as [|x' r']; [cbn [length] in B'; lia|]. exact E. }
  clear E. pose proof (good_length _ s N1 G) as G1. pose proof (good_length _ s N2 G) as G2.
  pose proof (C56_step _ _ _ _ G1 G2 E') as S.
  assert (EL : mlen r = mlen r').
  { destruct s as [[[s0 s1] s2] s3], (packet_words (pad r)) as [[[w0 w1] w2] w3], (packet_words (pad r')) as [[[v0 v1] v2] v3], S as ((S & _) & _).
    apply col_length_inj in S; [exact S|assumption..|exact (proj1 G)]. }
  rewrite EL in E', G1. destruct (packet_of_pad r B) as [_ P1]. destruct (packet_of_pad r' B') as [_ P2].
  apply step_words in E'; [|exact G1|now apply good_words..]. apply words_inj in E'; [|assumption..].
  apply pad_inj; [unfold mlen in EL; lia|exact B|exact E'].
Qed.

Lemma good_init : forall key, good_quad key -> good (hh_init key).
Proof. intros key K. exact (proj2 (reset_ok key K)). Qed.
Lemma init_inj : forall key key', hh_init key = hh_init key' -> key = key'.
Proof.
  intros [[[k0 k1] k2] k3] [[[j0 j1] j2] j3] E. unfold hh_init in E.
  pose proof (f_equal (fun x => ca (fst (fst (fst x)))) E) as E0. pose proof (f_equal (fun x => ca (snd (fst (fst x)))) E) as E1.
  pose proof (f_equal (fun x => ca (snd (fst x))) E) as E2. pose proof (f_equal (fun x => ca (snd x)) E) as E3.
  cbn [fst snd ca col_init] in *. apply xor_inj in E0, E1, E2, E3. now subst.
Qed.

(** [msg] with its number of whole packets *)
Lemma cut_app : forall a b, (length a mod 32 = 0)%nat -> blocks 32 (a ++ b) = blocks 32 a ++ blocks 32 b /\ rest 32 (a ++ b) = rest 32 b.
Proof.
  intros a b M. destruct (blocks_rest_app 32 a b ltac:(discriminate)) as [E1 E2].
  assert (L : length (rest 32 a) = 0%nat) by (rewrite rest_length by discriminate; exact M).
  destruct (rest 32 a); [|discriminate L]. now rewrite E1, E2.
Qed.
Lemma one_block : forall g, length g = 32%nat -> blocks 32 g = [g] /\ rest 32 g = [].
Proof.
  intros g L. rewrite <- (app_nil_r g). rewrite blocks_app, rest_app by (discriminate || exact L). now rewrite app_nil_r.
Qed.
Lemma absorb_app : forall key a b, (length a mod 32 = 0)%nat ->
  hh_absorb key (a ++ b) = hh_rest (fold_left hh_packet (blocks 32 b) (fold_left hh_packet (blocks 32 a) (hh_init key))) (rest 32 b).
Proof.
  intros key a b M. unfold hh_absorb, hh_absorb_with. destruct (cut_app a b M) as [-> ->]. now rewrite fold_left_app.
Qed.
Lemma rest_lt : forall l : list byte, (length (rest 32 l) < 32)%nat.
Proof. intros. rewrite rest_length by discriminate. lia. Qed.

(** Messages that differ in one packet of 32 bytes have different states at the
    end, whatever comes before and after. *)
Theorem C56_packet : forall key a g g' b, good_quad key -> (length a mod 32 = 0)%nat -> length g = 32%nat -> length g' = 32%nat ->
  g <> g' -> hh_absorb key (a ++ g ++ b) <> hh_absorb key (a ++ g' ++ b).
Proof.
  intros key a g g' b K M L L' NE E. apply NE. rewrite !absorb_app in E by exact M.
  destruct (cut_app g b ltac:(now rewrite L)) as [B1 R1]. destruct (cut_app g' b ltac:(now rewrite L')) as [B2 R2].
  rewrite (proj1 (one_block g L)) in B1. rewrite (proj1 (one_block g' L')) in B2. rewrite B1, B2, R1, R2 in E. cbn [app fold_left] in E.
  pose proof (good_packets (blocks 32 a) _ (good_init key K)) as G. set (s := fold_left hh_packet (blocks 32 a) (hh_init key)) in *. clearbody s.
  apply rest_state_inj in E; [|apply rest_lt|now apply good_packets, good_packet..].
  apply packets_inj in E; [|now apply good_packet..].
  apply step_words in E; [|exact G|now apply good_words..]. now apply words_inj in E.
Qed.
Print Assumptions C56_packet.
(** and messages that differ only in what is left after the whole packets, in the
    number of bytes or the bytes, if something is left of both *)
Theorem C56_rest : forall key a r r', good_quad key -> (length a mod 32 = 0)%nat -> (1 <= length r <= 31)%nat -> (1 <= length r' <= 31)%nat ->
  r <> r' -> hh_absorb key (a ++ r) <> hh_absorb key (a ++ r').
Proof.
  intros key a r r' K M L L' NE E. apply NE. rewrite !absorb_app in E by exact M.
  rewrite (blocks_nil 32 r), (blocks_nil 32 r'), (rest_short 32 r), (rest_short 32 r') in E by lia. cbn [fold_left] in E.
  apply rest_bytes_inj in E; [exact E|exact L|exact L'|]. apply good_packets, good_init, K.
Qed.
Print Assumptions C56_rest.
(** Different keys have different states for the same message. *)
Theorem C56_keys : forall key key' msg, good_quad key -> good_quad key' -> key <> key' -> hh_absorb key msg <> hh_absorb key' msg.
Proof.
  intros key key' msg K K' NE E. apply NE. unfold hh_absorb, hh_absorb_with in E.
  apply rest_state_inj in E; [|apply rest_lt|now apply good_packets, good_init..].
  apply packets_inj in E; [|now apply good_init..]. now apply init_inj.
Qed.
Print Assumptions C56_keys.
(** The rounds at the end keep states apart, so that they are different also when
    the result is taken from them. *)
Theorem C56_rounds : forall n s s', good s -> good s' -> s <> s' -> hh_rounds n s <> hh_rounds n s'.
Proof.
  assert (R : forall s s', good s -> good s' -> hh_round s = hh_round s' -> s = s').
  { intros s s' G G' E. assert (S : exists w, same_state s s' w w).
    { destruct s as [[[s0 s1] s2] s3], s' as [[[t0 t1] t2] t3]. unfold hh_round in E. apply C56_step in E; [|exact G|exact G'].
      exists (swap_halves (ca s2), swap_halves (ca s3), swap_halves (ca s0), swap_halves (ca s1)).
      pose proof E as ((A0 & _) & (A1 & _) & (A2 & _) & (A3 & _)). rewrite <- A0, <- A1, <- A2, <- A3 in E. exact E. }
    destruct S as [w S]. now apply (same_state_eq s s' w). }
  assert (GR : forall s, good s -> good (hh_round s)) by (intros [[[s0 s1] s2] s3] G; unfold hh_round; now apply good_step).
  assert (GI : forall n s, good s -> good (Nat.iter n hh_round s)) by (induction n as [|n IH]; intros s G; [exact G|]; apply GR, IH, G).
  intros n s s' G G' NE E. apply NE. clear NE. unfold hh_rounds in E.
  induction n as [|n IH]; [exact E|]. apply IH. cbn [Nat.iter nat_rect] in E. apply R in E; [exact E|now apply GI..].
Qed.
Print Assumptions C56_rounds.

(** concrete cases *)
Definition hh_a : list byte := counting 64.
Example C56_packet_case : let g := counting 32 in let g' := x01 :: tl g in
  g <> g' /\ highway64 test_key1 (hh_a ++ g ++ [x41]) <> highway64 test_key1 (hh_a ++ g' ++ [x41]).
Proof. split; vm_compute; discriminate. Qed.
Example C56_rest_case : hh_absorb test_key1 (hh_a ++ [x00]) <> hh_absorb test_key1 (hh_a ++ [x00; x00]) /\
  highway64 test_key1 (hh_a ++ [x00]) <> highway64 test_key1 (hh_a ++ [x00; x00]).
Proof. split; vm_compute; discriminate. Qed.
Example C56_keys_case : good_quad test_key1 /\ good_quad test_key2 /\ test_key1 <> test_key2 /\
  hh_absorb test_key1 hh_a <> hh_absorb test_key2 hh_a /\
  hh_rounds 10 (hh_absorb test_key1 hh_a) <> hh_rounds 10 (hh_absorb test_key2 hh_a).
Proof. split; [exact good_key1|]. split; [exact good_key2|]. repeat split; vm_compute; discriminate. Qed.

(** ** C57: what the comments say *)
(** *** The permutation of bytes (tests/highwayhash/hh_sse41.h:208-217, hh_avx2.h:291-301) *)
(** "In descending order of goodness, bytes 3 4 2 5 1 6 0 7 have quality 228 224 164 160 100 96 36 32." *)
Definition quality (i : nat) : N := nth (i mod 8) [36; 100; 164; 228; 224; 160; 96; 32] 0.
Definition total (l : list nat) : N := fold_right N.add 0 (map quality l).
(** The bytes of two words [v0] and [v1] come out in another order, none is lost;
    both words get one byte from each position, so the same total quality; in both
    words the bytes of the lower half are better than those of the upper half, and
    both halves have bytes of the neighbouring word. *)
Theorem C57_zipper : forall v0 v1, exists order, Permutation order (seq 0 16) /\
  (let '(x1, x0) := ZipperMergeAndAdd v1 v0 0 0 in
   le_bytes 8 x0 ++ le_bytes 8 x1 = map (fun i => nth i (le_bytes 8 v0 ++ le_bytes 8 v1) x00) order) /\
  forall word own other, (word = firstn 8 order /\ own = seq 0 8 /\ other = seq 8 8) \/ (word = skipn 8 order /\ own = seq 8 8 /\ other = seq 0 8) ->
    Permutation (map (fun i => (i mod 8)%nat) word) (seq 0 8) /\ total word = 1040 /\
    (forall i j, In i (firstn 4 word) -> In j (skipn 4 word) -> quality j < quality i) /\
    (exists i, In i (firstn 4 word) /\ In i other) /\ (exists i, In i (skipn 4 word) /\ In i other).
Proof.
  assert (PC : forall l l' : list nat, forallb (fun i => Nat.eqb (count_occ Nat.eq_dec l i) (count_occ Nat.eq_dec l' i)) (l ++ l') = true -> Permutation l l').
  { intros l l' H. rewrite forallb_forall in H. apply (Permutation_count_occ Nat.eq_dec). intro x.
    destruct (in_dec Nat.eq_dec x (l ++ l')) as [I|I]; [apply H in I; now apply Nat.eqb_eq in I|].
    rewrite in_app_iff in I. rewrite !(proj1 (count_occ_not_In Nat.eq_dec _ _)); tauto. }
  intros v0 v1. exists zip_order. split; [apply PC; reflexivity|]. split.
  - rewrite zipper_ok. unfold zip. cbn [fst snd].
    assert (L8 : forall l : list byte, length l = 8%nat -> le_bytes 8 (add 0 (le_num l)) = l).
    { intros l L. unfold add. rewrite N.add_0_l. rewrite N.mod_small by (pose proof (le_num_lt l) as B; rewrite L in B; exact B).
      rewrite <- L at 1. apply le_bytes_le_num. }
    set (z := le_bytes 8 v0 ++ le_bytes 8 v1). unfold zip_bytes, zip_order. cbn [map firstn skipn].
    rewrite !L8 by reflexivity. reflexivity.
  - intros word own other [(-> & -> & ->)|(-> & -> & ->)].
    + split; [apply PC; reflexivity|]. split; [reflexivity|]. split.
      * intros i j I J. cbn in I, J. decompose [or] I; decompose [or] J; try contradiction; subst; reflexivity.
      * split; [exists 12%nat|exists 14%nat]; cbn; intuition.
    + split; [apply PC; reflexivity|]. split; [reflexivity|]. split.
      * intros i j I J. cbn in I, J. decompose [or] I; decompose [or] J; try contradiction; subst; reflexivity.
      * split; [exists 4%nat|exists 6%nat]; cbn; intuition.
Qed.
Print Assumptions C57_zipper.

(** *** The modular reduction (tests/highwayhash/hh_portable.h:269-291, pure_c.c) *)
(** Polynomials over the field of two elements, as numbers: their product *)
Fixpoint pmul_pos (a : positive) (b : N) : N :=
  match a with
  | xH => b
  | xO a => 2 * pmul_pos a b
  | xI a => N.lxor b (2 * pmul_pos a b)
  end.
Definition pmul (a b : N) : N := match a with N0 => 0 | Npos a => pmul_pos a b end.
Definition degree : N -> N := N.log2.
(** x^128 + x^2 + x *)
Definition modulus : N := 2 ^ 128 + 2 ^ 2 + 2.
(** [r] is a remainder of [a] *)
Definition is_remainder (a r : N) : Prop := (exists q, N.lxor a r = pmul q modulus) /\ r < 2 ^ 128.

Lemma double_lxor : forall a b, 2 * N.lxor a b = N.lxor (2 * a) (2 * b).
Proof. intros. rewrite !(N.mul_comm 2). change 2 with (2 ^ 1). rewrite <- !N.shiftl_mul_pow2. apply N.shiftl_lxor. Qed.
Lemma pmul_lxor : forall a b c, pmul a (N.lxor b c) = N.lxor (pmul a b) (pmul a c).
Proof.
  intros [|a] b c; [reflexivity|]. cbn [pmul]. induction a as [a IH|a IH|]; cbn [pmul_pos].
  - rewrite IH, double_lxor. rewrite !N.lxor_assoc. f_equal. rewrite <- !N.lxor_assoc. f_equal. apply N.lxor_comm.
  - now rewrite IH, double_lxor.
  - reflexivity.
Qed.
Lemma pmul_pow : forall a s, pmul a (2 ^ s) = a * 2 ^ s.
Proof.
  intros [|a] s; [reflexivity|]. cbn [pmul]. induction a as [a IH|a IH|]; cbn [pmul_pos].
  - rewrite IH. change (N.pos a~1) with (2 * N.pos a + 1).
    assert (Z : N.land (2 ^ s) (2 * (N.pos a * 2 ^ s)) = 0).
    { replace (2 ^ s) with (1 * 2 ^ s) at 1 by lia. replace (2 * (N.pos a * 2 ^ s)) with (N.pos a~0 * 2 ^ s) by (change (N.pos a~0) with (2 * N.pos a); lia).
      rewrite <- !N.shiftl_mul_pow2, <- N.shiftl_land. change (N.land 1 (N.pos a~0)) with 0. apply N.shiftl_0_l. }
    rewrite <- (N.add_nocarry_lxor _ _ Z). lia.
  - rewrite IH. change (N.pos a~0) with (2 * N.pos a). lia.
  - lia.
Qed.
Lemma pmul_modulus : forall a, pmul a modulus = N.lxor (a * 2 ^ 128) (N.lxor (2 * a) (4 * a)).
Proof.
  intros. change modulus with (N.lxor (2 ^ 128) (N.lxor (2 ^ 1) (2 ^ 2))). rewrite !pmul_lxor, !pmul_pow.
  change (2 ^ 1) with 2. change (2 ^ 2) with 4. now rewrite !(N.mul_comm a 2), !(N.mul_comm a 4).
Qed.
Lemma log2_lxor : forall a b, N.log2 a < N.log2 b -> N.log2 (N.lxor a b) = N.log2 b.
Proof.
  intros a b L. apply N.log2_bits_unique.
  - rewrite N.lxor_spec, N.bits_above_log2 by exact L. rewrite N.bit_log2; [reflexivity|]. intros ->. change (N.log2 0) with 0 in L. lia.
  - intros m M. rewrite N.lxor_spec, !N.bits_above_log2 by lia. reflexivity.
Qed.
Lemma log2_double' : forall a, a <> 0 -> N.log2 (2 * a) = N.succ (N.log2 a).
Proof. intros a Z. apply N.log2_double. lia. Qed.
(** degrees of products are sums of degrees, so there are no zero divisors *)
Lemma degree_pmul : forall a b, a <> 0 -> b <> 0 -> pmul a b <> 0 /\ degree (pmul a b) = degree a + degree b.
Proof.
  intros [|a] b NA NB; [contradiction|]. cbn [pmul]. unfold degree. induction a as [a IH|a IH|]; cbn [pmul_pos].
  - destruct (IH ltac:(discriminate)) as [Z E].
    assert (L : N.log2 b < N.log2 (2 * pmul_pos a b)) by (rewrite log2_double', E by exact Z; lia).
    pose proof (log2_lxor _ _ L) as E'. rewrite E', log2_double', E by exact Z. change (N.pos a~1) with (2 * N.pos a + 1).
    rewrite N.log2_succ_double by lia. split; [|lia]. intros F. rewrite F in E'. rewrite <- E' in L. cbn in L. lia.
  - destruct (IH ltac:(discriminate)) as [Z E]. change (N.pos a~0) with (2 * N.pos a). rewrite !log2_double', E by (exact Z || discriminate).
    split; [lia|lia].
  - split; [exact NB|]. change (N.log2 1) with 0. lia.
Qed.
Lemma pmul_zero : forall q, pmul q modulus < 2 ^ 128 -> q = 0.
Proof.
  intros q L. destruct (N.eq_dec q 0) as [Z|Z]; [exact Z|]. exfalso.
  destruct (degree_pmul q modulus Z ltac:(discriminate)) as [NZ E]. unfold degree in E. change (N.log2 modulus) with 128 in E.
  apply N.log2_lt_pow2 in L; [lia|lia].
Qed.
Lemma pmul_lxor_l : forall q q', exists q'', N.lxor (pmul q modulus) (pmul q' modulus) = pmul q'' modulus.
Proof.
  intros q q'. exists (N.lxor q q'). rewrite !pmul_modulus.
  replace (N.lxor q q' * 2 ^ 128) with (N.lxor (q * 2 ^ 128) (q' * 2 ^ 128)) by (rewrite <- !N.shiftl_mul_pow2; symmetry; apply N.shiftl_lxor).
  rewrite double_lxor. replace (4 * N.lxor q q') with (N.lxor (4 * q) (4 * q')) by (change 4 with (2 * 2); rewrite <- !N.mul_assoc, !double_lxor; reflexivity).
  apply N.bits_inj. intro i. rewrite !N.lxor_spec. destruct (N.testbit (q * _) i), (N.testbit (q' * _) i), (N.testbit (2 * q) i), (N.testbit (2 * q') i), (N.testbit (4 * q) i), (N.testbit (4 * q') i); reflexivity.
Qed.
Lemma remainder_unique : forall a r r', is_remainder a r -> is_remainder a r' -> r = r'.
Proof.
  intros a r r' ((q & Q) & L) ((q' & Q') & L'). destruct (pmul_lxor_l q q') as (q'' & E). rewrite <- Q, <- Q' in E.
  assert (E' : N.lxor r r' = pmul q'' modulus).
  { rewrite <- E. apply N.bits_inj. intro i. rewrite !N.lxor_spec. destruct (N.testbit a i), (N.testbit r i), (N.testbit r' i); reflexivity. }
  assert (Z : q'' = 0) by (apply pmul_zero; rewrite <- E'; now apply lxor_lt). subst q''. now apply N.lxor_eq.
Qed.
Lemma reduce_remainder : forall hi lo, hi < 2 ^ 126 -> lo < 2 ^ 128 -> is_remainder (hi * 2 ^ 128 + lo) (reduce hi lo).
Proof.
  intros hi lo H L. split.
  - exists hi. rewrite pmul_modulus. unfold reduce, xor.
    assert (Z : N.land (hi * 2 ^ 128) lo = 0).
    { apply N.bits_inj. intro i. rewrite N.land_spec, N.bits_0, <- N.shiftl_mul_pow2. destruct (N.lt_ge_cases i 128) as [C|C].
      - now rewrite N.shiftl_spec_low by exact C.
      - rewrite (proj1 (small_bits lo 128) L i C). apply andb_false_r. }
    rewrite (N.add_nocarry_lxor _ _ Z). apply N.bits_inj. intro i. rewrite !N.lxor_spec.
    destruct (N.testbit (hi * _) i), (N.testbit lo i), (N.testbit (2 * hi) i), (N.testbit (4 * hi) i); reflexivity.
  - unfold reduce, xor. change (2 ^ 126) with 85070591730234615865843651857942052864 in H.
    repeat apply lxor_lt; try exact L; change (2 ^ 128) with 340282366920938463463374607431768211456; lia.
Qed.

(** The result is the remainder of the 256-bit number modulo x^128 + x^2 + x, if the
    two uppermost bits are clear; they are ignored otherwise. *)
Theorem C57_reduction : forall a3 a2 a1 a0, a2 < 2 ^ 64 -> a1 < 2 ^ 64 -> a0 < 2 ^ 64 ->
  let '(m1, m0) := ModularReduction a3 a2 a1 a0 in
  m1 < 2 ^ 64 /\ m0 < 2 ^ 64 /\
  forall r, is_remainder ((a3 mod 2 ^ 62) * 2 ^ 192 + a2 * 2 ^ 128 + a1 * 2 ^ 64 + a0) r <-> r = m1 * 2 ^ 64 + m0.
Proof.
  intros a3 a2 a1 a0 A2 A1 A0. pose proof (reduction_ok a3 a2 a1 a0 A2 A1 A0) as R.
  destruct (ModularReduction a3 a2 a1 a0) as [m1 m0]. destruct R as (E & L1 & L0). split; [exact L1|]. split; [exact L0|].
  assert (B : a3 mod 2 ^ 62 < 2 ^ 62) by (apply N.mod_lt; discriminate). set (b := a3 mod 2 ^ 62) in *. clearbody b.
  assert (I : is_remainder (b * 2 ^ 192 + a2 * 2 ^ 128 + a1 * 2 ^ 64 + a0) (reduce (b * 2 ^ 64 + a2) (a1 * 2 ^ 64 + a0))).
  { replace (b * 2 ^ 192 + a2 * 2 ^ 128 + a1 * 2 ^ 64 + a0) with ((b * 2 ^ 64 + a2) * 2 ^ 128 + (a1 * 2 ^ 64 + a0)).
    - apply reduce_remainder; change (2 ^ 126) with 85070591730234615865843651857942052864; change (2 ^ 128) with 340282366920938463463374607431768211456;
        change (2 ^ 62) with 4611686018427387904 in *; change (2 ^ 64) with 18446744073709551616 in *; lia.
    - change (2 ^ 192) with (2 ^ 64 * 2 ^ 128). ring. }
  intro r. rewrite E. split; [intro J; exact (remainder_unique _ _ _ J I)|now intros ->].
Qed.
Print Assumptions C57_reduction.

(** "the irreducible polynomial (x^128 + x^2 + x)" (hh_portable.h:269, hh_sse41.h:303,
    hh_avx2.h:361, hh_vsx.h:303) has the factors x and x^127 + x + 1. *)
Definition irreducible (p : N) : Prop := 0 < degree p /\ forall a b, pmul a b = p -> degree a = 0 \/ degree b = 0.
Theorem C57_irreducible_refuted : pmul 2 (2 ^ 127 + 2 + 1) = modulus /\ degree 2 = 1 /\ degree (2 ^ 127 + 2 + 1) = 127 /\ ~ irreducible modulus.
Proof.
  assert (E : pmul 2 (2 ^ 127 + 2 + 1) = modulus) by (vm_compute; reflexivity).
  repeat split; try exact E. intros [_ I]. destruct (I _ _ E) as [D|D]; discriminate D.
Qed.
Print Assumptions C57_irreducible_refuted.
(** some polynomials are irreducible: x^2 + x + 1 *)
Example C57_irreducible_case : irreducible 7.
Proof.
  split; [reflexivity|]. intros a b E.
  destruct (N.eq_dec a 0) as [->|NA]; [discriminate E|]. destruct (N.eq_dec b 0) as [->|NB].
  { now right. }
  destruct (degree_pmul a b NA NB) as [_ D]. rewrite E in D. unfold degree in *. change (N.log2 7) with 2 in D.
  destruct (N.eq_dec (N.log2 a) 0) as [|A]; [now left|]. destruct (N.eq_dec (N.log2 b) 0) as [|B]; [now right|]. exfalso.
  assert (A1 : N.log2 a = 1) by lia. assert (B1 : N.log2 b = 1) by lia.
  assert (R : forall z, z <> 0 -> N.log2 z = 1 -> z = 2 \/ z = 3).
  { intros z Z L. pose proof (N.log2_spec z ltac:(lia)) as S. rewrite L in S. change (2 ^ 1) with 2 in S. change (2 ^ N.succ 1) with 4 in S. lia. }
  destruct (R a NA A1) as [->| ->], (R b NB B1) as [->| ->]; discriminate E.
Qed.
Example C57_reduction_case : ModularReduction (2 ^ 64 - 1) 5 (2 ^ 63 + 3) 7 = (N.lxor (2 ^ 63 + 3) (N.lxor (2 ^ 63 - 2) (2 ^ 64 - 4)), 25).
Proof. vm_compute. reflexivity. Qed.
