(** C66, C67: what XXH32 and XXH64 tell apart and what they do not. *)
From Coq Require Import ZArith NArith Arith List Bool Lia Strings.Byte.
From Coq Require Import ZifyN ZifyNat ZifyBool.
From Verif Require Import Bytes Spec NBits CSemFacts OpsFacts StreamFacts Inject Onto Collide Demo XxhashSpec.
Import ListNotations.
Ltac Zify.zify_post_hook ::= Z.div_mod_to_equations.
Local Open Scope N_scope.

(** ** Steps that lose nothing *)
Lemma add_32_lt : forall x y, add_32 x y < 2 ^ 32. Proof. intros. apply N.mod_lt. discriminate. Qed.
Lemma mul_32_lt : forall x y, mul_32 x y < 2 ^ 32. Proof. intros. apply N.mod_lt. discriminate. Qed.
Lemma left_32_lt : forall x r, left_32 x r < 2 ^ 32. Proof. intros. apply rotr_32_lt. lia. Qed.
Lemma left_64_lt : forall x r, left_64 x r < 2 ^ 64. Proof. intros. apply rotr_lt64. lia. Qed.
Lemma add_32_inj_l : forall c x y, x < 2 ^ 32 -> y < 2 ^ 32 -> add_32 x c = add_32 y c -> x = y.
Proof. intros c x y X Y E. unfold add_32 in E. rewrite !(N.add_comm _ c) in E. now apply add_inj in E. Qed.
Lemma add_32_inj_r : forall c x y, x < 2 ^ 32 -> y < 2 ^ 32 -> add_32 c x = add_32 c y -> x = y.
Proof. intros c x y X Y E. unfold add_32 in E. now apply add_inj in E. Qed.
Lemma add_inj_l : forall c x y, x < 2 ^ 64 -> y < 2 ^ 64 -> add x c = add y c -> x = y.
Proof. intros c x y X Y E. unfold add in E. rewrite !(N.add_comm _ c) in E. now apply add_inj in E. Qed.
Lemma xor_inj_l : forall c x y, xor x c = xor y c -> x = y.
Proof. intros c x y E. unfold xor in E. rewrite !(N.lxor_comm _ c) in E. now apply xor_inj in E. Qed.
Lemma mul_32_inj : forall p x y, N.odd p = true -> x < 2 ^ 32 -> y < 2 ^ 32 -> mul_32 x p = mul_32 y p -> x = y.
Proof.
  intros p x y O X Y E. destruct (odd_inverse_pow p 32 O) as (q & Q). change (2 ^ N.of_nat 32) with (2 ^ 32) in Q.
  rewrite (N.mod_small 1) in Q by reflexivity. now apply (mul_inj (2 ^ 32) p q) in E.
Qed.
Lemma mulw_odd_inj : forall p x y, N.odd p = true -> x < 2 ^ 64 -> y < 2 ^ 64 -> mulw x p = mulw y p -> x = y.
Proof. intros p x y O X Y E. destruct (odd_inverse p O) as (q & Q). now apply (mulw_inj p q) in E. Qed.
Lemma rotr_32_inj : forall s x y, s <= 32 -> x < 2 ^ 32 -> y < 2 ^ 32 -> rotr_32 x s = rotr_32 y s -> x = y.
Proof.
  intros s x y S X Y E. unfold rotr_32 in E. rewrite (N.mod_small x), (N.mod_small y) in E by assumption.
  assert (B : forall z, z < 2 ^ 32 -> z / 2 ^ s < 2 ^ (32 - s)).
  { clear - S. intros z Z. apply N.div_lt_upper_bound; [apply N.pow_nonzero; discriminate|]. rewrite <- N.pow_add_r.
    replace (s + (32 - s)) with 32 by (clear - S; lia). exact Z. }
  set (k := 2 ^ (32 - s)) in *.
  assert (Q : x / 2 ^ s = y / 2 ^ s /\ x mod 2 ^ s = y mod 2 ^ s).
  { rewrite (N.mul_comm (x mod _)), (N.mul_comm (y mod _)), !(N.add_comm (_ / _)) in E.
    destruct (N.div_mod_unique k _ _ _ _ (B x X) (B y Y) E). split; assumption. }
  destruct Q as [Q1 Q2]. rewrite (N.div_mod x (2 ^ s)), (N.div_mod y (2 ^ s)) by (apply N.pow_nonzero; discriminate). congruence.
Qed.
Lemma left_32_inj : forall r x y, x < 2 ^ 32 -> y < 2 ^ 32 -> left_32 x r = left_32 y r -> x = y.
Proof. intros r x y X Y E. apply rotr_32_inj in E; auto. lia. Qed.
Lemma left_64_inj : forall r x y, x < 2 ^ 64 -> y < 2 ^ 64 -> left_64 x r = left_64 y r -> x = y.
Proof. intros r x y X Y E. apply rotr_inj in E; auto. lia. Qed.
Lemma fold_32_lt : forall x r, x < 2 ^ 32 -> fold_32 x r < 2 ^ 32.
Proof.
  intros x r X. unfold fold_32. rewrite N.mod_small by exact X. apply lxor_lt; [exact X|].
  apply N.le_lt_trans with x; [|exact X]. apply N.div_le_upper_bound; [apply N.pow_nonzero; discriminate|].
  pose proof (pow2_pos r). nia.
Qed.
Lemma fold_64_lt : forall x r, x < 2 ^ 64 -> fold_64 x r < 2 ^ 64.
Proof.
  intros x r X. unfold fold_64. rewrite N.mod_small by exact X. apply lxor_lt; [exact X|].
  apply N.le_lt_trans with x; [|exact X]. apply N.div_le_upper_bound; [apply N.pow_nonzero; discriminate|].
  pose proof (pow2_pos r). nia.
Qed.
Lemma fold_32_inj : forall r x y, r <> 0 -> x < 2 ^ 32 -> y < 2 ^ 32 -> fold_32 x r = fold_32 y r -> x = y.
Proof.
  intros r x y R X Y E. unfold fold_32, xor in E. rewrite (N.mod_small x), (N.mod_small y), <- !N.shiftr_div_pow2 in E by assumption.
  now apply shiftr_xor_inj in E.
Qed.
Lemma fold_64_inj : forall r x y, r <> 0 -> x < 2 ^ 64 -> y < 2 ^ 64 -> fold_64 x r = fold_64 y r -> x = y.
Proof.
  intros r x y R X Y E. unfold fold_64, xor in E. rewrite (N.mod_small x), (N.mod_small y), <- !N.shiftr_div_pow2 in E by assumption.
  now apply shiftr_xor_inj in E.
Qed.
Lemma mix_bits_32_inj : forall x y, x < 2 ^ 32 -> y < 2 ^ 32 -> mix_bits_32 x = mix_bits_32 y -> x = y.
Proof.
  intros x y X Y E. unfold mix_bits_32 in E.
  apply fold_32_inj in E; [|discriminate|apply mul_32_lt..].
  apply mul_32_inj in E; [|reflexivity|apply fold_32_lt, mul_32_lt..].
  apply fold_32_inj in E; [|discriminate|apply mul_32_lt..].
  apply mul_32_inj in E; [|reflexivity|now apply fold_32_lt..]. now apply fold_32_inj in E.
Qed.
Lemma mix_bits_64_inj : forall x y, x < 2 ^ 64 -> y < 2 ^ 64 -> mix_bits_64 x = mix_bits_64 y -> x = y.
Proof.
  intros x y X Y E. unfold mix_bits_64 in E.
  apply fold_64_inj in E; [|discriminate|apply mulw_lt64..].
  apply mulw_odd_inj in E; [|reflexivity|apply fold_64_lt, mulw_lt64..].
  apply fold_64_inj in E; [|discriminate|apply mulw_lt64..].
  apply mulw_odd_inj in E; [|reflexivity|now apply fold_64_lt..]. now apply fold_64_inj in E.
Qed.

(** [f] with one argument fixed tells the other apart *)
Definition keeps (n : N) (f : N -> N -> N) : Prop :=
  (forall x w, f x w < n) /\
  (forall w x y, x < n -> y < n -> f x w = f y w -> x = y) /\
  (forall x v w, v < n -> w < n -> f x v = f x w -> v = w).
Lemma keeps_32 : forall r p q, N.odd p = true -> N.odd q = true ->
  keeps (2 ^ 32) (fun h w => mul_32 (left_32 (add_32 h (mul_32 w p)) r) q).
Proof.
  intros r p q P Q. split; [intros; apply mul_32_lt|]. split.
  - intros w x y X Y E. apply mul_32_inj in E; [|exact Q|apply left_32_lt..].
    apply left_32_inj in E; [|apply add_32_lt..]. now apply add_32_inj_l in E.
  - intros x v w V W E. apply mul_32_inj in E; [|exact Q|apply left_32_lt..].
    apply left_32_inj in E; [|apply add_32_lt..]. apply add_32_inj_r in E; [|apply mul_32_lt..]. now apply mul_32_inj in E.
Qed.
Lemma keeps_round_32 : keeps (2 ^ 32) round_32. Proof. now apply keeps_32. Qed.
Lemma keeps_word_32 : keeps (2 ^ 32) word_32. Proof. now apply keeps_32. Qed.
Lemma keeps_byte_32 : keeps (2 ^ 32) byte_32. Proof. now apply keeps_32. Qed.
Lemma round_64_lt : forall x w, round_64 x w < 2 ^ 64. Proof. intros. apply mulw_lt64. Qed.
Lemma round_64_0_inj : forall v w, v < 2 ^ 64 -> w < 2 ^ 64 -> round_64 0 v = round_64 0 w -> v = w.
Proof.
  intros v w V W E. unfold round_64 in E. apply mulw_odd_inj in E; [|reflexivity|apply left_64_lt..].
  apply left_64_inj in E; [|apply add_lt64..]. unfold add in E. apply add_inj in E; [|discriminate|apply mulw_lt64..].
  now apply mulw_odd_inj in E.
Qed.
Section Keeps64.
  Variables (g : N -> N) (r p c : N).
  Hypothesis g_lt : forall w, g w < 2 ^ 64.
  Hypothesis g_inj : forall v w, v < 2 ^ 64 -> w < 2 ^ 64 -> g v = g w -> v = w.
  Hypothesis odd : N.odd p = true.
  Lemma keeps_add_64 : forall x y v w, x < 2 ^ 64 -> y < 2 ^ 64 ->
    add (mulw (left_64 (xor x (g v)) r) p) c = add (mulw (left_64 (xor y (g w)) r) p) c -> xor x (g v) = xor y (g w).
  Proof.
    intros x y v w X Y E. apply add_inj_l in E; [|apply mulw_lt64..]. apply mulw_odd_inj in E; [|exact odd|apply left_64_lt..].
    apply left_64_inj in E; [exact E|now apply xor_lt64..].
  Qed.
  Lemma keeps_mul_64 : forall x y v w, x < 2 ^ 64 -> y < 2 ^ 64 ->
    mulw (left_64 (xor x (g v)) r) p = mulw (left_64 (xor y (g w)) r) p -> xor x (g v) = xor y (g w).
  Proof.
    intros x y v w X Y E. apply mulw_odd_inj in E; [|exact odd|apply left_64_lt..].
    apply left_64_inj in E; [exact E|now apply xor_lt64..].
  Qed.
  (** the second argument of [keeps] for a state in range *)
  Definition keeps_64 (f : N -> N -> N) : Prop :=
    (forall x w, f x w < 2 ^ 64) /\
    (forall w x y, x < 2 ^ 64 -> y < 2 ^ 64 -> f x w = f y w -> x = y) /\
    (forall x v w, x < 2 ^ 64 -> v < 2 ^ 64 -> w < 2 ^ 64 -> f x v = f x w -> v = w).
  Lemma keeps_64_add : keeps_64 (fun h w => add (mulw (left_64 (xor h (g w)) r) p) c).
  Proof.
    split; [intros; apply add_lt64|]. split.
    - intros w x y X Y E. apply keeps_add_64 in E; [|assumption..]. now apply xor_inj_l in E.
    - intros x v w X V W E. apply keeps_add_64 in E; [|assumption..]. apply xor_inj in E. now apply g_inj.
  Qed.
  Lemma keeps_64_mul : keeps_64 (fun h w => mulw (left_64 (xor h (g w)) r) p).
  Proof.
    split; [intros; apply mulw_lt64|]. split.
    - intros w x y X Y E. apply keeps_mul_64 in E; [|assumption..]. now apply xor_inj_l in E.
    - intros x v w X V W E. apply keeps_mul_64 in E; [|assumption..]. apply xor_inj in E. now apply g_inj.
  Qed.
End Keeps64.
Lemma keeps_word8_64 : keeps_64 word8_64.
Proof. apply (keeps_64_add (round_64 0)); [apply round_64_lt|apply round_64_0_inj|reflexivity]. Qed.
Lemma keeps_word4_64 : keeps_64 word4_64.
Proof. apply (keeps_64_add (fun w => mulw w B1)); [intro; apply mulw_lt64|intros; now apply (mulw_odd_inj B1)|reflexivity]. Qed.
Lemma keeps_byte_64 : keeps_64 byte_64.
Proof. apply (keeps_64_mul (fun w => mulw w B5)); [intro; apply mulw_lt64|intros; now apply (mulw_odd_inj B5)|reflexivity]. Qed.

(** a sequence of steps keeps states apart *)
Lemma fold_keeps : forall n (f : N -> N -> N) l x y, (forall x w, f x w < n) ->
  (forall w x y, x < n -> y < n -> f x w = f y w -> x = y) -> x < n -> y < n -> fold_left f l x = fold_left f l y -> x = y.
Proof.
  intros n f l x y B I. revert x y. induction l as [|w l IH]; intros x y X Y E; cbn [fold_left] in E; [exact E|].
  apply IH in E; [|apply B..]. now apply I in E.
Qed.
Lemma fold_bound : forall n (f : N -> N -> N) l x, (forall x w, f x w < n) -> x < n -> fold_left f l x < n.
Proof. intros n f l x B. revert x. induction l as [|w l IH]; intros x X; cbn [fold_left]; auto. Qed.

Lemma word_lt : forall k l, length l = k -> le_num l < 2 ^ (8 * N.of_nat k).
Proof.
  intros k l L. pose proof (le_num_lt l) as H. rewrite L in H. change 256 with (2 ^ 8) in H. now rewrite <- N.pow_mul_r in H.
Qed.

(** ** The last bytes *)
Lemma last_32_lt : forall h l, h < 2 ^ 32 -> last_32 h l < 2 ^ 32.
Proof. intros h l H. unfold last_32. apply fold_bound; [apply keeps_byte_32|]. now apply fold_bound; [apply keeps_word_32|]. Qed.
Lemma last_32_state : forall l x y, x < 2 ^ 32 -> y < 2 ^ 32 -> last_32 x l = last_32 y l -> x = y.
Proof.
  intros l x y X Y E. unfold last_32 in E.
  apply (fold_keeps (2 ^ 32) byte_32) in E; [|apply keeps_byte_32..|apply fold_bound; [apply keeps_word_32|exact X]|apply fold_bound; [apply keeps_word_32|exact Y]].
  now apply (fold_keeps (2 ^ 32) word_32) in E; [|apply keeps_word_32..| |].
Qed.
Lemma last_32_word : forall h pre x y post, h < 2 ^ 32 -> (length pre mod 4 = 0)%nat -> length x = 4%nat -> length y = 4%nat ->
  last_32 h (pre ++ x ++ post) = last_32 h (pre ++ y ++ post) -> x = y.
Proof.
  intros h pre x y post H P X Y E. unfold last_32 in E.
  destruct (blocks_mid 4 pre x post ltac:(lia) P X) as [E1 E2]. destruct (blocks_mid 4 pre y post ltac:(lia) P Y) as [E3 E4].
  rewrite E1, E2, E3, E4, !map_app, !fold_left_app in E. cbn [map fold_left] in E.
  set (s := fold_left word_32 (map le_num (blocks 4 pre)) h) in *.
  assert (W : forall z, word_32 s z < 2 ^ 32) by (intro; apply keeps_word_32).
  apply (fold_keeps (2 ^ 32) byte_32) in E; [|apply keeps_byte_32..|apply fold_bound; [apply keeps_word_32|apply W]|apply fold_bound; [apply keeps_word_32|apply W]].
  apply (fold_keeps (2 ^ 32) word_32) in E; [|apply keeps_word_32..|apply W|apply W].
  apply keeps_word_32 in E; [|now apply (word_lt 4)..]. apply le_num_inj; congruence.
Qed.
Lemma last_32_byte : forall h pre x y post, h < 2 ^ 32 -> (length pre mod 4 + S (length post) < 4)%nat ->
  last_32 h (pre ++ x :: post) = last_32 h (pre ++ y :: post) -> x = y.
Proof.
  intros h pre x y post H P E. unfold last_32 in E.
  destruct (blocks_rest_app 4 pre (x :: post) ltac:(lia)) as [E1 E2]. destruct (blocks_rest_app 4 pre (y :: post) ltac:(lia)) as [E3 E4].
  assert (L : length (rest 4 pre) = (length pre mod 4)%nat) by (apply rest_length; lia).
  assert (LL : forall z, (length (rest 4 pre ++ z :: post) < 4)%nat) by (intro; rewrite app_length, L; cbn [length]; lia).
  rewrite (blocks_nil 4 (rest 4 pre ++ x :: post)) in E1 by apply LL. rewrite (rest_short 4 (rest 4 pre ++ x :: post)) in E2 by apply LL.
  rewrite (blocks_nil 4 (rest 4 pre ++ y :: post)) in E3 by apply LL. rewrite (rest_short 4 (rest 4 pre ++ y :: post)) in E4 by apply LL.
  rewrite E1, E2, E3, E4, app_nil_r, !map_app, !fold_left_app in E. cbn [map fold_left] in E.
  apply (fold_keeps (2 ^ 32) byte_32) in E; [|apply keeps_byte_32..|apply keeps_byte_32|apply keeps_byte_32].
  apply keeps_byte_32 in E; [|pose proof (b2n_lt x); lia|pose proof (b2n_lt y); lia].
  now apply b2n_inj.
Qed.

Lemma last_64_lt : forall h l, h < 2 ^ 64 -> last_64 h l < 2 ^ 64.
Proof.
  intros h l H. unfold last_64. apply fold_bound; [apply keeps_byte_64|]. apply fold_bound; [apply keeps_word4_64|].
  now apply fold_bound; [apply keeps_word8_64|].
Qed.
Lemma bytes_64_state : forall l x y, x < 2 ^ 64 -> y < 2 ^ 64 -> fold_left byte_64 l x = fold_left byte_64 l y -> x = y.
Proof. intros l x y X Y E. now apply (fold_keeps (2 ^ 64) byte_64) in E; [|apply keeps_byte_64..| |]. Qed.
Lemma word4_64_state : forall l x y, x < 2 ^ 64 -> y < 2 ^ 64 -> fold_left word4_64 l x = fold_left word4_64 l y -> x = y.
Proof. intros l x y X Y E. now apply (fold_keeps (2 ^ 64) word4_64) in E; [|apply keeps_word4_64..| |]. Qed.
Lemma word8_64_state : forall l x y, x < 2 ^ 64 -> y < 2 ^ 64 -> fold_left word8_64 l x = fold_left word8_64 l y -> x = y.
Proof. intros l x y X Y E. now apply (fold_keeps (2 ^ 64) word8_64) in E; [|apply keeps_word8_64..| |]. Qed.
Lemma fold4_lt : forall l x, x < 2 ^ 64 -> fold_left word4_64 l x < 2 ^ 64.
Proof. intros. now apply fold_bound; [apply keeps_word4_64|]. Qed.
Lemma fold8_lt : forall l x, x < 2 ^ 64 -> fold_left word8_64 l x < 2 ^ 64.
Proof. intros. now apply fold_bound; [apply keeps_word8_64|]. Qed.
Lemma fold1_lt : forall l x, x < 2 ^ 64 -> fold_left byte_64 l x < 2 ^ 64.
Proof. intros. now apply fold_bound; [apply keeps_byte_64|]. Qed.
Lemma last_64_state : forall l x y, x < 2 ^ 64 -> y < 2 ^ 64 -> last_64 x l = last_64 y l -> x = y.
Proof.
  intros l x y X Y E. unfold last_64 in E. apply bytes_64_state in E; [|now apply fold4_lt, fold8_lt..].
  apply word4_64_state in E; [|now apply fold8_lt..]. now apply word8_64_state in E.
Qed.
Lemma last_64_word : forall h pre x y post, h < 2 ^ 64 -> (length pre mod 8 = 0)%nat -> length x = 8%nat -> length y = 8%nat ->
  last_64 h (pre ++ x ++ post) = last_64 h (pre ++ y ++ post) -> x = y.
Proof.
  intros h pre x y post H P X Y E. unfold last_64 in E.
  destruct (blocks_mid 8 pre x post ltac:(lia) P X) as [E1 E2]. destruct (blocks_mid 8 pre y post ltac:(lia) P Y) as [E3 E4].
  rewrite E1, E2, E3, E4, !map_app, !fold_left_app in E. cbn [map fold_left] in E.
  set (s := fold_left word8_64 (map le_num (blocks 8 pre)) h) in *.
  assert (S : s < 2 ^ 64) by now apply fold8_lt.
  assert (W : forall z, word8_64 s z < 2 ^ 64) by (intro; apply keeps_word8_64).
  apply bytes_64_state in E; [|apply fold4_lt, fold8_lt, W..]. apply word4_64_state in E; [|apply fold8_lt, W..].
  apply word8_64_state in E; [|apply W..]. apply keeps_word8_64 in E; [|exact S|now apply (word_lt 8)..]. apply le_num_inj; congruence.
Qed.
(** what is left after the words of eight bytes *)
Definition last_64_short (h : N) (l : list byte) : N :=
  fold_left byte_64 (map b2n (rest 4 l)) (fold_left word4_64 (map le_num (blocks 4 l)) h).
Lemma last_64_short_word : forall h pre x y post, h < 2 ^ 64 -> (length pre mod 4 = 0)%nat -> length x = 4%nat -> length y = 4%nat ->
  last_64_short h (pre ++ x ++ post) = last_64_short h (pre ++ y ++ post) -> x = y.
Proof.
  intros h pre x y post H P X Y E. unfold last_64_short in E.
  destruct (blocks_mid 4 pre x post ltac:(lia) P X) as [E1 E2]. destruct (blocks_mid 4 pre y post ltac:(lia) P Y) as [E3 E4].
  rewrite E1, E2, E3, E4, !map_app, !fold_left_app in E. cbn [map fold_left] in E.
  set (s := fold_left word4_64 (map le_num (blocks 4 pre)) h) in *.
  assert (S : s < 2 ^ 64) by now apply fold4_lt.
  assert (W : forall z, word4_64 s z < 2 ^ 64) by (intro; apply keeps_word4_64).
  apply bytes_64_state in E; [|apply fold4_lt, W..]. apply word4_64_state in E; [|apply W..].
  assert (V : forall z, length z = 4%nat -> le_num z < 2 ^ 64).
  { intros z Z. pose proof (word_lt 4 z Z). change (2 ^ (8 * N.of_nat 4)) with 4294967296 in *. lia. }
  apply keeps_word4_64 in E; [|exact S|now apply V..]. apply le_num_inj; congruence.
Qed.
Lemma last_64_short_byte : forall h pre x y post, h < 2 ^ 64 -> (length pre mod 4 + S (length post) < 4)%nat ->
  last_64_short h (pre ++ x :: post) = last_64_short h (pre ++ y :: post) -> x = y.
Proof.
  intros h pre x y post H P E. unfold last_64_short in E.
  destruct (blocks_rest_app 4 pre (x :: post) ltac:(lia)) as [E1 E2]. destruct (blocks_rest_app 4 pre (y :: post) ltac:(lia)) as [E3 E4].
  assert (L : length (rest 4 pre) = (length pre mod 4)%nat) by (apply rest_length; lia).
  assert (LL : forall z, (length (rest 4 pre ++ z :: post) < 4)%nat) by (intro; rewrite app_length, L; cbn [length]; lia).
  rewrite (blocks_nil 4 (rest 4 pre ++ x :: post)) in E1 by apply LL. rewrite (rest_short 4 (rest 4 pre ++ x :: post)) in E2 by apply LL.
  rewrite (blocks_nil 4 (rest 4 pre ++ y :: post)) in E3 by apply LL. rewrite (rest_short 4 (rest 4 pre ++ y :: post)) in E4 by apply LL.
  rewrite E1, E2, E3, E4, app_nil_r, !map_app, !fold_left_app in E. cbn [map fold_left] in E.
  apply bytes_64_state in E; [|apply keeps_byte_64..].
  apply keeps_byte_64 in E; [|apply fold1_lt, fold4_lt, H|pose proof (b2n_lt x); lia|pose proof (b2n_lt y); lia].
  now apply b2n_inj.
Qed.

(** ** Lists in parts *)
Lemma cut_front : forall k (l : list byte), k <> 0%nat -> exists p q, l = p ++ q /\ (length p mod k = 0)%nat /\ length q = (length l mod k)%nat.
Proof.
  intros k l K. exists (firstn (k * (length l / k)) l), (skipn (k * (length l / k)) l). rewrite firstn_skipn, firstn_length, skipn_length.
  pose proof (Nat.div_mod (length l) k K) as D. pose proof (Nat.mod_upper_bound (length l) k K). split; [reflexivity|]. split; [|lia].
  rewrite Nat.min_l by lia. rewrite Nat.mul_comm. now apply Nat.mod_mul.
Qed.
Lemma cut_back : forall n (l : list byte), (n <= length l)%nat -> exists p q, l = p ++ q /\ length p = n.
Proof. intros n l L. exists (firstn n l), (skipn n l). rewrite firstn_skipn. split; [reflexivity|]. now apply firstn_length_le. Qed.
(** after full groups and with less than another *)
Lemma blocks_short : forall k p q, k <> 0%nat -> (length p mod k = 0)%nat -> (length q < k)%nat ->
  blocks k (p ++ q) = blocks k p /\ rest k (p ++ q) = q.
Proof.
  intros k p q K P Q. destruct (blocks_rest_app k p q K) as [E1 E2].
  assert (Z : rest k p = []) by (apply length_zero_iff_nil; now rewrite rest_length).
  rewrite Z in E1, E2. cbn [app] in E1, E2. rewrite (blocks_nil k q Q) in E1. rewrite (rest_short k q Q) in E2.
  split; [now rewrite E1, app_nil_r|exact E2].
Qed.
Lemma group_mid : forall k i j (p x y q : list byte), length p = (k * j)%nat -> length x = k -> length y = k -> i <> j ->
  group k i (p ++ x ++ q) = group k i (p ++ y ++ q).
Proof.
  intros k i j p x y q P X Y D. destruct (Nat.lt_ge_cases i j) as [C|C].
  - assert (k * i + k <= length p)%nat by (rewrite P; nia). unfold group.
    rewrite !(skipn_app (k * i) p), !firstn_app, skipn_length.
    replace (k - (length p - k * i))%nat with 0%nat by lia. reflexivity.
  - assert (C' : (S j <= i)%nat) by lia. assert (L : (k * i >= length p + k)%nat) by (rewrite P; nia). unfold group. f_equal.
    rewrite !app_assoc. rewrite (skipn_app (k * i) (p ++ x)), (skipn_app (k * i) (p ++ y)), !app_length, X, Y.
    rewrite (skipn_all2 (p ++ x)), (skipn_all2 (p ++ y)) by (rewrite app_length; lia). reflexivity.
Qed.
Lemma group_hit : forall k j (p x q : list byte), length p = (k * j)%nat -> length x = k -> group k j (p ++ x ++ q) = x.
Proof.
  intros k j p x q P X. unfold group. rewrite skipn_app, <- P, Nat.sub_diag, skipn_all. cbn [skipn app].
  now rewrite firstn_app, <- X, Nat.sub_diag, firstn_all, firstn_O, app_nil_r.
Qed.

(** ** The four accumulators of XXH32 *)
Definition all_lt (n : N) (v : four) : Prop := let '(a, b, c, d) := v in a < n /\ b < n /\ c < n /\ d < n.
(** they differ in one place *)
Definition one_apart (v v' : four) : Prop :=
  let '(a, b, c, d) := v in let '(a', b', c', d') := v' in
  (a <> a' /\ b = b' /\ c = c' /\ d = d') \/ (a = a' /\ b <> b' /\ c = c' /\ d = d') \/
  (a = a' /\ b = b' /\ c <> c' /\ d = d') \/ (a = a' /\ b = b' /\ c = c' /\ d <> d').
Lemma begin_32_lt : forall seed, all_lt (2 ^ 32) (begin_32 seed).
Proof. intro seed. unfold begin_32, all_lt. repeat split; try apply add_32_lt. unfold sub_32. apply N.mod_lt. discriminate. Qed.
Lemma stripe_32_lt : forall v s, all_lt (2 ^ 32) (stripe 4 round_32 v s).
Proof. intros [[[a b] c] d] s. unfold stripe, all_lt. repeat split; apply keeps_round_32. Qed.
Lemma stripes_32_lt : forall bs v, all_lt (2 ^ 32) v -> all_lt (2 ^ 32) (fold_left (stripe 4 round_32) bs v).
Proof. induction bs as [|s bs IH]; intros v V; cbn [fold_left]; [exact V|]. apply IH, stripe_32_lt. Qed.
Lemma stripe_32_apart : forall v v' s, all_lt (2 ^ 32) v -> all_lt (2 ^ 32) v' -> one_apart v v' ->
  one_apart (stripe 4 round_32 v s) (stripe 4 round_32 v' s).
Proof.
  intros [[[a b] c] d] [[[a' b'] c'] d'] s (H1 & H2 & H3 & H4) (H1' & H2' & H3' & H4') A. unfold one_apart, stripe in *.
  assert (K : forall w x y, x < 2 ^ 32 -> y < 2 ^ 32 -> x <> y -> round_32 x w <> round_32 y w).
  { intros w x y X Y D E. apply keeps_round_32 in E; auto. }
  destruct A as [(D & -> & -> & ->)|[(-> & D & -> & ->)|[(-> & -> & D & ->)|(-> & -> & -> & D)]]].
  - left. auto.
  - right. left. auto.
  - right. right. left. auto.
  - right. right. right. auto.
Qed.
Lemma stripes_32_apart : forall bs v v', all_lt (2 ^ 32) v -> all_lt (2 ^ 32) v' -> one_apart v v' ->
  one_apart (fold_left (stripe 4 round_32) bs v) (fold_left (stripe 4 round_32) bs v').
Proof.
  induction bs as [|s bs IH]; intros v v' V V' A; cbn [fold_left]; [exact A|].
  apply IH; [apply stripe_32_lt..|]. now apply stripe_32_apart.
Qed.
Lemma stripe_32_word : forall v j p x y q, all_lt (2 ^ 32) v -> (j < 4)%nat -> length p = (4 * j)%nat -> length x = 4%nat -> length y = 4%nat ->
  x <> y -> one_apart (stripe 4 round_32 v (p ++ x ++ q)) (stripe 4 round_32 v (p ++ y ++ q)).
Proof.
  intros [[[a b] c] d] j p x y q (H1 & H2 & H3 & H4) J P X Y D. unfold stripe, one_apart.
  assert (G : forall i, i <> j -> group 4 i (p ++ x ++ q) = group 4 i (p ++ y ++ q)) by (intros; now apply group_mid with j).
  assert (K : forall h, round_32 h (le_num (group 4 j (p ++ x ++ q))) <> round_32 h (le_num (group 4 j (p ++ y ++ q)))).
  { intros h E. rewrite !group_hit in E by assumption. apply keeps_round_32 in E; [|now apply (word_lt 4)..].
    apply D. apply le_num_inj; congruence. }
  destruct j as [|[|[|[|j]]]]; [left|right; left|right; right; left|right; right; right|lia].
  - rewrite (G 1%nat), (G 2%nat), (G 3%nat) by discriminate. auto.
  - rewrite (G 0%nat), (G 2%nat), (G 3%nat) by discriminate. auto.
  - rewrite (G 0%nat), (G 1%nat), (G 3%nat) by discriminate. auto.
  - rewrite (G 0%nat), (G 1%nat), (G 2%nat) by discriminate. auto.
Qed.
Lemma join_32_apart : forall v v', all_lt (2 ^ 32) v -> all_lt (2 ^ 32) v' -> one_apart v v' -> join_32 v <> join_32 v'.
Proof.
  intros [[[a b] c] d] [[[a' b'] c'] d'] (H1 & H2 & H3 & H4) (H1' & H2' & H3' & H4') A E. unfold join_32 in E.
  assert (L := left_32_lt).
  destruct A as [(D & -> & -> & ->)|[(-> & D & -> & ->)|[(-> & -> & D & ->)|(-> & -> & -> & D)]]]; apply D.
  - apply add_32_inj_l in E; [|apply add_32_lt..]. apply add_32_inj_l in E; [|apply add_32_lt..].
    apply add_32_inj_l in E; [|apply L..]. now apply left_32_inj in E.
  - apply add_32_inj_l in E; [|apply add_32_lt..]. apply add_32_inj_l in E; [|apply add_32_lt..].
    apply add_32_inj_r in E; [|apply L..]. now apply left_32_inj in E.
  - apply add_32_inj_l in E; [|apply add_32_lt..]. apply add_32_inj_r in E; [|apply L..]. now apply left_32_inj in E.
  - apply add_32_inj_r in E; [|apply L..]. now apply left_32_inj in E.
Qed.

(** ** C66: what is told apart *)
Lemma xxh32_tail : forall seed a b, mlen a = mlen b -> blocks 16 a = blocks 16 b -> xxh32 a seed = xxh32 b seed ->
  exists h, h < 2 ^ 32 /\ last_32 h (rest 16 a) = last_32 h (rest 16 b).
Proof.
  intros seed a b L B E. unfold xxh32 in E. rewrite L, B in E. eexists. split; [|apply mix_bits_32_inj in E; [exact E|..]].
  - apply add_32_lt.
  - apply last_32_lt, add_32_lt.
  - apply last_32_lt, add_32_lt.
Qed.
(** XXH32: messages of the same length that differ in one aligned word, anywhere, have
    different hashes, whatever the seed is *)
Theorem C66_word32 : forall seed pre x y post, (length pre mod 4 = 0)%nat -> length x = 4%nat -> length y = 4%nat -> x <> y ->
  xxh32 (pre ++ x ++ post) seed <> xxh32 (pre ++ y ++ post) seed.
Proof.
  intros seed pre x y post P X Y D E.
  destruct (cut_front 16 pre ltac:(lia)) as (p & q & -> & LP & LQ). rewrite app_length in P. rewrite <- !app_assoc in E.
  assert (Q4 : (length q mod 4 = 0)%nat) by lia. assert (Q16 : (length q < 16)%nat) by lia.
  assert (ML : mlen (p ++ q ++ x ++ post) = mlen (p ++ q ++ y ++ post)) by (unfold mlen; rewrite !app_length; lia).
  destruct (Nat.lt_ge_cases (length q + 4 + length post) 16) as [C|C].
  - assert (S : forall z, length z = 4%nat -> (length (q ++ z ++ post) < 16)%nat) by (intros z Z; rewrite !app_length; lia).
    destruct (blocks_short 16 p (q ++ x ++ post) ltac:(lia) LP (S x X)) as [B1 R1].
    destruct (blocks_short 16 p (q ++ y ++ post) ltac:(lia) LP (S y Y)) as [B2 R2].
    destruct (xxh32_tail seed _ _ ML (eq_trans B1 (eq_sym B2)) E) as (h & H & E'). rewrite R1, R2 in E'.
    apply D. now apply (last_32_word h q x y post).
  - destruct (cut_back (12 - length q) post ltac:(lia)) as (r & s & -> & LR).
    assert (EA : forall z, p ++ q ++ z ++ r ++ s = p ++ (q ++ z ++ r) ++ s) by (intro; now rewrite <- !app_assoc).
    assert (SL : forall z, length z = 4%nat -> length (q ++ z ++ r) = 16%nat) by (intros z Z; rewrite !app_length; lia).
    unfold xxh32 in E. rewrite ML in E. rewrite !EA in E.
    destruct (blocks_mid 16 p _ s ltac:(lia) LP (SL x X)) as [B1 R1]. destruct (blocks_mid 16 p _ s ltac:(lia) LP (SL y Y)) as [B2 R2].
    rewrite B1, B2, R1, R2 in E. destruct (N.leb_spec 16 (mlen (p ++ (q ++ y ++ r) ++ s))) as [G|G];
      [|unfold mlen in G; rewrite app_length, app_length, (SL y Y) in G; lia].
    rewrite !fold_left_app in E. cbn [fold_left] in E.
    set (v := fold_left (stripe 4 round_32) (blocks 16 p) (begin_32 seed)) in *.
    assert (V : all_lt (2 ^ 32) v) by apply stripes_32_lt, begin_32_lt.
    apply mix_bits_32_inj in E; [|apply last_32_lt, add_32_lt..]. apply last_32_state in E; [|apply add_32_lt..].
    assert (J : forall w, join_32 w < 2 ^ 32) by (intros [[[? ?] ?] ?]; apply add_32_lt).
    apply add_32_inj_l in E; [|apply J..]. revert E. apply join_32_apart; [apply stripes_32_lt, stripe_32_lt..|].
    apply stripes_32_apart; [apply stripe_32_lt..|].
    apply (stripe_32_word v (length q / 4)); [exact V|lia|lia|assumption..].
Qed.
Print Assumptions C66_word32.
(** so have messages that differ in one byte *)
Theorem C66_byte32 : forall seed pre x y post, x <> y -> xxh32 (pre ++ x :: post) seed <> xxh32 (pre ++ y :: post) seed.
Proof.
  intros seed pre x y post D E. destruct (Nat.lt_ge_cases (length pre mod 4 + S (length post)) 4) as [C|C].
  - destruct (cut_front 16 pre ltac:(lia)) as (p & q & -> & LP & LQ). rewrite app_length in C. rewrite <- !app_assoc in E.
    assert (S : forall z, (length (q ++ z :: post) < 16)%nat) by (intro; rewrite app_length; cbn [length]; lia).
    destruct (blocks_short 16 p (q ++ x :: post) ltac:(lia) LP (S x)) as [B1 R1].
    destruct (blocks_short 16 p (q ++ y :: post) ltac:(lia) LP (S y)) as [B2 R2].
    assert (ML : mlen (p ++ q ++ x :: post) = mlen (p ++ q ++ y :: post)) by (unfold mlen; rewrite !app_length; reflexivity).
    destruct (xxh32_tail seed _ _ ML (eq_trans B1 (eq_sym B2)) E) as (h & H & E'). rewrite R1, R2 in E'.
    apply D. apply (last_32_byte h q x y post H); [lia|exact E'].
  - destruct (cut_front 4 pre ltac:(lia)) as (p & q & -> & LP & LQ).
    destruct (cut_back (3 - length q) post ltac:(lia)) as (r & s & -> & LR).
    assert (EA : forall z, (p ++ q) ++ z :: r ++ s = p ++ (q ++ z :: r) ++ s) by (intro; rewrite <- !app_assoc; reflexivity).
    rewrite !EA in E. revert E. apply C66_word32; [exact LP|rewrite app_length; cbn [length]; lia|rewrite app_length; cbn [length]; lia|].
    intro E. apply app_inv_head in E. congruence.
Qed.
Print Assumptions C66_byte32.

(** XXH64: the same for the bytes after the full stripes of 32, so for all bytes of shorter
    messages *)
Definition start_64 (msg : list byte) (seed : N) : N :=
  if 32 <=? mlen msg then join_64 (fold_left (stripe 8 round_64) (blocks 32 msg) (begin_64 seed)) else add seed B5.
Lemma xxh64_parts : forall msg seed, xxh64 msg seed = mix_bits_64 (last_64 (add (start_64 msg seed) (mlen msg)) (rest 32 msg)).
Proof. reflexivity. Qed.
Lemma xxh64_tail : forall seed a b, mlen a = mlen b -> blocks 32 a = blocks 32 b -> xxh64 a seed = xxh64 b seed ->
  exists h, h < 2 ^ 64 /\ last_64 h (rest 32 a) = last_64 h (rest 32 b).
Proof.
  intros seed a b L B E. exists (add (start_64 b seed) (mlen b)). split; [apply add_lt64|].
  rewrite !xxh64_parts in E. apply mix_bits_64_inj in E; [|apply last_64_lt, add_lt64..]. rewrite <- E.
  unfold start_64. now rewrite L, B.
Qed.
Theorem C66_word64 : forall seed pre x y post, (length pre mod 8 = 0)%nat -> length x = 8%nat -> length y = 8%nat -> x <> y ->
  (length pre mod 32 + 8 + length post < 32)%nat -> xxh64 (pre ++ x ++ post) seed <> xxh64 (pre ++ y ++ post) seed.
Proof.
  intros seed pre x y post P X Y D T E.
  destruct (cut_front 32 pre ltac:(lia)) as (p & q & -> & LP & LQ). rewrite app_length in P, T. rewrite <- !app_assoc in E.
  assert (ML : mlen (p ++ q ++ x ++ post) = mlen (p ++ q ++ y ++ post)) by (unfold mlen; rewrite !app_length; lia).
  assert (S : forall z, length z = 8%nat -> (length (q ++ z ++ post) < 32)%nat) by (intros z Z; rewrite !app_length; lia).
  destruct (blocks_short 32 p (q ++ x ++ post) ltac:(lia) LP (S x X)) as [B1 R1].
  destruct (blocks_short 32 p (q ++ y ++ post) ltac:(lia) LP (S y Y)) as [B2 R2].
  destruct (xxh64_tail seed _ _ ML (eq_trans B1 (eq_sym B2)) E) as (h & H & E'). rewrite R1, R2 in E'.
  apply D. apply (last_64_word h q x y post); try assumption. lia.
Qed.
Print Assumptions C66_word64.
Theorem C66_byte64 : forall seed pre x y post, x <> y -> (length pre mod 32 + 1 + length post < 32)%nat ->
  xxh64 (pre ++ x :: post) seed <> xxh64 (pre ++ y :: post) seed.
Proof.
  intros seed pre x y post D T E. destruct (Nat.lt_ge_cases (length pre mod 8 + S (length post)) 8) as [C|C].
  - destruct (cut_front 32 pre ltac:(lia)) as (p & q & -> & LP & LQ). rewrite app_length in C. rewrite <- !app_assoc in E.
    assert (S32 : forall z, (length (q ++ z :: post) < 32)%nat) by (intro; rewrite app_length; cbn [length]; lia).
    destruct (blocks_short 32 p (q ++ x :: post) ltac:(lia) LP (S32 x)) as [B1 R1].
    destruct (blocks_short 32 p (q ++ y :: post) ltac:(lia) LP (S32 y)) as [B2 R2].
    assert (ML : mlen (p ++ q ++ x :: post) = mlen (p ++ q ++ y :: post)) by (unfold mlen; rewrite !app_length; reflexivity).
    destruct (xxh64_tail seed _ _ ML (eq_trans B1 (eq_sym B2)) E) as (h & H & E'). rewrite R1, R2 in E'.
    destruct (cut_front 8 q ltac:(lia)) as (q1 & q2 & -> & LQ1 & LQ2). rewrite <- !app_assoc in E'.
    rewrite app_length in C, LQ2. assert (C2 : (length q2 + S (length post) < 8)%nat) by (clear - C LP LQ1 LQ2; lia).
    assert (S8 : forall z, (length (q2 ++ z :: post) < 8)%nat) by (intro; rewrite app_length; cbn [length]; lia).
    unfold last_64 in E'. destruct (blocks_short 8 q1 (q2 ++ x :: post) ltac:(lia) LQ1 (S8 x)) as [B3 R3].
    destruct (blocks_short 8 q1 (q2 ++ y :: post) ltac:(lia) LQ1 (S8 y)) as [B4 R4]. rewrite B3, R3, B4, R4 in E'.
    set (g := fold_left word8_64 (map le_num (blocks 8 q1)) h) in *. assert (G : g < 2 ^ 64) by now apply fold8_lt.
    destruct (Nat.lt_ge_cases (length q2 mod 4 + S (length post)) 4) as [C4|C4].
    + apply D. now apply (last_64_short_byte g q2 x y post).
    + destruct (cut_front 4 q2 ltac:(lia)) as (r1 & r2 & -> & LR1 & LR2).
      destruct (cut_back (3 - length r2) post ltac:(lia)) as (s1 & s2 & -> & LS).
      assert (EA : forall z, (r1 ++ r2) ++ z :: s1 ++ s2 = r1 ++ (r2 ++ z :: s1) ++ s2) by (intro; rewrite <- !app_assoc; reflexivity).
      rewrite !EA in E'. apply (last_64_short_word g r1 (r2 ++ x :: s1) (r2 ++ y :: s1) s2) in E'; try assumption.
      * apply app_inv_head in E'. congruence.
      * rewrite app_length. cbn [length]. lia.
      * rewrite app_length. cbn [length]. lia.
  - destruct (cut_front 8 pre ltac:(lia)) as (p & q & -> & LP & LQ).
    destruct (cut_back (7 - length q) post ltac:(lia)) as (r & s & -> & LR).
    assert (EA : forall z, (p ++ q) ++ z :: r ++ s = p ++ (q ++ z :: r) ++ s) by (intro; rewrite <- !app_assoc; reflexivity).
    rewrite !EA in E. revert E. rewrite !app_length in T.
    apply C66_word64; [exact LP|rewrite app_length; cbn [length]; lia|rewrite app_length; cbn [length]; lia| |].
    + intro E. apply app_inv_head in E. congruence.
    + lia.
Qed.
Print Assumptions C66_byte64.

(** Different seeds give different hashes of short messages: each hash value has exactly one seed. *)
Theorem C66_seed : forall msg,
  (mlen msg < 16 -> forall s t, s < 2 ^ 32 -> t < 2 ^ 32 -> xxh32 msg s = xxh32 msg t -> s = t) /\
  (mlen msg < 16 -> forall h, h < 2 ^ 32 -> exists s, s < 2 ^ 32 /\ xxh32 msg s = h) /\
  (mlen msg < 32 -> forall s t, s < 2 ^ 64 -> t < 2 ^ 64 -> xxh64 msg s = xxh64 msg t -> s = t) /\
  (mlen msg < 32 -> forall h, h < 2 ^ 64 -> exists s, s < 2 ^ 64 /\ xxh64 msg s = h).
Proof.
  intro msg.
  assert (I32 : mlen msg < 16 -> forall s t, s < 2 ^ 32 -> t < 2 ^ 32 -> xxh32 msg s = xxh32 msg t -> s = t).
  { intros L s t S T E. unfold xxh32 in E. destruct (N.leb_spec 16 (mlen msg)) as [C|_]; [lia|].
    apply mix_bits_32_inj in E; [|apply last_32_lt, add_32_lt..]. apply last_32_state in E; [|apply add_32_lt..].
    apply add_32_inj_l in E; [|apply add_32_lt..]. now apply add_32_inj_l in E. }
  assert (I64 : mlen msg < 32 -> forall s t, s < 2 ^ 64 -> t < 2 ^ 64 -> xxh64 msg s = xxh64 msg t -> s = t).
  { intros L s t S T E. rewrite !xxh64_parts in E.
    apply mix_bits_64_inj in E; [|apply last_64_lt, add_lt64..]. apply last_64_state in E; [|apply add_lt64..].
    unfold start_64 in E. destruct (N.leb_spec 32 (mlen msg)) as [C|_]; [lia|].
    apply add_inj_l in E; [|apply add_lt64..]. now apply add_inj_l in E. }
  split; [exact I32|]. split; [|split; [exact I64|]].
  - intros L. apply (inj_onto (2 ^ 32) (xxh32 msg)); [|intros; now apply I32].
    intros s _. unfold xxh32, mix_bits_32. apply fold_32_lt, mul_32_lt.
  - intros L. apply (inj_onto (2 ^ 64) (xxh64 msg)); [|intros; now apply I64].
    intros s _. rewrite xxh64_parts. unfold mix_bits_64. apply fold_64_lt, mulw_lt64.
Qed.
Print Assumptions C66_seed.

(** XXH64 does not tell all words apart in the stripes: 32 bytes that differ in the first word
    only, which the merging of the first accumulator makes equal again
    (tests/xxhash/xxhash.h:1891-1892) *)
Definition one_word (w : N) : list byte := le_bytes 8 w ++ repeat x00 24.
Theorem C66_word64_refuted : one_word 0x0311f08c206abe82 <> one_word 0x4e7d551a8830c67c /\
  xxh64 (one_word 0x0311f08c206abe82) 0 = xxh64 (one_word 0x4e7d551a8830c67c) 0.
Proof. split; [discriminate|]. vm_compute. reflexivity. Qed.
Print Assumptions C66_word64_refuted.
(** the hypotheses of the others hold, for instance, here *)
Example C66_case : xxh32 (Demo.key 33) 7 <> xxh32 (firstn 20 (Demo.key 33) ++ x00 :: skipn 21 (Demo.key 33)) 7 /\
  xxh64 (Demo.key 45) 7 <> xxh64 (firstn 42 (Demo.key 45) ++ x00 :: skipn 43 (Demo.key 45)) 7.
Proof.
  assert (E : forall i n z, nth_error (Demo.key n) i = Some z -> Demo.key n = firstn i (Demo.key n) ++ z :: skipn (S i) (Demo.key n)).
  { intros i n z E. symmetry. apply nth_error_split in E. destruct E as (a & b & -> & <-).
    rewrite firstn_app, Nat.sub_diag, firstn_all, firstn_O, app_nil_r. f_equal. f_equal.
    rewrite skipn_app, skipn_all2 by lia. now replace (S (length a) - length a)%nat with 1%nat by lia. }
  split.
  - rewrite (E 20%nat 33%nat _ eq_refl) at 1. apply C66_byte32. discriminate.
  - rewrite (E 42%nat 45%nat _ eq_refl) at 1. apply C66_byte64; [discriminate|].
    rewrite firstn_length, skipn_length, key_length. cbn. lia.
Qed.

(** ** C67 (refuted): a secret seed protects against collisions *)
(** The first accumulator gets a word with the highest bit changed.  This changes one bit after the
    rotation, so a known number is added to it or subtracted; the word for it 32 bytes (16
    bytes) further makes up for that. *)
Definition E64 : N := 0x31b7ffd240000000.
Definition E32 : N := 0x33f17000.
Lemma round_64_top : forall acc w, acc < 2 ^ 64 -> w < 2 ^ 64 ->
  round_64 acc (add w (2 ^ 63)) = add (round_64 acc w) (mulw (2 ^ 30) B1) \/
  add (round_64 acc (add w (2 ^ 63))) (mulw (2 ^ 30) B1) = round_64 acc w.
Proof.
  intros acc w A W. unfold round_64. set (y := add acc (mulw w B2)).
  assert (Y : y < 2 ^ 64) by apply add_lt64.
  assert (E : add acc (mulw (add w (2 ^ 63)) B2) = add y (2 ^ 63)).
  { unfold y, add, mulw. rewrite N.mul_mod_idemp_l by discriminate.
    rewrite N.add_mod_idemp_r, N.add_mod_idemp_l by discriminate. rewrite N.mul_add_distr_r, N.add_assoc.
    rewrite <- (N.add_mod_idemp_r _ (2 ^ 63 * B2)) by discriminate. change ((2 ^ 63 * B2) mod 2 ^ 64) with (2 ^ 63).
    rewrite <- (N.add_mod_idemp_l (acc + (w * B2) mod 2 ^ 64)) by discriminate.
    rewrite (N.add_mod_idemp_r acc (w * B2)) by discriminate. now rewrite N.add_mod_idemp_l by discriminate. }
  rewrite E. clearbody y. clear E.
  assert (L : left_64 (add y (2 ^ 63)) 31 = left_64 y 31 + 2 ^ 30 \/ left_64 (add y (2 ^ 63)) 31 + 2 ^ 30 = left_64 y 31).
  { unfold left_64, rotr, add. change (2 ^ 64) with 18446744073709551616 in *. change (2 ^ 63) with 9223372036854775808.
    change (2 ^ (64 - 31)) with 8589934592. change (2 ^ (64 - (64 - 31))) with 2147483648. change (2 ^ 30) with 1073741824. lia. }
  destruct L as [L|L]; [left|right].
  - rewrite L. unfold mulw, add. rewrite N.mul_add_distr_r. now rewrite <- N.add_mod by discriminate.
  - rewrite <- L. unfold mulw, add. rewrite N.mul_add_distr_r. now rewrite <- N.add_mod by discriminate.
Qed.
Lemma round_32_top : forall acc w, acc < 2 ^ 32 -> w < 2 ^ 32 ->
  round_32 acc (add_32 w (2 ^ 31)) = add_32 (round_32 acc w) (mul_32 (2 ^ 12) A1) \/
  add_32 (round_32 acc (add_32 w (2 ^ 31))) (mul_32 (2 ^ 12) A1) = round_32 acc w.
Proof.
  intros acc w A W. unfold round_32. set (y := add_32 acc (mul_32 w A2)).
  assert (Y : y < 2 ^ 32) by apply add_32_lt.
  assert (E : add_32 acc (mul_32 (add_32 w (2 ^ 31)) A2) = add_32 y (2 ^ 31)).
  { unfold y, add_32, mul_32. rewrite N.mul_mod_idemp_l by discriminate.
    rewrite N.add_mod_idemp_r, N.add_mod_idemp_l by discriminate. rewrite N.mul_add_distr_r, N.add_assoc.
    rewrite <- (N.add_mod_idemp_r _ (2 ^ 31 * A2)) by discriminate. change ((2 ^ 31 * A2) mod 2 ^ 32) with (2 ^ 31).
    rewrite <- (N.add_mod_idemp_l (acc + (w * A2) mod 2 ^ 32)) by discriminate.
    rewrite (N.add_mod_idemp_r acc (w * A2)) by discriminate. now rewrite N.add_mod_idemp_l by discriminate. }
  rewrite E. clearbody y. clear E.
  assert (L : left_32 (add_32 y (2 ^ 31)) 13 = left_32 y 13 + 2 ^ 12 \/ left_32 (add_32 y (2 ^ 31)) 13 + 2 ^ 12 = left_32 y 13).
  { unfold left_32, rotr_32, add_32. change (2 ^ 32) with 4294967296 in *. change (2 ^ 31) with 2147483648.
    change (2 ^ (32 - 13)) with 524288. change (2 ^ (32 - (32 - 13))) with 8192. change (2 ^ 12) with 4096. lia. }
  destruct L as [L|L]; [left|right].
  - rewrite L. unfold mul_32, add_32. rewrite N.mul_add_distr_r. now rewrite <- N.add_mod by discriminate.
  - rewrite <- L. unfold mul_32, add_32. rewrite N.mul_add_distr_r. now rewrite <- N.add_mod by discriminate.
Qed.
(** the next word takes the difference back *)
Lemma round_64_back : forall r w c k, w < 2 ^ 64 -> (k + c * B2) mod 2 ^ 64 = 0 ->
  round_64 (add r k) (add w c) = round_64 r w.
Proof.
  intros r w c k W Z. unfold round_64. f_equal. f_equal. unfold add, mulw.
  rewrite N.mul_mod_idemp_l by discriminate. rewrite <- N.add_mod, N.add_mod_idemp_r by discriminate.
  replace (r + k + (w + c) * B2) with (r + w * B2 + (k + c * B2)) by ring.
  rewrite N.add_mod, Z, N.add_0_r, N.mod_mod by discriminate. reflexivity.
Qed.
Lemma round_32_back : forall r w c k, w < 2 ^ 32 -> (k + c * A2) mod 2 ^ 32 = 0 ->
  round_32 (add_32 r k) (add_32 w c) = round_32 r w.
Proof.
  intros r w c k W Z. unfold round_32. f_equal. f_equal. unfold add_32, mul_32.
  rewrite N.mul_mod_idemp_l by discriminate. rewrite <- N.add_mod, N.add_mod_idemp_r by discriminate.
  replace (r + k + (w + c) * A2) with (r + w * A2 + (k + c * A2)) by ring.
  rewrite N.add_mod, Z, N.add_0_r, N.mod_mod by discriminate. reflexivity.
Qed.
Lemma rounds_64_again : forall acc v w, acc < 2 ^ 64 -> v < 2 ^ 64 -> w < 2 ^ 64 ->
  round_64 (round_64 acc (add v (2 ^ 63))) (add w (2 ^ 64 - E64)) = round_64 (round_64 acc v) w \/
  round_64 (round_64 acc (add v (2 ^ 63))) (add w E64) = round_64 (round_64 acc v) w.
Proof.
  intros acc v w A V W. destruct (round_64_top acc v A V) as [E|E]; [left|right].
  - rewrite E. apply round_64_back; [exact W|reflexivity].
  - rewrite <- E. set (r := round_64 acc (add v (2 ^ 63))).
    assert (R : r < 2 ^ 64) by apply round_64_lt. clearbody r.
    assert (EW : w = add (add w E64) (2 ^ 64 - E64)).
    { unfold add, E64. change (2 ^ 64) with 18446744073709551616 in *. lia. }
    rewrite EW at 2. symmetry. apply round_64_back; [apply add_lt64|reflexivity].
Qed.
Lemma rounds_32_again : forall acc v w, acc < 2 ^ 32 -> v < 2 ^ 32 -> w < 2 ^ 32 ->
  round_32 (round_32 acc (add_32 v (2 ^ 31))) (add_32 w (2 ^ 32 - E32)) = round_32 (round_32 acc v) w \/
  round_32 (round_32 acc (add_32 v (2 ^ 31))) (add_32 w E32) = round_32 (round_32 acc v) w.
Proof.
  intros acc v w A V W. destruct (round_32_top acc v A V) as [E|E]; [left|right].
  - rewrite E. apply round_32_back; [exact W|reflexivity].
  - rewrite <- E. set (r := round_32 acc (add_32 v (2 ^ 31))).
    assert (R : r < 2 ^ 32) by apply mul_32_lt. clearbody r.
    assert (EW : w = add_32 (add_32 w E32) (2 ^ 32 - E32)).
    { unfold add_32, E32. change (2 ^ 32) with 4294967296 in *. lia. }
    rewrite EW at 2. symmetry. apply round_32_back; [apply add_32_lt|reflexivity].
Qed.

(** add [c] to a word of a message *)
Definition plus_64 (c : N) (l : list byte) : list byte := le_bytes 8 (add (le_num l) c).
Definition plus_32 (c : N) (l : list byte) : list byte := le_bytes 4 (add_32 (le_num l) c).
Lemma plus_64_num : forall c l, le_num (plus_64 c l) = add (le_num l) c.
Proof. intros. unfold plus_64. rewrite le_num_le_bytes. apply N.mod_small, add_lt64. Qed.
Lemma plus_32_num : forall c l, le_num (plus_32 c l) = add_32 (le_num l) c.
Proof. intros. unfold plus_32. rewrite le_num_le_bytes. apply N.mod_small, add_32_lt. Qed.

Lemma stripe_first : forall k round a b c d (x r : list byte), length x = k ->
  stripe k round (a, b, c, d) (x ++ r) =
    (round a (le_num x), round b (le_num (group k 0 r)), round c (le_num (group k 1 r)), round d (le_num (group k 2 r))).
Proof. intros k round a b c d x r X. unfold stripe. now rewrite group_0_app, !group_S_app. Qed.
(** two stripes *)
Lemma two_stripes : forall k round (v : four) x m1 y m2 x' y', length x = k -> length x' = k -> length y = k -> length y' = k ->
  round (round (fst (fst (fst v))) (le_num x')) (le_num y') = round (round (fst (fst (fst v))) (le_num x)) (le_num y) ->
  stripe k round (stripe k round v (x' ++ m1)) (y' ++ m2) = stripe k round (stripe k round v (x ++ m1)) (y ++ m2).
Proof.
  intros k round [[[a b] c] d] x m1 y m2 x' y' X X' Y Y' E. cbn [fst] in E. rewrite !stripe_first by assumption. now rewrite E.
Qed.
Lemma blocks_two : forall k (p x m1 y m2 r : list byte), k <> 0%nat -> (length p mod k = 0)%nat -> length (x ++ m1) = k -> length (y ++ m2) = k ->
  blocks k (p ++ x ++ m1 ++ y ++ m2 ++ r) = blocks k p ++ (x ++ m1) :: (y ++ m2) :: blocks k r /\
  rest k (p ++ x ++ m1 ++ y ++ m2 ++ r) = rest k r.
Proof.
  intros k p x m1 y m2 r K P X Y. replace (p ++ x ++ m1 ++ y ++ m2 ++ r) with (p ++ (x ++ m1) ++ (y ++ m2) ++ r) by (now rewrite <- !app_assoc).
  destruct (blocks_mid k p (x ++ m1) ((y ++ m2) ++ r) K P X) as [-> ->]. rewrite blocks_app by assumption. rewrite rest_app by assumption.
  split; reflexivity.
Qed.

Lemma app_front : forall (a b c d : list byte), length a = length b -> a ++ c = b ++ d -> a = b.
Proof.
  induction a as [|x a IH]; intros [|y b] c d L E; try discriminate L; [reflexivity|]. injection E as -> E. f_equal.
  apply (IH b c d); [now injection L|exact E].
Qed.
(** For every message with 64 bytes from a stripe on and for every seed, one of two other
    messages, which do not depend on the seed, has the same XXH64. *)
Theorem C67_seed64_refuted : forall seed p x m1 y m2 r, (length p mod 32 = 0)%nat ->
  length x = 8%nat -> length m1 = 24%nat -> length y = 8%nat -> length m2 = 24%nat ->
  let msg := p ++ x ++ m1 ++ y ++ m2 ++ r in
  let msg' c := p ++ plus_64 (2 ^ 63) x ++ m1 ++ plus_64 c y ++ m2 ++ r in
  (forall c, msg' c <> msg /\ length (msg' c) = length msg) /\
  (xxh64 (msg' (2 ^ 64 - E64)) seed = xxh64 msg seed \/ xxh64 (msg' E64) seed = xxh64 msg seed).
Proof.
  intros seed p x m1 y m2 r P X M1 Y M2 msg msg'.
  assert (PL : forall c l, length (plus_64 c l) = 8%nat) by (intros; apply le_bytes_length).
  assert (LX : le_num x < 2 ^ 64) by now apply (word_lt 8). assert (LY : le_num y < 2 ^ 64) by now apply (word_lt 8).
  split.
  - intro c. unfold msg', msg. split.
    + intro E. apply app_inv_head in E. apply app_front in E; [|now rewrite PL].
      apply (f_equal le_num) in E. rewrite plus_64_num in E. clear - E LX. set (z := le_num x) in *. clearbody z. unfold add in E.
      change (2 ^ 64) with 18446744073709551616 in *. change (2 ^ 63) with 9223372036854775808 in *. lia.
    + rewrite !app_length, !PL, X, Y. reflexivity.
  - set (v := fold_left (stripe 8 round_64) (blocks 32 p) (begin_64 seed)).
    assert (V : fst (fst (fst v)) < 2 ^ 64).
    { unfold v. clear. destruct (blocks 32 p) as [|b bs] using rev_ind; [apply add_lt64|].
      rewrite fold_left_app. cbn [fold_left]. destruct (fold_left _ bs _) as [[[a b'] c] d]. apply mulw_lt64. }
    assert (G : forall c, round_64 (round_64 (fst (fst (fst v))) (add (le_num x) (2 ^ 63))) (add (le_num y) c) =
                          round_64 (round_64 (fst (fst (fst v))) (le_num x)) (le_num y) -> xxh64 (msg' c) seed = xxh64 msg seed).
    { intros c E. unfold xxh64, msg', msg.
      destruct (blocks_two 32 p x m1 y m2 r) as [B1 R1]; [lia|exact P|rewrite app_length; lia|rewrite app_length; lia|].
      destruct (blocks_two 32 p (plus_64 (2 ^ 63) x) m1 (plus_64 c y) m2 r) as [B2 R2];
        [lia|exact P|rewrite app_length, PL; lia|rewrite app_length, PL; lia|].
      rewrite B1, B2, R1, R2. rewrite !fold_left_app. cbn [fold_left]. fold v.
      assert (ML : mlen (p ++ plus_64 (2 ^ 63) x ++ m1 ++ plus_64 c y ++ m2 ++ r) = mlen (p ++ x ++ m1 ++ y ++ m2 ++ r))
        by (unfold mlen; rewrite !app_length, !PL, X, Y; reflexivity).
      rewrite ML. rewrite (two_stripes 8 round_64 v x m1 y m2 (plus_64 (2 ^ 63) x) (plus_64 c y)); auto.
      now rewrite !plus_64_num. }
    destruct (rounds_64_again _ _ _ V LX LY) as [E|E]; [left|right]; now apply G.
Qed.
Print Assumptions C67_seed64_refuted.
Theorem C67_seed32_refuted : forall seed p x m1 y m2 r, (length p mod 16 = 0)%nat ->
  length x = 4%nat -> length m1 = 12%nat -> length y = 4%nat -> length m2 = 12%nat ->
  let msg := p ++ x ++ m1 ++ y ++ m2 ++ r in
  let msg' c := p ++ plus_32 (2 ^ 31) x ++ m1 ++ plus_32 c y ++ m2 ++ r in
  (forall c, msg' c <> msg /\ length (msg' c) = length msg) /\
  (xxh32 (msg' (2 ^ 32 - E32)) seed = xxh32 msg seed \/ xxh32 (msg' E32) seed = xxh32 msg seed).
Proof.
  intros seed p x m1 y m2 r P X M1 Y M2 msg msg'.
  assert (PL : forall c l, length (plus_32 c l) = 4%nat) by (intros; apply le_bytes_length).
  assert (LX : le_num x < 2 ^ 32) by now apply (word_lt 4). assert (LY : le_num y < 2 ^ 32) by now apply (word_lt 4).
  split.
  - intro c. unfold msg', msg. split.
    + intro E. apply app_inv_head in E. apply app_front in E; [|now rewrite PL].
      apply (f_equal le_num) in E. rewrite plus_32_num in E. clear - E LX. set (z := le_num x) in *. clearbody z. unfold add_32 in E.
      change (2 ^ 32) with 4294967296 in *. change (2 ^ 31) with 2147483648 in *. lia.
    + rewrite !app_length, !PL, X, Y. reflexivity.
  - set (v := fold_left (stripe 4 round_32) (blocks 16 p) (begin_32 seed)).
    assert (V : fst (fst (fst v)) < 2 ^ 32).
    { assert (A : all_lt (2 ^ 32) v) by apply stripes_32_lt, begin_32_lt. destruct v as [[[a b] c] d]. apply A. }
    assert (G : forall c, round_32 (round_32 (fst (fst (fst v))) (add_32 (le_num x) (2 ^ 31))) (add_32 (le_num y) c) =
                          round_32 (round_32 (fst (fst (fst v))) (le_num x)) (le_num y) -> xxh32 (msg' c) seed = xxh32 msg seed).
    { intros c E. unfold xxh32, msg', msg.
      destruct (blocks_two 16 p x m1 y m2 r) as [B1 R1]; [lia|exact P|rewrite app_length; lia|rewrite app_length; lia|].
      destruct (blocks_two 16 p (plus_32 (2 ^ 31) x) m1 (plus_32 c y) m2 r) as [B2 R2];
        [lia|exact P|rewrite app_length, PL; lia|rewrite app_length, PL; lia|].
      rewrite B1, B2, R1, R2. rewrite !fold_left_app. cbn [fold_left]. fold v.
      assert (ML : mlen (p ++ plus_32 (2 ^ 31) x ++ m1 ++ plus_32 c y ++ m2 ++ r) = mlen (p ++ x ++ m1 ++ y ++ m2 ++ r))
        by (unfold mlen; rewrite !app_length, !PL, X, Y; reflexivity).
      rewrite ML. rewrite (two_stripes 4 round_32 v x m1 y m2 (plus_32 (2 ^ 31) x) (plus_32 c y)); auto.
      now rewrite !plus_32_num. }
    destruct (rounds_32_again _ _ _ V LX LY) as [E|E]; [left|right]; now apply G.
Qed.
Print Assumptions C67_seed32_refuted.
(** 64 zeros *)
Example C67_case : forall seed,
  xxh64 (repeat x00 64) seed = xxh64 (repeat x00 7 ++ [x80] ++ repeat x00 24 ++ le_bytes 8 (2 ^ 64 - E64) ++ repeat x00 24) seed \/
  xxh64 (repeat x00 64) seed = xxh64 (repeat x00 7 ++ [x80] ++ repeat x00 24 ++ le_bytes 8 E64 ++ repeat x00 24) seed.
Proof.
  intro seed. destruct (C67_seed64_refuted seed [] (repeat x00 8) (repeat x00 24) (repeat x00 8) (repeat x00 24) [] eq_refl eq_refl eq_refl eq_refl eq_refl)
    as (_ & [E|E]); [left|right]; symmetry; exact E.
Qed.
