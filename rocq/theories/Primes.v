(** Prime numbers: Fermat's little theorem, Pocklington's criterion and a function that
    checks certificates for it.  Nothing here depends on the model. *)
From Coq Require Import NArith List Bool Lia Permutation.
Import ListNotations.
Local Open Scope N_scope.

Definition is_prime (n : N) : Prop := 1 < n /\ forall d, (d | n) -> d = 1 \/ d = n.

(** ** Arithmetic modulo a number *)
Lemma mod_pow : forall a b n e, n <> 0 -> a mod n = b mod n -> (a ^ e) mod n = (b ^ e) mod n.
Proof.
  intros a b n e N0 E. induction e as [|e IH] using N.peano_ind; [now rewrite !N.pow_0_r|].
  rewrite !N.pow_succ_r', N.mul_mod, E, IH, <- N.mul_mod by exact N0. reflexivity.
Qed.
Lemma mod_mul : forall a b c d n, n <> 0 -> a mod n = b mod n -> c mod n = d mod n -> (a * c) mod n = (b * d) mod n.
Proof. intros a b c d n N0 E F. rewrite N.mul_mod, E, F, <- N.mul_mod by exact N0. reflexivity. Qed.

Lemma prime_gcd : forall p a, is_prime p -> ~ (p | a) -> N.gcd p a = 1.
Proof.
  intros p a [P1 P] NA. destruct (P (N.gcd p a) (N.gcd_divide_l _ _)) as [E|E]; [exact E|].
  elim NA. rewrite <- E. apply N.gcd_divide_r.
Qed.
Lemma prime_mul : forall p a b, is_prime p -> (p | a * b) -> (p | a) \/ (p | b).
Proof.
  intros p a b P D. destruct (N.eq_dec (a mod p) 0) as [E|E].
  - left. apply N.mod_divide in E; [exact E|destruct P; lia].
  - right. apply (N.gauss p a b D). apply prime_gcd; [exact P|]. intros F. apply E.
    apply N.mod_divide in F; [exact F|destruct P; lia].
Qed.
(** a factor that is prime to the modulus can be cancelled *)
Lemma mod_cancel : forall p c a b, is_prime p -> ~ (p | c) -> (c * a) mod p = (c * b) mod p -> a mod p = b mod p.
Proof.
  assert (W : forall p c a b, is_prime p -> ~ (p | c) -> b <= a -> (c * a) mod p = (c * b) mod p -> a mod p = b mod p).
  { intros p c a b P NC L E. assert (P0 : p <> 0) by (destruct P; lia).
    assert (D : (p | c * (a - b))).
    { rewrite N.mul_sub_distr_l.
      exists (c * a / p - c * b / p).
      rewrite (N.div_mod (c * a) p P0) at 1. rewrite (N.div_mod (c * b) p P0) at 1. rewrite E.
      rewrite N.mul_sub_distr_r. lia. }
    destruct (prime_mul p c (a - b) P D) as [F|[k F]]; [contradiction|].
    replace a with (b + k * p) by lia. now rewrite N.mod_add by exact P0. }
  intros p c a b P NC E. destruct (N.le_ge_cases b a); [|symmetry]; eapply W; eauto.
Qed.

(** ** Fermat's little theorem *)
Definition product (l : list N) : N := fold_right N.mul 1 l.
Lemma product_perm : forall l k, Permutation l k -> product l = product k.
Proof. unfold product. induction 1; cbn [fold_right]; [reflexivity|congruence|ring|congruence]. Qed.
Lemma product_prime : forall p l, is_prime p -> (forall x, In x l -> ~ (p | x)) -> ~ (p | product l).
Proof.
  intros p l P. induction l as [|x l IH]; intros H D; cbn [product fold_right] in D.
  - apply N.divide_1_r in D. destruct P. lia.
  - apply prime_mul in D; [|exact P]. destruct D as [D|D]; [exact (H x (or_introl eq_refl) D)|].
    apply IH; [intros y I; apply H; now right|exact D].
Qed.
Lemma product_map : forall p a l, p <> 0 ->
  product (map (fun x => (a * x) mod p) l) mod p = (a ^ N.of_nat (length l) * product l) mod p.
Proof.
  intros p a l P0. induction l as [|x l IH]; [reflexivity|].
  cbn [map product fold_right length]. change (fold_right N.mul 1 ?k) with (product k).
  rewrite N.mul_mod, IH, N.mod_mod, <- N.mul_mod by exact P0. f_equal.
  rewrite Nat2N.inj_succ, N.pow_succ_r'. lia.
Qed.
Lemma NoDup_map_on : forall (A B : Type) (f : A -> B) (l : list A),
  (forall x y, In x l -> In y l -> f x = f y -> x = y) -> NoDup l -> NoDup (map f l).
Proof.
  intros A B f l. induction l as [|x l IH]; intros H D; [constructor|]. inversion D as [|x' l' NI D']; subst.
  cbn [map]. constructor.
  - intros I. apply in_map_iff in I. destruct I as (y & E & I). apply NI.
    rewrite <- (H y x); [exact I|now right|now left|exact E].
  - apply IH; [intros y z Iy Iz; apply H; now right|exact D'].
Qed.
Definition below (p : N) : list N := map N.of_nat (seq 1 (N.to_nat p - 1)).
Lemma below_in : forall p x, In x (below p) <-> 1 <= x < p.
Proof.
  intros p x. unfold below. rewrite in_map_iff. split.
  - intros (k & <- & I). apply in_seq in I. lia.
  - intros L. exists (N.to_nat x). split; [lia|]. apply in_seq. lia.
Qed.
Lemma below_prime : forall p x, In x (below p) -> ~ (p | x).
Proof. intros p x I D. apply below_in in I. apply N.divide_pos_le in D; lia. Qed.
Lemma fermat : forall p a, is_prime p -> ~ (p | a) -> (a ^ (p - 1)) mod p = 1.
Proof.
  intros p a P NA. assert (P1 : 1 < p) by (destruct P; assumption). assert (P0 : p <> 0) by lia.
  assert (DB : NoDup (below p)).
  { apply NoDup_map_on; [intros x y _ _; apply Nat2N.inj|apply seq_NoDup]. }
  assert (Q : Permutation (map (fun x => (a * x) mod p) (below p)) (below p)).
  { apply NoDup_Permutation_bis.
    - apply NoDup_map_on; [|exact DB]. intros x y Ix Iy E.
      apply mod_cancel in E; [|exact P|exact NA]. apply below_in in Ix, Iy.
      rewrite !N.mod_small in E by lia. exact E.
    - rewrite map_length. apply le_n.
    - intros y I. apply in_map_iff in I. destruct I as (x & <- & I). apply below_in.
      assert (B := N.mod_upper_bound (a * x) p P0). split; [|exact B].
      destruct (N.eq_dec ((a * x) mod p) 0) as [E|E]; [|clear - E; generalize dependent ((a * x) mod p); lia].
      apply N.mod_divide in E; [|exact P0]. apply prime_mul in E; [|exact P].
      destruct E as [E|E]; [contradiction|]. now elim (below_prime p x I). }
  assert (E := product_map p a (below p) P0). rewrite (product_perm _ _ Q) in E.
  replace (N.of_nat (length (below p))) with (p - 1) in E.
  2: { unfold below. rewrite map_length, seq_length. lia. }
  assert (C := mod_cancel p (product (below p)) (a ^ (p - 1)) 1 P (product_prime p _ P (below_prime p))).
  rewrite (N.mod_small 1 p P1) in C. apply C. rewrite N.mul_1_r, E. f_equal. apply N.mul_comm.
Qed.

(** ** Pocklington's criterion *)
(** every number above 1 has a prime divisor *)
Lemma prime_divisor : forall n, 1 < n -> exists p, is_prime p /\ (p | n).
Proof.
  intros n. induction n as [n IH] using (well_founded_induction N.lt_wf_0). intros L.
  destruct (find (fun d => n mod d =? 0) (map N.of_nat (seq 2 (N.to_nat n - 2)))) as [d|] eqn:F.
  - apply find_some in F. destruct F as [I E]. apply in_map_iff in I. destruct I as (k & <- & I).
    apply in_seq in I. apply N.eqb_eq in E.
    destruct (IH (N.of_nat k)) as (p & P & D); [lia|lia|].
    exists p. split; [exact P|]. apply N.divide_trans with (1 := D). apply N.mod_divide in E; [exact E|lia].
  - exists n. split; [|apply N.divide_refl]. split; [exact L|]. intros d D.
    destruct (N.eq_dec d 1) as [E1|E1]; [now left|]. right. destruct (N.eq_dec d n) as [En|En]; [exact En|].
    assert (B := N.divide_pos_le d n ltac:(lia) D). assert (Z : d <> 0) by (intros ->; destruct D; lia).
    assert (K := find_none _ _ F d). cbv beta in K.
    assert (X : (n mod d =? 0) = false).
    { apply K. apply in_map_iff. exists (N.to_nat d). split; [lia|]. apply in_seq. lia. }
    apply N.mod_divide in D; [|exact Z]. rewrite D in X. discriminate X.
Qed.
Lemma coprime_pow : forall q k h, N.gcd q h = 1 -> N.gcd (q ^ N.of_nat k) h = 1.
Proof.
  intros q k h G. induction k as [|k IH]; [cbn; now destruct h|].
  rewrite Nat2N.inj_succ, N.pow_succ_r'.
  assert (D := N.gcd_divide_l (q * q ^ N.of_nat k) h). assert (E := N.gcd_divide_r (q * q ^ N.of_nat k) h).
  set (g := N.gcd (q * q ^ N.of_nat k) h) in *. clearbody g.
  apply N.divide_1_r. rewrite <- IH. apply N.gcd_greatest; [|exact E].
  apply (N.gauss g q); [exact D|]. apply N.divide_1_r. rewrite <- G. apply N.gcd_greatest; [apply N.gcd_divide_r|].
  apply N.divide_trans with (2 := E). apply N.gcd_divide_l.
Qed.
(** the prime power q ^ k that divides n - 1 divides p - 1 *)
Lemma order_step : forall n p a q k,
  is_prime p -> is_prime q -> 1 < n -> (p | n) ->
  (a ^ (n - 1)) mod p = 1 -> (a ^ ((n - 1) / q)) mod p <> 1 -> (q ^ N.of_nat k | n - 1) -> (q | n - 1) ->
  (q ^ N.of_nat k | p - 1).
Proof.
  intros n p a q k P Q L D E1 E2 K DQ. assert (P1 : 1 < p) by (destruct P; assumption). assert (P0 : p <> 0) by lia.
  assert (NA : ~ (p | a)).
  { intros A. apply N.mod_divide in A; [|exact P0].
    assert (W := mod_pow a 0 p (n - 1) P0). rewrite A, N.mod_0_l in W by exact P0. specialize (W eq_refl).
    rewrite E1, N.pow_0_l, N.mod_0_l in W by lia. discriminate W. }
  assert (FL := fermat p a P NA).
  assert (G : (a ^ N.gcd (n - 1) (p - 1)) mod p = 1).
  { destruct (N.gcd_bezout_pos (n - 1) (p - 1)) as (x & y & B); [lia|].
    assert (X : (a ^ (x * (n - 1))) mod p = 1).
    { rewrite N.mul_comm, N.pow_mul_r. transitivity ((1 ^ x) mod p); [|rewrite N.pow_1_l; now apply N.mod_small].
      apply mod_pow; [exact P0|]. rewrite E1. symmetry. now apply N.mod_small. }
    rewrite B, N.pow_add_r in X.
    rewrite N.mul_mod in X by exact P0.
    replace ((a ^ (y * (p - 1))) mod p) with 1 in X.
    2: { symmetry. rewrite N.mul_comm, N.pow_mul_r. transitivity ((1 ^ y) mod p); [|rewrite N.pow_1_l; now apply N.mod_small].
         apply mod_pow; [exact P0|]. rewrite FL. symmetry. now apply N.mod_small. }
    rewrite N.mul_1_r, N.mod_mod in X by exact P0. exact X. }
  destruct (N.gcd_divide_l (n - 1) (p - 1)) as [h H]. set (g := N.gcd (n - 1) (p - 1)) in *.
  assert (Q0 : q <> 0) by (destruct Q; lia).
  destruct (N.eq_dec (h mod q) 0) as [Z|Z].
  - elim E2. apply N.mod_divide in Z; [|exact Q0]. destruct Z as [h' Z].
    replace ((n - 1) / q) with (g * h').
    2: { rewrite H, Z. replace (h' * q * g) with (g * h' * q) by lia. symmetry. now apply N.div_mul. }
    rewrite N.pow_mul_r. transitivity ((1 ^ h') mod p); [|rewrite N.pow_1_l; now apply N.mod_small].
    apply mod_pow; [exact P0|]. rewrite G. symmetry. now apply N.mod_small.
  - apply N.divide_trans with g; [|apply N.gcd_divide_r].
    rewrite H in K. apply (N.gauss _ h); [exact K|].
    apply coprime_pow. apply prime_gcd; [exact Q|]. intros A. apply Z. apply N.mod_divide in A; [exact A|exact Q0].
Qed.

(** a certificate for a number n: a base a, and for some of the primes q that divide n - 1
    the exponent k and the inverse u of a ^ ((n - 1) / q) - 1 modulo n *)
Definition certificate : Type := (N * N * list (N * nat * N))%type.

(** a ^ e mod n by repeated squaring *)
Fixpoint powmod_pos (n a : N) (e : positive) : N :=
  match e with
  | xH => a mod n
  | xO e => let r := powmod_pos n a e in (r * r) mod n
  | xI e => let r := powmod_pos n a e in ((r * r) mod n * a) mod n
  end.
Definition powmod (n a e : N) : N := match e with 0 => 1 mod n | N.pos e => powmod_pos n a e end.
Lemma powmod_pos_ok : forall n a e, n <> 0 -> powmod_pos n a e = (a ^ N.pos e) mod n.
Proof.
  intros n a e N0. induction e as [e IH|e IH|]; cbn [powmod_pos]; cbv zeta; rewrite ?IH.
  - rewrite <- N.mul_mod by exact N0. rewrite N.mul_mod_idemp_l by exact N0. f_equal.
    change (N.pos e~1) with (2 * N.pos e + 1). rewrite N.pow_add_r, N.pow_1_r. f_equal.
    replace (2 * N.pos e) with (N.pos e + N.pos e) by lia. now rewrite N.pow_add_r.
  - rewrite <- N.mul_mod by exact N0. f_equal.
    change (N.pos e~0) with (2 * N.pos e). replace (2 * N.pos e) with (N.pos e + N.pos e) by lia. now rewrite N.pow_add_r.
  - now rewrite N.pow_1_r.
Qed.
Lemma powmod_ok : forall n a e, n <> 0 -> powmod n a e = (a ^ e) mod n.
Proof. intros n a [|e] N0; [reflexivity|now apply powmod_pos_ok]. Qed.

(** trial division, for small numbers *)
Fixpoint no_divisor (fuel : nat) (d n : N) : bool :=
  match fuel with
  | O => false
  | S f => if n <? d * d then true else if n mod d =? 0 then false else no_divisor f (d + 1) n
  end.
Definition small_prime (n : N) : bool := (1 <? n) && no_divisor 200 2 n.
Lemma no_divisor_ok : forall fuel d n, no_divisor fuel d n = true -> 2 <= d ->
  forall x, d <= x -> x * x <= n -> ~ (x | n).
Proof.
  induction fuel as [|f IH]; intros d n H L x Lx Lxx D; [discriminate H|]. cbn [no_divisor] in H.
  destruct (N.ltb_spec n (d * d)) as [B|B]; [nia|].
  destruct (N.eqb_spec (n mod d) 0) as [Z|Z]; [discriminate H|].
  destruct (N.eq_dec x d) as [->|Nd].
  - apply Z. apply N.mod_divide; [lia|exact D].
  - apply (IH (d + 1) n H ltac:(lia) x ltac:(lia) Lxx D).
Qed.
Lemma no_small_divisor_prime : forall n, 1 < n -> (forall x, 2 <= x -> x * x <= n -> ~ (x | n)) -> is_prime n.
Proof.
  intros n L H. split; [exact L|]. intros d D. assert (Dd := D). destruct D as [e E].
  destruct (N.eq_dec d 1) as [E1|E1]; [now left|]. right.
  destruct (N.eq_dec e 1) as [F1|F1]; [lia|]. exfalso.
  assert (d <> 0) by (intros ->; lia). assert (e <> 0) by (intros ->; lia).
  destruct (N.le_ge_cases d e) as [C|C].
  - apply (H d); [lia|nia|exact Dd].
  - apply (H e); [lia|nia|]. exists d. lia.
Qed.
Lemma small_prime_ok : forall n, small_prime n = true -> is_prime n.
Proof.
  intros n H. unfold small_prime in H. apply andb_prop in H. destruct H as [L H]. apply N.ltb_lt in L.
  apply no_small_divisor_prime; [exact L|]. intros x Lx. apply (no_divisor_ok 200 2 n H ltac:(lia) x Lx).
Qed.

Definition known_prime (known : list N) (q : N) : bool := existsb (N.eqb q) known || small_prime q.
Definition check_factor (known : list N) (n a : N) (x : N * nat * N) : bool :=
  let '(q, k, u) := x in
  known_prime known q && ((n - 1) mod (q ^ N.of_nat k) =? 0) && negb (Nat.eqb k 0) &&
  ((powmod n a ((n - 1) / q) + (n - 1)) * u mod n =? 1).
Definition certificate_product (l : list (N * nat * N)) : N := fold_right (fun x r => let '(q, k, _) := x in q ^ N.of_nat k * r) 1 l.
Fixpoint distinct (l : list N) : bool :=
  match l with [] => true | x :: l => negb (existsb (N.eqb x) l) && distinct l end.
Definition check_one (known : list N) (c : certificate) : bool :=
  let '(n, a, l) := c in
  (1 <? n) && (powmod n a (n - 1) =? 1) && forallb (check_factor known n a) l &&
  distinct (map (fun x => fst (fst x)) l) && (n <? certificate_product l * certificate_product l).
(** The same with fewer computations: the power for the first factor gives that for n - 1. *)
Definition check_power (known : list N) (n b : N) (x : N * nat * N) : bool :=
  let '(q, k, u) := x in
  known_prime known q && ((n - 1) mod (q ^ N.of_nat k) =? 0) && negb (Nat.eqb k 0) && ((b + (n - 1)) * u mod n =? 1).
Definition check_fast (known : list N) (c : certificate) : bool :=
  let '(n, a, l) := c in
  match l with
  | [] => false
  | x :: l' =>
    let q := fst (fst x) in
    let b := powmod n a ((n - 1) / q) in
    (1 <? n) && check_power known n b x && ((n - 1) mod q =? 0) && (powmod n b q =? 1) && forallb (check_factor known n a) l' &&
    distinct (map (fun x => fst (fst x)) l) && (n <? certificate_product l * certificate_product l)
  end.
Lemma check_fast_ok : forall known c, check_fast known c = true -> check_one known c = true.
Proof.
  intros known [[n a] [|x l]] H; [discriminate H|]. unfold check_fast in H. cbv zeta in H.
  apply andb_prop in H. destruct H as [H H6]. apply andb_prop in H. destruct H as [H H5].
  apply andb_prop in H. destruct H as [H H4]. apply andb_prop in H. destruct H as [H H3].
  apply andb_prop in H. destruct H as [H H2']. apply andb_prop in H. destruct H as [H1 H2].
  unfold check_one. rewrite H1, H5, H6. cbn [andb forallb]. rewrite H4, !andb_true_r.
  destruct x as [[q k] u]. cbn [fst] in *. apply andb_true_intro. split; [|exact H2].
  apply N.ltb_lt in H1. assert (N0 : n <> 0) by lia. apply N.eqb_eq in H2', H3. apply N.eqb_eq.
  refine (eq_trans _ H3). rewrite !powmod_ok by exact N0. 
  rewrite <- (mod_pow (a ^ ((n - 1) / q)) (a ^ ((n - 1) / q) mod n) n q N0) by (now rewrite N.mod_mod).
  rewrite <- N.pow_mul_r. do 2 f_equal. destruct (N.eq_dec q 0) as [Z|Z].
  - subst q. exfalso. destruct (n - 1) eqn:E; [lia|discriminate H2'].
  - pose proof (N.div_mod (n - 1) q Z) as DM. rewrite H2', N.add_0_r in DM. rewrite N.mul_comm. exact DM.
Qed.
Fixpoint check (known : list N) (l : list certificate) : option (list N) :=
  match l with
  | [] => Some known
  | c :: l => if check_fast known c then check (fst (fst c) :: known) l else None
  end.

Lemma known_prime_ok : forall known q, Forall is_prime known -> known_prime known q = true -> is_prime q.
Proof.
  intros known q F H. unfold known_prime in H. apply orb_prop in H. destruct H as [H|H]; [|now apply small_prime_ok].
  apply existsb_exists in H. destruct H as (x & I & E). apply N.eqb_eq in E. subst x.
  exact (proj1 (Forall_forall _ _) F q I).
Qed.
Lemma prime_pow_coprime : forall p q j k, is_prime p -> is_prime q -> p <> q -> N.gcd (p ^ N.of_nat j) (q ^ N.of_nat k) = 1.
Proof.
  intros p q j k P Q NE. apply coprime_pow. rewrite N.gcd_comm. apply coprime_pow. apply prime_gcd; [exact Q|].
  intros D. destruct P as [P1 P]. destruct (P q D) as [E|E]; destruct Q; [lia|congruence].
Qed.
Lemma certificate_product_coprime : forall l q k,
  is_prime q -> Forall (fun x => is_prime (fst (fst x))) l -> existsb (N.eqb q) (map (fun x => fst (fst x)) l) = false ->
  N.gcd (q ^ N.of_nat k) (certificate_product l) = 1.
Proof.
  intros l q k Q. induction l as [|[[r j] v] l IH]; intros F D; [apply N.gcd_1_r|].
  apply Forall_cons_iff in F. destruct F as [R F]. cbn [fst] in R. cbn [map fst existsb] in D.
  apply orb_false_iff in D. destruct D as [E D]. apply N.eqb_neq in E. cbn [certificate_product fold_right].
  change (fold_right _ 1 l) with (certificate_product l). specialize (IH F D).
  assert (J := prime_pow_coprime q r k j Q R E).
  apply N.divide_1_r. rewrite <- IH. apply N.gcd_greatest; [apply N.gcd_divide_l|].
  apply (N.gauss _ (r ^ N.of_nat j)); [apply N.gcd_divide_r|].
  apply N.divide_1_r. rewrite <- J. apply N.gcd_greatest; [|apply N.gcd_divide_r].
  apply N.divide_trans with (1 := N.gcd_divide_l _ _). apply N.gcd_divide_l.
Qed.
(** prime powers of different primes that divide a number: so does their product *)
Lemma certificate_product_divides : forall l m,
  Forall (fun x => is_prime (fst (fst x)) /\ (fst (fst x) ^ N.of_nat (snd (fst x)) | m)) l ->
  distinct (map (fun x => fst (fst x)) l) = true -> (certificate_product l | m).
Proof.
  intros l m. induction l as [|[[q k] u] l IH]; intros F D; [apply N.divide_1_l|].
  apply Forall_cons_iff in F. destruct F as [[Q K] F]. cbn [fst snd] in Q, K. cbn [map fst distinct] in D.
  apply andb_prop in D. destruct D as [D1 D2]. specialize (IH F D2). cbn [certificate_product fold_right].
  change (fold_right _ 1 l) with (certificate_product l).
  assert (C : N.gcd (q ^ N.of_nat k) (certificate_product l) = 1).
  { apply certificate_product_coprime; [exact Q| |now apply negb_true_iff].
    eapply Forall_impl; [|exact F]. intros x [X _]. exact X. }
  destruct K as [x X]. subst m.
  assert (Y : (certificate_product l | q ^ N.of_nat k * x)) by (rewrite N.mul_comm; exact IH).
  apply N.gauss in Y; [|rewrite N.gcd_comm; exact C]. destruct Y as [y ->].
  exists y. ring.
Qed.
Lemma check_one_ok : forall known c, Forall is_prime known -> check_one known c = true -> is_prime (fst (fst c)).
Proof.
  intros known [[n a] l] KP H. cbn [fst]. unfold check_one in H.
  apply andb_prop in H. destruct H as [H H5]. apply andb_prop in H. destruct H as [H H4].
  apply andb_prop in H. destruct H as [H H3]. apply andb_prop in H. destruct H as [H1 H2].
  apply N.ltb_lt in H1, H5. apply N.eqb_eq in H2. assert (N0 : n <> 0) by lia. rewrite powmod_ok in H2 by exact N0.
  apply no_small_divisor_prime; [exact H1|]. intros x X XX D.
  destruct (prime_divisor x) as (p & P & Dp); [lia|]. assert (Dn : (p | n)) by now apply N.divide_trans with x.
  assert (P1 : 1 < p) by (destruct P; assumption). assert (P0 : p <> 0) by lia.
  assert (Lp : p <= x) by (apply N.divide_pos_le; [lia|exact Dp]).
  assert (MOD : forall y, (y mod n) mod p = y mod p).
  { intros y. destruct Dn as [m ->]. rewrite (N.mul_comm m p), N.mod_mul_r by (destruct m; lia).
    rewrite N.mul_comm, N.mod_add by exact P0. now apply N.mod_mod. }
  assert (DV : (certificate_product l | p - 1)).
  { apply certificate_product_divides; [|exact H4]. apply Forall_forall. intros [[q k] u] I. cbn [fst snd].
    apply (proj1 (forallb_forall _ _) H3) in I. unfold check_factor in I.
    apply andb_prop in I. destruct I as [I I4]. apply andb_prop in I. destruct I as [I I3].
    apply andb_prop in I. destruct I as [I1 I2]. apply N.eqb_eq in I2, I4. rewrite powmod_ok in I4 by exact N0.
    assert (Q := known_prime_ok known q KP I1). split; [exact Q|].
    assert (QK : (q ^ N.of_nat k | n - 1)).
    { apply N.mod_divide in I2; [exact I2|]. apply N.pow_nonzero. destruct Q; lia. }
    assert (QD : (q | n - 1)).
    { apply N.divide_trans with (2 := QK). destruct k as [|k]; [discriminate I3|].
      rewrite Nat2N.inj_succ, N.pow_succ_r'. apply N.divide_factor_l. }
    apply (order_step n p a q k P Q H1 Dn); [| |exact QK|exact QD].
    - rewrite <- MOD, H2. now apply N.mod_small.
    - intros E. assert (Z := f_equal (fun y => y mod p) I4). cbv beta in Z. rewrite MOD in Z.
      rewrite (N.mod_small 1 p P1) in Z.
      rewrite N.mul_mod in Z by exact P0. rewrite (N.add_mod _ (n - 1) p P0), MOD, E in Z.
      rewrite N.add_mod_idemp_r in Z by exact P0. replace (1 + (n - 1)) with n in Z by lia.
      apply N.mod_divide in Dn; [|exact P0]. rewrite Dn, N.mul_0_l, N.mod_0_l in Z by exact P0. discriminate Z. }
  apply N.divide_pos_le in DV; [|lia]. nia.
Qed.
Lemma check_ok : forall l known r, Forall is_prime known -> check known l = Some r -> Forall is_prime r.
Proof.
  induction l as [|c l IH]; intros known r K H; cbn [check] in H; [now injection H as <-|].
  destruct (check_fast known c) eqn:E; [|discriminate H]. apply check_fast_ok in E.
  apply (IH (fst (fst c) :: known) r); [|exact H]. constructor; [now apply check_one_ok with known|exact K].
Qed.
Lemma check_prime : forall l n, (match check [] l with Some r => existsb (N.eqb n) r | None => false end) = true -> is_prime n.
Proof.
  intros l n H. destruct (check [] l) as [r|] eqn:E; [|discriminate H].
  apply existsb_exists in H. destruct H as (x & I & X). apply N.eqb_eq in X. subst x.
  exact (proj1 (Forall_forall _ _) (check_ok l [] r (Forall_nil _) E) n I).
Qed.
