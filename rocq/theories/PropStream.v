(** Properties of the streaming API. *)
From Coq Require Import ZArith NArith Arith List Bool Lia Strings.Byte.
From Coq Require Import ZifyN ZifyNat ZifyBool.
From Verif Require Import Bytes CSem Bits T1ha2 Spec CSemFacts CtxMem StreamFacts Api ApiFacts ApiStatic Demo.
Import ListNotations.
Local Open Scope N_scope.

(** ** The setting of the examples: everything is mapped, a 100-byte buffer at
    20000, contexts at 4096 and 8192, results at 12288 and 12296. *)
Definition ram : mem := sea 20000 (key 100) xee.

Lemma ram_mapped : forall p n, mapped ram p n.
Proof.
  intros p n i _. unfold ram, sea, write.
  destruct ((20000 <=? p + N.of_nat i) && (p + N.of_nat i <? 20000 + N.of_nat (length (key 100)))) eqn:E;
    [|discriminate].
  apply nth_error_Some. lia.
Qed.

Lemma ram_ctx : forall cfg c, ctx_mapped cfg ram c.
Proof. intros. repeat split; apply ram_mapped. Qed.

Lemma ram_part : forall i n, (i + n <= 100)%nat ->
  bytes_at ram (20000 + N.of_nat i) (firstn n (skipn i (key 100))).
Proof.
  intros i n H. apply bytes_at_firstn. apply bytes_at_skipn; [apply write_bytes_at|rewrite key_length; lia].
Qed.

Lemma ctx_4096 : ctx_ptr x86_64 4096.
Proof. split; [now left|]. repeat split; discriminate || reflexivity. Qed.
Lemma ctx_4096_linux32 : ctx_ptr linux32 4100.
Proof. split; [right; repeat split|]. repeat split; discriminate || reflexivity. Qed.
Lemma ctx_8192_be : ctx_ptr mips32 8192.
Proof. split; [now left|]. repeat split; discriminate || reflexivity. Qed.

Lemma ready_x86 : final_ready x86_64 4096 ram 12288 12296.
Proof.
  repeat split; try apply ram_mapped; try reflexivity; try discriminate; left; vm_compute; discriminate.
Qed.
Lemma ready_be : forall extra, extra = 0 \/ extra = 12296 -> final_ready mips32 8192 ram 12288 extra.
Proof.
  intros extra E. repeat split; try apply ram_mapped; try reflexivity; try discriminate;
    destruct E as [E|E]; subst; try reflexivity; try congruence; left; vm_compute; discriminate.
Qed.
Lemma ready_x86_0 : final_ready x86_64 4096 ram 12288 0.
Proof.
  repeat split; try apply ram_mapped; try reflexivity; try discriminate; try congruence; left; vm_compute; discriminate.
Qed.

(** 77 bytes of the buffer, in two different cuts *)
Definition piece (i n : nat) : chunk := (20000 + N.of_nat i, firstn n (skipn i (key 100))).
Definition cut_a : list chunk := [piece 0 1; piece 1 40; piece 41 0; piece 41 36].
Definition cut_b : list chunk := [piece 0 77].

Lemma piece_ok : forall cfg c i n, (i + n <= 100)%nat -> c + sizeof_ctx cfg <= 20000 ->
  chunk_ok cfg ram c (piece i n).
Proof.
  intros cfg c i n H C. unfold piece, chunk_ok.
  pose proof (addr_space_pos cfg). assert (L : mlen (firstn n (skipn i (key 100))) = N.of_nat n).
  { unfold mlen. rewrite firstn_length_le; [reflexivity|]. rewrite skipn_length, key_length. lia. }
  split; [now apply ram_part|]. rewrite L. repeat split; lia.
Qed.

Lemma cut_a_ok : forall cfg c, c + sizeof_ctx cfg <= 20000 -> Forall (chunk_ok cfg ram c) cut_a.
Proof.
  intros cfg c H. unfold cut_a. repeat (apply Forall_cons; [apply piece_ok; [lia|exact H]|]). apply Forall_nil.
Qed.
Lemma cut_b_ok : forall cfg c, c + sizeof_ctx cfg <= 20000 -> Forall (chunk_ok cfg ram c) cut_b.
Proof.
  intros cfg c H. unfold cut_b. repeat (apply Forall_cons; [apply piece_ok; [lia|exact H]|]). apply Forall_nil.
Qed.

(** ** C11: the result of a stream is the specification of the concatenated
    chunks. *)
Theorem C11_stream64 : forall cfg c, ctx_ptr cfg c -> forall chunks m x y bits,
  ctx_mapped cfg m c -> x < 2 ^ 64 -> y < 2 ^ 64 ->
  Forall (chunk_ok cfg m c) chunks -> final_ready cfg c m bits 0 ->
  exists m', stream cfg c x y chunks bits 0 m = Ok (t1ha2_stream64 x y (content chunks), m').
Proof.
  intros cfg c CP chunks m x y bits M X Y C R.
  destruct (stream64_ok cfg c CP chunks m x y bits M X Y C R) as (m' & E & _). now exists m'.
Qed.
Print Assumptions C11_stream64.

Theorem C11_stream128 : forall cfg c, ctx_ptr cfg c -> forall chunks m x y bits extra, extra <> 0 ->
  ctx_mapped cfg m c -> x < 2 ^ 64 -> y < 2 ^ 64 ->
  Forall (chunk_ok cfg m c) chunks -> final_ready cfg c m bits extra ->
  exists m', stream cfg c x y chunks bits extra m = Ok (fst (t1ha2_stream128 x y (content chunks)), m') /\
             bytes_at m' extra (native cfg 8 (snd (t1ha2_stream128 x y (content chunks)))).
Proof.
  intros cfg c CP chunks m x y bits extra EN M X Y C R.
  destruct (stream128_ok cfg c CP chunks m x y bits extra EN M X Y C R) as (m' & E & B & _). exists m'. auto.
Qed.
Print Assumptions C11_stream128.

Example C11_case : ctx_ptr x86_64 4096 /\ ctx_mapped x86_64 ram 4096 /\
  Forall (chunk_ok x86_64 ram 4096) cut_a /\ final_ready x86_64 4096 ram 12288 12296 /\
  mlen (content cut_a) = 77.
Proof.
  split; [apply ctx_4096|]. split; [apply ram_ctx|]. split; [|split; [apply ready_x86|reflexivity]].
  apply cut_a_ok; vm_compute; discriminate.
Qed.

(** ** C10: the cutting of a message into chunks, the addresses and the build do
    not matter. *)
Theorem C10_chunking : forall cfg c m chunks bits cfg' c' m' chunks' bits' x y,
  ctx_ptr cfg c -> ctx_mapped cfg m c -> Forall (chunk_ok cfg m c) chunks -> final_ready cfg c m bits 0 ->
  ctx_ptr cfg' c' -> ctx_mapped cfg' m' c' -> Forall (chunk_ok cfg' m' c') chunks' ->
  final_ready cfg' c' m' bits' 0 ->
  x < 2 ^ 64 -> y < 2 ^ 64 -> content chunks = content chunks' ->
  exists r n n', stream cfg c x y chunks bits 0 m = Ok (r, n) /\
                 stream cfg' c' x y chunks' bits' 0 m' = Ok (r, n').
Proof.
  intros cfg c m chunks bits cfg' c' m' chunks' bits' x y CP M C R CP' M' C' R' X Y E.
  destruct (C11_stream64 cfg c CP chunks m x y bits M X Y C R) as (n & E1).
  destruct (C11_stream64 cfg' c' CP' chunks' m' x y bits' M' X Y C' R') as (n' & E2).
  exists (t1ha2_stream64 x y (content chunks)), n, n'. split; [exact E1|]. now rewrite E.
Qed.
Print Assumptions C10_chunking.

Theorem C10_chunking128 : forall cfg c m chunks bits extra cfg' c' m' chunks' bits' extra' x y,
  ctx_ptr cfg c -> ctx_mapped cfg m c -> Forall (chunk_ok cfg m c) chunks -> final_ready cfg c m bits extra ->
  ctx_ptr cfg' c' -> ctx_mapped cfg' m' c' -> Forall (chunk_ok cfg' m' c') chunks' ->
  final_ready cfg' c' m' bits' extra' -> extra <> 0 -> extra' <> 0 ->
  x < 2 ^ 64 -> y < 2 ^ 64 -> content chunks = content chunks' ->
  exists r h n n', stream cfg c x y chunks bits extra m = Ok (r, n) /\
                   stream cfg' c' x y chunks' bits' extra' m' = Ok (r, n') /\
                   bytes_at n extra (native cfg 8 h) /\ bytes_at n' extra' (native cfg' 8 h).
Proof.
  intros cfg c m chunks bits extra cfg' c' m' chunks' bits' extra' x y CP M C R CP' M' C' R' N1 N2 X Y E.
  destruct (C11_stream128 cfg c CP chunks m x y bits extra N1 M X Y C R) as (n & E1 & B1).
  destruct (C11_stream128 cfg' c' CP' chunks' m' x y bits' extra' N2 M' X Y C' R') as (n' & E2 & B2).
  exists (fst (t1ha2_stream128 x y (content chunks))), (snd (t1ha2_stream128 x y (content chunks))), n, n'.
  rewrite E in *. auto.
Qed.
Print Assumptions C10_chunking128.

Example C10_case : content cut_a = content cut_b /\ cut_a <> cut_b /\
  Forall (chunk_ok x86_64 ram 4096) cut_a /\ Forall (chunk_ok mips32 ram 8192) cut_b /\
  final_ready x86_64 4096 ram 12288 0 /\ final_ready mips32 8192 ram 12288 0.
Proof.
  split; [vm_compute; reflexivity|]. split; [discriminate|].
  split; [apply cut_a_ok; vm_compute; discriminate|].
  split; [apply cut_b_ok; vm_compute; discriminate|].
  split; [apply ready_x86_0|apply ready_be; now left].
Qed.

(** ** C12: programs with many contexts behave as if each context were an
    independent list of bytes. *)
Theorem C12_histories : forall cfg cs, contexts_ok cfg cs -> forall h a m,
  represents cfg cs a m -> legal_history cfg cs h a m ->
  exists m', run cfg h m = Ok (fst (arun cfg h a), m') /\ represents cfg cs (snd (arun cfg h a)) m'.
Proof. exact history_ok. Qed.
Print Assumptions C12_histories.

(** the same with a condition that can be checked before the program runs *)
Theorem C12_plain_histories : forall cfg cs bits extra, contexts_ok cfg cs -> forall h m,
  scratch cfg cs bits extra m -> (forall c, In c cs -> ctx_mapped cfg m c) ->
  plain_history cfg cs bits extra m (fun _ => false) h ->
  exists m', run cfg h m = Ok (fst (arun cfg h (fun _ => None)), m').
Proof. exact plain_history_ok. Qed.
Print Assumptions C12_plain_histories.

(** two interleaved streams; the first context is used again *)
Definition interleaved : list op :=
  [ Init 4096 1 2; Init 8192 3 4;
    Update 4096 (fst (piece 0 33)) (snd (piece 0 33)); Update 8192 (fst (piece 5 70)) (snd (piece 5 70));
    Update 4096 (fst (piece 50 7)) (snd (piece 50 7)); Final 8192 12288 12296; Final 4096 12288 0;
    Init 4096 5 6; Final 4096 12288 12296 ].

Lemma two_contexts : contexts_ok x86_64 [4096; 8192].
Proof.
  split.
  - intros c [<-|[<-|[]]]; (split; [now left|]); repeat split; discriminate || reflexivity.
  - intros c c' [<-|[<-|[]]] [<-|[<-|[]]] NE; try congruence; [left|right]; vm_compute; discriminate.
Qed.

Example C12_case : plain_history x86_64 [4096; 8192] 12288 12296 ram (fun _ => false) interleaved /\
  scratch x86_64 [4096; 8192] 12288 12296 ram.
Proof.
  assert (U : forall c i n, In c [4096; 8192] -> (i + n <= 100)%nat -> forall live, live c = true ->
    plain x86_64 [4096; 8192] 12288 12296 ram live (Update c (fst (piece i n)) (snd (piece i n)))).
  { intros c i n IC H live LV. unfold plain, piece. cbn [fst snd].
    assert (L : mlen (firstn n (skipn i (key 100))) = N.of_nat n).
    { unfold mlen. rewrite firstn_length_le; [reflexivity|]. rewrite skipn_length, key_length. lia. }
    rewrite L. unfold apart. change (sizeof_ctx x86_64) with 80. change (addr_space x86_64) with 18446744073709551616.
    split; [exact IC|]. split; [exact LV|]. split; [now apply ram_part|]. split; [lia|]. split; [lia|].
    split; [|lia]. intros c' [<-|[<-|[]]]; lia. }
  split.
  - unfold interleaved. cbn [plain_history live_after].
    repeat match goal with |- _ /\ _ => split end; try (apply U; [cbn; tauto|lia|reflexivity]); try exact I;
      cbn [plain In]; repeat split; try reflexivity; auto.
  - split; [|intros _].
    + split; [discriminate|]. split; [apply ram_mapped|]. split; [reflexivity|]. split; [reflexivity|].
      intros c [<-|[<-|[]]]; left; vm_compute; discriminate.
    + split; [apply ram_mapped|]. split; [reflexivity|].
      intros c [<-|[<-|[]]]; left; vm_compute; discriminate.
Qed.

(** a history in which the caller overwrites a buffer after feeding it *)
Example C12_case_env :
  fst (arun x86_64 [Init 4096 1 2; Update 4096 20000 (key 9); Env (fun _ => Some x00); Final 4096 12288 0]
            (fun _ => None)) = [(t1ha2_stream64 1 2 (key 9), None)].
Proof. reflexivity. Qed.

(** ** C13: the counters of a context, and confinement of writes. *)
Theorem C13_invariant : forall cfg c, ctx_ptr cfg c -> forall chunks m x y,
  ctx_mapped cfg m c -> x < 2 ^ 64 -> y < 2 ^ 64 -> Forall (chunk_ok cfg m c) chunks ->
  exists m', (t1ha2_init cfg c x y ;;; updates cfg c chunks) m = Ok (tt, m') /\
    load_partial cfg c m' = Ok (mlen (content chunks) mod 32, m') /\
    load_total cfg c m' = Ok (mlen (content chunks) mod 2 ^ 64, m') /\
    (forall a, a < c \/ c + sizeof_ctx cfg <= a -> m' a = m a).
Proof.
  intros cfg c CP chunks m x y M X Y C.
  destruct (fed_ok cfg c CP chunks m x y M X Y C) as (m' & E & H & O).
  assert (L : mlen (rest 32 (content chunks)) = mlen (content chunks) mod 32).
  { unfold mlen. rewrite rest_length by lia. lia. }
  exists m'. split; [exact E|]. split; [|split; [|apply O]].
  - rewrite <- L. apply (load_partial_ok cfg c CP m' _ _ _ _ H). rewrite L. lia.
  - apply (load_total_ok cfg c CP m' _ _ _ _ H). apply N.mod_lt. discriminate.
Qed.
Print Assumptions C13_invariant.

Example C13_case : ctx_ptr linux32 4100 /\ ctx_mapped linux32 ram 4100 /\ Forall (chunk_ok linux32 ram 4100) cut_a /\
  mlen (content cut_a) mod 32 = 13.
Proof.
  split; [apply ctx_4096_linux32|]. split; [apply ram_ctx|]. split; [|reflexivity].
  apply cut_a_ok; vm_compute; discriminate.
Qed.

(** ** C14: updates with no bytes change nothing. *)
Theorem C14_empty_update : forall cfg c, ctx_ptr cfg c -> forall m x y msg p,
  in_progress cfg m c x y msg -> p < addr_space cfg -> (p <> 0 \/ rest 32 msg = []) ->
  exists m', t1ha2_update cfg c p 0 m = Ok (tt, m') /\ forall a, m' a = m a.
Proof. exact update_nothing. Qed.
Print Assumptions C14_empty_update.

(** the context after feeding 77 bytes *)
Example C14_case : exists m', in_progress x86_64 m' 4096 1 2 (content cut_a).
Proof.
  destruct (fed_ok x86_64 4096 ctx_4096 cut_a ram 1 2 (ram_ctx _ _) eq_refl eq_refl (proj1 (proj2 (proj2 C11_case))))
    as (m' & _ & H & _).
  now exists m'.
Qed.

(** With a pending partial block and a null pointer the call is undefined, in
    every build: memcpy is called with a null pointer. *)
Theorem C14_null_refuted : forall cfg c, ctx_ptr cfg c -> forall m x y msg,
  in_progress cfg m c x y msg -> rest 32 msg <> [] ->
  t1ha2_update cfg c 0 0 m = Undef BadMemcpy.
Proof.
  intros cfg c CP m x y msg H NE.
  pose proof (layout_bounds cfg c CP) as LB. pose proof (ctx_room cfg c CP) as CR.
  pose proof (rest_lt msg) as RL. pose proof (addr_space_pos cfg) as AP.
  assert (T : mlen msg mod 2 ^ 64 < W64) by (apply N.mod_lt; discriminate).
  unfold t1ha2_update. cbv zeta.
  replace (overlap c (sizeof_ctx cfg) 0 0) with false by (unfold overlap; lia).
  rewrite (bind_ok _ _ _ _ _ _ _ (load_total_ok cfg c CP m _ _ _ _ H T)).
  destruct (store_total_ok cfg c CP m _ _ _ _ (add64 (mlen msg mod 2 ^ 64) 0) H
              ltac:(lia)) as (m1 & E1 & F1 & O1).
  rewrite (bind_ok _ _ _ _ _ _ _ E1).
  rewrite (bind_ok _ _ _ _ _ _ _ (load_partial_ok cfg c CP m1 _ _ _ _ F1 ltac:(unfold mlen; lia))).
  assert (Z : mlen (rest 32 msg) <> 0).
  { intro Z. apply NE. apply length_zero_iff_nil. unfold mlen in Z. lia. }
  replace (mlen (rest 32 msg) =? 0) with false by lia. cbn [negb].
  unfold bind at 1. unfold bind at 1. unfold memcpy. rewrite orb_true_r. reflexivity.
Qed.
Print Assumptions C14_null_refuted.

Example C14_null_case : rest 32 (content cut_a) <> [].
Proof. discriminate. Qed.

(** ** C15: initialisation erases all history. *)
Theorem C15_init_erases : forall cfg c, ctx_ptr cfg c -> forall h x y m m',
  (forall o, In o h -> match o with Init c' _ _ | Update c' _ _ | Final c' _ _ => c' = c | Env _ => True end) ->
  ctx_mapped cfg m c -> ctx_mapped cfg m' c ->
  legal_history cfg [c] (Init c x y :: h) (fun _ => None) m ->
  legal_history cfg [c] (Init c x y :: h) (fun _ => None) m' ->
  exists rs n n', run cfg (Init c x y :: h) m = Ok (rs, n) /\ run cfg (Init c x y :: h) m' = Ok (rs, n').
Proof.
  intros cfg c CP h x y m m' H M M' L L'.
  assert (CS : contexts_ok cfg [c]).
  { split; [intros c' [<-|[]]; exact CP|]. intros c1 c2 [<-|[]] [<-|[]] NE; congruence. }
  assert (R : represents cfg [c] (fun _ => None) m) by (intros c' [<-|[]]; exact M).
  destruct (history_ok cfg [c] CS _ _ _ R L) as (n & E & _).
  assert (R' : represents cfg [c] (fun _ => None) m') by (intros c' [<-|[]]; exact M').
  destruct (history_ok cfg [c] CS _ _ _ R' L') as (n' & E' & _).
  exists (fst (arun cfg (Init c x y :: h) (fun _ => None))), n, n'. auto.
Qed.
Print Assumptions C15_init_erases.

(** Even a stream that is still in progress in the context leaves no trace: the
    results after a re-initialisation are those of a fresh context. *)
Theorem C15_reinit : forall cfg c, ctx_ptr cfg c -> forall h x y a m,
  (forall o, In o h -> match o with Init c' _ _ | Update c' _ _ | Final c' _ _ => c' = c | Env _ => True end) ->
  represents cfg [c] a m -> legal_history cfg [c] (Init c x y :: h) a m ->
  exists n, run cfg (Init c x y :: h) m = Ok (fst (arun cfg (Init c x y :: h) (fun _ => None)), n).
Proof.
  intros cfg c CP h x y a m H R L.
  assert (CS : contexts_ok cfg [c]).
  { split; [intros c' [<-|[]]; exact CP|]. intros c1 c2 [<-|[]] [<-|[]] NE; congruence. }
  destruct (history_ok cfg [c] CS _ a m R L) as (n & E & _).
  exists n. rewrite E. do 2 f_equal. cbn [arun astep].
  assert (S : fst (arun cfg h (set a c (Some (x, y, [])))) = fst (arun cfg h (set (fun _ => None) c (Some (x, y, []))))).
  { apply (arun_one cfg c); [exact H|]. unfold set. now rewrite N.eqb_refl. }
  destruct (arun cfg h (set a c (Some (x, y, [])))), (arun cfg h (set (fun _ => None) c (Some (x, y, [])))).
  cbn [fst app] in *. exact S.
Qed.
Print Assumptions C15_reinit.

Example C15_case : exists a m, represents x86_64 [4096] a m /\ a 4096 <> None /\
  legal_history x86_64 [4096] [Init 4096 7 8; Final 4096 12288 0] a m.
Proof.
  destruct (fed_ok x86_64 4096 ctx_4096 cut_a ram 1 2 (ram_ctx _ _) eq_refl eq_refl (proj1 (proj2 (proj2 C11_case))))
    as (m' & _ & H & O).
  exists (fun _ => Some (1, 2, content cut_a)), m'.
  split; [intros c [<-|[]]; repeat split; auto; apply H|]. split; [discriminate|].
  split; [cbn [legal In]; repeat split; auto|]. intros r m1 E. split; [|intros; exact I].
  assert (M1 : mapped m1 12288 8).
  { destruct (t1ha2_init_ok x86_64 4096 ctx_4096 m' 7 8) as (m2 & E2 & _ & O2); try reflexivity.
    { exact (in_progress_mapped x86_64 4096 _ _ _ _ H). }
    cbn [step] in E. rewrite (bind_ok _ _ _ _ _ _ _ E2) in E. injection E as _ <-.
    eapply only_mapped; [exact O2|]. eapply only_mapped; [exact O|]. apply ram_mapped. }
  cbn [legal In]. split; [now left|]. split; [discriminate|]. split; [|congruence].
  split; [discriminate|]. split; [exact M1|]. split; [reflexivity|]. split; [reflexivity|].
  intros c [<-|[]]. left. vm_compute. discriminate.
Qed.

(** ** C16: a bytewise copy of a context continues the same stream. *)
(** any number of updates, then final (src/t1ha2.c:312, 367) *)
Definition continue (cfg : config) (c : N) (chunks : list chunk) (bits : N) : M N :=
  updates cfg c chunks ;;; t1ha2_final cfg bits c 0.

Theorem C16_copy : forall cfg c c' m x y msg,
  ctx_ptr cfg c -> ctx_ptr cfg c' -> x < 2 ^ 64 -> y < 2 ^ 64 -> in_progress cfg m c x y msg ->
  mapped m c (N.to_nat (sizeof_ctx cfg)) -> mapped m c' (N.to_nat (sizeof_ctx cfg)) ->
  apart c (sizeof_ctx cfg) c' (sizeof_ctx cfg) ->
  exists m1, memcpy cfg c' c (sizeof_ctx cfg) m = Ok (tt, m1) /\
  forall chunks chunks' bits bits',
  Forall (chunk_ok cfg m1 c) chunks -> Forall (chunk_ok cfg m1 c') chunks' -> content chunks = content chunks' ->
  final_ready cfg c m1 bits 0 -> final_ready cfg c' m1 bits' 0 ->
  exists r n n', continue cfg c chunks bits m1 = Ok (r, n) /\ continue cfg c' chunks' bits' m1 = Ok (r, n').
Proof.
  intros cfg c c' m x y msg CP CP' X Y H MC MC' D.
  destruct (mapped_bytes_at m _ c MC) as (l & L & B).
  assert (LM : mlen l = sizeof_ctx cfg) by (unfold mlen; lia).
  assert (E : memcpy cfg c' c (sizeof_ctx cfg) m = Ok (tt, write m c' l)).
  { rewrite <- LM. apply memcpy_ok.
    - apply CP'.
    - apply CP.
    - exact B.
    - now rewrite L.
    - right. unfold apart in D. lia. }
  exists (write m c' l). split; [exact E|].
  assert (H1 : in_progress cfg (write m c' l) c x y msg).
  { eapply in_progress_agree; [exact CP| |exact H]. intros i Hi. apply write_out. unfold apart in D. unfold mlen in LM. lia. }
  assert (H2 : in_progress cfg (write m c' l) c' x y msg).
  { eapply relocate; [exact CP|exact CP'| |exact H]. intros i Hi.
    destruct (nth_error l (N.to_nat i)) as [b|] eqn:Nb.
    - replace i with (N.of_nat (N.to_nat i)) by lia. rewrite (write_in _ _ _ _ _ Nb). now rewrite (B _ _ Nb).
    - apply nth_error_None in Nb. unfold mlen in LM. lia. }
  intros chunks chunks' bits bits' C C' EC R R'.
  destruct (updates_ok cfg c CP chunks _ x y msg H1 X Y C) as (n & En & Hn & On).
  destruct (updates_ok cfg c' CP' chunks' _ x y msg H2 X Y C') as (n' & En' & Hn' & On').
  destruct (t1ha2_final64_ok cfg c CP n x y _ bits Hn X Y (final_ready_only cfg c _ _ _ _ On R)) as (k & Ek & _).
  destruct (t1ha2_final64_ok cfg c' CP' n' x y _ bits' Hn' X Y (final_ready_only cfg c' _ _ _ _ On' R')) as (k' & Ek' & _).
  exists (t1ha2_stream64 x y (msg ++ content chunks)), k, k'. unfold continue.
  rewrite (bind_ok _ _ _ _ _ _ _ En), (bind_ok _ _ _ _ _ _ _ En'). split; [exact Ek|]. now rewrite EC.
Qed.
Print Assumptions C16_copy.

Example C16_case : exists m, in_progress x86_64 m 4096 1 2 (content cut_a) /\
  mapped m 4096 80 /\ mapped m 6000 80 /\ ctx_ptr x86_64 6000 /\ apart 4096 80 6000 80.
Proof.
  destruct (fed_ok x86_64 4096 ctx_4096 cut_a ram 1 2 (ram_ctx _ _) eq_refl eq_refl (proj1 (proj2 (proj2 C11_case))))
    as (m' & _ & H & O).
  exists m'. split; [exact H|]. split; [eapply only_mapped; [exact O|apply ram_mapped]|].
  split; [eapply only_mapped; [exact O|apply ram_mapped]|].
  split; [|left; lia]. split; [now left|]. repeat split; discriminate || reflexivity.
Qed.

(** ** C17: what t1ha2_final writes: the context, its own local variable, and
    the extra result if asked for. *)
Theorem C17_final : forall cfg c, ctx_ptr cfg c -> forall m x y msg bits,
  in_progress cfg m c x y msg -> x < 2 ^ 64 -> y < 2 ^ 64 -> final_ready cfg c m bits 0 ->
  exists m', t1ha2_final cfg bits c 0 m = Ok (t1ha2_stream64 x y msg, m') /\
    (forall a, a < c \/ c + sizeof_ctx cfg <= a -> a < bits \/ bits + 8 <= a -> m' a = m a).
Proof.
  intros cfg c CP m x y msg bits H X Y R.
  destruct (t1ha2_final64_ok cfg c CP m x y msg bits H X Y R) as (m' & E & _ & F & _).
  exists m'. split; [exact E|]. intros a A1 A2. apply F; auto.
Qed.
Print Assumptions C17_final.

Theorem C17_final128 : forall cfg c, ctx_ptr cfg c -> forall m x y msg bits extra, extra <> 0 ->
  in_progress cfg m c x y msg -> x < 2 ^ 64 -> y < 2 ^ 64 -> final_ready cfg c m bits extra ->
  exists m', t1ha2_final cfg bits c extra m = Ok (fst (t1ha2_stream128 x y msg), m') /\
    bytes_at m' extra (native cfg 8 (snd (t1ha2_stream128 x y msg))) /\
    (forall a, a < c \/ c + sizeof_ctx cfg <= a -> a < bits \/ bits + 8 <= a ->
               a < extra \/ extra + 8 <= a -> m' a = m a).
Proof.
  intros cfg c CP m x y msg bits extra EN H X Y R.
  destruct (t1ha2_final128_ok cfg c CP m x y msg bits extra EN H X Y R) as (m' & E & B & _ & F & _).
  exists m'. split; [exact E|]. split; [exact B|]. intros a A1 A2 A3. apply F; auto.
Qed.
Print Assumptions C17_final128.

Example C17_case : exists m', in_progress x86_64 m' 4096 1 2 (content cut_a) /\
  final_ready x86_64 4096 m' 12288 12296.
Proof.
  destruct (fed_ok x86_64 4096 ctx_4096 cut_a ram 1 2 (ram_ctx _ _) eq_refl eq_refl (proj1 (proj2 (proj2 C11_case))))
    as (m' & _ & H & O).
  exists m'. split; [exact H|]. eapply final_ready_only; [exact O|]. apply ready_x86.
Qed.

(** ** C18: t1ha2_final is not a query: called twice, it answers differently. *)
Definition final_twice (cfg : config) (c bits x y : N) : M (N * N) :=
  t1ha2_init cfg c x y ;;;
  r1 <- t1ha2_final cfg bits c 0 ;; r2 <- t1ha2_final cfg bits c 0 ;; ret (r1, r2).

Theorem C18_final_twice_refuted : exists cfg c bits x y m r1 r2 m',
  ctx_ptr cfg c /\ ctx_mapped cfg m c /\ final_ready cfg c m bits 0 /\
  final_twice cfg c bits x y m = Ok (r1, r2, m') /\ r1 <> r2.
Proof.
  assert (V : (match final_twice x86_64 4096 12288 1 2 ram with
               | Ok ((r1, r2), _) => negb (r1 =? r2) | _ => false end) = true) by (vm_compute; reflexivity).
  destruct (final_twice x86_64 4096 12288 1 2 ram) as [[[r1 r2] m']| | | | |] eqn:E; try discriminate V.
  exists x86_64, 4096, 12288, 1, 2, ram, r1, r2, m'.
  split; [apply ctx_4096|]. split; [apply ram_ctx|]. split; [apply ready_x86_0|].
  split; [exact E|]. lia.
Qed.
Print Assumptions C18_final_twice_refuted.
