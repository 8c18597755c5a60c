(** What the self-check is documented to do: the 81 probes, as arguments and as
    messages, and the recorded values. *)
From Coq Require Import NArith List Bool Strings.Byte.
From Verif Require Import Bytes CSem Bits T1ha2 Spec AesSpec CSemFacts KeyMem CtxMem OneShot RefVals Dispatch Selfcheck.
Import ListNotations.
Local Open Scope N_scope.

(** data, length, seed; [pattern] and [long] are the addresses of the two arrays *)
Definition short_probes (pattern : N) : list (N * N * N) :=
  [(0, 0, 0); (0, 0, 2 ^ 64 - 1); (pattern, 64, 0)]
  ++ map (fun i => (pattern, N.of_nat i, 2 ^ (N.of_nat i - 1))) (seq 1 63)
  ++ map (fun i => (pattern + N.of_nat i, 64 - N.of_nat i, 2 ^ 64 - 2 ^ N.of_nat i)) (seq 1 7).
Definition long_probes (long : N) : list (N * N * N) :=
  map (fun i => (long + N.of_nat i, 128 + 17 * N.of_nat i, 2 ^ 64 - 2 ^ 7)) (seq 0 8).
Definition probes (pattern long : N) : list (N * N * N) := short_probes pattern ++ long_probes long.

(** the second array: 0, 1, ... 255, 0, 1, ... 255 *)
Definition pattern_long : list byte := map (fun i => n2b (N.of_nat i)) (seq 0 512).

(** the same probes as message and seed *)
Definition short_messages : list (list byte * N) :=
  [([], 0); ([], 2 ^ 64 - 1); (t1ha_test_pattern, 0)]
  ++ map (fun i => (firstn i t1ha_test_pattern, 2 ^ (N.of_nat i - 1))) (seq 1 63)
  ++ map (fun i => (skipn i t1ha_test_pattern, 2 ^ 64 - 2 ^ N.of_nat i)) (seq 1 7).
Definition long_messages : list (list byte * N) :=
  map (fun i => (firstn (128 + 17 * i) (skipn i pattern_long), 2 ^ 64 - 2 ^ 7)) (seq 0 8).
Definition messages : list (list byte * N) := short_messages ++ long_messages.

(** the recorded values for each checked function *)
Definition recorded (f : probe_fn) : list N :=
  match f with
  | Fn Atonce => t1ha_refval_2atonce
  | Fn Hash1le => t1ha_refval_64le
  | Fn Hash1be => t1ha_refval_64be
  | Fn Hash0_32le => t1ha_refval_32le
  | Fn Hash0_32be => t1ha_refval_32be
  | Fn AesNoavx | Fn AesAvx => t1ha_refval_ia32aes_a
  | Fn AesAvx2 => t1ha_refval_ia32aes_b
  | Thunk128 => t1ha_refval_2atonce128
  | ThunkStream => t1ha_refval_2stream
  | ThunkStream128 => t1ha_refval_2stream128
  end.

(** what each checked function is specified to return *)
Definition expected (f : probe_fn) (msg : list byte) (seed : N) : N :=
  match f with
  | Fn f => value f msg seed
  | Thunk128 => fst (t1ha2_128 msg seed)
  | ThunkStream => t1ha2_stream64 seed seed msg
  | ThunkStream128 => fst (t1ha2_stream128 seed seed msg)
  end.

(** ** The verdict *)
(** call the function on all probes and collect what it returns *)
Fixpoint run_probes (hash : hash_code) (ps : list (N * N * N)) : M (list N) :=
  match ps with
  | [] => ret []
  | (d, l, s) :: ps => v <- hash d l s ;; vs <- run_probes hash ps ;; ret (v :: vs)
  end.
(** the same, but stop the program at the first wrong value *)
Fixpoint run_asserting (hash : hash_code) (ps : list (N * N * N)) (rs : list N) : M unit :=
  match ps, rs with
  | (d, l, s) :: ps, r :: rs => v <- hash d l s ;; if v =? r then run_asserting hash ps rs else abort
  | _, _ => ret tt
  end.
(** store bytes one after the other *)
Fixpoint fill (p : N) (l : list byte) : M unit :=
  match l with
  | [] => ret tt
  | x :: l => store_bytes p [x] ;;; fill (p + 1) l
  end.

(** ** The program image and the stack frame during the self-check *)
(** table [rs] of 81 numbers at [refs] *)
Definition refs_at (cfg : config) (refs : N) (rs : list N) (m : mem) : Prop :=
  forall k, (k < 81)%nat -> bytes_at m (refs + 8 * N.of_nat k) (native cfg 8 (nth k rs 0)).

Definition apart (p n q k : N) : Prop := p + n <= q \/ q + k <= p.
(** the objects that the self-check writes to, with their sizes *)
Definition scratch (b : build) (v : frame) : list (N * N) :=
  [(v_unused v, 8); (v_ctx v, sizeof_ctx (base b)); (v_bits v, 8)].
Definition locals (b : build) (v : frame) : list (N * N) := (v_long v, 512) :: scratch b v.
(** [m'] differs from [m] at most in the objects [qs]; nothing gets unmapped *)
Definition same_except (qs : list (N * N)) (m m' : mem) : Prop :=
  (forall a, (forall q, In q qs -> a < fst q \/ fst q + snd q <= a) -> m' a = m a) /\
  (forall a, m a <> None -> m' a <> None).

(** the functions that are compiled in: t1ha.h:488, 536, 585, 611-626 *)
Definition in_build (b : build) (f : probe_fn) : bool :=
  match f with
  | Fn Atonce | Thunk128 | ThunkStream | ThunkStream128 => negb (t1ha2_disabled b)
  | Fn Hash1le | Fn Hash1be => negb (t1ha1_disabled b)
  | Fn Hash0_32le | Fn Hash0_32be => negb (t1ha0_disabled b)
  | Fn AesNoavx | Fn AesAvx => negb (t1ha0_disabled b) && aesni_available b
  | Fn AesAvx2 => negb (t1ha0_disabled b) && aesni_available b && negb (e2k b)
  end.

(** The constants and the local variables are in memory, properly aligned and
    apart from each other, and not at the very ends of the address space. *)
Record image_ok (b : build) (v : frame) (m : mem) : Prop := {
  im_pattern : bytes_at m (v_pattern v) t1ha_test_pattern;
  im_refs : forall f, in_build b f = true -> refs_at (base b) (v_refs v f) (recorded f) m;
  im_refs_al : forall f, in_build b f = true ->
    v_refs v f mod alignment (base b) 8 = 0 /\ v_refs v f + 648 < addr_space (base b);
  im_pages : fast_oneshot (base b) = true ->
    page_ok (base b) /\ page_rounded (base b) m (v_pattern v) 64 /\ page_rounded (base b) m (v_long v) 512;
  im_place : 127 <= v_pattern v /\ v_pattern v + 64 + 112 < addr_space (base b) /\
             127 <= v_long v /\ v_long v + 512 + 112 < addr_space (base b);
  im_long : mapped m (v_long v) 512;
  im_unused : mapped m (v_unused v) 8 /\ v_unused v <> 0 /\ v_unused v mod alignment (base b) 8 = 0;
  im_ctx : ctx_mapped (base b) m (v_ctx v) /\ ctx_ptr (base b) (v_ctx v);
  im_bits : mapped m (v_bits v) 8 /\ v_bits v <> 0 /\ v_bits v mod alignment (base b) 8 = 0 /\
            v_bits v + 8 < addr_space (base b);
  im_apart_locals : ForallOrdPairs (fun p q => apart (fst p) (snd p) (fst q) (snd q)) (locals b v);
  im_apart_pattern : forall q, In q (locals b v) -> apart (v_pattern v) 64 (fst q) (snd q);
  im_apart_refs : forall f q, in_build b f = true -> In q (locals b v) -> apart (v_refs v f) 648 (fst q) (snd q)
}.

(** what [f] needs to run, apart from its operands *)
Definition runnable (b : build) (c : cpu) (f : probe_fn) : Prop :=
  match f with
  | Fn f => usable f (base b) /\ e2k b || executes c f = true
  | Thunk128 => whole_words_ok (base b)
  | ThunkStream | ThunkStream128 => True
  end.
