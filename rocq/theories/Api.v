(** Programs that use the streaming API (t1ha.h:406-420 and the prototypes of
    t1ha2_init, t1ha2_update, t1ha2_final), and what such programs should see. *)
From Coq Require Import NArith List Bool Strings.Byte.
From Verif Require Import Bytes CSem Bits T1ha2 Spec CSemFacts CtxMem.
Import ListNotations.
Local Open Scope N_scope.

(** ** One stream: init, any number of updates, final (src/t1ha2.c:305-381) *)

(** A chunk is an address and the bytes expected there. *)
Definition chunk : Type := N * list byte.

(** one call of t1ha2_update (src/t1ha2.c:312) per chunk *)
Fixpoint updates (cfg : config) (c : N) (chunks : list chunk) : M unit :=
  match chunks with
  | [] => ret tt
  | (p, data) :: r => t1ha2_update cfg c p (mlen data) ;;; updates cfg c r
  end.

(** t1ha2_init (src/t1ha2.c:305), the updates, t1ha2_final (src/t1ha2.c:367)
    with its local variable [bits] at [bits] *)
Definition stream (cfg : config) (c x y : N) (chunks : list chunk) (bits extra : N) : M N :=
  t1ha2_init cfg c x y ;;; updates cfg c chunks ;;; t1ha2_final cfg bits c extra.

(** A chunk lies in memory, does not reach the end of the address space, is not
    at the null address, and does not overlap the context. *)
Definition chunk_ok (cfg : config) (m : mem) (c : N) (ch : chunk) : Prop :=
  let '(p, data) := ch in
  bytes_at m p data /\ p <> 0 /\ p + mlen data < addr_space cfg /\
  (data = [] \/ c + sizeof_ctx cfg <= p \/ p + mlen data <= c).

Definition content (chunks : list chunk) : list byte := concat (map snd chunks).

(** ** Histories over many contexts *)
Inductive op : Type :=
| Init (c x y : N)                          (* t1ha2_init(c, x, y) *)
| Update (c p : N) (data : list byte)       (* t1ha2_update(c, p, length of data) *)
| Final (c bits extra : N)                  (* t1ha2_final(c, extra) *)
| Env (m : mem).                            (* the caller changes memory to m *)

(** What the caller sees of a [Final]: the returned number and, if it asked for
    it, the eight bytes at [extra]. *)
Definition result : Type := N * option (list byte).

Definition peek (n : nat) (p : N) : M (list byte) := load_bytes n p.

(** run one operation on the model of the C code; only Final yields a result *)
Definition step (cfg : config) (o : op) : M (list result) :=
  match o with
  | Init c x y => t1ha2_init cfg c x y ;;; ret []
  | Update c p data => t1ha2_update cfg c p (mlen data) ;;; ret []
  | Final c bits extra =>
      r <- t1ha2_final cfg bits c extra ;;
      if extra =? 0 then ret [(r, None)]
      else e <- peek 8 extra ;; ret [(r, Some e)]
  | Env m' => fun _ => Ok ([], m')
  end.

Fixpoint run (cfg : config) (h : list op) : M (list result) :=
  match h with
  | [] => ret []
  | o :: h => r <- step cfg o ;; rs <- run cfg h ;; ret (r ++ rs)
  end.

(** *** The abstract machine: each context address has at most one stream. *)
Definition streams : Type := N -> option (N * N * list byte).
Definition set (a : streams) (c : N) (v : option (N * N * list byte)) : streams :=
  fun c' => if c' =? c then v else a c'.

Definition astep (cfg : config) (o : op) (a : streams) : list result * streams :=
  match o with
  | Init c x y => ([], set a c (Some (x, y, [])))
  | Update c _ data =>
      match a c with
      | Some (x, y, msg) => ([], set a c (Some (x, y, msg ++ data)))
      | None => ([], a)
      end
  | Final c _ extra =>
      match a c with
      | Some (x, y, msg) =>
          ([if extra =? 0 then (t1ha2_stream64 x y msg, None)
            else (fst (t1ha2_stream128 x y msg),
                  Some (native cfg 8 (snd (t1ha2_stream128 x y msg))))],
           set a c None)
      | None => ([], a)
      end
  | Env _ => ([], a)
  end.

Fixpoint arun (cfg : config) (h : list op) (a : streams) : list result * streams :=
  match h with
  | [] => ([], a)
  | o :: h => let '(r, a1) := astep cfg o a in
              let '(rs, a2) := arun cfg h a1 in (r ++ rs, a2)
  end.

(** *** What the caller has to respect *)
Definition apart (p n q k : N) : Prop := p + n <= q \/ q + k <= p.

(** one operation, in memory [m], with contexts at the addresses [cs] *)
Definition legal (cfg : config) (cs : list N) (o : op) (a : streams) (m : mem) : Prop :=
  match o with
  | Init c x y => In c cs /\ x < 2 ^ 64 /\ y < 2 ^ 64
  | Update c p data =>
      In c cs /\ a c <> None /\ chunk_ok cfg m c (p, data)
  | Final c bits extra =>
      In c cs /\ a c <> None /\
      (bits <> 0 /\ mapped m bits 8 /\ bits mod alignment cfg 8 = 0 /\ bits + 8 < addr_space cfg /\
       forall c', In c' cs -> apart c' (sizeof_ctx cfg) bits 8) /\
      (extra <> 0 -> mapped m extra 8 /\ extra mod alignment cfg 8 = 0 /\
       forall c', In c' cs -> apart c' (sizeof_ctx cfg) extra 8)
  | Env m' => forall c i, In c cs -> i < sizeof_ctx cfg -> m' (c + i) = m (c + i)
  end.

(** Every operation of the history is legal when the program gets to it. *)
Fixpoint legal_history (cfg : config) (cs : list N) (h : list op) (a : streams) (m : mem) : Prop :=
  match h with
  | [] => True
  | o :: h => legal cfg cs o a m /\
      forall r m', step cfg o m = Ok (r, m') -> legal_history cfg cs h (snd (astep cfg o a)) m'
  end.

(** The contexts are objects of their type and do not overlap. *)
Definition contexts_ok (cfg : config) (cs : list N) : Prop :=
  (forall c, In c cs -> ctx_ptr cfg c) /\
  (forall c c', In c cs -> In c' cs -> c <> c' -> apart c (sizeof_ctx cfg) c' (sizeof_ctx cfg)).

(** Memory represents the abstract streams. *)
Definition represents (cfg : config) (cs : list N) (a : streams) (m : mem) : Prop :=
  forall c, In c cs ->
    match a c with
    | Some (x, y, msg) => x < 2 ^ 64 /\ y < 2 ^ 64 /\ in_progress cfg m c x y msg
    | None => ctx_mapped cfg m c
    end.
