(** Model of queue/sc_queue.h (64-bit size_t). *)
From Verif Require Import Base.

Section Queue.
Context {A : Type}.

(** queue/sc_queue.h:55-63 [struct sc_queue_##name]; [qelems] is the block
    behind the pointer (empty block = NULL). *)
Record queue := mk_q { qoom : bool; qcap : Z; qfirst : Z; qlast : Z; qelems : list A }.

(** Masking with the capacity, [x & (cap - 1)] on size_t (used at
    queue/sc_queue.h:68, 137, 174, 186, 198, 214, 223, 238, 246). *)
Definition mask (x cap : Z) : Z := Z.land (u64 x) (u64 (cap - 1)).

(** queue/sc_queue.h:101-111 [sc_queue_init]: calloc of 8 slots; [zero] is
    the all-zero value of the element type, [ok] the outcome of calloc. *)
Definition q_init (zero : A) (ok : bool) : queue :=
  if ok then mk_q false 8 0 0 (repeat zero 8) else mk_q true 8 0 0 [].

(** queue/sc_queue.h:117-125 [sc_queue_term] (release not tracked). *)
Definition q_term (q : queue) : queue := mk_q false 0 0 0 [].

(** queue/sc_queue.h:65-95 [sc_queue_expand].  The two memcpy calls (86, 87)
    copy [first, cap) then [0, first) to the start of the new block; they are
    modelled on slots instead of bytes; UB if the old block is shorter. *)
Definition q_expand (zero : A) (q : queue) (ok : bool) : res queue :=
  let pos := mask (qlast q + 1) (qcap q) in
  if pos =? qfirst q then
    if (2^64 - 1) / 2 <? qcap q then Ok (mk_q true (qcap q) (qfirst q) (qlast q) (qelems q))
    else if ok then
      if zlen (qelems q) <? qcap q then UB
      else
        let cap' := u64 (qcap q * 2) in
        let live := firstn (Z.to_nat (qcap q)) (qelems q) in
        let dst := skipn (Z.to_nat (qfirst q)) live ++ firstn (Z.to_nat (qfirst q)) live
                   ++ repeat zero (Z.to_nat (cap' - qcap q)) in
        Ok (mk_q false cap' 0 (u64 (qcap q - 1)) dst)
    else Ok (mk_q true (qcap q) (qfirst q) (qlast q) (qelems q))
  else Ok q.

(** queue/sc_queue.h:131 [sc_queue_oom]. *)
Definition q_oom (q : queue) : bool := qoom q.

(** queue/sc_queue.h:137 [sc_queue_size]. *)
Definition q_size (q : queue) : Z := mask (qlast q - qfirst q) (qcap q).

(** queue/sc_queue.h:143-148 [sc_queue_clear]. *)
Definition q_clear (q : queue) : queue := mk_q false (qcap q) 0 0 (qelems q).

(** queue/sc_queue.h:154 [sc_queue_empty]. *)
Definition q_empty (q : queue) : bool := qlast q =? qfirst q.

(** queue/sc_queue.h:174 [sc_queue_next]. *)
Definition q_next (q : queue) (i : Z) : Z := mask (i + 1) (qcap q).

(** queue/sc_queue.h:186 [sc_queue_at]. *)
Definition q_at (q : queue) (i : Z) : res A := zload (qelems q) (mask (qfirst q + i) (qcap q)).

(** queue/sc_queue.h:192 [sc_queue_peek_first]. *)
Definition q_peek_first (q : queue) : res A := zload (qelems q) (qfirst q).

(** queue/sc_queue.h:198 [sc_queue_peek_last]. *)
Definition q_peek_last (q : queue) : res A := zload (qelems q) (mask (qlast q - 1) (qcap q)).

(** queue/sc_queue.h:206-215 [sc_queue_add_last]. *)
Definition q_add_last (zero : A) (q : queue) (x : A) (ok : bool) : res queue :=
  let* q := q_expand zero q ok in
  if qoom q then Ok q
  else
    let* e := zput (qelems q) (qlast q) x in
    Ok (mk_q false (qcap q) (qfirst q) (mask (qlast q + 1) (qcap q)) e).

(** queue/sc_queue.h:222-223 [sc_queue_del_last]: (queue, deleted value). *)
Definition q_del_last (q : queue) : res (queue * A) :=
  let last := mask (qlast q - 1) (qcap q) in
  let* v := zload (qelems q) last in
  Ok (mk_q (qoom q) (qcap q) (qfirst q) last (qelems q), v).

(** queue/sc_queue.h:231-240 [sc_queue_add_first]. *)
Definition q_add_first (zero : A) (q : queue) (x : A) (ok : bool) : res queue :=
  let* q := q_expand zero q ok in
  if qoom q then Ok q
  else
    let first := mask (qfirst q - 1) (qcap q) in
    let* e := zput (qelems q) first x in
    Ok (mk_q false (qcap q) first (qlast q) e).

(** queue/sc_queue.h:242-256 [sc_queue_inc_first], [sc_queue_del_first]. *)
Definition q_del_first (q : queue) : res (queue * A) :=
  let* v := zload (qelems q) (qfirst q) in
  Ok (mk_q (qoom q) (qcap q) (mask (qfirst q + 1) (qcap q)) (qlast q) (qelems q), v).

(** queue/sc_queue.h:273 inner loop of [sc_queue_foreach]; bodies as in
    ArrayModel: state transformer plus "executed break". *)
Fixpoint qforeach_inner {S} (fuel : nat) (b : S -> A -> S * bool) (x : A) (k : bool) (s : S) : res (S * bool) :=
  match fuel with
  | O => Fuel
  | Datatypes.S f =>
      if k then
        let (s', brk) := b s x in
        if brk then Ok (s', k) else qforeach_inner f b x (negb k) s'
      else Ok (s, k)
  end.

(** queue/sc_queue.h:269-273 outer loop of [sc_queue_foreach]. *)
Fixpoint qforeach_outer {S} (fuel : nat) (b : S -> A -> S * bool) (q : queue) (k : bool) (i : Z) (s : S) : res S :=
  match fuel with
  | O => Fuel
  | Datatypes.S f =>
      if k && negb (i =? qlast q) then
        let* x := zload (qelems q) i in
        let* (s', k') := qforeach_inner 2 b x k s in
        qforeach_outer f b q (negb k') (q_next q i) s'
      else Ok s
  end.

(** The whole foreach; the fuel is generous (theorems show it suffices).
    Simplification: the body does not modify the queue.
    (queue/sc_queue.h:269-275.) *)
Definition q_foreach {S} (b : S -> A -> S * bool) (q : queue) (s : S) : res S :=
  qforeach_outer (Datatypes.S (Datatypes.S (Z.to_nat (q_size q)))) b q true (qfirst q) s.

(** One API call (the user's program).
    (queue/sc_queue.h:143-261.) *)
Inductive qop := AddLast (x : A) (ok : bool) | AddFirst (x : A) (ok : bool)
               | DelLast | DelFirst | Clear.

(** Dispatcher; the second component is the value returned by deletions.
    (queue/sc_queue.h:143-261.) *)
Definition q_step (zero : A) (q : queue) (o : qop) : res (queue * option A) :=
  match o with
  | AddLast x ok => let* q' := q_add_last zero q x ok in Ok (q', None)
  | AddFirst x ok => let* q' := q_add_first zero q x ok in Ok (q', None)
  | DelLast => let* (q', v) := q_del_last q in Ok (q', Some v)
  | DelFirst => let* (q', v) := q_del_first q in Ok (q', Some v)
  | Clear => Ok (q_clear q, None)
  end.
End Queue.
Arguments queue : clear implicits.
Arguments qop : clear implicits.
