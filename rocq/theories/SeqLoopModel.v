(** Models of the loops array/sc_array.h:207-209 [sc_array_foreach] and queue/sc_queue.h:269-273 [sc_queue_foreach] with a
    body that calls the functions of the array or queue.  The macros read the size, the block, the last position and the
    capacity anew for each item.  The flag [_k] is replaced by its meaning, "the body executed break": that it means this
    is shown for the loops of ArrayModel and QueueModel (theorems array_foreach_visits and queue_foreach_visits). *)
From Verif Require Import Base ArrayModel QueueModel.

(** A loop body (the statement after array/sc_array.h:209 or queue/sc_queue.h:273): the calls it makes for an item, and what
    becomes of the user's state, with "executed break".  Simplification: the values returned by the calls do not influence
    the body. *)
Record sbody (A O S : Type) := mk_sbody { sb_calls : S -> A -> list O; sb_next : S -> A -> S * bool }.
Arguments mk_sbody {A O S}.
Arguments sb_calls {A O S}.
Arguments sb_next {A O S}.

Section Model.
Context {A S : Type}.
(** array/sc_array.h:207-209 from [_i] = [i] on: the array, the state, the items visited, and whether the loop ended by
    break.  [sz] = sizeof T. *)
Fixpoint arr_loop (sz : Z) (fuel : nat) (b : sbody A (op A) S) (i : Z) (a : arr A) (s : S) : res (arr A * S * list A * bool) :=
  match fuel with
  | O => Fuel
  | Datatypes.S f =>
      if i =? size a then Ok (a, s, [], false)
      else
        let* x := zread (elems a) i in
        let* a := foldM (arr_step sz) a (sb_calls b s x) in
        let (s, brk) := sb_next b s x in
        if brk then Ok (a, s, [x], true)
        else
          let* (a, s, t, brk) := arr_loop sz f b (u64 (i + 1)) a s in
          Ok (a, s, x :: t, brk)
  end.

(** The calls of one execution of the body of a queue loop (queue/sc_queue.h:143-261); what they return is not used. *)
Definition q_calls (zero : A) (q : queue A) (l : list (qop A)) : res (queue A) :=
  foldM (fun q o => let* (q, _) := q_step zero q o in Ok q) q l.

(** queue/sc_queue.h:269-273 from [_i] = [i] on, likewise; [zero] as in [q_step]. *)
Fixpoint q_loop (zero : A) (fuel : nat) (b : sbody A (qop A) S) (i : Z) (q : queue A) (s : S) : res (queue A * S * list A * bool) :=
  match fuel with
  | O => Fuel
  | Datatypes.S f =>
      if i =? qlast q then Ok (q, s, [], false)
      else
        let* x := zload (qelems q) i in
        let* q := q_calls zero q (sb_calls b s x) in
        let (s, brk) := sb_next b s x in
        if brk then Ok (q, s, [x], true)
        else
          let* (q, s, t, brk) := q_loop zero f b (q_next q i) q s in
          Ok (q, s, x :: t, brk)
  end.
End Model.
