(** Model of what the macros of array/sc_array.h, queue/sc_queue.h and sc/sc.h do with
    arguments that are more than a value: expressions that read or change the
    container itself, variables of the caller, and arguments with side effects.
    A macro pastes its argument: it is evaluated where it stands in the body, in
    the scope and in the state of that place. *)
From Coq Require Import String.
From Verif Require Import Base ArrayModel QueueModel.
Local Open Scope string_scope.
Local Open Scope list_scope.
Local Open Scope Z_scope.

Section Queue.
Context {A : Type}.

(** An element argument of queue/sc_queue.h:206 and :231: a value, or one of the
    macros of queue/sc_queue.h:137, :186, :192, :198, :222, :255 on the same queue. *)
Inductive qexpr := Value (x : A) | At (i : Z) | PeekFirst | PeekLast | Size (f : Z -> A) | PopFirst | PopLast.
(** The argument evaluated on [q] (queue/sc_queue.h:137, :186, :192, :198, :222-223, :255-256). *)
Definition q_eval (q : queue A) (e : qexpr) : res (queue A * A) :=
  match e with
  | Value x => Ok (q, x)
  | At i => let* x := q_at q i in Ok (q, x)
  | PeekFirst => let* x := q_peek_first q in Ok (q, x)
  | PeekLast => let* x := q_peek_last q in Ok (q, x)
  | Size f => Ok (q, f (q_size q))
  | PopFirst => q_del_first q
  | PopLast => q_del_last q
  end.
(** queue/sc_queue.h:206-215 [sc_queue_add_last(q, elem)], with the assignment of :213,
    (q)->elems[(q)->last] = elem.  sc_queue_del_last assigns (q)->last unsequenced
    to its use on the left, which is undefined (ISO C 6.5p2).  sc_queue_del_first
    changes (q)->first inside a function, which the left side does not use. *)
Definition q_add_last_arg (zero : A) (q : queue A) (e : qexpr) (ok : bool) : res (queue A) :=
  let* q := q_expand zero q ok in
  if qoom q then Ok q
  else match e with
       | PopLast => UB
       | _ =>
           let* (q, x) := q_eval q e in
           let* l := zput (qelems q) (qlast q) x in
           Ok (mk_q false (qcap q) (qfirst q) (mask (qlast q + 1) (qcap q)) l)
       end.
(** queue/sc_queue.h:231-240 [sc_queue_add_first(q, elem)]: (q)->first is moved (:238)
    before the assignment of :239, (q)->elems[(q)->first] = elem.  For
    sc_queue_del_first the call of sc_queue_inc_first comes before or after the
    reading of (q)->first on the left, the compiler decides: [left] = the left
    side comes first. *)
Definition q_add_first_arg (zero : A) (q : queue A) (e : qexpr) (ok left : bool) : res (queue A) :=
  let* q := q_expand zero q ok in
  if qoom q then Ok q
  else
    let first := mask (qfirst q - 1) (qcap q) in
    let q := mk_q false (qcap q) first (qlast q) (qelems q) in
    let* (q, x) := q_eval q e in
    let* l := zput (qelems q) (if left then first else qfirst q) x in
    Ok (mk_q false (qcap q) (qfirst q) (qlast q) l).
End Queue.
Arguments qexpr : clear implicits.

(** Variables in scope: the value, None if it was never set (for array/sc_array.h:89-177,
    sc/sc.h:40-41). *)
Definition scope := string -> option Z.
(** A declaration or an assignment in the innermost scope (array/sc_array.h:91-94, :151,
    :174). *)
Definition declare (s : scope) (v : string) (x : option Z) : scope := fun w => if String.eqb w v then x else s w.

Section Array.
Context {A : Type}.
(** An element argument of array/sc_array.h:89: a value, sc_array_at(a, i) (:137),
    sc_array_last(a) (:201), something computed from sc_array_size(a) (:143) or from a
    variable of the caller. *)
Inductive aexpr := AValue (x : A) | AAt (i : Z) | ALast | ASize (f : Z -> A) | AVar (v : string) (f : Z -> A).
(** The argument evaluated in array/sc_array.h:110, (a)->elems[(a)->size++] = k: what reads
    (a)->size is unsequenced to its increment, which is undefined (ISO C 6.5p2);
    so is reading a variable that was never set. *)
Definition a_eval (s : scope) (a : arr A) (e : aexpr) : res A :=
  match e with
  | AValue x => Ok x
  | AAt i => arr_at a i
  | ALast | ASize _ => UB
  | AVar v f => let* x := or_ub (s v) in Ok (f x)
  end.
(** array/sc_array.h:89-112 [sc_array_add(a, k)].  The block of the macro declares _max, _cap
    and _p (:91-94), which hide variables of the same names; [p] is the address
    realloc gives. *)
Definition arr_add_arg (sz : Z) (s : scope) (a : arr A) (e : aexpr) (ok : bool) (p : Z) : res (arr A) :=
  let max := arr_max / sz in
  let s := declare (declare (declare s "_max" (Some max)) "_cap" None) "_p" None in
  let store (s : scope) (a : arr A) :=
    let* k := a_eval s a e in
    let* l := zput (elems a) (size a) (Some k) in
    Ok (mk_arr false (cap a) (u64 (size a + 1)) l) in
  if cap a =? size a then
    if max / 2 <? cap a then Ok (mk_arr true (cap a) (size a) (elems a))
    else
      let cap' := if cap a =? 0 then 8 else u64 (cap a * 2) in
      if ok then
        store (declare (declare s "_cap" (Some cap')) "_p" (Some p))
          (mk_arr (oom a) cap' (size a) (realloc_block (elems a) (u64 (cap' * sz)) sz))
      else Ok (mk_arr true (cap a) (size a) (elems a))
  else store s a.
End Array.
Arguments aexpr : clear implicits.

(** An integer argument, of array/sc_array.h:149, :172 or sc/sc.h:40-41: a number, a variable
    plus a number, v++. *)
Inductive iexpr := Num (x : Z) | Plus (v : string) (c : Z) | Incr (v : string).
(** The argument evaluated (array/sc_array.h:151, :174, sc/sc.h:40-41).  Integers are
    not bounded. *)
Definition i_eval (s : scope) (e : iexpr) : res (scope * Z) :=
  match e with
  | Num x => Ok (s, x)
  | Plus v c => let* x := or_ub (s v) in Ok (s, x + c)
  | Incr v => let* x := or_ub (s v) in Ok (declare s v (Some (x + 1)), x)
  end.
(** array/sc_array.h:149-161 [sc_array_del(a, i)], :172-177 [sc_array_del_unordered(a, i)]
    ([un]): in size_t idx = (i); the new variable is already in scope (ISO C
    6.2.1p7) and not set.  The scope after the macro is the caller's again. *)
Definition arr_del_arg {A} (un : bool) (s : scope) (a : arr A) (e : iexpr) : res (scope * arr A) :=
  let* (s', i) := i_eval (declare s "idx" None) e in
  let* a := (if un then arr_del_unordered a i else arr_del a i) in
  Ok (declare s' "idx" (s "idx"), a).
(** Whether an argument uses the variable [v] (for sc/sc.h:40-41). *)
Definition uses (e : iexpr) (v : string) : bool := match e with Num _ => false | Plus w _ | Incr w => String.eqb w v end.
(** In (a) > (b) of sc/sc.h:40-41 one operand changes a variable the other uses: undefined
    (ISO C 6.5p2). *)
Definition clash (e1 e2 : iexpr) : bool :=
  match e1, e2 with
  | Incr v, _ => uses e2 v
  | _, Incr v => uses e1 v
  | _, _ => false
  end.
(** sc/sc.h:40 [sc_max], :41 [sc_min] ([least]): (((a) > (b)) ? (a) : (b)) evaluates the one
    it chooses again. *)
Definition pick (least : bool) (s : scope) (e1 e2 : iexpr) : res (scope * Z) :=
  if clash e1 e2 then UB
  else
    let* (s, x) := i_eval s e1 in
    let* (s, y) := i_eval s e2 in
    if y <? x then i_eval s (if least then e2 else e1) else i_eval s (if least then e1 else e2).
