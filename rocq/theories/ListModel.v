(** Model of linked-list/sc_list.c and sc_list.h.
    Addresses are integers, NULL = 0; the heap maps an address to the two
    pointers of the [struct sc_list] living there, [None] where no initialised
    [struct sc_list] lives (dereferencing it is UB). *)
From Verif Require Import Base.

(** A pointer to a struct sc_list, linked-list/sc_list.h:40-43. *)
Definition node := Z.
(** The nodes: next and prev of each (linked-list/sc_list.h:40-43); None: not a node. *)
Definition mem := node -> option (node * node).

(** linked-list/sc_list.h:40-43: the field reads [p->next], [p->prev]. *)
Definition nxt (m : mem) (p : node) : res node := or_ub (option_map fst (m p)).
(** Read of p->prev, linked-list/sc_list.h:42. *)
Definition prv (m : mem) (p : node) : res node := or_ub (option_map snd (m p)).

(** linked-list/sc_list.h:40-43: the field writes. *)
Definition upd (m : mem) (p : node) (v : option (node * node)) : mem :=
  fun q => if q =? p then v else m q.
(** p->next = v, linked-list/sc_list.h:41. *)
Definition set_next (m : mem) (p v : node) : res mem :=
  match m p with Some (_, b) => Ok (upd m p (Some (v, b))) | None => UB end.
(** p->prev = v, linked-list/sc_list.h:42. *)
Definition set_prev (m : mem) (p v : node) : res mem :=
  match m p with Some (a, _) => Ok (upd m p (Some (a, v))) | None => UB end.

(** linked-list/sc_list.c:34-38 [sc_list_init]; the storage at [l] may be
    uninitialised before. *)
Definition list_init (m : mem) (l : node) : mem := upd m l (Some (l, l)).

(** linked-list/sc_list.c:162-170 [sc_list_del] (the list argument is unused). *)
Definition list_del (m : mem) (elem : node) : res mem :=
  (* 166: elem->prev->next = elem->next; *)
  let* p := prv m elem in
  let* n := nxt m elem in
  let* m := set_next m p n in
  (* 167: elem->next->prev = elem->prev; *)
  let* n := nxt m elem in
  let* p := prv m elem in
  let* m := set_prev m n p in
  (* 168-169 *)
  let* m := set_next m elem elem in
  set_prev m elem elem.

(** linked-list/sc_list.c:49-52 [sc_list_is_empty]. *)
Definition list_is_empty (m : mem) (l : node) : res bool :=
  let* n := nxt m l in Ok (n =? l).

(** linked-list/sc_list.c:66-69 [sc_list_head]; None = NULL. *)
Definition list_head (m : mem) (l : node) : res (option node) :=
  let* n := nxt m l in Ok (if n =? l then None else Some n).

(** linked-list/sc_list.c:71-74 [sc_list_tail]. *)
Definition list_tail (m : mem) (l : node) : res (option node) :=
  let* p := prv m l in Ok (if p =? l then None else Some p).

(** linked-list/sc_list.c:76-88 [sc_list_add_tail]. *)
Definition list_add_tail (m : mem) (l elem : node) : res mem :=
  let* m := list_del m elem in
  let* prev := prv m l in
  let* m := set_prev m l elem in
  let* m := set_next m elem l in
  let* m := set_prev m elem prev in
  set_next m prev elem.

(** linked-list/sc_list.c:103-115 [sc_list_add_head]. *)
Definition list_add_head (m : mem) (l elem : node) : res mem :=
  let* m := list_del m elem in
  let* next := nxt m l in
  let* m := set_next m l elem in
  let* m := set_prev m elem l in
  let* m := set_next m elem next in
  set_prev m next elem.

(** linked-list/sc_list.c:90-101 [sc_list_pop_tail]. *)
Definition list_pop_tail (m : mem) (l : node) : res (mem * option node) :=
  let* tail := prv m l in
  let* e := list_is_empty m l in
  if e then Ok (m, None)
  else
    let* p := prv m l in
    let* m := list_del m p in
    Ok (m, Some tail).

(** linked-list/sc_list.c:117-128 [sc_list_pop_head]. *)
Definition list_pop_head (m : mem) (l : node) : res (mem * option node) :=
  let* head := nxt m l in
  let* e := list_is_empty m l in
  if e then Ok (m, None)
  else
    let* n := nxt m l in
    let* m := list_del m n in
    Ok (m, Some head).

(** linked-list/sc_list.c:130-144 [sc_list_add_after] (list argument unused). *)
Definition list_add_after (m : mem) (prev elem : node) : res mem :=
  let* m := list_del m elem in
  let* next := nxt m prev in
  let* m := set_next m prev elem in
  let* m := set_next m elem next in
  let* m := set_prev m elem prev in
  set_prev m next elem.

(** linked-list/sc_list.c:146-160 [sc_list_add_before] (list argument unused). *)
Definition list_add_before (m : mem) (next elem : node) : res mem :=
  let* m := list_del m elem in
  let* prev := prv m next in
  let* m := set_prev m next elem in
  let* m := set_next m elem next in
  let* m := set_prev m elem prev in
  set_next m prev elem.

(** linked-list/sc_list.h:163-164 [sc_list_foreach] and 202-203
    [sc_list_foreach_r] ([step] = nxt or prv) around a body that does not
    modify the list; the body returns the new user state and "executed
    break".  Fuel bounds the number of iterations. *)
Fixpoint foreach_loop {S} (step : mem -> node -> res node) (fuel : nat) (m : mem) (l elem : node)
    (b : S -> node -> S * bool) (s : S) : res S :=
  match fuel with
  | O => Fuel
  | Datatypes.S f =>
      if elem =? l then Ok s
      else
        let (s', brk) := b s elem in
        if brk then Ok s' else
        let* e' := step m elem in foreach_loop step f m l e' b s'
  end.
(** linked-list/sc_list.h:163-164. *)
Definition list_foreach {S} (fuel : nat) (m : mem) (l : node) (b : S -> node -> S * bool) (s : S) : res S :=
  let* e := nxt m l in foreach_loop nxt fuel m l e b s.
(** linked-list/sc_list.h:202-203. *)
Definition list_foreach_r {S} (fuel : nat) (m : mem) (l : node) (b : S -> node -> S * bool) (s : S) : res S :=
  let* e := prv m l in foreach_loop prv fuel m l e b s.

(** linked-list/sc_list.c:54-64 [sc_list_count]. *)
Definition list_count (fuel : nat) (m : mem) (l : node) : res Z :=
  list_foreach fuel m l (fun c _ => (u64 (c + 1), false)) 0.

(** What a body of the _safe loops may do with the node it visits: keep it,
    delete it, or delete it and release (or reuse) its storage.
    (linked-list/sc_list.h:183-184, :225-226.) *)
Inductive action := Keep | Delete | DeleteFree.

(** linked-list/sc_list.h:183-185 [sc_list_foreach_safe] and 225-227
    [sc_list_foreach_safe_r].  [dec] is the body's decision for each node; the
    result is the final heap and the list of visited nodes. *)
Fixpoint safe_loop (step : mem -> node -> res node) (fuel : nat) (m : mem) (l elem n : node)
    (dec : node -> action) : res (mem * list node) :=
  match fuel with
  | O => Fuel
  | Datatypes.S f =>
      if elem =? l then Ok (m, [])
      else
        let* m := (match dec elem with
                   | Keep => Ok m
                   | Delete => list_del m elem
                   | DeleteFree => let* m := list_del m elem in Ok (upd m elem None)
                   end) in
        let elem' := n in
        let* n' := step m elem' in
        let* (m, vs) := safe_loop step f m l elem' n' dec in
        Ok (m, elem :: vs)
  end.
(** linked-list/sc_list.h:183-184. *)
Definition list_foreach_safe (fuel : nat) (m : mem) (l : node) (dec : node -> action) : res (mem * list node) :=
  let* e := nxt m l in let* n := nxt m e in safe_loop nxt fuel m l e n dec.
(** linked-list/sc_list.h:225-226. *)
Definition list_foreach_safe_r (fuel : nat) (m : mem) (l : node) (dec : node -> action) : res (mem * list node) :=
  let* e := prv m l in let* n := prv m e in safe_loop prv fuel m l e n dec.

(** linked-list/sc_list.c:40-47 [sc_list_clear]. *)
Definition list_clear (fuel : nat) (m : mem) (l : node) : res mem :=
  let* (m, _) := list_foreach_safe fuel m l (fun _ => Delete) in Ok m.

(** One API call or safe loop of the user's program.
    (linked-list/sc_list.c:34-176.) *)
Inductive lop :=
| Init (l : node) | AddHead (l x : node) | AddTail (l x : node)
| AddAfter (p x : node) | AddBefore (n x : node)
| PopHead (l : node) | PopTail (l : node) | Del (x : node) | Clear (l : node)
| ForeachSafe (l : node) (dec : node -> action) | ForeachSafeR (l : node) (dec : node -> action).

(** Dispatcher over the functions above; the returned list is the node given
    back by a pop (empty for NULL) or the nodes visited by a loop.  [fuel]
    bounds the loops.
    (linked-list/sc_list.c:34-176.) *)
Definition list_step (fuel : nat) (m : mem) (o : lop) : res (mem * list node) :=
  let noret (r : res mem) := let* m := r in Ok (m, []) in
  let optret (r : res (mem * option node)) :=
    let* (m, x) := r in Ok (m, match x with Some x => [x] | None => [] end) in
  match o with
  | Init l => Ok (list_init m l, [])
  | AddHead l x => noret (list_add_head m l x)
  | AddTail l x => noret (list_add_tail m l x)
  | AddAfter p x => noret (list_add_after m p x)
  | AddBefore n x => noret (list_add_before m n x)
  | PopHead l => optret (list_pop_head m l)
  | PopTail l => optret (list_pop_tail m l)
  | Del x => noret (list_del m x)
  | Clear l => noret (list_clear fuel m l)
  | ForeachSafe l dec => list_foreach_safe fuel m l dec
  | ForeachSafeR l dec => list_foreach_safe_r fuel m l dec
  end.
