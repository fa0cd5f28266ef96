(** Models of the loops of linked-list/sc_list.h:163-164, :183-185, :202-203 and :225-227 with a body that calls the functions
    of the list: the pointers are read again from the memory the body leaves. *)
From Verif Require Import Base ListModel.

(** The statement after one of the loops of linked-list/sc_list.h:163-227: given the nodes visited before and the node, the
    calls it makes and whether it then executes break.  Simplification: what the calls return does not influence the body. *)
Definition lbody := list node -> node -> list lop * bool.

(** The calls of one execution of the body (linked-list/sc_list.c:34-170); [f] bounds the loops inside the calls. *)
Definition l_calls (f : nat) (m : mem) (ops : list lop) : res mem :=
  foldM (fun m o => let* (m, _) := list_step f m o in Ok m) m ops.

(** linked-list/sc_list.h:41-42: the field the loop follows: next ([d] = true) or prev. *)
Definition l_step (d : bool) (m : mem) (p : node) : res node := if d then nxt m p else prv m p.

(** linked-list/sc_list.h:163-164 ([d] = true) and :202-203, from [elem] on: the memory and the nodes visited. *)
Fixpoint plain_loop (d : bool) (f fuel : nat) (m : mem) (l elem : node) (body : lbody) (seen : list node) : res (mem * list node) :=
  match fuel with
  | O => Fuel
  | S fuel =>
      if elem =? l then Ok (m, [])
      else
        let* m := l_calls f m (fst (body seen elem)) in
        if snd (body seen elem) then Ok (m, [elem])
        else
          let* elem' := l_step d m elem in
          let* (m, vs) := plain_loop d f fuel m l elem' body (seen ++ [elem]) in
          Ok (m, elem :: vs)
  end.
(** linked-list/sc_list.h:163-164 [sc_list_foreach] and :202-203 [sc_list_foreach_r]. *)
Definition list_plain_loop (d : bool) (f fuel : nat) (m : mem) (l : node) (body : lbody) : res (mem * list node) :=
  let* e := l_step d m l in plain_loop d f fuel m l e body [].

(** linked-list/sc_list.h:183-185 ([d] = true) and :225-227, from [elem] on with the stored neighbour [n]. *)
Fixpoint stored_loop (d : bool) (f fuel : nat) (m : mem) (l elem n : node) (body : lbody) (seen : list node) : res (mem * list node) :=
  match fuel with
  | O => Fuel
  | S fuel =>
      if elem =? l then Ok (m, [])
      else
        let* m := l_calls f m (fst (body seen elem)) in
        if snd (body seen elem) then Ok (m, [elem])
        else
          let* n' := l_step d m n in
          let* (m, vs) := stored_loop d f fuel m l n n' body (seen ++ [elem]) in
          Ok (m, elem :: vs)
  end.
(** linked-list/sc_list.h:183-185 [sc_list_foreach_safe] and :225-227 [sc_list_foreach_safe_r]. *)
Definition list_stored_loop (d : bool) (f fuel : nat) (m : mem) (l : node) (body : lbody) : res (mem * list node) :=
  let* e := l_step d m l in
  let* n := l_step d m e in
  stored_loop d f fuel m l e n body [].
