(** Model of the loop map/sc_map.h:176-180 [sc_map_foreach] with a body that calls the map's functions.  The macro
    reads (map)->cap, (map)->mem and (map)->used anew for each item. *)
From Verif Require Import Base MapModel.

Section Model.
Context {K V : Type} (ko : keyops K) (vzero : V).
(** A loop body (the statement after the macro map/sc_map.h:176): the calls it makes for a key and value, and what
    becomes of the user's state after their results, with "executed break". *)
Record body (S : Type) := mk_body { b_calls : S -> K -> V -> list (mop K V); b_next : S -> K -> V -> list V -> S * bool }.
(** What happens: the body is entered with a key and value (map/sc_map.h:178), a call is made (map/sc_map.c:146-334) and
    fails or not. *)
Inductive lev := Visit (k : K) (v : V) | Did (o : mop K V) (fail : bool).
(** Only put fails (map/sc_map.c:222-225). *)
Definition call_failed (o : mop K V) (m : smap K V) : bool := match o with Put _ _ _ => oom m | _ => false end.
(** The calls of one execution of the body (map/sc_map.c:146-334). *)
Fixpoint calls_run (m : smap K V) (l : list (mop K V)) : res (smap K V * list V * list lev) :=
  match l with
  | [] => Ok (m, [], [])
  | o :: l =>
      let* (m, r) := map_step ko vzero m o in
      let e := Did o (call_failed o m) in
      let* (m, rs, es) := calls_run m l in Ok (m, r :: rs, e :: es)
  end.
(** map/sc_map.h:176-180 from [_i] = [i] on: the map, the state, what happened, and whether the loop ended
    by break. *)
Fixpoint map_loop {S} (fuel : nat) (b : body S) (i : Z) (m : smap K V) (s : S) : res (smap K V * S * list lev * bool) :=
  match fuel with
  | O => Fuel
  | Datatypes.S f =>
      if i <? cap m then
        let* x := if i =? -1 then Ok (zslot m) else zload (mem m) i in
        if ((i =? -1) && used m) || negb (ko.(isnull) (skey x)) then
          let* (m, rs, es) := calls_run m (b_calls _ b s (skey x) (sval x)) in
          let (s, brk) := b_next _ b s (skey x) (sval x) rs in
          if brk then Ok (m, s, Visit (skey x) (sval x) :: es, true)
          else
            let* (m, s, t, brk) := map_loop f b (i + 1) m s in
            Ok (m, s, (Visit (skey x) (sval x) :: es) ++ t, brk)
        else map_loop f b (i + 1) m s
      else Ok (m, s, [], false)
  end.
End Model.
Arguments mk_body {K V S}.
Arguments lev : clear implicits.
