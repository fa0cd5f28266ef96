(** Model of the maps with string keys (map/sc_map.c:409-412) with a memory of strings that the user releases and reuses:
    every read of a key's characters is explicit, and reading a released string is UB. *)
From Verif Require Import Base MapModel.

(** The characters of the C string at an address (the argument of strcmp and murmurhash, map/sc_map.c:352 and :394); None:
    no string there, for example because it was released.  NULL is 0. *)
Definition strs := Z -> option (list Z).
(** Reading the string at [p] (map/sc_map.c:355, :394). *)
Definition rd (c : strs) (p : Z) : res (list Z) := or_ub (c p).

Section Model.
Context {V : Type} (vzero : V).

(** map/sc_map.c:41-45 [sc_map_cmp], string keys: strcmp is called only if the hashes agree. *)
Definition sk_cmp (c : strs) (t : slot Z V) (k h : Z) : res bool :=
  if shash t =? h then
    let* a := rd c (skey t) in
    let* b := rd c k in
    Ok (bytes_eqb a b)
  else Ok false.

(** map/sc_map.c:231-247, :270-281, :302-308: the probe loops of put, get and del. *)
Fixpoint sk_probe (c : strs) (fuel : nat) (t : list (slot Z V)) (mod_ pos k h : Z) : res (Z * slot Z V) :=
  match fuel with
  | O => Fuel
  | S f =>
      let* x := zload t pos in
      if skey x =? 0 then Ok (pos, x)
      else
        let* e := sk_cmp c x k h in
        if e then Ok (pos, x)
        else sk_probe c f t mod_ (Z.land (u32 (pos + 1)) mod_) k h
  end.

(** What the parts of the map that read no characters need (map/sc_map.c:47-58: stored hash, key compared with 0): rehashing
    (map/sc_map.c:171-213) and the back-shift of del (:318-334) use the stored hashes only, so the string function here is
    never used by them. *)
Definition sk_ops : keyops Z := ops_str (fun _ => []).

(** map/sc_map.c:215-256 [sc_map_put]. *)
Definition sk_put (c : strs) (m : smap Z V) (k : Z) (v : V) (ok : bool) : res (smap Z V * V) :=
  let m := mk_map (mem m) (zslot m) (static m) (cap m) (size m) (load_fac m) (remap m) (used m) false (found m) in
  let* r := map_remap sk_ops vzero m ok in
  match r with
  | None =>
      Ok (mk_map (mem m) (zslot m) (static m) (cap m) (size m) (load_fac m) (remap m) (used m) true (found m), vzero)
  | Some m =>
      if k =? 0 then
        if static m then UB else
        let ret := if used m then sval (zslot m) else vzero in
        Ok (mk_map (mem m) (mk_slot (skey (zslot m)) v (shash (zslot m))) (static m) (cap m)
              (u32 (size m + (if used m then 0 else 1))) (load_fac m) (remap m) true (oom m) (used m), ret)
      else
        let mod_ := u32 (cap m - 1) in
        let* s := rd c k in
        let h := murmurhash s in
        let* (pos, x) := sk_probe c (pfuel m) (mem m) mod_ (Z.land h mod_) k h in
        let empty := skey x =? 0 in
        let sz := if empty then u32 (size m + 1) else size m in
        let ret := if empty then vzero else sval x in
        let* t := write_slot m pos (mk_slot k v h) in
        Ok (mk_map t (zslot m) (static m) (cap m) sz (load_fac m) (remap m) (used m) (oom m) (negb empty), ret)
  end.

(** map/sc_map.c:258-283 [sc_map_get]. *)
Definition sk_get (c : strs) (m : smap Z V) (k : Z) : res (smap Z V * V) :=
  let mod_ := u32 (cap m - 1) in
  if k =? 0 then Ok (set_found m (used m), if used m then sval (zslot m) else vzero)
  else
    let* s := rd c k in
    let h := murmurhash s in
    let* (pos, x) := sk_probe c (pfuel m) (mem m) mod_ (Z.land h mod_) k h in
    if skey x =? 0 then Ok (set_found m false, vzero) else Ok (set_found m true, sval x).

(** map/sc_map.c:286-339 [sc_map_del]. *)
Definition sk_del (c : strs) (m : smap Z V) (k : Z) : res (smap Z V * V) :=
  let mod_ := u32 (cap m - 1) in
  if k =? 0 then
    Ok (mk_map (mem m) (zslot m) (static m) (cap m) (u32 (size m - (if used m then 1 else 0)))
          (load_fac m) (remap m) false (oom m) (used m), if used m then sval (zslot m) else vzero)
  else
    let* s := rd c k in
    let h := murmurhash s in
    let* (pos, x) := sk_probe c (pfuel m) (mem m) mod_ (Z.land h mod_) k h in
    if skey x =? 0 then Ok (set_found m false, vzero)
    else
      let* t := write_slot m pos (mk_slot 0 (sval x) (shash x)) in
      let* t := backshift sk_ops (pfuel m) t mod_ pos pos in
      Ok (mk_map t (zslot m) (static m) (cap m) (u32 (size m - 1)) (load_fac m) (remap m) (used m) (oom m) true, sval x).

(** One call (map/sc_map.c:146-339) made while the strings are [c]. *)
Definition sk_step (c : strs) (m : smap Z V) (o : mop Z V) : res (smap Z V * V) :=
  match o with
  | Put k v ok => sk_put c m k v ok
  | Get k => sk_get c m k
  | Del k => sk_del c m k
  | Clear => let* m := map_clear sk_ops m in Ok (m, vzero)
  | Term => Ok (map_term sk_ops vzero m, vzero)
  end.
End Model.
