(** Model of map/sc_map.c and sc_map.h (the code generated by
    [sc_map_def_scalar] and [sc_map_def_strkey]). *)
From Verif Require Import Base.
From Coq Require Import SpecFloat.

(** map/sc_map.c:36-38. *)
Definition SC_MAP_MAX : Z := 2^32 - 1.

(** The macro parameters K, cmp and hash_fn (map/sc_map.c:40, 62): the value 0
    / NULL of the key type, the comparison and the hash.  [strk] selects the
    string-key variant, which stores the hash in the item (map/sc_map.c:40-60)
    instead of recomputing it (62-83). *)
Record keyops (K : Type) := mk_keyops {
  knull : K; isnull : K -> bool; keq : K -> K -> bool; hashk : K -> Z; strk : bool }.
Arguments mk_keyops {K}. Arguments knull {K}. Arguments isnull {K}.
Arguments keq {K}. Arguments hashk {K}. Arguments strk {K}.

Section Model.
Context {K V : Type} (ko : keyops K) (vzero : V).

(** map/sc_map.h:49-64 [struct sc_map_item]; the scalar variant has no hash
    field (the model carries one and never reads it there). *)
Record slot := mk_slot { skey : K; sval : V; shash : Z }.

(** map/sc_map.h:67-77 [struct sc_map].  [mem] is the table, [zslot] is
    mem[-1], [static] says mem points to the shared constant table
    (map/sc_map.c:87-91), which must not be written. *)
Record smap := mk_map {
  mem : list slot; zslot : slot; static : bool;
  cap : Z; size : Z; load_fac : Z; remap : Z; used : bool; oom : bool; found : bool }.

(** Zero-initialised item (calloc, static storage).
    (map/sc_map.c:87, :111.) *)
Definition slot0 : slot := mk_slot (ko.(knull)) vzero 0.

(** map/sc_map.c:87-91 [sc_map_empty]. *)
Definition map_empty : smap :=
  mk_map [slot0] slot0 true 1 0 0 0 false false false.

(** map/sc_map.c:41-45 and 63-68 [sc_map_cmp]. *)
Definition map_cmp (t : slot) (k : K) (hash : Z) : bool :=
  if ko.(strk) then (shash t =? hash) && ko.(keq) (skey t) k else ko.(keq) (skey t) k.

(** map/sc_map.c:47-53 and 70-76 [sc_map_assign]. *)
Definition map_assign (t : slot) (k : K) (v : V) (hash : Z) : slot :=
  mk_slot k v (if ko.(strk) then hash else shash t).

(** map/sc_map.c:55-58 and 78-81 [sc_map_hashof]. *)
Definition map_hashof (t : slot) : Z :=
  if ko.(strk) then shash t else ko.(hashk) (skey t).

(** map/sc_map.c:102-108: the shift-or loop for the next power of two on
    uint32_t. *)
Definition next_pow2_32 (v : Z) : Z :=
  let v := u32 (v - 1) in
  let v := fold_left (fun v i => Z.lor v (Z.shiftr v i)) [1; 2; 4; 8; 16] v in
  u32 (v + 1).

(** map/sc_map.c:93-113 [sc_map_alloc]; [ok] is calloc's outcome.  Result:
    new capacity and zeroed table. *)
Definition map_alloc (c factor : Z) (ok : bool) : option (Z * list slot) :=
  if SC_MAP_MAX / factor <? c then None
  else
    let v := next_pow2_32 (if c <? 8 then 8 else u32 (c * factor)) in
    if ok then Some (v, repeat slot0 (Z.to_nat v)) else None.

(** map/sc_map.c:138-139 and 208-209:
    (uint32_t) (m->cap * ((double) m->load_fac / 100)), in IEEE binary64. *)
Definition dbl (z : Z) : spec_float := binary_normalize 53 1024 z 0 false.
(** (uint32_t) of a double, map/sc_map.c:141. *)
Definition dbl_trunc (f : spec_float) : Z :=
  match f with
  | S754_finite s m e =>
      let a := if 0 <=? e then Z.shiftl (Zpos m) e else Z.shiftr (Zpos m) (- e) in
      if s then - a else a
  | _ => 0
  end.
(** map/sc_map.c:141: (uint32_t) (cap * ((double) load_fac / 100)). *)
Definition map_threshold (c lf : Z) : Z :=
  u32 (dbl_trunc (SFmul 53 1024 (dbl c) (SFdiv 53 1024 (dbl lf) (dbl 100)))).

(** map/sc_map.c:115-144 [sc_map_init].  [g] is the previous (arbitrary)
    content of the struct: with cap > 0 the oom and found fields are not
    written. *)
Definition map_init (g : smap) (c lf : Z) (ok : bool) : option smap :=
  let f := if lf =? 0 then 75 else lf in
  if (95 <? f) || (f <? 25) then None
  else if c =? 0 then
    Some (mk_map [slot0] slot0 true 1 0 f 0 false false false)
  else
    match map_alloc c 1 ok with
    | None => None
    | Some (c', t) =>
        Some (mk_map t slot0 false c' 0 f (map_threshold c' f) false (oom g) (found g))
    end.

(** map/sc_map.c:146-152 [sc_map_term]. *)
Definition map_term (m : smap) : smap := if static m then m else map_empty.

(** map/sc_map.c:154-157 [sc_map_size]. *)
Definition map_size (m : smap) : Z := size m.

(** Write of one table item: the constant table must not be written.
    (map/sc_map.c:87.) *)
Definition write_slot (m : smap) (i : Z) (s : slot) : res (list slot) :=
  if static m then UB else zput (mem m) i s.

(** map/sc_map.c:159-169 [sc_map_clear]; the loop stores key 0 in every item. *)
Definition map_clear (m : smap) : res smap :=
  if 0 <? size m then
    if static m then UB
    else if negb (cap m =? zlen (mem m)) then UB
    else Ok (mk_map (map (fun s => mk_slot ko.(knull) (sval s) (shash s)) (mem m))
               (zslot m) false (cap m) 0 (load_fac m) (remap m) false (oom m) (found m))
  else Ok m.

(** map/sc_map.c:192-199: probe for an empty item and store [s] there. *)
Fixpoint place (fuel : nat) (t : list slot) (mod_ pos : Z) (s : slot) : res (list slot) :=
  match fuel with
  | O => Fuel
  | S f =>
      let* x := zload t pos in
      if ko.(isnull) (skey x) then zput t pos s
      else place f t mod_ (Z.land (u32 (pos + 1)) mod_) s
  end.

(** map/sc_map.c:171-213 [sc_map_remap]; None = allocation failed.  The loop
    188-202 runs over the items in order. *)
Definition map_remap (m : smap) (ok : bool) : res (option smap) :=
  if size m <? remap m then Ok (Some m)
  else
    match map_alloc (cap m) 2 ok with
    | None => Ok None
    | Some (c, new) =>
        let mod_ := u32 (c - 1) in
        if negb (cap m =? zlen (mem m)) then UB else
        let* t := foldM (fun t s =>
                    if ko.(isnull) (skey s) then Ok t
                    else place (S (Z.to_nat c)) t mod_ (Z.land (map_hashof s) mod_) s)
                  new (mem m) in
        Ok (Some (mk_map t (if static m then slot0 else zslot m) false c (size m)
                   (load_fac m) (map_threshold c (load_fac m)) (used m) (oom m) (found m)))
    end.

(** map/sc_map.c:231-247, :270-281, :302-308, the probe loops of put, get and del: index of
    the first item that is empty or has the key. *)
Fixpoint probe (fuel : nat) (t : list slot) (mod_ pos : Z) (k : K) (h : Z) : res (Z * slot) :=
  match fuel with
  | O => Fuel
  | S f =>
      let* x := zload t pos in
      if ko.(isnull) (skey x) then Ok (pos, x)
      else if map_cmp x k h then Ok (pos, x)
      else probe f t mod_ (Z.land (u32 (pos + 1)) mod_) k h
  end.

(** Enough rounds for the loops of map/sc_map.c:231-247, :270-281, :302-308. *)
Definition pfuel (m : smap) : nat := S (length (mem m)).

(** map/sc_map.c:215-256 [sc_map_put]. *)
Definition map_put (m : smap) (k : K) (v : V) (ok : bool) : res (smap * V) :=
  let m := mk_map (mem m) (zslot m) (static m) (cap m) (size m) (load_fac m) (remap m)
             (used m) false (found m) in
  let* r := map_remap m ok in
  match r with
  | None =>
      Ok (mk_map (mem m) (zslot m) (static m) (cap m) (size m) (load_fac m) (remap m)
            (used m) true (found m), vzero)
  | Some m =>
      if ko.(isnull) k then
        if static m then UB else
        let ret := if used m then sval (zslot m) else vzero in
        Ok (mk_map (mem m) (mk_slot (skey (zslot m)) v (shash (zslot m))) (static m) (cap m)
              (u32 (size m + (if used m then 0 else 1))) (load_fac m) (remap m)
              true (oom m) (used m), ret)
      else
        let mod_ := u32 (cap m - 1) in
        let h := ko.(hashk) k in
        let* (pos, x) := probe (pfuel m) (mem m) mod_ (Z.land h mod_) k h in
        let empty := ko.(isnull) (skey x) in
        let sz := if empty then u32 (size m + 1) else size m in
        let ret := if empty then vzero else sval x in
        let* t := write_slot m pos (map_assign x k v h) in
        Ok (mk_map t (zslot m) (static m) (cap m) sz (load_fac m) (remap m)
              (used m) (oom m) (negb empty), ret)
  end.

(** m->found = f, map/sc_map.c:229-312. *)
Definition set_found (m : smap) (f : bool) : smap :=
  mk_map (mem m) (zslot m) (static m) (cap m) (size m) (load_fac m) (remap m) (used m) (oom m) f.

(** map/sc_map.c:258-283 [sc_map_get]. *)
Definition map_get (m : smap) (k : K) : res (smap * V) :=
  let mod_ := u32 (cap m - 1) in
  if ko.(isnull) k then
    Ok (set_found m (used m), if used m then sval (zslot m) else vzero)
  else
    let h := ko.(hashk) k in
    let* (pos, x) := probe (pfuel m) (mem m) mod_ (Z.land h mod_) k h in
    if ko.(isnull) (skey x) then Ok (set_found m false, vzero)
    else Ok (set_found m true, sval x).

(** map/sc_map.c:318-334: the back-shift loop of del. *)
Fixpoint backshift (fuel : nat) (t : list slot) (mod_ prev it : Z) : res (list slot) :=
  match fuel with
  | O => Fuel
  | S f =>
      let it := Z.land (u32 (it + 1)) mod_ in
      let* x := zload t it in
      if ko.(isnull) (skey x) then Ok t
      else
        let p := Z.land (map_hashof x) mod_ in
        if ((it <? p) && ((p <=? prev) || (prev <=? it))) || ((p <=? prev) && (prev <=? it)) then
          let* t := zput t prev x in
          let* t := zput t it (mk_slot ko.(knull) (sval x) (shash x)) in
          backshift f t mod_ it it
        else backshift f t mod_ prev it
  end.

(** map/sc_map.c:286-339 [sc_map_del]. *)
Definition map_del (m : smap) (k : K) : res (smap * V) :=
  let mod_ := u32 (cap m - 1) in
  if ko.(isnull) k then
    Ok (mk_map (mem m) (zslot m) (static m) (cap m) (u32 (size m - (if used m then 1 else 0)))
          (load_fac m) (remap m) false (oom m) (used m),
        if used m then sval (zslot m) else vzero)
  else
    let h := ko.(hashk) k in
    let* (pos, x) := probe (pfuel m) (mem m) mod_ (Z.land h mod_) k h in
    if ko.(isnull) (skey x) then Ok (set_found m false, vzero)
    else
      let* t := write_slot m pos (mk_slot ko.(knull) (sval x) (shash x)) in
      let* t := backshift (pfuel m) t mod_ pos pos in
      Ok (mk_map t (zslot m) (static m) (cap m) (u32 (size m - 1)) (load_fac m) (remap m)
            (used m) (oom m) true, sval x).

(** map/sc_map.h:176-180 [sc_map_foreach]: visits mem[-1] (when [used] or its key is not
    0) and then mem[0..cap).  The body returns the new user state and
    "executed break"; it does not modify the map. *)
Fixpoint foreach_slots {S} (ts : list slot) (b : S -> K -> V -> S * bool) (s : S) : S :=
  match ts with
  | [] => s
  | x :: rest =>
      if negb (ko.(isnull) (skey x)) then
        let (s', brk) := b s (skey x) (sval x) in
        if brk then s' else foreach_slots rest b s'
      else foreach_slots rest b s
  end.
(** map/sc_map.h:176-184. *)
Definition map_foreach {S} (m : smap) (b : S -> K -> V -> S * bool) (s : S) : res S :=
  if negb (cap m =? zlen (mem m)) then UB else
  if used m || negb (ko.(isnull) (skey (zslot m))) then
    let (s', brk) := b s (skey (zslot m)) (sval (zslot m)) in
    Ok (if brk then s' else foreach_slots (mem m) b s')
  else Ok (foreach_slots (mem m) b s).

(** map/sc_map.h:192-196 [sc_map_foreach_key]. *)
Fixpoint foreach_slots_key {S} (ts : list slot) (b : S -> K -> S * bool) (s : S) : S :=
  match ts with
  | [] => s
  | x :: rest =>
      if negb (ko.(isnull) (skey x)) then
        let (s', brk) := b s (skey x) in
        if brk then s' else foreach_slots_key rest b s'
      else foreach_slots_key rest b s
  end.
(** map/sc_map.h:192-200. *)
Definition map_foreach_key {S} (m : smap) (b : S -> K -> S * bool) (s : S) : res S :=
  if negb (cap m =? zlen (mem m)) then UB else
  if used m || negb (ko.(isnull) (skey (zslot m))) then
    let (s', brk) := b s (skey (zslot m)) in
    Ok (if brk then s' else foreach_slots_key (mem m) b s')
  else Ok (foreach_slots_key (mem m) b s).

(** map/sc_map.h:208-212 [sc_map_foreach_value]. *)
Fixpoint foreach_slots_value {S} (ts : list slot) (b : S -> V -> S * bool) (s : S) : S :=
  match ts with
  | [] => s
  | x :: rest =>
      if negb (ko.(isnull) (skey x)) then
        let (s', brk) := b s (sval x) in
        if brk then s' else foreach_slots_value rest b s'
      else foreach_slots_value rest b s
  end.
(** map/sc_map.h:208-216. *)
Definition map_foreach_value {S} (m : smap) (b : S -> V -> S * bool) (s : S) : res S :=
  if negb (cap m =? zlen (mem m)) then UB else
  if used m || negb (ko.(isnull) (skey (zslot m))) then
    let (s', brk) := b s (sval (zslot m)) in
    Ok (if brk then s' else foreach_slots_value (mem m) b s')
  else Ok (foreach_slots_value (mem m) b s).

(** A call in the user's program.
    (map/sc_map.c:146-334.) *)
Inductive mop := Put (k : K) (v : V) (ok : bool) | Get (k : K) | Del (k : K) | Clear | Term.

(** One call, map/sc_map.c:146-334. *)
Definition map_step (m : smap) (o : mop) : res (smap * V) :=
  match o with
  | Put k v ok => map_put m k v ok
  | Get k => map_get m k
  | Del k => map_del m k
  | Clear => let* m := map_clear m in Ok (m, vzero)
  | Term => Ok (map_term m, vzero)
  end.

End Model.

Arguments slot : clear implicits. Arguments smap : clear implicits. Arguments mop : clear implicits.

(** ** The key types of the library (map/sc_map.c:396-413). *)

(** map/sc_map.c:341-344 [sc_map_hash_32]. *)
Definition hash_32 (a : Z) : Z := u32 a.

(** map/sc_map.c:346-349 [sc_map_hash_64]; a signed argument is converted to
    uint64_t first. *)
Definition hash_64 (a : Z) : Z :=
  let a := u64 a in Z.lxor (u32 a) (u32 (Z.shiftr a 32)).

(** Little-endian load of [n] bytes.
    (map/sc_map.c:362, on a little-endian machine.) *)
Fixpoint le_load (bs : list Z) : Z :=
  match bs with [] => 0 | b :: r => b + 256 * le_load r end.

(** map/sc_map.c:352-391 [murmurhash] of a C string with the given contents
    (no NUL inside); the 8-byte memcpy assumes a little-endian host, as on the
    library's main platforms.  The tail switch xors the same bytes into h as
    the little-endian value of the remaining bytes. *)
Definition mm_const : Z := 0xc6a4a7935bd1e995.
(** map/sc_map.c:360-371: the loop, [n] rounds left. *)
Fixpoint mm_body (n : nat) (bs : list Z) (h : Z) : Z :=
  match n with
  | O =>
      match bs with
      | [] => h
      | _ => u64 (Z.lxor h (le_load bs) * mm_const)
      end
  | S n' =>
      let k := le_load (firstn 8 bs) in
      let k := u64 (k * mm_const) in
      let k := Z.lxor k (Z.shiftr k 47) in
      let k := u64 (k * mm_const) in
      let h := Z.lxor h k in
      let h := u64 (h * mm_const) in
      mm_body n' (skipn 8 bs) h
  end.
(** map/sc_map.c:352-391 [murmurhash] of the bytes of the string. *)
Definition murmurhash (bs : list Z) : Z :=
  let h := u64 (zlen bs * mm_const) in
  let h := mm_body (Nat.div (length bs) 8) bs h in
  let h := Z.lxor h (Z.shiftr h 47) in
  let h := u64 (h * mm_const) in
  let h := Z.lxor h (Z.shiftr h 47) in
  u32 h.

(** Contents equality, i.e. strcmp(a, b) == 0.
    (map/sc_map.c:394.) *)
Fixpoint bytes_eqb (a b : list Z) : bool :=
  match a, b with
  | [], [] => true
  | x :: a, y :: b => (x =? y) && bytes_eqb a b
  | _, _ => false
  end.

(** map/sc_map.c:397-406: int, long long and uint64_t keys. *)
Definition ops64 : keyops Z := mk_keyops 0 (fun k => k =? 0) Z.eqb hash_64 false.
(** map/sc_map.c:403: uint32_t keys. *)
Definition ops32 : keyops Z := mk_keyops 0 (fun k => k =? 0) Z.eqb hash_32 false.
(** map/sc_map.c:409-412: string keys.  A key is a pointer (0 = NULL); [c p] is
    the string it points to, which does not change while it is in the map. *)
Definition ops_str (c : Z -> list Z) : keyops Z :=
  mk_keyops 0 (fun k => k =? 0) (fun p q => bytes_eqb (c p) (c q)) (fun p => murmurhash (c p)) true.
