(** Model of array/sc_array.h (all macros except sc_array_sort, which is a
    plain call to libc qsort). *)
From Verif Require Import Base.

Section Array.
Context {A : Type}.

(** array/sc_array.h:55-62 [struct sc_array_##name].  [elems] is the block
    behind the pointer: one entry per slot of type T, [None] = slot never
    written; the NULL pointer is the empty block. *)
Record arr := mk_arr { oom : bool; cap : Z; size : Z; elems : list (option A) }.

(** array/sc_array.h:67-70 [sc_array_init]: memset 0. *)
Definition arr_init : arr := mk_arr false 0 0 [].

(** array/sc_array.h:76-80 [sc_array_term]: free then init.  The release of
    the block is not tracked (simplification). *)
Definition arr_term (a : arr) : arr := arr_init.

(** array/sc_array.h:51-53 [SC_ARRAY_MAX] = SIZE_MAX (64-bit size_t). *)
Definition arr_max : Z := 2^64 - 1.

(** array/sc_array.h:89-112 [sc_array_add(a, k)].  [sz] = sizeof T, [ok] = the
    outcome of realloc.  The byte count wraps like size_t arithmetic. *)
Definition arr_add (sz : Z) (a : arr) (k : A) (ok : bool) : res arr :=
  let max := arr_max / sz in
  let store (a : arr) :=
    let* e := zput (elems a) (size a) (Some k) in
    Ok (mk_arr false (cap a) (u64 (size a + 1)) e) in
  if cap a =? size a then
    if max / 2 <? cap a then Ok (mk_arr true (cap a) (size a) (elems a))
    else
      let cap' := if cap a =? 0 then 8 else u64 (cap a * 2) in
      if ok then
        store (mk_arr (oom a) cap' (size a)
                 (realloc_block (elems a) (u64 (cap' * sz)) sz))
      else Ok (mk_arr true (cap a) (size a) (elems a))
  else store a.

(** array/sc_array.h:118-122 [sc_array_clear]. *)
Definition arr_clear (a : arr) : arr := mk_arr false (cap a) 0 (elems a).

(** array/sc_array.h:128 [sc_array_oom]. *)
Definition arr_oom (a : arr) : bool := oom a.

(** array/sc_array.h:137 [sc_array_at]. *)
Definition arr_at (a : arr) (i : Z) : res A := zread (elems a) i.

(** array/sc_array.h:143 [sc_array_size]. *)
Definition arr_size (a : arr) : Z := size a.

(** memmove of [cnt] slots from [src] to [dst] inside one block (used at
    array/sc_array.h:156-157); UB if either range leaves the block. *)
Definition memmove_slots (l : list (option A)) (dst src cnt : Z) : res (list (option A)) :=
  if (0 <=? dst) && (dst + cnt <=? zlen l) && (0 <=? src) && (src + cnt <=? zlen l)
  then Ok (firstn (Z.to_nat dst) l ++ zslice l src cnt ++ skipn (Z.to_nat (dst + cnt)) l)
  else UB.

(** array/sc_array.h:149-161 [sc_array_del(a, i)]; a failing assert is
    modelled as UB (with NDEBUG the behaviour is undefined per the header). *)
Definition arr_del (a : arr) (i : Z) : res arr :=
  let idx := u64 i in
  if idx <? size a then
    let cnt := u64 (u64 (size a - idx) - 1) in
    let* e := (if 0 <? cnt then memmove_slots (elems a) idx (idx + 1) cnt
               else Ok (elems a)) in
    Ok (mk_arr (oom a) (cap a) (size a - 1) e)
  else UB.

(** array/sc_array.h:172-177 [sc_array_del_unordered(a, i)].  Copying a slot
    that was never written is treated as UB. *)
Definition arr_del_unordered (a : arr) (i : Z) : res arr :=
  let idx := u64 i in
  if idx <? size a then
    let n := size a - 1 in
    let* v := zread (elems a) n in
    let* e := zput (elems a) idx (Some v) in
    Ok (mk_arr (oom a) (cap a) n e)
  else UB.

(** array/sc_array.h:183-187 [sc_array_del_last(a)]. *)
Definition arr_del_last (a : arr) : res arr :=
  if size a =? 0 then UB else Ok (mk_arr (oom a) (cap a) (size a - 1) (elems a)).

(** array/sc_array.h:201 [sc_array_last(a)]. *)
Definition arr_last (a : arr) : res A := zread (elems a) (u64 (size a - 1)).

(** Loop bodies: what the user writes inside the foreach braces.  The body
    transforms a user state and says whether it executed [break] (true) or
    ran to its end / executed [continue] (false).  Simplification: the body
    does not modify the array itself.
    (array/sc_array.h:207-213.) *)
Definition body (S : Type) := S -> A -> S * bool.

(** array/sc_array.h:209 inner [for ((elem) = ...; _k; _k = !_k)].  Returns
    the user state and the value of [_k] when the inner loop is left. *)
Fixpoint foreach_inner {S} (fuel : nat) (b : body S) (x : A) (k : bool) (s : S) : res (S * bool) :=
  match fuel with
  | O => Fuel
  | Datatypes.S f =>
      if k then
        let (s', brk) := b s x in
        if brk then Ok (s', k) else foreach_inner f b x (negb k) s'
      else Ok (s, k)
  end.

(** array/sc_array.h:207-209 [sc_array_foreach], outer loop
    [for (size_t _k = 1, _i = 0; _k && _i != size; _k = !_k, _i++)]. *)
Fixpoint foreach_outer {S} (fuel : nat) (b : body S) (a : arr) (k : bool) (i : Z) (s : S) : res S :=
  match fuel with
  | O => Fuel
  | Datatypes.S f =>
      if k && negb (i =? size a) then
        let* x := zread (elems a) i in
        let* (s', k') := foreach_inner 2 b x k s in
        foreach_outer f b a (negb k') (u64 (i + 1)) s'
      else Ok s
  end.

(** The whole loop, entered with [_k = 1], [_i = 0].
    (array/sc_array.h:207-213.) *)
Definition arr_foreach {S} (b : body S) (a : arr) (s : S) : res S :=
  foreach_outer (Datatypes.S (Datatypes.S (Z.to_nat (size a)))) b a true 0 s.

(** One call of the mutating API, used to quantify over histories.
    (Calls of array/sc_array.h:89-191.) *)
Inductive op := Add (x : A) (ok : bool) | Del (i : Z) | DelUnordered (i : Z) | DelLast | Clear.

(** Dispatcher for [op] (no code counterpart: the user's program).
    (array/sc_array.h:89-191.) *)
Definition arr_step (sz : Z) (a : arr) (o : op) : res arr :=
  match o with
  | Add x ok => arr_add sz a x ok
  | Del i => arr_del a i
  | DelUnordered i => arr_del_unordered a i
  | DelLast => arr_del_last a
  | Clear => Ok (arr_clear a)
  end.

End Array.
Arguments arr : clear implicits.
Arguments op : clear implicits.
