(** Model of heap/sc_heap.c (64-bit size_t, sizeof(struct sc_heap_data) = 16). *)
From Verif Require Import Base.

Section Heap.
Context {D : Type}.  (* the user's void* data *)

(** heap/sc_heap.h [struct sc_heap_data]: (key, data).
    (heap/sc_heap.h:49-52.) *)
Definition item : Type := (Z * D)%type.

(** heap/sc_heap.h [struct sc_heap]; [elems] is the block behind the pointer,
    [None] = slot never written, empty block = NULL.
    (heap/sc_heap.h:54-58.) *)
Record heap := mk_heap { hcap : Z; hsize : Z; helems : list (option item) }.

(** heap/sc_heap.c:36-38 [SC_HEAP_MAX] = SIZE_MAX / 16. *)
Definition heap_max : Z := (2^64 - 1) / 16.

(** The allocator: a request is granted when the oracle agrees and the byte
    count does not exceed the largest block the platform can provide.
    (For heap/sc_heap.c:51, :90.) *)
Definition granted (lim : Z) (ok : bool) (bytes : Z) : bool := ok && (bytes <=? lim).

(** heap/sc_heap.c:40-59 [sc_heap_init]; the result is (heap, return value). *)
Definition heap_init (lim : Z) (cap : Z) (ok : bool) : heap * bool :=
  let sz := u64 (cap * 16) in
  let h0 := mk_heap 0 0 [] in
  if cap =? 0 then (h0, true)
  else if (heap_max <? cap) || negb (granted lim ok sz) then (h0, false)
  else (mk_heap cap 0 (realloc_block [] sz 16), true).

(** heap/sc_heap.c:61-68 [sc_heap_term] (release of the block not tracked). *)
Definition heap_term (h : heap) : heap := mk_heap 0 0 [].

(** heap/sc_heap.c:70-73 [sc_heap_size]. *)
Definition heap_size (h : heap) : Z := hsize h.

(** heap/sc_heap.c:75-78 [sc_heap_clear]. *)
Definition heap_clear (h : heap) : heap := mk_heap (hcap h) 0 (helems h).

(** heap/sc_heap.c:99-105: the sift-up loop and the final store.  The separate
    stores of key and data (104, 105) are one slot write. *)
Fixpoint sift_up (fuel : nat) (e : list (option item)) (i : Z) (x : item) : res (list (option item)) :=
  match fuel with
  | O => Fuel
  | S f =>
      if i =? 1 then zput e i (Some x)
      else
        let* p := zread e (i / 2) in
        if fst x <? fst p then
          let* e' := zput e i (Some p) in
          sift_up f e' (i / 2) x
        else zput e i (Some x)
  end.

(** heap/sc_heap.c:80-108 [sc_heap_add]; result (heap, return value).  Note the
    increment of size before the allocation (line 85). *)
Definition heap_add (lim : Z) (h : heap) (key : Z) (data : D) (ok : bool) : res (heap * bool) :=
  let size := u64 (hsize h + 1) in
  let finish cap e :=
    let* e' := sift_up (S (Z.to_nat size)) e size (key, data) in
    Ok (mk_heap cap size e', true) in
  if hcap h <=? size then
    let cap := if hcap h =? 0 then 4 else u64 (hcap h * 2) in
    let m := u64 (u64 (cap * 2) * 16) in
    if (heap_max / 2 <=? hcap h) || negb (granted lim ok m)
    then Ok (mk_heap (hcap h) size (helems h), false)
    else finish cap (realloc_block (helems h) m 16)
  else finish (hcap h) (helems h).

(** heap/sc_heap.c:110-118 [sc_heap_peek]; None = NULL. *)
Definition heap_peek (h : heap) : res (option item) :=
  if hsize h =? 0 then Ok None
  else let* x := zread (helems h) 1 in Ok (Some x).

(** heap/sc_heap.c:133-149: the sift-down loop and the final store; [n] is the
    decremented size. *)
Fixpoint sift_down (fuel : nat) (e : list (option item)) (i child n : Z) (last : item)
  : res (list (option item)) :=
  match fuel with
  | O => Fuel
  | S f =>
      if child <=? n then
        let* c := (if child <? n then
                     let* a := zread e child in
                     let* b := zread e (child + 1) in
                     Ok (if fst b <? fst a then child + 1 else child)
                   else Ok child) in
        let* v := zread e c in
        if fst last <=? fst v then zput e i (Some last)
        else
          let* e' := zput e i (Some v) in
          sift_down f e' c (u64 (c * 2)) n last
      else zput e i (Some last)
  end.

(** heap/sc_heap.c:120-152 [sc_heap_pop]: result (heap, what the returned
    pointer &elems[0] points to; None = NULL). *)
Definition heap_pop (h : heap) : res (heap * option item) :=
  if hsize h =? 0 then Ok (h, None)
  else
    let* top := zread (helems h) 1 in
    let* e := zput (helems h) 0 (Some top) in
    let* last := zread e (hsize h) in
    let n := hsize h - 1 in
    let* e' := sift_down (S (Z.to_nat n)) e 1 2 n last in
    let* r := zread e' 0 in
    Ok (mk_heap (hcap h) n e', Some r).

(** One call of the API (no code counterpart: the user's program).
    (heap/sc_heap.c:75-153.) *)
Inductive hop := HAdd (key : Z) (data : D) (ok : bool) | HPop | HClear.

(** Pop [n] times, collecting what is returned (no code counterpart).
    (heap/sc_heap.c:120-153.) *)
Fixpoint pop_n (n : nat) (h : heap) : res (heap * list (option item)) :=
  match n with
  | O => Ok (h, [])
  | S n' =>
      let* (h', o) := heap_pop h in
      let* (h2, os) := pop_n n' h' in
      Ok (h2, o :: os)
  end.

(** Add a list of items; the flag tells whether every add returned true.
    (heap/sc_heap.c:80-108.) *)
Fixpoint add_all (lim : Z) (h : heap) (l : list item) : res (heap * bool) :=
  match l with
  | [] => Ok (h, true)
  | (k, d) :: r =>
      let* (h', ok) := heap_add lim h k d true in
      let* (h2, ok2) := add_all lim h' r in
      Ok (h2, ok && ok2)
  end.
End Heap.
Arguments heap : clear implicits.
Arguments item : clear implicits.
Arguments hop : clear implicits.
