(** Who owns which block of memory: the allocations, releases and accesses of
    array, heap, queue, map, buffer, string, timer and uri on one common
    store.  The contents of the blocks are left out (the other models have
    them); where the code's course depends on contents, the call carries the
    outcome as a parameter and the theorems range over all of them. *)
From Verif Require Import Base MapModel.

(** ** The store *)

(** Kinds of blocks: obtained from the allocator (array/sc_array.h:46,
    heap/sc_heap.h, ...), memory of the caller (buffer/sc_buf.h:86-95), or a
    constant object (map/sc_map.c:85-89). *)
Inductive kind := Alloc | User | Const.

(** Pointers: NULL, or a byte offset into a block.  Blocks get new numbers, so
    a pointer to a released block never becomes valid again.
    (ISO C 6.2.4p2, 7.22.3.) *)
Inductive ptr := PNull | PBlk (b off : Z).

(** The live blocks with size in bytes and kind; [fresh] is the number of the next block.
    (ISO C 7.22.3.) *)
Record mem := mk_mem { live : list (Z * (Z * kind)); fresh : Z }.

(** The block with number [b], if live. (ISO C 7.22.3.) *)
Fixpoint find (l : list (Z * (Z * kind))) (b : Z) : option (Z * kind) :=
  match l with
  | [] => None
  | (x, i) :: r => if x =? b then Some i else find r b
  end.

(** End of the lifetime of [b]. (ISO C 6.2.4p2.) *)
Fixpoint drop (l : list (Z * (Z * kind))) (b : Z) : list (Z * (Z * kind)) :=
  match l with
  | [] => []
  | (x, i) :: r => if x =? b then drop r b else (x, i) :: drop r b
  end.

(** The allocator's answer: no memory, success, or (for realloc) success at
    the same address. (ISO C 7.22.3.5.) *)
Inductive answer := Fail | Moved | Stay.

(** No object is larger than the address space of a 64-bit machine (at most 57
    bits on the library's platforms); a larger request fails. (ISO C 7.22.3.) *)
Definition ADDR_MAX : Z := 2^57.

(** malloc (ISO C 7.22.3.4) and calloc of a total of [sz] bytes (7.22.3.2; the
    product of its arguments is not reduced). *)
Definition malloc (m : mem) (sz : Z) (a : answer) : ptr * mem :=
  match a with
  | Fail => (PNull, m)
  | _ =>
      if ADDR_MAX <? sz then (PNull, m)
      else (PBlk (fresh m) 0, mk_mem ((fresh m, (sz, Alloc)) :: live m) (fresh m + 1))
  end.

(** free (ISO C 7.22.3.3): NULL is ignored; anything but the start of a live
    block from the allocator is undefined. *)
Definition free (m : mem) (p : ptr) : res mem :=
  match p with
  | PNull => Ok m
  | PBlk b off =>
      match find (live m) b with
      | Some (_, Alloc) => if off =? 0 then Ok (mk_mem (drop (live m) b) (fresh m)) else UB
      | _ => UB
      end
  end.

(** realloc (ISO C 7.22.3.5); on failure the old block stays.  Size 0 is
    treated as undefined. *)
Definition realloc (m : mem) (p : ptr) (sz : Z) (a : answer) : res (ptr * mem) :=
  match p with
  | PNull => Ok (malloc m sz a)
  | PBlk b off =>
      match find (live m) b with
      | Some (_, Alloc) =>
          if negb (off =? 0) || (sz <=? 0) then UB
          else if ADDR_MAX <? sz then Ok (PNull, m)
          else match a with
               | Fail => Ok (PNull, m)
               | Moved => Ok (PBlk (fresh m) 0,
                            mk_mem ((fresh m, (sz, Alloc)) :: drop (live m) b) (fresh m + 1))
               | Stay => Ok (PBlk b 0, mk_mem ((b, (sz, Alloc)) :: drop (live m) b) (fresh m))
               end
      | _ => UB
      end
  end.

(** Reading [n] bytes at [p + at_] (ISO C 6.5.6p8, 6.2.4p2).  Zero bytes are
    always fine: the library passes pointers and length 0 on to memcpy in
    places. *)
Definition rd (m : mem) (p : ptr) (at_ n : Z) : res unit :=
  if n =? 0 then Ok tt else
  match p with
  | PNull => UB
  | PBlk b off =>
      match find (live m) b with
      | Some (sz, _) =>
          if (0 <? n) && (0 <=? off + at_) && (off + at_ + n <=? sz) then Ok tt else UB
      | None => UB
      end
  end.

(** Writing: also not to a constant object (ISO C 6.7.3p6). *)
Definition wr (m : mem) (p : ptr) (at_ n : Z) : res unit :=
  let* _ := rd m p at_ n in
  if n =? 0 then Ok tt else
  match p with
  | PBlk b _ => match find (live m) b with Some (_, Const) => UB | _ => Ok tt end
  | PNull => UB
  end.

(** Pointer plus an offset (ISO C 6.5.6p8). *)
Definition padd (p : ptr) (n : Z) : ptr :=
  match p with PNull => PNull | PBlk b off => PBlk b (off + n) end.

(** p == NULL (ISO C 6.5.9). *)
Definition isnull (p : ptr) : bool := match p with PNull => true | _ => false end.

(** p == q (ISO C 6.5.9). *)
Definition peq (p q : ptr) : bool :=
  match p, q with
  | PNull, PNull => true
  | PBlk b o, PBlk c o' => (b =? c) && (o =? o')
  | _, _ => false
  end.

(** SIZE_MAX (ISO C 7.20.3). *)
Definition SIZE_MAX : Z := 2^64 - 1.

(** ** Array *)

(** array/sc_array.h:55-62; [a_w] is sizeof( *elems); the oom flag does not
    influence memory. *)
Record arr := mk_arr { a_w : Z; a_cap : Z; a_size : Z; a_elems : ptr }.

(** array/sc_array.h:67-70 [sc_array_init]. *)
Definition arr_init (w : Z) : arr := mk_arr w 0 0 PNull.

(** array/sc_array.h:76-80 [sc_array_term]. *)
Definition arr_term (a : arr) (m : mem) : res (arr * mem) :=
  let* m := free m (a_elems a) in
  Ok (arr_init (a_w a), m).

(** array/sc_array.h:89-113 [sc_array_add]. *)
Definition arr_add (a : arr) (ans : answer) (m : mem) : res (arr * mem) :=
  let max := SIZE_MAX / a_w a in
  if a_cap a =? a_size a then
    if max / 2 <? a_cap a then Ok (a, m)
    else
      let c := if a_cap a =? 0 then 8 else u64 (a_cap a * 2) in
      let* (p, m) := realloc m (a_elems a) (u64 (c * a_w a)) ans in
      if isnull p then Ok (a, m)
      else
        let* _ := wr m p (a_size a * a_w a) (a_w a) in
        Ok (mk_arr (a_w a) c (u64 (a_size a + 1)) p, m)
  else
    let* _ := wr m (a_elems a) (a_size a * a_w a) (a_w a) in
    Ok (mk_arr (a_w a) (a_cap a) (u64 (a_size a + 1)) (a_elems a), m).

(** array/sc_array.h:149-161 [sc_array_del]. *)
Definition arr_del (a : arr) (i : Z) (m : mem) : res (arr * mem) :=
  let cnt := u64 (a_size a - i - 1) in
  let* _ := rd m (a_elems a) ((i + 1) * a_w a) (cnt * a_w a) in
  let* _ := wr m (a_elems a) (i * a_w a) (cnt * a_w a) in
  Ok (mk_arr (a_w a) (a_cap a) (u64 (a_size a - 1)) (a_elems a), m).

(** array/sc_array.h:172-177 [sc_array_del_unordered]. *)
Definition arr_del_unordered (a : arr) (i : Z) (m : mem) : res (arr * mem) :=
  let n := u64 (a_size a - 1) in
  let* _ := rd m (a_elems a) (n * a_w a) (a_w a) in
  let* _ := wr m (a_elems a) (i * a_w a) (a_w a) in
  Ok (mk_arr (a_w a) (a_cap a) n (a_elems a), m).

(** array/sc_array.h:183-187 [sc_array_del_last]. *)
Definition arr_del_last (a : arr) (m : mem) : res (arr * mem) :=
  Ok (mk_arr (a_w a) (a_cap a) (u64 (a_size a - 1)) (a_elems a), m).

(** array/sc_array.h:118-122 [sc_array_clear]. *)
Definition arr_clear (a : arr) (m : mem) : res (arr * mem) :=
  Ok (mk_arr (a_w a) (a_cap a) 0 (a_elems a), m).

(** array/sc_array.h:137 [sc_array_at], also as the target of an assignment. *)
Definition arr_at (a : arr) (i : Z) (m : mem) : res (arr * mem) :=
  let* _ := wr m (a_elems a) (i * a_w a) (a_w a) in Ok (a, m).

(** array/sc_array.h:194-195 [sc_array_sort] and :207-209 [sc_array_foreach]:
    all elements are touched. *)
Definition arr_all (a : arr) (m : mem) : res (arr * mem) :=
  let* _ := wr m (a_elems a) 0 (a_size a * a_w a) in Ok (a, m).

(** ** Heap *)

(** heap/sc_heap.h:54-58: struct sc_heap.  [h_bad] is not in the struct: an add
    has returned false since the heap was last empty by init or clear. *)
Record heap := mk_heap { h_cap : Z; h_size : Z; h_elems : ptr; h_bad : bool }.

(** sizeof(struct sc_heap_data): an int64_t and a pointer (heap/sc_heap.h:49-52). *)
Definition HW : Z := 16.

(** heap/sc_heap.c:36-38 SC_HEAP_MAX. *)
Definition SC_HEAP_MAX : Z := SIZE_MAX / HW.

(** heap/sc_heap.c:40-59 [sc_heap_init]. *)
Definition heap_init (c : Z) (ans : answer) (m : mem) : res (heap * mem) :=
  let sz := u64 (c * HW) in
  if c =? 0 then Ok (mk_heap 0 0 PNull false, m)
  else if SC_HEAP_MAX <? c then Ok (mk_heap 0 0 PNull false, m)
  else
    let (p, m) := malloc m sz ans in
    if isnull p then Ok (mk_heap 0 0 PNull false, m) else Ok (mk_heap c 0 p false, m).

(** heap/sc_heap.c:61-68 [sc_heap_term]. *)
Definition heap_term (h : heap) (m : mem) : res (heap * mem) :=
  let* m := free m (h_elems h) in Ok (mk_heap 0 0 PNull false, m).

(** heap/sc_heap.c:75-78 [sc_heap_clear]. *)
Definition heap_clear (h : heap) (m : mem) : res (heap * mem) :=
  Ok (mk_heap (h_cap h) 0 (h_elems h) false, m).

(** heap/sc_heap.c:80-108 [sc_heap_add].  The loop 99-102 touches elements from
    1 to size. *)
Definition heap_add (h : heap) (ans : answer) (m : mem) : res (heap * mem) :=
  let n := u64 (h_size h + 1) in
  if h_cap h <=? n then
    let c := if h_cap h =? 0 then 4 else u64 (h_cap h * 2) in
    let sz := u64 (c * 2 * HW) in
    if SC_HEAP_MAX / 2 <=? h_cap h then Ok (mk_heap (h_cap h) n (h_elems h) true, m)
    else
      let* (p, m) := realloc m (h_elems h) sz ans in
      if isnull p then Ok (mk_heap (h_cap h) n (h_elems h) true, m)
      else
        let* _ := wr m p HW (n * HW) in
        Ok (mk_heap c n p (h_bad h), m)
  else
    let* _ := wr m (h_elems h) HW (n * HW) in
    Ok (mk_heap (h_cap h) n (h_elems h) (h_bad h), m).

(** heap/sc_heap.c:110-118 [sc_heap_peek] and the caller's use of the result. *)
Definition heap_peek (h : heap) (m : mem) : res (heap * mem) :=
  if h_size h =? 0 then Ok (h, m)
  else let* _ := rd m (h_elems h) HW HW in Ok (h, m).

(** heap/sc_heap.c:120-152 [sc_heap_pop] and the caller's use of the result:
    elements 0 to size are touched. *)
Definition heap_pop (h : heap) (m : mem) : res (heap * mem) :=
  if h_size h =? 0 then Ok (h, m)
  else
    let* _ := wr m (h_elems h) 0 ((h_size h + 1) * HW) in
    Ok (mk_heap (h_cap h) (u64 (h_size h - 1)) (h_elems h) (h_bad h), m).

(** ** Queue *)

(** queue/sc_queue.h:55-63. *)
Record queue := mk_queue
  { q_w : Z; q_oom : bool; q_cap : Z; q_first : Z; q_last : Z; q_elems : ptr }.

(** queue/sc_queue.h:101-111 [sc_queue_init]. *)
Definition q_init (w : Z) (ans : answer) (m : mem) : res (queue * mem) :=
  let (p, m) := malloc m (u64 (w * 8)) ans in
  Ok (mk_queue w (isnull p) 8 0 0 p, m).

(** queue/sc_queue.h:117-125 [sc_queue_term]. *)
Definition q_term (q : queue) (m : mem) : res (queue * mem) :=
  let* m := free m (q_elems q) in
  Ok (mk_queue (q_w q) false 0 0 0 PNull, m).

(** queue/sc_queue.h:143-148 [sc_queue_clear]. *)
Definition q_clear (q : queue) (m : mem) : res (queue * mem) :=
  Ok (mk_queue (q_w q) false (q_cap q) 0 0 (q_elems q), m).

(** (x) & (cap - 1), queue/sc_queue.h:68, :211, :239. *)
Definition qmask (q : queue) (x : Z) : Z := Z.land (u64 x) (u64 (q_cap q - 1)).

(** queue/sc_queue.h:65-96 [sc_queue_expand]; SC_QUEUE_MAX is SIZE_MAX (:51). *)
Definition q_expand (q : queue) (ans : answer) (m : mem) : res (queue * mem) :=
  if qmask q (q_last q + 1) =? q_first q then
    if SIZE_MAX / 2 <? q_cap q then
      Ok (mk_queue (q_w q) true (q_cap q) (q_first q) (q_last q) (q_elems q), m)
    else
      let c := u64 (q_cap q * 2) in
      let (p, m) := malloc m (c * q_w q) ans in
      if isnull p then
        Ok (mk_queue (q_w q) true (q_cap q) (q_first q) (q_last q) (q_elems q), m)
      else
        let len := u64 ((q_cap q - q_first q) * q_w q) in
        let off := u64 (q_first q * q_w q) in
        let* _ := rd m (q_elems q) off len in
        let* _ := wr m p 0 len in
        let* _ := rd m (q_elems q) 0 off in
        let* _ := wr m p len off in
        let* m := free m (q_elems q) in
        Ok (mk_queue (q_w q) false c 0 (u64 (q_cap q - 1)) p, m)
  else Ok (q, m).

(** queue/sc_queue.h:206-215 [sc_queue_add_last]. *)
Definition q_add_last (q : queue) (ans : answer) (m : mem) : res (queue * mem) :=
  let* (q, m) := q_expand q ans m in
  if q_oom q then Ok (q, m)
  else
    let* _ := wr m (q_elems q) (q_last q * q_w q) (q_w q) in
    Ok (mk_queue (q_w q) false (q_cap q) (q_first q) (qmask q (q_last q + 1)) (q_elems q), m).

(** queue/sc_queue.h:231-240 [sc_queue_add_first]. *)
Definition q_add_first (q : queue) (ans : answer) (m : mem) : res (queue * mem) :=
  let* (q, m) := q_expand q ans m in
  if q_oom q then Ok (q, m)
  else
    let f := qmask q (q_first q - 1) in
    let* _ := wr m (q_elems q) (f * q_w q) (q_w q) in
    Ok (mk_queue (q_w q) false (q_cap q) f (q_last q) (q_elems q), m).

(** queue/sc_queue.h:222-223 [sc_queue_del_last] and the caller's use of the result. *)
Definition q_del_last (q : queue) (m : mem) : res (queue * mem) :=
  let l := qmask q (q_last q - 1) in
  let* _ := rd m (q_elems q) (l * q_w q) (q_w q) in
  Ok (mk_queue (q_w q) (q_oom q) (q_cap q) (q_first q) l (q_elems q), m).

(** queue/sc_queue.h:242-256 [sc_queue_inc_first], [sc_queue_del_first]. *)
Definition q_del_first (q : queue) (m : mem) : res (queue * mem) :=
  let* _ := rd m (q_elems q) (q_first q * q_w q) (q_w q) in
  Ok (mk_queue (q_w q) (q_oom q) (q_cap q) (qmask q (q_first q + 1)) (q_last q) (q_elems q), m).

(** queue/sc_queue.h:187 [sc_queue_at], also as the target of an assignment;
    peek_first (:193) is index 0, peek_last (:199) is index size - 1. *)
Definition q_at (q : queue) (i : Z) (m : mem) : res (queue * mem) :=
  let* _ := wr m (q_elems q) (qmask q (q_first q + i) * q_w q) (q_w q) in Ok (q, m).

(** ** Map *)

(** map/sc_map.h:66-76: the struct; [p_w] is the size of an item, [p_empty]
    the address of the constant empty table's item 0 (map/sc_map.c:85-89).
    The flags oom and found do not influence memory. *)
Record map_ := mk_map_
  { p_w : Z; p_empty : ptr; p_mem : ptr; p_cap : Z; p_size : Z; p_used : bool;
    p_fac : Z; p_remap : Z }.

(** map/sc_map.c:85-89 sc_map_empty_##name. *)
Definition map_empty (w : Z) (e : ptr) : map_ := mk_map_ w e e 1 0 false 0 0.

(** map/sc_map.c:91-113 [sc_map_alloc]: capacity and address of item 0. *)
Definition map_alloc (w c factor : Z) (ans : answer) (m : mem) : Z * ptr * mem :=
  if SC_MAP_MAX / factor <? c then (c, PNull, m)
  else
    let v := next_pow2_32 (if c <? 8 then 8 else u32 (c * factor)) in
    let (t, m) := malloc m (u32 (v + 1) * w) ans in
    (v, padd t w, m).

(** map/sc_map.c:115-144 [sc_map_init]; None = false is returned and the struct
    is left as it was. *)
Definition map_init (w : Z) (e : ptr) (c lf : Z) (ans : answer) (m : mem)
    : res (option map_ * mem) :=
  let f := if lf =? 0 then 75 else lf in
  if (95 <? f) || (f <? 25) then Ok (None, m)
  else if c =? 0 then Ok (Some (mk_map_ w e e 1 0 false f 0), m)
  else
    let '(v, t, m) := map_alloc w c 1 ans m in
    if isnull t then Ok (None, m)
    else Ok (Some (mk_map_ w e t v 0 false f (map_threshold v f)), m).

(** map/sc_map.c:146-152 [sc_map_term]. *)
Definition map_term (p : map_) (m : mem) : res (map_ * mem) :=
  if peq (p_mem p) (p_empty p) then Ok (p, m)
  else
    let* m := free m (padd (p_mem p) (- p_w p)) in
    Ok (map_empty (p_w p) (p_empty p), m).

(** map/sc_map.c:159-169 [sc_map_clear]. *)
Definition map_clear (p : map_) (m : mem) : res (map_ * mem) :=
  if 0 <? p_size p then
    let* _ := wr m (p_mem p) 0 (p_cap p * p_w p) in
    Ok (mk_map_ (p_w p) (p_empty p) (p_mem p) (p_cap p) 0 false (p_fac p) (p_remap p), m)
  else Ok (p, m).

(** map/sc_map.c:171-213 [sc_map_remap]; the loop 188-202 touches any item of
    the new table. *)
Definition map_remap (p : map_) (ans : answer) (m : mem) : res (option map_ * mem) :=
  if p_size p <? p_remap p then Ok (Some p, m)
  else
    let '(c, t, m) := map_alloc (p_w p) (p_cap p) 2 ans m in
    if isnull t then Ok (None, m)
    else
      let* _ := rd m (p_mem p) 0 (p_cap p * p_w p) in
      let* _ := wr m t 0 (c * p_w p) in
      let* m :=
        if peq (p_mem p) (p_empty p) then Ok m
        else
          let* _ := rd m (p_mem p) (- p_w p) (p_w p) in
          let* _ := wr m t (- p_w p) (p_w p) in
          free m (padd (p_mem p) (- p_w p)) in
      Ok (Some (mk_map_ (p_w p) (p_empty p) t c (p_size p) (p_used p) (p_fac p)
                  (map_threshold c (p_fac p))), m).

(** map/sc_map.c:215-256 [sc_map_put] of the null key ([z]) or another one;
    [isnew]: the key is not in the table.  The search touches any item. *)
Definition map_put (p : map_) (z isnew : bool) (ans : answer) (m : mem) : res (map_ * mem) :=
  let* (r, m) := map_remap p ans m in
  match r with
  | None => Ok (p, m)
  | Some p =>
      if z then
        let* _ := wr m (p_mem p) (- p_w p) (p_w p) in
        Ok (mk_map_ (p_w p) (p_empty p) (p_mem p) (p_cap p)
              (u32 (p_size p + (if p_used p then 0 else 1))) true (p_fac p) (p_remap p), m)
      else
        let* _ := wr m (p_mem p) 0 (p_cap p * p_w p) in
        Ok (mk_map_ (p_w p) (p_empty p) (p_mem p) (p_cap p)
              (if isnew then u32 (p_size p + 1) else p_size p) (p_used p) (p_fac p)
              (p_remap p), m)
  end.

(** map/sc_map.c:258-283 [sc_map_get]. *)
Definition map_get (p : map_) (z : bool) (m : mem) : res (map_ * mem) :=
  if z then
    let* _ := if p_used p then rd m (p_mem p) (- p_w p) (p_w p) else Ok tt in Ok (p, m)
  else let* _ := rd m (p_mem p) 0 (p_cap p * p_w p) in Ok (p, m).

(** map/sc_map.c:286-339 [sc_map_del]; [hit]: the key is in the table.  The
    back-shift touches any item. *)
Definition map_del (p : map_) (z hit : bool) (m : mem) : res (map_ * mem) :=
  if z then
    let* _ := if p_used p then rd m (p_mem p) (- p_w p) (p_w p) else Ok tt in
    Ok (mk_map_ (p_w p) (p_empty p) (p_mem p) (p_cap p)
          (u32 (p_size p - (if p_used p then 1 else 0))) false (p_fac p) (p_remap p), m)
  else
    let* _ := rd m (p_mem p) 0 (p_cap p * p_w p) in
    if hit then
      let* _ := wr m (p_mem p) 0 (p_cap p * p_w p) in
      Ok (mk_map_ (p_w p) (p_empty p) (p_mem p) (p_cap p) (u32 (p_size p - 1)) (p_used p)
            (p_fac p) (p_remap p), m)
    else Ok (p, m).

(** map/sc_map.h:176-216 [sc_map_foreach] and its variants: items -1 to cap - 1. *)
Definition map_each (p : map_) (m : mem) : res (map_ * mem) :=
  let* _ := rd m (p_mem p) (- p_w p) ((p_cap p + 1) * p_w p) in Ok (p, m).

(** ** Buffer *)

(** buffer/sc_buf.h:59-68: struct sc_buf; [b_err] says whether err is not 0. *)
Record buf := mk_buf
  { b_mem : ptr; b_cap : Z; b_limit : Z; b_r : Z; b_pos : Z; b_ref : bool; b_err : bool }.

(** buffer/sc_buf.c:36-38 SC_BUF_MAX. *)
Definition SC_BUF_MAX : Z := 2^64 - 1 - 4096.

(** buffer/sc_buf.c:60-73 [sc_buf_wrap]; [ref] and [data]: the flags. *)
Definition buf_wrap (p : ptr) (len : Z) (ref data : bool) : buf :=
  mk_buf p len (if ref then len else SC_BUF_MAX) 0 (if data then len else 0) ref false.

(** buffer/sc_buf.c:42-58 [sc_buf_init]. *)
Definition buf_init (c : Z) (ans : answer) (m : mem) : res (buf * mem) :=
  if 0 <? c then
    let (p, m) := malloc m c ans in
    if isnull p then Ok (mk_buf PNull 0 0 0 0 false false, m)
    else Ok (buf_wrap p c false false, m)
  else Ok (buf_wrap PNull c false false, m).

(** buffer/sc_buf.c:75-82 [sc_buf_term]. *)
Definition buf_term (b : buf) (m : mem) : res (buf * mem) :=
  let* m := if b_ref b then Ok m else free m (b_mem b) in
  Ok (buf_wrap PNull 0 false false, m).

(** buffer/sc_buf.c:84-87 [sc_buf_limit]. *)
Definition buf_limit (b : buf) (l : Z) : buf :=
  mk_buf (b_mem b) (b_cap b) l (b_r b) (b_pos b) (b_ref b) (b_err b).

(** b->err |= ..., buffer/sc_buf.c:125. *)
Definition buf_fail (b : buf) : buf :=
  mk_buf (b_mem b) (b_cap b) (b_limit b) (b_r b) (b_pos b) (b_ref b) true.

(** buffer/sc_buf.c:99-127 [sc_buf_reserve]. *)
Definition buf_reserve (b : buf) (len : Z) (ans : answer) (m : mem) : res (bool * buf * mem) :=
  if b_cap b <? u64 (b_pos b + len) then
    if b_ref b then Ok (false, buf_fail b, m)
    else
      let sz := u64 (u64 (b_cap b + len + 4095) / 4096 * 4096) in
      if (b_limit b <? sz) || (SC_BUF_MAX - 4096 <=? b_cap b) then Ok (false, buf_fail b, m)
      else
        let* (p, m) := realloc m (b_mem b) sz ans in
        if isnull p then Ok (false, buf_fail b, m)
        else Ok (true, mk_buf p sz (b_limit b) (b_r b) (b_pos b) (b_ref b) (b_err b), m)
  else Ok (true, b, m).

(** buffer/sc_buf.c:226-241 [sc_buf_compact]. *)
Definition buf_compact (b : buf) (m : mem) : res (buf * mem) :=
  let '(r, w) := if b_r b =? b_pos b then (0, 0) else (b_r b, b_pos b) in
  if negb (r =? 0) then
    let copy := u64 (w - r) in
    let* _ := rd m (b_mem b) r copy in
    let* _ := wr m (b_mem b) 0 copy in
    Ok (mk_buf (b_mem b) (b_cap b) (b_limit b) 0 copy (b_ref b) (b_err b), m)
  else Ok (mk_buf (b_mem b) (b_cap b) (b_limit b) r w (b_ref b) (b_err b), m).

(** buffer/sc_buf.c:130-152 [sc_buf_shrink]. *)
Definition buf_shrink (b : buf) (len : Z) (ans : answer) (m : mem) : res (buf * mem) :=
  let* (b, m) := buf_compact b m in
  if (b_cap b <? len) || (len <=? b_pos b) then Ok (b, m)
  else
    let len := u64 (u64 (len + 4095) / 4096 * 4096) in
    let* (p, m) := realloc m (b_mem b) len ans in
    if isnull p then Ok (buf_fail b, m)
    else Ok (mk_buf p len (b_limit b) (b_r b) (b_pos b) (b_ref b) (b_err b), m).

(** buffer/sc_buf.c:629-636 [sc_buf_put_raw] with sc_buf_set_data (:506-520):
    [len] bytes from [src]. *)
Definition buf_put (b : buf) (src : ptr) (len : Z) (ans : answer) (m : mem) : res (buf * mem) :=
  let* (ok, b, m) := buf_reserve b len ans m in
  if negb ok then Ok (b, m)
  else if b_err b || (b_cap b <? u64 (b_pos b + len)) then Ok (buf_fail b, m)
  else
    let* _ := rd m src 0 len in
    let* _ := wr m (b_mem b) (b_pos b) len in
    Ok (mk_buf (b_mem b) (b_cap b) (b_limit b) (b_r b) (u64 (b_pos b + len)) (b_ref b)
          (b_err b), m).

(** buffer/sc_buf.c:254-352: the checked peeks ([w] false: against wpos) and stores
    ([w] true: against cap) of [n] bytes at [pos]. *)
Definition buf_access (b : buf) (w : bool) (pos n : Z) (m : mem) : res (buf * mem) :=
  if b_err b || ((if w then b_cap b else b_pos b) <? u64 (pos + n)) then Ok (buf_fail b, m)
  else let* _ := if w then wr m (b_mem b) pos n else rd m (b_mem b) pos n in Ok (b, m).

(** buffer/sc_buf.c:89-92 [sc_buf_at], :94-97 [sc_buf_cap], :186-189
    [sc_buf_rpos], :211-214 [sc_buf_wpos], :216-219 [sc_buf_rbuf], :221-224
    [sc_buf_wbuf]: the caller uses [n] bytes at position [pos]. *)
Definition buf_at (b : buf) (pos n : Z) (m : mem) : res (buf * mem) :=
  let* _ := wr m (padd (b_mem b) pos) 0 n in Ok (b, m).

(** buffer/sc_buf.c:169-209: clear, mark_read, mark_write, set_rpos and set_wpos,
    and the reads that move rpos: new positions [r] and [w]. *)
Definition buf_move_to (b : buf) (r w : Z) (clear : bool) : buf :=
  mk_buf (b_mem b) (b_cap b) (b_limit b) r w (b_ref b) (if clear then false else b_err b).

(** ** String *)

(** A user's variable char *s with the len field of its block
    (string/sc_str.c:50-53). *)
Record str := mk_str { s_ptr : ptr; s_len : Z }.

(** offsetof(struct sc_str, buf) (string/sc_str.c:50-56). *)
Definition SHDR : Z := 4.

(** string/sc_str.c:58 sc_str_bytes: sizeof(struct sc_str) is 4. *)
Definition str_bytes (n : Z) : Z := u64 (n + 4 + 1).

(** string/sc_str.c:60-62 SC_STR_MAX. *)
Definition SC_STR_MAX : Z := 2^32 - 1 - 4 - 1.

(** string/sc_str.c:75-93 [sc_str_create_len]; [src] is NULL or has [len]
    readable bytes. *)
Definition str_create_len (src : ptr) (len : Z) (ans : answer) (m : mem) : res (str * mem) :=
  if isnull src then Ok (mk_str PNull 0, m)
  else
    let (c, m) := malloc m (str_bytes len) ans in
    if isnull c then Ok (mk_str PNull 0, m)
    else
      let* _ := rd m src 0 len in
      let* _ := wr m c SHDR (len + 1) in
      let* _ := wr m c 0 4 in
      Ok (mk_str (padd c SHDR) len, m).

(** string/sc_str.c:64-73 [sc_str_create]; strlen(str) is [len]. *)
Definition str_create (src : ptr) (len : Z) (ans : answer) (m : mem) : res (str * mem) :=
  if isnull src then Ok (mk_str PNull 0, m)
  else
    let* _ := rd m src 0 (len + 1) in
    if SC_STR_MAX <? len then Ok (mk_str PNull 0, m) else str_create_len src len ans m.

(** string/sc_str.c:95-130 [sc_str_create_va]; [rc] and [rc2] are the answers
    of the two vsnprintf calls. *)
Definition str_create_va (rc rc2 : Z) (ans : answer) (m : mem) : res (str * mem) :=
  if rc <? 0 then Ok (mk_str PNull 0, m)
  else
    let (c, m) := malloc m (str_bytes rc) ans in
    if isnull c then Ok (mk_str PNull 0, m)
    else
      let* _ := wr m c 0 4 in
      if rc <? 1024 then
        let* _ := wr m c SHDR (rc + 1) in Ok (mk_str (padd c SHDR) rc, m)
      else
        let* _ := wr m c SHDR (rc + 1) in
        if (rc2 <? 0) || (rc <? rc2) then
          let* m := free m c in Ok (mk_str PNull 0, m)
        else Ok (mk_str (padd c SHDR) rc, m).

(** string/sc_str.c:145-153 [sc_str_destroy]. *)
Definition str_destroy (s : str) (m : mem) : res (str * mem) :=
  if isnull (s_ptr s) then Ok (s, m)
  else let* m := free m (padd (s_ptr s) (- SHDR)) in Ok (mk_str PNull 0, m).

(** The end of set, set_fmt, trim, substring and replace: the old string is
    destroyed and the new one stored (string/sc_str.c:185-186, :201-202, :350-351, :377-378, :449-450). *)
Definition str_store (s c : str) (m : mem) : res (str * mem) :=
  let* (_, m) := str_destroy s m in Ok (c, m).

(** string/sc_str.c:176-189 [sc_str_set]. *)
Definition str_set (s : str) (src : ptr) (len : Z) (ans : answer) (m : mem) : res (str * mem) :=
  let* (c, m) := str_create src len ans m in
  if isnull (s_ptr c) then Ok (s, m) else str_store s c m.

(** string/sc_str.c:191-206 [sc_str_set_fmt]. *)
Definition str_set_fmt (s : str) (rc rc2 : Z) (ans : answer) (m : mem) : res (str * mem) :=
  let* (c, m) := str_create_va rc rc2 ans m in
  if isnull (s_ptr c) then Ok (s, m) else str_store s c m.

(** string/sc_str.c:208-233 [sc_str_append]; strlen(param) is [len].  The
    subtraction SC_STR_MAX - m->len is of type size_t. *)
Definition str_append (s : str) (src : ptr) (len : Z) (ans : answer) (m : mem) : res (str * mem) :=
  if isnull (s_ptr s) then str_create src len ans m
  else
    let* _ := rd m (s_ptr s) (- SHDR) 4 in
    let* _ := rd m src 0 (len + 1) in
    if u64 (SC_STR_MAX - s_len s) <? len then Ok (s, m)
    else
      let* (c, m) := realloc m (padd (s_ptr s) (- SHDR)) (str_bytes (s_len s + len)) ans in
      if isnull c then Ok (s, m)
      else
        let* _ := rd m src 0 len in
        let* _ := wr m c (SHDR + s_len s) len in
        let n := u32 (s_len s + len) in
        let* _ := wr m c 0 4 in
        let* _ := wr m c (SHDR + n) 1 in
        Ok (mk_str (padd c SHDR) n, m).

(** string/sc_str.c:321-355 [sc_str_trim]; what remains are [n] bytes from [h].
    string/sc_str.c:357-381 [sc_str_substring] with start [h] and end [h + n]:
    the copy is also made when nothing is cut off, which only trim avoids. *)
Definition str_cut (s : str) (h n : Z) (always : bool) (ans : answer) (m : mem) : res (str * mem) :=
  if isnull (s_ptr s) then Ok (s, m)
  else
    let* _ := rd m (s_ptr s) (- SHDR) (SHDR + s_len s + 1) in
    if negb always && (h =? 0) && (n =? s_len s) then Ok (s, m)
    else
      let* (c, m) := str_create_len (padd (s_ptr s) h) n ans m in
      if isnull (s_ptr c) then Ok (s, m) else str_store s c m.

(** string/sc_str.c:383-453 [sc_str_replace]; [n]: size of the result when the
    lengths differ and there is a match, None otherwise (the string is then at
    most overwritten in place). *)
Definition str_replace (s : str) (n : option Z) (ans : answer) (m : mem) : res (str * mem) :=
  if isnull (s_ptr s) then Ok (s, m)
  else
    let* _ := wr m (s_ptr s) (- SHDR) (SHDR + s_len s + 1) in
    match n with
    | None => Ok (s, m)
    | Some n =>
        let (c, m) := malloc m (str_bytes n) ans in
        if isnull c then Ok (s, m)
        else
          let* _ := wr m c 0 (SHDR + n + 1) in
          str_store s (mk_str (padd c SHDR) (u32 n)) m
    end.

(** string/sc_str.c:155-162 [sc_str_len], :235-241 [sc_str_cmp], :243-319 the
    tokenizer: the header, the characters and the terminator are used. *)
Definition str_use (s : str) (m : mem) : res (str * mem) :=
  if isnull (s_ptr s) then Ok (s, m)
  else let* _ := wr m (s_ptr s) (- SHDR) (SHDR + s_len s + 1) in Ok (s, m).

(** ** Timer *)

(** timer/sc_timer.h:57-62. *)
Record timer := mk_timer { t_wheel : Z; t_list : ptr }.

(** sizeof(struct sc_timer_data) (timer/sc_timer.h:51-55). *)
Definition TW : Z := 24.

(** timer/sc_timer.c:37-42 WHEEL_COUNT, SC_TIMER_MAX. *)
Definition SC_TIMER_MAX : Z := (2^32 - 1) / TW / 16.

(** timer/sc_timer.c:44-49 [sc_timer_init]. *)
Definition timer_init : timer := mk_timer 0 PNull.

(** timer/sc_timer.c:51-58 [sc_timer_term]. *)
Definition timer_term (t : timer) (m : mem) : res (timer * mem) :=
  let* m := free m (t_list t) in Ok (mk_timer 0 PNull, m).

(** timer/sc_timer.c:60-70 [sc_timer_clear]. *)
Definition timer_clear (t : timer) (m : mem) : res (timer * mem) :=
  let* _ := wr m (t_list t) 0 (u32 (t_wheel t * 16) * TW) in Ok (t, m).

(** The copy loop of timer/sc_timer.c:98-106, from round [i]. *)
Fixpoint timer_copy (n : nat) (i : Z) (t : timer) (p : ptr) (m : mem) : res unit :=
  match n with
  | O => Ok tt
  | S n' =>
      let* _ := wr m p (u32 (u32 (i * t_wheel t) * 2) * TW) (TW * t_wheel t) in
      let* _ := rd m (t_list t) (u32 (i * t_wheel t) * TW) (TW * t_wheel t) in
      timer_copy n' (i + 1) t p m
  end.

(** timer/sc_timer.c:72-114 [expand]. *)
Definition timer_expand (t : timer) (ans : answer) (m : mem) : res (bool * timer * mem) :=
  let wheel := if t_wheel t =? 0 then 4 else u32 (t_wheel t * 2) in
  let cap := u32 (wheel * 16 * 2) in
  let sz := cap * TW in
  if SC_TIMER_MAX / 2 <=? t_wheel t then Ok (false, t, m)
  else
    let (p, m) := malloc m sz ans in
    if isnull p then Ok (false, t, m)
    else
      let* _ := wr m p 0 (cap * TW) in
      let* _ := if t_wheel t =? 0 then Ok tt else timer_copy 16 0 t p m in
      let* m := free m (t_list t) in
      Ok (true, mk_timer wheel p, m).

(** timer/sc_timer.c:116-147 [sc_timer_add] into bucket [pos]; [room]: the
    first free place of the bucket, None if it is full. *)
Definition timer_add (t : timer) (pos : Z) (room : option Z) (ans : answer) (m : mem)
    : res (timer * mem) :=
  match room with
  | Some seq =>
      let* _ := rd m (t_list t) (u32 (pos * t_wheel t) * TW) ((seq + 1) * TW) in
      let* _ := wr m (t_list t) (u32 (u32 (pos * t_wheel t) + seq) * TW) TW in
      Ok (t, m)
  | None =>
      let* _ := rd m (t_list t) (u32 (pos * t_wheel t) * TW) (t_wheel t * TW) in
      let seq := t_wheel t in
      let* (ok, t, m) := timer_expand t ans m in
      if negb ok then Ok (t, m)
      else
        let* _ := wr m (t_list t) (u32 (u32 (pos * t_wheel t) + seq) * TW) TW in
        Ok (t, m)
  end.

(** timer/sc_timer.c:149-161 [sc_timer_cancel] of an id other than
    SC_TIMER_INVALID. *)
Definition timer_cancel (t : timer) (id : Z) (m : mem) : res (timer * mem) :=
  let pos := u64 (u32 (u32 id * t_wheel t) + Z.shiftr id 32) in
  let* _ := wr m (t_list t) (pos * TW) TW in Ok (t, m).

(** timer/sc_timer.c:184-207, one round of the inner loop of
    [sc_timer_timeout] for wheel [head] and item [i]; calls made in the
    callback are calls of the history. *)
Definition timer_visit (t : timer) (head i : Z) (m : mem) : res (timer * mem) :=
  let* _ := wr m (t_list t) (u32 (u32 (t_wheel t * head) + i) * TW) TW in Ok (t, m).

(** ** URI *)

(** sizeof(struct sc_uri): eight pointers (uri/sc_uri.h:66-77). *)
Definition UHDR : Z := 64.

(** uri/sc_uri.c:134-183, the allocating part of [sc_uri_create]: [full] and
    [parts] are full_len and parts_len, [ok1] and [ok2] say that the two
    snprintf calls give the expected lengths. *)
Definition uri_create (full parts : Z) (ok1 ok2 : bool) (ans : answer) (m : mem)
    : res (ptr * mem) :=
  let (u, m) := malloc m (u64 (UHDR + parts + full)) ans in
  if isnull u then Ok (PNull, m)
  else
    let* _ := wr m u UHDR full in
    if negb ok1 then let* m := free m u in Ok (PNull, m)
    else
      let* _ := wr m u (UHDR + full) parts in
      if negb ok2 then let* m := free m u in Ok (PNull, m)
      else let* _ := wr m u 0 UHDR in Ok (u, m).

(** uri/sc_uri.c:185-188 [sc_uri_destroy]. *)
Definition uri_destroy (u : ptr) (m : mem) : res mem := free m u.

(** ** Programs *)

(** A variable of the program: an object of the library, or none
    (array/sc_array.h:56, heap/sc_heap.h:54, queue/sc_queue.h:55, map/sc_map.h:66,
    buffer/sc_buf.h:59, string/sc_str.c:50, timer/sc_timer.h:57, uri/sc_uri.h:66). *)
Inductive obj :=
| ONone
| OArr (a : arr) | OHeap (h : heap) | OQueue (q : queue) | OMap (p : map_)
| OBuf (b : buf) | OStr (s : str) | OTimer (t : timer) | OUri (u : ptr).

(** Calls that set up a variable: array/sc_array.h:68, heap/sc_heap.c:40,
    queue/sc_queue.h:101, map/sc_map.c:115, buffer/sc_buf.c:42, :60 (memory of
    the caller, or memory from the same allocator handed over), string/sc_str.c:64, :75, :95,
    timer/sc_timer.c:44, uri/sc_uri.c:134. *)
Inductive creation :=
| CArr (w : Z)
| CHeap (c : Z) (ans : answer)
| CQueue (w : Z) (ans : answer)
| CMap (w : Z) (e : ptr) (c lf : Z) (ans : answer)
| CBuf (c : Z) (ans : answer)
| CWrap (p : ptr) (len : Z) (data : bool)
| CWrapOwn (len : Z) (data : bool) (ans : answer)
| CStr (src : ptr) (len : Z) (ans : answer)
| CStrLen (src : ptr) (len : Z) (ans : answer)
| CStrFmt (rc rc2 : Z) (ans : answer)
| CTimer
| CUri (full parts : Z) (ok1 ok2 : bool) (ans : answer).

(** Calls on a variable: array/sc_array.h:76-209, heap/sc_heap.c:61-152,
    queue/sc_queue.h:117-256, map/sc_map.c:146-339, buffer/sc_buf.c:75-636,
    string/sc_str.c:145-453, timer/sc_timer.c:51-207, uri/sc_uri.c:185. *)
Inductive op :=
| Term
| AAdd (ans : answer) | ADel (i : Z) | ADelUnordered (i : Z) | ADelLast | AClear
| AAt (i : Z) | AAll
| HAdd (ans : answer) | HPop | HPeek | HClear
| QAddLast (ans : answer) | QAddFirst (ans : answer) | QDelLast | QDelFirst | QClear | QAt (i : Z)
| MPut (z isnew : bool) (ans : answer) | MGet (z : bool) | MDel (z hit : bool) | MClear | MEach
| BReserve (len : Z) (ans : answer) | BShrink (len : Z) (ans : answer)
| BPut (src : ptr) (len : Z) (ans : answer) | BAccess (w : bool) (pos n : Z)
| BAt (pos n : Z) | BCompact | BLimit (l : Z) | BMove (r w : Z) (clear : bool)
| SSet (src : ptr) (len : Z) (ans : answer) | SSetFmt (rc rc2 : Z) (ans : answer)
| SAppend (src : ptr) (len : Z) (ans : answer)
| SCut (h n : Z) (always : bool) (ans : answer) | SReplace (n : option Z) (ans : answer) | SUse
| TAdd (pos : Z) (room : option Z) (ans : answer) | TCancel (id : Z) | TVisit (head i : Z) | TClear.

(** Result of a call as a variable (uri/sc_uri.c:183, string/sc_str.c:92). *)
Definition wrap {A} (f : A -> obj) (r : res (A * mem)) : res (obj * mem) :=
  let* (a, m) := r in Ok (f a, m).

(** A call that sets up a variable; see [creation] for the lines
    (array/sc_array.h:68 and the others). *)
Definition create (c : creation) (m : mem) : res (obj * mem) :=
  match c with
  | CArr w => Ok (OArr (arr_init w), m)
  | CHeap c ans => wrap OHeap (heap_init c ans m)
  | CQueue w ans => wrap OQueue (q_init w ans m)
  | CMap w e c lf ans =>
      let* (r, m) := map_init w e c lf ans m in
      Ok (match r with Some p => OMap p | None => ONone end, m)
  | CBuf c ans => wrap OBuf (buf_init c ans m)
  | CWrap p len data => Ok (OBuf (buf_wrap p len true data), m)
  | CWrapOwn len data ans =>
      let (p, m) := malloc m len ans in
      if isnull p then Ok (ONone, m) else Ok (OBuf (buf_wrap p len false data), m)
  | CStr src len ans => wrap OStr (str_create src len ans m)
  | CStrLen src len ans => wrap OStr (str_create_len src len ans m)
  | CStrFmt rc rc2 ans => wrap OStr (str_create_va rc rc2 ans m)
  | CTimer => Ok (OTimer timer_init, m)
  | CUri full parts ok1 ok2 ans => wrap OUri (uri_create full parts ok1 ok2 ans m)
  end.

(** The call that ends the use of a variable: array/sc_array.h:76,
    heap/sc_heap.c:61, queue/sc_queue.h:117, map/sc_map.c:146, buffer/sc_buf.c:75,
    string/sc_str.c:145, timer/sc_timer.c:51, uri/sc_uri.c:185 (after which
    the pointer must not be used any more: no variable is left). *)
Definition term (o : obj) (m : mem) : res (obj * mem) :=
  match o with
  | ONone => Ok (ONone, m)
  | OArr a => wrap OArr (arr_term a m)
  | OHeap h => wrap OHeap (heap_term h m)
  | OQueue q => wrap OQueue (q_term q m)
  | OMap p => wrap OMap (map_term p m)
  | OBuf b => wrap OBuf (buf_term b m)
  | OStr s => wrap OStr (str_destroy s m)
  | OTimer t => wrap OTimer (timer_term t m)
  | OUri u => let* m := uri_destroy u m in Ok (ONone, m)
  end.

(** A call on a variable; see [op] for the lines (array/sc_array.h:76-209 and
    the others).  Calls on a variable of another type are undefined. *)
Definition apply (o : obj) (c : op) (m : mem) : res (obj * mem) :=
  match o, c with
  | _, Term => term o m
  | OArr a, AAdd ans => wrap OArr (arr_add a ans m)
  | OArr a, ADel i => wrap OArr (arr_del a i m)
  | OArr a, ADelUnordered i => wrap OArr (arr_del_unordered a i m)
  | OArr a, ADelLast => wrap OArr (arr_del_last a m)
  | OArr a, AClear => wrap OArr (arr_clear a m)
  | OArr a, AAt i => wrap OArr (arr_at a i m)
  | OArr a, AAll => wrap OArr (arr_all a m)
  | OHeap h, HAdd ans => wrap OHeap (heap_add h ans m)
  | OHeap h, HPop => wrap OHeap (heap_pop h m)
  | OHeap h, HPeek => wrap OHeap (heap_peek h m)
  | OHeap h, HClear => wrap OHeap (heap_clear h m)
  | OQueue q, QAddLast ans => wrap OQueue (q_add_last q ans m)
  | OQueue q, QAddFirst ans => wrap OQueue (q_add_first q ans m)
  | OQueue q, QDelLast => wrap OQueue (q_del_last q m)
  | OQueue q, QDelFirst => wrap OQueue (q_del_first q m)
  | OQueue q, QClear => wrap OQueue (q_clear q m)
  | OQueue q, QAt i => wrap OQueue (q_at q i m)
  | OMap p, MPut z isnew ans => wrap OMap (map_put p z isnew ans m)
  | OMap p, MGet z => wrap OMap (map_get p z m)
  | OMap p, MDel z hit => wrap OMap (map_del p z hit m)
  | OMap p, MClear => wrap OMap (map_clear p m)
  | OMap p, MEach => wrap OMap (map_each p m)
  | OBuf b, BReserve len ans => let* (_, b, m) := buf_reserve b len ans m in Ok (OBuf b, m)
  | OBuf b, BShrink len ans => wrap OBuf (buf_shrink b len ans m)
  | OBuf b, BPut src len ans => wrap OBuf (buf_put b src len ans m)
  | OBuf b, BAccess w pos n => wrap OBuf (buf_access b w pos n m)
  | OBuf b, BAt pos n => wrap OBuf (buf_at b pos n m)
  | OBuf b, BCompact => wrap OBuf (buf_compact b m)
  | OBuf b, BLimit l => Ok (OBuf (buf_limit b l), m)
  | OBuf b, BMove r w clear => Ok (OBuf (buf_move_to b r w clear), m)
  | OStr s, SSet src len ans => wrap OStr (str_set s src len ans m)
  | OStr s, SSetFmt rc rc2 ans => wrap OStr (str_set_fmt s rc rc2 ans m)
  | OStr s, SAppend src len ans => wrap OStr (str_append s src len ans m)
  | OStr s, SCut h n always ans => wrap OStr (str_cut s h n always ans m)
  | OStr s, SReplace n ans => wrap OStr (str_replace s n ans m)
  | OStr s, SUse => wrap OStr (str_use s m)
  | OTimer t, TAdd pos room ans => wrap OTimer (timer_add t pos room ans m)
  | OTimer t, TCancel id => wrap OTimer (timer_cancel t id m)
  | OTimer t, TVisit head i => wrap OTimer (timer_visit t head i m)
  | OTimer t, TClear => wrap OTimer (timer_clear t m)
  | _, _ => UB
  end.

(** A program's state: its variables and the store
    (array/sc_array.h:56 and the other structs listed at [obj]). *)
Record world := mk_world { vars : list obj; store : mem }.

(** A step of the program: a call that sets up a new variable or a call on
    variable [i] (array/sc_array.h:68-209 and the lines listed at [creation]
    and [op]). *)
Inductive call := New (c : creation) | On (i : nat) (c : op).

(** array/sc_array.h:68-209 and the lines listed at [creation] and [op]. *)
Definition step (w : world) (c : call) : res world :=
  match c with
  | New c => let* (o, m) := create c (store w) in Ok (mk_world (vars w ++ [o]) m)
  | On i c =>
      match nth_error (vars w) i with
      | None => UB
      | Some o => let* (o, m) := apply o c (store w) in Ok (mk_world (lset (vars w) i o) m)
      end
  end.
