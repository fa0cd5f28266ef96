(** Model of the sizes of the blocks that the containers ask for, with size_t of [W] bits
    (32 or 64): only the capacity and the number of bytes of the block are kept.
    The other models fix W = 64. *)
From Verif Require Import Base.

(** Arithmetic on size_t of [W] bits (for array/sc_array.h:91-107, heap/sc_heap.c:46-96). *)
Definition uw (W x : Z) : Z := x mod 2^W.
(** A container: the capacity it has stored, and the bytes of its block
    (array/sc_array.h:57-66, queue/sc_queue.h:54-63, heap/sc_heap.h:52-56,
    timer/sc_timer.h:57-62, buffer/sc_buf.h:60-70). *)
Record blk := mk_blk { bcap : Z; bytes : Z }.
(** malloc, calloc and realloc of [n] bytes: [ok] = the wish of the allocator, which never
    grants more than [lim] bytes (array/sc_array.h:101, heap/sc_heap.c:51, :90). *)
Definition grants (lim : Z) (ok : bool) (n : Z) : bool := ok && (n <=? lim).

Section Sizes.
Variables (W lim : Z).

(** array/sc_array.h:89-107: the growth in sc_array_add of items of [E] bytes.  SC_ARRAY_MAX
    is SIZE_MAX. *)
Definition array_grow (E : Z) (b : blk) (ok : bool) : blk :=
  let max := (2^W - 1) / E in
  if max / 2 <? bcap b then b
  else
    let cap := if bcap b =? 0 then 8 else uw W (bcap b * 2) in
    let n := uw W (cap * E) in
    if grants lim ok n then mk_blk cap n else b.

(** queue/sc_queue.h:101-111 [sc_queue_init]: calloc(1, sizeof * 8).  Capacity 8 is set whatever
    calloc says. *)
Definition queue_init (E : Z) (ok : bool) : blk :=
  let n := uw W (E * 8) in mk_blk 8 (if grants lim ok n then n else 0).
(** queue/sc_queue.h:72-92: the growth in sc_queue_expand.  calloc(_cap, sizeof) fails if the
    product does not fit size_t (ISO C 7.22.3.2). *)
Definition queue_grow (E : Z) (b : blk) (ok : bool) : blk :=
  if (2^W - 1) / 2 <? bcap b then b
  else
    let cap := uw W (bcap b * 2) in
    if grants lim ok (cap * E) && (cap * E <? 2^W) then mk_blk cap (cap * E) else b.

(** heap/sc_heap.c:43-62 [sc_heap_init] for [cap] items of 16 bytes (12 on i386: [E]);
    None = false. *)
Definition heap_init_size (E cap : Z) (ok : bool) : option blk :=
  let n := uw W (cap * E) in
  if cap =? 0 then Some (mk_blk 0 0)
  else if ((2^W - 1) / E <? cap) || negb (grants lim ok n) then None
  else Some (mk_blk cap n).
(** heap/sc_heap.c:85-96: the growth in sc_heap_add. *)
Definition heap_grow (E : Z) (b : blk) (ok : bool) : blk :=
  let cap := if bcap b =? 0 then 4 else uw W (bcap b * 2) in
  let n := uw W (uw W (cap * 2) * E) in
  if ((2^W - 1) / E / 2 <=? bcap b) || negb (grants lim ok n) then b else mk_blk cap n.

(** timer/sc_timer.c:70-108 [expand], items of 24 bytes (20 on i386: [E]).  The capacity is
    t->wheel; cap of :73 is 32 times as many. *)
Definition timer_grow (E : Z) (b : blk) (ok : bool) : blk :=
  let wheel := if bcap b =? 0 then 4 else u32 (bcap b * 2) in
  let cap := u32 (u32 (wheel * 16) * 2) in
  let n := uw W (cap * E) in
  if (2^32 - 1) / E / 16 / 2 <=? bcap b then b
  else if grants lim ok n then mk_blk wheel n else b.

(** buffer/sc_buf.c:42-58 [sc_buf_init]: the 64-bit [cap] becomes a size_t at :49.
    None = false. *)
Definition buf_init_size (cap : Z) (ok : bool) : option blk :=
  if cap =? 0 then Some (mk_blk 0 0)
  else let n := uw W cap in if grants lim ok n then Some (mk_blk cap n) else None.
(** buffer/sc_buf.c:99-128 [sc_buf_reserve] of a buffer that owns its block; [max] = b->limit,
    [wpos] = b->wpos.  The 64-bit size becomes a size_t at :114.  The result is
    what is returned. *)
Definition buf_reserve_size (max wpos : Z) (b : blk) (len : Z) (ok : bool) : blk * bool :=
  if bcap b <? u64 (wpos + len) then
    let size := u64 (u64 (u64 (bcap b + len) + 4095) / 4096 * 4096) in
    if (max <? size) || (2^64 - 1 - 4096 - 4096 <=? bcap b) then (b, false)
    else let n := uw W size in if grants lim ok n then (mk_blk size n, true) else (b, false)
  else (b, true).
(** buffer/sc_buf.c:130-153 [sc_buf_shrink] after compacting; [wpos] = b->wpos then. *)
Definition buf_shrink_size (wpos : Z) (b : blk) (len : Z) (ok : bool) : blk :=
  if (bcap b <? len) || (len <=? wpos) then b
  else
    let len := u64 (u64 (len + 4095) / 4096 * 4096) in
    let n := uw W len in if grants lim ok n then mk_blk len n else b.

(** string/sc_str.c:58 [sc_str_bytes]: 4 bytes of length, the text, one NUL. *)
Definition str_bytes (n : Z) : Z := uw W (uw W (n + 4) + 1).
(** string/sc_str.c:60-62 SC_STR_MAX. *)
Definition str_max : Z := 2^32 - 1 - 4 - 1.
(** string/sc_str.c:75-92 [sc_str_create_len] with a 32-bit [len]: the length stored and the
    bytes of the block; None = NULL. *)
Definition str_create_size (len : Z) (ok : bool) : option blk :=
  let n := str_bytes len in if grants lim ok n then Some (mk_blk len n) else None.
(** string/sc_str.c:208-233 [sc_str_append] of [len] bytes. *)
Definition str_append_size (b : blk) (len : Z) (ok : bool) : blk * bool :=
  let n := str_bytes (uw W (bcap b + len)) in
  if (uw W (str_max - bcap b) <? len) || negb (grants lim ok n) then (b, false)
  else (mk_blk (u32 (bcap b + u32 len)) n, true).
(** string/sc_str.c:391-412: the new length in [sc_str_replace] after [count] matches, and the
    block; the length grows by [diff] per match.  None = false. *)
Fixpoint str_replace_len (count : nat) (diff size : Z) : option Z :=
  match count with
  | O => Some size
  | S c => if str_max - diff <? size then None else str_replace_len c diff (uw W (size + diff))
  end.
(** string/sc_str.c:391-412, with the malloc of :406. *)
Definition str_replace_size (b : blk) (count : nat) (diff : Z) (ok : bool) : option blk :=
  match str_replace_len count diff (bcap b) with
  | None => None
  | Some size => let n := str_bytes size in if grants lim ok n then Some (mk_blk (u32 size) n) else None
  end.
End Sizes.
