(** Model of buffer/sc_buf.c and the length helpers of sc_buf.h.
    A buffer's memory is a list of bytes; a pointer into it is an offset.
    uint64_t arithmetic wraps ([u64]); accesses outside the memory are UB. *)
From Verif Require Import Base.

(** buffer/sc_buf.c:36-40 [SC_BUF_MAX], [NULL_LEN]; sc_buf.h:52-53 error bits. *)
Definition BUF_MAX : Z := 2^64 - 1 - 4096.
(** buffer/sc_buf.c:40. *)
Definition NULL_LEN : Z := BUF_MAX.
(** buffer/sc_buf.h:52. *)
Definition CORRUPT : Z := 1.
(** buffer/sc_buf.h:53. *)
Definition OOM : Z := 3.

(** buffer/sc_buf.h:59-69 [struct sc_buf]. *)
Record buf := mk_buf {
  mem : list Z; cap : Z; limit : Z; rpos : Z; wpos : Z; err : Z; ref : bool }.

(** Field updates.
    (assignments to the fields of struct sc_buf, buffer/sc_buf.h:59-68: err.) *)
Definition with_err (b : buf) (e : Z) : buf :=
  mk_buf (mem b) (cap b) (limit b) (rpos b) (wpos b) e (ref b).
(** The same for rpos, buffer/sc_buf.h:59-68. *)
Definition with_rpos (b : buf) (p : Z) : buf :=
  mk_buf (mem b) (cap b) (limit b) p (wpos b) (err b) (ref b).
(** The same for wpos, buffer/sc_buf.h:59-68. *)
Definition with_wpos (b : buf) (p : Z) : buf :=
  mk_buf (mem b) (cap b) (limit b) (rpos b) p (err b) (ref b).
(** The same for the bytes behind mem, buffer/sc_buf.h:59-68. *)
Definition with_mem (b : buf) (m : list Z) : buf :=
  mk_buf m (cap b) (limit b) (rpos b) (wpos b) (err b) (ref b).
(** The statement [b->err |= e].
    (for instance buffer/sc_buf.c:126, :194.) *)
Definition flag (b : buf) (e : Z) : buf := with_err b (Z.lor (err b) e).

(** Outcome of one allocator call: refused, or granted with arbitrary bytes in
    the new part of the block.
    (buffer/sc_buf.c:49, :114, :142.) *)
Definition alloc := option (list Z).

(** realloc(m, n): the common prefix is kept, the rest is the junk.
    (buffer/sc_buf.c:114, :142.) *)
Definition grow (m : list Z) (n : Z) (junk : list Z) : list Z :=
  firstn (Z.to_nat n) m ++
  firstn (Z.to_nat n - length m) (map u8 junk ++ repeat 0 (Z.to_nat n)).

(** Loads and stores of [n] consecutive bytes.
    (The accesses of buffer/sc_buf.c:254-323, :452-464.) *)
Definition load (m : list Z) (pos n : Z) : res (list Z) :=
  if (0 <=? pos) && (0 <=? n) && (pos + n <=? zlen m) then Ok (zslice m pos n) else UB.
(** The accesses of buffer/sc_buf.c:325-398, :506-520: the bytes [bs] are stored from [pos] on. *)
Definition store (m : list Z) (pos : Z) (bs : list Z) : res (list Z) :=
  if (0 <=? pos) && (pos + zlen bs <=? zlen m)
  then Ok (firstn (Z.to_nat pos) m ++ bs ++ skipn (Z.to_nat (pos + zlen bs)) m) else UB.

(** buffer/sc_buf.c:60-73 [sc_buf_wrap]; the flag bits are two booleans, the
    length is the length of the data. *)
Definition buf_wrap (data : list Z) (isref isdata : bool) : buf :=
  let len := zlen data in
  mk_buf data len (if isref then len else BUF_MAX) 0 (if isdata then len else 0) 0 isref.

(** buffer/sc_buf.c:42-58 [sc_buf_init]; [ok] = outcome of calloc. *)
Definition buf_init (c : Z) (ok : bool) : buf * bool :=
  if 0 <? c then
    if ok then (buf_wrap (repeat 0 (Z.to_nat c)) false false, true)
    else (mk_buf [] 0 0 0 0 0 false, false)
  else (buf_wrap [] false false, true).

(** buffer/sc_buf.c:84-87 [sc_buf_limit]. *)
Definition buf_limit (b : buf) (l : Z) : buf :=
  mk_buf (mem b) (cap b) l (rpos b) (wpos b) (err b) (ref b).

(** buffer/sc_buf.c:99-128 [sc_buf_reserve].  realloc with size 0 (possible
    only after a wrap) would release the block: UB. *)
Definition buf_reserve (b : buf) (len : Z) (a : alloc) : res (buf * bool) :=
  if cap b <? u64 (wpos b + len) then
    let bad := (flag b OOM, false) in
    if ref b then Ok bad
    else
      let size := u64 (u64 (u64 (cap b + len) + 4095) / 4096 * 4096) in
      if (limit b <? size) || (BUF_MAX - 4096 <=? cap b) then Ok bad
      else if size =? 0 then UB
      else match a with
           | None => Ok bad
           | Some junk =>
               Ok (mk_buf (grow (mem b) size junk) size (limit b) (rpos b) (wpos b) (err b) (ref b), true)
           end
  else Ok (b, true).

(** buffer/sc_buf.c:226-241 [sc_buf_compact]. *)
Definition buf_compact (b : buf) : res buf :=
  let b := if rpos b =? wpos b then with_wpos (with_rpos b 0) 0 else b in
  if negb (rpos b =? 0) then
    let copy := u64 (wpos b - rpos b) in
    let* bs := load (mem b) (rpos b) copy in
    let* m := store (mem b) 0 bs in
    Ok (with_wpos (with_rpos (with_mem b m) 0) copy)
  else Ok b.

(** buffer/sc_buf.c:130-152 [sc_buf_shrink].  realloc of memory the buffer does
    not own (SC_BUF_REF) is UB. *)
Definition buf_shrink (b : buf) (len : Z) (a : alloc) : res (buf * bool) :=
  let* b := buf_compact b in
  if (cap b <? len) || (len <=? wpos b) then Ok (b, true)
  else
    let len := u64 (u64 (len + 4095) / 4096 * 4096) in
    if ref b then UB
    else if len =? 0 then UB
    else match a with
         | None => Ok (flag b OOM, false)
         | Some junk => Ok (mk_buf (grow (mem b) len junk) len (limit b) (rpos b) (wpos b) (err b) (ref b), true)
         end.

(** buffer/sc_buf.c:154-167: [sc_buf_valid], [sc_buf_quota], [sc_buf_size]. *)
Definition buf_valid (b : buf) : bool := err b =? 0.
(** buffer/sc_buf.c:159-162 [sc_buf_quota]. *)
Definition buf_quota (b : buf) : Z := u64 (cap b - wpos b).
(** buffer/sc_buf.c:164-167 [sc_buf_size]. *)
Definition buf_size (b : buf) : Z := u64 (wpos b - rpos b).

(** buffer/sc_buf.c:169-174 [sc_buf_clear]. *)
Definition buf_clear (b : buf) : buf := mk_buf (mem b) (cap b) (limit b) 0 0 0 (ref b).

(** buffer/sc_buf.c:176-184 [sc_buf_mark_read], [sc_buf_mark_write]. *)
Definition buf_mark_read (b : buf) (len : Z) : buf := with_rpos b (u64 (rpos b + len)).
(** buffer/sc_buf.c:181-184 [sc_buf_mark_write]. *)
Definition buf_mark_write (b : buf) (len : Z) : buf := with_wpos b (u64 (wpos b + len)).

(** buffer/sc_buf.c:191-209 [sc_buf_set_rpos], [sc_buf_set_wpos]. *)
Definition buf_set_rpos (b : buf) (pos : Z) : buf :=
  if wpos b <? pos then flag b CORRUPT else with_rpos b pos.
(** buffer/sc_buf.c:201-209 [sc_buf_set_wpos]. *)
Definition buf_set_wpos (b : buf) (pos : Z) : buf :=
  if cap b <? pos then flag b CORRUPT else with_wpos b pos.

(** The expression p[0] << 0 | p[1] << 8 | ... of buffer/sc_buf.c:281, 299-300,
    318-321, starting at shift [8 * i]. *)
Fixpoint le_or (bs : list Z) (i : Z) : Z :=
  match bs with
  | [] => 0
  | p :: r => Z.lor (Z.shiftl p (8 * i)) (le_or r (i + 1))
  end.

(** buffer/sc_buf.c:254-324 [sc_buf_peek_8_pos], _16_, _32_, _64_ for n = 1, 2,
    4, 8: (buffer, value, returned count).  For n = 1 the code reads mem[pos]
    directly, which is the same. *)
Definition peek_pos (n : Z) (b : buf) (pos : Z) : res (buf * Z * Z) :=
  if negb (err b =? 0) || (wpos b <? u64 (pos + n)) then Ok (flag b CORRUPT, 0, 0)
  else
    let* bs := load (mem b) pos n in
    Ok (b, le_or bs 0, n).

(** The stores p[i] = (unsigned char) ( *val >> 8 i) of buffer/sc_buf.c:348-349,
    365-368, 385-392. *)
Definition le_split (n : Z) (v : Z) : list Z :=
  map (fun i => u8 (Z.shiftr v (8 * Z.of_nat i))) (seq 0 (Z.to_nat n)).

(** buffer/sc_buf.c:325-395 [sc_buf_set_8_pos], _16_, _32_, _64_. *)
Definition set_pos (n : Z) (b : buf) (pos v : Z) : res (buf * Z) :=
  if negb (err b =? 0) || (cap b <? u64 (pos + n)) then Ok (flag b CORRUPT, 0)
  else
    let* m := store (mem b) pos (le_split n v) in
    Ok (with_mem b m, n).

(** buffer/sc_buf.c:397-450 [sc_buf_peek_N_at], [sc_buf_peek_N]. *)
Definition buf_peek_at (n : Z) (b : buf) (pos : Z) : res (buf * Z) :=
  let* (b', v, _) := peek_pos n b pos in Ok (b', v).
(** buffer/sc_buf.c:432-450 [sc_buf_peek_8] .. [sc_buf_peek_64], [n] bytes. *)
Definition buf_peek (n : Z) (b : buf) : res (buf * Z) := buf_peek_at n b (rpos b).

(** buffer/sc_buf.c:452-464 [sc_buf_peek_data]: (buffer, bytes put into dest,
    returned count). *)
Definition buf_peek_data (b : buf) (pos len : Z) : res (buf * list Z * Z) :=
  if negb (err b =? 0) || (wpos b <? u64 (pos + len)) then Ok (flag b CORRUPT, repeat 0 (Z.to_nat len), 0)
  else let* bs := load (mem b) pos len in Ok (b, bs, len).

(** buffer/sc_buf.c:466-504 [sc_buf_set_N_at], [sc_buf_set_N]. *)
Definition buf_set_at (n : Z) (b : buf) (pos v : Z) : res buf :=
  let* (b', _) := set_pos n b pos v in Ok b'.
(** buffer/sc_buf.c:486-504 [sc_buf_set_8] .. [sc_buf_set_64], [n] bytes. *)
Definition buf_set (n : Z) (b : buf) (v : Z) : res buf := buf_set_at n b (wpos b) v.

(** buffer/sc_buf.c:506-520 [sc_buf_set_data]; [src] has exactly len bytes. *)
Definition buf_set_data (b : buf) (offset : Z) (src : list Z) : res (buf * Z) :=
  let len := zlen src in
  if negb (err b =? 0) || (cap b <? u64 (offset + len)) then Ok (flag b CORRUPT, 0)
  else if len =? 0 then Ok (b, 0)
  else let* m := store (mem b) offset src in Ok (with_mem b m, len).

(** buffer/sc_buf.c:527-561 [sc_buf_get_8], _16, _32, _64. *)
Definition buf_get (n : Z) (b : buf) : res (buf * Z) :=
  let* (b', v, adv) := peek_pos n b (rpos b) in
  Ok (with_rpos b' (u64 (rpos b' + adv)), v).

(** buffer/sc_buf.c:522-525 [sc_buf_get_bool]. *)
Definition buf_get_bool (b : buf) : res (buf * bool) :=
  let* (b', v) := buf_get 1 b in Ok (b', negb (v =? 0)).

(** buffer/sc_buf.c:563-572 [sc_buf_get_double]; a double is its bit pattern. *)
Definition buf_get_double (b : buf) : res (buf * Z) := buf_get 8 b.

(** buffer/sc_buf.c:574-597 [sc_buf_get_str]: the pointer is an offset into
    [mem], None = NULL. *)
Definition buf_get_str (b : buf) : res (buf * option Z) :=
  let* (b, len) := buf_get 8 b in
  if len =? NULL_LEN then Ok (b, None)
  else if negb (buf_valid b) then Ok (b, None)
  else if wpos b <? u64 (u64 (rpos b + len) + 1) then Ok (flag b CORRUPT, None)
  else Ok (with_rpos b (u64 (rpos b + u64 (len + 1))), Some (rpos b)).

(** buffer/sc_buf.c:599-616 [sc_buf_get_blob]. *)
Definition buf_get_blob (b : buf) (len : Z) : res (buf * option Z) :=
  if len =? 0 then Ok (b, None)
  else if wpos b <? u64 (rpos b + len) then Ok (flag b CORRUPT, None)
  else Ok (with_rpos b (u64 (rpos b + len)), Some (rpos b)).

(** buffer/sc_buf.c:618-627 [sc_buf_get_data]: (buffer, bytes put into dest). *)
Definition buf_get_data (b : buf) (len : Z) : res (buf * list Z) :=
  if wpos b <? u64 (rpos b + len) then Ok (flag b CORRUPT, repeat 0 (Z.to_nat len))
  else
    let* (b', bs, adv) := buf_peek_data b (rpos b) len in
    Ok (with_rpos b' (u64 (rpos b' + adv)), bs).

(** buffer/sc_buf.c:629-636 [sc_buf_put_raw]. *)
Definition buf_put_raw (b : buf) (src : list Z) (a : alloc) : res buf :=
  let* (b, ok) := buf_reserve b (zlen src) a in
  if ok then
    let* (b', adv) := buf_set_data b (wpos b) src in
    Ok (with_wpos b' (u64 (wpos b' + adv)))
  else Ok b.

(** buffer/sc_buf.c:643-677 [sc_buf_put_8], _16, _32, _64. *)
Definition buf_put (n : Z) (b : buf) (v : Z) (a : alloc) : res buf :=
  let* (b, ok) := buf_reserve b n a in
  if ok then
    let* (b', adv) := set_pos n b (wpos b) v in
    Ok (with_wpos b' (u64 (wpos b' + adv)))
  else Ok b.

(** buffer/sc_buf.c:638-641 [sc_buf_put_bool]. *)
Definition buf_put_bool (b : buf) (v : bool) (a : alloc) : res buf :=
  buf_put 1 b (if v then 1 else 0) a.

(** buffer/sc_buf.c:679-685 [sc_buf_put_double] (bit pattern). *)
Definition buf_put_double (b : buf) (v : Z) (a : alloc) : res buf := buf_put 8 b v a.

(** buffer/sc_buf.c:687-704 [sc_buf_put_str]; None = NULL, Some s = a C string
    with contents [s]; one allocator outcome per inner put. *)
Definition buf_put_str (b : buf) (s : option (list Z)) (a1 a2 : alloc) : res buf :=
  match s with
  | None => buf_put 8 b NULL_LEN a1
  | Some s =>
      if BUF_MAX <=? zlen s then Ok (flag b CORRUPT)
      else
        let* b := buf_put 8 b (zlen s) a1 in
        buf_put_raw b (s ++ [0]) a2
  end.

(** buffer/sc_buf.c:706-716 [sc_buf_put_str_len]. *)
Definition buf_put_str_len (b : buf) (s : option (list Z)) (a1 a2 a3 : alloc) : res buf :=
  match s with
  | None => buf_put 8 b NULL_LEN a1
  | Some s =>
      let* b := buf_put 8 b (zlen s) a1 in
      let* b := buf_put_raw b s a2 in
      buf_put 1 b 0 a3
  end.

(** buffer/sc_buf.c:816-820 [sc_buf_put_blob]. *)
Definition buf_put_blob (b : buf) (s : list Z) (a1 a2 : alloc) : res buf :=
  let* b := buf_put 8 b (zlen s) a1 in
  buf_put_raw b s a2.

(** buffer/sc_buf.c:243-252 [sc_buf_move]: (dest, src).  The two buffers are
    different objects. *)
Definition buf_move (dest src : buf) (a : alloc) : res (buf * buf) :=
  let quota := buf_quota dest in
  let size := buf_size src in
  let copy := if quota <? size then quota else size in
  let* bs := load (mem src) (rpos src) copy in
  let* dest := buf_put_raw dest bs a in
  Ok (dest, with_rpos src (u64 (rpos src + copy))).

(** vsnprintf(mem + pos, quota, ...) where the formatted text is [text]: writes
    at most quota - 1 bytes and a NUL; returns the length of the text.
    (buffer/sc_buf.c:736, :755, :782, :800.) *)
Definition vsnprintf (m : list Z) (pos quota : Z) (text : list Z) : res (list Z) :=
  if quota =? 0 then Ok m
  else store m pos (firstn (Z.to_nat (quota - 1)) text ++ [0]).

(** buffer/sc_buf.c:718-768 [sc_buf_put_fmt].  [text] is what the format
    produces (None = vsnprintf fails). *)
Definition buf_put_fmt (b : buf) (text : option (list Z)) (a : alloc) : res buf :=
  let pos := wpos b in
  let quota := buf_quota b in
  let quota := if 8 <? quota then quota - 8 else 0 in
  match text with
  | None => Ok (flag b CORRUPT)
  | Some text =>
      let wr := zlen text in
      let* m := vsnprintf (mem b) (wpos b + 8) quota text in
      let b := with_mem b m in
      let finish (b : buf) :=
        let* b := buf_set_at 8 b pos wr in
        Ok (buf_mark_write b (u64 (u64 (wr + 8) + 1))) in
      if quota <=? wr then
        let* (b, ok) := buf_reserve b (u64 (wr + 8)) a in
        if ok then
          let quota := u64 (buf_quota b - 8) in
          let* m := vsnprintf (mem b) (wpos b + 8) quota text in
          let b := with_mem b m in
          if quota <=? wr then Ok (flag b OOM) else finish b
        else Ok b
      else finish b
  end.

(** buffer/sc_buf.c:770-814 [sc_buf_put_text]. *)
Definition buf_put_text (b : buf) (text : option (list Z)) (a : alloc) : res buf :=
  let off := if 0 <? buf_size b then 1 else 0 in
  let quota := buf_quota b in
  match text with
  | None => Ok (buf_set_wpos (flag b CORRUPT) 0)
  | Some text =>
      let wr := zlen text in
      let* m := vsnprintf (mem b) (wpos b - off) quota text in
      let b := with_mem b m in
      let finish (b : buf) := Ok (buf_mark_write b (u64 (wr - off + 1))) in
      if quota <=? wr then
        let* (b, ok) := buf_reserve b (u64 (wr + 1)) a in
        if ok then
          let quota := buf_quota b in
          let* m := vsnprintf (mem b) (wpos b - off) quota text in
          let b := with_mem b m in
          if quota <=? wr then Ok (buf_set_wpos (with_err b OOM) 0) else finish b
        else Ok (buf_set_wpos b 0)
      else finish b
  end.

(** buffer/sc_buf.h:392-416 the length helpers. *)
Definition len_fixed (n : Z) : Z := n.
(** buffer/sc_buf.h:400-405 [sc_buf_blob_len]. *)
Definition len_blob (len : Z) : Z := u64 (len + 8).
(** buffer/sc_buf.h:407-416 [sc_buf_str_len]. *)
Definition len_str (s : option (list Z)) : Z :=
  match s with None => 8 | Some s => u64 (9 + zlen s) end.

(** ** The calls of a user's program *)

(** Typed writes.
    (The calls buffer/sc_buf.c:629-716, :816-823.) *)
Inductive wop :=
| PBool (v : bool) | PInt (n v : Z) | PDouble (v : Z)
| PStr (s : option (list Z)) | PStrLen (s : option (list Z)) | PBlob (s : list Z) | PRaw (s : list Z).
(** The call [w], buffer/sc_buf.c:629-716, :816-823; the oracle answers are used in order. *)
Definition buf_write (b : buf) (w : wop) (a1 a2 a3 : alloc) : res buf :=
  match w with
  | PBool v => buf_put_bool b v a1
  | PInt n v => buf_put n b v a1
  | PDouble v => buf_put_double b v a1
  | PStr s => buf_put_str b s a1 a2
  | PStrLen s => buf_put_str_len b s a1 a2 a3
  | PBlob s => buf_put_blob b s a1 a2
  | PRaw s => buf_put_raw b s a1
  end.

(** Typed reads and what they give back.
    (buffer/sc_buf.c:522-627.) *)
Inductive rop :=
| GBool | GInt (n : Z) | GDouble | GStr | GBlob (len : Z) | GData (len : Z)
| KInt (n pos : Z) | KData (pos len : Z).
(** What the calls buffer/sc_buf.c:522-627 give back. *)
Inductive rval := RBool (v : bool) | RInt (v : Z) | RPtr (p : option Z) | RBytes (l : list Z).
(** The call [r], buffer/sc_buf.c:522-627. *)
Definition buf_read (b : buf) (r : rop) : res (buf * rval) :=
  match r with
  | GBool => let* (b, v) := buf_get_bool b in Ok (b, RBool v)
  | GInt n => let* (b, v) := buf_get n b in Ok (b, RInt v)
  | GDouble => let* (b, v) := buf_get_double b in Ok (b, RInt v)
  | GStr => let* (b, p) := buf_get_str b in Ok (b, RPtr p)
  | GBlob len => let* (b, p) := buf_get_blob b len in Ok (b, RPtr p)
  | GData len => let* (b, l) := buf_get_data b len in Ok (b, RBytes l)
  | KInt n pos => let* (b, v) := buf_peek_at n b pos in Ok (b, RInt v)
  | KData pos len => let* (b, l, _) := buf_peek_data b pos len in Ok (b, RBytes l)
  end.

(** The C string a pointer denotes: the bytes before the first NUL.
    (what the user does with the result of buffer/sc_buf.c:574-597.) *)
Fixpoint until_nul (l : list Z) : option (list Z) :=
  match l with
  | [] => None
  | c :: r => if c =? 0 then Some [] else option_map (cons c) (until_nul r)
  end.
(** The C string at position [p], as the user of buffer/sc_buf.c:574-597 reads it. *)
Definition cstr (b : buf) (p : Z) : option (list Z) := until_nul (skipn (Z.to_nat p) (mem b)).
