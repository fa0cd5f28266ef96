(** Specification of sc_buf: a byte queue holding little-endian encodings. *)
From Verif Require Import Base BufModel.

(** A buffer as the API leaves it: positions in order, the capacity is the size
    of the memory block, the block holds bytes. *)
Definition byte (z : Z) : Prop := 0 <= z < 256.
Record wf (b : buf) : Prop := mk_wf {
  w_r : 0 <= rpos b; w_rw : rpos b <= wpos b; w_wc : wpos b <= cap b;
  w_cap : cap b = zlen (mem b); w_max : cap b < 2^64; w_lim : 0 <= limit b < 2^64;
  w_err : 0 <= err b;
  w_bytes : Forall byte (mem b) }.

(** The unread bytes. *)
Definition unread (b : buf) : list Z := zslice (mem b) (rpos b) (wpos b - rpos b).

(** Little-endian representation of [v] in [n] bytes. *)
Fixpoint le (n : nat) (v : Z) : list Z :=
  match n with O => [] | S n => v mod 256 :: le n (v / 256) end.

(** The number a little-endian byte string stands for. *)
Fixpoint val_le (bs : list Z) : Z := match bs with [] => 0 | b :: r => b + 256 * val_le r end.

(** Typed values and their encoding.  [VStr true] is written with
    sc_buf_put_str_len, [VStr false] with sc_buf_put_str. *)
Inductive value :=
| VBool (v : bool) | VInt (n v : Z) | VDouble (v : Z) | VStr (bylen : bool) (s : option (list Z)) | VBlob (s : list Z).
Definition value_ok (x : value) : Prop :=
  match x with
  | VBool _ => True
  | VInt n v => (n = 1 \/ n = 2 \/ n = 4 \/ n = 8) /\ 0 <= v < 2^(8 * n)
  | VDouble v => 0 <= v < 2^64
  | VStr _ None => True
  | VStr _ (Some s) => Forall (fun c => 0 < c < 256) s /\ zlen s < 2^62
  | VBlob s => Forall byte s /\ zlen s < 2^62
  end.
Definition enc (x : value) : list Z :=
  match x with
  | VBool v => [if v then 1 else 0]
  | VInt n v => le (Z.to_nat n) v
  | VDouble v => le 8 v
  | VStr _ None => le 8 (2^64 - 1 - 4096)
  | VStr _ (Some s) => le 8 (zlen s) ++ s ++ [0]
  | VBlob s => le 8 (zlen s) ++ s
  end.
Definition enc_all (xs : list value) : list Z := flat_map enc xs.

(** Writing a value; [a] gives the allocator's outcomes. *)
Definition write_value (b : buf) (x : value) (a : alloc * alloc * alloc) : res buf :=
  let '(a1, a2, a3) := a in
  match x with
  | VBool v => buf_write b (PBool v) a1 a2 a3
  | VInt n v => buf_write b (PInt n v) a1 a2 a3
  | VDouble v => buf_write b (PDouble v) a1 a2 a3
  | VStr bylen s => buf_write b (if bylen then PStrLen s else PStr s) a1 a2 a3
  | VBlob s => buf_write b (PBlob s) a1 a2 a3
  end.

(** Reading a value with the type of [x]; strings are the C string behind the
    returned pointer, a blob is a length followed by that many bytes. *)
Definition read_like (b : buf) (x : value) : res (buf * option value) :=
  match x with
  | VBool _ => let* (b, v) := buf_get_bool b in Ok (b, Some (VBool v))
  | VInt n _ => let* (b, v) := buf_get n b in Ok (b, Some (VInt n v))
  | VDouble _ => let* (b, v) := buf_get_double b in Ok (b, Some (VDouble v))
  | VStr l _ =>
      let* (b, p) := buf_get_str b in
      match p with
      | None => Ok (b, Some (VStr l None))
      | Some p => match cstr b p with Some s => Ok (b, Some (VStr l (Some s))) | None => UB end
      end
  | VBlob _ =>
      let* (b, len) := buf_get 8 b in
      let* (b, p) := buf_get_blob b len in
      match p with
      | None => Ok (b, if len =? 0 then Some (VBlob []) else None)
      | Some p => let* s := load (mem b) p len in Ok (b, Some (VBlob s))
      end
  end.

(** A program that writes and reads values in any order. *)
Inductive fop := FWrite (x : value) (a : alloc * alloc * alloc) | FRead.

(** The buffer behaves as a FIFO of typed values along the program: [q] are the
    values written and not yet read.  Reading is done with the type of the
    oldest value (and not from an empty buffer). *)
Fixpoint fifo (b : buf) (q : list value) (ops : list fop) : Prop :=
  buf_valid b = true /\ buf_size b = zlen (enc_all q) /\
  match ops with
  | [] => True
  | FWrite x a :: r => exists b', write_value b x a = Ok b' /\ fifo b' (q ++ [x]) r
  | FRead :: r =>
      match q with
      | [] => True
      | x :: q' => exists b', read_like b x = Ok (b', Some x) /\ fifo b' q' r
      end
  end.

(** The allocator never refuses, and every growth stays below the limit: each
    write makes at most three growths of less than a page beyond its size. *)
Definition granted (a : alloc * alloc * alloc) : Prop :=
  let '(a1, a2, a3) := a in a1 <> None /\ a2 <> None /\ a3 <> None.
Fixpoint budget (ops : list fop) : Z :=
  match ops with
  | [] => 0
  | FWrite x _ :: r => zlen (enc x) + 3 * 4096 + budget r
  | FRead :: r => budget r
  end.
Definition fop_ok (o : fop) : Prop :=
  match o with FWrite x a => value_ok x /\ granted a | FRead => True end.

(** Encoded size according to the helpers of sc_buf.h. *)
Definition helper_len (x : value) : Z :=
  match x with
  | VBool _ => len_fixed 1
  | VInt n _ => len_fixed n
  | VDouble _ => len_fixed 8
  | VStr _ s => len_str s
  | VBlob s => len_blob (zlen s)
  end.

(** ** Errors *)
(** Calls the stickiness claim is about: typed reads, typed and raw writes,
    in-place stores. *)
Inductive sop :=
| SRead (r : rop) | SWrite (w : wop) (a1 a2 a3 : alloc) | SSet (n pos v : Z).
(** Sensible arguments: lengths are not negative, the bytes are bytes, and the
    size of a write does not bring the capacity near 2^64. *)
Definition wsize (w : wop) : Z :=
  match w with
  | PBool _ => 1 | PInt n _ => n | PDouble _ => 8
  | PStr None | PStrLen None => 8
  | PStr (Some s) | PStrLen (Some s) => 8 + zlen s + 1
  | PBlob s => 8 + zlen s
  | PRaw s => zlen s
  end.
Definition warg_ok (w : wop) : Prop :=
  match w with
  | PInt n _ => 0 < n
  | PStr (Some s) | PStrLen (Some s) | PBlob s | PRaw s => Forall byte s
  | _ => True
  end.
Definition fits (b : buf) (w : wop) : Prop := cap b + wsize w + 3 * 4096 < 2^64 - 1 - 4096.
Definition sop_ok (b : buf) (o : sop) : Prop :=
  match o with
  | SRead (GBlob _) => False
  | SRead (GInt n) | SRead (KInt n _) => 0 < n
  | SRead (GData len) | SRead (KData _ len) => 0 <= len
  | SRead _ => True
  | SWrite w _ _ _ => warg_ok w /\ fits b w
  | SSet n _ _ => 0 < n
  end.
(** The result of a call, if it has one, carries no information. *)
Definition nothing (v : rval) : Prop :=
  match v with
  | RBool v => v = false | RInt v => v = 0 | RPtr p => p = None
  | RBytes l => Forall (fun c => c = 0) l
  end.
Definition sstep (b : buf) (o : sop) : res (buf * option rval) :=
  match o with
  | SRead r => let* (b, v) := buf_read b r in Ok (b, Some v)
  | SWrite w a1 a2 a3 => let* b := buf_write b w a1 a2 a3 in Ok (b, None)
  | SSet n pos v => let* b := buf_set_at n b pos v in Ok (b, None)
  end.
(** The buffer is frozen along the program: every call reports nothing, keeps
    both positions and every stored byte, and leaves the buffer invalid. *)
Fixpoint frozen (b : buf) (ops : list sop) : Prop :=
  match ops with
  | [] => True
  | o :: r => sop_ok b o -> exists b' v, sstep b o = Ok (b', v) /\
      (forall x, v = Some x -> nothing x) /\
      buf_valid b' = false /\ rpos b' = rpos b /\ wpos b' = wpos b /\
      (forall i, 0 <= i < cap b -> zget (mem b') i = zget (mem b) i) /\
      frozen b' r
  end.

(** ** Untrusted contents *)
(** The length prefix a string read would find. *)
Definition str_len_at (b : buf) : Z := val_le (zslice (mem b) (rpos b) 8).
(** A read whose position arithmetic stays below 2^64. *)
Definition tame (b : buf) (r : rop) : Prop :=
  match r with
  | GBool | GDouble => True
  | GInt n => 0 < n <= 8
  | GStr => err b = 0 -> rpos b + 8 <= wpos b -> str_len_at b = 2^64 - 1 - 4096 \/ rpos b + 8 + str_len_at b + 1 < 2^64
  | GBlob len | GData len => 0 <= len /\ rpos b + len < 2^64
  | KInt n pos => 0 < n <= 8 /\ 0 <= pos /\ pos + n < 2^64
  | KData pos len => 0 <= pos /\ 0 <= len /\ pos + len < 2^64
  end.
(** What a successful read hands out lies in the data that was unread (for the
    peeks: in the written data). *)
Definition inside (b b' : buf) (r : rop) (v : rval) : Prop :=
  match r, v with
  | GBool, RBool x => rpos b' = rpos b + 1 /\ exists c, zget (mem b) (rpos b) = Some c /\ x = negb (c =? 0)
  | GInt n, RInt x => rpos b' = rpos b + n /\ x = val_le (zslice (mem b) (rpos b) n)
  | GDouble, RInt x => rpos b' = rpos b + 8 /\ x = val_le (zslice (mem b) (rpos b) 8)
  | GStr, RPtr None => str_len_at b = 2^64 - 1 - 4096 /\ rpos b' = rpos b + 8
  | GStr, RPtr (Some p) => p = rpos b + 8 /\ p + str_len_at b + 1 = rpos b'
  | GBlob len, RPtr None => len = 0 /\ rpos b' = rpos b
  | GBlob len, RPtr (Some p) => p = rpos b /\ p + len = rpos b'
  | GData len, RBytes l => rpos b' = rpos b + len /\ l = zslice (mem b) (rpos b) len
  | KInt n pos, RInt x => rpos b' = rpos b /\ pos + n <= wpos b /\ x = val_le (zslice (mem b) pos n)
  | KData pos len, RBytes l => rpos b' = rpos b /\ pos + len <= wpos b /\ l = zslice (mem b) pos len
  | _, _ => False
  end.
(** Along a program of reads: never UB, positions in order, the read position
    only moves forward, memory and write position untouched; a read either
    succeeds inside the data or flags an error and reports nothing. *)
Fixpoint contained (b : buf) (rs : list rop) : Prop :=
  match rs with
  | [] => True
  | r :: rs => tame b r -> exists b' v, buf_read b r = Ok (b', v) /\
      mem b' = mem b /\ cap b' = cap b /\ wpos b' = wpos b /\ rpos b <= rpos b' <= wpos b' /\
      (buf_valid b = true -> buf_valid b' = true -> inside b b' r v) /\
      (buf_valid b = true -> buf_valid b' = false -> nothing v) /\
      contained b' rs
  end.

(** ** Limit *)
(** Everything that adds data to a buffer. *)
Inductive gop :=
| GWrite (w : wop) (a1 a2 a3 : alloc) | GFmt (text : option (list Z)) (a : alloc)
| GText (text : option (list Z)) (a : alloc) | GSet (n pos v : Z) | GReserve (len : Z) (a : alloc)
| GCompact | GMoveFrom (src : buf) (a : alloc).
Definition gstep (b : buf) (o : gop) : res buf :=
  match o with
  | GWrite w a1 a2 a3 => buf_write b w a1 a2 a3
  | GFmt t a => buf_put_fmt b t a
  | GText t a => buf_put_text b t a
  | GSet n pos v => buf_set_at n b pos v
  | GReserve len a => let* (b, _) := buf_reserve b len a in Ok b
  | GCompact => buf_compact b
  | GMoveFrom s a => let* (b, _) := buf_move b s a in Ok b
  end.
(** The same call when the allocator refuses everything. *)
Definition gdeny (o : gop) : gop :=
  match o with
  | GWrite w _ _ _ => GWrite w None None None
  | GFmt t _ => GFmt t None
  | GText t _ => GText t None
  | GReserve len _ => GReserve len None
  | GMoveFrom s _ => GMoveFrom s None
  | o => o
  end.
