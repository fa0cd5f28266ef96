(** Model of timer/sc_timer.c.  A slot of the table is (timeout, type, data);
    pointers passed as user data are numbers.  A failing assert is UB. *)
From Verif Require Import Base.

(** timer/sc_timer.h:50 SC_TIMER_INVALID; timer/sc_timer.c:37-42 TICK,
    WHEEL_COUNT, SC_TIMER_MAX (the slot structure has 24 bytes). *)
Definition INVALID : Z := 2^64 - 1.
(** timer/sc_timer.c:37. *)
Definition TICK : Z := 16.
(** timer/sc_timer.c:38. *)
Definition WHEELS : Z := 16.
(** timer/sc_timer.c:41. *)
Definition TIMER_MAX : Z := (2^32 - 1) / 24 / 16.

(** timer/sc_timer.h:52-63 [struct sc_timer_data], [struct sc_timer]. *)
Definition slot : Type := Z * Z * Z.
(** timer/sc_timer.h:57-62: struct sc_timer. *)
Record timer := mk_timer { ts : Z; head : Z; wheel : Z; slots : list slot }.

(** timer/sc_timer.c:44-49 [sc_timer_init]. *)
Definition timer_init (now : Z) : timer := mk_timer now 0 0 [].

(** A slot after timer/sc_timer.c:68-69 or 91-92: invalid timeout, no data
    (the type is left as it is, which nobody reads). *)
Definition free_slot : slot := (INVALID, 0, 0).

(** timer/sc_timer.c:60-71 [sc_timer_clear]. *)
Definition timer_clear (t : timer) : timer :=
  let cap := u32 (wheel t * WHEELS) in
  mk_timer (ts t) 0 (wheel t)
    (map (fun '(_, ty, _) => (INVALID, ty, 0)) (firstn (Z.to_nat cap) (slots t)) ++ skipn (Z.to_nat cap) (slots t)).

(** memcpy of whole slots: [xs] is stored at position [pos] of [l].
    (timer/sc_timer.c:72-112.) *)
Definition blit (l : list slot) (pos : Z) (xs : list slot) : res (list slot) :=
  if (0 <=? pos) && (pos + zlen xs <=? zlen l)
  then Ok (firstn (Z.to_nat pos) l ++ xs ++ skipn (Z.to_nat (pos + zlen xs)) l) else UB.

(** timer/sc_timer.c:97-104 the copy loop: wheels i, i+1, ..., [n] of them. *)
Fixpoint copy_wheels (n : nat) (i w : Z) (old new : list slot) : res (list slot) :=
  match n with
  | O => Ok new
  | S n =>
      let src := u32 (i * w) in
      let* new' := if src + w <=? zlen old then blit new (u32 (u32 (i * w) * 2)) (zslice old src w) else UB in
      copy_wheels n (i + 1) w old new'
  end.

(** timer/sc_timer.c:73-112 [expand]; [ok] = outcome of malloc.  The table
    has twice as many slots as the wheels use. *)
Definition timer_expand (t : timer) (ok : bool) : res (timer * bool) :=
  let w := if wheel t =? 0 then 4 else u32 (wheel t * 2) in
  let cap := u32 (u32 (w * WHEELS) * 2) in
  if cap =? 0 then UB
  else if TIMER_MAX / 2 <=? wheel t then Ok (t, false)
  else if negb ok then Ok (t, false)
  else
    let alloc := repeat free_slot (Z.to_nat cap) in
    let* alloc := if wheel t =? 0 then Ok alloc else copy_wheels 16 0 (wheel t) (slots t) alloc in
    Ok (mk_timer (ts t) (head t) w alloc, true).

(** timer/sc_timer.c:122-128 the search for a free slot, [n] candidates left
    from [seq]: the sequence number found, or the wheel size. *)
Fixpoint find_free (l : list slot) (base : Z) (n : nat) (seq : Z) : res Z :=
  match n with
  | O => Ok seq
  | S n =>
      let* (to, _, _) := zload l (base + seq) in
      if to =? INVALID then Ok seq else find_free l base n (seq + 1)
  end.

(** timer/sc_timer.c:114-146 [sc_timer_add]: (timer, id). *)
Definition timer_add (t : timer) (timeout type data : Z) (ok : bool) : res (timer * Z) :=
  let offset := u32 (timeout / TICK + head t) in
  let pos := Z.land offset (WHEELS - 1) in
  let put (t : timer) (seq : Z) :=
    let index := u32 (u32 (pos * wheel t) + seq) in
    let* l := zput (slots t) index (u64 (timeout + ts t), type, data) in
    let id := Z.lor (Z.shiftl seq 32) pos in
    if id =? INVALID then UB else Ok (mk_timer (ts t) (head t) (wheel t) l, id) in
  let* seq := find_free (slots t) (u32 (pos * wheel t)) (Z.to_nat (wheel t)) 0 in
  if seq <? wheel t then put t seq
  else
    let* (t, grown) := timer_expand t ok in
    if negb grown then Ok (t, INVALID)
    else
      let* (to, _, _) := zload (slots t) (u32 (u32 (pos * wheel t) + seq)) in
      if to =? INVALID then put t seq else UB.

(** timer/sc_timer.c:148-160 [sc_timer_cancel]: (timer, the new value of the
    caller's id variable). *)
Definition timer_cancel (t : timer) (id : Z) : res (timer * Z) :=
  if id =? INVALID then Ok (t, id)
  else
    let pos := u32 (u32 id * wheel t) + Z.shiftr id 32 in
    let* (_, ty, d) := zload (slots t) pos in
    let* l := zput (slots t) pos (INVALID, ty, d) in
    Ok (mk_timer (ts t) (head t) (wheel t) l, INVALID).

(** ** A user's program *)

(** Calls a callback (or the main program) may make.  [Cancel k] cancels the
    id returned by the k-th add of the program.
    (timer/sc_timer.c:114-162.) *)
Inductive op := Add (timeout type data : Z) (ok : bool) | Cancel (k : nat).

(** What happens, in order.  The id in [EFire] is the one the fired slot was
    given by sc_timer_add; the C callback does not receive it.
    (timer/sc_timer.c:114-205.) *)
Inductive event :=
| EAdd (timeout type data id : Z) | ECancel (id : Z)
| EPoll (now : Z) | EFire (id deadline type data : Z) | EDone (now ret : Z) | EClear.

(** The timer, the ids returned so far, and what the callbacks still to come
    will do: one list of calls per callback (none when the list is over).
    Quantifying over all scripts covers callbacks that act on what they see.
    (timer/sc_timer.c:164-205.) *)
Record world := mk_world { wt : timer; ids : list Z; script : list (list op) }.

(** One call.
    (timer/sc_timer.c:114-162.) *)
Definition do_op (w : world) (o : op) : res (world * list event) :=
  match o with
  | Add timeout ty d ok =>
      let* (t, id) := timer_add (wt w) timeout ty d ok in
      Ok (mk_world t (ids w ++ [id]) (script w), [EAdd timeout ty d id])
  | Cancel k =>
      match nth_error (ids w) k with
      | None => Ok (w, [])
      | Some id =>
          let* (t, _) := timer_cancel (wt w) id in
          Ok (mk_world t (ids w) (script w), [ECancel id])
      end
  end.
(** Several calls, timer/sc_timer.c:114-162. *)
Fixpoint do_ops (w : world) (os : list op) : res (world * list event) :=
  match os with
  | [] => Ok (w, [])
  | o :: os =>
      let* (w, e1) := do_op w o in
      let* (w, e2) := do_ops w os in
      Ok (w, e1 ++ e2)
  end.

(** The callback: takes the next entry of the script.
    (timer/sc_timer.c:164-205.) *)
Definition callback (w : world) : res (world * list event) :=
  match script w with
  | [] => Ok (w, [])
  | os :: rest => do_ops (mk_world (wt w) (ids w) rest) os
  end.

(** timer/sc_timer.c:183-199 the inner loop: [n] slots left from [i]; [base]
    as in the code. *)
Fixpoint scan (n : nat) (w : world) (hd base i : Z) : res (world * list event) :=
  match n with
  | O => Ok (w, [])
  | S n =>
      let t := wt w in
      let* (to, ty, d) := zload (slots t) (u32 (base + i)) in
      if to <=? ts t then
        let* l := zput (slots t) (u32 (base + i)) (INVALID, ty, d) in
        let fire := EFire (Z.lor (Z.shiftl i 32) hd) to ty d in
        let* (w, e1) := callback (mk_world (mk_timer (ts t) (head t) (wheel t) l) (ids w) (script w)) in
        let* (w, e2) := scan n w hd (u32 (wheel (wt w) * hd)) (i + 1) in
        Ok (w, fire :: e1 ++ e2)
      else scan n w hd base (i + 1)
  end.

(** timer/sc_timer.c:179-202 the outer loop: [n] wheels left, from [hd]. *)
Fixpoint turn (n : nat) (w : world) (hd : Z) : res (world * list event) :=
  match n with
  | O => Ok (w, [])
  | S n =>
      let* (w, e1) := scan (Z.to_nat (wheel (wt w))) w hd (u32 (wheel (wt w) * hd)) 0 in
      let* (w, e2) := turn n w (Z.land (hd + 1) (WHEELS - 1)) in
      Ok (w, e1 ++ e2)
  end.

(** timer/sc_timer.c:164-205 [sc_timer_timeout]; the events end with the
    returned value. *)
Definition timer_timeout (w : world) (now : Z) : res (world * list event) :=
  let t := wt w in
  let time := u64 (now - ts t) in
  let wheels := u32 (if time / TICK <? WHEELS then time / TICK else WHEELS) in
  let ret := if u64 (TICK - time) <? TICK then u64 (TICK - time) else TICK in
  if wheels =? 0 then Ok (w, [EPoll now; EDone now ret])
  else
    let t' := mk_timer now (Z.land (u32 (head t + wheels)) (WHEELS - 1)) (wheel t) (slots t) in
    let* (w, e) := turn (Z.to_nat wheels) (mk_world t' (ids w) (script w)) (head t) in
    Ok (w, EPoll now :: e ++ [EDone now ret]).

(** The main program.
    (timer/sc_timer.c:60-205.) *)
Inductive top := TOp (o : op) | TPoll (now : Z) | TClear.
(** One call of the main program, timer/sc_timer.c:60-205. *)
Definition do_top (w : world) (o : top) : res (world * list event) :=
  match o with
  | TOp o => do_op w o
  | TPoll now => timer_timeout w now
  | TClear => Ok (mk_world (timer_clear (wt w)) (ids w) (script w), [EClear])
  end.
(** The main program, timer/sc_timer.c:60-205. *)
Fixpoint do_tops (w : world) (os : list top) : res (world * list event) :=
  match os with
  | [] => Ok (w, [])
  | o :: os =>
      let* (w, e1) := do_top w o in
      let* (w, e2) := do_tops w os in
      Ok (w, e1 ++ e2)
  end.
