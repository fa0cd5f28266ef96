(** Model of the poller of socket/sc_sock.c on Windows (:1511-2141): a growing table of slots handed to WSAPoll, a second
    table of cells that never move, and a list of operations that are put off while a thread is polling.
    Everything between EnterCriticalSection and LeaveCriticalSection is one step.  Texts of errors are not modelled. *)
From Verif Require Import Base SockModel PollModel.

(** Constants of winsock2.h for struct pollfd (socket/sc_sock.c:1857, :1958). *)
Definition WPOLLIN : Z := 768.
(** POLLOUT of winsock2.h, socket/sc_sock.c:1861, :1962. *)
Definition WPOLLOUT : Z := 16.
(** POLLERR of winsock2.h, socket/sc_sock.c:1981. *)
Definition WPOLLERR : Z := 1.
(** POLLHUP of winsock2.h, socket/sc_sock.c:1981. *)
Definition WPOLLHUP : Z := 2.
(** SC_SIZE_MAX, socket/sc_sock.c:46. *)
Definition SIZE_MAX : Z := 2147483647.
(** SC_SOCK_POLL_MAX_EVENTS, socket/sc_sock.c:50. *)
Definition MAX_EVENTS : Z := 1024.
(** WSAEINTR, socket/sc_sock.c:2055. *)
Definition WSAEINTR : Z := 10004.
(** WSAENOTSOCK, socket/sc_sock.c:2096. *)
Definition WSAENOTSOCK : Z := 10038.

(** struct pollfd of winsock2.h (socket/sc_sock.h:365). *)
Record pfd := mk_pfd { pf_fd : Z; pf_ev : Z; pf_rev : Z }.
(** struct sc_sock_poll_data, socket/sc_sock.h:81-85. *)
Record cell := mk_cell { c_edge : Z; c_index : Z; c_data : Z }.
(** A pointer to a cell, &p->data[x][y] (socket/sc_sock.c:1777, :1789). *)
Definition ptr : Type := Z * Z.
(** struct sc_sock_fd, socket/sc_sock.h:88-96 without the user's type: fd, op, poll_data, op_index. *)
Record wfd := mk_wfd { f_fd : Z; f_op : Z; f_pd : option ptr; f_opi : Z }.
(** struct sc_sock_poll_op, socket/sc_sock.h:346-353; the sc_sock_fd is given by its address (a number). *)
Record wop := mk_wop { o_full : bool; o_add : Z; o_del : Z; o_fdt : option Z; o_pd : option ptr; o_data : Z }.
(** The state of a block a pointer refers to: p->events (socket/sc_sock.h:365) is NULL, a block, or a block that was freed. *)
Inductive mem (A : Type) := Null | Live (a : A) | Freed.
Arguments Null {A}. Arguments Live {A} a. Arguments Freed {A}.
(** The blocks the poller allocates (socket/sc_sock.c:1533, :1538, :1543, :1645, :1691). *)
Inductive block := BResults | BEvents | BChunk (i : Z) | BOps.
(** One call of the allocator (realloc that succeeds: free and allocate; socket/sc_sock.c:1624, :1694). *)
Inductive mact := Got (b : block) | Gave (b : block).
(** struct sc_sock_poll, socket/sc_sock.h:360-378.  w_data: the chunks that are not NULL (they are a prefix of data[16]: only
    :1543 and the first NULL place at :1643-1645 are ever set); w_ops: the first ops_count operations (each is written at
    :1707 before it is used); the results that were filled in; and, in addition, what was asked of the allocator. *)
Record wpoll := mk_wpoll { w_count : Z; w_cap : Z; w_events : mem (list pfd); w_data : list (list cell);
  w_ops : list wop; w_opcap : Z; w_opnull : bool; w_polling : bool; w_rem : Z; w_off : Z; w_res : list (Z * Z); w_log : list mact }.
(** The poller and the sc_sock_fd structures of the program, by address (socket/sc_sock.h:88, :360). *)
Record wst := mk_wst { wp : wpoll; wf : Z -> wfd }.
(** Answers of the environment to one call: realloc of events (socket/sc_sock.c:1624), malloc of a chunk (:1645), malloc or
    realloc of the operations (:1691, :1694), the byte written to the wakeup pipe (:1756), and what fresh memory contains. *)
Record orac := mk_orac { m_events : bool; m_chunk : bool; m_ops : bool; m_wake : bool; m_junk : Z }.

(** Field updates of struct sc_sock_poll (socket/sc_sock.h:363, e.g. :1826). *)
Definition set_count (p : wpoll) (v : Z) : wpoll := mk_wpoll v (w_cap p) (w_events p) (w_data p) (w_ops p) (w_opcap p) (w_opnull p) (w_polling p) (w_rem p) (w_off p) (w_res p) (w_log p).
(** p->events, socket/sc_sock.h:365. *)
Definition set_events (p : wpoll) (v : mem (list pfd)) : wpoll := mk_wpoll (w_count p) (w_cap p) v (w_data p) (w_ops p) (w_opcap p) (w_opnull p) (w_polling p) (w_rem p) (w_off p) (w_res p) (w_log p).
(** p->data, socket/sc_sock.h:366. *)
Definition set_data (p : wpoll) (v : list (list cell)) : wpoll := mk_wpoll (w_count p) (w_cap p) (w_events p) v (w_ops p) (w_opcap p) (w_opnull p) (w_polling p) (w_rem p) (w_off p) (w_res p) (w_log p).
(** p->ops and p->ops_count, socket/sc_sock.h:368, :370. *)
Definition set_ops (p : wpoll) (v : list wop) : wpoll := mk_wpoll (w_count p) (w_cap p) (w_events p) (w_data p) v (w_opcap p) (w_opnull p) (w_polling p) (w_rem p) (w_off p) (w_res p) (w_log p).
(** p->polling, socket/sc_sock.h:372. *)
Definition set_polling (p : wpoll) (v : bool) : wpoll := mk_wpoll (w_count p) (w_cap p) (w_events p) (w_data p) (w_ops p) (w_opcap p) (w_opnull p) v (w_rem p) (w_off p) (w_res p) (w_log p).
(** p->results_remaining, socket/sc_sock.h:375. *)
Definition set_rem (p : wpoll) (v : Z) : wpoll := mk_wpoll (w_count p) (w_cap p) (w_events p) (w_data p) (w_ops p) (w_opcap p) (w_opnull p) (w_polling p) v (w_off p) (w_res p) (w_log p).
(** p->results_offset, socket/sc_sock.h:376. *)
Definition set_off (p : wpoll) (v : Z) : wpoll := mk_wpoll (w_count p) (w_cap p) (w_events p) (w_data p) (w_ops p) (w_opcap p) (w_opnull p) (w_polling p) (w_rem p) v (w_res p) (w_log p).
(** p->results, socket/sc_sock.h:377. *)
Definition set_res (p : wpoll) (v : list (Z * Z)) : wpoll := mk_wpoll (w_count p) (w_cap p) (w_events p) (w_data p) (w_ops p) (w_opcap p) (w_opnull p) (w_polling p) (w_rem p) (w_off p) v (w_log p).
(** A structure in the program's memory is replaced (socket/sc_sock.h:88). *)
Definition upf (f : Z -> wfd) (a : Z) (v : wfd) : Z -> wfd := fun b => if b =? a then v else f b.

(** socket/sc_sock.c:1769-1772: sc_sock_number_of_meaningful_bits; __builtin_clz is undefined for 0 (with GCC). *)
Definition nbits (i : Z) : res Z := if i <=? 0 then UB else Ok (32 - (31 - Z.log2 i)).
(** socket/sc_sock.c:1774-1790: sc_sock_poll_data_inner, the coordinates. *)
Definition data_inner (i : Z) : res ptr :=
  if i <? 16 then Ok (0, i)
  else
    let* n := nbits i in
    let x := n - 4 in
    let y := Z.land i (Z.lnot (Z.shiftl 1 (n - 1))) in
    Ok (x, y).
(** Reading through a pointer to a cell (socket/sc_sock.c:1845, :1969). *)
Definition cell_get (p : wpoll) (q : ptr) : res cell := let* ch := zload (w_data p) (fst q) in zload ch (snd q).
(** Writing through a pointer to a cell (socket/sc_sock.c:1838, :1868). *)
Definition cell_put (p : wpoll) (q : ptr) (c : cell) : res wpoll :=
  let* ch := zload (w_data p) (fst q) in
  let* ch := zput ch (snd q) c in
  let* d := zput (w_data p) (fst q) ch in
  Ok (set_data p d).
(** p->events as an array (socket/sc_sock.c:1829, :1842); using a NULL pointer or a freed block is undefined. *)
Definition ev_block (p : wpoll) : res (list pfd) := match w_events p with Live ev => Ok ev | _ => UB end.

(** socket/sc_sock.c:1613-1672: sc_sock_poll_expand.  After realloc the old block is gone; the failing exits free the new
    one too (:1669) and leave p->events as it was. *)
Definition expand (p : wpoll) (o : orac) : res (wpoll * Z) :=
  if w_count p =? w_cap p then
    if w_cap p >=? SIZE_MAX / 2 then Ok (p, -1)
    else
      let cap := w_cap p * 2 in
      let* ev := ev_block p in
      if negb (m_events o) then Ok (p, -1)
      else
        let i := zlen (w_data p) in
        if (i <? 16) && m_chunk o then
          let ev := ev ++ repeat (mk_pfd INVALID (m_junk o) (m_junk o)) (Z.to_nat (cap - w_cap p)) in
          let ch := repeat (mk_cell (m_junk o) (m_junk o) (m_junk o)) (Z.to_nat (w_cap p)) in
          Ok (mk_wpoll (w_count p) cap (Live ev) (w_data p ++ [ch]) (w_ops p) (w_opcap p) (w_opnull p) (w_polling p) (w_rem p) (w_off p) (w_res p)
                (w_log p ++ [Gave BEvents; Got BEvents; Got (BChunk i)]), 0)
        else
          Ok (mk_wpoll (w_count p) (w_cap p) Freed (w_data p) (w_ops p) (w_opcap p) (w_opnull p) (w_polling p) (w_rem p) (w_off p) (w_res p)
                (w_log p ++ [Gave BEvents; Got BEvents; Gave BEvents]), -1)
  else Ok (p, 0).

(** socket/sc_sock.c:1686-1704 and :1706-1707: room for one more operation; None: no memory.  cap * 3 is a product of ints. *)
Definition room (p : wpoll) (o : orac) : res (option wpoll) :=
  if zlen (w_ops p) =? w_opcap p then
    if w_opcap p >=? SIZE_MAX then Ok None
    else if w_opnull p then
      if m_ops o then Ok (Some (mk_wpoll (w_count p) (w_cap p) (w_events p) (w_data p) (w_ops p) 16 false (w_polling p) (w_rem p) (w_off p) (w_res p) (w_log p ++ [Got BOps])))
      else Ok None
    else if SIZE_MAX <? w_opcap p * 3 then UB
    else if m_ops o then Ok (Some (mk_wpoll (w_count p) (w_cap p) (w_events p) (w_data p) (w_ops p) (w_opcap p * 3 / 2) false (w_polling p) (w_rem p) (w_off p) (w_res p) (w_log p ++ [Gave BOps; Got BOps])))
    else Ok None
  else Ok (Some p).
(** socket/sc_sock.c:1674-1761: sc_sock_poll_submit.  An op_index that is not the number of a waiting operation reads memory
    that holds none (or NULL). *)
Definition submit (s : wst) (a events data : Z) (add : bool) (o : orac) : res (wst * Z) :=
  let p := wp s in
  let t := wf s a in
  let* r := (if f_opi t =? -1 then
               let index := zlen (w_ops p) in
               let* q := room p o in
               match q with
               | None => Ok None
               | Some p => Ok (Some (set_ops p (w_ops p ++ [mk_wop false 0 0 None None 0]), index, index =? 0))
               end
             else Ok (Some (p, f_opi t, false))) in
  match r with
  | None => Ok (s, -1)
  | Some (p, index, wakeup) =>
    let* op := zload (w_ops p) index in
    let add_ev := if add then Z.lor (o_add op) events else Z.land (o_add op) (Z.lnot events) in
    let del_ev := if add then Z.land (o_del op) (Z.lnot events) else Z.lor (o_del op) events in
    let full := Z.land (Z.lor (f_op t) add_ev) (Z.lnot (Z.lor del_ev SEDGE)) =? 0 in
    let op := if full then mk_wop true add_ev del_ev (o_fdt op) (f_pd t) data
              else mk_wop false add_ev del_ev (Some a) (o_pd op) data in
    let t := if full then mk_wfd (f_fd t) 0 None (-1) else mk_wfd (f_fd t) (f_op t) (f_pd t) index in
    let* ops := zput (w_ops p) index op in
    Ok (mk_wst (set_ops p ops) (upf (wf s) a t), if wakeup && negb (m_wake o) then -1 else 0)
  end.

(** socket/sc_sock.c:1828-1833: the first slot that is not in use (assert at :1835). *)
Fixpoint free_slot (ev : list pfd) (i : Z) : option Z :=
  match ev with
  | [] => None
  | e :: ev => if pf_fd e =? INVALID then Some i else free_slot ev (i + 1)
  end.
(** The bits of a mask for WSAPoll, socket/sc_sock.c:1853-1862, :1911-1919. *)
Definition win_events (mask : Z) : Z :=
  let ev := 0 in
  let ev := if Z.land mask SREAD =? 0 then ev else Z.lor ev WPOLLIN in
  if Z.land mask SWRITE =? 0 then ev else Z.lor ev WPOLLOUT.
(** socket/sc_sock.c:1819-1849: the cell of the sc_sock_fd, a new one if it has none; Ok (_, None): no memory.
    [t] is the structure before fdt->op is changed. *)
Definition slot_for (p : wpoll) (t : wfd) (o : orac) : res (wpoll * option (ptr * Z)) :=
  if f_op t =? 0 then
    let* r := expand p o in
    let (p, rc) := (r : wpoll * Z) in
    if negb (rc =? 0) then Ok (p, None)
    else
      let p := set_count p (w_count p + 1) in
      let* ev := ev_block p in
      let* index := or_ub (free_slot ev 0) in
      let* q := data_inner index in
      let* c := cell_get p q in
      let* p := cell_put p q (mk_cell 0 index (c_data c)) in
      let* e := zload ev index in
      let* ev := zput ev index (mk_pfd (f_fd t) (pf_ev e) (pf_rev e)) in
      Ok (set_events p (Live ev), Some (q, index))
  else
    let* q := or_ub (f_pd t) in
    let* c := cell_get p q in
    Ok (p, Some (q, c_index c)).
(** socket/sc_sock.c:1792-1873: sc_sock_poll_add.  The second error text of :1822 is not modelled. *)
Definition win_add (s : wst) (a events data : Z) (o : orac) : res (wst * Z) :=
  let p := wp s in
  let t := wf s a in
  if w_polling p then submit s a events data true o
  else
    let mask := Z.lor (f_op t) events in
    let mask := if mask =? SEDGE then 0 else mask in
    if f_op t =? mask then Ok (s, 0)
    else
      let* r := slot_for p t o in
      match r with
      | (p, None) => Ok (mk_wst p (wf s), -1)
      | (p, Some (q, index)) =>
        let* ev := ev_block p in
        let* e := zload ev index in
        let* ev := zput ev index (mk_pfd (pf_fd e) (win_events mask) 0) in
        let p := set_events p (Live ev) in
        let* c := cell_get p q in
        let edge := if Z.land mask SEDGE =? 0 then c_edge c else Z.lor (c_edge c) SEDGE in
        let* p := cell_put p q (mk_cell edge (c_index c) data) in
        Ok (mk_wst p (upf (wf s) a (mk_wfd (f_fd t) mask (Some q) (f_opi t))), 0)
      end.
(** socket/sc_sock.c:1875-1881: sc_sock_poll_del_full; the pointer may be NULL. *)
Definition del_full (p : wpoll) (q : option ptr) : res wpoll :=
  let* q := or_ub q in
  let* c := cell_get p q in
  let* ev := ev_block p in
  let* e := zload ev (c_index c) in
  let* ev := zput ev (c_index c) (mk_pfd INVALID (pf_ev e) (pf_rev e)) in
  let p := set_count (set_events p (Live ev)) (w_count p - 1) in
  cell_put p q (mk_cell 0 (c_index c) (c_data c)).
(** socket/sc_sock.c:1883-1931: sc_sock_poll_del. *)
Definition win_del (s : wst) (a events data : Z) (o : orac) : res (wst * Z) :=
  let p := wp s in
  let t := wf s a in
  if w_polling p then submit s a events data false o
  else if Z.land (f_op t) events =? 0 then Ok (s, 0)
  else
    let op := Z.land (f_op t) (Z.lnot events) in
    let op := if op =? SEDGE then 0 else op in
    if op =? 0 then
      let* p := del_full p (f_pd t) in
      Ok (mk_wst p (upf (wf s) a (mk_wfd (f_fd t) op None (f_opi t))), 0)
    else
      let* q := or_ub (f_pd t) in
      let* c := cell_get p q in
      let* ev := ev_block p in
      let* e := zload ev (c_index c) in
      let* ev := zput ev (c_index c) (mk_pfd (pf_fd e) (win_events op) (pf_rev e)) in
      let p := set_events p (Live ev) in
      let edge := if Z.land op SEDGE =? 0 then 0 else c_edge c in
      let* p := cell_put p q (mk_cell edge (c_index c) data) in
      Ok (mk_wst p (upf (wf s) a (mk_wfd (f_fd t) op (f_pd t) (f_opi t))), 0).

(** socket/sc_sock.c:1943-1987: sc_sock_poll_event_inner. *)
Definition event_inner (p : wpoll) (i : Z) : res (wpoll * Z) :=
  let* ev := ev_block p in
  let* e := zload ev i in
  if pf_fd e =? INVALID then Ok (p, 0)
  else if pf_rev e =? 0 then Ok (p, 0)
  else
    let p := set_rem p (w_rem p - 1) in
    let evs := 0 in
    let evs := if Z.land (pf_rev e) WPOLLIN =? 0 then evs else Z.lor evs SREAD in
    let evs := if Z.land (pf_rev e) WPOLLOUT =? 0 then evs else Z.lor evs SWRITE in
    let* q := data_inner i in
    let* c := cell_get p q in
    let* r := (if Z.land (c_edge c) SEDGE =? 0 then Ok (p, evs)
               else let* p := cell_put p q (mk_cell (Z.lor (c_edge c) evs) (c_index c) (c_data c)) in Ok (p, Z.land evs (Z.lnot (c_edge c)))) in
    let (p, evs) := (r : wpoll * Z) in
    Ok (p, if Z.land (pf_rev e) (Z.lor WPOLLHUP WPOLLERR) =? 0 then evs else Z.lor SREAD SWRITE).
(** socket/sc_sock.c:1993-2007 and :2013-2014: the loop of sc_sock_poll_fill_results from slot [i] on, [n] slots to go. *)
Fixpoint fill_loop (p : wpoll) (i : Z) (n : nat) : res wpoll :=
  match n with
  | O => Ok (set_rem p 0)
  | S n =>
    if w_rem p >? 0 then
      let* r := event_inner p i in
      let (p, events) := (r : wpoll * Z) in
      if negb (events =? 0) then
        let* q := data_inner i in
        let* c := cell_get p q in
        let p := set_res p (w_res p ++ [(events, c_data c)]) in
        if zlen (w_res p) =? MAX_EVENTS then Ok (set_off p (i + 1))
        else fill_loop p (i + 1) n
      else fill_loop p (i + 1) n
    else Ok (set_rem p 0)
  end.
(** socket/sc_sock.c:1989-2015: sc_sock_poll_fill_results; the number of results is the length of w_res. *)
Definition fill_results (p : wpoll) : res wpoll := fill_loop (set_res p []) (w_off p) (Z.to_nat (w_cap p - w_off p)).

(** What the first half of sc_sock_poll_wait comes to: a result, or WSAPoll is called with a timeout (socket/sc_sock.c:2017-2051). *)
Inductive began := Done (rc : Z) | Polls (timeout : Z).
(** socket/sc_sock.c:2017-2046: sc_sock_poll_wait up to the call of WSAPoll. *)
Definition wait_begin (s : wst) (timeout : Z) : res (wst * began) :=
  let p := wp s in
  let timeout := if timeout =? -1 then 16 else timeout in
  match w_events p with
  | Null => Ok (s, Done (-1))
  | _ =>
    if w_polling p then Ok (s, Done (-1))
    else if w_rem p >? 0 then
      let* p := fill_results p in Ok (mk_wst p (wf s), Done (zlen (w_res p)))
    else Ok (mk_wst (set_polling p true) (wf s), Polls timeout)
  end.
(** What WSAPoll answers in the end: how many slots have events and the revents of every slot, or an error; an interrupted
    call is repeated (socket/sc_sock.c:2048-2058). *)
Inductive answer := Events (n : Z) (revents : list Z) | Failed (e : Z).
(** socket/sc_sock.c:2048-2058: the loop; [l]: what WSAPoll answers call by call (Fuel: not answered yet).  The answer acted upon. *)
Fixpoint wsa_poll (l : list answer) : res answer :=
  match l with
  | [] => Fuel
  | Failed e :: l => if e =? WSAEINTR then wsa_poll l else Ok (Failed e)
  | Events n r :: _ => Ok (Events n r)
  end.
(** WSAPoll stores the revents in the slots (socket/sc_sock.c:2051). *)
Fixpoint store (ev : list pfd) (r : list Z) : list pfd :=
  match ev, r with
  | e :: ev, x :: r => mk_pfd (pf_fd e) (pf_ev e) x :: store ev r
  | _, _ => ev
  end.
(** socket/sc_sock.c:2111-2126: the operations that were put off.  [o]: the answers to the one at each place. *)
Fixpoint process (s : wst) (l : list wop) (o : Z -> orac) (i : Z) (rc : Z) : res (wst * Z) :=
  match l with
  | [] => Ok (s, rc)
  | op :: l =>
    if o_full op then
      let* p := del_full (wp s) (o_pd op) in
      process (mk_wst p (wf s)) l o (i + 1) rc
    else
      let* a := or_ub (o_fdt op) in
      let t := wf s a in
      let s := mk_wst (wp s) (upf (wf s) a (mk_wfd (f_fd t) (f_op t) (f_pd t) (-1))) in
      let* r := (if negb (o_add op =? 0) then win_add s a (o_add op) (o_data op) (o i) else Ok (s, 0)) in
      let (s, r1) := (r : wst * Z) in
      if negb (r1 =? 0) then process s l o (i + 1) (-1)
      else
        let* r := (if negb (o_del op =? 0) then win_del s a (o_del op) (o_data op) (o i) else Ok (s, 0)) in
        let (s, r2) := (r : wst * Z) in
        process s l o (i + 1) (if negb (r2 =? 0) then -1 else rc)
  end.
(** socket/sc_sock.c:2060-2141: sc_sock_poll_wait after WSAPoll.  The wakeup pipe is drained before the lock is taken (:2066-2080);
    only slot 0 and results_remaining are touched there, which no other thread uses.  What draining returns is not modelled. *)
Definition wait_end (s : wst) (an : answer) (o : Z -> orac) : res (wst * Z) :=
  let p := wp s in
  let* p := match an with
            | Events n revents =>
              let* ev := ev_block p in
              let p := set_events p (Live (store ev revents)) in
              if n >? 0 then
                let* r := event_inner (set_rem p n) 0 in Ok (fst (r : wpoll * Z))
              else Ok p
            | Failed _ => Ok p
            end in
  let p := set_polling p false in
  let fail := match an with
              | Events _ _ => false
              | Failed e => negb ((e =? WSAENOTSOCK) && (zlen (w_ops p) >? 0))
              end in
  if fail then Ok (mk_wst p (wf s), -1)
  else
    let* r := process (mk_wst p (wf s)) (w_ops p) o 0 0 in
    let (s, rc) := (r : wst * Z) in
    let p := set_off (set_ops (wp s) []) 1 in
    if rc =? 0 then
      let* p := fill_results p in Ok (mk_wst p (wf s), zlen (w_res p))
    else Ok (mk_wst p (wf s), rc).
(** socket/sc_sock.c:636-639 and :674-677: a send ([ev] = SC_SOCK_WRITE) or a receive (SC_SOCK_READ) that would block. *)
Definition would_block (s : wst) (a ev : Z) : res wst :=
  match f_pd (wf s a) with
  | None => Ok s
  | Some q =>
    let* c := cell_get (wp s) q in
    if Z.land (c_edge c) ev =? 0 then Ok s
    else let* p := cell_put (wp s) q (mk_cell (Z.land (c_edge c) (Z.lnot ev)) (c_index c) (c_data c)) in Ok (mk_wst p (wf s))
  end.

(** The address of the sc_sock_fd in p->wakeup_pipe (socket/sc_sock.c:1564). *)
Definition WAKE : Z := 0.
(** Answers to sc_sock_poll_init: the three mallocs (socket/sc_sock.c:1533, :1538, :1543) and the pipe (:1554: its reading end, or
    an error; see [win_pipe_init]), and the contents of fresh memory. *)
Record iorac := mk_iorac { i_results : bool; i_events : bool; i_data : bool; i_pipe : option Z; i_junk : Z }.
(** An all-zero struct sc_sock_poll, socket/sc_sock.c:1531. *)
Definition zero_poll : wpoll := mk_wpoll 0 0 Null [] [] 0 true false 0 0 [] [].
(** socket/sc_sock.c:1527-1579: sc_sock_poll_init.  The pipe's sc_sock_fd is all zero but for the descriptor (:887-891, :946),
    op_index included. *)
Definition win_init (f : Z -> wfd) (o : iorac) : res (wst * Z) :=
  let p := zero_poll in
  if negb (i_results o) then Ok (mk_wst p f, -1)
  else if negb (i_events o) then
    Ok (mk_wst (mk_wpoll 0 0 Null [] [] 0 true false 0 0 [] [Got BResults; Gave BResults]) f, -1)
  else if negb (i_data o) then
    Ok (mk_wst (mk_wpoll 0 0 Null [] [] 0 true false 0 0 [] [Got BResults; Got BEvents; Gave BResults; Gave BEvents]) f, -1)
  else
    let log := [Got BResults; Got BEvents; Got (BChunk 0)] in
    match i_pipe o with
    | None => Ok (mk_wst (mk_wpoll 0 16 Null [] [] 0 true false 0 0 [] (log ++ [Gave BResults; Gave BEvents; Gave (BChunk 0)])) f, -1)
    | Some fd =>
      let ev := repeat (mk_pfd INVALID (i_junk o) (i_junk o)) 16 in
      let ch := repeat (mk_cell (i_junk o) (i_junk o) (i_junk o)) 16 in
      let s := mk_wst (mk_wpoll 0 16 (Live ev) [ch] [] 0 true false 0 0 [] log) (upf f WAKE (mk_wfd fd 0 None 0)) in
      let* r := win_add s WAKE SREAD 0 (mk_orac false false false false (i_junk o)) in
      let (s, rc) := (r : wst * Z) in
      Ok (s, 0)
    end.
(** socket/sc_sock.c:1597-1600: the chunks are freed. *)
Fixpoint gave_chunks (i : Z) (d : list (list cell)) : list mact :=
  match d with [] => [] | _ :: d => Gave (BChunk i) :: gave_chunks (i + 1) d end.
(** socket/sc_sock.c:1581-1611: sc_sock_poll_term; [pe]: what sc_sock_pipe_term returns.  p->ops is freed but not cleared. *)
Definition win_term (s : wst) (o : orac) (pe : Z) : res (wst * Z) :=
  match w_events (wp s) with
  | Null => Ok (s, 0)
  | _ =>
    let* r := win_del s WAKE SREAD 0 o in
    let (s, r1) := (r : wst * Z) in
    let rc := if negb (r1 =? 0) then -1 else if negb (pe =? 0) then -1 else 0 in
    let p := wp s in
    let* ev := ev_block p in
    let log := w_log p ++ gave_chunks 0 (w_data p) ++ [Gave BResults; Gave BEvents] ++ (if w_opnull p then [] else [Gave BOps]) in
    Ok (mk_wst (mk_wpoll 0 0 Null [] (w_ops p) (w_opcap p) (w_opnull p) (w_polling p) (w_rem p) (w_off p) (w_res p) log) (wf s), rc)
  end.

(** ** The pipe (socket/sc_sock.c:878-1008): a pair of connected TCP sockets *)

(** Sockets opened and closed (socket/sc_sock.c:894, :925, :941, :947, :964, :971). *)
Inductive sact := Opened (fd : Z) | Closed (fd : Z).
(** struct sc_sock_pipe, socket/sc_sock.h:282-287: fds and fdt.fd; and what was opened and closed. *)
Record wpipe := mk_wpipe { k_fds : Z * Z; k_fd : Z; k_log : list sact }.
(** Answers to sc_sock_pipe_init: the listening socket (socket/sc_sock.c:894), whether setsockopt, bind, getsockname and listen work
    (:899-922), the writing end (:925), whether setsockopt and connect work (:930-939), the reading end (:941). *)
Record porac := mk_porac { k_listener : option Z; k_opt : bool; k_bind : bool; k_name : bool; k_listen : bool; k_write : option Z; k_nodelay : bool; k_connect : bool; k_accept : option Z }.
(** socket/sc_sock.c:878-954: sc_sock_pipe_init.  No failing exit closes anything; p->fds[1] is stored at once (:925), fdt.fd is 0
    from :887-889 until :946. *)
Definition win_pipe_init (o : porac) : wpipe * Z :=
  match k_listener o with
  | None => (mk_wpipe (INVALID, INVALID) 0 [], -1)
  | Some l =>
    if negb (k_opt o && k_bind o && k_name o && k_listen o) then (mk_wpipe (INVALID, INVALID) 0 [Opened l], -1)
    else
      match k_write o with
      | None => (mk_wpipe (INVALID, INVALID) 0 [Opened l], -1)
      | Some w =>
        if negb (k_nodelay o && k_connect o) then (mk_wpipe (INVALID, w) 0 [Opened l; Opened w], -1)
        else
          match k_accept o with
          | None => (mk_wpipe (INVALID, w) 0 [Opened l; Opened w], -1)
          | Some r => (mk_wpipe (r, w) r [Opened l; Opened w; Opened r; Closed l], 0)
          end
      end
  end.
(** socket/sc_sock.c:956-982: sc_sock_pipe_term; [e0], [e1]: whether closesocket works. *)
Definition win_pipe_term (p : wpipe) (e0 e1 : bool) : wpipe * Z :=
  if fst (k_fds p) =? INVALID then (p, 0)
  else (mk_wpipe (INVALID, INVALID) (k_fd p) (k_log p ++ [Closed (fst (k_fds p)); Closed (snd (k_fds p))]), if e0 && e1 then 0 else -1).
