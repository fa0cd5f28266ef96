(** Model of programs with one kqueue poller and any number of sockets (socket/sc_sock.c:240-276, :1370-1509): the functions of
    PollModel.v on a table of structures, with the descriptors that are open, and the results of waits. *)
From Verif Require Import Base SockModel PollModel PollBatchModel.

(** The registered filters of each descriptor, the open descriptors, the structures (socket/sc_sock.h:93-108, :328), and the array
    p->events (socket/sc_sock.c:1329): of each cell, None while uninitialised, is it EVFILT_READ, is EV_EOF set, and udata. *)
Record qsys := mk_qsys { qreg : Z -> filters; qopen : list Z; qtab : list fdt; qres : list (option (bool * bool * Z)) }.
(** The array is allocated and nothing is registered (socket/sc_sock.c:1323-1341). *)
Definition qstart : qsys := mk_qsys (fun _ => mk_filters None None) [] [] (repeat None (Z.to_nat MAXEV)).
(** A call on the structure number [i] (socket/sc_sock.h:121-330); [ok] says which changes kevent does not refuse. *)
Inductive qop :=
| QNew                            (* another structure, sc_sock_init: socket/sc_sock.c:240 *)
| QInit (i : nat)                 (* sc_sock_init again: :240 *)
| QOpen (i : nat) (f : Z)         (* :486, :690, :732; f is what the system gives, a descriptor that is not open; otherwise it fails *)
| QClose (i : nat) (e : Z)        (* sc_sock_term: :266 *)
| QCtl (i : nat) (add : bool) (ev data : Z) (ok : list bool). (* sc_sock_poll_add, sc_sock_poll_del: :1370, :1418 *)

(** Is the descriptor open?  Otherwise kevent refuses the first change with EBADF (socket/sc_sock.c:1406, :1453). *)
Definition q_open (s : qsys) (f : Z) : bool := existsb (Z.eqb f) (qopen s).
(** [k] with [v] for the descriptor [f] (for socket/sc_sock.c:1406, :1453). *)
Definition updq (k : Z -> filters) (f : Z) (v : filters) : Z -> filters := fun g => if g =? f then v else k g.
(** One call and its result (socket/sc_sock.c:240-276, :1370-1463).  A number that is not in the table is UB.
    Closing a descriptor removes its filters (kqueue(2)), also if close reports an error. *)
Definition qstep (s : qsys) (o : qop) : res (qsys * Z) :=
  match o with
  | QNew => Ok (mk_qsys (qreg s) (qopen s) (qtab s ++ [mk_fdt INVALID 0]) (qres s), 0)
  | QInit i => let* _ := or_ub (nth_error (qtab s) i) in Ok (mk_qsys (qreg s) (qopen s) (lset (qtab s) i (mk_fdt INVALID 0)) (qres s), 0)
  | QOpen i f =>
      let* t := or_ub (nth_error (qtab s) i) in
      if (f <? 0) || q_open s f then Ok (s, -1)
      else Ok (mk_qsys (qreg s) (f :: qopen s) (lset (qtab s) i (mk_fdt f (top t))) (qres s), 0)
  | QClose i e =>
      let* t := or_ub (nth_error (qtab s) i) in
      if tfd t =? INVALID then Ok (s, 0)
      else Ok (mk_qsys (updq (qreg s) (tfd t) (mk_filters None None)) (filter (fun g => negb (g =? tfd t)) (qopen s)) (lset (qtab s) i (mk_fdt INVALID (top t))) (qres s),
               if e =? 0 then 0 else -1)
  | QCtl i add ev data ok =>
      let* t := or_ub (nth_error (qtab s) i) in
      let f := tfd t in
      let ok := if q_open s f then ok else [false] in
      let '(k, t, rc, _) := if add then kq_add (qreg s f) t ev data ok else kq_del (qreg s f) t ev data ok in
      Ok (mk_qsys (updq (qreg s) f k) (qopen s) (lset (qtab s) i t) (qres s), rc)
  end.
(** What kevent (socket/sc_sock.c:1500) reports when [ready] lists the filters the kernel finds active, by descriptor and kind, with EV_EOF
    or not: those that are registered, with the registered data, each once (kqueue(2)). *)
Fixpoint q_ready (k : Z -> filters) (ready : list (Z * bool * bool)) : list (bool * bool * Z) :=
  match ready with
  | [] => []
  | (f, rd, eof) :: r =>
      match (if rd then f_read (k f) else f_write (k f)) with
      | None => q_ready k r
      | Some (_, d) => (rd, eof, d) :: q_ready (updq k f (if rd then mk_filters None (f_write (k f)) else mk_filters (f_read (k f)) None)) r
      end
  end.
(** socket/sc_sock.c:1485-1509 [sc_sock_poll_wait]: [l] are the answers of kevent, an error or the active filters, of which at most the number
    given are reported; the result is their number.  After the last answer the call waits (Fuel). *)
Fixpoint qwait (s : qsys) (l : list (list (Z * bool * bool) + Z)) : res (qsys * Z) :=
  match l with
  | [] => Fuel
  | inr e :: r => if e =? EINTR then qwait s r else Ok (s, -1)
  | inl ready :: _ =>
      let rep := firstn (Z.to_nat MAXEV) (q_ready (qreg s) ready) in
      if zlen rep <=? zlen (qres s) then Ok (mk_qsys (qreg s) (qopen s) (qtab s) (map Some rep ++ skipn (length rep) (qres s)), zlen rep) else UB
  end.
(** The cell [i] of the array, socket/sc_sock.c:1467, :1474; outside the array, or not written yet: UB. *)
Definition qcell (s : qsys) (i : Z) : res (bool * bool * Z) := let* c := or_ub (zget (qres s) i) in or_ub c.
(** socket/sc_sock.c:1465-1468 [sc_sock_poll_data]. *)
Definition qdata (s : qsys) (i : Z) : res Z := let* c := qcell s i in Ok (snd c).
(** socket/sc_sock.c:1470-1483 [sc_sock_poll_event]. *)
Definition qevent (s : qsys) (i : Z) : res Z := let* c := qcell s i in Ok (kq_event (snd (fst c)) (fst (fst c))).
(** A call on a socket or a wait (socket/sc_sock.c:1370-1509). *)
Inductive qbop := QCall (o : qop) | QWait (l : list (list (Z * bool * bool) + Z)).
(** One call and its result (socket/sc_sock.c:1370-1509). *)
Definition qbstep (s : qsys) (o : qbop) : res (qsys * Z) := match o with QCall o => qstep s o | QWait l => qwait s l end.
(** A program and its results (for socket/sc_sock.c:1370-1509). *)
Fixpoint qrun (s : qsys) (l : list qbop) : res (qsys * list Z) :=
  match l with
  | [] => Ok (s, [])
  | o :: l => let* (s, rc) := qbstep s o in let* (s, rcs) := qrun s l in Ok (s, rc :: rcs)
  end.
