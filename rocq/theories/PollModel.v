(** Model of the poller and the pipe of socket/sc_sock.c on Linux (epoll, :1116-1317) and on the BSDs
    (kqueue, :1321-1509), and of the pipe (:1012-1085).  The Windows branches are not modelled. *)
From Verif Require Import Base SockModel.

(** enum sc_sock_ev, socket/sc_sock.h:68. *)
Definition SREAD : Z := 1.
(** socket/sc_sock.h:69. *)
Definition SWRITE : Z := 2.
(** socket/sc_sock.h:70. *)
Definition SEDGE : Z := 4.
(** EPOLLIN of Linux, socket/sc_sock.c:1192, :1244, :1282. *)
Definition EPOLLIN : Z := 1.
(** EPOLLOUT of Linux, socket/sc_sock.c:1196, :1248, :1286. *)
Definition EPOLLOUT : Z := 4.
(** EPOLLERR of Linux, socket/sc_sock.c:1184, :1227, :1290. *)
Definition EPOLLERR : Z := 8.
(** EPOLLHUP of Linux, socket/sc_sock.c:1184, :1227, :1290. *)
Definition EPOLLHUP : Z := 16.
(** EPOLLRDHUP of Linux, socket/sc_sock.c:1184, :1227, :1290. *)
Definition EPOLLRDHUP : Z := 8192.
(** EPOLLET of Linux, socket/sc_sock.c:1200, :1252. *)
Definition EPOLLET : Z := 2147483648.

(** struct sc_sock_fd, socket/sc_sock.h:89-97: the descriptor and the recorded mask. *)
Record fdt := mk_fdt { tfd : Z; top : Z }.
(** What the kernel has registered: for each descriptor the events and the user data (socket/sc_sock.c:1182-1185). *)
Definition kernel : Type := Z -> option (Z * Z).
(** The operations of epoll_ctl, socket/sc_sock.c:1169, :1188, :1241. *)
Inductive ctl := ADD | MOD | DEL.
(** A registration is replaced (what epoll_ctl does, socket/sc_sock.c:1209, :1260). *)
Definition upd (k : kernel) (f : Z) (r : option (Z * Z)) : kernel := fun g => if g =? f then r else k g.
(** epoll_ctl(2), socket/sc_sock.c:1209, :1260: [e] is an error the system reports for other reasons (0: none);
    adding what is registered and changing or deleting what is not fail by themselves.  The result is 0 or the error (EEXIST is 17, ENOENT is 2). *)
Definition epoll_ctl (k : kernel) (o : ctl) (f ev data e : Z) : kernel * Z :=
  if negb (e =? 0) then (k, e)
  else match o, k f with
       | ADD, Some _ => (k, 17)
       | ADD, None => (upd k f (Some (ev, data)), 0)
       | _, None => (k, 2)
       | MOD, Some _ => (upd k f (Some (ev, data)), 0)
       | DEL, Some _ => (upd k f None, 0)
       end.
(** The three tests of socket/sc_sock.c:1191-1201 and :1243-1253. *)
Definition epoll_events (mask : Z) : Z :=
  let ev := Z.lor EPOLLERR (Z.lor EPOLLHUP EPOLLRDHUP) in
  let ev := if Z.land mask SREAD =? 0 then ev else Z.lor ev EPOLLIN in
  let ev := if Z.land mask SWRITE =? 0 then ev else Z.lor ev EPOLLOUT in
  if Z.land mask SEDGE =? 0 then ev else Z.lor ev EPOLLET.
(** socket/sc_sock.c:1166-1219: sc_sock_poll_add.  Besides the new state and the result: the masks recorded in the
    structure whenever epoll_ctl is called (another thread may look at it then, :1203-1206). *)
Definition poll_add (k : kernel) (t : fdt) (events data e : Z) : kernel * fdt * Z * list Z :=
  let old_mask := top t in
  let new_mask := Z.lor old_mask events in
  let new_mask := if new_mask =? SEDGE then 0 else new_mask in
  if old_mask =? new_mask then (k, t, 0, [])
  else
    let op := if old_mask =? 0 then ADD else MOD in
    let ep_ev := epoll_events new_mask in
    let t := mk_fdt (tfd t) new_mask in
    let '(k, rc) := epoll_ctl k op (tfd t) ep_ev data e in
    if negb (rc =? 0) then (k, mk_fdt (tfd t) old_mask, -1, [top t])
    else (k, t, 0, [top t]).
(** socket/sc_sock.c:1221-1270: sc_sock_poll_del. *)
Definition poll_del (k : kernel) (t : fdt) (events data e : Z) : kernel * fdt * Z * list Z :=
  let old_mask := top t in
  let new_mask := Z.land old_mask (Z.lnot events) in
  let new_mask := if new_mask =? SEDGE then 0 else new_mask in
  if old_mask =? new_mask then (k, t, 0, [])
  else
    let op := if new_mask =? 0 then DEL else MOD in
    let ep_ev := epoll_events new_mask in
    let t := mk_fdt (tfd t) new_mask in
    let '(k, rc) := epoll_ctl k op (tfd t) ep_ev data e in
    if negb (rc =? 0) then (k, mk_fdt (tfd t) old_mask, -1, [top t])
    else (k, t, 0, [top t]).
(** socket/sc_sock.c:1277-1296: sc_sock_poll_event, of the events word the kernel reported. *)
Definition poll_event (epoll_ev : Z) : Z :=
  let ev := 0 in
  let ev := if Z.land epoll_ev EPOLLIN =? 0 then ev else Z.lor ev SREAD in
  let ev := if Z.land epoll_ev EPOLLOUT =? 0 then ev else Z.lor ev SWRITE in
  let epoll_ev := Z.land epoll_ev (Z.lor EPOLLHUP (Z.lor EPOLLRDHUP EPOLLERR)) in
  if negb (epoll_ev =? 0) then Z.lor SREAD SWRITE else ev.
(** socket/sc_sock.c:1298-1317: sc_sock_poll_wait; [events]: p->events is not NULL; [l]: the answers of epoll_wait, a count or
    an error (Fuel: not answered yet).  The result and whether the error text was set. *)
Fixpoint wait_loop (l : list (Z + Z)) : res (Z * bool) :=
  match l with
  | [] => Fuel
  | inl n :: _ => Ok (n, false)
  | inr e :: r => if e =? EINTR then wait_loop r else Ok (-1, true)
  end.
(** socket/sc_sock.c:1298-1317, the test for NULL. *)
Definition poll_wait (events : bool) (l : list (Z + Z)) : res (Z * bool) :=
  if negb events then Ok (-1, true) else wait_loop l.

(** What init and term do: the array of events is allocated and freed, descriptors are opened and closed
    (socket/sc_sock.c:1122, :1128, :1137, :1153, :1155; :1020, :1041, :1047). *)
Inductive pact := PAlloc | PFree | POpen (fd : Z) | PClose (fd : Z).
(** struct sc_sock_poll, socket/sc_sock.h:328-331; [pevents]: events is not NULL. *)
Record poll := mk_poll { pfds : Z; pevents : bool }.
(** socket/sc_sock.c:1116-1143: sc_sock_poll_init; [mem]: malloc succeeds; [cr]: epoll_create1's (kqueue's) answer.
    Freeing NULL does nothing. *)
Definition poll_init (mem : bool) (cr : Z + Z) : poll * list pact * Z :=
  if negb mem then (mk_poll (-1) false, [], -1)
  else match cr with
       | inl f => (mk_poll f true, [PAlloc; POpen f], 0)
       | inr _ => (mk_poll (-1) false, [PAlloc; PFree], -1)
       end.
(** socket/sc_sock.c:1145-1164: sc_sock_poll_term; [e]: 0 or close's error. *)
Definition poll_term (p : poll) (e : Z) : poll * list pact * Z :=
  if negb (pevents p) then (p, [], 0)
  else (mk_poll (-1) false, [PFree; PClose (pfds p)], if e =? 0 then 0 else -1).

(** struct sc_sock_pipe, socket/sc_sock.h:270-274: the two ends and the embedded sc_sock_fd. *)
Record pipe := mk_pipe { rend : Z; wend : Z; pfdt : fdt; ptype : Z }.
(** socket/sc_sock.c:1012-1031: sc_sock_pipe_init; [a]: the two descriptors or an error. *)
Definition pipe_init (type : Z) (a : (Z * Z) + Z) : pipe * list pact * Z :=
  let p := mk_pipe INVALID INVALID (mk_fdt 0 0) 0 in
  match a with
  | inr _ => (p, [], -1)
  | inl (r, w) => (mk_pipe r w (mk_fdt r 0) type, [POpen r; POpen w], 0)
  end.
(** socket/sc_sock.c:1033-1057: sc_sock_pipe_term; [e1], [e2]: the answers of close. *)
Definition pipe_term (p : pipe) (e1 e2 : Z) : pipe * list pact * Z :=
  if rend p =? INVALID then (p, [], 0)
  else
    let rc := 0 in
    let rc := if e1 =? 0 then rc else -1 in
    let rc := if e2 =? 0 then rc else -1 in
    (mk_pipe INVALID INVALID (pfdt p) (ptype p), [PClose (rend p); PClose (wend p)], rc).
(** socket/sc_sock.c:1059-1071 and :1073-1085: sc_sock_pipe_write and sc_sock_pipe_read; [l]: the answers. *)
Fixpoint pipe_io (l : list (Z + Z)) : res Z :=
  match l with
  | [] => Fuel
  | inl n :: _ => Ok n
  | inr e :: r => if e =? EINTR then pipe_io r else Ok (-1)
  end.

(** ** kqueue *)

(** The two filters of a descriptor (EVFILT_READ, EVFILT_WRITE): for each the EV_CLEAR flag and the user data,
    if it is registered (socket/sc_sock.c:1394, :1398).  As kqueue(2) documents, adding again replaces the parameters. *)
Record filters := mk_filters { f_read : option (bool * Z); f_write : option (bool * Z) }.
(** A change: filter (true: read), EV_ADD with EV_CLEAR or not, or EV_DELETE (socket/sc_sock.c:1394, :1398, :1436-1446). *)
Inductive change := KAdd (rd clear : bool) (data : Z) | KDel (rd : bool).
(** One change; deleting what is not there fails (kqueue(2)).
    (socket/sc_sock.c:1406, :1453.) *)
Definition kchange (k : filters) (c : change) : option filters :=
  match c with
  | KAdd true cl d => Some (mk_filters (Some (cl, d)) (f_write k))
  | KAdd false cl d => Some (mk_filters (f_read k) (Some (cl, d)))
  | KDel true => match f_read k with Some _ => Some (mk_filters None (f_write k)) | None => None end
  | KDel false => match f_write k with Some _ => Some (mk_filters (f_read k) None) | None => None end
  end.
(** kevent(2) with a list of changes and no room for errors (socket/sc_sock.c:1406, :1453): they are made one by one up to the first that fails;
    [ok] says which the system does not refuse for other reasons. *)
Fixpoint kevent (k : filters) (l : list change) (ok : list bool) : filters * Z :=
  match l with
  | [] => (k, 0)
  | c :: l =>
      if hd true ok then match kchange k c with Some k => kevent k l (tl ok) | None => (k, -1) end
      else (k, -1)
  end.
(** socket/sc_sock.c:1370-1416: sc_sock_poll_add. *)
Definition kq_add (k : filters) (t : fdt) (events data : Z) (ok : list bool) : filters * fdt * Z * list Z :=
  let old_mask := top t in
  let new_mask := Z.lor old_mask events in
  let new_mask := if new_mask =? SEDGE then 0 else new_mask in
  if old_mask =? new_mask then (k, t, 0, [])
  else
    let clear := negb (Z.land new_mask SEDGE =? 0) in
    let ev := (if Z.land new_mask SWRITE =? 0 then [] else [KAdd false clear data]) ++
              (if Z.land new_mask SREAD =? 0 then [] else [KAdd true clear data]) in
    let t := mk_fdt (tfd t) new_mask in
    let '(k, rc) := kevent k ev ok in
    if negb (rc =? 0) then (k, mk_fdt (tfd t) old_mask, -1, [top t]) else (k, t, 0, [top t]).
(** socket/sc_sock.c:1418-1463: sc_sock_poll_del. *)
Definition kq_del (k : filters) (t : fdt) (events data : Z) (ok : list bool) : filters * fdt * Z * list Z :=
  let old_mask := top t in
  let del_mask := Z.land old_mask events in
  let new_mask := Z.land old_mask (Z.lnot events) in
  let new_mask := if new_mask =? SEDGE then 0 else new_mask in
  if old_mask =? new_mask then (k, t, 0, [])
  else
    let one flag rd :=
      if negb (Z.land del_mask flag =? 0) then [KDel rd]
      else if negb (Z.land del_mask SEDGE =? 0) && negb (Z.land old_mask flag =? 0) then [KAdd rd false data]
      else [] in
    let ev := one SREAD true ++ one SWRITE false in
    let t := mk_fdt (tfd t) new_mask in
    let '(k, rc) := kevent k ev ok in
    if negb (rc =? 0) then (k, mk_fdt (tfd t) old_mask, -1, [top t]) else (k, t, 0, [top t]).
(** socket/sc_sock.c:1470-1483: sc_sock_poll_event; [eof]: EV_EOF is set, [rd]: the filter is EVFILT_READ. *)
Definition kq_event (eof rd : bool) : Z :=
  if eof then Z.lor SREAD SWRITE else if rd then SREAD else SWRITE.
