(** Model of the results of sc_sock_poll_wait on Linux (socket/sc_sock.c:1272-1317): the array of events the kernel fills, and
    programs that wait, call the functions of PollManyModel.v, and read the results. *)
From Verif Require Import Base SockModel PollModel PollManyModel.

(** SC_SOCK_POLL_MAX_EVENTS, socket/sc_sock.c:50. *)
Definition MAXEV : Z := 1024.
(** The sockets and the array p->events (socket/sc_sock.c:1122): events word and data of each cell, None while uninitialised. *)
Record bsys := mk_bsys { bm : msys; bres : list (option (Z * Z)) }.
(** The array is allocated and nothing is registered (socket/sc_sock.c:1122-1132). *)
Definition bstart : bsys := mk_bsys (mk_msys (fun _ => None) [] []) (repeat None (Z.to_nat MAXEV)).
(** What epoll_wait (socket/sc_sock.c:1309) reports when [ready] lists the descriptors the kernel finds active, with their state:
    for each descriptor that is registered the part of the state asked for, errors and hang-ups always, with the registered data
    (epoll_ctl(2)).  EPOLLET is a mode and is not reported.  Each descriptor is looked at once: a second entry of it is dropped. *)
Fixpoint ready_list (k : kernel) (ready : list (Z * Z)) : list (Z * Z) :=
  match ready with
  | [] => []
  | (f, w) :: r =>
      let r := ready_list (upd k f None) r in
      match k f with
      | None => r
      | Some (ev, d) =>
          let w := Z.land w (Z.ldiff (Z.lor ev (Z.lor EPOLLERR EPOLLHUP)) EPOLLET) in
          if w =? 0 then r else (w, d) :: r
      end
  end.
(** socket/sc_sock.c:1298-1317 [sc_sock_poll_wait]: [l] are the answers of epoll_wait, an error or the active descriptors, of which at
    most the number given are reported; the result is their number.  After the last answer the call waits (Fuel). *)
Fixpoint bwait (s : bsys) (l : list (list (Z * Z) + Z)) : res (bsys * Z) :=
  match l with
  | [] => Fuel
  | inr e :: r => if e =? EINTR then bwait s r else Ok (s, -1)
  | inl ready :: _ =>
      let rep := firstn (Z.to_nat MAXEV) (ready_list (mreg (bm s)) ready) in
      if zlen rep <=? zlen (bres s) then Ok (mk_bsys (bm s) (map Some rep ++ skipn (length rep) (bres s)), zlen rep) else UB
  end.
(** The cell [i] of the array, socket/sc_sock.c:1274, :1280; outside the array, or not written yet: UB. *)
Definition bcell (s : bsys) (i : Z) : res (Z * Z) :=
  let* c := or_ub (zget (bres s) i) in or_ub c.
(** socket/sc_sock.c:1272-1275 [sc_sock_poll_data]. *)
Definition bdata (s : bsys) (i : Z) : res Z := let* c := bcell s i in Ok (snd c).
(** socket/sc_sock.c:1277-1296 [sc_sock_poll_event]. *)
Definition bevent (s : bsys) (i : Z) : res Z := let* c := bcell s i in Ok (poll_event (fst c)).
(** A call on a socket (PollManyModel.v), or a wait (socket/sc_sock.c:1298). *)
Inductive bop := BCall (o : mop) | BWait (l : list (list (Z * Z) + Z)).
(** One call and its result (socket/sc_sock.c:1166-1317). *)
Definition bstep (s : bsys) (o : bop) : res (bsys * Z) :=
  match o with
  | BCall o => let* (m, rc) := mstep (bm s) o in Ok (mk_bsys m (bres s), rc)
  | BWait l => bwait s l
  end.
(** A program and its results (for socket/sc_sock.c:1166-1317). *)
Fixpoint brun (s : bsys) (l : list bop) : res (bsys * list Z) :=
  match l with
  | [] => Ok (s, [])
  | o :: l => let* (s, rc) := bstep s o in let* (s, rcs) := brun s l in Ok (s, rc :: rcs)
  end.
