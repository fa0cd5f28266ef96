(** Model of socket/sc_sock.c:240-751 on Windows: listening, connecting by address, accepting, sending and receiving.  The errors of the
    system are those of WSAGetLastError; errno is set by the code only.  Connecting Unix sockets is in WsockModel.v, the
    edge mask of the poller in WinModel.v.  The calls made are recorded as in SockModel.v. *)
From Verif Require Import Base CStr CNum IniModel SockModel.

(** socket/sc_sock.c:66-68 and ws2def.h: WSAEINTR. *)
Definition WSAEINTR : Z := 10004.
(** socket/sc_sock.c:66: WSAEWOULDBLOCK. *)
Definition WSAEWOULDBLOCK : Z := 10035.
(** socket/sc_sock.c:67: WSAEINPROGRESS. *)
Definition WSAEINPROGRESS : Z := 10036.
(** AF_INET6 of Windows (socket/sc_sock.c:384). *)
Definition W_INET6 : Z := 23.

(** The calls made so far, what WSAGetLastError gives, and errno (socket/sc_sock.c:72-91, :587, :641, :663, :679, :700). *)
Record wsys := mk_wsys { wacts : list act; wlast : Z; werr : Z }.
(** A call is recorded (bookkeeping for socket/sc_sock.c:93-751). *)
Definition wdid (y : wsys) (a : act) : wsys := mk_wsys (wacts y ++ [a]) (wlast y) (werr y).
(** A call fails with error [e] (bookkeeping for socket/sc_sock.c:93-751). *)
Definition wfails (y : wsys) (e : Z) : wsys := mk_wsys (wacts y) e (werr y).
(** The assignments to errno (socket/sc_sock.c:587, :641, :663, :679, :700). *)
Definition werrno (y : wsys) (e : Z) : wsys := mk_wsys (wacts y) (wlast y) e.

(** socket/sc_sock.c:77-91 [sc_sock_errstr]; [fm]: FormatMessage succeeds; gai_err is not used. *)
Definition w_errstr (fm : bool) (s : sock) (y : wsys) : sock := if fm then with_text s (Sys (wlast y)) else s.
(** socket/sc_sock.c:254-264 [sc_sock_close]; [e]: 0, or the error of closesocket. *)
Definition w_close (s : sock) (y : wsys) (e : Z) : sock * wsys * Z :=
  if fd s =? INVALID then (s, y, 0)
  else let y := wdid y (Closed (fd s)) in
       let y := if e =? 0 then y else wfails y e in
       (with_fd s INVALID, y, if e =? 0 then 0 else -1).
(** socket/sc_sock.c:93-99 [sc_sock_set_blocking]; [e]: 0, or the error of ioctlsocket.  Flags records the mode: 1 for not blocking. *)
Definition w_set_blocking (s : sock) (y : wsys) (block : bool) (e : Z) : wsys * Z :=
  let mode := if block then 0 else 1 in
  if e =? 0 then (wdid y (Flags (fd s) mode), 0) else (wfails y e, -1).

(** One entry of an address list (socket/sc_sock.c:372, :546) with the answers to the calls made for it, as in SockModel.v;
    ioctlsocket instead of fcntl. *)
Record wentry := mk_wentry {
  w_family : Z; w_addr : list Z; w_socket : Z + Z; w_v6 : Z; w_ioctl : Z; w_reuse : Z; w_nodelay : Z;
  w_bind : Z; w_src : Z + list Z; w_connect : Z; w_closed : Z }.

(** socket/sc_sock.c:416-422: error: in sc_sock_bind. *)
Definition w_bind_error (fm : bool) (s : sock) (y : wsys) (ec : Z) : sock * wsys * Z :=
  let s := w_errstr fm s y in
  let '(s, y, _) := w_close s y ec in
  (s, wdid y FreeList, -1).
(** socket/sc_sock.c:372-414: the loop of sc_sock_bind. *)
Fixpoint w_bind_loop (fm : bool) (s : sock) (y : wsys) (i : Z) (l : list wentry) (ec : Z) : sock * wsys * Z :=
  match l with
  | [] => w_bind_error fm s y ec
  | p :: r =>
      let y := wdid y (Tried i) in
      match w_socket p with
      | inr e => w_bind_loop fm s (wfails y e) (i + 1) r ec
      | inl f =>
          let y := wdid y (Opened f) in
          let s := with_fd s f in
          if (family s =? W_INET6) && negb (w_v6 p =? 0) then w_bind_error fm s (wfails y (w_v6 p)) ec
          else
            let y := if family s =? W_INET6 then wdid y (Option f V6ONLY) else y in
            let '(y, rc) := w_set_blocking s y (blocking s) (w_ioctl p) in
            if negb (rc =? 0) then w_bind_error fm s y ec
            else if negb (w_reuse p =? 0) then w_bind_error fm s (wfails y (w_reuse p)) ec
            else
              let y := wdid y (Option f REUSEADDR) in
              if negb (w_nodelay p =? 0) then w_bind_error fm s (wfails y (w_nodelay p)) ec
              else
                let y := wdid y (Option f NODELAY) in
                if negb (w_bind p =? 0) then w_bind_error fm s (wfails y (w_bind p)) ec
                else (s, wdid (wdid y (Bound f (w_addr p))) FreeList, 0)
      end
  end.
(** The answers to one sc_sock_listen: getaddrinfo, close on the error path, listen and the close after it
    (socket/sc_sock.c:366-424, :741-750). *)
Record wlistens := mk_wlistens { wl_gai : Z + list wentry; wl_close : Z; wl_listen : Z; wl_close2 : Z }.
(** socket/sc_sock.c:333-343, :366-424 and :732-751 [sc_sock_listen] for families other than AF_UNIX.  getaddrinfo leaves its error with
    WSAGetLastError. *)
Definition w_listen (fm : bool) (s : sock) (y : wsys) (a : wlistens) : sock * wsys * Z :=
  let s := with_text s NoText in
  match wl_gai a with
  | inl rc => let y := wfails y rc in (w_errstr fm s y, y, -1)
  | inr l =>
      let '(s, y, rc) := w_bind_loop fm s (wdid y Resolved) 0 l (wl_close a) in
      if negb (rc =? 0) then (s, y, rc)
      else if wl_listen a =? 0 then (s, wdid y (Listening (fd s)), 0)
      else
        let y := wfails y (wl_listen a) in
        let s := w_errstr fm s y in
        let '(s, y, _) := w_close s y (wl_close2 a) in (s, y, -1)
  end.

(** socket/sc_sock.c:497-502: the loop of sc_sock_bind_src. *)
Fixpoint w_src_loop (s : sock) (y : wsys) (rc : Z) (l : list Z) : wsys * Z :=
  match l with
  | [] => (y, rc)
  | e :: r => if e =? 0 then (wdid y (Bound (fd s) []), 0) else w_src_loop s (wfails y e) (-1) r
  end.
(** socket/sc_sock.c:482-518 [sc_sock_bind_src]. *)
Definition w_bind_src (fm : bool) (s : sock) (y : wsys) (a : Z + list Z) : sock * wsys * Z :=
  match a with
  | inl rc => let y := wfails y rc in (w_errstr fm s y, y, -1)
  | inr l =>
      let '(y, rc) := w_src_loop s (wdid y Resolved) 0 l in
      let y := wdid y FreeList in
      if rc =? -1 then (w_errstr fm s y, y, -1) else (s, y, 0)
  end.
(** socket/sc_sock.c:546-597: one round of sc_sock_connect. *)
Fixpoint w_connect_round (fm : bool) (s : sock) (y : wsys) (first : bool) (fam : Z) (src : bool) (i : Z) (l : list wentry) : sock * wsys * exit :=
  match l with
  | [] => (s, y, Next)
  | p :: r =>
      if xorb first (w_family p =? fam) then w_connect_round fm s y first fam src (i + 1) r
      else
        let y := wdid y (Tried i) in
        match w_socket p with
        | inr e => w_connect_round fm s (wfails y e) first fam src (i + 1) r
        | inl f =>
            let y := wdid y (Opened f) in
            let s := with_fd (with_family s (w_family p)) f in
            let '(y, rc) := w_set_blocking s y (blocking s) (w_ioctl p) in
            if negb (rc =? 0) then (s, y, Error)
            else if negb (w_reuse p =? 0) then (s, wfails y (w_reuse p), Error)
            else
              let y := wdid y (Option f REUSEADDR) in
              if negb (w_nodelay p =? 0) then (s, wfails y (w_nodelay p), Error)
              else
                let y := wdid y (Option f NODELAY) in
                let '(s, y, rc) := if src then w_bind_src fm s y (w_src p) else (s, y, 0) in
                if negb (rc =? 0) then (s, y, BindError)
                else if negb (w_connect p =? 0) then
                  let y := wfails y (w_connect p) in
                  if negb (blocking s) && ((wlast y =? WSAEINPROGRESS) || (wlast y =? WSAEWOULDBLOCK))
                  then (s, werrno (wdid y (Connected f (w_addr p))) EAGAIN, End (-1))
                  else
                    let '(s, y, _) := w_close s y (w_closed p) in
                    w_connect_round fm s y first fam src (i + 1) r
                else (s, wdid y (Connected f (w_addr p)), End 0)
        end
  end.
(** socket/sc_sock.c:600-609: the end of sc_sock_connect. *)
Definition w_connect_end (fm : bool) (s : sock) (y : wsys) (x : exit) (ec : Z) : sock * wsys * Z :=
  match x with
  | End rv => (s, wdid y FreeList, rv)
  | BindError => let '(s, y, _) := w_close s y ec in (s, wdid y FreeList, -1)
  | Error | Next => let s := w_errstr fm s y in
                    let '(s, y, _) := w_close s y ec in (s, wdid y FreeList, -1)
  end.
(** socket/sc_sock.c:520-609 [sc_sock_connect] for families other than AF_UNIX; [g]: getaddrinfo's error or list, [ec]: the close on the
    error path. *)
Definition w_sock_connect (fm : bool) (s : sock) (y : wsys) (src : bool) (g : Z + list wentry) (ec : Z) : sock * wsys * Z :=
  let fam := family s in
  match g with
  | inl rc => let y := wfails y rc in (w_errstr fm s y, y, -1)
  | inr l =>
      let '(s, y, x) := w_connect_round fm s (wdid y Resolved) true fam src 0 l in
      match x with
      | Next =>
          let '(s, y, x) := w_connect_round fm s y false fam src 0 l in
          w_connect_end fm s y x ec
      | _ => w_connect_end fm s y x ec
      end
  end.

(** socket/sc_sock.c:617-650 [sc_sock_send]; [l]: the answers of send (Fuel: not answered yet). *)
Fixpoint w_send_loop (fm : bool) (s : sock) (y : wsys) (l : list transfer) : res (sock * wsys * Z) :=
  match l with
  | [] => Fuel
  | inl n :: _ => Ok (s, y, n)
  | inr e :: r =>
      let y := wfails y e in
      if e =? WSAEINTR then w_send_loop fm s y r
      else if e =? WSAEWOULDBLOCK then Ok (s, werrno y EAGAIN, -1)
      else Ok (w_errstr fm s y, y, -1)
  end.
(** socket/sc_sock.c:617-626. *)
Definition w_send (fm : bool) (s : sock) (y : wsys) (len : Z) (l : list transfer) : res (sock * wsys * Z) :=
  if len <=? 0 then Ok (s, y, len) else w_send_loop fm s y l.
(** socket/sc_sock.c:652-688 [sc_sock_recv]. *)
Fixpoint w_recv_loop (fm : bool) (s : sock) (y : wsys) (l : list transfer) : res (sock * wsys * Z) :=
  match l with
  | [] => Fuel
  | inl n :: _ => if n =? 0 then Ok (s, werrno y EOF, -1) else Ok (s, y, n)
  | inr e :: r =>
      let y := wfails y e in
      if e =? WSAEINTR then w_recv_loop fm s y r
      else if e =? WSAEWOULDBLOCK then Ok (s, werrno y EAGAIN, -1)
      else Ok (w_errstr fm s y, y, -1)
  end.
(** socket/sc_sock.c:652-661. *)
Definition w_recv (fm : bool) (s : sock) (y : wsys) (len : Z) (l : list transfer) : res (sock * wsys * Z) :=
  if len <=? 0 then Ok (s, y, len) else w_recv_loop fm s y l.
(** socket/sc_sock.c:690-730 [sc_sock_accept]; [ac], [nd], [io], [el]: the answers of accept, setsockopt, ioctlsocket and closesocket. *)
Definition w_accept (fm : bool) (s n : sock) (y : wsys) (ac : Z + Z) (nd io el : Z) : sock * sock * wsys * Z :=
  match ac with
  | inr e =>
      let y := wfails y e in
      if negb (blocking s) && (wlast y =? WSAEWOULDBLOCK) then (s, n, werrno y EAGAIN, -1)
      else (w_errstr fm s y, n, y, -1)
  | inl f =>
      let y := wdid y (Opened f) in
      let n := mk_sock f 0 (typ n) (blocking n) (family s) (text n) in
      let error y :=
        let s := w_errstr fm s y in
        let '(n, y, _) := w_close n y el in (s, n, y, -1) in
      if negb (family n =? AF_UNIX) && negb (nd =? 0) then error (wfails y nd)
      else
        let y := if negb (family n =? AF_UNIX) then wdid y (Option f NODELAY) else y in
        let '(y, rc) := w_set_blocking n y (blocking s) io in
        if negb (rc =? 0) then error y else (s, n, y, 0)
  end.
