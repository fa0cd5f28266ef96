(** Model of socket/sc_sock.c:140-760, the sockets on POSIX systems (the Windows branches
    are not modelled).  System calls are answered from outside; the calls that open, close
    and set up descriptors and address lists are recorded in the order they are made. *)
From Verif Require Import Base CStr CNum IniModel.

(** AF_UNIX, AF_INET, AF_INET6 of Linux (socket/sc_sock.h:73-78), -1 for SC_INVALID (socket/sc_sock.c:142). *)
Definition AF_UNIX : Z := 1.
(** socket/sc_sock.h:75. *)
Definition AF_INET : Z := 2.
(** socket/sc_sock.h:76. *)
Definition AF_INET6 : Z := 10.
(** socket/sc_sock.c:142. *)
Definition INVALID : Z := -1.
(** errno values of Linux (socket/sc_sock.c:143-145, :463) and EOF (:664). *)
Definition EINTR : Z := 4.
(** socket/sc_sock.c:144. *)
Definition EAGAIN : Z := 11.
(** socket/sc_sock.c:463. *)
Definition EINVAL : Z := 22.
(** socket/sc_sock.c:145. *)
Definition EINPROGRESS : Z := 115.
(** socket/sc_sock.c:664. *)
Definition EOF : Z := -1.
(** O_NONBLOCK of Linux, socket/sc_sock.c:234. *)
Definition O_NONBLOCK : Z := 2048.

(** What the calls did.  The options are those of socket/sc_sock.c:385, :398, :403, :566, :571. *)
Inductive opt := V6ONLY | REUSEADDR | NODELAY.
(** The calls of socket/sc_sock.c:225-751 that matter. *)
Inductive act :=
| Resolved            (* getaddrinfo returned a list: socket/sc_sock.c:366, :492, :539 *)
| FreeList            (* freeaddrinfo: :421, :504, :606 *)
| Tried (i : Z)       (* socket for the i-th address: :377, :552; 0 for Unix sockets *)
| Opened (fd : Z)     (* socket, accept: :345, :377, :454, :552, :697 *)
| Closed (fd : Z)     (* close: :259 *)
| Flags (fd fl : Z)   (* fcntl F_SETFL: :235 *)
| Option (fd : Z) (o : opt)
| Unlink (path : list Z)            (* :326 *)
| Bound (fd : Z) (to : list Z)      (* bind: :328, :408, :498 *)
| Connected (fd : Z) (to : list Z)  (* connect (successful or in progress): :468, :583 *)
| Listening (fd : Z).               (* listen: :741 *)

(** Where the text in s->err comes from (socket/sc_sock.c:216-222): gai_strerror(n) or
    strerror(n); the buffer itself is as in thread/sc_thread.c (ThrModel). *)
Inductive errtext := NoText | Gai (n : Z) | Sys (n : Z).
(** socket/sc_sock.h:93-108: struct sc_sock and struct sc_sock_fd. *)
Record sock := mk_sock { fd : Z; op : Z; typ : Z; blocking : bool; family : Z; text : errtext }.
(** The calls made so far, and errno.
    (socket/sc_sock.c:225-751.) *)
Record sys := mk_sys { acts : list act; errno : Z }.
(** A call is recorded.
    (Bookkeeping for socket/sc_sock.c:225-751.) *)
Definition did (y : sys) (a : act) : sys := mk_sys (acts y ++ [a]) (errno y).
(** A call fails with error [e].
    (Bookkeeping for socket/sc_sock.c:225-751.) *)
Definition fails (y : sys) (e : Z) : sys := mk_sys (acts y) e.
(** The fields of [sock] that change, socket/sc_sock.c:216-222, :260, :350, :382, :557-558. *)
Definition with_fd (s : sock) (x : Z) : sock := mk_sock x (op s) (typ s) (blocking s) (family s) (text s).
(** socket/sc_sock.c:558, :704. *)
Definition with_family (s : sock) (x : Z) : sock := mk_sock (fd s) (op s) (typ s) (blocking s) x (text s).
(** socket/sc_sock.c:216-222. *)
Definition with_text (s : sock) (x : errtext) : sock := mk_sock (fd s) (op s) (typ s) (blocking s) (family s) x.

(** socket/sc_sock.c:240-252: sc_sock_init. *)
Definition sock_init (type : Z) (block : bool) (fam : Z) : sock := mk_sock INVALID 0 type block fam NoText.
(** socket/sc_sock.c:216-222: sc_sock_errstr. *)
Definition errstr (s : sock) (y : sys) (gai : Z) : sock := with_text s (if gai =? 0 then Sys (errno y) else Gai gai).
(** socket/sc_sock.c:254-264: sc_sock_close; [e]: 0, or the error of close.  The
    descriptor is gone in either case (Linux). *)
Definition sock_close (s : sock) (y : sys) (e : Z) : sock * sys * Z :=
  if fd s =? INVALID then (s, y, 0)
  else let y := did y (Closed (fd s)) in
       let y := if e =? 0 then y else fails y e in
       (with_fd s INVALID, y, if e =? 0 then 0 else -1).
(** socket/sc_sock.c:266-276: sc_sock_term. *)
Definition sock_term (s : sock) (y : sys) (e : Z) : sock * sys * Z :=
  let '(s, y, rc) := sock_close s y e in
  (if rc =? 0 then s else errstr s y 0, y, rc).

(** The answers to fcntl F_GETFL (flags, or the error) and F_SETFL (0 or the error),
    socket/sc_sock.c:229-235. *)
Record fcntls := mk_fcntls { getfl : Z + Z; setfl : Z }.
(** socket/sc_sock.c:225-236: sc_sock_set_blocking. *)
Definition set_blocking (s : sock) (y : sys) (block : bool) (a : fcntls) : sys * Z :=
  match getfl a with
  | inr e => (fails y e, -1)
  | inl flags =>
      let flags := if block then Z.land flags (Z.lnot O_NONBLOCK) else Z.lor flags O_NONBLOCK in
      if setfl a =? 0 then (did y (Flags (fd s) flags), 0) else (fails y (setfl a), -1)
  end.

(** struct timeval built in socket/sc_sock.c:283-286 and :303-306: seconds and microseconds. *)
Definition timeo (ms : Z) : Z * Z := (Z.quot ms 1000, Z.rem ms 1000).
(** socket/sc_sock.c:278-296 and :298-316: sc_sock_set_rcvtimeo, sc_sock_set_sndtimeo; [e]:
    setsockopt's answer.  The value passed to the system and the result. *)
Definition set_timeo (s : sock) (y : sys) (ms e : Z) : sock * sys * (Z * Z) * Z :=
  if e =? 0 then (s, y, timeo ms, 0) else (errstr s (fails y e) 0, fails y e, timeo ms, -1).

(** sizeof(addr.sun_path) on Linux, socket/sc_sock.c:325, :462. *)
Definition SUN_PATH : Z := 108.
(** socket/sc_sock.c:318-331: sc_sock_bind_unix; [host] is the memory at host, [eu] and
    [eb] the answers of unlink and bind. *)
Definition bind_unix (s : sock) (y : sys) (host : list Z) (eu eb : Z) : res (sys * Z) :=
  let* path := strncpy (repeat 0 (Z.to_nat SUN_PATH)) host (SUN_PATH - 1) in
  let* h := cstring host in
  let y := if eu =? 0 then did y (Unlink h) else fails y eu in
  let* name := cstring path in
  if eb =? 0 then Ok (did y (Bound (fd s) name), 0) else Ok (fails y eb, -1).

(** One entry of an address list (socket/sc_sock.c:372, :546) with the answers to the calls made
    for it: socket (a descriptor or an error), setsockopt IPV6_V6ONLY, SO_REUSEADDR and
    TCP_NODELAY, fcntl, bind, connect, and the close after a failed connect. *)
Record entry := mk_entry {
  e_family : Z; e_addr : list Z; e_socket : Z + Z; e_v6 : Z; e_fcntl : fcntls; e_reuse : Z; e_nodelay : Z;
  e_bind : Z; e_src : Z + list Z; e_connect : Z; e_close : Z }.

(** socket/sc_sock.c:416-419: error: in sc_sock_bind; the list is freed at :421. *)
Definition bind_error (s : sock) (y : sys) (ec : Z) : sock * sys * Z :=
  let s := errstr s y 0 in
  let '(s, y, _) := sock_close s y ec in
  (s, did y FreeList, -1).
(** socket/sc_sock.c:372-414: the loop of sc_sock_bind; [i] is the position in the list. *)
Fixpoint bind_loop (s : sock) (y : sys) (i : Z) (l : list entry) (ec : Z) : sock * sys * Z :=
  match l with
  | [] => bind_error s y ec
  | p :: r =>
      let y := did y (Tried i) in
      match e_socket p with
      | inr e => bind_loop s (fails y e) (i + 1) r ec
      | inl f =>
          let y := did y (Opened f) in
          let s := with_fd s f in
          if (family s =? AF_INET6) && negb (e_v6 p =? 0) then bind_error s (fails y (e_v6 p)) ec
          else
            let y := if family s =? AF_INET6 then did y (Option f V6ONLY) else y in
            let '(y, rc) := set_blocking s y (blocking s) (e_fcntl p) in
            if negb (rc =? 0) then bind_error s y ec
            else if negb (e_reuse p =? 0) then bind_error s (fails y (e_reuse p)) ec
            else
              let y := did y (Option f REUSEADDR) in
              if negb (e_nodelay p =? 0) then bind_error s (fails y (e_nodelay p)) ec
              else
                let y := did y (Option f NODELAY) in
                if negb (e_bind p =? 0) then bind_error s (fails y (e_bind p)) ec
                else (s, did (did y (Bound f (e_addr p))) FreeList, 0)
      end
  end.
(** The outside's answers to one sc_sock_listen: getaddrinfo (a list, or its error), socket,
    unlink and bind for a Unix socket, close on the error path, listen and the close after it.
    (socket/sc_sock.c:333-424, :732-751.) *)
Record listens := mk_listens { l_gai : Z + list entry; l_socket : Z + Z; l_unlink : Z; l_bind : Z; l_close : Z; l_listen : Z; l_close2 : Z }.
(** socket/sc_sock.c:333-424: sc_sock_bind. *)
Definition sock_bind (s : sock) (y : sys) (host : list Z) (a : listens) : res (sock * sys * Z) :=
  let s := with_text s NoText in
  if family s =? AF_UNIX then
    let error_unix s y :=
      let s := errstr s y 0 in
      let '(s, y, _) := sock_close s y (l_close a) in Ok (s, y, -1) in
    match l_socket a with
    | inr e => error_unix s (fails (did y (Tried 0)) e)
    | inl f =>
        let s := with_fd s f in
        let* (y, rc) := bind_unix s (did (did y (Tried 0)) (Opened f)) host (l_unlink a) (l_bind a) in
        if negb (rc =? 0) then error_unix s y else Ok (s, y, 0)
    end
  else
    match l_gai a with
    | inl rc => Ok (errstr s y rc, y, -1)
    | inr l => Ok (bind_loop s (did y Resolved) 0 l (l_close a))
    end.
(** socket/sc_sock.c:732-751: sc_sock_listen. *)
Definition sock_listen (s : sock) (y : sys) (host : list Z) (a : listens) : res (sock * sys * Z) :=
  let* (s, y, rc) := sock_bind s y host a in
  if negb (rc =? 0) then Ok (s, y, rc)
  else if l_listen a =? 0 then Ok (s, did y (Listening (fd s)), 0)
  else
    let y := fails y (l_listen a) in
    let s := errstr s y 0 in
    let '(s, y, _) := sock_close s y (l_close2 a) in Ok (s, y, -1).

(** socket/sc_sock.c:426-442: sc_sock_finish_connect; [rc]: 0 or the error of getsockopt; [so]: SO_ERROR. *)
Definition finish_connect (s : sock) (y : sys) (rc so : Z) : sock * sys * Z :=
  if negb (rc =? 0) then (errstr s (fails y rc) 0, fails y rc, -1)
  else if negb (so =? 0) then (errstr s (fails y so) 0, fails y so, -1)
  else (s, y, 0).

(** socket/sc_sock.c:444-480: sc_sock_connect_unix; [sk], [ec], [el]: the answers of socket,
    connect and close. *)
Definition connect_unix (s : sock) (y : sys) (addr : list Z) (sk : Z + Z) (ec el : Z) : res (sock * sys * Z) :=
  let* len := strlen addr in
  let err s y :=
    let s := errstr s y 0 in
    let '(s, y, _) := sock_close s y el in Ok (s, y, -1) in
  match sk with
  | inr e => err s (fails (did y (Tried 0)) e)
  | inl f =>
      let y := did (did y (Tried 0)) (Opened f) in
      let s := with_fd s f in
      if SUN_PATH <=? len then err s (fails y EINVAL)
      else
        let* b := bytes_at addr 0 (len + 1) in
        let* path := memcpy (repeat 0 (Z.to_nat SUN_PATH)) 0 b in
        let* name := cstring path in
        if negb (ec =? 0) then err s (fails y ec)
        else Ok (s, did y (Connected f name), 0)
  end.

(** socket/sc_sock.c:497-502: the loop of sc_sock_bind_src over the source addresses' bind
    answers; the value of rc after it ([rc] before). *)
Fixpoint src_loop (s : sock) (y : sys) (rc : Z) (l : list Z) : sys * Z :=
  match l with
  | [] => (y, rc)
  | e :: r => if e =? 0 then (did y (Bound (fd s) []), 0) else src_loop s (fails y e) (-1) r
  end.
(** socket/sc_sock.c:482-518: sc_sock_bind_src; [a]: the error of getaddrinfo, or the answers to bind. *)
Definition bind_src (s : sock) (y : sys) (a : Z + list Z) : sock * sys * Z :=
  match a with
  | inl rc => (errstr s y rc, y, -1)
  | inr l =>
      let '(y, rc) := src_loop s (did y Resolved) 0 l in
      let y := did y FreeList in
      if rc =? -1 then (errstr s y 0, y, -1) else (s, y, 0)
  end.

(** How one round over the list (socket/sc_sock.c:546-597) ends: with the next round, or
    at one of the labels error (:600), bind_error (:602) and end (:605). *)
Inductive exit := Next | Error | BindError | End (rv : Z).
(** socket/sc_sock.c:546-597: one round of sc_sock_connect; [first]: the round for the
    addresses of the socket's own family [fam]; [src]: a source address or port was given. *)
Fixpoint connect_round (s : sock) (y : sys) (first : bool) (fam : Z) (src : bool) (i : Z) (l : list entry) : sock * sys * exit :=
  match l with
  | [] => (s, y, Next)
  | p :: r =>
      if xorb first (e_family p =? fam) then connect_round s y first fam src (i + 1) r
      else
        let y := did y (Tried i) in
        match e_socket p with
        | inr e => connect_round s (fails y e) first fam src (i + 1) r
        | inl f =>
            let y := did y (Opened f) in
            let s := with_fd (with_family s (e_family p)) f in
            let '(y, rc) := set_blocking s y (blocking s) (e_fcntl p) in
            if negb (rc =? 0) then (s, y, Error)
            else if negb (e_reuse p =? 0) then (s, fails y (e_reuse p), Error)
            else
              let y := did y (Option f REUSEADDR) in
              if negb (e_nodelay p =? 0) then (s, fails y (e_nodelay p), Error)
              else
                let y := did y (Option f NODELAY) in
                let '(s, y, rc) := if src then bind_src s y (e_src p) else (s, y, 0) in
                if negb (rc =? 0) then (s, y, BindError)
                else if negb (e_connect p =? 0) then
                  let y := fails y (e_connect p) in
                  if negb (blocking s) && ((errno y =? EINPROGRESS) || (errno y =? EAGAIN))
                  then (s, fails (did y (Connected f (e_addr p))) EAGAIN, End (-1))
                  else
                    let '(s, y, _) := sock_close s y (e_close p) in
                    connect_round s y first fam src (i + 1) r
                else (s, did y (Connected f (e_addr p)), End 0)
        end
  end.
(** The outside's answers to one sc_sock_connect: for a Unix socket socket, connect and close;
    getaddrinfo, and the close on the error path.
    (socket/sc_sock.c:444-609.) *)
Record connects := mk_connects { c_socket : Z + Z; c_connect : Z; c_unix_close : Z; c_gai : Z + list entry; c_close : Z }.
(** socket/sc_sock.c:600-609: the end of sc_sock_connect. *)
Definition connect_end (s : sock) (y : sys) (x : exit) (ec : Z) : sock * sys * Z :=
  match x with
  | End rv => (s, did y FreeList, rv)
  | BindError => let '(s, y, _) := sock_close s y ec in (s, did y FreeList, -1)
  | Error | Next => let s := errstr s y 0 in
                    let '(s, y, _) := sock_close s y ec in (s, did y FreeList, -1)
  end.
(** socket/sc_sock.c:520-609: sc_sock_connect; [dst] is the memory at dst_addr. *)
Definition sock_connect (s : sock) (y : sys) (dst : list Z) (src : bool) (a : connects) : res (sock * sys * Z) :=
  let fam := family s in
  if fam =? AF_UNIX then connect_unix s y dst (c_socket a) (c_connect a) (c_unix_close a)
  else
    match c_gai a with
    | inl rc => Ok (errstr s y rc, y, -1)
    | inr l =>
        let '(s, y, x) := connect_round s (did y Resolved) true fam src 0 l in
        match x with
        | Next =>
            let '(s, y, x) := connect_round s y false fam src 0 l in
            Ok (connect_end s y x (c_close a))
        | _ => Ok (connect_end s y x (c_close a))
        end
    end.

(** The answers to send or recv: how many bytes, or the error.
    (socket/sc_sock.c:628, :663.) *)
Definition transfer : Type := Z + Z.
(** socket/sc_sock.c:617-650: sc_sock_send; [l]: the answers of send (Fuel: not answered yet).
    The result is cast to int, which it fits. *)
Fixpoint send_loop (s : sock) (y : sys) (l : list transfer) : res (sock * sys * Z) :=
  match l with
  | [] => Fuel
  | inl n :: _ => Ok (s, y, n)
  | inr e :: r =>
      let y := fails y e in
      if e =? EINTR then send_loop s y r
      else if e =? EAGAIN then Ok (s, fails y EAGAIN, -1)
      else Ok (errstr s y 0, y, -1)
  end.
(** socket/sc_sock.c:617-626: the test for an empty transfer. *)
Definition sock_send (s : sock) (y : sys) (len : Z) (l : list transfer) : res (sock * sys * Z) :=
  if len <=? 0 then Ok (s, y, len) else send_loop s y l.
(** socket/sc_sock.c:652-688: sc_sock_recv. *)
Fixpoint recv_loop (s : sock) (y : sys) (l : list transfer) : res (sock * sys * Z) :=
  match l with
  | [] => Fuel
  | inl n :: _ => if n =? 0 then Ok (s, fails y EOF, -1) else Ok (s, y, n)
  | inr e :: r =>
      let y := fails y e in
      if e =? EINTR then recv_loop s y r
      else if e =? EAGAIN then Ok (s, fails y EAGAIN, -1)
      else Ok (errstr s y 0, y, -1)
  end.
(** socket/sc_sock.c:652-661: the test for an empty transfer. *)
Definition sock_recv (s : sock) (y : sys) (len : Z) (l : list transfer) : res (sock * sys * Z) :=
  if len <=? 0 then Ok (s, y, len) else recv_loop s y l.

(** socket/sc_sock.c:690-730: sc_sock_accept on [s] into [n]; [ac], [nd], [fc], [el]: the answers of
    accept, setsockopt TCP_NODELAY, fcntl and close. *)
Definition sock_accept (s n : sock) (y : sys) (ac : Z + Z) (nd : Z) (fc : fcntls) (el : Z) : sock * sock * sys * Z :=
  match ac with
  | inr e =>
      let y := fails y e in
      if negb (blocking s) && (errno y =? EAGAIN) then (s, n, fails y EAGAIN, -1)
      else (errstr s y 0, n, y, -1)
  | inl f =>
      let y := did y (Opened f) in
      let n := mk_sock f 0 (typ n) (blocking n) (family s) (text n) in
      let error y :=
        let s := errstr s y 0 in
        let '(n, y, _) := sock_close n y el in (s, n, y, -1) in
      if negb (family n =? AF_UNIX) && negb (nd =? 0) then error (fails y nd)
      else
        let y := if negb (family n =? AF_UNIX) then did y (Option f NODELAY) else y in
        let '(y, rc) := set_blocking n y (blocking s) fc in
        if negb (rc =? 0) then error y else (s, n, y, 0)
  end.
