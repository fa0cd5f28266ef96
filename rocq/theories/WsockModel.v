(** Model of socket/sc_sock.c, what is different on Windows besides the poller and the pipe (WinModel). *)
From Verif Require Import Base.

(** socket/sc_sock.c:101-113 [sc_sock_startup]: [rc], [low], [high]: what WSAStartup returns and the version it
    chose.  [uses]: how many uses of Winsock by the process are registered; WSAStartup adds one if it returns
    0. *)
Definition wsock_startup (uses rc low high : Z) : Z * Z :=
  let uses := if rc =? 0 then uses + 1 else uses in
  if negb (rc =? 0) || (negb (low =? 2) || negb (high =? 2)) then (uses, -1) else (uses, 0).
(** socket/sc_sock.c:115-121 [sc_sock_cleanup]: [rc]: what WSACleanup returns; 0 takes one
    use back. *)
Definition wsock_cleanup (uses rc : Z) : Z * Z :=
  ((if rc =? 0 then uses - 1 else uses), if negb (rc =? 0) then -1 else 0).
(** Calls with the answers (socket/sc_sock.c:101-121). *)
Inductive wuse := Startup (rc low high : Z) | Cleanup (rc : Z).
(** A history of the two (socket/sc_sock.c:101-121): the uses and the results. *)
Fixpoint wsock_uses (uses : Z) (l : list wuse) : Z * list Z :=
  match l with
  | [] => (uses, [])
  | c :: l =>
      let '(uses, rc) := match c with Startup rc low high => wsock_startup uses rc low high | Cleanup rc => wsock_cleanup uses rc end in
      let '(uses, rcs) := wsock_uses uses l in (uses, rc :: rcs)
  end.
(** socket/sc_sock.c:93-99 [sc_sock_set_blocking]: the mode passed to FIONBIO (not 0: calls do not block), and the
    result; [rc]: what ioctlsocket returns. *)
Definition wsock_set_blocking (blocking : bool) (rc : Z) : Z * Z :=
  ((if blocking then 0 else 1), if rc =? 0 then 0 else -1).
(** A long of 32 bits in memory, the lowest byte first (for socket/sc_sock.c:283-286). *)
Definition long_bytes (x : Z) : list Z :=
  let x := u32 x in [x mod 256; x / 256 mod 256; x / 65536 mod 256; x / 16777216 mod 256].
(** socket/sc_sock.c:278-298 [sc_sock_set_rcvtimeo], :300-318 [sc_sock_set_sndtimeo]: the bytes of the
    struct timeval passed to setsockopt (tv_sec first, both long). *)
Definition wsock_timeo (ms : Z) : list Z := long_bytes (Z.quot ms 1000) ++ long_bytes (Z.rem ms 1000).
(** What Windows makes of the option (socket/sc_sock.c:290, :312): it reads a DWORD of milliseconds, 0 for no time limit;
    None: no limit. *)
Definition win_timeout (bytes : list Z) : option Z :=
  match bytes with
  | a :: b :: c :: d :: _ => let x := a + 256 * b + 65536 * c + 16777216 * d in if x =? 0 then None else Some x
  | _ => None
  end.
(** What is left behind: WSAGetLastError, errno, and the error whose message is in s->err
    (socket/sc_sock.c:72-91). *)
Record wlast := mk_wlast { last : Z; werrno : Z; text : option Z }.
(** socket/sc_sock.c:77-91 [sc_sock_errstr]; [fm]: FormatMessage succeeds.  gai_err is not used. *)
Definition wsock_errstr (fm : bool) (e : wlast) : wlast :=
  if fm then mk_wlast (last e) (werrno e) (Some (last e)) else e.
(** socket/sc_sock.c:425-442 [sc_sock_finish_connect]; [rc]: 0, or the error getsockopt fails with; [ret]: the value of
    SO_ERROR. *)
Definition wsock_finish_connect (fm : bool) (e : wlast) (rc ret : Z) : wlast * Z :=
  let e := if rc =? 0 then e else mk_wlast rc (werrno e) (text e) in
  let '(e, rc) := if (rc =? 0) && negb (ret =? 0) then (mk_wlast (last e) ret (text e), -1) else (e, rc) in
  if negb (rc =? 0) then (wsock_errstr fm e, -1) else (e, 0).
(** Calls made by [wsock_connect_unix] (socket/sc_sock.c:454, :259, :468). *)
Inductive wsact := Opened (fd : Z) | Closed (fd : Z) | Connected (fd len : Z).
(** socket/sc_sock.c:444-480 [sc_sock_connect_unix] for a path of [len] bytes; sun_path has 108 bytes.  [sk]: the socket or the
    error of socket; [ec]: 0 or the error of connect; [cl]: the last error closesocket leaves if it fails.  s->fdt.fd is -1 when the
    call is made; the last component is s->fdt.fd afterwards. *)
Definition wsock_connect_unix (fm : bool) (e : wlast) (len : Z) (sk : Z + Z) (ec : Z) (cl : option Z)
    : list wsact * wlast * Z * Z :=
  let close e := match cl with Some x => mk_wlast x (werrno e) (text e) | None => e end in
  match sk with
  | inl x => let e := mk_wlast x (werrno e) (text e) in ([], wsock_errstr fm e, -1, -1)
  | inr fd =>
      if 108 <=? len then
        let e := mk_wlast (last e) 22 (text e) in
        ([Opened fd; Closed fd], close (wsock_errstr fm e), -1, -1)
      else if negb (ec =? 0) then
        let e := mk_wlast ec (werrno e) (text e) in
        ([Opened fd; Closed fd], close (wsock_errstr fm e), -1, -1)
      else ([Opened fd; Connected fd len], e, 0, fd)
  end.
