(** Model of the error messages of the poller and of the pipe (socket/sc_sock.c:858-874, :1094-1112 and the calls that set them). *)
From Coq Require Import String Ascii.
From Verif Require Import Base SockModel PollModel.
Local Open Scope string_scope.
Local Open Scope Z_scope.

(** The bytes of a literal (the formats of socket/sc_sock.c:1214, :1265, :1304, :1313, :1411, :1458, :1505). *)
Fixpoint bytes (s : string) : list Z :=
  match s with EmptyString => [] | String c s => Z.of_nat (nat_of_ascii c) :: bytes s end.
(** What a format and its arguments, all strings, expand to (vsnprintf of socket/sc_sock.c:871, :1108).  %s and %% are
    conversions; all others, and %s without an argument, are undefined here: no such argument is ever passed. *)
Fixpoint expand (fmt : list Z) (args : list (list Z)) : res (list Z) :=
  match fmt with
  | [] => Ok []
  | 37 :: 115 :: r => match args with a :: args => let* s := expand r args in Ok (a ++ s)%list | [] => UB end
  | 37 :: 37 :: r => let* s := expand r args in Ok (37 :: s)
  | 37 :: _ => UB
  | c :: r => let* s := expand r args in Ok (c :: s)
  end.
(** socket/sc_sock.c:865-874, :1102-1112: vsnprintf into 128 bytes, then the last byte is set to NUL. *)
Definition set_msg (buf : list Z) (fmt : list Z) (args : list (list Z)) : res (list Z) :=
  let* s := expand fmt args in
  let s := firstn 127 s in
  zput (s ++ [0] ++ skipn (length s + 1) buf)%list 127 0.

(** The thread-local buffers, one for each thread (socket/sc_sock.c:1094). *)
Definition bufs : Type := Z -> list Z.
(** At the start of a thread its buffer is zero (static storage, socket/sc_sock.c:1094). *)
Definition fresh : bufs := fun _ => repeat 0 128.
(** socket/sc_sock.c:1102-1112 [sc_sock_poll_set_err] called by thread [t]. *)
Definition poll_set_err (b : bufs) (t : Z) (fmt : list Z) (args : list (list Z)) : res bufs :=
  let* m := set_msg (b t) fmt args in Ok (fun u => if u =? t then m else b u).
(** socket/sc_sock.c:1513-1525 [sc_sock_poll_set_err_from_code] (Windows); [msg]: what FormatMessage says, if it succeeds.  strncpy of 127
    bytes pads with NULs; the last byte of the buffer is not written. *)
Definition poll_set_code (b : bufs) (t : Z) (msg : option (list Z)) : bufs :=
  match msg with
  | None => b
  | Some m => fun u => if u =? t then (firstn 127 (m ++ repeat 0 127) ++ skipn 127 (b t))%list else b u
  end.

(** A call of the poller with the state it finds and the answers it gets (socket/sc_sock.h:385-450); [bsd]: the kqueue build. *)
Inductive pcall :=
| CInit (mem : bool) (cr : Z + Z)
| CTerm (p : poll) (e : Z)
| CAdd (k : kernel) (f : fdt) (events data e errno : Z)
| CDel (k : kernel) (f : fdt) (events data e errno : Z)
| KAddC (k : filters) (f : fdt) (events data : Z) (ok : list bool) (errno : Z)
| KDelC (k : filters) (f : fdt) (events data : Z) (ok : list bool) (errno : Z)
| CWait (bsd events : bool) (l : list (Z + Z)).
(** errno after the last answer of epoll_wait or kevent (socket/sc_sock.c:1308-1313, :1496-1505). *)
Fixpoint last_error (l : list (Z + Z)) : Z :=
  match l with
  | [] => 0
  | inl _ :: _ => 0
  | inr e :: r => if e =? EINTR then last_error r else e
  end.
(** ENOMEM, socket/sc_sock.c:1124, :1329. *)
Definition ENOMEM : Z := 12.
(** A call by thread [t]: the buffers and the result.  [strerror]: the system's messages, without their NUL.
    socket/sc_sock.c:1136, :1157, :1214, :1265, :1304, :1313 (epoll), :1341, :1361, :1411, :1458, :1492, :1505 (kqueue). *)
Definition perr (strerror : Z -> list Z) (b : bufs) (t : Z) (c : pcall) : res (bufs * Z) :=
  match c with
  | CInit mem cr =>
      let '(_, _, rc) := poll_init mem cr in
      let errno := if mem then match cr with inr e => e | inl _ => 0 end else ENOMEM in
      if rc =? 0 then Ok (b, rc) else let* b := poll_set_err b t (strerror errno) [] in Ok (b, rc)
  | CTerm p e =>
      let '(_, _, rc) := poll_term p e in
      if rc =? 0 then Ok (b, rc) else let* b := poll_set_err b t (strerror e) [] in Ok (b, rc)
  | CAdd k f ev d e errno =>
      let '(_, _, rc, _) := poll_add k f ev d e in
      if rc =? 0 then Ok (b, rc) else let* b := poll_set_err b t (bytes "epoll_ctl : %s ") [strerror errno] in Ok (b, rc)
  | CDel k f ev d e errno =>
      let '(_, _, rc, _) := poll_del k f ev d e in
      if rc =? 0 then Ok (b, rc) else let* b := poll_set_err b t (bytes "epoll_ctl : %s ") [strerror errno] in Ok (b, rc)
  | KAddC k f ev d ok errno =>
      let '(_, _, rc, _) := kq_add k f ev d ok in
      if rc =? 0 then Ok (b, rc) else let* b := poll_set_err b t (bytes "kevent : %s ") [strerror errno] in Ok (b, rc)
  | KDelC k f ev d ok errno =>
      let '(_, _, rc, _) := kq_del k f ev d ok in
      if rc =? 0 then Ok (b, rc) else let* b := poll_set_err b t (bytes "kevent : %s ") [strerror errno] in Ok (b, rc)
  | CWait bsd events l =>
      let* (n, failed) := poll_wait events l in
      if negb failed then Ok (b, n)
      else if events then let* b := poll_set_err b t (bytes (if bsd then "kevent : %s " else "epoll_wait : %s ")) [strerror (last_error l)] in Ok (b, n)
      else let* b := poll_set_err b t (bytes "poll : sc_sock_poll is not initialized or already terminated") [] in Ok (b, n)
  end.
(** The bytes up to the NUL: what a caller reads from sc_sock_poll_err or sc_sock_pipe_err (socket/sc_sock.c:858-862, :1096-1100). *)
Fixpoint read_msg (m : list Z) : res (list Z) :=
  match m with
  | [] => UB
  | c :: r => if c =? 0 then Ok [] else let* s := read_msg r in Ok (c :: s)
  end.
(** Calls by many threads, one after another (for socket/sc_sock.c:1094). *)
Fixpoint perrs (strerror : Z -> list Z) (b : bufs) (l : list (Z * pcall)) : res (bufs * list Z) :=
  match l with
  | [] => Ok (b, [])
  | (t, c) :: l => let* (b, rc) := perr strerror b t c in let* (b, rcs) := perrs strerror b l in Ok (b, rc :: rcs)
  end.

(** A call of the pipe on POSIX with its answers (socket/sc_sock.c:1012-1085). *)
Inductive qcall := QInit (type : Z) (a : (Z * Z) + Z) | QTerm (e1 e2 : Z) | QIo (l : list (Z + Z)).
(** The pipe, its err[128] and the result.  socket/sc_sock.c:1016-1018 (err is cleared), :1022, :1044, :1050; write and read set no message. *)
Definition qerr (strerror : Z -> list Z) (p : pipe) (m : list Z) (c : qcall) : res (pipe * list Z * Z) :=
  match c with
  | QInit type a =>
      let m := repeat 0 128 in
      let '(p, _, rc) := pipe_init type a in
      match a with
      | inl _ => Ok (p, m, rc)
      | inr e => let* m := set_msg m (bytes "pipe() : %s ") [strerror e] in Ok (p, m, rc)
      end
  | QTerm e1 e2 =>
      let '(p', _, rc) := pipe_term p e1 e2 in
      if rend p =? INVALID then Ok (p', m, rc)
      else
        let* m := if e1 =? 0 then Ok m else set_msg m (bytes "pipe close() : %s ") [strerror e1] in
        let* m := if e2 =? 0 then Ok m else set_msg m (bytes "pipe close() : %s ") [strerror e2] in
        Ok (p', m, rc)
  | QIo l => let* n := pipe_io l in Ok (p, m, n)
  end.
