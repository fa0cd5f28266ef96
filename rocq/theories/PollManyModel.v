(** Model of programs with one poller and any number of sockets on Linux (socket/sc_sock.c:240-276, :1166-1270): the functions
    of PollModel.v on a table of structures, with the descriptors that are open. *)
From Verif Require Import Base SockModel PollModel.

(** The registrations of the poller, the open descriptors, and the structures (socket/sc_sock.h:93-108, :328). *)
Record msys := mk_msys { mreg : kernel; mopen : list Z; mtab : list fdt }.
(** A call on the structure number [i].  The calls that open a descriptor are one (connect, listen, accept; C145 has them apart).
    (socket/sc_sock.h:121-330.) *)
Inductive mop :=
| MNew                            (* another structure, sc_sock_init: socket/sc_sock.c:240 *)
| MInit (i : nat)                 (* sc_sock_init again: :240 *)
| MOpen (i : nat) (f : Z)         (* :486, :690, :732; f is what the system gives, a descriptor that is not open; otherwise it fails *)
| MClose (i : nat) (e : Z)        (* sc_sock_term: :266 *)
| MCtl (i : nat) (add : bool) (ev data e : Z). (* sc_sock_poll_add, sc_sock_poll_del: :1166, :1221 *)

(** Is the descriptor open?  Otherwise epoll_ctl fails with EBADF, 9 (socket/sc_sock.c:1209, :1260). *)
Definition is_open (s : msys) (f : Z) : bool := existsb (Z.eqb f) (mopen s).
(** One call and its result (socket/sc_sock.c:240-276, :1166-1270).  A number that is not in the table is UB.
    Closing a descriptor, which is assumed not to be duplicated, ends its registration (epoll(7)), also if close reports an error. *)
Definition mstep (s : msys) (o : mop) : res (msys * Z) :=
  match o with
  | MNew => Ok (mk_msys (mreg s) (mopen s) (mtab s ++ [mk_fdt INVALID 0]), 0)
  | MInit i => let* _ := or_ub (nth_error (mtab s) i) in Ok (mk_msys (mreg s) (mopen s) (lset (mtab s) i (mk_fdt INVALID 0)), 0)
  | MOpen i f =>
      let* t := or_ub (nth_error (mtab s) i) in
      if (f <? 0) || is_open s f then Ok (s, -1)
      else Ok (mk_msys (mreg s) (f :: mopen s) (lset (mtab s) i (mk_fdt f (top t))), 0)
  | MClose i e =>
      let* t := or_ub (nth_error (mtab s) i) in
      if tfd t =? INVALID then Ok (s, 0)
      else Ok (mk_msys (upd (mreg s) (tfd t) None) (filter (fun g => negb (g =? tfd t)) (mopen s)) (lset (mtab s) i (mk_fdt INVALID (top t))), if e =? 0 then 0 else -1)
  | MCtl i add ev data e =>
      let* t := or_ub (nth_error (mtab s) i) in
      let e := if is_open s (tfd t) then e else if e =? 0 then 9 else e in
      let '(k, t, rc, _) := if add then poll_add (mreg s) t ev data e else poll_del (mreg s) t ev data e in
      Ok (mk_msys k (mopen s) (lset (mtab s) i t), rc)
  end.
(** A program and its results (for socket/sc_sock.c:240-276, :1166-1270). *)
Fixpoint mrun (s : msys) (l : list mop) : res (msys * list Z) :=
  match l with
  | [] => Ok (s, [])
  | o :: l => let* (s, rc) := mstep s o in let* (s, rcs) := mrun s l in Ok (s, rc :: rcs)
  end.
