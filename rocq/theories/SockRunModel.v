(** Model of programs that use any number of sockets (socket/sc_sock.c:240-751, POSIX): the functions
    of SockModel.v on a table of structures. *)
From Verif Require Import Base SockModel.

(** A call on structures of the table, given by their numbers, with the answers of the system.
    (socket/sc_sock.h:121-330.) *)
Inductive scall :=
| CInit (type : Z) (block : bool) (fam : Z)   (* a new structure, sc_sock_init: socket/sc_sock.c:240 *)
| CTerm (i : nat) (e : Z)                     (* :266 *)
| CTimeo (i : nat) (ms e : Z)                 (* :278, :298 *)
| CListen (i : nat) (host : list Z) (a : listens)                  (* :732 *)
| CConnect (i : nat) (dst : list Z) (src : bool) (a : connects)    (* :520 *)
| CFinish (i : nat) (rc so : Z)               (* :426 *)
| CSend (i : nat) (len : Z) (l : list transfer)    (* :617 *)
| CRecv (i : nat) (len : Z) (l : list transfer)    (* :652 *)
| CAccept (i j : nat) (ac : Z + Z) (nd : Z) (fc : fcntls) (el : Z). (* :690, on i into j *)

(** The structure at [i], and the table with another one there (for socket/sc_sock.h:93-108).  A number
    that is not in the table is UB. *)
Definition get_sock (l : list sock) (i : nat) : res sock := or_ub (nth_error l i).
(** A structure changed by a call (for socket/sc_sock.h:93-108). *)
Definition set_sock (l : list sock) (i : nat) (s : sock) : list sock := firstn i l ++ s :: skipn (S i) l.
(** One call (socket/sc_sock.c:240-751); the results are left out.  Accepting into the listening
    structure itself is not modelled (UB). *)
Definition sock_call (l : list sock) (y : sys) (c : scall) : res (list sock * sys) :=
  match c with
  | CInit t b f => Ok (l ++ [sock_init t b f], y)
  | CTerm i e => let* s := get_sock l i in let '(s, y, _) := sock_term s y e in Ok (set_sock l i s, y)
  | CTimeo i ms e => let* s := get_sock l i in let '(s, y, _, _) := set_timeo s y ms e in Ok (set_sock l i s, y)
  | CListen i h a => let* s := get_sock l i in let* (s, y, _) := sock_listen s y h a in Ok (set_sock l i s, y)
  | CConnect i d src a => let* s := get_sock l i in let* (s, y, _) := sock_connect s y d src a in Ok (set_sock l i s, y)
  | CFinish i rc so => let* s := get_sock l i in let '(s, y, _) := finish_connect s y rc so in Ok (set_sock l i s, y)
  | CSend i len a => let* s := get_sock l i in let* (s, y, _) := sock_send s y len a in Ok (set_sock l i s, y)
  | CRecv i len a => let* s := get_sock l i in let* (s, y, _) := sock_recv s y len a in Ok (set_sock l i s, y)
  | CAccept i j ac nd fc el =>
      if Nat.eqb i j then UB
      else
        let* s := get_sock l i in
        let* n := get_sock l j in
        let '(s, n, y, _) := sock_accept s n y ac nd fc el in
        Ok (set_sock (set_sock l i s) j n, y)
  end.
(** A program (for socket/sc_sock.c:240-751). *)
Fixpoint sock_run (l : list sock) (y : sys) (p : list scall) : res (list sock * sys) :=
  match p with
  | [] => Ok (l, y)
  | c :: p => let* (l, y) := sock_call l y c in sock_run l y p
  end.
