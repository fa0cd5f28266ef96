(** Model of signal/sc_signal.c: shutdown requests handled by several threads at
    once.  POSIX delivers a signal to any thread that does not block it, and a
    signal is blocked only in the thread that handles it (signal/sc_signal.c:488-494);
    Windows runs the console handler in a new thread for each event (:215, :311).  The
    flag and the descriptors are accessed one step at a time in one order for all
    threads; ISO C does not promise that for volatile sig_atomic_t (:69, :74). *)
From Verif Require Import Base FatalModel.

(** The process: the handler frames of all threads, the latest first, each with its
    thread; signal/sc_signal.c:58, :74; each thread's errno; the bytes taken by the
    shutdown descriptor; the exit code if the process ended. *)
Record crowd := mk_crowd { busy : list (Z * frame); cfd : Z; flag : bool; errs : Z -> Z; got : Z; ended : option Z }.
(** Assignment of errno of thread [t] (signal/sc_signal.c:387, :422 restore it). *)
Definition set_errno (errs : Z -> Z) (t e : Z) : Z -> Z := fun u => if u =? t then e else errs u.
(** The frame is at another position (signal/sc_signal.c:399-422). *)
Definition at_pc (f : frame) (p : pc) : frame := mk_frame (fsig f) p (fsaved f).
(** One step of thread [t]; [new] tells whether a request arrived.  [kinds]: SIGINT and
    SIGTERM (signal/sc_signal.c:493-494), or the events of the Windows console (:223-228).
    A request arrives unless the thread is handling the same one; the handler a
    thread entered last goes on.  [e]: what the calls made leave in errno.  POSIX
    lines; the Windows handler is the same at :241-260 but neither saves nor restores errno. *)
Inductive cstep (kinds : list Z) : crowd -> bool -> crowd -> Prop :=
| c_signal n t sig e : ended n = None -> In sig kinds ->
    ~ In (t, sig) (map (fun x => (fst x, fsig (snd x))) (busy n)) ->
    (* :387-397 *)
    cstep kinds n true (mk_crowd ((t, mk_frame sig Entered (errs n t)) :: busy n) (cfd n) (flag n)
                          (set_errno (errs n) t e) (got n) None)
| c_test n l t f r e : ended n = None -> busy n = l ++ (t, f) :: r -> ~ In t (map fst l) -> fpc f = Entered ->
    (* :399-402 *)
    cstep kinds n false
      (if flag n then mk_crowd (busy n) (cfd n) (flag n) (set_errno (errs n) t e) (got n) (Some 1)
       else mk_crowd (l ++ (t, at_pc f Tested) :: r) (cfd n) (flag n) (errs n) (got n) None)
| c_mark n l t f r : ended n = None -> busy n = l ++ (t, f) :: r -> ~ In t (map fst l) -> fpc f = Tested ->
    (* :404 *)
    cstep kinds n false (mk_crowd (l ++ (t, at_pc f Marked) :: r) (cfd n) true (errs n) (got n) None)
| c_fd n l t f r e : ended n = None -> busy n = l ++ (t, f) :: r -> ~ In t (map fst l) -> fpc f = Marked ->
    (* :406-408, :416-419 *)
    cstep kinds n false
      (if cfd n =? -1 then mk_crowd (busy n) (cfd n) (flag n) (set_errno (errs n) t e) (got n) (Some 0)
       else mk_crowd (l ++ (t, at_pc f Sending) :: r) (cfd n) (flag n) (set_errno (errs n) t e) (got n) None)
| c_write n l t f r e took : ended n = None -> busy n = l ++ (t, f) :: r -> ~ In t (map fst l) -> fpc f = Sending ->
    (* :409 *)
    cstep kinds n false (mk_crowd (l ++ (t, at_pc f (Sent took)) :: r) (cfd n) (flag n) (set_errno (errs n) t e)
                           (got n + (if took then 1 else 0)) None)
| c_sent n l t f r e took : ended n = None -> busy n = l ++ (t, f) :: r -> ~ In t (map fst l) -> fpc f = Sent took ->
    (* :410-415 *)
    cstep kinds n false
      (if took then mk_crowd (l ++ (t, at_pc f Restoring) :: r) (cfd n) (flag n) (errs n) (got n) None
       else mk_crowd (busy n) (cfd n) (flag n) (set_errno (errs n) t e) (got n) (Some 1))
| c_return n l t f r : ended n = None -> busy n = l ++ (t, f) :: r -> ~ In t (map fst l) -> fpc f = Restoring ->
    (* :422-423 *)
    cstep kinds n false (mk_crowd (l ++ r) (cfd n) (flag n) (set_errno (errs n) t (fsaved f)) (got n) None).
(** Any number of steps of signal/sc_signal.c:385-423, with the number of requests that
    arrived. *)
Inductive cruns (kinds : list Z) : crowd -> Z -> crowd -> Prop :=
| cr_refl n : cruns kinds n 0 n
| cr_step n k m new m' : cruns kinds n k m -> cstep kinds m new m' ->
    cruns kinds n (k + (if new then 1 else 0)) m'.
