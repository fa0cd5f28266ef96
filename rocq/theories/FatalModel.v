(** Model of signal/sc_signal.c (POSIX part): installing the handlers, the fatal
    signal handler, what the kernel does with them, and shutdown signals that
    interrupt each other.  Linux signal numbers; SC_SIGNAL_TEST is not defined. *)
From Verif Require Import Base CStr CNum ScModel SigModel.

(** ** Installing the handlers and the fatal handler *)
(** What a signal is set to: signal/sc_signal.c:470 (SIG_DFL), :486 (SIG_IGN), :491, :501. *)
Inductive handler := Default | Ignore | Shutdown | Fatal.
(** struct sigaction as far as used: the handler, SA_NODEFER and SA_RESETHAND
    (signal/sc_signal.c:469, :490, :500).  The masks are empty (:468, :488, :499).
    SA_SIGINFO and SA_ONSTACK do not matter to what is modelled here. *)
Record action := mk_action { hnd : handler; nodefer : bool; resethand : bool }.
(** Signal numbers (Linux) named in signal/sc_signal.c:486-507. *)
Definition SIGHUP : Z := 1.
(** signal/sc_signal.c:494. *)
Definition SIGINT : Z := 2.
(** signal/sc_signal.c:507. *)
Definition SIGILL : Z := 4.
(** signal/sc_signal.c:503. *)
Definition SIGABRT : Z := 6.
(** signal/sc_signal.c:505. *)
Definition SIGBUS : Z := 7.
(** signal/sc_signal.c:506. *)
Definition SIGFPE : Z := 8.
(** signal/sc_signal.c:504. *)
Definition SIGSEGV : Z := 11.
(** signal/sc_signal.c:487. *)
Definition SIGPIPE : Z := 13.
(** signal/sc_signal.c:493. *)
Definition SIGTERM : Z := 15.
(** The process: the dispositions kept by the kernel, the signals blocked, the
    globals of the module (signal/sc_signal.c:58, :69, :74). *)
Record proc := mk_proc { disp : Z -> action; blocked : list Z; vars : sigs }.
(** The sigaction system call (signal/sc_signal.c:471, :493-507) and signal (:486-487):
    if granted, the disposition of [sig] changes. *)
Definition sigaction (granted : bool) (sig : Z) (a : action) (d : Z -> action) : Z -> action :=
  fun x => if granted && (x =? sig) then a else d x.
(** signal/sc_signal.c:478-514 [sc_signal_init].  [ok sig]: the kernel grants the
    request for that signal (sigemptyset cannot fail).  will_shutdown is not reset. *)
Definition signal_init (ok : Z -> bool) (p : proc) : proc * Z :=
  let v := mk_sigs (-1) (-1) (will_shutdown (vars p)) (errno_ (vars p)) in
  let rc := true in
  let ign := mk_action Ignore false false in
  let d := sigaction (ok SIGHUP) SIGHUP ign (disp p) in let rc := rc && ok SIGHUP in
  let d := sigaction (ok SIGPIPE) SIGPIPE ign d in let rc := rc && ok SIGPIPE in
  let act := mk_action Shutdown false false in
  let d := sigaction (ok SIGTERM) SIGTERM act d in let rc := rc && ok SIGTERM in
  let d := sigaction (ok SIGINT) SIGINT act d in let rc := rc && ok SIGINT in
  let act := mk_action Fatal true true in
  let d := sigaction (ok SIGABRT) SIGABRT act d in let rc := rc && ok SIGABRT in
  let d := sigaction (ok SIGSEGV) SIGSEGV act d in let rc := rc && ok SIGSEGV in
  let d := sigaction (ok SIGBUS) SIGBUS act d in let rc := rc && ok SIGBUS in
  let d := sigaction (ok SIGFPE) SIGFPE act d in let rc := rc && ok SIGFPE in
  let d := sigaction (ok SIGILL) SIGILL act d in let rc := rc && ok SIGILL in
  (mk_proc d (blocked p) v, if rc then 0 else -1).

(** signal/sc_signal.c:446: "\nSignal : [%d][%s] \n". *)
Definition T_signal : list Z := [10; 83; 105; 103; 110; 97; 108; 32; 58; 32; 91; 37; 100; 93; 91; 37; 115; 93; 32; 10; 0].
(** signal/sc_signal.c:448: "\n----------------- CRASH REPORT ---------------- \n". *)
Definition T_report : list Z :=
  [10; 45; 45; 45; 45; 45; 45; 45; 45; 45; 45; 45; 45; 45; 45; 45; 45; 45; 32; 67; 82; 65; 83; 72; 32; 82; 69; 80; 79; 82; 84; 32;
   45; 45; 45; 45; 45; 45; 45; 45; 45; 45; 45; 45; 45; 45; 45; 45; 32; 10; 0].
(** signal/sc_signal.c:455: "\n Caller [%p] \n\n". *)
Definition T_caller : list Z := [10; 32; 67; 97; 108; 108; 101; 114; 32; 91; 37; 112; 93; 32; 10; 10; 0].
(** signal/sc_signal.c:463: "\n--------------- CRASH REPORT END -------------- \n". *)
Definition T_end : list Z :=
  [10; 45; 45; 45; 45; 45; 45; 45; 45; 45; 45; 45; 45; 45; 45; 45; 32; 67; 82; 65; 83; 72; 32; 82; 69; 80; 79; 82; 84; 32; 69; 78; 68; 32;
   45; 45; 45; 45; 45; 45; 45; 45; 45; 45; 45; 45; 45; 45; 32; 10; 0].
(** signal/sc_signal.c:465: "\nSignal handler completed! \n". *)
Definition T_done : list Z :=
  [10; 83; 105; 103; 110; 97; 108; 32; 104; 97; 110; 100; 108; 101; 114; 32; 99; 111; 109; 112; 108; 101; 116; 101; 100; 33; 32; 10; 0].
(** signal/sc_signal.c:431-444: the name printed. *)
Definition fatal_str (sig : Z) : list Z :=
  if sig =? SIGSEGV then [83; 73; 71; 83; 69; 71; 86; 0]
  else if sig =? SIGABRT then [83; 73; 71; 65; 66; 82; 84; 0]
  else if sig =? SIGBUS then [83; 73; 71; 66; 85; 83; 0]
  else if sig =? SIGFPE then [83; 73; 71; 70; 80; 69; 0]
  else if sig =? SIGILL then [83; 73; 71; 73; 76; 76; 0]
  else [117; 110; 107; 110; 111; 119; 110; 32; 115; 105; 103; 110; 97; 108; 0].
(** What the fatal handler does: a log action; the backtrace written to a descriptor;
    close; sigaction; kill of the own process (signal/sc_signal.c:446-474). *)
Inductive fact := Log (a : act) | Trace (fd : Z) | Shut (fd : Z) | Set_ (sig : Z) (a : action) | Kill (sig : Z).
(** signal/sc_signal.c:425-476 [sc_signal_on_fatal].  [caller]: with HAVE_BACKTRACE, the
    instruction pointer (:451); None without.  The backtrace itself (:457-458) is the
    C library's.  The results of the calls are ignored by the code. *)
Definition on_fatal (junk buf : list Z) (caller : option Z) (s : sigs) (sig : Z) : res (list fact) :=
  let fd := if negb (log_fd s =? -1) then log_fd s else 2 in
  let* (buf, a1) := sig_log junk buf fd 4096 T_signal [AInt 1 sig; AStr (Some (fatal_str sig))] in
  let* (buf, a2) := sig_log junk buf fd 4096 T_report [] in
  let* (buf, a3) := match caller with
                    | Some c =>
                        let* (buf, a) := sig_log junk buf fd 4096 T_caller [APtr c] in
                        Ok (buf, map Log a ++ [Trace fd])
                    | None => Ok (buf, [])
                    end in
  let* (buf, a4) := sig_log junk buf fd 4096 T_end [] in
  let* (_, a5) := sig_log junk buf fd 4096 T_done [] in
  Ok (map Log a1 ++ map Log a2 ++ a3 ++ map Log a4 ++ map Log a5 ++
      [Shut fd; Set_ sig (mk_action Default true true); Kill sig]).

(** ** The kernel's side *)
(** What becomes of the process: still running, exited (signal/sc_signal.c:401, :414,
    :419), killed by a signal (:474), or a signal waits because it is blocked. *)
Inductive fate := Runs (p : proc) | Exited (code : Z) | Killed (sig : Z) | Pending (sig : Z) (p : proc).
(** Delivery of a signal to a process whose signal is not blocked (POSIX sigaction):
    SA_RESETHAND resets the disposition on entry; without SA_NODEFER the signal is
    blocked while the handler runs (flags: signal/sc_signal.c:490, :500).  The state the
    handler starts in. *)
Definition enter (p : proc) (sig : Z) (a : action) : proc :=
  mk_proc (if resethand a then sigaction true sig (mk_action Default (nodefer a) (resethand a)) (disp p) else disp p)
    (if nodefer a then blocked p else sig :: blocked p) (vars p).
(** The kernel executing the actions of the fatal handler (signal/sc_signal.c:466-476):
    kill sends the signal to the process itself; if it is blocked it stays pending
    until the handler returns.  The default action of the signals concerned is to end
    the process; a signal set to be ignored changes nothing; running another handler
    at this point is not modelled (UB). *)
Fixpoint run_fatal (l : list fact) (p : proc) : res fate :=
  match l with
  | [] => Ok (Runs p)
  | Set_ sig a :: l => run_fatal l (mk_proc (sigaction true sig a (disp p)) (blocked p) (vars p))
  | Kill sig :: l =>
      if existsb (Z.eqb sig) (blocked p) then Ok (Pending sig p)
      else match hnd (disp p sig) with
           | Default => Ok (Killed sig)
           | Ignore => run_fatal l p
           | _ => UB
           end
  | _ :: l => run_fatal l p
  end.
(** A signal arriving at a process (the kernel; handlers signal/sc_signal.c:385-476):
    what is done and what becomes of the process.  On return from a handler the
    signal is unblocked, and a pending one is delivered. *)
Definition deliver (junk buf : list Z) (sent : bool) (err : Z) (caller : option Z) (p : proc) (sig : Z)
  : res (list fact * fate) :=
  let a := disp p sig in
  if existsb (Z.eqb sig) (blocked p) then Ok ([], Pending sig p)
  else match hnd a with
       | Default => Ok ([], Killed sig)
       | Ignore => Ok ([], Runs p)
       | Shutdown =>
           let q := enter p sig a in
           let* (l, v) := on_shutdown junk buf sent err (vars q) sig in
           Ok (map Log l,
               match v with
               | Some v => Runs (mk_proc (disp q) (blocked p) v)
               | None => match last l (Exit 0) with Exit c => Exited c | _ => Exited 0 end
               end)
       | Fatal =>
           let q := enter p sig a in
           let* l := on_fatal junk buf caller (vars q) sig in
           let* f := run_fatal l q in
           Ok (l, match f with
                  | Pending s q => match hnd (disp q s) with Default => Killed s | _ => Runs (mk_proc (disp q) (blocked p) (vars q)) end
                  | Runs q => Runs (mk_proc (disp q) (blocked p) (vars q))
                  | f => f
                  end)
       end.

(** ** Shutdown signals interrupting each other *)
(** Where a running shutdown handler is (signal/sc_signal.c:385-423): after the log line
    and before the test (:399); between the test and the assignment (:404); before
    the test of the descriptor (:406); before the write (:409), after it; before errno is
    restored (:422). *)
Inductive pc := Entered | Tested | Marked | Sending | Sent (took : bool) | Restoring.
(** A handler frame: the signal, the position, the errno saved (signal/sc_signal.c:387). *)
Record frame := mk_frame { fsig : Z; fpc : pc; fsaved : Z }.
(** The process with its handler frames, innermost first: signal/sc_signal.c:58, :74 and
    errno; the bytes taken by the shutdown descriptor; the exit code if it ended. *)
Record nest := mk_nest { frames : list frame; sfd : Z; will : bool; nerrno : Z; taken : Z; exit_code : option Z }.
(** One step of the program: a shutdown signal arrives, which is not blocked, that is,
    not being handled (no SA_NODEFER, empty mask, signal/sc_signal.c:488-494); or the
    innermost handler goes on.  [e]: errno after the calls made. *)
Inductive nstep : nest -> nest -> Prop :=
| n_signal n sig e : exit_code n = None -> sig = SIGINT \/ sig = SIGTERM -> ~ In sig (map fsig (frames n)) ->
    (* :387-397 *)
    nstep n (mk_nest (mk_frame sig Entered (nerrno n) :: frames n) (sfd n) (will n) e (taken n) None)
| n_test n f r e : exit_code n = None -> frames n = f :: r -> fpc f = Entered ->
    (* :399-402 *)
    nstep n (if will n then mk_nest (f :: r) (sfd n) (will n) e (taken n) (Some 1)
             else mk_nest (mk_frame (fsig f) Tested (fsaved f) :: r) (sfd n) (will n) (nerrno n) (taken n) None)
| n_mark n f r : exit_code n = None -> frames n = f :: r -> fpc f = Tested ->
    (* :404 *)
    nstep n (mk_nest (mk_frame (fsig f) Marked (fsaved f) :: r) (sfd n) true (nerrno n) (taken n) None)
| n_fd n f r e : exit_code n = None -> frames n = f :: r -> fpc f = Marked ->
    (* :406-408, :416-419 *)
    nstep n (if sfd n =? -1 then mk_nest (f :: r) (sfd n) (will n) e (taken n) (Some 0)
             else mk_nest (mk_frame (fsig f) Sending (fsaved f) :: r) (sfd n) (will n) e (taken n) None)
| n_write n f r e took : exit_code n = None -> frames n = f :: r -> fpc f = Sending ->
    (* :409 *)
    nstep n (mk_nest (mk_frame (fsig f) (Sent took) (fsaved f) :: r) (sfd n) (will n) e
               (taken n + (if took then 1 else 0)) None)
| n_sent n f r e took : exit_code n = None -> frames n = f :: r -> fpc f = Sent took ->
    (* :410-415 *)
    nstep n (if took then mk_nest (mk_frame (fsig f) Restoring (fsaved f) :: r) (sfd n) (will n) (nerrno n) (taken n) None
             else mk_nest (f :: r) (sfd n) (will n) e (taken n) (Some 1))
| n_return n f r : exit_code n = None -> frames n = f :: r -> fpc f = Restoring ->
    (* :422-423 *)
    nstep n (mk_nest r (sfd n) (will n) (fsaved f) (taken n) None).
(** Any number of steps of signal/sc_signal.c:385-423. *)
Inductive nruns : nest -> nest -> Prop :=
| nr_refl n : nruns n n
| nr_step a b c : nruns a b -> nstep b c -> nruns a c.
