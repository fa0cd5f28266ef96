(** Model of signal/sc_signal.c, Windows part.  The log function and the shutdown flag are
    those of SigModel.  A DWORD is passed where va_arg reads an int (:232, :237, :272):
    undefined in ISO C, taken to give the same 32 bits as Windows does. *)
From Verif Require Import Base CStr CNum ScModel SigModel.

(** signal/sc_signal.c:231: "Unknown console event [%d], shutting down! \n". *)
Definition W_unknown : list Z :=
  [85; 110; 107; 110; 111; 119; 110; 32; 99; 111; 110; 115; 111; 108; 101; 32; 101; 118; 101; 110; 116; 32; 91; 37; 100; 93; 44; 32; 115; 104; 117; 116; 116; 105; 110; 103; 32; 100; 111; 119; 110; 33; 32; 10; 0].
(** signal/sc_signal.c:236: "Received : %s, (%d) \n". *)
Definition W_recv : list Z :=
  [82; 101; 99; 101; 105; 118; 101; 100; 32; 58; 32; 37; 115; 44; 32; 40; 37; 100; 41; 32; 10; 0].
(** signal/sc_signal.c:224: "CTRL_C event". *)
Definition W_c : list Z :=
  [67; 84; 82; 76; 95; 67; 32; 101; 118; 101; 110; 116; 0].
(** signal/sc_signal.c:227: "CTRL_BREAK event". *)
Definition W_break : list Z :=
  [67; 84; 82; 76; 95; 66; 82; 69; 65; 75; 32; 101; 118; 101; 110; 116; 0].
(** signal/sc_signal.c:271: "Fatal signal : %d, shutting down! \n". *)
Definition W_fatal : list Z :=
  [70; 97; 116; 97; 108; 32; 115; 105; 103; 110; 97; 108; 32; 58; 32; 37; 100; 44; 32; 115; 104; 117; 116; 116; 105; 110; 103; 32; 100; 111; 119; 110; 33; 32; 10; 0].
(** signal/sc_signal.c:294: "Fatal signal : [%s][%d], shutting down! \n". *)
Definition W_std : list Z :=
  [70; 97; 116; 97; 108; 32; 115; 105; 103; 110; 97; 108; 32; 58; 32; 91; 37; 115; 93; 91; 37; 100; 93; 44; 32; 115; 104; 117; 116; 116; 105; 110; 103; 32; 100; 111; 119; 110; 33; 32; 10; 0].
(** signal/sc_signal.c:281: "unknown signal". *)
Definition N_unknown : list Z :=
  [117; 110; 107; 110; 111; 119; 110; 32; 115; 105; 103; 110; 97; 108; 0].
(** signal/sc_signal.c:284: "SIGSEGV". *)
Definition N_segv : list Z :=
  [83; 73; 71; 83; 69; 71; 86; 0].
(** signal/sc_signal.c:286: "SIGABRT". *)
Definition N_abrt : list Z :=
  [83; 73; 71; 65; 66; 82; 84; 0].
(** signal/sc_signal.c:288: "SIGFPE". *)
Definition N_fpe : list Z :=
  [83; 73; 71; 70; 80; 69; 0].
(** signal/sc_signal.c:290: "SIGILL". *)
Definition N_ill : list Z :=
  [83; 73; 71; 73; 76; 76; 0].
(** signal/sc_signal.c:215-263 [sc_console_handler], with CTRL_C_EVENT = 0 and
    CTRL_BREAK_EVENT = 1: the actions and, unless the process exited, the state.  [sent]: send
    took its byte; [err]: errno afterwards.  The shutdown descriptor is a socket; INVALID_SOCKET is
    -1. *)
Definition console_handler (junk buf : list Z) (sent : bool) (err : Z) (s : sigs) (type : Z) : res (list act * option sigs) :=
  let s := mk_sigs (log_fd s) (shutdown_fd s) (will_shutdown s) err in
  let fd := if negb (log_fd s =? -1) then log_fd s else 1 in
  if negb ((type =? 0) || (type =? 1)) then
    let* (_, a1) := sig_log junk buf fd 128 W_unknown [AInt 1 (i32 type)] in
    Ok (a1 ++ [Exit 1], None)
  else
    let err := if type =? 0 then W_c else W_break in
    let* (buf, a1) := sig_log junk buf fd 128 W_recv [AStr (Some err); AInt 1 (i32 type)] in
    if will_shutdown s then
      let* (_, a2) := sig_log junk buf fd 128 T_force [] in
      Ok (a1 ++ a2 ++ [Exit 1], None)
    else
      let s := mk_sigs (log_fd s) (shutdown_fd s) true (errno_ s) in
      if negb (shutdown_fd s =? -1) then
        let* (buf, a2) := sig_log junk buf fd 128 T_send [] in
        let a3 := [Write (shutdown_fd s) [1]] in
        if negb sent then
          let* (_, a4) := sig_log junk buf fd 128 T_fail [] in
          Ok (a1 ++ a2 ++ a3 ++ a4 ++ [Exit 1], None)
        else Ok (a1 ++ a2 ++ a3, Some s)
      else
        let* (_, a2) := sig_log junk buf fd 128 T_none [] in
        Ok (a1 ++ a2 ++ [Exit 0], None).
(** signal/sc_signal.c:265-275 [sc_signal_on_fatal]: the filter for exceptions nobody
    handles; [code]: a DWORD; the result 0 lets Windows end the process. *)
Definition won_fatal (junk buf : list Z) (s : sigs) (code : Z) : res (list act * Z) :=
  let fd := if negb (log_fd s =? -1) then log_fd s else 2 in
  let* (_, a) := sig_log junk buf fd 128 W_fatal [AInt 1 (i32 code)] in
  Ok (a, 0).
(** signal/sc_signal.c:277-298 [sc_signal_std_on_fatal]; on Windows SIGILL = 4, SIGFPE = 8,
    SIGSEGV = 11, SIGABRT = 22. *)
Definition std_on_fatal (junk buf : list Z) (s : sigs) (sig : Z) : res (list act) :=
  let fd := if negb (log_fd s =? -1) then log_fd s else 2 in
  let str := if sig =? 11 then N_segv else if sig =? 22 then N_abrt else if sig =? 8 then N_fpe
             else if sig =? 4 then N_ill else N_unknown in
  let* (_, a) := sig_log junk buf fd 128 W_std [AStr (Some str); AInt 1 sig] in
  Ok (a ++ [Exit 1]).
(** signal/sc_signal.c:300-304 [sc_signal_std_on_shutdown]. *)
Definition std_on_shutdown (junk buf : list Z) (sent : bool) (err : Z) (s : sigs) (type : Z) : res (list act * option sigs) :=
  console_handler junk buf sent err s 0.
(** What is installed (signal/sc_signal.c:311-318): the console handler, the exception filter, the
    handlers of SIGABRT and SIGINT. *)
Record wproc := mk_wproc { wsigs : sigs; on_console : bool; on_exception : bool; on_abort : bool; on_int : bool }.
(** signal/sc_signal.c:305-321 [sc_signal_init]; [granted]: the answer of SetConsoleCtrlHandler.  The
    flag is left alone. *)
Definition wsig_init (granted : bool) (p : wproc) : wproc * Z :=
  let s := wsigs p in
  let s := mk_sigs (-1) (shutdown_fd s) (will_shutdown s) (errno_ s) in
  let s := mk_sigs (log_fd s) (-1) (will_shutdown s) (errno_ s) in
  if negb granted then (mk_wproc s (on_console p) (on_exception p) (on_abort p) (on_int p), -1)
  else (mk_wproc s true true true true, 0).
(** Events of the console handled one after the other until the process ends
    (signal/sc_signal.c:215-263), each with a stack buffer, whether send takes the byte, and errno: all
    actions, and the state unless it ended. *)
Fixpoint console_run (junk : list Z) (s : sigs) (l : list (list Z * bool * Z * Z)) : res (list act * option sigs) :=
  match l with
  | [] => Ok ([], Some s)
  | (buf, sent, err, type) :: l =>
      let* (a, o) := console_handler junk buf sent err s type in
      match o with
      | None => Ok (a, None)
      | Some s => let* (b, o) := console_run junk s l in Ok (a ++ b, o)
      end
  end.
